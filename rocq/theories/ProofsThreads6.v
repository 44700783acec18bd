(** Posts and their receivers in executions without mutexes. *)
From Verif Require Import Base HMap ModelCodec ModelMessages ModelObject ModelTransport ModelNode ModelController ModelDevice ModelThreads
  SpecWire SpecObject SpecNode SpecThreads SpecWait ProofsCodec ProofsCodec2 ProofsObject ProofsNode ProofsNode2 ProofsNode3 ProofsNode4 ProofsLetters
  PropertiesObject PropertiesTrans PropertiesDevice ProofsThreads ProofsThreads2 PropertiesThreads.
From Verif Require ModelLocks.

Section S.
  Context {U : Type} {P : Profile} {HO : HashOrder} {Os : OS} {Uu : Uuids} (db : list object) (what : observer -> obs) (net : bool).
  Implicit Types (a : state U).

  (* ---------------------------------------------------------------- *)
  (** ** The kinds of steps *)

  Definition plain_answer (v : answer) : Prop := match v with VGot (Some _) | VPosted _ _ => False | _ => True end.
  Inductive turned : status U -> status U -> Prop :=
  | tu_same st : turned st st
  | tu_dull st st' : match st' with Idle | Listening | Ended | Gone => True | _ => False end -> turned st st'
  | tu_rest c v r r' : turned (Answered c v r) (Answered c v r')
  | tu_deliver m r : turned (Got m) (Busy m r)
  | tu_busy m r r' : turned (Busy m r) (Busy m r')
  | tu_answer c v r : plain_answer v -> turned (Pending c) (Answered c v r).
  Inductive kind_of_step a : state U -> Prop :=
  | ks_quiet a' : a_nodes a' = a_nodes a -> a_history a' = a_history a -> a_reads a' = a_reads a ->
      (forall t, turned (a_status a t) (a_status a' t)) -> kind_of_step a a'
  | ks_call t c : a_status a t = Idle -> kind_of_step a (a_seen (a_set a t (Pending c)) (ECall t c))
  | ks_effect t c n f d v r : a_status a t = Pending c -> effect_of c = AtNode n f -> f (a_nodes a n) = Ret (d, v) ->
      kind_of_step a (a_node (a_set a t (Answered c v r)) n d)
  | ks_got t n ch m : a_status a t = Pending (CWait n ch) -> nth_error (given ch (a_nodes a n)) (a_reads a n ch) = Some m ->
      kind_of_step a (a_read (a_set a t (Answered (CWait n ch) (VGot (Some m)) [])) n ch)
  | ks_return t c v : a_status a t = Answered c v [] -> kind_of_step a (a_seen (a_set a t Idle) (EReturn t c v))
  | ks_datagram t m : a_status a t = Listening -> received m -> kind_of_step a (a_seen (a_set a t (Got m)) (EGot t m))
  | ks_react t m n r d : a_status a t = Busy m (ReactNode n :: r) -> observed m (a_nodes a n) = Ret d ->
      kind_of_step a (a_node (a_set a t (Busy m r)) n d).

  Lemma turned_put (f : nat -> status U) t st : turned (f t) st -> forall t', turned (f t') (put f t st t').
  Proof. intros X t'. unfold put. destruct (Nat.eqb_spec t' t) as [->|]; [exact X|constructor]. Qed.
  Lemma step_kind a a' : astep db what net a a' -> kind_of_step a a'.
  Proof.
    intros St. destruct St as [t c T|t c n f d v T Ef Lk X|t c x f d v T Ef Lk X|t n ch m T Nm|t n ch T|t c v T Rf Ex|t c v T
      |t c v n f k' r T|t c v n f k' j o r t' T|t c v n f k' j o r T|t c v n f k' j r t' T|t c v n f k' j r T
      |t data from m T Nt Oc Pa|t m T|t T|t m n r d T Bd Ob|t m c r d w T Bd Ob|t m n r T|t m c r T|t m T
      |t c L T|t m n r T|t m c r T|t data T|t m r t' T|t c v n f k' j o r t' T|t c v n f k' j r t' T];
      try (apply ks_quiet; try reflexivity; cbn; apply turned_put; rewrite T; first [apply tu_dull; exact Logic.I|apply tu_rest|apply tu_deliver|apply tu_busy|apply tu_answer; exact Logic.I]; fail).
    - apply ks_call, T.
    - eapply ks_effect; eauto.
    - apply ks_quiet; try reflexivity. cbn. apply turned_put. rewrite T. apply tu_answer.
      destruct c; cbn in Ef; try discriminate. injection Ef as <- <-. destruct (a_ctrls a c) as [l w]. destruct (controller_nodes w l) as [y|]; [|discriminate].
      cbn in X. inversion X; subst. exact Logic.I.
    - apply ks_got; assumption.
    - apply ks_quiet; try reflexivity. cbn. apply turned_put. rewrite T. apply tu_answer. destruct c; cbn in Rf; try discriminate. injection Rf as <-. exact Logic.I.
    - apply ks_return, T.
    - apply ks_quiet; try reflexivity. cbn. intros t'. unfold put.
      destruct (Nat.eqb_spec t' t) as [->|]; [rewrite T; apply tu_rest|]. destruct (Nat.eqb t' _); [apply tu_dull; exact Logic.I|constructor].
    - apply ks_datagram; [exact T|]. exists (firstn MAX_PACKET_SIZE data), m, from. split; [|auto].
      unfold octets in Oc. rewrite <- (firstn_skipn MAX_PACKET_SIZE data) in Oc. apply Forall_app in Oc. apply Oc.
    - eapply ks_react; eauto.
  Qed.

  (* ---------------------------------------------------------------- *)
  (** ** What calls do to receivers *)

  Lemma step_chan (u : U) n w op u' n' w' : op_ok op -> node_step (u, n, w) op = Ret (u', n', w') ->
    match op with OpPost _ _ | OpRecv _ => False | _ => True end -> w_chan w' = w_chan w /\ n_post n' = n_post n.
  Proof.
    intros K E N. destruct op; cbn [node_step] in E; cbn [op_ok] in K; try contradiction.
    - destruct (node_add_object n o) as [n1|] eqn:E1; cbn [obind] in E; [|discriminate]. inversion E; subst.
      apply add_object_tid in E1 as (_ & E1 & _). auto.
    - inversion E; subst. auto.
    - inversion E; subst. auto.
    - inversion E; subst. unfold set_data. destruct (find_object _ _); auto.
    - destruct (node_send w n to m) as [[[b m1] n1] w1] eqn:E1. inversion E; subst.
      apply node_send_spec in E1 as (A & t & S & C & D & _). apply update_tid_keeps in A. tauto.
    - destruct (node_notify w n m) as [[[b m1] n1] w1] eqn:E1. inversion E; subst.
      apply node_notify_spec in E1 as (A & t & k & S & C & D & _). apply update_tid_keeps in A. tauto.
    - destruct (node_announce w n) as [[b n1] w1] eqn:E1. inversion E; subst.
      apply announce_keeps in E1 as (_ & _ & Pp & _ & t & S & C & D). auto.
    - unfold node_announce_property in E. destruct (node_notify w n _) as [[[b m1] n1] w1] eqn:E1. inversion E; subst.
      apply node_notify_spec in E1 as (A & t & k & S & C & D & _). apply update_tid_keeps in A. tauto.
    - destruct (node_start w n) as [[[b n1] w1]|] eqn:E1; cbn [obind] in E; [|discriminate]. inversion E; subst.
      apply node_start_spec in E1 as (ok1 & m1 & w2 & (Qc & t1 & S1 & D1 & _) & _ & [(_ & _ & -> & ->)|(_ & m2 & _ & A)]); [auto|].
      apply announce_keeps in A as (_ & _ & Pp & _ & t & S & C & D). split; [congruence|]. rewrite Pp. reflexivity.
    - destruct (node_stop n) as [[b n1]|] eqn:E1; cbn [obind] in E; [|discriminate]. inversion E; subst. unfold node_stop in E1.
      destruct (manager_stop _) as [x|]; cbn [obind] in E1; [|discriminate]. inversion E1; subst. auto.
  Qed.

  Definition post_ok (d : nstate U) : Prop := post_inv (snd (fst d)) (snd d) (w_trace (snd d)).
  Notation chan d := (w_chan (snd d)). Notation post_of d := (n_post (snd (fst d))).

  Lemma step_letters (d d' : nstate U) op : op_ok op -> node_step d op = Ret d' ->
    (post_ok d -> post_ok d') /\
    (match op with OpRecv _ => False | _ => True end -> letters d' = letters d).
  Proof.
    destruct d as [[u n] w], d' as [[u' n'] w']. intros K E. destruct (step_post _ _ _ _ _ _ _ K E) as (t & S & I). split.
    - intros X. unfold post_ok in *. cbn [fst snd] in *. rewrite S. apply I, X.
    - intros N. unfold letters. cbn [snd]. rewrite S, deliveries_app. destruct (deliveries t) as [|[c m] r] eqn:D; [apply app_nil_r|].
      destruct (step_delivery _ _ _ _ _ _ _ _ c m K E S) as (m' & -> & _); [rewrite D; left; reflexivity|contradiction].
  Qed.
  Lemma run1 (d d' : nstate U) op : node_run d [op] = Ret d' -> node_step d op = Ret d'.
  Proof. cbn [node_run]. destruct (node_step d op) as [x|]; [|discriminate]. exact id. Qed.

  Lemma effect_mail c n f (d d' : nstate U) v : call_ok c -> effect_of c = AtNode n f -> f d = Ret (d', v) ->
    letters d' = letters d /\ (post_ok d -> post_ok d') /\
    (if posts n c then exists m, v = VPosted (chan d) m /\ chan d' = chan d + 1 /\ post_of d' = Some (chan d) /\
                         (last_tid d < 65536 -> disturbs n c = false -> msg_tid m = last_tid d')
     else plain_answer v /\ chan d' = chan d /\ post_of d' = post_of d /\ (disturbs n c = false -> last_tid d' = last_tid d)) /\
    (last_tid d < 65536 -> last_tid d' < 65536).
  Proof.
    intros K Ef Hf. pose proof (ops_ok c K) as Ok. pose proof (effect_ops c n f d d' v Ef Hf) as Run.
    assert (Keep : forall op, ops_of c = [op] -> op_ok op /\ node_step d op = Ret d').
    { intros op E. rewrite E in *. inversion Ok; subst. split; [assumption|apply run1, Run]. }
    assert (Quiet : forall op, ops_of c = [op] -> match op with OpPost _ _ | OpRecv _ => False | _ => True end ->
      letters d' = letters d /\ (post_ok d -> post_ok d') /\ chan d' = chan d /\ post_of d' = post_of d /\
      (keeps_tid op -> last_tid d' = last_tid d) /\ (last_tid d < 65536 -> last_tid d' < 65536)).
    { intros op E N. destruct (Keep op E) as [O1 S1]. destruct (step_letters _ _ _ O1 S1) as [A B].
      destruct d as [[u x] w], d' as [[u' x'] w']. destruct (step_chan _ _ _ _ _ _ _ O1 S1 N) as [C D]. unfold last_tid. cbn [fst snd].
      split; [apply B; destruct op; tauto|]. split; [exact A|]. split; [exact C|]. split; [exact D|]. split.
      - intros Kt. exact (step_keeps_tid _ _ _ _ _ _ _ O1 Kt S1).
      - exact (step_tid _ _ _ _ _ _ _ O1 S1). }
    assert (Post : forall to m0, ops_of c = [OpPost to m0] ->
      letters d' = letters d /\ (post_ok d -> post_ok d') /\ (last_tid d < 65536 -> last_tid d' < 65536)).
    { intros to m0 E. destruct (Keep _ E) as [O1 S1]. destruct (step_letters _ _ _ O1 S1) as [A B].
      split; [apply B; exact Logic.I|]. split; [exact A|]. destruct d as [[u x] w], d' as [[u' x'] w']. exact (step_tid _ _ _ _ _ _ _ O1 S1). }
    assert (Gq : forall op, ops_of c = [op] -> match op with OpPost _ _ | OpRecv _ => False | _ => True end -> posts n c = false ->
      plain_answer v -> (disturbs n c = false -> keeps_tid op) ->
      letters d' = letters d /\ (post_ok d -> post_ok d') /\
      (if posts n c then exists m, v = VPosted (chan d) m /\ chan d' = chan d + 1 /\ post_of d' = Some (chan d) /\
                         (last_tid d < 65536 -> disturbs n c = false -> msg_tid m = last_tid d')
       else plain_answer v /\ chan d' = chan d /\ post_of d' = post_of d /\ (disturbs n c = false -> last_tid d' = last_tid d)) /\
      (last_tid d < 65536 -> last_tid d' < 65536)).
    { intros op E N Np Pv Kt. destruct (Quiet op E N) as (A & B & C & D & F & G). rewrite Np. repeat (split; [assumption|]).
      split; [|exact G]. repeat (split; [assumption|]). intros X. apply F, Kt, X. }
    assert (Gn : ops_of c = [] -> posts n c = false -> plain_answer v ->
      letters d' = letters d /\ (post_ok d -> post_ok d') /\
      (if posts n c then exists m, v = VPosted (chan d) m /\ chan d' = chan d + 1 /\ post_of d' = Some (chan d) /\
                         (last_tid d < 65536 -> disturbs n c = false -> msg_tid m = last_tid d')
       else plain_answer v /\ chan d' = chan d /\ post_of d' = post_of d /\ (disturbs n c = false -> last_tid d' = last_tid d)) /\
      (last_tid d < 65536 -> last_tid d' < 65536)).
    { intros E Np Pv. rewrite E in Run. cbn in Run. inversion Run; subst. rewrite Np. auto 8. }
    assert (Zero : forall m, (Nat.eqb n n && (msg_tid m =? 0)) = false -> msg_tid m <> 0).
    { intros m. rewrite Nat.eqb_refl. cbn. apply N.eqb_neq. }
    assert (Gp : forall to m0, ops_of c = [OpPost to m0] -> posts n c = true -> (disturbs n c = false -> msg_tid m0 = 0) ->
      (exists m, v = VPosted (chan d) m /\ snd (fst (fst (node_post (snd d) (snd (fst d)) to m0))) = m) ->
      letters d' = letters d /\ (post_ok d -> post_ok d') /\
      (if posts n c then exists m, v = VPosted (chan d) m /\ chan d' = chan d + 1 /\ post_of d' = Some (chan d) /\
                         (last_tid d < 65536 -> disturbs n c = false -> msg_tid m = last_tid d')
       else plain_answer v /\ chan d' = chan d /\ post_of d' = post_of d /\ (disturbs n c = false -> last_tid d' = last_tid d)) /\
      (last_tid d < 65536 -> last_tid d' < 65536)).
    { intros to m0 E Yp Z0 (m & Ev & Em). destruct (Post to m0 E) as (A & B & C). rewrite Yp. split; [exact A|]. split; [exact B|]. split; [|exact C].
      exists m. split; [exact Ev|]. destruct (Keep _ E) as [_ S1]. destruct d as [[u x] w]. cbn [fst snd] in *. cbn [node_step] in S1.
      destruct (node_post w x to m0) as [[[ch m'] x'] w'] eqn:Y. inversion S1; subst d'. cbn [fst snd] in *. subst m'.
      pose proof (node_post_spec _ _ _ _ _ _ _ _ Y) as (Ec & Cw & n1 & ok & tr & _ & En & _). split; [exact Cw|].
      split; [rewrite En, Ec; reflexivity|]. intros Lt Nd. symmetry. exact (proj1 (post_tid _ _ _ _ _ _ _ _ Lt (Z0 Nd) Y)). }
    clear Quiet Post Keep Run Ok. destruct d as [[u x] w].
    destruct c; cbn [effect_of] in Ef; inversion Ef; subst; clear Ef.
    - eapply Gq; try reflexivity; try exact Logic.I; destruct (device_node_set_property x oc code data); inversion Hf; subst; exact Logic.I.
    - apply Gn; try reflexivity. inversion Hf; subst. exact Logic.I.
    - eapply Gq; try reflexivity; try exact Logic.I; inversion Hf; subst; exact Logic.I.
    - eapply Gq; try reflexivity; try exact Logic.I; destruct (node_add_object x o); inversion Hf; subst; exact Logic.I.
    - eapply Gq; try reflexivity; try exact Logic.I; destruct (node_add_object x o); inversion Hf; subst; exact Logic.I.
    - eapply Gq; try reflexivity; try exact Logic.I; inversion Hf; subst; exact Logic.I.
    - eapply Gq; try reflexivity; try exact Logic.I; inversion Hf; subst; exact Logic.I.
    - eapply Gq; try reflexivity; try exact Logic.I; [destruct (node_send w x to m) as [[[? ?] ?] ?]; inversion Hf; subst; exact Logic.I|apply Zero].
    - eapply Gp; try reflexivity; [cbn; apply Nat.eqb_refl|cbn; rewrite Nat.eqb_refl; cbn; intros X; apply N.eqb_eq; destruct (msg_tid m =? 0); [reflexivity|discriminate]|].
      cbn [fst snd]. destruct (node_post w x to m) as [[[ch m'] x'] w'] eqn:Y. inversion Hf; subst. cbn [fst snd].
      apply node_post_spec in Y as [-> _]. eauto.
    - eapply Gq; try reflexivity; try exact Logic.I; [destruct (node_notify w x m) as [[[? ?] ?] ?]; inversion Hf; subst; exact Logic.I|apply Zero].
    - eapply Gq; try reflexivity; try exact Logic.I; [destruct (node_announce w x) as [[? ?] ?]; inversion Hf; subst; exact Logic.I|].
      cbn. rewrite Nat.eqb_refl. discriminate.
    - eapply Gq; try reflexivity; try exact Logic.I; [destruct (controller_search_object w x code) as [[? ?] ?]; inversion Hf; subst; exact Logic.I|].
      cbn. rewrite Nat.eqb_refl. discriminate.
    - eapply Gq; try reflexivity; try exact Logic.I; [destruct (controller_send w x r m) as [[[? ?] ?] ?]; inversion Hf; subst; exact Logic.I|].
      intros X. exact (Zero m X).
    - eapply Gp; try reflexivity; [cbn; apply Nat.eqb_refl|cbn; rewrite Nat.eqb_refl; cbn; intros X; apply N.eqb_eq; destruct (msg_tid m =? 0) eqn:Y; [exact Y|discriminate]|].
      cbn [fst snd]. unfold controller_post in Hf. destruct (node_post w x _ _) as [[[ch m'] x'] w'] eqn:Y. inversion Hf; subst. cbn [fst snd].
      apply node_post_spec in Y as [-> _]. eauto.
    - eapply Gq; try reflexivity; try exact Logic.I; inversion Hf; subst; exact Logic.I.
    - eapply Gq; try reflexivity; try exact Logic.I; [destruct (node_start w x) as [[[? ?] ?]|]; inversion Hf; subst; exact Logic.I|].
      cbn. rewrite Nat.eqb_refl. discriminate.
    - eapply Gq; try reflexivity; try exact Logic.I; destruct (node_stop x); inversion Hf; subst; exact Logic.I.
    - apply Gn; try reflexivity. inversion Hf; subst. exact Logic.I.
  Qed.

  (** ... and what messages do. *)
  Lemma clone_u8 m x : received m -> msg_clone m = Ret x -> Forall u8prop (m_props x).
  Proof.
    intros R E. apply received_rcvd in R. destruct (N.eq_dec (m_esv m) 0x5E) as [V|V]; [rewrite clone_rcvd_5E in E by auto; discriminate|].
    rewrite clone_rcvd in E by auto. destruct R as [W L B]. inversion E; subst. apply msg_of_frame_wf, frame_of_ok; assumption.
  Qed.
  Lemma observed_mail m (d d' : nstate U) : received m -> observed m d = Ret d' ->
    (post_ok d -> post_ok d') /\ chan d' = chan d /\ (last_tid d < 65536 -> last_tid d' < 65536) /\
    ((request_service (m_esv m) -> msg_tid m <> 0) -> last_tid d' = last_tid d) /\
    (letters d' = letters d /\ post_of d' = post_of d \/
     exists c x, letters d' = letters d ++ [(c, x)] /\ post_of d = Some c /\ post_of d' = None /\ msg_tid m = last_tid d /\
       ~ request_service (m_esv m) /\ same_content x m /\ Forall u8prop (m_props x)).
  Proof.
    intros Rc E. assert (St : node_step d (OpRecv m) = Ret d').
    { unfold observed in E. destruct d as [[u x] w]. cbn. rewrite E. destruct d' as [[u' x'] w']. reflexivity. }
    split; [exact (proj1 (step_letters d d' (OpRecv m) Rc St))|].
    destruct d as [[u x] w], d' as [[u' x'] w']. unfold last_tid. cbn [fst snd].
    pose proof E as E0. unfold observed in E0. destruct (observe_parts w u x m u' x' w' Rc E0) as (t1 & t2 & n1 & n2 & res & S & C & D & _ & Rx & _ & P1 & P2).
    split; [exact C|]. split; [exact (step_tid _ _ _ _ _ _ _ (Rc : op_ok (OpRecv m)) St)|].
    split; [intros Q; exact (step_keeps_tid _ _ _ _ _ _ _ (Rc : op_ok (OpRecv m)) (Q : keeps_tid (OpRecv m)) St)|].
    assert (D2 : deliveries t2 = []) by (inversion Rx; auto). assert (Lt : letters (u', x', w') = letters (u, x, w) ++ deliveries t1).
    { unfold letters. cbn [snd]. rewrite S, !deliveries_app, D2, app_nil_r. reflexivity. }
    rewrite Lt, P2.
    destruct (deliveries t1) as [|[c y] r] eqn:E1.
    - left. split; [apply app_nil_r|]. inversion D as [L|m' L Cl Pn|m' c L Cl Pn]; subst; auto. discriminate.
    - right. inversion D as [L|m' L Cl Pn|m' c' L Cl Pn]; subst; cbn in E1; inversion E1; subst. exists c, y. split; [reflexivity|].
      destruct (step_delivery _ _ _ _ _ _ _ _ c y (Rc : op_ok (OpRecv m)) St S) as (m2 & Em & A1 & A2 & A3 & A4).
      { rewrite deliveries_app. cbn. left. reflexivity. }
      inversion Em; subst m2. split; [exact A3|]. split; [reflexivity|]. split; [exact A2|]. split; [exact A1|]. split; [exact (proj1 (clone_same _ _ Rc A4))|exact (clone_u8 _ _ Rc A4)].
  Qed.

  (* ---------------------------------------------------------------- *)
  (** ** Invariants *)

  Lemma calls_ok_app (h1 h2 : list (event U)) : calls_ok (h1 ++ h2) -> calls_ok h1.
  Proof. intros K t c I. apply (K t c), in_or_app. auto. Qed.
  Lemma kind_history a a' : kind_of_step a a' -> exists l, a_history a' = a_history a ++ l.
  Proof. intros K. destruct K as [a' _ H _ _| | | | | |]; cbn; try (eexists; reflexivity); exists []; rewrite app_nil_r; auto. Qed.
  Lemma atomic_ind (Q : state U -> Prop) ns cs k a : Q (a_begins ns cs k) ->
    (forall a a', Q a -> (forall t, sound_status (a_status a t)) -> calls_ok (a_history a') -> kind_of_step a a' -> Q a') ->
    asteps db what net (a_begins ns cs k) a -> calls_ok (a_history a) -> Q a.
  Proof.
    intros Q0 Qs A. remember (a_begins ns cs k) as a0 eqn:E. induction A as [a|a a1 a2 A IH St]; intros K; [subst; exact Q0|].
    pose proof (step_kind _ _ St) as Ks. destruct (kind_history _ _ Ks) as (l & Eh).
    assert (K1 : calls_ok (a_history a1)) by (rewrite Eh in K; exact (calls_ok_app _ _ K)). subst a.
    apply (Qs a1 a2); [apply IH; auto| |exact K|exact Ks]. exact (proj1 (atomic_runs db what net ns cs k a1 A K1)).
  Qed.

  (** A copy of a message that has arrived and is not a request. *)
  Definition came (h : list (event U)) (x : message) : Prop :=
    ~ request_service (m_esv x) /\ Forall u8prop (m_props x) /\ exists t m, In (EGot t m) h /\ same_content x m.
  Lemma came_app h h' x : came h x -> came (h ++ h') x.
  Proof. intros (A & B & t & m & I & S). split; [exact A|]. split; [exact B|]. exists t, m. split; [apply in_or_app; auto|exact S]. Qed.

  Definition returned (n : nat) (h1 : list (event U)) (e : event U) : Prop :=
    match e with EReturn _ (CWait n' _) (VGot (Some x)) => n' = n -> came h1 x | _ => True end.
  Lemma snoc_split {A} (l : list A) x l1 y l2 : l ++ [x] = l1 ++ y :: l2 -> l2 = [] /\ l = l1 /\ x = y \/ exists l3, l2 = l3 ++ [x] /\ l = l1 ++ y :: l3.
  Proof.
    destruct l2 as [|z l2] using rev_ind; intros E.
    - left. apply app_inj_tail in E as [-> ->]. auto.
    - right. clear IHl2. exists l2. change (y :: l2 ++ [z]) with ((y :: l2) ++ [z]) in E. rewrite app_assoc in E.
      apply app_inj_tail in E as [-> ->]. auto.
  Qed.

  Record mailed (n : nat) a : Prop := {
    ml_post : post_ok (a_nodes a n);
    ml_letters : forall ch x, In (ch, x) (letters (a_nodes a n)) -> came (a_history a) x;
    ml_busy : forall t m, a_status a t = Got m \/ (exists r, a_status a t = Busy m r) -> received m /\ exists t', In (EGot t' m) (a_history a);
    ml_wait : forall t ch x r, a_status a t = Answered (CWait n ch) (VGot (Some x)) r -> In (ch, x) (letters (a_nodes a n));
    ml_ret : forall h1 e h2, a_history a = h1 ++ e :: h2 -> returned n h1 e }.

  Lemma given_in ch x (d : nstate U) : In x (given ch d) -> In (ch, x) (letters d).
  Proof.
    unfold given, letters. intros I. apply in_map_iff in I as ([c y] & <- & I). apply filter_In in I as [I E]. cbn in *. apply N.eqb_eq in E. subst. exact I.
  Qed.
  Lemma mailed_begins n ns cs k : unposted (ns n) -> mailed n (a_begins ns cs k).
  Proof.
    intros [Np Dl]. split; cbn.
    - unfold post_ok, post_inv. rewrite Np, Dl. repeat constructor.
    - unfold letters. rewrite Dl. intros ch x [].
    - intros t m [X|(r & X)]; discriminate.
    - discriminate.
    - intros h1 e h2 X. destruct h1; discriminate.
  Qed.
  Lemma mailed_step n a a' : mailed n a -> (forall t, sound_status (a_status a t)) -> kind_of_step a a' -> mailed n a'.
  Proof.
    intros [M1 M2 M3 M4 M5] So Ks. destruct Ks as [a' En Eh Er Tu|t c T|t c n' f d v r T Ef Hf|t n' ch m T Nt|t c v T|t m T Rc|t m n' r d T Ob].
    - split; rewrite ?En, ?Eh; auto.
      + intros t m X. specialize (Tu t). destruct X as [X|(r & X)]; rewrite X in Tu; inversion Tu as [st E1|st st' F E1 E2|c v r0 r' E1|m' r0 E1|m' r0 r' E1|c v r0 F E1 E2]; subst; try contradiction; try discriminate; apply M3 with t; eauto.
      + intros t ch x r X. specialize (Tu t). rewrite X in Tu. inversion Tu as [st E1|st st' F E1 E2|c v r0 r' E1|m' r0 E1|m' r0 r' E1|c v r0 F E1 E2]; subst; try contradiction; try discriminate; eapply M4; eauto.
    - split; cbn; auto.
      + intros ch x I. apply came_app. eauto.
      + intros t' m X. destruct (M3 t' m) as [R (t1 & I)]; [|split; [exact R|exists t1; apply in_or_app; auto]].
        destruct X as [X|(r & X)]; apply put_at in X as [[_ X]|[_ X]]; try discriminate; eauto.
      + intros t' ch x r X. apply put_at in X as [[_ X]|[_ X]]; [discriminate|]. eauto.
      + intros h1 e h2 X. apply snoc_split in X as [(_ & _ & <-)|(h3 & _ & X)]; [exact Logic.I|eauto].
    - assert (K : call_ok c) by (specialize (So t); rewrite T in So; exact So).
      pose proof (effect_mail _ _ _ _ _ _ K Ef Hf) as (L & Po & _ & _).
      assert (LL : letters (put (a_nodes a) n' d n) = letters (a_nodes a n)).
      { unfold put. destruct (Nat.eqb_spec n n') as [->|]; auto. }
      split; cbn; rewrite ?LL; auto.
      + unfold put. destruct (Nat.eqb_spec n n') as [->|]; auto.
      + intros t' m X. apply (M3 t' m). destruct X as [X|(r0 & X)]; apply put_at in X as [[_ X]|[_ X]]; try discriminate; eauto.
      + intros t' ch x r0 X. apply put_at in X as [[_ X]|[_ X]]; [|eauto]. inversion X; subst. discriminate.
    - split; cbn; auto.
      + intros t' m' X. apply (M3 t' m'). destruct X as [X|(r0 & X)]; apply put_at in X as [[_ X]|[_ X]]; try discriminate; eauto.
      + intros t' ch' x r0 X. apply put_at in X as [[_ X]|[_ X]]; [|eauto]. inversion X; subst. apply given_in. eapply nth_error_In; eauto.
    - split; cbn; auto.
      + intros ch x I. apply came_app. eauto.
      + intros t' m X. destruct (M3 t' m) as [R (t1 & I)]; [|split; [exact R|exists t1; apply in_or_app; auto]].
        destruct X as [X|(r & X)]; apply put_at in X as [[_ X]|[_ X]]; try discriminate; eauto.
      + intros t' ch x r X. apply put_at in X as [[_ X]|[_ X]]; [discriminate|]. eauto.
      + intros h1 e h2 X. apply snoc_split in X as [(_ & <- & <-)|(h3 & _ & X)]; [|eauto]. unfold returned.
        destruct c; try exact Logic.I. destruct v; try exact Logic.I. destruct m as [x|]; [|exact Logic.I]. intros ->. eapply M2. eapply M4. exact T.
    - split; cbn; auto.
      + intros ch x I. apply came_app. eauto.
      + intros t' m' X. destruct X as [X|(r & X)]; apply put_at in X as [[_ X]|[_ X]]; try discriminate.
        * inversion X; subst. split; [exact Rc|]. exists t. apply in_or_app. right. left. reflexivity.
        * destruct (M3 t' m') as [R (t1 & I)]; [eauto|]. split; [exact R|exists t1; apply in_or_app; auto].
        * destruct (M3 t' m') as [R (t1 & I)]; [eauto|]. split; [exact R|exists t1; apply in_or_app; auto].
      + intros t' ch x r X. apply put_at in X as [[_ X]|[_ X]]; [discriminate|]. eauto.
      + intros h1 e h2 X. apply snoc_split in X as [(_ & _ & <-)|(h3 & _ & X)]; [exact Logic.I|eauto].
    - destruct (M3 t m) as [Rc (t0 & Gt)]; [eauto|]. destruct (observed_mail _ _ _ Rc Ob) as (Po & _ & _ & _ & Lt).
      assert (Sub : forall y, In y (letters (a_nodes a n)) -> In y (letters (put (a_nodes a) n' d n))).
      { intros y I. unfold put. destruct (Nat.eqb_spec n n') as [->|]; [|exact I]. destruct Lt as [[-> _]|(c & x & -> & _)]; [exact I|apply in_or_app; auto]. }
      split; cbn; auto.
      + unfold put. destruct (Nat.eqb_spec n n') as [->|]; auto.
      + intros ch x I. unfold put in I. destruct (Nat.eqb_spec n n') as [->|]; [|eauto]. destruct Lt as [[Lt _]|(c & y & Lt & _ & _ & _ & Nr & Sc & Su)]; rewrite Lt in I; [eauto|].
        apply in_app_or in I as [I|[I|[]]]; [eauto|]. inversion I; subst. split; [|split; [exact Su|eauto]]. destruct Sc as (_ & _ & _ & Se & _). rewrite Se. exact Nr.
      + intros t' m' X. destruct X as [X|(r0 & X)]; apply put_at in X as [[-> X]|[_ X]]; try discriminate; [apply (M3 t'); eauto| |apply (M3 t'); eauto].
        inversion X; subst. apply (M3 t). eauto.
      + intros t' ch x r0 X. apply put_at in X as [[_ X]|[_ X]]; [discriminate|]. apply Sub. eauto.
  Qed.

  Lemma mailed_all n ns cs k a : unposted (ns n) -> asteps db what net (a_begins ns cs k) a -> calls_ok (a_history a) -> mailed n a.
  Proof.
    intros Up A K. apply (atomic_ind (mailed n) ns cs k a); auto; [apply mailed_begins, Up|]. intros a1 a2 M So _ Ks. eapply mailed_step; eauto.
  Qed.

  (** ** Messages are given out once *)

  Definition holds (n : nat) (ch : N) a (t : nat) : Prop := exists x r, a_status a t = Answered (CWait n ch) (VGot (Some x)) r.
  Record once (n : nat) (ch : N) a : Prop := {
    on_le : (a_reads a n ch <= length (given ch (a_nodes a n)))%nat;
    on_zero : a_reads a n ch = 0%nat -> gots n ch (a_history a) = [] /\ forall t, ~ holds n ch a t;
    on_len : (length (gots n ch (a_history a)) <= 1)%nat;
    on_some : gots n ch (a_history a) <> [] -> forall t, ~ holds n ch a t;
    on_uniq : forall t t', holds n ch a t -> holds n ch a t' -> t = t' }.
  Lemma gots_app n ch (h1 h2 : list (event U)) : gots n ch (h1 ++ h2) = gots n ch h1 ++ gots n ch h2.
  Proof.
    induction h1 as [|[t c|t c v|t m] r IH]; cbn; try exact IH; [reflexivity|].
    destruct c; try exact IH. destruct v; try exact IH. destruct m; try exact IH. destruct (_ && _); cbn; rewrite IH; reflexivity.
  Qed.
  Lemma given_one ch (d : nstate U) : post_ok d -> (length (given ch d) <= 1)%nat.
  Proof.
    intros (N1 & _). unfold given, letters in *. rewrite map_length. induction (deliveries (w_trace (snd d))) as [|[c x] r IH]; cbn; [lia|].
    inversion N1 as [|? ? Ni N2]; subst. specialize (IH N2). destruct (N.eqb_spec c ch) as [->|]; [|exact IH]. cbn.
    replace (filter (fun x0 => fst x0 =? ch) r) with (@nil (N * message)); [cbn; lia|]. clear -Ni. symmetry. cbn in Ni.
    induction r as [|[c y] r IH]; [reflexivity|]. cbn. destruct (N.eqb_spec c ch) as [->|]; [exfalso; apply Ni; left; reflexivity|].
    apply IH. intros X. apply Ni. right. exact X.
  Qed.
  Lemma given_letters ch (d d' : nstate U) : letters d' = letters d -> given ch d' = given ch d.
  Proof. unfold given, letters. intros ->. reflexivity. Qed.

  (** The step leaves the receiver alone. *)
  Lemma once_keep n ch a a' : once n ch a -> (length (given ch (a_nodes a n)) <= length (given ch (a_nodes a' n)))%nat ->
    a_reads a' n ch = a_reads a n ch -> gots n ch (a_history a') = gots n ch (a_history a) -> (forall t, holds n ch a' t -> holds n ch a t) -> once n ch a'.
  Proof.
    intros [O1 O2 O3 O4 O5] Lg Er Eg Hd. split; rewrite ?Er, ?Eg.
    - lia.
    - intros Z. destruct (O2 Z) as [A B]. split; [exact A|]. intros t X. exact (B t (Hd t X)).
    - exact O3.
    - intros X t Y. exact (O4 X t (Hd t Y)).
    - intros t t' X Y. apply O5; auto.
  Qed.
  Lemma once_step n ch a a' : mailed n a -> once n ch a -> (forall t, sound_status (a_status a t)) -> kind_of_step a a' -> once n ch a'.
  Proof.
    intros Ml On So Ks. destruct Ks as [a' En Eh Er Tu|t c T|t c n' f d v r T Ef Hf|t n' ch' m T Nt|t c v T|t m T Rc|t m n' r d T Ob].
    - apply (once_keep n ch a a' On); rewrite ?En, ?Er, ?Eh; auto. intros t (x & r & X). specialize (Tu t). rewrite X in Tu.
      unfold holds. inversion Tu as [st E1|st st' F E1 E2|c v r0 r' E1|m' r0 E1|m' r0 r' E1|c v r0 F E1 E2]; subst; try contradiction; try discriminate; eauto.
    - apply (once_keep n ch a _ On); cbn; auto; [rewrite gots_app; cbn; apply app_nil_r|].
      intros t' (x & r & X). cbn in X. apply put_at in X as [[_ X]|[_ X]]; [discriminate|]. unfold holds. eauto.
    - assert (K : call_ok c) by (specialize (So t); rewrite T in So; exact So).
      pose proof (effect_mail _ _ _ _ _ _ K Ef Hf) as (L & _ & _ & _).
      apply (once_keep n ch a _ On); cbn; auto.
      + unfold put. destruct (Nat.eqb_spec n n') as [->|]; [|auto]. rewrite (given_letters ch _ _ L). auto.
      + intros t' (x & r0 & X). cbn in X. apply put_at in X as [[_ X]|[_ X]]; [|unfold holds; eauto]. inversion X; subst. discriminate.
    - destruct (Nat.eq_dec n n') as [<-|Ne]; [destruct (N.eq_dec ch ch') as [<-|Nc]|].
      + pose proof (given_one ch _ (ml_post _ _ Ml)) as G1. assert (Lt : (a_reads a n ch < length (given ch (a_nodes a n)))%nat) by (apply nth_error_Some; congruence).
        assert (Z : a_reads a n ch = 0%nat) by lia. destruct (on_zero _ _ _ On Z) as [Gz Hz].
        assert (Hh : forall t', holds n ch (a_read (a_set a t (Answered (CWait n ch) (VGot (Some m)) [])) n ch) t' -> t' = t).
        { intros t' (x & r & X). cbn in X. apply put_at in X as [[-> _]|[_ X]]; [reflexivity|]. exfalso. apply (Hz t'). exists x, r. auto. }
        split; cbn; rewrite ?Nat.eqb_refl, ?N.eqb_refl; cbn.
        * lia.
        * discriminate.
        * rewrite Gz. cbn. lia.
        * rewrite Gz. intros X. destruct (X eq_refl).
        * intros t1 t2 X Y. rewrite (Hh _ X), (Hh _ Y). reflexivity.
      + apply (once_keep n ch a _ On); cbn; auto; [rewrite Nat.eqb_refl; destruct (N.eqb_spec ch ch'); [contradiction|reflexivity]|].
        intros t' (x & r0 & X). cbn in X. apply put_at in X as [[_ X]|[_ X]]; [inversion X; congruence|unfold holds; eauto].
      + apply (once_keep n ch a _ On); cbn; auto; [destruct (Nat.eqb_spec n n'); [contradiction|reflexivity]|].
        intros t' (x & r0 & X). cbn in X. apply put_at in X as [[_ X]|[_ X]]; [inversion X; congruence|unfold holds; eauto].
    - assert (Sub : forall t', holds n ch (a_seen (a_set a t Idle) (EReturn t c v)) t' -> t' <> t /\ holds n ch a t').
      { intros t' (x & r & X). cbn in X. apply put_at in X as [[_ X]|[Nt X]]; [discriminate|]. split; [exact Nt|]. exists x, r. auto. }
      destruct (gots n ch [EReturn t c v]) as [|x g] eqn:G.
      + apply (once_keep n ch a _ On); cbn [a_seen a_set a_nodes a_reads a_history]; auto; [rewrite gots_app, G; apply app_nil_r|].
        intros t' X. apply (Sub t' X).
      + assert (Ho : holds n ch a t /\ g = []).
        { cbn in G. destruct c; try discriminate. destruct v; try discriminate. destruct m as [y|]; [|discriminate].
          destruct (Nat.eqb n0 n && (ch0 =? ch)) eqn:E; [|discriminate]. apply andb_true_iff in E as [E1 E2].
          apply Nat.eqb_eq in E1. apply N.eqb_eq in E2. subst. inversion G; subst. split; [exists x, []; exact T|reflexivity]. }
        destruct Ho as [Ho ->]. destruct On as [O1 O2 O3 O4 O5].
        assert (Gz : gots n ch (a_history a) = []).
        { destruct (gots n ch (a_history a)) eqn:Y; [reflexivity|]. exfalso. apply (O4 ltac:(discriminate) t), Ho. }
        split; cbn [a_seen a_set a_nodes a_reads a_history].
        * exact O1.
        * intros Z. exfalso. exact (proj2 (O2 Z) t Ho).
        * rewrite gots_app, Gz, G. cbn. lia.
        * intros _ t' X. destruct (Sub t' X) as [Nt Y]. apply Nt, (O5 t' t Y Ho).
        * intros t1 t2 X Y. apply O5; [apply (Sub t1 X)|apply (Sub t2 Y)].
    - apply (once_keep n ch a _ On); cbn; auto; [rewrite gots_app; cbn; apply app_nil_r|].
      intros t' (x & r & X). cbn in X. apply put_at in X as [[_ X]|[_ X]]; [discriminate|]. unfold holds. eauto.
    - destruct (ml_busy _ _ Ml t m) as [Rc _]; [eauto|]. destruct (observed_mail _ _ _ Rc Ob) as (_ & _ & _ & _ & Lt).
      apply (once_keep n ch a _ On); cbn; auto.
      + unfold put. destruct (Nat.eqb_spec n n') as [->|]; [|auto]. destruct Lt as [[Lt _]|(c & x & Lt & _)]; unfold given, letters in *; rewrite Lt; [auto|].
        rewrite filter_app, map_app, app_length. lia.
      + intros t' (x & r0 & X). cbn in X. apply put_at in X as [[_ X]|[_ X]]; [discriminate|]. unfold holds. eauto.
  Qed.
  Lemma once_all n ch ns cs k a : unposted (ns n) -> asteps db what net (a_begins ns cs k) a -> calls_ok (a_history a) -> once n ch a.
  Proof.
    intros Up A K. refine (proj2 (atomic_ind (fun a => mailed n a /\ once n ch a) ns cs k a _ _ A K)).
    - split; [apply mailed_begins, Up|]. split; cbn; [lia| |lia| |].
      + intros _. split; [reflexivity|]. intros t (x & r & X). discriminate.
      + intros _ t (x & r & X). discriminate.
      + intros t t' (x & r & X). discriminate.
    - intros a1 a2 [M O1] So _ Ks. split; [eapply mailed_step; eauto|eapply once_step; eauto].
  Qed.

  (** ** Every post has a receiver of its own *)

  Definition owns (n : nat) a (t : nat) (ch : N) : Prop := exists c m r, posts n c = true /\ a_status a t = Answered c (VPosted ch m) r.
  Record separate (n : nat) a : Prop := {
    se_nodup : NoDup (channels n (a_history a));
    se_lt : forall ch, In ch (channels n (a_history a)) -> ch < chan (a_nodes a n);
    se_own : forall t ch, owns n a t ch -> ch < chan (a_nodes a n) /\ ~ In ch (channels n (a_history a));
    se_uniq : forall t t' ch, owns n a t ch -> owns n a t' ch -> t = t' }.
  Lemma channels_app n (h1 h2 : list (event U)) : channels n (h1 ++ h2) = channels n h1 ++ channels n h2.
  Proof.
    induction h1 as [|[t c|t c v|t m] r IH]; cbn; try exact IH; [reflexivity|].
    destruct v; try exact IH. destruct (posts n c); cbn; rewrite IH; reflexivity.
  Qed.
  Lemma separate_keep n a a' : separate n a -> channels n (a_history a') = channels n (a_history a) -> chan (a_nodes a n) <= chan (a_nodes a' n) ->
    (forall t ch, owns n a' t ch -> owns n a t ch) -> separate n a'.
  Proof.
    intros [S1 S2 S3 S4] E Le Ho. split; rewrite ?E; auto.
    - intros ch I. specialize (S2 ch I). lia.
    - intros t ch I. destruct (S3 t ch (Ho _ _ I)). split; [lia|assumption].
    - intros t t' ch A B. eapply S4; eauto.
  Qed.
  Lemma posts_at n n' (c : call U) f : effect_of c = AtNode n' f -> posts n c = true -> n = n'.
  Proof.
    destruct c; cbn; try discriminate; intros E X; apply Nat.eqb_eq in X; inversion E; congruence.
  Qed.
  Lemma separate_step n a a' : mailed n a -> separate n a -> (forall t, sound_status (a_status a t)) -> kind_of_step a a' -> separate n a'.
  Proof.
    intros Ml On So Ks. destruct Ks as [a' En Eh Er Tu|t c T|t c n' f d v r T Ef Hf|t n' ch' m T Nt|t c v T|t m T Rc|t m n' r d T Ob].
    - apply (separate_keep n a a' On); rewrite ?En, ?Eh; auto; [lia|]. intros t ch (c & m & r & Y & X). specialize (Tu t). rewrite X in Tu.
      unfold owns. inversion Tu as [st E1|st st' F E1 E2|c' v r0 r' E1|m' r0 E1|m' r0 r' E1|c' v r0 F E1 E2]; subst; try contradiction; try discriminate; eauto 6.
    - apply (separate_keep n a _ On); cbn; [rewrite channels_app; cbn; apply app_nil_r|lia|].
      intros t' ch (c' & m & r & Y & X). cbn in X. apply put_at in X as [[_ X]|[_ X]]; [discriminate|]. unfold owns. eauto 6.
    - assert (K : call_ok c) by (specialize (So t); rewrite T in So; exact So).
      pose proof (effect_mail _ _ _ _ _ _ K Ef Hf) as (_ & _ & G & _).
      destruct (posts n' c) eqn:Pn; [destruct (Nat.eq_dec n n') as [<-|Ne]|].
      + destruct G as (m & -> & G1 & _). destruct On as [S1 S2 S3 S4].
        assert (Own : forall t' ch, owns n (a_node (a_set a t (Answered c (VPosted (chan (a_nodes a n)) m) r)) n d) t' ch ->
          t' = t /\ ch = chan (a_nodes a n) \/ owns n a t' ch).
        { intros t' ch (c' & m' & r' & Y & X). cbn in X. apply put_at in X as [[-> X]|[_ X]]; [left; inversion X; auto|right; exists c', m', r'; auto]. }
        split; cbn [a_node a_set a_nodes a_history].
        * exact S1.
        * intros ch I. unfold put. rewrite Nat.eqb_refl. specialize (S2 ch I). lia.
        * intros t' ch I. unfold put. rewrite Nat.eqb_refl. destruct (Own _ _ I) as [[_ ->]|O1].
          -- split; [lia|]. intros X. specialize (S2 _ X). lia.
          -- destruct (S3 _ _ O1). split; [lia|assumption].
        * intros t1 t2 ch X Y. destruct (Own _ _ X) as [[-> ->]|O1], (Own _ _ Y) as [[-> E]|O2]; auto.
          -- apply S3 in O2. lia.
          -- subst ch. apply S3 in O1. lia.
          -- eapply S4; eauto.
      + apply (separate_keep n a _ On); cbn; auto; [unfold put; destruct (Nat.eqb_spec n n'); [contradiction|lia]|].
        intros t' ch (c' & m & r0 & Y & X). cbn in X. apply put_at in X as [[_ X]|[_ X]]; [|unfold owns; eauto 6].
        inversion X; subst. exfalso. apply Ne. eapply posts_at; eauto.
      + destruct G as (Pv & G1 & _). apply (separate_keep n a _ On); cbn; auto.
        * unfold put. destruct (Nat.eqb_spec n n') as [->|]; lia.
        * intros t' ch (c' & m & r0 & Y & X). cbn in X. apply put_at in X as [[_ X]|[_ X]]; [|unfold owns; eauto 6]. inversion X; subst. destruct Pv.
    - apply (separate_keep n a _ On); cbn; auto; [lia|]. intros t' ch (c' & m' & r & Y & X). cbn in X. apply put_at in X as [[_ X]|[_ X]]; [discriminate|].
      unfold owns. eauto 6.
    - destruct On as [S1 S2 S3 S4].
      assert (Sub : forall t' ch, owns n (a_seen (a_set a t Idle) (EReturn t c v)) t' ch -> t' <> t /\ owns n a t' ch).
      { intros t' ch (c' & m & r & Y & X). cbn in X. apply put_at in X as [[_ X]|[Nt X]]; [discriminate|]. split; [exact Nt|]. exists c', m, r. auto. }
      destruct (channels n [EReturn t c v]) as [|ch g] eqn:G.
      + apply (separate_keep n a); [split; assumption| |cbn; lia|intros t' ch X; apply (Sub t' ch X)].
        cbn [a_seen a_set a_history]. rewrite channels_app, G. apply app_nil_r.
      + assert (Ho : owns n a t ch /\ g = []).
        { cbn in G. destruct v; try discriminate. destruct (posts n c) eqn:Pn; [|discriminate]. inversion G; subst. split; [|reflexivity].
          exists c, m, []. auto. }
        destruct Ho as [Ho ->]. destruct (S3 _ _ Ho) as [L1 N1]. split; cbn [a_seen a_set a_history a_nodes]; rewrite ?channels_app, ?G.
        * apply NoDup_app_snoc; assumption.
        * intros c' I. apply in_app_or in I as [I|[<-|[]]]; auto.
        * intros t' c' X. destruct (Sub _ _ X) as [Nt Y]. destruct (S3 _ _ Y) as [L2 N2]. split; [exact L2|]. intros I. apply in_app_or in I as [I|[<-|[]]]; [auto|].
          apply Nt, (S4 _ _ _ Y Ho).
        * intros t1 t2 c' X Y. apply (S4 _ _ c'); [apply (Sub _ _ X)|apply (Sub _ _ Y)].
    - apply (separate_keep n a _ On); cbn; [rewrite channels_app; cbn; apply app_nil_r|lia|].
      intros t' ch (c' & m' & r & Y & X). cbn in X. apply put_at in X as [[_ X]|[_ X]]; [discriminate|]. unfold owns. eauto 6.
    - destruct (ml_busy _ _ Ml t m) as [Rc _]; [eauto|]. destruct (observed_mail _ _ _ Rc Ob) as (_ & Cw & _).
      apply (separate_keep n a _ On); cbn; auto.
      + unfold put. destruct (Nat.eqb_spec n n') as [->|]; lia.
      + intros t' ch (c' & m' & r0 & Y & X). cbn in X. apply put_at in X as [[_ X]|[_ X]]; [discriminate|]. unfold owns. eauto 6.
  Qed.
  Lemma separate_all n ns cs k a : unposted (ns n) -> asteps db what net (a_begins ns cs k) a -> calls_ok (a_history a) -> separate n a.
  Proof.
    intros Up A K. refine (proj2 (atomic_ind (fun a => mailed n a /\ separate n a) ns cs k a _ _ A K)).
    - split; [apply mailed_begins, Up|]. split; cbn.
      + constructor.
      + intros ch [].
      + intros t ch (c & m & r & _ & X). discriminate.
      + intros t t' ch (c & m & r & _ & X). discriminate.
    - intros a1 a2 [M O1] So _ Ks. split; [eapply mailed_step; eauto|eapply separate_step; eauto].
  Qed.

  (** ** The message that arrives has the TID of the post *)

  Definition posted (n : nat) (h : list (event U)) : Prop := exists t c, In (ECall t c) h /\ posts n c = true.
  Record matched (n : nat) (T : N -> N) a : Prop := {
    ma_bound : last_tid (a_nodes a n) < 65536;
    ma_own : forall t c ch m r, posts n c = true -> a_status a t = Answered c (VPosted ch m) r -> ch < chan (a_nodes a n) /\ msg_tid m = T ch;
    ma_ret : forall t c ch m, posts n c = true -> In (EReturn t c (VPosted ch m)) (a_history a) -> ch < chan (a_nodes a n) /\ msg_tid m = T ch;
    ma_letters : forall ch x, In (ch, x) (letters (a_nodes a n)) -> msg_tid x = T ch;
    ma_post : forall ch, post_of (a_nodes a n) = Some ch -> T ch = last_tid (a_nodes a n) /\ posted n (a_history a);
    ma_got : forall t ch x, In (EReturn t (CWait n ch) (VGot (Some x))) (a_history a) -> In (ch, x) (letters (a_nodes a n));
    ma_open : forall t c, a_status a t = Pending c -> open_call t None (a_history a) = Some c /\ In (ECall t c) (a_history a);
    ma_calm : posted n (a_history a) -> forall t c, a_status a t = Pending c -> disturbs n c = false }.

  Lemma open_call_app t (h1 h2 : list (event U)) : forall o, open_call t o (h1 ++ h2) = open_call t (open_call t o h1) h2.
  Proof. induction h1 as [|[t' c|t' c v|t' m] r IH]; intros o; cbn; auto. Qed.
  Lemma undisturbed_app n (h1 h2 : list (event U)) : undisturbed n (h1 ++ h2) -> undisturbed n h1.
  Proof. intros Ud h t c r ->. apply (Ud h t c (r ++ h2)). rewrite <- app_assoc. reflexivity. Qed.
  Lemma numbered_app (h1 h2 : list (event U)) : requests_numbered (h1 ++ h2) -> requests_numbered h1.
  Proof. intros Rn t m I. apply (Rn t m), in_or_app. auto. Qed.
  Lemma posted_app n (h1 h2 : list (event U)) : posted n h1 -> posted n (h1 ++ h2).
  Proof. intros (t & c & I & E). exists t, c. split; [apply in_or_app; auto|exact E]. Qed.
  Lemma posted_snoc n (h : list (event U)) e : posted n (h ++ [e]) -> posted n h \/ exists t c, e = ECall t c /\ posts n c = true.
  Proof. intros (t & c & I & E). apply in_app_or in I as [I|[->|[]]]; [left; exists t, c; auto|right; eauto]. Qed.

  Lemma matched_step n T a a' : mailed n a -> matched n T a -> undisturbed n (a_history a') -> requests_numbered (a_history a') ->
    (forall t, sound_status (a_status a t)) -> kind_of_step a a' -> exists T', matched n T' a'.
  Proof.
    intros Ml [M1 M2 M3 M4 M5 M6 M7 M8] Ud Rn So Ks. pose proof (ml_post _ _ Ml) as Po.
    destruct Ks as [a' En Eh Er Tu|t c T0|t c n' f d v r T0 Ef Hf|t n' ch' m T0 Nt|t c v T0|t m T0 Rc|t m n' r d T0 Ob].
    - exists T. split; rewrite ?En, ?Eh; auto.
      + intros t c ch m r Y X. specialize (Tu t). rewrite X in Tu. inversion Tu as [st E1|st st' F E1 E2|c' v r0 r' E1|m' r0 E1|m' r0 r' E1|c' v r0 F E1 E2]; subst; try contradiction; try discriminate; eapply M2; eauto.
      + intros t c X. specialize (Tu t). rewrite X in Tu. inversion Tu as [st E1|st st' F E1 E2|c' v r0 r' E1|m' r0 E1|m' r0 r' E1|c' v r0 F E1 E2]; subst; try contradiction; try discriminate; eauto.
      + intros Ps t c X. specialize (Tu t). rewrite X in Tu. inversion Tu as [st E1|st st' F E1 E2|c' v r0 r' E1|m' r0 E1|m' r0 r' E1|c' v r0 F E1 E2]; subst; try contradiction; try discriminate; eauto.
    - exists T. cbn in Ud. destruct (Ud (a_history a) t c [] eq_refl) as [U1 U2]. split; cbn; auto.
      + intros t' c' ch m r Y X. apply put_at in X as [[_ X]|[_ X]]; [discriminate|]. eapply M2; eauto.
      + intros t' c' ch m Y X. apply in_app_or in X as [X|[X|[]]]; [eapply M3; eauto|discriminate].
      + intros ch X. destruct (M5 ch X). split; [assumption|apply posted_app; assumption].
      + intros t' ch x X. apply in_app_or in X as [X|[X|[]]]; [eauto|discriminate].
      + intros t' c' X. rewrite open_call_app. cbn. apply put_at in X as [[-> X]|[Ne X]].
        * inversion X; subst. rewrite Nat.eqb_refl. split; [reflexivity|]. apply in_or_app. right. left. reflexivity.
        * destruct (M7 _ _ (eq_sym X)) as [A B]. destruct (Nat.eqb_spec t t'); [congruence|]. split; [exact A|]. apply in_or_app. auto.
      + intros Ps t' c' X. apply posted_snoc in Ps as [Ps|(t1 & c1 & E & Y)].
        * apply put_at in X as [[-> X]|[Ne X]]; [|eapply M8; eauto]. inversion X; subst. destruct (disturbs n c) eqn:Dc; [|reflexivity].
          destruct Ps as (t1 & c1 & I & Y). rewrite (U2 eq_refl _ _ I) in Y. discriminate.
        * inversion E; subst t1 c1. destruct (U1 Y) as [V1 V2]. apply put_at in X as [[-> X]|[Ne X]]; [inversion X; subst; exact V1|].
          destruct (M7 _ _ (eq_sym X)) as [A _]. eapply V2, A.
    - assert (K : call_ok c) by (specialize (So t); rewrite T0 in So; exact So).
      pose proof (effect_mail _ _ _ _ _ _ K Ef Hf) as (L & _ & G & Bd).
      destruct (M7 _ _ T0) as [Op Ic].
      assert (Op' : forall t' c', put (a_status a) t (Answered c v r) t' = Pending c' -> a_status a t' = Pending c').
      { intros t' c' X. apply put_at in X as [[_ X]|[_ X]]; [discriminate|auto]. }
      destruct (Nat.eq_dec n n') as [<-|Ne].
      2: { exists T. assert (Eq : put (a_nodes a) n' d n = a_nodes a n) by (unfold put; destruct (Nat.eqb_spec n n'); [contradiction|reflexivity]).
           split; cbn; rewrite ?Eq; auto; [|eauto].
           intros t' c' ch m r' Y X. apply put_at in X as [[_ X]|[_ X]]; [|eapply M2; eauto]. inversion X; subst.
           exfalso. apply Ne. eapply posts_at; eauto. }
      assert (Eq : put (a_nodes a) n d n = d) by (unfold put; rewrite Nat.eqb_refl; reflexivity).
      destruct (posts n c) eqn:Pn.
      + destruct G as (m & -> & G1 & G2 & G3).
        assert (Dc : disturbs n c = false) by (apply (M8 (ex_intro _ t (ex_intro _ c (conj Ic Pn))) t c T0)).
        exists (fun ch => if ch =? chan (a_nodes a n) then last_tid d else T ch).
        assert (Old : forall ch, ch < chan (a_nodes a n) -> (if ch =? chan (a_nodes a n) then last_tid d else T ch) = T ch).
        { intros ch Lt. destruct (N.eqb_spec ch (chan (a_nodes a n))); [lia|reflexivity]. }
        split; cbn; rewrite ?Eq; auto.
        * intros t' c' ch m' r' Y X. apply put_at in X as [[_ X]|[_ X]].
          -- inversion X; subst. rewrite N.eqb_refl. split; [lia|auto].
          -- destruct (M2 t' c' ch m' r' Y (eq_sym X)). rewrite Old by assumption. split; [lia|assumption].
        * intros t' c' ch m' Y X. destruct (M3 t' c' ch m' Y X). rewrite Old by assumption. split; [lia|assumption].
        * rewrite L. intros ch x I. rewrite Old; [eauto|]. destruct Po as (_ & F & _). rewrite Forall_forall in F. exact (F _ I).
        * rewrite G2. intros ch X. inversion X; subst. rewrite N.eqb_refl. split; [reflexivity|]. exists t, c. auto.
        * rewrite L. eauto.
        * eauto.
      + destruct G as (Pv & G1 & G2 & G3). exists T. split; cbn; rewrite ?Eq, ?L, ?G1, ?G2; auto; [| |eauto].
        * intros t' c' ch m' r' Y X. apply put_at in X as [[_ X]|[_ X]]; [inversion X; subst; destruct Pv|eapply M2; eauto].
        * intros ch X. destruct (M5 ch X) as [A B]. split; [|exact B]. rewrite A. symmetry. apply G3. eapply M8; eauto.
    - exists T. split; cbn; auto.
      + intros t' c' ch m' r' Y X. apply put_at in X as [[_ X]|[_ X]]; [discriminate|eapply M2; eauto].
      + intros t' c' X. apply put_at in X as [[_ X]|[_ X]]; [discriminate|auto].
      + intros Ps t' c' X. apply put_at in X as [[_ X]|[_ X]]; [discriminate|eauto].
    - exists T. split; cbn; auto.
      + intros t' c' ch m' r' Y X. apply put_at in X as [[_ X]|[_ X]]; [discriminate|eapply M2; eauto].
      + intros t' c' ch m Y X. apply in_app_or in X as [X|[X|[]]]; [eapply M3; eauto|]. inversion X; subst. eapply M2; eauto.
      + intros ch X. destruct (M5 ch X). split; [assumption|apply posted_app; assumption].
      + intros t' ch x X. apply in_app_or in X as [X|[X|[]]]; [eauto|]. inversion X; subst. eapply (ml_wait _ _ Ml); eauto.
      + intros t' c' X. apply put_at in X as [[_ X]|[Ne X]]; [discriminate|]. destruct (M7 _ _ (eq_sym X)) as [A B].
        rewrite open_call_app. cbn. destruct (Nat.eqb_spec t t'); [congruence|]. split; [exact A|apply in_or_app; auto].
      + intros Ps t' c' X. apply put_at in X as [[_ X]|[_ X]]; [discriminate|]. apply posted_snoc in Ps as [Ps|(? & ? & E & _)]; [eauto|discriminate].
    - exists T. split; cbn; auto.
      + intros t' c' ch m' r' Y X. apply put_at in X as [[_ X]|[_ X]]; [discriminate|eapply M2; eauto].
      + intros t' c' ch m' Y X. apply in_app_or in X as [X|[X|[]]]; [eapply M3; eauto|discriminate].
      + intros ch X. destruct (M5 ch X). split; [assumption|apply posted_app; assumption].
      + intros t' ch x X. apply in_app_or in X as [X|[X|[]]]; [eauto|discriminate].
      + intros t' c' X. apply put_at in X as [[_ X]|[_ X]]; [discriminate|]. destruct (M7 _ _ (eq_sym X)) as [A B].
        rewrite open_call_app. cbn. split; [exact A|apply in_or_app; auto].
      + intros Ps t' c' X. apply put_at in X as [[_ X]|[_ X]]; [discriminate|]. apply posted_snoc in Ps as [Ps|(? & ? & E & _)]; [eauto|discriminate].
    - exists T. destruct (ml_busy _ _ Ml t m) as [Rc (t1 & Gt)]; [eauto|]. destruct (observed_mail _ _ _ Rc Ob) as (_ & Cw & Bd & Kt & Lt).
      assert (St1 : forall t' c' ch m' r', posts n c' = true -> put (a_status a) t (Busy m r) t' = Answered c' (VPosted ch m') r' -> ch < chan (a_nodes a n) /\ msg_tid m' = T ch).
      { intros t' c' ch m' r' Y X. apply put_at in X as [[_ X]|[_ X]]; [discriminate|eapply M2; eauto]. }
      assert (St2 : forall t' c', put (a_status a) t (Busy m r) t' = Pending c' -> a_status a t' = Pending c').
      { intros t' c' X. apply put_at in X as [[_ X]|[_ X]]; [discriminate|auto]. }
      destruct (Nat.eq_dec n n') as [<-|Ne].
      2: { assert (Eq : put (a_nodes a) n' d n = a_nodes a n) by (unfold put; destruct (Nat.eqb_spec n n'); [contradiction|reflexivity]).
           split; cbn; rewrite ?Eq; auto. intros Ps t' c' X. eauto. }
      assert (Eq : put (a_nodes a) n d n = d) by (unfold put; rewrite Nat.eqb_refl; reflexivity).
      assert (Sub : forall y, In y (letters (a_nodes a n)) -> In y (letters d)).
      { intros y I. destruct Lt as [[-> _]|(c & x & -> & _)]; [exact I|apply in_or_app; auto]. }
      split; cbn; rewrite ?Eq, ?Cw; auto; [| | |eauto].
      + intros ch x I. destruct Lt as [[Lt _]|(c & y & Lt & Pc & _ & Tm & _ & Sc)]; rewrite Lt in I; [eauto|].
        apply in_app_or in I as [I|[I|[]]]; [eauto|]. inversion I; subst. destruct (M5 ch Pc) as [-> _]. rewrite <- Tm. apply Sc.
      + intros ch X. destruct Lt as [[_ Lt]|(c & y & _ & _ & Lt & _)]; rewrite Lt in X; [|discriminate].
        destruct (M5 ch X) as [-> B]. split; [|exact B]. symmetry. apply Kt. intros Rq. exact (Rn t1 m Gt Rq).
      + eauto.
  Qed.
  Lemma matched_all n ns cs k a : unposted (ns n) -> last_tid (ns n) < 65536 -> asteps db what net (a_begins ns cs k) a -> calls_ok (a_history a) ->
    undisturbed n (a_history a) -> requests_numbered (a_history a) -> exists T, matched n T a.
  Proof.
    intros Up Bd A K. refine (proj2 (atomic_ind (fun a => mailed n a /\ (undisturbed n (a_history a) -> requests_numbered (a_history a) -> exists T, matched n T a)) ns cs k a _ _ A K)).
    - split; [apply mailed_begins, Up|]. intros _ _. exists (fun _ => 0). destruct Up as [Np Dl]. split; cbn; auto; try discriminate; try (intros; contradiction).
      + unfold letters. rewrite Dl. intros ch x [].
      + rewrite Np. discriminate.
    - intros a1 a2 [M O1] So _ Ks. split; [eapply mailed_step; eauto|]. intros Ud Rn. destruct (kind_history _ _ Ks) as (l & Eh).
      destruct O1 as [T Mt]; [rewrite Eh in Ud; eapply undisturbed_app; eauto|rewrite Eh in Rn; eapply numbered_app; eauto|].
      eapply matched_step; eauto.
  Qed.
End S.
