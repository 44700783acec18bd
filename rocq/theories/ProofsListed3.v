(** What a node tells about the devices it had when the question arrived. *)
From Verif Require Import Base HMap ModelCodec ModelMessages ModelObject ModelTransport ModelNode ModelController ModelDevice ModelThreads
  SpecWire SpecObject SpecNode SpecThreads ProofsCodec ProofsCodec2 ProofsObject ProofsNode ProofsNode2 ProofsNode3 ProofsNode4 PropertiesCodec PropertiesObject PropertiesNode PropertiesTrans
  PropertiesProfile PropertiesTransport ProofsHost2 ProofsExchange ProofsHistory PropertiesFrames ProofsThreads ProofsThreads2 PropertiesThreads ProofsThreads6 ProofsLines
  ProofsClients SpecShared ProofsShared ProofsShared3 ProofsMesh SpecListed ProofsListed ProofsListed2.
From Verif Require ModelLocks.

(** No list of instances is in the datagram. *)
Definition listless (data : list N) : Prop := forall cs, honest cs data.
(** The datagram is an answer to the message. *)
Definition caused (m : message) (data : list N) : Prop := (m_esv m = 0x62 \/ m_esv m = 0x63) /\ (msg_tid m <> 0 -> tid_of data = msg_tid m).

Section S.
  Context {U : Type} {P : Profile} {HO : HashOrder} {Os : OS}.
  Implicit Types (n : node U).

  Lemma sent_listless n n' m m' : update_tid n m = (n', m') -> m_esv m <> 0x72 /\ m_esv m <> 0x73 -> listless (msg_bytes m').
  Proof. intros E H cs. exact (sent_honest cs n n' m m' E H). Qed.
  Lemma announce_listless w n ok n' w' tr : Forall obj_good (n_objects n) -> Forall PropertiesFrames.short (n_objects n) -> node_announce w n = (ok, n', w') -> since w w' tr ->
    Forall (fun y => listless (snd y)) (offered tr).
  Proof.
    intros G S E T. unfold node_announce in E.
    destruct (find_object (n_objects n) NODE_PROFILE_OBJECT_CODE) as [o|] eqn:Ef;
      [|inversion E; subst; rewrite (since_unique _ _ _ _ T (since_refl _)); constructor].
    destruct (object_find_property o NP_INSTANCE_LIST_NOTIFICATION) as [p|] eqn:Ep;
      [|inversion E; subst; rewrite (since_unique _ _ _ _ T (since_refl _)); constructor].
    destruct (node_notify w n (announce_message o p)) as [[[b m1] n1] w1] eqn:En. inversion E; subst.
    apply node_notify_spec in En as (A & t2 & k & B & _ & _ & F & _). rewrite (since_unique _ _ _ _ T B).
    apply find_object_some, addressed_in in Ef. rewrite Forall_forall in G, S. pose proof (G o Ef) as Go. pose proof (short_find _ _ _ (S o Ef) Ep) as L.
    pose proof (obj_good_coded o Go _ _ Ep) as Cp. eapply Forall_impl; [|exact F]. intros y <- cs Od m0 Pa _. cbn [snd] in Od, Pa.
    rewrite (parsed_single m1 _ m0 Od eq_refl) by first [exact Pa|rewrite (update_tid_esv _ _ _ _ A); right; reflexivity
      |apply update_tid_spec in A as [(_ & _ & ->)|(_ & _ & ->)]; (split; [cbn; lia|constructor; [exact L|constructor]])].
    apply update_tid_spec in A as [(_ & _ & ->)|(_ & _ & ->)]; (constructor; [|constructor]); intros X; cbn in X; rewrite Cp in X; discriminate X.
  Qed.

  Lemma recv_cause w (u : U) n m u' n' w' tr : received m -> node_observe w u n m = Ret (u', n', w') -> since w w' tr ->
    Forall (fun y => listless (snd y) \/ caused m (snd y)) (offered tr).
  Proof.
    intros R E T. apply received_rcvd in R. pose proof R as [W Li B]. apply Forall_forall. intros [to data] I. cbn [snd].
    destruct (observe_offered w u n m u' n' w' tr to data R E T I) as (e & ps & ss & gs & t & n2 & Q & H & Eo & -> & Wt & Ht & _).
    assert (Sv : service_of (msg_bytes (with_t m t e ps ss gs)) = e) by (apply with_t_service; apply W).
    assert (Other : e <> 0x72 /\ e <> 0x73 -> listless (msg_bytes (with_t m t e ps ss gs))) by (intros [X Y] cs; apply quiet_honest; rewrite Sv; assumption).
    assert (Fa : response_error_message m = resp m e ps ss gs -> e <> 0x72 /\ e <> 0x73).
    { intros X. destruct (failure_eq m W Q) as (e1 & E1 & E2). rewrite E2 in X. assert (He : e = e1) by (inversion X; reflexivity). clear X. subst e1.
      services Q; rewrite <- Q in E1; inversion E1; split; discriminate. }
    inversion H as [|o0 Q0 A0 V0 Eu En Er|o0 c0 u0 c1 Q0 A0 V0 C0 D0 Eu En Er|pre o post copy u1 copy' Q0 Eob Ec Fp V C Dd Eu En Er]; subst; try (left; apply Other; auto; fail).
    destruct (success_eq o (answered o m copy') m W B Q V (answered_shape o m copy')) as [[_ X]|(e1 & ps1 & ss1 & gs1 & E1 & E2 & _ & K2 & _)]; [congruence|].
    assert (E3 : resp m e ps ss gs = resp m e1 ps1 ss1 gs1) by congruence. inversion E3. subst e1 ps1 ss1 gs1. clear E2 E3.
    assert (Rd : (m_esv m = 0x62 \/ m_esv m = 0x63) \/ e <> 0x72 /\ e <> 0x73).
    { services Q; rewrite <- Q in E1 |- *; inversion E1; auto; right; split; discriminate. }
    destruct Rd as [Rd|Rd]; [right|left; apply Other, Rd]. split; [exact Rd|]. intros N0. rewrite tid_sent. rewrite (Ht N0). rewrite !msg_tid_eq. reflexivity.
  Qed.

  Lemma cause_step rd cs (u : U) n w op u' n' w' tr : op_ok op -> fair_op op -> truthful rd n cs -> (length cs + length (added [op]) <= 84)%nat -> node_step (u, n, w) op = Ret (u', n', w') -> since w w' tr ->
    Forall (fun y => listless (snd y) \/ exists m, op = OpRecv m /\ caused m (snd y)) (offered tr).
  Proof.
    intros K Fo T0 L E T. pose proof (truthful_shape rd n n' w w' u u' op cs K Fo T0 L E) as (_ & (G' & _) & (S' & _) & _). pose proof T0 as (_ & (G & _) & (S & _) & _).
    assert (Q : w' = w -> Forall (fun y => listless (snd y) \/ exists m, op = OpRecv m /\ caused m (snd y)) (offered tr)).
    { intros ->. rewrite (since_unique _ _ _ _ T (since_refl _)). constructor. }
    assert (Lf : Forall (fun y => listless (snd y)) (offered tr) -> Forall (fun y => listless (snd y) \/ exists m, op = OpRecv m /\ caused m (snd y)) (offered tr)).
    { intros X. eapply Forall_impl; [|exact X]. intros y Y. left. exact Y. }
    assert (Sm : forall (to : sockaddr) data l, listless data -> Forall (eq (to, data)) l -> Forall (fun y => listless (snd y)) l) by (intros to data l X F; eapply Forall_impl; [|exact F]; intros y <-; exact X).
    destruct op; cbn [node_step] in E; cbn [op_ok] in K; cbn [fair_op] in Fo.
    - destruct (node_add_object n o) as [n1|] eqn:E1; cbn [obind] in E; [|discriminate]. inversion E; subst. apply Q; auto.
    - inversion E; subst. apply Q; auto.
    - inversion E; subst. apply Q; auto.
    - inversion E; subst. apply Q; auto.
    - destruct (node_send w n to m) as [[[b m1] n1] w1] eqn:E1. inversion E; subst. apply Lf.
      apply node_send_spec in E1 as (A & t2 & B & _ & _ & F & _). rewrite (since_unique _ _ _ _ T B). eapply Sm; [|exact F]. exact (sent_listless _ _ _ _ A Fo).
    - destruct (node_post w n to m) as [[[b m1] n1] w1] eqn:E1. inversion E; subst. apply Lf.
      apply node_post_spec in E1 as (_ & _ & n2 & ok & t2 & A & -> & B & _ & F & _). rewrite (since_unique _ _ _ _ T B). eapply Sm; [|exact F]. exact (sent_listless _ _ _ _ A Fo).
    - destruct (node_notify w n m) as [[[b m1] n1] w1] eqn:E1. inversion E; subst. apply Lf.
      apply node_notify_spec in E1 as (A & t2 & k & B & _ & _ & F & _). rewrite (since_unique _ _ _ _ T B). eapply Sm; [|exact F]. exact (sent_listless _ _ _ _ A Fo).
    - destruct (node_announce w n) as [[b n1] w1] eqn:E1. inversion E; subst. apply Lf. exact (announce_listless _ _ _ _ _ _ G S E1 T).
    - contradiction.
    - destruct (node_start w n) as [[[b n1] w1]|] eqn:E1; cbn [obind] in E; [|discriminate]. inversion E; subst. apply Lf.
      apply node_start_spec in E1 as (ok1 & m1 & w2 & (_ & t1 & S1 & _ & O1) & _ & [(_ & _ & -> & ->)|(_ & m2 & _ & A)]).
      + rewrite (since_unique _ _ _ _ T S1), O1. constructor.
      + pose proof A as A0. apply announce_keeps in A0 as (Ob & Hd & _ & _ & t2 & T2 & _).
        rewrite (since_unique _ _ _ _ T (since_trans _ _ _ _ _ S1 T2)), offered_app, O1. cbn [app].
        rewrite Ob in G', S'. exact (announce_listless _ _ _ _ _ _ G' S' A T2).
    - destruct (node_stop n) as [[b n1]|] eqn:E1; cbn [obind] in E; [|discriminate]. inversion E; subst. apply Q; auto.
    - destruct (node_observe w u n m) as [[[u1 n1] w1]|] eqn:E1; cbn [obind] in E; [|discriminate]. inversion E; subst.
      eapply Forall_impl; [|exact (recv_cause w u n m u' n' w' tr K E1 T)]. intros y [Y|Y]; [left; exact Y|right; eauto].
  Qed.

  (** The messages that a node handled had arrived after what is in the list was done. *)
  Fixpoint dates (i : nat) (h : list (event U)) (acc : list N) (ops : list (node_op U)) : Prop :=
    match ops with
    | [] => True
    | op :: r => (forall m, op = OpRecv m -> exists h1 t h2, h = h1 ++ EGot t m :: h2 /\ incl (done i h1) acc) /\ dates i h (acc ++ added [op]) r
    end.
  Lemma added_cons (op : node_op U) r : added (op :: r) = added [op] ++ added r.
  Proof. unfold added. cbn [flat_map]. rewrite app_nil_r. reflexivity. Qed.
  Lemma dates_app i h o1 : forall acc o2, dates i h acc o1 -> dates i h (acc ++ added o1) o2 -> dates i h acc (o1 ++ o2).
  Proof.
    induction o1 as [|op r IH]; intros acc o2 A B; cbn [dates app] in *; [rewrite app_nil_r in B; exact B|]. destruct A as [A1 A2]. split; [exact A1|].
    apply IH; [exact A2|]. rewrite added_cons, app_assoc in B. exact B.
  Qed.
  Lemma dates_grow i h l ops : forall acc, dates i h acc ops -> dates i (h ++ l) acc ops.
  Proof.
    induction ops as [|op r IH]; intros acc A; [exact A|]. destruct A as [A1 A2]. split; [|apply IH, A2]. intros m E. destruct (A1 m E) as (h1 & t & h2 & -> & X).
    exists h1, t, (h2 ++ l). rewrite <- app_assoc. auto.
  Qed.
  Lemma dates_none i h ops : Forall (fun op => forall m, op <> OpRecv m) ops -> forall acc, dates i h acc ops.
  Proof. intros F. induction F as [|op r X F IH]; intros acc; [exact Logic.I|]. split; [|apply IH]. intros m E. exfalso. exact (X m E). Qed.

  Definition freshly (i : nat) (h : list (event U)) (ops : list (node_op U)) (cs : list N) (y : datagram) : Prop :=
    exists ops1 ops2, ops = ops1 ++ ops2 /\ honest (cs ++ added ops1) (snd y) /\
      (listless (snd y) \/ exists m h1 t h2, h = h1 ++ EGot t m :: h2 /\ caused m (snd y) /\ incl (done i h1) (cs ++ added ops1)).
  Lemma fresh_run rd i h ops : forall (u : U) n w u' n' w' cs, Forall op_ok ops -> Forall fair_op ops -> truthful rd n cs -> (length cs + length (added ops) <= 84)%nat ->
    dates i h cs ops -> node_run (u, n, w) ops = Ret (u', n', w') -> exists l, offered (w_trace w') = offered (w_trace w) ++ l /\ Forall (freshly i h ops cs) l.
  Proof.
    induction ops as [|op r IH]; intros u n w u' n' w' cs K Fo T0 L D E; cbn [node_run] in E.
    { inversion E; subst. exists []. rewrite app_nil_r. split; [reflexivity|constructor]. }
    destruct (node_step (u, n, w) op) as [[[u1 n1] w1]|] eqn:E1; cbn [obind] in E; [|discriminate].
    inversion K as [|? ? K1 K2]; inversion Fo as [|? ? F1 F2]; subst. destruct D as [D1 D2].
    rewrite added_cons, app_length in L. destruct (step_since u n w op u1 n1 w1 K1 E1) as [t1 T1].
    destruct (honest_step rd u n w op u1 n1 w1 t1 cs K1 F1 T0 ltac:(lia) E1 T1) as [T2 H1].
    pose proof (cause_step rd cs u n w op u1 n1 w1 t1 K1 F1 T0 ltac:(lia) E1 T1) as H2.
    destruct (IH u1 n1 w1 u' n' w' (cs ++ added [op]) K2 F2 T2) as (l & El & Fl); [rewrite app_length; lia|exact D2|exact E|].
    exists (offered t1 ++ l). split.
    - rewrite El, (offered_line _ _ _ T1), app_assoc. reflexivity.
    - apply Forall_app. split.
      + rewrite Forall_forall in H1, H2 |- *. intros y Iy. exists [op], r. split; [reflexivity|]. split; [exact (H1 y Iy)|]. destruct (H2 y Iy) as [X|(m & Em & X)]; [left; exact X|right].
        destruct (D1 m Em) as (h1 & t & h2 & Eh & In1). exists m, h1, t, h2. split; [exact Eh|]. split; [exact X|]. apply incl_appl, In1.
      + eapply Forall_impl; [|exact Fl]. intros y (o1 & o2 & -> & Hy & Hc). exists (op :: o1), o2. split; [reflexivity|].
        rewrite added_cons, app_assoc. split; assumption.
  Qed.
End S.

Section T.
  Context {U : Type} {P : Profile} {HO : HashOrder} {Os : OS} {Uu : Uuids} (db : list object) (what : observer -> obs) (net : bool).
  Context (n : nat).
  Implicit Types (a : state U).

  Lemma done_app (h h' : list (event U)) : done n (h ++ h') = done n h ++ done n h'.
  Proof. apply flat_map_app. Qed.
  Lemma ops_own (c : call U) : Forall (fun op => forall m, op <> OpRecv m) (ops_of c).
  Proof. destruct c; cbn [ops_of]; repeat (apply Forall_cons || apply Forall_nil); discriminate. Qed.

  Definition has (h : list (event U)) (st : status U) : Prop := match st with Got m | Busy m _ => exists t, In (EGot t m) h | _ => True end.
  Record dated (k : nat) (x0 : nstate U) a : Prop := {
    dt_waits : forall t, waits k t (a_status a t);
    dt_has : forall t, has (a_history a) (a_status a t);
    dt_run : exists ops, Forall op_ok ops /\ Forall fair_op ops /\ node_run x0 ops = Ret (a_nodes a n) /\
      incl (added ops) (adds n (a_history a)) /\ (length (added ops) + total n k (a_status a) <= length (adds n (a_history a)))%nat /\
      (forall t, incl (match a_status a t with Pending c => adds1 n c | _ => [] end) (adds n (a_history a))) /\
      incl (done n (a_history a)) (added ops) /\ (forall t c v r, a_status a t = Answered c v r -> incl (adds1 n c) (added ops)) /\
      dates n (a_history a) [] ops }.
  Lemma has_put h (f : nat -> status U) t x : (forall t', has h (f t')) -> has h x -> forall t', has h (put f t x t').
  Proof. intros A B t'. unfold put. destruct (Nat.eqb_spec t' t) as [->|]; auto. Qed.
  Lemma has_grow h l (st : status U) : has h st -> has (h ++ l) st.
  Proof. destruct st; cbn; auto; intros (t & I); exists t; apply in_or_app; auto. Qed.
  Lemma ans_put (f : nat -> status U) (l : list N) t x : (forall c v r, x <> Answered c v r) -> (forall t' c v r, f t' = Answered c v r -> incl (adds1 n c) l) ->
    forall t' c v r, put f t x t' = Answered c v r -> incl (adds1 n c) l.
  Proof. intros Np H t' c v r. unfold put. destruct (Nat.eqb_spec t' t) as [->|]; [|apply H]. intros E. exfalso. eapply Np; exact E. Qed.

  Lemma dated_effect k x0 a t c n0 f d v r : dated k x0 a -> (forall t, sound_status (a_status a t)) -> a_status a t = Pending c -> effect_of c = AtNode n0 f ->
    f (a_nodes a n0) = Ret (d, v) -> dated k x0 (a_node (a_set a t (Answered c v r)) n0 d).
  Proof.
    intros [W B (ops & K & F & R & In1 & Ln & In2 & Dn & Na & Da)] So T Ef X.
    pose proof (W t) as Wt. rewrite T in Wt. destruct Wt as [Lt Fc]. pose proof (So t) as Sc. rewrite T in Sc. cbn in Sc.
    pose proof (total_put n k (a_status a) t (Answered c v r) Lt) as Tp. rewrite T in Tp. cbn [pend] in Tp.
    pose proof (In2 t) as In2t. rewrite T in In2t.
    split; cbn [a_status a_node a_set a_history a_nodes]; [apply waits_put; [exact W|exact Logic.I]|apply has_put; [exact B|exact Logic.I]|].
    assert (Ep : put (a_nodes a) n0 d n = if Nat.eqb n n0 then d else a_nodes a n) by reflexivity. rewrite Ep. destruct (Nat.eqb_spec n n0) as [<-|Nn].
    - pose proof (adds1_at _ _ _ Ef) as Ec.
      assert (Eb : added (ops ++ ops_of c) = added ops ++ adds1 n c) by (unfold added; rewrite flat_map_app; rewrite Ec; reflexivity).
      exists (ops ++ ops_of c). rewrite Eb, app_length.
      split; [apply Forall_app; split; [exact K|apply ops_ok, Sc]|]. split; [apply Forall_app; split; [exact F|apply ops_fair, Fc]|].
      split; [eapply run_app; [exact R|]; eapply effect_ops; eauto|]. split; [apply incl_app; assumption|]. split; [lia|].
      split; [apply pend_put; [discriminate|exact In2]|]. split; [apply incl_appl, Dn|]. split.
      + intros t1 c1 v1 r1. unfold put. destruct (Nat.eqb_spec t1 t) as [->|]; [intros E1; inversion E1; subst; apply incl_appr, incl_refl|intros E1; apply incl_appl, (Na _ _ _ _ E1)].
      + apply dates_app; [exact Da|apply dates_none, ops_own].
    - exists ops. do 4 (split; [assumption|]). split; [lia|]. split; [apply pend_put; [discriminate|exact In2]|]. split; [exact Dn|]. split; [|exact Da].
      intros t1 c1 v1 r1. unfold put. destruct (Nat.eqb_spec t1 t) as [->|]; [intros E1; inversion E1; subst; rewrite (adds1_off _ _ _ _ Ef Nn); intros z []|intros E1; exact (Na _ _ _ _ E1)].
  Qed.

  Lemma dated_step k x0 a a' : dated k x0 a -> (forall t, sound_status (a_status a t)) -> of_app k (a_history a') -> all_fair (a_history a') ->
    astep db what net a a' -> dated k x0 a'.
  Proof.
    intros Kp So Oa Fa St. pose proof (step_kind db what net _ _ St) as Ks.
    destruct (step_answers db what net n _ _ St) as [(t & c & n0 & f & d & v & r & T & Ef & X & ->)|An]; [eapply dated_effect; eauto|]. clear St.
    destruct Ks as [a' En Eh Er Tu|t c T|t c n0 f d v r T Ef X|t n0 ch m T Nm|t c v T|t m T Rc|t m n0 r d T Ob]; [| |eapply dated_effect; eauto| | | |];
      destruct Kp as [W B (ops & K & F & R & In1 & Ln & In2 & Dn & Na & Da)].
    - split; [intros t; specialize (Tu t); specialize (W t); destruct Tu as [st|st st' D|c v r r'|m r|m r r'|c v r _]; try exact Logic.I; [exact W|]; destruct st'; try contradiction; exact Logic.I| |].
      + intros t. rewrite Eh. specialize (Tu t). specialize (B t). destruct Tu as [st|st st' D|c v r r'|m r|m r r'|c v r _]; try exact Logic.I; try exact B. destruct st'; try contradiction; exact Logic.I.
      + exists ops. rewrite En, Eh. do 4 (split; [assumption|]). split; [|split; [|split; [exact Dn|split; [|exact Da]]]].
        * assert (Y : (total n k (a_status a') <= total n k (a_status a))%nat); [|lia]. apply total_le. intros t. destruct (Tu t) as [st|st st' D|c v r r'|m r|m r r'|c v r _]; cbn; try lia. destruct st'; try contradiction; cbn; lia.
        * intros t. specialize (In2 t). destruct (Tu t) as [st|st st' D|c v r r'|m r|m r r'|c v r _]; try (exact In2); try (intros z []; fail). destruct st'; try contradiction; intros z [].
        * intros t c v r E. destruct (adds1 n c) as [|y l] eqn:Ec; [intros z []|].
          destruct (An t c v r E) as (v0 & r0 & E0); [rewrite Ec; discriminate|]. specialize (Na _ _ _ _ E0). rewrite Ec in Na. exact Na.
    - assert (Lt : (t < k)%nat) by (apply (Oa (ECall t c)); cbn; apply in_or_app; right; left; reflexivity).
      assert (Fc : fair c) by (apply (Fa t c); cbn; apply in_or_app; right; left; reflexivity).
      assert (Ec : adds n (a_history a ++ [ECall t c]) = adds n (a_history a) ++ adds1 n c) by (rewrite adds_app; cbn; rewrite app_nil_r; reflexivity).
      split; cbn [a_status a_seen a_set a_history a_nodes].
      + apply waits_put; [exact W|]. split; assumption.
      + apply has_put; [intros t'; apply has_grow, B|exact Logic.I].
      + exists ops. rewrite Ec, done_app. cbn [done flat_map]. rewrite !app_nil_r. do 3 (split; [assumption|]). split; [apply incl_appl, In1|]. split.
        { pose proof (total_put n k (a_status a) t (Pending c) Lt) as X. rewrite T in X. cbn [pend] in X. rewrite app_length. lia. }
        split; [intros t'; unfold put; destruct (Nat.eqb_spec t' t) as [->|]; [apply incl_appr, incl_refl|apply incl_appl, In2]|]. split; [exact Dn|].
        split; [apply ans_put; [discriminate|exact Na]|apply dates_grow, Da].
    - split; cbn [a_status a_read a_set a_history a_nodes]; [apply waits_put; [exact W|exact Logic.I]|apply has_put; [exact B|exact Logic.I]|]. exists ops.
      do 4 (split; [assumption|]). split; [pose proof (total_dull n k (a_status a) t (Answered (CWait n0 ch) (VGot (Some m)) []) eq_refl); lia|].
      split; [apply pend_put; [discriminate|exact In2]|]. split; [exact Dn|]. split; [|exact Da].
      intros t1 c1 v1 r1. unfold put. destruct (Nat.eqb_spec t1 t) as [->|]; [intros E; inversion E; subst; intros z []|apply Na].
    - assert (Ec : adds n (a_history a ++ [EReturn t c v]) = adds n (a_history a)) by (rewrite adds_app; apply app_nil_r).
      split; cbn [a_status a_seen a_set a_history a_nodes]; [apply waits_put; [exact W|exact Logic.I]|apply has_put; [intros t'; apply has_grow, B|exact Logic.I]|]. exists ops. rewrite Ec, done_app.
      cbn [done flat_map]. rewrite app_nil_r.
      do 4 (split; [assumption|]). split; [pose proof (total_dull n k (a_status a) t Idle eq_refl); lia|].
      split; [apply pend_put; [discriminate|exact In2]|]. split; [apply incl_app; [exact Dn|exact (Na _ _ _ _ T)]|]. split; [apply ans_put; [discriminate|exact Na]|apply dates_grow, Da].
    - assert (Ec : adds n (a_history a ++ [EGot t m]) = adds n (a_history a)) by (rewrite adds_app; apply app_nil_r).
      split; cbn [a_status a_seen a_set a_history a_nodes]; [apply waits_put; [exact W|exact Logic.I]|apply has_put; [intros t'; apply has_grow, B|exists t; apply in_or_app; right; left; reflexivity]|].
      exists ops. rewrite Ec, done_app. cbn [done flat_map]. rewrite app_nil_r.
      do 4 (split; [assumption|]). split; [pose proof (total_dull n k (a_status a) t (Got m) eq_refl); lia|].
      split; [apply pend_put; [discriminate|exact In2]|]. split; [exact Dn|]. split; [apply ans_put; [discriminate|exact Na]|apply dates_grow, Da].
    - pose proof (So t) as Sc. rewrite T in Sc. cbn in Sc. pose proof (total_dull n k (a_status a) t (Busy m r) eq_refl) as Tp.
      pose proof (B t) as Bt. rewrite T in Bt. cbn in Bt.
      split; cbn [a_status a_node a_set a_history a_nodes]; [apply waits_put; [exact W|exact Logic.I]|apply has_put; [exact B|exact Bt]|].
      assert (Ep : put (a_nodes a) n0 d n = if Nat.eqb n n0 then d else a_nodes a n) by reflexivity. rewrite Ep. destruct (Nat.eqb_spec n n0) as [<-|Nn].
      + assert (Eb : added (ops ++ [OpRecv m]) = added ops) by (unfold added; rewrite flat_map_app; apply app_nil_r). exists (ops ++ [OpRecv m]). rewrite Eb.
        split; [apply Forall_app; split; [exact K|constructor; [exact Sc|constructor]]|]. split; [apply Forall_app; split; [exact F|constructor; [exact Logic.I|constructor]]|].
        split; [eapply run_app; [exact R|]; unfold observed in Ob; destruct (a_nodes a n) as [[u x] w]; cbn; rewrite Ob; cbn; destruct d as [[u' x'] w']; reflexivity|].
        split; [exact In1|]. split; [lia|]. split; [apply pend_put; [discriminate|exact In2]|]. split; [exact Dn|]. split; [apply ans_put; [discriminate|exact Na]|].
        apply dates_app; [exact Da|]. split; [|exact Logic.I]. intros m' E. inversion E; subst m'. destruct Bt as (t1 & I1). apply in_split in I1 as (h1 & h2 & Eh). exists h1, t1, h2. split; [exact Eh|].
        cbn [app]. intros z Iz. apply Dn. rewrite Eh, done_app. apply in_or_app. left. exact Iz.
      + exists ops. do 4 (split; [assumption|]). split; [lia|]. split; [apply pend_put; [discriminate|exact In2]|]. split; [exact Dn|]. split; [apply ans_put; [discriminate|exact Na]|exact Da].
  Qed.
  Lemma dated_all ns cs k a : asteps db what net (a_begins ns cs k) a -> calls_ok (a_history a) -> of_app k (a_history a) -> all_fair (a_history a) -> dated k (ns n) a.
  Proof.
    intros A. remember (a_begins ns cs k) as a0 eqn:E. induction A as [a|a a1 a2 A IH St]; intros K Oa Fa; subst.
    - split; [intros t; exact Logic.I|intros t; exact Logic.I|]. exists []. split; [constructor|]. split; [constructor|]. split; [reflexivity|]. split; [intros x []|].
      split; [|split; [intros t x []|split; [intros x []|split; [|exact Logic.I]]]].
      + cbn. unfold total. cbn. induction (seq 0 k); [reflexivity|assumption].
      + intros t c v r X. discriminate X.
    - pose proof (step_kind db what net _ _ St) as Ks. destruct (kind_history _ _ Ks) as (l & Eh).
      assert (K1 : calls_ok (a_history a1)) by (rewrite Eh in K; exact (calls_ok_app _ _ K)).
      eapply dated_step; [apply IH; [reflexivity|exact K1| |]|exact (proj1 (atomic_runs db what net ns cs k a1 A K1))|exact Oa|exact Fa|exact St];
        rewrite Eh in Oa, Fa; [intros e I; apply Oa, in_or_app; auto|intros t c I; apply (Fa t c), in_or_app; auto].
  Qed.
End T.
