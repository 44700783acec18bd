(** A device of an execution is the shared device of the specification. *)
From Verif Require Import Base HMap ModelCodec ModelMessages ModelObject ModelTransport ModelNode ModelController ModelDevice ModelThreads
  SpecWire SpecObject SpecNode SpecDevice SpecThreads ProofsCodec ProofsCodec2 ProofsObject ProofsObject2 ProofsNode ProofsNode2 ProofsNode3 ProofsNode4
  PropertiesNode ProofsDevice PropertiesDevice ProofsThreads ProofsThreads2 PropertiesThreads ProofsThreads6 ProofsClients SpecShared ProofsShared.

Section S.
  Context {U : Type} {P : Profile} {HO : HashOrder} {Os : OS} {Uu : Uuids} (db : list object) (what : observer -> obs) (net : bool).
  Context (n : nat) (oc : N).
  Implicit Types (a : state U).

  Local Notation tame := (SpecShared.tame (U := U) n).
  Local Notation tame_calls := (SpecShared.tame_calls (U := U) n).

  Definition rel1 (st : status U) (x : activity U) : Prop :=
    match st with
    | Idle => x = Free
    | Pending c => x = Calls c
    | Answered c v _ => x = Returns c v
    | Listening => x = Free \/ exists m, x = Has m
    | Got m | Busy m _ => x = Has m
    | Ended | Gone => True
    end.
  Definition calls_not (x : activity U) : Prop := x = Free \/ exists m, x = Has m.
  Definition recept (st : status U) : Prop := match st with Pending c => tame c | _ => True end.

  Definition joined (x0 : shared U) (k : nat) a (d : shared U) : Prop :=
    ssteps n oc x0 d /\ past d = a_history a /\ shows oc (contents d) (a_nodes a n) /\ wires d = line (a_nodes a n) /\
    (forall t, rel1 (a_status a t) (doing d t)) /\ Forall hands_off (n_handlers (snd (fst (a_nodes a n)))) /\
    (forall t, (k <= t)%nat -> calls_not (doing d t)) /\ (k <= ModelThreads.next (a_life a))%nat /\ (forall t, recept (a_status a t)).

  Lemma handlers_after c f (x x' : nstate U) v : effect_of c = AtNode n f -> f x = Ret (x', v) -> tame c ->
    Forall hands_off (n_handlers (snd (fst x))) -> Forall hands_off (n_handlers (snd (fst x'))).
  Proof.
    intros Ef X T Ho. destruct x as [[u x] w]. destruct c as [d n' oc' code data|d n' oc' code|d n' g|d n' o|n' o|n' g|n' o|n' to m|n' to m|n' m|n'|c n' code|c n' r m|c n' r m|c n' o|c|d n'|d n'|n'|n' ch];
      cbn [effect_of] in Ef; inversion Ef; subst; clear Ef; cbv beta iota in X; cbn [fst snd] in Ho.
    - unfold device_node_set_property in X. destruct (find_object _ _) as [o|]; [|inversion X; subst; exact Ho].
      destruct (object_find_property o code); inversion X; subst; exact Ho.
    - inversion X; subst; exact Ho.
    - inversion X; subst. cbn [fst snd]. unfold node_add_handler. cbn [n_handlers n_with_handlers]. apply Forall_app. split; [exact Ho|]. constructor; [apply T; reflexivity|constructor].
    - destruct (node_add_object x o) as [x1|] eqn:E; cbn [obind] in X; [|discriminate]. inversion X; subst. destruct (add_object_eq x o) as (os & E' & _). rewrite E in E'. inversion E'; subst. exact Ho.
    - destruct (node_add_object x o) as [x1|] eqn:E; cbn [obind] in X; [|discriminate]. inversion X; subst. destruct (add_object_eq x o) as (os & E' & _). rewrite E in E'. inversion E'; subst. exact Ho.
    - inversion X; subst. cbn [fst snd]. unfold node_add_handler. cbn [n_handlers n_with_handlers]. apply Forall_app. split; [exact Ho|]. constructor; [apply T; reflexivity|constructor].
    - inversion X; subst; exact Ho.
    - destruct (node_send w x to m) as [[[ok m1] x1] w1] eqn:E. inversion X; subst. apply node_send_spec in E as (A & _). apply update_tid_keeps in A as (_ & A & _). cbn [fst snd]. rewrite A. exact Ho.
    - destruct (node_post w x to m) as [[[ok m1] x1] w1] eqn:E. inversion X; subst. apply node_post_spec in E as (_ & _ & n1 & ok' & tr & A & -> & _). apply update_tid_keeps in A as (_ & A & _). cbn [fst snd n_handlers n_with_post]. rewrite A. exact Ho.
    - destruct (node_notify w x m) as [[[ok m1] x1] w1] eqn:E. inversion X; subst. apply node_notify_spec in E as (A & _). apply update_tid_keeps in A as (_ & A & _). cbn [fst snd]. rewrite A. exact Ho.
    - destruct (node_announce w x) as [[ok x1] w1] eqn:E. inversion X; subst. apply announce_keeps in E as (_ & A & _). cbn [fst snd]. rewrite A. exact Ho.
    - destruct (controller_search_object w x code) as [[ok x1] w1] eqn:E. inversion X; subst. unfold controller_search_object in E.
      destruct (node_notify w x (search_request code)) as [[[ok2 m2] x2] w2] eqn:E2. inversion E; subst. apply node_notify_spec in E2 as (A & _). apply update_tid_keeps in A as (_ & A & _). cbn [fst snd]. rewrite A. exact Ho.
    - destruct (controller_send w x r m) as [[[ok m1] x1] w1] eqn:E. inversion X; subst. apply node_send_spec in E as (A & _). apply update_tid_keeps in A as (_ & A & _). cbn [fst snd]. rewrite A. exact Ho.
    - destruct (controller_post w x r m) as [[[ok m1] x1] w1] eqn:E. inversion X; subst. apply node_post_spec in E as (_ & _ & n1 & ok' & tr & A & -> & _). apply update_tid_keeps in A as (_ & A & _). cbn [fst snd n_handlers n_with_post]. rewrite A. exact Ho.
    - inversion X; subst; exact Ho.
    - destruct (node_start w x) as [[[ok x1] w1]|] eqn:E; cbn [obind] in X; [|discriminate]. inversion X; subst. clear X.
      apply node_start_spec in E as (ok1 & m1 & w2 & _ & _ & [(_ & -> & -> & ->)|(_ & m2 & _ & A)]); [exact Ho|]. apply announce_keeps in A as (_ & A & _). cbn [fst snd]. rewrite A. exact Ho.
    - unfold node_stop in X. destruct (manager_stop _) as [y|]; cbn [obind] in X; [|discriminate]. inversion X; subst. exact Ho.
    - inversion X; subst; exact Ho.
  Qed.

  Lemma not_node_other (c : call U) : (forall f, effect_of c <> AtNode n f) -> ~ concerns n oc c.
  Proof.
    intros H X. destruct c; cbn [concerns] in X; try contradiction; try (destruct X as (-> & _)); try subst; cbn [effect_of] in H; eapply H; reflexivity.
  Qed.

  Lemma rel_now (f : nat -> status U) g t st x : (forall t', rel1 (f t') (g t')) -> rel1 st x -> forall t', rel1 (put f t st t') (now g t x t').
  Proof. intros R X t'. unfold put, now. destruct (Nat.eqb t' t); auto. Qed.
  Lemma rel_put (f : nat -> status U) g t st : (forall t', rel1 (f t') (g t')) -> rel1 st (g t) -> forall t', rel1 (put f t st t') (g t').
  Proof. intros R X t'. unfold put. destruct (Nat.eqb_spec t' t) as [->|]; auto. Qed.
  Lemma put_all (Q : status U -> Prop) (f : nat -> status U) t st : (forall t', Q (f t')) -> Q st -> forall t', Q (put f t st t').
  Proof. intros R X t'. unfold put. destruct (Nat.eqb t' t); auto. Qed.
  Lemma now_calls g k t (x : activity U) : (forall t', (k <= t')%nat -> calls_not (g t')) -> ((k <= t)%nat -> calls_not x) ->
    forall t', (k <= t')%nat -> calls_not (now g t x t').
  Proof. intros R X t' L. unfold now. destruct (Nat.eqb_spec t' t) as [->|]; auto. Qed.
  Lemma calls_below k (g : nat -> activity U) t : (forall t', (k <= t')%nat -> calls_not (g t')) -> ~ calls_not (g t) -> forall x, (k <= t)%nat -> calls_not x.
  Proof. intros R X x L. exfalso. apply X, R, L. Qed.
  Lemma not_calls c : ~ calls_not (Calls c). Proof. intros [X|[m X]]; discriminate X. Qed.
  Lemma not_returns c v : ~ calls_not (Returns c v). Proof. intros [X|[m X]]; discriminate X. Qed.

  (** A thread changes its status only. *)
  Lemma joined_put x0 k a d t st : joined x0 k a d -> rel1 st (doing d t) -> recept st -> joined x0 k (a_set a t st) d.
  Proof.
    intros (J1 & J2 & J3 & J4 & J5 & J6 & J7 & J8 & J9) X R. unfold joined. cbn. repeat (split; [assumption|]).
    split; [apply rel_put; assumption|]. split; [assumption|]. split; [assumption|]. split; [assumption|].
    apply (put_all recept); assumption.
  Qed.
  Lemma joined_same x0 k a a' d : joined x0 k a d -> a_nodes a' = a_nodes a -> a_status a' = a_status a -> a_history a' = a_history a ->
    (k <= ModelThreads.next (a_life a'))%nat -> joined x0 k a' d.
  Proof. unfold joined. intros (J1 & J2 & J3 & J4 & J5 & J6 & J7 & J8 & J9) -> -> -> L. repeat (split; [assumption|]). assumption. Qed.
  (** A call takes effect somewhere else. *)
  Lemma joined_elsewhere x0 k a d t c v r : joined x0 k a d -> a_status a t = Pending c -> ~ concerns n oc c ->
    exists d', joined x0 k (a_set a t (Answered c v r)) d'.
  Proof.
    intros (J1 & J2 & J3 & J4 & J5 & J6 & J7 & J8 & J9) T C. pose proof (J5 t) as Rt. rewrite T in Rt. cbn in Rt.
    exists (Shared (contents d) (now (doing d) t (Returns c v)) (wires d ++ []) (past d)). unfold joined. cbn.
    split; [eapply ss_step; [exact J1|]; apply (s_does n oc d t c (contents d) v [] Rt); apply do_other, C|].
    split; [assumption|]. split; [assumption|]. split; [rewrite app_nil_r; assumption|]. split; [apply rel_now; [assumption|reflexivity]|]. split; [assumption|].
    split; [apply now_calls; [assumption|apply (calls_below k (doing d)); [assumption|rewrite Rt; apply not_calls]]|]. split; [assumption|]. apply (put_all recept); [assumption|exact Logic.I].
  Qed.

  Lemma joined_step x0 k a a' d : oc <> 0x0EF001 -> (forall t, sound_status (a_status a t)) -> node_good (snd (fst (a_nodes a n))) ->
    tame_calls (a_history a') -> of_app k (a_history a') -> joined x0 k a d -> astep db what net a a' -> exists d', joined x0 k a' d'.
  Proof.
    intros Np So G Tm Oa J St. pose proof J as (J1 & J2 & J3 & J4 & J5 & J6 & J7 & J8 & J9).
    destruct St as [t c T|t c n0 f y v T Ef Lk X|t c x f y v T Ef Lk X|t n0 ch m T Nm|t n0 ch T|t c v T Rf Ex|t c v T
      |t c v n0 f k' r T|t c v n0 f k' j o r t' T Ef Nt|t c v n0 f k' j o r T|t c v n0 f k' j r t' T|t c v n0 f k' j r T
      |t data from m T Nt Oc Pa|t m T|t T|t m n0 r y T Bd Ob|t m c r y w T Bd Ob|t m n0 r T|t m c r T|t m T
      |t c L T|t m n0 r T|t m c r T|t data T|t m r t' T|t c v n0 f k' j o r t' T|t c v n0 f k' j r t' T];
      pose proof (J5 t) as Rt; rewrite T in Rt; cbn [rel1] in Rt;
      try (exists d; apply joined_put; [exact J|cbn; auto|exact Logic.I]; fail);
      try (exists d; eapply joined_same; [apply (joined_put _ _ _ _ t Gone J); [exact Logic.I|exact Logic.I]| | | |]; try reflexivity; assumption).
    - (* call *)
      assert (Lt : (t < k)%nat). { apply (Oa (ECall t c)). cbn. apply in_or_app. right. left. reflexivity. }
      assert (Tc : tame c). { apply (Tm t c). cbn. apply in_or_app. right. left. reflexivity. }
      exists (Shared (contents d) (now (doing d) t (Calls c)) (wires d) (past d ++ [ECall t c])). unfold joined. cbn.
      split; [eapply ss_step; [exact J1|]; apply s_call, Rt|]. split; [rewrite J2; reflexivity|]. split; [assumption|]. split; [assumption|].
      split; [apply rel_now; [assumption|reflexivity]|]. split; [assumption|]. split; [apply now_calls; [assumption|intros; lia]|]. split; [assumption|]. apply (put_all recept); assumption.
    - (* effect *)
      destruct (Nat.eq_dec n0 n) as [->|Nn].
      + destruct (call_device n oc c f _ _ v _ Np Ef X J3) as (h' & l & D & Sh & Ln).
        exists (Shared h' (now (doing d) t (Returns c v)) (wires d ++ l) (past d)). unfold joined. cbn.
        assert (Pn : put (a_nodes a) n y n = y) by (unfold put; rewrite Nat.eqb_refl; reflexivity). rewrite Pn.
        split; [eapply ss_step; [exact J1|]; apply (s_does n oc d t c h' v l Rt D)|]. split; [assumption|]. split; [exact Sh|]. split; [rewrite Ln, J4; reflexivity|].
        split; [apply rel_now; [assumption|reflexivity]|]. split; [eapply handlers_after; eauto; specialize (J9 t); rewrite T in J9; exact J9|].
        split; [apply now_calls; [assumption|apply (calls_below k (doing d)); [assumption|rewrite Rt; apply not_calls]]|]. split; [assumption|]. apply (put_all recept); [assumption|exact Logic.I].
      + destruct (joined_elsewhere x0 k a d t c v (acts_of c (a_nodes a n0)) J T) as (d' & J').
        { apply not_node_other. intros g E. rewrite Ef in E. inversion E. contradiction. }
        exists d'. unfold joined in *. cbn in *. assert (Pn : put (a_nodes a) n0 y n = a_nodes a n) by (unfold put; destruct (Nat.eqb_spec n n0); [subst; contradiction|reflexivity]).
        rewrite Pn. exact J'.
    - destruct (joined_elsewhere x0 k a d t c v [] J T) as (d' & J'); [apply not_node_other; intros g E; rewrite Ef in E; discriminate|]. exists d'. exact J'.
    - destruct (joined_elsewhere x0 k a d t _ (VGot (Some m)) [] J T) as (d' & J'); [intros []|]. exists d'. exact J'.
    - destruct (joined_elsewhere x0 k a d t _ (VGot None) [] J T) as (d' & J'); [intros []|]. exists d'. exact J'.
    - destruct (joined_elsewhere x0 k a d t c v [] J T) as (d' & J'); [destruct c; cbn in Rf; try discriminate; intros []|]. exists d'. exact J'.
    - (* return *)
      exists (Shared (contents d) (now (doing d) t Free) (wires d) (past d ++ [EReturn t c v])). unfold joined. cbn.
      split; [eapply ss_step; [exact J1|]; apply s_return, Rt|]. split; [rewrite J2; reflexivity|]. split; [assumption|]. split; [assumption|].
      split; [apply rel_now; [assumption|reflexivity]|]. split; [assumption|]. split; [apply now_calls; [assumption|intros _; left; reflexivity]|]. split; [assumption|]. apply (put_all recept); [assumption|exact Logic.I].
    - (* spawn *)
      exists d. eapply joined_same; [apply (joined_put x0 k (a_set a (ModelThreads.next (a_life a)) Listening) d t (Answered c v r))| | | |]; try reflexivity.
      + apply joined_put; [exact J|exact (J7 _ J8)|exact Logic.I].
      + exact Rt.
      + cbn. lia.
    - (* datagram *)
      exists (Shared (contents d) (now (doing d) t (Has (msg_set_from m from))) (wires d) (past d ++ [EGot t (msg_set_from m from)])). unfold joined. cbn.
      split; [eapply ss_step; [exact J1|]; apply s_gets, Rt|]. split; [rewrite J2; reflexivity|]. split; [assumption|]. split; [assumption|].
      split; [apply rel_now; [assumption|reflexivity]|]. split; [assumption|]. split; [apply now_calls; [assumption|intros _; right; eauto]|]. split; [assumption|]. apply (put_all recept); [assumption|exact Logic.I].
    - (* reaction *)
      destruct (Nat.eq_dec n0 n) as [->|Nn].
      + specialize (So t). rewrite T in So. destruct (observe_device oc m _ _ _ So G J6 Ob J3) as (Hh & h' & l & Re & Sh & Ln).
        exists (Shared h' (doing d) (wires d ++ l) (past d)). unfold joined. cbn.
        assert (Pn : put (a_nodes a) n y n = y) by (unfold put; rewrite Nat.eqb_refl; reflexivity). rewrite Pn.
        split; [eapply ss_step; [exact J1|]; apply (s_reacts n oc d t m h' l Rt Re)|]. split; [assumption|]. split; [exact Sh|]. split; [rewrite Ln, J4; reflexivity|].
        split; [apply rel_put; [assumption|exact Rt]|]. split; [rewrite Hh; assumption|].
        split; [assumption|]. split; [assumption|]. apply (put_all recept); [assumption|exact Logic.I].
      + exists d. assert (J' : joined x0 k (a_set a t (Busy m r)) d) by (apply joined_put; [exact J|exact Rt|exact Logic.I]).
        unfold joined in *. cbn in *. assert (Pn : put (a_nodes a) n0 y n = a_nodes a n) by (unfold put; destruct (Nat.eqb_spec n n0); [subst; contradiction|reflexivity]).
        rewrite Pn. exact J'.
    - exists d. apply joined_put; [exact J|cbn; right; eauto|exact Logic.I].
  Qed.

  Lemma tame_app h1 h2 : tame_calls (h1 ++ h2) -> tame_calls h1.
  Proof. intros K t c I. apply (K t c), in_or_app. auto. Qed.
  Lemma of_app_prefix k (h1 h2 : list (event U)) : of_app k (h1 ++ h2) -> of_app k h1.
  Proof. intros K e I. apply (K e), in_or_app. auto. Qed.
  Lemma joined_all ns cs k a : oc <> 0x0EF001 -> (let '(u, x, w) := ns n in reachable u x w) -> Forall hands_off (n_handlers (snd (fst (ns n)))) ->
    asteps db what net (a_begins ns cs k) a -> calls_ok (a_history a) -> tame_calls (a_history a) -> of_app k (a_history a) ->
    exists d, joined (fresh oc (ns n)) k a d.
  Proof.
    intros Np R Ho A. remember (a_begins ns cs k) as a0 eqn:E. induction A as [a|a a1 a2 A IH St]; intros K T O.
    - subst a. exists (fresh oc (ns n)). unfold joined. cbn. split; [apply ss_refl|]. split; [reflexivity|]. split; [apply shows_view|]. split; [reflexivity|].
      split; [intros t; reflexivity|]. split; [exact Ho|]. split; [intros t _; left; reflexivity|]. split; [lia|]. intros t. exact Logic.I.
    - subst a. destruct (kind_history _ _ (step_kind db what net _ _ St)) as (l & Eh). rewrite Eh in K, T, O.
      pose proof (calls_ok_app _ _ K) as K1. pose proof (tame_app _ _ T) as T1. pose proof (of_app_prefix _ _ _ O) as O1. rewrite <- Eh in T, O.
      destruct (IH eq_refl K1 T1 O1) as (d & J). destruct (atomic_runs db what net ns cs k a1 A K1) as [So Ru].
      apply (joined_step (fresh oc (ns n)) k a1 a2 d Np So); [|exact T|exact O|exact J|exact St].
      destruct (Ru n) as (ops & Fo & Er). destruct (ns n) as [[u0 y0] w0], (a_nodes a1 n) as [[u y] w]. cbn [fst snd]. apply (reachable_good u y w).
      destruct R as (np & n0 & u1 & w1 & ops1 & B1 & B2 & B3 & B4). exists np, n0, u1, w1, (ops1 ++ ops). split; [exact B1|]. split; [exact B2|].
      split; [apply Forall_app; auto|]. eapply run_app; eauto.
  Qed.
  (** So is what follows. *)
  Lemma joined_more ns cs k a a' d : oc <> 0x0EF001 -> (let '(u, x, w) := ns n in reachable u x w) ->
    asteps db what net (a_begins ns cs k) a -> joined (fresh oc (ns n)) k a d -> asteps db what net a a' -> calls_ok (a_history a') -> tame_calls (a_history a') -> of_app k (a_history a') ->
    exists d', joined d k a' d'.
  Proof.
    intros Np R A J B. induction B as [a|a a1 a2 B IH St]; intros K T O.
    - exists d. destruct J as (_ & J). split; [apply ss_refl|exact J].
    - destruct (kind_history _ _ (step_kind db what net _ _ St)) as (l & Eh). rewrite Eh in K, T, O.
      pose proof (calls_ok_app _ _ K) as K1. pose proof (tame_app _ _ T) as T1. pose proof (of_app_prefix _ _ _ O) as O1. rewrite <- Eh in T, O.
      destruct (IH A J K1 T1 O1) as (d' & J'). assert (A1 : asteps db what net (a_begins ns cs k) a1).
      { clear - A B. induction B as [b|b b1 b2 B IH St]; [exact A|]. econstructor; [apply IH, A|exact St]. }
      destruct (atomic_runs db what net ns cs k a1 A1 K1) as [So Ru].
      apply (joined_step d k a1 a2 d' Np So); [|exact T|exact O|exact J'|exact St].
      destruct (Ru n) as (ops & Fo & Er). destruct (ns n) as [[u0 y0] w0], (a_nodes a1 n) as [[u y] w]. cbn [fst snd]. apply (reachable_good u y w).
      destruct R as (np & n0 & u1 & w1 & ops1 & B1 & B2 & B3 & B4). exists np, n0, u1, w1, (ops1 ++ ops). split; [exact B1|]. split; [exact B2|].
      split; [apply Forall_app; auto|]. eapply run_app; eauto.
  Qed.
End S.
