(** What a node tells about the devices it had before it was started. *)
From Verif Require Import Base HMap ModelCodec ModelMessages ModelObject ModelTransport ModelNode ModelController ModelDevice ModelThreads
  SpecWire SpecObject SpecNode SpecThreads ProofsCodec ProofsCodec2 ProofsObject ProofsNode ProofsNode2 ProofsNode3 ProofsNode4 PropertiesCodec PropertiesObject PropertiesNode PropertiesTrans
  PropertiesProfile PropertiesTransport ProofsHost2 ProofsExchange ProofsHistory PropertiesFrames ProofsThreads ProofsThreads2 PropertiesThreads ProofsThreads6 ProofsLines
  ProofsClients SpecShared ProofsShared ProofsMesh SpecListed ProofsListed.
From Verif Require ModelLocks.


Section S.
  Context {U : Type} {P : Profile} {HO : HashOrder} {Os : OS}.
  Implicit Types (n : node U).

  Definition no_start (op : node_op U) : Prop := op <> OpStart.
  Lemma idle_send w n to m ok m' n' w' : idle (n_mgr n) -> node_send w n to m = (ok, m', n', w') -> w' = w /\ n_mgr n' = n_mgr n.
  Proof.
    intros [I _] E. unfold node_send in E. destruct (update_tid n m) as [n1 m1] eqn:E1. apply update_tid_keeps in E1 as (_ & _ & M & _).
    unfold manager_send in E. rewrite M, I in E. cbn in E. inversion E; subst. auto.
  Qed.
  Lemma idle_notify w n m ok m' n' w' : idle (n_mgr n) -> node_notify w n m = (ok, m', n', w') -> w' = w /\ n_mgr n' = n_mgr n.
  Proof.
    intros [_ I] E. unfold node_notify in E. destruct (update_tid n m) as [n1 m1] eqn:E1. apply update_tid_keeps in E1 as (_ & _ & M & _).
    unfold manager_notify in E. rewrite M, I in E. cbn in E. inversion E; subst. auto.
  Qed.
  (** A node without servers sends nothing. *)
  Lemma idle_step (u : U) n w op u' n' w' : op_ok op -> fair_op op -> no_start op -> idle (n_mgr n) -> node_step (u, n, w) op = Ret (u', n', w') ->
    idle (n_mgr n') /\ offered (w_trace w') = offered (w_trace w).
  Proof.
    intros K Fo Ns I E.
    assert (Q : n_mgr n' = n_mgr n -> w' = w -> idle (n_mgr n') /\ offered (w_trace w') = offered (w_trace w)) by (intros -> ->; auto).
    assert (Qs : quiet op -> w' = w -> idle (n_mgr n') /\ offered (w_trace w') = offered (w_trace w)) by (intros X; apply Q; eapply quiet_step; eauto).
    destruct op; cbn [node_step] in E; cbn [op_ok] in K; cbn [fair_op] in Fo; try contradiction.
    - apply Qs; [exact Logic.I|]. destruct (node_add_object n o) as [n1|]; cbn [obind] in E; [|discriminate]. inversion E; auto.
    - apply Qs; [exact Logic.I|]. inversion E; auto.
    - inversion E; subst. auto.
    - apply Qs; [exact Logic.I|]. inversion E; auto.
    - destruct (node_send w n to m) as [[[b m1] n1] w1] eqn:E1. inversion E; subst. destruct (idle_send _ _ _ _ _ _ _ _ I E1). auto.
    - destruct (node_post w n to m) as [[[b m1] n1] w1] eqn:E1. inversion E; subst. pose proof E1 as E0.
      apply node_post_spec in E0 as (_ & _ & n2 & ok & tr & A & -> & B & _ & F & _). apply update_tid_keeps in A as (_ & _ & A & _). split; [cbn; rewrite A; exact I|].
      unfold node_post in E1. destruct (update_tid n m) as [n3 m3] eqn:E3. apply update_tid_keeps in E3 as (_ & _ & E3 & _). unfold manager_send in E1. cbn [n_mgr n_with_post] in E1. rewrite E3, (proj1 I) in E1.
      cbn [ucast_send] in E1. assert (X : w' = {| w_calls := w_calls w; w_trace := w_trace w; w_chan := w_chan w + 1 |}) by congruence. rewrite X. reflexivity.
    - destruct (node_notify w n m) as [[[b m1] n1] w1] eqn:E1. inversion E; subst. destruct (idle_notify _ _ _ _ _ _ _ I E1). auto.
    - apply Qs; [exact Logic.I|]. destruct (node_announce w n) as [[b n1] w1] eqn:E1. inversion E; subst. unfold node_announce in E1.
      destruct (find_object _ _) as [o|]; [|inversion E1; auto]. destruct (object_find_property _ _) as [p|]; [|inversion E1; auto].
      destruct (node_notify _ _ _) as [[[b2 m2] n2] w2] eqn:E2. inversion E1; subst. eapply idle_notify; eauto.
    - destruct (node_stop n) as [[b n1]|] eqn:E1; cbn [obind snd] in E; [|discriminate]. inversion E; subst. split; [exact (proj2 (C65_node_stop _ _ _ E1))|reflexivity].
    - destruct (node_observe w u n m) as [[[u1 n1] w1]|] eqn:E1; cbn [obind] in E; [|discriminate]. inversion E; subst. clear E Q Qs.
      rewrite observe_eq in E1. destruct (deliver w n m) as [[n2 w2]|] eqn:E2; cbn [obind] in E1; [|discriminate].
      destruct (node_message_received _ u n2 m) as [[[u3 n3] res]|] eqn:E3; cbn [obind] in E1; [|discriminate].
      destruct (respond (tick w2) n3 m res) as [n4 w4] eqn:E4. inversion E1; subst. clear E1.
      apply deliver_spec in E2 as (t1 & A1 & _ & A3). apply delivered_keeps in A3 as (_ & _ & M & _ & _ & O1 & _).
      assert (I3 : idle (n_mgr n3)) by (apply handled_spec in E3; assert (M3 : n_mgr n3 = n_mgr n2) by (inversion E3; reflexivity); rewrite M3, M; exact I).
      assert (O2 : offered (w_trace (tick w2)) = offered (w_trace w)) by (cbn; rewrite A1, offered_app, O1, app_nil_r; reflexivity).
      unfold respond in E4. destruct res as [r|]; [|inversion E4; subst; auto]. destruct (esv_is_response (msg_esv r)); [|inversion E4; subst; auto].
      destruct (esv_is_unicast_response (msg_esv r)).
      + destruct (node_send _ _ _ _) as [[[b1 m1] n5] w5] eqn:E5. apply idle_send in E5 as [X Y]; [|exact I3]. inversion E4; subst. rewrite Y. auto.
      + destruct (node_notify _ _ _) as [[[b1 m1] n5] w5] eqn:E5. apply idle_notify in E5 as [X Y]; [|exact I3]. inversion E4; subst. rewrite Y. auto.
  Qed.
  Lemma idle_run ops : forall (u : U) n w u' n' w', Forall op_ok ops -> Forall fair_op ops -> Forall no_start ops -> idle (n_mgr n) ->
    node_run (u, n, w) ops = Ret (u', n', w') -> offered (w_trace w') = offered (w_trace w).
  Proof.
    induction ops as [|op r IH]; intros u n w u' n' w' K F N I E; cbn [node_run] in E; [inversion E; reflexivity|].
    destruct (node_step (u, n, w) op) as [[[u1 n1] w1]|] eqn:E1; cbn [obind] in E; [|discriminate].
    inversion K; inversion F; inversion N; subst. destruct (idle_step u n w op u1 n1 w1) as [I1 <-]; auto. eapply IH; eauto.
  Qed.
  Lemma run_split ops1 : forall s ops2 (s' : U * node U * world), node_run s (ops1 ++ ops2) = Ret s' -> exists s1, node_run s ops1 = Ret s1 /\ node_run s1 ops2 = Ret s'.
  Proof.
    induction ops1 as [|op r IH]; intros s ops2 s' E; cbn [app node_run] in *; [eauto|]. destruct (node_step s op) as [s1|]; cbn [obind] in *; [|discriminate]. apply IH, E.
  Qed.
End S.

Section T.
  Context {U : Type} {P : Profile} {HO : HashOrder} {Os : OS} {Uu : Uuids} (db : list object) (what : observer -> obs) (net : bool).
  Context (n : nat).
  Implicit Types (a : state U).

  Lemma started_app (h h' : list (event U)) : started n (h ++ h') = started n h || started n h'.
  Proof. apply existsb_app. Qed.
  Lemma early_on (h h' : list (event U)) : started n h = true -> early n (h ++ h') = early n h.
  Proof.
    induction h as [|e h IH]; [discriminate|]. intros E. cbn [app early]. unfold started in E. cbn [existsb] in E. destruct (starts n e); [reflexivity|]. rewrite IH by exact E. reflexivity.
  Qed.
  Lemma early_app (h h' : list (event U)) : started n h = false -> early n (h ++ h') = early n h ++ early n h'.
  Proof.
    induction h as [|e h IH]; [reflexivity|]. intros E. cbn [app early]. unfold started in E. cbn [existsb] in E. apply orb_false_iff in E as [E1 E2]. rewrite E1, IH by exact E2. apply app_assoc.
  Qed.
  Lemma adds1_off (c : call U) n0 f : effect_of c = AtNode n0 f -> n <> n0 -> adds1 n c = [].
  Proof. intros E Nn. destruct c; cbn in *; inversion E; subst; try reflexivity; destruct (Nat.eqb_spec n0 n); congruence. Qed.
  Lemma starts_only (c : call U) f : effect_of c = AtNode n f -> (forall d, c <> CStart d n) -> Forall no_start (ops_of c).
  Proof.
    intros E N. destruct c; cbn in *; inversion E; subst; repeat (apply Forall_cons || apply Forall_nil); try discriminate. intros _. exact (N d eq_refl).
  Qed.

  (** An effect on a node, or no call that adds a device is answered. *)
  Lemma step_answers a a' : astep db what net a a' ->
    (exists t c n0 f d v r, a_status a t = Pending c /\ effect_of c = AtNode n0 f /\ f (a_nodes a n0) = Ret (d, v) /\ a' = a_node (a_set a t (Answered c v r)) n0 d) \/
    (forall t c v r, a_status a' t = Answered c v r -> adds1 n c <> [] -> exists v0 r0, a_status a t = Answered c v0 r0).
  Proof.
    assert (Pt : forall t st, (forall c v r, st = Answered c v r -> adds1 n c = [] \/ exists v0 r0, a_status a t = Answered c v0 r0) ->
      forall t' c v r, put (a_status a) t st t' = Answered c v r -> adds1 n c <> [] -> exists v0 r0, a_status a t' = Answered c v0 r0).
    { intros t st H t' c v r. unfold put. destruct (Nat.eqb_spec t' t) as [->|]; [|eauto]. intros E Na. destruct (H c v r E) as [X|X]; [contradiction|exact X]. }
    intros St. destruct St as [t c T|t c n0 f d v T Ef Lk X|t c x f d v T Ef Lk X|t n0 ch m T Nm|t n0 ch T|t c v T Rf Ex|t c v T
      |t c v n0 f k' r T|t c v n0 f k' j o r t' T|t c v n0 f k' j o r T|t c v n0 f k' j r t' T|t c v n0 f k' j r T
      |t data from m T Nt Oc Pa|t m T|t T|t m n0 r d T Bd Ob|t m c r d w T Bd Ob|t m n0 r T|t m c r T|t m T
      |t c L T|t m n0 r T|t m c r T|t data T|t m r t' T|t c v n0 f k' j o r t' T|t c v n0 f k' j r t' T];
      try (right; apply Pt; intros; first [discriminate|right; match goal with H : Answered _ _ _ = Answered _ _ _ |- _ => inversion H; subst end; eauto; fail]; fail).
    - left. exists t, c, n0, f, d, v. eauto 8.
    - right. apply Pt. intros c0 v0 r E. inversion E; subst. left. destruct c0; cbn in Ef; try discriminate; reflexivity.
    - right. apply Pt. intros c0 v0 r E. inversion E; subst. left. reflexivity.
    - right. apply Pt. intros c0 v0 r E. inversion E; subst. left. reflexivity.
    - right. apply Pt. intros c0 v0 r E. inversion E; subst. left. destruct c0; cbn in Rf; try discriminate; reflexivity.
    - right. intros t1 c1 v1 r1. cbn. unfold put. destruct (Nat.eqb_spec t1 t) as [->|]; [intros E; inversion E; subst; eauto|]. destruct (Nat.eqb t1 _); [discriminate|eauto].
  Qed.

  Record kept (k : nat) (x0 : nstate U) a : Prop := {
    kp_waits : forall t, waits k t (a_status a t);
    kp_begun : forall t d, a_status a t = Pending (CStart d n) -> started n (a_history a) = true;
    kp_run : exists pre post, Forall op_ok (pre ++ post) /\ Forall fair_op (pre ++ post) /\ node_run x0 (pre ++ post) = Ret (a_nodes a n) /\
      incl (added (pre ++ post)) (adds n (a_history a)) /\ (length (added (pre ++ post)) + total n k (a_status a) <= length (adds n (a_history a)))%nat /\
      (forall t, incl (match a_status a t with Pending c => adds1 n c | _ => [] end) (adds n (a_history a))) /\
      Forall no_start pre /\ incl (early n (a_history a)) (added pre) /\
      (started n (a_history a) = false -> post = [] /\ forall t c v r, a_status a t = Answered c v r -> incl (adds1 n c) (added pre)) }.
  Lemma pend_put (f : nat -> status U) (l : list N) t x : (forall c, x <> Pending c) -> (forall t', incl (match f t' with Pending c => adds1 n c | _ => [] end) l) ->
    forall t', incl (match put f t x t' with Pending c => adds1 n c | _ => [] end) l.
  Proof. intros Np H t'. unfold put. destruct (Nat.eqb_spec t' t) as [->|]; [|apply H]. destruct x; try (intros z []). exfalso. eapply Np; reflexivity. Qed.
  Lemma begun_put (f : nat -> status U) (b : bool) t x : (forall c, x <> Pending c) -> (forall t' d, f t' = Pending (CStart d n) -> b = true) ->
    forall t' d, put f t x t' = Pending (CStart d n) -> b = true.
  Proof. intros Np H t' d. unfold put. destruct (Nat.eqb_spec t' t) as [->|]; [|apply H]. intros E. exfalso. eapply Np; exact E. Qed.

  Lemma kept_effect k x0 a t c n0 f d v r : kept k x0 a -> (forall t, sound_status (a_status a t)) -> a_status a t = Pending c -> effect_of c = AtNode n0 f ->
    f (a_nodes a n0) = Ret (d, v) -> kept k x0 (a_node (a_set a t (Answered c v r)) n0 d).
  Proof.
    intros [W B (pre & post & K & F & R & In1 & Ln & In2 & Np & Ea & Ns)] So T Ef X.
    pose proof (W t) as Wt. rewrite T in Wt. destruct Wt as [Lt Fc]. pose proof (So t) as Sc. rewrite T in Sc. cbn in Sc.
    pose proof (total_put n k (a_status a) t (Answered c v r) Lt) as Tp. rewrite T in Tp. cbn [pend] in Tp.
    pose proof (In2 t) as In2t. rewrite T in In2t.
    split; cbn [a_status a_node a_set a_history a_nodes]; [apply waits_put; [exact W|exact Logic.I]|apply begun_put; [discriminate|exact B]|].
    assert (Ep : put (a_nodes a) n0 d n = if Nat.eqb n n0 then d else a_nodes a n) by reflexivity. rewrite Ep. destruct (Nat.eqb_spec n n0) as [<-|Nn].
    - pose proof (adds1_at _ _ _ Ef) as Ec. 
      assert (Eb : added ((pre ++ post) ++ ops_of c) = added (pre ++ post) ++ adds1 n c) by (unfold added; rewrite flat_map_app; rewrite Ec; reflexivity).
      assert (G : Forall op_ok ((pre ++ post) ++ ops_of c) /\ Forall fair_op ((pre ++ post) ++ ops_of c) /\ node_run x0 ((pre ++ post) ++ ops_of c) = Ret d /\
        incl (added ((pre ++ post) ++ ops_of c)) (adds n (a_history a)) /\ (length (added ((pre ++ post) ++ ops_of c)) + total n k (put (a_status a) t (Answered c v r)) <= length (adds n (a_history a)))%nat).
      { split; [apply Forall_app; split; [exact K|apply ops_ok, Sc]|]. split; [apply Forall_app; split; [exact F|apply ops_fair, Fc]|].
        split; [eapply run_app; [exact R|]; eapply effect_ops; eauto|]. rewrite Eb, app_length. split; [|lia]. apply incl_app; assumption. }
      destruct (started n (a_history a)) eqn:Sd.
      + exists pre, (post ++ ops_of c). rewrite app_assoc. destruct G as (G1 & G2 & G3 & G4 & G5).
        do 5 (split; [assumption|]). split; [apply pend_put; [discriminate|exact In2]|]. split; [exact Np|]. split; [exact Ea|discriminate].
      + destruct (Ns eq_refl) as [-> Na]. rewrite app_nil_r in *. exists (pre ++ ops_of c), []. rewrite app_nil_r. destruct G as (G1 & G2 & G3 & G4 & G5).
        do 5 (split; [assumption|]). split; [apply pend_put; [discriminate|exact In2]|].
        split; [apply Forall_app; split; [exact Np|eapply starts_only; [exact Ef|]; intros d0 ->; specialize (B t d0 T); congruence]|].
        rewrite Eb. split; [apply incl_appl, Ea|]. intros _. split; [reflexivity|]. intros t1 c1 v1 r1. unfold put.
        destruct (Nat.eqb_spec t1 t) as [->|]; [intros E1; inversion E1; subst; apply incl_appr, incl_refl|intros E1; apply incl_appl, (Na _ _ _ _ E1)].
    - exists pre, post. do 4 (split; [assumption|]). split; [lia|]. split; [apply pend_put; [discriminate|exact In2]|]. split; [exact Np|]. split; [exact Ea|].
      intros Sd. destruct (Ns Sd) as [-> Na]. split; [reflexivity|]. intros t1 c1 v1 r1. unfold put.
      destruct (Nat.eqb_spec t1 t) as [->|]; [intros E1; inversion E1; subst; rewrite (adds1_off _ _ _ Ef Nn); intros z []|intros E1; exact (Na _ _ _ _ E1)].
  Qed.

  Lemma kept_step k x0 a a' : kept k x0 a -> (forall t, sound_status (a_status a t)) -> of_app k (a_history a') -> all_fair (a_history a') ->
    astep db what net a a' -> kept k x0 a'.
  Proof.
    intros Kp So Oa Fa St. pose proof (step_kind db what net _ _ St) as Ks.
    destruct (step_answers _ _ St) as [(t & c & n0 & f & d & v & r & T & Ef & X & ->)|An]; [eapply kept_effect; eauto|]. clear St.
    destruct Ks as [a' En Eh Er Tu|t c T|t c n0 f d v r T Ef X|t n0 ch m T Nm|t c v T|t m T Rc|t m n0 r d T Ob]; [| |eapply kept_effect; eauto| | | |];
      destruct Kp as [W B (pre & post & K & F & R & In1 & Ln & In2 & Np & Ea & Ns)].
    - split; [intros t; specialize (Tu t); specialize (W t); destruct Tu as [st|st st' D|c v r r'|m r|m r r'|c v r _]; try exact Logic.I; [exact W|]; destruct st'; try contradiction; exact Logic.I| |].
      + intros t d E. rewrite Eh. apply (B t d). specialize (Tu t). rewrite E in Tu. inversion Tu; subst; [reflexivity|contradiction].
      + exists pre, post. rewrite En, Eh. do 4 (split; [assumption|]). split; [|split; [|split; [exact Np|split; [exact Ea|]]]].
        * assert (Y : (total n k (a_status a') <= total n k (a_status a))%nat); [|lia]. apply total_le. intros t. destruct (Tu t) as [st|st st' D|c v r r'|m r|m r r'|c v r _]; cbn; try lia. destruct st'; try contradiction; cbn; lia.
        * intros t. specialize (In2 t). destruct (Tu t) as [st|st st' D|c v r r'|m r|m r r'|c v r _]; try (exact In2); try (intros z []; fail). destruct st'; try contradiction; intros z [].
        * intros Sd. destruct (Ns Sd) as [-> Na]. split; [reflexivity|]. intros t c v r E. destruct (adds1 n c) as [|y l] eqn:Ec; [intros z []|].
          destruct (An t c v r E) as (v0 & r0 & E0); [rewrite Ec; discriminate|]. specialize (Na _ _ _ _ E0). rewrite Ec in Na. exact Na.
    - assert (Lt : (t < k)%nat) by (apply (Oa (ECall t c)); cbn; apply in_or_app; right; left; reflexivity).
      assert (Fc : fair c) by (apply (Fa t c); cbn; apply in_or_app; right; left; reflexivity).
      assert (Ec : adds n (a_history a ++ [ECall t c]) = adds n (a_history a) ++ adds1 n c) by (rewrite adds_app; cbn; rewrite app_nil_r; reflexivity).
      assert (Ee : early n (a_history a ++ [ECall t c]) = early n (a_history a)).
      { destruct (started n (a_history a)) eqn:Sd; [apply early_on, Sd|]. rewrite early_app by exact Sd. cbn [early app]. destruct (starts n (ECall t c)); apply app_nil_r. }
      split; cbn [a_status a_seen a_set a_history a_nodes].
      + apply waits_put; [exact W|]. split; assumption.
      + intros t1 d. rewrite started_app. unfold put. destruct (Nat.eqb_spec t1 t) as [->|]; [|intros E; rewrite (B _ _ E); reflexivity].
        intros E. inversion E; subst. cbn [started existsb starts]. rewrite Nat.eqb_refl. apply orb_true_r.
      + exists pre, post. rewrite Ec, Ee. do 3 (split; [assumption|]). split; [apply incl_appl, In1|]. split.
        { pose proof (total_put n k (a_status a) t (Pending c) Lt) as X. rewrite T in X. cbn [pend] in X. rewrite app_length. lia. }
        split; [intros t'; unfold put; destruct (Nat.eqb_spec t' t) as [->|]; [apply incl_appr, incl_refl|apply incl_appl, In2]|]. split; [exact Np|]. split; [exact Ea|].
        rewrite started_app. intros Sd. apply orb_false_iff in Sd as [Sd _]. destruct (Ns Sd) as [-> Na]. split; [reflexivity|].
        intros t1 c1 v1 r1. unfold put. destruct (Nat.eqb_spec t1 t) as [->|]; [discriminate|apply Na].
    - split; cbn [a_status a_read a_set a_history a_nodes]; [apply waits_put; [exact W|exact Logic.I]|apply begun_put; [discriminate|exact B]|]. exists pre, post.
      do 4 (split; [assumption|]). split; [pose proof (total_dull n k (a_status a) t (Answered (CWait n0 ch) (VGot (Some m)) []) eq_refl); lia|].
      split; [apply pend_put; [discriminate|exact In2]|]. split; [exact Np|]. split; [exact Ea|]. intros Sd. destruct (Ns Sd) as [-> Na]. split; [reflexivity|].
      intros t1 c1 v1 r1. unfold put. destruct (Nat.eqb_spec t1 t) as [->|]; [intros E; inversion E; subst; intros z []|apply Na].
    - assert (Ec : adds n (a_history a ++ [EReturn t c v]) = adds n (a_history a)) by (rewrite adds_app; apply app_nil_r).
      assert (Es : started n (a_history a ++ [EReturn t c v]) = started n (a_history a)) by (rewrite started_app; apply orb_false_r).
      split; cbn [a_status a_seen a_set a_history a_nodes]; [apply waits_put; [exact W|exact Logic.I]|rewrite Es; apply begun_put; [discriminate|exact B]|]. exists pre, post. rewrite Ec, Es.
      do 4 (split; [assumption|]). split; [pose proof (total_dull n k (a_status a) t Idle eq_refl); lia|].
      split; [apply pend_put; [discriminate|exact In2]|]. split; [exact Np|]. split.
      + destruct (started n (a_history a)) eqn:Sd; [rewrite early_on by exact Sd; exact Ea|]. rewrite early_app by exact Sd. apply incl_app; [exact Ea|].
        cbn [early starts]. rewrite app_nil_r. exact (proj2 (Ns eq_refl) _ _ _ _ T).
      + intros Sd. destruct (Ns Sd) as [-> Na]. split; [reflexivity|]. intros t1 c1 v1 r1. unfold put. destruct (Nat.eqb_spec t1 t) as [->|]; [discriminate|apply Na].
    - assert (Ec : adds n (a_history a ++ [EGot t m]) = adds n (a_history a)) by (rewrite adds_app; apply app_nil_r).
      assert (Es : started n (a_history a ++ [EGot t m]) = started n (a_history a)) by (rewrite started_app; apply orb_false_r).
      assert (Ee : early n (a_history a ++ [EGot t m]) = early n (a_history a)).
      { destruct (started n (a_history a)) eqn:Sd; [apply early_on, Sd|]. rewrite early_app by exact Sd. apply app_nil_r. }
      split; cbn [a_status a_seen a_set a_history a_nodes]; [apply waits_put; [exact W|exact Logic.I]|rewrite Es; apply begun_put; [discriminate|exact B]|]. exists pre, post. rewrite Ec, Es, Ee.
      do 4 (split; [assumption|]). split; [pose proof (total_dull n k (a_status a) t (Got m) eq_refl); lia|].
      split; [apply pend_put; [discriminate|exact In2]|]. split; [exact Np|]. split; [exact Ea|].
      intros Sd. destruct (Ns Sd) as [-> Na]. split; [reflexivity|]. intros t1 c1 v1 r1. unfold put. destruct (Nat.eqb_spec t1 t) as [->|]; [discriminate|apply Na].
    - pose proof (So t) as Sc. rewrite T in Sc. cbn in Sc. pose proof (total_dull n k (a_status a) t (Busy m r) eq_refl) as Tp.
      assert (Ad : started n (a_history a) = false -> post = [] /\ forall t1 c1 v1 r1, put (a_status a) t (Busy m r) t1 = Answered c1 v1 r1 -> incl (adds1 n c1) (added pre)).
      { intros Sd. destruct (Ns Sd) as [-> Na]. split; [reflexivity|]. intros t1 c1 v1 r1. unfold put. destruct (Nat.eqb_spec t1 t) as [->|]; [discriminate|apply Na]. }
      split; cbn [a_status a_node a_set a_history a_nodes]; [apply waits_put; [exact W|exact Logic.I]|apply begun_put; [discriminate|exact B]|].
      assert (Ep : put (a_nodes a) n0 d n = if Nat.eqb n n0 then d else a_nodes a n) by reflexivity. rewrite Ep. destruct (Nat.eqb_spec n n0) as [<-|Nn].
      + assert (Eb : forall l : list (node_op U), added (l ++ [OpRecv m]) = added l) by (intros l; unfold added; rewrite flat_map_app; apply app_nil_r).
        assert (G : Forall op_ok ((pre ++ post) ++ [OpRecv m]) /\ Forall fair_op ((pre ++ post) ++ [OpRecv m]) /\ node_run x0 ((pre ++ post) ++ [OpRecv m]) = Ret d).
        { split; [apply Forall_app; split; [exact K|constructor; [exact Sc|constructor]]|]. split; [apply Forall_app; split; [exact F|constructor; [exact Logic.I|constructor]]|].
          eapply run_app; [exact R|]. unfold observed in Ob. destruct (a_nodes a n) as [[u x] w]. cbn. rewrite Ob. cbn. destruct d as [[u' x'] w']. reflexivity. }
        destruct (started n (a_history a)) eqn:Sd.
        * exists pre, (post ++ [OpRecv m]). rewrite app_assoc, Eb. destruct G as (G1 & G2 & G3). do 4 (split; [assumption|]). split; [lia|].
          split; [apply pend_put; [discriminate|exact In2]|]. split; [exact Np|]. split; [exact Ea|discriminate].
        * destruct (Ad eq_refl) as [-> Na]. rewrite app_nil_r in *. exists (pre ++ [OpRecv m]), []. rewrite app_nil_r, Eb. destruct G as (G1 & G2 & G3). do 4 (split; [assumption|]). split; [lia|].
          split; [apply pend_put; [discriminate|exact In2]|]. split; [apply Forall_app; split; [exact Np|constructor; [discriminate|constructor]]|]. split; [exact Ea|].
          intros _. split; [reflexivity|exact Na].
      + exists pre, post. do 4 (split; [assumption|]). split; [lia|]. split; [apply pend_put; [discriminate|exact In2]|]. split; [exact Np|]. split; [exact Ea|exact Ad].
  Qed.
  Lemma kept_all ns cs k a : asteps db what net (a_begins ns cs k) a -> calls_ok (a_history a) -> of_app k (a_history a) -> all_fair (a_history a) -> kept k (ns n) a.
  Proof.
    intros A. remember (a_begins ns cs k) as a0 eqn:E. induction A as [a|a a1 a2 A IH St]; intros K Oa Fa; subst.
    - split; [intros t; exact Logic.I|intros t d X; discriminate X|]. exists [], []. split; [constructor|]. split; [constructor|]. split; [reflexivity|]. split; [intros x []|].
      split; [|split; [intros t x []|split; [constructor|split; [intros x []|]]]].
      + cbn. unfold total. cbn. induction (seq 0 k); [reflexivity|assumption].
      + intros _. split; [reflexivity|]. intros t c v r X. discriminate X.
    - pose proof (step_kind db what net _ _ St) as Ks. destruct (kind_history _ _ Ks) as (l & Eh).
      assert (K1 : calls_ok (a_history a1)) by (rewrite Eh in K; exact (calls_ok_app _ _ K)).
      eapply kept_step; [apply IH; [reflexivity|exact K1| |]|exact (proj1 (atomic_runs db what net ns cs k a1 A K1))|exact Oa|exact Fa|exact St];
        rewrite Eh in Oa, Fa; [intros e I; apply Oa, in_or_app; auto|intros t c I; apply (Fa t c), in_or_app; auto].
  Qed.
End T.
