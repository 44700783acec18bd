(** Properties of transactions: C52 to C58. *)
From Verif Require Import Base HMap ModelCodec ModelMessages ModelObject ModelTransport ModelNode
  SpecWire SpecObject SpecNode ProofsCodec ProofsCodec2 PropertiesCodec ProofsObject ProofsObject2 ProofsObject3
  PropertiesObject ProofsNode ProofsNode2 ProofsNode3 ProofsNode4 ExamplesNode.

Lemma NoDup_app_snoc {A} (l : list A) x : NoDup l -> ~ In x l -> NoDup (l ++ [x]).
Proof.
  intros H I. apply (Permutation_NoDup (l := x :: l)); [|constructor; auto]. apply Permutation_cons_append.
Qed.

Section S.
  Context {U : Type} {P : Profile} {HO : HashOrder} {Os : OS}.

  (** ** C52: Transaction identifiers *)
  (** The next [k] TIDs which a node chooses. *)
  Fixpoint chosen (k : nat) (n : node U) : list N :=
    match k with
    | O => []
    | S k => let '(n, t) := next_tid n in t :: chosen k n
    end.
  Lemma next_mod t : t < 65536 -> next t = (t + 1) mod 65536.
  Proof. intro H. unfold next. destruct (N.leb_spec 65535 t); lia. Qed.
  Lemma chosen_nth k : forall n i, n_last_tid n < 65536 -> (i < k)%nat -> nth i (chosen k n) 0 = (n_last_tid n + 1 + N.of_nat i) mod 65536.
  Proof.
    induction k as [|k IH]; intros n i H L; [lia|]. unfold chosen; fold chosen. cbn [next_tid].
    change (if TID_MAX <=? n_last_tid n then TID_MIN else n_last_tid n + 1) with (next (n_last_tid n)). rewrite next_mod by auto.
    destruct i as [|i]; cbn [nth].
    - f_equal. lia.
    - rewrite IH; cbn [n_with_tid n_last_tid]; [|lia|lia]. lia.
  Qed.
  Lemma chosen_length k : forall n, length (chosen k n) = k.
  Proof. induction k as [|k IH]; intro n; cbn; auto. Qed.
  (** Any 65536 successive TIDs are distinct and less than 65536. *)
  Theorem C52_distinct_partial : forall (n : node U) k, n_last_tid n < 65536 -> N.of_nat k <= 65536 ->
    NoDup (chosen k n) /\ Forall (fun t => t < 65536) (chosen k n).
  Proof.
    intros n k H L. split.
    - apply (NoDup_nth _ 0). rewrite chosen_length. intros i j Li Lj E. rewrite !chosen_nth in E by auto. lia.
    - apply Forall_forall. intros t I. apply (In_nth _ _ 0) in I as (i & Li & E). rewrite chosen_length in Li.
      rewrite chosen_nth in E by auto. lia.
  Qed.
  (** The bound on [n_last_tid] holds in all reachable states. *)
  Lemma update_tid_bound (n n' : node U) m m' : update_tid n m = (n', m') -> n_last_tid n < 65536 -> n_last_tid n' < 65536.
  Proof.
    intros E H. apply update_tid_spec in E as [(_ & -> & _)|(_ & -> & _)]; auto. cbn. rewrite next_mod by auto. lia.
  Qed.
  Lemma announce_bound w (n : node U) ok n' w' : node_announce w n = (ok, n', w') -> n_last_tid n < 65536 -> n_last_tid n' < 65536.
  Proof.
    unfold node_announce. destruct (find_object _ _); [|intro H; inversion H; subst; auto].
    destruct (object_find_property _ _); [|intro H; inversion H; subst; auto].
    destruct (node_notify w n _) as [[[? ?] ?] ?] eqn:E. intro H. inversion H; subst. apply node_notify_spec in E as [E _].
    eapply update_tid_bound; eauto.
  Qed.
  Lemma add_object_tid (n n' : node U) o : node_add_object n o = Ret n' ->
    n_last_tid n' = n_last_tid n /\ n_post n' = n_post n /\ n_mgr n' = n_mgr n /\ n_handlers n' = n_handlers n /\ n_observers n' = n_observers n.
  Proof. intro E. destruct (add_object_eq n o) as (os & E' & _). rewrite E in E'. inversion E'; subst. cbn. auto 10. Qed.
  Lemma observe_parts w (u : U) n m u' n' w' : received m -> node_observe w u n m = Ret (u', n', w') ->
    exists t1 t2 n1 n2 res, since w w' (t1 ++ t2) /\ w_chan w' = w_chan w /\ delivered n m n1 t1 /\
      (exists seed, handled seed u n1 m u' n2 res) /\ reaction m n2 res n' t2 /\
      n_last_tid n2 = n_last_tid n /\ n_post n2 = n_post n1 /\ n_post n' = n_post n1.
  Proof.
    intros R E. apply received_rcvd in R as [W L B].
    destruct (observe_spec w u n m u' n' w' W B E) as (n1 & w1 & t1 & n2 & res & t2 & S & C & Dl & D & H & Rc).
    exists t1, t2, n1, n2, res. split; auto. split; auto. split; auto. split; [eauto|]. split; auto.
    apply delivered_keeps in D as (_ & _ & _ & D & _). apply reaction_keeps in Rc as (_ & _ & _ & X & _).
    assert (Y : n_last_tid n2 = n_last_tid n1 /\ n_post n2 = n_post n1) by (inversion H; subst; cbn; auto).
    destruct Y as [Y1 Y2]. rewrite Y1, X, Y2. auto.
  Qed.
  Lemma reaction_tid m (n : node U) res n' tr : reaction m n res n' tr -> n_last_tid n < 65536 -> n_last_tid n' < 65536.
  Proof. intros R H. inversion R; subst; auto. eapply update_tid_bound; eauto. Qed.
  Lemma step_tid (u : U) n w op u' n' w' : op_ok op -> node_step (u, n, w) op = Ret (u', n', w') -> n_last_tid n < 65536 -> n_last_tid n' < 65536.
  Proof.
    intros K E H. destruct op; cbn [node_step] in E; cbn [op_ok] in K.
    - destruct (node_add_object n o) as [n1|] eqn:E1; cbn [obind] in E; [|discriminate]. inversion E; subst.
      apply add_object_tid in E1 as [E1 _]. congruence.
    - inversion E; subst. auto.
    - inversion E; subst. auto.
    - inversion E; subst. unfold set_data. destruct (find_object _ _); auto.
    - destruct (node_send w n to m) as [[[b m1] n1] w1] eqn:E1. inversion E; subst.
      apply node_send_spec in E1 as (A & _). eapply update_tid_bound; eauto.
    - destruct (node_post w n to m) as [[[b m1] n1] w1] eqn:E1. inversion E; subst.
      apply node_post_spec in E1 as (_ & _ & n2 & ok & tr & A & -> & _). cbn. eapply update_tid_bound; eauto.
    - destruct (node_notify w n m) as [[[b m1] n1] w1] eqn:E1. inversion E; subst.
      apply node_notify_spec in E1 as (A & _). eapply update_tid_bound; eauto.
    - destruct (node_announce w n) as [[b n1] w1] eqn:E1. inversion E; subst. eapply announce_bound; eauto.
    - unfold node_announce_property in E. destruct (node_notify w n _) as [[[b m1] n1] w1] eqn:E1. inversion E; subst.
      apply node_notify_spec in E1 as (A & _). eapply update_tid_bound; eauto.
    - destruct (node_start w n) as [[[b n1] w1]|] eqn:E1; cbn [obind] in E; [|discriminate]. inversion E; subst.
      apply node_start_spec in E1 as (ok1 & m1 & w2 & _ & _ & [(_ & _ & -> & _)|(_ & m2 & _ & A)]); auto.
      eapply announce_bound; eauto.
    - destruct (node_stop n) as [[b n1]|] eqn:E1; cbn [obind] in E; [|discriminate]. inversion E; subst. unfold node_stop in E1.
      destruct (manager_stop _) as [x|]; cbn [obind] in E1; [|discriminate]. inversion E1; subst. auto.
    - destruct (node_observe w u n m) as [[[u1 n1] w1]|] eqn:E1; cbn [obind] in E; [|discriminate]. inversion E; subst.
      destruct (observe_parts w u n m u' n' w' K E1) as (t1 & t2 & n1 & n2 & res & _ & _ & _ & _ & Rc & T & _).
      eapply reaction_tid; eauto. congruence.
  Qed.
  Lemma run_tid ops : forall (u : U) n w u' n' w', Forall op_ok ops -> n_last_tid n < 65536 -> node_run (u, n, w) ops = Ret (u', n', w') -> n_last_tid n' < 65536.
  Proof.
    induction ops as [|op r IH]; intros u n w u' n' w' F G E; cbn [node_run] in E; [inversion E; subst; auto|].
    destruct (node_step (u, n, w) op) as [[[u1 n1] w1]|] eqn:E1; cbn [obind] in E; [|discriminate]. inversion F; subst.
    apply (IH u1 n1 w1 u' n' w'); auto. exact (step_tid u n w op u1 n1 w1 H1 E1 G).
  Qed.
  Lemma node_new_fields np (n : node U) : node_new np = Ret n -> n_last_tid n = 0 /\ n_post n = None /\ n_mgr n = manager_new /\ n_observers n = [] /\ n_handlers n = [HNode].
  Proof.
    unfold node_new. destruct (node_add_object _ np) as [n1|] eqn:E; cbn [obind]; [|discriminate].
    intro H. inversion H; subst. apply add_object_tid in E as (A & B & C & D & F). cbn in *. rewrite A, B, C, D, F. auto.
  Qed.
  Theorem C52_reachable_distinct_partial : forall u (n : node U) w k, reachable u n w -> N.of_nat k <= 65536 ->
    NoDup (chosen k n) /\ Forall (fun t => t < 65536) (chosen k n).
  Proof.
    intros u n w k (np & n0 & u0 & w0 & ops & B & E & F & R) L. apply C52_distinct_partial; auto.
    apply (run_tid ops u0 n0 w0 u n w F); auto. apply node_new_fields in E as [-> _]. lia.
  Qed.

  (** ** C53: At most one delivery per post *)
  Definition post_inv (n : node U) (w : world) (tr : list event) : Prop :=
    NoDup (map fst (deliveries tr)) /\ Forall (fun d => fst d < w_chan w) (deliveries tr) /\
    match n_post n with Some c => c < w_chan w /\ ~ In c (map fst (deliveries tr)) | None => True end.
  Lemma post_inv_quiet n w tr n' w' t : post_inv n w tr -> n_post n' = n_post n -> w_chan w' = w_chan w -> deliveries t = [] -> post_inv n' w' (tr ++ t).
  Proof. unfold post_inv. intros I E C D. rewrite deliveries_app, D, app_nil_r, E, C. exact I. Qed.
  Lemma step_post (u : U) n w op u' n' w' : op_ok op -> node_step (u, n, w) op = Ret (u', n', w') -> 
    exists t, since w w' t /\ forall tr, post_inv n w tr -> post_inv n' w' (tr ++ t).
  Proof.
    intros K E. assert (Nil : forall n', n_post n' = n_post n -> exists t, since w w t /\ forall tr, post_inv n w tr -> post_inv n' w (tr ++ t)).
    { intros n2 X. exists []. split; [apply since_refl|]. intros tr I. eapply post_inv_quiet; eauto. }
    destruct op; cbn [node_step] in E; cbn [op_ok] in K.
    - destruct (node_add_object n o) as [n1|] eqn:E1; cbn [obind] in E; [|discriminate]. inversion E; subst. apply Nil.
      apply add_object_tid in E1 as (_ & E1 & _). auto.
    - inversion E; subst. apply Nil. auto.
    - inversion E; subst. apply Nil. auto.
    - inversion E; subst. apply Nil. unfold set_data. destruct (find_object _ _); auto.
    - destruct (node_send w n to m) as [[[b m1] n1] w1] eqn:E1. inversion E; subst.
      apply node_send_spec in E1 as (A & t & S & C & D & _). exists t. split; auto. intros tr I.
      eapply post_inv_quiet; eauto. apply update_tid_keeps in A; tauto.
    - destruct (node_post w n to m) as [[[b m1] n1] w1] eqn:E1. inversion E; subst.
      apply node_post_spec in E1 as (Eb & C & n2 & ok & t & A & -> & S & D & _). exists t. split; auto.
      intros tr (I1 & I2 & I3). unfold post_inv. rewrite deliveries_app, D, app_nil_r. split; auto. cbn [n_post n_with_post].
      split; [eapply Forall_impl; [|exact I2]; intros x X; cbn beta in *; lia|]. split; [lia|]. intro X. apply in_map_iff in X as (y & Ey & Iy).
      apply (proj1 (Forall_forall _ _) I2) in Iy. cbn beta in Iy. lia.
    - destruct (node_notify w n m) as [[[b m1] n1] w1] eqn:E1. inversion E; subst.
      apply node_notify_spec in E1 as (A & t & k & S & C & D & _). exists t. split; auto. intros tr I.
      eapply post_inv_quiet; eauto. apply update_tid_keeps in A; tauto.
    - destruct (node_announce w n) as [[b n1] w1] eqn:E1. inversion E; subst.
      apply announce_keeps in E1 as (_ & _ & Pp & _ & t & S & C & D). exists t. split; auto. intros tr I. eapply post_inv_quiet; eauto.
    - unfold node_announce_property in E. destruct (node_notify w n _) as [[[b m1] n1] w1] eqn:E1. inversion E; subst.
      apply node_notify_spec in E1 as (A & t & k & S & C & D & _). exists t. split; auto. intros tr I.
      eapply post_inv_quiet; eauto. apply update_tid_keeps in A; tauto.
    - destruct (node_start w n) as [[[b n1] w1]|] eqn:E1; cbn [obind] in E; [|discriminate]. inversion E; subst.
      apply node_start_spec in E1 as (ok1 & m1 & w2 & (Qc & t1 & S1 & D1 & _) & _ & [(_ & _ & -> & ->)|(_ & m2 & _ & A)]).
      + exists t1. split; auto. intros tr I. eapply post_inv_quiet; eauto.
      + apply announce_keeps in A as (_ & _ & Pp & _ & t & S & C & D). exists (t1 ++ t). split; [eapply since_trans; eauto|].
        intros tr I. eapply post_inv_quiet; eauto; [congruence|]. rewrite deliveries_app, D1, D. auto.
    - destruct (node_stop n) as [[b n1]|] eqn:E1; cbn [obind] in E; [|discriminate]. inversion E; subst. unfold node_stop in E1.
      destruct (manager_stop _) as [x|]; cbn [obind] in E1; [|discriminate]. inversion E1; subst. apply Nil. auto.
    - destruct (node_observe w u n m) as [[[u1 n1] w1]|] eqn:E1; cbn [obind] in E; [|discriminate]. inversion E; subst.
      destruct (observe_parts w u n m u' n' w' K E1) as (t1 & t2 & n1 & n2 & res & S & C & D & _ & Rc & _ & P1 & P2).
      exists (t1 ++ t2). split; auto. intros tr (I1 & I2 & I3).
      assert (D2 : deliveries t2 = []) by (inversion Rc; auto).
      unfold post_inv. rewrite !deliveries_app, D2, app_nil_r, P2, C. inversion D as [L|m' L Cl Pn|m' c L Cl Pn]; subst; cbn [deliveries n_post n_with_post].
      + rewrite app_nil_r. auto.
      + rewrite app_nil_r. auto.
      + rewrite Pn in I3. destruct I3 as [I3 I4]. rewrite map_app. cbn. split.
        * apply NoDup_app_snoc; auto.
        * split; auto. apply Forall_app. split; auto.
  Qed.
  Theorem C53_at_most_once : forall ops (u : U) n w u' n' w' tr, n_post n = None -> Forall op_ok ops ->
    node_run (u, n, w) ops = Ret (u', n', w') -> since w w' tr -> NoDup (map fst (deliveries tr)).
  Proof.
    intros ops u n w u' n' w' tr Hn F E S.
    assert (X : forall ops u n w u' n' w', Forall op_ok ops -> node_run (u, n, w) ops = Ret (u', n', w') ->
      exists t, since w w' t /\ forall t0, post_inv n w t0 -> post_inv n' w' (t0 ++ t)).
    { clear. induction ops as [|op r IH]; intros u n w u' n' w' F E; cbn [node_run] in E.
      - inversion E; subst. exists []. split; [apply since_refl|]. intros t0 I. rewrite app_nil_r. auto.
      - destruct (node_step (u, n, w) op) as [[[u1 n1] w1]|] eqn:E1; cbn [obind] in E; [|discriminate]. inversion F; subst.
        destruct (step_post u n w op u1 n1 w1 H1 E1) as (t1 & S1 & I1).
        destruct (IH u1 n1 w1 u' n' w' H2 E) as (t2 & S2 & I2). exists (t1 ++ t2). split; [eapply since_trans; eauto|].
        intros t0 I. rewrite app_assoc. auto. }
    destruct (X ops u n w u' n' w' F E) as (t & S' & I). rewrite (since_unique _ _ _ _ S S').
    destruct (I []) as [A _]; auto. split; [constructor|]. split; [constructor|]. rewrite Hn. exact Logic.I.
  Qed.

  (** ** Where deliveries come from *)
  Lemma step_delivery (u : U) n w op u' n' w' t c d : op_ok op -> node_step (u, n, w) op = Ret (u', n', w') -> since w w' t ->
    In (c, d) (deliveries t) -> exists m, op = OpRecv m /\ ~ request_service (m_esv m) /\ msg_tid m = n_last_tid n /\ 
      n_post n = Some c /\ msg_clone m = Ret d.
  Proof.
    intros K E S I. assert (Nil : w' = w -> False) by (intros ->; rewrite (since_unique _ _ _ _ S (since_refl w)) in I; exact I).
    destruct op; cbn [node_step] in E; cbn [op_ok] in K.
    - destruct (node_add_object n o) as [n1|] eqn:E1; cbn [obind] in E; [|discriminate]. inversion E; subst. exfalso; auto.
    - inversion E; subst. exfalso; auto.
    - inversion E; subst. exfalso; auto.
    - inversion E; subst. exfalso; auto.
    - destruct (node_send w n to m) as [[[b m1] n1] w1] eqn:E1. inversion E; subst.
      apply node_send_spec in E1 as (A & t' & S' & C & D & _). rewrite (since_unique _ _ _ _ S S'), D in I. destruct I.
    - destruct (node_post w n to m) as [[[b m1] n1] w1] eqn:E1. inversion E; subst.
      apply node_post_spec in E1 as (Eb & C & n2 & ok & t' & A & -> & S' & D & _). rewrite (since_unique _ _ _ _ S S'), D in I. destruct I.
    - destruct (node_notify w n m) as [[[b m1] n1] w1] eqn:E1. inversion E; subst.
      apply node_notify_spec in E1 as (A & t' & k & S' & C & D & _). rewrite (since_unique _ _ _ _ S S'), D in I. destruct I.
    - destruct (node_announce w n) as [[b n1] w1] eqn:E1. inversion E; subst.
      apply announce_keeps in E1 as (_ & _ & Pp & _ & t' & S' & C & D). rewrite (since_unique _ _ _ _ S S'), D in I. destruct I.
    - unfold node_announce_property in E. destruct (node_notify w n _) as [[[b m1] n1] w1] eqn:E1. inversion E; subst.
      apply node_notify_spec in E1 as (A & t' & k & S' & C & D & _). rewrite (since_unique _ _ _ _ S S'), D in I. destruct I.
    - destruct (node_start w n) as [[[b n1] w1]|] eqn:E1; cbn [obind] in E; [|discriminate]. inversion E; subst.
      apply node_start_spec in E1 as (ok1 & m1 & w2 & (Qc & t1 & S1 & D1 & _) & _ & [(_ & _ & -> & ->)|(_ & m2 & _ & A)]).
      + rewrite (since_unique _ _ _ _ S S1), D1 in I. destruct I.
      + apply announce_keeps in A as (_ & _ & Pp & _ & t2 & S2 & C & D).
        rewrite (since_unique _ _ _ _ S (since_trans _ _ _ _ _ S1 S2)), deliveries_app, D1, D in I. destruct I.
    - destruct (node_stop n) as [[b n1]|] eqn:E1; cbn [obind] in E; [|discriminate]. inversion E; subst. exfalso; auto.
    - destruct (node_observe w u n m) as [[[u1 n1] w1]|] eqn:E1; cbn [obind] in E; [|discriminate]. inversion E; subst.
      destruct (observe_parts w u n m u' n' w' K E1) as (t1 & t2 & n1 & n2 & res & S' & C & D & _ & Rc & _ & P1 & P2).
      assert (D2 : deliveries t2 = []) by (inversion Rc; auto).
      rewrite (since_unique _ _ _ _ S S'), deliveries_app, D2, app_nil_r in I. exists m. split; auto.
      inversion D as [L|m' L Cl Pn|m' c' L Cl Pn]; subst; cbn [deliveries] in I; [destruct I|destruct I|].
      destruct I as [I|[]]. inversion I; subst. unfold is_last_message_response in L. 
      destruct (esv_is_request (msg_esv m)) eqn:Rq; [discriminate|]. destruct (N.eqb_spec (msg_tid m) (n_last_tid n)); [|discriminate].
      split; [|auto]. rewrite request_service_spec. unfold msg_esv in Rq. congruence.
  Qed.
  Lemma step_since (u : U) n w op u' n' w' : op_ok op -> node_step (u, n, w) op = Ret (u', n', w') -> exists t, since w w' t.
  Proof. intros K E. destruct (step_post _ _ _ _ _ _ _ K E) as (t & S & _). eauto. Qed.
  Lemma run_since ops : forall (u : U) n w u' n' w', Forall op_ok ops -> node_run (u, n, w) ops = Ret (u', n', w') -> exists t, since w w' t.
  Proof.
    induction ops as [|op r IH]; intros u n w u' n' w' F E; cbn [node_run] in E.
    - inversion E; subst. exists []. apply since_refl.
    - destruct (node_step (u, n, w) op) as [[[u1 n1] w1]|] eqn:E1; cbn [obind] in E; [|discriminate]. inversion F; subst.
      destruct (step_since _ _ _ _ _ _ _ H1 E1) as (t1 & S1). destruct (IH _ _ _ _ _ _ H2 E) as (t2 & S2). eexists. eapply since_trans; eauto.
  Qed.
  Lemma run_delivery ops : forall (u : U) n w u' n' w' t c d, Forall op_ok ops -> node_run (u, n, w) ops = Ret (u', n', w') ->
    since w w' t -> In (c, d) (deliveries t) ->
    exists ops1 m ops2 u1 n1 w1, ops = ops1 ++ OpRecv m :: ops2 /\ node_run (u, n, w) ops1 = Ret (u1, n1, w1) /\
      ~ request_service (m_esv m) /\ msg_tid m = n_last_tid n1 /\ n_post n1 = Some c /\ msg_clone m = Ret d.
  Proof.
    induction ops as [|op r IH]; intros u n w u' n' w' t c d F E S I; cbn [node_run] in E.
    - inversion E; subst. rewrite (since_unique _ _ _ _ S (since_refl _)) in I. destruct I.
    - destruct (node_step (u, n, w) op) as [[[u1 n1] w1]|] eqn:E1; cbn [obind] in E; [|discriminate]. inversion F; subst.
      destruct (step_since _ _ _ _ _ _ _ H1 E1) as (t1 & S1).
      destruct (run_since _ _ _ _ _ _ _ H2 E) as (t2 & S2).
      rewrite (since_unique _ _ _ _ S (since_trans _ _ _ _ _ S1 S2)), deliveries_app in I. apply in_app_or in I as [I|I].
      + destruct (step_delivery _ _ _ _ _ _ _ _ _ _ H1 E1 S1 I) as (m & -> & A). exists [], m, r, u, n, w. auto.
      + destruct (IH _ _ _ _ _ _ _ _ _ H2 E S2 I) as (ops1 & m & ops2 & u2 & n2 & w2 & -> & A & B).
        exists (op :: ops1), m, ops2, u2, n2, w2. split; auto. split; auto. cbn [node_run]. rewrite E1. exact A.
  Qed.
  Lemma clone_same m d : received m -> msg_clone m = Ret d -> same_content d m /\ m_from d = m_from msg_new.
  Proof.
    intros R E. apply received_rcvd in R. destruct (N.eq_dec (m_esv m) 0x5E) as [V|V].
    - rewrite clone_rcvd_5E in E by auto. discriminate.
    - rewrite clone_rcvd in E by auto. destruct R as [W L B]. inversion E; subst. split.
      + apply frame_of_content. apply frame_of_msg_of_frame. apply frame_of_ok; auto.
      + unfold msg_of_frame. destruct (f_body (frame_of m)); reflexivity.
  Qed.

  (** Operations that choose no TID. *)
  Definition keeps_tid (op : node_op U) : Prop :=
    match op with
    | OpSend _ m | OpPost _ m | OpNotify m => msg_tid m <> 0
    | OpAnnounce | OpAnnounceProperty _ _ | OpStart => False
    | OpRecv m => request_service (m_esv m) -> msg_tid m <> 0
    | OpAddObject _ | OpAddHandler _ | OpAddObserver _ | OpSetData _ _ _ | OpStop => True
    end.
  Lemma update_tid_preset (n n' : node U) m m' : update_tid n m = (n', m') -> msg_tid m <> 0 -> n' = n /\ m' = m.
  Proof. intros E H. apply update_tid_spec in E as [(_ & -> & ->)|(A & _)]; tauto. Qed.
  Lemma step_keeps_tid (u : U) n w op u' n' w' : op_ok op -> keeps_tid op -> node_step (u, n, w) op = Ret (u', n', w') ->
    n_last_tid n' = n_last_tid n.
  Proof.
    intros K Q E. destruct op; cbn [node_step] in E; cbn [op_ok] in K; cbn [keeps_tid] in Q; try contradiction.
    - destruct (node_add_object n o) as [n1|] eqn:E1; cbn [obind] in E; [|discriminate]. inversion E; subst.
      apply add_object_tid in E1 as [E1 _]. congruence.
    - inversion E; subst. auto.
    - inversion E; subst. auto.
    - inversion E; subst. unfold set_data. destruct (find_object _ _); auto.
    - destruct (node_send w n to m) as [[[b m1] n1] w1] eqn:E1. inversion E; subst.
      apply node_send_spec in E1 as (A & _). apply update_tid_preset in A as [-> _]; auto.
    - destruct (node_post w n to m) as [[[b m1] n1] w1] eqn:E1. inversion E; subst.
      apply node_post_spec in E1 as (_ & _ & n2 & ok & tr & A & -> & _). apply update_tid_preset in A as [-> _]; auto.
    - destruct (node_notify w n m) as [[[b m1] n1] w1] eqn:E1. inversion E; subst.
      apply node_notify_spec in E1 as (A & _). apply update_tid_preset in A as [-> _]; auto.
    - destruct (node_stop n) as [[b n1]|] eqn:E1; cbn [obind] in E; [|discriminate]. inversion E; subst. unfold node_stop in E1.
      destruct (manager_stop _) as [x|]; cbn [obind] in E1; [|discriminate]. inversion E1; subst. auto.
    - destruct (node_observe w u n m) as [[[u1 n1] w1]|] eqn:E1; cbn [obind] in E; [|discriminate]. inversion E; subst.
      destruct (observe_parts w u n m u' n' w' K E1) as (t1 & t2 & n1 & n2 & res & _ & _ & _ & (seed & H) & Rc & T & _).
      rewrite <- T. inversion Rc as [|r n3 r' tr k A]; subst; auto.
      apply received_rcvd in K as [W L B]. destruct (handled_response _ _ _ _ _ _ _ H W B) as (Rq & _ & Tr & _).
      apply update_tid_preset in A as [-> _]; auto. rewrite msg_tid_eq, Tr, <- msg_tid_eq. auto.
  Qed.
  Lemma run_keeps_tid ops : forall (u : U) n w u' n' w', Forall op_ok ops -> Forall keeps_tid ops -> node_run (u, n, w) ops = Ret (u', n', w') ->
    n_last_tid n' = n_last_tid n.
  Proof.
    induction ops as [|op r IH]; intros u n w u' n' w' F G E; cbn [node_run] in E; [inversion E; subst; auto|].
    destruct (node_step (u, n, w) op) as [[[u1 n1] w1]|] eqn:E1; cbn [obind] in E; [|discriminate]. inversion F; inversion G; subst.
    rewrite (IH u1 n1 w1 u' n' w'); auto. exact (step_keeps_tid u n w op u1 n1 w1 H1 H5 E1).
  Qed.
  Lemma set_tid_tid m t : t < 65536 -> msg_tid (msg_set_tid m t) = t.
  Proof. intro H. rewrite msg_tid_eq, msg_set_tid_eq. cbn [with_tid m_tid fst snd]. lia. Qed.
  (** A post of a message without TID makes the TID of the sent message the node's latest. *)
  Lemma post_tid w (n : node U) to m c m' n' w' : n_last_tid n < 65536 -> msg_tid m = 0 -> node_post w n to m = (c, m', n', w') ->
    n_last_tid n' = msg_tid m' /\ n_post n' = Some c.
  Proof.
    intros B Z E. apply node_post_spec in E as (_ & _ & n1 & ok & tr & A & -> & _). split; auto. cbn [n_last_tid n_with_post].
    apply update_tid_spec in A as [(A & _)|(_ & -> & ->)]; [tauto|]. cbn [n_last_tid n_with_tid]. rewrite set_tid_tid; auto.
    rewrite next_mod by auto. lia.
  Qed.

  (** ** C54: the delivered response belongs to the posted request *)
  (** Holds as long as the node chooses no other TID. *)
  Theorem C54_same_tid_partial : forall u n w to m c m' n1 w1 ops u2 n2 w2 tr d, reachable u n w -> 
    msg_tid m = 0 -> node_post w n to m = (c, m', n1, w1) ->
    Forall op_ok ops -> Forall keeps_tid ops -> node_run (u, n1, w1) ops = Ret (u2, n2, w2) -> since w1 w2 tr ->
    In (c, d) (deliveries tr) -> msg_tid d = msg_tid m'.
  Proof.
    intros u n w to m c m' n1 w1 ops u2 n2 w2 tr d R Z E F G E2 S I.
    assert (B : n_last_tid n < 65536).
    { destruct R as (np & n0 & u0 & w0 & ops0 & _ & En & Fo & Ro). apply (run_tid ops0 u0 n0 w0 u n w); auto.
      apply node_new_fields in En as [-> _]. lia. }
    destruct (post_tid _ _ _ _ _ _ _ _ B Z E) as [T _].
    destruct (run_delivery _ _ _ _ _ _ _ _ _ _ F E2 S I) as (ops1 & r & ops2 & u3 & n3 & w3 & -> & E3 & _ & Tr & _ & C).
    apply Forall_app in F as [F1 F2]. apply Forall_app in G as [G1 G2]. inversion F2; subst. cbn [op_ok] in H1.
    destruct (clone_same _ _ H1 C) as [[X _] _]. rewrite X, Tr, <- T. exact (run_keeps_tid _ _ _ _ _ _ _ F1 G1 E3).
  Qed.

  (** ** C56: what is delivered *)
  (** A delivered message is a copy of a received message which is not a request
      and has the TID last chosen by the node. Its sender is not checked, and it
      need not be a response; the copy has lost the address of the sender. *)
  Theorem C56_not_a_request_partial : forall ops (u : U) n w u' n' w' tr c d, Forall op_ok ops ->
    node_run (u, n, w) ops = Ret (u', n', w') -> since w w' tr -> In (c, d) (deliveries tr) ->
    ~ request_service (m_esv d) /\ msg_from d = msg_from msg_new /\ exists m, In (OpRecv m) ops /\ same_content d m.
  Proof.
    intros ops u n w u' n' w' tr c d F E S I.
    destruct (run_delivery _ _ _ _ _ _ _ _ _ _ F E S I) as (ops1 & r & ops2 & u3 & n3 & w3 & -> & E3 & Q & Tr & _ & C).
    apply Forall_app in F as [F1 F2]. inversion F2; subst. cbn [op_ok] in H1. destruct (clone_same _ _ H1 C) as [X Y].
    split; [destruct X as (_ & _ & _ & -> & _); auto|]. split; [exact Y|]. exists r. split; auto. apply in_or_app. right. left. auto.
  Qed.

  (** ** C57: Outstanding posts *)
  Lemma step_gone (u : U) n w op u' n' w' c : op_ok op -> node_step (u, n, w) op = Ret (u', n', w') ->
    c < w_chan w /\ n_post n <> Some c -> c < w_chan w' /\ n_post n' <> Some c.
  Proof.
    intros K E [G1 G2]. destruct op; cbn [node_step] in E; cbn [op_ok] in K.
    - destruct (node_add_object n o) as [n1|] eqn:E1; cbn [obind] in E; [|discriminate]. inversion E; subst.
      apply add_object_tid in E1 as (_ & -> & _). auto.
    - inversion E; subst. auto.
    - inversion E; subst. auto.
    - inversion E; subst. unfold set_data. destruct (find_object _ _); auto.
    - destruct (node_send w n to m) as [[[b m1] n1] w1] eqn:E1. inversion E; subst.
      apply node_send_spec in E1 as (A & t & S & -> & _). apply update_tid_keeps in A as (_ & _ & _ & -> & _). auto.
    - destruct (node_post w n to m) as [[[b m1] n1] w1] eqn:E1. inversion E; subst.
      apply node_post_spec in E1 as (Eb & -> & n2 & ok & t & A & -> & _). cbn. split; [lia|]. intro X. inversion X. lia.
    - destruct (node_notify w n m) as [[[b m1] n1] w1] eqn:E1. inversion E; subst.
      apply node_notify_spec in E1 as (A & t & k & S & -> & _). apply update_tid_keeps in A as (_ & _ & _ & -> & _). auto.
    - destruct (node_announce w n) as [[b n1] w1] eqn:E1. inversion E; subst.
      apply announce_keeps in E1 as (_ & _ & -> & _ & t & S & -> & _). auto.
    - unfold node_announce_property in E. destruct (node_notify w n _) as [[[b m1] n1] w1] eqn:E1. inversion E; subst.
      apply node_notify_spec in E1 as (A & t & k & S & -> & _). apply update_tid_keeps in A as (_ & _ & _ & -> & _). auto.
    - destruct (node_start w n) as [[[b n1] w1]|] eqn:E1; cbn [obind] in E; [|discriminate]. inversion E; subst.
      apply node_start_spec in E1 as (ok1 & m1 & w2 & (Qc & _) & _ & [(_ & _ & -> & ->)|(_ & m2 & _ & A)]).
      + rewrite Qc. auto.
      + apply announce_keeps in A as (_ & _ & -> & _ & t & S & -> & _). rewrite Qc. auto.
    - destruct (node_stop n) as [[b n1]|] eqn:E1; cbn [obind] in E; [|discriminate]. inversion E; subst. unfold node_stop in E1.
      destruct (manager_stop _) as [x|]; cbn [obind] in E1; [|discriminate]. inversion E1; subst. auto.
    - destruct (node_observe w u n m) as [[[u1 n1] w1]|] eqn:E1; cbn [obind] in E; [|discriminate]. inversion E; subst.
      destruct (observe_parts w u n m u' n' w' K E1) as (t1 & t2 & n1 & n2 & res & S & -> & D & _ & Rc & _ & P1 & ->).
      split; auto. inversion D; subst; auto; cbn; discriminate.
  Qed.
  Lemma run_gone ops : forall (u : U) n w u' n' w' c, Forall op_ok ops -> node_run (u, n, w) ops = Ret (u', n', w') ->
    c < w_chan w /\ n_post n <> Some c -> c < w_chan w' /\ n_post n' <> Some c.
  Proof.
    induction ops as [|op r IH]; intros u n w u' n' w' c F E G; cbn [node_run] in E; [inversion E; subst; auto|].
    destruct (node_step (u, n, w) op) as [[[u1 n1] w1]|] eqn:E1; cbn [obind] in E; [|discriminate]. inversion F; subst.
    apply (IH u1 n1 w1 u' n' w'); auto. exact (step_gone u n w op u1 n1 w1 c H1 E1 G).
  Qed.
  Lemma step_chan (u : U) n w op u' n' w' : op_ok op -> node_step (u, n, w) op = Ret (u', n', w') -> w_chan w <= w_chan w'.
  Proof.
    intros K E1. destruct op; cbn [node_step] in E1; cbn [op_ok] in K.
    - destruct (node_add_object n o); cbn [obind] in E1; [|discriminate]. inversion E1; subst. lia.
    - inversion E1; subst. lia.
    - inversion E1; subst. lia.
    - inversion E1; subst. lia.
    - destruct (node_send w n to m) as [[[? ?] ?] ?] eqn:E. inversion E1; subst. apply node_send_spec in E as (_ & t & _ & -> & _). lia.
    - destruct (node_post w n to m) as [[[? ?] ?] ?] eqn:E. inversion E1; subst. apply node_post_spec in E as (_ & -> & _). lia.
    - destruct (node_notify w n m) as [[[? ?] ?] ?] eqn:E. inversion E1; subst. apply node_notify_spec in E as (_ & t & k & _ & -> & _). lia.
    - destruct (node_announce w n) as [[? ?] ?] eqn:E. inversion E1; subst. apply announce_keeps in E as (_ & _ & _ & _ & t & _ & -> & _). lia.
    - unfold node_announce_property in E1. destruct (node_notify w n _) as [[[? ?] ?] ?] eqn:E. inversion E1; subst.
      apply node_notify_spec in E as (_ & t & k & _ & -> & _). lia.
    - destruct (node_start w n) as [[[? ?] ?]|] eqn:E; cbn [obind] in E1; [|discriminate]. inversion E1; subst.
      apply node_start_spec in E as (ok1 & m1 & w2 & (Qc & _) & _ & [(_ & _ & -> & ->)|(_ & m2 & _ & A)]); [lia|].
      apply announce_keeps in A as (_ & _ & _ & _ & t & _ & -> & _). lia.
    - destruct (node_stop n) as [[? ?]|]; cbn [obind] in E1; [|discriminate]. inversion E1; subst. lia.
    - destruct (node_observe w u n m) as [[[? ?] ?]|] eqn:E; cbn [obind] in E1; [|discriminate]. inversion E1; subst.
      destruct (observe_parts _ _ _ _ _ _ _ K E) as (t1 & t2 & n2 & n3 & res & _ & -> & _). lia.
  Qed.
  Lemma run_chan ops : forall (u : U) n w u' n' w', Forall op_ok ops -> node_run (u, n, w) ops = Ret (u', n', w') -> w_chan w <= w_chan w'.
  Proof.
    induction ops as [|op r IH]; intros u n w u' n' w' F E; cbn [node_run] in E; [inversion E; subst; lia|].
    destruct (node_step (u, n, w) op) as [[[u1 n1] w1]|] eqn:E1; cbn [obind] in E; [|discriminate]. inversion F; subst.
    pose proof (step_chan _ _ _ _ _ _ _ H1 E1). pose proof (IH _ _ _ _ _ _ H2 E). lia.
  Qed.
  (** False in every case: after a second post nothing is ever delivered to the
      receiver of the first one. *)
  Theorem C57_first_receiver_dead_refuted : forall (u : U) n w to m c m' n1 w1 ops1 u2 n2 w2 to' p c' p' n3 w3 ops2 u4 n4 w4 tr,
    node_post w n to m = (c, m', n1, w1) ->
    Forall op_ok ops1 -> node_run (u, n1, w1) ops1 = Ret (u2, n2, w2) ->
    node_post w2 n2 to' p = (c', p', n3, w3) ->
    Forall op_ok ops2 -> node_run (u2, n3, w3) ops2 = Ret (u4, n4, w4) -> since w2 w4 tr ->
    ~ In c (map fst (deliveries tr)).
  Proof.
    intros u n w to m c m' n1 w1 ops1 u2 n2 w2 to' p c' p' n3 w3 ops2 u4 n4 w4 tr E1 F1 R1 E2 F2 R2 S I.
    apply node_post_spec in E1 as (-> & C1 & _). pose proof (run_chan _ _ _ _ _ _ _ F1 R1) as L.
    apply node_post_spec in E2 as (Ec & C2 & n5 & ok & t & A & -> & S2 & D & _).
    destruct (run_since _ _ _ _ _ _ _ F2 R2) as (t2 & S4).
    rewrite (since_unique _ _ _ _ S (since_trans _ _ _ _ _ S2 S4)), deliveries_app, D in I. cbn [app] in I.
    apply in_map_iff in I as ([c0 d] & E0 & I). cbn in E0. subst c0.
    destruct (run_delivery _ _ _ _ _ _ _ _ _ _ F2 R2 S4 I) as (o1 & r & o2 & u5 & n6 & w6 & -> & R3 & _ & _ & Po & _).
    apply Forall_app in F2 as [F2 _].
    apply (run_gone _ _ _ _ _ _ _ (w_chan w) F2 R3) in Po as [].
    split; [lia|]. cbn. intro X. inversion X. lia.
  Qed.

  (** ** C58: delivery *)
  (** Operations that neither choose a TID nor use up the receiver. *)
  Definition keeps_waiting (t : N) (op : node_op U) : Prop :=
    keeps_tid op /\ match op with
                    | OpPost _ _ => False
                    | OpRecv m => request_service (m_esv m) \/ msg_tid m <> t
                    | _ => True
                    end.
  Lemma step_waiting t (u : U) n w op u' n' w' : op_ok op -> keeps_waiting t op -> n_last_tid n = t -> node_step (u, n, w) op = Ret (u', n', w') ->
    n_post n' = n_post n.
  Proof.
    intros K [Q G] T E. destruct op; cbn [node_step] in E; cbn [op_ok] in K; cbn [keeps_tid] in Q; try contradiction.
    - destruct (node_add_object n o) as [n1|] eqn:E1; cbn [obind] in E; [|discriminate]. inversion E; subst.
      apply add_object_tid in E1 as (_ & -> & _). auto.
    - inversion E; subst. auto.
    - inversion E; subst. auto.
    - inversion E; subst. unfold set_data. destruct (find_object _ _); auto.
    - destruct (node_send w n to m) as [[[b m1] n1] w1] eqn:E1. inversion E; subst.
      apply node_send_spec in E1 as (A & _). apply update_tid_preset in A as [-> _]; auto.
    - destruct (node_notify w n m) as [[[b m1] n1] w1] eqn:E1. inversion E; subst.
      apply node_notify_spec in E1 as (A & _). apply update_tid_preset in A as [-> _]; auto.
    - destruct (node_stop n) as [[b n1]|] eqn:E1; cbn [obind] in E; [|discriminate]. inversion E; subst. unfold node_stop in E1.
      destruct (manager_stop _) as [x|]; cbn [obind] in E1; [|discriminate]. inversion E1; subst. auto.
    - destruct (node_observe w u n m) as [[[u1 n1] w1]|] eqn:E1; cbn [obind] in E; [|discriminate]. inversion E; subst.
      destruct (observe_parts w u n m u' n' w' K E1) as (t1 & t2 & n1 & n2 & res & _ & _ & D & _ & _ & _ & _ & ->).
      assert (L : is_last_message_response n m = false).
      { unfold is_last_message_response. destruct G as [G|G].
        - apply request_service_spec in G. unfold msg_esv. rewrite G. auto.
        - destruct (esv_is_request _); auto. destruct (N.eqb_spec (msg_tid m) (n_last_tid n)); auto. contradiction. }
      inversion D; subst; auto; congruence.
  Qed.
  Lemma run_waiting t ops : forall (u : U) n w u' n' w', Forall op_ok ops -> Forall (keeps_waiting t) ops -> n_last_tid n = t ->
    node_run (u, n, w) ops = Ret (u', n', w') -> n_post n' = n_post n /\ n_last_tid n' = t.
  Proof.
    induction ops as [|op r IH]; intros u n w u' n' w' F G T E; cbn [node_run] in E; [inversion E; subst; auto|].
    destruct (node_step (u, n, w) op) as [[[u1 n1] w1]|] eqn:E1; cbn [obind] in E; [|discriminate]. inversion F; inversion G; subst.
    destruct (IH u1 n1 w1 u' n' w') as [A B]; auto.
    - destruct H5. apply (step_keeps_tid u n w op u1 n1 w1); auto.
    - split; auto. rewrite A. exact (step_waiting _ u n w op u1 n1 w1 H1 H5 eq_refl E1).
  Qed.
  (** Receiving a message that answers: it is delivered, and nothing else happens. *)
  Lemma observe_answer w (u : U) n r c : received r -> ~ request_service (m_esv r) -> m_esv r <> 0x5E ->
    msg_tid r = n_last_tid n -> n_post n = Some c ->
    exists d w', node_observe w u n r = Ret (u, n_with_post n None, w') /\ since w w' [EvDeliver c d] /\ same_content d r.
  Proof.
    intros R Q V T Po. assert (L : is_last_message_response n r = true).
    { unfold is_last_message_response. destruct (esv_is_request (msg_esv r)) eqn:E; [apply request_service_spec in E; contradiction|].
      apply N.eqb_eq in T. rewrite T. auto. }
    pose proof (clone_rcvd r (received_rcvd _ R) V) as C. exists (msg_of_frame msg_new (frame_of r)).
    exists (tick (log w (EvDeliver c (msg_of_frame msg_new (frame_of r))))). split; [|split].
    - rewrite observe_eq. unfold deliver. rewrite L, C. cbn [obind]. unfold send_post_response. rewrite Po.
      unfold node_message_received. destruct (esv_is_response (msg_esv r)); [reflexivity|].
      destruct (find_object _ _); [|reflexivity]. destruct (esv_is_request (msg_esv r)) eqn:E; [|reflexivity].
      apply request_service_spec in E. contradiction.
    - unfold since. reflexivity.
    - apply (clone_same r); auto.
  Qed.
  Lemma observe_unrelated w (u : U) n r : ~ request_service (m_esv r) -> msg_tid r <> n_last_tid n -> node_observe w u n r = Ret (u, n, tick w).
  Proof.
    intros Q T. rewrite observe_eq. unfold deliver, is_last_message_response.
    destruct (esv_is_request (msg_esv r)) eqn:E; [apply request_service_spec in E; contradiction|].
    apply N.eqb_neq in T. rewrite T. cbn [negb obind]. unfold node_message_received. destruct (esv_is_response _); [reflexivity|].
    destruct (find_object _ _); [|reflexivity]. rewrite E. reflexivity.
  Qed.
  Lemma reachable_tid u (n : node U) w : reachable u n w -> n_last_tid n < 65536.
  Proof.
    intros (np & n0 & u0 & w0 & ops0 & _ & En & Fo & Ro). apply (run_tid ops0 u0 n0 w0 u n w); auto.
    apply node_new_fields in En as [-> _]. lia.
  Qed.
  (** Missing: operations that choose a TID in between, posts in between, and the
      service 0x5E (the copy of the message panics, C06). *)
  Theorem C58_delivered_partial : forall u n w to m c m' n1 w1 ops u2 n2 w2 r, reachable u n w -> msg_tid m = 0 ->
    node_post w n to m = (c, m', n1, w1) ->
    Forall op_ok ops -> Forall (keeps_waiting (msg_tid m')) ops -> node_run (u, n1, w1) ops = Ret (u2, n2, w2) ->
    received r -> ~ request_service (m_esv r) -> m_esv r <> 0x5E -> msg_tid r = msg_tid m' ->
    exists d n3 w3, node_observe w2 u2 n2 r = Ret (u2, n3, w3) /\ since w2 w3 [EvDeliver c d] /\ same_content d r.
  Proof.
    intros u n w to m c m' n1 w1 ops u2 n2 w2 r R Z E F G E2 Rr Q V T.
    destruct (post_tid _ _ _ _ _ _ _ _ (reachable_tid _ _ _ R) Z E) as [T1 P1].
    destruct (run_waiting _ _ _ _ _ _ _ _ F G T1 E2) as [P2 T2].
    destruct (observe_answer w2 u2 n2 r c) as (d & w3 & X); auto; try congruence. exists d, (n_with_post n2 None), w3. auto.
  Qed.

  (** ** C55: A TID chosen by the application *)
  (** False in every case except when the TID equals the one last chosen by the node. *)
  Theorem C55_preset_tid_refuted : forall (u : U) n w to m c m' n1 w1 r, msg_tid m <> 0 -> msg_tid m <> n_last_tid n ->
    node_post w n to m = (c, m', n1, w1) ->
    received r -> ~ request_service (m_esv r) -> msg_tid r = msg_tid m -> 
    m' = m /\ node_observe w1 u n1 r = Ret (u, n1, tick w1).
  Proof.
    intros u n w to m c m' n1 w1 r Z T E R Q Tr. apply node_post_spec in E as (_ & _ & n2 & ok & tr & A & -> & _).
    apply update_tid_preset in A as [-> ->]; auto. split; auto. apply observe_unrelated; auto. cbn. congruence.
  Qed.
  Theorem C55_preset_tid_partial : forall (u : U) n w to m c m' n1 w1 ops u2 n2 w2 r, msg_tid m <> 0 -> msg_tid m = n_last_tid n ->
    node_post w n to m = (c, m', n1, w1) -> Forall op_ok ops -> Forall (keeps_waiting (msg_tid m)) ops -> node_run (u, n1, w1) ops = Ret (u2, n2, w2) ->
    received r -> ~ request_service (m_esv r) -> m_esv r <> 0x5E -> msg_tid r = msg_tid m ->
    exists d n3 w3, node_observe w2 u2 n2 r = Ret (u2, n3, w3) /\ since w2 w3 [EvDeliver c d] /\ same_content d r.
  Proof.
    intros u n w to m c m' n1 w1 ops u2 n2 w2 r Z T E F G E2 R Q V Tr. apply node_post_spec in E as (_ & _ & n3 & ok & tr & A & -> & _).
    apply update_tid_preset in A as [-> ->]; auto.
    destruct (run_waiting (msg_tid m) ops u (n_with_post n (Some c)) w1 u2 n2 w2) as [P2 T2]; auto.
    destruct (observe_answer w2 u2 n2 r c) as (d & w3 & X); auto; try congruence. exists d, (n_with_post n2 None), w3. auto.
  Qed.
End S.
Print Assumptions C52_distinct_partial.
Print Assumptions C52_reachable_distinct_partial.
Print Assumptions C53_at_most_once.
Print Assumptions C54_same_tid_partial.
Print Assumptions C55_preset_tid_refuted.
Print Assumptions C55_preset_tid_partial.
Print Assumptions C56_not_a_request_partial.
Print Assumptions C57_first_receiver_dead_refuted.
Print Assumptions C58_delivered_partial.

(* ------------------------------------------------------------------ *)
(** ** Witnesses *)
Definition ask : message :=
  msg_add_property (msg_set_esv (msg_set_deoj (msg_set_seoj msg_new 0x0EF001) 0x029101) EReadRequest) (PProp 0x80 []).
Lemma ask_built : built ask.
Proof. repeat constructor; unfold octet; lia. Qed.
(** A datagram with the given TID and service. *)
Definition frame_with (tid e : N) : list N := to_lamp tid e [1; 0x80; 1; 0x30].
Definition other : sockaddr := (V4 0xC0A80063, 40000).
Definition ex_posted (ops : list (node_op unit)) : list (node_op unit) := ex_ops [] ++ OpPost peer ask :: ops.
Definition ex_deliveries (ops : list (node_op unit)) : list (N * message) := deliveries (w_trace (ex_w ops)).
Definition tids (l : list (N * message)) : list (N * N) := map (fun d => (fst d, msg_tid (snd d))) l.
Lemma ex_posted_ok ops : Forall (op_ok (P := true) (HO := ex_order)) ops -> Forall (op_ok (P := true) (HO := ex_order)) (ex_posted ops).
Proof.
  intro F. apply Forall_app. split; [apply ex_ops_ok; constructor|]. constructor; auto. exact ask_built.
Qed.

(** C52: after 65535 messages the node chooses TID 0, which is not in 1..65535. *)
Lemma idle_sends k : forall (n : node unit) w, n_last_tid n + N.of_nat k < 65536 -> mg_mcast (n_mgr n) = [] ->
  node_run (P := true) (HO := ex_order) (O := ex_os) (tt, n, w) (repeat (OpNotify ask) k) = Ret (tt, n_with_tid n (n_last_tid n + N.of_nat k), w).
Proof.
  induction k as [|k IH]; intros n w L M; cbn [repeat node_run].
  - f_equal. f_equal. f_equal. destruct n; unfold n_with_tid; cbn. f_equal. lia.
  - cbn [node_step]. unfold node_notify, update_tid, msg_has_tid. replace (msg_tid ask =? 0) with true by reflexivity.
    cbn [negb next_tid]. replace (TID_MAX <=? n_last_tid n) with false by (unfold TID_MAX; lia).
    unfold manager_notify. cbn [n_with_tid n_mgr]. rewrite M. cbn [mcast_notify obind]. rewrite IH; cbn [n_with_tid n_last_tid n_mgr]; auto; [|lia].
    f_equal. f_equal. f_equal. unfold n_with_tid; cbn. f_equal. lia.
Qed.
Theorem C52_zero_refuted : exists (P : Profile) (HO : HashOrder) (O : OS) u (n : node unit) w,
  reachable u n w /\ chosen 1 n = [0].
Proof.
  exists true, ex_order, ex_os, tt, (n_with_tid ex_node0 65535), w0. split; [|reflexivity].
  exists ex_np, ex_node0, tt, w0, (repeat (OpNotify ask) (N.to_nat 65535)). split; [apply ex_np_built|]. split; [vm_compute; reflexivity|].
  split.
  - apply Forall_forall. intros op I. apply repeat_spec in I. subst. exact ask_built.
  - rewrite idle_sends; [|vm_compute; reflexivity|reflexivity]. rewrite N2Nat.id. reflexivity.
Qed.
Print Assumptions C52_zero_refuted.
Example C52_case : chosen 3 ex_node0 = [1; 2; 3] /\ chosen 3 (n_with_tid ex_node0 65534) = [65535; 0; 1].
Proof. split; reflexivity. Qed.

(** C53: the response and its duplicate; one delivery. *)
Example C53_case : let ops := ex_posted [OpRecv (ex_rcv (frame_with 2 0x72)); OpRecv (ex_rcv (frame_with 2 0x72))] in
  Forall (op_ok (P := true) (HO := ex_order)) ops /\ n_post ex_node0 = None /\ tids (ex_deliveries ops) = [(0, 2)].
Proof. split; [apply ex_posted_ok; repeat constructor; cbn [op_ok]; rcv|]. split; [reflexivity|vm_compute; reflexivity]. Qed.

(** C54: a message sent after the post takes TID 3; a message with TID 3 is
    delivered to the receiver of the post with TID 2. *)
Theorem C54_other_tid_refuted : exists (P : Profile) (HO : HashOrder) (O : OS) ops u n w m c m' n1 w1 ops2 u2 n2 w2 tr d,
  Forall op_ok ops /\ node_run (tt, ex_node0, w0) ops = Ret (u, n, w) /\
  msg_tid m = 0 /\ node_post w n peer m = (c, m', n1, w1) /\ Forall op_ok ops2 /\
  node_run (u, n1, w1) ops2 = Ret (u2, n2, w2) /\ since w1 w2 tr /\ In (c, d) (deliveries tr) /\ msg_tid d <> msg_tid m'.
Proof.
  exists true, ex_order, ex_os, (ex_ops []), tt, (ex_n (ex_ops [])), (ex_w (ex_ops [])), ask.
  pose (x := node_post (O := ex_os) (ex_w (ex_ops [])) (ex_n (ex_ops [])) peer ask).
  pose (ops2 := [OpSend peer ask; OpRecv (ex_rcv (frame_with 3 0x72))] : list (node_op unit)).
  pose (y := the (tt, ex_node0, w0) (node_run (P := true) (HO := ex_order) (O := ex_os) (tt, snd (fst x), snd x) ops2)).
  pose (tr := skipn (length (w_trace (snd x))) (w_trace (snd y))).
  exists (fst (fst (fst x))), (snd (fst (fst x))), (snd (fst x)), (snd x), ops2, tt, (snd (fst y)), (snd y), tr, 
    (snd (hd (0, msg_new) (deliveries tr))).
  split; [apply ex_ops_ok; constructor|]. split; [vm_compute; reflexivity|]. split; [reflexivity|]. split; [vm_compute; reflexivity|].
  split; [constructor; [exact ask_built|constructor; [cbn [op_ok]; rcv|constructor]]|].
  split; [vm_compute; reflexivity|]. split; [vm_compute; reflexivity|]. split; [vm_compute; left; reflexivity|]. vm_compute. discriminate.
Qed.
Print Assumptions C54_other_tid_refuted.
Example C54_case : tids (ex_deliveries (ex_posted [OpRecv (ex_rcv (frame_with 7 0x72)); OpRecv (ex_rcv (frame_with 2 0x72))])) = [(0, 2)].
Proof. vm_compute. reflexivity. Qed.

(** C55: a post with TID 0x1234 and the response with that TID: nothing is
    delivered. *)
Example C55_case : let m := msg_set_tid ask 0x1234 in let r := ex_rcv (frame_with 0x1234 0x72) in
  reachable (P := true) (HO := ex_order) (O := ex_os) tt (ex_n (ex_ops [])) (ex_w (ex_ops [])) /\
  received r /\ built m /\ msg_tid m <> 0 /\ msg_tid m <> n_last_tid (ex_n (ex_ops [])) /\ msg_tid r = msg_tid m /\ ~ request_service (m_esv r) /\
  ex_deliveries (ex_ops [] ++ [OpPost peer m; OpRecv r]) = [].
Proof.
  cbv zeta. split; [reach|]. split; [rcv|]. split; [constructor; [exact ask_built|lia]|]. split; [vm_compute; discriminate|].
  split; [vm_compute; discriminate|]. split; [vm_compute; reflexivity|]. split; [|vm_compute; reflexivity].
  vm_compute. intuition discriminate.
Qed.

(** C56: a notification by an unrelated host, with the right TID, is delivered as
    the response. *)
Theorem C56_any_sender_refuted : exists r, received r /\ msg_from r = other /\ fst other <> fst peer /\ m_esv r = 0x73 /\
  exists d, ex_deliveries (ex_posted [OpRecv r]) = [(0, d)] /\ same_content d r.
Proof.
  exists (msg_set_from (ex_rcv (frame_with 2 0x73)) other). split.
  { exists (frame_with 2 0x73). eexists. exists other. split; [repeat constructor|]. split; [vm_compute; reflexivity|vm_compute; reflexivity]. }
  split; [vm_compute; reflexivity|]. split; [discriminate|]. split; [vm_compute; reflexivity|].
  eexists. split; [vm_compute; reflexivity|]. unfold same_content. vm_compute. intuition discriminate.
Qed.
Print Assumptions C56_any_sender_refuted.
(** C56: after a post with TID 2, a request with that TID is not taken for the
    response; the response is. *)
Example C56_case : tids (ex_deliveries (ex_posted [OpRecv (ex_rcv (frame_with 2 0x62))])) = [] /\
  tids (ex_deliveries (ex_posted [OpRecv (ex_rcv (frame_with 2 0x62)); OpRecv (ex_rcv (frame_with 2 0x72))])) = [(0, 2)].
Proof. split; vm_compute; reflexivity. Qed.

(** C57: two posts with TIDs 2 and 3; both responses arrive; only the second one
    is delivered, to the second receiver. *)
Example C57_case : let ops := ex_posted [OpPost peer ask; OpRecv (ex_rcv (frame_with 2 0x72)); OpRecv (ex_rcv (frame_with 3 0x72))] in
  Forall (op_ok (P := true) (HO := ex_order)) ops /\ tids (ex_deliveries ops) = [(1, 3)].
Proof.
  split; [|vm_compute; reflexivity]. apply ex_posted_ok. constructor; [exact ask_built|]. repeat constructor; cbn [op_ok]; rcv.
Qed.

(** C58: one unrelated message sent in between loses the response. *)
Theorem C58_other_traffic_refuted :
  let ops := ex_posted [OpSend peer ask; OpRecv (ex_rcv (frame_with 2 0x72))] in
  Forall (op_ok (P := true) (HO := ex_order)) ops /\ panics (ex_run ops) = false /\
  msg_tid (ex_rcv (frame_with 2 0x72)) = 2 /\ sent (w_trace (ex_w (ex_posted []))) = sent (w_trace (ex_w (ex_ops []))) ++ [(peer, msg_bytes (msg_set_tid ask 2))] /\
  ex_deliveries ops = [].
Proof.
  cbv zeta. split; [apply ex_posted_ok; constructor; [exact ask_built|repeat constructor; cbn [op_ok]; rcv]|].
  split; [vm_compute; reflexivity|]. split; [vm_compute; reflexivity|]. split; vm_compute; reflexivity.
Qed.
Print Assumptions C58_other_traffic_refuted.
Example C58_case : let ops := ex_posted [OpRecv (ex_rcv (to_lamp 0x77 0x62 [1; 0x80; 0])); OpSetData 0x029101 0x80 [0x31]; OpRecv (ex_rcv (frame_with 2 0x72))] in
  Forall (op_ok (P := true) (HO := ex_order)) ops /\ tids (ex_deliveries ops) = [(0, 2)].
Proof.
  split; [|vm_compute; reflexivity]. apply ex_posted_ok. constructor; [cbn [op_ok]; rcv|]. constructor; [repeat constructor|]. repeat constructor; cbn [op_ok]; rcv.
Qed.
