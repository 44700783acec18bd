(** C57: posts one after the other, and C62: the list of a stopped controller. *)
From Verif Require Import Base HMap ModelCodec ModelMessages ModelObject ModelTransport ModelNode ModelController ModelHost
  SpecWire SpecObject SpecNode SpecHost ProofsCodec ProofsCodec2 PropertiesCodec ProofsObject ProofsObject2 ProofsObject3
  PropertiesObject ProofsNode ProofsNode2 ProofsNode3 ProofsNode4 ExamplesNode PropertiesTrans PropertiesTransport ProofsHost2 PropertiesController PropertiesHost.

Section S.
  Context {U : Type} {P : Profile} {HO : HashOrder} {Os : OS}.

  (** Posts each of which is made after the answer to the one before arrived.
      Between a post and its answer the node may do and receive anything that
      neither chooses a TID nor answers.  The list holds the receivers which the
      posts returned and the answers. *)
  Inductive in_turn : U * node U * world -> list (N * message) -> U * node U * world -> Prop :=
  | in_turn_none s : in_turn s [] s
  | in_turn_post u n w to m c m' n1 w1 ops u2 n2 w2 r u3 n3 w3 xs s :
      built m -> msg_tid m = 0 -> node_post w n to m = (c, m', n1, w1) ->
      Forall op_ok ops -> Forall (keeps_waiting (msg_tid m')) ops -> node_run (u, n1, w1) ops = Ret (u2, n2, w2) ->
      received r -> ~ request_service (m_esv r) -> m_esv r <> 0x5E -> msg_tid r = msg_tid m' ->
      node_observe w2 u2 n2 r = Ret (u3, n3, w3) ->
      in_turn (u3, n3, w3) xs s -> in_turn (u, n, w) ((c, r) :: xs) s.

  Lemma run_split a : forall (x : U * node U * world) b, node_run x (a ++ b) = obind (node_run x a) (fun y => node_run y b).
  Proof.
    induction a as [|op a IH]; intros x b; [reflexivity|]. cbn [app node_run]. destruct (node_step x op); cbn [obind]; auto.
  Qed.
  Lemma reachable_run u (n : node U) w ops u' n' w' : reachable u n w -> Forall op_ok ops -> node_run (u, n, w) ops = Ret (u', n', w') -> reachable u' n' w'.
  Proof.
    intros (np & n0 & u0 & w0 & os & B & N & F & R) G E. exists np, n0, u0, w0, (os ++ ops). split; auto. split; auto.
    split; [apply Forall_app; auto|]. rewrite run_split, R. exact E.
  Qed.
  Lemma waiting_silent t ops (u : U) n w u' n' w' tr : Forall op_ok ops -> Forall (keeps_waiting t) ops -> n_last_tid n = t ->
    node_run (u, n, w) ops = Ret (u', n', w') -> since w w' tr -> deliveries tr = [].
  Proof.
    intros F G T E S. destruct (deliveries tr) as [|[c d] l] eqn:D; auto. exfalso.
    destruct (run_delivery ops u n w u' n' w' tr c d F E S) as (o1 & m & o2 & u1 & n1 & w1 & -> & R & Q & X & _); [rewrite D; left; auto|].
    apply Forall_app in F as [F _]. apply Forall_app in G as [G1 G2]. inversion G2 as [|? ? [_ K] ?]; subst.
    destruct (run_waiting _ o1 u n w u1 n1 w1 F G1 eq_refl R) as [_ T']. destruct K as [K|K]; [auto|]. congruence.
  Qed.

  (** Every answer is delivered, in order and each to the receiver of its own
      post, and nothing else is. *)
  Theorem C57_in_turn_partial : forall u n w xs u' n' w', reachable u n w -> in_turn (u, n, w) xs (u', n', w') ->
    exists tr, since w w' tr /\ NoDup (map fst xs) /\
      Forall2 (fun x y => fst y = fst x /\ same_content (snd y) (snd x)) xs (deliveries tr).
  Proof.
    intros u n w xs u' n' w' R H.
    cut (Forall (fun x => w_chan w <= fst x) xs /\ exists tr, since w w' tr /\ NoDup (map fst xs) /\
      Forall2 (fun x y => fst y = fst x /\ same_content (snd y) (snd x)) xs (deliveries tr)); [tauto|].
    remember (u, n, w) as s eqn:Es. remember (u', n', w') as s' eqn:Es'. revert u n w u' n' w' Es Es' R.
    induction H as [s|u0 n0 w0 to m c m' n1 w1 ops u2 n2 w2 r u3 n3 w3 xs s B Z E F G E2 Rr Q V T Ob H IH];
      intros u n w u' n' w' Es Es' R.
    - rewrite Es in Es'. inversion Es'; subst. split; [constructor|]. exists []. split; [apply since_refl|]. split; constructor.
    - inversion Es; subst u0 n0 w0. clear Es.
      assert (St : node_run (u, n, w) (OpPost to m :: ops ++ [OpRecv r]) = Ret (u3, n3, w3)).
      { cbn [node_run node_step]. rewrite E. cbn [obind]. rewrite run_split, E2. cbn [obind node_run node_step]. rewrite Ob. reflexivity. }
      assert (Ok : Forall op_ok (OpPost to m :: ops ++ [OpRecv r])).
      { constructor; [exact B|]. apply Forall_app. split; [exact F|]. constructor; [exact Rr|constructor]. }
      pose proof (reachable_run _ _ _ _ _ _ _ R Ok St) as R3.
      destruct (IH u3 n3 w3 u' n' w' eq_refl Es' R3) as (L3 & tr3 & S3 & Nd & F2). clear IH.
      destruct (post_tid _ _ _ _ _ _ _ _ (reachable_tid _ _ _ R) Z E) as [T1 P1].
      destruct (run_waiting _ _ _ _ _ _ _ _ F G T1 E2) as [P2 T2].
      destruct (run_since _ _ _ _ _ _ _ F E2) as (t2 & S2).
      pose proof (waiting_silent _ _ _ _ _ _ _ _ _ F G T1 E2 S2) as D2.
      pose proof (run_chan _ _ _ _ _ _ _ F E2) as Ch2.
      destruct (observe_answer w2 u2 n2 r c) as (d & w4 & Ob' & S4 & Sc); auto; try congruence.
      rewrite Ob in Ob'. inversion Ob'; subst u2 n3 w4. clear Ob'.
      destruct (observe_parts w2 u3 n2 r _ _ _ Rr Ob) as (_ & _ & _ & _ & _ & _ & Ch3 & _).
      apply node_post_spec in E as (Ec & C1 & n5 & ok & t1 & A & -> & S1 & D1 & _). subst c.
      assert (L : Forall (fun x => w_chan w + 1 <= fst x) xs) by (eapply Forall_impl; [|exact L3]; intros x Hx; cbn in Hx |- *; lia).
      split; [constructor; [cbn; lia|]; eapply Forall_impl; [|exact L]; intros x Hx; cbn in Hx |- *; lia|].
      exists (t1 ++ t2 ++ [EvDeliver (w_chan w) d] ++ tr3). split.
      { eapply since_trans; [exact S1|]. eapply since_trans; [exact S2|]. eapply since_trans; [exact S4|exact S3]. }
      split.
      + cbn [map]. constructor; auto. intro I. apply in_map_iff in I as (x & Ex & I). rewrite Forall_forall in L. specialize (L x I). cbn in L, Ex. lia.
      + rewrite !deliveries_app, D1, D2. cbn [app deliveries flat_map]. constructor; [auto|exact F2].
  Qed.

  (** ** C62 *)
  Context {Uu : Uuids}.
  (** Calls other than those that start the node, and anything the network does. *)
  Definition no_start (op : host_op U) : Prop :=
    match op with HCtrlStart | HApi OpStart => False | HApi (OpRecv _) => False | _ => True end.
  Lemma idle_server (h : host U) i : idle (n_mgr (h_node h)) -> h_server h i = None.
  Proof. intros [I1 I2]. unfold h_server. destruct i; cbn [server_at]; [rewrite I1|rewrite I2]; destruct k; reflexivity. Qed.
  Lemma idle_step db (h : host U) w op h' w' : no_start op -> idle (n_mgr (h_node h)) -> host_step db (h, w) op = Ret (h', w') ->
    idle (n_mgr (h_node h')) /\ h_remotes h' = h_remotes h /\ h_log h' = h_log h.
  Proof.
    intros K I E.
    assert (Same : n_mgr (h_node h') = n_mgr (h_node h) -> h_remotes h' = h_remotes h -> h_log h' = h_log h ->
      idle (n_mgr (h_node h')) /\ h_remotes h' = h_remotes h /\ h_log h' = h_log h) by (intros -> -> ->; auto).
    destruct op; cbn [host_step] in E; cbn [no_start] in K; try contradiction.
    - destruct (h_poisoned h); [discriminate|]. destruct (node_step (h_user h, h_node h, w) op) as [[[u1 n1] w1]|] eqn:E1; cbn [obind] in E; [|discriminate].
      inversion E; subst h' w'. clear E.
      destruct op; try contradiction;
        try (match goal with E1 : node_step _ ?o = _ |- _ => destruct (quiet_step (h_user h) (h_node h) w o u1 n1 w1 Logic.I E1) as [Q1 Q2]; apply Same; auto; fail end).
      + cbn [node_step] in E1. inversion E1; subst. apply Same; auto.
      + cbn [node_step] in E1. destruct (node_stop (h_node h)) as [[ok n2]|] eqn:E2; cbn [obind] in E1; [|discriminate]. inversion E1; subst.
        apply stop_servers in E2 as [A _]. auto.
    - destruct (h_cpoisoned h); [discriminate|]. destruct (h_poisoned h); [discriminate|].
      unfold controller_search_object in E. destruct (node_notify w (h_node h) _) as [[[b m1] n1] w1] eqn:E1. inversion E; subst.
      apply node_notify_spec in E1 as (A & _). apply update_tid_keeps in A as (_ & _ & A & _ & B). apply Same; auto.
    - destruct (h_cpoisoned h); [inversion E; subst; auto|]. destruct (h_poisoned h); [discriminate|].
      unfold controller_send in E. destruct (node_send w (h_node h) _ _) as [[[b m1] n1] w1] eqn:E1. inversion E; subst.
      apply node_send_spec in E1 as (A & _). apply update_tid_keeps in A as (_ & _ & A & _ & B). apply Same; auto.
    - destruct (h_cpoisoned h); [discriminate|]. destruct (h_poisoned h); [discriminate|].
      unfold controller_post in E. destruct (node_post w (h_node h) _ _) as [[[b m1] n1] w1] eqn:E1. inversion E; subst.
      apply node_post_spec in E1 as (_ & _ & n2 & ok & tr & A & -> & _). apply update_tid_keeps in A as (_ & _ & A & _ & B). apply Same; auto.
    - destruct (h_cpoisoned h); [discriminate|]. destruct (controller_nodes w (h_remotes h)) as [x|]; cbn [obind] in E; [|discriminate]. inversion E; subst. auto.
    - destruct (h_cpoisoned h); [discriminate|]. destruct (h_poisoned h); [discriminate|].
      unfold controller_stop in E. destruct (node_stop (h_node h)) as [[ok n1]|] eqn:E1; cbn [obind fst snd] in E; [|discriminate]. inversion E; subst.
      apply stop_servers in E1 as [A _]. auto.
    - inversion E as [E1]. unfold receive in E1. rewrite (idle_server h i I) in E1. inversion E1; subst. auto.
    - inversion E as [E1]. unfold receive_error in *. rewrite (idle_server h i I) in *. subst. auto.
  Qed.
  Lemma idle_run db ops : forall (h : host U) w h' w', Forall no_start ops -> idle (n_mgr (h_node h)) -> host_run db (h, w) ops = Ret (h', w') ->
    h_remotes h' = h_remotes h /\ h_log h' = h_log h.
  Proof.
    induction ops as [|op r IH]; intros h w h' w' F I E; cbn [host_run] in E; [inversion E; auto|].
    destruct (host_step db (h, w) op) as [[h1 w1]|] eqn:E1; cbn [obind] in E; [|discriminate]. inversion F; subst.
    destruct (idle_step db h w op h1 w1 H1 I E1) as (I1 & <- & <-). eapply IH; eauto.
  Qed.
  (** The list is not empty after stop (C62_stop_refuted), but from then on until
      the next start nothing changes it, whatever arrives and whatever is called;
      in particular it stays empty if it was empty. *)
  Theorem C62_frozen_partial : forall db (h : host U) w h1 w1 ops h2 w2, host_step db (h, w) HCtrlStop = Ret (h1, w1) ->
    Forall no_start ops -> host_run db (h1, w1) ops = Ret (h2, w2) -> h_remotes h2 = h_remotes h /\ h_log h2 = h_log h.
  Proof.
    intros db h w h1 w1 ops h2 w2 E F R.
    assert (X : idle (n_mgr (h_node h1)) /\ h_remotes h1 = h_remotes h /\ h_log h1 = h_log h).
    { cbn [host_step] in E. destruct (h_cpoisoned h); [discriminate|]. destruct (h_poisoned h); [discriminate|]. unfold controller_stop in E.
      destruct (node_stop (h_node h)) as [[ok n1]|] eqn:E1; cbn [obind fst snd] in E; [|discriminate].
      apply stop_servers in E1 as [I _]. inversion E; subst. auto. }
    destruct X as (I & <- & <-). eapply idle_run; eauto.
  Qed.
End S.
Print Assumptions C57_in_turn_partial.
Print Assumptions C62_frozen_partial.

(** Three posts, the second one with other traffic before its answer. *)
Definition answers : list (node_op unit) :=
  [OpPost peer ask; OpRecv (ex_rcv (frame_with 2 0x72));
   OpPost peer ask; OpRecv (ex_rcv (to_lamp 0x77 0x62 [1; 0x80; 0])); OpRecv (ex_rcv (frame_with 2 0x72)); OpRecv (ex_rcv (frame_with 3 0x52));
   OpPost peer ask; OpRecv (ex_rcv (frame_with 4 0x72))].
Example C57_in_turn_case : tids (ex_deliveries (ex_ops [] ++ answers)) = [(0, 2); (1, 3); (2, 4)] /\
  exists s, in_turn (P := true) (HO := ex_order) (Os := ex_os) (tt, ex_n (ex_ops []), ex_w (ex_ops []))
    [(0, ex_rcv (frame_with 2 0x72)); (1, ex_rcv (frame_with 3 0x52)); (2, ex_rcv (frame_with 4 0x72))] s.
Proof.
  split; [vm_compute; reflexivity|]. eexists.
  eapply (in_turn_post (P := true) (HO := ex_order) (Os := ex_os)) with (to := peer) (m := ask) (ops := []);
    [exact ask_built|reflexivity|vm_compute; reflexivity|constructor|constructor|reflexivity|rcv|vm_compute; intuition discriminate
    |vm_compute; discriminate|vm_compute; reflexivity|vm_compute; reflexivity|].
  eapply (in_turn_post (P := true) (HO := ex_order) (Os := ex_os)) with (to := peer) (m := ask)
    (ops := [OpRecv (ex_rcv (to_lamp 0x77 0x62 [1; 0x80; 0])); OpRecv (ex_rcv (frame_with 2 0x72))]);
    [exact ask_built|reflexivity|vm_compute; reflexivity| | |vm_compute; reflexivity|rcv|vm_compute; intuition discriminate
    |vm_compute; discriminate|vm_compute; reflexivity|vm_compute; reflexivity|].
  - repeat constructor; cbn [op_ok]; rcv.
  - constructor; [split; [intros _; vm_compute; discriminate|left; vm_compute; auto 10]|]. constructor; [split; [intros _; vm_compute; discriminate|right; vm_compute; discriminate]|constructor].
  - eapply (in_turn_post (P := true) (HO := ex_order) (Os := ex_os)) with (to := peer) (m := ask) (ops := []);
    [exact ask_built|reflexivity|vm_compute; reflexivity|constructor|constructor|reflexivity|rcv|vm_compute; intuition discriminate
    |vm_compute; discriminate|vm_compute; reflexivity|vm_compute; reflexivity|]. constructor.
Qed.

(** C62: a node is found, the controller stops, and another list arrives. *)
Example C62_frozen_case :
  ex_entries (ex_hops [(list_datagram 1 [0x029101], node_a)] ++ [HCtrlStop; HRecv (Uni 0) (list_datagram 1 [0x013001]) node_b (fun _ => true); HSearch 0x0EF001])
  = ex_entries (ex_hops [(list_datagram 1 [0x029101], node_a)])
  /\ ex_entries (ex_hops [(list_datagram 1 [0x029101], node_a)]) <> Some []
  /\ ex_entries (ex_hops [(list_datagram 1 [0x029101], node_a)] ++ [HRecv (Uni 0) (list_datagram 1 [0x013001]) node_b (fun _ => true)])
     <> ex_entries (ex_hops [(list_datagram 1 [0x029101], node_a)]).
Proof. split; [vm_compute; reflexivity|]. split; vm_compute; discriminate. Qed.
