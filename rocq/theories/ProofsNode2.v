(** Traces of transmissions, the observer of the node, and invariants of node
    histories. *)
From Verif Require Import Base HMap ModelCodec ModelMessages ModelObject ModelTransport ModelNode
  SpecWire SpecObject SpecNode ProofsCodec ProofsCodec2 PropertiesCodec ProofsObject ProofsObject2 ProofsObject3 ProofsNode.

(* ------------------------------------------------------------------ *)
(** ** Traces *)
Lemma offered_app a b : offered (a ++ b) = offered a ++ offered b.
Proof. induction a as [|[] r IH]; cbn; auto. rewrite IH; auto. Qed.
Lemma sent_app a b : sent (a ++ b) = sent a ++ sent b.
Proof. induction a as [|[? []|? []|? ? ? []|] r IH]; cbn; auto; rewrite IH; auto. Qed.
Lemma deliveries_app a b : deliveries (a ++ b) = deliveries a ++ deliveries b.
Proof. induction a as [|[] r IH]; cbn; auto. rewrite IH; auto. Qed.
Lemma since_refl w : since w w [].
Proof. unfold since. rewrite app_nil_r. reflexivity. Qed.
Lemma since_trans a b c t s : since a b t -> since b c s -> since a c (t ++ s).
Proof. unfold since. intros -> ->. rewrite <- app_assoc in *. auto. Qed.
Lemma since_log w e : since w (log w e) [e]. Proof. reflexivity. Qed.
Lemma since_tick w : since w (tick w) []. Proof. unfold since. cbn. rewrite app_nil_r. reflexivity. Qed.
Lemma since_unique w w' a b : since w w' a -> since w w' b -> a = b.
Proof. unfold since. intros A B. rewrite A in B. apply app_inv_head in B. auto. Qed.

Section T.
  Context {O : OS}.

  Lemma socket_send_trace w s data to ok w' : socket_send_to w s data to = (ok, w') ->
    exists tr, since w w' tr /\ w_chan w' = w_chan w /\ deliveries tr = [] /\ Forall (eq (to, data)) (offered tr) /\
      sent tr = (if ok then [(to, data)] else []).
  Proof.
    unfold socket_send_to. destruct (sk_sock s) as [l|].
    - intro H. inversion H; subst. exists [EvSend l to data (os_send (w_calls w))].
      split; [apply since_log|]. split; auto. split; auto. split; [repeat constructor|].
      cbn. destruct (os_send (w_calls w)); reflexivity.
    - intro H. inversion H; subst. exists []. split; [apply since_refl|]. repeat split; constructor.
  Qed.
  Lemma ucast_trace to m l : forall w ok w', ucast_send w l to m = (ok, w') ->
    exists tr, since w w' tr /\ w_chan w' = w_chan w /\ deliveries tr = [] /\ Forall (eq (to, msg_bytes m)) (offered tr) /\
      sent tr = (if ok then [(to, msg_bytes m)] else []).
  Proof.
    induction l as [|s r IH]; intros w ok w'; cbn [ucast_send].
    - intro H. inversion H; subst. exists []. split; [apply since_refl|]. repeat split; constructor.
    - unfold ucast_server_send. destruct (socket_send_to w (sv_socket s) (msg_bytes m) to) as [b w1] eqn:E.
      apply socket_send_trace in E as (t1 & A & B & C & D & F). destruct b.
      + intro H. inversion H; subst. exists t1. auto.
      + intro H. apply IH in H as (t2 & A2 & B2 & C2 & D2 & F2). exists (t1 ++ t2).
        split; [eapply since_trans; eauto|]. split; [congruence|]. rewrite deliveries_app, C, C2. split; auto.
        rewrite offered_app, sent_app, F, F2. split; auto. apply Forall_app; auto.
  Qed.
  Lemma send_trace w mg to m ok w' : manager_send w mg to m = (ok, w') ->
    exists tr, since w w' tr /\ w_chan w' = w_chan w /\ deliveries tr = [] /\ Forall (eq (to, msg_bytes m)) (offered tr) /\
      sent tr = (if ok then [(to, msg_bytes m)] else []).
  Proof. apply ucast_trace. Qed.
  Lemma mcast_trace m l : forall w ok w', mcast_notify w l m = (ok, w') ->
    exists tr k, since w w' tr /\ w_chan w' = w_chan w /\ deliveries tr = [] /\ Forall (eq (group, msg_bytes m)) (offered tr) /\
      sent tr = repeat (group, msg_bytes m) k /\ (k <= length l)%nat /\ (ok = true -> k = length l) /\ (ok = false -> (k < length l)%nat).
  Proof.
    induction l as [|s r IH]; intros w ok w'; cbn [mcast_notify].
    - intro H. inversion H; subst. exists [], 0%nat. split; [apply since_refl|]. repeat split; auto; try constructor. discriminate.
    - unfold mcast_server_notify. destruct (socket_send_to w _ _ _) as [b w1] eqn:E.
      apply socket_send_trace in E as (t1 & A & B & C & D & F). destruct b; cbn [negb].
      + intro H. apply IH in H as (t2 & k & A2 & B2 & C2 & D2 & F2 & K1 & K2 & K3). exists (t1 ++ t2), (S k).
        split; [eapply since_trans; eauto|]. split; [congruence|]. rewrite deliveries_app, C, C2. split; auto.
        rewrite offered_app, sent_app, F, F2. split; [apply Forall_app; auto|]. split; [reflexivity|]. cbn [length].
        split; [lia|]. split; [intro; rewrite K2; auto|intro X; specialize (K3 X); lia].
      + intro H. inversion H; subst. exists t1, 0%nat. cbn [length]. split; auto. split; auto. split; auto. split; auto. split; auto. split; [lia|].
        split; [discriminate|lia].
  Qed.
  Lemma notify_trace w mg m ok w' : manager_notify w mg m = (ok, w') ->
    exists tr k, since w w' tr /\ w_chan w' = w_chan w /\ deliveries tr = [] /\ Forall (eq (group, msg_bytes m)) (offered tr) /\
      sent tr = repeat (group, msg_bytes m) k /\ (k <= length (mg_mcast mg))%nat /\
      (ok = true -> k = length (mg_mcast mg)) /\ (ok = false -> (k < length (mg_mcast mg))%nat).
  Proof. apply mcast_trace. Qed.
End T.

(* ------------------------------------------------------------------ *)
(** ** TIDs *)
Lemma set_tid_bytes m t : m_props (msg_set_tid m t) = m_props m. Proof. reflexivity. Qed.
Section N.
  Context {U : Type}.
  Definition next (t : N) : N := if 65535 <=? t then 0 else t + 1.

  Lemma update_tid_spec (n : node U) m n' m' : update_tid n m = (n', m') ->
    (msg_tid m <> 0 /\ n' = n /\ m' = m) \/
    (msg_tid m = 0 /\ n' = n_with_tid n (next (n_last_tid n)) /\ m' = msg_set_tid m (next (n_last_tid n))).
  Proof.
    unfold update_tid, msg_has_tid. destruct (N.eqb_spec (msg_tid m) 0) as [E|E]; intro H.
    - right. cbn in H. inversion H; subst. auto.
    - left. inversion H; subst. auto.
  Qed.
  Lemma update_tid_keeps (n : node U) m n' m' : update_tid n m = (n', m') ->
    n_objects n' = n_objects n /\ n_handlers n' = n_handlers n /\ n_mgr n' = n_mgr n /\ n_post n' = n_post n /\
    n_observers n' = n_observers n.
  Proof. intro H. apply update_tid_spec in H as [(_ & -> & _)|(_ & -> & _)]; repeat split. Qed.

  Context {P : Profile} {HO : HashOrder} {O : OS}.

  Lemma node_send_spec w (n : node U) to m ok m' n' w' : node_send w n to m = (ok, m', n', w') ->
    update_tid n m = (n', m') /\
    exists tr, since w w' tr /\ w_chan w' = w_chan w /\ deliveries tr = [] /\ Forall (eq (to, msg_bytes m')) (offered tr) /\
      sent tr = (if ok then [(to, msg_bytes m')] else []).
  Proof.
    unfold node_send. destruct (update_tid n m) as [n1 m1]. destruct (manager_send w (n_mgr n1) to m1) as [b w1] eqn:E.
    intro H. inversion H; subst. split; auto. apply send_trace in E. auto.
  Qed.
  Lemma node_notify_spec w (n : node U) m ok m' n' w' : node_notify w n m = (ok, m', n', w') ->
    update_tid n m = (n', m') /\
    exists tr k, since w w' tr /\ w_chan w' = w_chan w /\ deliveries tr = [] /\ Forall (eq (group, msg_bytes m')) (offered tr) /\
      sent tr = repeat (group, msg_bytes m') k /\ (k <= length (mg_mcast (n_mgr n)))%nat /\
      (ok = true -> k = length (mg_mcast (n_mgr n))) /\ (ok = false -> (k < length (mg_mcast (n_mgr n)))%nat).
  Proof.
    unfold node_notify. destruct (update_tid n m) as [n1 m1] eqn:E0. destruct (manager_notify w (n_mgr n1) m1) as [b w1] eqn:E.
    intro H. inversion H; subst. split; auto. apply notify_trace in E.
    apply update_tid_keeps in E0 as (_ & _ & M & _). rewrite M in E. auto.
  Qed.
  Lemma node_post_spec w (n : node U) to m c m' n' w' : node_post w n to m = (c, m', n', w') ->
    c = w_chan w /\ w_chan w' = w_chan w + 1 /\
    exists n1 ok tr, update_tid n m = (n1, m') /\ n' = n_with_post n1 (Some c) /\
      since w w' tr /\ deliveries tr = [] /\ Forall (eq (to, msg_bytes m')) (offered tr) /\
      sent tr = (if ok : bool then [(to, msg_bytes m')] else []).
  Proof.
    unfold node_post. destruct (update_tid n m) as [n1 m1] eqn:E0.
    destruct (manager_send _ _ to m1) as [b w1] eqn:E. apply send_trace in E as (tr & A & B & C & D & F).
    intro H. inversion H; subst. split; auto. split; [auto|]. exists n1, b, tr. repeat split; auto.
  Qed.

  (* ---------------------------------------------------------------- *)
  (** ** The observer *)
  Definition respond (w : world) (n : node U) (req : message) (res : option message) : node U * world :=
    match res with
    | None => (n, w)
    | Some r =>
      if esv_is_response (msg_esv r) then
        if esv_is_unicast_response (msg_esv r) then
          let '(_, _, n, w) := node_send w n (fst (msg_from req), PORT) r in (n, w)
        else let '(_, _, n, w) := node_notify w n r in (n, w)
      else (n, w)
    end.
  Definition deliver (w : world) (n : node U) (req : message) : outcome (node U * world) :=
    if is_last_message_response n req then let! m := msg_clone req in Ret (send_post_response w n m) else Ret (n, w).
  Lemma observe_eq w u (n : node U) req : node_observe w u n req =
    let! x := deliver w n req in
    let '(n, w) := x in
    let! y := node_message_received (os_seed (w_calls w)) u n req in
    let '(u, n, res) := y in
    let '(n, w) := respond (tick w) n req res in Ret (u, n, w).
  Proof.
    unfold node_observe. change (if is_last_message_response n req then _ else _) with (deliver w n req).
    destruct (deliver w n req) as [[n1 w1]|]; auto. cbn [obind].
    destruct (node_message_received _ u n1 req) as [[[u2 n2] res]|]; auto. cbn [obind]. unfold respond.
    destruct res as [r|]; auto. destruct (esv_is_response (msg_esv r)); auto.
    destruct (esv_is_unicast_response (msg_esv r)).
    - destruct (node_send _ _ _ _) as [[[? ?] ?] ?]; auto.
    - destruct (node_notify _ _ _) as [[[? ?] ?] ?]; auto.
  Qed.

  (** Destination of a response. *)
  Definition dest (req : message) (e : N) : sockaddr :=
    if (e =? 0x73) || (e =? 0x7A) then group else (fst (msg_from req), 3610).
  Inductive reaction (req : message) (n : node U) : option message -> node U -> list event -> Prop :=
  | R_none : reaction req n None n []
  | R_some r n' r' tr k : update_tid n r = (n', r') -> deliveries tr = [] ->
      Forall (eq (dest req (m_esv r), msg_bytes r')) (offered tr) ->
      sent tr = repeat (dest req (m_esv r), msg_bytes r') k ->
      (k <= if ((m_esv r =? 0x73) || (m_esv r =? 0x7A))%N then length (mg_mcast (n_mgr n)) else 1)%nat ->
      reaction req n (Some r) n' tr.
  Definition response_code (e : N) : Prop := In e [0x71; 0x72; 0x73; 0x7A; 0x7E; 0x50; 0x51; 0x52; 0x53; 0x5E].
  Lemma respond_spec w n req res n' w' : (forall r, res = Some r -> response_code (m_esv r)) ->
    respond w n req res = (n', w') ->
    exists tr, since w w' tr /\ w_chan w' = w_chan w /\ reaction req n res n' tr.
  Proof.
    intros R H. unfold respond in H. destruct res as [r|].
    2:{ inversion H; subst. exists []. split; [apply since_refl|]. split; [auto|constructor]. }
    specialize (R r eq_refl).
    assert (E1 : esv_is_response (msg_esv r) = true) by (apply (C10_esv_classes (m_esv r)); exact R).
    rewrite E1 in H. destruct (esv_is_unicast_response (msg_esv r)) eqn:E2.
    - destruct (node_send w n _ r) as [[[ok r'] n1] w1] eqn:E. inversion H; subst.
      apply node_send_spec in E as (A & tr & B & C & D & F & G).
      assert (X : (m_esv r =? 0x73) || (m_esv r =? 0x7A) = false).
      { destruct (N.eqb_spec (m_esv r) 0x73) as [E|]; [unfold msg_esv in E2; rewrite E in E2; discriminate|].
        destruct (N.eqb_spec (m_esv r) 0x7A) as [E|]; [unfold msg_esv in E2; rewrite E in E2; discriminate|]. reflexivity. }
      exists tr. split; auto. split; auto. apply (R_some req n r n' r' tr (if ok then 1 else 0)%nat); auto; unfold dest; rewrite X; auto.
      + rewrite G. destruct ok; reflexivity.
      + destruct ok; lia.
    - destruct (node_notify w n r) as [[[ok r'] n1] w1] eqn:E. inversion H; subst.
      apply node_notify_spec in E as (A & tr & k & B & C & D & F & G & K & _).
      assert (X : (m_esv r =? 0x73) || (m_esv r =? 0x7A) = true).
      { assert (Y : ~ In (m_esv r) [0x71; 0x72; 0x7E; 0x50; 0x51; 0x52; 0x53; 0x5E]).
        { intro I. apply (C10_esv_classes (m_esv r)) in I. unfold msg_esv in E2. congruence. }
        cbn in R, Y. destruct R as [R|[R|[R|[R|[R|[R|[R|[R|[R|[R|[]]]]]]]]]]]; rewrite <- R in *; auto; exfalso; apply Y; auto 10. }
      exists tr. split; auto. split; auto. apply (R_some req n r n' r' tr k); auto; unfold dest; rewrite X; auto.
  Qed.

  (** Delivery of a response to a waiting receiver. *)
  Inductive delivered (n : node U) (m : message) : node U -> list event -> Prop :=
  | D_no : is_last_message_response n m = false -> delivered n m n []
  | D_lost m' : is_last_message_response n m = true -> msg_clone m = Ret m' -> n_post n = None ->
      delivered n m (n_with_post n None) []
  | D_yes m' c : is_last_message_response n m = true -> msg_clone m = Ret m' -> n_post n = Some c ->
      delivered n m (n_with_post n None) [EvDeliver c m'].
  Lemma deliver_spec w n m n' w' : deliver w n m = Ret (n', w') ->
    exists tr, since w w' tr /\ w_chan w' = w_chan w /\ delivered n m n' tr.
  Proof.
    unfold deliver. destruct (is_last_message_response n m) eqn:E.
    - destruct (msg_clone m) as [m'|] eqn:E'; cbn [obind]; [|discriminate]. unfold send_post_response.
      intro H. inversion H; subst. destruct (n_post n) as [c|] eqn:E2.
      + eexists. split; [apply since_log|]. split; auto. eapply D_yes; eauto.
      + eexists. split; [apply since_refl|]. split; auto. eapply D_lost; eauto.
    - intro H. inversion H; subst. exists []. split; [apply since_refl|]. split; auto. constructor; auto.
  Qed.
  Lemma delivered_keeps n m n' tr : delivered n m n' tr ->
    n_objects n' = n_objects n /\ n_handlers n' = n_handlers n /\ n_mgr n' = n_mgr n /\ n_last_tid n' = n_last_tid n /\
    n_observers n' = n_observers n /\ offered tr = [] /\ sent tr = [].
  Proof. intro H; inversion H; subst; repeat split. Qed.
  Lemma delivered_request n m n' tr : request_service (m_esv m) -> delivered n m n' tr -> n' = n /\ tr = [].
  Proof.
    intros R H. assert (E : is_last_message_response n m = false).
    { unfold is_last_message_response. apply request_service_spec in R. unfold msg_esv. rewrite R. reflexivity. }
    inversion H; subst; auto; congruence.
  Qed.

  Lemma handled_response seed u (n : node U) m u' n' r : handled seed u n m u' n' (Some r) -> msg_wf m -> one_body m ->
    request_service (m_esv m) /\ response_code (m_esv r) /\ m_tid r = m_tid m /\ m_seoj r = m_deoj m /\ m_deoj r = m_seoj m /\ m_ehd r = (0x10, 0x81).
  Proof.
    intros H W B. assert (F : request_service (m_esv m) -> forall e, failure_service (m_esv m) = Some e -> response_code e).
    { intros R e E. services R; rewrite <- R in E; inversion E; subst; cbn; auto 20. }
    assert (G : request_service (m_esv m) -> forall e, success_service (m_esv m) = Some e -> response_code e).
    { intros R e E. services R; rewrite <- R in E; inversion E; subst; cbn; auto 20. }
    inversion H as [|o R A V|o copy u1 copy' R A V C D|pre o post copy u1 copy' R Eo Ec Fp V C D Eu En Er]; subst.
    - split; auto. destruct (failure_eq m W R) as (e & E & ->). repeat split; eauto.
    - split; auto. destruct (failure_eq m W R) as (e & E & ->). repeat split; eauto.
    - destruct (success_eq o (answered o m copy') m W B R V (answered_shape o m copy')) as [[_ N]|(e & ps & ss & gs & S & E & _)].
      + congruence.
      + assert (r = resp m e ps ss gs) as -> by congruence. split; [auto|]. repeat split; eauto.
  Qed.

  Lemma observe_spec w u (n : node U) m u' n' w' : msg_wf m -> one_body m -> node_observe w u n m = Ret (u', n', w') ->
    exists n1 w1 t1 n2 res t2, since w w' (t1 ++ t2) /\ w_chan w' = w_chan w /\
      deliver w n m = Ret (n1, w1) /\
      delivered n m n1 t1 /\ handled (os_seed (w_calls w1)) u n1 m u' n2 res /\ reaction m n2 res n' t2.
  Proof.
    intros W B. rewrite observe_eq. destruct (deliver w n m) as [[n1 w1]|] eqn:E1; cbn [obind]; [|discriminate].
    destruct (node_message_received _ u n1 m) as [[[u2 n2] res]|] eqn:E2; cbn [obind]; [|discriminate].
    destruct (respond (tick w1) n2 m res) as [n3 w3] eqn:E3. intro H. inversion H; subst.
    pose proof (deliver_spec _ _ _ _ _ E1) as (t1 & A1 & A2 & A3). apply handled_spec in E2.
    apply respond_spec in E3 as (t2 & B1 & B2 & B3).
    - exists n1, w1, t1, n2, res, t2. split.
      + eapply since_trans; [exact A1|]. change t2 with ([] ++ t2). eapply since_trans; [apply since_tick|exact B1].
      + split; [rewrite B2; cbn; auto|]. auto.
    - intros r ->. eapply handled_response in E2; eauto. tauto.
  Qed.

  (* ---------------------------------------------------------------- *)
  (** ** Invariants *)
  Definition obj_good (o : object) : Prop := obj_wf o /\ props_ok o.
  Lemma obj_ok_good o : obj_ok o -> obj_good o. Proof. intros [A _ B]. split; auto. Qed.
  Lemma obj_good_coded o : obj_good o -> coded o.
  Proof. intros [W _] c p H. apply find_code in H; tauto. Qed.
  Lemma good_set_data o c d : octets d -> obj_good o -> obj_good (fst (object_set_property_data o c d)).
  Proof.
    intros Hd [W Q]. split; [apply set_data_wf; auto|]. intros k p. rewrite set_data_find.
    destruct (k =? c); [|apply Q]. destruct (object_find_property o c) as [q|] eqn:E; [|discriminate]. cbn.
    intro H. inversion H; subst. apply prop_set_data_ok; eauto.
  Qed.
  Lemma good_sets l : forall o, Forall (fun q => octets (pp_data q)) l -> obj_good o -> obj_good (sets o l).
  Proof.
    induction l as [|q r IH]; intros o F G; cbn [sets fold_left]; auto. inversion F; subst. apply IH; auto. apply good_set_data; auto.
  Qed.
  Lemma good_props o : obj_good o -> Forall prop_ok (object_properties o).
  Proof.
    intros [W Q]. apply Forall_forall. intros p I. unfold object_properties, hvalues in I.
    apply in_map_iff in I as ([k q] & E & I). cbn in E. subst q. apply (Q k). apply in_hget; auto. apply W.
  Qed.
  Lemma clone_good seed o o' : obj_good o -> object_clone seed o = Ret o' ->
    obj_ok o' /\ o_codes o' = o_codes o /\ o_name o' = o_name o /\ o_class_name o' = o_class_name o /\
    (forall c, is_map_code c = false -> object_find_property o' c = object_find_property o c) /\
    (forall c, strip (object_find_property o' c) = strip (object_find_property o c)).
  Proof.
    intros W. unfold object_clone. rewrite add_properties_adds, map_clone_id by (apply good_props; auto). intro E.
    apply adds_spec in E as (A & (B1 & B2 & B3 & _) & C & D).
    - split; auto. split; auto. split; auto. split; auto. split.
      + intros c Hc. rewrite C by auto. cbn. apply props_first. apply W.
      + intros c. rewrite D. cbn [orelse object_find_property o_props hget]. rewrite props_first by apply W. reflexivity.
    - eapply obj_ok_props; [|apply (obj_ok_new seed)]. reflexivity.
    - apply good_props; auto.
  Qed.
  Lemma clone_good_total seed o : obj_good o -> std_keys o -> exists o', object_clone seed o = Ret o'.
  Proof.
    intros W S. unfold object_clone. rewrite add_properties_adds, map_clone_id by (apply good_props; auto).
    apply adds_total.
    - eapply obj_ok_props; [|apply (obj_ok_new seed)]. reflexivity.
    - apply good_props; auto.
    - intros c p H. discriminate.
    - apply Forall_forall. intros p I. unfold object_properties, hvalues in I.
      apply in_map_iff in I as ([k q] & E & I). cbn in E. subst q.
      destruct (ow_keyed o (proj1 W) k p I) as [Hk _]. rewrite Hk. apply (S k p). apply in_hget; auto. apply W.
  Qed.
  Lemma clone_shape seed o o' : obj_good o -> object_clone seed o = Ret o' -> same_shape o o'.
  Proof.
    intros G E. apply clone_good in E as (_ & A & B & C & _ & D); auto. split; auto. split; auto. split; auto. split.
    - intro c. specialize (D c). destruct (object_find_property o c), (object_find_property o' c); cbn in D; split; congruence.
    - intros c p q Hp Hq. specialize (D c). rewrite Hp, Hq in D. cbn in D. apply same_strip. congruence.
  Qed.
  Lemma good_octets o : obj_good o -> obj_octets o.
  Proof. intros G p I. pose proof (good_props o G) as F. apply (proj1 (Forall_forall _ _) F) in I as []. auto. Qed.

  Definition node_good (n : node U) : Prop := Forall obj_good (n_objects n) /\ Forall typed_handler (n_handlers n).
  Lemma writes_octets m : msg_wf m -> Forall (fun q => octets (pp_data q)) (writes_of m).
  Proof.
    intro W. unfold writes_of. assert (X : forall l, Forall u8prop l -> Forall (fun q => octets (pp_data q)) l).
    { intros l F. eapply Forall_impl; [|exact F]. intros q [_ H]. exact H. }
    destruct (_ || _); [apply X, W|]. destruct (_ =? _); [apply X, W|constructor].
  Qed.
  Lemma handled_good seed u n m u' n' res : msg_wf m -> node_good n -> handled seed u n m u' n' res -> node_good n'.
  Proof.
    intros W [A B] H. inversion H; subst; try (split; auto; fail).
    split; cbn; auto. rewrite H1 in A. apply Forall_app in A as [A1 A2]. inversion A2; subst.
    apply Forall_app. split; auto. constructor; auto.
    destruct (answered_sets o m copy') as (l & -> & El). apply good_sets; auto. apply Forall_app. split; [|apply writes_octets; auto].
    subst l. apply Forall_map. apply request_received_typed in H6; auto.
    - apply Forall_forall. intros p I. apply H6 in I. cbn. tauto.
    - apply good_octets, obj_ok_good. eapply clone_good in H5; [|eauto]. tauto.
  Qed.
  Lemma objects_good_tid (n n' : node U) : n_objects n' = n_objects n -> n_handlers n' = n_handlers n -> node_good n -> node_good n'.
  Proof. unfold node_good. intros -> ->. auto. Qed.
  Lemma reaction_keeps m n res n' tr : reaction m n res n' tr ->
    n_objects n' = n_objects n /\ n_handlers n' = n_handlers n /\ n_mgr n' = n_mgr n /\ n_post n' = n_post n /\ n_observers n' = n_observers n.
  Proof. intro H. inversion H; subst; [repeat split|]. eapply update_tid_keeps; eauto. Qed.
End N.
