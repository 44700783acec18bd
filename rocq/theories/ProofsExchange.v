(** An accepted request and its response on the wire, from end to end. *)
From Verif Require Import Base HMap ModelCodec ModelMessages ModelObject ModelTransport ModelNode
  SpecWire SpecObject SpecNode ProofsCodec ProofsCodec2 PropertiesCodec ProofsObject ProofsObject2 ProofsObject3
  ProofsNode ProofsNode2 ProofsNode3 ProofsNode4 PropertiesNode.

Section S.
  Context {U : Type} {P : Profile} {HO : HashOrder} {Os : OS}.

  (** A handler that accepts every property of the request, for object [o]. *)
  Definition accepts (h : handler U) (o : object) (m : message) : Prop :=
    forall seed copy, object_clone seed o = Ret copy ->
    forall u p u' copy' b, In p (m_props m) -> call_handler h u copy (msg_esv m) p = Ret (u', copy', b) -> b = true.
  Definition accepted_by (hs : list (handler U)) (o : object) (m : message) : Prop :=
    hs = [] \/ exists h, In h hs /\ accepts h o m.

  Lemma asked_true (h : handler U) (ok : pprop -> Prop) e u o ps bs u' o' : hands_off h ->
    (forall u p u' o' b, In p ps -> call_handler h u o e p = Ret (u', o', b) -> b = true) ->
    asked h e u o ps bs u' o' -> ~ In false bs.
  Proof.
    intros H A R. induction R as [|u o p u1 o1 b ps bs u2 o2 E R IH]; [intros []|].
    assert (o1 = o) as -> by (destruct h; cbn in E; [congruence|eapply H; eauto]).
    rewrite (A u p u1 o b) by (auto; left; auto). intros [X|X]; [discriminate|]. revert X. apply IH. intros. eapply A; eauto. right. auto.
  Qed.
  Lemma all_asked_true (h : handler U) e ps hs u o bss u' o' : Forall hands_off hs -> In h hs ->
    (forall u p u' o' b, In p ps -> call_handler h u o e p = Ret (u', o', b) -> b = true) ->
    all_asked e ps hs u o bss u' o' -> exists bs, In bs bss /\ ~ In false bs.
  Proof.
    intros F I A R. induction R as [|k hs u o bs u1 o1 bss u2 o2 A1 R IH]; [destruct I|]. inversion F; subst.
    pose proof (asked_hands_off _ _ _ _ _ _ _ _ H1 A1). subst o1. destruct I as [->|I].
    - exists bs. split; [left; auto|]. eapply (asked_true h (fun _ => True)); eauto.
    - destruct IH as (bs' & I' & N); auto. exists bs'. split; [right; auto|auto].
  Qed.
  Lemma accepted_verdict hs u o m u' o' b seed copy : Forall hands_off hs -> accepted_by hs o m -> object_clone seed o = Ret copy ->
    request_received hs u copy m = Ret (u', o', b) -> b = true.
  Proof.
    intros F A C R. apply verdict_spec in R. destruct R as [(_ & _ & _ & ->)|(Ne & bss & Al & B)]; auto.
    destruct A as [A|(h & I & A)]; [contradiction|]. apply B. eapply (all_asked_true h); eauto.
  Qed.

  (** The reply to an accepted write (0x61) or read (0x62). *)
  Lemma reply w (u : U) n m u' n' w' o : rcvd m -> node_good n -> Forall hands_off (n_handlers n) -> m_esv m = 0x61 \/ m_esv m = 0x62 ->
    addressed (n_objects n) (msg_deoj m) o -> permitted o m -> accepted_by (n_handlers n) o m ->
    node_observe w u n m = Ret (u', n', w') ->
    exists pre post o' ps t tr (ok : bool),
      n_objects n = pre ++ o :: post /\ n_objects n' = pre ++ o' :: post /\ addressed (n_objects n') (msg_deoj m) o' /\
      same_shape o o' /\ obj_good o' /\
      (forall c, is_map_code c = false -> object_find_property o' c = option_map (set_last (last_data c (writes_of m))) (object_find_property o c)) /\
      ps = (if m_esv m =? 0x61 then ack_props (m_props m) else map (held o') (m_props m)) /\
      wf2 t /\ (msg_tid m <> 0 -> t = m_tid m) /\
      since w w' tr /\ deliveries tr = [] /\
      Forall (eq ((fst (msg_from m), 3610), msg_bytes (with_t m t (m_esv m + 16) ps [] []))) (offered tr) /\
      sent tr = (if ok then [((fst (msg_from m), 3610), msg_bytes (with_t m t (m_esv m + 16) ps [] []))] else []) /\
      ((forall k, os_send k = true) -> (exists s, In s (mg_ucast (n_mgr n)) /\ sk_sock (sv_socket s) <> None) -> ok = true) /\
      n_handlers n' = n_handlers n /\ n_mgr n' = n_mgr n /\ n_observers n' = n_observers n /\ n_post n' = n_post n.
  Proof.
    intros R G Hh Es A Pm Ac E. pose proof R as [W L B].
    assert (Q : request_service (m_esv m)) by (unfold request_service; cbn; destruct Es; auto).
    rewrite observe_eq in E.
    assert (D0 : deliver w n m = Ret (n, w)).
    { unfold deliver, is_last_message_response. apply request_service_spec in Q. unfold msg_esv. rewrite Q. reflexivity. }
    rewrite D0 in E. cbn [obind] in E.
    destruct (node_message_received (os_seed (w_calls w)) u n m) as [[[u1 n1] res]|] eqn:E1; cbn [obind] in E; [|discriminate].
    destruct (respond (tick w) n1 m res) as [n2 w2] eqn:E2. inversion E; subst u1 n2 w2. clear E.
    pose proof E1 as E1'.
    apply handled_spec in E1.
    inversion E1 as [N|o0 _ Ao V|o0 copy u1 copy' _ Ao V C1 D1|pre o0 post copy u1 copy' _ Eo Ec Fp V C1 D1 Eu En Er]; subst.
    { exfalso. destruct N as [N|N]; [|tauto]. eapply addressed_not_owned; eauto. }
    { exfalso. rewrite (addressed_unique _ _ _ _ Ao A) in V. tauto. }
    { exfalso. rewrite (addressed_unique _ _ _ _ Ao A) in C1. pose proof (accepted_verdict _ _ _ _ _ _ _ _ _ Hh Ac C1 D1). discriminate. }
    assert (o0 = o) as -> by (eapply addressed_unique; eauto; exists pre, post; auto).
    pose proof (handled_good _ _ _ _ _ _ _ W G E1) as G'.
    assert (Go : obj_good o).
    { destruct G as [G _]. rewrite Eo in G. apply Forall_app in G as [_ G]. inversion G; auto. }
    assert (Go' : obj_good (answered o m copy')).
    { destruct G' as [G' _]. cbn in G'. apply Forall_app in G' as [_ G']. inversion G'; auto. }
    assert (Ps : object_message_received (answered o m copy') m =
      Some (resp m (m_esv m + 16) (if m_esv m =? 0x61 then ack_props (m_props m) else map (held (answered o m copy')) (m_props m)) [] [])).
    { destruct (success_eq o (answered o m copy') m W B Q V (answered_shape o m copy')) as [[X _]|(e & ps & ss & gs & S1 & Em & K1 & K2 & _)].
      - exfalso. destruct Es; congruence.
      - rewrite Em. destruct Es as [X|X]; rewrite X in *.
        + destruct K1 as (-> & -> & ->); auto. inversion S1. reflexivity.
        + destruct K2 as (Rp & -> & ->); auto. inversion S1. apply read_props_held in Rp; [|apply obj_good_coded; auto]. subst ps. reflexivity. }
    rewrite Ps in E2. set (ps := if m_esv m =? 0x61 then _ else _) in *.
    assert (Ev : m_esv m + 16 = 0x71 \/ m_esv m + 16 = 0x72) by (destruct Es as [-> | ->]; auto).
    unfold respond in E2. cbn [msg_esv m_esv resp] in E2.
    assert (T1 : esv_is_response (esv_from_u8 (m_esv m + 16)) = true /\ esv_is_unicast_response (esv_from_u8 (m_esv m + 16)) = true) by (destruct Ev as [-> | ->]; split; reflexivity).
    change (msg_esv (resp m (m_esv m + 16) ps [] [])) with (esv_from_u8 (m_esv m + 16)) in E2.
    destruct T1 as [T1 T2]. rewrite T1, T2 in E2. clear T1 T2. set (n1 := n_with_objects n (pre ++ answered o m copy' :: post)) in *.
    destruct (node_send (tick w) n1 (fst (msg_from m), PORT) (resp m (m_esv m + 16) ps [] [])) as [[[ok r'] n3] w3] eqn:E3. inversion E2; subst n3 w3.
    pose proof E3 as E3'. apply node_send_spec in E3 as (Ut & tr & S & _ & Dl & Fo & Se).
    pose proof (update_tid_keeps _ _ _ _ Ut) as (Ko & Kh & Km & Kb & Kp).
    destruct (update_resp _ _ _ _ _ _ _ _ W Ut) as (t & -> & Wt & Ht).
    exists pre, post, (answered o m copy'), ps, t, tr, ok.
    split; auto. split; [rewrite Ko; reflexivity|]. split; [rewrite Ko; cbn; eapply addressed_after; eauto; apply answered_shape|].
    split; [apply answered_shape|]. split; auto. split.
    { intros c Nm. apply request_received_hands_off in D1; auto. subst copy'. eapply answered_hands_off; eauto. }
    split; auto. split; auto. split; auto. split.
    { change tr with ([] ++ tr). eapply since_trans; [apply since_tick|exact S]. }
    split; auto. split; [exact Fo|]. split; [rewrite Se; reflexivity|]. split.
    { intros Al Bd. unfold node_send in E3'. rewrite Ut in E3'. destruct (manager_send (tick w) (n_mgr n') _ _) as [b w4] eqn:Ms. inversion E3'; subst b.
      eapply manager_send_ok; eauto. rewrite Km. exact Bd. }
    rewrite Kh, Km, Kb, Kp. repeat split; reflexivity.
  Qed.

  (** Handlers that never panic. *)
  Definition total_handler (h : handler U) : Prop := forall u o e p, call_handler h u o e p <> Panic.
  Lemma request_received_total hs (u : U) o m : Forall total_handler hs -> request_received hs u o m <> Panic.
  Proof.
    intros F. unfold request_received. destruct (Nat.eqb (length hs) 0); [discriminate|]. generalize false. revert u o.
    induction F as [|h r H F IH]; intros u o acc; cbn [ask_handlers]; [discriminate|].
    assert (X : forall ps u o all, ask_handler h u o (msg_esv m) ps all <> Panic).
    { induction ps as [|p ps IHp]; intros v x all; cbn [ask_handler]; [discriminate|].
      destruct (call_handler h v x (msg_esv m) p) as [[[v' x'] b]|] eqn:E; cbn [obind]; [apply IHp|]. exfalso. eapply H; eauto. }
    destruct (ask_handler h u o (msg_esv m) (m_props m) true) as [[[u1 o1] all]|] eqn:E; cbn [obind]; [apply IH|]. exfalso. eapply X; eauto.
  Qed.
  Definition node_std (n : node U) : Prop := Forall std_keys (n_objects n).
  Lemma message_received_total seed (u : U) n m : node_good n -> node_std n -> Forall total_handler (n_handlers n) ->
    node_message_received seed u n m <> Panic.
  Proof.
    intros [G _] S F. unfold node_message_received. destruct (esv_is_response _); [discriminate|].
    destruct (find_object (n_objects n) (msg_deoj m)) as [o|] eqn:E; [|discriminate]. destruct (esv_is_request _); cbn [negb]; [|discriminate].
    destruct (request_valid o m); cbn [negb]; [|discriminate].
    apply find_object_some in E as (pre & post & Eo & _ & _).
    assert (Go : obj_good o) by (rewrite Eo in G; apply Forall_app in G as [_ G]; inversion G; auto).
    assert (So : std_keys o) by (unfold node_std in S; rewrite Eo in S; apply Forall_app in S as [_ S]; inversion S; auto).
    destruct (clone_good_total seed o Go So) as (copy & ->). cbn [obind].
    destruct (request_received (n_handlers n) u copy m) as [[[u1 c1] b]|] eqn:E; [|exfalso; eapply request_received_total; eauto].
    cbn [obind]. destruct b; cbn [negb]; discriminate.
  Qed.
  Lemma observe_total w (u : U) n m : rcvd m -> node_good n -> node_std n -> Forall total_handler (n_handlers n) ->
    (m_esv m = 0x5E -> msg_tid m <> n_last_tid n) -> exists u' n' w', node_observe w u n m = Ret (u', n', w').
  Proof.
    intros R G S F N. rewrite observe_eq.
    assert (D : exists n1 w1, deliver w n m = Ret (n1, w1)).
    { unfold deliver. destruct (is_last_message_response n m) eqn:E; eauto.
      destruct (N.eq_dec (m_esv m) 0x5E) as [H|H].
      - exfalso. unfold is_last_message_response in E. destruct (esv_is_request (msg_esv m)); [discriminate|].
        destruct (msg_tid m =? n_last_tid n) eqn:T; [|discriminate]. apply N.eqb_eq in T. exact (N H T).
      - rewrite (clone_rcvd m R H). cbn [obind]. unfold send_post_response. destruct (n_post n); eauto. }
    destruct D as (n1 & w1 & D). rewrite D. cbn [obind]. apply deliver_spec in D as (tr & _ & _ & D). apply delivered_keeps in D as (Ko & Kh & _).
    destruct (node_message_received (os_seed (w_calls w1)) u n1 m) as [[[u2 n2] res]|] eqn:E.
    - cbn [obind]. destruct (respond (tick w1) n2 m res) as [n3 w3]. eauto.
    - exfalso. eapply message_received_total; [| | |exact E]; unfold node_good, node_std; rewrite ?Ko, ?Kh; auto.
  Qed.
End S.
