(** C136: the sender of a request plays no part in what a node does with it. *)
From Verif Require Import Base HMap ModelCodec ModelMessages DbTable ModelObject ModelTransport ModelNode
  SpecWire SpecObject SpecNode ProofsCodec ProofsCodec2 PropertiesCodec ProofsObject ProofsObject2 ProofsObject3
  PropertiesObject PropertiesDb ProofsDevice ProofsNode ProofsNode2 ProofsNode3 ProofsNode4 ExamplesNode PropertiesNode.

(** ** Vocabulary *)
(** The same message with another transaction id, from another object at another
    address. *)
Definition sent_by (m : message) (tid : N * N) (seoj : N * N * N) (a : sockaddr) : message :=
  Msg (m_ehd m) tid seoj (m_deoj m) (m_esv m) (m_props m) (m_set m) (m_get m) a.
(** The answer [r], but for the request [m]: its transaction id, to its sender. *)
Definition answer_for (m : message) (r : message) : message :=
  Msg (m_ehd r) (m_tid m) (m_seoj r) (m_seoj m) (m_esv r) (m_props r) (m_set r) (m_get r) (m_from r).
(** What is handed to the operating system for two senders: the same octets except
    the transaction id and the destination object, from the same socket with the same
    result, to the one sender or the other, or to the group in both cases. *)
Inductive same_event (a b : sockaddr) : event -> event -> Prop :=
| same_sent local to to' e0 e1 t0 t1 t0' t1' s0 s1 s2 d0 d1 d2 d0' d1' d2' rest ok :
    (to = (fst a, PORT) /\ to' = (fst b, PORT)) \/ (to = (MULTICAST_V4_ADDRESS, PORT) /\ to' = to) ->
    same_event a b (EvSend local to (e0 :: e1 :: t0 :: t1 :: s0 :: s1 :: s2 :: d0 :: d1 :: d2 :: rest) ok)
                   (EvSend local to' (e0 :: e1 :: t0' :: t1' :: s0 :: s1 :: s2 :: d0' :: d1' :: d2' :: rest) ok).

Section S.
  Context {U : Type} {P : Profile} {HO : HashOrder} {Os : OS}.

  Lemma resp_for m t s a e ps ss gs : resp (sent_by m t s a) e ps ss gs = answer_for (sent_by m t s a) (resp m e ps ss gs).
  Proof. reflexivity. Qed.
  Lemma object_answer o m t s a : msg_wf m -> msg_wf (sent_by m t s a) -> request_service (m_esv m) ->
    object_message_received o (sent_by m t s a) = option_map (answer_for (sent_by m t s a)) (object_message_received o m).
  Proof.
    intros W W' R. set (m' := sent_by m t s a) in *. unfold object_message_received. rewrite !response_message_eq by auto.
    change (msg_esv m') with (msg_esv m). change (m_props m') with (m_props m). change (m_set m') with (m_set m). change (m_get m') with (m_get m).
    assert (X : response_error_message m' = answer_for m' (response_error_message m)) by (rewrite !error_message_eq by auto; reflexivity).
    destruct (msg_esv m); try reflexivity; cbn [option_map]; rewrite ?fold_add_props, ?fold_add_set; try reflexivity;
    destruct (read_props_of o _); cbn [option_map]; rewrite ?fold_add_props, ?fold_add_get; congruence || reflexivity.
  Qed.
  Lemma error_answer m t s a : msg_wf m -> msg_wf (sent_by m t s a) -> request_service (m_esv m) ->
    response_error_message (sent_by m t s a) = answer_for (sent_by m t s a) (response_error_message m).
  Proof. intros W W' R. rewrite !error_message_eq by auto. reflexivity. Qed.

  (** Whoever sends a message: the node, the state of the handlers and the answer are
      the same, except that the answer has the transaction id of the request and goes
      to its sender. *)
  Theorem C136_answer : forall seed (u : U) n m t s a, received m -> received (sent_by m t s a) ->
    node_message_received seed u n (sent_by m t s a) =
    match node_message_received seed u n m with
    | Ret (u', n', r) => Ret (u', n', option_map (answer_for (sent_by m t s a)) r)
    | Panic => Panic
    end.
  Proof.
    intros seed u n m t s a R R'. apply received_rcvd in R, R'. pose proof (rc_wf _ R) as W. pose proof (rc_wf _ R') as W'.
    unfold node_message_received. set (m' := sent_by m t s a) in *.
    change (msg_esv m') with (msg_esv m). change (msg_deoj m') with (msg_deoj m).
    destruct (esv_is_response (msg_esv m)); [reflexivity|]. destruct (find_object (n_objects n) (msg_deoj m)) as [o|]; [|reflexivity].
    destruct (esv_is_request (msg_esv m)) eqn:Q; cbn [negb]; [|reflexivity]. assert (Rs : request_service (m_esv m)) by (apply request_service_spec; auto).
    change (request_valid o m') with (request_valid o m). destruct (request_valid o m); cbn [negb].
    2:{ cbn [option_map]. unfold m'. rewrite error_answer; auto. }
    destruct (object_clone seed o) as [copy|]; cbn [obind]; [|reflexivity].
    change (request_received (n_handlers n) u copy m') with (request_received (n_handlers n) u copy m).
    destruct (request_received (n_handlers n) u copy m) as [[[u1 copy'] acc]|]; cbn [obind]; [|reflexivity].
    destruct acc; cbn [negb].
    - change (apply_writes (copy_back o (object_properties copy')) m') with (apply_writes (copy_back o (object_properties copy')) m).
      unfold m'. rewrite object_answer; auto.
    - cbn [option_map]. unfold m'. rewrite error_answer; auto.
  Qed.

  (** ** What is sent *)
  Lemma answer_bytes m r : exists e0 e1 t0 t1 t0' t1' s0 s1 s2 d0 d1 d2 d0' d1' d2' rest,
    msg_bytes r = e0 :: e1 :: t0 :: t1 :: s0 :: s1 :: s2 :: d0 :: d1 :: d2 :: rest /\
    msg_bytes (answer_for m r) = e0 :: e1 :: t0' :: t1' :: s0 :: s1 :: s2 :: d0' :: d1' :: d2' :: rest.
  Proof.
    destruct r as [[e0 e1] [t0 t1] [[s0 s1] s2] [[d0 d1] d2] e ps ss gs f]. unfold answer_for, msg_bytes, msg_esv. cbn [m_ehd m_tid m_seoj m_deoj m_esv m_props m_set m_get].
    destruct (m_tid m) as [t0' t1'], (m_seoj m) as [[d0' d1'] d2']. repeat eexists.
  Qed.
  Definition parallel (a b : sockaddr) (w w' w1 w1' : world) : Prop :=
    w_calls w1' = w_calls w1 /\ w_chan w1' = w_chan w1 /\ exists tr tr', since w w1 tr /\ since w' w1' tr' /\ Forall2 (same_event a b) tr tr'.
  Lemma parallel_send a b to to' r m (l : list server) : (to = (fst a, PORT) /\ to' = (fst b, PORT)) -> forall w w', w_calls w' = w_calls w -> w_chan w' = w_chan w ->
    parallel a b w w' (snd (ucast_send w l to r)) (snd (ucast_send w' l to' (answer_for m r))).
  Proof.
    intro T. induction l as [|s l IH]; intros w w' C D; cbn [ucast_send].
    - split; auto. split; auto. exists [], []. split; [unfold since; cbn; rewrite app_nil_r; auto|]. split; [unfold since; cbn; rewrite app_nil_r; auto|constructor].
    - unfold ucast_server_send, socket_send_to. destruct (sk_sock (sv_socket s)) as [local|]; [|apply IH; auto]. rewrite C.
      destruct (answer_bytes m r) as (e0 & e1 & t0 & t1 & t0' & t1' & s0 & s1 & s2 & d0 & d1 & d2 & d0' & d1' & d2' & rest & E & E').
      assert (Sm : same_event a b (EvSend local to (msg_bytes r) (os_send (w_calls w))) (EvSend local to' (msg_bytes (answer_for m r)) (os_send (w_calls w)))) by (rewrite E, E'; constructor; auto).
      destruct (os_send (w_calls w)) eqn:Ok; cbn [snd].
      + split; [cbn; congruence|]. split; [cbn; congruence|]. eexists _, _. split; [reflexivity|]. split; [reflexivity|]. constructor; [exact Sm|constructor].
      + destruct (IH (log w (EvSend local to (msg_bytes r) false)) (log w' (EvSend local to' (msg_bytes (answer_for m r)) false))) as (A & B & tr & tr' & S1 & S2 & F); [cbn; congruence|cbn; auto|].
        split; auto. split; auto. eexists (_ :: tr), (_ :: tr'). unfold since in *. rewrite S1, S2. cbn [log w_trace]. rewrite <- !app_assoc. split; [reflexivity|]. split; [reflexivity|]. constructor; auto.
  Qed.
  Lemma parallel_notify a b r m (l : list server) : forall w w', w_calls w' = w_calls w -> w_chan w' = w_chan w ->
    parallel a b w w' (snd (mcast_notify w l r)) (snd (mcast_notify w' l (answer_for m r))).
  Proof.
    induction l as [|s l IH]; intros w w' C D; cbn [mcast_notify].
    - split; auto. split; auto. exists [], []. split; [unfold since; cbn; rewrite app_nil_r; auto|]. split; [unfold since; cbn; rewrite app_nil_r; auto|constructor].
    - unfold mcast_server_notify, socket_send_to. destruct (sk_sock (sv_socket s)) as [local|]; cbn [negb].
      2:{ split; auto. split; auto. exists [], []. split; [unfold since; cbn; rewrite app_nil_r; auto|]. split; [unfold since; cbn; rewrite app_nil_r; auto|constructor]. }
      rewrite C.
      destruct (answer_bytes m r) as (e0 & e1 & t0 & t1 & t0' & t1' & s0 & s1 & s2 & d0 & d1 & d2 & d0' & d1' & d2' & rest & E & E').
      assert (Sm : same_event a b (EvSend local (MULTICAST_V4_ADDRESS, PORT) (msg_bytes r) (os_send (w_calls w))) (EvSend local (MULTICAST_V4_ADDRESS, PORT) (msg_bytes (answer_for m r)) (os_send (w_calls w)))) by (rewrite E, E'; constructor; auto).
      destruct (os_send (w_calls w)) eqn:Ok; cbn [snd negb].
      + destruct (IH (log w (EvSend local (MULTICAST_V4_ADDRESS, PORT) (msg_bytes r) true)) (log w' (EvSend local (MULTICAST_V4_ADDRESS, PORT) (msg_bytes (answer_for m r)) true))) as (A & B & tr & tr' & S1 & S2 & F); [cbn; congruence|cbn; auto|].
        split; auto. split; auto. eexists (_ :: tr), (_ :: tr'). unfold since in *. rewrite S1, S2. cbn [log w_trace]. rewrite <- !app_assoc. split; [reflexivity|]. split; [reflexivity|]. constructor; auto.
      + split; [cbn; congruence|]. split; [cbn; congruence|]. eexists _, _. split; [reflexivity|]. split; [reflexivity|]. constructor; [exact Sm|constructor].
  Qed.

  (** The same for the datagrams that the node sends: it acts for every sender alike. A
      request without a transaction id is answered with one of the node's own. *)
  Theorem C136_sent : forall w (u : U) n m t s a u1 n1 w1, received m -> received (sent_by m t s a) -> request_service (m_esv m) ->
    msg_tid m <> 0 -> msg_tid (sent_by m t s a) <> 0 -> node_observe w u n m = Ret (u1, n1, w1) ->
    exists w2 tr tr', node_observe w u n (sent_by m t s a) = Ret (u1, n1, w2) /\ since w w1 tr /\ since w w2 tr' /\
      Forall2 (same_event (msg_from m) a) tr tr' /\ w_calls w2 = w_calls w1.
  Proof.
    intros w u n m t s a u1 n1 w1 R R' Q T T'. rewrite !observe_eq.
    assert (D : deliver w n m = Ret (n, w) /\ deliver w n (sent_by m t s a) = Ret (n, w)).
    { pose proof (proj1 (request_service_spec _) Q) as X. unfold deliver, is_last_message_response. change (msg_esv (sent_by m t s a)) with (msg_esv m). unfold msg_esv. rewrite X. auto. }
    destruct D as [-> ->]. cbn [obind]. rewrite (C136_answer _ _ _ m t s a R R'). set (m' := sent_by m t s a) in *.
    pose proof (handled_spec (os_seed (w_calls w)) u n m) as Hs.
    destruct (node_message_received (os_seed (w_calls w)) u n m) as [[[u2 n2] res]|]; cbn [obind]; [|discriminate].
    specialize (Hs u2 n2 res eq_refl).
    assert (Tid : forall r, res = Some r -> msg_tid r = msg_tid m).
    { intros r ->. apply received_rcvd in R. pose proof (rc_wf _ R) as W. 
      inversion Hs as [N|o0 Q0 Ao V|o0 copy u3 copy' Q0 Ao V C1 D1|pre o0 post copy u3 copy' Q0 Eo Ec Fp V C1 D1 Eu En Er]; subst.
      1,2: rewrite error_message_eq by auto; reflexivity.
      destruct (success_eq o0 (answered o0 m copy') m W (rc_body _ R) Q V (answered_shape o0 m copy')) as [[_ X]|(e & ps & ss & gs & _ & X & _)]; [congruence|].
      rewrite X in Er. inversion Er. reflexivity. }
    assert (Par : forall w0 (n0 : node U), exists w1', respond w0 n0 m res = (n0, w1') /\ exists w2', respond w0 n0 m' (option_map (answer_for m') res) = (n0, w2') /\ parallel (msg_from m) a w0 w0 w1' w2').
    { intros w0 n0. destruct res as [r|]; cbn [option_map respond].
      2:{ exists w0. split; auto. exists w0. split; auto. split; auto. split; auto. exists [], []. unfold since. rewrite app_nil_r. auto. }
      change (msg_esv (answer_for m' r)) with (msg_esv r). specialize (Tid r eq_refl).
      assert (H1 : msg_has_tid r = true) by (unfold msg_has_tid; rewrite Tid; destruct (N.eqb_spec (msg_tid m) 0); [contradiction|auto]).
      assert (H2 : msg_has_tid (answer_for m' r) = true).
      { unfold msg_has_tid. change (msg_tid (answer_for m' r)) with (msg_tid m'). destruct (N.eqb_spec (msg_tid m') 0); [contradiction|auto]. }
      destruct (esv_is_response (msg_esv r)).
      2:{ exists w0. split; auto. exists w0. split; auto. split; auto. split; auto. exists [], []. unfold since. rewrite app_nil_r. auto. }
      destruct (esv_is_unicast_response (msg_esv r)).
      - unfold node_send, update_tid. rewrite H1, H2. unfold manager_send.
        pose proof (parallel_send (msg_from m) a (fst (msg_from m), PORT) (fst a, PORT) r m' (mg_ucast (n_mgr n0)) (conj eq_refl eq_refl) w0 w0 eq_refl eq_refl) as Pa.
        change (msg_from m') with a. destruct (ucast_send w0 (mg_ucast (n_mgr n0)) (fst (msg_from m), PORT) r) as [ok wa], (ucast_send w0 (mg_ucast (n_mgr n0)) (fst a, PORT) (answer_for m' r)) as [ok' wb].
        cbn [snd] in Pa. exists wa. split; auto. exists wb. auto.
      - unfold node_notify, update_tid. rewrite H1, H2. unfold manager_notify.
        pose proof (parallel_notify (msg_from m) a r m' (mg_mcast (n_mgr n0)) w0 w0 eq_refl eq_refl) as Pa.
        destruct (mcast_notify w0 (mg_mcast (n_mgr n0)) r) as [ok wa], (mcast_notify w0 (mg_mcast (n_mgr n0)) (answer_for m' r)) as [ok' wb].
        cbn [snd] in Pa. exists wa. split; auto. exists wb. auto. }
    destruct (Par (tick w) n2) as (wa & Ea & wb & Eb & C & _ & tr & tr' & S1 & S2 & F). rewrite Ea, Eb. intro H. inversion H; subst.
    exists wb, tr, tr'. split; auto.
  Qed.
End S.

(** ** Cases *)
Section Cases.
  Local Existing Instance ex_order.
  Local Existing Instance ex_os.
  (** A write by the controller 0x05FF01 at 192.168.0.20, and the same write by an air
      conditioner at 192.168.0.99. *)
  Definition stranger : sockaddr := (V4 0xC0A80063, 50000).
  Definition by_controller : message := ex_rcv (to_lamp 7 0x61 [1; 0x80; 1; 0x31]).
  Definition by_stranger : message := sent_by by_controller (0x12, 0x34) (0x01, 0x30, 0x01) stranger.
  Example C136_case_messages : received by_controller /\ received by_stranger /\ msg_from by_controller <> msg_from by_stranger /\ msg_seoj by_controller <> msg_seoj by_stranger.
  Proof.
    split; [unfold by_controller; rcv|]. split; [|split; vm_compute; discriminate].
    exists [0x10; 0x81; 0x12; 0x34; 0x01; 0x30; 0x01; 0x02; 0x91; 0x01; 0x61; 1; 0x80; 1; 0x31]. eexists. exists stranger. split; [repeat constructor|]. split; vm_compute; reflexivity.
  Qed.
  Definition seen_by (m : message) : option (option (list N) * list (sockaddr * list N)) :=
    match node_observe (P := true) (ex_w (ex_ops [yes])) tt (ex_n (ex_ops [yes])) m with
    | Ret (_, n, w) => Some (data_in n 0x029101 0x80, sent (skipn (length (w_trace (ex_w (ex_ops [yes])))) (w_trace w)))
    | Panic => None
    end.
  Example C136_case :
    seen_by by_controller = Some (Some [0x31], [(peer, [0x10; 0x81; 0; 7; 0x02; 0x91; 1; 0x05; 0xFF; 1; 0x71; 1; 0x80; 0])]) /\
    seen_by by_stranger = Some (Some [0x31], [((V4 0xC0A80063, 3610), [0x10; 0x81; 0x12; 0x34; 0x02; 0x91; 1; 0x01; 0x30; 1; 0x71; 1; 0x80; 0])]).
  Proof. split; vm_compute; reflexivity. Qed.
End Cases.
