(** C127: what a node announces, and that changes of state are not among it. *)
From Verif Require Import Base HMap ModelCodec ModelMessages ModelObject ModelTransport ModelNode ModelController ModelHost ModelNetwork
  SpecWire SpecObject SpecNode SpecHost ProofsCodec ProofsCodec2 PropertiesCodec ProofsObject ProofsObject2 ProofsObject3
  PropertiesObject ProofsNode ProofsNode2 ProofsNode3 ProofsNode4 ExamplesNode PropertiesNode PropertiesTransport ProofsHistory ProofsController PropertiesController ProofsHost ProofsHost2 PropertiesHost PropertiesFrames PropertiesNetwork.

(** An announcement of the instance list: from the node profile 0x0EF001, with the
    one property 0xD5. *)
Definition announces_instances (data : list N) : Prop :=
  firstn 3 (skipn 4 data) = [0x0E; 0xF0; 0x01] /\ nth 11 data 0 = 1 /\ nth 12 data 0 = 0xD5.
(** What may make a node hand a notification (service 0x73) to the transport. *)
Definition cause {U} (op : node_op U) (to : sockaddr) (data : list N) : Prop :=
  match op with
  | OpStart | OpAnnounce => to = group /\ announces_instances data
  | OpAnnounceProperty o p => to = group
  | OpNotify m => to = group /\ m_esv m = 0x73
  | OpSend a m | OpPost a m => to = a /\ m_esv m = 0x73
  | OpRecv m => to = group /\ m_esv m = 0x63
  | OpAddObject _ | OpAddHandler _ | OpAddObserver _ | OpSetData _ _ _ | OpStop => False
  end.

Lemma bytes_service m : service_of (msg_bytes m) = m_esv m.
Proof. rewrite msg_bytes_eq. destruct (m_ehd m), (m_tid m), (m_seoj m) as [[? ?] ?], (m_deoj m) as [[? ?] ?]. reflexivity. Qed.

Section S.
  Context {U : Type} {P : Profile} {HO : HashOrder} {O : OS}.

  Lemma update_service (n : node U) m n' m' : update_tid n m = (n', m') -> m_esv m' = m_esv m.
  Proof. intro E. apply update_tid_spec in E as [(_ & _ & ->)|(_ & _ & ->)]; reflexivity. Qed.

  Lemma announce_cause w (n : node U) ok n' w' tr to data : node_good n -> node_announce w n = (ok, n', w') -> since w w' tr -> In (to, data) (offered tr) ->
    to = group /\ announces_instances data.
  Proof.
    intros G E T I. unfold node_announce in E.
    destruct (find_object (n_objects n) NODE_PROFILE_OBJECT_CODE) as [o|] eqn:Ef;
      [|inversion E; subst; rewrite (since_unique _ _ _ _ T (since_refl _)) in I; destruct I].
    destruct (object_find_property o NP_INSTANCE_LIST_NOTIFICATION) as [p|] eqn:Ep;
      [|inversion E; subst; rewrite (since_unique _ _ _ _ T (since_refl _)) in I; destruct I].
    destruct (node_notify w n (announce_message o p)) as [[[b m1] n1] w1] eqn:En. inversion E; subst.
    apply node_notify_spec in En as (A & t2 & k & B & _ & _ & F & _). rewrite (since_unique _ _ _ _ T B) in I.
    rewrite Forall_forall in F. apply F in I. inversion I; subst. split; auto.
    apply find_object_some in Ef. pose proof Ef as (pre & post & _ & Co & _). apply addressed_in in Ef.
    destruct G as [G _]. rewrite Forall_forall in G. pose proof (obj_good_coded o (G o Ef) _ _ Ep) as Cp.
    assert (X : forall t, announces_instances (msg_bytes (with_tid (announce_message o p) t))).
    { intro t. unfold announces_instances. rewrite msg_bytes_eq. unfold announce_message, pprop_of_prop. rewrite Cp, Co. destruct t as [t0 t1]. cbn. auto. }
    apply update_tid_spec in A as [(_ & _ & ->)|(_ & _ & ->)].
    - specialize (X (m_tid (announce_message o p))). exact X.
    - apply X.
  Qed.

  (** In every state a node can reach, a notification leaves it only for one of these
      reasons: start and announce() announce the instance list, the application asked
      for it, or it answers a request for a notification. *)
  Theorem C127_cause (u : U) n w op u' n' w' tr to data : reachable u n w -> op_ok op -> node_step (u, n, w) op = Ret (u', n', w') -> since w w' tr ->
    In (to, data) (offered tr) -> service_of data = 0x73 -> cause op to data.
  Proof.
    intros R K E T I V. pose proof (reachable_good _ _ _ R) as G.
    assert (Q : w' = w -> False) by (intros ->; rewrite (since_unique _ _ _ _ T (since_refl _)) in I; destruct I).
    destruct op; cbn [node_step] in E; cbn [cause].
    - destruct (node_add_object n o); cbn [obind] in E; [|discriminate]. inversion E; subst. auto.
    - inversion E; subst; auto.
    - inversion E; subst; auto.
    - inversion E; subst; auto.
    - destruct (node_send w n to0 m) as [[[b m1] n1] w1] eqn:E1. inversion E; subst. apply node_send_spec in E1 as (A & t2 & B & _ & _ & F & _).
      rewrite (since_unique _ _ _ _ T B) in I. rewrite Forall_forall in F. apply F in I. inversion I; subst. rewrite bytes_service, (update_service _ _ _ _ A) in V. auto.
    - destruct (node_post w n to0 m) as [[[b m1] n1] w1] eqn:E1. inversion E; subst. apply node_post_spec in E1 as (_ & _ & n2 & ok & t2 & A & _ & B & _ & F & _).
      rewrite (since_unique _ _ _ _ T B) in I. rewrite Forall_forall in F. apply F in I. inversion I; subst. rewrite bytes_service, (update_service _ _ _ _ A) in V. auto.
    - destruct (node_notify w n m) as [[[b m1] n1] w1] eqn:E1. inversion E; subst. apply node_notify_spec in E1 as (A & t2 & k & B & _ & _ & F & _).
      rewrite (since_unique _ _ _ _ T B) in I. rewrite Forall_forall in F. apply F in I. inversion I; subst. rewrite bytes_service, (update_service _ _ _ _ A) in V. auto.
    - destruct (node_announce w n) as [[b n1] w1] eqn:E1. inversion E; subst. eapply announce_cause; eauto.
    - unfold node_announce_property in E. destruct (node_notify w n _) as [[[b m1] n1] w1] eqn:E1. inversion E; subst. apply node_notify_spec in E1 as (A & t2 & k & B & _ & _ & F & _).
      rewrite (since_unique _ _ _ _ T B) in I. rewrite Forall_forall in F. apply F in I. inversion I; subst. auto.
    - destruct (node_start w n) as [[[b n1] w1]|] eqn:E1; cbn [obind] in E; [|discriminate]. inversion E; subst.
      apply node_start_spec in E1 as (ok1 & m1 & w1 & (_ & t1 & S1 & _ & O1) & _ & [(_ & _ & _ & ->)|(_ & m2 & _ & A)]).
      + rewrite (since_unique _ _ _ _ T S1), O1 in I. destruct I.
      + destruct (announce_keeps _ _ _ _ _ A) as (_ & _ & _ & _ & t2 & S2 & _). rewrite (since_unique _ _ _ _ T (since_trans _ _ _ _ _ S1 S2)), offered_app, O1 in I. cbn [app] in I.
        eapply announce_cause; [|exact A|exact S2|exact I]. change (node_good (set_object_properties_byte (set_object_properties_byte n 0x80 0x30) 0x88 0x42)). apply set_byte_good; [lia|]. apply set_byte_good; [lia|]. exact G.
    - destruct (node_stop n) as [x|]; cbn [obind] in E; [|discriminate]. inversion E; subst. auto.
    - destruct (node_observe w u n m) as [[[u1 n1] w1]|] eqn:E1; cbn [obind] in E; [|discriminate]. inversion E; subst. pose proof (received_rcvd _ K) as Rc.
      destruct (observe_offered w u n m u' n' w' tr to data Rc E1 T I) as (e & ps & ss & gs & t & n2 & Qs & H & _ & -> & _ & _ & ->).
      rewrite with_t_service in V by apply Rc. subst e. split; [reflexivity|].
      pose proof Rc as [W _ B].
      inversion H as [|o0 _ Ao Vo Eq1|o0 copy0 u2 copy' _ Ao Vo C1 D1|pre o0 post copy0 u2 copy' _ Eo' Ec Fp Vo C1 D1 Eu En Er']; subst.
      1,2: exfalso; destruct (failure_eq m W Qs) as (e & Fe & Re); rewrite Re in *;
        match goal with X : resp _ _ _ _ _ = resp _ _ _ _ _ |- _ => inversion X; subst end;
        services Qs; rewrite <- Qs in Fe; inversion Fe.
      destruct (success_eq o0 (answered o0 m copy') m W B Qs Vo (answered_shape o0 m copy')) as [[_ N]|(e & ps' & ss' & gs' & S' & Y & _)]; [congruence|].
      assert (e = 0x73) by (rewrite Y in Er'; inversion Er'; auto). subst e. services Qs; rewrite <- Qs in S'; inversion S'; auto.
  Qed.

  (** Neither set_property of the application, nor a write request, nor anything else
      that changes data, makes a node announce. *)
  Theorem C127_never (u : U) n w op u' n' w' tr to data : reachable u n w -> op_ok op -> node_step (u, n, w) op = Ret (u', n', w') -> since w w' tr ->
    match op with OpSetData _ _ _ | OpAddObject _ | OpStop => True | OpRecv m => m_esv m <> 0x63 | _ => False end ->
    In (to, data) (offered tr) -> service_of data <> 0x73.
  Proof.
    intros R K E T M I V. pose proof (C127_cause u n w op u' n' w' tr to data R K E T I V) as X. destruct op; cbn in *; tauto.
  Qed.
End S.

Section Examples.
Local Existing Instance ex_order.
Local Existing Instance ex_os.
Local Instance prof : Profile := true.

(** The lamp of the examples is running and the standard requires that changes of its
    operating status are announced. The application switches it off, and a controller
    switches it off: the data change, and nothing but the response to the controller
    is sent. *)
Theorem C127_change_refuted : exists (u : unit) n w, reachable u n w /\ manager_running (n_mgr n) = true /\
  (exists o p, find_object (n_objects n) 0x029101 = Some o /\ object_find_property o 0x80 = Some p /\ prop_is_announce_required p = true) /\
  data_in n 0x029101 0x80 = Some [0x30] /\
  (exists n' w' tr, node_step (u, n, w) (OpSetData 0x029101 0x80 [0x31]) = Ret (u, n', w') /\ since w w' tr /\ offered tr = [] /\ data_in n' 0x029101 0x80 = Some [0x31]) /\
  (exists m n' w' tr d, received m /\ node_step (u, n, w) (OpRecv m) = Ret (u, n', w') /\ since w w' tr /\ offered tr = [(peer, d)] /\ service_of d = 0x71 /\ data_in n' 0x029101 0x80 = Some [0x31]).
Proof.
  exists tt, (reached_n [yes]), (reached_w [yes]). split; [apply ex_reachable; [apply ex_ops_ok; typed|vm_compute; reflexivity]|]. split; [vm_compute; reflexivity|].
  split. { destruct (find_object (n_objects (reached_n [yes])) 0x029101) as [o|] eqn:E; [|vm_compute in E; discriminate].
    assert (X : match find_object (n_objects (reached_n [yes])) 0x029101 with Some o => match object_find_property o 0x80 with Some p => prop_is_announce_required p | None => false end | None => false end = true) by (vm_compute; reflexivity).
    rewrite E in X. destruct (object_find_property o 0x80) as [p|] eqn:Ep; [|discriminate]. eauto. }
  split; [vm_compute; reflexivity|]. split.
  - eexists _, _, _. split; [reflexivity|]. split; [apply since_refl|]. split; [reflexivity|vm_compute; reflexivity].
  - exists (ex_rcv (to_lamp 7 0x61 [1; 0x80; 1; 0x31])), (ex_after [yes] (to_lamp 7 0x61 [1; 0x80; 1; 0x31])), (ex_world [yes] (to_lamp 7 0x61 [1; 0x80; 1; 0x31])), (ex_trace [yes] (to_lamp 7 0x61 [1; 0x80; 1; 0x31])),
      [0x10; 0x81; 0; 7; 2; 0x91; 1; 5; 0xFF; 1; 0x71; 1; 0x80; 0].
    split; [rcv|]. split; [vm_compute; reflexivity|]. split; [vm_compute; reflexivity|]. split; [vm_compute; reflexivity|]. split; vm_compute; reflexivity.
Qed.

(** The causes are not empty: that node announces its instance list on demand, and
    answers a request for a notification of 0x80 to the group. *)
Example C127_case :
  (exists b n' w', node_announce (reached_w [yes]) (reached_n [yes]) = (b, n', w') /\
    map fst (offered (skipn (length (w_trace (reached_w [yes]))) (w_trace w'))) = map (fun _ => group) (offered (skipn (length (w_trace (reached_w [yes]))) (w_trace w'))) /\
    offered (skipn (length (w_trace (reached_w [yes]))) (w_trace w')) <> [] /\
    Forall announces_instances (map snd (offered (skipn (length (w_trace (reached_w [yes]))) (w_trace w'))))) /\
  map fst (offered (ex_trace [yes] (to_lamp 7 0x63 [1; 0x80; 0]))) <> [] /\
  Forall (fun e => fst e = group /\ service_of (snd e) = 0x73) (offered (ex_trace [yes] (to_lamp 7 0x63 [1; 0x80; 0]))).
Proof.
  split.
  - destruct (node_announce (reached_w [yes]) (reached_n [yes])) as [[b n'] w'] eqn:E.
    assert (X : w' = snd (node_announce (reached_w [yes]) (reached_n [yes]))) by (rewrite E; reflexivity). clear E. exists b, n', w'. split; [reflexivity|].
    set (f := offered _). assert (F : f = offered (skipn (length (w_trace (reached_w [yes]))) (w_trace (snd (node_announce (reached_w [yes]) (reached_n [yes])))))) by (unfold f; rewrite X; reflexivity).
    clearbody f. set (g := offered _) in F. vm_compute in g. subst g. subst f. split; [reflexivity|]. split; [discriminate|]. repeat constructor.
  - set (g := offered _). vm_compute in g. subst g. split; [discriminate|]. repeat constructor.
Qed.
End Examples.

Print Assumptions C127_cause.
Print Assumptions C127_never.
Print Assumptions C127_change_refuted.
