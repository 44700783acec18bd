(** C140: a call that returns false has done nothing. *)
From Verif Require Import Base HMap ModelCodec ModelMessages ModelObject ModelTransport ModelNode ModelController ModelDevice
  SpecWire SpecObject SpecNode ProofsCodec ProofsCodec2 PropertiesCodec ProofsObject ProofsObject2 ProofsObject3
  PropertiesObject ProofsNode ProofsNode2 ProofsNode3 ProofsNode4 ExamplesNode PropertiesNode PropertiesTransport PropertiesTrans.

(* ------------------------------------------------------------------ *)
(** ** What is claimed *)

(** The calls of the public interface that say by a truth value whether they
    succeeded and that can fail: Device::set_property and what is built on it
    (src/device.rs:220-229, 252-290), Node::send_message, notify, annouce,
    annouce_property and start (src/node.rs:119-199), Controller::search_object and
    send_message (src/controller.rs:104-127). *)
Inductive try : Type :=
| TrySet (obj c : N) (d : list N)
| TryManufacturer (d : device) (code : N) | TryOperating (d : device) (status : bool) | TryLocation (d : device) (loc : N)
| TryVersion (d : device) (ver : N) | TryFault (d : device) (status : bool)
| TrySend (to : sockaddr) (m : message) | TryCtrlSend (r : remote_node) (m : message)
| TryNotify (m : message) | TrySearch (code : N) | TryAnnounce | TryAnnounceProperty (o : object) (p : prop)
| TryStart.
Definition attempt {U : Type} {P : Profile} {Os : OS} (w : world) (n : node U) (c : try) : outcome (bool * node U * world) :=
  match c with
  | TrySet oc c d => let '(ok, n) := device_node_set_property n oc c d in Ret (ok, n, w)
  | TryManufacturer d code => let! x := device_set_manufacturer_code d n code in Ret (x, w)
  | TryOperating d status => Ret (device_set_operating_status d n status, w)
  | TryLocation d loc => Ret (device_set_installation_location d n loc, w)
  | TryVersion d ver => Ret (device_set_standard_version d n ver, w)
  | TryFault d status => Ret (device_set_fault_status d n status, w)
  | TrySend to m => let '(ok, _, n, w) := node_send w n to m in Ret (ok, n, w)
  | TryCtrlSend r m => let '(ok, _, n, w) := controller_send w n r m in Ret (ok, n, w)
  | TryNotify m => let '(ok, _, n, w) := node_notify w n m in Ret (ok, n, w)
  | TrySearch code => Ret (controller_search_object w n code)
  | TryAnnounce => Ret (node_announce w n)
  | TryAnnounceProperty o p => Ret (node_announce_property w n o p)
  | TryStart => node_start w n
  end.
(** The message comes without a TID: the node chooses one. *)
Definition chooses (c : try) : bool :=
  match c with
  | TrySend _ m | TryCtrlSend _ m | TryNotify m => msg_tid m =? 0
  | TrySearch _ | TryAnnounce | TryAnnounceProperty _ _ => true
  | _ => false
  end.
(** The call sets a property of a device. *)
Definition sets (c : try) : bool :=
  match c with
  | TrySet _ _ _ | TryManufacturer _ _ | TryOperating _ _ | TryLocation _ _ | TryVersion _ _ | TryFault _ _ => true
  | _ => false
  end.
(** The next TID of 0..65535. *)
Definition following (t : N) : N := (t + 1) mod 65536.

(* ------------------------------------------------------------------ *)
(** ** Proofs *)
Section S.
  Context {U : Type} {P : Profile} {Os : OS}.

  Definition as_before (chosen : bool) (n n' : node U) : Prop :=
    n' = n \/ chosen = true /\ n' = n_with_tid n (next (n_last_tid n)).

  Lemma next_following t : t < 65536 -> next t = following t.
  Proof. intro H. unfold next, following. destruct (N.leb_spec 65535 t); [replace t with 65535 by lia; reflexivity|rewrite N.mod_small by lia; reflexivity]. Qed.
  Lemma update_before (n : node U) m n' m' : update_tid n m = (n', m') -> as_before (msg_tid m =? 0) n n'.
  Proof.
    intro E. apply update_tid_spec in E as [(A & -> & _)|(A & -> & _)]; [left; reflexivity|]. right. rewrite A. auto.
  Qed.
  Lemma sent_repeat {A} (x : A) k l : l = repeat x k -> length l = k.
  Proof. intros ->. apply repeat_length. Qed.
  Lemma notify_false w (n : node U) m m' n' w' tr : node_notify w n m = (false, m', n', w') -> since w w' tr ->
    as_before (msg_tid m =? 0) n n' /\ deliveries tr = [] /\ (length (sent tr) < length (mg_mcast (n_mgr n)))%nat /\ w_chan w' = w_chan w.
  Proof.
    intros E T. apply node_notify_spec in E as (A & t & k & S & C & D & _ & F & _ & _ & L). rewrite (since_unique _ _ _ _ T S). split; [eapply update_before; eauto|]. split; auto.
    apply sent_repeat in F. rewrite F. auto.
  Qed.
  Lemma send_false w (n : node U) to m m' n' w' tr : node_send w n to m = (false, m', n', w') -> since w w' tr ->
    as_before (msg_tid m =? 0) n n' /\ deliveries tr = [] /\ sent tr = [] /\ w_chan w' = w_chan w.
  Proof.
    intros E T. apply node_send_spec in E as (A & t & S & C & D & _ & F). rewrite (since_unique _ _ _ _ T S). split; [eapply update_before; eauto|]. auto.
  Qed.
  Lemma nothing w tr : since w w tr -> tr = [].
  Proof. intro T. exact (since_unique _ _ _ _ T (since_refl _)). Qed.
  Lemma before_more (b : bool) (n n' : node U) : as_before b n n' -> as_before true n n'.
  Proof. intros [->|(_ & ->)]; [left|right]; auto. Qed.

  (** ** C140 *)
  (** Whatever call returns false: no channel is served and none is created. After
      set_property everything is as it was. After the others it is too, but for the
      TID if the message came without one; then it is the following one. send_message has
      sent nothing; what goes to the group has not been sent on every interface. *)
  Theorem C140_false_partial : forall w (n : node U) c n' w' tr, c <> TryStart -> attempt w n c = Ret (false, n', w') -> since w w' tr ->
    deliveries tr = [] /\ w_chan w' = w_chan w /\
    (n' = n \/ chooses c = true /\ n' = n_with_tid n (n_last_tid n') /\ (n_last_tid n < 65536 -> n_last_tid n' = following (n_last_tid n))) /\
    (sets c = true -> n' = n /\ w' = w) /\
    match c with
    | TrySend _ _ | TryCtrlSend _ _ => sent tr = []
    | _ => sent tr = [] \/ (length (sent tr) < length (mg_mcast (n_mgr n)))%nat
    end.
  Proof.
    intros w n c n' w' tr Ns E T.
    assert (B : as_before (chooses c) n n' -> n' = n \/ chooses c = true /\ n' = n_with_tid n (n_last_tid n') /\ (n_last_tid n < 65536 -> n_last_tid n' = following (n_last_tid n))).
    { intros [->|(A & ->)]; [left; reflexivity|]. right. split; auto. split; [reflexivity|]. cbn. apply next_following. }
    assert (Z : forall oc q d, device_node_set_property n oc q d = (false, n') -> n' = n).
    { intros oc q d E1. unfold device_node_set_property in E1. destruct (find_object _ _) as [o|]; [destruct (object_find_property _ _)|]; inversion E1; auto. }
    destruct c; try contradiction; cbn [attempt] in E; cbn [sets].
    1-6: assert (X : n' = n /\ w' = w); [|destruct X; subst; rewrite (nothing _ _ T); cbn; auto 7].
    - destruct (device_node_set_property n obj c d) as [ok n1] eqn:E1. inversion E; subst. eauto.
    - unfold device_set_manufacturer_code in E. destruct (bytes_from_u32 code 3) as [buf|]; [|discriminate]. cbn [obind] in E. inversion E; subst. split; auto. eapply Z; eassumption.
    - inversion E; subst. split; auto. eapply Z; eassumption.
    - inversion E; subst. split; auto. eapply Z; eassumption.
    - inversion E; subst. split; auto. eapply Z; eassumption.
    - inversion E; subst. split; auto. eapply Z; eassumption.
    - destruct (node_send w n to m) as [[[ok m1] n1] w1] eqn:E1. inversion E; subst. destruct (send_false _ _ _ _ _ _ _ _ E1 T) as (A & D & S & C). repeat (split; auto); discriminate.
    - destruct (controller_send w n r m) as [[[ok m1] n1] w1] eqn:E1. inversion E; subst. unfold controller_send in E1. destruct (send_false _ _ _ _ _ _ _ _ E1 T) as (A & D & S & C).
      repeat (split; auto); discriminate.
    - destruct (node_notify w n m) as [[[ok m1] n1] w1] eqn:E1. inversion E; subst. destruct (notify_false _ _ _ _ _ _ _ E1 T) as (A & D & S & C). repeat (split; auto); discriminate.
    - unfold controller_search_object in E. destruct (node_notify w n _) as [[[ok m1] n1] w1] eqn:E1. inversion E; subst. destruct (notify_false _ _ _ _ _ _ _ E1 T) as (A & D & S & C).
      apply before_more in A. repeat (split; auto); discriminate.
    - unfold node_announce in E. destruct (find_object _ _) as [o|]; [|inversion E; subst; rewrite (nothing _ _ T); repeat (split; auto); discriminate].
      destruct (object_find_property o _) as [p|]; [|inversion E; subst; rewrite (nothing _ _ T); repeat (split; auto); discriminate].
      destruct (node_notify w n _) as [[[ok m1] n1] w1] eqn:E1. inversion E; subst. destruct (notify_false _ _ _ _ _ _ _ E1 T) as (A & D & S & C).
      apply before_more in A. repeat (split; auto); discriminate.
    - unfold node_announce_property in E. destruct (node_notify w n _) as [[[ok m1] n1] w1] eqn:E1. inversion E; subst. destruct (notify_false _ _ _ _ _ _ _ E1 T) as (A & D & S & C).
      apply before_more in A. repeat (split; auto); discriminate.
  Qed.
  (** A start of a stopped node that returns false: the node is as it was and
      nothing was offered to the network, unless the system refused to
      send the announcement, or the node has nothing to announce. *)
  Theorem C140_start_partial : forall w (n n' : node U) w' tr, idle (n_mgr n) -> node_start w n = Ret (false, n', w') -> since w w' tr ->
    deliveries tr = [] /\ w_chan w' = w_chan w /\ n_handlers n' = n_handlers n /\ n_post n' = n_post n /\
    (n' = n /\ offered tr = [] \/
     (exists a d, In (EvSend a group d false) tr) \/ (forall o, find_object (n_objects n') 0x0EF001 = Some o -> object_find_property o 0xD5 = None)).
  Proof.
    intros w n n' w' tr I E T. pose proof E as E0. apply node_start_spec in E as (ok1 & m1 & w1 & (C1 & t1 & S1 & D1 & O1) & M & H).
    rewrite idle_running in M by auto. destruct M as [(M & _)|(_ & M)]; [discriminate|].
    destruct H as [(-> & _ & -> & ->)|(-> & m2 & Ob & A)].
    - rewrite (since_unique _ _ _ _ T S1). split; auto. split; auto. split; [reflexivity|]. split; [reflexivity|]. left. split; auto. apply C66_transport_partial in M as [Mu Mm]. destruct I as [Iu Im].
      unfold n_with_mgr. destruct n as [mg os ti po ha ob]. cbn in *. destruct mg, m1. cbn in *. subst. reflexivity.
    - destruct (announce_keeps _ _ _ _ _ A) as (_ & Eh & Ep & Mg & t2 & S2 & C2 & D2). rewrite (since_unique _ _ _ _ T (since_trans _ _ _ _ _ S1 S2)).
      split; [rewrite deliveries_app, D1, D2; reflexivity|]. split; [congruence|]. split; [exact Eh|]. split; [exact Ep|]. right.
      destruct (C66_node_partial _ _ _ _ I E0) as [Id|[(tr' & a & d & S' & Ia)|X]]; auto.
      + exfalso. apply C65_start_partial in M as (_ & Rn & _); auto. apply add_observers_socks in Ob. destruct Id as [_ Im]. rewrite Mg in Im. cbn in Im.
        rewrite Im in Ob. destruct (mg_mcast m1); [contradiction|discriminate].
      + left. exists a, d. rewrite (since_unique _ _ _ _ S' (since_trans _ _ _ _ _ S1 S2)) in Ia. exact Ia.
  Qed.
End S.
Print Assumptions C140_false_partial.
Print Assumptions C140_start_partial.

(* ------------------------------------------------------------------ *)
(** ** Cases and refutations *)
(** The operating system of C68_case refuses every call of send after call [k]. *)
Definition until (k : N) : OS := two_os (fun _ => true) (fun i => i <? k).
Definition asked_state (k : N) : unit * node unit * world :=
  the (tt, ex_node0, w0) (node_run (P := true) (HO := ex_order) (O := until k) (tt, ex_node0, w0) (ex_posted [])).
Definition asked_n : node unit := snd (fst (asked_state 11)).
Definition asked_w : world := snd (asked_state 11).
Definition reply_op : node_op unit := OpRecv (ex_rcv (frame_with 2 0x72)).
Definition heard (n : node unit) (w : world) : list (N * N) :=
  tids (deliveries (skipn (length (w_trace w)) (w_trace (snd (the (tt, n, w) (node_run (P := true) (HO := ex_order) (O := until 11) (tt, n, w) [reply_op])))))).

(** A caller waits for the answer to its request with TID 2. A send_message that is
    refused returns false, and the answer that arrives then is not delivered; without
    that call it is. With a TID set by the caller the refused message does no harm. *)
Theorem C140_answer_refuted : exists (Os : OS) (n n' : node unit) w w' tr,
  attempt (P := true) w n (TrySend peer ask) = Ret (false, n', w') /\ since w w' tr /\ sent tr = [] /\
  heard n w = [(0, 2)] /\ heard n' w' = [].
Proof.
  exists (until 11), asked_n. pose (x := the (false, asked_n, asked_w) (attempt (P := true) (Os := until 11) asked_w asked_n (TrySend peer ask))).
  exists (snd (fst x)), asked_w, (snd x), (skipn (length (w_trace asked_w)) (w_trace (snd x))).
  split; [vm_compute; reflexivity|]. split; [vm_compute; reflexivity|]. split; [vm_compute; reflexivity|]. split; vm_compute; reflexivity.
Qed.
Example C140_case : let m := msg_set_tid ask 0x1234 in exists w', attempt (P := true) (Os := until 11) asked_w asked_n (TrySend peer m) = Ret (false, asked_n, w') /\
  heard asked_n w' = [(0, 2)].
Proof. cbv zeta. eexists. split; vm_compute; reflexivity. Qed.
(** The second interface refuses: search_object returns false, though the request has been sent on the first. *)
Theorem C140_group_refuted : exists (Os : OS) (n n' : node unit) w w' tr,
  attempt (P := true) w n (TrySearch 0x029101) = Ret (false, n', w') /\ since w w' tr /\
  sent tr = [(group, [0x10; 0x81; 0; 1; 0x0E; 0xF0; 1; 2; 0x91; 1; 0x62; 1; 0xD6; 0])].
Proof.
  pose (Os := until 1). exists Os, (two_node Os). pose (x := the (false, two_node Os, w0) (attempt (P := true) w0 (two_node Os) (TrySearch 0x029101))).
  exists (snd (fst x)), w0, (snd x), (w_trace (snd x)).
  split; [vm_compute; reflexivity|]. split; vm_compute; reflexivity.
Qed.
(** The announcement is refused: start returns false, and the devices' operating status has become 0x30. *)
Theorem C140_start_refuted : exists (Os : OS) (n n' : node unit) w', idle (n_mgr n) /\ attempt (P := true) w0 n TryStart = Ret (false, n', w') /\
  device_node_property n 0x029101 0x80 = Some [0x31] /\ device_node_property n' 0x029101 0x80 = Some [0x30] /\ manager_running (n_mgr n') = true.
Proof.
  pose (Os := until 0). exists Os.
  pose (n := the ex_node0 (node_add_object (P := true) ex_node0 (fst (object_set_property_data lamp 0x80 [0x31])))). exists n.
  pose (x := the (false, n, w0) (attempt (P := true) w0 n TryStart)).
  exists (snd (fst x)), (snd x). split; [vm_compute; split; reflexivity|]. split; [vm_compute; reflexivity|].
  split; [vm_compute; reflexivity|]. split; vm_compute; reflexivity.
Qed.
Example C140_set_case : attempt (P := true) (Os := ex_os) (ex_w (ex_ops [])) (ex_n (ex_ops [])) (TrySet 0x029101 0x55 [1]) = Ret (false, ex_n (ex_ops []), ex_w (ex_ops [])).
Proof. vm_compute. reflexivity. Qed.
(** No bind succeeds: start returns false and the node is as it was. *)
Example C140_start_case : let Os := two_os (fun _ => false) (fun _ => true) in
  exists w', attempt (P := true) w0 ex_node0 TryStart = Ret (false, ex_node0, w') /\ offered (w_trace w') = [].
Proof. cbv zeta. eexists. split; vm_compute; reflexivity. Qed.
Print Assumptions C140_answer_refuted.
Print Assumptions C140_group_refuted.
Print Assumptions C140_start_refuted.
