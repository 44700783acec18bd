(** C143: search_object finds the nodes that have the object. *)
From Verif Require Import Base HMap ModelCodec ModelMessages DbTable ModelObject ModelTransport ModelNode ModelController ModelHost
  SpecWire SpecObject SpecNode ProofsCodec ProofsCodec2 PropertiesCodec ProofsObject ProofsObject2 ProofsObject3
  PropertiesObject PropertiesDb ProofsDevice ProofsNode ProofsNode2 ProofsNode3 ProofsNode4 ExamplesNode PropertiesNode PropertiesTrans
  PropertiesProfile ProofsExchange ProofsController ProofsHistory PropertiesController PropertiesRequests.

Section S.
  Context {P : Profile} {HO : HashOrder} {Os : OS} {Uu : Uuids}.

  (** ** What is asked and refused *)
  Definition wanted (t x : N) : frame := Frame t 0x0EF001 x 0x62 (Single [(0xD6, [])]).
  Definition refusal (t x : N) : frame := Frame t x 0x0EF001 0x52 (Single [(0xD6, [])]).
  Lemma wanted_ok t x : t < 65536 -> x < 2 ^ 24 -> frame_ok (wanted t x) /\ frame_ok (refusal t x).
  Proof.
    intros T X. split; (split; [exact T|]); (split; [cbn; lia|]); (split; [cbn; lia|]); (split; [cbn; lia|]);
    (split; [intros [H|[H|H]]; discriminate|]); (split; [|cbn; lia]); (constructor; [|constructor]); (split; [vm_compute; reflexivity|split; [constructor|cbn; lia]]).
  Qed.
  Lemma wanted_short t x : firstn MAX_PACKET_SIZE (wire (wanted t x)) = wire (wanted t x) /\ firstn MAX_PACKET_SIZE (wire (refusal t x)) = wire (refusal t x).
  Proof. split; reflexivity. Qed.
  Lemma parsed f : frame_ok f -> msg_parse msg_new (wire f) = Ret (true, msg_of_frame msg_new f).
  Proof. intro F. rewrite <- (app_nil_r (wire f)). apply parse_wire. auto. Qed.

  Lemma refused_handled U seed (u : U) n m u' n' r : handled seed u n m u' n' (Some r) ->
    (forall o, addressed (n_objects n) (msg_deoj m) o -> ~ permitted o m) -> r = response_error_message m.
  Proof.
    intros H No. remember (Some r) as res eqn:E. destruct H as [X|o Q A V|o copy u2 copy' Q A V C D|pre o post copy u2 copy' Q Eo Ec Fp V C D].
    - discriminate.
    - congruence.
    - congruence.
    - exfalso. apply (No o); auto. exists pre, post. auto.
  Qed.
  Lemma respond_objects U w0 (n0 : node U) m r0 : n_objects (fst (respond w0 n0 m r0)) = n_objects n0.
  Proof.
    destruct r0 as [r0|]; cbn [respond]; auto. destruct (esv_is_response _); auto. destruct (esv_is_unicast_response _).
    - destruct (node_send w0 n0 _ r0) as [[[b m1] n1] w1] eqn:En. apply node_send_spec in En as (A & _). apply update_tid_keeps in A as (A & _). cbn [fst]. auto.
    - destruct (node_notify w0 n0 r0) as [[[b m1] n1] w1] eqn:En. apply node_notify_spec in En as (A & _). apply update_tid_keeps in A as (A & _). cbn [fst]. auto.
  Qed.

  (** ** Nobody is found *)
  (** search_object(x) asks for property 0xD6 of the object x. Every node where x does not
      have it or does not give it out stays silent (when it has no object x) or refuses
      (when it has one), and a refusal changes no controller's list. So no such node is
      found, whether it has the object or not. *)
  Theorem C143_nobody_refuted : forall V (nc : node V) wc x okc nc' wc' trc dst d, n_last_tid nc < 65536 -> x < 2 ^ 24 ->
    controller_search_object wc nc x = (okc, nc', wc') -> since wc wc' trc -> In (dst, d) (offered trc) ->
    dst = group /\ exists m, msg_parse msg_new (firstn MAX_PACKET_SIZE d) = Ret (true, m) /\
    forall U (n : node U) u w a u' n' w' tr, (forall o, addressed (n_objects n) x o -> ~ can_read o 0xD6) ->
      node_observe w u n (msg_set_from m a) = Ret (u', n', w') -> since w w' tr ->
      n_objects n' = n_objects n /\ (not_owned (n_objects n) x -> offered tr = []) /\
      forall to d', In (to, d') (offered tr) -> service_of d' = 0x52 /\
        exists m', msg_parse msg_new (firstn MAX_PACKET_SIZE d') = Ret (true, m') /\
        forall db w2 rs a', controller_observe db w2 rs (msg_set_from m' a') = Ret (rs, w2).
  Proof.
    intros V nc wc x okc nc' wc' trc dst d Bt Bx E S I.
    destruct (C97_search wc nc x okc nc' wc' Bt Bx E) as (tr0 & k0 & S0 & Fo & _).
    rewrite <- (since_unique _ _ _ _ S S0) in Fo. apply (proj1 (Forall_forall _ _) Fo) in I. inversion I; subst dst d. clear I Fo S0 tr0 k0. split; auto.
    set (t := (n_last_tid nc + 1) mod 65536) in *. assert (Ht : t < 65536) by (subst t; lia).
    change (Frame t 0x0EF001 x 0x62 (Single [(0xD6, [])])) with (wanted t x).
    destruct (wanted_ok t x Ht Bx) as [Fk _]. destruct (wanted_short t x) as [Sh _].
    exists (msg_of_frame msg_new (wanted t x)). split; [rewrite Sh; apply parsed; auto|].
    set (m0 := msg_of_frame msg_new (wanted t x)). intros U n u w a u' n' w' tr No Ob Sw. set (m := msg_set_from m0 a) in *.
    pose proof (carries_msg_of_frame (wanted t x) Fk) as (C1 & C2 & C3 & C4 & C5 & C6 & C7). cbn [f_tid f_seoj f_deoj f_esv f_body wanted] in C1, C2, C3, C4, C5.
    assert (Mp : m_props m = [PProp 0xD6 []]) by reflexivity.
    assert (Me : m_esv m = 0x62) by exact C4. assert (Md : msg_deoj m = x) by exact C3. assert (Ms : msg_seoj m = 0x0EF001) by exact C2.
    assert (Rm : received m).
    { exists (wire (wanted t x)), m0, a. split; [|split; [apply parsed; auto|reflexivity]].
      unfold wanted, wire, octets. cbn [f_tid f_seoj f_deoj f_esv f_body wire_body app wire_eoj wire_props map concat wire_prop length fst snd].
      change (2 ^ 24) with 16777216 in Bx. repeat (apply Forall_cons; [unfold octet; lia|]).
      change (wire_props [(0xD6, [])]) with [1; 0xD6; 0]. repeat (apply Forall_cons; [unfold octet; lia|]). apply Forall_nil. }
    pose proof (received_rcvd _ Rm) as Rc.
    assert (Rq : request_service (m_esv m)) by (rewrite Me; cbn; tauto).
    destruct (failure_eq m (rc_wf _ Rc) Rq) as (e52 & Fe & Re). rewrite Me in Fe, Re. cbn in Fe. injection Fe as Fe. rewrite <- Fe in Re. clear e52 Fe. cbn [N.eqb Pos.eqb] in Re. rewrite Mp in Re.
    assert (Np : forall o, addressed (n_objects n) (msg_deoj m) o -> ~ permitted o m).
    { intros o Ao [_ Pr]. rewrite Md in Ao. apply (No o Ao). unfold reads_of in Pr. rewrite Me, Mp in Pr. cbn in Pr. exact (Forall_inv Pr). }
    pose proof Ob as Ob0. split; [|split].
    - destruct (find_object (n_objects n) x) as [o|] eqn:Fx.
      + apply find_object_some in Fx. rewrite <- Md in Fx.
        rewrite observe_eq in Ob. unfold deliver, is_last_message_response in Ob.
        pose proof (proj1 (request_service_spec _) Rq) as X. unfold msg_esv in Ob. rewrite X in Ob. cbn [obind] in Ob.
        destruct (C42_whole_request (os_seed (w_calls w)) u n m o Rm Rq Fx (Np o Fx)) as (r & Er & _). rewrite Er in Ob. cbn [obind] in Ob.
        pose proof (respond_objects U (tick w) n m (Some r)) as Rs. destruct (respond (tick w) n m (Some r)) as [n1 w1]. injection Ob as _ Ob _. rewrite <- Ob. exact Rs.
      + apply find_object_none in Fx. assert (Fx' : not_owned (n_objects n) (msg_deoj m)) by (rewrite Md; exact Fx). pose proof (C36_no_reply w u n m Rm (or_introl Fx')) as K. rewrite Ob0 in K. tauto.
    - intro Fx. assert (Fx' : not_owned (n_objects n) (msg_deoj m)) by (rewrite Md; exact Fx). pose proof (C36_no_reply w u n m Rm (or_introl Fx')) as K. rewrite Ob0 in K. destruct K as (_ & _ & tr' & S' & K). rewrite (since_unique _ _ _ _ Sw S'). exact K.
    - intros to d' I. destruct (observe_offered w u n m u' n' w' tr to d' Rc Ob0 Sw I) as (e & ps & ss & gs & t' & n2 & _ & H & _ & Ed & Wt & _ & _).
      assert (Er : resp m e ps ss gs = resp m 0x52 [PProp 0xD6 []] [] []).
      { rewrite <- Re. exact (refused_handled U _ u n m u' n2 _ H Np). }
      unfold resp in Er. injection Er as E1 E2 E3 E4. rewrite E1, E2, E3, E4 in Ed. clear E1 E2 E3 E4 H e ps ss gs.
      pose proof (wf_seoj _ (rc_wf _ Rc)) as W3. pose proof (wf_deoj _ (rc_wf _ Rc)) as W4. split; [rewrite Ed; apply with_t_service; auto|].
      set (t1 := fst t' * 256 + snd t').
      assert (Ht1 : t1 < 65536) by (subst t1; destruct Wt; lia).
      assert (Ew : d' = wire (refusal t1 x)).
      { rewrite Ed, with_t_wire.
        - rewrite Md, Ms. reflexivity.
        - exact (rc_wf _ Rc).
        - exact Wt.
        - lia.
        - intros [X|[X|X]]; discriminate.
        - constructor; [|constructor]. split; [vm_compute; reflexivity|constructor].
        - split; [cbn; lia|]. constructor; [|constructor]. unfold prop_in_limit. cbn. lia. }
      destruct (wanted_ok t1 x Ht1 Bx) as [_ Fk1]. destruct (wanted_short t1 x) as [_ Sh1]. rewrite Ew, Sh1.
      exists (msg_of_frame msg_new (refusal t1 x)). split; [apply parsed; auto|].
      intros db w2 rs a'. apply controller_ignores. intros [[X|X] _]; pose proof (carries_msg_of_frame _ Fk1) as (_ & _ & _ & D4 & _);
      change (m_esv (msg_set_from ?y a')) with (m_esv y) in X; rewrite D4 in X; discriminate.
  Qed.

  (** ** An answer of another object is taken for a list *)
  (** When the object does have a readable property 0xD6, whatever it means there, its
      data is taken for the list of the objects of the node: the controller looks at the
      service and the destination only, not at the object that answers. What was known of
      the node before is lost. *)
  Theorem C143_taken_for_list_refuted : forall seed db ms w rs w1 m v cs, standard_database seed = Ret db -> (forall k, uuid_ok (new_uuid k)) ->
    hears db w [] ms = Ret (rs, w1) -> received m -> m_esv m = 0x72 -> msg_deoj m = 0x0EF001 -> m_props m = [PProp 0xD6 v] -> listed (PProp 0xD6 v) cs ->
    exists rs' w' r, controller_observe db w1 rs m = Ret (rs', w') /\ In r rs' /\ rn_addr r = msg_from m /\
      (forall x, In x rs' -> rn_addr x = msg_from m -> x = r) /\ map object_code (rn_objects r) = cs ++ [0x0EF001].
  Proof.
    intros seed db ms w rs w1 m v cs Sd Uo H R Em Dm Pm L.
    destruct (after_message seed db Sd Uo ms m w rs w1 H R) as (css & rs' & w' & r & L' & E & I & A & Un & _ & C & _); [split; auto|].
    exists rs', w', r. split; auto. split; auto. split; auto. split; auto. rewrite C. f_equal.
    rewrite Pm in L'. inversion L' as [|q c qs c2 Lc L2]; subst. inversion L2; subst. cbn [concat]. rewrite app_nil_r. eapply listed_unique; eauto.
  Qed.
End S.

(** ** The standard classes *)
(** The group and class codes of the standard classes with a property 0xD6: the node
    profile, where it is the instance list, and nine classes of devices, where it is
    something else. *)
Definition with_d6 : list (N * N) :=
  [(0x0E, 0xF0); (0x02, 0x72); (0x02, 0x7E); (0x02, 0x87); (0x02, 0x6B); (0x02, 0x7D); (0x02, 0xA7); (0x03, 0xD3); (0x02, 0x8F); (0x02, 0x8E)].
Definition has_d6 (c : db_class) : bool := existsb (fun r => r_code r =? 0xD6) (c_rows c).
Definition listed_d6 (g k : N) : bool := existsb (fun x => (fst x =? g) && (snd x =? k)) with_d6.
Lemma d6_classes : forallb (fun c => Bool.eqb (has_d6 c) (listed_d6 (c_grp c) (c_cls c))) db_table = true.
Proof. vm_compute. reflexivity. Qed.
Lemma d6_class c : In c db_table -> has_d6 c = listed_d6 (c_grp c) (c_cls c).
Proof. intro I. pose proof d6_classes as H. rewrite forallb_forall in H. apply eqb_prop. exact (H c I). Qed.

(** A standard device of any other class does not have the property: C143_nobody_refuted
    applies to every node whose object x is such a device. *)
Theorem C143_standard_partial : forall (P : Profile) (HO : HashOrder) seed db u1 u2 s code o,
  standard_database seed = Ret db -> uuid_ok u1 -> uuid_ok u2 -> code < 2 ^ 32 -> device_object db u1 u2 s code = Ret o ->
  ~ In (code / 2 ^ 16 mod 2 ^ 8, code / 2 ^ 8 mod 2 ^ 8) with_d6 -> ~ can_read o 0xD6.
Proof.
  intros P HO seed db u1 u2 s code o Sd U1 U2 Bc D Ni (p & Ep & _).
  destruct (C28_device_properties P HO seed db u1 u2 s code Sd U1 U2 Bc) as (o' & D' & _ & H & _). rewrite D in D'. inversion D'; subst o'.
  assert (X : object_has_property o 0xD6 = true) by (unfold object_has_property; rewrite Ep; reflexivity).
  apply H in X as (r & [(c & (I & G & K) & Ir)|(c & (I & G & K) & Ir)] & Er).
  - assert (Y : has_d6 c = true) by (apply existsb_exists; exists r; split; auto; apply N.eqb_eq; auto). rewrite (d6_class c I), G, K in Y. vm_compute in Y. discriminate.
  - assert (Y : has_d6 c = true) by (apply existsb_exists; exists r; split; auto; apply N.eqb_eq; auto). rewrite (d6_class c I), G, K in Y. apply Ni.
    apply existsb_exists in Y as ([g k] & I2 & Y). apply andb_true_iff in Y as [Y1 Y2]. apply N.eqb_eq in Y1, Y2. cbn [fst snd] in *. subst. auto.
Qed.
Print Assumptions C143_nobody_refuted.
Print Assumptions C143_taken_for_list_refuted.
Print Assumptions C143_standard_partial.

(** ** Cases *)
Section Cases.
  Local Existing Instance ex_order.
  Local Existing Instance ex_os.
  Local Existing Instance ex_uuids.
  (** A storage battery as the library makes it. Its property 0xD6 is the discharged
      electric energy in Wh: 16945153. *)
  Definition battery : object := the (object_new 0) (device_object (P := true) ex_db (repeat 1 16) (repeat 2 16) 1 0x027D01).
  Definition plant_ops : list (node_op unit) := [OpAddObject lamp; OpAddObject battery; OpAddHandler yes; OpSetData 0x027D01 0xD6 [0x01; 0x02; 0x90; 0x01]; OpStart].
  (** What the node answers to the search for [x]. *)
  Definition answers_to (x : N) : list (list N) :=
    let m := ex_rcv (wire (wanted 7 x)) in
    match node_observe (P := true) (ex_w plant_ops) tt (ex_n plant_ops) m with
    | Ret (_, _, w) => map snd (sent (skipn (length (w_trace (ex_w plant_ops))) (w_trace w)))
    | Panic => []
    end.
  (** The list of a controller that hears the answers to searches, one after another. *)
  Definition lists_after (xs : list N) : option (list (sockaddr * list N)) :=
    match hears (P := true) ex_db w0 [] (map ex_rcv (flat_map answers_to xs)) with
    | Ret (rs, _) => Some (map (fun r => (rn_addr r, map object_code (rn_objects r))) rs)
    | Panic => None
    end.
  (** search finds the node with its lamp and its battery; search_object for the lamp
      alone finds nothing, for an object that nobody has neither. *)
  Example C143_case : lists_after [0x0EF001] = Some [(peer, [0x029101; 0x027D01; 0x0EF001])] /\
    answers_to 0x029101 = [wire (refusal 7 0x029101)] /\ lists_after [0x029101] = Some [] /\ answers_to 0x013001 = [] /\
    lists_after [0x0EF001; 0x029101] = Some [(peer, [0x029101; 0x027D01; 0x0EF001])].
  Proof. split; [vm_compute; reflexivity|]. split; [vm_compute; reflexivity|]. split; [vm_compute; reflexivity|]. split; vm_compute; reflexivity. Qed.
  (** search_object for the battery: afterwards the node is listed with one device that
      nobody has, and without its own. *)
  Theorem C143_battery_refuted : lists_after [0x0EF001] = Some [(peer, [0x029101; 0x027D01; 0x0EF001])] /\
    answers_to 0x027D01 = [wire (Frame 7 0x027D01 0x0EF001 0x72 (Single [(0xD6, [0x01; 0x02; 0x90; 0x01])]))] /\
    lists_after [0x0EF001; 0x027D01] = Some [(peer, [0x029001; 0x0EF001])].
  Proof. split; [vm_compute; reflexivity|]. split; vm_compute; reflexivity. Qed.
End Cases.
Print Assumptions C143_battery_refuted.
