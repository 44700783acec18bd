(** Properties C81-C88: the Device API. *)
From Verif Require Import Base HMap ModelCodec ModelMessages ModelObject ModelTransport ModelNode ModelDevice SpecWire SpecObject SpecNode SpecDevice
  ProofsCodec ProofsCodec2 PropertiesCodec ProofsObject ProofsObject2 ProofsObject3 PropertiesObject PropertiesDb
  ProofsNode ProofsNode2 ProofsNode3 ProofsNode4 ExamplesNode PropertiesNode ProofsDevice PropertiesTransport.

Section D.
  Context {U : Type}.

  (** The data that a node holds for an object code and a property code. *)
  Lemma property_spec (n : node U) oc c d : device_node_property n oc c = Some d <->
    exists o p, addressed (n_objects n) oc o /\ object_find_property o c = Some p /\ p_data p = d.
  Proof.
    unfold device_node_property. split.
    - destruct (find_object _ oc) as [o|] eqn:F; [|discriminate]. destruct (object_find_property o c) as [p|] eqn:G; [|discriminate].
      intro H. inversion H; subst. exists o, p. split; auto. apply find_object_some. exact F.
    - intros (o & p & A & F & <-). apply addressed_find in A. rewrite A, F. reflexivity.
  Qed.
  Lemma stores_iff (n : node U) st : stores n st <-> forall oc c, st oc c = device_node_property n oc c.
  Proof.
    split.
    - intros H oc c. destruct (st oc c) as [d|] eqn:E.
      + apply H in E. apply property_spec in E. auto.
      + destruct (device_node_property n oc c) as [d|] eqn:G; auto. apply property_spec in G. apply H in G. congruence.
    - intros H oc c d. rewrite H. apply property_spec.
  Qed.
  Lemma find_put os oc o o' oc' : find_object os oc = Some o -> object_code o' = oc ->
    find_object (put_object os oc o') oc' = if oc' =? oc then Some o' else find_object os oc'.
  Proof.
    intros F E. induction os as [|x os IH]; cbn in *; [discriminate|].
    destruct (N.eqb_spec (object_code x) oc) as [->|Nx].
    - inversion F; subst x. cbn. rewrite E. destruct (N.eqb_spec oc oc') as [<-|Ne].
      + rewrite N.eqb_refl. reflexivity.
      + replace (oc' =? oc) with false by lia. reflexivity.
    - cbn. destruct (N.eqb_spec (object_code x) oc') as [<-|Nx'].
      + replace (object_code x =? oc) with false by lia. reflexivity.
      + apply IH. exact F.
  Qed.
  Lemma set_property_eq (n : node U) oc c d :
    fst (device_node_set_property n oc c d) = (match device_node_property n oc c with Some _ => true | None => false end) /\
    forall oc' c', device_node_property (snd (device_node_set_property n oc c d)) oc' c' =
      shelve (device_node_property n) oc c d oc' c'.
  Proof.
    unfold device_node_set_property, device_node_property, shelve.
    destruct (find_object (n_objects n) oc) as [o|] eqn:F.
    - destruct (object_find_property o c) as [p|] eqn:G; cbn [fst snd].
      + split; auto. intros oc' c'. cbn [n_objects n_with_objects].
        assert (Co : object_code o = oc) by (apply find_object_some in F as (? & ? & _ & H & _); exact H).
        erewrite find_put; [|exact F|exact Co].
        destruct (N.eqb_spec oc' oc) as [->|Ne]; cbn [andb]; auto.
        unfold object_find_property. cbn [o_props obj_with_props]. rewrite hget_hput.
        destruct (N.eqb_spec c' c) as [->|Nc].
        * unfold object_find_property in G. rewrite G. reflexivity.
        * rewrite F. reflexivity.
      + split; auto. intros oc' c'. destruct (N.eqb_spec oc' oc) as [->|Ne]; cbn [andb]; auto.
        destruct (N.eqb_spec c' c) as [->|Nc]; auto. rewrite F, G. reflexivity.
    - split; auto. intros oc' c'. cbn [fst snd]. destruct (N.eqb_spec oc' oc) as [->|Ne]; cbn [andb]; auto.
      destruct (N.eqb_spec c' c) as [->|Nc]; auto. rewrite F. reflexivity.
  Qed.
  Lemma stores_set (n : node U) st oc c d : stores n st ->
    fst (device_node_set_property n oc c d) = (match st oc c with Some _ => true | None => false end) /\
    stores (snd (device_node_set_property n oc c d)) (shelve st oc c d).
  Proof.
    intro H. rewrite stores_iff in *. destruct (set_property_eq n oc c d) as [A B]. rewrite A, H. split; auto.
    intros oc' c'. rewrite B. unfold shelve. rewrite !H. reflexivity.
  Qed.
  Lemma manufacturer_bytes {P : Profile} v : v < 2 ^ 32 ->
    bytes_from_u32 v 3 = Ret [v / 2 ^ 16 mod 2 ^ 8; v / 2 ^ 8 mod 2 ^ 8; v mod 2 ^ 8].
  Proof.
    intro H. unfold bytes_from_u32. cbn [bytes_from_u32_loop obind]. unfold shr_w. cbn [obind N.of_nat N.mul N.ltb N.compare].
    rewrite !(N.shiftr_div_pow2). change 0xFF with (N.ones 8). rewrite !N.land_ones. unfold as_u8.
    cbn. change 255 with (N.ones 8). rewrite !N.land_ones. change (2 ^ 8) with 256.
    rewrite !(N.mod_mod _ 256), N.div_1_r by lia. reflexivity.
  Qed.

  (** C81: the methods of devices on one node are those of a map. *)
  Theorem C81_contents : forall n : node U, exists st, stores n st.
  Proof. intro n. exists (device_node_property n). apply stores_iff. auto. Qed.
  Lemma do_spec {P : Profile} k (n : node U) st : stores n st -> u32_args k ->
    exists n', device_do n k = Ret (fst (answer_of st k), n') /\ stores n' (snd (answer_of st k)).
  Proof.
    intros S A.
    destruct k; cbn [device_do answer_of written fst snd];
      unfold device_set_property, device_property, device_set_manufacturer_code, device_set_operating_status,
        device_set_installation_location, device_set_standard_version, device_set_fault_status, device_set_property; cbn [dv_code].
    2:{ exists n. split; auto. rewrite (proj1 (stores_iff n st) S). reflexivity. }
    2:{ cbn [u32_args] in A. rewrite (manufacturer_bytes v A). cbn [obind]. eexists. split; [|apply stores_set; exact S].
        rewrite (proj1 (stores_set n st _ _ _ S)). reflexivity. }
    all: eexists; (split; [|apply stores_set; exact S]); rewrite (proj1 (stores_set n st _ _ _ S)); reflexivity.
  Qed.
  Theorem C81_store : forall (P : Profile) ks (n : node U) st, stores n st -> Forall u32_args ks ->
    exists n', device_dos n ks = Ret (fst (answers_of st ks), n') /\ stores n' (snd (answers_of st ks)).
  Proof.
    intros P ks. induction ks as [|k ks IH]; intros n st S F; cbn [device_dos answers_of].
    - exists n. auto.
    - destruct (do_spec k n st S (Forall_inv F)) as (n1 & E & S1). rewrite E. cbn [obind fst snd].
      destruct (answer_of st k) as [a st1]. cbn [fst snd] in *. destruct (IH n1 st1 S1 (Forall_inv_tail F)) as (n2 & E2 & S2).
      rewrite E2. cbn [obind fst snd]. destruct (answers_of st1 ks) as [l st2]. cbn [fst snd] in *. exists n2. auto.
  Qed.
End D.
Print Assumptions C81_contents.
Print Assumptions C81_store.

Section E.
  Context {U : Type} {P : Profile} {HO : HashOrder} {Os : OS}.

  Lemma set_property_set_data (n : node U) oc c d : snd (device_node_set_property n oc c d) = set_data n oc c d.
  Proof.
    unfold device_node_set_property, set_data. destruct (find_object (n_objects n) oc) as [o|] eqn:F; auto.
    unfold object_set_property_data. destruct (object_find_property o c) as [p|] eqn:G; cbn [fst snd]; auto.
    destruct n as [mg os tid po hs obs]. unfold n_with_objects. cbn [n_mgr n_objects n_last_tid n_post n_handlers n_observers] in *. f_equal.
    apply find_object_some in F as (pre & post & -> & Ec & Fp). rewrite put_object_split; auto.
  Qed.
  Lemma device_data (n : node U) oc o c : addressed (n_objects n) oc o -> device_node_property n oc c = object_property_data o c.
  Proof.
    intro A. unfold device_node_property, object_property_data. apply addressed_find in A. rewrite A.
    destruct (object_find_property o c); reflexivity.
  Qed.

  (** C82: the application and the network see the same data. *)
  Theorem C82_read : forall w (u : U) n m d, reachable u n w -> received m -> In (m_esv m) [0x62; 0x63] -> msg_deoj m = dv_code d ->
    forall seed u' n' r, node_message_received seed u n m = Ret (u', n', Some r) -> ~ error_service (m_esv r) ->
    Forall2 (fun q a => pp_code a = pp_code q /\ device_property d n' (pp_code q) = Some (pp_data a)) (m_props m) (m_props r).
  Proof.
    intros w u n m d R Rm E D seed u' n' r H Ne.
    destruct (C41_read_current w u n m R Rm E seed u' n' r H Ne) as (o' & A & _ & _ & _ & F).
    eapply Forall2_impl'; [|exact F]. intros q a (Q & G). split; auto. unfold device_property.
    rewrite (device_data n' (dv_code d) o'); [exact G|]. rewrite <- D. exact A.
  Qed.
  Theorem C82_write : forall (u : U) n m d, received m -> In (m_esv m) [0x60; 0x61; 0x6E] -> msg_deoj m = dv_code d ->
    ~ not_owned (n_objects n) (dv_code d) ->
    forall seed u' n' res, node_message_received seed u n m = Ret (u', n', res) -> (forall r, res = Some r -> ~ error_service (m_esv r)) ->
    forall c x, last_data c (writes_of m) = Some x -> device_property d n' c = Some x.
  Proof.
    intros u n m d Rm E D A seed u' n' res H Ne c x L.
    destruct (addressed_dec (n_objects n) (dv_code d)) as [N|(o & Ao)]; [destruct (A N)|]. rewrite <- D in Ao.
    destruct (C40_write_visible seed u n m u' n' res o Rm E Ao H Ne) as (o' & A' & W).
    unfold device_property. rewrite (device_data n' (dv_code d) o'); [auto|]. rewrite <- D. exact A'.
  Qed.
  Theorem C82_set_then_read_partial : forall w (u : U) n d c x n1 m, reachable u n w -> octets x -> ~ map_code c ->
    device_set_property d n c x = (true, n1) -> Forall hands_off (n_handlers n) ->
    received m -> In (m_esv m) [0x62; 0x63] -> msg_deoj m = dv_code d -> In c (map pp_code (m_props m)) ->
    forall seed u' n' r, node_message_received seed u n1 m = Ret (u', n', Some r) -> ~ error_service (m_esv r) ->
    In (PProp c x) (m_props r).
  Proof.
    intros w u n d c x n1 m R Ox Nm S Hh Rm E D I seed u' n' r H Ne.
    pose proof (set_property_set_data n (dv_code d) c x) as Eq. pose proof (set_property_eq n (dv_code d) c x) as [B V].
    unfold device_set_property in S. rewrite S in Eq, B, V. cbn [fst snd] in Eq, B, V. 
    assert (R1 : reachable u n1 w).
    { destruct R as (np & n0 & u0 & w0 & ops & A1 & A2 & A3 & A4). exists np, n0, u0, w0, (ops ++ [OpSetData (dv_code d) c x]).
      split; auto. split; auto. split; [apply Forall_app; split; auto; constructor; auto|].
      clear - A4 Eq. revert A4. generalize (u0, n0, w0). induction ops as [|op ops IH]; intros s A; cbn [app node_run] in *.
      - inversion A; subst s. cbn [node_step obind]. rewrite Eq. reflexivity.
      - destruct (node_step s op); cbn [obind] in *; [|discriminate]. apply IH. exact A. }
    assert (Hh1 : Forall hands_off (n_handlers n1)) by (subst n1; unfold set_data; destruct (find_object _ _); auto).
    assert (Q : request_service (m_esv m)) by (unfold request_service; destruct E as [<-|[<-|[]]]; cbn; auto 10).
    pose proof (C82_read w u n1 m d R1 Rm E D seed u' n' r H Ne) as F.
    assert (A1 : exists o1, addressed (n_objects n1) (msg_deoj m) o1).
    { destruct (addressed_dec (n_objects n1) (msg_deoj m)) as [N|]; auto. exfalso.
      specialize (V (dv_code d) c). unfold shelve in V. rewrite !N.eqb_refl in V. cbn [andb] in V.
      destruct (device_node_property n (dv_code d) c); [|discriminate]. apply property_spec in V as (o & p & Ao & _).
      rewrite <- D in Ao. exact (addressed_not_owned _ _ _ Ao N). }
    assert (Ne' : forall r0, Some r = Some r0 -> ~ error_service (m_esv r0)) by (intros r0 X; inversion X; subst; auto).
    destruct (accepted_full seed u n1 m u' n' (Some r) (received_rcvd m Rm) (reachable_good u n1 w R1) Q A1 H Ne')
      as (pre & o & post & copy & o' & Eo & Ec & Fp & Pm & Cl & En & Ad & Sh & Go' & Go & Er & Wr & Ho).
    assert (Ao : addressed (n_objects n1) (dv_code d) o) by (rewrite <- D; exists pre, post; auto).
    assert (Ad' : addressed (n_objects n') (dv_code d) o') by (rewrite <- D; exact Ad).
    assert (Nmc : is_map_code c = false) by (destruct (is_map_code c) eqn:X; auto; apply is_map_code_spec in X; contradiction).
    assert (Pd : device_property d n' c = Some x).
    { unfold device_property. rewrite (device_data n' (dv_code d) o' c Ad'). unfold object_property_data.
      rewrite (Ho Hh1 c Nmc). replace (writes_of m) with (@nil pprop).
      - specialize (V (dv_code d) c). rewrite (device_data n1 (dv_code d) o c Ao) in V. unfold object_property_data, shelve in V.
        rewrite !N.eqb_refl in V. cbn [andb] in V. destruct (device_node_property n (dv_code d) c); [|discriminate].
        destruct (object_find_property o c); cbn in *; auto.
      - unfold writes_of. destruct E as [<-|[<-|[]]]; reflexivity. }
    apply in_map_iff in I as (q & Ecq & Iq). clear - F Pd Ecq Iq.
    induction F as [|q0 a qs as_ (C1 & C2) F IH]; [destruct Iq|]. destruct Iq as [->|Iq]; [left|right; auto].
    rewrite Ecq in *. rewrite Pd in C2. inversion C2; subst. destruct a; cbn in *; congruence.
  Qed.

  (** ** Frame: what an operation leaves alone *)
  Lemma find_object_replace pre (o o' : object) post oc : object_code o' = object_code o -> object_code o <> oc ->
    find_object (pre ++ o' :: post) oc = find_object (pre ++ o :: post) oc.
  Proof.
    intros E Ne. induction pre as [|x pre IH]; cbn.
    - rewrite E. destruct (N.eqb_spec (object_code o) oc); [contradiction|reflexivity].
    - destruct (object_code x =? oc); auto.
  Qed.
  Lemma find_object_app os o oc x : find_object os oc = Some x -> find_object (os ++ [o]) oc = Some x.
  Proof. induction os as [|y os IH]; cbn; [discriminate|]. destruct (object_code y =? oc); auto. Qed.
  Lemma find_object_map (f : object -> object) os oc : (forall o, object_code (f o) = object_code o) ->
    find_object (map f os) oc = option_map f (find_object os oc).
  Proof. intro H. induction os as [|y os IH]; cbn; auto. rewrite H. destruct (object_code y =? oc); auto. Qed.
  Lemma set_code_same o c d : object_code (fst (object_set_property_data o c d)) = object_code o.
  Proof. apply object_code_codes. apply (set_data_meta o c d). Qed.
  Lemma set_byte_property (n : node U) c v oc k :
    device_node_property (set_object_properties_byte n c v) oc k =
    match device_node_property n oc k with Some x => Some (if k =? c then [v] else x) | None => None end.
  Proof.
    unfold device_node_property, set_object_properties_byte. cbn [n_objects n_with_objects].
    rewrite (find_object_map (fun o => fst (object_set_property_data o c [v]))) by (intro; apply set_code_same).
    destruct (find_object (n_objects n) oc) as [o|]; cbn [option_map]; auto.
    rewrite set_data_find. destruct (N.eqb_spec k c) as [->|]; destruct (object_find_property o _); reflexivity.
  Qed.
  Lemma observe_objects w (u : U) n m u' n' w' : node_observe w u n m = Ret (u', n', w') ->
    n_objects n' = n_objects n \/ exists pre o post o', n_objects n = pre ++ o :: post /\ object_code o = msg_deoj m /\
      n_objects n' = pre ++ o' :: post /\ same_shape o o'.
  Proof.
    rewrite observe_eq. destruct (deliver w n m) as [[n1 w1]|] eqn:E1; cbn [obind]; [|discriminate].
    apply deliver_spec in E1 as (tr & _ & _ & D). apply delivered_keeps in D as (D1 & _).
    destruct (node_message_received _ u n1 m) as [[[u2 n2] res]|] eqn:E2; cbn [obind]; [|discriminate].
    destruct (respond (tick w1) n2 m res) as [n3 w3] eqn:E3. intro H. inversion H; subst. apply respond_objects in E3.
    apply C47_isolation_partial in E2 as [->|(pre & o & post & o' & A & B & C & D)].
    - left. congruence.
    - right. exists pre, o, post, o'. rewrite <- D1. split; auto. split; auto. split; auto. rewrite E3, C. reflexivity.
  Qed.
  Lemma start_property w (n : node U) ok n' w' oc c : node_start w n = Ret (ok, n', w') ->
    device_node_property n' oc c = device_node_property n oc c \/
    (device_node_property n' oc c = match device_node_property n oc c with
       Some x => Some (if c =? 0x80 then [0x30] else if c =? 0x88 then [0x42] else x) | None => None end).
  Proof.
    intro H. apply node_start_spec in H as (ok1 & m1 & w1 & _ & _ & [(_ & _ & -> & _)|(_ & m2 & _ & A)]); [left; reflexivity|right].
    apply announce_keeps in A as (A & _). unfold device_node_property at 1. rewrite A.
    cbn [n_objects n_with_mgr].
    change (match find_object _ oc with Some o => _ | None => None end) with
      (device_node_property (set_object_properties_byte (set_object_properties_byte n 0x80 0x30) 0x88 0x42) oc c).
    rewrite !set_byte_property. destruct (device_node_property n oc c); auto. f_equal.
    destruct (N.eqb_spec c 0x88) as [->|]; reflexivity.
  Qed.
  Lemma stop_property (n : node U) ok n' oc c : node_stop n = Ret (ok, n') ->
    device_node_property n' oc c = match device_node_property n oc c with Some x => Some (if c =? 0x80 then [0x31] else x) | None => None end.
  Proof.
    unfold node_stop. destruct (manager_stop _) as [x|]; cbn [obind]; [|discriminate]. intro H. inversion H; subst.
    change (device_node_property (n_with_mgr ?a _)) with (device_node_property a). apply set_byte_property.
  Qed.
  Definition owned (n : node U) (oc : N) : Prop := ~ not_owned (n_objects n) oc.
  Lemma owned_find (n : node U) oc : owned n oc <-> exists o, find_object (n_objects n) oc = Some o.
  Proof.
    unfold owned. rewrite <- find_object_none. destruct (find_object (n_objects n) oc) as [o|]; split.
    - eauto.
    - discriminate.
    - intro H. contradiction H. reflexivity.
    - intros (o & H). discriminate.
  Qed.
  (** Objects keep their codes. *)
  Lemma add_object_find (n n' : node U) o oc : oc <> 0x0EF001 -> owned n oc -> node_add_object n o = Ret n' ->
    find_object (n_objects n') oc = find_object (n_objects n) oc.
  Proof.
    intros Ne Ow E. apply owned_find in Ow as (x & F). destruct (add_object_eq n o) as (os & E' & C). rewrite E in E'. inversion E'; subst n'.
    cbn [n_objects n_with_objects]. rewrite F. apply (find_object_app _ o) in F.
    destruct C as [[_ ->]|(pre & np & post & E1 & E2 & E3 & ->)]; auto.
    rewrite (find_object_replace pre np); [rewrite <- E1; exact F|apply sets_code|rewrite E2; intro X; apply Ne; symmetry; exact X].
  Qed.
  Lemma frame_step (u : U) n w op u' n' w' oc : oc <> 0x0EF001 -> owned n oc -> elsewhere oc op ->
    node_step (u, n, w) op = Ret (u', n', w') ->
    owned n' oc /\ forall c, (~ lifecycle op \/ ~ In c [0x80; 0x88]) -> device_node_property n' oc c = device_node_property n oc c.
  Proof.
    intros Ne Ow El E.
    assert (Same : n_objects n' = n_objects n -> owned n' oc /\ forall c, (~ lifecycle op \/ ~ In c [0x80; 0x88]) -> device_node_property n' oc c = device_node_property n oc c).
    { intro X. unfold owned, device_node_property. rewrite X. split; auto. }
    assert (Find : find_object (n_objects n') oc = find_object (n_objects n) oc ->
      owned n' oc /\ forall c, (~ lifecycle op \/ ~ In c [0x80; 0x88]) -> device_node_property n' oc c = device_node_property n oc c).
    { intro X. rewrite !owned_find in *. unfold device_node_property. rewrite X. split; auto. }
    destruct op; cbn [node_step] in E; cbn [elsewhere] in El.
    - destruct (node_add_object n o) as [n1|] eqn:E1; cbn [obind] in E; [|discriminate]. inversion E; subst. apply Find.
      eapply add_object_find; eauto.
    - inversion E; subst. apply Same. reflexivity.
    - inversion E; subst. apply Same. reflexivity.
    - inversion E; subst. apply Find. unfold set_data. destruct (find_object (n_objects n) obj) as [o|] eqn:F; auto. cbn [n_objects n_with_objects].
      erewrite find_put; [|exact F|].
      + destruct (N.eqb_spec oc obj) as [->|]; [contradiction|reflexivity].
      + rewrite set_code_same. apply find_object_some in F as (? & ? & _ & H & _). exact H.
    - destruct (node_send w n to m) as [[[b m1] n1] w1] eqn:E1. inversion E; subst.
      apply node_send_spec in E1 as (A & _). apply update_tid_keeps in A as (A & B & _). apply Same. exact A.
    - destruct (node_post w n to m) as [[[b m1] n1] w1] eqn:E1. inversion E; subst.
      apply node_post_spec in E1 as (_ & _ & n2 & ok & tr & A & -> & _). apply update_tid_keeps in A as (A & B & _). apply Same. exact A.
    - destruct (node_notify w n m) as [[[b m1] n1] w1] eqn:E1. inversion E; subst.
      apply node_notify_spec in E1 as (A & _). apply update_tid_keeps in A as (A & B & _). apply Same. exact A.
    - destruct (node_announce w n) as [[b n1] w1] eqn:E1. inversion E; subst.
      apply announce_keeps in E1 as (A & B & _). apply Same. exact A.
    - unfold node_announce_property in E. destruct (node_notify w n _) as [[[b m1] n1] w1] eqn:E1. inversion E; subst.
      apply node_notify_spec in E1 as (A & _). apply update_tid_keeps in A as (A & B & _). apply Same. exact A.
    - destruct (node_start w n) as [[[b n1] w1]|] eqn:E1; cbn [obind] in E; [|discriminate]. inversion E; subst. split.
      + unfold owned. apply node_start_spec in E1 as (ok1 & m1 & w2 & _ & _ & [(_ & _ & -> & _)|(_ & m2 & _ & A)]); auto.
        apply announce_keeps in A as (A & B & _). rewrite A. cbn [n_objects n_with_mgr set_object_properties_byte n_with_objects].
        unfold owned, not_owned in Ow. intro F. apply Ow. unfold not_owned in F. rewrite !Forall_map in F. eapply Forall_impl; [|exact F].
        intros o X. cbn beta in X. rewrite !set_code_same in X. exact X.
      + intros c [X|X]; [destruct X; left; reflexivity|]. destruct (start_property w n b n' w' oc c E1) as [Y|Y]; auto.
        rewrite Y. destruct (device_node_property n oc c); auto. cbn in X.
        replace (c =? 0x80) with false by lia. replace (c =? 0x88) with false by lia. reflexivity.
    - destruct (node_stop n) as [[b n1]|] eqn:E1; cbn [obind] in E; [|discriminate]. inversion E; subst. split.
      + unfold node_stop in E1. destruct (manager_stop _) as [x|]; cbn [obind] in E1; [|discriminate]. inversion E1; subst. cbn [snd].
        unfold owned, not_owned in *. cbn [n_objects n_with_mgr set_object_properties_byte n_with_objects].
        intro F. apply Ow. rewrite Forall_map in F. eapply Forall_impl; [|exact F]. intros o X. cbn beta in X. rewrite set_code_same in X. exact X.
      + intros c [X|X]; [destruct X; right; reflexivity|]. cbn [snd]. rewrite (stop_property n b _ oc c E1).
        destruct (device_node_property n oc c); auto. cbn in X. replace (c =? 0x80) with false by lia. reflexivity.
    - destruct (node_observe w u n m) as [[[u1 n1] w1]|] eqn:E1; cbn [obind] in E; [|discriminate]. inversion E; subst.
      apply observe_objects in E1 as [A|(pre & o & post & o' & A & B & C & D)]; [apply Same; exact A|].
      apply Find. rewrite A, C. apply find_object_replace; [|rewrite B; exact El].
      apply object_code_codes. symmetry. apply D.
  Qed.

  (** C84: devices with different codes on one node. *)
  Theorem C84_isolation_partial : forall ops (u : U) n w u' n' w' oc, oc <> 0x0EF001 -> ~ not_owned (n_objects n) oc ->
    Forall (elsewhere oc) ops -> node_run (u, n, w) ops = Ret (u', n', w') ->
    forall c, Forall (fun op => ~ lifecycle op) ops \/ ~ In c [0x80; 0x88] ->
    device_property (Device oc) n' c = device_property (Device oc) n c.
  Proof.
    intros ops. induction ops as [|op ops IH]; intros u n w u' n' w' oc Ne Ow F E c L; cbn [node_run] in E.
    { inversion E; subst. reflexivity. }
    destruct (node_step (u, n, w) op) as [[[u1 n1] w1]|] eqn:E1; cbn [obind] in E; [|discriminate].
    destruct (frame_step u n w op u1 n1 w1 oc Ne Ow (Forall_inv F) E1) as [Ow1 K].
    rewrite (IH u1 n1 w1 u' n' w' oc Ne Ow1 (Forall_inv_tail F) E c).
    - apply K. destruct L as [L|L]; auto. left. exact (Forall_inv L).
    - destruct L as [L|L]; auto. left. exact (Forall_inv_tail L).
  Qed.

  (** C85: the operating status follows start and stop. *)
  Theorem C85_started : forall w (n : node U) n' w', device_start w n = Ret (true, n', w') ->
    forall d c x, device_property d n c = Some x ->
    device_property d n' c = Some (if c =? 0x80 then [0x30] else if c =? 0x88 then [0x42] else x).
  Proof.
    intros w n n' w' E d c x H. unfold device_start in E. destruct (node_start w n) as [[[b n1] w1]|] eqn:E1; cbn [obind] in E; [|discriminate].
    destruct b; cbn [negb] in E; inversion E; subst. unfold device_property in *.
    apply node_start_spec in E1 as (ok1 & m1 & w2 & _ & _ & [(_ & X & _)|(_ & m2 & _ & A)]); [discriminate|].
    apply announce_keeps in A as (A & _). unfold device_node_property at 1. rewrite A. cbn [n_objects n_with_mgr].
    change (match find_object _ (dv_code d) with Some o => _ | None => None end) with
      (device_node_property (set_object_properties_byte (set_object_properties_byte n 0x80 0x30) 0x88 0x42) (dv_code d) c).
    rewrite !set_byte_property, H. f_equal. destruct (N.eqb_spec c 0x88) as [->|]; reflexivity.
  Qed.
  Theorem C85_stopped : forall (n : node U) ok n', device_stop n = Ret (ok, n') -> ok = true /\
    forall d c x, device_property d n c = Some x ->
    device_property d n' c = Some (if c =? 0x80 then [0x31] else x).
  Proof.
    intros n ok n' E. unfold device_stop in E. destruct (node_stop n) as [[b n1]|] eqn:E1; cbn [obind] in E; [|discriminate].
    pose proof (C65_node_stop n b n1 E1) as [-> _]. split; [inversion E; reflexivity|]. intros d c x H.
    unfold device_property in *. pose proof (stop_property n true n1 (dv_code d) c E1) as X. rewrite H in X.
    cbn [fst snd negb] in E. inversion E; subst; exact X.
  Qed.
  (** ... and stays so until somebody writes it. *)
  Theorem C85_while_running : forall w (n : node U) n1 w1, device_start w n = Ret (true, n1, w1) ->
    forall d x, dv_code d <> 0x0EF001 -> device_property d n 0x80 = Some x ->
    forall ops u u' n' w', Forall (elsewhere (dv_code d)) ops -> Forall (fun op => ~ lifecycle op) ops ->
    node_run (u, n1, w1) ops = Ret (u', n', w') -> device_property d n' 0x80 = Some [0x30].
  Proof.
    intros w n n1 w1 E [oc] x Ne H ops u u' n' w' F L R. cbn [dv_code] in *.
    pose proof (C85_started w n n1 w1 E (Device oc) 0x80 x H) as S.
    rewrite (C84_isolation_partial ops u n1 w1 u' n' w' oc Ne) with (2 := F) (3 := R); auto.
    intro X. unfold device_property in S. apply property_spec in S as (o & p & A & _). exact (addressed_not_owned _ _ _ A X).
  Qed.
  (** C86: the other data survives. *)
  Theorem C86_data_kept_partial : forall ops (u : U) n w u' n' w' d, dv_code d <> 0x0EF001 -> ~ not_owned (n_objects n) (dv_code d) ->
    Forall (elsewhere (dv_code d)) ops -> node_run (u, n, w) ops = Ret (u', n', w') ->
    forall c, ~ In c [0x80; 0x88] -> device_property d n' c = device_property d n c.
  Proof.
    intros ops u n w u' n' w' [oc] Ne Ow F R c I. apply (C84_isolation_partial ops u n w u' n' w' oc); auto.
  Qed.
End E.
Print Assumptions C82_read.
Print Assumptions C82_write.
Print Assumptions C82_set_then_read_partial.
Print Assumptions C84_isolation_partial.
Print Assumptions C85_started.
Print Assumptions C85_stopped.
Print Assumptions C85_while_running.
Print Assumptions C86_data_kept_partial.
