(** C144: what a controller shows of a remote object is what the device has. *)
From Verif Require Import Base HMap ModelCodec ModelMessages DbTable ModelObject ModelTransport ModelNode ModelController ModelHost
  SpecWire SpecObject SpecNode ProofsCodec ProofsCodec2 PropertiesCodec ProofsObject ProofsObject2 ProofsObject3
  PropertiesObject PropertiesDb ProofsDevice ProofsNode ProofsNode2 ProofsNode3 ProofsNode4 ExamplesNode PropertiesNode PropertiesTrans
  PropertiesProfile ProofsExchange ProofsController ProofsHistory PropertiesController ProofsHost SpecFound ProofsFound PropertiesHeard.

(** The two objects have the same properties with the same rules; their data may differ. *)
Definition alike (a b : object) : Prop :=
  forall k, object_has_property a k = object_has_property b k /\ (can_read a k <-> can_read b k) /\
    (can_write a k <-> can_write b k) /\ (can_announce a k <-> can_announce b k) /\
    (forall p q, object_find_property a k = Some p -> object_find_property b k = Some q -> same_attributes p q).
(** The data that a new device has, besides the identification number and the property
    maps. *)
Definition as_new (k : N) : list N :=
  if k =? 0x80 then [0x31] else if k =? 0x81 then [0x00] else if k =? 0x82 then [0; 0; 0x50; 0]
  else if k =? 0x88 then [0x42] else if k =? 0x8A then [0xFF; 0xFF; 0xFF] else [].

Lemma strip_alike a b : (forall k, strip (object_find_property a k) = strip (object_find_property b k)) -> alike a b.
Proof.
  intros H k. specialize (H k). unfold object_has_property, can_read, can_write, can_announce, strip in *.
  destruct (object_find_property a k) as [p|], (object_find_property b k) as [q|]; cbn in H; try discriminate.
  - assert (S : same_attributes p q) by (apply same_strip; congruence). pose proof S as (_ & _ & _ & _ & R & W & A & _). split; auto.
    split; [|split; [|split]].
    + split; intros (x & E & Y); inversion E; subst; eexists; split; eauto; congruence.
    + split; intros (x & E & Y); inversion E; subst; eexists; split; eauto; congruence.
    + split; intros (x & E & Y); inversion E; subst; eexists; split; eauto; congruence.
    + intros x y Ex Ey. inversion Ex; inversion Ey; subst. auto.
  - split; auto. split; [|split; [|split]]; try (split; intros (x & E & _); discriminate). intros x y Ex. discriminate.
Qed.
Lemma shape_strip a b : same_shape a b -> forall k, strip (object_find_property a k) = strip (object_find_property b k).
Proof.
  intros (_ & _ & _ & N & S) k. specialize (N k). specialize (S k). unfold strip. destruct (object_find_property a k) as [p|], (object_find_property b k) as [q|]; cbn.
  - f_equal. apply same_strip. auto.
  - destruct N as [_ N]. discriminate (N eq_refl).
  - destruct N as [N _]. discriminate (N eq_refl).
  - reflexivity.
Qed.
Lemma copy_strip a b : copy_of a b -> forall k, strip (object_find_property a k) = strip (object_find_property b k).
Proof.
  intros (_ & _ & _ & C) k. specialize (C k). unfold same_property, strip in *. destruct (object_find_property a k) as [p|], (object_find_property b k) as [q|]; cbn; try tauto.
  f_equal. apply same_strip. apply C.
Qed.

Section S.
  Context {P : Profile} {HO : HashOrder} {Os : OS} {Uu : Uuids} (seed : N -> N) (db : list object).
  Hypothesis Db : standard_database seed = Ret db.
  Hypothesis Uo : forall k, uuid_ok (new_uuid k).

  (** [e] is one of the objects of a remote node that Controller::nodes returns after any
      received messages. *)
  Definition shown_object (e : object) : Prop :=
    exists ms w rs w1 rs' w2 r, Forall received ms /\ hears db w [] ms = Ret (rs, w1) /\ controller_nodes w1 rs = Ret (rs', w2) /\ In r rs' /\ In e (rn_objects r).

  Lemma standard_ok c o : standard_object db c o -> obj_ok o /\ std_keys o.
  Proof. intros (u1 & u2 & s & A & B & D). destruct (device_spec seed db u1 u2 s c Db A B) as (o' & D' & X & Y & _). rewrite D in D'. inversion D'; subst. auto. Qed.
  Lemma nodes_copies l : forall w l' w', Forall remote_ok l -> controller_nodes w l = Ret (l', w') ->
    Forall2 (fun r r' => Forall2 copy_of (rn_objects r) (rn_objects r')) l l'.
  Proof.
    induction l as [|r t IH]; intros w l' w' F E; cbn [controller_nodes] in E; [inversion E; constructor|]. inversion F as [|? ? Ro Ft]; subst.
    unfold remote_clone in E. destruct (clone_objects w (rn_objects r)) as [[os' w1]|] eqn:Ec; cbn [obind fst snd] in E; [|discriminate].
    destruct (controller_nodes w1 t) as [[t' w2]|] eqn:Et; cbn [obind fst snd] in E; [|discriminate]. inversion E; subst. constructor; [|eapply IH; eauto].
    cbn [rn_objects]. eapply clone_objects_copy; eauto.
  Qed.
  Lemma forall2_r {A B} (R : A -> B -> Prop) l l' y : Forall2 R l l' -> In y l' -> exists x, In x l /\ R x y.
  Proof. induction 1 as [|a b l l' H F IH]; intros I; [destruct I|]. destruct I as [->|I]; [exists a; cbn; auto|]. destruct (IH I) as (x & Ix & Rx). exists x. cbn. auto. Qed.
  (** It is a copy of a new device of its class. *)
  Lemma shown_copy e : shown_object e -> exists o0, standard_object db (object_code e) o0 /\ copy_of o0 e.
  Proof.
    intros (ms & w & rs & w1 & rs' & w2 & r & F & H & Cn & Ir & Ie).
    destruct (C135_entries seed db Db Uo ms w F) as (rs0 & w0 & l & H0 & _ & _ & St). rewrite H in H0. inversion H0; subst rs0 w0.
    assert (Ro : Forall remote_ok rs).
    { eapply Forall_impl; [|exact St]. intros x Fx. apply Forall_forall. intros o Io. destruct (forall2_r _ _ _ o Fx Io) as (c & _ & S0). eapply standard_ok; eauto. }
    destruct (forall2_r _ _ _ r (nodes_copies rs w1 rs' w2 Ro Cn) Ir) as (r0 & I0 & F2).
    destruct (forall2_r _ _ _ e F2 Ie) as (o0 & Io0 & Cp). rewrite Forall_forall in St. specialize (St r0 I0).
    destruct Cp as (Cc & Cr). exists o0. split; [|split; auto]. rewrite Cc.
    clear -St Io0. induction (rn_objects r0) as [|a l IH]; [destruct Io0|]. cbn [map] in St. inversion St; subst. destruct Io0 as [->|I]; auto.
  Qed.
  Lemma standard_strip c o : standard_object db c o ->
    forall k, strip (object_find_property o k) = strip (option_map standard_property (first_row (dev_rows db_table c) k)).
  Proof. intros (u1 & u2 & s & A & B & D). destruct (device_spec seed db u1 u2 s c Db A B) as (o' & D' & _ & _ & _ & _ & X). rewrite D in D'. inversion D'; subst. auto. Qed.
End S.

Section T.
  Context {P : Profile} {HO : HashOrder} {Os : OS} {Uu : Uuids} (seed : N -> N) (db : list object) (seed' : N -> N) (db' : list object).
  Hypothesis Db : standard_database seed = Ret db.
  Hypothesis Db' : standard_database seed' = Ret db'.
  Hypothesis Uo : forall k, uuid_ok (new_uuid k).

  (** A node all of whose devices were made with Device::new (the object is that of the
      class of its code), after any calls and messages: an object that a controller shows
      has exactly the properties of the object of the node with the same code, with the
      same rules. *)
  Theorem C144_rules_partial : forall e, shown_object db e ->
    forall U np (n0 : node U) ops u w u1 n w1, standard_object db' 0x0EF001 np -> node_new np = Ret n0 ->
    Forall (fun o => exists c, c < 2 ^ 24 /\ standard_object db' c o) (objects_added ops) ->
    Forall op_ok ops -> node_run (u, n0, w) ops = Ret (u1, n, w1) ->
    forall o, In o (n_objects n) -> object_code o = object_code e -> alike e o.
  Proof.
    intros e Se U np n0 ops u w u1 n w1 Sp N Fs Fo R o Io Co.
    destruct (shown_copy seed db Db Uo e Se) as (o0 & S0 & Cp).
    destruct (history_shapes np n0 ops u w u1 n w1 N Fo R) as [Fh _].
    destruct (forall2_r _ _ _ o Fh Io) as (x & Ix & Sx).
    assert (Sc : exists c, c < 2 ^ 24 /\ standard_object db' c x).
    { destruct Ix as [<-|Ix]; [exists 0x0EF001; split; [reflexivity|auto]|]. rewrite Forall_forall in Fs. auto. }
    destruct Sc as (c & Lc & Sc). pose proof (standard_code seed' db' Db' c x Lc Sc) as Cx.
    assert (c = object_code e) as ->. { rewrite <- Co, <- Cx. apply object_code_codes. apply Sx. }
    apply strip_alike. intro k. rewrite <- (copy_strip _ _ Cp k), <- (shape_strip _ _ Sx k).
    rewrite (standard_strip seed db Db _ _ S0 k), (standard_strip seed' db' Db' _ _ Sc k). reflexivity.
  Qed.

  (** The data shown are those of a new device, whatever the device has answered or
      announced: it never shows that a device is on, has a fault, or any measured value. *)
  Theorem C144_data_refuted : forall e k d, shown_object db e -> k <> 0x83 -> ~ is_map k -> object_property_data e k = Some d -> d = as_new k.
  Proof.
    intros e k d Se N3 Nm E. destruct (shown_copy seed db Db Uo e Se) as (o0 & (u1 & u2 & s & A & B & D) & (_ & _ & _ & C)).
    destruct (device_spec seed db u1 u2 s (object_code e) Db A B) as (o' & D' & _ & _ & _ & X & _). rewrite D in D'. inversion D'; subst o'.
    specialize (C k). assert (Mk : is_map_code k = false).
    { unfold is_map in Nm. unfold is_map_code. destruct (N.eqb_spec k 0x9D), (N.eqb_spec k 0x9E), (N.eqb_spec k 0x9F); tauto. }
    rewrite (X k Mk) in C. unfold object_property_data in E. destruct (object_find_property e k) as [p|]; [|discriminate]. cbn in E. inversion E; subst d.
    destruct (first_row _ k) as [r|]; cbn [option_map same_property] in C; [|destruct C]. destruct C as [_ C]. rewrite <- (C Nm).
    assert (Y : p_data (standard_property r) = []). { pose proof (standard_property_fields r) as SF. cbv zeta in SF. apply SF. }
    unfold default_of, as_new. destruct (N.eqb_spec k 0x8A); [subst; reflexivity|]. destruct (N.eqb_spec k 0x80); [subst; reflexivity|].
    destruct (N.eqb_spec k 0x81); [subst; reflexivity|]. destruct (N.eqb_spec k 0x88); [subst; reflexivity|]. destruct (N.eqb_spec k 0x82); [subst; reflexivity|].
    destruct (N.eqb_spec k 0x83); [contradiction|]. exact Y.
  Qed.

  (** Properties that the standard does not list for the class are never shown, whatever
      the device has. *)
  Theorem C144_own_refuted : forall e k, shown_object db e -> object_code e < 2 ^ 32 ->
    (forall r, super_rows r \/ rows_of (object_code e) r -> r_code r <> k) -> object_has_property e k = false.
  Proof.
    intros e k Se Le No. destruct (shown_copy seed db Db Uo e Se) as (o0 & (u1 & u2 & s & A & B & D) & (_ & _ & _ & C)).
    destruct (C28_device_properties P HO seed db u1 u2 s (object_code e) Db A B Le) as (o' & D' & _ & X & _). rewrite D in D'. inversion D'; subst o'.
    specialize (C k). specialize (X k). unfold object_has_property in *. destruct (object_find_property o0 k) as [p|].
    - exfalso. destruct X as [X _]. destruct (X eq_refl) as (r & Hr & Er). exact (No r Hr Er).
    - cbn in C. destruct (object_find_property e k); [destruct C|reflexivity].
  Qed.
End T.
Print Assumptions C144_rules_partial.
Print Assumptions C144_data_refuted.
Print Assumptions C144_own_refuted.

(** ** Cases *)
Section Cases.
  Local Existing Instance ex_order.
  Local Existing Instance ex_os.
  Local Existing Instance ex_uuids.
  (** A lamp as the library makes it, and the same with one property of the maker. *)
  Definition plain_lamp : object := the (object_new 0) (device_object (P := true) ex_db (repeat 1 16) (repeat 2 16) 1 0x029101).
  Definition extra : prop := prop_set_data (prop_set_write (prop_set_read (prop_set_code prop_new 0xF5) Required) Required) [7].
  Definition own_lamp : object := the (object_new 0) (object_add_property (P := true) plain_lamp extra).
  Definition lamp_ops (o : object) : list (node_op unit) := [OpAddObject o; OpAddHandler yes; OpStart].
  (** What the node answers to a request. *)
  Definition replies (o : object) (f : frame) : list (list N) :=
    match node_observe (P := true) (ex_w (lamp_ops o)) tt (ex_n (lamp_ops o)) (ex_rcv (wire f)) with
    | Ret (_, _, w) => map snd (sent (skipn (length (w_trace (ex_w (lamp_ops o)))) (w_trace w)))
    | Panic => []
    end.
  (** What the node has for property [k] of the lamp; and what nodes() of a controller
      shows for it after the answer to a search. *)
  Definition has (o : object) (k : N) : option (list N) := match find_object (n_objects (ex_n (lamp_ops o))) 0x029101 with Some x => object_property_data x k | None => None end.
  Definition displays (o : object) (k : N) : option (list N) :=
    match hears (P := true) ex_db w0 [] (map ex_rcv (replies o (Frame 7 0x0EF001 0x0EF001 0x62 (Single [(0xD6, [])])))) with
    | Ret (rs, w) => match controller_nodes (P := true) w rs with
                     | Ret ([r], _) => match find_object (rn_objects r) 0x029101 with Some x => object_property_data x k | None => None end
                     | _ => None
                     end
    | Panic => None
    end.
  (** The lamp is on and told so when asked; the controller shows the properties of a
      lamp that is off. *)
  Example C144_case : has plain_lamp 0x80 = Some [0x30] /\ displays plain_lamp 0x80 = Some [0x31] /\
    replies plain_lamp (Frame 7 0x0EF001 0x029101 0x62 (Single [(0x80, [])])) = [wire (Frame 7 0x029101 0x0EF001 0x72 (Single [(0x80, [0x30])]))] /\
    displays plain_lamp 0xB0 = Some [] /\ displays plain_lamp 0xF5 = None /\ has plain_lamp 0xF5 = None.
  Proof. split; [vm_compute; reflexivity|]. split; [vm_compute; reflexivity|]. split; [vm_compute; reflexivity|]. split; [vm_compute; reflexivity|]. split; vm_compute; reflexivity. Qed.
  (** The property of the maker can be read but is not shown. *)
  Theorem C144_extra_refuted : has own_lamp 0xF5 = Some [7] /\ displays own_lamp 0xF5 = None /\ displays own_lamp 0x80 = Some [0x31] /\
    replies own_lamp (Frame 7 0x0EF001 0x029101 0x62 (Single [(0xF5, [])])) = [wire (Frame 7 0x029101 0x0EF001 0x72 (Single [(0xF5, [7])]))].
  Proof. split; [vm_compute; reflexivity|]. split; [vm_compute; reflexivity|]. split; vm_compute; reflexivity. Qed.
End Cases.
Print Assumptions C144_extra_refuted.
