(** Devices and node profiles made from the standard database are objects built
    through the API. *)
From Verif Require Import Base HMap ModelCodec ModelMessages DbTable ModelObject
  SpecWire SpecObject ProofsCodec ProofsCodec2 PropertiesCodec ProofsObject ProofsObject2 ProofsObject3
  PropertiesObject PropertiesDb.

Section D.
  Context {P : Profile} {HO : HashOrder}.

  Lemma clone_built p : prop_ok p -> prop_built (prop_clone p).
  Proof.
    intros [C D E]. unfold prop_clone. apply add_enums_built.
    replace (prop_with_enums p []) with
      (prop_set_anno (prop_set_write (prop_set_read (prop_set_capacity (prop_set_data_type (prop_set_name (prop_set_data (prop_set_code prop_new (p_code p))
        (p_data p)) (p_name p)) (p_typ p)) (p_cap p)) (p_read p)) (p_write p)) (p_anno p)) by reflexivity.
    repeat constructor; auto.
  Qed.
  Lemma loop_built uuid ps : length uuid = 16%nat -> octets uuid -> forall o o', obj_built o ->
    (forall k p, In (k, p) ps -> prop_ok p) -> add_standard_loop uuid o ps = Ret o' -> obj_built o'.
  Proof.
    intros L Hu. induction ps as [|[k p] r IH]; intros o o' B F E; cbn [add_standard_loop] in E; [inversion E; subst; auto|].
    destruct (object_add_property o (prop_clone p)) as [o1|] eqn:E1; cbn [obind] in E; [|discriminate].
    rewrite default_spec in E by auto. cbn [obind] in E.
    apply IH in E; auto; [|intros k' p' I; apply (F k' p'); right; auto].
    assert (B1 : obj_built o1) by (eapply OB_add; eauto; apply clone_built, (F k p); left; auto).
    destruct (default_of uuid k) as [d|] eqn:Ed; auto.
    apply OB_set; auto; [eapply default_not_map; eauto|eapply default_octets; eauto].
  Qed.
  Lemma add_standard_built cs db uuid o code o' b : Forall2 std_entry cs db -> length uuid = 16%nat -> octets uuid -> obj_built o ->
    object_add_standard_properties db uuid o code = Ret (o', b) -> obj_built o'.
  Proof.
    intros F L Hu B E. unfold object_add_standard_properties in E. destruct (db_find_object db _) as [std|] eqn:Ef.
    - destruct (add_standard_loop _ _ _) as [o1|] eqn:E1; cbn [obind] in E; [|discriminate]. inversion E; subst.
      apply (loop_built uuid (o_props std) L Hu (object_set_class_name o (o_class_name std)) o'); auto; [constructor; auto|].
      assert (Ok : obj_ok std).
      { unfold db_find_object in Ef. apply find_some in Ef as [I _]. clear - F I. induction F as [|c x cs os H F IH]; [destruct I|].
        destruct I as [->|I]; [apply H|auto]. }
      intros k p I. destruct Ok as [W _ Q]. apply (Q k). unfold object_find_property. apply in_hget; auto. apply W.
    - inversion E; subst. auto.
  Qed.
  Theorem device_built seed db u1 u2 s code o : standard_database seed = Ret db -> uuid_ok u1 -> uuid_ok u2 ->
    device_object db u1 u2 s code = Ret o -> obj_built o.
  Proof.
    intros E [L1 H1] [L2 H2] D. destruct (database_spec seed) as (db' & E' & F). rewrite E in E'. inversion E'; subst db'.
    unfold device_object, with_standard_properties in D.
    destruct (object_add_standard_properties db u1 _ _) as [[o1 b1]|] eqn:E1; cbn [obind fst] in D; [|discriminate].
    destruct (object_add_standard_properties db u2 _ _) as [[o2 b2]|] eqn:E2; cbn [obind fst] in D; [|discriminate].
    inversion D; subst. eapply add_standard_built in E2; eauto. eapply add_standard_built in E1; eauto. repeat constructor.
  Qed.

  (** The node profile of the standard database. *)
  Theorem profile_object seed db u1 u2 s : standard_database seed = Ret db -> uuid_ok u1 -> uuid_ok u2 ->
    exists o, device_object db u1 u2 s 0x0EF001 = Ret o /\ obj_built o /\ object_code o = 0x0EF001 /\
      forall c, In c [0xD3; 0xD4; 0xD5; 0xD6; 0xD7] -> object_has_property o c = true /\ can_read o c /\ ~ can_write o c.
  Proof.
    intros E U1 U2. destruct (device_spec seed db u1 u2 s 0x0EF001 E U1 U2) as (o & D & Ok & _ & Cd & F & _).
    exists o. split; auto. split; [exact (device_built seed db u1 u2 s _ o E U1 U2 D)|]. split.
    { unfold object_code. rewrite Cd. reflexivity. }
    intros c I. assert (Nm : is_map_code c = false) by (cbn in I; intuition (subst; reflexivity)).
    specialize (F c Nm). unfold object_has_property, can_read, can_write. rewrite F.
    assert (X : exists r, first_row (dev_rows db_table 0x0EF001) c = Some r /\ p_read (standard_property r) <> Prohibited /\ p_write (standard_property r) = Prohibited).
    { cbn in I. intuition (subst; eexists; split; [vm_compute; reflexivity|split; [discriminate|reflexivity]]). }
    destruct X as (r & -> & X1 & X2). cbn [option_map]. split; auto.
    assert (Y : forall d, p_read (set_opt d (standard_property r)) = p_read (standard_property r) /\
                          p_write (set_opt d (standard_property r)) = p_write (standard_property r)) by (intros [d|]; split; reflexivity).
    split.
    - eexists. split; [reflexivity|]. unfold allows. rewrite (proj1 (Y _)). auto.
    - intros (p & Ep & A). inversion Ep; subst. apply A. rewrite (proj2 (Y _)). auto.
  Qed.
End D.
Print Assumptions profile_object.
