(** Sequences of additions: cloning, the standard database, new devices. *)
From Verif Require Import Base HMap ModelCodec ModelMessages DbTable MakerTable ModelObject SpecWire SpecObject
  ProofsCodec ProofsCodec2 PropertiesCodec ProofsObject ProofsObject2.

(** [find o c] up to the data. *)
Definition strip (p : option prop) : option prop := option_map (fun q => prop_set_data q []) p.
Definition first_of (ps : list prop) (c : N) : option prop := find (fun p => p_code p =? c) ps.
Definition orelse {A} (a b : option A) : option A := match a with Some x => Some x | None => b end.

Lemma strip_set p d : strip (option_map (fun q => prop_set_data q d) p) = strip p.
Proof. destruct p; reflexivity. Qed.
Lemma strip_orelse a b : strip (orelse a b) = orelse (strip a) (strip b).
Proof. destruct a; reflexivity. Qed.
Lemma hget_first_of (m : list (N * prop)) c : (forall k p, In (k, p) m -> p_code p = k) ->
  first_of (hvalues m) c = hget m c.
Proof.
  unfold first_of. induction m as [|[k p] r IH]; intro K; auto. cbn.
  rewrite (K k p) by (left; auto). rewrite N.eqb_sym. destruct (c =? k); auto.
  apply IH. intros; apply K; right; auto.
Qed.

Section S.
  Context {P : Profile} {HO : HashOrder}.

  Fixpoint adds (o : object) (ps : list prop) : outcome object :=
    match ps with
    | [] => Ret o
    | p :: r => let! o' := object_add_property o p in adds o' r
    end.
  Lemma add_properties_adds ps : forall o, add_properties o ps = adds o (map prop_clone ps).
  Proof.
    induction ps as [|p r IH]; intro o; cbn [add_properties adds map]; auto.
    destruct (object_add_property o (prop_clone p)); cbn [obind]; auto.
  Qed.
  Lemma add_standard_rows_adds rows : forall o, add_standard_rows o rows = adds o (map standard_property rows).
  Proof.
    induction rows as [|p r IH]; intro o; cbn [add_standard_rows adds map]; auto.
    destruct (object_add_property o (standard_property p)); cbn [obind]; auto.
  Qed.

  Definition same_header (o o' : object) : Prop :=
    o_codes o' = o_codes o /\ o_name o' = o_name o /\ o_class_name o' = o_class_name o /\ o_seed o' = o_seed o.
  Lemma same_header_refl o : same_header o o. Proof. repeat split. Qed.
  Lemma same_header_trans a b c : same_header a b -> same_header b c -> same_header a c.
  Proof. unfold same_header. intros (-> & -> & -> & ->) (-> & -> & -> & ->). auto. Qed.

  Lemma adds_spec ps : forall o o', obj_ok o -> Forall prop_ok ps -> adds o ps = Ret o' ->
    obj_ok o' /\ same_header o o' /\
    (forall c, is_map_code c = false -> object_find_property o' c = orelse (object_find_property o c) (first_of ps c)) /\
    (forall c, strip (object_find_property o' c) = strip (orelse (object_find_property o c) (first_of ps c))).
  Proof.
    induction ps as [|p r IH]; intros o o' W F; cbn [adds].
    - intro E; inversion E; subst. split; auto. split; [apply same_header_refl|].
      assert (X : forall x : option prop, orelse x None = x) by (destruct x; auto).
      split; intros c; unfold first_of; cbn [find]; rewrite X; auto.
    - inversion F; subst. destruct (object_add_property o p) as [o1|] eqn:E1; cbn [obind]; [|discriminate]. intro E.
      pose proof (add_property_ok o p o1 W H1 E1) as W1.
      destruct (add_property_spec o p o1 (oo_wf _ W) (po_code _ H1) E1) as (_ & _ & _ & C1 & C2 & C3 & C4 & D & G).
      destruct (IH o1 o' W1 H2 E) as (A1 & A2 & A3 & A4).
      assert (X : forall c, orelse (orelse (object_find_property o c) (if c =? p_code p then Some p else None)) (first_of r c) =
        orelse (object_find_property o c) (first_of (p :: r) c)).
      { intro c. unfold first_of. cbn [find]. rewrite N.eqb_sym. destruct (object_find_property o c); cbn [orelse]; auto.
        destruct (p_code p =? c); auto. }
      split; auto. split; [eapply same_header_trans; [|exact A2]; repeat split; auto|]. split.
      + intros c Hc. rewrite A3, D by auto. apply X.
      + intros c. rewrite A4, strip_orelse. rewrite <- X. rewrite (strip_orelse (orelse _ _)). f_equal. apply G.
  Qed.

  Definition std_keys (o : object) : Prop := forall c p, object_find_property o c = Some p -> 0x80 <= c.
  Lemma std_keys_in o : std_keys o -> forall k, In k (hkeys (o_props o)) -> 0x80 <= k.
  Proof.
    intros H k I. destruct (hget (o_props o) k) as [p|] eqn:E; [eapply H; exact E|].
    apply hget_none in E. tauto.
  Qed.
  Lemma add_std o p o' : obj_ok o -> prop_ok p -> std_keys o -> 0x80 <= p_code p -> object_add_property o p = Ret o' -> std_keys o'.
  Proof.
    intros W Hp S H E. destruct (add_property_spec o p o' (oo_wf _ W) (po_code _ Hp) E) as (_ & _ & _ & _ & _ & _ & _ & _ & G).
    intros c q Hq. specialize (G c). rewrite Hq in G. destruct (object_find_property o c) eqn:E2.
    - eapply S; eauto.
    - destruct (N.eqb_spec c (p_code p)); [subst; auto|discriminate].
  Qed.
  Lemma adds_total ps : forall o, obj_ok o -> Forall prop_ok ps -> std_keys o -> Forall (fun p => 0x80 <= p_code p) ps ->
    exists o', adds o ps = Ret o'.
  Proof.
    induction ps as [|p r IH]; intros o W F S F'; cbn [adds]; [eauto|]. inversion F; inversion F'; subst.
    destruct (add_property_total o p (oo_wf _ W) (po_code _ H1)) as [o1 E1]; [auto|apply std_keys_in; auto|].
    rewrite E1. cbn [obind]. apply IH; auto.
    - eapply add_property_ok; eauto.
    - eapply add_std with (o := o); eauto.
  Qed.

  (** ** Cloning *)
  Lemma map_clone_id ps : Forall prop_ok ps -> map prop_clone ps = ps.
  Proof.
    induction 1 as [|p r [_ _ H] F IH]; auto. cbn. rewrite prop_clone_id, IH by auto. reflexivity.
  Qed.
  Lemma props_ok_all o : obj_ok o -> Forall prop_ok (object_properties o).
  Proof.
    intros [W _ Q]. apply Forall_forall. intros p I. unfold object_properties, hvalues in I.
    apply in_map_iff in I as ([k q] & E & I). cbn in E. subst q.
    destruct (ow_keyed o W k p I) as [Hk _]. apply (Q k). apply in_hget; auto. apply W.
  Qed.
  Lemma props_first o c : obj_wf o -> first_of (object_properties o) c = object_find_property o c.
  Proof. intro W. apply hget_first_of. intros k p I. apply W in I. tauto. Qed.

  Lemma clone_spec seed o o' : obj_ok o -> object_clone seed o = Ret o' ->
    obj_ok o' /\ o_codes o' = o_codes o /\ o_name o' = o_name o /\ o_class_name o' = o_class_name o /\
    (forall c, is_map_code c = false -> object_find_property o' c = object_find_property o c) /\
    (forall c, strip (object_find_property o' c) = strip (object_find_property o c)).
  Proof.
    intros W. unfold object_clone. rewrite add_properties_adds, map_clone_id by (apply props_ok_all; auto). intro E.
    apply adds_spec in E as (A & (B1 & B2 & B3 & _) & C & D).
    - split; auto. split; auto. split; auto. split; auto. split.
      + intros c Hc. rewrite C by auto. cbn. apply props_first. apply W.
      + intros c. rewrite D. cbn [orelse object_find_property o_props hget]. rewrite props_first by apply W. reflexivity.
    - eapply obj_ok_props; [|apply (obj_ok_new seed)]. reflexivity.
    - apply props_ok_all; auto.
  Qed.
  Lemma clone_total seed o : obj_ok o -> std_keys o -> exists o', object_clone seed o = Ret o'.
  Proof.
    intros W S. unfold object_clone. rewrite add_properties_adds, map_clone_id by (apply props_ok_all; auto).
    apply adds_total.
    - eapply obj_ok_props; [|apply (obj_ok_new seed)]. reflexivity.
    - apply props_ok_all; auto.
    - intros c p H. discriminate.
    - apply Forall_forall. intros p I. unfold object_properties, hvalues in I.
      apply in_map_iff in I as ([k q] & E & I). cbn in E. subst q.
      destruct (ow_keyed o (oo_wf _ W) k p I) as [Hk _]. rewrite Hk. apply (S k p). apply in_hget; auto. apply W.
  Qed.

  (** ** Standard properties *)
  Lemma standard_property_code r : p_code (standard_property r) = r_code r.
  Proof.
    unfold standard_property. generalize (map create_standard_property_enum (r_enums r)).
    set (p := prop_set_anno _ _). assert (E : p_code p = r_code r) by reflexivity. revert E. generalize p. clear p.
    intros p E l. revert p E. induction l as [|e l IH]; intros p E; cbn [fold_left]; auto.
  Qed.
  Lemma add_enums_built l : forall p, prop_built p -> prop_built (fold_left prop_add_enum l p).
  Proof. induction l as [|e l IH]; intros p B; cbn [fold_left]; auto. apply IH. constructor. auto. Qed.
  Lemma standard_property_built r : r_code r < 256 -> prop_built (standard_property r).
  Proof. intro H. unfold standard_property. apply add_enums_built. repeat constructor; auto. Qed.
  Lemma add_enums_fields l : forall p, let q := fold_left prop_add_enum l p in
    p_code q = p_code p /\ p_data q = p_data p /\ p_name q = p_name p /\ p_typ q = p_typ p /\ p_cap q = p_cap p /\
    p_read q = p_read p /\ p_write q = p_write p /\ p_anno q = p_anno p.
  Proof.
    induction l as [|e l IH]; intro p; cbn [fold_left]; cbv zeta; [auto 10|]. specialize (IH (prop_add_enum p e)). exact IH.
  Qed.
  Lemma standard_property_fields r : let q := standard_property r in
    p_data q = [] /\ p_name q = r_name r /\ p_typ q = r_typ r /\ p_cap q = r_cap r /\
    p_read q = property_string_to_attribute (r_get r) /\ p_write q = property_string_to_attribute (r_set r) /\
    p_anno q = property_string_to_attribute (r_anno r).
  Proof.
    unfold standard_property. cbv zeta.
    pose proof (add_enums_fields (map create_standard_property_enum (r_enums r))
      (prop_set_anno (prop_set_write (prop_set_read (prop_set_capacity (prop_set_data_type (prop_set_name (prop_set_code prop_new (r_code r)) (r_name r)) (r_typ r)) (r_cap r)) (property_string_to_attribute (r_get r))) (property_string_to_attribute (r_set r))) (property_string_to_attribute (r_anno r)))) as H.
    cbv zeta in H. destruct H as (_ & H1 & H2 & H3 & H4 & H5 & H6 & H7). rewrite H1, H2, H3, H4, H5, H6, H7. repeat split.
  Qed.

  (** The first row with a given code. *)
  Definition first_row (rows : list db_row) (c : N) : option db_row := find (fun r => r_code r =? c) rows.
  Lemma first_of_rows rows c : first_of (map standard_property rows) c = option_map standard_property (first_row rows c).
  Proof.
    unfold first_of, first_row. induction rows as [|r rest IH]; auto. cbn [map find].
    rewrite standard_property_code. destruct (r_code r =? c); auto.
  Qed.

  (** Table facts, by computation. *)
  Definition row_ok (r : db_row) : bool := (0x80 <=? r_code r) && (r_code r <? 256).
  Definition class_ok (c : db_class) : bool :=
    (c_grp c <? 256) && (c_cls c <? 256) && forallb row_ok (c_rows c).
  Lemma table_ok : forallb class_ok db_table = true.
  Proof. vm_compute. reflexivity. Qed.
  Definition class_code (c : db_class) : N := c_grp c * 65536 + c_cls c * 256.
  Fixpoint nodupb (l : list N) : bool :=
    match l with [] => true | x :: r => negb (existsb (N.eqb x) r) && nodupb r end.
  Lemma nodupb_spec l : nodupb l = true -> NoDup l.
  Proof.
    induction l as [|x r IH]; cbn; [constructor|]. intro H. apply andb_prop in H as [H1 H2].
    constructor; auto. intro I. apply existsb_eqb in I. rewrite I in H1. discriminate.
  Qed.
  Lemma table_nodup : NoDup (map class_code db_table).
  Proof. apply nodupb_spec. vm_compute. reflexivity. Qed.

  Lemma class_rows_ok c : class_ok c = true -> Forall prop_ok (map standard_property (c_rows c)) /\
    Forall (fun p => 0x80 <= p_code p) (map standard_property (c_rows c)).
  Proof.
    intro H. unfold class_ok in H. apply andb_prop in H as [_ H]. rewrite forallb_forall in H.
    split; apply Forall_forall; intros p I; apply in_map_iff in I as (r & <- & I); apply H in I;
      unfold row_ok in I.
    - apply prop_built_ok, standard_property_built. lia.
    - rewrite standard_property_code. lia.
  Qed.

  (** What an entry of the database looks like. *)
  Record std_entry (c : db_class) (o : object) : Prop := {
    se_ok : obj_ok o;
    se_codes : o_codes o = (c_grp c, c_cls c, 0);
    se_name : o_class_name o = c_name c;
    se_find : forall k, is_map_code k = false ->
      object_find_property o k = option_map standard_property (first_row (c_rows c) k);
    se_strip : forall k, strip (object_find_property o k) = strip (option_map standard_property (first_row (c_rows c) k)) }.

  Lemma standard_object_spec seed c : class_ok c = true -> exists o, standard_object seed c = Ret o /\ std_entry c o.
  Proof.
    intro H. destruct (class_rows_ok c H) as [R1 R2]. unfold standard_object. rewrite add_standard_rows_adds.
    set (o0 := object_set_class_name _ _).
    assert (W : obj_ok o0) by (eapply obj_ok_props; [|apply (obj_ok_new seed)]; reflexivity).
    destruct (adds_total (map standard_property (c_rows c)) o0) as [o E]; auto.
    { intros k p Hk. discriminate. }
    exists o. split; auto. destruct (adds_spec _ _ _ W R1 E) as (A & (B1 & B2 & B3 & B4) & C & D).
    constructor; auto.
    - intros k Hk. rewrite C by auto. cbn [orelse]. apply first_of_rows.
    - intros k. rewrite D. rewrite first_of_rows. reflexivity.
  Qed.
  Lemma standard_objects_spec seed cs : forallb class_ok cs = true -> forall n,
    exists os, standard_objects seed n cs = Ret os /\ Forall2 std_entry cs os.
  Proof.
    induction cs as [|c cs IH]; intros H n; cbn [standard_objects].
    - exists []. split; [reflexivity|constructor].
    - cbn in H. apply andb_prop in H as [H1 H2]. destruct (standard_object_spec (seed n) c H1) as (o & E & S).
      destruct (IH H2 (n + 1)) as (os & E' & F). rewrite E. cbn [obind]. rewrite E'. cbn [obind].
      exists (o :: os). split; [reflexivity|constructor; auto].
  Qed.

  Lemma object_code_eq o a b c : o_codes o = (a, b, c) -> a < 256 -> b < 256 -> c < 256 ->
    object_code o = a * 65536 + b * 256 + c.
  Proof.
    intros E Ha Hb Hc. unfold object_code. rewrite E.
    rewrite N.lor_0_l. change 0xFF0000 with (N.shiftl (N.ones 8) 16). change 0xFF00 with (N.shiftl (N.ones 8) 8). change 0xFF with (N.ones 8).
    rewrite <- !N.shiftl_land. rewrite !N.land_ones. change (2 ^ 8) with 256. rewrite !N.mod_small by auto.
    rewrite !N.shiftl_mul_pow2. change (2 ^ 16) with 65536. change (2 ^ 8) with 256.
    replace (a * 65536) with ((a * 256) * 2 ^ 8) by (change (2 ^ 8) with 256; lia).
    change 256 with (2 ^ 8) at 2. rewrite <- !N.shiftl_mul_pow2, <- N.shiftl_lor.
    rewrite (N.shiftl_mul_pow2 (N.lor _ _)).
    assert (L : forall x y, y < 256 -> N.lor (x * 2 ^ 8) y = x * 256 + y).
    { intros x y Hy. rewrite <- N.lxor_lor, <- N.add_nocarry_lxor; auto.
      - apply N.bits_inj. intro i. rewrite N.land_spec, N.bits_0. rewrite <- N.shiftl_mul_pow2.
        destruct (N.lt_ge_cases i 8).
        + rewrite N.shiftl_spec_low by auto. reflexivity.
        + rewrite (N.bits_above_log2 y i); [apply andb_false_r|]. destruct (N.eq_dec y 0) as [->|]; [cbn; lia|].
          apply N.lt_le_trans with 8; auto. apply N.log2_lt_pow2; [lia|exact Hy].
      - apply N.bits_inj. intro i. rewrite N.land_spec, N.bits_0. rewrite <- N.shiftl_mul_pow2.
        destruct (N.lt_ge_cases i 8).
        + rewrite N.shiftl_spec_low by auto. reflexivity.
        + rewrite (N.bits_above_log2 y i); [apply andb_false_r|]. destruct (N.eq_dec y 0) as [->|]; [cbn; lia|].
          apply N.lt_le_trans with 8; auto. apply N.log2_lt_pow2; [lia|exact Hy]. }
    rewrite (N.shiftl_mul_pow2). rewrite !L by auto. lia.
  Qed.

  Lemma std_entry_code c o : class_ok c = true -> std_entry c o -> object_code o = class_code c.
  Proof.
    intros H S. unfold class_ok in H. rewrite (object_code_eq o _ _ _ (se_codes _ _ S)) by lia. unfold class_code. lia.
  Qed.
  Lemma mask_class code : N.land code 0xFFFF00 = (code / 256) mod 65536 * 256.
  Proof.
    change 0xFFFF00 with (N.shiftl (N.ones 16) 8).
    apply N.bits_inj. intro i. rewrite N.land_spec. change ((code / 256) mod 65536 * 256) with ((code / 2 ^ 8) mod 2 ^ 16 * 2 ^ 8).
    rewrite <- N.land_ones, <- N.shiftr_div_pow2, <- N.shiftl_mul_pow2.
    destruct (N.lt_ge_cases i 8).
    - rewrite !N.shiftl_spec_low by auto. apply andb_false_r.
    - rewrite !N.shiftl_spec_high by lia. rewrite N.land_spec, N.shiftr_spec by lia. f_equal. f_equal. lia.
  Qed.
  Definition find_class (cs : list db_class) (code : N) : option db_class :=
    find (fun c => class_code c =? (code / 256) mod 65536 * 256) cs.
  Lemma db_find_spec cs os code : forallb class_ok cs = true -> Forall2 std_entry cs os ->
    match find_class cs code, db_find_object os code with
    | Some c, Some o => std_entry c o /\ class_ok c = true
    | None, None => True
    | _, _ => False
    end.
  Proof.
    intros H F. unfold find_class, db_find_object. rewrite mask_class. induction F as [|c o cs os S F IH]; cbn [find]; auto.
    cbn [forallb] in H. apply andb_prop in H as [H1 H2]. rewrite (std_entry_code c o H1 S).
    destruct (class_code c =? _); auto. apply IH; auto.
  Qed.
  Lemma find_class_land cs code : find_class cs (N.land code 0xFFFF00) = find_class cs code.
  Proof. unfold find_class. rewrite mask_class. replace ((_ * 256) / 256 mod 65536) with ((code / 256) mod 65536) by lia. reflexivity. Qed.

  (** ** Default data *)
  Definition default_of (uuid : list N) (c : N) : option (list N) :=
    if c =? 0x8A then Some [0xFF; 0xFF; 0xFF]
    else if c =? 0x80 then Some [0x31]
    else if c =? 0x81 then Some [0x00]
    else if c =? 0x88 then Some [0x42]
    else if c =? 0x82 then Some [0; 0; 0x50; 0]
    else if c =? 0x83 then Some ([0xFE; 0xFF; 0xFF; 0xFF] ++ rev (skipn 3 uuid))
    else None.
  Definition set_opt (d : option (list N)) (p : prop) : prop := match d with Some x => prop_set_data p x | None => p end.

  Lemma default_spec uuid o c : length uuid = 16%nat -> octets uuid ->
    set_standard_default uuid o c =
    Ret (match default_of uuid c with Some d => fst (object_set_property_data o c d) | None => o end).
  Proof.
    intros L Ho. unfold set_standard_default, default_of.
    destruct (N.eqb_spec c 0x8A); [subst; reflexivity|].
    destruct (N.eqb_spec c 0x80); [subst; reflexivity|].
    destruct (N.eqb_spec c 0x81); [subst; reflexivity|].
    destruct (N.eqb_spec c 0x88); [subst; reflexivity|].
    destruct (N.eqb_spec c 0x82); [subst; reflexivity|].
    destruct (N.eqb_spec c 0x83); [|reflexivity].
    destruct (C25_oid_format P OBJECT_MANUFACTURER_EXPERIMENT uuid) as (man & E & _ & _ & F & _); auto; [reflexivity|].
    rewrite F. cbn [obind]. vm_compute in E. inversion E; subst. reflexivity.
  Qed.
  Lemma default_not_map uuid c d : default_of uuid c = Some d -> ~ map_code c.
  Proof.
    unfold default_of, map_code. intros H [-> | [-> | ->]]; discriminate H.
  Qed.
  Lemma default_octets uuid c d : octets uuid -> default_of uuid c = Some d -> octets d.
  Proof.
    intros Ho. unfold default_of.
    assert (X : octets (rev (skipn 3 uuid))).
    { apply Forall_rev. rewrite <- (firstn_skipn 3 uuid) in Ho. apply Forall_app in Ho. tauto. }
    destruct (c =? 0x8A); [intro E; inversion E; repeat constructor|].
    destruct (c =? 0x80); [intro E; inversion E; repeat constructor|].
    destruct (c =? 0x81); [intro E; inversion E; repeat constructor|].
    destruct (c =? 0x88); [intro E; inversion E; repeat constructor|].
    destruct (c =? 0x82); [intro E; inversion E; repeat constructor|].
    destruct (c =? 0x83); [|discriminate]. intro E.
    assert (d = [0xFE; 0xFF; 0xFF; 0xFF] ++ rev (skipn 3 uuid)) as -> by congruence.
    apply Forall_app; split; auto; repeat constructor.
  Qed.

  Lemma set_opt_fields d p : p_code (set_opt d p) = p_code p.
  Proof. destruct d; reflexivity. Qed.
  Lemma strip_set_opt d x : strip (option_map (set_opt d) x) = strip x.
  Proof. destruct d, x; reflexivity. Qed.
  Definition def_if (uuid : list N) (ps : list (N * prop)) (c : N) (x : option prop) : option prop :=
    if existsb (N.eqb c) (hkeys ps) then option_map (set_opt (default_of uuid c)) x else x.

  Lemma loop_spec uuid ps : length uuid = 16%nat -> octets uuid ->
    forall o, obj_ok o -> std_keys o -> Forall (fun kp => prop_ok (snd kp) /\ p_code (snd kp) = fst kp /\ 0x80 <= fst kp) ps ->
    exists o', add_standard_loop uuid o ps = Ret o' /\
    obj_ok o' /\ std_keys o' /\ same_header o o' /\
    (forall c, is_map_code c = false -> object_find_property o' c = def_if uuid ps c (orelse (object_find_property o c) (hget ps c))) /\
    (forall c, strip (object_find_property o' c) = strip (orelse (object_find_property o c) (hget ps c))).
  Proof.
    intros Lu Hu. induction ps as [|[k p] r IH]; intros o W S F; cbn [add_standard_loop].
    - exists o. split; auto. split; auto. split; auto. split; [apply same_header_refl|].
      assert (X : forall x : option prop, orelse x None = x) by (destruct x; auto).
      split; intros c; unfold def_if; cbn [hget hkeys map existsb]; rewrite X; auto.
    - inversion F as [|? ? (Hp & Hk & Hs) Fr]; subst. cbn [fst snd] in *. subst k.
      rewrite prop_clone_id by apply Hp.
      destruct (add_property_total o p (oo_wf _ W) (po_code _ Hp)) as [o1 E1]; [auto|apply std_keys_in; auto|].
      rewrite E1. cbn [obind]. rewrite default_spec by auto. cbn [obind].
      pose proof (add_property_ok o p o1 W Hp E1) as W1.
      pose proof (add_std o p o1 W Hp S Hs E1) as S1.
      destruct (add_property_spec o p o1 (oo_wf _ W) (po_code _ Hp) E1) as (_ & _ & _ & C1 & C2 & C3 & C4 & D & G).
      set (o2 := match default_of uuid (p_code p) with Some d => fst (object_set_property_data o1 (p_code p) d) | None => o1 end).
      assert (W2 : obj_ok o2).
      { unfold o2. destruct (default_of uuid (p_code p)) eqn:Ed; auto. apply set_data_ok; auto.
        - eapply default_not_map; eauto.
        - eapply default_octets; eauto. }
      assert (F2 : forall c, object_find_property o2 c = if c =? p_code p then option_map (set_opt (default_of uuid c)) (object_find_property o1 c) else object_find_property o1 c).
      { intro c. unfold o2. destruct (default_of uuid (p_code p)) eqn:Ed.
        - rewrite set_data_find. destruct (N.eqb_spec c (p_code p)); auto. subst. rewrite Ed. reflexivity.
        - destruct (N.eqb_spec c (p_code p)); auto. subst. rewrite Ed. destruct (object_find_property o1 (p_code p)); reflexivity. }
      assert (S2 : std_keys o2).
      { intros c q Hq. rewrite F2 in Hq. destruct (N.eqb_spec c (p_code p)); [subst; auto|]. eapply S1; eauto. }
      destruct (IH o2 W2 S2 Fr) as (o' & E & A1 & A2 & A3 & A4 & A5). exists o'. split; auto. split; auto. split; auto.
      assert (H12 : same_header o1 o2).
      { unfold o2. destruct (default_of uuid (p_code p)); [|apply same_header_refl].
        pose proof (set_data_meta o1 (p_code p) l) as M. cbv zeta in M. unfold same_header. tauto. }
      split. { eapply same_header_trans; [|exact A3]. eapply same_header_trans; [|exact H12]. repeat split; auto. }
      split.
      + intros c Hc. rewrite A4, F2, D by auto. cbn [hget]. unfold def_if. cbn [hkeys map fst existsb].
        fold (hkeys r). destruct (N.eqb_spec c (p_code p)) as [->|Ne].
        * cbn [orb]. destruct (object_find_property o (p_code p)) as [q|]; cbn [orelse option_map];
          (destruct (existsb _ (hkeys r)); auto; destruct (default_of uuid (p_code p)); reflexivity).
        * cbn [orb]. destruct (object_find_property o c); reflexivity.
      + intros c. rewrite A5, strip_orelse, F2. cbn [hget].
        assert (Y : strip (if c =? p_code p then option_map (set_opt (default_of uuid c)) (object_find_property o1 c) else object_find_property o1 c) = strip (object_find_property o1 c)).
        { destruct (c =? p_code p); auto. apply strip_set_opt. }
        rewrite Y. unfold strip at 1. rewrite G. fold (strip (match object_find_property o c with Some q => Some q | None => if c =? p_code p then Some p else None end)).
        rewrite <- strip_orelse. destruct (object_find_property o c); cbn [orelse]; auto. destruct (c =? p_code p); auto.
  Qed.

  (** add_standard_properties of a database made of table entries. *)
  Definition class_rows (cs : list db_class) (code : N) : list db_row :=
    match find_class cs code with Some c => c_rows c | None => [] end.
  Definition has_row (rows : list db_row) (c : N) : bool := match first_row rows c with Some _ => true | None => false end.

  Lemma entry_keys c o k : std_entry c o -> existsb (N.eqb k) (hkeys (o_props o)) = has_row (c_rows c) k.
  Proof.
    intros S. unfold has_row. pose proof (se_strip _ _ S k) as H. unfold object_find_property in H.
    destruct (hget (o_props o) k) eqn:E.
    - destruct (first_row (c_rows c) k); [|discriminate]. apply existsb_eqb. eapply hget_some_key; eauto.
    - destruct (first_row (c_rows c) k); [discriminate|]. destruct (existsb _ _) eqn:X; auto.
      apply existsb_eqb in X. apply hget_none in E. tauto.
  Qed.

  Lemma add_standard_spec cs db uuid o code : forallb class_ok cs = true -> Forall2 std_entry cs db ->
    length uuid = 16%nat -> octets uuid -> obj_ok o -> std_keys o ->
    exists o', object_add_standard_properties db uuid o code =
      Ret (o', match find_class cs code with Some _ => true | None => false end) /\
    obj_ok o' /\ std_keys o' /\ o_codes o' = o_codes o /\ o_name o' = o_name o /\
    o_class_name o' = match find_class cs code with Some c => c_name c | None => o_class_name o end /\
    (forall c, is_map_code c = false -> object_find_property o' c =
       (if has_row (class_rows cs code) c then option_map (set_opt (default_of uuid c)) else (fun x => x))
         (orelse (object_find_property o c) (option_map standard_property (first_row (class_rows cs code) c)))) /\
    (forall c, strip (object_find_property o' c) =
       strip (orelse (object_find_property o c) (option_map standard_property (first_row (class_rows cs code) c)))).
  Proof.
    intros Hc Hd Lu Hu W S. unfold object_add_standard_properties.
    pose proof (db_find_spec cs db (N.land code 0xFFFF00) Hc Hd) as X. rewrite find_class_land in X. unfold class_rows.
    destruct (find_class cs code) as [c|], (db_find_object db (N.land code 0xFFFF00)) as [std|]; try tauto.
    - destruct X as [E Ok]. set (o0 := object_set_class_name o (o_class_name std)).
      assert (W0 : obj_ok o0) by (eapply obj_ok_props; [|exact W]; reflexivity).
      destruct (loop_spec uuid (o_props std) Lu Hu o0 W0 S) as (o' & L & A1 & A2 & (A3 & A4 & A5 & _) & A6 & A7).
      { apply Forall_forall. intros [k p] I. cbn [fst snd]. destruct (se_ok _ _ E) as [[W1 W2] Fr Q].
        pose proof (W2 k p I) as [Hk _]. pose proof (in_hget _ _ _ W1 I) as Hg. split; [eapply Q; exact Hg|]. split; auto.
        pose proof (se_strip _ _ E k) as St. unfold object_find_property in St. rewrite Hg in St.
        destruct (first_row (c_rows c) k) as [r|] eqn:R; [|discriminate].
        apply find_some in R as [R1 R2]. unfold class_ok in Ok. apply andb_prop in Ok as [_ Ok]. rewrite forallb_forall in Ok.
        apply Ok in R1. unfold row_ok in R1. lia. }
      rewrite L. cbn [obind]. exists o'. split; auto. split; auto. split; auto. split; [exact A3|]. split; [exact A4|].
      split; [rewrite A5; exact (se_name _ _ E)|]. split.
      + intros k Hk. rewrite A6 by auto. unfold def_if. rewrite (entry_keys c) by auto.
        fold (object_find_property std k). rewrite (se_find _ _ E) by auto. destruct (has_row (c_rows c) k); reflexivity.
      + intros k. rewrite A7, !strip_orelse. f_equal. fold (object_find_property std k). apply (se_strip _ _ E).
    - exists o. split; auto. split; auto. split; auto. split; auto. split; auto. split; auto.
      assert (Y : forall x : option prop, orelse x None = x) by (destruct x; auto).
      split; intros; cbn [first_row find option_map]; rewrite Y; auto.
  Qed.

  (** A new device (also: a node profile, a remote object). *)
  Definition dev_rows (cs : list db_class) (code : N) : list db_row := class_rows cs 0 ++ class_rows cs code.
  Definition dev_uuid (cs : list db_class) (u1 u2 : list N) (code c : N) : list N :=
    if has_row (class_rows cs code) c then u2 else u1.
  Lemma first_row_app a b c : first_row (a ++ b) c = match first_row a c with Some r => Some r | None => first_row b c end.
  Proof. unfold first_row. induction a as [|r a IH]; auto. cbn. destruct (r_code r =? c); auto. Qed.

  Lemma with_standard_spec cs db u1 u2 o code : forallb class_ok cs = true -> Forall2 std_entry cs db ->
    length u1 = 16%nat -> octets u1 -> length u2 = 16%nat -> octets u2 ->
    obj_ok o -> o_props o = [] ->
    exists o', with_standard_properties db u1 u2 o code = Ret o' /\
      obj_ok o' /\ std_keys o' /\ o_codes o' = o_codes o /\ o_name o' = o_name o /\
      (forall c, is_map_code c = false -> object_find_property o' c =
        option_map (fun r => set_opt (default_of (dev_uuid cs u1 u2 code c) c) (standard_property r)) (first_row (dev_rows cs code) c)) /\
      (forall c, strip (object_find_property o' c) = strip (option_map standard_property (first_row (dev_rows cs code) c))).
  Proof.
    intros Hc Hd L1 H1 L2 H2 W Ep. unfold with_standard_properties.
    assert (N0 : forall c, object_find_property o c = None) by (intro c; unfold object_find_property; rewrite Ep; reflexivity).
    assert (S : std_keys o) by (intros c p Hp; rewrite N0 in Hp; discriminate).
    destruct (add_standard_spec cs db u1 o SUPER_OBJECT_CODE Hc Hd L1 H1 W S) as (o1 & E1 & W1 & S1 & B1 & B2 & _ & B3 & B4).
    rewrite E1. cbn [obind fst].
    destruct (add_standard_spec cs db u2 o1 code Hc Hd L2 H2 W1 S1) as (o2 & E2 & W2 & S2 & D1 & D2 & _ & D3 & D4).
    rewrite E2. cbn [obind fst]. exists o2. split; auto. split; auto. split; auto. split; [congruence|]. split; [congruence|].
    unfold SUPER_OBJECT_CODE in *. unfold dev_rows, dev_uuid, has_row in *. split.
    - intros c Hm. rewrite D3, B3, N0 by auto. cbn [orelse]. rewrite first_row_app.
      destruct (first_row (class_rows cs 0) c) as [r|]; cbn [option_map orelse].
      + destruct (first_row (class_rows cs code) c) as [r'|]; cbn [option_map]; auto.
        f_equal. unfold set_opt, default_of. 
        repeat (match goal with |- context [c =? ?k] => destruct (c =? k); [reflexivity|] end). reflexivity.
      + destruct (first_row (class_rows cs code) c) as [r'|]; reflexivity.
    - intros c. rewrite D4, strip_orelse, B4, N0. cbn [orelse]. rewrite <- strip_orelse, first_row_app.
      destruct (first_row (class_rows cs 0) c); reflexivity.
  Qed.
End S.
