(** Properties C24 (objects without the property) and C123 (accesses which the
    standard requires). *)
From Verif Require Import Base HMap ModelCodec ModelMessages DbTable MakerTable ModelObject SpecWire SpecObject
  ProofsCodec ProofsCodec2 PropertiesCodec ProofsObject ProofsObject2 ProofsObject3 PropertiesObject PropertiesDb.

(* ------------------------------------------------------------------ *)
(** C24 for objects that lack the property: the setters say so and change
    nothing, the getters have no value; the getter of the manufacturer code
    panics. *)
Theorem C24_missing : forall (P : Profile) o,
  (forall s, object_has_property o 0x80 = false -> object_set_operating_status o s = (o, false) /\ object_operating_status o = None) /\
  (forall l, object_has_property o 0x81 = false -> object_set_installation_location o l = (o, false) /\ object_installation_location o = None) /\
  (forall s, object_has_property o 0x88 = false -> object_set_fault_status o s = (o, false) /\ object_fault_status o = None) /\
  (forall v, object_has_property o 0x82 = false -> object_set_standard_version o v = (o, false) /\ object_standard_version o = None) /\
  (forall id, object_has_property o 0x83 = false -> object_set_id o id = (o, false) /\ object_id o = None) /\
  (forall c, object_has_property o 0x8A = false -> c < 2 ^ 32 -> object_set_manufacturer_code o c = Ret (o, false) /\ object_manufacturer_code o = Panic).
Proof.
  intros P o.
  assert (X : forall c, object_has_property o c = false -> object_find_property o c = None /\ forall d, object_set_property_data o c d = (o, false)).
  { intros c H. unfold object_has_property in H. destruct (object_find_property o c) eqn:E; [discriminate|]. split; [reflexivity|].
    intros d. unfold object_set_property_data. rewrite E. reflexivity. }
  repeat match goal with |- _ /\ _ => split end; intros v H; try (intros Hc); destruct (X _ H) as [F S].
  - split; [apply S|]. unfold object_operating_status, object_property_data_as_byte. rewrite F. reflexivity.
  - split; [apply S|]. unfold object_installation_location, object_property_data_as_byte. rewrite F. reflexivity.
  - split; [apply S|]. unfold object_fault_status, object_property_data_as_byte. rewrite F. reflexivity.
  - split; [apply S|]. unfold object_standard_version, object_property_data_as_byte. rewrite F. reflexivity.
  - split; [apply S|]. unfold object_id, object_property_data. rewrite F. reflexivity.
  - split.
    + destruct (C11_int_codec P v 3 Hc ltac:(lia)) as (bs & Eb & _). unfold object_set_manufacturer_code, object_set_property_int. rewrite Eb. cbn [obind]. rewrite S. reflexivity.
    + unfold object_manufacturer_code. rewrite F. reflexivity.
Qed.
Print Assumptions C24_missing.
Example C24_missing_case : object_has_property (object_new 0) 0x80 = false /\ object_operating_status (object_new 0) = None /\
  object_manufacturer_code (object_new 0) = Panic.
Proof. repeat split. Qed.

(* ------------------------------------------------------------------ *)
(** ** C123: Which accesses the standard requires *)

(** The device says of property [k] which of the three accesses are required, by
    these words of the table. *)
Definition must (s : string) : Prop := s = "required"%string.
Definition says_required (o : object) (k : N) (g s a : string) : Prop :=
  exists p, object_find_property o k = Some p /\
    (prop_is_read_required p = true <-> must g) /\ (prop_is_write_required p = true <-> must s) /\ (prop_is_announce_required p = true <-> must a).
Lemma required_word w : rule_required (property_string_to_attribute w) = true <-> must w.
Proof.
  unfold property_string_to_attribute, must. destruct (String.eqb_spec w "required") as [->|N1]; [split; auto|].
  destruct (String.eqb w "optional"); cbn; split; [discriminate|congruence|discriminate|congruence].
Qed.

(** The words that count are those of the first row with the code, the super class
    before the class. *)
Theorem C123_first_row : forall (P : Profile) (HO : HashOrder) seed db u1 u2 s code o l1 f l2,
  standard_database seed = Ret db -> uuid_ok u1 -> uuid_ok u2 -> device_object db u1 u2 s code = Ret o ->
  class_rows db_table 0 ++ class_rows db_table code = l1 ++ f :: l2 -> (forall r, In r l1 -> r_code r <> r_code f) ->
  says_required o (r_code f) (r_get f) (r_set f) (r_anno f).
Proof.
  intros P HO seed db u1 u2 s code o l1 f l2 E U1 U2 D Er Nf.
  assert (Ff : first_row (dev_rows db_table code) (r_code f) = Some f).
  { unfold dev_rows. rewrite Er. clear Er. unfold first_row. induction l1 as [|x l1 IH]; cbn [app find].
    - rewrite N.eqb_refl. reflexivity.
    - destruct (N.eqb_spec (r_code x) (r_code f)) as [Z|]; [destruct (Nf x (or_introl eq_refl) Z)|]. apply IH. intros r I. apply Nf. right. exact I. }
  destruct (device_spec seed db u1 u2 s code E U1 U2) as (o' & D' & _ & _ & _ & _ & G).
  rewrite D in D'. inversion D'; subst o'. clear D'. specialize (G (r_code f)). rewrite Ff in G. cbn [option_map] in G.
  destruct (object_find_property o (r_code f)) as [p|] eqn:Fp; [|discriminate].
  assert (SA : same_attributes p (standard_property f)) by (apply same_strip; cbn in G; congruence).
  destruct SA as (_ & _ & _ & _ & R1 & R2 & R3 & _).
  pose proof (standard_property_fields f) as SF. cbv zeta in SF. destruct SF as (_ & _ & _ & _ & S1 & S2 & S3).
  rewrite S1 in R1. rewrite S2 in R2. rewrite S3 in R3. exists p. split; [exact Fp|].
  unfold prop_is_read_required, prop_is_write_required, prop_is_announce_required. rewrite R1, R2, R3, !required_word. tauto.
Qed.
Print Assumptions C123_first_row.

(** A row of a class need not be the first: the standard requires that a lamp can be
    switched (0x80), the device says it need not be writable. *)
Theorem C123_required_refuted : forall (P : Profile) (HO : HashOrder) seed db u1 u2 s,
  standard_database seed = Ret db -> uuid_ok u1 -> uuid_ok u2 ->
  exists code o r p, device_object db u1 u2 s code = Ret o /\ rows_of code r /\ code = 0x029101 /\ r_code r = 0x80 /\ must (r_set r) /\
    object_find_property o 0x80 = Some p /\ prop_is_write_required p = false.
Proof.
  intros P HO seed db u1 u2 s E U1 U2.
  destruct (first_row (class_rows db_table 0x029101) 0x80) as [r|] eqn:Fr; [|vm_compute in Fr; discriminate].
  assert (Hf : exists l1 f l2, class_rows db_table 0 ++ class_rows db_table 0x029101 = l1 ++ f :: l2 /\ forallb (fun x => negb (r_code x =? 0x80)) l1 = true /\
    r_code f = 0x80 /\ r_set f <> "required"%string).
  { vm_compute. exists [], (hd (DbRow 0 "" "" 0 "" "" "" []) (class_rows db_table 0)), (tl (class_rows db_table 0) ++ class_rows db_table 0x029101). vm_compute.
    split; [reflexivity|]. split; [reflexivity|]. split; [reflexivity|discriminate]. }
  destruct Hf as (l1 & f & l2 & El & Fl & Ef & Nf).
  destruct (device_spec seed db u1 u2 s 0x029101 E U1 U2) as (o & D & _). exists 0x029101, o, r.
  destruct (C123_first_row P HO seed db u1 u2 s 0x029101 o l1 f l2 E U1 U2 D El) as (p & Fp & _ & W & _).
  { intros x I Z. rewrite forallb_forall in Fl. specialize (Fl x I). rewrite Z, Ef in Fl. discriminate. }
  rewrite Ef in Fp. exists p. split; [exact D|]. apply find_some in Fr as Fr'. destruct Fr' as [Ir Er]. apply N.eqb_eq in Er.
  split; [apply class_rows_in, Ir|]. split; [reflexivity|]. split; [exact Er|]. split.
  - vm_compute in Fr. inversion Fr. reflexivity.
  - split; [exact Fp|]. destruct (prop_is_write_required p); [|reflexivity]. destruct (Nf (proj1 W eq_refl)).
Qed.
Print Assumptions C123_required_refuted.

(** Strongest true version: the words of every row of every class count, except for
    these (class group, class, property) triples. *)
Definition overruled : list (N * N * N) :=
  [(0x00, 0x00, 0x93); (0x0E, 0xF0, 0x83); (0x0E, 0xF0, 0x88); (0x03, 0xCE, 0xCA); (0x02, 0x7E, 0x89); (0x02, 0x7E, 0x8C); (0x02, 0x91, 0x80);
   (0x02, 0x6B, 0xB0); (0x02, 0x6B, 0xB2); (0x02, 0x6B, 0xC0); (0x02, 0x90, 0x80); (0x02, 0x7D, 0x89); (0x02, 0x7D, 0x8C); (0x02, 0x7D, 0x97);
   (0x02, 0x7D, 0x98); (0x02, 0x7D, 0xC8); (0x02, 0x7D, 0xC9); (0x02, 0x7D, 0xDB); (0x01, 0x56, 0x80); (0x02, 0x73, 0xB2); (0x03, 0xD4, 0xCA);
   (0x02, 0xA7, 0x8C); (0x02, 0xA7, 0x8D); (0x02, 0x7C, 0xC2); (0x02, 0x7C, 0xCB); (0x02, 0x7C, 0xD0); (0x01, 0x30, 0x80); (0x01, 0x30, 0x8F);
   (0x01, 0x30, 0xA0); (0x01, 0x30, 0xBB); (0x02, 0x63, 0x89); (0x02, 0x79, 0x83); (0x02, 0x79, 0x89); (0x02, 0x79, 0x8C); (0x02, 0x79, 0xD0);
   (0x02, 0x79, 0xE8); (0x02, 0x7B, 0x80); (0x02, 0x60, 0x89); (0x01, 0x33, 0x80); (0x01, 0x34, 0x80); (0x02, 0xA5, 0x83); (0x02, 0xA5, 0x89);
   (0x02, 0xA5, 0x8C); (0x02, 0xA5, 0x97); (0x02, 0xA5, 0x98); (0x01, 0x35, 0x80)].
Definition mustb (s : string) : bool := String.eqb s "required".
Lemma mustb_spec s : mustb s = true <-> must s.
Proof. apply String.eqb_eq. Qed.
Definition agrees (f r : db_row) : bool :=
  Bool.eqb (mustb (r_get f)) (mustb (r_get r)) && Bool.eqb (mustb (r_set f)) (mustb (r_set r)) && Bool.eqb (mustb (r_anno f)) (mustb (r_anno r)).
Definition required_check (sup : list db_row) (c : db_class) (r : db_row) : bool :=
  match first_row (sup ++ c_rows c) (r_code r) with
  | Some f => agrees f r || existsb (triple_eqb (c_grp c, c_cls c, r_code r)) overruled
  | None => false
  end.
Lemma table_required : forallb (fun c => forallb (required_check (class_rows db_table 0) c) (c_rows c)) db_table = true.
Proof. vm_compute. reflexivity. Qed.
Lemma agrees_same f r : agrees f r = true <-> (must (r_get f) <-> must (r_get r)) /\ (must (r_set f) <-> must (r_set r)) /\ (must (r_anno f) <-> must (r_anno r)).
Proof.
  unfold agrees. rewrite !andb_true_iff, !Bool.eqb_true_iff, <- !mustb_spec.
  destruct (mustb (r_get f)), (mustb (r_get r)), (mustb (r_set f)), (mustb (r_set r)), (mustb (r_anno f)), (mustb (r_anno r)); intuition congruence.
Qed.
Lemma first_split rows k f : first_row rows k = Some f -> r_code f = k /\ exists l1 l2, rows = l1 ++ f :: l2 /\ forall r, In r l1 -> r_code r <> r_code f.
Proof.
  unfold first_row. induction rows as [|x rows IH]; cbn [find]; [discriminate|]. destruct (N.eqb_spec (r_code x) k) as [Z|Z].
  - intros [= ->]. split; [exact Z|]. exists [], rows. split; [reflexivity|intros r []].
  - intros F. destruct (IH F) as (Ek & l1 & l2 & -> & N). split; [exact Ek|]. exists (x :: l1), l2. split; [reflexivity|]. intros r [<-|I]; [congruence|apply N, I].
Qed.
Theorem C123_required_partial : forall (P : Profile) (HO : HashOrder) seed db u1 u2 s code c r o,
  standard_database seed = Ret db -> uuid_ok u1 -> uuid_ok u2 ->
  device_object db u1 u2 s code = Ret o -> lists_class code c -> In r (c_rows c) ->
  ~ In (c_grp c, c_cls c, r_code r) overruled -> says_required o (r_code r) (r_get r) (r_set r) (r_anno r).
Proof.
  intros P HO seed db u1 u2 s code c r o E U1 U2 D L I N.
  pose proof table_required as T. rewrite forallb_forall in T. specialize (T c (proj1 L)). rewrite forallb_forall in T. specialize (T r I).
  unfold required_check in T. pose proof (proj2 (find_class_some code c) L) as Fc.
  destruct (first_row (class_rows db_table 0 ++ c_rows c) (r_code r)) as [f|] eqn:Ff; [|discriminate].
  assert (X : existsb (triple_eqb (c_grp c, c_cls c, r_code r)) overruled = false).
  { destruct (existsb _ overruled) eqn:Ex; auto. apply existsb_exists in Ex as (t & It & Et). apply triple_eqb_spec in Et. subst t. contradiction. }
  rewrite X, orb_false_r in T. apply agrees_same in T as (T1 & T2 & T3).
  assert (Ec : class_rows db_table code = c_rows c) by (unfold class_rows; rewrite Fc; reflexivity). rewrite <- Ec in Ff.
  destruct (first_split _ _ _ Ff) as (Ek & l1 & l2 & Es & Nf).
  destruct (C123_first_row P HO seed db u1 u2 s code o l1 f l2 E U1 U2 D Es Nf) as (p & Fp & A & B & C). rewrite Ek in Fp. exists p. rewrite A, B, C. tauto.
Qed.
Print Assumptions C123_required_partial.
(** Every exception is real: some row with that code does not count. *)
Definition overruled_check (sup : list db_row) (t : N * N * N) : bool :=
  existsb (fun c => (c_grp c =? fst (fst t)) && (c_cls c =? snd (fst t)) &&
    existsb (fun r => (r_code r =? snd t) && match first_row (sup ++ c_rows c) (r_code r) with Some f => negb (agrees f r) | None => false end) (c_rows c)) db_table.
Lemma overruled_real : forallb (overruled_check (class_rows db_table 0)) overruled = true.
Proof. vm_compute. reflexivity. Qed.
Theorem C123_exceptions_partial : forall (P : Profile) (HO : HashOrder) seed db u1 u2 s code g k x o,
  standard_database seed = Ret db -> uuid_ok u1 -> uuid_ok u2 ->
  device_object db u1 u2 s code = Ret o -> In (g, k, x) overruled -> code / 2 ^ 16 mod 2 ^ 8 = g -> code / 2 ^ 8 mod 2 ^ 8 = k ->
  exists c r, lists_class code c /\ In r (c_rows c) /\ r_code r = x /\ ~ says_required o x (r_get r) (r_set r) (r_anno r).
Proof.
  intros P HO seed db u1 u2 s code g k x o E U1 U2 D I Hg Hk.
  pose proof overruled_real as T. rewrite forallb_forall in T. specialize (T _ I). unfold overruled_check in T. cbn [fst snd] in T.
  apply existsb_exists in T as (c & Ic & T). rewrite !andb_true_iff, !N.eqb_eq in T. destruct T as [[T1 T2] T].
  apply existsb_exists in T as (r & Ir & T). rewrite andb_true_iff, N.eqb_eq in T. destruct T as [T3 T].
  assert (L : lists_class code c) by (split; [auto|split; congruence]). pose proof (proj2 (find_class_some code c) L) as Fc.
  exists c, r. split; auto. split; auto. split; auto.
  destruct (first_row (class_rows db_table 0 ++ c_rows c) (r_code r)) as [f|] eqn:Ff; [|discriminate].
  assert (Ec : class_rows db_table code = c_rows c) by (unfold class_rows; rewrite Fc; reflexivity). rewrite <- Ec in Ff.
  destruct (first_split _ _ _ Ff) as (Ek & l1 & l2 & Es & Nf).
  destruct (C123_first_row P HO seed db u1 u2 s code o l1 f l2 E U1 U2 D Es Nf) as (p & Fp & A & B & C).
  intros (p' & Fp' & A' & B' & C'). assert (p' = p) as -> by congruence.
  apply negb_true_iff in T. assert (T' : agrees f r = true) by (apply agrees_same; tauto). congruence.
Qed.
Print Assumptions C123_exceptions_partial.
Example C123_case : exists c, lists_class 0x013001 c /\ exists r, In r (c_rows c) /\ r_code r = 0xB0 /\ must (r_get r) /\ must (r_set r) /\ must (r_anno r) /\
  ~ In (c_grp c, c_cls c, r_code r) overruled.
Proof.
  destruct (find_class db_table 0x013001) as [c|] eqn:E; [|vm_compute in E; discriminate].
  exists c. split; [apply find_class_some; auto|].
  assert (X : exists r, first_row (c_rows c) 0xB0 = Some r /\ mustb (r_get r) && mustb (r_set r) && mustb (r_anno r) && negb (existsb (triple_eqb (c_grp c, c_cls c, r_code r)) overruled) = true).
  { vm_compute in E. inversion E. eexists. split; vm_compute; reflexivity. }
  destruct X as (r & Fr & T). exists r. apply find_some in Fr as [Ir Er]. apply N.eqb_eq in Er. rewrite !andb_true_iff, !mustb_spec, negb_true_iff in T. destruct T as [[[A B] C] X].
  repeat (split; [assumption|]). intros I. assert (Y : existsb (triple_eqb (c_grp c, c_cls c, r_code r)) overruled = true) by (apply existsb_exists; eexists; split; [exact I|apply triple_eqb_spec; reflexivity]). congruence.
Qed.

(* ------------------------------------------------------------------ *)
(** C28: what a new device tells about a property. *)
Lemma enum_insert_get m k e v : hget (enum_insert m k e) v = if v =? k then Some e else hget m v.
Proof.
  unfold enum_insert. destruct (hget m k) as [x|] eqn:E; [rewrite hget_hput, E; reflexivity|].
  induction m as [|[a y] m IH]; [reflexivity|]. cbn [hget app] in *. destruct (N.eqb_spec k a) as [->|Ne]; [discriminate|].
  rewrite IH by exact E. destruct (N.eqb_spec v a) as [->|]; [|reflexivity]. destruct (N.eqb_spec a k); [congruence|reflexivity].
Qed.
(** The last of the enumerated values with the code counts. *)
Lemma enums_get l : forall p v, prop_find_enum (fold_left prop_add_enum l p) v =
  match find (fun e => pe_code e =? v) (rev l) with Some e => Some e | None => prop_find_enum p v end.
Proof.
  induction l as [|e l IH] using rev_ind; intros p v; [reflexivity|]. rewrite fold_left_app, rev_app_distr. cbn [fold_left rev app find].
  unfold prop_find_enum at 1. cbn [prop_add_enum prop_with_enums p_enums]. rewrite enum_insert_get. rewrite (N.eqb_sym v). destruct (pe_code e =? v); [reflexivity|]. apply IH.
Qed.
(** Every property of a new device tells what the standard lists for it: the row of the
    super class if that has the property, and else the row of the class. *)
Theorem C28_as_listed : forall (P : Profile) (HO : HashOrder) seed db u1 u2 s code o k p,
  standard_database seed = Ret db -> uuid_ok u1 -> uuid_ok u2 -> device_object db u1 u2 s code = Ret o ->
  object_find_property o k = Some p ->
  exists r, r_code r = k /\ (super_rows r \/ rows_of code r /\ (forall r', super_rows r' -> r_code r' <> k)) /\
    p_code p = k /\ p_name p = r_name r /\ p_typ p = r_typ r /\ p_cap p = r_cap r /\
    (forall v e, prop_find_enum p v = Some e -> pe_code e = v /\ In (v, pe_name e, pe_desc e) (r_enums r)) /\
    (forall v n d, In (v, n, d) (r_enums r) -> exists e, prop_find_enum p v = Some e).
Proof.
  intros P HO seed db u1 u2 s code o k p E U1 U2 D F. destruct (device_spec seed db u1 u2 s code E U1 U2) as (o' & D' & _ & _ & _ & _ & G).
  rewrite D in D'. inversion D'; subst o'. specialize (G k). rewrite F in G. destruct (first_row (dev_rows db_table code) k) as [r|] eqn:R; [|discriminate].
  assert (S : same_attributes p (standard_property r)) by (apply same_strip; cbn in G; congruence).
  destruct S as (A1 & A2 & A3 & A4 & _ & _ & _ & A5). pose proof (standard_property_fields r) as SF. cbv zeta in SF. destruct SF as (_ & S2 & S3 & S4 & _).
  pose proof (find_some _ _ R) as [I Ek]. apply N.eqb_eq in Ek. exists r. split; auto. split.
  { unfold dev_rows in *. rewrite first_row_app in R. destruct (first_row (class_rows db_table 0) k) as [x|] eqn:R0.
    - inversion R; subst x. left. apply find_some in R0 as [I0 _]. apply class_rows_in in I0. exact I0.
    - right. apply find_some in R as [I1 _]. apply class_rows_in in I1. split; auto. intros r' Hr' Er'.
      assert (X : In r' (class_rows db_table 0)) by (apply class_rows_in; exact Hr'). pose proof (find_none _ _ R0 r' X) as Y. cbn in Y. apply N.eqb_neq in Y. contradiction. }
  split; [rewrite A1, standard_property_code; auto|]. split; [congruence|]. split; [congruence|]. split; [congruence|].
  assert (En : forall v, prop_find_enum p v = find (fun e => pe_code e =? v) (rev (map create_standard_property_enum (r_enums r)))).
  { intro v. transitivity (prop_find_enum (standard_property r) v); [unfold prop_find_enum; rewrite A5; reflexivity|]. unfold standard_property. cbv zeta. rewrite enums_get. destruct (find _ _); reflexivity. }
  split.
  - intros v e H. rewrite En in H. apply find_some in H as [H Ev]. apply N.eqb_eq in Ev. split; auto. apply in_rev in H. apply in_map_iff in H as ([[c n] d] & <- & H). change (c = v) in Ev. subst c. exact H.
  - intros v n d H. rewrite En. destruct (find _ _) as [e|] eqn:Ef; [eauto|]. exfalso.
    pose proof (find_none _ _ Ef (PEnum v n d)) as X. cbn in X. rewrite N.eqb_refl in X. discriminate X. apply -> in_rev. apply in_map_iff. exists (v, n, d). auto.
Qed.
Print Assumptions C28_as_listed.
(** The operating status of a lamp. *)
Example C28_as_listed_case :
  match ex_device 1 0x029101 with
  | Ret o => match object_find_property o 0x80 with
             | Some p => (p_cap p =? 1) && (match prop_find_enum p 0x30 with Some e => pe_code e =? 0x30 | None => false end)
                         && (match prop_find_enum p 0x32 with Some _ => false | None => true end)
             | None => false
             end
  | Panic => false
  end = true.
Proof. vm_compute. reflexivity. Qed.
