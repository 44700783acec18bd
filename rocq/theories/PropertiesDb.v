(** Properties C27-C31 (standard database, new devices, manufacturers). *)
From Verif Require Import Base HMap ModelCodec ModelMessages DbTable MakerTable ModelObject SpecWire SpecObject
  ProofsCodec ProofsCodec2 PropertiesCodec ProofsObject ProofsObject2 ProofsObject3 PropertiesObject.

(* ------------------------------------------------------------------ *)
(** Reading of the class table. [lists_class code c]: [c] is the table's class
    with the class group and class octets of [code]. *)
Definition lists_class (code : N) (c : db_class) : Prop :=
  In c db_table /\ c_grp c = code / 2 ^ 16 mod 2 ^ 8 /\ c_cls c = code / 2 ^ 8 mod 2 ^ 8.
Definition unlisted (code : N) : Prop := forall c, ~ lists_class code c.
Definition super_rows (r : db_row) : Prop := exists c, lists_class 0 c /\ In r (c_rows c).
Definition rows_of (code : N) (r : db_row) : Prop := exists c, lists_class code c /\ In r (c_rows c).

Lemma class_in_ok c : In c db_table -> class_ok c = true.
Proof. intro I. pose proof table_ok as H. rewrite forallb_forall in H. auto. Qed.
Lemma lists_class_code code c : lists_class code c <-> In c db_table /\ class_code c = (code / 256) mod 65536 * 256.
Proof.
  unfold lists_class, class_code. change (2 ^ 16) with 65536. change (2 ^ 8) with 256.
  split; intros [I H]; (split; [exact I|]).
  - destruct H as [-> ->]. lia.
  - pose proof (class_in_ok c I) as O. unfold class_ok in O. apply andb_prop in O as [O _]. lia.
Qed.
Lemma find_class_some code c : find_class db_table code = Some c <-> lists_class code c.
Proof.
  rewrite lists_class_code. unfold find_class. split.
  - intro F. apply find_some in F as [I E]. apply N.eqb_eq in E. auto.
  - intros [I E]. pose proof table_nodup as ND. revert I ND. generalize db_table.
    induction l as [|d l IH]; intros I ND; [destruct I|]. cbn [map] in ND. inversion ND; subst. cbn [find].
    destruct I as [-> | I].
    + rewrite E, N.eqb_refl. reflexivity.
    + destruct (N.eqb_spec (class_code d) ((code / 256) mod 65536 * 256)); auto.
      exfalso. apply H1. rewrite e, <- E. apply in_map. exact I.
Qed.
Lemma find_class_none code : find_class db_table code = None <-> unlisted code.
Proof.
  split.
  - intros F c L. apply find_class_some in L. congruence.
  - intro U. destruct (find_class db_table code) as [c|] eqn:E; auto. apply find_class_some in E. destruct (U c E).
Qed.
Lemma lists_class_unique code c d : lists_class code c -> lists_class code d -> c = d.
Proof. rewrite <- !find_class_some. congruence. Qed.
Lemma class_rows_in code r : In r (class_rows db_table code) <-> rows_of code r.
Proof.
  unfold class_rows, rows_of. destruct (find_class db_table code) as [c|] eqn:E.
  - apply find_class_some in E. split; [eauto|]. intros (d & L & I). rewrite (lists_class_unique code c d); auto.
  - apply find_class_none in E. split; [intros []|]. intros (d & L & _). destruct (E d L).
Qed.
Lemma first_row_none rows c : first_row rows c = None <-> forall r, In r rows -> r_code r <> c.
Proof.
  unfold first_row. split.
  - intros F r I E. apply (find_none _ _ F) in I. lia.
  - intro H. destruct (find _ rows) as [r|] eqn:F; auto. apply find_some in F as [I E]. apply N.eqb_eq in E. destruct (H r I E).
Qed.
Lemma database_spec {P : Profile} {HO : HashOrder} seed :
  exists db, standard_database seed = Ret db /\ Forall2 std_entry db_table db.
Proof. apply standard_objects_spec. apply table_ok. Qed.

(* ------------------------------------------------------------------ *)
(** C27: lookup in the standard database. *)
Theorem C27_table : (forall c, In c db_table -> c_grp c < 2 ^ 8 /\ c_cls c < 2 ^ 8 /\ forall r, In r (c_rows c) -> 0x80 <= r_code r /\ r_code r < 2 ^ 8) /\
  (forall code c d, lists_class code c -> lists_class code d -> c = d) /\
  NoDup (map (fun c => (c_grp c, c_cls c)) db_table).
Proof.
  split; [|split].
  - intros c I. apply class_in_ok in I. unfold class_ok in I. apply andb_prop in I as [I R]. change (2 ^ 8) with 256.
    split; [lia|]. split; [lia|]. intros r Ir. rewrite forallb_forall in R. apply R in Ir. unfold row_ok in Ir. lia.
  - apply lists_class_unique.
  - pose proof table_nodup as ND. revert ND. generalize db_table. induction l as [|c l IH]; cbn; intro H; [constructor|].
    inversion H; subst. constructor; auto. intro I. apply H2. apply in_map_iff in I as (d & E & I).
    inversion E as [[E1 E2]]. apply in_map_iff. exists d. unfold class_code. rewrite E1, E2. auto.
Qed.
Print Assumptions C27_table.
Theorem C27_lookup : forall (P : Profile) (HO : HashOrder) seed,
  exists db, standard_database seed = Ret db /\ forall code,
    (unlisted code -> db_find_object db code = None) /\
    (forall c, lists_class code c -> exists o, db_find_object db code = Some o /\
       o_codes o = (c_grp c, c_cls c, 0) /\ object_code o = c_grp c * 2 ^ 16 + c_cls c * 2 ^ 8 /\ o_class_name o = c_name c /\
       forall k, object_has_property o k = true <-> exists r, In r (c_rows c) /\ r_code r = k).
Proof.
  intros P HO seed. destruct (database_spec seed) as (db & E & F). exists db. split; auto. intro code.
  pose proof (db_find_spec db_table db code table_ok F) as X. split.
  - intro U. apply find_class_none in U. rewrite U in X. destruct (db_find_object db code); [destruct X|auto].
  - intros c L. apply find_class_some in L. rewrite L in X. destruct (db_find_object db code) as [o|]; [|destruct X].
    destruct X as [S Ok]. exists o. split; auto. split; [apply S|]. split; [rewrite (std_entry_code c o Ok S); reflexivity|].
    split; [apply S|]. intro k. pose proof (se_strip _ _ S k) as St. unfold object_has_property.
    destruct (object_find_property o k).
    + split; auto. intros _. destruct (first_row (c_rows c) k) as [r|] eqn:R; [|discriminate].
      apply find_some in R as [I Er]. apply N.eqb_eq in Er. eauto.
    + split; [discriminate|]. intros (r & I & Er). destruct (first_row (c_rows c) k) eqn:R; [discriminate|].
      destruct (proj1 (first_row_none _ _) R r I Er).
Qed.
Print Assumptions C27_lookup.
(** Two codes of the same class find the same entry. *)
Theorem C27_instance_ignored : forall (db : list object) code code',
  code / 2 ^ 8 mod 2 ^ 16 = code' / 2 ^ 8 mod 2 ^ 16 -> db_find_object db code = db_find_object db code'.
Proof.
  intros db code code' H. unfold db_find_object. rewrite !mask_class. change (2 ^ 8) with 256 in H. change (2 ^ 16) with 65536 in H.
  rewrite H. reflexivity.
Qed.
Print Assumptions C27_instance_ignored.
Example C27_case : (exists c, lists_class 0x029103 c /\ c_name c = "Mono functional lighting"%string) /\ unlisted 0x02FF01.
Proof.
  split.
  - destruct (find_class db_table 0x029103) as [c|] eqn:E; [|vm_compute in E; discriminate].
    exists c. split; [apply find_class_some; auto|]. vm_compute in E. inversion E. reflexivity.
  - apply find_class_none. vm_compute. reflexivity.
Qed.

(* ------------------------------------------------------------------ *)
(** C28: the properties of a new device. *)
Definition uuid_ok (u : list N) : Prop := length u = 16%nat /\ octets u.
Lemma device_spec {P : Profile} {HO : HashOrder} seed db u1 u2 s code :
  standard_database seed = Ret db -> uuid_ok u1 -> uuid_ok u2 ->
  exists o, device_object db u1 u2 s code = Ret o /\ obj_ok o /\ std_keys o /\
    o_codes o = o_codes (object_set_code (object_new s) code) /\
    (forall c, is_map_code c = false -> object_find_property o c =
      option_map (fun r => set_opt (default_of (dev_uuid db_table u1 u2 code c) c) (standard_property r)) (first_row (dev_rows db_table code) c)) /\
    (forall c, strip (object_find_property o c) = strip (option_map standard_property (first_row (dev_rows db_table code) c))).
Proof.
  intros E [L1 H1] [L2 H2]. destruct (database_spec seed) as (db' & E' & F). rewrite E in E'. inversion E'; subst db'.
  destruct (with_standard_spec db_table db u1 u2 (object_set_code (object_new s) code) code table_ok F L1 H1 L2 H2) as (o & A & B & C & D & _ & G & H).
  - eapply obj_ok_props; [|apply (obj_ok_new s)]. reflexivity.
  - reflexivity.
  - exists o. auto 10.
Qed.
Theorem C28_device_properties : forall (P : Profile) (HO : HashOrder) seed db u1 u2 s code,
  standard_database seed = Ret db -> uuid_ok u1 -> uuid_ok u2 -> code < 2 ^ 32 ->
  exists o, device_object db u1 u2 s code = Ret o /\ object_code o = code mod 2 ^ 24 /\
    (forall k, object_has_property o k = true <-> exists r, (super_rows r \/ rows_of code r) /\ r_code r = k) /\
    (unlisted code -> forall k, object_has_property o k = true <-> exists r, super_rows r /\ r_code r = k).
Proof.
  intros P HO seed db u1 u2 s code E U1 U2 Hc. destruct (device_spec seed db u1 u2 s code E U1 U2) as (o & A & B & C & D & _ & G).
  exists o. split; auto.
  split. { unfold object_code. rewrite D. apply (C15_object_code (object_new s) code Hc). }
  assert (X : forall k, object_has_property o k = true <-> exists r, (super_rows r \/ rows_of code r) /\ r_code r = k).
  { intro k. specialize (G k). unfold object_has_property, dev_rows in *. split.
    - intro H. destruct (object_find_property o k); [|discriminate].
      destruct (first_row (class_rows db_table 0 ++ class_rows db_table code) k) as [r|] eqn:F; [|discriminate].
      apply find_some in F as [I Er]. apply N.eqb_eq in Er. exists r. split; auto.
      apply in_app_or in I as [I|I]; apply class_rows_in in I; auto.
    - intros (r & H & Er). assert (I : In r (class_rows db_table 0 ++ class_rows db_table code)).
      { apply in_or_app. rewrite !class_rows_in. exact H. }
      destruct (first_row (class_rows db_table 0 ++ class_rows db_table code) k) eqn:F.
      + destruct (object_find_property o k); [auto|discriminate].
      + destruct (proj1 (first_row_none _ _) F r I Er). }
  split; auto. intros U k. rewrite X. split; intros (r & H & Er); exists r; (split; [|auto]).
  - destruct H as [H|(c & L & _)]; auto. destruct (U c L).
  - auto.
Qed.
Print Assumptions C28_device_properties.

(** Example data: a lamp, with two UUIDs. *)
Definition ex_u1 : list N := map N.of_nat (seq 1 16).
Definition ex_u2 : list N := map N.of_nat (seq 101 16).
Lemma ex_u1_ok : uuid_ok ex_u1.
Proof. split; [reflexivity|]. repeat constructor; unfold octet; cbn; lia. Qed.
Lemma ex_u2_ok : uuid_ok ex_u2.
Proof. split; [reflexivity|]. repeat constructor; unfold octet; cbn; lia. Qed.
(** As [device_object], straight from the table rows. *)
Definition ex_device (seed code : N) : outcome object :=
  let! db := standard_database (P := true) (HO := ex_order) (fun n => n) in
  device_object (P := true) (HO := ex_order) db ex_u1 ex_u2 seed code.
Example C28_case : exists o, ex_device 0 0x029101 = Ret o /\ object_code o = 0x029101 /\
  map fst (o_props o) = [0xB0; 0x80; 0x81; 0x82; 0x83; 0x84; 0x85; 0x86; 0x87; 0x88; 0x89; 0x8A; 0x8B; 0x8C; 0x8D; 0x8E; 0x8F;
    0x93; 0x97; 0x98; 0x99; 0x9A; 0x9D; 0x9E; 0x9F].
Proof. eexists. split; [vm_compute; reflexivity|]. vm_compute. auto. Qed.

(* ------------------------------------------------------------------ *)
(** C29: access rules. The table's words for an access that the class
    grants. *)
Definition grants (s : string) : Prop :=
  s = "required"%string \/ s = "optional"%string \/ s = "required_c"%string \/ s = "required_o"%string.
(** The device applies the three rules of row [r]. *)
Definition applies (o : object) (r : db_row) : Prop :=
  (can_read o (r_code r) <-> grants (r_get r)) /\
  (can_write o (r_code r) <-> grants (r_set r)) /\
  (can_announce o (r_code r) <-> grants (r_anno r)).

Definition grantsb (s : string) : bool :=
  String.eqb s "required" || String.eqb s "optional" || String.eqb s "required_c" || String.eqb s "required_o".
Lemma grantsb_spec s : grantsb s = true <-> grants s.
Proof. unfold grantsb, grants. rewrite !orb_true_iff, !String.eqb_eq. tauto. Qed.
Definition respected (first r : db_row) : bool :=
  Bool.eqb (rule_allowed (property_string_to_attribute (r_get first))) (grantsb (r_get r)) &&
  Bool.eqb (rule_allowed (property_string_to_attribute (r_set first))) (grantsb (r_set r)) &&
  Bool.eqb (rule_allowed (property_string_to_attribute (r_anno first))) (grantsb (r_anno r)).

Lemma device_access {P : Profile} {HO : HashOrder} seed db u1 u2 s code o k :
  standard_database seed = Ret db -> uuid_ok u1 -> uuid_ok u2 ->
  device_object db u1 u2 s code = Ret o ->
  forall f, first_row (dev_rows db_table code) k = Some f ->
  (can_read o k <-> rule_allowed (property_string_to_attribute (r_get f)) = true) /\
  (can_write o k <-> rule_allowed (property_string_to_attribute (r_set f)) = true) /\
  (can_announce o k <-> rule_allowed (property_string_to_attribute (r_anno f)) = true).
Proof.
  intros E U1 U2 D f F. destruct (device_spec seed db u1 u2 s code E U1 U2) as (o' & D' & _ & _ & _ & _ & G).
  rewrite D in D'. inversion D'; subst o'. clear D'. specialize (G k). rewrite F in G. cbn [option_map] in G.
  destruct (object_find_property o k) as [p|] eqn:Fp; [|discriminate].
  assert (SA : same_attributes p (standard_property f)) by (apply same_strip; cbn in G; congruence).
  destruct SA as (_ & _ & _ & _ & R1 & R2 & R3 & _).
  pose proof (standard_property_fields f) as SF. cbv zeta in SF. destruct SF as (_ & _ & _ & _ & S1 & S2 & S3).
  rewrite S1 in R1. rewrite S2 in R2. rewrite S3 in R3.
  assert (X : forall (field : prop -> rule) w, field p = property_string_to_attribute w ->
    (exists q, object_find_property o k = Some q /\ allows (field q)) <-> rule_allowed (property_string_to_attribute w) = true).
  { intros field w Hf. rewrite rule_allowed_spec, <- Hf. split; [intros (q & Hq & A); congruence|]. intro A. exists p. auto. }
  unfold can_read, can_write, can_announce.
  rewrite (X p_read (r_get f)), (X p_write (r_set f)), (X p_anno (r_anno f)) by assumption. tauto.
Qed.

(** C29 is false. Witness 1: bath auto mode (0xE3) of an instantaneous water
    heater, conditionally required, is neither readable nor writable. Witness
    2: the operating status of a node profile may not be written, yet the
    object accepts writes, because the super class comes first. *)
Theorem C29_rules_refuted : forall (P : Profile) (HO : HashOrder) seed db u1 u2 s,
  standard_database seed = Ret db -> uuid_ok u1 -> uuid_ok u2 ->
  (exists code o r, device_object db u1 u2 s code = Ret o /\ rows_of code r /\ code = 0x027201 /\
     r_code r = 0xE3 /\ grants (r_get r) /\ grants (r_set r) /\ ~ can_read o 0xE3 /\ ~ can_write o 0xE3) /\
  (exists code o r, device_object db u1 u2 s code = Ret o /\ rows_of code r /\ code = 0x0EF001 /\
     r_code r = 0x80 /\ ~ grants (r_set r) /\ can_write o 0x80).
Proof.
  intros P HO seed db u1 u2 s E U1 U2.
  assert (X : forall code k r f, first_row (class_rows db_table code) k = Some r -> first_row (dev_rows db_table code) k = Some f ->
    exists o, device_object db u1 u2 s code = Ret o /\ rows_of code r /\ r_code r = k /\
      (can_read o k <-> rule_allowed (property_string_to_attribute (r_get f)) = true) /\
      (can_write o k <-> rule_allowed (property_string_to_attribute (r_set f)) = true)).
  { intros code k r f Fr Ff. destruct (device_spec seed db u1 u2 s code E U1 U2) as (o & D & _). exists o. split; auto.
    apply find_some in Fr as [I Er]. apply N.eqb_eq in Er. split; [apply class_rows_in; auto|]. split; auto.
    destruct (device_access seed db u1 u2 s code o k E U1 U2 D f Ff) as (A & B & _). auto. }
  split.
  - destruct (first_row (class_rows db_table 0x027201) 0xE3) as [r|] eqn:Fr; [|vm_compute in Fr; discriminate].
    destruct (first_row (dev_rows db_table 0x027201) 0xE3) as [f|] eqn:Ff; [|vm_compute in Ff; discriminate].
    destruct (X _ _ r f Fr Ff) as (o & D & R & C & A & B). exists 0x027201, o, r. split; auto. split; auto. split; auto. split; auto.
    vm_compute in Fr, Ff. inversion Fr; subst r. inversion Ff; subst f. rewrite A, B.
    split; [apply grantsb_spec; reflexivity|]. split; [apply grantsb_spec; reflexivity|]. split; discriminate.
  - destruct (first_row (class_rows db_table 0x0EF001) 0x80) as [r|] eqn:Fr; [|vm_compute in Fr; discriminate].
    destruct (first_row (dev_rows db_table 0x0EF001) 0x80) as [f|] eqn:Ff; [|vm_compute in Ff; discriminate].
    destruct (X _ _ r f Fr Ff) as (o & D & R & C & A & B). exists 0x0EF001, o, r. split; auto. split; auto. split; auto. split; auto.
    vm_compute in Fr, Ff. inversion Fr; subst r. inversion Ff; subst f. rewrite B. split; [|reflexivity].
    rewrite <- grantsb_spec. discriminate.
Qed.
Print Assumptions C29_rules_refuted.

(** Strongest true version: the rules of every row of every class are applied,
    except for these (class group, class, property) triples. *)
Definition exceptions : list (N * N * N) :=
  [(0x00, 0x00, 0x83); (0x0E, 0xF0, 0x80); (0x0E, 0xF0, 0x83); (0x02, 0x72, 0xE3); (0x02, 0x72, 0xE9); (0x00, 0xD0, 0xE0);
   (0x00, 0xD0, 0xE1); (0x06, 0x02, 0xB1); (0x06, 0x02, 0xB2); (0x06, 0x02, 0xB4); (0x02, 0x7E, 0xC1); (0x02, 0x7E, 0xC3);
   (0x02, 0x7E, 0xD1); (0x02, 0x7E, 0xE3); (0x02, 0x6B, 0xE3); (0x02, 0x7D, 0x83); (0x02, 0x7D, 0xE2); (0x02, 0x7D, 0xE3);
   (0x02, 0x7D, 0xE4); (0x03, 0xBB, 0xB2); (0x03, 0xB9, 0xB3); (0x02, 0xA7, 0xC3); (0x02, 0xA7, 0xC4); (0x02, 0xA7, 0xD4);
   (0x02, 0x7C, 0xCA); (0x01, 0x30, 0xCE); (0x02, 0x8F, 0xC0); (0x00, 0x23, 0xE0); (0x00, 0x23, 0xE2); (0x02, 0x79, 0x83);
   (0x02, 0x79, 0xA0); (0x02, 0x79, 0xA1); (0x02, 0x79, 0xA2); (0x02, 0x79, 0xB0); (0x02, 0x79, 0xB1); (0x02, 0x79, 0xB2);
   (0x02, 0x79, 0xB4); (0x02, 0x79, 0xC3); (0x02, 0x79, 0xC4); (0x02, 0x7B, 0xE0); (0x02, 0x7B, 0xE1); (0x02, 0x7A, 0xE1);
   (0x02, 0x7A, 0xE2); (0x02, 0x8E, 0xD5); (0x02, 0x8E, 0xDA); (0x02, 0x8E, 0xE0); (0x02, 0x8E, 0xE1); (0x02, 0x8E, 0xE2);
   (0x02, 0x8E, 0xE3); (0x02, 0x8E, 0xE6); (0x02, 0x8E, 0xE7); (0x03, 0xB7, 0xB0); (0x02, 0xA5, 0x83); (0x02, 0x88, 0xC0);
   (0x02, 0x88, 0xE3); (0x02, 0x88, 0xE4); (0x02, 0x88, 0xEB)].
Definition triple_eqb (a b : N * N * N) : bool :=
  (fst (fst a) =? fst (fst b)) && (snd (fst a) =? snd (fst b)) && (snd a =? snd b).
Lemma triple_eqb_spec a b : triple_eqb a b = true <-> a = b.
Proof.
  destruct a as [[a1 a2] a3], b as [[b1 b2] b3]. unfold triple_eqb. cbn [fst snd]. rewrite !andb_true_iff, !N.eqb_eq. split.
  - intros [[-> ->] ->]. reflexivity.
  - intro H; inversion H; auto.
Qed.
Definition row_check (sup : list db_row) (c : db_class) (r : db_row) : bool :=
  match first_row (sup ++ c_rows c) (r_code r) with
  | Some f => respected f r || existsb (triple_eqb (c_grp c, c_cls c, r_code r)) exceptions
  | None => false
  end.
Lemma table_respected : forallb (fun c => forallb (row_check (class_rows db_table 0) c) (c_rows c)) db_table = true.
Proof. vm_compute. reflexivity. Qed.
Theorem C29_rules_partial : forall (P : Profile) (HO : HashOrder) seed db u1 u2 s code c r o,
  standard_database seed = Ret db -> uuid_ok u1 -> uuid_ok u2 ->
  device_object db u1 u2 s code = Ret o -> lists_class code c -> In r (c_rows c) ->
  ~ In (c_grp c, c_cls c, r_code r) exceptions -> applies o r.
Proof.
  intros P HO seed db u1 u2 s code c r o E U1 U2 D L I N.
  pose proof table_respected as T. rewrite forallb_forall in T. specialize (T c (proj1 L)). rewrite forallb_forall in T. specialize (T r I).
  unfold row_check in T. pose proof (proj2 (find_class_some code c) L) as Fc.
  destruct (first_row (class_rows db_table 0 ++ c_rows c) (r_code r)) as [f|] eqn:Ff; [|discriminate].
  assert (X : existsb (triple_eqb (c_grp c, c_cls c, r_code r)) exceptions = false).
  { destruct (existsb _ exceptions) eqn:Ex; auto. apply existsb_exists in Ex as (t & It & Et). apply triple_eqb_spec in Et. subst t. contradiction. }
  rewrite X, orb_false_r in T.
  assert (Ff' : first_row (dev_rows db_table code) (r_code r) = Some f).
  { unfold dev_rows. replace (class_rows db_table code) with (c_rows c); auto. unfold class_rows at 1. rewrite Fc. reflexivity. }
  destruct (device_access seed db u1 u2 s code o (r_code r) E U1 U2 D f Ff') as (A & B & G).
  unfold respected in T. rewrite !andb_true_iff, !Bool.eqb_true_iff in T. destruct T as [[T1 T2] T3].
  unfold applies. rewrite A, B, G, T1, T2, T3, !grantsb_spec. tauto.
Qed.
Print Assumptions C29_rules_partial.
(** Every exception is real: some row with that code is not applied. *)
Definition exception_check (sup : list db_row) (t : N * N * N) : bool :=
  existsb (fun c => (c_grp c =? fst (fst t)) && (c_cls c =? snd (fst t)) &&
    existsb (fun r => (r_code r =? snd t) && match first_row (sup ++ c_rows c) (r_code r) with Some f => negb (respected f r) | None => false end) (c_rows c)) db_table.
Lemma exceptions_real : forallb (exception_check (class_rows db_table 0)) exceptions = true.
Proof. vm_compute. reflexivity. Qed.
Theorem C29_exceptions_partial : forall (P : Profile) (HO : HashOrder) seed db u1 u2 s code g k x o,
  standard_database seed = Ret db -> uuid_ok u1 -> uuid_ok u2 ->
  device_object db u1 u2 s code = Ret o -> In (g, k, x) exceptions -> code / 2 ^ 16 mod 2 ^ 8 = g -> code / 2 ^ 8 mod 2 ^ 8 = k ->
  exists c r, lists_class code c /\ In r (c_rows c) /\ r_code r = x /\ ~ applies o r.
Proof.
  intros P HO seed db u1 u2 s code g k x o E U1 U2 D I Hg Hk.
  pose proof exceptions_real as T. rewrite forallb_forall in T. specialize (T _ I). unfold exception_check in T. cbn [fst snd] in T.
  apply existsb_exists in T as (c & Ic & T). rewrite !andb_true_iff, !N.eqb_eq in T. destruct T as [[T1 T2] T].
  apply existsb_exists in T as (r & Ir & T). rewrite andb_true_iff, N.eqb_eq in T. destruct T as [T3 T].
  assert (L : lists_class code c) by (split; [auto|split; congruence]). pose proof (proj2 (find_class_some code c) L) as Fc.
  exists c, r. split; auto. split; auto. split; auto.
  destruct (first_row (class_rows db_table 0 ++ c_rows c) (r_code r)) as [f|] eqn:Ff; [|discriminate].
  assert (Ff' : first_row (dev_rows db_table code) (r_code r) = Some f).
  { unfold dev_rows. replace (class_rows db_table code) with (c_rows c); auto. unfold class_rows at 1. rewrite Fc. reflexivity. }
  destruct (device_access seed db u1 u2 s code o (r_code r) E U1 U2 D f Ff') as (A & B & G).
  unfold applies. rewrite A, B, G, <- !grantsb_spec. intros (A' & B' & G').
  apply negb_true_iff in T. unfold respected in T.
  destruct (rule_allowed (property_string_to_attribute (r_get f))), (grantsb (r_get r)), (rule_allowed (property_string_to_attribute (r_set f))),
    (grantsb (r_set r)), (rule_allowed (property_string_to_attribute (r_anno f))), (grantsb (r_anno r)); cbn in T; intuition congruence.
Qed.
Print Assumptions C29_exceptions_partial.
Example C29_case : exists c, lists_class 0x029101 c /\ exists r, In r (c_rows c) /\ r_code r = 0xB0 /\
  r_set r = "optional"%string /\ r_get r = "optional"%string /\ r_anno r = "optional"%string /\ ~ In (c_grp c, c_cls c, r_code r) exceptions.
Proof.
  destruct (find_class db_table 0x029101) as [c|] eqn:E; [|vm_compute in E; discriminate].
  exists c. split; [apply find_class_some; auto|]. vm_compute in E. inversion E.
  eexists. split; [right; left; reflexivity|]. cbn [r_code r_set r_get r_anno c_grp c_cls]. repeat split; auto.
  intro I. repeat (destruct I as [I|I]; [discriminate I|]). destruct I.
Qed.

(* ------------------------------------------------------------------ *)
(** C30: default data of a new device. *)
Lemma super_has c : In c [0x80; 0x81; 0x82; 0x83; 0x88; 0x8A] -> exists r, first_row (class_rows db_table 0) c = Some r.
Proof.
  intros H. repeat (destruct H as [<-|H]; [vm_compute; eexists; reflexivity|]). destruct H.
Qed.
Theorem C30_defaults : forall (P : Profile) (HO : HashOrder) seed db u1 u2 s code o,
  standard_database seed = Ret db -> uuid_ok u1 -> uuid_ok u2 -> device_object db u1 u2 s code = Ret o ->
  object_property_data o 0x80 = Some [0x31] /\          (* operating status: off *)
  object_property_data o 0x81 = Some [0x00] /\          (* installation location: unknown *)
  object_property_data o 0x88 = Some [0x42] /\          (* fault status: no fault *)
  object_property_data o 0x82 = Some [0; 0; 0x50; 0] /\ (* standard version: release P *)
  object_property_data o 0x8A = Some [0xFF; 0xFF; 0xFF] /\ (* manufacturer: experimental *)
  (exists u, (u = u1 \/ u = u2) /\ object_property_data o 0x83 = Some ([0xFE; 0xFF; 0xFF; 0xFF] ++ rev (skipn 3 u))).
Proof.
  intros P HO seed db u1 u2 s code o E U1 U2 D. destruct (device_spec seed db u1 u2 s code E U1 U2) as (o' & D' & _ & _ & _ & G & _).
  rewrite D in D'. inversion D'; subst o'. clear D'.
  assert (X : forall c, In c [0x80; 0x81; 0x82; 0x83; 0x88; 0x8A] ->
    object_property_data o c = Some (match default_of (dev_uuid db_table u1 u2 code c) c with Some d => d | None => [] end)).
  { intros c I. unfold object_property_data. rewrite G.
    - unfold dev_rows. rewrite first_row_app. destruct (super_has c I) as [r ->]. cbn [option_map].
      pose proof (standard_property_fields r) as SF. cbv zeta in SF. destruct SF as (S0 & _).
      destruct (default_of _ c); cbn; auto. f_equal. exact S0.
    - repeat (destruct I as [<-|I]; [reflexivity|]). destruct I. }
  repeat (split; [rewrite X by (cbn; auto 10); reflexivity|]).
  exists (dev_uuid db_table u1 u2 code 0x83). split.
  - unfold dev_uuid. destruct (has_row _ _); auto.
  - rewrite X by (cbn; auto 10). reflexivity.
Qed.
Print Assumptions C30_defaults.
Example C30_case : exists o, ex_device 1 0x0EF001 = Ret o /\ object_property_data o 0x83 =
  Some [0xFE; 0xFF; 0xFF; 0xFF; 116; 115; 114; 113; 112; 111; 110; 109; 108; 107; 106; 105; 104].
Proof. eexists. split; [vm_compute; reflexivity|]. vm_compute. auto. Qed.

(* ------------------------------------------------------------------ *)
(** C31: manufacturers. *)
Theorem C31_manufacturers : forall code,
  (forall name, In (code, name) maker_table <-> find_manufacture code = Some (code, name)) /\
  (find_manufacture code = None <-> ~ In code (map fst maker_table)) /\
  NoDup (map fst maker_table).
Proof.
  intro code. assert (ND : NoDup (map fst maker_table)) by (apply nodupb_spec; vm_compute; reflexivity).
  split; [|split; auto].
  - intro name. unfold find_manufacture. split.
    + revert ND. generalize maker_table. induction l as [|[k n] l IH]; intros ND I; [destruct I|]. cbn in *.
      inversion ND; subst. destruct I as [I|I].
      * inversion I; subst. rewrite N.eqb_refl. reflexivity.
      * destruct (N.eqb_spec k code); [|auto]. subst. exfalso. apply H1. apply (in_map fst) in I. exact I.
    + intro F. apply find_some in F. tauto.
  - unfold find_manufacture. split.
    + intros F I. apply in_map_iff in I as ([k n] & E & I). apply (find_none _ _ F) in I. cbn in *. lia.
    + intro I. destruct (find _ maker_table) as [[k n]|] eqn:F; auto. apply find_some in F as [F E]. cbn in E. exfalso. apply I.
      apply N.eqb_eq in E. subst. apply (in_map fst) in F. exact F.
Qed.
Print Assumptions C31_manufacturers.
Example C31_case : exists name, In (0x00000B, name) maker_table /\ ~ In 0x00FF00 (map fst maker_table).
Proof.
  destruct (find_manufacture 0x0B) as [[k n]|] eqn:E; [|vm_compute in E; discriminate]. exists n. split.
  - apply find_some in E as [I E]. cbn in E. apply N.eqb_eq in E. subst. exact I.
  - apply C31_manufacturers. vm_compute. reflexivity.
Qed.
