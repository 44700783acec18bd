(** Properties C15-C24 and C26 (objects and properties). *)
From Verif Require Import Base HMap ModelCodec ModelMessages DbTable MakerTable ModelObject SpecWire SpecObject
  ProofsCodec ProofsCodec2 PropertiesCodec ProofsObject ProofsObject2 ProofsObject3.

(* ------------------------------------------------------------------ *)
(** Witnesses used by the examples. *)
Definition ex_prop (c : N) (r w a : rule) : prop := prop_set_anno (prop_set_write (prop_set_read (prop_set_code prop_new c) r) w) a.
Lemma ex_prop_built c r w a : c < 256 -> prop_built (ex_prop c r w a).
Proof. intro H. repeat constructor. auto. Qed.
(** A small lamp: six properties, three of them maps. *)
Definition lamp_props : list prop :=
  [ex_prop 0x9D Required Prohibited Prohibited; ex_prop 0x9E Required Prohibited Prohibited; ex_prop 0x9F Required Prohibited Prohibited;
   ex_prop 0x80 Required Required Required; ex_prop 0xB0 Required Optional Prohibited; ex_prop 0xE0 Prohibited Required Prohibited].
Definition ex_lamp (seed : N) : outcome object := adds (P := true) (HO := ex_order) (object_from_code seed 0x029101) lamp_props.
(** The same with 16 more readable properties 0xC0..0xCF. *)
Definition big_props : list prop := lamp_props ++ map (fun n => ex_prop (0xC0 + N.of_nat n) Required Prohibited Optional) (seq 0 16).
Definition ex_big (seed : N) : outcome object := adds (P := true) (HO := ex_order) (object_from_code seed 0x029101) big_props.

Lemma adds_built {P : Profile} {HO : HashOrder} ps : forall o o', obj_built o -> Forall prop_built ps -> adds o ps = Ret o' -> obj_built o'.
Proof.
  induction ps as [|p r IH]; intros o o' B F; cbn [adds].
  - intro E; inversion E; subst; auto.
  - inversion F; subst. destruct (object_add_property o p) eqn:E; cbn [obind]; [|discriminate].
    apply IH; auto. eapply OB_add; eauto.
Qed.
Lemma big_props_built : Forall prop_built big_props.
Proof.
  unfold big_props. apply Forall_app. split; [repeat (constructor; [apply ex_prop_built; lia|]); constructor|].
  apply Forall_forall. intros p I. apply in_map_iff in I as (n & <- & I). apply in_seq in I. apply ex_prop_built. lia.
Qed.
Lemma ex_lamp_built seed o : ex_lamp seed = Ret o -> obj_built (P := true) (HO := ex_order) o.
Proof.
  intro E. eapply adds_built; [| |exact E]; [repeat constructor|].
  pose proof big_props_built as H. apply Forall_app in H. tauto.
Qed.
Lemma ex_big_built seed o : ex_big seed = Ret o -> obj_built (P := true) (HO := ex_order) o.
Proof. intro E. eapply adds_built; [| |exact E]; [repeat constructor|]. apply big_props_built. Qed.

(* ------------------------------------------------------------------ *)
(** C15: object codes. *)
Theorem C15_object_code : forall o c, c < 2 ^ 32 ->
  let o' := object_set_code o c in
  object_code o' = c mod 2 ^ 24 /\
  object_class_group_code o' = c / 2 ^ 16 mod 2 ^ 8 /\ object_class_code o' = c / 2 ^ 8 mod 2 ^ 8 /\
  object_instance_code o' = c mod 2 ^ 8 /\
  o_name o' = o_name o /\ o_class_name o' = o_class_name o /\ o_props o' = o_props o.
Proof.
  intros o c Hc. cbv zeta.
  assert (E : o_codes (object_set_code o c) = ((c / 65536) mod 256, (c / 256) mod 256, c mod 256)).
  { exact (split_object_code_eq c). }
  rewrite (object_code_eq _ _ _ _ E) by lia.
  unfold object_class_group_code, object_class_code, object_instance_code. rewrite E. cbn [fst snd].
  change (2 ^ 24) with 16777216. change (2 ^ 16) with 65536. change (2 ^ 8) with 256.
  split; [lia|]. repeat split.
Qed.
Print Assumptions C15_object_code.
(** The three part setters change their octet only. *)
Theorem C15_part_setters : forall o c, 
  o_codes (object_set_class_group_code o c) = (c, object_class_code o, object_instance_code o) /\
  o_codes (object_set_class_code o c) = (object_class_group_code o, c, object_instance_code o) /\
  o_codes (object_set_instance_code o c) = (object_class_group_code o, object_class_code o, c).
Proof.
  intros [[[a b] d] n cn ps s] c. repeat split.
Qed.
Print Assumptions C15_part_setters.
Example C15_case : object_code (object_from_code 0 0xFF029101) = 0x029101 /\
  object_class_code (object_from_code 0 0x029101) = 0x91.
Proof. split; reflexivity. Qed.

(* ------------------------------------------------------------------ *)
(** C16: property data store. *)
Theorem C16_set_property_data : forall o c d,
  let o' := fst (object_set_property_data o c d) in
  (object_find_property o c = None -> o' = o /\ snd (object_set_property_data o c d) = false) /\
  (forall p, object_find_property o c = Some p ->
     snd (object_set_property_data o c d) = true /\
     object_property_data o' c = Some d /\
     (exists q, object_find_property o' c = Some q /\ same_attributes p q) /\
     (forall c', c' <> c -> object_find_property o' c' = object_find_property o c') /\
     map fst (o_props o') = map fst (o_props o) /\
     o_codes o' = o_codes o /\ o_name o' = o_name o /\ o_class_name o' = o_class_name o).
Proof.
  intros o c d. cbv zeta. split.
  - intro E. unfold object_set_property_data. rewrite E. auto.
  - intros p E. pose proof (set_data_meta o c d) as M. cbv zeta in M. destruct M as (M1 & M2 & M3 & _ & M4).
    assert (F : object_find_property (fst (object_set_property_data o c d)) c = Some (prop_set_data p d)).
    { rewrite set_data_find, N.eqb_refl, E. reflexivity. }
    split. { unfold object_set_property_data. rewrite E. reflexivity. }
    split. { unfold object_property_data. rewrite F. reflexivity. }
    split. { exists (prop_set_data p d). split; auto. apply same_strip. reflexivity. }
    split. { intros c' Ne. rewrite set_data_find. destruct (N.eqb_spec c' c); [contradiction|auto]. }
    auto.
Qed.
Print Assumptions C16_set_property_data.
(** equals_property_data agrees with property_data. *)
Theorem C16_equals_property_data : forall o c d,
  object_equals_property_data o c d = true <-> object_property_data o c = Some d.
Proof.
  intros o c d. unfold object_equals_property_data, object_property_data.
  destruct (object_find_property o c) as [p|]; [|split; discriminate]. unfold prop_equals_data.
  destruct (Nat.eqb_spec (length (p_data p)) (length d)); cbn [negb].
  - rewrite bytes_eqb_eq. split; congruence.
  - split; [discriminate|]. intro H. inversion H; subst. congruence.
Qed.
Print Assumptions C16_equals_property_data.
Example C16_case : exists o, ex_lamp 0 = Ret o /\
  object_property_data (fst (object_set_property_data o 0xB0 [1; 2])) 0xB0 = Some [1; 2] /\
  object_property_data (fst (object_set_property_data o 0xB0 [1; 2])) 0x80 = Some [] /\
  snd (object_set_property_data o 0xB1 [1; 2]) = false.
Proof. eexists. split; [vm_compute; reflexivity|]. repeat split. Qed.

(* ------------------------------------------------------------------ *)
(** C17: additions. *)
Theorem C17_add_property : forall (P : Profile) (HO : HashOrder) o p o',
  obj_built o -> prop_built p -> object_add_property o p = Ret o' ->
  (forall c q, object_find_property o c = Some q ->
     exists q', object_find_property o' c = Some q' /\ same_attributes q q' /\ (~ map_code c -> p_data q' = p_data q)) /\
  (object_find_property o (p_code p) = None ->
     exists q', object_find_property o' (p_code p) = Some q' /\ same_attributes p q' /\ (~ map_code (p_code p) -> p_data q' = p_data p)) /\
  (forall c, object_has_property o' c = true <-> object_has_property o c = true \/ c = p_code p) /\
  o_codes o' = o_codes o /\ o_name o' = o_name o /\ o_class_name o' = o_class_name o.
Proof.
  intros P HO o p o' B Bp E. apply obj_built_ok in B. apply prop_built_ok in Bp.
  destruct (add_property_spec o p o' (oo_wf _ B) (po_code _ Bp) E) as (_ & _ & _ & C1 & C2 & C3 & _ & D & G).
  assert (X : forall c q, match object_find_property o c with Some q => Some q | None => if c =? p_code p then Some p else None end = Some q ->
    exists q', object_find_property o' c = Some q' /\ same_attributes q q' /\ (~ map_code c -> p_data q' = p_data q)).
  { intros c q Hq. specialize (G c). rewrite Hq in G. destruct (object_find_property o' c) as [q'|] eqn:E'; [|discriminate].
    exists q'. split; auto. cbn in G. split; [apply same_strip; congruence|]. intro M. apply is_map_code_false in M.
    rewrite D, Hq in E' by auto. congruence. }
  split; [|split; [|split; [|auto]]].
  - intros c q Hq. apply X. rewrite Hq. auto.
  - intro Hn. apply X. rewrite Hn, N.eqb_refl. auto.
  - intro c. unfold object_has_property. specialize (G c). destruct (object_find_property o c).
    + destruct (object_find_property o' c); [tauto|discriminate].
    + destruct (N.eqb_spec c (p_code p)); destruct (object_find_property o' c); try discriminate; intuition congruence.
Qed.
Print Assumptions C17_add_property.
(** Any sequence of additions. *)
Inductive added {P : Profile} {HO : HashOrder} : object -> list prop -> object -> Prop :=
| added_nil o : added o [] o
| added_cons o p o1 ps o2 : object_add_property o p = Ret o1 -> added o1 ps o2 -> added o (p :: ps) o2.
Theorem C17_add_sequence : forall (P : Profile) (HO : HashOrder) o ps o',
  obj_built o -> Forall prop_built ps -> added o ps o' ->
  (forall c q, object_find_property o c = Some q ->
     exists q', object_find_property o' c = Some q' /\ same_attributes q q' /\ (~ map_code c -> p_data q' = p_data q)) /\
  (forall c, object_has_property o' c = true <-> object_has_property o c = true \/ In c (map p_code ps)).
Proof.
  intros P HO o ps o' B F A. induction A as [o|o p o1 ps o2 E A IH].
  - split; [|cbn; tauto]. intros c q Hq. exists q. auto using same_attributes_refl.
  - inversion F; subst. destruct (C17_add_property P HO o p o1 B H1 E) as (X1 & X2 & X3 & _).
    destruct IH as [Y1 Y2]; auto. { eapply OB_add; eauto. }
    split.
    + intros c q Hq. destruct (X1 c q Hq) as (q1 & F1 & S1 & D1). destruct (Y1 c q1 F1) as (q2 & F2 & S2 & D2).
      exists q2. split; auto. split; [eapply same_attributes_trans; eauto|]. intro M. rewrite D2, D1; auto.
    + intro c. rewrite Y2, X3. cbn [map In]. intuition.
Qed.
Print Assumptions C17_add_sequence.
Example C17_case : exists o o', ex_lamp 0 = Ret o /\ object_add_property (P := true) (HO := ex_order) o (ex_prop 0x80 Prohibited Prohibited Prohibited) = Ret o' /\
  (exists q, object_find_property o' 0x80 = Some q /\ p_read q = Required) /\ length (o_props o') = 6%nat.
Proof. do 2 eexists. split; [vm_compute; reflexivity|]. split; [vm_compute; reflexivity|]. split; [eexists; split; reflexivity|reflexivity]. Qed.

(* ------------------------------------------------------------------ *)
(** C18: short form of the property maps. *)
Theorem C18_short_map : forall (P : Profile) (HO : HashOrder) o mc data l,
  obj_built o -> map_code mc -> object_property_data o mc = Some data ->
  enumerates l (map_kind o mc) -> (length l < 16)%nat ->
  (exists r, data = N.of_nat (length l) :: r /\ Permutation r l) /\
  forall c, property_map_has data c <-> map_kind o mc c.
Proof.
  intros P HO o mc data l B M D En Hl. apply obj_built_ok in B.
  destruct (map_data o mc data l B M D En) as (l' & Pm & E).
  pose proof (Permutation_length Pm) as Le.
  unfold to_property_map_bytes in E. destruct (Nat.leb_spec (length l') 15); [|lia]. inversion E; subst; clear E.
  assert (Eq : len_u8 l' = N.of_nat (length l)) by (unfold len_u8, as_u8; rewrite Le; lia). rewrite Eq.
  split; [exists l'; auto|]. intro c. unfold property_map_has. replace (N.of_nat (length l) <? 16) with true by lia.
  rewrite Nnat.Nat2N.id, <- Le, firstn_all. destruct En as [_ En]. rewrite <- En.
  split; apply Permutation_in; auto using Permutation_sym.
Qed.
Print Assumptions C18_short_map.
Example C18_case : exists o0 o1, ex_lamp 0 = Ret o0 /\ ex_lamp 1 = Ret o1 /\
  object_property_data o0 0x9F = Some [5; 0xB0; 0x80; 0x9F; 0x9E; 0x9D] /\
  object_property_data o1 0x9F = Some [5; 0xB0; 0x9F; 0x9D; 0x9E; 0x80] /\
  object_property_data o1 0x9E = Some [3; 0xB0; 0x80; 0xE0] /\
  enumerates [0xB0; 0xE0; 0x80] (map_kind o1 0x9E).
Proof.
  do 2 eexists. split; [vm_compute; reflexivity|]. split; [vm_compute; reflexivity|].
  split; [reflexivity|]. split; [reflexivity|]. split; [reflexivity|]. split.
  - apply nodupb_spec. reflexivity.
  - intro c. unfold map_kind, can_write. split.
    + cbn [In]. intros [<-|[<-|[<-|[]]]]; right; left; (split; [reflexivity|]); eexists; (split; [reflexivity|discriminate]).
    + intros [[H _]|[[_ (p & F & A)]|[H _]]]; try discriminate. apply hget_in in F. cbn in F.
      repeat (destruct F as [F|F]; [inversion F; subst; cbn; try (exfalso; apply A; reflexivity); auto|]). destruct F.
Qed.

(* ------------------------------------------------------------------ *)
(** C19 is false: a map of 16 or more properties never lists a code of 0xC0 or
    above. *)
Theorem C19_bitmap_refuted : exists o data,
  obj_built (P := true) (HO := ex_order) o /\ object_property_data o 0x9F = Some data /\
  (forall c p, object_find_property o c = Some p -> 0x80 <= c) /\
  can_read o 0xC0 /\ ~ property_map_has data 0xC0.
Proof.
  destruct (ex_big 0) as [o|] eqn:E; [|vm_compute in E; discriminate].
  pose proof (ex_big_built 0 o E) as B. vm_compute in E. inversion E; subst; clear E.
  do 2 eexists. split; [exact B|]. split; [reflexivity|]. split; [|split].
  - intros c p F. apply hget_in in F. cbn in F.
    repeat (destruct F as [F|F]; [inversion F; subst; lia|]). destruct F.
  - eexists. split; [reflexivity|discriminate].
  - intro H. apply map_has_bitmap in H; try lia; [discriminate|reflexivity|cbn; lia].
Qed.
Print Assumptions C19_bitmap_refuted.
(** Exactly which codes are listed: those below 0xC0. *)
Theorem C19_bitmap_partial : forall (P : Profile) (HO : HashOrder) o mc data l,
  obj_built o -> map_code mc -> object_property_data o mc = Some data ->
  enumerates l (map_kind o mc) -> (16 <= length l)%nat -> (forall c, In c l -> 0x80 <= c) ->
  length data = 17%nat /\ nth 0 data 0 = N.of_nat (length l) /\
  forall c, property_map_has data c <-> map_kind o mc c /\ c < 0xC0.
Proof.
  intros P HO o mc data l B M D En Hl Hs. apply obj_built_ok in B.
  destruct (map_data o mc data l B M D En) as (l' & Pm & E).
  pose proof (Permutation_length Pm) as Le.
  assert (O : forall c, In c l -> c < 256).
  { intros c I. apply En in I. destruct B as [W _ _].
    destruct I as [[_ (p & F & _)]|[[_ (p & F & _)]|[_ (p & F & _)]]]; apply (find_code o c p W F). }
  assert (Ln' : (length l <= 128)%nat) by (apply std_length; [apply En|auto]).
  destruct (to_map_long l') as (mb & E' & L & N0 & Bt).
  { apply Forall_forall. intros c I. eapply Permutation_in in I; [|exact Pm]. auto. }
  { lia. }
  rewrite E in E'. inversion E'; subst mb. clear E'. rewrite Le, N.mod_small in N0 by lia.
  split; auto. split; auto. intro c. destruct En as [_ En]. rewrite <- En. split.
  - intro Hm. destruct (map_has_bitmap_std data c L) as [H1 H2]; [lia|auto|].
    apply map_has_bitmap in Hm; auto; [|lia]. apply Bt in Hm as [I Hc]; auto. split; auto.
    eapply Permutation_in; eauto.
  - intros [I Hc]. apply map_has_bitmap; auto; [lia|]. apply Bt; auto. split; auto.
    eapply Permutation_in; [apply Permutation_sym; exact Pm|auto].
Qed.
Print Assumptions C19_bitmap_partial.
Example C19_case : exists o, ex_big 0 = Ret o /\
  object_property_data o 0x9F = Some [21; 0x09; 0; 0; 0; 0; 0; 0; 0; 0; 0; 0; 0; 0; 0x02; 0x02; 0x02] /\
  can_read o 0xB0 /\ property_map_has [21; 0x09; 0; 0; 0; 0; 0; 0; 0; 0; 0; 0; 0; 0; 0x02; 0x02; 0x02] 0xB0.
Proof.
  eexists. split; [vm_compute; reflexivity|]. split; [reflexivity|]. split.
  - eexists. split; [reflexivity|discriminate].
  - exists 3, 0%nat. repeat split; lia.
Qed.

(* ------------------------------------------------------------------ *)
(** C20: the maps always describe the current property set. After adding [p]
    to any built object, and whatever is stored afterwards in properties that
    are not maps, each map present has as count the number of properties it is
    about and lists exactly those (codes below 0xC0 in the bitmap form, see
    C19). *)
Theorem C20_maps_current_partial : forall (P : Profile) (HO : HashOrder) o ps o' mc data l,
  obj_built o -> Forall prop_built ps -> added o ps o' -> (forall c, object_has_property o' c = true -> 0x80 <= c) ->
  map_code mc -> object_property_data o' mc = Some data -> enumerates l (map_kind o' mc) ->
  nth 0 data 0 = N.of_nat (length l) /\
  (forall c, property_map_has data c <-> map_kind o' mc c /\ ((length l < 16)%nat \/ c < 0xC0)).
Proof.
  intros P HO o ps o' mc data l B F A Hs M D En.
  assert (B' : obj_built o').
  { clear - A B F. induction A as [|o p o1 ps o2 E A IH]; auto. inversion F; subst. apply IH; auto. eapply OB_add; eauto. }
  destruct (Nat.ltb_spec (length l) 16) as [Hl|Hl].
  - destruct (C18_short_map P HO o' mc data l B' M D En Hl) as [(r & -> & _) Hm]. split; [reflexivity|].
    intro c. rewrite Hm. tauto.
  - destruct (C19_bitmap_partial P HO o' mc data l B' M D En Hl) as (_ & Hn & Hm).
    { intros c I. apply Hs. apply En in I. unfold object_has_property.
      destruct I as [[_ (p & Fp & _)]|[[_ (p & Fp & _)]|[_ (p & Fp & _)]]]; rewrite Fp; auto. }
    split; auto. intro c. rewrite Hm. intuition lia.
Qed.
Print Assumptions C20_maps_current_partial.
(** False for the bitmap form: the added property 0xD0 is not listed. *)
Theorem C20_maps_current_refuted : exists o o' data,
  obj_built (P := true) (HO := ex_order) o /\ added (P := true) (HO := ex_order) o [ex_prop 0xD0 Required Prohibited Optional] o' /\
  object_property_data o' 0x9F = Some data /\ can_read o' 0xD0 /\ ~ property_map_has data 0xD0.
Proof.
  destruct (ex_big 0) as [o|] eqn:E; [|vm_compute in E; discriminate].
  pose proof (ex_big_built 0 o E) as B. vm_compute in E. inversion E; subst; clear E.
  do 3 eexists. split; [exact B|]. split; [eapply added_cons; [vm_compute; reflexivity|apply added_nil]|]. split; [reflexivity|]. split.
  - eexists. split; [reflexivity|discriminate].
  - intro H. apply map_has_bitmap in H; try lia; [discriminate|reflexivity|cbn; lia].
Qed.
Print Assumptions C20_maps_current_refuted.
Example C20_case : exists o o', ex_lamp 0 = Ret o /\
  added (P := true) (HO := ex_order) o [ex_prop 0x81 Required Required Required; ex_prop 0xF0 Prohibited Prohibited Optional] o' /\
  object_property_data o 0x9D = Some [1; 0x80] /\ object_property_data o' 0x9D = Some [3; 0xF0; 0x81; 0x80].
Proof.
  do 2 eexists. split; [vm_compute; reflexivity|]. split.
  - eapply added_cons; [vm_compute; reflexivity|]. eapply added_cons; [vm_compute; reflexivity|]. apply added_nil.
  - split; reflexivity.
Qed.

(* ------------------------------------------------------------------ *)
(** C21: cloning. Everything but the order of codes inside short property maps
    is preserved; that order depends on the hash seeds. *)
Theorem C21_clone_maps_refuted : exists o o',
  obj_built (P := true) (HO := ex_order) o /\ object_clone (P := true) (HO := ex_order) 1 o = Ret o' /\
  object_property_data o' 0x9F <> object_property_data o 0x9F.
Proof.
  destruct (ex_lamp 0) as [o|] eqn:E; [|vm_compute in E; discriminate].
  pose proof (ex_lamp_built 0 o E) as B. vm_compute in E. inversion E; subst; clear E.
  do 2 eexists. split; [exact B|]. split; [vm_compute; reflexivity|]. vm_compute. discriminate.
Qed.
Print Assumptions C21_clone_maps_refuted.
Theorem C21_clone_partial : forall (P : Profile) (HO : HashOrder) o seed o',
  obj_built o -> object_clone seed o = Ret o' ->
  object_code o' = object_code o /\ o_codes o' = o_codes o /\ o_name o' = o_name o /\ o_class_name o' = o_class_name o /\
  (forall c, object_find_property o c = None <-> object_find_property o' c = None) /\
  (forall c p p', object_find_property o c = Some p -> object_find_property o' c = Some p' -> same_attributes p p') /\
  (forall c, ~ map_code c -> object_property_data o' c = object_property_data o c) /\
  (forall mc d d', (forall c, object_has_property o c = true -> 0x80 <= c) ->
     map_code mc -> object_property_data o mc = Some d -> object_property_data o' mc = Some d' ->
     forall c, property_map_has d c <-> property_map_has d' c).
Proof.
  intros P HO o seed o' B E. pose proof (obj_built_ok o B) as W.
  assert (W' := W). destruct (clone_spec seed o o' W E) as (Wc & C1 & C2 & C3 & D & G).
  assert (St : forall c, match object_find_property o c, object_find_property o' c with
                         | Some p, Some p' => same_attributes p p' | None, None => True | _, _ => False end).
  { intro c. specialize (G c). unfold strip in G. destruct (object_find_property o c), (object_find_property o' c); cbn in G; try discriminate; auto.
    apply same_strip. congruence. }
  split. { unfold object_code. rewrite C1. reflexivity. }
  split; auto. split; auto. split; auto. split.
  { intro c. specialize (St c). destruct (object_find_property o c), (object_find_property o' c); tauto || (split; intros; congruence). }
  split. { intros c p p' F1 F2. specialize (St c). rewrite F1, F2 in St. exact St. }
  split. { intros c M. apply is_map_code_false in M. unfold object_property_data. rewrite D by auto. reflexivity. }
  assert (K : forall mc c, map_kind o mc c <-> map_kind o' mc c).
  { assert (K1 : forall (f : prop -> rule) c, (forall p q, same_attributes p q -> f p = f q) ->
      ((exists p, object_find_property o c = Some p /\ allows (f p)) <-> (exists p, object_find_property o' c = Some p /\ allows (f p)))).
    { intros f c Hf. specialize (St c). destruct (object_find_property o c) as [p|], (object_find_property o' c) as [p'|]; try tauto.
      - pose proof (Hf p p' St) as Ef. split; intros (x & Hx & A); inversion Hx; subst; eexists; (split; [reflexivity|congruence]).
      }
    intros mc c. unfold map_kind, can_read, can_write, can_announce.
    rewrite (K1 p_read), (K1 p_write), (K1 p_anno) by (unfold same_attributes; tauto). tauto. }
  intros mc d d' Hs M Hd Hd' c.
  destruct (map_kind_sel o mc (oo_wf _ W) M) as (sel & _ & I).
  assert (En : enumerates (selected sel o) (map_kind o mc)) by (split; [apply selected_nodup; apply W|exact I]).
  assert (En' : enumerates (selected sel o) (map_kind o' mc)) by (split; [apply En|intro x; rewrite I; apply K]).
  assert (Std : forall x, In x (selected sel o) -> 0x80 <= x).
  { intros x Ix. apply Hs. apply I in Ix. unfold object_has_property.
    destruct Ix as [[_ (p & Fp & _)]|[[_ (p & Fp & _)]|[_ (p & Fp & _)]]]; rewrite Fp; auto. }
  destruct (map_data o mc d _ W M Hd En) as (l1 & P1 & E1).
  destruct (map_data o' mc d' _ Wc M Hd' En') as (l2 & P2 & E2).
  pose proof (Permutation_length P1) as L1. pose proof (Permutation_length P2) as L2.
  destruct (Nat.ltb_spec (length (selected sel o)) 16) as [Hl|Hl].
  - unfold to_property_map_bytes in E1, E2. replace (Nat.leb (length l1) 15) with true in E1 by lia.
    replace (Nat.leb (length l2) 15) with true in E2 by lia. inversion E1; inversion E2; subst. unfold property_map_has.
    replace (len_u8 l1) with (N.of_nat (length l1)) by (unfold len_u8, as_u8; lia).
    replace (len_u8 l2) with (N.of_nat (length l2)) by (unfold len_u8, as_u8; lia).
    replace (N.of_nat (length l1) <? 16) with true by lia. replace (N.of_nat (length l2) <? 16) with true by lia.
    rewrite !Nnat.Nat2N.id, !firstn_all.
    split; apply Permutation_in; [apply perm_trans with (selected sel o)|apply perm_trans with (selected sel o)]; auto using Permutation_sym.
  - assert (F1 : std_codes l1 /\ std_codes l2 /\ (length (selected sel o) < 256)%nat).
    { assert (Ob : forall x, In x (selected sel o) -> 0x80 <= x /\ x < 256).
      { intros x Ix. split; auto. pose proof (selected_octets sel o (oo_wf _ W)) as Oc. exact (proj1 (Forall_forall _ _) Oc x Ix). }
      split; [|split].
      - apply Forall_forall. intros x Ix. refine (Ob x _). exact (Permutation_in _ P1 Ix).
      - apply Forall_forall. intros x Ix. refine (Ob x _). exact (Permutation_in _ P2 Ix).
      - assert ((length (selected sel o) <= 128)%nat); [|lia]. apply std_length; [apply En|auto]. }
    destruct F1 as (F1 & F2 & Lb).
    destruct (to_map_long l1 F1) as (m1 & X1 & Y1 & Z1 & V1); [lia|]. rewrite E1 in X1. inversion X1; subst m1.
    destruct (to_map_long l2 F2) as (m2 & X2 & Y2 & Z2 & V2); [lia|]. rewrite E2 in X2. inversion X2; subst m2.
    rewrite N.mod_small in Z1, Z2 by lia.
    assert (T : forall a b l l', length a = 17%nat -> length b = 17%nat -> 16 <= nth 0 a 0 -> 16 <= nth 0 b 0 ->
      (forall x, 128 <= x -> x < 256 -> bit_of a x = true <-> In x l /\ x < 0xC0) ->
      (forall x, 128 <= x -> x < 256 -> bit_of b x = true <-> In x l' /\ x < 0xC0) -> Permutation l l' ->
      property_map_has a c -> property_map_has b c).
    { intros a b l l' La Lb' Na Nb Ha Hb Pm Hm. destruct (map_has_bitmap_std a c La Na Hm) as [R1 R2].
      apply map_has_bitmap in Hm; auto. apply map_has_bitmap; auto. apply Hb; auto. apply Ha in Hm as [Hm1 Hm2]; auto. split; auto.
      eapply Permutation_in; eauto. }
    assert (Pm : Permutation l1 l2) by (eapply perm_trans; [exact P1|apply Permutation_sym; exact P2]).
    split; [apply (T d d' l1 l2)|apply (T d' d l2 l1)]; auto using Permutation_sym; lia.
Qed.
Print Assumptions C21_clone_partial.
(** Cloning does not panic when all codes are in the range 0x80..0xFF. *)
Theorem C21_clone_returns : forall (P : Profile) (HO : HashOrder) o seed,
  obj_built o -> (forall c, object_has_property o c = true -> 0x80 <= c) -> exists o', object_clone seed o = Ret o'.
Proof.
  intros P HO o seed B H. apply clone_total; [apply obj_built_ok; auto|].
  intros c p F. apply H. unfold object_has_property. rewrite F. auto.
Qed.
Print Assumptions C21_clone_returns.
Example C21_case : exists o o', ex_lamp 0 = Ret o /\ object_clone (P := true) (HO := ex_order) 1 (fst (object_set_property_data o 0xB0 [7])) = Ret o' /\
  object_property_data o' 0xB0 = Some [7] /\ object_code o' = 0x029101 /\ object_has_property o' 0xC0 = false.
Proof. do 2 eexists. split; [vm_compute; reflexivity|]. split; [vm_compute; reflexivity|]. repeat split. Qed.

(* ------------------------------------------------------------------ *)
(** C22: access predicates. *)
Theorem C22_predicates : forall p,
  (prop_is_readable p = true <-> p_read p <> Prohibited) /\
  (prop_is_writable p = true <-> p_write p <> Prohibited) /\
  (prop_is_announceable p = true <-> p_anno p <> Prohibited) /\
  (prop_is_read_required p = true <-> p_read p = Required) /\
  (prop_is_write_required p = true <-> p_write p = Required) /\
  (prop_is_announce_required p = true <-> p_anno p = Required) /\
  (prop_is_readonly p = true <-> p_read p <> Prohibited /\ p_write p = Prohibited) /\
  (prop_is_writeonly p = true <-> p_write p <> Prohibited /\ p_read p = Prohibited).
Proof.
  intros [c d n t k r w a e]. unfold prop_is_readonly, prop_is_writeonly, prop_is_readable, prop_is_writable, prop_is_announceable,
    prop_is_read_required, prop_is_write_required, prop_is_announce_required. cbn [p_read p_write p_anno].
  destruct r, w, a; cbn; intuition congruence.
Qed.
Print Assumptions C22_predicates.
Example C22_case : prop_is_readonly (ex_prop 0x80 Optional Prohibited Prohibited) = true /\
  prop_is_read_required (ex_prop 0x80 Optional Prohibited Prohibited) = false.
Proof. split; reflexivity. Qed.

(* ------------------------------------------------------------------ *)
(** C23: integer data. *)
Theorem C23_int_data : forall (P : Profile) o c v n p, v < 2 ^ 32 -> (1 <= n <= 4)%nat ->
  object_find_property o c = Some p ->
  exists o', object_set_property_int o c v n = Ret (o', true) /\
    object_property_data_as_int o' c = Ret (Some (v mod 256 ^ N.of_nat n)) /\
    exists d, object_property_data o' c = Some d /\ length d = n /\ be_value d = v mod 256 ^ N.of_nat n.
Proof.
  intros P o c v n p Hv Hn Hp. destruct (C11_int_codec P v n Hv ltac:(lia)) as (bs & E & L & Ho & V & T).
  unfold object_set_property_int. rewrite E. cbn [obind].
  exists (fst (object_set_property_data o c bs)).
  assert (F : object_find_property (fst (object_set_property_data o c bs)) c = Some (prop_set_data p bs)).
  { rewrite set_data_find, N.eqb_refl, Hp. reflexivity. }
  split. { unfold object_set_property_data. rewrite Hp. reflexivity. }
  unfold object_property_data_as_int, object_property_data. rewrite F. unfold prop_data_as_int. cbn [p_data prop_set_data].
  split; [|exists bs; auto]. destruct bs as [|b bs]; [cbn in L; lia|]. rewrite T. reflexivity.
Qed.
Print Assumptions C23_int_data.
(** Reading panics in a debug build exactly when there are more than four
    octets: the second half of C23 is false. *)
Theorem C23_no_panic_refuted : exists p, prop_built p /\ prop_data_as_int (P := true) p = Panic.
Proof.
  exists (prop_set_data prop_new [0; 0; 0; 0; 1]). split; [|reflexivity]. repeat constructor; unfold octet; lia.
Qed.
Print Assumptions C23_no_panic_refuted.
Lemma to_u32_panics r : forall n v, (4 < n + N.of_nat (length r)) -> n <= 4 -> r <> [] -> bytes_to_u32_loop (P := true) r n v = Panic.
Proof.
  induction r as [|b r IH]; intros n v H1 H2 H3; [congruence|]. cbn [bytes_to_u32_loop].
  destruct (N.eq_dec n 4) as [->|Hn]; [reflexivity|].
  destruct (shl_w 32 b (n * 8)) as [s|]; cbn [obind]; auto. destruct (add_w 32 v s) as [w|]; cbn [obind]; auto.
  cbn [length] in H1. apply IH; try lia. destruct r; [cbn in *; lia|discriminate].
Qed.
Lemma to_u32_release r : forall n v, exists w, bytes_to_u32_loop (P := false) r n v = Ret w.
Proof.
  induction r as [|b r IH]; intros n v; cbn [bytes_to_u32_loop]; [eauto|].
  unfold shl_w, add_w, overflow_checks. destruct (n * 8 <? 32); cbn [obind];
  match goal with |- context [if ?x then _ else _] => destruct x end; cbn [obind]; auto.
Qed.
Theorem C23_panic_iff_partial : forall (P : Profile) p, octets (p_data p) ->
  (prop_data_as_int p = Panic <-> overflow_checks = true /\ (4 < length (p_data p))%nat).
Proof.
  intros P p Ho. unfold prop_data_as_int. split.
  - intro E. destruct (Nat.ltb_spec 4 (length (p_data p))).
    + split; auto. destruct P; auto. exfalso. destruct (p_data p) eqn:D; [discriminate|].
      unfold bytes_to_u32 in E. destruct (to_u32_release (rev (n :: l)) 0 0) as [w Ew]. congruence.
    + exfalso. destruct (p_data p) eqn:D; [discriminate|]. rewrite <- D in *.
      destruct (C11_int_codec_back P (p_data p) Ho ltac:(lia)) as (v & Ev & _). rewrite D in *. congruence.
  - intros [C L]. unfold overflow_checks in C. rewrite C. destruct (p_data p) eqn:D; [cbn in L; lia|].
    unfold bytes_to_u32. apply to_u32_panics; [rewrite rev_length; lia|lia|].
    intro R. apply (f_equal (@length N)) in R. rewrite rev_length in R. discriminate.
Qed.
Print Assumptions C23_panic_iff_partial.
Theorem C23_value_partial : forall (P : Profile) p, octets (p_data p) -> (length (p_data p) <= 4)%nat ->
  prop_data_as_int p = Ret (be_value (p_data p)).
Proof.
  intros P p Ho L. unfold prop_data_as_int. destruct (p_data p) as [|b d] eqn:E; [reflexivity|].
  destruct (C11_int_codec_back P (b :: d) Ho L) as (v & Ev & -> & _). exact Ev.
Qed.
Print Assumptions C23_value_partial.
Example C23_case : exists o o', ex_lamp 0 = Ret o /\ object_set_property_int (P := true) o 0xB0 0x123456 2 = Ret (o', true) /\
  object_property_data o' 0xB0 = Some [0x34; 0x56] /\ object_property_data_as_int (P := true) o' 0xB0 = Ret (Some 0x3456).
Proof. do 2 eexists. split; [vm_compute; reflexivity|]. split; [vm_compute; reflexivity|]. split; vm_compute; reflexivity. Qed.

(* ------------------------------------------------------------------ *)
(** C24: super class accessors. The standard version is false: the getter
    returns octet 0 while the setter stores the version in octet 2. *)
Theorem C24_standard_version_refuted : forall o v,
  object_has_property o 0x82 = true -> v <> 0 ->
  snd (object_set_standard_version o v) = true /\
  object_standard_version (fst (object_set_standard_version o v)) = Some 0 /\ Some 0 <> Some v.
Proof.
  intros o v H Hv. unfold object_has_property in H. destruct (object_find_property o 0x82) as [p|] eqn:E; [|discriminate].
  unfold object_set_standard_version, object_set_property_bytes, object_standard_version, object_property_data_as_byte.
  split. { unfold object_set_property_data. rewrite E. reflexivity. }
  rewrite set_data_find, E. cbn. split; [reflexivity|congruence].
Qed.
Print Assumptions C24_standard_version_refuted.
Theorem C24_accessors_partial : forall (P : Profile) o,
  (forall s, object_has_property o 0x80 = true ->
     snd (object_set_operating_status o s) = true /\
     object_operating_status (fst (object_set_operating_status o s)) = Some (if s then 0x30 else 0x31)) /\
  (forall l, object_has_property o 0x81 = true ->
     snd (object_set_installation_location o l) = true /\
     object_installation_location (fst (object_set_installation_location o l)) = Some l) /\
  (forall s, object_has_property o 0x88 = true ->
     snd (object_set_fault_status o s) = true /\
     object_fault_status (fst (object_set_fault_status o s)) = Some (if s then 0x41 else 0x42)) /\
  (forall c, object_has_property o 0x8A = true -> c < 2 ^ 32 ->
     exists o' p d, object_set_manufacturer_code o c = Ret (o', true) /\ object_manufacturer_code o' = Ret p /\
       p_data p = d /\ length d = 3%nat /\ be_value d = c mod 2 ^ 24 /\ prop_data_as_int p = Ret (c mod 2 ^ 24)) /\
  (forall v, object_has_property o 0x82 = true ->
     object_property_data (fst (object_set_standard_version o v)) 0x82 = Some [0; 0; v; 0]) /\
  (forall id, object_has_property o 0x83 = true -> object_id (fst (object_set_id o id)) = Some id).
Proof.
  intros P o.
  assert (X : forall c d, object_has_property o c = true ->
    snd (object_set_property_data o c d) = true /\
    exists p, object_find_property (fst (object_set_property_data o c d)) c = Some (prop_set_data p d)).
  { intros c d H. unfold object_has_property in H. destruct (object_find_property o c) as [p|] eqn:E; [|discriminate].
    split. { unfold object_set_property_data. rewrite E. reflexivity. }
    exists p. rewrite set_data_find, N.eqb_refl, E. reflexivity. }
  split; [|split; [|split; [|split; [|split]]]].
  - intros s H. unfold object_set_operating_status, object_set_property_byte, object_operating_status, object_property_data_as_byte.
    destruct (X _ [if s then 0x30 else 0x31] H) as [A (p & B)]. rewrite A, B. auto.
  - intros l H. unfold object_set_installation_location, object_set_property_byte, object_installation_location, object_property_data_as_byte.
    destruct (X _ [l] H) as [A (p & B)]. rewrite A, B. auto.
  - intros s H. unfold object_set_fault_status, object_set_property_byte, object_fault_status, object_property_data_as_byte.
    destruct (X _ [if s then 0x41 else 0x42] H) as [A (p & B)]. rewrite A, B. auto.
  - intros c H Hc. unfold object_has_property in H. destruct (object_find_property o 0x8A) as [p|] eqn:E; [|discriminate].
    destruct (C11_int_codec P c 3 Hc ltac:(lia)) as (bs & Eb & L & _ & V & T).
    unfold object_set_manufacturer_code, object_set_property_int. rewrite Eb. cbn [obind].
    exists (fst (object_set_property_data o 0x8A bs)), (prop_set_data p bs), bs.
    split. { unfold object_set_property_data. rewrite E. reflexivity. }
    split. { unfold object_manufacturer_code. rewrite set_data_find, E. reflexivity. }
    split; [reflexivity|]. split; auto. split; [exact V|].
    unfold prop_data_as_int. cbn [p_data prop_set_data]. destruct bs; [discriminate|exact T].
  - intros v H. unfold object_set_standard_version, object_set_property_bytes, object_property_data.
    destruct (X _ [0; 0; v; 0] H) as [A (p & B)]. rewrite B. reflexivity.
  - intros id H. unfold object_set_id, object_set_property_bytes, object_id, object_property_data.
    destruct (X _ id H) as [A (p & B)]. rewrite B. reflexivity.
Qed.
Print Assumptions C24_accessors_partial.
Example C24_case : exists o, ex_lamp 0 = Ret o /\ object_has_property o 0x80 = true /\
  object_operating_status (fst (object_set_operating_status o true)) = Some 0x30.
Proof. eexists. split; [vm_compute; reflexivity|]. split; reflexivity. Qed.

(* ------------------------------------------------------------------ *)
(** C26: enumerated values: the last one added with a code. *)
Theorem C26_find_enum : forall es c,
  prop_find_enum (fold_left prop_add_enum es prop_new) c = find (fun e => pe_code e =? c) (rev es).
Proof.
  intros es. induction es as [|e es IH] using rev_ind; intro c; [reflexivity|].
  rewrite fold_left_app, rev_app_distr. cbn [fold_left rev app find].
  unfold prop_find_enum in *. cbn [p_enums prop_add_enum prop_with_enums].
  set (m := p_enums (fold_left prop_add_enum es prop_new)) in *. clearbody m.
  unfold enum_insert. destruct (hget m (pe_code e)) as [x|] eqn:E.
  - rewrite hget_hput, E, N.eqb_sym, IH. reflexivity.
  - assert (A : forall l, hget (m ++ l) c = match hget m c with Some y => Some y | None => hget l c end).
    { clear. intro l. induction m as [|[k y] r IH]; auto. cbn. destruct (c =? k); auto. }
    rewrite A. cbn [hget]. rewrite N.eqb_sym. destruct (N.eqb_spec c (pe_code e)).
    + subst. rewrite E. rewrite N.eqb_refl. reflexivity.
    + rewrite IH. rewrite N.eqb_sym. destruct (N.eqb_spec c (pe_code e)); [congruence|].
      destruct (find (fun e0 => pe_code e0 =? c) (rev es)); reflexivity.
Qed.
Print Assumptions C26_find_enum.
(** The name is right, the description is not. *)
Theorem C26_description_refuted : exists e, penum_description e <> pe_desc e.
Proof. exists (PEnum 0x30 "on" "switched on"). discriminate. Qed.
Print Assumptions C26_description_refuted.
Theorem C26_description_partial : forall e, penum_description e = pe_desc e <-> pe_name e = pe_desc e.
Proof. intro e. unfold penum_description. tauto. Qed.
Print Assumptions C26_description_partial.
Example C26_case : prop_find_enum (fold_left prop_add_enum [PEnum 1 "a" ""; PEnum 2 "b" ""; PEnum 1 "c" ""] prop_new) 1 = Some (PEnum 1 "c" "") /\
  prop_find_enum (fold_left prop_add_enum [PEnum 1 "a" ""; PEnum 2 "b" ""; PEnum 1 "c" ""] prop_new) 3 = None.
Proof. split; reflexivity. Qed.
