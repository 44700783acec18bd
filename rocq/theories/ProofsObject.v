From Verif Require Import Base HMap ModelCodec ModelMessages DbTable MakerTable ModelObject SpecWire ProofsCodec ProofsCodec2.

(* ------------------------------------------------------------------ *)
(** * Maps *)
Section MapLemmas.
  Context {V : Type}.
  Implicit Types (m : list (N * V)) (k : N) (v : V).

  Lemma hget_in m k v : hget m k = Some v -> In (k, v) m.
  Proof.
    induction m as [|[k' v'] r IH]; simpl; [discriminate|].
    destruct (N.eqb_spec k k'); intro H; [left; congruence|right; auto].
  Qed.
  Lemma hget_none m k : hget m k = None <-> ~ In k (hkeys m).
  Proof.
    induction m as [|[k' v'] r IH]; simpl; [tauto|].
    destruct (N.eqb_spec k k'); [split; [discriminate|subst; tauto]|]. rewrite IH. intuition congruence.
  Qed.
  Lemma hget_some_key m k v : hget m k = Some v -> In k (hkeys m).
  Proof. intro H. apply hget_in in H. apply (in_map fst) in H. exact H. Qed.
  Lemma in_hget m k v : NoDup (hkeys m) -> In (k, v) m -> hget m k = Some v.
  Proof.
    induction m as [|[k' v'] r IH]; simpl; [tauto|]. intros ND H. inversion ND; subst.
    destruct H as [H|H].
    - inversion H; subst. rewrite N.eqb_refl. auto.
    - destruct (N.eqb_spec k k'); auto. subst. exfalso. apply H2. apply (in_map fst) in H. exact H.
  Qed.
  Lemma hget_perm m m' k : NoDup (hkeys m) -> Permutation m m' -> hget m k = hget m' k.
  Proof.
    intros ND P. assert (ND' : NoDup (hkeys m')).
    { eapply Permutation_NoDup; [|exact ND]. apply Permutation_map. exact P. }
    destruct (hget m k) as [v|] eqn:E.
    - symmetry. apply in_hget; auto. eapply Permutation_in; [exact P|]. apply hget_in; auto.
    - symmetry. apply hget_none. apply hget_none in E. intro H. apply E.
      eapply Permutation_in; [|exact H]. apply Permutation_map. apply Permutation_sym. exact P.
  Qed.
  Lemma hkeys_hput m k v : hkeys (hput m k v) = hkeys m.
  Proof.
    induction m as [|[k' v'] r IH]; simpl; auto.
    destruct (N.eqb_spec k k'); simpl; [subst; auto|]. f_equal. exact IH.
  Qed.
  Lemma hget_hput m k v k' :
    hget (hput m k v) k' = if k' =? k then match hget m k with Some _ => Some v | None => None end else hget m k'.
  Proof.
    induction m as [|[a b] r IH]; simpl.
    - destruct (k' =? k); auto.
    - destruct (N.eqb_spec k a); simpl.
      + subst. destruct (N.eqb_spec k' a); auto.
      + rewrite IH. destruct (N.eqb_spec k' k); subst.
        * destruct (N.eqb_spec k a); [congruence|auto].
        * destruct (N.eqb_spec k' a); auto.
  Qed.
  Lemma hput_in m k v k' v' : In (k', v') (hput m k v) -> In (k', v') m \/ (k' = k /\ v' = v).
  Proof.
    induction m as [|[a b] r IH]; simpl; auto.
    destruct (N.eqb_spec k a); simpl; intros [H|H]; auto.
    - inversion H; subst; auto.
    - apply IH in H. tauto.
  Qed.

  Context {HO : HashOrder}.
  Lemma hor_insert_keys s m k v :
    Permutation (hkeys (hor_insert s m k v)) (match hget m k with Some _ => hkeys m | None => k :: hkeys m end).
  Proof.
    unfold hor_insert. destruct (hget m k); auto.
    change (k :: hkeys m) with (hkeys ((k, v) :: m)). apply Permutation_sym, Permutation_map, reorder_perm.
  Qed.
  Lemma hor_insert_nodup s m k v : NoDup (hkeys m) -> NoDup (hkeys (hor_insert s m k v)).
  Proof.
    intro ND. eapply Permutation_NoDup; [apply Permutation_sym, hor_insert_keys|].
    destruct (hget m k) eqn:E; auto. constructor; auto. apply hget_none; auto.
  Qed.
  Lemma hget_hor_insert s m k v k' : NoDup (hkeys m) ->
    hget (hor_insert s m k v) k' =
    match hget m k' with Some x => Some x | None => if k' =? k then Some v else None end.
  Proof.
    intro ND. unfold hor_insert. destruct (hget m k) as [x|] eqn:E.
    - destruct (hget m k') eqn:E'; auto. destruct (N.eqb_spec k' k); auto. congruence.
    - rewrite <- (hget_perm ((k, v) :: m)).
      + simpl. destruct (N.eqb_spec k' k); [subst; rewrite E|destruct (hget m k')]; auto.
      + simpl. constructor; auto. apply hget_none; auto.
      + apply reorder_perm.
  Qed.
  Lemma hor_insert_in s m k v k' v' :
    In (k', v') (hor_insert s m k v) -> In (k', v') m \/ (k' = k /\ v' = v).
  Proof.
    unfold hor_insert. destruct (hget m k); auto. intro H.
    eapply Permutation_in in H; [|apply Permutation_sym, reorder_perm].
    destruct H as [H|H]; auto. inversion H; auto.
  Qed.
End MapLemmas.

(* ------------------------------------------------------------------ *)
(** * Well-formed objects *)

(** Every property is filed under its own code, codes are distinct octets. *)
Record obj_wf (o : object) : Prop := {
  ow_nodup : NoDup (hkeys (o_props o));
  ow_keyed : forall k p, In (k, p) (o_props o) -> p_code p = k /\ k < 256 }.

Lemma find_code o c p : obj_wf o -> object_find_property o c = Some p -> p_code p = c /\ c < 256.
Proof. intros W H. apply hget_in in H. apply W in H. exact H. Qed.

Lemma set_data_find o c d c' :
  object_find_property (fst (object_set_property_data o c d)) c' =
  if c' =? c then option_map (fun p => prop_set_data p d) (object_find_property o c) else object_find_property o c'.
Proof.
  unfold object_set_property_data. destruct (object_find_property o c) as [p|] eqn:E; cbn [fst].
  - unfold object_find_property in *. cbn [o_props obj_with_props]. rewrite hget_hput, E.
    destruct (N.eqb_spec c' c); auto.
  - destruct (N.eqb_spec c' c); subst; auto.
Qed.
Lemma set_data_meta o c d :
  let o' := fst (object_set_property_data o c d) in
  o_codes o' = o_codes o /\ o_name o' = o_name o /\ o_class_name o' = o_class_name o /\ o_seed o' = o_seed o /\
  hkeys (o_props o') = hkeys (o_props o).
Proof.
  unfold object_set_property_data. destruct (object_find_property o c); cbn -[hkeys hput]; auto 10. rewrite hkeys_hput. auto 10.
Qed.
Lemma set_data_wf o c d : obj_wf o -> obj_wf (fst (object_set_property_data o c d)).
Proof.
  intros [W1 W2]. unfold object_set_property_data. destruct (object_find_property o c) as [p|] eqn:E; cbn [fst].
  - constructor; cbn [o_props obj_with_props].
    + rewrite hkeys_hput; auto.
    + intros k q H. apply hput_in in H as [H|[-> ->]]; auto. apply hget_in in E. apply W2 in E. exact E.
  - constructor; auto.
Qed.

(** Everything of a property except its data. *)
Definition same_meta (p q : prop) : Prop := q = prop_set_data p (p_data q).
Lemma same_meta_refl p : same_meta p p.
Proof. destruct p; reflexivity. Qed.
Lemma same_meta_set p d : same_meta p (prop_set_data p d).
Proof. reflexivity. Qed.
Lemma same_meta_trans p q r : same_meta p q -> same_meta q r -> same_meta p r.
Proof. unfold same_meta. intros -> ->. reflexivity. Qed.

(** set_property_data keeps the selection of codes by attribute. *)
Lemma hput_data_filter (sel : prop -> bool) : (forall p d, sel (prop_set_data p d) = sel p) ->
  forall m c p d, hget m c = Some p ->
  map p_code (filter sel (hvalues (hput m c (prop_set_data p d)))) = map p_code (filter sel (hvalues m)).
Proof.
  intros S m c p d. induction m as [|[k q] r IH]; simpl; auto.
  destruct (N.eqb_spec c k); intro H.
  - inversion H; subst. simpl. rewrite S. destruct (sel p); reflexivity.
  - simpl. destruct (sel q); simpl; rewrite <- IH; auto.
Qed.
Definition selected (sel : prop -> bool) (o : object) : list N := map p_code (filter sel (object_properties o)).
Lemma set_data_selected sel o c d : (forall p d, sel (prop_set_data p d) = sel p) ->
  selected sel (fst (object_set_property_data o c d)) = selected sel o.
Proof.
  intro S. unfold object_set_property_data, selected, object_properties.
  destruct (object_find_property o c) as [p|] eqn:E; cbn [fst]; auto.
  cbn [o_props obj_with_props]. apply hput_data_filter; auto.
Qed.
Lemma sel_read p d : prop_is_readable (prop_set_data p d) = prop_is_readable p. Proof. reflexivity. Qed.
Lemma sel_write p d : prop_is_writable (prop_set_data p d) = prop_is_writable p. Proof. reflexivity. Qed.
Lemma sel_anno p d : prop_is_announceable (prop_set_data p d) = prop_is_announceable p. Proof. reflexivity. Qed.

Lemma selected_in sel o c : obj_wf o ->
  (In c (selected sel o) <-> exists p, object_find_property o c = Some p /\ sel p = true).
Proof.
  intros W. unfold selected, object_properties, hvalues. rewrite in_map_iff. split.
  - intros (p & <- & H). apply filter_In in H as [H S]. apply in_map_iff in H as ([k q] & E & H). simpl in E. subst q.
    exists p. split; auto. destruct (ow_keyed o W k p H) as [-> _]. apply in_hget; auto. apply W.
  - intros (p & E & S). exists p. destruct (find_code o c p W E) as [<- _]. split; auto.
    apply filter_In. split; auto. apply in_map_iff. exists (p_code p, p). split; auto. apply hget_in. exact E.
Qed.
Lemma selected_nodup sel o : obj_wf o -> NoDup (selected sel o).
Proof.
  intros [W1 W2]. unfold selected, object_properties.
  assert (X : map p_code (hvalues (o_props o)) = hkeys (o_props o)).
  { unfold hvalues, hkeys. rewrite map_map. apply map_ext_in. intros [k p] H. apply W2 in H. simpl. tauto. }
  rewrite <- X in W1. revert W1. generalize (hvalues (o_props o)). clear.
  induction l as [|p l IH]; simpl; intro H; [constructor|]. inversion H; subst.
  destruct (sel p); auto. simpl. constructor; auto.
  intro I. apply H2. apply in_map_iff in I as (q & E & I). apply filter_In in I. rewrite <- E. apply in_map. tauto.
Qed.

(* ------------------------------------------------------------------ *)
(** * Property maps *)

(** The three map properties and what they list. *)
Definition map_sel (c : N) : option (prop -> bool) :=
  if c =? 0x9F then Some prop_is_readable
  else if c =? 0x9E then Some prop_is_writable
  else if c =? 0x9D then Some prop_is_announceable
  else None.
Definition is_map_code (c : N) : bool := (c =? 0x9D) || (c =? 0x9E) || (c =? 0x9F).

Lemma map_sel_meta c sel : map_sel c = Some sel -> forall p d, sel (prop_set_data p d) = sel p.
Proof.
  unfold map_sel. destruct (c =? 0x9F), (c =? 0x9E), (c =? 0x9D); intro H; inversion H; reflexivity.
Qed.

Section Maps.
  Context {P : Profile}.

  Lemma testbit_step b b' : b < 8 -> N.testbit (N.land (N.shiftl 1 b mod 2 ^ 8) 0x0F) b' = (b' =? b) && (b <? 4).
  Proof.
    intro H. rewrite N.land_spec, N.shiftl_1_l. change 0x0F with (N.ones 4).
    rewrite N.mod_small by (apply N.pow_lt_mono_r; lia).
    rewrite N.pow2_bits_eqb. destruct (N.eqb_spec b b') as [->|E].
    - rewrite N.eqb_refl. cbn [andb]. destruct (N.ltb_spec b' 4).
      + rewrite N.ones_spec_low; auto.
      + rewrite N.ones_spec_high; auto.
    - cbn [andb]. destruct (N.eqb_spec b' b); auto. congruence.
  Qed.

  Lemma nth_upd (l : list N) i x l' j : upd l i x = Ret l' ->
    length l' = length l /\ nth j l' 0 = if Nat.eqb j i then x else nth j l 0.
  Proof.
    unfold upd. destruct (Nat.ltb_spec i (length l)); [|discriminate]. intro E.
    assert (l' = firstn i l ++ x :: skipn (S i) l) as -> by congruence. clear E.
    assert (L : length (firstn i l) = i) by (rewrite firstn_length; lia). split.
    - rewrite app_length, L. cbn [length]. rewrite skipn_length. lia.
    - destruct (Nat.eqb_spec j i).
      + subst j. rewrite app_nth2 by lia. rewrite L, Nat.sub_diag. reflexivity.
      + destruct (Nat.ltb_spec j i).
        * rewrite app_nth1 by lia. rewrite <- (firstn_skipn i l) at 2. rewrite app_nth1 by lia. reflexivity.
        * rewrite app_nth2 by lia. rewrite L. destruct (j - i)%nat as [|n'] eqn:E; [lia|]. cbn [nth].
          rewrite <- (firstn_skipn (S i) l) at 2. rewrite app_nth2 by (rewrite firstn_length; lia).
          rewrite firstn_length. f_equal. lia.
  Qed.

  (** Membership of [c] in a bitmap. *)
  Definition bit_of (mb : list N) (c : N) : bool :=
    N.testbit (nth (S (N.to_nat (c mod 16))) mb 0) ((c - 128) / 16).

  Definition std_codes (l : list N) : Prop := Forall (fun c => 128 <= c /\ c < 256) l.

  Lemma property_map_bits_spec codes : forall mb, std_codes codes -> length mb = 17%nat ->
    exists mb', property_map_bits codes mb = Ret mb' /\ length mb' = 17%nat /\ nth 0 mb' 0 = nth 0 mb 0 /\
      forall c, 128 <= c -> c < 256 ->
        bit_of mb' c = bit_of mb c || (existsb (N.eqb c) codes && (c <? 0xC0)).
  Proof.
    induction codes as [|a r IH]; intros mb F L.
    - exists mb. cbn. repeat split; auto. intros. rewrite orb_false_r. reflexivity.
    - inversion F as [|? ? [Ha1 Ha2] Fr]; subst. cbn [property_map_bits].
      unfold sub_w. replace (0x80 <=? a) with true by lia. cbn [obind].
      assert (E1 : N.land (a - 0x80) 0x0F = a mod 16).
      { change 0x0F with (N.ones 4). rewrite N.land_ones. change (2 ^ 4) with 16. lia. }
      assert (E2 : N.land (N.shiftr (N.land (a - 0x80) 0xF0) 4) 0x0F = (a - 128) / 16).
      { change 0xF0 with (N.shiftl (N.ones 4) 4). rewrite N.shiftr_land, N.shiftr_shiftl_l, N.sub_diag, N.shiftl_0_r by lia.
        change 0x0F with (N.ones 4). rewrite !N.land_ones, N.shiftr_div_pow2. change (2 ^ 4) with 16. lia. }
      rewrite E1, E2. unfold shl_w. replace ((a - 128) / 16 <? 8) with true by lia. cbn [obind].
      set (row := N.to_nat (a mod 16 + 1)).
      assert (R : (row < 17)%nat) by (unfold row; lia).
      unfold idx. destruct (nth_error mb row) as [old|] eqn:En; [|apply nth_error_None in En; lia]. cbn [obind].
      set (x := N.lor old _).
      destruct (upd mb row x) as [mb1|] eqn:U.
      2:{ unfold upd in U. destruct (Nat.ltb_spec row (length mb)); [discriminate|lia]. }
      cbn [obind]. destruct (IH mb1 Fr) as (mb' & E & L' & N0 & B).
      { destruct (nth_upd _ _ _ _ 0 U). congruence. }
      exists mb'. rewrite E. split; auto. split; auto. split.
      { rewrite N0. destruct (nth_upd _ _ _ _ 0 U) as [_ ->]. destruct (Nat.eqb_spec 0 row); auto. unfold row in *. lia. }
      intros c Hc1 Hc2. rewrite B by auto. cbn [existsb].
      assert (S1 : bit_of mb1 c = bit_of mb c || ((c =? a) && (c <? 0xC0))).
      { unfold bit_of. destruct (nth_upd _ _ _ _ (S (N.to_nat (c mod 16))) U) as [_ ->].
        destruct (Nat.eqb_spec (S (N.to_nat (c mod 16))) row) as [Er|Er].
        - unfold x. rewrite N.lor_spec, testbit_step by lia.
          assert (old = nth row mb 0) as ->. { symmetry. apply nth_error_nth. exact En. }
          rewrite Er. f_equal. unfold row in Er.
          destruct (N.eqb_spec ((c - 128) / 16) ((a - 128) / 16)); destruct (N.eqb_spec c a); destruct (N.ltb_spec ((a - 128) / 16) 4); destruct (N.ltb_spec c 0xC0); simpl; auto; lia.
        - destruct (N.eqb_spec c a); [unfold row in Er; subst; lia|]. simpl. rewrite orb_false_r. reflexivity. }
      rewrite S1. destruct (bit_of mb c), (c =? a), (existsb (N.eqb c) r), (c <? 0xC0); reflexivity.
  Qed.

  Lemma bit_of_zero n c : bit_of (n :: repeat 0 16) c = false.
  Proof.
    unfold bit_of. cbn [nth]. assert (H : forall k i, nth i (repeat 0 k) 0 = 0).
    { induction k as [|k IH]; destruct i; simpl; auto. }
    rewrite H. apply N.bits_0.
  Qed.

  Lemma existsb_eqb c l : existsb (N.eqb c) l = true <-> In c l.
  Proof.
    rewrite existsb_exists. split.
    - intros (x & I & E). apply N.eqb_eq in E. congruence.
    - intro I. exists c. rewrite N.eqb_refl. auto.
  Qed.

  (** Bitmap form: exactly the codes below 0xC0. *)
  Lemma to_map_long l : std_codes l -> (16 <= length l)%nat ->
    exists mb, to_property_map_bytes l = Ret mb /\ length mb = 17%nat /\ nth 0 mb 0 = N.of_nat (length l) mod 256 /\
      forall c, 128 <= c -> c < 256 -> (bit_of mb c = true <-> In c l /\ c < 0xC0).
  Proof.
    intros F L. unfold to_property_map_bytes. destruct (Nat.leb_spec (length l) 15); [lia|].
    destruct (property_map_bits_spec l (len_u8 l :: repeat 0 16) F) as (mb & E & L' & N0 & B).
    { cbn [length]. rewrite repeat_length. auto. }
    exists mb. repeat split; auto.
    - rewrite B, bit_of_zero in H2 by auto. simpl in H2. apply andb_prop in H2 as [H2 _]. apply existsb_eqb. auto.
    - rewrite B, bit_of_zero in H2 by auto. simpl in H2. apply andb_prop in H2 as [_ H2]. lia.
    - intros [I Hc]. rewrite B, bit_of_zero by auto. simpl. apply andb_true_intro. split; [apply existsb_eqb; auto|lia].
  Qed.

  (** No panic in release builds, nor with codes of the ECHONET range. *)
  Lemma to_map_total l : (std_codes l \/ (length l <= 15)%nat) -> exists mb, to_property_map_bytes l = Ret mb.
  Proof.
    intros [F|L].
    - destruct (Nat.leb_spec (length l) 15).
      + unfold to_property_map_bytes. destruct (Nat.leb_spec (length l) 15); [eauto|lia].
      + destruct (to_map_long l F) as (mb & E & _); [lia|eauto].
    - unfold to_property_map_bytes. destruct (Nat.leb_spec (length l) 15); [eauto|lia].
  Qed.

  (** Effect of update_property_maps. *)
  Definition fresh (o : object) : Prop := forall c sel p, map_sel c = Some sel ->
    object_find_property o c = Some p -> to_property_map_bytes (selected sel o) = Ret (p_data p).

  Lemma update_maps_spec o o' : obj_wf o -> object_update_property_maps o = Ret o' ->
    obj_wf o' /\ fresh o' /\ hkeys (o_props o') = hkeys (o_props o) /\
    o_codes o' = o_codes o /\ o_name o' = o_name o /\ o_class_name o' = o_class_name o /\ o_seed o' = o_seed o /\
    (forall c, is_map_code c = false -> object_find_property o' c = object_find_property o c) /\
    (forall c p, object_find_property o c = Some p -> exists d, object_find_property o' c = Some (prop_set_data p d)).
  Proof.
    intros W. unfold object_update_property_maps.
    fold (selected prop_is_readable o). fold (selected prop_is_writable o). fold (selected prop_is_announceable o).
    destruct (to_property_map_bytes (selected prop_is_readable o)) as [b1|] eqn:E1; cbn [obind]; [|discriminate].
    destruct (to_property_map_bytes (selected prop_is_writable o)) as [b2|] eqn:E2; cbn [obind]; [|discriminate].
    destruct (to_property_map_bytes (selected prop_is_announceable o)) as [b3|] eqn:E3; cbn [obind]; [|discriminate].
    intro E; inversion E; subst; clear E.
    set (o1 := fst (object_set_property_data o 0x9F b1)).
    set (o2 := fst (object_set_property_data o1 0x9E b2)).
    set (o3 := fst (object_set_property_data o2 0x9D b3)).
    assert (W1 : obj_wf o1) by (apply set_data_wf; auto).
    assert (W2 : obj_wf o2) by (apply set_data_wf; auto).
    assert (W3 : obj_wf o3) by (apply set_data_wf; auto).
    assert (S : forall sel, (forall p d, sel (prop_set_data p d) = sel p) -> selected sel o3 = selected sel o).
    { intros sel Hs. unfold o3, o2, o1. rewrite !set_data_selected by auto. reflexivity. }
    assert (Fd : forall c, object_find_property o3 c =
      option_map (fun p => if c =? 0x9F then prop_set_data p b1 else if c =? 0x9E then prop_set_data p b2 else if c =? 0x9D then prop_set_data p b3 else p)
        (object_find_property o c)).
    { intro c. unfold o3, o2, o1. rewrite !set_data_find.
      destruct (N.eqb_spec c 0x9D); [subst; cbn -[object_find_property]; destruct (object_find_property o 157); reflexivity|].
      destruct (N.eqb_spec c 0x9E); [subst; cbn -[object_find_property]; destruct (object_find_property o 158); reflexivity|].
      destruct (N.eqb_spec c 0x9F); [subst; destruct (object_find_property o 159); reflexivity|].
      destruct (object_find_property o c); reflexivity. }
    pose proof (set_data_meta o 0x9F b1) as M1. fold o1 in M1.
    pose proof (set_data_meta o1 0x9E b2) as M2. fold o2 in M2.
    pose proof (set_data_meta o2 0x9D b3) as M3. fold o3 in M3.
    cbv zeta in M1, M2, M3.
    destruct M1 as (A1 & A2 & A3 & A4 & A5), M2 as (B1 & B2 & B3 & B4 & B5), M3 as (C1 & C2 & C3 & C4 & C5).
    split; auto. split.
    - intros c sel p M Hf. rewrite S by (eapply map_sel_meta; eauto). rewrite Fd in Hf. unfold map_sel in M.
      destruct (object_find_property o c) as [q|]; [|discriminate]. cbn in Hf. inversion Hf; subst; clear Hf.
      destruct (c =? 0x9F); [inversion M; subst; exact E1|].
      destruct (c =? 0x9E); [inversion M; subst; exact E2|].
      destruct (c =? 0x9D); [inversion M; subst; exact E3|discriminate].
    - repeat split; try congruence.
      + intros c Hc. rewrite Fd. unfold is_map_code in Hc.
        destruct (c =? 0x9D), (c =? 0x9E), (c =? 0x9F); try discriminate. destruct (object_find_property o c); reflexivity.
      + intros c p Hf. rewrite Fd, Hf. cbn.
        destruct (c =? 0x9F); [eauto|]. destruct (c =? 0x9E); [eauto|]. destruct (c =? 0x9D); [eauto|].
        exists (p_data p). destruct p; reflexivity.
  Qed.

  Lemma update_maps_total o : obj_wf o -> (forall k, In k (hkeys (o_props o)) -> 0x80 <= k) ->
    exists o', object_update_property_maps o = Ret o'.
  Proof.
    intros W H. assert (F : forall sel, std_codes (selected sel o)).
    { intro sel. apply Forall_forall. intros c I. apply selected_in in I as (p & Hf & _); auto.
      destruct (find_code o c p W Hf). split; [|lia]. apply H. eapply hget_some_key; exact Hf. }
    unfold object_update_property_maps.
    destruct (to_map_total (selected prop_is_readable o) (or_introl (F _))) as [b1 E1].
    destruct (to_map_total (selected prop_is_writable o) (or_introl (F _))) as [b2 E2].
    destruct (to_map_total (selected prop_is_announceable o) (or_introl (F _))) as [b3 E3].
    unfold selected in *. rewrite E1. cbn [obind]. rewrite E2. cbn [obind]. rewrite E3. cbn [obind]. eauto.
  Qed.

  Lemma set_data_fresh o c d : is_map_code c = false -> fresh o -> fresh (fst (object_set_property_data o c d)).
  Proof.
    intros Hc F c' sel p M Hf. rewrite set_data_selected by (eapply map_sel_meta; eauto).
    rewrite set_data_find in Hf. destruct (N.eqb_spec c' c).
    - subst. exfalso. unfold map_sel in M. unfold is_map_code in Hc.
      destruct (c =? 0x9F), (c =? 0x9E), (c =? 0x9D); discriminate.
    - eapply F; eauto.
  Qed.

  Context {HO : HashOrder}.

  Lemma add_property_pre o p : obj_wf o -> p_code p < 256 ->
    obj_wf (obj_with_props o (hor_insert (o_seed o) (o_props o) (p_code p) p)).
  Proof.
    intros [W1 W2] H. constructor; cbn [o_props obj_with_props].
    - apply hor_insert_nodup; auto.
    - intros k q I. apply hor_insert_in in I as [I|[-> ->]]; auto.
  Qed.

  (** Effect of add_property. *)
  Lemma add_property_spec o p o' : obj_wf o -> p_code p < 256 -> object_add_property o p = Ret o' ->
    obj_wf o' /\ fresh o' /\
    Permutation (hkeys (o_props o')) (if object_has_property o (p_code p) then hkeys (o_props o) else p_code p :: hkeys (o_props o)) /\
    o_codes o' = o_codes o /\ o_name o' = o_name o /\ o_class_name o' = o_class_name o /\ o_seed o' = o_seed o /\
    (forall c, is_map_code c = false -> object_find_property o' c =
       match object_find_property o c with Some q => Some q | None => if c =? p_code p then Some p else None end) /\
    (forall c, option_map (fun q => prop_set_data q []) (object_find_property o' c) =
       option_map (fun q => prop_set_data q [])
         (match object_find_property o c with Some q => Some q | None => if c =? p_code p then Some p else None end)).
  Proof.
    intros W Hc E. unfold object_add_property in E. pose proof (add_property_pre o p W Hc) as W'.
    destruct (update_maps_spec _ _ W' E) as (A & B & C & D1 & D2 & D3 & D4 & F & G).
    assert (Fi : forall c, object_find_property (obj_with_props o (hor_insert (o_seed o) (o_props o) (p_code p) p)) c =
       match object_find_property o c with Some q => Some q | None => if c =? p_code p then Some p else None end).
    { intro c. unfold object_find_property. cbn [o_props obj_with_props]. apply hget_hor_insert. apply W. }
    split; auto. split; auto. split; [|split; [|split; [|split; [|split; [|split]]]]]; auto.
    - rewrite C. cbn [o_props obj_with_props]. unfold object_has_property, object_find_property.
      eapply Permutation_trans; [apply hor_insert_keys|]. destruct (hget (o_props o) (p_code p)); auto.
    - intros c H. rewrite F, Fi by auto. reflexivity.
    - intro c. rewrite <- Fi. destruct (object_find_property (obj_with_props _ _) c) as [q|] eqn:Eq.
      + destruct (G c q Eq) as [d ->]. reflexivity.
      + assert (object_find_property o' c = None) as ->; auto.
        unfold object_find_property in *. apply hget_none. rewrite C. apply hget_none. exact Eq.
  Qed.

  Lemma add_property_total o p : obj_wf o -> p_code p < 256 -> 0x80 <= p_code p ->
    (forall k, In k (hkeys (o_props o)) -> 0x80 <= k) -> exists o', object_add_property o p = Ret o'.
  Proof.
    intros W H1 H2 H3. apply update_maps_total; [apply add_property_pre; auto|].
    cbn [o_props obj_with_props]. intros k I.
    eapply Permutation_in in I; [|apply hor_insert_keys].
    destruct (hget (o_props o) (p_code p)); auto. destruct I as [<-|I]; auto.
  Qed.
End Maps.

(* ------------------------------------------------------------------ *)
(** * Cloning properties *)

Lemma enum_insert_new m k e : ~ In k (hkeys m) -> enum_insert m k e = m ++ [(k, e)].
Proof. intro H. unfold enum_insert. apply hget_none in H. rewrite H. reflexivity. Qed.

(** Enumerated values filed under their code, without duplicates. *)
Definition enums_wf (m : list (N * penum)) : Prop :=
  NoDup (hkeys m) /\ forall k e, In (k, e) m -> pe_code e = k.

Lemma prop_clone_aux es : forall p acc, enums_wf (acc ++ es) -> p_enums p = acc ->
  fold_left prop_add_enum (hvalues es) p = prop_with_enums p (acc ++ es).
Proof.
  induction es as [|[k e] es IH]; intros p acc W E; simpl.
  - rewrite app_nil_r, <- E. destruct p; reflexivity.
  - destruct W as [W1 W2].
    assert (K : pe_code e = k) by (apply W2, in_or_app; right; left; auto).
    unfold prop_add_enum at 2. rewrite E, K, enum_insert_new.
    + rewrite IH with (acc := acc ++ [(k, e)]).
      * rewrite <- app_assoc. destruct p; reflexivity.
      * rewrite <- app_assoc. split; auto.
      * reflexivity.
    + unfold hkeys in *. rewrite map_app in W1. simpl in W1. apply NoDup_remove_2 in W1.
      intro I. apply W1. apply in_or_app. auto.
Qed.
Lemma prop_clone_id p : enums_wf (p_enums p) -> prop_clone p = p.
Proof.
  intro W. unfold prop_clone. rewrite prop_clone_aux with (acc := []); auto.
  destruct p; reflexivity.
Qed.
Lemma enum_insert_wf m e : enums_wf m -> enums_wf (enum_insert m (pe_code e) e).
Proof.
  intros [W1 W2]. unfold enum_insert. destruct (hget m (pe_code e)) as [x|] eqn:E.
  - split; [rewrite hkeys_hput; auto|]. intros k y I. apply hput_in in I as [I|[-> ->]]; auto.
  - split.
    + unfold hkeys. rewrite map_app. simpl. eapply Permutation_NoDup; [apply Permutation_cons_append|].
      constructor; auto. apply hget_none; auto.
    + intros k y I. apply in_app_or in I as [I|[I|[]]]; auto. inversion I; subst; auto.
Qed.
Lemma add_enums_wf es : forall p, enums_wf (p_enums p) -> enums_wf (p_enums (fold_left prop_add_enum es p)).
Proof.
  induction es as [|e es IH]; intros p W; simpl; auto. apply IH. cbn. apply enum_insert_wf. auto.
Qed.
