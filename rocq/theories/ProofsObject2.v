From Verif Require Import Base HMap ModelCodec ModelMessages DbTable MakerTable ModelObject SpecWire SpecObject ProofsCodec ProofsCodec2 ProofsObject.

Lemma is_map_code_spec c : is_map_code c = true <-> map_code c.
Proof. unfold is_map_code, map_code. lia. Qed.
Lemma is_map_code_false c : is_map_code c = false <-> ~ map_code c.
Proof. unfold is_map_code, map_code. lia. Qed.

Record prop_ok (p : prop) : Prop := { po_code : p_code p < 256; po_data : octets (p_data p); po_enums : enums_wf (p_enums p) }.
Lemma prop_built_ok p : prop_built p -> prop_ok p.
Proof.
  induction 1; try (destruct IHprop_built as [A B C]; constructor; cbn; auto; fail).
  - constructor; cbn; try lia; [constructor|]. split; [constructor|intros ? ? []].
  - destruct IHprop_built as [A B C]. constructor; cbn; auto. apply enum_insert_wf. auto.
Qed.
Lemma prop_set_data_ok p d : prop_ok p -> octets d -> prop_ok (prop_set_data p d).
Proof. intros [A B C] H. constructor; auto. Qed.

Lemma same_strip p q : prop_set_data p [] = prop_set_data q [] <-> same_attributes p q.
Proof.
  destruct p, q; unfold prop_set_data, same_attributes; cbn. split.
  - intro E; inversion E; subst; auto 10.
  - intros (-> & -> & -> & -> & -> & -> & -> & ->). reflexivity.
Qed.
Lemma same_attributes_refl p : same_attributes p p. Proof. apply same_strip. reflexivity. Qed.
Lemma same_attributes_sym p q : same_attributes p q -> same_attributes q p.
Proof. rewrite <- !same_strip. auto. Qed.
Lemma same_attributes_trans p q r : same_attributes p q -> same_attributes q r -> same_attributes p r.
Proof. rewrite <- !same_strip. congruence. Qed.

Section S.
  Context {P : Profile} {HO : HashOrder}.

  Definition props_ok (o : object) : Prop := forall c p, object_find_property o c = Some p -> prop_ok p.
  (** Invariant of API-built objects. *)
  Record obj_ok (o : object) : Prop := { oo_wf : obj_wf o; oo_fresh : fresh o; oo_props : props_ok o }.

  Lemma obj_ok_props o o' : o_props o' = o_props o -> obj_ok o -> obj_ok o'.
  Proof.
    intros E [[W1 W2] F Q]. constructor.
    - constructor; rewrite E; auto.
    - intros c sel p M. unfold selected, object_properties, object_find_property. rewrite E. apply (F c sel p M).
    - intros c p. unfold object_find_property. rewrite E. apply Q.
  Qed.

  (** The data that update_property_maps stores are octets. *)
  Lemma lor_octet a b : a < 256 -> b < 256 -> N.lor a b < 256.
  Proof.
    intros Ha Hb. destruct (N.eq_dec (N.lor a b) 0) as [->|Hz]; [lia|].
    apply N.log2_lt_pow2 with (b := 8); [lia|]. rewrite N.log2_lor.
    assert (X : forall x, x < 256 -> N.log2 x < 8).
    { intros x Hx. destruct (N.eq_dec x 0) as [->|]; [reflexivity|]. apply N.log2_lt_pow2; [lia|exact Hx]. }
    apply N.max_lub_lt; auto.
  Qed.
  Lemma upd_octets l i x l' : octets l -> octet x -> upd l i x = Ret l' -> octets l'.
  Proof.
    intros Hl Hx. unfold upd. destruct (Nat.ltb i (length l)); [|discriminate]. intro E.
    assert (l' = firstn i l ++ x :: skipn (S i) l) as -> by congruence.
    apply Forall_app. split; [|constructor; auto].
    - rewrite <- (firstn_skipn i l) in Hl. apply Forall_app in Hl. tauto.
    - rewrite <- (firstn_skipn (S i) l) in Hl. apply Forall_app in Hl. tauto.
  Qed.
  Lemma map_bits_octets codes : forall mb mb', octets mb -> property_map_bits codes mb = Ret mb' -> octets mb'.
  Proof.
    induction codes as [|c r IH]; intros mb mb' Ho; cbn [property_map_bits].
    - intro E; inversion E; subst; auto.
    - destruct (sub_w 8 c 128) as [d|]; cbn [obind]; [|discriminate].
      destruct (shl_w 8 1 _) as [s|]; cbn [obind]; [|discriminate].
      unfold idx. destruct (nth_error mb _) as [old|] eqn:En; cbn [obind]; [|discriminate].
      destruct (upd mb _ _) as [mb1|] eqn:U; cbn [obind]; [|discriminate].
      apply IH. eapply upd_octets; eauto. apply lor_octet.
      + apply nth_error_In in En. exact (proj1 (Forall_forall _ _) Ho _ En).
      + change 0x0F with (N.ones 4). rewrite N.land_ones. change (2 ^ 4) with 16. lia.
  Qed.
  Lemma to_map_octets l bs : octets l -> to_property_map_bytes l = Ret bs -> octets bs.
  Proof.
    unfold to_property_map_bytes. intros Hl. destruct (Nat.leb (length l) 15).
    - intro E; inversion E; subst. constructor; auto. unfold len_u8, as_u8, octet. lia.
    - apply map_bits_octets. constructor; [unfold len_u8, as_u8, octet; lia|].
      apply Forall_forall. intros x I. apply repeat_spec in I. subst. unfold octet. lia.
  Qed.
  Lemma selected_octets sel o : obj_wf o -> octets (selected sel o).
  Proof.
    intro W. apply Forall_forall. intros c I. apply selected_in in I as (p & F & _); auto.
    destruct (find_code o c p W F). exact H0.
  Qed.

  Lemma add_property_ok o p o' : obj_ok o -> prop_ok p -> object_add_property o p = Ret o' -> obj_ok o'.
  Proof.
    intros [W F Q] Hp E. destruct (add_property_spec o p o' W (po_code p Hp) E) as (A & B & C & _ & _ & _ & _ & D & G).
    constructor; auto. intros c q Hf. specialize (G c).
    assert (D' : is_map_code c = false -> object_find_property o' c = match object_find_property o c with Some q0 => Some q0 | None => if c =? p_code p then Some p else None end) by auto.
    clear D. revert G D'.
    remember (match object_find_property o c with Some q0 => Some q0 | None => if c =? p_code p then Some p else None end) as src eqn:Es.
    intros G D.
    assert (Hs : forall x, src = Some x -> prop_ok x).
    { rewrite Es. intros x Hx. destruct (object_find_property o c) eqn:E1.
      - inversion Hx; subst. eapply Q; eauto.
      - destruct (c =? p_code p); [inversion Hx; subst; auto|discriminate]. }
    rewrite Hf in G. destruct src as [x|]; [|discriminate]. cbn [option_map] in G. specialize (Hs x eq_refl).
    assert (S : prop_set_data q [] = prop_set_data x []) by congruence. apply same_strip in S.
    destruct S as (S1 & _ & _ & _ & _ & _ & _ & S8). destruct Hs as [H1 H2 H3].
    constructor; try congruence. destruct (is_map_code c) eqn:Mc.
    - unfold is_map_code in Mc.
      assert (exists sel, map_sel c = Some sel) as [sel Ms].
      { unfold map_sel. destruct (c =? 0x9F); [eauto|]. destruct (c =? 0x9E); [eauto|]. destruct (c =? 0x9D); [eauto|discriminate]. }
      specialize (B c sel q Ms Hf). eapply to_map_octets; [|exact B]. apply selected_octets. auto.
    - rewrite D in Hf by auto. congruence.
  Qed.
  Lemma set_data_ok o c d : obj_ok o -> ~ map_code c -> octets d -> obj_ok (fst (object_set_property_data o c d)).
  Proof.
    intros [W F Q] Hc Hd. apply is_map_code_false in Hc. constructor.
    - apply set_data_wf; auto.
    - apply set_data_fresh; auto.
    - intros c' p. rewrite set_data_find. destruct (N.eqb_spec c' c).
      + destruct (object_find_property o c) eqn:E; cbn; intro H; inversion H; subst. apply prop_set_data_ok; eauto.
      + apply Q.
  Qed.
  Lemma obj_ok_new seed : obj_ok (object_new seed).
  Proof.
    constructor.
    - constructor; [constructor|intros ? ? []].
    - intros c sel p _ H. discriminate.
    - intros c p H. discriminate.
  Qed.
  Lemma obj_built_ok o : obj_built o -> obj_ok o.
  Proof.
    induction 1; try (eapply obj_ok_props; [|eassumption];
      unfold object_set_code, object_set_class_group_code, object_set_class_code, object_set_instance_code; destruct (o_codes o) as [[? ?] ?]; reflexivity).
    - apply obj_ok_new.
    - eapply add_property_ok; eauto. apply prop_built_ok; auto.
    - apply set_data_ok; auto.
  Qed.

  (** Permission spec vs. the model's predicates. *)
  Lemma rule_allowed_spec r : rule_allowed r = true <-> allows r.
  Proof. unfold allows; destruct r; cbn; split; congruence. Qed.

  Lemma map_kind_sel o mc : obj_wf o -> map_code mc ->
    exists sel, map_sel mc = Some sel /\ forall c, In c (selected sel o) <-> map_kind o mc c.
  Proof.
    intros W [-> | [-> | ->]]; eexists; (split; [reflexivity|]); intro c; rewrite selected_in by auto;
      unfold map_kind, can_read, can_write, can_announce;
      (split; [intros (p & F & S); apply rule_allowed_spec in S|intros [[E (p & F & S)]|[[E (p & F & S)]|[E (p & F & S)]]]; try discriminate; exists p; split; auto; apply rule_allowed_spec; auto]); eauto 10.
  Qed.

  Lemma enumerates_perm l l' S : enumerates l S -> enumerates l' S -> Permutation l l'.
  Proof. intros [N1 I1] [N2 I2]. apply NoDup_Permutation; auto. intro c. rewrite I1, I2. tauto. Qed.

  (** What a map property holds in an API-built object. *)
  Lemma map_data o mc data l : obj_ok o -> map_code mc -> object_property_data o mc = Some data ->
    enumerates l (map_kind o mc) ->
    exists l', Permutation l' l /\ to_property_map_bytes l' = Ret data.
  Proof.
    intros [W F _] M D En. unfold object_property_data in D.
    destruct (object_find_property o mc) as [p|] eqn:E; [|discriminate]. inversion D; subst.
    destruct (map_kind_sel o mc W M) as (sel & S & I). exists (selected sel o). split.
    - eapply enumerates_perm; [|exact En]. split; auto. apply selected_nodup; auto.
    - eapply F; eauto.
  Qed.
End S.

(** A bitmap read by the specification. *)
Lemma map_has_bitmap mb c : length mb = 17%nat -> 16 <= nth 0 mb 0 -> 0x80 <= c -> c < 256 ->
  (property_map_has mb c <-> bit_of mb c = true).
Proof.
  intros L N0 H1 H2. destruct mb as [|n r]; [discriminate|]. cbn [nth] in N0. unfold property_map_has, bit_of.
  replace (n <? 16) with false by lia. cbn [nth]. split.
  - intros (b & i & -> & Hb & Hi & T).
    replace (N.to_nat ((128 + 16 * b + N.of_nat i) mod 16)) with i by lia.
    replace ((128 + 16 * b + N.of_nat i - 128) / 16) with b by lia. exact T.
  - intro T. exists ((c - 128) / 16), (N.to_nat (c mod 16)). repeat split; auto; lia.
Qed.
Lemma map_has_bitmap_std mb c : length mb = 17%nat -> 16 <= nth 0 mb 0 -> property_map_has mb c -> 0x80 <= c /\ c < 256.
Proof.
  intros L N0. destruct mb as [|n r]; [discriminate|]. cbn [nth] in N0. unfold property_map_has.
  replace (n <? 16) with false by lia. intros (b & i & -> & Hb & Hi & _). lia.
Qed.

(** Bounded duplicate-free lists. *)
Lemma nodup_bound (l : list N) n : NoDup l -> (forall c, In c l -> c < N.of_nat n) -> (length l <= n)%nat.
Proof.
  intros ND H. replace n with (length (map N.of_nat (seq 0 n))) by (rewrite map_length, seq_length; auto).
  apply NoDup_incl_length; auto. intros c I. apply H in I. apply in_map_iff. exists (N.to_nat c).
  split; [lia|]. apply in_seq. lia.
Qed.
Lemma nodup_map_in {A B} (f : A -> B) (l : list A) :
  (forall x y, In x l -> In y l -> f x = f y -> x = y) -> NoDup l -> NoDup (map f l).
Proof.
  intros Inj H. induction H as [|x l N ND IH]; [constructor|]. cbn. constructor.
  - intro I. apply in_map_iff in I as (y & E & I). apply N. rewrite (Inj x y); cbn; auto.
  - apply IH. intros; apply Inj; cbn; auto.
Qed.
Lemma std_length l : NoDup l -> (forall c, In c l -> 0x80 <= c /\ c < 256) -> (length l <= 128)%nat.
Proof.
  intros ND H. rewrite <- (map_length (fun c => c - 128) l). apply nodup_bound.
  - apply nodup_map_in; auto. intros x y Ix Iy. apply H in Ix. apply H in Iy. lia.
  - intros c I. apply in_map_iff in I as (x & <- & I). apply H in I. lia.
Qed.
