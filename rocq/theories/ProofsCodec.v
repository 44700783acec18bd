From Verif Require Import Base ModelCodec SpecWire.

(* ------------------------------------------------------------------ *)
(** * Lists and octets *)

Lemma idx_cons_0 {A} (a : A) l : idx (a :: l) 0 = Ret a.
Proof. reflexivity. Qed.
Lemma idx_cons_S {A} (a : A) l n : idx (a :: l) (S n) = idx l n.
Proof. reflexivity. Qed.

Lemma skipn_S_tl {A} (l : list A) : forall f, skipn (S f) l = tl (skipn f l).
Proof.
  induction l as [|a l IH]; intros [|f]; auto. cbn [skipn]. rewrite <- IH. reflexivity.
Qed.

Lemma idx_range_spec {A} (l : list A) : forall c f,
  (f + c <= length l)%nat -> idx_range l f c = Ret (firstn c (skipn f l)).
Proof.
  induction c as [|c IH]; intros f H; simpl; auto.
  unfold idx. destruct (nth_error l f) as [a|] eqn:E.
  - simpl. rewrite IH by lia. simpl.
    f_equal. destruct (skipn f l) as [|x r] eqn:Es.
    + assert (length (skipn f l) = 0%nat) by (rewrite Es; auto).
      rewrite skipn_length in H0. lia.
    + assert (x = a).
      { rewrite <- (firstn_skipn f l), Es in E.
        rewrite nth_error_app2 in E by (rewrite firstn_length; lia).
        rewrite firstn_length_le in E by lia. rewrite Nat.sub_diag in E. simpl in E. congruence. }
      assert (r = skipn (S f) l).
      { rewrite skipn_S_tl, Es. reflexivity. }
      subst. reflexivity.
  - apply nth_error_None in E. lia.
Qed.

Lemma octets_app a b : octets (a ++ b) <-> octets a /\ octets b.
Proof. apply Forall_app. Qed.
Lemma octets_cons a b : octets (a :: b) <-> a < 256 /\ octets b.
Proof. apply Forall_cons_iff. Qed.

Lemma bytes_eqb_eq a : forall b, bytes_eqb a b = true <-> a = b.
Proof.
  induction a as [|x a IH]; destruct b as [|y b]; simpl; split; intro H; try congruence; auto.
  - apply andb_prop in H as [H1 H2]. apply N.eqb_eq in H1. apply IH in H2. congruence.
  - inversion H; subst. rewrite N.eqb_refl. simpl. apply IH; auto.
Qed.

(* ------------------------------------------------------------------ *)
(** * Reading property lists *)

Definition read_prop (bs : list N) : option (pprop * list N) :=
  match bs with
  | c :: d :: r =>
    if Nat.leb (N.to_nat d) (length r)
    then Some (PProp c (firstn (N.to_nat d) r), skipn (N.to_nat d) r)
    else None
  | _ => None
  end.

Fixpoint read_props (n : nat) (bs : list N) : bool * list pprop * list N :=
  match n with
  | O => (true, [], bs)
  | S n' =>
    match read_prop bs with
    | None => (false, [], bs)
    | Some (p, r) => let '(ok, ps, r') := read_props n' r in (ok, p :: ps, r')
    end
  end.

Lemma pprop_parse_read bs :
  pprop_parse pprop_new bs =
  match read_prop bs with
  | Some (p, _) => Ret (true, p)
  | None => Ret (false, match bs with c :: _ :: _ => PProp c [] | _ => pprop_new end)
  end.
Proof.
  unfold pprop_parse, read_prop.
  destruct bs as [|c [|d r]]; try reflexivity.
  cbn [length]. change (Nat.ltb (S (S (length r))) 2) with false. cbv iota.
  rewrite idx_cons_0. cbn [obind]. rewrite idx_cons_S, idx_cons_0. cbn [obind].
  destruct (Nat.eqb (N.to_nat d) 0) eqn:E0.
  - apply Nat.eqb_eq in E0. rewrite E0. reflexivity.
  - replace (Nat.ltb (S (S (length r))) (2 + N.to_nat d)) with (negb (Nat.leb (N.to_nat d) (length r))).
    2:{ destruct (Nat.leb_spec (N.to_nat d) (length r)); destruct (Nat.ltb_spec (S (S (length r))) (2 + N.to_nat d)); simpl; auto; lia. }
    destruct (Nat.leb_spec (N.to_nat d) (length r)); cbn [negb]; auto.
    unfold slice_from. simpl Nat.leb. cbv iota. cbn [obind skipn].
    rewrite idx_range_spec by lia. cbn [obind skipn]. reflexivity.
Qed.

Lemma slice_from_app {A} (pre bs : list A) : slice_from (pre ++ bs) (length pre) = Ret bs.
Proof.
  unfold slice_from. rewrite app_length.
  destruct (Nat.leb_spec (length pre) (length pre + length bs)); [|lia].
  rewrite skipn_app, skipn_all, Nat.sub_diag. reflexivity.
Qed.

Lemma read_prop_split bs p r : read_prop bs = Some (p, r) ->
  exists h, bs = h ++ r /\ length h = (2 + pp_size p)%nat.
Proof.
  unfold read_prop. destruct bs as [|c [|d t]]; try discriminate.
  destruct (Nat.leb_spec (N.to_nat d) (length t)); try discriminate.
  intro E; inversion E; subst; clear E.
  exists (c :: d :: firstn (N.to_nat d) t). split.
  - simpl. rewrite firstn_skipn. reflexivity.
  - unfold pp_size. simpl. reflexivity.
Qed.

Lemma read_props_suffix n : forall bs ok ps r, read_props n bs = (ok, ps, r) -> exists h, bs = h ++ r.
Proof.
  induction n as [|n IH]; intros bs ok ps r H; cbn [read_props] in H.
  - inversion H; subst. exists []; auto.
  - destruct (read_prop bs) as [[p r1]|] eqn:E.
    + destruct (read_props n r1) as [[ok1 ps1] r2] eqn:E2. inversion H; subst.
      apply read_prop_split in E as (h & -> & _). apply IH in E2 as (h2 & ->).
      exists (h ++ h2). rewrite app_assoc. auto.
    + inversion H; subst. exists []; auto.
Qed.

Lemma parse_props_loop_read n : forall props pre bs,
  parse_props_loop n props (pre ++ bs) (length pre) =
  (let '(ok, ps, r) := read_props n bs in
   Ret (ok, props ++ ps, length pre + (length bs - length r))%nat).
Proof.
  induction n as [|n IH]; intros props pre bs.
  - simpl. rewrite app_nil_r, Nat.sub_diag, Nat.add_0_r. reflexivity.
  - cbn [parse_props_loop read_props]. rewrite slice_from_app. cbn [obind].
    rewrite pprop_parse_read.
    destruct (read_prop bs) as [[p r]|] eqn:E; cbn [obind negb].
    + destruct (read_prop_split _ _ _ E) as (h & -> & Hh).
      rewrite app_assoc.
      replace (length pre + (2 + pp_size p))%nat with (length (pre ++ h)) by (rewrite app_length; lia).
      rewrite IH. destruct (read_props n r) as [[ok ps] r'] eqn:E2.
      rewrite <- app_assoc. simpl. f_equal. f_equal.
      rewrite !app_length.
      destruct (read_props_suffix _ _ _ _ _ E2) as (h2 & ->). rewrite !app_length. lia.
    + rewrite app_nil_r, Nat.sub_diag, Nat.add_0_r. reflexivity.
Qed.

(** Reading back what the encoder wrote. *)
Definition pprop_ok (p : pprop) : Prop := u8prop p /\ prop_in_limit p.

Lemma read_prop_bytes p r : prop_in_limit p -> read_prop (property_bytes p ++ r) = Some (p, r).
Proof.
  intros H. unfold prop_in_limit in H. unfold property_bytes, read_prop, as_u8, pp_size. cbn [app].
  replace (N.to_nat (N.of_nat (length (pp_data p)) mod 256)) with (length (pp_data p)) by lia.
  rewrite app_length. destruct (Nat.leb_spec (length (pp_data p)) (length (pp_data p) + length r)); [|lia].
  rewrite firstn_app, Nat.sub_diag, firstn_all, skipn_app, skipn_all, Nat.sub_diag. simpl.
  rewrite app_nil_r. destruct p; reflexivity.
Qed.

Lemma read_props_bytes ps : forall r, Forall prop_in_limit ps ->
  read_props (length ps) (flat_map property_bytes ps ++ r) = (true, ps, r).
Proof.
  induction ps as [|p ps IH]; intros r H; auto.
  inversion H; subst. cbn [length read_props flat_map]. rewrite <- app_assoc.
  rewrite read_prop_bytes by auto. rewrite IH by auto. reflexivity.
Qed.

(** Everything read was well-formed. *)
Lemma read_prop_sound bs p r : octets bs -> read_prop bs = Some (p, r) ->
  bs = property_bytes p ++ r /\ pprop_ok p /\ octets r.
Proof.
  unfold read_prop. destruct bs as [|c [|d t]]; try discriminate.
  destruct (Nat.leb_spec (N.to_nat d) (length t)); try discriminate.
  intros Ho E; inversion E; subst; clear E.
  rewrite !octets_cons in Ho. destruct Ho as (Hc & Hd & Ht).
  rewrite <- (firstn_skipn (N.to_nat d) t) in Ht. apply octets_app in Ht as [Ht1 Ht2].
  assert (L : length (firstn (N.to_nat d) t) = N.to_nat d) by (rewrite firstn_length; lia).
  repeat split; simpl; auto.
  - unfold property_bytes, pp_size, as_u8. simpl. rewrite L, firstn_skipn. f_equal. f_equal. lia.
  - unfold prop_in_limit. simpl. lia.
Qed.

Lemma read_props_sound n : forall bs ps r, octets bs -> read_props n bs = (true, ps, r) ->
  bs = flat_map property_bytes ps ++ r /\ length ps = n /\ Forall pprop_ok ps /\ octets r.
Proof.
  induction n as [|n IH]; intros bs ps r Ho H; cbn [read_props] in H.
  - inversion H; subst. auto.
  - destruct (read_prop bs) as [[p r1]|] eqn:E; [|discriminate].
    destruct (read_props n r1) as [[ok1 ps1] r2] eqn:E2. inversion H; subst.
    apply read_prop_sound in E as (-> & Hp & Hr); auto.
    apply IH in E2 as (-> & <- & Hps & Hr2); auto.
    repeat split; auto. cbn [flat_map]. rewrite app_assoc. reflexivity.
Qed.

Lemma octets_flat_map_property_bytes ps : Forall pprop_ok ps -> octets (flat_map property_bytes ps).
Proof.
  induction 1 as [|p ps [[H1 H2] H3] _ IH]; simpl; constructor; auto.
  constructor; auto.
  - unfold octet, as_u8. lia.
  - apply Forall_app; auto.
Qed.

(* ------------------------------------------------------------------ *)
(** * Closed form of Message::parse *)

Definition is_double (v : N) : bool := (v =? 0x6E) || (v =? 0x7E) || (v =? 0x5E).

Lemma is_double_spec v : is_double v = true <-> two_lists v.
Proof. unfold is_double, two_lists. lia. Qed.
Lemma is_double_false v : is_double v = false <-> ~ two_lists v.
Proof. unfold is_double, two_lists. lia. Qed.

(** Case analysis on a service octet: a known code, or Unknown. *)
Lemma esv_from_u8_cases v :
  (esv_from_u8 v = EUnknown /\ forall e, e <> EUnknown -> v <> esv_to_u8 e) \/
  (exists e, e <> EUnknown /\ v = esv_to_u8 e /\ esv_from_u8 v = e).
Proof.
  unfold esv_from_u8.
  destruct (find _ esv_iter) as [e|] eqn:F.
  { apply find_some in F as [_ F]. apply N.eqb_eq in F.
    destruct (N.eq_dec (esv_to_u8 e) 0) as [E0|E0].
    - left. destruct e; try discriminate. split; auto.
      intros e He C. subst v. destruct e; try discriminate; congruence.
    - right. exists e. split; auto. intro; subst. apply E0; reflexivity. }
  left. split; auto. intros e He C.
  apply find_none with (x := e) in F; [|destruct e; simpl; tauto].
  apply N.eqb_neq in F. auto.
Qed.

Lemma esv_double v (A : Type) (x y : A) :
  match esv_from_u8 v with
  | EWriteReadRequest | EWriteReadResponse | EWriteReadRequestError => x
  | _ => y
  end = if is_double v then x else y.
Proof.
  destruct (esv_from_u8_cases v) as [[-> H]|(e & He & -> & ->)].
  - pose proof (H EWriteReadRequest ltac:(discriminate)).
    pose proof (H EWriteReadResponse ltac:(discriminate)).
    pose proof (H EWriteReadRequestError ltac:(discriminate)). simpl in *.
    replace (is_double v) with false; auto. symmetry. unfold is_double. lia.
  - destruct e; reflexivity.
Qed.

Lemma esv_double_enc v (A : Type) (x y : A) :
  match esv_from_u8 v with
  | EWriteReadRequest | EWriteReadResponse => x
  | _ => y
  end = if is_double v && negb (v =? 0x5E) then x else y.
Proof.
  destruct (esv_from_u8_cases v) as [[-> H]|(e & He & -> & ->)].
  - pose proof (H EWriteReadRequest ltac:(discriminate)).
    pose proof (H EWriteReadResponse ltac:(discriminate)).
    pose proof (H EWriteReadRequestError ltac:(discriminate)). simpl in *.
    replace (is_double v) with false; auto. symmetry. unfold is_double. lia.
  - destruct e; reflexivity.
Qed.

(** parse_property_bytes at the head of the remaining input. *)
Lemma parse_property_bytes_at props pre bs :
  parse_property_bytes props (pre ++ bs) (length pre) =
  match bs with
  | [] => Panic
  | c :: r =>
    let '(ok, ps, r') := read_props (N.to_nat c) r in
    Ret (ok, props ++ ps, length pre + (1 + (length r - length r')))%nat
  end.
Proof.
  unfold parse_property_bytes, idx.
  rewrite nth_error_app2 by lia. rewrite Nat.sub_diag.
  destruct bs as [|c r]; cbn [nth_error obind]; auto.
  replace (pre ++ c :: r) with ((pre ++ [c]) ++ r) by (rewrite <- app_assoc; reflexivity).
  replace (length pre + 1)%nat with (length (pre ++ [c])) by (rewrite app_length; simpl; lia).
  rewrite parse_props_loop_read. destruct (read_props (N.to_nat c) r) as [[ok ps] r'].
  f_equal. f_equal. rewrite app_length. simpl. lia.
Qed.

(** The part of parse after the twelve octets of the fixed header. [v] is the
    ESV, [opc] the first counter. *)
Definition parse_tail (m : message) (v opc : N) (bs : list N) : outcome (bool * message) :=
  if is_double v then
    let '(ok, ss, r) := read_props (N.to_nat opc) bs in
    if ok then
      match r with
      | [] => Panic
      | c :: r' =>
        let '(ok2, gs, _) := read_props (N.to_nat c) r' in
        Ret (ok2, with_get (with_set m (m_set m ++ ss)) (m_get m ++ gs))
      end
    else Ret (false, with_set m (m_set m ++ ss))
  else
    let '(ok, ps, _) := read_props (N.to_nat opc) bs in
    Ret (ok, with_props m (m_props m ++ ps)).

Definition with_header (m : message) t0 t1 s0 s1 s2 d0 d1 d2 v : message :=
  Msg (0x10, 0x81) (t0, t1) (s0, s1, s2) (d0, d1, d2) v (m_props m) (m_set m) (m_get m) (m_from m).

Lemma msg_parse_eq m t0 t1 s0 s1 s2 d0 d1 d2 v opc bs :
  msg_parse m (0x10 :: 0x81 :: t0 :: t1 :: s0 :: s1 :: s2 :: d0 :: d1 :: d2 :: v :: opc :: bs) =
  parse_tail (with_header m t0 t1 s0 s1 s2 d0 d1 d2 v) v opc bs.
Proof.
  unfold msg_parse, msg_parse_header.
  cbn -[msg_parse_format1_data N.eqb].
  change (msg_is_format1 _) with true. cbn -[msg_parse_format1_data].
  unfold msg_parse_format1_data. cbn -[parse_property_bytes esv_from_u8].
  unfold msg_esv at 1. cbn -[parse_property_bytes esv_from_u8]. rewrite esv_double.
  unfold parse_tail. destruct (is_double v).
  - pose proof (parse_property_bytes_at (m_set m) [] (opc :: bs)) as E. cbn [app length] in E. cbn -[parse_property_bytes].
    rewrite E. clear E.
    destruct (read_props (N.to_nat opc) bs) as [[ok ss] r] eqn:R. cbn -[parse_property_bytes]. destruct ok; cbn -[parse_property_bytes]; auto.
    destruct (read_props_suffix _ _ _ _ _ R) as (h & ->).
    pose proof (parse_property_bytes_at (m_get m) (opc :: h) r) as E. cbn [app length] in E.
    replace (S (length (h ++ r) - length r)) with (S (length h)) by (rewrite app_length; lia).
    rewrite E. destruct r as [|c r']; cbn; auto.
    destruct (read_props (N.to_nat c) r') as [[ok2 gs] r2]. cbn. destruct ok2; reflexivity.
  - pose proof (parse_property_bytes_at (m_props m) [] (opc :: bs)) as E. cbn [app length] in E. cbn -[parse_property_bytes].
    rewrite E. clear E.
    destruct (read_props (N.to_nat opc) bs) as [[ok ss] r]. cbn -[parse_property_bytes]. destruct ok; reflexivity.
Qed.

(** Inputs that are too short or do not start with 0x10 0x81 are refused. *)
Lemma msg_parse_short m bs : (length bs < 12)%nat -> exists m', msg_parse m bs = Ret (false, m').
Proof.
  intro H. unfold msg_parse, msg_parse_header.
  destruct bs as [|h0 [|h1 [|h2 [|h3 [|h4 r]]]]]; try (eexists; reflexivity).
  cbn -[msg_parse_format1_data]. destruct (msg_is_format1 _); cbn -[msg_parse_format1_data]; [|eexists; reflexivity].
  unfold msg_parse_format1_data. destruct (Nat.ltb_spec (length (h4 :: r)) 8).
  - cbn. eexists; reflexivity.
  - simpl in *. lia.
Qed.

Lemma msg_parse_not_format1 m e0 e1 r : ~ (e0 = 0x10 /\ e1 = 0x81) ->
  exists m', msg_parse m (e0 :: e1 :: r) = Ret (false, m').
Proof.
  intro H. unfold msg_parse, msg_parse_header.
  destruct (Nat.leb_spec (length (e0 :: e1 :: r)) 4); cbn -[msg_parse_format1_data].
  - eexists; reflexivity.
  - destruct r as [|h2 [|h3 r]]; simpl in *; try lia. cbn -[msg_parse_format1_data].
    unfold msg_is_format1. cbn -[msg_parse_format1_data].
    destruct (N.eqb_spec e0 0x10), (N.eqb_spec e1 0x81); cbn -[msg_parse_format1_data];
      try (eexists; reflexivity). tauto.
Qed.

Lemma twelve (bs : list N) : (12 <= length bs)%nat -> exists e0 e1 t0 t1 s0 s1 s2 d0 d1 d2 v opc r,
  bs = e0 :: e1 :: t0 :: t1 :: s0 :: s1 :: s2 :: d0 :: d1 :: d2 :: v :: opc :: r.
Proof.
  intro H. do 12 (destruct bs as [|? bs]; [simpl in H; lia|]). repeat eexists.
Qed.

Lemma header_dec (bs : list N) :
  (exists t0 t1 s0 s1 s2 d0 d1 d2 v opc r,
     bs = 0x10 :: 0x81 :: t0 :: t1 :: s0 :: s1 :: s2 :: d0 :: d1 :: d2 :: v :: opc :: r) \/
  (forall m, exists m', msg_parse m bs = Ret (false, m')).
Proof.
  destruct (Nat.ltb_spec (length bs) 12).
  - right. intro; apply msg_parse_short; auto.
  - apply twelve in H as (e0 & e1 & t0 & t1 & s0 & s1 & s2 & d0 & d1 & d2 & v & opc & r & ->).
    destruct (N.eqb_spec e0 0x10), (N.eqb_spec e1 0x81); subst;
      [left; repeat eexists|right; intro; apply msg_parse_not_format1; tauto..].
Qed.
