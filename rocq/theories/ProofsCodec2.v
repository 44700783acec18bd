From Verif Require Import Base ModelCodec SpecWire ProofsCodec.

(* ------------------------------------------------------------------ *)
(** * Bit arithmetic as division *)

Lemma land_mask x n : N.land x (N.ones n) = x mod 2 ^ n.
Proof. apply N.land_ones. Qed.
Lemma land_ff x : N.land x 0xFF = x mod 256.
Proof. change 0xFF with (N.ones 8). rewrite land_mask. reflexivity. Qed.

Lemma shift_land_byte x (k : N) : N.shiftr (N.land x (N.shiftl 0xFF k)) k = (x / 2 ^ k) mod 256.
Proof.
  rewrite N.shiftr_land, N.shiftr_shiftl_l, N.sub_diag, N.shiftl_0_r by lia.
  rewrite land_ff, N.shiftr_div_pow2. reflexivity.
Qed.
Lemma byte1 x : N.shiftr (N.land x 0xFF00) 8 = (x / 256) mod 256.
Proof. exact (shift_land_byte x 8). Qed.
Lemma byte2 x : N.shiftr (N.land x 0xFF0000) 16 = (x / 65536) mod 256.
Proof. exact (shift_land_byte x 16). Qed.

Lemma split_object_code_eq c :
  split_object_code c = ((c / 65536) mod 256, (c / 256) mod 256, c mod 256).
Proof.
  unfold split_object_code, as_u8. rewrite byte1, byte2. change 0x00FF with 0xFF. rewrite land_ff.
  rewrite !N.mod_mod by lia. reflexivity.
Qed.
Lemma to_object_code_eq a b c : to_object_code (a, b, c) = a * 65536 + b * 256 + c.
Proof. unfold to_object_code. rewrite !N.shiftl_mul_pow2. reflexivity. Qed.

Lemma object_code_split c : to_object_code (split_object_code c) = c mod 16777216.
Proof. rewrite split_object_code_eq, to_object_code_eq. lia. Qed.

Lemma msg_tid_eq m : msg_tid m = fst (m_tid m) * 256 + snd (m_tid m).
Proof. unfold msg_tid. rewrite N.shiftl_mul_pow2. reflexivity. Qed.

Lemma msg_set_tid_eq m t : msg_set_tid m t = with_tid m ((t / 256) mod 256, t mod 256).
Proof.
  unfold msg_set_tid, as_u8. rewrite byte1. change 0x00FF with 0xFF. rewrite land_ff.
  rewrite !N.mod_mod by lia. reflexivity.
Qed.

(* ------------------------------------------------------------------ *)
(** * Well-formed messages and their frames *)

Definition wf3 (e : N * N * N) : Prop := let '(a, b, c) := e in a < 256 /\ b < 256 /\ c < 256.
Definition wf2 (e : N * N) : Prop := fst e < 256 /\ snd e < 256.

Record msg_wf (m : message) : Prop := {
  wf_ehd : m_ehd m = (0x10, 0x81);
  wf_tid : wf2 (m_tid m);
  wf_seoj : wf3 (m_seoj m);
  wf_deoj : wf3 (m_deoj m);
  wf_esv : m_esv m < 256;
  wf_props : Forall u8prop (m_props m);
  wf_set : Forall u8prop (m_set m);
  wf_get : Forall u8prop (m_get m) }.

Lemma wf3_split c : wf3 (split_object_code c).
Proof. rewrite split_object_code_eq. simpl. lia. Qed.

Lemma built_wf m : built m -> msg_wf m.
Proof.
  induction 1 as [|m t _ W _|m c _ W _|m c _ W _|m e _ W|m p _ W U|m p _ W U|m p _ W U|m a _ W];
    [|destruct W..].
  - constructor; cbn; auto; repeat split; simpl; lia.
  - rewrite msg_set_tid_eq. constructor; cbn; auto. split; simpl; lia.
  - constructor; cbn -[split_object_code]; auto using wf3_split.
  - constructor; cbn -[split_object_code]; auto using wf3_split.
  - constructor; cbn; auto. destruct e; cbn; lia.
  - constructor; cbn; auto. apply Forall_app; auto.
  - constructor; cbn; auto. apply Forall_app; auto.
  - constructor; cbn; auto. apply Forall_app; auto.
  - constructor; cbn; auto.
Qed.

Lemma built_esv m : built m -> exists e, m_esv m = esv_to_u8 e.
Proof.
  induction 1; cbn; auto; try (destruct IHbuilt as [e' He]; exists e'; exact He).
  - exists EUnknown; reflexivity.
  - eauto.
Qed.

Definition wps (ps : list pprop) : list wprop := map to_wprop ps.
Definition unw (p : wprop) : pprop := PProp (fst p) (snd p).
Lemma wps_unw ps : wps (map unw ps) = ps.
Proof.
  unfold wps. rewrite map_map. rewrite <- (map_id ps) at 2. apply map_ext. intros [? ?]; reflexivity.
Qed.
Lemma unw_wps ps : map unw (wps ps) = ps.
Proof.
  unfold wps. rewrite map_map. rewrite <- (map_id ps) at 2. apply map_ext. intros [? ?]; reflexivity.
Qed.
Lemma wps_inj a b : wps a = wps b -> a = b.
Proof. intro H. rewrite <- (unw_wps a), <- (unw_wps b), H. reflexivity. Qed.

Definition frame_of (m : message) : frame :=
  Frame (msg_tid m) (msg_seoj m) (msg_deoj m) (m_esv m)
    (if is_double (m_esv m) then Double (wps (m_set m)) (wps (m_get m)) else Single (wps (m_props m))).

Lemma flat_map_wire ps : Forall prop_in_limit ps ->
  flat_map property_bytes ps = concat (map wire_prop (wps ps)).
Proof.
  induction 1 as [|p ps H _ IH]; auto. cbn [flat_map]. rewrite IH.
  cbn [wps map concat]. f_equal. unfold property_bytes, wire_prop, as_u8, pp_size, to_wprop. simpl.
  unfold prop_in_limit in H. f_equal. f_equal. lia.
Qed.
Lemma props_bytes_wire ps : list_in_limit ps -> props_bytes ps = wire_props (wps ps).
Proof.
  intros [H1 H2]. unfold props_bytes, wire_props. rewrite flat_map_wire by auto.
  unfold wps at 2. rewrite map_length. f_equal. unfold len_u8, as_u8. lia.
Qed.
Lemma wprops_ok_wps ps : Forall u8prop ps -> list_in_limit ps -> wprops_ok (wps ps).
Proof.
  intros H [H1 H2]. split.
  - apply Forall_map. rewrite Forall_forall in *. intros p Hp. destruct (H p Hp). split; [|split]; auto.
    apply (H2 p Hp).
  - unfold wps. rewrite map_length. auto.
Qed.
Lemma wprops_ok_inv ps : wprops_ok ps -> Forall pprop_ok (map unw ps) /\ list_in_limit (map unw ps).
Proof.
  intros [H1 H2]. unfold list_in_limit. rewrite map_length. repeat split; auto.
  - apply Forall_map. eapply Forall_impl; [|exact H1]. intros p (A & B & C). repeat split; auto.
  - apply Forall_map. eapply Forall_impl; [|exact H1]. intros p (A & B & C). auto.
Qed.

Lemma header_wire m : msg_wf m ->
  (let '(e0, e1) := m_ehd m in
   let '(t0, t1) := m_tid m in
   let '(s0, s1, s2) := m_seoj m in
   let '(d0, d1, d2) := m_deoj m in
   [e0; e1; t0; t1; s0; s1; s2; d0; d1; d2; m_esv m]) =
  [0x10; 0x81; msg_tid m / 256; msg_tid m mod 256] ++ wire_eoj (msg_seoj m) ++
  wire_eoj (msg_deoj m) ++ [m_esv m].
Proof.
  intros [He Ht Hs Hd Hv _ _ _]. unfold msg_seoj, msg_deoj. rewrite msg_tid_eq.
  destruct (m_ehd m) as [e0 e1], (m_tid m) as [t0 t1], (m_seoj m) as [[s0 s1] s2], (m_deoj m) as [[d0 d1] d2].
  inversion He; subst. destruct Ht. rewrite !to_object_code_eq. unfold wf3, wire_eoj in *. cbn [fst snd app] in *.
  repeat (f_equal; try lia).
Qed.

Lemma msg_bytes_eq m :
  msg_bytes m =
  (let '(e0, e1) := m_ehd m in
   let '(t0, t1) := m_tid m in
   let '(s0, s1, s2) := m_seoj m in
   let '(d0, d1, d2) := m_deoj m in
   [e0; e1; t0; t1; s0; s1; s2; d0; d1; d2; m_esv m]) ++
  (if is_double (m_esv m) && negb (m_esv m =? 0x5E)
   then props_bytes (m_set m) ++ props_bytes (m_get m) else props_bytes (m_props m)).
Proof.
  unfold msg_bytes.
  destruct (m_ehd m) as [e0 e1], (m_tid m) as [t0 t1], (m_seoj m) as [[s0 s1] s2], (m_deoj m) as [[d0 d1] d2].
  unfold msg_esv. rewrite esv_double_enc. reflexivity.
Qed.

Lemma msg_bytes_wire m : msg_wf m -> in_limits m -> m_esv m <> 0x5E -> msg_bytes m = wire (frame_of m).
Proof.
  intros W (L1 & L2 & L3) H. rewrite msg_bytes_eq, header_wire by auto.
  unfold wire, frame_of. cbn [f_tid f_seoj f_deoj f_esv f_body].
  replace (m_esv m =? 0x5E) with false by lia. rewrite andb_true_r.
  destruct (is_double (m_esv m)); cbn [wire_body];
    rewrite !props_bytes_wire by auto; rewrite <- !app_assoc; reflexivity.
Qed.

Lemma to_object_code_lt e : wf3 e -> to_object_code e < 16777216.
Proof. destruct e as [[a b] c]. rewrite to_object_code_eq. simpl. lia. Qed.

Lemma frame_of_ok m : msg_wf m -> in_limits m -> frame_ok (frame_of m).
Proof.
  intros [He Ht Hs Hd Hv Hp Hss Hg] (L1 & L2 & L3). unfold frame_ok, frame_of. cbn [f_tid f_seoj f_deoj f_esv f_body].
  split; [|split; [|split; [|split]]].
  - rewrite msg_tid_eq. destruct Ht. lia.
  - apply to_object_code_lt; auto.
  - apply to_object_code_lt; auto.
  - exact Hv.
  - destruct (is_double (m_esv m)) eqn:E; cbn [wbody_ok].
    + apply is_double_spec in E. split; [exact E|split; apply wprops_ok_wps; auto].
    + apply is_double_false in E. split; [exact E|apply wprops_ok_wps; auto].
Qed.

(* ------------------------------------------------------------------ *)
(** * Decoding *)

(** A decoded message as a function of the frame and of the previous content. *)
Definition msg_of_frame (m : message) (f : frame) : message :=
  let m1 := with_header m (f_tid f / 256) (f_tid f mod 256)
     (f_seoj f / 65536) (f_seoj f / 256 mod 256) (f_seoj f mod 256)
     (f_deoj f / 65536) (f_deoj f / 256 mod 256) (f_deoj f mod 256) (f_esv f) in
  match f_body f with
  | Single ps => with_props m1 (m_props m ++ map unw ps)
  | Double ss gs => with_get (with_set m1 (m_set m ++ map unw ss)) (m_get m ++ map unw gs)
  end.

Lemma wire_unfold f rest : wire f ++ rest =
  0x10 :: 0x81 :: f_tid f / 256 :: f_tid f mod 256 ::
  f_seoj f / 65536 :: f_seoj f / 256 mod 256 :: f_seoj f mod 256 ::
  f_deoj f / 65536 :: f_deoj f / 256 mod 256 :: f_deoj f mod 256 :: f_esv f ::
  (wire_body (f_body f) ++ rest).
Proof. unfold wire, wire_eoj. cbn [app]. reflexivity. Qed.

Lemma read_wire_props ps rest : wprops_ok ps ->
  read_props (N.to_nat (N.of_nat (length ps))) (concat (map wire_prop ps) ++ rest) = (true, map unw ps, rest).
Proof.
  intros H. apply wprops_ok_inv in H as [_ [_ H]].
  rewrite <- (wps_unw ps) at 2. rewrite <- flat_map_wire by auto.
  rewrite Nat2N.id. rewrite <- (map_length unw ps). apply read_props_bytes; auto.
Qed.

Lemma parse_wire m f rest : frame_ok f -> msg_parse m (wire f ++ rest) = Ret (true, msg_of_frame m f).
Proof.
  intros (Ht & Hs & Hd & Hv & Hb). rewrite wire_unfold.
  unfold msg_of_frame. destruct (f_body f) as [ps|ss gs]; cbn [wbody_ok wire_body] in *.
  - destruct Hb as [Hn Hp]. unfold wire_props. cbn [app]. rewrite msg_parse_eq. unfold parse_tail.
    apply is_double_false in Hn. rewrite Hn, read_wire_props by auto. reflexivity.
  - destruct Hb as (Hn & Hp & Hg). unfold wire_props. cbn [app]. rewrite msg_parse_eq. unfold parse_tail.
    apply is_double_spec in Hn. rewrite Hn, <- app_assoc, read_wire_props by auto. cbn [app].
    rewrite read_wire_props by auto. reflexivity.
Qed.

Lemma carries_msg_of_frame f : frame_ok f -> carries (msg_of_frame msg_new f) f.
Proof.
  intros (Ht & Hs & Hd & Hv & Hb). unfold carries, msg_of_frame, msg_seoj, msg_deoj.
  destruct (f_body f) as [ps|ss gs]; cbn [with_header with_props with_set with_get m_tid m_seoj m_deoj m_esv m_props m_set m_get msg_new app];
    rewrite msg_tid_eq, !to_object_code_eq; cbn [m_tid fst snd with_header with_props with_set with_get]; repeat split; try exact (wps_unw _); auto; lia.
Qed.

Lemma frame_of_msg_of_frame f : frame_ok f -> frame_of (msg_of_frame msg_new f) = f.
Proof.
  intros H. pose proof (carries_msg_of_frame f H) as (C1 & C2 & C3 & C4 & C5).
  destruct H as (Ht & Hs & Hd & Hv & Hb). unfold frame_of. rewrite C1, C2, C3, C4.
  destruct f as [t s d v [ps|ss gs]]; cbn [f_tid f_seoj f_deoj f_esv f_body wbody_ok] in *.
  - destruct Hb as [Hn _]. apply is_double_false in Hn. rewrite Hn. destruct C5 as (C5 & _). unfold wps. rewrite C5. reflexivity.
  - destruct Hb as [Hn _]. apply is_double_spec in Hn. rewrite Hn. destruct C5 as (C5 & C6 & _).
    unfold wps. rewrite C5, C6. reflexivity.
Qed.

Lemma wire_unique f g r s : frame_ok f -> frame_ok g -> wire f ++ r = wire g ++ s -> f = g /\ r = s.
Proof.
  intros Hf Hg E. pose proof (parse_wire msg_new f r Hf) as P. rewrite E, parse_wire in P by auto.
  assert (f = g).
  { rewrite <- (frame_of_msg_of_frame f), <- (frame_of_msg_of_frame g) by auto. congruence. }
  subst. apply app_inv_head in E. auto.
Qed.

(** Octet triples of a code. *)
Lemma eoj_bytes a b c : a < 256 -> b < 256 -> c < 256 ->
  exists e, e < 16777216 /\ a = e / 65536 /\ b = e / 256 mod 256 /\ c = e mod 256.
Proof. intros. exists (a * 65536 + b * 256 + c). lia. Qed.

Lemma octets_flat ps : Forall pprop_ok ps -> wprops_ok (wps ps) \/ (255 < length ps)%nat.
Proof.
  intro H. destruct (Nat.leb_spec (length ps) 255); [left|right; lia].
  apply wprops_ok_wps.
  - eapply Forall_impl; [|exact H]. intros p [A _]; exact A.
  - split; auto. eapply Forall_impl; [|exact H]. intros p [_ A]; exact A.
Qed.

(** A property list read from octets. *)
Lemma read_wire_sound c bs ps r : c < 256 -> octets bs -> read_props (N.to_nat c) bs = (true, ps, r) ->
  c :: bs = wire_props (wps ps) ++ r /\ wprops_ok (wps ps) /\ octets r.
Proof.
  intros Hc Ho R. apply read_props_sound in R as (-> & L & Hp & Hr); auto.
  assert (Hl : list_in_limit ps).
  { split; [lia|]. eapply Forall_impl; [|exact Hp]. intros p [_ A]; exact A. }
  split; [|split]; auto.
  - unfold wire_props. cbn [app]. rewrite <- flat_map_wire by apply Hl.
    unfold wps. rewrite map_length. f_equal. lia.
  - apply wprops_ok_wps; auto. eapply Forall_impl; [|exact Hp]. intros p [A _]; exact A.
Qed.

(** Full characterisation of parse on octets. *)
Inductive parse_class (m : message) (bs : list N) : Prop :=
| PC_frame f rest : frame_ok f -> bs = wire f ++ rest ->
    msg_parse m bs = Ret (true, msg_of_frame m f) -> parse_class m bs
| PC_reject m' : msg_parse m bs = Ret (false, m') -> parse_class m bs
| PC_panic t s d v ss : t < 65536 -> s < 16777216 -> d < 16777216 -> two_lists v -> wprops_ok ss ->
    bs = [0x10; 0x81; t / 256; t mod 256] ++ wire_eoj s ++ wire_eoj d ++ [v] ++ wire_props ss ->
    msg_parse m bs = Panic -> parse_class m bs.

Lemma parse_classify m bs : octets bs -> parse_class m bs.
Proof.
  intro Ho. destruct (header_dec bs) as [(t0 & t1 & s0 & s1 & s2 & d0 & d1 & d2 & v & opc & r & ->)|H].
  2:{ destruct (H m) as [m' H']. eapply PC_reject; eauto. }
  rewrite !octets_cons in Ho. destruct Ho as (_ & _ & Ht0 & Ht1 & Hs0 & Hs1 & Hs2 & Hd0 & Hd1 & Hd2 & Hv & Hopc & Hr).
  destruct (eoj_bytes s0 s1 s2) as (s & Hs & E1 & E2 & E3); auto.
  destruct (eoj_bytes d0 d1 d2) as (d & Hd & E4 & E5 & E6); auto.
  assert (exists t, t < 65536 /\ t0 = t / 256 /\ t1 = t mod 256) as (t & Ht & E7 & E8).
  { exists (t0 * 256 + t1). lia. }
  pose proof (msg_parse_eq m t0 t1 s0 s1 s2 d0 d1 d2 v opc r) as P. unfold parse_tail in P.
  destruct (is_double v) eqn:D.
  - destruct (read_props (N.to_nat opc) r) as [[[] ss] r1] eqn:R.
    2:{ eapply PC_reject; exact P. }
    pose proof R as R0. apply read_wire_sound in R0 as (Ew & Hss & Hr1); auto.
    apply is_double_spec in D.
    destruct r1 as [|c r1].
    { eapply (PC_panic _ _ t s d v); eauto. unfold wire_eoj. cbn [app].
      rewrite Ew, app_nil_r. subst. reflexivity. }
    apply octets_cons in Hr1 as [Hc Hr1].
    destruct (read_props (N.to_nat c) r1) as [[[] gs] r2] eqn:R2.
    2:{ eapply PC_reject; exact P. }
    apply read_wire_sound in R2 as (Ew2 & Hgs & Hr2); auto.
    apply (PC_frame _ _ (Frame t s d v (Double (wps ss) (wps gs))) r2).
    + repeat split; auto; try apply Hss; try apply Hgs.
    + unfold wire, wire_eoj. cbn [f_tid f_seoj f_deoj f_esv f_body wire_body app].
      rewrite <- app_assoc, <- Ew2, <- Ew. subst. reflexivity.
    + rewrite P. unfold msg_of_frame. cbn [f_tid f_seoj f_deoj f_esv f_body]. rewrite !unw_wps. subst. reflexivity.
  - destruct (read_props (N.to_nat opc) r) as [[[] ps] r1] eqn:R.
    2:{ eapply PC_reject; exact P. }
    apply read_wire_sound in R as (Ew & Hss & Hr1); auto.
    apply is_double_false in D.
    apply (PC_frame _ _ (Frame t s d v (Single (wps ps))) r1).
    + repeat split; auto; apply Hss.
    + unfold wire, wire_eoj. cbn [f_tid f_seoj f_deoj f_esv f_body wire_body app].
      rewrite <- Ew. subst. reflexivity.
    + rewrite P. unfold msg_of_frame. cbn [f_tid f_seoj f_deoj f_esv f_body]. rewrite !unw_wps. subst. reflexivity.
Qed.

Lemma parse_panics m t s d v ss : two_lists v -> wprops_ok ss ->
  msg_parse m ([0x10; 0x81; t / 256; t mod 256] ++ wire_eoj s ++ wire_eoj d ++ [v] ++ wire_props ss) = Panic.
Proof.
  intros Hn Hp. unfold wire_eoj, wire_props. cbn [app]. rewrite msg_parse_eq. unfold parse_tail.
  apply is_double_spec in Hn. rewrite Hn. rewrite <- (app_nil_r (concat _)), read_wire_props by auto. reflexivity.
Qed.

Lemma msg_of_frame_wf f : frame_ok f -> msg_wf (msg_of_frame msg_new f) /\ in_limits (msg_of_frame msg_new f).
Proof.
  intros (Ht & Hs & Hd & Hv & Hb). unfold msg_of_frame, in_limits.
  assert (list_in_limit []) by (split; [simpl; lia|constructor]).
  destruct (f_body f) as [ps|ss gs]; cbn [wbody_ok] in Hb.
  - destruct Hb as [_ Hp]. apply wprops_ok_inv in Hp as [A B]. split.
    + constructor; cbn; auto; try (repeat split; simpl; lia).
      eapply Forall_impl; [|exact A]. intros p [X _]; exact X.
    + cbn; auto.
  - destruct Hb as (_ & Hp & Hg). apply wprops_ok_inv in Hp as [A B]. apply wprops_ok_inv in Hg as [A' B']. split.
    + constructor; cbn; auto; try (repeat split; simpl; lia).
      * eapply Forall_impl; [|exact A]. intros p [X _]; exact X.
      * eapply Forall_impl; [|exact A']. intros p [X _]; exact X.
    + cbn; auto.
Qed.

Lemma frame_of_content a b : frame_of a = frame_of b -> same_content a b.
Proof.
  unfold frame_of, same_content. intro E. inversion E as [[E1 E2 E3 E4 E5]].
  split; [|split; [|split; [|split; [|split]]]]; auto; intro T.
  - apply is_double_spec in T. rewrite ?E4 in T; rewrite ?E4, ?T in E5. inversion E5; auto using wps_inj.
  - apply is_double_false in T. rewrite ?E4 in T; rewrite ?E4, ?T in E5. inversion E5; auto using wps_inj.
Qed.
