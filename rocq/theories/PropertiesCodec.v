(** Properties C01-C14 (wire codec) and C25 (identification numbers). *)
From Verif Require Import Base ModelCodec SpecWire ProofsCodec ProofsCodec2.

(* ------------------------------------------------------------------ *)
(** Witnesses used by the examples. *)
Definition ex_read : message :=
  msg_add_property (msg_add_property (msg_set_esv (msg_set_deoj (msg_set_seoj (msg_set_tid msg_new 0x1234) 0x05FF01) 0x029101) EReadRequest)
    (PProp 0x80 [])) (PProp 0xB0 [1; 2; 255]).
Definition ex_wr : message :=
  msg_add_property_get (msg_add_property_set (msg_set_esv (msg_set_deoj (msg_set_seoj (msg_set_tid msg_new 7) 0x05FF01) 0x029101) EWriteReadRequest)
    (PProp 0x80 [0x30])) (PProp 0xB0 []).
Definition ex_5e : message :=
  msg_add_property (msg_set_esv (msg_set_tid msg_new 7) EWriteReadRequestError) (PProp 0x80 [0x30]).
Lemma ex_read_built : built ex_read.
Proof. repeat constructor; unfold octet; lia. Qed.
Lemma ex_wr_built : built ex_wr.
Proof. repeat constructor; unfold octet; lia. Qed.
Lemma ex_5e_built : built ex_5e.
Proof. repeat constructor; unfold octet; lia. Qed.
Ltac limits := unfold in_limits, list_in_limit, prop_in_limit; cbn; repeat split; repeat constructor; cbn; lia.

(* ------------------------------------------------------------------ *)
(** C01: decoding an encoded message gives the same content back; the property
    lists that the service does not use are empty afterwards. *)
Theorem C01_round_trip : forall m,
  built m -> in_limits m -> m_esv m <> 0x5E ->
  exists m', msg_parse msg_new (msg_bytes m) = Ret (true, m') /\ same_content m m' /\
    (two_lists (m_esv m) -> m_props m' = []) /\
    (~ two_lists (m_esv m) -> m_set m' = [] /\ m_get m' = []).
Proof.
  intros m B L H. apply built_wf in B.
  rewrite msg_bytes_wire, <- (app_nil_r (wire _)), parse_wire by (auto using frame_of_ok).
  eexists; split; [reflexivity|]. split.
  - apply frame_of_content. rewrite frame_of_msg_of_frame; auto using frame_of_ok.
  - unfold msg_of_frame, frame_of. cbn [f_body].
    split; intro T; [apply is_double_spec in T|apply is_double_false in T]; rewrite T; reflexivity || auto.
Qed.
Print Assumptions C01_round_trip.
Example C01_case : built ex_read /\ in_limits ex_read /\ m_esv ex_read <> 0x5E /\
  msg_bytes ex_read = [0x10;0x81;0x12;0x34;0x05;0xFF;0x01;0x02;0x91;0x01;0x62;2;0x80;0;0xB0;3;1;2;255].
Proof. split; [exact ex_read_built|]. split; [limits|]. split; [discriminate|]. vm_compute. reflexivity. Qed.
Example C01_case2 : built ex_wr /\ in_limits ex_wr /\ m_esv ex_wr <> 0x5E.
Proof. split; [exact ex_wr_built|]. split; [limits|]. discriminate. Qed.

(* ------------------------------------------------------------------ *)
(** C02 is false for every message: the encoder writes one property list, the
    decoder expects two and panics. *)
Theorem C02_round_trip_5E_refuted :
  (exists m, built m /\ in_limits m /\ m_esv m = 0x5E /\
     forall m', msg_parse msg_new (msg_bytes m) <> Ret (true, m')) /\
  forall m m0, built m -> in_limits m -> m_esv m = 0x5E -> msg_parse m0 (msg_bytes m) = Panic.
Proof.
  assert (A : forall m m0, built m -> in_limits m -> m_esv m = 0x5E -> msg_parse m0 (msg_bytes m) = Panic).
  { intros m m0 B (L & _ & _) H. apply built_wf in B. rewrite msg_bytes_eq, header_wire by auto.
    rewrite H. change (is_double 0x5E && negb (0x5E =? 0x5E)) with false. cbv iota.
    rewrite props_bytes_wire by auto. rewrite <- !app_assoc.
    apply parse_panics; [unfold two_lists; auto|]. apply wprops_ok_wps; auto. apply B. }
  split; auto. exists ex_5e. split; [exact ex_5e_built|]. split; [limits|]. split; [reflexivity|].
  intros m' E. rewrite A in E; [discriminate|exact ex_5e_built|limits|reflexivity].
Qed.
Print Assumptions C02_round_trip_5E_refuted.
(** Strongest true version: a well-formed 0x5E frame (two lists) is decoded
    completely; only the encoder is wrong. *)
Theorem C02_decode_5E_partial : forall f rest,
  frame_ok f -> f_esv f = 0x5E ->
  exists m, msg_parse msg_new (wire f ++ rest) = Ret (true, m) /\ carries m f.
Proof.
  intros f rest H _. exists (msg_of_frame msg_new f). split; [apply parse_wire; auto|apply carries_msg_of_frame; auto].
Qed.
Print Assumptions C02_decode_5E_partial.
Example C02_case : frame_ok (Frame 7 1 2 0x5E (Double [(0x80, [0x30])] [(0xB0, [])])) /\
  wire (Frame 7 1 2 0x5E (Double [(0x80, [0x30])] [(0xB0, [])])) =
    [0x10;0x81;0;7;0;0;1;0;0;2;0x5E;1;0x80;1;0x30;1;0xB0;0].
Proof.
  split; [|reflexivity]. repeat split; cbn; try lia; try (unfold two_lists; auto; fail);
    repeat constructor; cbn; try lia; unfold octet; lia.
Qed.

(* ------------------------------------------------------------------ *)
(** C03 is false: a 12-octet datagram makes the decoder panic. *)
Theorem C03_no_panic_refuted : exists bs, octets bs /\ length bs = 12%nat /\ msg_parse msg_new bs = Panic.
Proof.
  exists [0x10;0x81;0;0;0;0;0;0;0;0;0x6E;0]. split; [|split; reflexivity].
  repeat constructor; unfold octet; lia.
Qed.
Print Assumptions C03_no_panic_refuted.
(** Exactly these inputs panic, whatever the state of the Message: a frame of a
    two-list service that ends right after its first list. *)
Theorem C03_panic_iff_partial : forall m bs, octets bs ->
  (msg_parse m bs = Panic <->
   exists t s d v ss, t < 65536 /\ s < 16777216 /\ d < 16777216 /\ two_lists v /\ wprops_ok ss /\
     bs = [0x10; 0x81; t / 256; t mod 256] ++ wire_eoj s ++ wire_eoj d ++ [v] ++ wire_props ss).
Proof.
  intros m bs Ho. split.
  - intro P. destruct (parse_classify m bs Ho) as [| |t s d v ss]; try congruence.
    exists t, s, d, v, ss. auto 10.
  - intros (t & s & d & v & ss & _ & _ & _ & T & W & ->). apply parse_panics; auto.
Qed.
Print Assumptions C03_panic_iff_partial.
(** In particular one-list services never panic. *)
Theorem C03_single_list_never_panics_partial : forall m bs, octets bs ->
  ~ (exists v, nth_error bs 10 = Some v /\ two_lists v) -> msg_parse m bs <> Panic.
Proof.
  intros m bs Ho N P. apply C03_panic_iff_partial in P as (t & s & d & v & ss & _ & _ & _ & T & _ & ->); auto.
  apply N. exists v. split; auto.
Qed.
Print Assumptions C03_single_list_never_panics_partial.
Example C03_case : msg_parse msg_new [0x10;0x81;0;0;0;0;0;0;0;0;0x7E;1;0x80;1;0x30] = Panic /\
  exists m, msg_parse msg_new [0x10;0x81;0;0;0;0;0;0;0;0;0x7E;1;0x80;1] = Ret (false, m).
Proof. split; [reflexivity|eexists; vm_compute; reflexivity]. Qed.

(* ------------------------------------------------------------------ *)
(** C04: the decoder accepts exactly the inputs that begin with a well-formed
    frame, and yields that frame. *)
Theorem C04_accepts_iff_wellformed : forall bs, octets bs ->
  ((exists m, msg_parse msg_new bs = Ret (true, m)) <->
   (exists f rest, frame_ok f /\ bs = wire f ++ rest)).
Proof.
  intros bs Ho. split.
  - intros [m P]. destruct (parse_classify msg_new bs Ho); try congruence. eauto.
  - intros (f & rest & H & ->). rewrite parse_wire by auto. eauto.
Qed.
Print Assumptions C04_accepts_iff_wellformed.
Theorem C04_decoded_content : forall bs m, octets bs -> msg_parse msg_new bs = Ret (true, m) ->
  exists f rest, frame_ok f /\ bs = wire f ++ rest /\ carries m f /\
    (f_esv f <> 0x5E -> msg_bytes m = wire f) /\
    (forall g s, frame_ok g -> bs = wire g ++ s -> g = f /\ s = rest).
Proof.
  intros bs m Ho P. destruct (parse_classify msg_new bs Ho) as [f rest H E P'| |]; try congruence.
  assert (m = msg_of_frame msg_new f) by congruence. subst m. exists f, rest.
  split; auto. split; auto. split; [apply carries_msg_of_frame; auto|]. split.
  - intro V. destruct (msg_of_frame_wf f H). rewrite msg_bytes_wire; auto.
    + rewrite frame_of_msg_of_frame; auto.
    + unfold msg_of_frame. destruct (f_body f); exact V.
  - intros g s Hg E'. rewrite E in E'. symmetry in E'. apply wire_unique in E'; auto.
Qed.
Print Assumptions C04_decoded_content.
Example C04_case : octets [0x10;0x81;0;1;0x05;0xFF;0x01;0x0E;0xF0;0x01;0x62;1;0xD6;0;0xAA;0xBB] /\
  exists m, msg_parse msg_new [0x10;0x81;0;1;0x05;0xFF;0x01;0x0E;0xF0;0x01;0x62;1;0xD6;0;0xAA;0xBB] = Ret (true, m).
Proof. split; [repeat constructor; unfold octet; lia|eexists; vm_compute; reflexivity]. Qed.

(* ------------------------------------------------------------------ *)
(** C05: no proper prefix of an encoding is accepted. *)
Theorem C05_truncation_rejected : forall m pre suf,
  built m -> in_limits m -> m_esv m <> 0x5E ->
  msg_bytes m = pre ++ suf -> suf <> [] ->
  forall m', msg_parse msg_new pre <> Ret (true, m').
Proof.
  intros m pre suf B L V E S m' P. apply built_wf in B.
  rewrite msg_bytes_wire in E by auto. pose proof (frame_of_ok m B L) as F.
  assert (Ho : octets pre).
  { assert (octets (wire (frame_of m))) as O; [|rewrite E in O; apply octets_app in O; tauto].
    clear - B L F. rewrite <- (app_nil_r (wire _)), wire_unfold.
    destruct F as (Ht & Hs & Hd & Hv & Hb). repeat (apply octets_cons; split; [lia|]).
    apply octets_app; split; [|constructor].
    assert (W : forall ps, wprops_ok ps -> octets (wire_props ps)).
    { intros ps [A C]. apply octets_cons. split; [lia|]. clear C. induction A as [|p ps (X & Y & Z) _ IH]; [constructor|].
      cbn [map concat]. apply octets_app. split; auto. apply octets_cons; split; auto. apply octets_cons; split; [lia|auto]. }
    destruct (f_body (frame_of m)); cbn [wbody_ok wire_body] in *.
    - apply W; tauto.
    - apply octets_app; split; apply W; tauto. }
  destruct (parse_classify msg_new pre Ho) as [f rest H E' P'| |]; try congruence.
  rewrite E', <- app_assoc, <- (app_nil_r (wire (frame_of m))) in E.
  apply wire_unique in E as [_ E]; auto. symmetry in E. apply app_eq_nil in E. tauto.
Qed.
Print Assumptions C05_truncation_rejected.
Example C05_case : exists pre suf, msg_bytes ex_wr = pre ++ suf /\ suf <> [] /\ length pre = 17%nat.
Proof.
  exists (firstn 17 (msg_bytes ex_wr)), (skipn 17 (msg_bytes ex_wr)). rewrite firstn_skipn.
  split; auto. vm_compute. split; [discriminate|reflexivity].
Qed.

(* ------------------------------------------------------------------ *)
(** C06 is false: cloning any message of service 0x5E panics. *)
Theorem C06_clone_refuted : forall m, built m -> in_limits m -> m_esv m = 0x5E -> msg_clone m = Panic.
Proof.
  intros m B L H. unfold msg_clone. destruct C02_round_trip_5E_refuted as [_ A]. rewrite A; auto.
Qed.
Print Assumptions C06_clone_refuted.
Theorem C06_clone_partial : forall m, built m -> in_limits m -> m_esv m <> 0x5E ->
  exists m', msg_clone m = Ret m' /\ same_content m m' /\ msg_bytes m' = msg_bytes m /\
    msg_from m' = (V4 0, 0).
Proof.
  intros m B L V. unfold msg_clone. apply built_wf in B.
  rewrite msg_bytes_wire, <- (app_nil_r (wire _)), parse_wire by (auto using frame_of_ok).
  cbn [obind]. eexists; split; [reflexivity|].
  pose proof (frame_of_ok m B L) as F. destruct (msg_of_frame_wf _ F).
  assert (m_esv (msg_of_frame msg_new (frame_of m)) = m_esv m) as Ev.
  { unfold msg_of_frame. destruct (f_body (frame_of m)); reflexivity. }
  split; [|split].
  - apply frame_of_content. rewrite frame_of_msg_of_frame; auto.
  - rewrite msg_bytes_wire, frame_of_msg_of_frame, app_nil_r; auto. congruence.
  - unfold msg_of_frame. destruct (f_body (frame_of m)); reflexivity.
Qed.
Print Assumptions C06_clone_partial.
Example C06_case : msg_clone ex_5e = Panic /\ msg_clone ex_read = Ret ex_read.
Proof. split; reflexivity. Qed.

(* ------------------------------------------------------------------ *)
(** C07: equals is an equivalence relation ... *)
Lemma pprop_equals_eq a b : pprop_equals a b = true <-> a = b.
Proof.
  unfold pprop_equals, pp_size. destruct a as [c d], b as [c' d']. cbn [pp_code pp_data].
  destruct (N.eqb_spec c c'); cbn [negb]; [|split; congruence].
  destruct (Nat.eqb_spec (length d) (length d')); cbn [negb].
  - rewrite bytes_eqb_eq. split; congruence.
  - split; congruence.
Qed.
Lemma props_equals_eq a : forall b, props_equals a b = true <-> a = b.
Proof.
  induction a as [|x a IH]; destruct b as [|y b]; cbn [props_equals]; try (split; congruence).
  destruct (pprop_equals x y) eqn:E; cbn [negb].
  - apply pprop_equals_eq in E. rewrite IH. split; congruence.
  - split; [discriminate|]. intro H; inversion H; subst.
    assert (pprop_equals y y = true) by (apply pprop_equals_eq; auto). congruence.
Qed.
Lemma esv_to_u8_inj a b : esv_to_u8 a = esv_to_u8 b -> a = b.
Proof. destruct a, b; cbn; congruence. Qed.
Theorem C07_equals_iff : forall a b, msg_equals a b = true <->
  (msg_tid a = msg_tid b /\ msg_seoj a = msg_seoj b /\ msg_deoj a = msg_deoj b /\
   msg_esv a = msg_esv b /\ m_props a = m_props b).
Proof.
  intros a b. unfold msg_equals, esv_eqb, msg_opc.
  destruct (N.eqb_spec (msg_tid a) (msg_tid b)); cbn [negb]; [|split; [discriminate|tauto]].
  destruct (N.eqb_spec (msg_seoj a) (msg_seoj b)); cbn [negb]; [|split; [discriminate|tauto]].
  destruct (N.eqb_spec (msg_deoj a) (msg_deoj b)); cbn [negb]; [|split; [discriminate|tauto]].
  destruct (N.eqb_spec (esv_to_u8 (msg_esv a)) (esv_to_u8 (msg_esv b))) as [E|E]; cbn [negb].
  2:{ split; [discriminate|]. intros (_ & _ & _ & X & _). congruence. }
  apply esv_to_u8_inj in E.
  destruct (Nat.eqb_spec (length (m_props a)) (length (m_props b))); cbn [negb].
  - rewrite props_equals_eq. tauto.
  - split; [discriminate|]. intros (_ & _ & _ & _ & X). congruence.
Qed.
Print Assumptions C07_equals_iff.
Theorem C07_equivalence :
  (forall a, msg_equals a a = true) /\
  (forall a b, msg_equals a b = true -> msg_equals b a = true) /\
  (forall a b c, msg_equals a b = true -> msg_equals b c = true -> msg_equals a c = true).
Proof.
  split; [|split].
  - intro a. apply C07_equals_iff. auto.
  - intros a b. rewrite !C07_equals_iff. intuition congruence.
  - intros a b c. rewrite !C07_equals_iff. intuition congruence.
Qed.
Print Assumptions C07_equivalence.
(** ... but equal messages may have different encodings, since the set and get
    lists are not compared. *)
Theorem C07_equal_bytes_refuted : exists a b, built a /\ built b /\ in_limits a /\ in_limits b /\
  msg_equals a b = true /\ msg_bytes a <> msg_bytes b.
Proof.
  exists ex_wr, (msg_add_property_set ex_wr (PProp 0x81 [1])).
  split; [exact ex_wr_built|]. split; [constructor; [exact ex_wr_built|]; repeat constructor; unfold octet; lia|].
  split; [limits|]. split; [limits|]. split; [reflexivity|]. vm_compute. discriminate.
Qed.
Print Assumptions C07_equal_bytes_refuted.
Theorem C07_equal_bytes_partial : forall a b, built a -> built b ->
  m_esv a <> 0x6E -> m_esv a <> 0x7E -> msg_equals a b = true -> msg_bytes a = msg_bytes b.
Proof.
  intros a b Ba Bb Va Vb E. apply C07_equals_iff in E as (E1 & E2 & E3 & E4 & E5).
  pose proof (built_wf _ Ba) as Wa. pose proof (built_wf _ Bb) as Wb.
  destruct (built_esv _ Ba) as [ea Ea], (built_esv _ Bb) as [eb Eb].
  assert (X : forall e, esv_from_u8 (esv_to_u8 e) = e) by (intros []; reflexivity).
  unfold msg_esv in E4. rewrite Ea, Eb, !X in E4. subst eb.
  rewrite !msg_bytes_eq, !header_wire by auto. rewrite E1, E2, E3, E5, Ea, Eb. rewrite Ea in Va, Vb.
  replace (is_double (esv_to_u8 ea) && negb (esv_to_u8 ea =? 0x5E)) with false; auto.
  unfold is_double. destruct ea; cbn in *; congruence.
Qed.
Print Assumptions C07_equal_bytes_partial.
Example C07_case : built ex_read /\ m_esv ex_read <> 0x6E /\ m_esv ex_read <> 0x7E /\
  msg_equals ex_read (msg_add_property_set ex_read (PProp 1 [])) = true.
Proof. split; [exact ex_read_built|]. repeat split; discriminate. Qed.

(* ------------------------------------------------------------------ *)
(** C08: setters reduce to the width of the field and touch nothing else. *)
Theorem C08_set_tid : forall m t,
  msg_tid (msg_set_tid m t) = t mod 65536 /\
  (t < 65536 -> msg_tid (msg_set_tid m t) = t) /\
  msg_seoj (msg_set_tid m t) = msg_seoj m /\ msg_deoj (msg_set_tid m t) = msg_deoj m /\
  msg_esv (msg_set_tid m t) = msg_esv m /\ m_props (msg_set_tid m t) = m_props m /\
  m_set (msg_set_tid m t) = m_set m /\ m_get (msg_set_tid m t) = m_get m /\
  msg_from (msg_set_tid m t) = msg_from m.
Proof.
  intros m t. assert (msg_tid (msg_set_tid m t) = t mod 65536).
  { rewrite msg_set_tid_eq, msg_tid_eq. cbn [with_tid m_tid fst snd]. lia. }
  repeat split; auto. intro; rewrite H. lia.
Qed.
Print Assumptions C08_set_tid.
Theorem C08_set_seoj : forall m c,
  msg_seoj (msg_set_seoj m c) = c mod 16777216 /\
  msg_tid (msg_set_seoj m c) = msg_tid m /\ msg_deoj (msg_set_seoj m c) = msg_deoj m /\
  msg_esv (msg_set_seoj m c) = msg_esv m /\ m_props (msg_set_seoj m c) = m_props m /\
  m_set (msg_set_seoj m c) = m_set m /\ m_get (msg_set_seoj m c) = m_get m /\
  msg_from (msg_set_seoj m c) = msg_from m.
Proof. intros. repeat split. apply object_code_split. Qed.
Print Assumptions C08_set_seoj.
Theorem C08_set_deoj : forall m c,
  msg_deoj (msg_set_deoj m c) = c mod 16777216 /\
  msg_tid (msg_set_deoj m c) = msg_tid m /\ msg_seoj (msg_set_deoj m c) = msg_seoj m /\
  msg_esv (msg_set_deoj m c) = msg_esv m /\ m_props (msg_set_deoj m c) = m_props m /\
  m_set (msg_set_deoj m c) = m_set m /\ m_get (msg_set_deoj m c) = m_get m /\
  msg_from (msg_set_deoj m c) = msg_from m.
Proof. intros. repeat split. apply object_code_split. Qed.
Print Assumptions C08_set_deoj.
Example C08_case : msg_tid (msg_set_tid ex_read 0xFFFE) = 0xFFFE /\
  msg_seoj (msg_set_seoj ex_read 0xAB0EF001) = 0x0EF001 /\ msg_deoj (msg_set_deoj ex_read 0x0EF002) = 0x0EF002.
Proof. repeat split; reflexivity. Qed.

(* ------------------------------------------------------------------ *)
(** C09 is false: parse appends to the property lists of a used Message. *)
Theorem C09_reparse_refuted : exists m0 bs m1 m2, built m0 /\ octets bs /\
  msg_parse m0 bs = Ret (true, m1) /\ msg_parse msg_new bs = Ret (true, m2) /\ ~ same_content m1 m2.
Proof.
  exists ex_read, [0x10;0x81;0;1;0x05;0xFF;0x01;0x0E;0xF0;0x01;0x62;1;0xD6;0].
  eexists; eexists. split; [exact ex_read_built|]. split; [repeat constructor; unfold octet; lia|].
  split; [vm_compute; reflexivity|]. split; [vm_compute; reflexivity|].
  intros (_ & _ & _ & _ & _ & H). cbn in H. unfold two_lists in H. discriminate H. lia.
Qed.
Print Assumptions C09_reparse_refuted.
(** What is true: acceptance and header do not depend on the previous content,
    and the lists are the old ones followed by the decoded ones. *)
Theorem C09_reparse_partial : forall m0 bs m, octets bs ->
  (msg_parse m0 bs = Ret (true, m) <->
   exists m', msg_parse msg_new bs = Ret (true, m') /\
     m = Msg (m_ehd m') (m_tid m') (m_seoj m') (m_deoj m') (m_esv m')
           (m_props m0 ++ m_props m') (m_set m0 ++ m_set m') (m_get m0 ++ m_get m') (m_from m0)).
Proof.
  intros m0 bs m Ho.
  assert (A : forall f, msg_of_frame m0 f =
    let m' := msg_of_frame msg_new f in Msg (m_ehd m') (m_tid m') (m_seoj m') (m_deoj m') (m_esv m')
           (m_props m0 ++ m_props m') (m_set m0 ++ m_set m') (m_get m0 ++ m_get m') (m_from m0)).
  { intro f. unfold msg_of_frame. destruct (f_body f); cbn; rewrite ?app_nil_r; reflexivity. }
  split.
  - intro P. destruct (parse_classify m0 bs Ho) as [f rest H E P'| |]; try congruence.
    exists (msg_of_frame msg_new f). split; [subst bs; apply parse_wire; auto|]. rewrite P' in P. inversion P. apply A.
  - intros (m' & P & ->). destruct (parse_classify msg_new bs Ho) as [f rest H E P'| |]; try congruence.
    rewrite P' in P. inversion P. subst bs m'. rewrite parse_wire by auto. rewrite A. reflexivity.
Qed.
Print Assumptions C09_reparse_partial.
(** A Message that holds no properties is as good as a fresh one. *)
Theorem C09_reparse_empty_partial : forall m0 bs m, octets bs ->
  m_props m0 = [] -> m_set m0 = [] -> m_get m0 = [] ->
  msg_parse m0 bs = Ret (true, m) ->
  exists m', msg_parse msg_new bs = Ret (true, m') /\ same_content m m'.
Proof.
  intros m0 bs m Ho E1 E2 E3 P. apply C09_reparse_partial in P as (m' & P & ->); auto.
  exists m'. split; auto. rewrite E1, E2, E3. unfold same_content, msg_tid, msg_seoj, msg_deoj. cbn. auto 10.
Qed.
Print Assumptions C09_reparse_empty_partial.
Example C09_case : exists m, msg_parse ex_read [0x10;0x81;0;1;0x05;0xFF;0x01;0x0E;0xF0;0x01;0x62;1;0xD6;0] = Ret (true, m) /\
  length (m_props m) = 3%nat.
Proof. eexists; split; vm_compute; reflexivity. Qed.

(* ------------------------------------------------------------------ *)
(** C10: ESV codes. The octet lists are those of the ECHONET Lite
    specification, part II, 3.2.5. *)
Theorem C10_esv_decode : (forall e, esv_from_u8 (esv_to_u8 e) = e) /\
  (forall x, esv_to_u8 (esv_from_u8 x) = x \/ (esv_from_u8 x = EUnknown /\ forall e, esv_to_u8 e <> x)) /\
  (forall x y, esv_from_u8 x = esv_from_u8 y -> esv_from_u8 x <> EUnknown -> x = y).
Proof.
  split; [intros []; reflexivity|]. split.
  - intro x. destruct (esv_from_u8_cases x) as [[E H]|(e & He & -> & ->)]; [|left; reflexivity].
    destruct (N.eq_dec x 0) as [->|]; [left; reflexivity|right].
    split; auto. intros e C. destruct e; try (eapply H; [|symmetry; exact C]; discriminate). cbn in C. congruence.
  - intros x y E NE. destruct (esv_from_u8_cases x) as [[Ex _]|(e & _ & -> & Ex)]; [congruence|].
    destruct (esv_from_u8_cases y) as [[Ey _]|(e' & _ & -> & Ey)]; congruence.
Qed.
Print Assumptions C10_esv_decode.
Theorem C10_esv_classes : forall x,
  (esv_is_request (esv_from_u8 x) = true <-> In x [0x60; 0x61; 0x62; 0x63; 0x6E; 0x74]) /\
  (esv_is_response (esv_from_u8 x) = true <->
     In x [0x71; 0x72; 0x73; 0x7A; 0x7E; 0x50; 0x51; 0x52; 0x53; 0x5E]) /\
  (esv_is_error_response (esv_from_u8 x) = true <-> In x [0x50; 0x51; 0x52; 0x53; 0x5E]) /\
  (esv_is_notification_response (esv_from_u8 x) = true <-> In x [0x73; 0x7A]) /\
  (esv_is_unicast_response (esv_from_u8 x) = true <->
     In x [0x71; 0x72; 0x7E; 0x50; 0x51; 0x52; 0x53; 0x5E]) /\
  (esv_from_u8 x <> EUnknown ->
     xorb (esv_is_request (esv_from_u8 x)) (esv_is_response (esv_from_u8 x)) = true) /\
  (esv_from_u8 x = EUnknown ->
     esv_is_request (esv_from_u8 x) = false /\ esv_is_response (esv_from_u8 x) = false).
Proof.
  intro x. destruct (esv_from_u8_cases x) as [[E H]|(e & He & -> & ->)].
  - rewrite E. pose proof (fun e N => not_eq_sym (H e N)) as G.
    assert (K : forall l, Forall (fun c => exists e, e <> EUnknown /\ esv_to_u8 e = c) l -> ~ In x l).
    { intros l F I. rewrite Forall_forall in F. destruct (F x I) as (e & N & C). apply (G e N C). }
    assert (W : forall l, ~ In x l -> (false = true <-> In x l)) by (intros; split; [discriminate|tauto]).
    cbn [esv_is_request esv_is_response esv_is_error_response esv_is_notification_response esv_is_unicast_response negb].
    unfold esv_is_unicast_response; cbn.
    pose (WR := EWriteRequest).
    repeat split; try discriminate; try congruence;
    intro I; exfalso; revert I.
    + apply (K [0x60; 0x61; 0x62; 0x63; 0x6E; 0x74]); repeat constructor;
       [exists EWriteRequest|exists EWriteRequestResponseRequired|exists EReadRequest|exists ENotificationRequest|exists EWriteReadRequest|exists ENotificationResponseRequired]; split; (discriminate||reflexivity).
    + apply (K [0x71; 0x72; 0x73; 0x7A; 0x7E; 0x50; 0x51; 0x52; 0x53; 0x5E]); repeat constructor;
       [exists EWriteResponse|exists EReadResponse|exists ENotification|exists ENotificationResponse|exists EWriteReadResponse|exists EWriteRequestError|exists EWriteRequestResponseRequiredError|exists EReadRequestError|exists ENotificationRequestError|exists EWriteReadRequestError]; split; (discriminate||reflexivity).
    + apply (K [0x50; 0x51; 0x52; 0x53; 0x5E]); repeat constructor;
       [exists EWriteRequestError|exists EWriteRequestResponseRequiredError|exists EReadRequestError|exists ENotificationRequestError|exists EWriteReadRequestError]; split; (discriminate||reflexivity).
    + apply (K [0x73; 0x7A]); repeat constructor; [exists ENotification|exists ENotificationResponse]; split; (discriminate||reflexivity).
    + apply (K [0x71; 0x72; 0x7E; 0x50; 0x51; 0x52; 0x53; 0x5E]); repeat constructor;
       [exists EWriteResponse|exists EReadResponse|exists EWriteReadResponse|exists EWriteRequestError|exists EWriteRequestResponseRequiredError|exists EReadRequestError|exists ENotificationRequestError|exists EWriteReadRequestError]; split; (discriminate||reflexivity).
  - destruct e; cbn; repeat split; auto; try discriminate; try congruence; intuition discriminate.
Qed.
Print Assumptions C10_esv_classes.
Example C10_case : esv_from_u8 0x62 = EReadRequest /\ esv_from_u8 0x64 = EUnknown.
Proof. split; reflexivity. Qed.

(* ------------------------------------------------------------------ *)
(** C11: big-endian integers. *)
Definition be_value (bs : list N) : N := fold_left (fun a b => a * 256 + b) bs 0.

Lemma shr_byte {P : Profile} v k : k < 4 -> shr_w 32 v (k * 8) = Ret (v / 256 ^ k).
Proof.
  intro H. unfold shr_w. replace (k * 8 <? 32) with true by lia.
  rewrite N.shiftr_div_pow2. do 2 f_equal. rewrite N.mul_comm, N.pow_mul_r. reflexivity.
Qed.
Lemma shl_byte {P : Profile} b k : b < 256 -> k < 4 -> shl_w 32 b (k * 8) = Ret (b * 256 ^ k).
Proof.
  intros Hb H. unfold shl_w. replace (k * 8 <? 32) with true by lia.
  rewrite N.shiftl_mul_pow2. rewrite N.mul_comm with (n := k), N.pow_mul_r. change (2 ^ 8) with 256.
  rewrite N.mod_small; auto.
  assert (k = 0 \/ k = 1 \/ k = 2 \/ k = 3) as [-> | [-> | [-> | ->]]] by lia; cbn; lia.
Qed.
Theorem C11_int_codec : forall (P : Profile) v n, v < 2 ^ 32 -> (n <= 4)%nat ->
  exists bs, bytes_from_u32 v n = Ret bs /\ length bs = n /\ octets bs /\
    be_value bs = v mod 256 ^ N.of_nat n /\ bytes_to_u32 bs = Ret (v mod 256 ^ N.of_nat n).
Proof.
  intros P v n Hv Hn.
  assert (A : forall bs, octets bs -> (length bs <= 4)%nat -> bytes_to_u32 bs = Ret (be_value bs)).
  { intros bs Ho L. unfold bytes_to_u32, be_value.
    destruct bs as [|a [|b [|c [|d [|? ?]]]]]; cbn [length] in L; try lia; cbn [rev app fold_left bytes_to_u32_loop];
      rewrite ?octets_cons in Ho; try reflexivity;
      repeat (match goal with
        | |- context [shl_w 32 ?x (?k * 8)] => rewrite (shl_byte x k) by (cbn; lia); cbn [obind]
        | |- context [add_w 32 ?x ?y] => unfold add_w at 1; replace (x + y <? 2 ^ 32) with true by (cbn; lia); cbn [obind]
        end); f_equal; cbn; lia. }
  assert (exists bs, bytes_from_u32 v n = Ret bs /\ length bs = n /\ octets bs /\ be_value bs = v mod 256 ^ N.of_nat n) as (bs & E & L & O & V).
  { unfold bytes_from_u32.
    assert (n = 0 \/ n = 1 \/ n = 2 \/ n = 3 \/ n = 4)%nat as [-> | [-> | [-> | [-> | ->]]]] by lia;
      cbn [bytes_from_u32_loop]; rewrite ?shr_byte by (cbn; lia); cbn [obind]; eexists; (split; [reflexivity|]);
      (split; [reflexivity|]); rewrite ?land_ff; unfold as_u8; (split; [repeat constructor; unfold octet; lia|]);
      unfold be_value; cbn [fold_left N.of_nat];
      change (256 ^ N.of_nat 0) with 1; change (256 ^ N.of_nat 1) with 256; change (256 ^ N.of_nat 2) with 65536;
      change (256 ^ N.of_nat 3) with 16777216; change (256 ^ N.of_nat 4) with 4294967296; cbn [N.of_nat Pos.of_succ_nat Pos.succ];
      change (256 ^ 0) with 1; change (256 ^ 1) with 256; change (256 ^ 2) with 65536; change (256 ^ 3) with 16777216;
      change (2 ^ 32) with 4294967296 in Hv; lia. }
  exists bs. repeat split; auto. rewrite <- V. apply A; auto; lia.
Qed.
Print Assumptions C11_int_codec.
Theorem C11_int_codec_back : forall (P : Profile) bs, octets bs -> (length bs <= 4)%nat ->
  exists v, bytes_to_u32 bs = Ret v /\ v = be_value bs /\ v < 256 ^ N.of_nat (length bs) /\
    bytes_from_u32 v (length bs) = Ret bs.
Proof.
  intros P bs Ho L. unfold bytes_to_u32, bytes_from_u32, be_value.
  destruct bs as [|a [|b [|c [|d [|? ?]]]]]; cbn [length] in L; try lia; cbn [rev app fold_left bytes_to_u32_loop];
    rewrite ?octets_cons in Ho;
    repeat (match goal with
      | |- context [shl_w 32 ?x (?k * 8)] => rewrite (shl_byte x k) by (cbn; lia); cbn [obind]
      | |- context [add_w 32 ?x ?y] => unfold add_w at 1; replace (x + y <? 2 ^ 32) with true by (cbn; lia); cbn [obind]
      end);
    eexists; (split; [reflexivity|]);
    change (256 ^ 0) with 1; change (256 ^ 1) with 256; change (256 ^ (0 + 1)) with 256;
    change (256 ^ (0 + 1 + 1)) with 65536; change (256 ^ (0 + 1 + 1 + 1)) with 16777216;
    cbn [length]; change (256 ^ N.of_nat 0) with 1; change (256 ^ N.of_nat 1) with 256; change (256 ^ N.of_nat 2) with 65536;
    change (256 ^ N.of_nat 3) with 16777216; change (256 ^ N.of_nat 4) with 4294967296;
    (split; [lia|]); (split; [lia|]);
    cbn [bytes_from_u32_loop]; rewrite ?shr_byte by (cbn; lia); cbn [obind]; rewrite ?land_ff; unfold as_u8;
    change (256 ^ N.of_nat 0) with 1; change (256 ^ N.of_nat 1) with 256; change (256 ^ N.of_nat 2) with 65536;
    change (256 ^ N.of_nat 3) with 16777216; repeat (f_equal; try lia).
Qed.
Print Assumptions C11_int_codec_back.
Example C11_case : bytes_from_u32 (P := true) 0x01020304 3 = Ret [2; 3; 4] /\ bytes_to_u32 (P := true) [2; 3; 4] = Ret 0x020304.
Proof. split; reflexivity. Qed.

(* ------------------------------------------------------------------ *)
(** C12: encodings determine the visible content and are prefix-free. *)
Theorem C12_injective : forall a b r s, built a -> built b -> in_limits a -> in_limits b ->
  m_esv a <> 0x5E -> m_esv b <> 0x5E ->
  msg_bytes a ++ r = msg_bytes b ++ s -> same_content a b /\ r = s.
Proof.
  intros a b r s Ba Bb La Lb Va Vb E. apply built_wf in Ba. apply built_wf in Bb.
  rewrite !msg_bytes_wire in E by auto. apply wire_unique in E as [E ->]; auto using frame_of_ok.
  split; auto. apply frame_of_content; auto.
Qed.
Print Assumptions C12_injective.
Example C12_case : msg_bytes ex_read ++ [] = msg_bytes (msg_add_property_set ex_read (PProp 1 [])) ++ [].
Proof. reflexivity. Qed.

(* ------------------------------------------------------------------ *)
(** C13 is false: with 256 properties the counter is truncated and the decoder
    sees none of them; with 256 data octets the frame is garbled. *)
Theorem C13_oversize_refuted :
  (exists m, built m /\ m_esv m = 0x62 /\ length (m_props m) = 256%nat /\
     exists m', msg_parse msg_new (msg_bytes m) = Ret (true, m') /\ m_props m' = []) /\
  (exists m p, built m /\ m_esv m = 0x61 /\ m_props m = [p; p] /\ length (pp_data p) = 256%nat /\
     exists m', msg_parse msg_new (msg_bytes m) = Ret (true, m') /\ m_props m' <> m_props m).
Proof.
  split.
  - assert (B : forall n m, built m -> built (Nat.iter n (fun x => msg_add_property x (PProp 0x80 [])) m)).
    { induction n as [|n IH]; intros m H; simpl; auto. constructor; auto. repeat constructor; unfold octet; simpl; lia. }
    exists (Nat.iter 256 (fun x => msg_add_property x (PProp 0x80 [])) (msg_set_esv msg_new EReadRequest)).
    split; [apply B; repeat constructor|]. split; [vm_compute; reflexivity|]. split; [vm_compute; reflexivity|].
    eexists. split; vm_compute; reflexivity.
  - exists (msg_add_property (msg_add_property (msg_set_esv msg_new EWriteRequestResponseRequired) (PProp 0x80 (repeat 0 256))) (PProp 0x80 (repeat 0 256))), (PProp 0x80 (repeat 0 256)).
    split.
    + repeat constructor; try (unfold octet; cbn; lia); apply Forall_forall; intros x Hx; apply repeat_spec in Hx; subst; unfold octet; lia.
    + split; [reflexivity|]. split; [reflexivity|]. split; [vm_compute; reflexivity|].
      eexists. split; [vm_compute; reflexivity|]. vm_compute. discriminate.
Qed.
Print Assumptions C13_oversize_refuted.
Theorem C13_in_limits_partial : forall m, built m -> in_limits m -> m_esv m <> 0x5E ->
  exists f, frame_ok f /\ msg_bytes m = wire f /\ f_tid f = msg_tid m /\ f_seoj f = msg_seoj m /\
    f_deoj f = msg_deoj m /\ f_esv f = m_esv m /\
    f_body f = if is_double (m_esv m) then Double (map to_wprop (m_set m)) (map to_wprop (m_get m))
               else Single (map to_wprop (m_props m)).
Proof.
  intros m B L V. apply built_wf in B. exists (frame_of m).
  split; [apply frame_of_ok; auto|]. split; [apply msg_bytes_wire; auto|]. repeat split.
Qed.
Print Assumptions C13_in_limits_partial.
Example C13_case : built ex_wr /\ in_limits ex_wr /\ m_esv ex_wr <> 0x5E.
Proof. split; [exact ex_wr_built|]. split; [limits|]. discriminate. Qed.

(* ------------------------------------------------------------------ *)
(** C14 is false: a malformed input gives the very same Message as a
    well-formed one, so no caller of from_bytes can tell. *)
Theorem C14_from_bytes_refuted : exists bad good m, octets bad /\
  (forall f rest, frame_ok f -> bad <> wire f ++ rest) /\
  (exists f, frame_ok f /\ good = wire f) /\
  msg_from_bytes bad = Ret m /\ msg_from_bytes good = Ret m.
Proof.
  set (bad := [0x10;0x81;0;1;0x05;0xFF;0x01;0x0E;0xF0;0x01;0x62;2;0xD6;0]).
  exists bad, [0x10;0x81;0;1;0x05;0xFF;0x01;0x0E;0xF0;0x01;0x62;1;0xD6;0].
  assert (Ho : octets bad) by (repeat constructor; unfold octet; lia).
  eexists. split; [exact Ho|]. split; [|split; [|split; vm_compute; reflexivity]].
  - intros f rest F E. assert (exists m, msg_parse msg_new bad = Ret (true, m)) as [m P].
    { apply C04_accepts_iff_wellformed; eauto. }
    vm_compute in P. discriminate.
  - exists (Frame 1 0x05FF01 0x0EF001 0x62 (Single [(0xD6, [])])). split; [|reflexivity].
    repeat split; cbn; try lia; try (unfold two_lists; lia); repeat constructor; cbn; lia.
Qed.
Print Assumptions C14_from_bytes_refuted.
Theorem C14_from_bytes_partial : forall f rest, frame_ok f ->
  exists m, msg_from_bytes (wire f ++ rest) = Ret m /\ carries m f.
Proof.
  intros f rest H. exists (msg_of_frame msg_new f). unfold msg_from_bytes. rewrite parse_wire by auto.
  split; [reflexivity|apply carries_msg_of_frame; auto].
Qed.
Print Assumptions C14_from_bytes_partial.
Example C14_case : frame_ok (Frame 1 0x05FF01 0x0EF001 0x62 (Single [(0xD6, [])])).
Proof. repeat split; cbn; try lia; try (unfold two_lists; lia); repeat constructor; cbn; lia. Qed.

(* ------------------------------------------------------------------ *)
(** C25: identification numbers (EPC 0x83). *)
Theorem C25_oid_format : forall (P : Profile) code uuid, code < 2 ^ 32 -> octets uuid -> length uuid = 16%nat ->
  exists man, bytes_from_u32 code 3 = Ret man /\ length man = 3%nat /\ be_value man = code mod 2 ^ 24 /\
    oid_new code uuid = Ret ([0xFE] ++ man ++ rev (skipn 3 uuid)) /\
    length ([0xFE] ++ man ++ rev (skipn 3 uuid)) = 17%nat.
Proof.
  intros P code uuid Hc Ho L. destruct (C11_int_codec P code 3 Hc ltac:(lia)) as (man & E & Lm & _ & V & _).
  exists man. repeat split; auto. 
  - unfold oid_new. rewrite E. cbn [obind]. rewrite idx_range_spec by (rewrite rev_length; lia).
    cbn [obind skipn app]. do 3 f_equal.
    do 17 (destruct uuid as [|? uuid]; [cbn in L; try lia; try reflexivity|]); cbn in L; lia.
  - rewrite !app_length, rev_length, skipn_length. cbn [length]. lia.
Qed.
Print Assumptions C25_oid_format.
Theorem C25_oid_unique : forall (P : Profile) code u1 u2 id, code < 2 ^ 32 -> octets u1 -> octets u2 ->
  length u1 = 16%nat -> length u2 = 16%nat ->
  oid_new code u1 = Ret id -> oid_new code u2 = Ret id -> skipn 3 u1 = skipn 3 u2.
Proof.
  intros P code u1 u2 id Hc O1 O2 L1 L2 E1 E2.
  destruct (C25_oid_format P code u1) as (man & M & _ & _ & F1 & _); auto.
  destruct (C25_oid_format P code u2) as (man2 & M2 & _ & _ & F2 & _); auto.
  assert (man = man2) by congruence. subst man2. rewrite E1 in F1. rewrite E2 in F2.
  assert (X : [0xFE] ++ man ++ rev (skipn 3 u1) = [0xFE] ++ man ++ rev (skipn 3 u2)) by congruence.
  apply app_inv_head in X. apply app_inv_head in X.
  rewrite <- (rev_involutive (skipn 3 u1)), X, rev_involutive. reflexivity.
Qed.
Print Assumptions C25_oid_unique.
Example C25_case : oid_new (P := true) 0xFFFFFF [0;1;2;3;4;5;6;7;8;9;10;11;12;13;14;15] =
  Ret [0xFE;255;255;255;15;14;13;12;11;10;9;8;7;6;5;4;3].
Proof. reflexivity. Qed.
