(** C99: the text of a message. *)
From Verif Require Import Base HMap ModelCodec ModelMessages ModelTools ModelText SpecWire ProofsCodec ProofsCodec2 PropertiesCodec PropertiesNetwork PropertiesTools.

(** A digit that [{:X}] prints. *)
Definition printed (c : N) : Prop := 0x30 <= c <= 0x39 \/ 0x41 <= c <= 0x46.

Lemma upper_digit_digit v : v < 16 -> digit (upper_digit v) v /\ printed (upper_digit v).
Proof.
  intro H. unfold upper_digit, printed. destruct (N.ltb_spec v 10) as [L|L]; [split; [constructor|]; lia|].
  split; [|lia]. replace v with (10 + (v - 10)) at 2 by lia. constructor. lia.
Qed.
Lemma fmt_spells b s bs : b < 256 -> spells s bs -> spells (fmt_02X b ++ s) (b :: bs) /\ Forall printed (fmt_02X b) /\ length (fmt_02X b) = 2%nat.
Proof.
  intros H S. replace b with (16 * (b / 16) + b mod 16) at 2 by lia. unfold fmt_02X, upper_hex. destruct (N.ltb_spec b 16) as [L|L]; cbn [length Nat.sub repeat app].
  - destruct (upper_digit_digit b L) as [D Q]. replace (b / 16) with 0 by lia. replace (b mod 16) with b by lia. split; [|split; auto].
    + constructor; [apply (digit_dec 0); lia|exact D|exact S].
    + constructor; [unfold printed; lia|auto].
  - destruct (upper_digit_digit (b / 16) ltac:(lia)) as [D Q]. destruct (upper_digit_digit (b mod 16) ltac:(lia)) as [D' Q'].
    split; [constructor; auto|auto].
Qed.
Lemma text_spells bs : octets bs -> spells (flat_map fmt_02X bs) bs /\ Forall printed (flat_map fmt_02X bs) /\ length (flat_map fmt_02X bs) = (2 * length bs)%nat.
Proof.
  induction 1 as [|b r H _ (A & B & C)]; [split; [constructor|split; [constructor|reflexivity]]|]. cbn [flat_map].
  destruct (fmt_spells b _ _ H A) as (X & Y & Z). split; auto. split; [apply Forall_app; auto|]. rewrite app_length, Z, C. cbn [length]. lia.
Qed.
Lemma spells_same s a b : spells s a -> spells s b -> a = b.
Proof. rewrite !hex_decode_spells. congruence. Qed.

(** ** C99 *)
(** The text of every message is the hexadecimal spelling of its encoding, in
    upper case. *)
Theorem C99_text : forall m, built m ->
  spells (msg_display m) (msg_bytes m) /\ Forall printed (msg_display m) /\ length (msg_display m) = (2 * length (msg_bytes m))%nat.
Proof. intros m B. apply text_spells, msg_bytes_octets, built_wf, B. Qed.
(** A message can be read back from its text. *)
Theorem C99_read_back : forall m bs, built m -> in_limits m -> m_esv m <> 0x5E -> spells (msg_display m) bs ->
  exists m', msg_parse msg_new bs = Ret (true, m') /\ same_content m m'.
Proof.
  intros m bs B L V S. destruct (C99_text m B) as (T & _). rewrite (spells_same _ _ _ S T).
  destruct (C01_round_trip m B L V) as (m' & E & C & _). eauto.
Qed.
(** Messages with the same text have the same content. *)
Theorem C99_same_text : forall a b, built a -> built b -> in_limits a -> in_limits b -> m_esv a <> 0x5E -> m_esv b <> 0x5E ->
  msg_display a = msg_display b -> same_content a b.
Proof.
  intros a b Ba Bb La Lb Va Vb E. destruct (C99_text a Ba) as (Ta & _). destruct (C99_text b Bb) as (Tb & _). rewrite E in Ta. pose proof (spells_same _ _ _ Ta Tb) as X.
  destruct (C01_round_trip a Ba La Va) as (m & Em & (A1 & A2 & A3 & A4 & A5 & A6) & _). destruct (C01_round_trip b Bb Lb Vb) as (m' & Em' & (B1 & B2 & B3 & B4 & B5 & B6) & _).
  rewrite X, Em' in Em. inversion Em; subst m'. unfold same_content. assert (Ee : m_esv a = m_esv b) by congruence. rewrite Ee in *.
  split; [congruence|]. split; [congruence|]. split; [congruence|]. split; [reflexivity|]. split; intro T.
  - destruct (A5 T), (B5 T). split; congruence.
  - rewrite (A6 T), (B6 T). reflexivity.
Qed.
(** The text of a service is its code; different services have different texts. *)
Theorem C99_service : forall e, spells (esv_display e) [esv_to_u8 e] /\ Forall printed (esv_display e) /\ forall e', esv_display e' = esv_display e -> e' = e.
Proof.
  assert (X : forall e, spells (esv_display e) [esv_to_u8 e] /\ Forall printed (esv_display e)).
  { intro e. destruct (fmt_spells (esv_to_u8 e) [] [] ltac:(destruct e; cbn; lia) spells_nil) as (A & B & _). rewrite app_nil_r in A. auto. }
  intro e. destruct (X e) as [A B]. split; auto. split; auto. intros e' E. destruct (X e') as [A' _]. rewrite E in A'. pose proof (spells_same _ _ _ A A') as Y.
  inversion Y as [Z]. destruct e, e'; try reflexivity; discriminate Z.
Qed.
Print Assumptions C99_text.
Print Assumptions C99_read_back.
Print Assumptions C99_same_text.
Print Assumptions C99_service.

(** "1081000A05FF01029101610180013F" and "6E" *)
Example C99_case :
  msg_display (msg_add_property (msg_set_esv (msg_set_deoj (msg_set_seoj (msg_set_tid msg_new 10) 0x05FF01) 0x029101) EWriteRequestResponseRequired) (PProp 0x80 [0x3F])) =
    txt "1081000A05FF01029101610180013F"%string /\
  esv_display EWriteReadRequest = txt "6E"%string /\ esv_display EUnknown = txt "00"%string.
Proof. vm_compute. auto. Qed.
