(** C103 and C104: messages and properties hold what was put into them, in any
    order of calls. C105: the types of the standard properties. *)
From Verif Require Import Base HMap DbTable ModelCodec ModelMessages ModelObject ModelCalls SpecWire SpecObject
  ProofsCodec ProofsCodec2 PropertiesCodec ProofsObject ProofsObject2 ProofsObject3 PropertiesObject PropertiesDb.

(* ------------------------------------------------------------------ *)
(** ** What the calls say *)

(** The value of the last call that gives one, and the values of all of them. *)
Fixpoint last_of {A B} (f : A -> option B) (l : list A) (d : B) : B :=
  match l with [] => d | x :: r => last_of f r (match f x with Some b => b | None => d end) end.
Fixpoint all_of {A B} (f : A -> option B) (l : list A) : list B :=
  match l with [] => [] | x :: r => match f x with Some b => b :: all_of f r | None => all_of f r end end.

Definition a_tid c := match c with MSetTid t => Some t | _ => None end.
Definition a_seoj c := match c with MSetSeoj t => Some t | _ => None end.
Definition a_deoj c := match c with MSetDeoj t => Some t | _ => None end.
Definition a_esv c := match c with MSetEsv t => Some t | _ => None end.
Definition a_from c := match c with MSetFrom t => Some t | _ => None end.
Definition a_prop c := match c with MAdd p => Some p | _ => None end.
Definition a_set c := match c with MAddSet p => Some p | _ => None end.
Definition a_get c := match c with MAddGet p => Some p | _ => None end.

(* ------------------------------------------------------------------ *)
(** ** Messages *)

Lemma esv_back e : esv_from_u8 (esv_to_u8 e) = e.
Proof. destruct e; reflexivity. Qed.

Lemma build_gen cs : forall m,
  let r := fold_left mcall_run cs m in
  m_ehd r = m_ehd m /\
  msg_tid r = last_of (fun c => option_map (fun t => t mod 65536) (a_tid c)) cs (msg_tid m) /\
  msg_seoj r = last_of (fun c => option_map (fun t => t mod 16777216) (a_seoj c)) cs (msg_seoj m) /\
  msg_deoj r = last_of (fun c => option_map (fun t => t mod 16777216) (a_deoj c)) cs (msg_deoj m) /\
  msg_esv r = last_of a_esv cs (msg_esv m) /\ msg_from r = last_of a_from cs (msg_from m) /\
  m_props r = m_props m ++ all_of a_prop cs /\ m_set r = m_set m ++ all_of a_set cs /\ m_get r = m_get m ++ all_of a_get cs.
Proof.
  induction cs as [|c cs IH]; intro m.
  - cbn. rewrite !app_nil_r. repeat split.
  - cbn [fold_left last_of all_of]. specialize (IH (mcall_run m c)). cbv zeta in IH |- *.
    destruct IH as (A & B & C & D & E & F & G & H & I). rewrite A, B, C, D, E, F, G, H, I. clear.
    destruct c as [t|t|t|e|p|p|p|a]; cbn [mcall_run a_tid a_seoj a_deoj a_esv a_from a_prop a_set a_get option_map].
    + pose proof (C08_set_tid m t) as (X & _). rewrite X. repeat split.
    + pose proof (C08_set_seoj m t) as (X & _). rewrite X. repeat split.
    + pose proof (C08_set_deoj m t) as (X & _). rewrite X. repeat split.
    + unfold msg_set_esv, msg_esv. cbn [with_esv m_esv m_ehd m_props m_set m_get]. rewrite esv_back. repeat split.
    + cbn [msg_add_property with_props m_props m_set m_get]. rewrite <- app_assoc. repeat split.
    + cbn [msg_add_property_set with_set m_props m_set m_get]. rewrite <- app_assoc. repeat split.
    + cbn [msg_add_property_get with_get m_props m_set m_get]. rewrite <- app_assoc. repeat split.
    + repeat split.
Qed.

Lemma last_map {A B C} (f : A -> option B) (g : B -> C) l : forall d, last_of (fun c => option_map g (f c)) l (g d) = g (last_of f l d).
Proof. induction l as [|x l IH]; intro d; cbn; [reflexivity|]. destruct (f x); cbn; apply IH. Qed.

(** A new message is the frame 10 81 00 00 00 00 00 00 00 00 00 00: nothing is set,
    nothing is in it. After any calls every field has the value of the last call
    for it (as many bits as the field has) and every list is what was added to it,
    in this order. *)
Theorem C103_fields : forall cs,
  msg_is_format1 (msg_build cs) = true /\
  msg_tid (msg_build cs) = last_of a_tid cs 0 mod 65536 /\
  (msg_has_tid (msg_build cs) = true <-> last_of a_tid cs 0 mod 65536 <> 0) /\
  msg_seoj (msg_build cs) = last_of a_seoj cs 0 mod 16777216 /\
  msg_deoj (msg_build cs) = last_of a_deoj cs 0 mod 16777216 /\
  msg_esv (msg_build cs) = last_of a_esv cs EUnknown /\
  msg_from (msg_build cs) = last_of a_from cs (V4 0, 0).
Proof.
  intro cs. destruct (build_gen cs msg_new) as (A & B & C & D & E & F & _). fold (msg_build cs) in *.
  change (msg_tid msg_new) with (0 mod 65536) in B. change (msg_seoj msg_new) with (0 mod 16777216) in C.
  change (msg_deoj msg_new) with (0 mod 16777216) in D.
  rewrite (last_map a_tid (fun t => t mod 65536)) in B. rewrite (last_map a_seoj (fun t => t mod 16777216)) in C.
  rewrite (last_map a_deoj (fun t => t mod 16777216)) in D.
  split; [unfold msg_is_format1; rewrite A; reflexivity|]. split; [exact B|]. split.
  { unfold msg_has_tid. rewrite B. destruct (N.eqb_spec (last_of a_tid cs 0 mod 65536) 0) as [X|X]; split; intro Y; try congruence; auto. }
  auto.
Qed.
Print Assumptions C103_fields.

Lemma idx_eq {A} (l : list A) n x : idx l n = Ret x <-> nth_error l n = Some x.
Proof. unfold idx. destruct (nth_error l n); split; congruence. Qed.
Lemma idx_panic {A} (l : list A) n : idx l n = Panic <-> (length l <= n)%nat.
Proof. unfold idx. rewrite <- nth_error_None. destruct (nth_error l n); split; congruence. Qed.

(** The lists: their length, the n-th of them, and a panic beyond the end. *)
Theorem C103_lists : forall cs, let m := msg_build cs in
  (m_props m = all_of a_prop cs /\ m_set m = all_of a_set cs /\ m_get m = all_of a_get cs) /\
  (msg_opc m = length (all_of a_prop cs) /\ msg_opc_set m = length (all_of a_set cs) /\ msg_opc_get m = length (all_of a_get cs)) /\
  forall n x,
  ((msg_property m n = Ret x <-> nth_error (all_of a_prop cs) n = Some x) /\
   (msg_property_set m n = Ret x <-> nth_error (all_of a_set cs) n = Some x) /\
   (msg_property_get m n = Ret x <-> nth_error (all_of a_get cs) n = Some x)) /\
  (msg_property m n = Panic <-> (msg_opc m <= n)%nat) /\ (msg_property_set m n = Panic <-> (msg_opc_set m <= n)%nat) /\
  (msg_property_get m n = Panic <-> (msg_opc_get m <= n)%nat).
Proof.
  intros cs m. destruct (build_gen cs msg_new) as (_ & _ & _ & _ & _ & _ & G & H & I). fold (msg_build cs) in G, H, I. fold m in G, H, I.
  clearbody m. cbn [msg_new m_props m_set m_get app] in G, H, I.
  unfold msg_opc, msg_opc_set, msg_opc_get, msg_property, msg_property_set, msg_property_get. rewrite G, H, I.
  split; [auto|]. split; [auto|]. intros n x. rewrite !idx_eq, !idx_panic. tauto.
Qed.
Print Assumptions C103_lists.

(** The same for the properties of a message: a new one has code 0 and no data. *)
Theorem C103_properties : forall cs,
  pp_code (pprop_build cs) = last_of (fun c => match c with QCode x => Some x | _ => None end) cs 0 /\
  pp_data (pprop_build cs) = last_of (fun c => match c with QData x => Some x | _ => None end) cs [] /\
  pp_size (pprop_build cs) = length (pp_data (pprop_build cs)).
Proof.
  intro cs. unfold pprop_build. assert (X : forall p,
    pp_code (fold_left qcall_run cs p) = last_of (fun c => match c with QCode x => Some x | _ => None end) cs (pp_code p) /\
    pp_data (fold_left qcall_run cs p) = last_of (fun c => match c with QData x => Some x | _ => None end) cs (pp_data p)).
  { induction cs as [|c cs IH]; intro p; [split; reflexivity|]. cbn [fold_left last_of]. destruct (IH (qcall_run p c)) as [A B].
    rewrite A, B. destruct c; split; reflexivity. }
  destruct (X pprop_new) as [A B]. split; [exact A|]. split; [exact B|reflexivity].
Qed.
Print Assumptions C103_properties.

Example C103_case :
  let m := msg_build [MSetTid 7; MAddSet (PProp 0x80 [0x30]); MSetDeoj 0xFF029101; MAddGet (PProp 0xB0 []); MSetTid 0x10001; MAddSet (PProp 0x81 [8]); MSetEsv EWriteReadRequest] in
  msg_tid m = 1 /\ msg_deoj m = 0x029101 /\ msg_seoj m = 0 /\ msg_opc m = 0%nat /\ msg_opc_set m = 2%nat /\ msg_opc_get m = 1%nat /\
  msg_property_set m 1 = Ret (PProp 0x81 [8]) /\ msg_property_get m 0 = Ret (PProp 0xB0 []) /\ msg_property_get m 1 = Panic.
Proof. vm_compute. repeat split. Qed.

(* ------------------------------------------------------------------ *)
(** ** Properties of objects *)

Definition b_code c := match c with PCode x => Some x | _ => None end.
Definition b_name c := match c with PName x => Some x | _ => None end.
Definition b_type c := match c with PType x => Some x | _ => None end.
Definition b_cap c := match c with PCap x => Some x | _ => None end.
Definition b_read c := match c with PRead x => Some x | _ => None end.
Definition b_write c := match c with PWrite x => Some x | _ => None end.
Definition b_anno c := match c with PAnno x => Some x | _ => None end.
(** set_data and set_byte_data replace, add_data appends. *)
Fixpoint data_of (cs : list pcall) (d : list N) : list N :=
  match cs with
  | [] => d
  | PData x :: r => data_of r x | PByte v :: r => data_of r [v] | PAddData x :: r => data_of r (d ++ x)
  | _ :: r => data_of r d
  end.
(** The last enumerated value that was added with a code. *)
Definition b_enum k c := match c with PAddEnum e => if pe_code e =? k then Some (Some e) else None | _ => None end.

Lemma enum_insert_get m k e k' : hget (enum_insert m k e) k' = if k =? k' then Some e else hget m k'.
Proof.
  unfold enum_insert. destruct (hget m k) eqn:E.
  - rewrite hget_hput. rewrite N.eqb_sym. destruct (N.eqb_spec k k') as [->|]; [rewrite E|]; reflexivity.
  - revert E. induction m as [|[a v] m IH]; cbn [hget app]; intro E.
    + rewrite N.eqb_sym. reflexivity.
    + destruct (N.eqb_spec k a) as [->|Ka]; [discriminate|]. specialize (IH E).
      destruct (N.eqb_spec k' a) as [->|]; [destruct (N.eqb_spec k a); [congruence|reflexivity]|exact IH].
Qed.

(** After any calls. *)
Theorem C104_property : forall cs, let p := prop_build cs in
  p_code p = last_of b_code cs 0 /\ p_name p = last_of b_name cs ""%string /\ p_typ p = last_of b_type cs ""%string /\
  p_cap p = last_of b_cap cs 0 /\ p_read p = last_of b_read cs Prohibited /\ p_write p = last_of b_write cs Prohibited /\
  p_anno p = last_of b_anno cs Prohibited /\ p_data p = data_of cs [] /\
  prop_data_as_byte p = hd 0 (data_of cs []) /\
  (forall d, prop_equals_data p d = true <-> d = data_of cs []) /\
  (forall k, prop_find_enum p k = last_of (b_enum k) cs None).
Proof.
  assert (X : forall cs p0, let p := fold_left pcall_run cs p0 in
    p_code p = last_of b_code cs (p_code p0) /\ p_name p = last_of b_name cs (p_name p0) /\ p_typ p = last_of b_type cs (p_typ p0) /\
    p_cap p = last_of b_cap cs (p_cap p0) /\ p_read p = last_of b_read cs (p_read p0) /\ p_write p = last_of b_write cs (p_write p0) /\
    p_anno p = last_of b_anno cs (p_anno p0) /\ p_data p = data_of cs (p_data p0) /\
    (forall k, prop_find_enum p k = last_of (b_enum k) cs (prop_find_enum p0 k))).
  { induction cs as [|c cs IH]; intro p0; [cbn; repeat split|]. specialize (IH (pcall_run p0 c)). cbv zeta in IH |- *.
    cbn [fold_left]. destruct IH as (A & B & C & D & E & F & G & H & I). rewrite A, B, C, D, E, F, G, H. clear - I.
    destruct c; (repeat (split; [reflexivity|])); intro k; rewrite I; try reflexivity.
    cbn [last_of b_enum pcall_run]. f_equal. unfold prop_find_enum, prop_add_enum. cbn [prop_with_enums p_enums].
    rewrite enum_insert_get. destruct (pe_code e =? k); reflexivity. }
  intros cs p. destruct (X cs prop_new) as (A & B & C & D & E & F & G & H & I). fold (prop_build cs) in *. fold p in A, B, C, D, E, F, G, H, I.
  clearbody p. cbn [prop_new p_code p_name p_typ p_cap p_read p_write p_anno p_data] in *.
  repeat (split; [assumption|]). split; [|split].
  - unfold prop_data_as_byte. rewrite H. destruct (data_of cs []); reflexivity.
  - intro d. unfold prop_equals_data. rewrite H. destruct (Nat.eqb_spec (length (data_of cs [])) (length d)) as [Y|Y]; cbn [negb].
    + rewrite bytes_eqb_eq. split; congruence.
    + split; [discriminate|]. intros ->. congruence.
  - intro k. rewrite I. reflexivity.
Qed.
Print Assumptions C104_property.
Example C104_case :
  let p := prop_build [PCode 0x80; PData [1; 2]; PAddEnum (PEnum 5 "a" "x"); PAddData [3]; PRead Required; PAddEnum (PEnum 5 "b" "y"); PRead Optional] in
  p_code p = 0x80 /\ p_data p = [1; 2; 3] /\ prop_data_as_byte p = 1 /\ prop_find_enum p 5 = Some (PEnum 5 "b" "y") /\ p_read p = Optional /\ p_write p = Prohibited.
Proof. vm_compute. repeat split. Qed.

(* ------------------------------------------------------------------ *)
(** ** Types *)

(** The names of the types, as in the Machine Readable Appendix. *)
Definition type_names : list (string * ptype) :=
  [("number", TNumber); ("state", TState); ("numericValue", TNumericValue); ("level", TLevel); ("date", TDate); ("date-time", TDateTime);
   ("time", TTime); ("raw", TRaw); ("bitmap", TBitmap); ("array", TArray); ("object", TObject); ("oneOf", TOneOf)]%string.

(** A name of the list has its type, and nothing else has one. *)
Theorem C105_from_string : forall s t, t <> TUnknown -> (ptype_from_string s = t <-> In (s, t) type_names).
Proof.
  intros s t Ht. unfold ptype_from_string. split.
  - intros <-. revert Ht. repeat match goal with |- context [String.eqb s ?x] => destruct (String.eqb_spec s x) as [->|]; [cbn; tauto|] end. congruence.
  - intro H. cbn in H. repeat (destruct H as [H|H]; [inversion H; subst; reflexivity|]). contradiction.
Qed.
Print Assumptions C105_from_string.

Lemma standard_typ r : p_typ (standard_property r) = r_typ r.
Proof.
  unfold standard_property. generalize (map create_standard_property_enum (r_enums r)). intro es.
  assert (X : forall p, p_typ (fold_left prop_add_enum es p) = p_typ p).
  { induction es as [|e es IH]; intro p; [reflexivity|]. cbn [fold_left]. rewrite IH. reflexivity. }
  rewrite X. reflexivity.
Qed.
Lemma device_typ {P : Profile} {HO : HashOrder} seed db u1 u2 s code o k p :
  standard_database seed = Ret db -> uuid_ok u1 -> uuid_ok u2 -> device_object db u1 u2 s code = Ret o ->
  object_find_property o k = Some p -> exists r, first_row (dev_rows db_table code) k = Some r /\ p_typ p = r_typ r.
Proof.
  intros E U1 U2 D F. destruct (device_spec seed db u1 u2 s code E U1 U2) as (o' & D' & _ & _ & _ & _ & G).
  rewrite D in D'. inversion D'; subst o'. specialize (G k). rewrite F in G. destruct (first_row (dev_rows db_table code) k) as [r|]; [|discriminate].
  exists r. split; [reflexivity|]. cbn [option_map strip] in G.
  apply (f_equal (fun x => match x with Some q => p_typ q | None => ""%string end)) in G. cbn [p_typ prop_set_data] in G.
  rewrite G. apply standard_typ.
Qed.

(** Full claim: every property of a new device has a type. It is false: many rows
    of the table have the empty type, one of the instantaneous water heater among
    them. *)
Theorem C105_types_refuted : forall (P : Profile) (HO : HashOrder) seed db u1 u2 s,
  standard_database seed = Ret db -> uuid_ok u1 -> uuid_ok u2 ->
  exists o p, device_object db u1 u2 s 0x027201 = Ret o /\ object_find_property o 0xDA = Some p /\ ptype_from_string (p_typ p) = TUnknown.
Proof.
  intros P HO seed db u1 u2 s E U1 U2. destruct (device_spec seed db u1 u2 s 0x027201 E U1 U2) as (o & D & _ & _ & _ & _ & G).
  exists o. specialize (G 0xDA).
  assert (R : exists r, first_row (dev_rows db_table 0x027201) 0xDA = Some r /\ r_typ r = ""%string).
  { destruct (first_row (dev_rows db_table 0x027201) 0xDA) as [r|] eqn:R; [|vm_compute in R; discriminate].
    exists r. split; [reflexivity|]. vm_compute in R. inversion R. reflexivity. }
  destruct R as (r & R & T). rewrite R in G. destruct (object_find_property o 0xDA) as [p|] eqn:Fp; [|discriminate].
  exists p. split; [exact D|]. split; [reflexivity|].
  destruct (device_typ seed db u1 u2 s 0x027201 o 0xDA p E U1 U2 D Fp) as (r' & R' & T'). rewrite R in R'. inversion R'; subst r'.
  rewrite T', T. reflexivity.
Qed.
Print Assumptions C105_types_refuted.

Lemma typed_rows : forallb (fun c => forallb (fun r => match ptype_from_string (r_typ r) with TUnknown => String.eqb (r_typ r) "" | _ => true end) (c_rows c)) db_table = true.
Proof. vm_compute. reflexivity. Qed.

(** What holds: the type is one of the names above, or empty. *)
Theorem C105_types_partial : forall (P : Profile) (HO : HashOrder) seed db u1 u2 s code o k p,
  standard_database seed = Ret db -> uuid_ok u1 -> uuid_ok u2 -> device_object db u1 u2 s code = Ret o ->
  object_find_property o k = Some p -> p_typ p <> ""%string ->
  ptype_from_string (p_typ p) <> TUnknown /\ In (p_typ p, ptype_from_string (p_typ p)) type_names.
Proof.
  intros P HO seed db u1 u2 s code o k p E U1 U2 D F Ne. destruct (device_typ seed db u1 u2 s code o k p E U1 U2 D F) as (r & R & T).
  assert (X : ptype_from_string (p_typ p) <> TUnknown).
  { apply find_some in R as [I _]. apply in_app_or in I.
    assert (C : exists c, In c db_table /\ In r (c_rows c)).
    { destruct I as [I|I]; apply class_rows_in in I as (c & L & I); exists c; split; auto; apply L. }
    destruct C as (c & Ic & Ir). pose proof typed_rows as Y. rewrite forallb_forall in Y. specialize (Y c Ic).
    rewrite forallb_forall in Y. specialize (Y r Ir). cbv beta in Y. rewrite <- T in Y. intro Z. rewrite Z in Y. apply String.eqb_eq in Y. contradiction. }
  split; [exact X|]. apply (C105_from_string _ _ X). reflexivity.
Qed.
Print Assumptions C105_types_partial.
Example C105_case : ptype_from_string "date-time" = TDateTime /\ ptype_from_string "Number" = TUnknown /\ ptype_from_string "" = TUnknown.
Proof. repeat split. Qed.

(* ------------------------------------------------------------------ *)
(** ** What a failed parse leaves behind *)

Lemma loop_extends n : forall props msg off b ps o, parse_props_loop n props msg off = Ret (b, ps, o) -> exists t, ps = props ++ t.
Proof.
  induction n as [|n IH]; intros props msg off b ps o H; cbn [parse_props_loop] in H.
  - inversion H. exists []. symmetry. apply app_nil_r.
  - destruct (slice_from msg off) as [pm|]; [|discriminate]. cbn [obind] in H.
    destruct (pprop_parse pprop_new pm) as [[ok p]|]; [|discriminate]. cbn [obind] in H. destruct ok; cbn [negb] in H.
    + apply IH in H as (t & ->). exists (p :: t). rewrite <- app_assoc. reflexivity.
    + inversion H. exists []. symmetry. apply app_nil_r.
Qed.
Lemma bytes_extend props msg off b ps o : parse_property_bytes props msg off = Ret (b, ps, o) -> exists t, ps = props ++ t.
Proof. unfold parse_property_bytes. destruct (idx msg off); [|discriminate]. cbn [obind]. apply loop_extends. Qed.

(** A parse that fails says so, and leaves the message as follows: untouched if
    there are at most four octets; with the new EHD and TID only if the frame ends
    before the OPC or is not of format 1; with the new header otherwise. Nothing
    is taken out of the lists, and the sender stays. *)
Theorem C14_failed_parse : forall m bs m', msg_parse m bs = Ret (false, m') ->
  msg_from m' = msg_from m /\
  (exists t, m_props m' = m_props m ++ t) /\ (exists t, m_set m' = m_set m ++ t) /\ (exists t, m_get m' = m_get m ++ t) /\
  ((length bs <= 4)%nat -> m' = m) /\
  ((4 < length bs)%nat -> m_ehd m' = (nth 0 bs 0, nth 1 bs 0) /\ m_tid m' = (nth 2 bs 0, nth 3 bs 0)) /\
  ((4 < length bs < 12)%nat \/ (4 < length bs)%nat /\ (nth 0 bs 0, nth 1 bs 0) <> (0x10, 0x81) ->
     m_seoj m' = m_seoj m /\ m_deoj m' = m_deoj m /\ m_esv m' = m_esv m /\ m_props m' = m_props m /\ m_set m' = m_set m /\ m_get m' = m_get m) /\
  ((12 <= length bs)%nat -> (nth 0 bs 0, nth 1 bs 0) = (0x10, 0x81) ->
     m_seoj m' = (nth 4 bs 0, nth 5 bs 0, nth 6 bs 0) /\ m_deoj m' = (nth 7 bs 0, nth 8 bs 0, nth 9 bs 0) /\ m_esv m' = nth 10 bs 0).
Proof.
  intros m bs m' H. unfold msg_parse, msg_parse_header in H.
  destruct (Nat.leb_spec (length bs) 4) as [L|L].
  { cbn [obind negb] in H. inversion H; subst m'. split; [reflexivity|]. do 3 (split; [exists []; symmetry; apply app_nil_r|]).
    split; [reflexivity|]. split; [lia|]. split; lia. }
  destruct bs as [|b0 [|b1 [|b2 [|b3 bs]]]]; try (cbn [length] in L; lia).
  cbn [idx nth_error obind negb] in H. cbn [nth].
  set (m1 := with_tid (with_ehd m (b0, b1)) (b2, b3)) in H.
  destruct (msg_is_format1 m1) eqn:F; cbn [negb] in H.
  2:{ inversion H; subst m'. split; [reflexivity|]. do 3 (split; [exists []; symmetry; apply app_nil_r|]).
      split; [intro; lia|]. split; [split; reflexivity|]. split; [intros _; repeat split|].
      intros _ X. inversion X; subst. vm_compute in F. discriminate F. }
  assert (E : (b0, b1) = (0x10, 0x81)).
  { unfold msg_is_format1, m1 in F. cbn [with_tid with_ehd m_ehd fst snd] in F.
    destruct (N.eqb_spec b0 0x10), (N.eqb_spec b1 0x81); cbn in F; try discriminate. congruence. }
  change (slice_from (b0 :: b1 :: b2 :: b3 :: bs) 4) with (Ret bs) in H. cbn [obind] in H.
  unfold msg_parse_format1_data in H. destruct (Nat.ltb_spec (length bs) 8) as [L8|L8].
  { cbn [obind negb] in H. inversion H; subst m'. split; [reflexivity|]. do 3 (split; [exists []; symmetry; apply app_nil_r|]).
    split; [intro; lia|]. split; [split; reflexivity|]. split; [intros _; repeat split|]. cbn [length]. intro; lia. }
  destruct bs as [|c0 [|c1 [|c2 [|c3 [|c4 [|c5 [|c6 bs]]]]]]]; try (cbn [length] in L8; lia).
  cbn [idx nth_error obind] in H. change (slice_from (c0 :: c1 :: c2 :: c3 :: c4 :: c5 :: c6 :: bs) 7) with (Ret bs) in H. cbn [obind] in H.
  set (m2 := with_esv (with_deoj (with_seoj m1 (c0, c1, c2)) (c3, c4, c5)) c6) in H. cbn [nth].
  assert (X : m_ehd m' = (b0, b1) /\ m_tid m' = (b2, b3) /\ m_seoj m' = (c0, c1, c2) /\ m_deoj m' = (c3, c4, c5) /\ m_esv m' = c6 /\ m_from m' = m_from m /\
    (exists t, m_props m' = m_props m ++ t) /\ (exists t, m_set m' = m_set m ++ t) /\ (exists t, m_get m' = m_get m ++ t)).
  { assert (N : forall l : list pprop, exists t, l = l ++ t) by (intro l; exists []; symmetry; apply app_nil_r).
    assert (One : (let! r := parse_property_bytes (m_props m2) bs 0 in let '(ok, ps, _) := r in
                   let m3 := with_props m2 ps in if negb ok then Ret (false, m3) else Ret (true, m3)) = Ret (false, m') ->
                  m' = with_props m2 (m_props m') /\ exists t, m_props m' = m_props m ++ t).
    { intro Q. destruct (parse_property_bytes (m_props m2) bs 0) as [[[ok ps] o]|] eqn:B; [|discriminate Q]. cbn [obind] in Q.
      apply bytes_extend in B. destruct ok; inversion Q; subst m'. split; [reflexivity|exact B]. }
    assert (Two : (let! r := parse_property_bytes (m_set m2) bs 0 in let '(ok, ps, off) := r in let m3 := with_set m2 ps in
                   if negb ok then Ret (false, m3) else
                   let! r2 := parse_property_bytes (m_get m3) bs off in let '(ok2, gs, _) := r2 in let m4 := with_get m3 gs in
                   if negb ok2 then Ret (false, m4) else Ret (true, m4)) = Ret (false, m') ->
                  m' = with_get (with_set m2 (m_set m')) (m_get m') /\ (exists t, m_set m' = m_set m ++ t) /\ exists t, m_get m' = m_get m ++ t).
    { intro Q. destruct (parse_property_bytes (m_set m2) bs 0) as [[[ok ps] o]|] eqn:B; [|discriminate Q]. cbn [obind] in Q.
      apply bytes_extend in B. destruct ok; cbn [negb] in Q.
      - destruct (parse_property_bytes (m_get (with_set m2 ps)) bs o) as [[[ok2 gs] o2]|] eqn:B2; [|discriminate Q]. cbn [obind] in Q.
        apply bytes_extend in B2. destruct ok2; inversion Q; subst m'. split; [reflexivity|]. split; [exact B|exact B2].
      - inversion Q; subst m'. split; [reflexivity|]. split; [exact B|apply N]. }
    assert (R : (m' = with_props m2 (m_props m') /\ exists t, m_props m' = m_props m ++ t) \/
                (m' = with_get (with_set m2 (m_set m')) (m_get m') /\ (exists t, m_set m' = m_set m ++ t) /\ exists t, m_get m' = m_get m ++ t)).
    { assert (Q : forall x, obind x (fun r2 : bool * message => let '(ok2, y) := r2 in if negb ok2 then Ret (false, y) else Ret (true, y)) = Ret (false, m') -> x = Ret (false, m')).
      { intros [[[] y]|] Y; cbn in Y; congruence. }
      apply Q in H. destruct (msg_esv m2); auto. }
    destruct R as [[-> T]|[-> [T1 T2]]].
    - repeat split; try reflexivity; auto; apply N.
    - repeat split; try reflexivity; auto; apply N. }
  destruct X as (X1 & X2 & X3 & X4 & X5 & X6 & X7 & X8 & X9). split; [exact X6|]. split; [exact X7|]. split; [exact X8|]. split; [exact X9|].
  split; [cbn [length]; lia|]. split; [auto|]. split; [|auto].
  intros [Y|[_ Y]]; [cbn [length] in Y, L8; lia|congruence].
Qed.
Print Assumptions C14_failed_parse.
Example C14_failed_case : exists m', msg_parse (msg_build [MSetTid 9; MSetDeoj 0x029101; MAdd (PProp 0x80 [])]) [0x10; 0x82; 0; 5; 1; 2; 3; 4; 5; 6; 0x62; 0] = Ret (false, m') /\
  msg_tid m' = 5 /\ msg_deoj m' = 0x029101 /\ msg_seoj m' = 0 /\ msg_opc m' = 1%nat.
Proof. eexists. split; [vm_compute; reflexivity|]. vm_compute. repeat split. Qed.
