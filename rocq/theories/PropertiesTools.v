(** C93 to C96: the command line tools. *)
From Verif Require Import Base HMap ModelCodec ModelMessages MakerTable ModelObject ModelTransport ModelNode ModelController ModelTools
  SpecWire SpecObject SpecNode ProofsCodec ProofsCodec2 PropertiesCodec ProofsObject PropertiesObject
  ProofsNode ProofsNode2 ExamplesNode PropertiesNode PropertiesTrans ProofsController SpecRemote PropertiesRemote.

(** ** What a command line says *)

(** The text [s] spells the octets [bs] with hexadecimal digits. *)
Inductive digit : N -> N -> Prop :=
| digit_dec v : v < 10 -> digit (0x30 + v) v
| digit_low v : v < 6 -> digit (0x61 + v) (10 + v)
| digit_up v : v < 6 -> digit (0x41 + v) (10 + v).
Inductive spells : list N -> list N -> Prop :=
| spells_nil : spells [] []
| spells_cons a b x y s bs : digit a x -> digit b y -> spells s bs -> spells (a :: b :: s) (16 * x + y :: bs).

Lemma hex_val_digit a x : digit a x -> hex_val a = Some x /\ x < 16.
Proof.
  intros []; unfold hex_val; (split; [|lia]).
  - replace (0x41 <=? 0x30 + v) with false by lia. replace (0x61 <=? 0x30 + v) with false by lia.
    replace (0x30 <=? 0x30 + v) with true by lia. replace (0x30 + v <=? 0x39) with true by lia. cbv beta iota delta [andb]. f_equal. lia.
  - replace (0x61 + v <=? 0x46) with false by lia. rewrite andb_false_r.
    replace (0x61 <=? 0x61 + v) with true by lia. replace (0x61 + v <=? 0x66) with true by lia. cbv beta iota delta [andb]. f_equal. lia.
  - replace (0x41 <=? 0x41 + v) with true by lia. replace (0x41 + v <=? 0x46) with true by lia. cbv beta iota delta [andb]. f_equal. lia.
Qed.
Lemma hex_val_sound a x : hex_val a = Some x -> digit a x.
Proof.
  unfold hex_val. destruct ((0x41 <=? a) && (a <=? 0x46)) eqn:E1; [|destruct ((0x61 <=? a) && (a <=? 0x66)) eqn:E2; [|destruct ((0x30 <=? a) && (a <=? 0x39)) eqn:E3; [|discriminate]]];
    intro H; inversion H; subst x.
  - replace a with (0x41 + (a - 0x41)) at 1 by lia. replace (a - 0x41 + 10) with (10 + (a - 0x41)) by lia. constructor. lia.
  - replace a with (0x61 + (a - 0x61)) at 1 by lia. replace (a - 0x61 + 10) with (10 + (a - 0x61)) by lia. constructor. lia.
  - replace a with (0x30 + (a - 0x30)) at 1 by lia. constructor. lia.
Qed.
Lemma hex_decode_spells s : forall bs, spells s bs <-> hex_decode s = Some bs.
Proof.
  assert (X : forall n s, (length s <= n)%nat -> forall bs, spells s bs <-> hex_decode s = Some bs).
  { induction n as [|n IH]; intros t L bs.
    - destruct t; [|cbn in L; lia]. split; [inversion 1; reflexivity|cbn; intro H; inversion H; constructor].
    - destruct t as [|a [|b r]]; [split; [inversion 1; reflexivity|cbn; intro H; inversion H; constructor]|split; [inversion 1|discriminate]|].
      cbn [length] in L. specialize (IH r ltac:(lia)). cbn [hex_decode]. split.
      + intro H. inversion H as [|a0 b0 x y s0 bs0 A B C]; subst. destruct (hex_val_digit _ _ A) as [-> _]. destruct (hex_val_digit _ _ B) as [-> _].
        apply IH in C. rewrite C. f_equal. f_equal. lia.
      + destruct (hex_val a) as [x|] eqn:Ea; [|discriminate]. destruct (hex_val b) as [y|] eqn:Eb; [|discriminate].
        destruct (hex_decode r) as [l|] eqn:Er; [|discriminate]. intro H. inversion H; subst.
        replace (x * 16 + y) with (16 * x + y) by lia. constructor; [apply hex_val_sound; auto|apply hex_val_sound; auto|apply IH; auto]. }
  intro bs. apply (X (length s)). lia.
Qed.
Lemma spells_octets s bs : spells s bs -> octets bs /\ length s = (2 * length bs)%nat.
Proof.
  induction 1 as [|a b x y s bs A B H [IH L]]; [split; [constructor|reflexivity]|].
  apply hex_val_digit in A as [_ A]. apply hex_val_digit in B as [_ B]. split; [constructor; auto; unfold octet; lia|cbn; lia].
Qed.
Lemma hex_digit_digit v : v < 16 -> digit (hex_digit v) v.
Proof.
  intro H. unfold hex_digit. destruct (N.ltb_spec v 10); [constructor; lia|].
  replace v with (10 + (v - 10)) at 2 by lia. constructor. lia.
Qed.
Lemma hex_encode_spells bs : octets bs -> spells (hex_encode bs) bs.
Proof.
  induction 1 as [|b r H _ IH]; [constructor|]. cbn [hex_encode flat_map app]. replace b with (16 * (b / 16) + b mod 16) at 3 by lia.
  unfold octet in H. constructor; [apply hex_digit_digit; lia|apply hex_digit_digit; lia|exact IH].
Qed.
Lemma spells_not_flag s bs : spells s bs -> is_arg s arg_v = false /\ is_arg s arg_h = false.
Proof.
  intro H. inversion H as [|a b x y t bt A B C]; subst; [split; reflexivity|].
  assert (a <> 0x2D) by (inversion A; lia). unfold is_arg, arg_v, arg_h. cbn [bytes_eqb]. replace (a =? 0x2D) with false by lia. split; reflexivity.
Qed.

(** The rest of a command line: EPC EDT EPC EDT ..., the last EPC perhaps without
    EDT; [ps] are the properties that it names. *)
Inductive pairs_text : list (list N) -> list wprop -> Prop :=
| pt_nil : pairs_text [] []
| pt_last s c : spells s [c] -> pairs_text [s] [(c, [])]
| pt_cons s t c d r ps : spells s [c] -> spells t d -> pairs_text r ps -> pairs_text (s :: t :: r) ((c, d) :: ps).

(** A text. *)
Definition txt (s : string) : list N := map (fun c => N.of_nat (Ascii.nat_of_ascii c)) (list_ascii_of_string s).
(** The flags of the tools. *)
Definition flag_v := txt "-v"%string.
Definition flag_h := txt "-h"%string.
Definition flag_a := txt "-a"%string.
Definition flag_n := txt "-n"%string.

(** [uechopost PROG IP OBJ ESV EPC EDT ...] *)
Record command {T : Texts} (args : list (list N)) (ip : ipaddr) (obj e : N) (ps : list wprop) : Prop := {
  cm_text : exists prog sip sobj sesv rest bobj, args = prog :: sip :: sobj :: sesv :: rest /\
    prog <> [] /\ prog <> flag_v /\ prog <> flag_h /\ sip <> flag_v /\ sip <> flag_h /\ parse_ip sip = Some ip /\
    spells sobj bobj /\ (length bobj <= 4)%nat /\ be_value bobj = obj /\ spells sesv [e] /\ pairs_text rest ps;
  cm_ip : ip <> V4 0; cm_obj : obj <> 0; cm_some : ps <> [] }.

Lemma bytes_eqb_eq a : forall b, bytes_eqb a b = true <-> a = b.
Proof.
  induction a as [|x a IH]; intros [|y b]; cbn [bytes_eqb]; split; try discriminate; auto.
  - intro H. apply andb_prop in H as [H1 H2]. apply IH in H2. f_equal; [lia|auto].
  - intro H. inversion H; subst. apply andb_true_intro. split; [lia|apply IH; auto].
Qed.
Lemma not_flag s f : s <> f -> is_arg s f = false.
Proof. intro H. unfold is_arg. destruct (bytes_eqb s f) eqn:E; auto. apply bytes_eqb_eq in E. contradiction. Qed.
Lemma ipaddr_eqb_eq a b : ipaddr_eqb a b = true <-> a = b.
Proof. destruct a, b; cbn; split; intro H; try discriminate; try (f_equal; lia); inversion H; lia. Qed.
Lemma ip_neq a b : a <> b -> ipaddr_eqb a b = false.
Proof. intro H. destruct (ipaddr_eqb a b) eqn:E; auto. apply ipaddr_eqb_eq in E. contradiction. Qed.

(** The services that the tool sends. *)
Definition esv_known (e : N) : Prop := esv_from_u8 e <> EUnknown.
Lemma esv_known_eqb e : esv_known e -> esv_eqb (esv_from_u8 e) EUnknown = false.
Proof. intro H. destruct (esv_from_u8 e) eqn:E; try reflexivity. contradiction. Qed.

Section Post.
  Context {P : Profile} {T : Texts}.

  Lemma post_pairs prog ip obj e rest ps : prog <> [] -> ip <> V4 0 -> obj <> 0 -> esv_eqb e EUnknown = false -> pairs_text rest ps ->
    forall epcs edts, length epcs = length edts ->
    exists edts', post_args_loop (PostArgs prog ip obj e epcs edts) rest = Ret (Some (PostArgs prog ip obj e (epcs ++ map fst ps) (edts ++ edts'))) /\
      (edts' = map snd ps \/ exists ps0 c, ps = ps0 ++ [(c, [])] /\ edts' = map snd ps0).
  Proof.
    intros Np Ni No Ne H. apply ip_neq in Ni.
    assert (Nl : Nat.eqb (length prog) 0 = false) by (destruct prog; [contradiction|reflexivity]).
    induction H as [|s c S|s t c d r ps S D H IH]; intros epcs edts L.
    - exists []. cbn. rewrite !app_nil_r. auto.
    - exists []. cbn [post_args_loop map fst]. unfold post_arg. destruct (spells_not_flag _ _ S) as [-> ->].
      cbn [pa_program pa_addr pa_obj pa_esv pa_epcs pa_edts]. rewrite Nl, Ni, Ne, L, Nat.eqb_refl. replace (obj =? 0) with false by lia.
      apply hex_decode_spells in S. rewrite S. cbn. rewrite app_nil_r. split; auto. right. exists [], c. auto.
    - specialize (IH (epcs ++ [c]) (edts ++ [d])). destruct IH as (ed & E & X). { rewrite !app_length. cbn. lia. }
      exists (d :: ed). split.
      + cbn [post_args_loop]. unfold post_arg at 1. destruct (spells_not_flag _ _ S) as [-> ->].
        cbn [pa_program pa_addr pa_obj pa_esv pa_epcs pa_edts]. rewrite Nl, Ni, Ne, L, Nat.eqb_refl. replace (obj =? 0) with false by lia.
        apply hex_decode_spells in S. rewrite S. cbn [idx nth_error obind].
        unfold post_arg at 1. destruct (spells_not_flag _ _ D) as [-> ->].
        cbn [pa_program pa_addr pa_obj pa_esv pa_epcs pa_edts]. rewrite Nl, Ni, Ne. replace (obj =? 0) with false by lia.
        rewrite app_length. cbn [length]. replace (Nat.eqb (length epcs + 1) (length edts)) with false by lia.
        replace (Nat.ltb (length edts) (length epcs + 1)) with true by lia.
        apply hex_decode_spells in D. rewrite D. cbn [obind]. rewrite E. rewrite <- !app_assoc. reflexivity.
      + destruct X as [-> |(p0 & c0 & -> & ->)]; [left; reflexivity|]. right. exists ((c, d) :: p0), c0. split; reflexivity.
  Qed.

  Lemma post_props_eq epcs : forall n edts m, post_props n epcs edts m =
    with_props m (m_props m ++ map (fun x : wprop => PProp (fst x) (snd x)) (combine epcs (map (fun k => nth k edts []) (seq n (length epcs))))).
  Proof.
    induction epcs as [|c r IH]; intros n edts m; cbn [post_props length seq map combine].
    - rewrite app_nil_r. destruct m; reflexivity.
    - rewrite IH. unfold msg_add_property, with_props. cbn [m_ehd m_tid m_seoj m_deoj m_esv m_props m_set m_get m_from].
      rewrite <- app_assoc. cbn [app fst snd]. destruct (Nat.ltb_spec n (length edts)); [reflexivity|]. rewrite nth_overflow by lia. reflexivity.
  Qed.
  Lemma combine_pairs (ps : list wprop) : forall pre : list (list N), combine (map fst ps) (map (fun k => nth k (pre ++ map snd ps) []) (seq (length pre) (length ps))) = ps.
  Proof.
    induction ps as [|[c d] r IH]; intro pre; cbn [map length seq combine fst snd]; auto. apply (f_equal2 (@cons wprop)).
    - rewrite app_nth2 by lia. rewrite Nat.sub_diag. reflexivity.
    - specialize (IH (pre ++ [d])). rewrite app_length in IH. cbn [length] in IH. rewrite Nat.add_1_r in IH. rewrite <- app_assoc in IH. exact IH.
  Qed.
  Lemma combine_pairs_last (ps : list wprop) c : forall pre : list (list N),
    combine (map fst (ps ++ [(c, [])])) (map (fun k => nth k (pre ++ map snd ps) []) (seq (length pre) (length (ps ++ [(c, [])])))) = ps ++ [(c, [])].
  Proof.
    induction ps as [|[c0 d] r IH]; intro pre; cbn [map length seq combine app fst snd]; auto.
    - rewrite app_nil_r, nth_overflow by lia. reflexivity.
    - apply (f_equal2 (@cons wprop)).
      + rewrite app_nth2 by lia. rewrite Nat.sub_diag. reflexivity.
      + specialize (IH (pre ++ [d])). rewrite app_length in IH. cbn [length] in IH. rewrite Nat.add_1_r in IH. rewrite <- app_assoc in IH. exact IH.
  Qed.

  (** The command line is understood. *)
  Lemma command_args args ip obj e ps : command args ip obj e ps -> esv_known e ->
    exists a, uechopost_args args = Ret (Some a) /\ pa_addr a = ip /\
      post_message a = Msg (0x10, 0x81) (0, 0) (m_seoj msg_new) (split_object_code obj) (esv_to_u8 (esv_from_u8 e))
                         (map (fun x : wprop => PProp (fst x) (snd x)) ps) [] [] (m_from msg_new).
  Proof.
    intros [(prog & sip & sobj & sesv & rest & bobj & -> & Np & Nv & Nh & Iv & Ih & Pi & So & Lo & Bo & Se & Pt) Ni No Ns] K.
    apply esv_known_eqb in K.
    destruct (spells_octets _ _ So) as [Oo _].
    destruct (post_pairs prog ip obj (esv_from_u8 e) rest ps Np Ni No K Pt [] [] eq_refl) as (edts & E & X). cbn [app] in E.
    exists (PostArgs prog ip obj (esv_from_u8 e) (map fst ps) edts). split; [|split; [reflexivity|]].
    - unfold uechopost_args, post_args0. cbn [post_args_loop]. unfold post_arg at 1. rewrite !not_flag by auto. cbn [pa_program length Nat.eqb obind pa_addr pa_obj pa_esv pa_epcs pa_edts].
      unfold post_arg at 1. rewrite !not_flag by auto. cbn [pa_program length Nat.eqb obind pa_addr pa_obj pa_esv pa_epcs pa_edts].
      assert (Nl : Nat.eqb (length prog) 0 = false) by (destruct prog; [contradiction|reflexivity]). rewrite Nl. cbn [ipaddr_eqb N.eqb]. rewrite Pi. cbn [obind].
      unfold post_arg at 1. destruct (spells_not_flag _ _ So) as [-> ->]. cbn [pa_program length Nat.eqb obind pa_addr pa_obj pa_esv pa_epcs pa_edts N.eqb].
      rewrite Nl, (ip_neq _ _ Ni). apply hex_decode_spells in So. rewrite So.
      destruct (C11_int_codec_back P bobj Oo Lo) as (v & -> & Ev & _). rewrite Bo in Ev. subst v. cbn [obind].
      unfold post_arg at 1. destruct (spells_not_flag _ _ Se) as [-> ->]. cbn [pa_program length Nat.eqb obind pa_addr pa_obj pa_esv pa_epcs pa_edts].
      rewrite Nl, (ip_neq _ _ Ni). replace (obj =? 0) with false by lia. cbn [esv_eqb esv_to_u8 N.eqb]. apply hex_decode_spells in Se. rewrite Se. cbn [idx nth_error obind].
      rewrite K. cbn [obind]. rewrite E. cbn [obind pa_program length Nat.eqb obind pa_addr pa_obj pa_esv pa_epcs pa_edts].
      rewrite (ip_neq _ _ Ni), K. replace (obj =? 0) with false by lia. destruct ps; [contradiction|]. reflexivity.
    - unfold post_message. cbn [pa_epcs pa_edts pa_esv pa_obj]. rewrite post_props_eq. cbn [m_props msg_set_deoj msg_set_esv with_esv with_deoj msg_new app].
      assert (combine (map fst ps) (map (fun k => nth k edts []) (seq 0 (length (map fst ps)))) = ps) as ->.
      { rewrite map_length. destruct X as [-> |(p0 & c & -> & ->)]; [apply (combine_pairs ps [])|apply (combine_pairs_last p0 c [])]. }
      reflexivity.
  Qed.
End Post.

(** ** C93: uechopost sends what the command line says *)
Definition tool_message (obj e : N) (ps : list wprop) : message :=
  Msg (0x10, 0x81) (0, 0) (m_seoj msg_new) (split_object_code obj) e (map (fun x : wprop => PProp (fst x) (snd x)) ps) [] [] (m_from msg_new).
Lemma tool_bytes obj e ps t : obj < 2 ^ 24 -> e < 256 -> e <> 0x5E -> wprops_ok ps -> t < 65536 ->
  msg_bytes (msg_set_tid (msg_set_seoj (tool_message obj e ps) 0x0EF001) t) =
  wire (Frame t 0x0EF001 obj e (if is_double e then Double [] [] else Single ps)).
Proof.
  intros Bc Be Ne [Wp Wl] Bt. rewrite msg_set_tid_eq. unfold tool_message, msg_set_seoj, with_seoj, with_tid. cbn [m_ehd m_seoj m_deoj m_esv m_props m_set m_get m_from].
  rewrite msg_bytes_wire.
  - unfold frame_of. rewrite msg_tid_eq. unfold msg_deoj. cbn [m_esv m_tid fst snd m_props m_deoj m_set m_get].
    rewrite object_code_split, (N.mod_small obj) by exact Bc. unfold wps. rewrite to_wprop_unw. cbn [map].
    replace (t / 256 mod 256 * 256 + t mod 256) with t by lia. reflexivity.
  - constructor; cbn [m_ehd m_tid m_seoj m_deoj m_esv m_props m_set m_get]; auto.
    + split; cbn; lia.
    + apply wf3_split.
    + apply wf3_split.
    + apply Forall_map. eapply Forall_impl; [|exact Wp]. intros x (X1 & X2 & _). split; auto.
  - split; [|split; cbn; (split; [cbn; lia|constructor])]. cbn [m_props]. split; [rewrite map_length; lia|].
    apply Forall_map. eapply Forall_impl; [|exact Wp]. intros x (_ & _ & X). unfold prop_in_limit. cbn. lia.
  - exact Ne.
Qed.

Section Wire.
  Context {U : Type} {Os : OS}.
  Lemma tool_update (n : node U) obj e ps n1 m1 : n_last_tid n < 65536 -> update_tid n (msg_set_seoj (tool_message obj e ps) NODE_PROFILE_OBJECT_CODE) = (n1, m1) ->
    exists t, t < 65536 /\ m1 = msg_set_tid (msg_set_seoj (tool_message obj e ps) 0x0EF001) t /\ n_mgr n1 = n_mgr n.
  Proof.
    intros Bt A. pose proof (update_tid_keeps _ _ _ _ A) as (_ & _ & Km & _).
    apply update_tid_spec in A as [(A & _)|(_ & -> & ->)]; [exfalso; apply A; reflexivity|].
    rewrite next_mod in * by auto. exists ((n_last_tid n + 1) mod 65536). split; [lia|]. split; auto.
  Qed.
  Lemma tool_send (n : node U) w r obj e ps b m n' w' : n_last_tid n < 65536 -> can_send n -> (forall k, os_send k = true) -> obj < 2 ^ 24 -> e < 256 -> e <> 0x5E -> wprops_ok ps ->
    controller_send w n r (tool_message obj e ps) = (b, m, n', w') ->
    exists tr t, since w w' tr /\ t < 65536 /\ sent tr = [((fst (rn_addr r), 3610), wire (Frame t 0x0EF001 obj e (if is_double e then Double [] [] else Single ps)))].
  Proof.
    intros Bt Sn Al Bc Be Ne Wp E. unfold controller_send in E. pose proof E as E0. apply node_send_spec in E as (A & tr & S & _ & _ & _ & Se).
    destruct (tool_update _ _ _ _ _ _ Bt A) as (t & Ht & -> & Km).
    exists tr, t. split; auto. split; auto. rewrite Se.
    assert (b = true) as ->.
    { unfold node_send in E0. rewrite A in E0. destruct (manager_send _ _ _ _) as [b1 w1] eqn:Ms. inversion E0; subst.
      eapply manager_send_ok; [exact Ms|exact Al|]. rewrite Km. exact Sn. }
    rewrite tool_bytes by auto. reflexivity.
  Qed.
  Lemma tool_post (n : node U) w r obj e ps c m n' w' : n_last_tid n < 65536 -> can_send n -> (forall k, os_send k = true) -> obj < 2 ^ 24 -> e < 256 -> e <> 0x5E -> wprops_ok ps ->
    controller_post w n r (tool_message obj e ps) = (c, m, n', w') ->
    exists tr t, since w w' tr /\ t < 65536 /\ sent tr = [((fst (rn_addr r), 3610), wire (Frame t 0x0EF001 obj e (if is_double e then Double [] [] else Single ps)))].
  Proof.
    intros Bt Sn Al Bc Be Ne Wp E. unfold controller_post in E. pose proof E as E0. apply node_post_spec in E as (-> & _ & n1 & ok & tr & A & -> & S & _ & _ & Se).
    destruct (tool_update _ _ _ _ _ _ Bt A) as (t & Ht & -> & Km).
    exists tr, t. split; auto. split; auto. rewrite Se.
    assert (ok = true) as ->.
    { unfold node_post in E0. rewrite A in E0. destruct (manager_send _ _ _ _) as [b w1] eqn:Ms. inversion E0; subst w1.
      assert (b = true). { eapply manager_send_ok; [exact Ms|exact Al|]. cbn [n_mgr n_with_post]. rewrite Km. exact Sn. }
      subst b. destruct ok; auto. exfalso. apply send_trace in Ms as (tr' & S' & _ & _ & _ & Se').
      assert (tr' = tr) as -> by (unfold since in *; cbn in S'; rewrite S in S'; apply app_inv_head in S'; auto). congruence. }
    rewrite tool_bytes by auto. reflexivity.
  Qed.

  (** [r] is the first node with the address. *)
  Definition first_at (nodes : list remote_node) (ip : ipaddr) (r : remote_node) : Prop :=
    exists pre post, nodes = pre ++ r :: post /\ fst (rn_addr r) = ip /\ Forall (fun x => fst (rn_addr x) <> ip) pre.
  Lemma loop_skip pre l (n : node U) w a : Forall (fun x => fst (rn_addr x) <> pa_addr a) pre -> uechopost_loop w n (pre ++ l) a = uechopost_loop w n l a.
  Proof. induction 1 as [|x r X _ IH]; cbn [app uechopost_loop]; auto. rewrite (ip_neq _ _ X). exact IH. Qed.
End Wire.

Lemma known_code e : esv_known e -> esv_to_u8 (esv_from_u8 e) = e.
Proof.
  intro K. assert (X : esv_eqb (esv_from_u8 e) (esv_from_u8 e) = true) by (unfold esv_eqb; apply N.eqb_refl).
  apply esv_is in X; [|exact K]. symmetry. exact X.
Qed.

(** The request that the command line names goes to port 3610 of the address, once. *)
Theorem C93_sends_partial : forall (U : Type) (P : Profile) (T : Texts) (Os : OS) args ip obj e ps (n : node U) w nodes r,
  command args ip obj e ps -> In e [0x60; 0x61; 0x62; 0x63] -> obj < 2 ^ 24 -> wprops_ok ps -> first_at nodes ip r ->
  n_last_tid n < 65536 -> can_send n -> (forall k, os_send k = true) ->
  exists a c n' w' tr t, uechopost_args args = Ret (Some a) /\ uechopost_loop w n nodes a = (c, n', w') /\ since w w' tr /\ t < 65536 /\
    sent tr = [((ip, 3610), wire (Frame t 0x0EF001 obj e (Single ps)))] /\ (c <> None <-> In e [0x61; 0x62]).
Proof.
  intros U P T Os args ip obj e ps n w nodes r C Ie Bo Wp (pre & post & -> & Er & Fp) Bt Sn Al.
  assert (K : esv_known e) by (destruct Ie as [<-|[<-|[<-|[<-|[]]]]]; discriminate).
  destruct (command_args args ip obj e ps C K) as (a & Ea & Ei & Em). rewrite (known_code _ K) in Em. fold (tool_message obj e ps) in Em. rewrite <- Ei in Fp.
  exists a. destruct (uechopost_loop w n (pre ++ r :: post) a) as [[c n'] w'] eqn:El. exists c, n', w'.
  rewrite loop_skip in El by exact Fp. cbn [uechopost_loop] in El. rewrite Er, Ei, ipaddr_eqb_refl in El. cbn [negb] in El. rewrite Em in El.
  assert (Me : msg_esv (tool_message obj e ps) = esv_from_u8 e) by reflexivity. rewrite Me in El.
  assert (Hd : is_double e = false /\ e < 256 /\ e <> 0x5E) by (destruct Ie as [<-|[<-|[<-|[<-|[]]]]]; repeat split; discriminate).
  destruct Hd as (Hd & Be & Ne).
  destruct Ie as [<-|[<-|[<-|[<-|[]]]]].
  1, 4: change (esv_from_u8 _) with EWriteRequest in El || change (esv_from_u8 _) with ENotificationRequest in El;
    destruct (controller_send w n r _) as [[[b m1] n1] w1] eqn:E1; inversion El; subst;
    destruct (tool_send _ _ _ _ _ _ _ _ _ _ Bt Sn Al Bo Be Ne Wp E1) as (tr & t & S & Ht & Se); exists tr, t; rewrite Hd in Se;
    (split; [exact Ea|]; split; [reflexivity|]; split; [exact S|]; split; [exact Ht|]; split; [exact Se|]; split; [congruence|cbn; intuition discriminate]).
  all: change (esv_from_u8 _) with EWriteRequestResponseRequired in El || change (esv_from_u8 _) with EReadRequest in El;
    destruct (controller_post w n r _) as [[[b m1] n1] w1] eqn:E1; inversion El; subst;
    destruct (tool_post _ _ _ _ _ _ _ _ _ _ Bt Sn Al Bo Be Ne Wp E1) as (tr & t & S & Ht & Se); exists tr, t; rewrite Hd in Se;
    (split; [exact Ea|]; split; [reflexivity|]; split; [exact S|]; split; [exact Ht|]; split; [exact Se|]; split; [intros _; cbn; auto|discriminate]).
Qed.

(** The properties of a write-read request never leave: the frame has two empty lists. *)
Theorem C93_write_read_refuted : forall (U : Type) (P : Profile) (T : Texts) (Os : OS) args ip obj ps (n : node U) w nodes r,
  command args ip obj 0x6E ps -> obj < 2 ^ 24 -> wprops_ok ps -> first_at nodes ip r ->
  n_last_tid n < 65536 -> can_send n -> (forall k, os_send k = true) ->
  exists a c n' w' tr t, uechopost_args args = Ret (Some a) /\ uechopost_loop w n nodes a = (c, n', w') /\ since w w' tr /\ t < 65536 /\
    sent tr = [((ip, 3610), wire (Frame t 0x0EF001 obj 0x6E (Double [] [])))].
Proof.
  intros U P T Os args ip obj ps n w nodes r C Bo Wp (pre & post & -> & Er & Fp) Bt Sn Al.
  assert (K : esv_known 0x6E) by discriminate.
  destruct (command_args args ip obj 0x6E ps C K) as (a & Ea & Ei & Em). rewrite (known_code _ K) in Em. fold (tool_message obj 0x6E ps) in Em. rewrite <- Ei in Fp.
  exists a. destruct (uechopost_loop w n (pre ++ r :: post) a) as [[c n'] w'] eqn:El. exists c, n', w'.
  rewrite loop_skip in El by exact Fp. cbn [uechopost_loop] in El. rewrite Er, Ei, ipaddr_eqb_refl in El. cbn [negb] in El. rewrite Em in El.
  change (msg_esv (tool_message obj 0x6E ps)) with EWriteReadRequest in El.
  destruct (controller_post w n r _) as [[[b m1] n1] w1] eqn:E1; inversion El; subst.
  destruct (tool_post _ _ _ _ 0x6E _ _ _ _ _ Bt Sn Al Bo ltac:(lia) ltac:(discriminate) Wp E1) as (tr & t & S & Ht & Se). exists tr, t.
  split; [exact Ea|]. split; [reflexivity|]. split; [exact S|]. split; [exact Ht|]. exact Se.
Qed.

(** The request 0x74, and anything that is no request, is not sent; neither is
    anything when the node was not found. *)
Theorem C93_nothing : forall (U : Type) (P : Profile) (T : Texts) (Os : OS) args ip obj e ps (n : node U) w nodes,
  command args ip obj e ps -> esv_known e -> ~ In e [0x60; 0x61; 0x62; 0x63; 0x6E] \/ Forall (fun x => fst (rn_addr x) <> ip) nodes ->
  exists a, uechopost_args args = Ret (Some a) /\ uechopost_loop w n nodes a = (None, n, w).
Proof.
  intros U P T Os args ip obj e ps n w nodes C K H. destruct (command_args args ip obj e ps C K) as (a & Ea & Ei & Em). exists a. split; auto.
  destruct H as [H|H].
  - rewrite (known_code _ K) in Em. fold (tool_message obj e ps) in Em. clear Ea. induction nodes as [|r l IH]; auto. cbn [uechopost_loop].
    destruct (negb _); auto. rewrite Em. change (msg_esv (tool_message obj e ps)) with (esv_from_u8 e).
    pose proof (known_code e K) as Ke. destruct (esv_from_u8 e); try reflexivity; exfalso; apply H; rewrite <- Ke; cbn; auto 10.
  - rewrite <- Ei in H. rewrite <- (app_nil_r nodes), loop_skip by exact H. reflexivity.
Qed.
(** 0x74 is a request that the library knows, and yet nothing is sent. *)
Theorem C93_response_required_refuted : request_service 0x74 /\
  forall (U : Type) (P : Profile) (T : Texts) (Os : OS) args ip obj ps (n : node U) w nodes,
  command args ip obj 0x74 ps -> exists a, uechopost_args args = Ret (Some a) /\ uechopost_loop w n nodes a = (None, n, w).
Proof.
  split; [cbn; auto 10|]. intros U P T Os args ip obj ps n w nodes C. apply (C93_nothing U P T Os args ip obj 0x74 ps n w nodes C); [discriminate|].
  left. cbn. intuition discriminate.
Qed.

(** uechopost 192.168.0.20 029101 62 80, and with 81 behind. *)
Definition ex_texts : Texts := {| parse_ip := fun s => if bytes_eqb s (txt "192.168.0.20"%string) then Some (V4 0xC0A80014) else None;
                                  parse_i32 := fun _ => None |}.
Definition ex_args (l : list string) : list (list N) := map txt ("uechopost" :: "192.168.0.20" :: "029101" :: l)%string.
Ltac sp := apply hex_decode_spells; vm_compute; reflexivity.
Example C93_case : command (T := ex_texts) (ex_args ["62"; "80"]%string) (V4 0xC0A80014) 0x029101 0x62 [(0x80, [])] /\
  (* two properties to read: the second is taken for data of the first *)
  command (T := ex_texts) (ex_args ["62"; "80"; "81"]%string) (V4 0xC0A80014) 0x029101 0x62 [(0x80, [0x81])] /\
  match uechopost_args (P := true) (T := ex_texts) (ex_args ["62"; "80"]%string) with
  | Ret (Some a) =>
    let '(c, _, w) := uechopost_loop (O := ex_os) (ex_w (ex_ops [])) (ex_n (ex_ops [])) [Remote (V4 0xC0A80014, 3610) []] a in
    (c, sent (skipn (length (w_trace (ex_w (ex_ops [])))) (w_trace w))) =
    (Some 0, [((V4 0xC0A80014, 3610), [0x10; 0x81; 0x00; 0x02; 0x0E; 0xF0; 0x01; 0x02; 0x91; 0x01; 0x62; 0x01; 0x80; 0x00])])
  | _ => False
  end.
Proof.
  split; [|split].
  - constructor; try discriminate. exists (txt "uechopost"%string), (txt "192.168.0.20"%string), (txt "029101"%string), (txt "62"%string), [txt "80"%string], [0x02; 0x91; 0x01].
    repeat (split; [first [reflexivity|discriminate|sp|vm_compute; lia]|]). constructor. sp.
  - constructor; try discriminate. exists (txt "uechopost"%string), (txt "192.168.0.20"%string), (txt "029101"%string), (txt "62"%string), [txt "80"%string; txt "81"%string], [0x02; 0x91; 0x01].
    repeat (split; [first [reflexivity|discriminate|sp|vm_compute; lia]|]). constructor; [sp|sp|constructor].
  - vm_compute. reflexivity.
Qed.

(** -h anywhere: nothing is sent. -v makes no difference to what is sent. *)
Theorem C93_usage : forall (P : Profile) (T : Texts) args, In flag_h args -> forall a, uechopost_args args <> Ret (Some a).
Proof.
  intros P T args H. assert (X : forall a b, post_args_loop a args <> Ret (Some b)).
  { induction args as [|x r IH]; intros a b; [destruct H|]. cbn [post_args_loop]. destruct H as [->|H].
    - unfold post_arg. change (is_arg flag_h arg_v) with false. change (is_arg flag_h arg_h) with true. cbv iota. discriminate.
    - destruct (post_arg a x) as [[y|]|]; cbn [obind]; [apply IH; auto|discriminate|discriminate]. }
  intro a. unfold uechopost_args. specialize (X post_args0). destruct (post_args_loop post_args0 args) as [[y|]|]; cbn [obind]; try discriminate.
  exfalso. apply (X y). reflexivity.
Qed.
Theorem C93_verbose : forall (P : Profile) (T : Texts) a b, uechopost_args (a ++ flag_v :: b) = uechopost_args (a ++ b).
Proof.
  intros P T a b. assert (X : forall y, post_args_loop y (a ++ flag_v :: b) = post_args_loop y (a ++ b)).
  { induction a as [|x r IH]; intro y; cbn [app post_args_loop].
    - unfold post_arg at 1. change (is_arg flag_v arg_v) with true. reflexivity.
    - destruct (post_arg y x) as [[z|]|]; cbn [obind]; auto. }
  unfold uechopost_args. rewrite X. reflexivity.
Qed.

(** ** C94: uechopost survives any command line *)
Lemma decode_nonempty s bs : hex_decode s = Some bs -> s <> [] -> bs <> [].
Proof.
  intros H N. apply hex_decode_spells in H. destruct H; [contradiction|discriminate].
Qed.
Lemma to_u32_total (P : Profile) bs : octets bs -> overflow_checks = false \/ (length bs <= 4)%nat -> exists v, bytes_to_u32 bs = Ret v.
Proof.
  intros Ho [H|H].
  - destruct P; [discriminate|]. apply (to_u32_release (rev bs) 0 0).
  - destruct (C11_int_codec_back P bs Ho H) as (v & E & _). eauto.
Qed.
Theorem C94_survives_partial : forall (P : Profile) (T : Texts) args, Forall (fun s => s <> []) args ->
  overflow_checks = false \/ Forall (fun s => (length s <= 8)%nat) args -> uechopost_args args <> Panic.
Proof.
  intros P T args Ne L.
  assert (X : forall a, exists y, post_args_loop a args = Ret y).
  { induction args as [|s r IH]; intro a; [cbn; eauto|]. inversion Ne; subst. cbn [post_args_loop].
    assert (Y : exists y, post_arg a s = Ret y).
    { unfold post_arg. destruct (is_arg s arg_v); [eauto|]. destruct (is_arg s arg_h); [eauto|]. destruct (Nat.eqb _ _); [eauto|].
      destruct (ipaddr_eqb _ _); [destruct (parse_ip s); eauto|].
      destruct (pa_obj a =? 0).
      { destruct (hex_decode s) as [b|] eqn:D; [|eauto]. apply hex_decode_spells in D. apply spells_octets in D as [Ob Lb].
        destruct (to_u32_total P b Ob) as [v ->]; [|cbn; eauto]. destruct L as [L|L]; [left; auto|right]. apply Forall_inv in L. lia. }
      destruct (esv_eqb _ _).
      { destruct (hex_decode s) as [b|] eqn:D; [|eauto]. apply decode_nonempty in D; auto. destruct b as [|x b]; [contradiction|].
        cbn [idx nth_error obind]. destruct (esv_eqb _ _); eauto. }
      destruct (Nat.eqb _ _).
      { destruct (hex_decode s) as [b|] eqn:D; [|eauto]. apply decode_nonempty in D; auto. destruct b as [|x b]; [contradiction|].
        cbn [idx nth_error obind]. eauto. }
      destruct (Nat.ltb _ _); [|eauto]. destruct (hex_decode s); eauto. }
    destruct Y as [y ->]. cbn [obind]. destruct y as [a'|]; [|eauto]. apply IH; auto. destruct L as [L|L]; [left; auto|right; exact (Forall_inv_tail L)]. }
  unfold uechopost_args. destruct (X post_args0) as [[a|] ->]; cbn [obind]; [|discriminate].
  destruct (ipaddr_eqb _ _); [discriminate|]. destruct (esv_eqb _ _); [discriminate|]. destruct (_ =? _); [discriminate|]. destruct (Nat.eqb _ _); discriminate.
Qed.
(** An empty argument for ESV or EPC; in a debug build an object code of more than
    four octets. *)
Theorem C94_survives_refuted : (forall P : Profile, exists T args, uechopost_args (P := P) (T := T) args = Panic) /\
  exists T args, Forall (fun s => s <> []) args /\ uechopost_args (P := true) (T := T) args = Panic.
Proof.
  split.
  - intro P. exists ex_texts, (ex_args [""%string]%string). destruct P; vm_compute; reflexivity.
  - exists ex_texts, (map txt ["uechopost"; "192.168.0.20"; "0000029101"; "62"; "80"]%string). split; [repeat (constructor; [discriminate|]); constructor|vm_compute; reflexivity].
Qed.
Example C94_case : Forall (fun s => s <> []) (ex_args ["62"; "80"]%string) /\
  uechopost_args (P := true) (T := ex_texts) (ex_args ["62"; "8"]%string) = Ret None /\
  match uechopost_args (P := true) (T := ex_texts) (ex_args ["62"; "80"]%string) with
  | Ret (Some a) => pa_obj a = 0x029101 /\ pa_epcs a = [0x80] | _ => False end.
Proof. split; [repeat (constructor; [discriminate|]); constructor|]. vm_compute. auto. Qed.

(** ** C95: uechosearch asks for everything once and shows the answers *)

(** What is to be asked: the manufacturer, then the properties of every object
    that are mandatory to read, or all. *)
Definition wanted (all : bool) (o : object) : list N :=
  map p_code (filter (fun p => all || match p_read p with Required => true | _ => false end) (object_properties o)).
Definition object_questions (all : bool) (r : remote_node) : list (remote_node * N * N) :=
  flat_map (fun o => map (fun c => (r, object_code o, c)) (wanted all o)) (rn_objects r).
Definition questions (all : bool) (r : remote_node) : list (remote_node * N * N) := (r, 0x0EF001, 0x8A) :: object_questions all r.

(** A request with the line printed after it. *)
Fixpoint exchanges (l : list act) : list (remote_node * message * line) :=
  match l with
  | [] => []
  | APost r m :: t => match t with APrint x :: t' => (r, m, x) :: exchanges t' | _ => exchanges t end
  | APrint _ :: t => exchanges t
  end.
(** The request is a read of the one property. *)
Definition asks (q : remote_node * N * N) (x : remote_node * message * line) : Prop :=
  fst (fst q) = fst (fst x) /\ carries (snd (fst x)) (Frame 0 0 (snd (fst q)) 0x62 (Single [(snd q, [])])).

(** The line shows the answer: its first property in hexadecimal digits, the name
    of the manufacturer. *)
Definition shown (ans : option message) (d : option (list N)) : Prop :=
  match ans with
  | None => d = None
  | Some m => match m_props m with [] => d = Some [] | p :: _ => exists t, d = Some t /\ spells t (pp_data p) end
  end.
Definition maker (ans : option message) (name : string) : Prop :=
  match ans with
  | Some m => match m_props m with
              | [] => name = ""%string
              | p :: _ => (length (pp_data p) <= 4)%nat ->
                          In (be_value (pp_data p), name) maker_table \/ name = ""%string /\ ~ In (be_value (pp_data p)) (map fst maker_table)
              end
  | None => name = ""%string
  end.
Definition tells (ans : option message) (x : remote_node * message * line) : Prop :=
  match snd x with
  | LProp c _ d => m_props (snd (fst x)) = [PProp c []] /\ shown ans d
  | LNode _ a name => a = rn_addr (fst (fst x)) /\ maker ans name
  | LObject _ _ _ => False
  end.

Section Search.
  Variable ans : nat -> option message.
  Hypothesis Ans : forall k m, ans k = Some m -> Forall u8prop (m_props m).

  Record good (k : nat) (qs : list (remote_node * N * N)) (k' : nat) (acts : list act) : Prop := {
    g_count : k' = (k + length qs)%nat;
    g_closed : forall b, exchanges (acts ++ b) = exchanges acts ++ exchanges b;
    g_asks : Forall2 asks qs (exchanges acts);
    g_tells : forall i x, nth_error (exchanges acts) i = Some x -> tells (ans (k + i)) x }.
  Lemma good_nil k : good k [] k [].
  Proof. constructor; auto; [constructor|]. intros [|i] x H; discriminate. Qed.
  Lemma good_app k qs k1 a qs' k2 b : good k qs k1 a -> good k1 qs' k2 b -> good k (qs ++ qs') k2 (a ++ b).
  Proof.
    intros [C1 D1 A1 T1] [C2 D2 A2 T2]. constructor.
    - rewrite app_length. lia.
    - intro c. rewrite <- app_assoc, !D1, D2, app_assoc. reflexivity.
    - rewrite D1. apply Forall2_app; auto.
    - intros i x H. rewrite D1 in H. pose proof (Forall2_length' _ _ _ A1) as L. destruct (Nat.lt_ge_cases i (length (exchanges a))) as [Lt|Ge].
      + rewrite nth_error_app1 in H by auto. auto.
      + rewrite nth_error_app2 in H by auto. apply T2 in H. replace (k + i)%nat with (k1 + (i - length (exchanges a)))%nat; auto. lia.
  Qed.
  Lemma good_print k qs k' a l : good k qs k' a -> good k qs k' (APrint l :: a).
  Proof. intros [C D A T]. constructor; auto. Qed.
  Lemma good_one k r oc c l : oc < 2 ^ 24 -> tells (ans k) (r, read_message oc c, l) -> good k [(r, oc, c)] (S k) [APost r (read_message oc c); APrint l].
  Proof.
    intros B H. constructor; [cbn; lia|reflexivity| |].
    - constructor; [|constructor]. split; [reflexivity|]. cbn [fst snd]. unfold carries. cbn [f_tid f_seoj f_deoj f_esv f_body].
      split; [reflexivity|]. split; [reflexivity|]. split; [|split; [reflexivity|split; [reflexivity|split; reflexivity]]].
      unfold read_message, msg_deoj. cbn [m_deoj msg_add_property with_props msg_set_deoj with_deoj]. rewrite object_code_split. apply N.mod_small. exact B.
    - intros [|[|i]] x E; inversion E; subst. rewrite Nat.add_0_r. exact H.
  Qed.

  Lemma shown_answer k d : answer_data (ans k) = Ret d -> shown (ans k) d.
  Proof.
    pose proof (Ans k) as U. unfold answer_data, shown. destruct (ans k) as [m|]; [|intro H; inversion H; reflexivity]. specialize (U m eq_refl).
    unfold msg_opc, msg_property. destruct (m_props m) as [|p ps]; cbn; intro H; inversion H; subst; auto.
    exists (hex_encode (pp_data p)). split; auto. apply hex_encode_spells. apply (Forall_inv U).
  Qed.
  Lemma answer_total k : exists d, answer_data (ans k) = Ret d.
  Proof. unfold answer_data. destruct (ans k) as [m|]; [|eauto]. unfold msg_opc, msg_property. destruct (m_props m); cbn; eauto. Qed.

  Lemma read_loop_good all r oc ps : oc < 2 ^ 24 -> forall k, exists k' acts, read_loop all ans k r oc ps = Ret (k', acts) /\
    good k (map (fun c => (r, oc, c)) (map p_code (filter (fun p => all || match p_read p with Required => true | _ => false end) ps))) k' acts.
  Proof.
    intro B. induction ps as [|p l IH]; intro k; cbn [read_loop filter map]; [exists k, []; split; auto; apply good_nil|].
    assert (X : negb all && negb (prop_is_read_required p) = negb (all || match p_read p with Required => true | _ => false end)).
    { unfold prop_is_read_required, rule_required. destruct all, (p_read p); reflexivity. }
    rewrite X. destruct (all || _); cbn [negb]; [|apply IH].
    destruct (answer_total k) as [d Ed]. rewrite Ed. cbn [obind]. destruct (IH (S k)) as (k' & acts & -> & G). cbn [obind fst snd map].
    exists k', (APost r (read_message oc (p_code p)) :: APrint (LProp (p_code p) (p_name p) d) :: acts). split; auto.
    apply (good_app k [(r, oc, p_code p)] (S k) [APost r (read_message oc (p_code p)); APrint (LProp (p_code p) (p_name p) d)]); auto.
    apply good_one; auto. split; [reflexivity|]. apply shown_answer. exact Ed.
  Qed.
  Lemma object_loop_good all r os : Forall (fun o => object_code o < 2 ^ 24) os -> forall k j, exists k' acts, object_loop all ans k j r os = Ret (k', acts) /\
    good k (flat_map (fun o => map (fun c => (r, object_code o, c)) (wanted all o)) os) k' acts.
  Proof.
    induction 1 as [|o l B _ IH]; intros k j; cbn [object_loop flat_map]; [exists k, []; split; auto; apply good_nil|].
    destruct (read_loop_good all r (object_code o) (object_properties o) B k) as (k1 & a1 & -> & G1). cbn [obind fst snd].
    destruct (IH k1 (S j)) as (k2 & a2 & -> & G2). cbn [obind fst snd]. eexists _, _. split; [reflexivity|].
    apply good_print. eapply good_app; eauto.
  Qed.
  Lemma maker_shown (P : Profile) k name : maker_name (ans k) = Ret name -> maker (ans k) name.
  Proof.
    pose proof (Ans k) as U. unfold maker_name, maker. destruct (ans k) as [m|]; [|intro H; inversion H; reflexivity]. specialize (U m eq_refl).
    destruct (m_props m) as [|p ps]; [intro H; inversion H; reflexivity|]. intros H L. apply Forall_inv in U as [_ Ho].
    destruct (C11_int_codec_back P _ Ho L) as (v & E & -> & _). rewrite E in H. cbn [obind] in H. unfold find_manufacture in H.
    destruct (find _ maker_table) as [[c nm]|] eqn:F.
    - inversion H; subst. apply find_some in F as [I F]. cbn [fst snd] in *. left. replace (be_value (pp_data p)) with c by lia. exact I.
    - inversion H; subst. right. split; auto. intro I. apply in_map_iff in I as ([c nm] & E2 & I). apply (find_none _ _ F) in I. cbn in *. lia.
  Qed.
  Lemma search_loop_good (P : Profile) all nodes : Forall (fun r => Forall (fun o => object_code o < 2 ^ 24) (rn_objects r)) nodes ->
    forall k i, match search_loop all ans k i nodes with
                | Ret (k', acts) => good k (flat_map (questions all) nodes) k' acts
                | Panic => exists j m p ps, ans j = Some m /\ m_props m = p :: ps /\ overflow_checks = true /\ (4 < length (pp_data p))%nat
                end.
  Proof.
    induction 1 as [|r l B _ IH]; intros k i; cbn [search_loop flat_map]; [apply good_nil|].
    destruct (maker_name (ans k)) as [name|] eqn:En.
    - cbn [obind]. destruct (object_loop_good all r (rn_objects r) B (S k) 0) as (k1 & a1 & -> & G1). cbn [obind fst snd].
      specialize (IH k1 (S i)). destruct (search_loop all ans k1 (S i) l) as [[k2 a2]|]; cbn [obind fst snd]; auto.
      apply (good_app k [(r, 0x0EF001, 0x8A)] (S k) [APost r (read_message 0x0EF001 0x8A); APrint (LNode i (rn_addr r) name)] (object_questions all r ++ flat_map (questions all) l)).
      + apply good_one; [lia|]. split; [reflexivity|]. apply (maker_shown P). exact En.
      + eapply good_app; eauto.
    - cbn [obind]. unfold maker_name in En. destruct (ans k) as [m|] eqn:Ea; [|discriminate]. destruct (m_props m) as [|p ps] eqn:Ep; [discriminate|].
      exists k, m, p, ps. split; auto. split; auto. pose proof (Ans k m Ea) as U. rewrite Ep in U. apply Forall_inv in U as [_ Ho].
      destruct (Bool.bool_dec overflow_checks false) as [Of|Of].
      + destruct (to_u32_total P _ Ho (or_introl Of)) as [v E]. rewrite E in En. cbn [obind] in En. destruct (find_manufacture v); discriminate.
      + split; [destruct overflow_checks; congruence|]. destruct (Nat.lt_ge_cases 4 (length (pp_data p))) as [L|L]; auto.
        destruct (to_u32_total P _ Ho (or_intror L)) as [v E]. rewrite E in En. cbn [obind] in En. destruct (find_manufacture v); discriminate.
  Qed.
  Lemma bench_loop_good all nodes : Forall (fun r => Forall (fun o => object_code o < 2 ^ 24) (rn_objects r)) nodes ->
    forall k i, exists k' acts, bench_loop all ans k i nodes = Ret (k', acts) /\ good k (flat_map (object_questions all) nodes) k' acts.
  Proof.
    induction 1 as [|r l B _ IH]; intros k i; cbn [bench_loop flat_map]; [exists k, []; split; auto; apply good_nil|].
    destruct (object_loop_good all r (rn_objects r) B k 0) as (k1 & a1 & -> & G1). cbn [obind fst snd].
    destruct (IH k1 (S i)) as (k2 & a2 & -> & G2). cbn [obind fst snd]. eexists _, _. split; [reflexivity|].
    apply good_print. eapply good_app; eauto.
  Qed.
  Lemma bench_rounds_good all nodes : (forall c, Forall (fun r => Forall (fun o => object_code o < 2 ^ 24) (rn_objects r)) (nodes c)) ->
    forall count k, exists k' acts, bench_rounds all ans k nodes count = Ret (k', acts) /\
      good k (flat_map (fun c => flat_map (object_questions all) (nodes c)) (rev (seq 0 count))) k' acts.
  Proof.
    intro B. induction count as [|c IH]; intro k; cbn [bench_rounds]; [exists k, []; split; auto; apply good_nil|].
    destruct (bench_loop_good all (nodes c) (B c) k 0) as (k1 & a1 & -> & G1). cbn [obind fst snd].
    destruct (IH k1) as (k2 & a2 & -> & G2). cbn [obind fst snd]. eexists _, _. split; [reflexivity|].
    rewrite seq_S, rev_app_distr. cbn [rev app flat_map]. eapply good_app; eauto.
  Qed.
End Search.

(** Answers as they come out of channels, and entries as the controller makes them. *)
Definition answers_ok (ans : nat -> option message) : Prop := forall k m, ans k = Some m -> Forall u8prop (m_props m).
Definition nodes_ok (nodes : list remote_node) : Prop := Forall (fun r => Forall (fun o => object_code o < 2 ^ 24) (rn_objects r)) nodes.

Theorem C95_asks : forall (P : Profile) all ans nodes k acts, answers_ok ans -> nodes_ok nodes ->
  search_loop all ans 0 0 nodes = Ret (k, acts) ->
  Forall2 asks (flat_map (questions all) nodes) (exchanges acts).
Proof.
  intros P all ans nodes k acts Ha Hn E. pose proof (search_loop_good ans Ha P all nodes Hn 0 0) as G. rewrite E in G. apply G.
Qed.
Theorem C95_tells : forall (P : Profile) all ans nodes k acts i x, answers_ok ans -> nodes_ok nodes ->
  search_loop all ans 0 0 nodes = Ret (k, acts) -> nth_error (exchanges acts) i = Some x -> tells (ans i) x.
Proof.
  intros P all ans nodes k acts i x Ha Hn E. pose proof (search_loop_good ans Ha P all nodes Hn 0 0) as G. rewrite E in G. intro I. exact (g_tells _ _ _ _ _ G i x I).
Qed.
Theorem C95_survives_partial : forall (P : Profile) all ans nodes, answers_ok ans -> nodes_ok nodes ->
  overflow_checks = false \/ (forall k m p ps, ans k = Some m -> m_props m = p :: ps -> (length (pp_data p) <= 4)%nat) ->
  search_loop all ans 0 0 nodes <> Panic.
Proof.
  intros P all ans nodes Ha Hn H E. pose proof (search_loop_good ans Ha P all nodes Hn 0 0) as G. rewrite E in G.
  destruct G as (j & m & p & ps & Ea & Em & Eo & L). destruct H as [H|H]; [congruence|]. specialize (H j m p ps Ea Em). lia.
Qed.
(** What the command line says: -h anywhere shows the usage, -a anywhere asks for all properties. *)
Theorem C95_args : forall args,
  (In flag_h args -> search_args false args = None) /\
  (~ In flag_h args -> exists b, search_args false args = Some b /\ (b = true <-> In flag_a args)).
Proof.
  intro args. enough (X : forall all, (In flag_h args -> search_args all args = None) /\
    (~ In flag_h args -> exists b, search_args all args = Some b /\ (b = true <-> all = true \/ In flag_a args))).
  { destruct (X false) as [A B]. split; auto. intro H. destruct (B H) as (b & E & Y). exists b. split; auto. rewrite Y. intuition discriminate. }
  induction args as [|x r IH]; intro all; cbn [search_args].
  { split; [intros []|]. intros _. exists all. split; auto. intuition. }
  destruct (is_arg x arg_v) eqn:Ev.
  { apply bytes_eqb_eq in Ev. subst x. destruct (IH all) as [A B]. split; [intros [H|H]; [discriminate|auto]|].
    intro H. destruct B as (b & E & X); [intro; apply H; right; auto|]. exists b. split; auto. rewrite X. cbn [In]. intuition discriminate. }
  destruct (is_arg x arg_a) eqn:Ea.
  { apply bytes_eqb_eq in Ea. subst x. destruct (IH true) as [A B]. split; [intros [H|H]; [discriminate|auto]|].
    intro H. destruct B as (b & E & X); [intro; apply H; right; auto|]. exists b. split; auto. rewrite X. cbn [In]. intuition. }
  destruct (is_arg x arg_h) eqn:Eh.
  { apply bytes_eqb_eq in Eh. subst x. split; auto. intro H. contradiction H. left. reflexivity. }
  assert (Na : x <> flag_a) by (intros ->; discriminate).
  assert (Nh : x <> flag_h) by (intros ->; discriminate).
  destruct (IH all) as [A B]. split; [intros [H|H]; [contradiction|auto]|].
  intro H. destruct B as (b & E & X); [intro; apply H; right; auto|]. exists b. split; auto. rewrite X. cbn [In]. intuition.
Qed.
(** A debug build ends when a node answers five octets for the manufacturer code. *)
Definition long_answer : message := msg_add_property (msg_set_esv msg_new EReadResponse) (PProp 0x8A [0; 0; 0; 0; 0x0B]).
Theorem C95_survives_refuted : exists ans nodes, answers_ok ans /\ nodes_ok nodes /\ search_loop (P := true) false ans 0 0 nodes = Panic.
Proof.
  exists (fun _ => Some long_answer), [Remote peer []]. split; [|split; [|vm_compute; reflexivity]].
  - intros _ m H. inversion H; subst. constructor; [|constructor]. split; [vm_compute; reflexivity|repeat constructor].
  - constructor; [constructor|constructor].
Qed.
(** The lamp answers 0x0B (Panasonic), 0x30 and nothing. *)
Definition ex_answers (k : nat) : option message :=
  match k with
  | O => Some (msg_add_property (msg_set_esv msg_new EReadResponse) (PProp 0x8A [0; 0; 0x0B]))
  | 1%nat => Some (msg_add_property (msg_set_esv msg_new EReadResponse) (PProp 0x80 [0x30]))
  | _ => None
  end.
Example C95_case : answers_ok ex_answers /\ nodes_ok [Remote peer [lamp]] /\
  match search_loop (P := true) true ex_answers 0 0 [Remote peer [lamp]] with
  | Ret (k, acts) => (k, length (wanted true lamp), length (wanted false lamp)) = (7, 6, 5)%nat /\
                     nth_error acts 1 = Some (APrint (LNode 0 peer (match find_manufacture 0x0B with Some x => snd x | None => ""%string end))) /\
                     match nth_error acts 4 with Some (APrint (LProp _ _ d)) => d = Some (txt "30"%string) | _ => False end
  | Panic => False
  end.
Proof.
  split; [|split].
  - intros [|[|k]] m H; inversion H; subst; (constructor; [|constructor]); (split; [vm_compute; reflexivity|repeat constructor]).
  - repeat constructor.
  - vm_compute. auto.
Qed.

(** ** C96: uechobench asks for everything in every round *)
Theorem C96_asks : forall all ans nodes count, answers_ok ans -> (forall c, nodes_ok (nodes c)) ->
  exists k acts, bench_rounds all ans 0 nodes count = Ret (k, acts) /\
    Forall2 asks (flat_map (fun c => flat_map (object_questions all) (nodes c)) (rev (seq 0 count))) (exchanges acts) /\
    forall i x, nth_error (exchanges acts) i = Some x -> tells (ans i) x.
Proof.
  intros all ans nodes count Ha Hn. destruct (bench_rounds_good ans Ha all nodes Hn count 0) as (k & acts & E & G). exists k, acts. split; auto. split; apply G.
Qed.
(** Command lines without -n. *)
Theorem C96_args_partial : forall (T : Texts) all count args, ~ In flag_n args ->
  (In flag_h args -> bench_args all count args = Ret None) /\
  (~ In flag_h args -> exists b, bench_args all count args = Ret (Some (b, count)) /\ (b = true <-> all = true \/ In flag_a args)).
Proof.
  intros T all count args. revert all. induction args as [|x r IH]; intros all N; cbn [bench_args].
  { split; [intros []|]. intros _. exists all. split; auto. intuition. }
  assert (Nn : is_arg x arg_n = false) by (apply not_flag; intro; subst; apply N; left; reflexivity).
  assert (Nr : ~ In flag_n r) by (intro; apply N; right; auto).
  rewrite Nn. destruct (is_arg x arg_v) eqn:Ev.
  { apply bytes_eqb_eq in Ev. subst x. destruct (IH all Nr) as [A B]. split; [intros [H|H]; [discriminate|auto]|].
    intro H. destruct B as (b & E & X); [intro; apply H; right; auto|]. exists b. split; auto. rewrite X. cbn [In]. intuition discriminate. }
  destruct (is_arg x arg_a) eqn:Ea.
  { apply bytes_eqb_eq in Ea. subst x. destruct (IH true Nr) as [A B]. split; [intros [H|H]; [discriminate|auto]|].
    intro H. destruct B as (b & E & X); [intro; apply H; right; auto|]. exists b. split; auto. rewrite X. cbn [In]. intuition. }
  destruct (is_arg x arg_h) eqn:Eh.
  { apply bytes_eqb_eq in Eh. subst x. split; auto. intro H. contradiction H. left. reflexivity. }
  assert (Na : x <> flag_a) by (intros ->; discriminate).
  assert (Nh : x <> flag_h) by (intros ->; discriminate).
  destruct (IH all Nr) as [A B]. split; [intros [H|H]; [contradiction|auto]|].
  intro H. destruct B as (b & E & X); [intro; apply H; right; auto|]. exists b. split; auto. rewrite X. cbn [In]. intuition.
Qed.
(** One -n with a number. *)
Theorem C96_count : forall (T : Texts) pre y post z, ~ In flag_n pre -> ~ In flag_n post -> ~ In flag_h (pre ++ post) -> parse_i32 y = Some z ->
  exists b, bench_args false 1 (pre ++ flag_n :: y :: post) = Ret (Some (b, z)) /\ (b = true <-> In flag_a (pre ++ post)).
Proof.
  intros T pre y post z Np Nq Nh Y. enough (X : forall all, exists b, bench_args all 1 (pre ++ flag_n :: y :: post) = Ret (Some (b, z)) /\ (b = true <-> all = true \/ In flag_a (pre ++ post))).
  { destruct (X false) as (b & E & H). exists b. split; auto. rewrite H. intuition discriminate. }
  induction pre as [|x r IH]; intro all; cbn [app].
  - cbn [bench_args]. change (is_arg flag_n arg_v) with false. change (is_arg flag_n arg_n) with true. cbv iota. rewrite Y.
    apply (C96_args_partial T all z post Nq). exact Nh.
  - cbn [bench_args].
    assert (Nn : is_arg x arg_n = false) by (apply not_flag; intro; subst; apply Np; left; reflexivity).
    assert (Eh : is_arg x arg_h = false) by (apply not_flag; intro; subst; apply Nh; left; reflexivity).
    assert (Nr : ~ In flag_n r) by (intro; apply Np; right; auto).
    assert (Hr : ~ In flag_h (r ++ post)) by (intro; apply Nh; right; auto).
    rewrite Nn. destruct (is_arg x arg_v) eqn:Ev.
    { apply bytes_eqb_eq in Ev. subst x. destruct (IH Nr Hr all) as (b & E & X). exists b. split; auto. rewrite X. cbn [In]. intuition discriminate. }
    destruct (is_arg x arg_a) eqn:Ea.
    { apply bytes_eqb_eq in Ea. subst x. destruct (IH Nr Hr true) as (b & E & X). exists b. split; auto. rewrite X. cbn [In]. intuition. }
    rewrite Eh. assert (Na : x <> flag_a) by (intros ->; discriminate).
    destruct (IH Nr Hr all) as (b & E & X). exists b. split; auto. rewrite X. cbn [In]. intuition.
Qed.
(** -n without a number ends in a panic, instead of the usage. *)
Theorem C96_args_refuted : forall (T : Texts) all count prog rest, prog <> flag_h -> prog <> flag_n -> prog <> flag_a -> prog <> flag_v ->
  bench_args all count [prog; flag_n] = Panic /\
  (parse_i32 (hd [] rest) = None -> bench_args all count (prog :: flag_n :: rest) = Panic).
Proof.
  intros T all count prog rest N1 N2 N3 N4. cbn [bench_args]. rewrite !not_flag by auto. change (is_arg flag_n arg_v) with false. change (is_arg flag_n arg_n) with true. cbv iota.
  split; auto. intro H. destruct rest as [|y r]; auto. cbn [hd] in H. rewrite H. reflexivity.
Qed.
Definition ex_texts2 : Texts := {| parse_ip := fun _ => None; parse_i32 := fun s => if bytes_eqb s (txt "2"%string) then Some 2%Z else None |}.
Example C96_case : bench_args (T := ex_texts2) false 1 (map txt ["uechobench"; "-n"; "2"; "-a"]%string) = Ret (Some (true, 2%Z)) /\
  bench_args (T := ex_texts2) false 1 (map txt ["uechobench"; "-n"]%string) = Panic /\
  match bench_rounds true ex_answers 0 (fun _ => [Remote peer [lamp]]) 2 with
  | Ret (k, acts) => k = 12%nat /\ length (exchanges acts) = 12%nat
  | Panic => False
  end.
Proof. vm_compute. auto. Qed.
Print Assumptions C93_sends_partial.
Print Assumptions C93_write_read_refuted.
Print Assumptions C93_nothing.
Print Assumptions C93_response_required_refuted.
Print Assumptions C94_survives_partial.
Print Assumptions C94_survives_refuted.
Print Assumptions C95_asks.
Print Assumptions C95_tells.
Print Assumptions C95_survives_partial.
Print Assumptions C95_survives_refuted.
Print Assumptions C96_asks.
Print Assumptions C96_args_partial.
Print Assumptions C96_args_refuted.
Print Assumptions C93_usage.
Print Assumptions C93_verbose.
Print Assumptions C95_args.
Print Assumptions C96_count.
