(** Two processes that differ in the hash seeds run alike. *)
From Verif Require Import Base HMap DbTable ModelCodec ModelMessages ModelObject ModelTransport ModelNode SpecWire SpecObject SpecNode
  ProofsCodec ProofsCodec2 PropertiesCodec ProofsObject ProofsObject2 ProofsObject3 ProofsNode ProofsNode2 ProofsNode3 SpecOrder.

Lemma both_ret {A B} (R : A -> B -> Prop) a b : R a b -> both R (Ret a) (Ret b). Proof. auto. Qed.
Lemma both_bind {A B C D} (R : A -> B -> Prop) (S : C -> D -> Prop) x y f g :
  both R x y -> (forall a b, R a b -> both S (f a) (g b)) -> both S (obind x f) (obind y g).
Proof. destruct x, y; cbn; auto; tauto. Qed.

(* ------------------------------------------------------------------ *)
(** ** Property maps *)
Section M.
  Context {P : Profile}.
  Lemma bit_of_ext a b : length a = 17%nat -> length b = 17%nat -> octets a -> octets b -> nth 0 a 0 = nth 0 b 0 ->
    (forall c, 128 <= c -> c < 256 -> bit_of a c = bit_of b c) -> a = b.
  Proof.
    intros La Lb Oa Ob H0 H. apply nth_ext with (d := 0) (d' := 0); [congruence|]. intros [|j] Hj; auto.
    apply N.bits_inj. intro i. destruct (N.lt_ge_cases i 8) as [Hi|Hi].
    - specialize (H (128 + 16 * i + N.of_nat j)). unfold bit_of in H.
      replace (N.to_nat ((128 + 16 * i + N.of_nat j) mod 16)) with j in H by lia.
      replace ((128 + 16 * i + N.of_nat j - 128) / 16) with i in H by lia. apply H; lia.
    - assert (X : forall l, length l = 17%nat -> octets l -> N.testbit (nth (S j) l 0) i = false).
      { intros l L Ol. assert (Hn : nth (S j) l 0 < 256).
        { apply (proj1 (Forall_forall _ _) Ol). apply nth_In. lia. }
        destruct (N.eq_dec (nth (S j) l 0) 0) as [->|Hz]; [apply N.bits_0|].
        apply N.bits_above_log2. apply N.lt_le_trans with 8; auto. apply N.log2_lt_pow2; [lia|exact Hn]. }
      rewrite !X; auto.
  Qed.
  Lemma to_map_like l l' d d' : Permutation l l' -> std_codes l -> to_property_map_bytes l = Ret d -> to_property_map_bytes l' = Ret d' ->
    d = d' \/ like_map d d'.
  Proof.
    intros Pm F E E'. pose proof (Permutation_length Pm) as L.
    assert (F' : std_codes l') by (eapply Permutation_Forall; eauto).
    assert (Oc : forall x, std_codes x -> octets x). { intros x. apply Forall_impl. intros c [_ H]. exact H. }
    destruct (Nat.leb_spec (length l) 15) as [S|S].
    - right. unfold to_property_map_bytes, len_u8 in E, E'. rewrite <- L in E'.
      destruct (Nat.leb_spec (length l) 15); [|lia]. inversion E; inversion E'; subst. unfold as_u8. constructor; auto; lia.
    - left. destruct (to_map_long l F) as (mb & E1 & L1 & N1 & B1); [lia|]. destruct (to_map_long l' F') as (mb' & E2 & L2 & N2 & B2); [lia|].
      pose proof (to_map_octets l d (Oc _ F) E) as O1. pose proof (to_map_octets l' d' (Oc _ F') E') as O2.
      rewrite E in E1. rewrite E' in E2. inversion E1; inversion E2; subst mb mb'. apply bit_of_ext; auto; [congruence|].
      intros c H1 H2. assert (X : bit_of d c = true <-> bit_of d' c = true).
      { rewrite B1, B2 by auto. split; intros [Hi Hc]; (split; [|exact Hc]).
        - exact (Permutation_in _ Pm Hi).
        - exact (Permutation_in _ (Permutation_sym Pm) Hi). }
      destruct (bit_of d c), (bit_of d' c); intuition congruence.
  Qed.

  Lemma strip_same a b : strip a = strip b -> both_some same_attributes a b.
  Proof.
    destruct a as [p|], b as [q|]; intro H; try discriminate H; [|exact Logic.I]. cbn in H. apply same_strip.
    apply (f_equal (fun x => match x with Some y => y | None => p end)) in H. exact H.
  Qed.
  Lemma selected_perm sel o o' : (forall x y, same_attributes x y -> sel x = sel y) -> obj_wf o -> obj_wf o' ->
    (forall c, strip (object_find_property o c) = strip (object_find_property o' c)) -> Permutation (selected sel o) (selected sel o').
  Proof.
    intros Sel W W' S. apply NoDup_Permutation; try (apply selected_nodup; auto). intro c. rewrite !selected_in by auto.
    pose proof (strip_same _ _ (S c)) as X. unfold both_some in X.
    destruct (object_find_property o c) as [p|], (object_find_property o' c) as [q|]; try tauto.
    - split; intros (x & E & H); inversion E; subst x; eexists; (split; [reflexivity|]); rewrite <- H; [symmetry|]; apply Sel; auto.
  Qed.
  Lemma selected_std sel o : obj_wf o -> std_keys o -> std_codes (selected sel o).
  Proof.
    intros W K. apply Forall_forall. intros c I. apply selected_in in I as (p & F & _); auto.
    split; [eapply K; eauto|]. apply (find_code o c p W F).
  Qed.
  (** Freshly made maps of objects with the same properties are alike. *)
  Lemma fresh_like o o' : obj_ok o -> obj_ok o' -> std_keys o -> std_keys o' ->
    o_codes o = o_codes o' -> o_name o = o_name o' /\ o_class_name o = o_class_name o' ->
    (forall c, is_map_code c = false -> object_find_property o c = object_find_property o' c) ->
    (forall c, strip (object_find_property o c) = strip (object_find_property o' c)) -> like o o'.
  Proof.
    intros W W' K K' Ec En Q S. constructor; auto.
    - split; apply obj_ok_good; auto.
    - intro c. pose proof (strip_same _ _ (S c)) as X. destruct (is_map_code c) eqn:M.
      + unfold both_some in *. destruct (object_find_property o c) as [p|] eqn:F, (object_find_property o' c) as [p'|] eqn:F'; try tauto.
        split; auto. destruct (find_code o c p (oo_wf o W) F) as [Hc _]. rewrite Hc. unfold like_data.
        assert (Mc : map_code c) by (apply is_map_code_spec; auto).
        assert (exists sel, map_sel c = Some sel /\ forall x y, same_attributes x y -> sel x = sel y) as (sel & Ms & Sel).
        { destruct Mc as [-> | [-> | ->]]; eexists; (split; [reflexivity|]); intros x y (_ & _ & _ & _ & A & B & C & _);
            unfold prop_is_readable, prop_is_writable, prop_is_announceable; congruence. }
        pose proof (oo_fresh o W c sel p Ms F) as E. pose proof (oo_fresh o' W' c sel p' Ms F') as E'.
        pose proof (selected_perm sel o o' Sel (oo_wf _ W) (oo_wf _ W') S) as Pm.
        destruct (to_map_like _ _ _ _ Pm (selected_std sel o (oo_wf _ W) K) E E'); auto.
      + rewrite <- Q by auto. destruct (object_find_property o c) as [p|]; [|exact Logic.I]. split; [apply same_attributes_refl|left; reflexivity].
  Qed.
  Lemma like_strip o o' c : like o o' -> strip (object_find_property o c) = strip (object_find_property o' c).
  Proof.
    intro L. pose proof (lk_props _ _ L c) as H. destruct (object_find_property o c), (object_find_property o' c); cbn in *; try tauto.
    f_equal. apply same_strip. apply H.
  Qed.
  Lemma like_nonmap o o' c : like o o' -> is_map_code c = false -> object_find_property o c = object_find_property o' c.
  Proof.
    intros L M. pose proof (lk_props _ _ L c) as H. destruct (object_find_property o c) as [p|] eqn:F, (object_find_property o' c) as [q|]; cbn in *; try tauto.
    destruct H as [A [B|[B _]]].
    - f_equal. apply same_strip in A. destruct p, q. cbn in *. unfold prop_set_data in A. cbn in A. congruence.
    - exfalso. destruct (find_code o c p (proj1 (proj1 (lk_good _ _ L))) F) as [E _]. rewrite E in B. apply is_map_code_false in M. auto.
  Qed.
  Lemma like_refl o : obj_good o -> std_keys o -> like o o.
  Proof.
    intros G K. constructor; auto. intro c. destruct (object_find_property o c); [|exact Logic.I].
    split; [apply same_attributes_refl|left; reflexivity].
  Qed.
  Lemma like_code o o' : like o o' -> object_code o = object_code o'.
  Proof. intro L. apply object_code_codes. apply L. Qed.

  Lemma clone_std (HO : HashOrder) s o o' : obj_good o -> std_keys o -> object_clone s o = Ret o' -> std_keys o'.
  Proof.
    intros G K E. apply clone_good in E as (_ & _ & _ & _ & _ & S); auto. intros c p F. specialize (S c). rewrite F in S.
    destruct (object_find_property o c) eqn:X; [|discriminate]. eapply K; eauto.
  Qed.
  Lemma clone_like (H1 H2 : HashOrder) s s' o o' : like o o' -> both like (object_clone (HO := H1) s o) (object_clone (HO := H2) s' o').
  Proof.
    intro L. destruct (lk_good _ _ L) as [G G']. destruct (lk_std _ _ L) as [K K'].
    destruct (clone_good_total (HO := H1) s o G K) as [a E]. destruct (clone_good_total (HO := H2) s' o' G' K') as [b E'].
    rewrite E, E'. cbn. pose proof (clone_std _ _ _ _ G K E) as Ka. pose proof (clone_std _ _ _ _ G' K' E') as Kb.
    apply clone_good in E as (A & A1 & A2 & A3 & A4 & A5); auto. apply clone_good in E' as (B & B1 & B2 & B3 & B4 & B5); auto.
    apply fresh_like; auto.
    - rewrite A1, B1. apply L.
    - rewrite A2, A3, B2, B3. apply L.
    - intros c M. rewrite A4, B4 by auto. apply like_nonmap; auto.
    - intro c. rewrite A5, B5. apply like_strip; auto.
  Qed.

  (** Adding a property. *)
  Lemma add_property_good (HO : HashOrder) o p o' : obj_good o -> prop_ok p -> object_add_property o p = Ret o' -> obj_ok o'.
  Proof.
    intros [W Q] Hp E. destruct (add_property_spec o p o' W (po_code p Hp) E) as (A & B & C & _ & _ & _ & _ & D & G).
    constructor; auto. intros c q Hf. specialize (G c). specialize (D c). revert G D.
    remember (match object_find_property o c with Some q0 => Some q0 | None => if c =? p_code p then Some p else None end) as src eqn:Es. intros G D.
    assert (Hs : forall x, src = Some x -> prop_ok x).
    { rewrite Es. intros x Hx. destruct (object_find_property o c) eqn:E1.
      - inversion Hx; subst. eapply Q; eauto.
      - destruct (c =? p_code p); [inversion Hx; subst; auto|discriminate]. }
    rewrite Hf in G. destruct src as [x|]; [|discriminate]. cbn [option_map] in G. specialize (Hs x eq_refl).
    assert (S : prop_set_data q [] = prop_set_data x []) by congruence. apply same_strip in S.
    destruct S as (S1 & _ & _ & _ & _ & _ & _ & S8). destruct Hs as [X1 X2 X3].
    constructor; try congruence. destruct (is_map_code c) eqn:Mc.
    - assert (exists sel, map_sel c = Some sel) as [sel Ms].
      { apply is_map_code_spec in Mc. destruct Mc as [-> | [-> | ->]]; eexists; reflexivity. }
      specialize (B c sel q Ms Hf). eapply to_map_octets; [|exact B]. apply selected_octets. auto.
    - rewrite D in Hf by auto. congruence.
  Qed.
  Lemma add_property_like (H1 H2 : HashOrder) o o' p : like o o' -> prop_ok p -> 0x80 <= p_code p ->
    both like (object_add_property (HO := H1) o p) (object_add_property (HO := H2) o' p).
  Proof.
    intros L Hp Hs. destruct (lk_good _ _ L) as [[W Q] [W' Q']]. destruct (lk_std _ _ L) as [K K'].
    destruct (add_property_total (HO := H1) o p W (po_code p Hp) Hs (std_keys_in o K)) as [a E].
    destruct (add_property_total (HO := H2) o' p W' (po_code p Hp) Hs (std_keys_in o' K')) as [b E']. rewrite E, E'. cbn [both].
    pose proof (add_property_good H1 o p a (conj W Q) Hp E) as A. pose proof (add_property_good H2 o' p b (conj W' Q') Hp E') as B.
    destruct (add_property_spec o p a W (po_code p Hp) E) as (_ & _ & _ & A1 & A2 & A3 & _ & A4 & A5).
    destruct (add_property_spec o' p b W' (po_code p Hp) E') as (_ & _ & _ & B1 & B2 & B3 & _ & B4 & B5).
    assert (Kx : forall (x y : object), std_keys x -> (forall c, option_map (fun q => prop_set_data q []) (object_find_property y c) =
       option_map (fun q => prop_set_data q []) (match object_find_property x c with Some q => Some q | None => if c =? p_code p then Some p else None end)) -> std_keys y).
    { intros x y Kx F c q Fq. specialize (F c). rewrite Fq in F. destruct (object_find_property x c) eqn:X; [eapply Kx; eauto|].
      destruct (N.eqb_spec c (p_code p)); [lia|discriminate]. }
    apply fresh_like; auto.
    - eapply Kx; [|exact A5]; auto.
    - eapply Kx; [|exact B5]; auto.
    - rewrite A1, B1. apply L.
    - rewrite A2, A3, B2, B3. apply L.
    - intros c M. rewrite A4, B4 by auto. rewrite (like_nonmap o o' c L M). reflexivity.
    - intro c. unfold strip. rewrite A5, B5. pose proof (like_strip o o' c L) as X. unfold strip in X.
      destruct (object_find_property o c), (object_find_property o' c); try discriminate X; auto.
  Qed.

  (** ** Assignments *)
  Definition like_opt (c : N) (d d' : option (list N)) : Prop :=
    match d, d' with Some x, Some y => like_data c x y | None, None => True | _, _ => False end.
  Lemma sets_std l o : std_keys o -> std_keys (sets o l).
  Proof. intros K c p. rewrite sets_find. destruct (object_find_property o c) eqn:F; [|discriminate]. intros _. eapply K; eauto. Qed.
  Lemma sets_like l l' o o' : like o o' -> Forall (fun q => octets (pp_data q)) l -> Forall (fun q => octets (pp_data q)) l' ->
    (forall c, like_opt c (last_data c l) (last_data c l')) -> like (sets o l) (sets o' l').
  Proof.
    intros L Ol Ol' H. destruct (lk_good _ _ L) as [G G']. destruct (lk_std _ _ L) as [K K'].
    destruct (sets_meta l o) as (A1 & A2 & A3 & _). destruct (sets_meta l' o') as (B1 & B2 & B3 & _). constructor.
    - split; apply good_sets; auto.
    - split; apply sets_std; auto.
    - rewrite A1, B1. apply L.
    - rewrite A2, A3, B2, B3. apply L.
    - intro c. rewrite !sets_find. pose proof (lk_props _ _ L c) as X. specialize (H c).
      destruct (object_find_property o c) as [p|] eqn:F, (object_find_property o' c) as [q|]; cbn in *; try tauto.
      destruct (find_code o c p (proj1 G) F) as [Ec _].
      destruct (last_data c l) as [d|], (last_data c l') as [d'|]; cbn in *; try tauto.
      destruct X as [X Y]. split.
      + eapply same_attributes_trans; [apply same_attributes_sym, same_attributes_set_data|].
        eapply same_attributes_trans; [exact X|apply same_attributes_set_data].
      + cbn. rewrite Ec. exact H.
  Qed.
  Lemma like_opt_refl c d : like_opt c d d.
  Proof. destruct d; [left; reflexivity|exact Logic.I]. Qed.
  Lemma sets_same_like l o o' : like o o' -> Forall (fun q => octets (pp_data q)) l -> like (sets o l) (sets o' l).
  Proof. intros L F. apply sets_like; auto. intro c. apply like_opt_refl. Qed.
  Lemma set_data_like o o' c d : like o o' -> octets d -> like (fst (object_set_property_data o c d)) (fst (object_set_property_data o' c d)).
  Proof. intros L F. apply (sets_same_like [PProp c d]); auto. Qed.

  Lemma last_data_props o c : obj_wf o -> last_data c (map pprop_of_prop (object_properties o)) = option_map p_data (object_find_property o c).
  Proof.
    intros [W1 W2]. unfold object_properties, object_find_property. revert W1 W2. generalize (o_props o). clear.
    induction l as [|[k p] r IH]; intros ND Ky; auto. cbn [hvalues map last_data hget snd pp_code pp_data pprop_of_prop].
    inversion ND; subst. fold (hvalues r). rewrite IH; auto; [|intros; apply Ky; right; auto].
    destruct (Ky k p) as [E _]; [left; auto|]. rewrite E, (N.eqb_sym k c). destruct (N.eqb_spec c k) as [->|Ne].
    - assert (hget r k = None) as -> by (apply hget_none; auto). reflexivity.
    - destruct (hget r c); reflexivity.
  Qed.
  Lemma copy_back_like o o' x x' : like o o' -> like x x' -> like (copy_back o (object_properties x)) (copy_back o' (object_properties x')).
  Proof.
    intros L X. destruct (lk_good _ _ X) as [G G'].
    assert (Oc : forall y, obj_good y -> Forall (fun q => octets (pp_data q)) (map pprop_of_prop (object_properties y))).
    { intros y Gy. apply Forall_map. eapply Forall_impl; [|apply good_props; auto]. intros p Hp. apply Hp. }
    rewrite !copy_back_sets. apply sets_like; auto. intro c. rewrite !last_data_props by (apply G || apply G').
    pose proof (lk_props _ _ X c) as Y. destruct (object_find_property x c) as [p|] eqn:F, (object_find_property x' c) as [q|]; cbn in *; try tauto.
    destruct (find_code x c p (proj1 G) F) as [<- _]. apply Y.
  Qed.
End M.

(* ------------------------------------------------------------------ *)
(** ** Requests *)
Lemma like_data_refl c d : like_data c d d. Proof. left; reflexivity. Qed.
Lemma like_pprops_refl l : Forall2 like_pprop l l.
Proof. induction l; constructor; auto. split; [auto|apply like_data_refl]. Qed.
Lemma like_msg_refl m : like_msg m m.
Proof. constructor; auto using like_pprops_refl. Qed.
Lemma like_find o o' c : like o o' -> both_some like_prop (object_find_property o c) (object_find_property o' c).
Proof. intro L. apply L. Qed.
Lemma valid_like o o' e ps : like o o' -> is_valid_request o e ps = is_valid_request o' e ps.
Proof.
  intro L. induction ps as [|q r IH]; cbn [is_valid_request]; auto. pose proof (like_find o o' (pp_code q) L) as X.
  destruct (object_find_property o (pp_code q)) as [p|], (object_find_property o' (pp_code q)) as [p'|]; cbn in X; try tauto.
  destruct X as [(_ & _ & _ & A & B & C & _) _].
  assert (E1 : service_available p e = service_available p' e).
  { destruct e; cbn; unfold prop_is_readable, prop_is_writable; rewrite ?B, ?C; reflexivity. }
  assert (E2 : size_fits p e q = size_fits p' e q) by (destruct e; cbn; rewrite ?A; reflexivity).
  rewrite E1, E2, IH. reflexivity.
Qed.
Lemma request_valid_like o o' m : like o o' -> request_valid o m = request_valid o' m.
Proof. intro L. unfold request_valid. destruct (msg_esv m); rewrite ?(valid_like o o') by auto; reflexivity. Qed.
Lemma read_props_like o o' ps : like o o' -> both_some (Forall2 like_pprop) (read_props_of o ps) (read_props_of o' ps).
Proof.
  intro L. induction ps as [|q r IH]; cbn [read_props_of]; [constructor|]. pose proof (like_find o o' (pp_code q) L) as X.
  destruct (object_find_property o (pp_code q)) as [p|], (object_find_property o' (pp_code q)) as [p'|]; cbn in X; try tauto.
  destruct (read_props_of o r), (read_props_of o' r); cbn in IH |- *; try tauto. constructor; auto.
  destruct X as [(A & _) B]. split; auto.
Qed.
Lemma add_props_like l l' : Forall2 like_pprop l l' -> forall m m', like_msg m m' ->
  like_msg (fold_left msg_add_property l m) (fold_left msg_add_property l' m') /\
  like_msg (fold_left msg_add_property_set l m) (fold_left msg_add_property_set l' m') /\
  like_msg (fold_left msg_add_property_get l m) (fold_left msg_add_property_get l' m').
Proof.
  induction 1 as [|a b l l' H F IH]; intros m m' L; [auto|]. cbn [fold_left].
  assert (X : like_msg (msg_add_property m a) (msg_add_property m' b) /\ like_msg (msg_add_property_set m a) (msg_add_property_set m' b) /\
    like_msg (msg_add_property_get m a) (msg_add_property_get m' b)).
  { destruct L. split; [|split]; constructor; cbn; auto; apply Forall2_app; auto. }
  destruct X as (X1 & X2 & X3). split; [apply (IH _ _ X1)|split; [apply (IH _ _ X2)|apply (IH _ _ X3)]].
Qed.
Lemma answer_like o o' m : like o o' -> both_some like_msg (object_message_received o m) (object_message_received o' m).
Proof.
  intro L. unfold object_message_received. pose proof (read_props_like o o' (m_props m) L) as A. pose proof (read_props_like o o' (m_get m) L) as B.
  destruct (msg_esv m); try exact Logic.I.
  - cbn. apply like_msg_refl.
  - destruct (read_props_of o (m_props m)), (read_props_of o' (m_props m)); cbn in A |- *; try tauto; [|apply like_msg_refl].
    apply add_props_like; auto. apply like_msg_refl.
  - destruct (read_props_of o (m_props m)), (read_props_of o' (m_props m)); cbn in A |- *; try tauto; [|apply like_msg_refl].
    apply add_props_like; auto. apply like_msg_refl.
  - destruct (read_props_of o (m_get m)), (read_props_of o' (m_get m)); cbn in B |- *; try tauto; [|apply like_msg_refl].
    apply add_props_like; auto. apply like_msg_refl.
  - cbn. apply like_msg_refl.
Qed.

(* ------------------------------------------------------------------ *)
(** ** The transport *)
Section T.
  Context (O1 O2 : OS) (Same : same_os O1 O2).
  (** A result and a world. *)
  Definition like_res {A} (R : A -> A -> Prop) (x y : A * world) : Prop := R (fst x) (fst y) /\ like_world (snd x) (snd y).

  Lemma log_like w w' e e' : like_world w w' -> like_event e e' -> like_world (log w e) (log w' e').
  Proof. intros [A B C] E. constructor; cbn; auto; [congruence|]. apply Forall2_app; auto. Qed.
  Lemma tick_like w w' : like_world w w' -> like_world (tick w) (tick w').
  Proof. intros [A B C]. constructor; cbn; auto. congruence. Qed.
  Lemma chan_like w w' : like_world w w' -> like_world (World (w_calls w) (w_trace w) (w_chan w + 1)) (World (w_calls w') (w_trace w') (w_chan w' + 1)).
  Proof. intros [A B C]. constructor; cbn; auto. congruence. Qed.

  Lemma send_to_like w w' k m m' to : like_world w w' -> like_msg m m' ->
    like_res eq (socket_send_to (O := O1) w k (msg_bytes m) to) (socket_send_to (O := O2) w' k (msg_bytes m') to).
  Proof.
    intros L M. unfold socket_send_to. destruct (sk_sock k) as [a|]; [|split; auto]. cbn.
    destruct Same as (_ & _ & _ & S). rewrite <- (lw_calls _ _ L), S. split; [reflexivity|]. apply log_like; auto. constructor; auto.
  Qed.
  Lemma ucast_send_like l to m m' : like_msg m m' -> forall w w', like_world w w' ->
    like_res eq (ucast_send (O := O1) w l to m) (ucast_send (O := O2) w' l to m').
  Proof.
    intro M. induction l as [|s r IH]; intros w w' L; cbn [ucast_send]; [split; auto|]. unfold ucast_server_send.
    pose proof (send_to_like w w' (sv_socket s) m m' to L M) as [A B].
    destruct (socket_send_to (O := O1) _ _ _ _) as [b v], (socket_send_to (O := O2) _ _ _ _) as [b' v']. cbn in A, B. subst b'.
    destruct b; [split; auto|auto].
  Qed.
  Lemma mcast_notify_like l m m' : like_msg m m' -> forall w w', like_world w w' ->
    like_res eq (mcast_notify (O := O1) w l m) (mcast_notify (O := O2) w' l m').
  Proof.
    intro M. induction l as [|s r IH]; intros w w' L; cbn [mcast_notify]; [split; auto|]. unfold mcast_server_notify.
    pose proof (send_to_like w w' (sv_socket s) m m' (MULTICAST_V4_ADDRESS, PORT) L M) as [A B].
    destruct (socket_send_to (O := O1) _ _ _ _) as [b v], (socket_send_to (O := O2) _ _ _ _) as [b' v']. cbn in A, B. subst b'.
    destruct b; cbn [negb]; [auto|split; auto].
  Qed.
  Lemma bind_loop_like k a : forall w w', like_world w w' -> like_res eq (bind_loop (O := O1) k w a) (bind_loop (O := O2) k w' a).
  Proof.
    induction k as [|k IH]; intros w w' L; cbn [bind_loop]; [split; auto|].
    destruct Same as (_ & S & _). rewrite <- (lw_calls _ _ L), S.
    assert (X : like_world (log w (EvBind a (os_bind (OS := O2) (w_calls w)))) (log w' (EvBind a (os_bind (OS := O2) (w_calls w))))).
    { apply log_like; auto. constructor. }
    destruct (os_bind (OS := O2) (w_calls w)); [split; auto|apply IH; exact X].
  Qed.
  Lemma socket_bind_like s a w w' : like_world w w' -> like_res eq (socket_bind (O := O1) w s a) (socket_bind (O := O2) w' s a).
  Proof.
    intro L. unfold socket_bind. destruct (bind_loop_like UDP_SOCKET_BIND_RETRY_MAX a w w' L) as [A B].
    destruct (bind_loop (O := O1) _ _ _) as [b v], (bind_loop (O := O2) _ _ _) as [b' v']. cbn in A, B. subst b'.
    destruct b; split; auto.
  Qed.
  Lemma socket_join_like s a w w' : like_world w w' -> like_res eq (socket_join (O := O1) w s a) (socket_join (O := O2) w' s a).
  Proof.
    intro L. unfold socket_join. destruct (sk_sock s); [|split; auto]. destruct Same as (_ & _ & S & _). rewrite <- (lw_calls _ _ L), S.
    split; [reflexivity|]. cbn. apply log_like; auto. constructor.
  Qed.
  Lemma ucast_bind_like s a w w' : like_world w w' -> like_res eq (ucast_server_bind (O := O1) w s a) (ucast_server_bind (O := O2) w' s a).
  Proof.
    intro L. unfold ucast_server_bind. destruct a as [x|x]; [|split; auto].
    destruct (socket_bind_like (sv_socket s) (V4 x, PORT) w w' L) as [A B].
    destruct (socket_bind (O := O1) _ _ _) as [[b k] v], (socket_bind (O := O2) _ _ _) as [[b' k'] v']. cbn in A, B.
    inversion A; subst. split; auto.
  Qed.
  Lemma mcast_bind_like s a w w' : like_world w w' -> like_res eq (mcast_server_bind (O := O1) w s a) (mcast_server_bind (O := O2) w' s a).
  Proof.
    intro L. unfold mcast_server_bind. destruct (socket_bind_like (sv_socket s) (V4 0, PORT) w w' L) as [A B].
    destruct (socket_bind (O := O1) _ _ _) as [[b k] v], (socket_bind (O := O2) _ _ _) as [[b' k'] v']. cbn in A, B.
    inversion A; subst. destruct b'; cbn [negb]; [|split; auto].
    destruct (socket_join_like k' a v v' B) as [A' B'].
    destruct (socket_join (O := O1) _ _ _) as [[b1 k1] v1], (socket_join (O := O2) _ _ _) as [[b2 k2] v2]. cbn in A', B'.
    inversion A'; subst. split; auto.
  Qed.
  Definition binds_alike (f g : world -> server -> ipaddr -> bool * server * world) : Prop :=
    forall s a w w', like_world w w' -> like_res eq (f w s a) (g w' s a).
  Lemma servers_start_like f g ifs : binds_alike f g -> forall l w w', like_world w w' ->
    like_res eq (servers_start (O := O1) f w ifs l) (servers_start (O := O2) g w' ifs l).
  Proof.
    intro H. induction ifs as [|i r IH]; intros l w w' L; cbn [servers_start]; [split; auto|].
    destruct (H server_new i w w' L) as [A B]. destruct (f w server_new i) as [[b s] v], (g w' server_new i) as [[b' s'] v']. cbn in A, B.
    inversion A; subst. destruct b'; cbn [negb server_start]; auto.
  Qed.
  Lemma interfaces_like w w' : like_world w w' -> like_res eq (get_all_interfaces (O := O1) w) (get_all_interfaces (O := O2) w').
  Proof.
    intro L. unfold get_all_interfaces. destruct Same as (S & _). rewrite <- (lw_calls _ _ L), S. split; [reflexivity|]. apply tick_like; auto.
  Qed.
  Lemma ucast_start_like l w w' : like_world w w' -> like_res eq (ucast_start (O := O1) w l) (ucast_start (O := O2) w' l).
  Proof.
    intro L. unfold ucast_start. destruct (servers_running l); [split; auto|]. destruct (interfaces_like w w' L) as [A B].
    destruct (get_all_interfaces (O := O1) w) as [i v], (get_all_interfaces (O := O2) w') as [i' v']. cbn in A, B. subst i'.
    destruct (servers_start_like _ _ i ucast_bind_like l v v' B) as [A' B'].
    destruct (servers_start (O := O1) _ _ _ _) as [x y], (servers_start (O := O2) _ _ _ _) as [x' y']. cbn in A', B'. subst x'. split; auto.
  Qed.
  Lemma mcast_start_like l w w' : like_world w w' -> like_res eq (mcast_start (O := O1) w l) (mcast_start (O := O2) w' l).
  Proof.
    intro L. unfold mcast_start. destruct (servers_running l); [split; auto|]. destruct (interfaces_like w w' L) as [A B].
    destruct (get_all_interfaces (O := O1) w) as [i v], (get_all_interfaces (O := O2) w') as [i' v']. cbn in A, B. subst i'.
    destruct (servers_start_like _ _ i mcast_bind_like l v v' B) as [A' B'].
    destruct (servers_start (O := O1) _ _ _ _) as [x y], (servers_start (O := O2) _ _ _ _) as [x' y']. cbn in A', B'. subst x'. split; auto.
  Qed.
  Lemma manager_start_like m w w' : like_world w w' -> both (like_res eq) (manager_start (O := O1) w m) (manager_start (O := O2) w' m).
  Proof.
    intro L. unfold manager_start. destruct (manager_running m); [split; auto|]. destruct (mcast_start_like (mg_mcast m) w w' L) as [A B].
    destruct (mcast_start (O := O1) _ _) as [[b c] v], (mcast_start (O := O2) _ _) as [[b' c'] v']. cbn in A, B. inversion A; subst.
    destruct b'; cbn [negb].
    - destruct (ucast_start_like (mg_ucast m) v v' B) as [A' B'].
      destruct (ucast_start (O := O1) _ _) as [[b1 u] v1], (ucast_start (O := O2) _ _) as [[b2 u'] v2]. cbn in A', B'. inversion A'; subst.
      destruct b2; cbn [negb]; [split; auto|]. destruct (manager_stop _) as [x|]; cbn; [split; auto|auto].
    - destruct (manager_stop _) as [x|]; cbn; [split; auto|auto].
  Qed.
End T.

(* ------------------------------------------------------------------ *)
(** ** The node *)
Section N.
  Context {U : Type} {P : Profile} (H1 H2 : HashOrder) (O1 O2 : OS) (Same : same_os O1 O2).
  Implicit Types (n : node U).

  Lemma hnode_blind : order_blind (U := U) HNode.
  Proof.
    intros u o o' e p L. cbn. split; auto. split; auto. unfold node_handler. rewrite (like_code o o' L). destruct (negb _); auto.
    pose proof (like_find o o' (pp_code p) L) as X. destruct (object_find_property o (pp_code p)), (object_find_property o' (pp_code p)); cbn in X; try tauto; reflexivity.
  Qed.
  Definition like_verdict (x y : U * object * bool) : Prop := fst (fst x) = fst (fst y) /\ like (snd (fst x)) (snd (fst y)) /\ snd x = snd y.
  Lemma ask_like h e ps : order_blind h -> forall u o o' all, like o o' -> both like_verdict (ask_handler h u o e ps all) (ask_handler h u o' e ps all).
  Proof.
    intro B. induction ps as [|p r IH]; intros u o o' all L; cbn [ask_handler]; [split; auto|].
    eapply both_bind; [apply (B u o o' e p L)|]. intros [[u1 o1] b1] [[u2 o2] b2] (X & Y & Z). cbn in X, Y, Z. subst. apply IH. auto.
  Qed.
  Lemma ask_all_like hs e ps : Forall order_blind hs -> forall u o o' acc, like o o' ->
    both like_verdict (ask_handlers hs u o e ps acc) (ask_handlers hs u o' e ps acc).
  Proof.
    induction 1 as [|h r B F IH]; intros u o o' acc L; cbn [ask_handlers]; [split; auto|].
    eapply both_bind; [apply (ask_like h e ps B u o o' true L)|]. intros [[u1 o1] b1] [[u2 o2] b2] (X & Y & Z). cbn in X, Y, Z. subst. apply IH. auto.
  Qed.
  Lemma request_like hs u o o' m : Forall order_blind hs -> like o o' -> both like_verdict (request_received hs u o m) (request_received hs u o' m).
  Proof. intros F L. unfold request_received. destruct (Nat.eqb _ _); [split; auto|]. apply ask_all_like; auto. Qed.

  Lemma find_object_like l l' c : Forall2 like l l' -> both_some like (find_object l c) (find_object l' c).
  Proof.
    induction 1 as [|o o' l l' L F IH]; cbn [find_object]; [exact Logic.I|]. rewrite <- (like_code o o' L). destruct (_ =? _); auto.
  Qed.
  Lemma put_object_like l l' c o o' : Forall2 like l l' -> like o o' -> Forall2 like (put_object l c o) (put_object l' c o').
  Proof.
    induction 1 as [|x x' l l' L F IH]; intro Lo; cbn [put_object]; [constructor|]. rewrite <- (like_code x x' L). destruct (_ =? _); constructor; auto.
  Qed.
  Lemma codes_like l l' : Forall2 like l l' -> map object_code l = map object_code l'.
  Proof. induction 1 as [|x x' l l' L F IH]; cbn; auto. rewrite (like_code x x' L), IH. reflexivity. Qed.
  Lemma with_objects_like n n' l l' : like_node n n' -> Forall2 like l l' -> like_node (n_with_objects n l) (n_with_objects n' l').
  Proof. intros [A B C D E F] G. constructor; cbn; auto. Qed.
  Lemma with_mgr_like n n' m : like_node n n' -> like_node (n_with_mgr n m) (n_with_mgr n' m).
  Proof. intros [A B C D E F]. constructor; cbn; auto. Qed.
  Lemma with_tid_like n n' t : like_node n n' -> like_node (n_with_tid n t) (n_with_tid n' t).
  Proof. intros [A B C D E F]. constructor; cbn; auto. Qed.
  Lemma with_post_like n n' t : like_node n n' -> like_node (n_with_post n t) (n_with_post n' t).
  Proof. intros [A B C D E F]. constructor; cbn; auto. Qed.

  Lemma add_object_like n n' o o' : like_node n n' -> like o o' -> both like_node (node_add_object n o) (node_add_object n' o').
  Proof.
    intros L Lo. unfold node_add_object, update_node_profile. cbn [n_objects n_with_objects].
    assert (F : Forall2 like (n_objects n ++ [o]) (n_objects n' ++ [o'])) by (apply Forall2_app; [apply L|auto]).
    pose proof (find_object_like _ _ NODE_PROFILE_OBJECT_CODE F) as X.
    destruct (find_object (n_objects n ++ [o]) NODE_PROFILE_OBJECT_CODE) as [x|], (find_object (n_objects n' ++ [o']) NODE_PROFILE_OBJECT_CODE) as [x'|]; cbn in X; try tauto.
    - rewrite !np_update_eq by apply codes_snoc. cbn [obind both]. rewrite <- (codes_like _ _ F). apply with_objects_like; auto.
      + apply with_objects_like; auto.
      + apply put_object_like; auto. apply sets_same_like; auto. apply profile_data_octets.
    - apply with_objects_like; auto.
  Qed.
  Lemma add_handler_like n n' h : like_node n n' -> order_blind h -> like_node (node_add_handler n h) (node_add_handler n' h).
  Proof.
    intros [A B C D [E1 E2] F] G. constructor; cbn; auto. rewrite E1. split; auto. rewrite <- E1. apply Forall_app; auto.
  Qed.
  Lemma set_byte_like n n' c v : v < 256 -> like_node n n' -> like_node (set_object_properties_byte n c v) (set_object_properties_byte n' c v).
  Proof.
    intros Hv L. unfold set_object_properties_byte. apply with_objects_like; auto. pose proof (ln_objects _ _ L) as F.
    clear L. induction F as [|x x' l l' Lx F IH]; cbn [map]; constructor; auto.
    apply set_data_like; auto. repeat constructor. exact Hv.
  Qed.
  Lemma set_data_op_like n n' oc c d : octets d -> like_node n n' -> like_node (set_data n oc c d) (set_data n' oc c d).
  Proof.
    intros Hd L. unfold set_data. pose proof (find_object_like _ _ oc (ln_objects _ _ L)) as X.
    destruct (find_object (n_objects n) oc) as [o|], (find_object (n_objects n') oc) as [o'|]; cbn in X; try tauto.
    apply with_objects_like; auto. apply put_object_like; [apply L|]. apply set_data_like; auto.
  Qed.
  Lemma set_tid_like m m' t : like_msg m m' -> like_msg (msg_set_tid m t) (msg_set_tid m' t).
  Proof. intros [A B C D E F G H]. constructor; cbn; auto. Qed.
  Lemma update_tid_like n n' m m' : like_node n n' -> like_msg m m' ->
    like_node (fst (update_tid n m)) (fst (update_tid n' m')) /\ like_msg (snd (update_tid n m)) (snd (update_tid n' m')).
  Proof.
    intros L M. unfold update_tid. assert (E : msg_has_tid m = msg_has_tid m').
    { unfold msg_has_tid, msg_tid. rewrite (lm_tid _ _ M). reflexivity. }
    rewrite <- E. destruct (msg_has_tid m); [auto|]. unfold next_tid. rewrite (ln_tid _ _ L). cbn [fst snd].
    split; [apply with_tid_like; auto|apply set_tid_like; auto].
  Qed.
  Lemma node_send_like n n' w w' to m m' : like_node n n' -> like_world w w' -> like_msg m m' ->
    let x := node_send (O := O1) w n to m in let y := node_send (O := O2) w' n' to m' in
    fst (fst (fst x)) = fst (fst (fst y)) /\ like_msg (snd (fst (fst x))) (snd (fst (fst y))) /\ like_node (snd (fst x)) (snd (fst y)) /\ like_world (snd x) (snd y).
  Proof.
    intros L W M. unfold node_send. destruct (update_tid_like n n' m m' L M) as [A B].
    destruct (update_tid n m) as [n1 m1], (update_tid n' m') as [n2 m2]. cbn [fst snd] in A, B. unfold manager_send. rewrite <- (ln_mgr _ _ A).
    destruct (ucast_send_like O1 O2 Same (mg_ucast (n_mgr n1)) to m1 m2 B w w' W) as [C D].
    destruct (ucast_send (O := O1) _ _ _ _), (ucast_send (O := O2) _ _ _ _). cbn in *. auto.
  Qed.
  Lemma node_notify_like n n' w w' m m' : like_node n n' -> like_world w w' -> like_msg m m' ->
    let x := node_notify (O := O1) w n m in let y := node_notify (O := O2) w' n' m' in
    fst (fst (fst x)) = fst (fst (fst y)) /\ like_msg (snd (fst (fst x))) (snd (fst (fst y))) /\ like_node (snd (fst x)) (snd (fst y)) /\ like_world (snd x) (snd y).
  Proof.
    intros L W M. unfold node_notify. destruct (update_tid_like n n' m m' L M) as [A B].
    destruct (update_tid n m) as [n1 m1], (update_tid n' m') as [n2 m2]. cbn [fst snd] in A, B. unfold manager_notify. rewrite <- (ln_mgr _ _ A).
    destruct (mcast_notify_like O1 O2 Same (mg_mcast (n_mgr n1)) m1 m2 B w w' W) as [C D].
    destruct (mcast_notify (O := O1) _ _ _), (mcast_notify (O := O2) _ _ _). cbn in *. auto.
  Qed.
  Lemma node_post_like n n' w w' to m m' : like_node n n' -> like_world w w' -> like_msg m m' ->
    let x := node_post (O := O1) w n to m in let y := node_post (O := O2) w' n' to m' in
    fst (fst (fst x)) = fst (fst (fst y)) /\ like_msg (snd (fst (fst x))) (snd (fst (fst y))) /\ like_node (snd (fst x)) (snd (fst y)) /\ like_world (snd x) (snd y).
  Proof.
    intros L W M. unfold node_post. destruct (update_tid_like n n' m m' L M) as [A B].
    destruct (update_tid n m) as [n1 m1], (update_tid n' m') as [n2 m2]. cbn [fst snd] in A, B. unfold manager_send. cbn [n_mgr n_with_post].
    rewrite <- (ln_mgr _ _ A).
    destruct (ucast_send_like O1 O2 Same (mg_ucast (n_mgr n1)) to m1 m2 B _ _ (chan_like w w' W)) as [C D].
    destruct (ucast_send (O := O1) _ _ _ _), (ucast_send (O := O2) _ _ _ _). cbn [fst snd] in *. split; [apply W|]. split; auto. split; auto.
    rewrite (lw_chan _ _ W). apply with_post_like; auto.
  Qed.
  Lemma announce_message_like o o' p p' : like o o' -> like_prop p p' -> like_msg (announce_message o p) (announce_message o' p').
  Proof.
    intros L [(A & _) B]. unfold announce_message. rewrite <- (like_code o o' L). constructor; try reflexivity; try constructor.
    - split; [exact A|exact B].
    - constructor.
  Qed.
  Lemma announce_property_like n n' w w' o o' p p' : like_node n n' -> like_world w w' -> like o o' -> like_prop p p' ->
    let x := node_announce_property (O := O1) w n o p in let y := node_announce_property (O := O2) w' n' o' p' in
    fst (fst x) = fst (fst y) /\ like_node (snd (fst x)) (snd (fst y)) /\ like_world (snd x) (snd y).
  Proof.
    intros L W Lo Lp. unfold node_announce_property.
    destruct (node_notify_like n n' w w' _ _ L W (announce_message_like o o' p p' Lo Lp)) as (A & _ & B & C).
    destruct (node_notify (O := O1) _ _ _) as [[[? ?] ?] ?], (node_notify (O := O2) _ _ _) as [[[? ?] ?] ?]. auto.
  Qed.
  Lemma announce_like n n' w w' : like_node n n' -> like_world w w' ->
    let x := node_announce (O := O1) w n in let y := node_announce (O := O2) w' n' in
    fst (fst x) = fst (fst y) /\ like_node (snd (fst x)) (snd (fst y)) /\ like_world (snd x) (snd y).
  Proof.
    intros L W. unfold node_announce. pose proof (find_object_like _ _ NODE_PROFILE_OBJECT_CODE (ln_objects _ _ L)) as X.
    destruct (find_object (n_objects n) NODE_PROFILE_OBJECT_CODE) as [o|], (find_object (n_objects n') NODE_PROFILE_OBJECT_CODE) as [o'|]; cbn in X; try tauto; auto.
    pose proof (like_find o o' NP_INSTANCE_LIST_NOTIFICATION X) as Y.
    destruct (object_find_property o NP_INSTANCE_LIST_NOTIFICATION) as [p|], (object_find_property o' NP_INSTANCE_LIST_NOTIFICATION) as [p'|]; cbn in Y; try tauto; auto.
    apply (announce_property_like n n' w w' o o' p p'); auto.
  Qed.
  Definition like_bnw (x y : bool * node U * world) : Prop := fst (fst x) = fst (fst y) /\ like_node (snd (fst x)) (snd (fst y)) /\ like_world (snd x) (snd y).
  Lemma start_like n n' w w' : like_node n n' -> like_world w w' -> both like_bnw (node_start (O := O1) w n) (node_start (O := O2) w' n').
  Proof.
    intros L W. unfold node_start. rewrite <- (ln_mgr _ _ L). eapply both_bind with (R := like_res eq).
    { destruct (negb _); [apply manager_start_like; auto|split; auto]. }
    intros [[b m] v] [[b' m'] v'] [A B]. cbn [fst snd] in A, B. inversion A; subst. destruct b'; cbn [negb].
    2:{ split; [reflexivity|]. split; auto. apply with_mgr_like; auto. }
    set (n1 := set_object_properties_byte _ 0x88 0x42). set (n2 := set_object_properties_byte _ 0x88 0x42).
    assert (L1 : like_node n1 n2).
    { unfold n1, n2. repeat (apply set_byte_like; [lia|]). apply with_mgr_like; auto. }
    clearbody n1 n2. rewrite <- (ln_mgr _ _ L1), <- (ln_observers _ _ L1).
    destruct (manager_add_observers (n_mgr n1) (n_observers n1)) as [m|]; cbn [obind]; [|exact Logic.I].
    destruct (announce_like _ _ v v' (with_mgr_like n1 n2 m L1) B) as (C & D & E).
    destruct (node_announce (O := O1) v _) as [[? ?] ?], (node_announce (O := O2) v' _) as [[? ?] ?]. cbn [fst snd] in *. subst.
    destruct (negb _); (split; [reflexivity|split; auto]).
  Qed.
  Lemma stop_like n n' : like_node n n' -> both (fun x y => fst x = fst y /\ like_node (snd x) (snd y)) (node_stop n) (node_stop n').
  Proof.
    intros L. unfold node_stop. assert (L1 : like_node (set_object_properties_byte n 0x80 0x31) (set_object_properties_byte n' 0x80 0x31)) by (apply set_byte_like; auto; lia).
    rewrite <- (ln_mgr _ _ L1). destruct (manager_stop _) as [x|]; cbn; [|auto]. split; auto. apply with_mgr_like; auto.
  Qed.

  Lemma writes_like o o' m : msg_wf m -> like o o' -> like (apply_writes o m) (apply_writes o' m).
  Proof.
    intros W L. assert (X : forall l, Forall u8prop l -> Forall (fun q => octets (pp_data q)) l).
    { intros l F. eapply Forall_impl; [|exact F]. intros q [_ H]. exact H. }
    unfold apply_writes. destruct (msg_esv m); auto; rewrite !write_props_sets; apply sets_same_like; auto; apply X, W.
  Qed.
  Definition like_answer (x y : U * node U * option message) : Prop :=
    fst (fst x) = fst (fst y) /\ like_node (snd (fst x)) (snd (fst y)) /\ both_some like_msg (snd x) (snd y).
  Lemma received_like s s' u n n' m : msg_wf m -> like_node n n' ->
    both like_answer (node_message_received (HO := H1) s u n m) (node_message_received (HO := H2) s' u n' m).
  Proof.
    intros Wm L. assert (Same0 : forall k r, k = n -> r = n' -> like_answer (u, k, None) (u, r, None) /\
      like_answer (u, k, Some (response_error_message m)) (u, r, Some (response_error_message m))).
    { intros k r -> ->. split; (split; [reflexivity|split; [exact L|]]); [exact Logic.I|apply like_msg_refl]. }
    destruct (Same0 n n' eq_refl eq_refl) as [None_ Err_]. clear Same0.
    unfold node_message_received. destruct (esv_is_response _); [exact None_|].
    pose proof (find_object_like _ _ (msg_deoj m) (ln_objects _ _ L)) as X.
    destruct (find_object (n_objects n) (msg_deoj m)) as [o|], (find_object (n_objects n') (msg_deoj m)) as [o'|]; cbn in X; try tauto.
    destruct (negb (esv_is_request _)); [exact None_|]. rewrite <- (request_valid_like o o' m X).
    destruct (negb (request_valid o m)); [exact Err_|].
    eapply both_bind; [apply (clone_like H1 H2 s s' o o' X)|]. intros c c' Lc. rewrite <- (proj1 (ln_handlers _ _ L)).
    eapply both_bind; [apply (request_like (n_handlers n) u c c' m (proj2 (ln_handlers _ _ L)) Lc)|].
    intros [[u1 c1] b1] [[u2 c2] b2] (A & B & C). cbn [fst snd] in A, B, C. subst. destruct b2; cbn [negb].
    - pose proof (writes_like _ _ m Wm (copy_back_like o o' c1 c2 X B)) as Lo. split; [reflexivity|]. split.
      + apply with_objects_like; auto. apply put_object_like; auto. apply L.
      + apply answer_like. exact Lo.
    - split; [reflexivity|]. split; [exact L|]. apply like_msg_refl.
  Qed.
  Definition like_nw (x y : node U * world) : Prop := like_node (fst x) (fst y) /\ like_world (snd x) (snd y).
  Lemma deliver_like n n' w w' m : like_node n n' -> like_world w w' -> both like_nw (deliver w n m) (deliver w' n' m).
  Proof.
    intros L W. unfold deliver. assert (E : is_last_message_response n m = is_last_message_response n' m).
    { unfold is_last_message_response. rewrite (ln_tid _ _ L). reflexivity. }
    rewrite <- E. destruct (is_last_message_response n m); [|split; auto]. destruct (msg_clone m) as [m'|]; cbn [obind both]; [|exact Logic.I].
    unfold send_post_response. rewrite <- (ln_post _ _ L). split; [apply with_post_like; auto|]. cbn [snd]. destruct (n_post n); auto. apply log_like; auto. constructor.
  Qed.
  Lemma respond_like n n' w w' m r r' : like_node n n' -> like_world w w' -> both_some like_msg r r' ->
    like_nw (respond (O := O1) w n m r) (respond (O := O2) w' n' m r').
  Proof.
    intros L W R. unfold respond. destruct r as [r|], r' as [r'|]; cbn in R; try tauto; [|split; auto].
    assert (E : msg_esv r = msg_esv r') by (unfold msg_esv; rewrite (lm_esv _ _ R); reflexivity). rewrite <- E.
    destruct (esv_is_response (msg_esv r)); [|split; auto]. destruct (esv_is_unicast_response (msg_esv r)).
    - destruct (node_send_like n n' w w' (fst (msg_from m), PORT) r r' L W R) as (_ & _ & A & B).
      destruct (node_send (O := O1) _ _ _ _) as [[[? ?] ?] ?], (node_send (O := O2) _ _ _ _) as [[[? ?] ?] ?]. split; auto.
    - destruct (node_notify_like n n' w w' r r' L W R) as (_ & _ & A & B).
      destruct (node_notify (O := O1) _ _ _) as [[[? ?] ?] ?], (node_notify (O := O2) _ _ _) as [[[? ?] ?] ?]. split; auto.
  Qed.
  Lemma observe_like u n n' w w' m : msg_wf m -> like_node n n' -> like_world w w' ->
    both like_state (node_observe (HO := H1) (O := O1) w u n m) (node_observe (HO := H2) (O := O2) w' u n' m).
  Proof.
    intros Wm L W. rewrite !observe_eq. eapply both_bind; [apply (deliver_like n n' w w' m L W)|].
    intros [n1 w1] [n2 w2] [A B]. cbn [fst snd] in A, B. eapply both_bind; [apply (received_like _ _ u n1 n2 m Wm A)|].
    intros [[u3 n3] r3] [[u4 n4] r4] (C & D & E). cbn [fst snd] in C, D, E. subst.
    destruct (respond_like n3 n4 _ _ m r3 r4 D (tick_like _ _ B) E) as [F G].
    destruct (respond (O := O1) _ _ _ _), (respond (O := O2) _ _ _ _). split; auto.
  Qed.

  Lemma step_like (s s' : U * node U * world) op op' : like_state s s' -> like_op op op' ->
    both like_state (node_step (HO := H1) (O := O1) s op) (node_step (HO := H2) (O := O2) s' op').
  Proof.
    destruct s as [[u n] w], s' as [[u' n'] w']. intros (Eu & L & W) H. cbn [fst snd] in Eu, L, W. subst u'.
    destruct H as [o o' Lo|h B|oc c d Od|o o' p p' Lo Lp|m Rm|op Hop]; unfold node_step.
    - eapply both_bind; [apply (add_object_like n n' o o' L Lo)|]. intros a b Lab. split; auto.
    - split; [reflexivity|]. split; [apply add_handler_like; auto|auto].
    - split; [reflexivity|]. split; [apply set_data_op_like; auto|auto].
    - destruct (announce_property_like n n' w w' o o' p p' L W Lo Lp) as (_ & A & B).
      destruct (node_announce_property (O := O1) _ _ _ _) as [[? ?] ?], (node_announce_property (O := O2) _ _ _ _) as [[? ?] ?]. split; auto.
    - apply received_rcvd in Rm. eapply both_bind; [apply (observe_like u n n' w w' m (rc_wf m Rm) L W)|].
      intros [[? ?] ?] [[? ?] ?] X. exact X.
    - destruct op; try contradiction Hop.
      + split; [reflexivity|]. split; [|auto]. destruct L as [A B C D E F]. constructor; cbn; auto. congruence.
      + destruct (node_send_like n n' w w' to m m L W (like_msg_refl m)) as (_ & _ & A & B).
        destruct (node_send (O := O1) _ _ _ _) as [[[? ?] ?] ?], (node_send (O := O2) _ _ _ _) as [[[? ?] ?] ?]. split; auto.
      + destruct (node_post_like n n' w w' to m m L W (like_msg_refl m)) as (_ & _ & A & B).
        destruct (node_post (O := O1) _ _ _ _) as [[[? ?] ?] ?], (node_post (O := O2) _ _ _ _) as [[[? ?] ?] ?]. split; auto.
      + destruct (node_notify_like n n' w w' m m L W (like_msg_refl m)) as (_ & _ & A & B).
        destruct (node_notify (O := O1) _ _ _) as [[[? ?] ?] ?], (node_notify (O := O2) _ _ _) as [[[? ?] ?] ?]. split; auto.
      + destruct (announce_like n n' w w' L W) as (_ & A & B).
        destruct (node_announce (O := O1) _ _) as [[? ?] ?], (node_announce (O := O2) _ _) as [[? ?] ?]. split; auto.
      + eapply both_bind; [apply (start_like n n' w w' L W)|]. intros [[? ?] ?] [[? ?] ?] (_ & A & B). split; auto.
      + eapply both_bind; [apply (stop_like n n' L)|]. intros [? ?] [? ?] (_ & A). split; auto.
  Qed.
  Lemma run_like (ops ops' : list (node_op U)) : Forall2 like_op ops ops' -> forall s s', like_state s s' ->
    both like_state (node_run (HO := H1) (O := O1) s ops) (node_run (HO := H2) (O := O2) s' ops').
  Proof.
    induction 1 as [|op op' l l' H F IH]; intros s s' L; cbn [node_run]; [exact L|].
    eapply both_bind; [apply (step_like s s' op op' L H)|]. exact IH.
  Qed.
  Lemma node_new_like np np' : like np np' -> both like_node (node_new (U := U) np) (node_new (U := U) np').
  Proof.
    intro L. unfold node_new. eapply both_bind with (R := like_node).
    - apply add_object_like; auto. constructor; cbn; auto.
    - intros n n' X. apply add_handler_like; auto. apply hnode_blind.
  Qed.
End N.

(* ------------------------------------------------------------------ *)
(** ** The standard objects *)
Section D.
  Context {P : Profile} (H1 H2 : HashOrder).
  Lemma std_class_name (H : HashOrder) db u1 u2 o code o' : Forall2 std_entry db_table db ->
    length u1 = 16%nat -> octets u1 -> length u2 = 16%nat -> octets u2 -> obj_ok o -> o_props o = [] ->
    with_standard_properties (HO := H) db u1 u2 o code = Ret o' ->
    o_class_name o' = match find_class db_table code with
                      | Some c => c_name c
                      | None => match find_class db_table SUPER_OBJECT_CODE with Some c => c_name c | None => o_class_name o end
                      end.
  Proof.
    intros Fx L1 O1 L2 O2 W Ep. unfold with_standard_properties.
    assert (S : std_keys o) by (intros c p; unfold object_find_property; rewrite Ep; discriminate).
    destruct (add_standard_spec db_table db u1 o SUPER_OBJECT_CODE table_ok Fx L1 O1 W S) as (o1 & E1 & W1 & S1 & _ & _ & N1 & _).
    rewrite E1. cbn [obind fst].
    destruct (add_standard_spec db_table db u2 o1 code table_ok Fx L2 O2 W1 S1) as (o2 & E2 & _ & _ & _ & _ & N2 & _).
    rewrite E2. cbn [obind fst]. intro X. apply (f_equal (fun y => match y with Ret z => o_class_name z | Panic => EmptyString end)) in X. cbn beta iota in X.
    rewrite <- X, N2. destruct (find_class db_table code); auto.
  Qed.
  Lemma device_object_like seed seed' db db' s s' u1 u2 code : length u1 = 16%nat -> octets u1 -> length u2 = 16%nat -> octets u2 ->
    standard_database (HO := H1) seed = Ret db -> standard_database (HO := H2) seed' = Ret db' ->
    both like (device_object (HO := H1) db u1 u2 s code) (device_object (HO := H2) db' u1 u2 s' code).
  Proof.
    intros L1 O1 L2 O2 E E'. unfold standard_database in E, E'.
    destruct (standard_objects_spec (HO := H1) seed db_table table_ok 0) as (x & X & Fx). rewrite E in X. assert (x = db) by congruence. subst x.
    destruct (standard_objects_spec (HO := H2) seed' db_table table_ok 0) as (x & X' & Fx'). rewrite E' in X'. assert (x = db') by congruence. subst x.
    clear E E' X X'. unfold device_object.
    assert (W : forall k, obj_ok (object_set_code (object_new k) code)).
    { intro k. eapply obj_ok_props; [|apply (obj_ok_new k)]. reflexivity. }
    destruct (with_standard_spec (HO := H1) db_table db u1 u2 (object_set_code (object_new s) code) code table_ok Fx L1 O1 L2 O2 (W s) eq_refl)
      as (o & E & A1 & A2 & A3 & A4 & A5 & A6).
    destruct (with_standard_spec (HO := H2) db_table db' u1 u2 (object_set_code (object_new s') code) code table_ok Fx' L1 O1 L2 O2 (W s') eq_refl)
      as (o' & E' & B1 & B2 & B3 & B4 & B5 & B6).
    pose proof (std_class_name H1 db u1 u2 _ code o Fx L1 O1 L2 O2 (W s) eq_refl E) as N.
    pose proof (std_class_name H2 db' u1 u2 _ code o' Fx' L1 O1 L2 O2 (W s') eq_refl E') as N'.
    rewrite E, E'. cbn [both]. apply fresh_like; auto.
    - rewrite A3, B3. reflexivity.
    - split; [rewrite A4, B4; reflexivity|]. rewrite N, N'. reflexivity.
    - intros c M. rewrite A5, B5 by auto. reflexivity.
    - intro c. rewrite A6, B6. reflexivity.
  Qed.
End D.
