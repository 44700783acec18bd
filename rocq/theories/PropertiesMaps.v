(** C91: what a node answers about its property maps agrees with what it lets
    a controller do. *)
From Verif Require Import Base HMap ModelCodec ModelMessages ModelObject ModelTransport ModelNode
  SpecWire SpecObject SpecNode ProofsCodec ProofsCodec2 PropertiesCodec ProofsObject ProofsObject2 ProofsObject3
  PropertiesObject ProofsNode ProofsNode2 ProofsNode3 ProofsNode4 ExamplesNode PropertiesNode.
From Coq Require Import Permutation.

(** A handler of the user that accepts everything and leaves the object alone,
    and one that at least does not panic and leaves the object alone. *)
Definition accepting {U} (h : handler U) : Prop :=
  match h with HNode => False | HUser f => forall u o e p, exists u', f u o e p = Ret (u', o, true) end.
Definition steady {U} (h : handler U) : Prop :=
  match h with HNode => True | HUser f => forall u o e p, exists u' b, f u o e p = Ret (u', o, b) end.
(** All registered handlers are steady, and one is accepting. *)
Definition willing {U} (hs : list (handler U)) : Prop := Forall steady hs /\ Exists accepting hs.

(** All codes of the object are codes of the specification. *)
Definition std_codes (o : object) : Prop := forall c, object_has_property o c = true -> 0x80 <= c.

Section S.
  Context {U : Type} {P : Profile} {HO : HashOrder} {Os : OS}.

  Lemma map_truth o mc data l : obj_ok o -> std_codes o -> map_code mc -> object_property_data o mc = Some data ->
    enumerates l (map_kind o mc) ->
    nth 0 data 0 = N.of_nat (length l) /\
    (forall c, property_map_has data c <-> map_kind o mc c /\ ((length l < 16)%nat \/ c < 0xC0)).
  Proof.
    intros B S M D En. destruct (map_data o mc data l B M D En) as (l' & Pm & E).
    pose proof (Permutation_length Pm) as Le.
    assert (Rg : forall c, In c l -> 0x80 <= c /\ c < 256).
    { intros c I. apply En in I. destruct B as [W _ _].
      assert (X : exists p, object_find_property o c = Some p) by (destruct I as [[_ (p & F & _)]|[[_ (p & F & _)]|[_ (p & F & _)]]]; eauto).
      destruct X as (p & F). split; [apply S; unfold object_has_property; rewrite F; auto|apply (find_code o c p W F)]. }
    destruct (Nat.ltb_spec (length l) 16) as [Hl|Hl].
    - unfold to_property_map_bytes in E. destruct (Nat.leb_spec (length l') 15); [|lia]. inversion E; subst; clear E.
      assert (Eq : len_u8 l' = N.of_nat (length l)) by (unfold len_u8, as_u8; rewrite Le; lia). rewrite Eq.
      split; [reflexivity|]. intro c. unfold property_map_has. replace (N.of_nat (length l) <? 16) with true by lia.
      rewrite Nnat.Nat2N.id, <- Le, firstn_all. destruct En as [_ En]. rewrite <- En.
      split; [intro I; split; [exact (Permutation_in c Pm I)|left; lia]|intros [I _]; exact (Permutation_in c (Permutation_sym Pm) I)].
    - destruct (to_map_long l') as (mb & E' & L & N0 & Bt).
      { apply Forall_forall. intros c I. eapply Permutation_in in I; [|exact Pm]. apply Rg; auto. }
      { lia. }
      assert (Ln' : (length l <= 128)%nat) by (apply std_length; [apply En|auto]).
      rewrite E in E'. inversion E'; subst mb. clear E'. rewrite Le, N.mod_small in N0 by lia.
      split; auto. intro c. destruct En as [_ En]. rewrite <- En. split.
      + intro Hm. destruct (map_has_bitmap_std data c L) as [H1 H2]; [lia|auto|].
        apply map_has_bitmap in Hm; auto; [|lia]. apply Bt in Hm as [I Hc]; auto. split; auto.
        eapply Permutation_in; eauto.
      + intros [I Hc]. assert (Hc' : c < 0xC0) by lia. destruct (Rg c I). apply map_has_bitmap; auto; [lia|]. apply Bt; auto. split; auto.
        eapply Permutation_in; [apply Permutation_sym; exact Pm|auto].
  Qed.

  Lemma kind_shape a b mc c : same_shape a b -> map_kind a mc c -> map_kind b mc c.
  Proof.
    intros (_ & _ & _ & F & A) H.
    assert (X : forall p, object_find_property a c = Some p -> exists q, object_find_property b c = Some q /\ same_attributes p q).
    { intros p E. destruct (object_find_property b c) as [q|] eqn:Eb; [exists q; split; auto; eapply A; eauto|].
      apply F in Eb. congruence. }
    unfold map_kind, can_read, can_write, can_announce in *.
    destruct H as [[-> (p & E & Al)]|[[-> (p & E & Al)]|[-> (p & E & Al)]]]; destruct (X p E) as (q & Eq & Sa);
      unfold same_attributes in Sa; [left|right; left|right; right]; (split; [reflexivity|]); exists q; (split; [exact Eq|]); unfold allows in *; intuition congruence.
  Qed.
  Lemma std_shape a b : same_shape a b -> std_codes a -> std_codes b.
  Proof.
    intros (_ & _ & _ & F & _) S c H. apply S. unfold object_has_property in *.
    destruct (object_find_property a c) eqn:E; auto. apply F in E. rewrite E in H. exact H.
  Qed.

  (** The answer to a read of a property map. *)
  Theorem C91_answer_partial : forall w (u : U) n m o, reachable u n w -> received m -> In (m_esv m) [0x62; 0x63] ->
    Forall hands_off (n_handlers n) -> addressed (n_objects n) (msg_deoj m) o -> std_codes o ->
    forall seed u' n' r, node_message_received seed u n m = Ret (u', n', Some r) -> ~ error_service (m_esv r) ->
    forall mc data l, map_code mc -> In (PProp mc data) (m_props r) -> enumerates l (map_kind o mc) ->
    nth 0 data 0 = N.of_nat (length l) /\
    forall c, property_map_has data c <-> map_kind o mc c /\ ((length l < 16)%nat \/ c < 0xC0).
  Proof.
    intros w u n m o Rc R Es Hh A S seed u' n' r E Ok mc data l M I En.
    destruct (C41_read_current w u n m Rc R Es seed u' n' r E Ok) as (o1 & A1 & _ & _ & _ & F2).
    assert (D : object_property_data o1 mc = Some data).
    { clear -F2 I. induction F2 as [|q a l l' (X & Y) F IH]; [destruct I|]. destruct I as [->|I]; [cbn in *; congruence|auto]. }
    apply received_rcvd in R. apply reachable_good in Rc. apply handled_spec in E.
    assert (Q : request_service (m_esv m)) by (unfold request_service; cbn in *; tauto).
    destruct (handled_success seed u n m u' n' (Some r) R E Q (ex_intro _ o A)) as (pre & o0 & post & copy & copy' & Eo & Ec & F & Pm & Cl & V & En' & Er).
    { intros r' Hr. inversion Hr; subst. auto. }
    assert (o0 = o) as -> by (apply (addressed_unique (n_objects n) (msg_deoj m)); auto; exists pre, post; auto).
    assert (Go : obj_good o). { destruct Rc as [G _]. rewrite Eo in G. apply Forall_app in G as [_ G]. inversion G; auto. }
    assert (copy' = copy) as ->.
    { destruct V as [(_ & _ & X & _)|(_ & bss & X & _)]; auto. eapply all_asked_hands_off; eauto. }
    destruct (clone_good seed o copy Go Cl) as (Okc & _). pose proof (clone_shape seed o copy Go Cl) as Sh.
    assert (o1 = answered o m copy) as ->.
    { eapply addressed_unique; [exact A1|]. rewrite En'. cbn. eapply addressed_after; eauto. apply answered_shape. }
    assert (Dc : object_property_data copy mc = Some data).
    { destruct (answered_sets o m copy) as (ls & Es' & El). rewrite Es' in D. unfold object_property_data in *. rewrite sets_find, last_data_app in D.
      assert (W0 : writes_of m = []) by (unfold writes_of; cbn in Es; destruct Es as [X|[X|[]]]; rewrite <- X; reflexivity).
      rewrite W0 in D. cbn [last_data] in D.
      destruct (object_find_property o mc) as [p|] eqn:Ep; [|discriminate].
      destruct (object_find_property copy mc) as [q|] eqn:Eq; [|apply Sh in Eq; congruence].
      assert (L : last_data mc ls = Some (p_data q)).
      { assert (Iq : In (pprop_of_prop q) ls).
        { rewrite El. apply in_map. apply hget_in in Eq. apply (in_map snd) in Eq. exact Eq. }
        pose proof (obj_ok_good _ Okc) as Gc. pose proof (obj_good_coded _ Gc _ _ Eq) as Ck. unfold coded in Ck.
        destruct (last_data mc ls) as [d|] eqn:L.
        - apply last_data_in in L. rewrite El in L. apply in_map_iff in L as (x & Ex & Ix). unfold pprop_of_prop in Ex. inversion Ex; subst.
          destruct Gc as [[Nd Kc] _]. unfold object_properties, hvalues in Ix. apply in_map_iff in Ix as ([k v] & Ev & Ix). cbn in Ev. subst v.
          pose proof (Kc _ _ Ix) as [K _]. subst k. apply (in_hget _ _ _ Nd) in Ix.
          change (hget (o_props copy) (p_code x)) with (object_find_property copy (p_code x)) in Ix. congruence.
        - exfalso. apply last_data_none in L. apply L. apply (in_map pp_code) in Iq. cbn in Iq. rewrite Ck in Iq. exact Iq. }
      rewrite L in D. cbn in D. inversion D; subst. reflexivity. }
    assert (En2 : enumerates l (map_kind copy mc)).
    { destruct En as [N1 N2]. split; auto. intro c. rewrite N2. split; apply kind_shape; auto using same_shape_sym. }
    destruct (map_truth copy mc data l Okc (std_shape _ _ Sh S) M Dc En2) as [X Y]. split; auto.
    intro c. rewrite Y. split; (intros [K L]; split; auto; revert K; apply kind_shape; auto using same_shape_sym).
  Qed.

  (** Willing handlers accept what is permitted. *)
  Lemma steady_asked (h : handler U) e ps : steady h -> forall u o, exists bs u', asked h e u o ps bs u' o.
  Proof.
    intro S. induction ps as [|p r IH]; intros u o; [exists [], u; constructor|].
    assert (X : exists u1 b, call_handler h u o e p = Ret (u1, o, b)).
    { destruct h as [|f]; cbn [call_handler]; [|apply S]. eauto. }
    destruct X as (u1 & b & E). destruct (IH u1 o) as (bs & u2 & Ak). exists (b :: bs), u2. econstructor; eauto.
  Qed.
  Lemma accepting_asked (h : handler U) e u o ps bs u' o' : accepting h -> asked h e u o ps bs u' o' -> ~ In false bs.
  Proof.
    intros Ac. induction 1 as [|u o p u1 o1 b ps bs u2 o2 E Ak IH]; [tauto|]. intros [->|I]; [|tauto].
    destruct h as [|f]; [destruct Ac|]. cbn [call_handler] in E. destruct (Ac u o e p) as (x & Ex). congruence.
  Qed.
  Lemma willing_accepts (hs : list (handler U)) u o m : willing hs -> exists u', request_received hs u o m = Ret (u', o, true).
  Proof.
    intros [S Ex]. assert (Nh : hs <> []) by (intros ->; inversion Ex).
    assert (X : exists bss u', all_asked (msg_esv m) (m_props m) hs u o bss u' o /\ exists bs, In bs bss /\ ~ In false bs).
    { clear Nh. revert u Ex. induction S as [|h hs Sh S IH]; intros u Ex; [inversion Ex|].
      assert (Al : forall u, exists bss u', all_asked (msg_esv m) (m_props m) hs u o bss u' o).
      { clear -S. induction S as [|h hs Sh S IH]; intro u; [exists [], u; constructor|].
        destruct (steady_asked h (msg_esv m) (m_props m) Sh u o) as (bs & u1 & Ak). destruct (IH u1) as (bss & u2 & Al). exists (bs :: bss), u2. econstructor; eauto. }
      destruct (steady_asked h (msg_esv m) (m_props m) Sh u o) as (bs & u1 & Ak).
      inversion Ex as [? ? Ac|? ? Ex']; subst.
      - destruct (Al u1) as (bss & u2 & Al'). exists (bs :: bss), u2. split; [econstructor; eauto|]. exists bs. split; [left; auto|eapply accepting_asked; eauto].
      - destruct (IH u1 Ex') as (bss & u2 & Al' & b & Ib & Nb). exists (bs :: bss), u2. split; [econstructor; eauto|]. exists b. split; [right; auto|auto]. }
    destruct X as (bss & u' & Al & bs & Ib & Nb). exists u'. apply request_received_spec; auto. exists bss. split; auto. split; auto. intros _. eauto.
  Qed.
  Lemma steady_hands_off (h : handler U) : steady h -> hands_off h.
  Proof. destruct h as [|f]; cbn; auto. intros S u o e p u' o' b E. destruct (S u o e p) as (x & y & X). congruence. Qed.

  (** With willing handlers, exactly the permitted requests are accepted. *)
  Lemma willing_iff seed (u : U) n m o : rcvd m -> node_good n -> request_service (m_esv m) -> willing (n_handlers n) ->
    addressed (n_objects n) (msg_deoj m) o -> std_codes o ->
    exists u' n' res, node_message_received seed u n m = Ret (u', n', res) /\
      ((forall r, res = Some r -> ~ error_service (m_esv r)) <-> permitted o m).
  Proof.
    intros R G Q W A S.
    assert (Go : obj_good o). { destruct G as [G _]. rewrite Forall_forall in G. apply G. eapply addressed_in; eauto. }
    assert (Sk : std_keys o). { intros c p F. apply S. unfold object_has_property. rewrite F. reflexivity. }
    destruct (clone_good_total seed o Go Sk) as (copy & Cl).
    destruct (request_valid o m) eqn:V.
    - destruct (willing_accepts (n_handlers n) u copy m W) as (u' & Rr).
      do 3 eexists. split.
      + unfold node_message_received. rewrite (request_not_response _ Q : esv_is_response (msg_esv m) = false), (addressed_find _ _ _ A).
        rewrite (proj1 (request_service_spec _) Q : esv_is_request (msg_esv m) = true), V. cbn [negb]. rewrite Cl. cbn [obind]. rewrite Rr. cbn [obind negb]. reflexivity.
      + apply request_valid_spec in V; auto. split; auto. intros _ r Er.
        destruct (success_eq o (answered o m copy) m (rc_wf _ R) (rc_body _ R) Q V (answered_shape o m copy)) as [[_ X]|(e & ps & ss & gs & Se & X & _)].
        { unfold answered in X. congruence. }
        unfold answered in X. rewrite X in Er. inversion Er; subst. cbn [m_esv resp].
        clear -Q Se. services Q; rewrite <- Q in Se; inversion Se; subst; cbn; intuition discriminate.
    - assert (Np : ~ permitted o m) by (intro X; apply (proj2 (request_valid_spec o m Q)) in X; congruence).
      do 3 eexists. split.
      + unfold node_message_received. rewrite (request_not_response _ Q : esv_is_response (msg_esv m) = false), (addressed_find _ _ _ A).
        rewrite (proj1 (request_service_spec _) Q : esv_is_request (msg_esv m) = true), V. cbn [negb]. reflexivity.
      + split; [|tauto]. intro X. exfalso. apply (X _ eq_refl). destruct (failure_eq m (rc_wf _ R) Q) as (e & Fe & ->). cbn [m_esv resp].
        services Q; rewrite <- Q in Fe; inversion Fe; subst; cbn; auto 10.
  Qed.

  Lemma enumerated o mc : obj_good o -> map_code mc -> exists l, enumerates l (map_kind o mc).
  Proof.
    intros [W _] M. destruct (map_kind_sel o mc W M) as (sel & _ & I). exists (selected sel o). split; auto. apply selected_nodup; auto.
  Qed.

  (** [m2] is accepted by the node when it is not answered with an error. *)
  Definition node_accepts (u : U) (n : node U) (m : message) : Prop :=
    forall seed, exists u' n' res, node_message_received seed u n m = Ret (u', n', res) /\ forall r, res = Some r -> ~ error_service (m_esv r).

  Lemma maps_meet w (u : U) n m o mc k : reachable u n w -> received m -> In (m_esv m) [0x62; 0x63] ->
    willing (n_handlers n) -> addressed (n_objects n) (msg_deoj m) o -> std_codes o ->
    forall seed u' n' r, node_message_received seed u n m = Ret (u', n', Some r) -> ~ error_service (m_esv r) ->
    forall data, map_code mc -> In (PProp mc data) (m_props r) ->
    forall m2 c, received m2 -> request_service (m_esv m2) -> msg_deoj m2 = msg_deoj m -> (k -> permitted o m2 <-> map_kind o mc c) -> k ->
    (property_map_has data c <-> node_accepts u' n' m2 /\ (nth 0 data 0 < 16 \/ c < 0xC0)).
  Proof.
    intros Rc R Es [St Ac] A S seed u' n' r E Ok data M I m2 c R2 Q2 Ed Pe K.
    assert (Hh : Forall hands_off (n_handlers n)) by (eapply Forall_impl; [|exact St]; apply steady_hands_off).
    pose proof (reachable_good u n w Rc) as G. pose proof (received_rcvd _ R) as Rr. pose proof (received_rcvd _ R2) as Rr2.
    assert (Go : obj_good o). { destruct G as [G _]. rewrite Forall_forall in G. apply G. eapply addressed_in; eauto. }
    destruct (enumerated o mc Go M) as (l & En).
    destruct (C91_answer_partial w u n m o Rc R Es Hh A S seed u' n' r E Ok mc data l M I En) as [X Y].
    assert (Q : request_service (m_esv m)) by (unfold request_service; cbn in *; tauto).
    destruct (accepted_full seed u n m u' n' (Some r) Rr G Q (ex_intro _ o A) E)
      as (pre & o0 & post & copy & o1 & Eo & Ec & F & Pm & Cl & En' & A1 & Sh & G1 & G0 & _).
    { intros r' Hr. inversion Hr; subst. auto. }
    assert (o0 = o) as -> by (apply (addressed_unique (n_objects n) (msg_deoj m)); auto; exists pre, post; auto).
    assert (Gn : node_good n'). { apply handled_spec in E. eapply handled_good; eauto. apply (rc_wf _ Rr). }
    assert (Hn : n_handlers n' = n_handlers n) by (rewrite En'; reflexivity).
    assert (Hw : willing (n_handlers n')) by (rewrite Hn; split; auto).
    rewrite <- Ed in A1.
    assert (Sp : permitted o1 m2 <-> permitted o m2).
    { assert (Z : forall a b, same_shape a b -> permitted a m2 -> permitted b m2).
      { clear. intros a b (_ & _ & _ & F & At) [H1 H2].
        assert (X : forall c p, object_find_property a c = Some p -> exists q, object_find_property b c = Some q /\ same_attributes p q).
        { intros c p E. destruct (object_find_property b c) as [q|] eqn:Eb; [exists q; split; auto; eapply At; eauto|]. apply F in Eb. congruence. }
        split; eapply Forall_impl; try exact H1; try exact H2.
        - intros q (p & E & Al & Cp). destruct (X _ p E) as (p' & E' & Sa). unfold same_attributes in Sa. exists p'. unfold allows in *. intuition congruence.
        - intros q (p & E & Al). destruct (X _ p E) as (p' & E' & Sa). unfold same_attributes in Sa. exists p'. unfold allows in *. intuition congruence. }
      split; apply Z; auto using same_shape_sym. }
    assert (Ia : node_accepts u' n' m2 <-> map_kind o mc c).
    { rewrite <- (Pe K), <- Sp. split.
      - intro H. destruct (H seed) as (u2 & n2 & res & E2 & Ok2).
        destruct (willing_iff seed u' n' m2 o1 Rr2 Gn Q2 Hw A1 (std_shape _ _ Sh S)) as (u3 & n3 & res3 & E3 & I3).
        rewrite E2 in E3. inversion E3; subst. apply I3. exact Ok2.
      - intros H sd. destruct (willing_iff sd u' n' m2 o1 Rr2 Gn Q2 Hw A1 (std_shape _ _ Sh S)) as (u3 & n3 & res3 & E3 & I3).
        exists u3, n3, res3. split; auto. apply I3. exact H. }
    rewrite Y, Ia, X. intuition lia.
  Qed.

  (** A code listed in the answered read map can be read, a code listed in the
      answered write map can be written, and no other code (below 0xC0, or in
      the short form). *)
  Theorem C91_read_map_partial : forall w (u : U) n m o, reachable u n w -> received m -> In (m_esv m) [0x62; 0x63] ->
    willing (n_handlers n) -> addressed (n_objects n) (msg_deoj m) o -> std_codes o ->
    forall seed u' n' r data, node_message_received seed u n m = Ret (u', n', Some r) -> ~ error_service (m_esv r) -> In (PProp 0x9F data) (m_props r) ->
    forall m2 c d, received m2 -> In (m_esv m2) [0x62; 0x63; 0x74] -> msg_deoj m2 = msg_deoj m -> m_props m2 = [PProp c d] ->
    (property_map_has data c <-> node_accepts u' n' m2 /\ (nth 0 data 0 < 16 \/ c < 0xC0)).
  Proof.
    intros w u n m o Rc R Es W A S seed u' n' r data E Ok I m2 c d R2 Es2 Ed Ep.
    apply (maps_meet w u n m o 0x9F True Rc R Es W A S seed u' n' r E Ok data) with (m2 := m2) (c := c); auto.
    - unfold map_code. auto.
    - unfold request_service. cbn in *. intuition.
    - intros _. unfold permitted, map_kind.
      assert (Wr : writes_of m2 = [] /\ reads_of m2 = [PProp c d]).
      { unfold writes_of, reads_of. cbn in Es2. destruct Es2 as [X|[X|[X|[]]]]; rewrite <- X, Ep; split; reflexivity. }
      destruct Wr as [-> ->]. split.
      + intros [_ H]. inversion H; subst. left. auto.
      + intros [[_ H]|[[H _]|[H _]]]; try discriminate. split; [constructor|]. repeat constructor. exact H.
  Qed.
  Theorem C91_write_map_partial : forall w (u : U) n m o, reachable u n w -> received m -> In (m_esv m) [0x62; 0x63] ->
    willing (n_handlers n) -> addressed (n_objects n) (msg_deoj m) o -> std_codes o ->
    forall seed u' n' r data, node_message_received seed u n m = Ret (u', n', Some r) -> ~ error_service (m_esv r) -> In (PProp 0x9E data) (m_props r) ->
    forall m2 c d, received m2 -> In (m_esv m2) [0x60; 0x61] -> msg_deoj m2 = msg_deoj m -> m_props m2 = [PProp c d] ->
    (forall p, object_find_property o c = Some p -> p_cap p = 0 \/ N.of_nat (length d) <= p_cap p) ->
    (property_map_has data c <-> node_accepts u' n' m2 /\ (nth 0 data 0 < 16 \/ c < 0xC0)).
  Proof.
    intros w u n m o Rc R Es W A S seed u' n' r data E Ok I m2 c d R2 Es2 Ed Ep Cp.
    apply (maps_meet w u n m o 0x9E True Rc R Es W A S seed u' n' r E Ok data) with (m2 := m2) (c := c); auto.
    - unfold map_code. auto.
    - unfold request_service. cbn in *. intuition.
    - intros _. unfold permitted, map_kind.
      assert (Wr : reads_of m2 = [] /\ writes_of m2 = [PProp c d]).
      { unfold writes_of, reads_of. cbn in Es2. destruct Es2 as [X|[X|[]]]; rewrite <- X, Ep; split; reflexivity. }
      destruct Wr as [-> ->]. split.
      + intros [H _]. inversion H as [|? ? (p & F & Al & _)]; subst. right. left. split; auto. exists p. auto.
      + intros [[H _]|[[_ (p & F & Al)]|[H _]]]; try discriminate. split; [|constructor]. repeat constructor. exists p. cbn [pp_code pp_data]. auto.
  Qed.
End S.
Print Assumptions C91_answer_partial.
Print Assumptions C91_read_map_partial.
Print Assumptions C91_write_map_partial.

(** The lamp with a handler that accepts everything: its read map lists five
    codes, 0xB0 among them, and not 0xE0, which may only be written. *)
Definition read_of (c : N) : list N := to_lamp 7 0x62 [1; c; 0].
Lemma yes_willing : willing (U := unit) [HNode; yes].
Proof. split; [repeat constructor; cbn; eauto|]. right. left. cbn. eauto. Qed.
Example C91_case :
  reachable (P := true) (HO := ex_order) (O := ex_os) tt (ex_n (ex_ops [yes])) (ex_w (ex_ops [yes])) /\
  willing (n_handlers (ex_n (ex_ops [yes]))) /\ received (ex_rcv (read_of 0x9F)) /\
  ex_answer [yes] (read_of 0x9F) <> None /\
  (forall r, ex_answer [yes] (read_of 0x9F) = Some r -> ~ error_service (m_esv r) /\
    exists data, m_props r = [PProp 0x9F data] /\ property_map_has data 0xB0 /\ ~ property_map_has data 0xE0) /\
  (forall r, ex_answer [yes] (read_of 0xB0) = Some r -> m_esv r = 0x72) /\
  (forall r, ex_answer [yes] (read_of 0xE0) = Some r -> m_esv r = 0x52).
Proof.
  split; [apply ex_reachable; [apply ex_ops_ok; typed|vm_compute; reflexivity]|]. split.
  { replace (n_handlers (ex_n (ex_ops [yes]))) with [HNode (U := unit); yes] by (vm_compute; reflexivity). apply yes_willing. }
  split; [rcv|]. split; [vm_compute; discriminate|]. split.
  { intros r H. vm_compute in H. inversion H; subst; clear H. cbn [m_esv m_props]. split; [cbn; intuition discriminate|].
    eexists. split; [reflexivity|]. split; [vm_compute; auto 10|intro H; vm_compute in H; intuition discriminate]. }
  split; intros r H; vm_compute in H; inversion H; reflexivity.
Qed.

(** An object with 16 or more readable properties, at codes of 0xC0 and above
    too: the answered read map does not list 0xC0, which can be read. *)
Definition big : object := the (object_new 0) (ex_big 0).
Definition big_ops : list (node_op unit) := [OpAddObject big; OpAddHandler yes; OpStart].
Lemma big_ops_ok : Forall (op_ok (P := true) (HO := ex_order)) big_ops.
Proof.
  constructor; [|constructor; [apply yes_typed|constructor; [exact Logic.I|constructor]]].
  apply (ex_big_built 0). vm_compute. reflexivity.
Qed.
Definition big_answer (bs : list N) : option message :=
  snd (the (tt, ex_node0, None) (node_message_received (P := true) (HO := ex_order) 5 tt (ex_n big_ops) (ex_rcv bs))).
Theorem C91_bitmap_refuted :
  reachable (P := true) (HO := ex_order) (O := ex_os) tt (ex_n big_ops) (ex_w big_ops) /\ received (ex_rcv (read_of 0x9F)) /\ received (ex_rcv (read_of 0xC0)) /\
  (exists r data, big_answer (read_of 0x9F) = Some r /\ m_esv r = 0x72 /\ m_props r = [PProp 0x9F data] /\ ~ property_map_has data 0xC0) /\
  (exists r, big_answer (read_of 0xC0) = Some r /\ m_esv r = 0x72).
Proof.
  split; [apply ex_reachable; [apply big_ops_ok|vm_compute; reflexivity]|]. split; [rcv|]. split; [rcv|]. split.
  - do 2 eexists. split; [vm_compute; reflexivity|]. split; [reflexivity|]. split; [reflexivity|].
    intro H. apply map_has_bitmap in H; try lia; [discriminate|reflexivity|cbn; lia].
  - eexists. split; [vm_compute; reflexivity|reflexivity].
Qed.
Print Assumptions C91_bitmap_refuted.
