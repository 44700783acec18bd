(** What a node puts on the network: C90. *)
From Verif Require Import Base HMap ModelCodec ModelMessages DbTable ModelObject ModelTransport ModelNode
  SpecWire SpecObject SpecNode ProofsCodec ProofsCodec2 PropertiesCodec ProofsObject ProofsObject2 ProofsObject3
  PropertiesObject PropertiesDb ProofsDevice ProofsNode ProofsNode2 ProofsNode3 ProofsNode4 ExamplesNode PropertiesNode PropertiesTrans PropertiesProfile ProofsExchange ProofsHistory.

(** *** Vocabulary *)
(** The properties of an object hold at most 255 octets. *)
Definition short (o : object) : Prop := forall p, In p (object_properties o) -> (length (p_data p) <= 255)%nat.
Definition short_handler {U} (h : handler U) : Prop :=
  match h with
  | HNode => True
  | HUser f => forall u o e p u' o' b, short o -> f u o e p = Ret (u', o', b) -> short o'
  end.
(** The application stays within the sizes which the wire format can express, and
    does not send 0x5E itself. *)
Definition modest {U} (op : node_op U) : Prop :=
  match op with
  | OpAddObject o => short o
  | OpAddHandler h => short_handler h
  | OpSetData _ _ d => (length d <= 255)%nat
  | OpSend _ m | OpPost _ m | OpNotify m => in_limits m /\ m_esv m <> 0x5E
  | OpAnnounceProperty _ p => (length (p_data p) <= 255)%nat
  | OpAddObserver _ | OpAnnounce | OpStart | OpStop | OpRecv _ => True
  end.
(** A datagram is one frame of the wire format. *)
Definition is_frame (data : list N) : Prop := exists f, frame_ok f /\ data = wire f.

(* ------------------------------------------------------------------ *)
Lemma short_find o c p : short o -> object_find_property o c = Some p -> (length (p_data p) <= 255)%nat.
Proof. intros S E. apply S. apply hget_in in E. apply (in_map snd) in E. exact E. Qed.
Lemma short_set o c d : (length d <= 255)%nat -> short o -> short (fst (object_set_property_data o c d)).
Proof.
  intros L S p I. unfold object_set_property_data in I. destruct (object_find_property o c) as [q|]; [|auto]. cbn in I.
  unfold object_properties, hvalues in I. apply in_map_iff in I as ([k v] & Ev & I). cbn in Ev. subst v.
  apply hput_in in I as [I|[-> ->]]; [|exact L]. apply S. apply (in_map snd) in I. exact I.
Qed.
Lemma short_sets l : forall o, Forall prop_in_limit l -> short o -> short (sets o l).
Proof.
  induction l as [|q r IH]; intros o F S; cbn [sets fold_left]; auto. inversion F; subst. apply IH; auto. apply short_set; auto.
Qed.
Section M.
  Context {P : Profile} {HO : HashOrder}.
  Lemma upd_length (l : list N) i x l' : upd l i x = Ret l' -> length l' = length l.
  Proof.
    unfold upd. destruct (Nat.ltb_spec i (length l)); [|discriminate]. intro E.
    assert (E' : l' = firstn i l ++ x :: skipn (S i) l) by congruence. rewrite E', app_length. cbn [length]. rewrite firstn_length, skipn_length. lia.
  Qed.
  Lemma map_bits_length codes : forall mb mb', property_map_bits codes mb = Ret mb' -> length mb' = length mb.
  Proof.
    induction codes as [|c r IH]; intros mb mb' E; cbn [property_map_bits] in E; [inversion E; auto|].
    repeat match type of E with obind ?x _ = _ => destruct x eqn:?; cbn [obind] in E; [|discriminate] end.
    apply IH in E. rewrite E. match goal with H : upd _ _ _ = Ret _ |- _ => apply upd_length in H; exact H end.
  Qed.
  Lemma map_bytes_length l b : to_property_map_bytes l = Ret b -> (length b <= 17)%nat.
  Proof.
    unfold to_property_map_bytes. destruct (Nat.leb_spec (length l) 15); intro E.
    - inversion E; cbn; lia.
    - apply map_bits_length in E. rewrite E. cbn. lia.
  Qed.
  Lemma update_short o o' : short o -> object_update_property_maps o = Ret o' -> short o'.
  Proof.
    intros S E. unfold object_update_property_maps in E.
    repeat match type of E with obind ?x _ = _ => destruct x eqn:?; cbn [obind] in E; [|discriminate] end.
    repeat match goal with H : to_property_map_bytes _ = Ret _ |- _ => apply map_bytes_length in H end.
    inversion E. repeat apply short_set; auto; lia.
  Qed.
  Lemma add_property_short o p o' : short o -> (length (p_data p) <= 255)%nat -> object_add_property o p = Ret o' -> short o'.
  Proof.
    intros S L. unfold object_add_property. apply update_short. intros q I. cbn in I. unfold object_properties, hvalues in I. cbn [o_props obj_with_props] in I.
    apply in_map_iff in I as ([k v] & Ev & I). cbn in Ev. subst v. apply hor_insert_in in I as [I|[-> ->]]; auto.
    apply S. apply (in_map snd) in I. exact I.
  Qed.
  Lemma clone_data p : p_data (prop_clone p) = p_data p.
  Proof.
    unfold prop_clone. transitivity (p_data (prop_with_enums p [])); [|reflexivity].
    generalize (prop_with_enums p []). induction (hvalues (p_enums p)) as [|x l IH]; intro q; cbn [fold_left]; auto. rewrite IH. reflexivity.
  Qed.
  Lemma adds_short ps : forall o o', short o -> Forall (fun p => (length (p_data p) <= 255)%nat) ps -> add_properties o ps = Ret o' -> short o'.
  Proof.
    induction ps as [|p r IH]; intros o o' S F E; cbn [add_properties] in E; [inversion E; subst; auto|]. inversion F; subst.
    destruct (object_add_property o (prop_clone p)) as [o1|] eqn:E1; cbn [obind] in E; [|discriminate].
    apply (IH o1); auto. apply (add_property_short o (prop_clone p)); auto. rewrite clone_data. auto.
  Qed.
  Lemma clone_short s o o' : short o -> object_clone s o = Ret o' -> short o'.
  Proof. intros S. apply adds_short; [intros p []|]. apply Forall_forall. exact S. Qed.
End M.
Lemma profile_entries codes : In NODE_PROFILE_OBJECT_CODE codes -> (length (flat_map instance_entry codes) <= 3 * (length codes - 1))%nat.
Proof.
  assert (X : forall l, (length (flat_map instance_entry l) <= 3 * length l)%nat).
  { induction l as [|c r IH]; cbn [flat_map length]; [lia|]. rewrite app_length. unfold instance_entry at 1. destruct (_ =? _); cbn [length]; lia. }
  intro I. apply in_split in I as (a & b & ->). rewrite flat_map_app, !app_length. cbn [flat_map length].
  change (instance_entry NODE_PROFILE_OBJECT_CODE) with (@nil N). cbn [app]. pose proof (X a). pose proof (X b). lia.
Qed.
Lemma profile_short codes : In NODE_PROFILE_OBJECT_CODE codes -> (length codes <= 85)%nat -> Forall prop_in_limit (profile_data codes).
Proof.
  intros I L. apply profile_entries in I. unfold profile_data, prop_in_limit.
  assert (C : (length (flat_map class_entry codes) <= 2 * length codes)%nat).
  { clear. induction codes as [|c r IH]; cbn [flat_map length]; [lia|]. rewrite app_length. cbn [class_entry length]. lia. }
  repeat (apply Forall_cons; [cbn [pp_data length]; lia|]). apply Forall_nil.
Qed.

(** Encoding. *)
Lemma service_bytes m : wf3 (m_seoj m) -> wf3 (m_deoj m) -> service_of (msg_bytes m) = m_esv m.
Proof.
  intros A B. rewrite msg_bytes_eq. destruct (m_ehd m), (m_tid m), (m_seoj m) as [[? ?] ?], (m_deoj m) as [[? ?] ?]. reflexivity.
Qed.
Lemma bytes_frame m : msg_wf m -> in_limits m -> m_esv m <> 0x5E -> is_frame (msg_bytes m).
Proof. intros W L E. exists (frame_of m). split; [apply frame_of_ok; auto|apply msg_bytes_wire; auto]. Qed.
Lemma update_frame {U} (n n' : node U) m m' : msg_wf m -> in_limits m -> m_esv m <> 0x5E -> update_tid n m = (n', m') -> is_frame (msg_bytes m').
Proof.
  intros B L E T. apply update_tid_spec in T as [(_ & _ & ->)|(_ & _ & ->)]; [apply bytes_frame; auto|].
  apply bytes_frame; auto. rewrite msg_set_tid_eq. destruct B. constructor; auto. split; cbn; lia.
Qed.

Lemma ack_limit ps : (length ps <= 255)%nat -> list_in_limit (ack_props ps).
Proof.
  intro L. unfold ack_props. split; [rewrite map_length; auto|]. apply Forall_forall. intros q I. apply in_map_iff in I as (x & <- & _). unfold prop_in_limit. cbn. lia.
Qed.
Lemma ack_u8 ps : Forall u8prop ps -> Forall u8prop (ack_props ps).
Proof. intro F. unfold ack_props. apply Forall_map. eapply Forall_impl; [|exact F]. intros q [A B]. split; [exact A|constructor]. Qed.
Lemma read_limit o ps l : short o -> (length ps <= 255)%nat -> read_props_of o ps = Some l -> list_in_limit l.
Proof.
  intros S L E. apply read_props_spec in E. split.
  - apply Forall2_length' in E. lia.
  - clear L. induction E as [|q r ps l (p & E & ->) F IH]; constructor; auto. exact (short_find _ _ _ S E).
Qed.
Lemma read_u8 o ps l : obj_good o -> read_props_of o ps = Some l -> Forall u8prop l.
Proof.
  intros S E. apply read_props_spec in E. apply good_octets in S. induction E as [|q r ps l (p & E & ->) F IH]; constructor; auto.
  apply hget_in in E. apply (in_map snd) in E. apply S in E. exact E.
Qed.
Lemma nil_limit : list_in_limit []. Proof. split; [cbn; lia|constructor]. Qed.

Section S.
  Context {U : Type} {P : Profile} {HO : HashOrder} {Os : OS}.
  Lemma asked_short (h : handler U) e u o ps bs u' o' : short_handler h -> asked h e u o ps bs u' o' -> short o -> short o'.
  Proof.
    intros H. induction 1 as [|u o p u1 o1 b ps bs u2 o2 E A IH]; auto. intro S. apply IH.
    destruct h; cbn in E; [inversion E; subst; auto|]. eapply H; eauto.
  Qed.
  Lemma request_received_short (hs : list (handler U)) u o m u' o' b : Forall short_handler hs -> request_received hs u o m = Ret (u', o', b) ->
    short o -> short o'.
  Proof.
    intros F H. destruct hs as [|h r].
    - inversion H; subst; auto.
    - apply request_received_spec in H as (bss & A & _); [|discriminate].
      induction A as [|h' hs u o bs u1 o1 bss u2 o2 A B IH]; auto. inversion F; subst. intro S. apply IH; auto. eapply asked_short; eauto.
  Qed.
  (** Invariant. *)
  Record small (n : node U) : Prop := { sm_objects : Forall short (n_objects n); sm_handlers : Forall short_handler (n_handlers n) }.
  Lemma small_same (n n' : node U) : n_objects n' = n_objects n -> n_handlers n' = n_handlers n -> small n -> small n'.
  Proof. intros A B [C D]. constructor; congruence. Qed.
  Lemma writes_limit m : in_limits m -> Forall prop_in_limit (writes_of m).
  Proof.
    intros (A & B & C). unfold writes_of. destruct (_ || _); [apply A|]. destruct (_ =? _); [apply B|constructor].
  Qed.
  Lemma answered_short (n : node U) u o m copy u' copy' s : rcvd m -> Forall short_handler (n_handlers n) -> short o -> object_clone s o = Ret copy ->
    request_received (n_handlers n) u copy m = Ret (u', copy', true) -> short (answered o m copy').
  Proof.
    intros R H S C E. destruct (answered_sets o m copy') as (l & -> & ->). apply short_sets; auto. apply Forall_app. split; [|apply writes_limit, R].
    apply Forall_map. apply Forall_forall. intros p I. apply (request_received_short _ _ _ _ _ _ _ H E); auto. exact (clone_short _ _ _ S C).
  Qed.
  Lemma handled_small s (u : U) n m u' n' res : rcvd m -> small n -> handled s u n m u' n' res -> small n'.
  Proof.
    intros R [A B] H. inversion H as [|? ? ? ?|? ? ? ? ? ? ? ? ?|pre o post copy u1 copy' R1 Eo Ec Fp V C Dd Eu En Er]; subst; try (constructor; auto; fail).
    constructor; cbn; auto. rewrite Eo in A. apply Forall_app in A as [A1 A2]. apply Forall_app. split; auto.
    constructor; [|exact (Forall_inv_tail A2)]. eapply answered_short; eauto. exact (Forall_inv A2).
  Qed.
  (** Responses are frames, but for 0x5E. *)
  Lemma handled_frame s (u : U) n m u' n' e ps ss gs t : rcvd m -> node_good n -> small n -> handled s u n m u' n' (Some (resp m e ps ss gs)) -> wf2 t ->
    e = 0x5E \/ is_frame (msg_bytes (with_t m t e ps ss gs)).
  Proof.
    intros R G S H Wt. destruct (N.eq_dec e 0x5E) as [?|Ne]; [auto|]. right. pose proof R as [W L B].
    assert (Fa : response_error_message m = resp m e ps ss gs -> request_service (m_esv m) -> is_frame (msg_bytes (with_t m t e ps ss gs))).
    { intros E Q. destruct (failure_eq m W Q) as (e1 & E1 & E2). rewrite E2 in E. inversion E. subst e1 ps ss gs.
      destruct (N.eqb_spec (m_esv m) 0x6E) as [X|X].
      - rewrite X in E1. cbn in E1. congruence.
      - apply bytes_frame; cbn [m_esv with_t]; auto.
        + apply with_t_wf; auto; [|apply W]. services Q; rewrite <- Q in E1; inversion E1; lia.
        + split; [apply L|]. split; apply nil_limit. }
    inversion H as [|o0 Q A0 V0 Eu En Er|o0 c0 u0 c1 Q A0 V0 C0 D0 Eu En Er|pre o post copy u1 copy' Q Eo Ec Fp V C Dd Eu En Er]; subst; auto.
    assert (Go : obj_good o /\ short o).
    { destruct G as [G _], S as [S _]. rewrite Eo in G, S. apply Forall_app in G as [_ G]. apply Forall_app in S as [_ S]. split; [exact (Forall_inv G)|exact (Forall_inv S)]. }
    destruct Go as [Go So].
    assert (Sa : short (answered o m copy')) by (eapply answered_short; eauto; apply S).
    assert (Ga : obj_good (answered o m copy')).
    { apply (handled_good s u n m u' _ _ W G) in H. destruct H as [H _]. cbn in H. apply Forall_app in H as [_ H]. exact (Forall_inv H). }
    clear H. destruct (success_eq o (answered o m copy') m W B Q V (answered_shape o m copy')) as [[_ X]|(e1 & ps1 & ss1 & gs1 & E1 & E2 & K1 & K2 & K3)]; [congruence|].
    assert (E3 : resp m e ps ss gs = resp m e1 ps1 ss1 gs1) by congruence. clear Er E2. inversion E3. subst e1 ps1 ss1 gs1. clear E3.
    destruct L as ((L1 & _) & (L2 & _) & (L3 & _)).
    apply bytes_frame; cbn [m_esv with_t]; auto.
    - apply with_t_wf; auto.
      + services Q; rewrite <- Q in E1; inversion E1; lia.
      + services Q; try (rewrite <- Q in E1; discriminate E1).
        * destruct K1 as (-> & _); auto. apply ack_u8, W.
        * destruct K2 as (K2 & _); auto. eapply read_u8; eauto.
        * destruct K2 as (K2 & _); auto. eapply read_u8; eauto.
        * destruct K3 as (-> & _); auto.
        * destruct K1 as (-> & _); auto. apply ack_u8, W.
      + services Q; try (rewrite <- Q in E1; discriminate E1).
        * destruct K1 as (_ & -> & _); auto.
        * destruct K2 as (_ & -> & _); auto.
        * destruct K2 as (_ & -> & _); auto.
        * destruct K3 as (_ & -> & _); auto. apply ack_u8, W.
        * destruct K1 as (_ & -> & _); auto.
      + services Q; try (rewrite <- Q in E1; discriminate E1).
        * destruct K1 as (_ & _ & ->); auto.
        * destruct K2 as (_ & _ & ->); auto.
        * destruct K2 as (_ & _ & ->); auto.
        * destruct K3 as (_ & _ & K3); auto. eapply read_u8; eauto.
        * destruct K1 as (_ & _ & ->); auto.
    - unfold in_limits. cbn [m_props m_set m_get with_t]. services Q; try (rewrite <- Q in E1; discriminate E1).
      + destruct K1 as (-> & -> & ->); auto. split; [apply ack_limit; auto|split; apply nil_limit].
      + destruct K2 as (K2 & -> & ->); auto. split; [exact (read_limit _ _ _ Sa L1 K2)|split; apply nil_limit].
      + destruct K2 as (K2 & -> & ->); auto. split; [exact (read_limit _ _ _ Sa L1 K2)|split; apply nil_limit].
      + destruct K3 as (-> & -> & K3); auto. split; [apply nil_limit|]. split; [apply ack_limit; auto|exact (read_limit _ _ _ Sa L3 K3)].
      + destruct K1 as (-> & -> & ->); auto. split; [apply ack_limit; auto|split; apply nil_limit].
  Qed.

  (** Everything offered to the operating system. *)
  Definition fine (d : list N) : Prop := is_frame d \/ service_of d = 0x5E.
  Lemma set_byte_small (n : node U) c v : small n -> small (set_object_properties_byte n c v).
  Proof. intros [A B]. constructor; auto. cbn. apply Forall_map. eapply Forall_impl; [|exact A]. intros o S. apply short_set; auto. cbn. lia. Qed.
  Lemma add_object_small (n n' : node U) o : short o -> small n -> (length (n_objects n) <= 84)%nat -> node_add_object n o = Ret n' -> small n'.
  Proof.
    intros So [S H] L E. destruct (add_object_eq n o) as (os & E' & C). rewrite E in E'. inversion E'; subst n'.
    assert (G : Forall short (n_objects n ++ [o])) by (apply Forall_app; auto).
    constructor; auto. cbn. destruct C as [[_ ->]|(pre & np & post & E1 & E2 & E3 & ->)]; auto.
    assert (I : In NODE_PROFILE_OBJECT_CODE (map object_code (n_objects n ++ [o]))).
    { rewrite E1, map_app, <- E2. apply in_or_app. right. left. reflexivity. }
    apply profile_short in I; [|rewrite map_length, app_length; cbn; lia].
    rewrite E1 in G. apply Forall_app in G as [A B]. apply Forall_app. split; auto. constructor; [|exact (Forall_inv_tail B)].
    apply short_sets; auto. exact (Forall_inv B).
  Qed.
  Lemma one_frame (t : sockaddr) (d : list N) l : is_frame d -> Forall (eq (t, d)) l -> Forall (fun x => fine (snd x)) l.
  Proof. intros F A. eapply Forall_impl; [|exact A]. intros x <-. left. exact F. Qed.
  Lemma announce_msg_frame (n n' : node U) o p m' : obj_good o -> p_code p < 256 -> octets (p_data p) -> (length (p_data p) <= 255)%nat ->
    update_tid n (announce_message o p) = (n', m') -> is_frame (msg_bytes m').
  Proof.
    intros G A B C. unfold announce_message. apply update_frame.
    - constructor; cbn [m_ehd m_tid m_seoj m_deoj m_esv m_props m_set m_get msg_add_property with_props msg_set_seoj msg_set_deoj msg_set_esv msg_new app]; auto.
      + split; cbn; lia.
      + apply wf3_split.
      + apply wf3_split.
      + cbn. lia.
      + constructor; [split; auto|constructor].
      + constructor.
      + constructor.
    - split; [|split; apply nil_limit]. split; [cbn; lia|]. constructor; auto.
    - cbn. discriminate.
  Qed.
  Lemma announce_frames w (n : node U) ok n' w' tr : node_good n -> small n -> node_announce w n = (ok, n', w') -> since w w' tr -> Forall (fun x => fine (snd x)) (offered tr).
  Proof.
    intros [G _] [S _] E T. unfold node_announce in E.
    destruct (find_object (n_objects n) NODE_PROFILE_OBJECT_CODE) as [o|] eqn:Ef;
      [|inversion E; subst; rewrite (since_unique _ _ _ _ T (since_refl _)); constructor].
    destruct (object_find_property o NP_INSTANCE_LIST_NOTIFICATION) as [p|] eqn:Ep;
      [|inversion E; subst; rewrite (since_unique _ _ _ _ T (since_refl _)); constructor].
    destruct (node_notify w n (announce_message o p)) as [[[b m1] n1] w1] eqn:En. inversion E; subst.
    apply node_notify_spec in En as (A & t2 & k & B & _ & _ & F & _). rewrite (since_unique _ _ _ _ T B).
    apply find_object_some, addressed_in in Ef. rewrite Forall_forall in G, S. pose proof (G o Ef) as Go. pose proof (short_find _ _ _ (S o Ef) Ep) as L.
    apply hget_in in Ep. apply (in_map snd) in Ep. apply (good_octets o Go) in Ep as [X Y].
    eapply one_frame; [|exact F]. exact (announce_msg_frame _ _ _ _ _ Go X Y L A).
  Qed.
  Lemma step_frames (u : U) n w op u' n' w' tr : op_ok op -> modest op -> node_good n -> small n -> (length (n_objects n) + length (objects_added [op]) <= 85)%nat ->
    node_step (u, n, w) op = Ret (u', n', w') -> since w w' tr -> small n' /\ Forall (fun x => fine (snd x)) (offered tr).
  Proof.
    intros K M G S L E T.
    assert (Q : w' = w -> Forall (fun x => fine (snd x)) (offered tr)).
    { intros ->. rewrite (since_unique _ _ _ _ T (since_refl _)). constructor. }
    destruct op; cbn [node_step] in E; cbn [op_ok] in K; cbn [modest] in M.
    - destruct (node_add_object n o) as [n1|] eqn:E1; cbn [obind] in E; [|discriminate]. inversion E; subst. split; [|apply Q; auto].
      cbn in L. eapply add_object_small; [exact M|exact S| |exact E1]. lia.
    - inversion E; subst. split; [|apply Q; auto]. destruct S as [A B]. constructor; auto. cbn. apply Forall_app; auto.
    - inversion E; subst. split; [|apply Q; auto]. eapply small_same; [| |exact S]; reflexivity.
    - inversion E; subst. split; [|apply Q; auto]. unfold set_data. destruct (find_object (n_objects n) obj) as [o|] eqn:Ef; auto.
      apply find_object_some in Ef as (pre & post & E1 & E2 & E3). destruct S as [A B]. constructor; auto. cbn. rewrite E1 in A |- *.
      rewrite put_object_split by auto. apply Forall_app in A as [A1 A2]. apply Forall_app. split; auto. constructor; [|exact (Forall_inv_tail A2)].
      apply short_set; auto. exact (Forall_inv A2).
    - destruct (node_send w n to m) as [[[b m1] n1] w1] eqn:E1. inversion E; subst.
      apply node_send_spec in E1 as (A & t2 & B & _ & _ & F & _). rewrite (since_unique _ _ _ _ T B). split.
      + apply update_tid_keeps in A as (A & C & _). eapply small_same; eauto.
      + eapply one_frame; [|exact F]. apply (update_frame n n' m m1); auto; try apply M. apply built_wf; auto.
    - destruct (node_post w n to m) as [[[b m1] n1] w1] eqn:E1. inversion E; subst.
      apply node_post_spec in E1 as (_ & _ & n2 & ok & t2 & A & -> & B & _ & F & _). rewrite (since_unique _ _ _ _ T B). split.
      + apply update_tid_keeps in A as (A & C & _). eapply small_same; eauto.
      + eapply one_frame; [|exact F]. apply (update_frame n n2 m m1); auto; try apply M. apply built_wf; auto.
    - destruct (node_notify w n m) as [[[b m1] n1] w1] eqn:E1. inversion E; subst.
      apply node_notify_spec in E1 as (A & t2 & k & B & _ & _ & F & _). rewrite (since_unique _ _ _ _ T B). split.
      + apply update_tid_keeps in A as (A & C & _). eapply small_same; eauto.
      + eapply one_frame; [|exact F]. apply (update_frame n n' m m1); auto; try apply M. apply built_wf; auto.
    - destruct (node_announce w n) as [[b n1] w1] eqn:E1. inversion E; subst. split.
      + apply announce_keeps in E1 as (A & B & _). eapply small_same; eauto.
      + eapply announce_frames; eauto.
    - unfold node_announce_property in E. destruct (node_notify w n _) as [[[b m1] n1] w1] eqn:E1. inversion E; subst.
      apply node_notify_spec in E1 as (A & t2 & k & B & _ & _ & F & _). rewrite (since_unique _ _ _ _ T B). split.
      + apply update_tid_keeps in A as (A & C & _). eapply small_same; eauto.
      + eapply one_frame; [|exact F]. destruct K as [K1 K2]. apply prop_built_ok in K2. destruct K2.
        apply (announce_msg_frame n n' o p); auto. apply obj_ok_good, obj_built_ok; auto.
    - destruct (node_start w n) as [[[b n1] w1]|] eqn:E1; cbn [obind] in E; [|discriminate]. inversion E; subst.
      apply node_start_spec in E1 as (ok1 & m1 & w2 & (_ & t1 & S1 & _ & O1) & _ & [(_ & _ & -> & ->)|(_ & m2 & _ & A)]).
      + split; [eapply small_same; [| |exact S]; reflexivity|]. rewrite (since_unique _ _ _ _ T S1), O1. constructor.
      + set (n2 := set_object_properties_byte (set_object_properties_byte n 0x80 0x30) 0x88 0x42) in A.
        assert (S2 : small n2) by (apply set_byte_small, set_byte_small; auto).
        assert (G2 : node_good n2) by (apply set_byte_good; [lia|]; apply set_byte_good; [lia|auto]). clearbody n2.
        split; [apply announce_keeps in A as (A & B & _); eapply small_same; [exact A|exact B|]; eapply small_same; [| |exact S2]; reflexivity|].
        pose proof A as A0. apply announce_keeps in A0 as (_ & _ & _ & _ & t2 & T2 & _).
        rewrite (since_unique _ _ _ _ T (since_trans _ _ _ _ _ S1 T2)), offered_app, O1. cbn [app].
        eapply announce_frames; [| |exact A|exact T2]; [exact G2|]. eapply small_same; [| |exact S2]; reflexivity.
    - destruct (node_stop n) as [[b n1]|] eqn:E1; cbn [obind] in E; [|discriminate]. inversion E; subst. unfold node_stop in E1.
      destruct (manager_stop _) as [x|]; cbn [obind] in E1; [|discriminate]. inversion E1; subst. cbn [snd]. split; [|apply Q; auto].
      apply (small_same (set_object_properties_byte n 0x80 0x31)); [reflexivity|reflexivity|]. apply set_byte_small; auto.
    - destruct (node_observe w u n m) as [[[u1 n1] w1]|] eqn:E1; cbn [obind] in E; [|discriminate]. inversion E; subst.
      apply received_rcvd in K. pose proof K as [W Li B]. split.
      + apply observe_spec in E1 as (n2 & w2 & t1 & n3 & res & t2 & _ & _ & _ & D & H & R); auto.
        apply delivered_keeps in D as (D1 & D2 & _). apply reaction_keeps in R as (R1 & R2 & _).
        eapply small_same; [exact R1|exact R2|]. eapply handled_small; [exact K| |exact H]. eapply small_same; eauto.
      + apply Forall_forall. intros [to d] I. cbn [snd].
        destruct (observe_offered w u n m u' n' w' tr to d K E1 T I) as (e & ps & ss & gs & t & n2 & _ & H & _ & -> & Wt & _).
        destruct (handled_frame _ _ _ _ _ _ _ _ _ _ t K G S H Wt) as [X|X]; [right|left; exact X].
        rewrite with_t_service; [exact X|apply W|apply W].
  Qed.
  Lemma run_frames ops : forall (u : U) n w u' n' w' tr, Forall op_ok ops -> Forall modest ops -> node_good n -> small n -> (length (n_objects n) + length (objects_added ops) <= 85)%nat ->
    node_run (u, n, w) ops = Ret (u', n', w') -> since w w' tr -> Forall (fun x => fine (snd x)) (offered tr).
  Proof.
    induction ops as [|op r IH]; intros u n w u' n' w' tr F M G S L E T; cbn [node_run] in E.
    { inversion E; subst. rewrite (since_unique _ _ _ _ T (since_refl _)). constructor. }
    destruct (node_step (u, n, w) op) as [[[u1 n1] w1]|] eqn:E1; cbn [obind] in E; [|discriminate].
    pose proof (Forall_inv F) as F1. pose proof (Forall_inv_tail F) as F2. pose proof (Forall_inv M) as M1. pose proof (Forall_inv_tail M) as M2.
    change (op :: r) with ([op] ++ r) in L. unfold objects_added in L. rewrite flat_map_app, app_length in L. fold (objects_added [op]) (objects_added r) in L.
    destruct (step_shapes u n w op u1 n1 w1 F1 E1) as [Sh _]. apply Forall2_length' in Sh. rewrite app_length in Sh.
    destruct (step_since u n w op u1 n1 w1 F1 E1) as [t1 T1]. destruct (run_since r u1 n1 w1 u' n' w' F2 E) as [t2 T2].
    rewrite (since_unique _ _ _ _ T (since_trans _ _ _ _ _ T1 T2)), offered_app. apply Forall_app.
    destruct (step_frames u n w op u1 n1 w1 t1 F1 M1 G S) as [S1 O1]; auto; [lia|]. split; auto.
    apply (IH u1 n1 w1 u' n' w'); auto; [|lia]. exact (step_good u n w op u1 n1 w1 F1 G E1).
  Qed.

  (** ** C90: everything a node sends is a frame *)
  (** Missing: more than 84 devices, data of more than 255 octets, and the service
      0x5E, see the refutations. *)
  Theorem C90_frames_partial : forall np n0 (u : U) w ops u' n' w' tr, obj_built np -> short np -> node_new np = Ret n0 ->
    Forall op_ok ops -> Forall modest ops -> (length (objects_added ops) <= 84)%nat ->
    node_run (u, n0, w) ops = Ret (u', n', w') -> since w w' tr ->
    forall to data, In (to, data) (offered tr) -> is_frame data \/ service_of data = 0x5E.
  Proof.
    intros np n0 u w ops u' n' w' tr B S N F M L E T to data I.
    assert (G : node_good n0) by (apply (node_new_good np); auto; apply obj_ok_good, obj_built_ok; auto).
    assert (Sm : small n0 /\ length (n_objects n0) = 1%nat).
    { split.
      - unfold node_new in N. destruct (node_add_object _ np) as [n1|] eqn:E1; cbn [obind] in N; [|discriminate].
        assert (X : small n1) by (eapply add_object_small; [exact S| | |exact E1]; [constructor; constructor|cbn; lia]).
        inversion N; subst. destruct X as [A C]. constructor; auto. cbn. apply Forall_app. split; auto. constructor; [exact Logic.I|constructor].
      - destruct (new_shapes np n0 N) as [A _]. apply Forall2_length' in A. auto. }
    destruct Sm as [Sm Ln]. pose proof (run_frames ops u n0 w u' n' w' tr F M G Sm ltac:(rewrite Ln; lia) E T) as X.
    rewrite Forall_forall in X. exact (X _ I).
  Qed.
End S.

Lemma frame_parses d : is_frame d -> exists m, msg_parse msg_new d = Ret (true, m) /\ (m_esv m <> 0x5E -> msg_bytes m = d).
Proof.
  intros (f & F & ->). exists (msg_of_frame msg_new f). rewrite <- (app_nil_r (wire f)) at 1. split; [apply parse_wire; auto|].
  intro E. destruct (msg_of_frame_wf f F) as [W L]. rewrite msg_bytes_wire by auto. rewrite frame_of_msg_of_frame; auto.
Qed.
Section R.
  Context {U : Type} {P : Profile} {HO : HashOrder} {Os : OS}.
  (** Every refusal of a write-read request is no frame: receivers built with this
      library panic on it (C02). *)
  Theorem C90_refused_refuted : forall w (u : U) n m u' n' w' tr to data, received m -> m_esv m = 0x6E -> (length (m_set m) <= 127)%nat ->
    node_observe w u n m = Ret (u', n', w') -> since w w' tr -> In (to, data) (offered tr) -> service_of data = 0x5E ->
    ~ is_frame data /\ msg_parse msg_new data = Panic.
  Proof.
    intros w u n m u' n' w' tr to data R E L O T I S. apply received_rcvd in R. pose proof R as [W Li B].
    destruct (observe_offered w u n m u' n' w' tr to data R O T I) as (e & ps & ss & gs & t & n2 & Q & H & _ & -> & Wt & _).
    rewrite with_t_service in S by apply W. subst e.
    destruct (handled_error _ _ _ _ _ _ _ R H) as [_ X]; [cbn; auto 10|]. destruct (failure_eq m W Q) as (e & _ & Y). rewrite Y, E in X.
    inversion X. subst e ps ss gs. clear X Y.
    assert (Z : msg_parse msg_new (msg_bytes (with_t m t 0x5E (m_set m ++ m_set m) [] [])) = Panic).
    { assert (Wf : msg_wf (with_t m t 0x5E (m_set m ++ m_set m) [] [])) by (apply with_t_wf; auto; [lia|apply Forall_app; split; apply W]).
      assert (Lm : list_in_limit (m_set m ++ m_set m)).
      { destruct Li as (_ & (_ & L2) & _). split; [rewrite app_length; lia|apply Forall_app; auto]. }
      rewrite msg_bytes_eq, header_wire by auto. cbn [m_esv with_t].
      change (is_double 0x5E && negb (0x5E =? 0x5E)) with false. cbv iota. cbn [m_props with_t].
      rewrite props_bytes_wire by auto. rewrite <- !app_assoc.
      apply parse_panics; [unfold two_lists; auto|]. apply wprops_ok_wps; auto. apply Wf. }
    split; auto. intro F. apply frame_parses in F as (x & F & _). congruence.
  Qed.
End R.
Print Assumptions C90_frames_partial.
Print Assumptions C90_refused_refuted.

(** *** Cases and counterexamples *)
(** A test for being no frame. *)
Definition not_frame (d : list N) : bool :=
  match msg_parse msg_new d with
  | Ret (true, m) => negb (m_esv m =? 0x5E) && negb (Nat.eqb (length (msg_bytes m)) (length d))
  | _ => true
  end.
Lemma not_frame_spec d : not_frame d = true -> ~ is_frame d.
Proof.
  unfold not_frame. intros H F. apply frame_parses in F as (m & E & X). rewrite E in H. apply andb_true_iff in H as [H1 H2].
  apply negb_true_iff, N.eqb_neq in H1. rewrite (X H1), Nat.eqb_refl in H2. discriminate.
Qed.
Definition lamp_read (c : N) : list (node_op unit) := [OpRecv (ex_rcv (to_lamp 7 0x62 [1; c; 0]))].
(** Some datagram that was sent is no frame. *)
Lemma sent_not_frame (l : list (sockaddr * list N)) : existsb (fun x => not_frame (snd x)) l = true -> exists to data, In (to, data) l /\ ~ is_frame data.
Proof. intro H. apply existsb_exists in H as ([to d] & I & H). exists to, d. split; auto. apply not_frame_spec. exact H. Qed.
(** 256 octets stored by the application: the answer to a read is no frame. *)
Theorem C90_long_data_refuted : let ops := ex_ops [yes] ++ [OpSetData 0x029101 0x80 (repeat 1 256)] ++ lamp_read 0x80 in
  Forall (op_ok (P := true) (HO := ex_order)) ops /\ panics (ex_run ops) = false /\
  exists to data, In (to, data) (sent (w_trace (ex_w ops))) /\ ~ is_frame data.
Proof.
  cbv zeta. split; [apply Forall_app; split; [apply ex_ops_ok; typed|]|].
  { constructor; [cbn [op_ok]; apply Forall_forall; intros x I; apply repeat_spec in I; subst; unfold octet; lia|]. constructor; [cbn [op_ok]; rcv|constructor]. }
  split; [vm_compute; reflexivity|]. apply sent_not_frame. vm_compute. reflexivity.
Qed.
(** 85 devices: the announcement is no frame. *)
Theorem C90_many_devices_refuted : let ops := lamps 85 ++ [OpStart] in
  Forall (op_ok (P := true) (HO := ex_order)) ops /\ panics (ex_run ops) = false /\
  exists to data, In (to, data) (sent (w_trace (ex_w ops))) /\ ~ is_frame data.
Proof.
  cbv zeta. destruct (lamps_ok 85) as [A B]. split; [apply Forall_app; split; auto; repeat constructor|].
  split; [vm_compute; reflexivity|]. apply sent_not_frame. vm_compute. reflexivity.
Qed.
Print Assumptions C90_long_data_refuted.
Print Assumptions C90_many_devices_refuted.
Lemma short_check o : forallb (fun p => Nat.leb (length (p_data p)) 255) (object_properties o) = true -> short o.
Proof. intros H p I. rewrite forallb_forall in H. apply H in I. apply Nat.leb_le. exact I. Qed.
(** A start and a read: the hypotheses hold, and two datagrams are sent. *)
Example C90_case : let ops := ex_ops [yes] ++ [OpSetData 0x029101 0x80 (repeat 1 255)] ++ lamp_read 0x80 in
  obj_built (P := true) (HO := ex_order) ex_np /\ short ex_np /\ Forall (op_ok (P := true) (HO := ex_order)) ops /\ Forall modest ops /\
  (length (objects_added ops) <= 84)%nat /\ panics (ex_run ops) = false /\
  map (fun x => (length (snd x), firstn 14 (snd x))) (sent (w_trace (ex_w ops))) =
    [(18%nat, [0x10; 0x81; 0; 1; 0x0E; 0xF0; 1; 0x0E; 0xF0; 1; 0x73; 1; 0xD5; 4]);
     (269%nat, [0x10; 0x81; 0; 7; 2; 0x91; 1; 5; 0xFF; 1; 0x72; 1; 0x80; 255])].
Proof.
  cbv zeta. split; [apply ex_np_built|]. split; [apply short_check; vm_compute; reflexivity|]. split; [apply Forall_app; split; [apply ex_ops_ok; typed|]|].
  { constructor; [cbn [op_ok]; apply Forall_forall; intros x I; apply repeat_spec in I; subst; unfold octet; lia|]. constructor; [cbn [op_ok]; rcv|constructor]. }
  split.
  { apply Forall_app. split.
    - constructor; [apply short_check; vm_compute; reflexivity|]. constructor; [|constructor; [exact I|constructor]].
      intros u o e p u' o' b S E. inversion E; subst. exact S.
    - constructor; [cbn [modest]; rewrite repeat_length; lia|]. constructor; [exact I|constructor]. }
  split; [vm_compute; lia|]. split; vm_compute; reflexivity.
Qed.
