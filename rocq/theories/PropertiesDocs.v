(** C132: devices and controllers written as the documentation shows. *)
From Verif Require Import Base HMap ModelCodec ModelMessages ModelObject ModelTransport ModelNode ModelDevice ModelController ModelTools ModelDocs
  SpecWire SpecObject SpecNode SpecDevice
  ProofsCodec ProofsCodec2 PropertiesCodec ProofsObject ProofsObject2 ProofsObject3 PropertiesObject PropertiesDb
  ProofsNode ProofsNode2 ProofsNode3 ProofsNode4 ExamplesNode PropertiesNode ProofsDevice PropertiesTrans PropertiesProfile PropertiesTransport ProofsExchange ProofsHistory
  PropertiesDevice PropertiesDevice2 PropertiesDevice3.

(* ------------------------------------------------------------------ *)
(** ** The two ends of a request *)
Section Docs.
  Context {P : Profile} {HO : HashOrder} {O : OS} {U : Type}.

  (** Carried out: answered with success if the service has an answer, the data are
      stored, and a read shows what is stored. *)
  Definition carried_out (seed : N) (u : U) (n : node U) (m : message) : Prop :=
    exists n' res o', node_message_received seed u n m = Ret (u, n', res) /\ option_map m_esv res = success_service (m_esv m) /\
      addressed (n_objects n') (msg_deoj m) o' /\
      (forall c d, last_data c (writes_of m) = Some d -> object_property_data o' c = Some d) /\
      (forall r, res = Some r -> In (m_esv m) [0x62; 0x63] ->
        Forall2 (fun q a => pp_code a = pp_code q /\ object_property_data o' (pp_code q) = Some (pp_data a)) (m_props m) (m_props r)).
  (** Refused: an error response, and nothing has changed. *)
  Definition refused (seed : N) (u : U) (n : node U) (m : message) : Prop :=
    exists r, node_message_received seed u n m = Ret (u, n, Some r) /\ failure_service (m_esv m) = Some (m_esv r).
  (** A request to the device [code] which the rules of the object allow. *)
  Definition allowed_request (seed code : N) (n : node U) (m : message) : Prop :=
    received m /\ In (m_esv m) [0x60; 0x61; 0x62; 0x63; 0x6E] /\ msg_deoj m = code /\
    exists o, addressed (n_objects n) code o /\ permitted o m /\ object_clone seed o <> Panic.

  Lemma deciding seed (u : U) n m o copy b : request_service (m_esv m) -> addressed (n_objects n) (msg_deoj m) o -> permitted o m ->
    object_clone seed o = Ret copy -> request_received (n_handlers n) u copy m = Ret (u, copy, b) ->
    exists n' res, node_message_received seed u n m = Ret (u, n', res) /\
      if b then exists o', same_shape o o' /\ res = object_message_received o' m else n' = n /\ res = Some (response_error_message m).
  Proof.
    intros Q A Pm C1 Rr.
    assert (E : exists n' res, node_message_received seed u n m = Ret (u, n', res)).
    { unfold node_message_received. rewrite (request_not_response _ Q : esv_is_response (msg_esv m) = false), (addressed_find _ _ _ A).
      rewrite (proj1 (request_service_spec _) Q : esv_is_request (msg_esv m) = true). cbn [negb].
      rewrite (proj2 (request_valid_spec o m Q) Pm). cbn [negb]. rewrite C1. cbn [obind]. rewrite Rr. cbn [obind]. destruct b; cbn [negb]; eauto. }
    destruct E as (n' & res & E). exists n', res. split; [exact E|]. apply handled_spec in E.
    inversion E as [N|o0 _ Ao V|o0 copy0 u1 copy' _ Ao V C0 D1|pre o0 post copy0 u1 copy' _ Eo Ec Fp V C0 D1 Eu En Er']; subst.
    - exfalso. destruct N as [N|N]; [|tauto]. eapply addressed_not_owned; eauto.
    - exfalso. assert (o0 = o) as -> by (eapply addressed_unique; eauto). tauto.
    - assert (o0 = o) as -> by (eapply addressed_unique; eauto). rewrite C1 in C0. inversion C0; subst copy0. rewrite Rr in D1. inversion D1; subst. auto.
    - assert (o0 = o) as -> by (apply (addressed_unique (n_objects n) (msg_deoj m)); auto; exists pre, post; auto).
      rewrite C1 in C0. inversion C0; subst copy0. rewrite Rr in D1. inversion D1; subst. exists (answered o m copy'). split; [apply answered_shape|reflexivity].
  Qed.

  Lemma carried seed w (u : U) n m o copy : reachable u n w -> received m -> In (m_esv m) [0x60; 0x61; 0x62; 0x63; 0x6E] ->
    addressed (n_objects n) (msg_deoj m) o -> permitted o m -> object_clone seed o = Ret copy ->
    request_received (n_handlers n) u copy m = Ret (u, copy, true) -> carried_out seed u n m.
  Proof.
    intros Rc R Is A Pm C1 Rr. assert (Q : request_service (m_esv m)) by (unfold request_service; cbn in *; tauto).
    destruct (deciding seed u n m o copy true Q A Pm C1 Rr) as (n' & res & E & o' & Sh & Er).
    pose proof (received_rcvd _ R) as Rd.
    destruct (success_eq o o' m (rc_wf _ Rd) (rc_body _ Rd) Q Pm Sh) as [[E60 N]|(e & ps & ss & gs & Se & X & _)].
    - rewrite N in Er. subst res.
      destruct (C40_write_visible seed u n m u n' None o R) as (o1 & A1 & W); auto; [rewrite E60; cbn; auto|intros r X; discriminate|].
      exists n', None, o1. split; [exact E|]. split; [rewrite E60; reflexivity|]. split; [exact A1|]. split; [exact W|]. intros r Y. discriminate.
    - rewrite X in Er. subst res.
      assert (Ne : forall r, Some (resp m e ps ss gs) = Some r -> ~ error_service (m_esv r)).
      { intros r Y. inversion Y; subst r. cbn [m_esv resp]. unfold success_service in Se. cbn in Is.
        destruct Is as [Z|[Z|[Z|[Z|[Z|[]]]]]]; rewrite <- Z in Se; inversion Se; subst e; cbn; lia. }
      assert (Wn : In (m_esv m) [0x62; 0x63] -> writes_of m = []).
      { intros I. unfold writes_of. destruct I as [Z|[Z|[]]]; rewrite <- Z; reflexivity. }
      destruct (in_dec N.eq_dec (m_esv m) [0x62; 0x63]) as [I|I].
      + destruct (C41_read_current w u n m Rc R I seed u n' _ E (Ne _ eq_refl)) as (o1 & A1 & _ & _ & _ & F).
        exists n', (Some (resp m e ps ss gs)), o1. split; [exact E|]. split; [symmetry; exact Se|]. split; [exact A1|]. split.
        * intros c d L. rewrite (Wn I) in L. discriminate.
        * intros r Y _. inversion Y; subst r. exact F.
      + destruct (C40_write_visible seed u n m u n' (Some (resp m e ps ss gs)) o R) as (o1 & A1 & W); auto; [cbn in *; tauto|].
        exists n', (Some (resp m e ps ss gs)), o1. split; [exact E|]. split; [symmetry; exact Se|]. split; [exact A1|]. split; [exact W|].
        intros r Y Z. contradiction.
  Qed.
  Lemma not_carried seed (u : U) n m o copy : received m -> request_service (m_esv m) ->
    addressed (n_objects n) (msg_deoj m) o -> permitted o m -> object_clone seed o = Ret copy ->
    request_received (n_handlers n) u copy m = Ret (u, copy, false) -> refused seed u n m.
  Proof.
    intros R Q A Pm C1 Rr. destruct (deciding seed u n m o copy false Q A Pm C1 Rr) as (n' & res & E & -> & ->).
    exists (response_error_message m). split; [exact E|]. pose proof (received_rcvd _ R) as Rd.
    destruct (failure_eq m (rc_wf _ Rd) Q) as (e & Fe & ->). exact Fe.
  Qed.

  Lemma ask_user (f : user_handler (U := U)) (dec : pprop -> bool) u o e ps : (forall p, In p ps -> f u o e p = Ret (u, o, dec p)) ->
    forall all, ask_handler (HUser f) u o e ps all = Ret (u, o, all && forallb dec ps).
  Proof.
    induction ps as [|p r IH]; intros F all; cbn [ask_handler forallb]; [rewrite andb_true_r; reflexivity|].
    cbn [call_handler]. rewrite (F p (or_introl eq_refl)). cbn [obind]. rewrite IH by (intros q I; apply F; right; auto).
    destruct (dec p), all; reflexivity.
  Qed.
  Lemma ask_node (u : U) o e ps : object_code o <> 0x0EF001 -> forall all, ask_handler HNode u o e ps all = Ret (u, o, all && forallb (fun _ => false) ps).
  Proof.
    intros N. induction ps as [|p r IH]; intros all; cbn [ask_handler forallb]; [rewrite andb_true_r; reflexivity|].
    cbn [call_handler]. unfold node_handler. destruct (N.eqb_spec (object_code o) NODE_PROFILE_OBJECT_CODE) as [X|X]; [contradiction|]. cbn [negb obind].
    rewrite IH. destruct all; reflexivity.
  Qed.
  Lemma asked_two (f : user_handler (U := U)) (dec : pprop -> bool) u o m : object_code o <> 0x0EF001 ->
    (forall p, In p (m_props m) -> f u o (msg_esv m) p = Ret (u, o, dec p)) ->
    request_received [HNode; HUser f] u o m = Ret (u, o, forallb dec (m_props m)).
  Proof.
    intros N F. unfold request_received. cbn [length Nat.eqb ask_handlers]. rewrite ask_node by exact N. cbn [obind].
    rewrite (ask_user f dec) by exact F. cbn [obind]. f_equal. f_equal. destruct (m_props m) as [|p r]; cbn [forallb andb]; auto.
    destruct (dec p && forallb dec r); reflexivity.
  Qed.
  Lemma two_way (f : user_handler (U := U)) (dec : esv -> pprop -> bool) seed code w (u : U) n m : reachable u n w -> n_handlers n = [HNode; HUser f] -> code <> 0x0EF001 ->
    allowed_request seed code n m ->
    (forall o p, object_code o = code -> In p (m_props m) -> f u o (msg_esv m) p = Ret (u, o, dec (msg_esv m) p)) ->
    (forallb (dec (msg_esv m)) (m_props m) = true -> carried_out seed u n m) /\ (forallb (dec (msg_esv m)) (m_props m) = false -> refused seed u n m).
  Proof.
    intros Rc Hh Np (R & Is & D & o & A & Pm & Cl) F. destruct (object_clone seed o) as [copy|] eqn:C1; [clear Cl|contradiction Cl; reflexivity].
    pose proof A as (pre & post & Eo & Ec & Fp).
    assert (Cc : object_code copy = code). { rewrite <- Ec. apply object_code_codes. eapply clone_codes; eauto. }
    assert (Rr : request_received (n_handlers n) u copy m = Ret (u, copy, forallb (dec (msg_esv m)) (m_props m))).
    { rewrite Hh. apply asked_two; [congruence|]. intros p I. apply F; auto. }
    rewrite <- D in A. split; intro B; rewrite B in Rr.
    - eapply carried; eauto.
    - eapply not_carried; eauto. unfold request_service; cbn in *; tauto.
  Qed.

  (* ---------------------------------------------------------------- *)
  (** ** doc/device_overview.md *)
  (** Reads and requests for notifications are answered, and a write without response is
      carried out exactly if the check of the handler passes for all its properties. *)
  Theorem C132_overview_partial : forall seed code check w (u : U) n m, reachable u n w -> code <> 0x0EF001 ->
    n_handlers n = [HNode; HUser (overview_handler code check)] -> allowed_request seed code n m ->
    (In (m_esv m) [0x62; 0x63] -> carried_out seed u n m) /\
    (m_esv m = 0x60 -> (Forall (fun p => check (pp_code p) (pp_data p) = true) (m_props m) -> carried_out seed u n m) /\
                       ((exists p, In p (m_props m) /\ check (pp_code p) (pp_data p) = false) -> refused seed u n m)).
  Proof.
    intros seed code check w u n m Rc Np Hh Al.
    destruct (two_way (overview_handler code check)
      (fun e p => match e with EWriteRequest | EWriteReadRequest => check (pp_code p) (pp_data p) | _ => true end) seed code w u n m Rc Hh Np Al) as [Y N].
    { intros o p E _. unfold overview_handler. rewrite E, N.eqb_refl. cbn [negb]. destruct (msg_esv m), (check (pp_code p) (pp_data p)); reflexivity. }
    split.
    - intros I. apply Y. unfold msg_esv. destruct I as [<-|[<-|[]]]; cbn; apply forallb_forall; reflexivity.
    - intros E. unfold msg_esv in Y, N. rewrite E in Y, N. change (esv_from_u8 0x60) with EWriteRequest in Y, N. cbv beta iota in Y, N. split.
      + intros F. apply Y. apply forallb_forall. intros p I. exact (proj1 (Forall_forall _ _) F p I).
      + intros (p & I & C). apply N. apply not_true_iff_false. intro X. rewrite forallb_forall in X. specialize (X p I). congruence.
  Qed.
  (** Writes with a response, and write-read requests, are carried out whatever the check
      of the handler says. *)
  Theorem C132_overview_unchecked_refuted : forall seed code check w (u : U) n m, reachable u n w -> code <> 0x0EF001 ->
    n_handlers n = [HNode; HUser (overview_handler code check)] -> allowed_request seed code n m ->
    In (m_esv m) [0x61; 0x6E] -> carried_out seed u n m.
  Proof.
    intros seed code check w u n m Rc Np Hh Al I.
    destruct (two_way (overview_handler code check)
      (fun e p => match e with EWriteRequest | EWriteReadRequest => check (pp_code p) (pp_data p) | _ => true end) seed code w u n m Rc Hh Np Al) as [Y _].
    { intros o p E _. unfold overview_handler. rewrite E, N.eqb_refl. cbn [negb]. destruct (msg_esv m), (check (pp_code p) (pp_data p)); reflexivity. }
    apply Y. destruct I as [E|[E|[]]]; unfold msg_esv; rewrite <- E.
    - cbn. apply forallb_forall. reflexivity.
    - destruct Al as (R & _). pose proof (received_rcvd _ R) as Rd. destruct (rc_body _ Rd) as [X Z].
      rewrite X by (rewrite <- E; reflexivity). reflexivity.
  Qed.

  (* ---------------------------------------------------------------- *)
  (** ** doc/device_inside.md *)
  (** A write of one octet to the operating status is carried out exactly if the octet is
      0x30 or 0x31; a write of one other property is refused. *)
  Theorem C132_inside_partial : forall seed code w (u : U) n m c d, reachable u n w -> code <> 0x0EF001 ->
    n_handlers n = [HNode; HUser (inside_handler code)] -> allowed_request seed code n m -> In (m_esv m) [0x60; 0x61] ->
    m_props m = [PProp c d] -> (c = 0x80 -> length d = 1%nat) ->
    (c = 0x80 /\ (d = [0x30] \/ d = [0x31]) -> carried_out seed u n m) /\
    (~ (c = 0x80 /\ (d = [0x30] \/ d = [0x31])) -> refused seed u n m).
  Proof.
    intros seed code w u n m c d Rc Np Hh Al I Ep L.
    assert (Od : Forall octet d).
    { destruct Al as (R & _). pose proof (wf_props _ (rc_wf _ (received_rcvd _ R))) as W. rewrite Ep in W. apply Forall_inv in W. exact (proj2 W). }
    destruct (two_way (inside_handler code)
      (fun _ p => (pp_code p =? 0x80) && match pp_data p with [x] => (x =? 0x30) || (x =? 0x31) | _ => false end) seed code w u n m Rc Hh Np Al) as [Y N].
    { intros o p E Ip. rewrite Ep in Ip. destruct Ip as [<-|[]]. unfold inside_handler. rewrite E, N.eqb_refl. cbn [negb pp_code pp_data].
      destruct (N.eqb_spec c 0x80) as [Ec|Ec]; [|reflexivity]. specialize (L Ec). destruct d as [|x [|y r]]; try discriminate L.
      rewrite to_u32_1 by (exact (Forall_inv Od)). cbn [obind andb]. destruct (x =? 0x30); [reflexivity|]. destruct (x =? 0x31); reflexivity. }
    rewrite Ep in Y, N. cbn [forallb pp_code pp_data] in Y, N. rewrite andb_true_r in Y, N. split.
    - intros [-> [->| ->]]; apply Y; reflexivity.
    - intros X. apply N. apply not_true_iff_false. intro Z. apply X. apply andb_true_iff in Z as [Z1 Z2]. apply N.eqb_eq in Z1. split; [exact Z1|].
      specialize (L Z1). destruct d as [|x [|y r]]; try discriminate L. apply orb_true_iff in Z2 as [Z2|Z2]; apply N.eqb_eq in Z2; subst x; auto.
  Qed.
  (** Every read and every request for a notification is refused, of whatever properties
      and whatever their data. *)
  Theorem C132_inside_reads_refuted : forall seed code w (u : U) n m, reachable u n w -> code <> 0x0EF001 ->
    n_handlers n = [HNode; HUser (inside_handler code)] -> allowed_request seed code n m -> In (m_esv m) [0x62; 0x63] ->
    m_props m <> [] -> (forall p, In p (m_props m) -> pp_data p = []) -> refused seed u n m.
  Proof.
    intros seed code w u n m Rc Np Hh Al I Ne Em.
    destruct (two_way (inside_handler code) (fun _ _ => false) seed code w u n m Rc Hh Np Al) as [_ N].
    { intros o p E Ip. unfold inside_handler. rewrite E, N.eqb_refl. cbn [negb]. rewrite (Em p Ip). destruct (pp_code p =? 0x80); reflexivity. }
    apply N. destruct (m_props m); [congruence|reflexivity].
  Qed.

  (* ---------------------------------------------------------------- *)
  (** ** The example of src/controller.rs *)
  (** A device of this library answers a read which names no property with no property,
      whatever its handlers do. *)
  Lemma nothing_asked seed (u : U) n m u' n' r : received m -> m_esv m = 0x62 -> m_props m = [] ->
    node_message_received seed u n m = Ret (u', n', Some r) -> all_props r = [].
  Proof.
    intros R E Ep X. pose proof (received_rcvd _ R) as Rd. assert (Q : request_service (m_esv m)) by (rewrite E; cbn; auto).
    destruct (failure_eq m (rc_wf _ Rd) Q) as (e & _ & Fe). rewrite E, Ep in Fe. cbn [N.eqb Pos.eqb] in Fe.
    apply handled_spec in X. inversion X as [N|o0 _ Ao V|o0 copy0 u1 copy' _ Ao V C0 D1|pre o0 post copy0 u1 copy' _ Eo Ec Fp V C0 D1 Eu En Er']; subst;
      try (rewrite Fe; reflexivity).
    destruct (success_eq o0 (answered o0 m copy') m (rc_wf _ Rd) (rc_body _ Rd) Q V (answered_shape _ _ _)) as [[_ Y]|(e' & ps & ss & gs & Se & Y & _ & Rdd & _)]; [congruence|].
    assert (r = resp m e' ps ss gs) as -> by congruence. destruct (Rdd (or_introl E)) as (Z & -> & ->). rewrite Ep in Z. inversion Z. reflexivity.
  Qed.
End Docs.

(** What the program asks for, and the data it shows. *)
Definition example_asks (acts : list example_act) : list message := flat_map (fun a => match a with XPost _ m => [m] | _ => [] end) acts.
Definition example_data (acts : list example_act) : list (N * list N) :=
  flat_map (fun a => match a with XProp c _ (SData d) => [(c, d)] | _ => [] end) acts.

Definition example_fine (ans : nat -> option message) (acts : list example_act) : Prop :=
  Forall (fun m => m_esv m = 0x62 /\ all_props m = []) (example_asks acts) /\
  ((forall k m, ans k = Some m -> m_props m = []) -> example_data acts = []).
Lemma fine_app ans a b : example_fine ans a -> example_fine ans b -> example_fine ans (a ++ b).
Proof.
  intros [A1 A2] [B1 B2]. unfold example_fine, example_asks, example_data in *. rewrite !flat_map_app. split; [apply Forall_app; auto|].
  intro H. rewrite (A2 H), (B2 H). reflexivity.
Qed.
Lemma fine_props ans r oc ps : forall k k' acts, example_props ans k r oc ps = Ret (k', acts) -> example_fine ans acts.
Proof.
  induction ps as [|p l IH]; intros k k' acts E; cbn [example_props] in E; [inversion E; subst; split; [constructor|reflexivity]|].
  destruct (negb (prop_is_read_required p)); [eauto|]. destruct (example_shown (ans k)) as [s|] eqn:Es; cbn [obind] in E; [|discriminate].
  destruct (example_props ans (S k) r oc l) as [[k1 a1]|] eqn:E1; cbn [obind fst snd] in E; [|discriminate]. inversion E; subst. clear E.
  destruct (IH _ _ _ E1) as [A B]. split.
  - cbn. constructor; [split; reflexivity|exact A].
  - intro H. cbn. fold (example_data a1). rewrite (B H). unfold example_shown in Es. destruct (ans k) as [m|] eqn:Ea; [|inversion Es; reflexivity].
    unfold msg_opc in Es. rewrite (H k m Ea) in Es. cbn in Es. inversion Es. reflexivity.
Qed.
Lemma fine_objects ans r os : forall k j k' acts, example_objects ans k j r os = Ret (k', acts) -> example_fine ans acts.
Proof.
  induction os as [|o l IH]; intros k j k' acts E; cbn [example_objects] in E; [inversion E; subst; split; [constructor|reflexivity]|].
  destruct (example_props ans k r (object_code o) (object_properties o)) as [[k1 a1]|] eqn:E1; cbn [obind fst snd] in E; [|discriminate].
  destruct (example_objects ans k1 (S j) r l) as [[k2 a2]|] eqn:E2; cbn [obind fst snd] in E; [|discriminate]. inversion E; subst.
  apply (fine_app ans [_]); [split; [constructor|reflexivity]|]. apply fine_app; [eapply fine_props; eauto|eapply IH; eauto].
Qed.
Lemma fine_nodes ans nodes : forall k i k' acts, example_nodes ans k i nodes = Ret (k', acts) -> example_fine ans acts.
Proof.
  induction nodes as [|r l IH]; intros k i k' acts E; cbn [example_nodes] in E; [inversion E; subst; split; [constructor|reflexivity]|].
  destruct (example_objects ans k 0 r (rn_objects r)) as [[k1 a1]|] eqn:E1; cbn [obind fst snd] in E; [|discriminate].
  destruct (example_nodes ans k1 (S i) l) as [[k2 a2]|] eqn:E2; cbn [obind fst snd] in E; [|discriminate]. inversion E; subst.
  apply (fine_app ans [_]); [split; [constructor|reflexivity]|]. apply fine_app; [eapply fine_objects; eauto|eapply IH; eauto].
Qed.

(** The questions: one for every property which must be readable, to its object. *)
Definition required_reads (nodes : list remote_node) : list N :=
  flat_map (fun r => flat_map (fun o => map (fun _ => object_code o mod 2 ^ 24) (filter (fun p => match p_read p with Required => true | _ => false end) (object_properties o))) (rn_objects r)) nodes.
Lemma asks_app a b : example_asks (a ++ b) = example_asks a ++ example_asks b.
Proof. apply flat_map_app. Qed.
Lemma asks_props ans r oc ps : forall k k' acts, example_props ans k r oc ps = Ret (k', acts) ->
  map msg_deoj (example_asks acts) = map (fun _ => oc mod 2 ^ 24) (filter (fun p => match p_read p with Required => true | _ => false end) ps).
Proof.
  induction ps as [|p l IH]; intros k k' acts E; cbn [example_props] in E; [inversion E; reflexivity|].
  unfold prop_is_read_required, rule_required in E. cbn [filter]. destruct (p_read p); cbn [negb] in E; eauto.
  destruct (example_shown (ans k)) as [s|]; cbn [obind] in E; [|discriminate].
  destruct (example_props ans (S k) r oc l) as [[k1 a1]|] eqn:E1; cbn [obind fst snd] in E; [|discriminate]. inversion E; subst.
  change (example_asks (XPost r (example_message oc) :: XProp (p_code p) (p_name p) s :: a1)) with (example_message oc :: example_asks a1).
  cbn [map]. rewrite (IH _ _ _ E1). f_equal. apply C08_set_deoj.
Qed.
Lemma asks_objects ans r os : forall k j k' acts, example_objects ans k j r os = Ret (k', acts) ->
  map msg_deoj (example_asks acts) = flat_map (fun o => map (fun _ => object_code o mod 2 ^ 24) (filter (fun p => match p_read p with Required => true | _ => false end) (object_properties o))) os.
Proof.
  induction os as [|o l IH]; intros k j k' acts E; cbn [example_objects] in E; [inversion E; reflexivity|].
  destruct (example_props ans k r (object_code o) (object_properties o)) as [[k1 a1]|] eqn:E1; cbn [obind fst snd] in E; [|discriminate].
  destruct (example_objects ans k1 (S j) r l) as [[k2 a2]|] eqn:E2; cbn [obind fst snd] in E; [|discriminate]. inversion E; subst.
  change (example_asks (XObject j (object_code o) :: a1 ++ a2)) with (example_asks (a1 ++ a2)). rewrite asks_app, map_app.
  rewrite (asks_props _ _ _ _ _ _ _ E1), (IH _ _ _ _ E2). reflexivity.
Qed.
Lemma asks_nodes ans nodes : forall k i k' acts, example_nodes ans k i nodes = Ret (k', acts) -> map msg_deoj (example_asks acts) = required_reads nodes.
Proof.
  induction nodes as [|r l IH]; intros k i k' acts E; cbn [example_nodes] in E; [inversion E; reflexivity|].
  destruct (example_objects ans k 0 r (rn_objects r)) as [[k1 a1]|] eqn:E1; cbn [obind fst snd] in E; [|discriminate].
  destruct (example_nodes ans k1 (S i) l) as [[k2 a2]|] eqn:E2; cbn [obind fst snd] in E; [|discriminate]. inversion E; subst.
  change (example_asks (XNode i (rn_addr r) :: a1 ++ a2)) with (example_asks (a1 ++ a2)). rewrite asks_app, map_app.
  rewrite (asks_objects _ _ _ _ _ _ _ E1), (IH _ _ _ _ E2). reflexivity.
Qed.

(** The answer of a device of this library, whatever its handlers, to a read which names
    no property. *)
Definition library_answer (m : message) : Prop :=
  exists (P : Profile) (HO : HashOrder) (U : Type) seed (u : U) n q u' n' r, received q /\ m_esv q = 0x62 /\ all_props q = [] /\
    node_message_received seed u n q = Ret (u', n', Some r) /\ m_props m = m_props r.
(** The example asks every object which it found once for every property that must be
    readable, but names no property; from devices of this library it gets to show
    nothing. *)
Theorem C132_example_refuted : forall ans nodes k acts, example_nodes ans 0 0 nodes = Ret (k, acts) ->
  map msg_deoj (example_asks acts) = required_reads nodes /\
  Forall (fun m => m_esv m = 0x62 /\ all_props m = []) (example_asks acts) /\
  ((forall i m, ans i = Some m -> library_answer m) -> example_data acts = []).
Proof.
  intros ans nodes k acts E. destruct (fine_nodes ans nodes 0 0 k acts E) as [A B]. split; [exact (asks_nodes _ _ _ _ _ _ E)|]. split; [exact A|].
  intro H. apply B. intros i m Ei. destruct (H i m Ei) as (P & HO & U & seed & u & n & q & u' & n' & r & R & Eq & Ep & X & ->).
  unfold all_props in Ep. apply app_eq_nil in Ep as [Ep _].
  pose proof (nothing_asked seed u n q u' n' r R Eq Ep X) as Y. unfold all_props in Y. apply app_eq_nil in Y as [Y _]. exact Y.
Qed.
Print Assumptions C132_overview_partial.
Print Assumptions C132_overview_unchecked_refuted.
Print Assumptions C132_inside_partial.
Print Assumptions C132_inside_reads_refuted.
Print Assumptions C132_example_refuted.

(* ------------------------------------------------------------------ *)
(** ** Cases *)
Section Cases.
  Local Existing Instance ex_order.
  Local Existing Instance ex_os.
  Local Instance prof : Profile := true.
  (** The services of what a lamp with the handler [h] sends, and the data of [c]. *)
  Definition doc_ops (h : user_handler (U := unit)) (ms : list message) : list (node_op unit) :=
    OpAddObject ml_lamp :: OpAddHandler (HUser h) :: OpStart :: map OpRecv ms.
  Definition doc_sent (h : user_handler (U := unit)) (ms : list message) : list N :=
    map (fun x => service_of (snd x)) (sent (w_trace (ex_w (doc_ops h ms)))).
  Definition doc_data (h : user_handler (U := unit)) (ms : list message) (c : N) : option (list N) :=
    device_property (Device MONOLIGHT_CODE) (ex_n (doc_ops h ms)) c.
  (** A handler whose check accepts 0x30 for 0x80 only. *)
  Definition only_on (c : N) (d : list N) : bool := (c =? 0x80) && bytes_eqb d [0x30].
  Definition say e body : message := ex_rcv (to_lamp 5 e body).
  (** Write 0x31 without and with a response, then read. *)
  Example C132_case_overview : let h := overview_handler MONOLIGHT_CODE only_on in
    doc_sent h [say 0x60 [1; 0x80; 1; 0x31]; say 0x62 [1; 0x80; 0]] = [0x73; 0x50; 0x72] /\ doc_data h [say 0x60 [1; 0x80; 1; 0x31]] 0x80 = Some [0x30] /\
    doc_sent h [say 0x61 [1; 0x80; 1; 0x31]] = [0x73; 0x71] /\ doc_data h [say 0x61 [1; 0x80; 1; 0x31]] 0x80 = Some [0x31] /\
    doc_sent h [say 0x6E [1; 0x80; 1; 0x31; 0]] = [0x73; 0x7E] /\ doc_data h [say 0x6E [1; 0x80; 1; 0x31; 0]] 0x80 = Some [0x31].
  Proof. cbv zeta. repeat (split; [vm_compute; reflexivity|]). vm_compute. reflexivity. Qed.
  Example C132_case_inside : let h := inside_handler MONOLIGHT_CODE in
    doc_sent h [say 0x61 [1; 0x80; 1; 0x31]; say 0x61 [1; 0x80; 1; 0x32]; say 0x61 [1; 0x81; 1; 8]; say 0x62 [1; 0x80; 0]; say 0x63 [1; 0x82; 0]] =
      [0x73; 0x71; 0x51; 0x51; 0x52; 0x53] /\ doc_data h [say 0x61 [1; 0x80; 1; 0x31]; say 0x61 [1; 0x80; 1; 0x32]] 0x80 = Some [0x31].
  Proof. cbv zeta. split; vm_compute; reflexivity. Qed.
  Lemma doc_received e body : octets (e :: body) -> (match msg_parse msg_new (to_lamp 5 e body) with Ret (true, _) => true | _ => false end) = true ->
    received (say e body).
  Proof. exact (ml_received e body). Qed.
  (** The premises of the theorems on handlers hold of these. *)
  Example C132_premises : let h := overview_handler MONOLIGHT_CODE only_on in
    reachable tt (ex_n (doc_ops h [])) (ex_w (doc_ops h [])) /\ n_handlers (ex_n (doc_ops h [])) = [HNode; HUser h] /\
    allowed_request 5 MONOLIGHT_CODE (ex_n (doc_ops h [])) (say 0x61 [1; 0x80; 1; 0x31]).
  Proof.
    cbv zeta. split; [|split].
    - apply ex_reachable; [|vm_compute; reflexivity]. constructor; [exact ml_lamp_built|]. constructor; [|constructor; [exact Logic.I|constructor]].
      intros u o e p u' o' b H E. unfold overview_handler in E. destruct (negb _); [inversion E; subst; exact H|].
      destruct e; try destruct (negb _); inversion E; subst; exact H.
    - vm_compute. reflexivity.
    - split; [apply doc_received; [repeat constructor|vm_compute; reflexivity]|]. split; [vm_compute; auto|]. split; [vm_compute; reflexivity|].
      destruct (find_object (n_objects (ex_n (doc_ops (overview_handler MONOLIGHT_CODE only_on) []))) MONOLIGHT_CODE) as [o|] eqn:F; [|vm_compute in F; discriminate].
      exists o. split; [exact (find_object_some _ _ _ F)|]. split.
      + apply request_valid_spec; [vm_compute; auto|].
        assert (X : match find_object (n_objects (ex_n (doc_ops (overview_handler MONOLIGHT_CODE only_on) []))) MONOLIGHT_CODE with
                    | Some o => request_valid o (say 0x61 [1; 0x80; 1; 0x31]) | None => false end = true) by (vm_compute; reflexivity).
        rewrite F in X. exact X.
      + assert (X : match find_object (n_objects (ex_n (doc_ops (overview_handler MONOLIGHT_CODE only_on) []))) MONOLIGHT_CODE with
                    | Some o => match object_clone 5 o with Ret _ => true | Panic => false end | None => false end = true) by (vm_compute; reflexivity).
        rewrite F in X. destruct (object_clone 5 o); congruence.
  Qed.
  (** A node with a lamp was found; it answers the first two requests, with nothing. *)
  Example C132_case_example :
    match example_nodes (fun k => if Nat.ltb k 2 then Some (ex_rcv (to_lamp 5 0x72 [0])) else None) 0 0 [Remote (V4 7, 3610) [ml_lamp]] with
    | Ret (k, acts) => (k, length (example_asks acts), example_data acts, length acts) = (8, 8, [], 18)%nat
    | Panic => False
    end.
  Proof. vm_compute. reflexivity. Qed.
End Cases.
