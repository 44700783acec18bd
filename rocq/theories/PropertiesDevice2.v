(** Properties C82-C88, continued: new devices, shared nodes, the example lamp,
    cases and refutations. *)
From Verif Require Import Base HMap ModelCodec ModelMessages ModelObject ModelTransport ModelNode ModelDevice SpecWire SpecObject SpecNode SpecDevice
  ProofsCodec ProofsCodec2 PropertiesCodec ProofsObject ProofsObject2 ProofsObject3 PropertiesObject PropertiesDb
  ProofsNode ProofsNode2 ProofsNode3 ProofsNode4 ExamplesNode PropertiesNode ProofsDevice PropertiesProfile PropertiesTransport PropertiesDevice.

Section N.
  Context {U : Type} {P : Profile} {HO : HashOrder} {Os : OS}.

  (* ---------------------------------------------------------------- *)
  (** ** C83: new devices *)
  Lemma find_snoc os o oc : not_owned os oc -> find_object (os ++ [o]) oc = if object_code o =? oc then Some o else None.
  Proof.
    intro N. induction N as [|x os Ne N IH]; cbn; auto. destruct (N.eqb_spec (object_code x) oc); [contradiction|exact IH].
  Qed.
  Lemma find_snoc_other os o oc : object_code o <> oc -> find_object (os ++ [o]) oc = find_object os oc.
  Proof.
    intro N. induction os as [|x os IH]; cbn; [|destruct (object_code x =? oc); auto].
    destruct (N.eqb_spec (object_code o) oc); [contradiction|reflexivity].
  Qed.
  Lemma find_add (n n' : node U) o oc : oc <> 0x0EF001 -> node_add_object n o = Ret n' ->
    find_object (n_objects n') oc = find_object (n_objects n ++ [o]) oc.
  Proof.
    intros Ne E. destruct (add_object_eq n o) as (os & E' & C). rewrite E in E'. inversion E'; subst n'.
    cbn [n_objects n_with_objects]. destruct C as [[_ ->]|(pre & np & post & E1 & E2 & E3 & ->)]; auto.
    rewrite E1. apply find_object_replace; [apply sets_code|rewrite E2; intro X; apply Ne; symmetry; exact X].
  Qed.
  Lemma device_code_mod o s code : o_codes o = o_codes (object_set_code (object_new s) code) -> code < 2 ^ 32 -> object_code o = code mod 2 ^ 24.
  Proof. intros E H. unfold object_code. rewrite E. apply (C15_object_code (object_new s) code H). Qed.

  (** A device can always be made; with a code which is not in use on the node it
      holds the data of a new object of its class, and the other devices theirs. *)
  Theorem C83_new_device_partial : forall seed db u1 u2 s (n : node U) i code,
    standard_database seed = Ret db -> uuid_ok u1 -> uuid_ok u2 -> code < 2 ^ 24 -> code <> 0x0EF001 -> not_owned (n_objects n) code ->
    exists o n', device_object db u1 u2 s code = Ret o /\ device_new db u1 u2 s n i code = Ret (Device code, n') /\
      (forall c, device_property (Device code) n' c = object_property_data o c) /\
      (forall oc c, oc <> code -> oc <> 0x0EF001 -> device_property (Device oc) n' c = device_property (Device oc) n c).
  Proof.
    intros seed db u1 u2 s n i code Db U1 U2 Hc Ne No.
    destruct (device_spec seed db u1 u2 s code Db U1 U2) as (o & D & _ & _ & Cd & _).
    assert (Co : object_code o = code). { rewrite (device_code_mod o s code Cd) by lia. apply N.mod_small. lia. }
    unfold device_new, device_init. rewrite D. cbn [obind].
    destruct (add_object_eq (device_node_new n i) o) as (os & E & _). rewrite E. cbn [obind].
    exists o. eexists. split; [reflexivity|]. split; [reflexivity|]. split.
    - intro c. unfold device_property, device_node_property. cbn [dv_code].
      rewrite (find_add (device_node_new n i) _ o code Ne E). change (n_objects (device_node_new n i)) with (n_objects n).
      rewrite (find_snoc _ _ _ No), Co, N.eqb_refl. unfold object_property_data. destruct (object_find_property o c); reflexivity.
    - intros oc c N1 N2. unfold device_property, device_node_property. cbn [dv_code].
      rewrite (find_add (device_node_new n i) _ o oc N2 E). change (n_objects (device_node_new n i)) with (n_objects n).
      rewrite find_snoc_other by congruence. reflexivity.
  Qed.
  (** The documented default values and the typed setters. *)
  Definition typed_setter (k : device_call) : Prop :=
    match k with SetProperty _ _ _ | Property _ _ => False | _ => True end.
  Theorem C83_typed_partial : forall seed db u1 u2 s (n : node U) i code d n1,
    standard_database seed = Ret db -> uuid_ok u1 -> uuid_ok u2 -> code < 2 ^ 24 -> code <> 0x0EF001 -> not_owned (n_objects n) code ->
    device_new db u1 u2 s n i code = Ret (d, n1) ->
    (device_property d n1 0x80 = Some [0x31] /\ device_property d n1 0x81 = Some [0x00] /\
     device_standard_version d n1 = Some [0; 0; 0x50; 0] /\ device_property d n1 0x88 = Some [0x42] /\
     device_property d n1 0x8A = Some [0xFF; 0xFF; 0xFF]) /\
    forall k c x, typed_setter k -> u32_args k -> written k = Some (code, c, x) ->
      exists n2, device_do n1 k = Ret (Done true, n2) /\ device_property d n2 c = Some x /\
        forall oc' c', (oc', c') <> (code, c) -> device_property (Device oc') n2 c' = device_property (Device oc') n1 c'.
  Proof.
    intros seed db u1 u2 s n i code d n1 Db U1 U2 Hc Ne No E.
    destruct (C83_new_device_partial seed db u1 u2 s n i code Db U1 U2 Hc Ne No) as (o & n' & D & E' & Pr & _).
    rewrite E in E'. inversion E'; subst d n'. clear E'.
    destruct (C30_defaults P HO seed db u1 u2 s code o Db U1 U2 D) as (A1 & A2 & A3 & A4 & A5 & _).
    assert (X : device_property (Device code) n1 0x80 = Some [0x31] /\ device_property (Device code) n1 0x81 = Some [0x00] /\
      device_standard_version (Device code) n1 = Some [0; 0; 0x50; 0] /\ device_property (Device code) n1 0x88 = Some [0x42] /\
      device_property (Device code) n1 0x8A = Some [0xFF; 0xFF; 0xFF]).
    { unfold device_standard_version. rewrite !Pr. auto. }
    split; auto. intros k c x T Ua W. destruct X as (X1 & X2 & X3 & X4 & X5). unfold device_standard_version in X3.
    pose proof (proj2 (stores_iff n1 (device_node_property n1)) (fun _ _ => eq_refl)) as S.
    destruct (do_spec k n1 _ S Ua) as (n2 & E2 & S2).
    assert (Y : answer_of (device_node_property n1) k = (Done true, shelve (device_node_property n1) code c x) /\
                exists y, device_node_property n1 code c = Some y).
    { unfold device_property in *. cbn [dv_code] in *.
      destruct k; try destruct T; cbn [written] in W; inversion W; subst; cbn [answer_of written];
        rewrite ?X1, ?X2, ?X3, ?X4, ?X5; split; eauto. }
    destruct Y as [Y [y Ey]]. rewrite Y in *. cbn [fst snd] in *. exists n2. split; auto.
    pose proof (proj1 (stores_iff _ _) S2) as S3. unfold device_property. cbn [dv_code]. split.
    - rewrite <- S3. unfold shelve. rewrite !N.eqb_refl. cbn [andb]. rewrite Ey. reflexivity.
    - intros oc' c' Nn. rewrite <- S3. unfold shelve. destruct (N.eqb_spec oc' code) as [->|]; auto. destruct (N.eqb_spec c' c) as [->|]; auto.
      destruct Nn. reflexivity.
  Qed.

  (** Object codes have three octets. *)
  Lemma codes_stay (ops : list (node_op U)) : forall u n w u' n' w', Forall op_ok ops -> Forall (fun o => object_code o < 2 ^ 24) (n_objects n) ->
    node_run (u, n, w) ops = Ret (u', n', w') -> Forall (fun o => object_code o < 2 ^ 24) (n_objects n').
  Proof.
    assert (Add : forall (n n' : node U) o, object_code o < 2 ^ 24 -> Forall (fun o => object_code o < 2 ^ 24) (n_objects n) ->
      node_add_object n o = Ret n' -> Forall (fun o => object_code o < 2 ^ 24) (n_objects n')).
    { intros n n' o Ho G E. destruct (add_object_eq n o) as (os & E' & C). rewrite E in E'. inversion E'; subst n'.
      cbn [n_objects n_with_objects]. assert (G1 : Forall (fun o => object_code o < 2 ^ 24) (n_objects n ++ [o])) by (apply Forall_app; auto).
      destruct C as [[_ ->]|(pre & np & post & E1 & _ & _ & ->)]; auto. rewrite E1 in G1. apply Forall_app in G1 as [G1 G2].
      apply Forall_app. split; auto. constructor; [rewrite sets_code; exact (Forall_inv G2)|exact (Forall_inv_tail G2)]. }
    assert (Byte : forall (n : node U) c v, Forall (fun o => object_code o < 2 ^ 24) (n_objects n) ->
      Forall (fun o => object_code o < 2 ^ 24) (n_objects (set_object_properties_byte n c v))).
    { intros n c v G. cbn. apply Forall_map. eapply Forall_impl; [|exact G]. intros o H. cbn beta. rewrite set_code_same. exact H. }
    induction ops as [|op ops IH]; intros u n w u' n' w' F G E; cbn [node_run] in E; [inversion E; subst; exact G|].
    destruct (node_step (u, n, w) op) as [[[u1 n1] w1]|] eqn:E1; cbn [obind] in E; [|discriminate].
    apply (IH u1 n1 w1 u' n' w' (Forall_inv_tail F)); auto. clear IH E.
    pose proof (Forall_inv F) as Ok. destruct op; cbn [node_step] in E1; cbn [op_ok] in Ok.
    - destruct (node_add_object n o) as [n2|] eqn:E2; cbn [obind] in E1; [|discriminate]. inversion E1; subst.
      eapply Add; [|exact G|exact E2]. apply built_code. exact Ok.
    - inversion E1; subst. exact G.
    - inversion E1; subst. exact G.
    - inversion E1; subst. unfold set_data. destruct (find_object (n_objects n) obj) as [o|] eqn:E2; auto.
      apply find_object_some in E2 as (pre & post & Eo & Ec & Fp). cbn [n_objects n_with_objects]. rewrite Eo in *.
      rewrite put_object_split by auto. apply Forall_app in G as [G1 G2]. apply Forall_app. split; auto.
      constructor; [rewrite set_code_same; exact (Forall_inv G2)|exact (Forall_inv_tail G2)].
    - destruct (node_send w n to m) as [[[b m1] n2] w2] eqn:E2. inversion E1; subst.
      apply node_send_spec in E2 as (A & _). apply update_tid_keeps in A as (A & _). rewrite A. exact G.
    - destruct (node_post w n to m) as [[[b m1] n2] w2] eqn:E2. inversion E1; subst.
      apply node_post_spec in E2 as (_ & _ & n3 & ok & tr & A & -> & _). apply update_tid_keeps in A as (A & _). cbn [n_objects n_with_post]. rewrite A. exact G.
    - destruct (node_notify w n m) as [[[b m1] n2] w2] eqn:E2. inversion E1; subst.
      apply node_notify_spec in E2 as (A & _). apply update_tid_keeps in A as (A & _). rewrite A. exact G.
    - destruct (node_announce w n) as [[b n2] w2] eqn:E2. inversion E1; subst. apply announce_keeps in E2 as (A & _). rewrite A. exact G.
    - unfold node_announce_property in E1. destruct (node_notify w n _) as [[[b m1] n2] w2] eqn:E2. inversion E1; subst.
      apply node_notify_spec in E2 as (A & _). apply update_tid_keeps in A as (A & _). rewrite A. exact G.
    - destruct (node_start w n) as [[[b n2] w2]|] eqn:E2; cbn [obind] in E1; [|discriminate]. inversion E1; subst.
      apply node_start_spec in E2 as (ok1 & m1 & w2 & _ & _ & [(_ & _ & -> & _)|(_ & m2 & _ & A)]); [exact G|].
      apply announce_keeps in A as (A & _). rewrite A. cbn [n_objects n_with_mgr]. apply Byte, Byte, G.
    - unfold node_stop in E1. destruct (manager_stop _) as [x|]; cbn [obind] in E1; [|discriminate]. inversion E1; subst. cbn [snd n_objects n_with_mgr].
      apply Byte, G.
    - destruct (node_observe w u n m) as [[[u2 n2] w2]|] eqn:E2; cbn [obind] in E1; [|discriminate]. inversion E1; subst.
      apply observe_objects in E2 as [A|(pre & o & post & o' & A & B & C & D)]; [rewrite A; exact G|].
      rewrite A in G. rewrite C. apply Forall_app in G as [G1 G2]. apply Forall_app. split; auto.
      constructor; [|exact (Forall_inv_tail G2)]. replace (object_code o') with (object_code o); [exact (Forall_inv G2)|].
      apply object_code_codes. apply D.
  Qed.
  (** With a larger code the device is made, but none of its properties is ever found. *)
  Theorem C83_large_code_refuted : forall seed db u1 u2 s (u : U) n w i code,
    standard_database seed = Ret db -> uuid_ok u1 -> uuid_ok u2 -> 2 ^ 24 <= code < 2 ^ 32 -> reachable u n w ->
    exists n', device_new db u1 u2 s n i code = Ret (Device code, n') /\
      forall ops u1 n1 w1, Forall op_ok ops -> node_run (u, n', w) ops = Ret (u1, n1, w1) ->
      forall c x, device_property (Device code) n1 c = None /\ device_set_property (Device code) n1 c x = (false, n1).
  Proof.
    intros seed db u1 u2 s u n w i code Db U1 U2 Hc R.
    destruct (device_spec seed db u1 u2 s code Db U1 U2) as (o & D & _ & _ & Cd & _).
    assert (Co : object_code o < 2 ^ 24). { rewrite (device_code_mod o s code Cd) by lia. apply N.mod_lt. lia. }
    unfold device_new, device_init. rewrite D. cbn [obind].
    destruct (add_object_eq (device_node_new n i) o) as (os & E & C). rewrite E. cbn [obind].
    eexists. split; [reflexivity|]. intros ops u1' n1 w1 F Run c x.
    assert (G : Forall (fun o => object_code o < 2 ^ 24) (n_objects n)).
    { destruct R as (np & n0 & u0 & w0 & ops0 & B1 & B2 & B3 & B4). refine (codes_stay ops0 u0 n0 w0 u n w B3 _ B4).
      unfold node_new in B2. destruct (node_add_object _ np) as [n2|] eqn:E2; cbn [obind] in B2; [|discriminate]. inversion B2; subst.
      destruct (add_object_eq (U := U) (Node manager_new [] TID_MIN None [] []) np) as (os2 & E2' & C2).
      rewrite E2' in E2. inversion E2; subst n2. cbn [n_objects n_with_objects app node_add_handler n_with_handlers] in *.
      pose proof (built_code np B1) as Hb. destruct C2 as [[_ ->]|(pre & np' & post & E1 & _ & _ & ->)]; [repeat constructor; exact Hb|].
      destruct pre as [|y [|]]; inversion E1; subst. constructor; [rewrite sets_code; exact Hb|constructor]. }
    assert (G1 : Forall (fun o => object_code o < 2 ^ 24) (n_objects n ++ [o])) by (apply Forall_app; auto).
    assert (G2 : Forall (fun o => object_code o < 2 ^ 24) (n_objects n1)).
    { refine (codes_stay ops u _ w u1' n1 w1 F _ Run). cbn [n_objects n_with_objects].
      destruct C as [[_ ->]|(pre & np & post & E1 & _ & _ & ->)]; [exact G1|].
      change (n_objects (device_node_new n i)) with (n_objects n) in E1. rewrite E1 in G1.
      apply Forall_app in G1 as [Ga Gb]. apply Forall_app. split; auto. constructor; [rewrite sets_code; exact (Forall_inv Gb)|exact (Forall_inv_tail Gb)]. }
    assert (Fn : find_object (n_objects n1) code = None).
    { apply find_object_none. eapply Forall_impl; [|exact G2]. intros y Hy. cbn beta in Hy |- *. lia. }
    unfold device_property, device_set_property, device_node_property, device_node_set_property. cbn [dv_code]. rewrite Fn. auto.
  Qed.

  (* ---------------------------------------------------------------- *)
  (** ** C84 to C87 *)
  (** A second device with the same code has no data of its own: it reads and
      writes those of the first. *)
  Theorem C84_same_code_refuted : forall seed db u1 u2 s (n : node U) i code,
    standard_database seed = Ret db -> uuid_ok u1 -> uuid_ok u2 -> code <> 0x0EF001 -> ~ not_owned (n_objects n) code ->
    exists n', device_new db u1 u2 s n i code = Ret (Device code, n') /\
      (length (n_objects n') = S (length (n_objects n))) /\
      forall c, device_property (Device code) n' c = device_property (Device code) n c.
  Proof.
    intros seed db u1 u2 s n i code Db U1 U2 Ne Ow. apply owned_find in Ow as (x & F).
    destruct (device_spec seed db u1 u2 s code Db U1 U2) as (o & D & _).
    unfold device_new, device_init. rewrite D. cbn [obind].
    destruct (add_object_eq (device_node_new n i) o) as (os & E & C). rewrite E. cbn [obind]. eexists. split; [reflexivity|].
    split.
    - cbn [n_objects n_with_objects]. change (n_objects (device_node_new n i)) with (n_objects n) in C.
      assert (L : length (n_objects n ++ [o]) = S (length (n_objects n))) by (rewrite app_length; cbn; lia).
      destruct C as [[_ ->]|(pre & np & post & E1 & _ & _ & ->)]; auto. rewrite E1 in L. rewrite app_length in *. exact L.
    - intro c. unfold device_property, device_node_property. cbn [dv_code].
      rewrite (find_add (device_node_new n i) _ o code Ne E). change (n_objects (device_node_new n i)) with (n_objects n).
      rewrite (find_object_app _ _ _ _ F), F. reflexivity.
  Qed.
  (** A fault which was reported before the start is forgotten. *)
  Theorem C86_fault_forgotten_refuted : forall w (n : node U) d n1 n2 w2,
    device_set_fault_status d n true = (true, n1) -> device_start w n1 = Ret (true, n2, w2) ->
    device_property d n1 0x88 = Some [0x41] /\ device_property d n2 0x88 = Some [0x42].
  Proof.
    intros w n d n1 n2 w2 S E.
    assert (X : device_property d n1 0x88 = Some [0x41]).
    { unfold device_set_fault_status, device_set_property in S. destruct (set_property_eq n (dv_code d) 0x88 [0x41]) as [B V].
      rewrite S in B, V. cbn [fst snd] in *. unfold device_property. rewrite V. unfold shelve. rewrite !N.eqb_refl. cbn [andb].
      destruct (device_node_property n (dv_code d) 0x88); [reflexivity|discriminate]. }
    split; auto. exact (C85_started w n1 n2 w2 E d 0x88 _ X).
  Qed.
  (** Stopping or dropping one device takes the whole node down, and all its
      devices report "off"; the dropped device stays among the objects. *)
  Theorem C87_drop_stops_all_refuted : forall (n n' : node U), device_drop n = Ret n' ->
    idle (n_mgr n') /\ map object_code (n_objects n') = map object_code (n_objects n) /\
    (forall d x, device_property d n 0x80 = Some x -> device_property d n' 0x80 = Some [0x31]) /\
    (forall w to m, fst (fst (fst (node_send w n' to m))) = false).
  Proof.
    intros n n' E. unfold device_drop in E. destruct (device_stop n) as [[b n1]|] eqn:E1; cbn [obind snd] in E; [|discriminate].
    inversion E; subst n1. assert (E2 : exists b, node_stop n = Ret (b, n')).
    { unfold device_stop in E1. destruct (node_stop n) as [[b1 n1]|]; cbn [obind fst snd] in E1; [|discriminate].
      exists b1. destruct b1; cbn [negb] in E1; inversion E1; reflexivity. }
    destruct E2 as (b1 & E2). pose proof (proj2 (C65_node_stop n b1 n' E2)) as Id. split; auto. split.
    - unfold node_stop in E2. destruct (manager_stop _) as [x|]; cbn [obind] in E2; [|discriminate]. inversion E2; subst.
      cbn [n_objects n_with_mgr set_object_properties_byte n_with_objects]. rewrite map_map. apply map_ext. intro o. apply set_code_same.
    - split.
      + intros d x H. exact (proj2 (C85_stopped n b n' E1) d 0x80 x H).
      + intros w to m. destruct Id as [Iu _]. unfold node_send. destruct (update_tid n' m) as [n1 m1] eqn:Eu.
        apply update_tid_keeps in Eu as (_ & _ & X & _). unfold manager_send. rewrite X, Iu. reflexivity.
  Qed.
  (** What is kept: the other data of the devices. *)
  Theorem C87_data_kept_partial : forall (n n' : node U), device_drop n = Ret n' ->
    forall d c, c <> 0x80 -> device_property d n' c = device_property d n c.
  Proof.
    intros n n' E d c Ne. unfold device_drop in E. destruct (device_stop n) as [[b n1]|] eqn:E1; cbn [obind snd] in E; [|discriminate].
    inversion E; subst n1. assert (E2 : exists b, node_stop n = Ret (b, n')).
    { unfold device_stop in E1. destruct (node_stop n) as [[b1 n1]|]; cbn [obind fst snd] in E1; [|discriminate].
      exists b1. destruct b1; cbn [negb] in E1; inversion E1; reflexivity. }
    destruct E2 as (b1 & E2). unfold device_property. rewrite (stop_property n b1 n' (dv_code d) c E2).
    destruct (device_node_property n (dv_code d) c); auto. replace (c =? 0x80) with false by lia. reflexivity.
  Qed.
End N.
Print Assumptions C83_new_device_partial.
Print Assumptions C83_typed_partial.
Print Assumptions C83_large_code_refuted.
Print Assumptions C84_same_code_refuted.
Print Assumptions C86_fault_forgotten_refuted.
Print Assumptions C87_drop_stops_all_refuted.
Print Assumptions C87_data_kept_partial.
