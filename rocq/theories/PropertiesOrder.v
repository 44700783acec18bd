(** C102: what the hash seeds of a process can change. *)
From Verif Require Import Base HMap DbTable ModelCodec ModelMessages ModelObject ModelTransport ModelNode SpecWire SpecObject SpecNode
  ProofsCodec ProofsCodec2 PropertiesCodec ProofsObject ProofsObject2 ProofsObject3 PropertiesObject ProofsNode ProofsNode2 ProofsNode3
  ExamplesNode SpecOrder ProofsOrder.

(* ------------------------------------------------------------------ *)
(** ** What "alike" leaves open *)

(** Two alike property maps list the same codes. *)
Theorem C102_maps : forall c d d', like_data c d d' ->
  length d = length d' /\ (forall x, property_map_has d x <-> property_map_has d' x).
Proof.
  intros c d d' [->|[_ H]]; [split; [auto|tauto]|]. destruct H as [n l l' -> Hn Pm].
  split; [cbn; f_equal; apply Permutation_length; auto|]. intro x. unfold property_map_has.
  replace (N.of_nat (length l) <? 16) with true by lia.
  rewrite Nat2N.id, firstn_all. rewrite (Permutation_length Pm), firstn_all.
  split; intro H; [exact (Permutation_in _ Pm H)|exact (Permutation_in _ (Permutation_sym Pm) H)].
Qed.
Print Assumptions C102_maps.

Lemma props_bytes_like l l' : Forall2 like_pprop l l' ->
  length (props_bytes l) = length (props_bytes l') /\ (Forall (fun p => ~ map_code (pp_code p)) l -> l = l').
Proof.
  intro F. unfold props_bytes. assert (X : length l = length l' /\ length (flat_map property_bytes l) = length (flat_map property_bytes l')).
  { induction F as [|p q l l' [A B] F [IH1 IH2]]; [auto|]. cbn [length flat_map]. split; [lia|]. rewrite !app_length, IH2. f_equal.
    apply C102_maps in B as [B _]. unfold property_bytes. cbn. congruence. }
  split.
  - destruct X as [X1 X2]. cbn. congruence.
  - clear X. induction F as [|p q l l' [A B] F IH]; intro H; auto. inversion H; subst. f_equal; auto.
    destruct p, q. cbn in *. subst. destruct B as [->|[B _]]; [reflexivity|contradiction].
Qed.
(** Alike messages have the same length on the wire, and are the same octets
    unless they carry a property map. *)
Theorem C102_octets : forall m m', like_msg m m' -> length (msg_bytes m) = length (msg_bytes m') /\
  (Forall (fun p => ~ map_code (pp_code p)) (m_props m ++ m_set m ++ m_get m) -> msg_bytes m = msg_bytes m').
Proof.
  intros m m' [A B C D E F G H]. unfold msg_bytes, msg_esv. rewrite <- A, <- B, <- C, <- D, <- E.
  destruct (m_ehd m), (m_tid m), (m_seoj m) as [[? ?] ?], (m_deoj m) as [[? ?] ?].
  destruct (props_bytes_like _ _ F) as [F1 F2], (props_bytes_like _ _ G) as [G1 G2], (props_bytes_like _ _ H) as [H1 H2]. split.
  - destruct (esv_from_u8 (m_esv m)); cbn [app length]; rewrite ?app_length; congruence.
  - intro X. apply Forall_app in X as [X1 X2]. apply Forall_app in X2 as [X2 X3]. rewrite (F2 X1), (G2 X2), (H2 X3). reflexivity.
Qed.
Print Assumptions C102_octets.

(* ------------------------------------------------------------------ *)
(** ** Objects *)

(** The same calls give alike objects: the objects of a database, of a new device
    or node profile, a property added, a copy made, data set. *)
Theorem C102_device_objects : forall (P : Profile) (H1 H2 : HashOrder) seed seed' db db' s s' u1 u2 code,
  length u1 = 16%nat -> octets u1 -> length u2 = 16%nat -> octets u2 ->
  standard_database (HO := H1) seed = Ret db -> standard_database (HO := H2) seed' = Ret db' ->
  both like (device_object (HO := H1) db u1 u2 s code) (device_object (HO := H2) db' u1 u2 s' code).
Proof. intros P H1 H2 seed seed' db db' s s' u1 u2 code L1 D1 L2 D2 E E'. exact (device_object_like H1 H2 seed seed' db db' s s' u1 u2 code L1 D1 L2 D2 E E'). Qed.
Print Assumptions C102_device_objects.
Theorem C102_objects : forall (P : Profile) (H1 H2 : HashOrder) s s' code, like (object_from_code s code) (object_from_code s' code) /\
  forall o o', like o o' ->
  (forall p, prop_built p -> 0x80 <= p_code p -> both like (object_add_property (HO := H1) o p) (object_add_property (HO := H2) o' p)) /\
  both like (object_clone (HO := H1) s o) (object_clone (HO := H2) s' o') /\
  (forall c d, octets d -> like (fst (object_set_property_data o c d)) (fst (object_set_property_data o' c d))).
Proof.
  intros P H1 H2 s s' code. split.
  - assert (G : forall k, obj_good (object_from_code k code)).
    { intro k. apply (obj_ok_good (P := P)). eapply obj_ok_props; [|apply (obj_ok_new k)]. reflexivity. }
    constructor; [split; apply G|split; intros c p X; discriminate X|reflexivity|split; reflexivity|intro c; exact Logic.I].
  - intros o o' L. split; [|split].
    + intros p B H. apply add_property_like; auto. apply prop_built_ok; auto.
    + apply clone_like; auto.
    + intros c d Od. apply set_data_like; auto.
Qed.
Print Assumptions C102_objects.

(* ------------------------------------------------------------------ *)
(** ** Whole histories *)

(** A node, from the creation of its process on: the same calls, the same
    messages, the same answers of the operating system, other hash seeds. *)
Definition life {U} {P : Profile} {HO : HashOrder} {Os : OS} (seed : N -> N) (s : N) (u1 u2 : list N) (u : U) (w : world) (ops : list (node_op U)) :
  outcome (U * node U * world) :=
  let! db := standard_database seed in
  let! np := node_profile_object db u1 u2 s in
  let! n := node_new np in
  node_run (u, n, w) ops.

(** Full claim: the seeds do not show. It is false: the order of the codes in a
    property map is the iteration order of the hash map, and a read of the map
    sends it. *)
Definition ask_maps : message := ex_rcv (to_lamp 7 0x62 [1; 0x9F; 0]).
Definition lamp_at (k : N) : object := the (object_new 0) (ex_lamp k).
Definition with_lamp (seed : N) : list (node_op unit) := [OpAddObject (lamp_at seed); OpAddHandler yes; OpStart; OpRecv ask_maps].
Theorem C102_seeds_refuted : exists s s' u n w u' n' w',
  node_run (P := true) (HO := ex_order) (O := ex_os) (tt, ex_node0, w0) (with_lamp s) = Ret (u, n, w) /\
  node_run (P := true) (HO := ex_order) (O := ex_os) (tt, ex_node0, w0) (with_lamp s') = Ret (u', n', w') /\
  sent (w_trace w) <> sent (w_trace w').
Proof.
  exists 0, 1.
  destruct (node_run (P := true) (HO := ex_order) (O := ex_os) (tt, ex_node0, w0) (with_lamp 0)) as [[[u n] w]|] eqn:E.
  2:{ exfalso. assert (X : panics (node_run (P := true) (HO := ex_order) (O := ex_os) (tt, ex_node0, w0) (with_lamp 0)) = false) by (vm_compute; reflexivity).
      rewrite E in X. discriminate. }
  destruct (node_run (P := true) (HO := ex_order) (O := ex_os) (tt, ex_node0, w0) (with_lamp 1)) as [[[u' n'] w']|] eqn:E'.
  2:{ exfalso. assert (X : panics (node_run (P := true) (HO := ex_order) (O := ex_os) (tt, ex_node0, w0) (with_lamp 1)) = false) by (vm_compute; reflexivity).
      rewrite E' in X. discriminate. }
  exists u, n, w, u', n', w'. split; [reflexivity|]. split; [reflexivity|].
  assert (A : sent (w_trace w) = sent (w_trace (snd (the (tt, ex_node0, w0) (node_run (P := true) (HO := ex_order) (O := ex_os) (tt, ex_node0, w0) (with_lamp 0)))))) by (rewrite E; reflexivity).
  assert (B : sent (w_trace w') = sent (w_trace (snd (the (tt, ex_node0, w0) (node_run (P := true) (HO := ex_order) (O := ex_os) (tt, ex_node0, w0) (with_lamp 1)))))) by (rewrite E'; reflexivity).
  rewrite A, B. clear. vm_compute. discriminate.
Qed.
Print Assumptions C102_seeds_refuted.

Lemma database_made {P : Profile} (H : HashOrder) seed : exists db, standard_database (HO := H) seed = Ret db.
Proof. destruct (standard_objects_spec (HO := H) seed db_table table_ok 0) as (db & E & _). exists db. exact E. Qed.

(** What holds: nothing but that order shows. The two processes panic at the
    same time or end in alike states, after alike events. *)
Theorem C102_seeds_partial : forall {U} (P : Profile) (H1 H2 : HashOrder) (O1 O2 : OS) seed seed' s s' u1 u2 (u : U) w ops ops',
  same_os O1 O2 -> length u1 = 16%nat -> octets u1 -> length u2 = 16%nat -> octets u2 -> Forall2 like_op ops ops' ->
  both like_state (life (HO := H1) (Os := O1) seed s u1 u2 u w ops) (life (HO := H2) (Os := O2) seed' s' u1 u2 u w ops').
Proof.
  intros U P H1 H2 O1 O2 seed seed' s s' u1 u2 u w ops ops' Same L1 D1 L2 D2 F. unfold life.
  destruct (database_made H1 seed) as (db & E). destruct (database_made H2 seed') as (db' & E').
  rewrite E, E'. cbn [obind]. eapply both_bind; [exact (device_object_like H1 H2 seed seed' db db' s s' u1 u2 NODE_PROFILE_OBJECT_CODE L1 D1 L2 D2 E E')|].
  intros np np' L. eapply both_bind; [apply (node_new_like np np' L)|]. intros n n' Ln. apply run_like; auto.
  split; [reflexivity|]. split; [exact Ln|]. constructor; auto. cbn. generalize (w_trace w). induction l; constructor; auto. constructor.
Qed.
Print Assumptions C102_seeds_partial.

(** From any alike states on. *)
Theorem C102_run : forall {U} (P : Profile) (H1 H2 : HashOrder) (O1 O2 : OS) (st st' : U * node U * world) ops ops',
  same_os O1 O2 -> like_state st st' -> Forall2 like_op ops ops' ->
  both like_state (node_run (HO := H1) (O := O1) st ops) (node_run (HO := H2) (O := O2) st' ops').
Proof. intros. apply run_like; auto. Qed.
Print Assumptions C102_run.

(** The two lamps of the refutation are alike, and their property maps are in
    different orders. *)
Lemma lamps_like k k' : both like (ex_lamp k) (ex_lamp k').
Proof.
  unfold ex_lamp.
  assert (Y : forall ps, Forall (fun p => prop_built p /\ 0x80 <= p_code p) ps -> forall o o', like o o' ->
    both like (adds (P := true) (HO := ex_order) o ps) (adds (P := true) (HO := ex_order) o' ps)).
  { induction 1 as [|p r [B H] F IH]; intros o o' L; cbn [adds]; [exact L|].
    eapply both_bind; [apply (proj2 (C102_objects true ex_order ex_order 0 0 0) o o' L); auto|]. exact IH. }
  apply Y; [|apply (C102_objects true ex_order ex_order)].
  repeat (constructor; [split; [apply ex_prop_built; reflexivity|cbn; lia]|]). constructor.
Qed.
Lemma lamps_made a b x y : ex_lamp a = x -> ex_lamp b = y -> both like x y.
Proof. intros <- <-. apply lamps_like. Qed.
Example C102_case : like (lamp_at 0) (lamp_at 1) /\
  object_property_data (lamp_at 0) 0x9F = Some [5; 0xB0; 0x80; 0x9F; 0x9E; 0x9D] /\
  object_property_data (lamp_at 1) 0x9F = Some [5; 0xB0; 0x9F; 0x9D; 0x9E; 0x80].
Proof.
  split; [|split; vm_compute; reflexivity].
  assert (E : ex_lamp 0 = Ret (lamp_at 0)) by (vm_compute; reflexivity). assert (E' : ex_lamp 1 = Ret (lamp_at 1)) by (vm_compute; reflexivity).
  exact (lamps_made 0 1 _ _ E E').
Qed.
(** So are the histories of the refutation: the theorem above covers them. *)
Lemma yes_blind {U} : order_blind (U := U) yes.
Proof. intros u o o' e p L. cbn. auto. Qed.
Example C102_ops : Forall2 like_op (with_lamp 0) (with_lamp 1) /\ same_os ex_os ex_os.
Proof.
  split; [|repeat split; reflexivity].
  assert (R : received ask_maps) by (unfold ask_maps; rcv). destruct C102_case as [L _]. unfold with_lamp.
  generalize dependent (lamp_at 1). generalize dependent (lamp_at 0). intros a b L.
  constructor; [apply like_add_object; exact L|]. constructor; [apply like_add_handler; apply yes_blind|].
  constructor; [apply like_other; exact Logic.I|]. constructor; [apply like_recv; exact R|constructor].
Qed.
