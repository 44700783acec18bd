(** C111: equality and hashing of objects, remote nodes and properties. *)
From Verif Require Import Base HMap ModelCodec ModelMessages ModelObject ModelTransport ModelNode ModelController ModelEq
  SpecWire SpecObject ProofsCodec ProofsCodec2 ProofsObject ProofsObject2 ProofsObject3 PropertiesObject PropertiesNode ExamplesNode.

(** The three octets of an object code are octets (they are u8 fields). *)
Definition u8_codes (o : object) : Prop :=
  object_class_group_code o < 256 /\ object_class_code o < 256 /\ object_instance_code o < 256.
(** Two objects name the same thing: same class group, class and instance. *)
Definition same_name (a b : object) : Prop :=
  object_class_group_code a = object_class_group_code b /\ object_class_code a = object_class_code b /\
  object_instance_code a = object_instance_code b.

Lemma code_parts o : u8_codes o ->
  object_code o = object_class_group_code o * 65536 + object_class_code o * 256 + object_instance_code o.
Proof.
  unfold u8_codes, object_class_group_code, object_class_code, object_instance_code.
  destruct (o_codes o) as [[a b] c] eqn:E. cbn [fst snd]. intros (A & B & C). apply (object_code_eq _ _ _ _ E); auto.
Qed.

(** [==] on objects compares the three parts of the code, and nothing else; the
    hash agrees with it. *)
Theorem C111_objects : forall a b, u8_codes a -> u8_codes b ->
  (object_eqb a b = true <-> same_name a b) /\ (object_eqb a b = true <-> object_hash a = object_hash b).
Proof.
  intros a b A B.
  assert (K : object_eqb a b = true <-> object_code a = object_code b).
  { unfold object_eqb. destruct (object_code a =? object_code b) eqn:E; cbn.
    - apply N.eqb_eq in E. tauto.
    - apply N.eqb_neq in E. split; [discriminate|contradiction]. }
  split.
  - rewrite K, (code_parts a A), (code_parts b B). unfold u8_codes, same_name in *. lia.
  - rewrite K. unfold object_hash. split; congruence.
Qed.
Print Assumptions C111_objects.

(** Equality and hash of an object survive everything that leaves its code
    alone: adding properties, writing them, naming it and cloning it. *)
Theorem C111_stable : forall (P : Profile) (HO : HashOrder) o o',
  (exists p, object_add_property o p = Ret o') \/ (exists c d, o' = fst (object_set_property_data o c d)) \/
  (exists n, o' = object_set_name o n) \/ (exists n, o' = object_set_class_name o n) \/ (exists seed, object_clone seed o = Ret o') ->
  object_eqb o o' = true /\ object_hash o' = object_hash o.
Proof.
  intros P HO o o' H.
  assert (E : o_codes o' = o_codes o).
  { destruct H as [(p & H)|[(c & d & ->)|[(n & ->)|[(n & ->)|(s & H)]]]].
    - exact (add_property_codes _ _ _ H).
    - unfold object_set_property_data. destruct (object_find_property o c); reflexivity.
    - reflexivity.
    - reflexivity.
    - exact (clone_codes _ _ _ H). }
  assert (C : object_code o' = object_code o) by (unfold object_code; rewrite E; reflexivity).
  unfold object_eqb, object_hash. rewrite C, N.eqb_refl. auto.
Qed.
Print Assumptions C111_stable.

(** A new object has code 0, no name and no property. *)
Theorem C111_new : forall seed,
  object_code (object_new seed) = 0 /\ o_name (object_new seed) = ""%string /\ o_class_name (object_new seed) = ""%string /\
  object_properties (object_new seed) = [] /\ forall c, object_find_property (object_new seed) c = None.
Proof. intro seed. repeat split. Qed.
Print Assumptions C111_new.

Lemma sockaddr_eqb_true x y : sockaddr_eqb x y = true <-> x = y.
Proof.
  destruct x as [[a|a] p], y as [[b|b] q]; unfold sockaddr_eqb; cbn; rewrite ?andb_true_iff, ?N.eqb_eq;
    split; intro H; try discriminate; try (destruct H; congruence); inversion H; auto.
Qed.

(** [==] on remote nodes compares address and port, the hash agrees with it, and
    neither looks at the objects. *)
Theorem C111_remotes : forall a b,
  (remote_eqb a b = true <-> rn_addr a = rn_addr b) /\ (remote_eqb a b = true <-> remote_hash a = remote_hash b) /\
  forall o, remote_eqb a (remote_add_object a o) = true /\ remote_hash (remote_add_object a o) = remote_hash a.
Proof.
  intros a b.
  assert (K : remote_eqb a b = true <-> rn_addr a = rn_addr b) by exact (sockaddr_eqb_true _ _).
  split; [exact K|]. split.
  - rewrite K. unfold remote_hash, sockaddr_hash. destruct (rn_addr a) as [[x|x] p], (rn_addr b) as [[y|y] q]; cbn [fst snd]; split; intro H; inversion H; auto.
  - intro o. split; [apply sockaddr_eqb_true; reflexivity|reflexivity].
Qed.
Print Assumptions C111_remotes.

(** A clone of a remote node is equal to it, has its hash, and has equal objects
    in the same order. *)
Lemma clone_objects_eqb {P : Profile} {HO : HashOrder} {O : OS} os : forall w l w', clone_objects w os = Ret (l, w') ->
  Forall2 (fun o o' => object_eqb o o' = true) os l.
Proof.
  induction os as [|o r IH]; intros w l w' H; cbn [clone_objects] in H; [inversion H; constructor|].
  destruct (object_clone (os_seed (w_calls w)) o) as [o'|] eqn:E; cbn [obind] in H; [|discriminate].
  destruct (clone_objects (tick w) r) as [[l1 w1]|] eqn:F; cbn [obind] in H; [|discriminate].
  inversion H; subst. cbn [fst]. constructor; [|eapply IH; eauto].
  apply (C111_stable P HO o o'). do 4 right. exists (os_seed (w_calls w)). exact E.
Qed.
Theorem C111_remote_clone : forall (P : Profile) (HO : HashOrder) (O : OS) w r r' w', remote_clone w r = Ret (r', w') ->
  remote_eqb r r' = true /\ remote_hash r' = remote_hash r /\ Forall2 (fun o o' => object_eqb o o' = true) (rn_objects r) (rn_objects r').
Proof.
  intros P HO O w r r' w' H. unfold remote_clone in H.
  destruct (clone_objects w (rn_objects r)) as [[l w1]|] eqn:E; cbn [obind] in H; [|discriminate].
  inversion H; subst. cbn [fst snd rn_objects]. split; [apply sockaddr_eqb_true; reflexivity|]. split; [reflexivity|].
  exact (clone_objects_eqb _ _ _ _ E).
Qed.
Print Assumptions C111_remote_clone.

(** A new remote node has the unspecified address, port 0 and no object;
    set_addr replaces address and port and keeps the objects. *)
Theorem C111_remote_new : rn_addr remote_new = (V4 0, 0) /\ rn_objects remote_new = [] /\
  (forall c, remote_find_object remote_new c = None) /\
  forall r a b, remote_eqb (remote_set_addr r a) (remote_set_addr r b) = true <-> a = b.
Proof. repeat split; intro H; apply sockaddr_eqb_true in H || apply sockaddr_eqb_true; auto. Qed.
Print Assumptions C111_remote_new.

(** The hash of a property and of an enumerated value is that of the code: it
    survives writing data, changing attributes and cloning. *)
Lemma fold_enums_code l : forall p, p_code (fold_left prop_add_enum l p) = p_code p.
Proof. induction l as [|e r IH]; intro p; cbn [fold_left]; [reflexivity|]. rewrite IH. reflexivity. Qed.
Theorem C111_properties : forall p q,
  (prop_hash p = prop_hash q <-> p_code p = p_code q) /\ prop_hash (prop_clone p) = prop_hash p /\
  (forall d, prop_hash (prop_set_data p d) = prop_hash p) /\ (forall e, prop_hash (prop_add_enum p e) = prop_hash p) /\
  (forall e1 e2, penum_hash e1 = penum_hash e2 <-> pe_code e1 = pe_code e2).
Proof.
  intros p q. split; [unfold prop_hash; split; congruence|]. split.
  - unfold prop_hash, prop_clone. rewrite fold_enums_code. reflexivity.
  - split; [reflexivity|]. split; [reflexivity|]. intros. unfold penum_hash. split; congruence.
Qed.
Print Assumptions C111_properties.

(** Two lamps of the same instance are equal although only one has properties,
    another instance is not; the same address on another port is another node. *)
Example C111_case :
  object_eqb lamp (object_from_code 1 0x029101) = true /\ object_hash lamp = [W32 0x029101] /\
  object_eqb lamp (object_from_code 1 0x029102) = false /\ negb (length (o_props lamp) =? 0)%nat = true /\
  remote_eqb (Remote (V4 0x0A000001, 3610) [lamp]) (Remote (V4 0x0A000001, 3610) []) = true /\
  remote_eqb (Remote (V4 0x0A000001, 3610) []) (Remote (V4 0x0A000001, 3611) []) = false /\
  remote_eqb (Remote (V4 1, 3610) []) (Remote (V6 1, 3610) []) = false.
Proof. vm_compute. repeat split. Qed.
