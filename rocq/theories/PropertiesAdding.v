(** C142: the order in which devices are added to a node plays no part. *)
From Verif Require Import Base HMap ModelCodec ModelMessages DbTable ModelObject ModelTransport ModelNode ModelDevice
  SpecWire SpecObject SpecNode ProofsCodec ProofsCodec2 PropertiesCodec ProofsObject ProofsObject2 ProofsObject3
  PropertiesObject PropertiesDb ProofsDevice ProofsNode ProofsNode2 ProofsNode3 ProofsNode4 ExamplesNode PropertiesNode PropertiesDevice
  PropertiesProfile PropertiesApart.
From Coq Require Import Permutation.

(** ** Vocabulary *)
Section S.
  Context {U : Type} {P : Profile} {HO : HashOrder} {Os : OS}.

  (** Node::add_object for one device after another. src/node.rs:68-72. *)
  Fixpoint add_all (n : node U) (ds : list object) : outcome (node U) :=
    match ds with
    | [] => Ret n
    | o :: r => let! n' := node_add_object n o in add_all n' r
    end.
  (** Devices with codes of their own, other than that of the node profile and those of
      the objects which the node has. *)
  Definition new_devices (n : node U) (ds : list object) : Prop :=
    NoDup (map object_code ds) /\ ~ In 0x0EF001 (map object_code ds) /\
    forall o, In o ds -> ~ In (object_code o) (map object_code (n_objects n)).

  (** ** Adding *)
  Lemma find_app os ds x : find_object (os ++ ds) x = match find_object os x with Some o => Some o | None => find_object ds x end.
  Proof. induction os as [|a os IH]; cbn [find_object app]; auto. destruct (object_code a =? x); auto. Qed.
  Lemma add_one (n : node U) o n' x : node_add_object n o = Ret n' -> x <> 0x0EF001 ->
    find_object (n_objects n') x = find_object (n_objects n ++ [o]) x /\ n_handlers n' = n_handlers n.
  Proof.
    intros H X. destruct (add_object_eq n o) as (os & E & [[_ Q]|(pre & np & post & Q & C & F & Q')]); rewrite E in H; inversion H; subst; cbn [n_objects n_with_objects n_handlers]; split; auto.
    rewrite Q, !find_app. cbn [find_object].
    assert (K : object_code (sets np (profile_data (map object_code (pre ++ np :: post)))) = NODE_PROFILE_OBJECT_CODE) by (rewrite <- C; apply sets_code).
    rewrite K, C. destruct (N.eqb_spec NODE_PROFILE_OBJECT_CODE x) as [Q0|Q0]; [elim X; rewrite <- Q0; reflexivity|reflexivity].
  Qed.
  Lemma add_all_found ds : forall (n n' : node U) x, add_all n ds = Ret n' -> x <> 0x0EF001 ->
    find_object (n_objects n') x = find_object (n_objects n ++ ds) x /\ n_handlers n' = n_handlers n.
  Proof.
    induction ds as [|o ds IH]; intros n n' x H X; cbn [add_all] in H.
    - inversion H; subst. rewrite app_nil_r. auto.
    - destruct (node_add_object n o) as [n1|] eqn:E; cbn [obind] in H; [|discriminate].
      destruct (add_one n o n1 x E X) as [A B]. destruct (IH n1 n' x H X) as [C D]. split; [|congruence].
      rewrite C. change (o :: ds) with ([o] ++ ds). rewrite app_assoc, (find_app (n_objects n1)), (find_app (n_objects n ++ [o])), A. reflexivity.
  Qed.
  Lemma find_in ds (o : object) : NoDup (map object_code ds) -> In o ds -> find_object ds (object_code o) = Some o.
  Proof.
    induction ds as [|a ds IH]; intros D I; [destruct I|]. cbn [map] in D. inversion D as [|k l K D' E]; subst. cbn [find_object].
    destruct I as [->|I]; [rewrite N.eqb_refl; auto|]. destruct (N.eqb_spec (object_code a) (object_code o)) as [Q|Q]; [|auto].
    elim K. rewrite Q. apply in_map. auto.
  Qed.
  Lemma find_perm ds ds' x : Permutation ds ds' -> NoDup (map object_code ds) -> find_object ds x = find_object ds' x.
  Proof.
    intros Pm D. pose proof (Permutation_NoDup (Permutation_map object_code Pm) D) as D'.
    destruct (find_object ds x) as [o|] eqn:E.
    - pose proof (found_code _ _ _ E) as C. apply find_object_some in E as (pre & post & E1 & _). assert (I : In o ds) by (rewrite E1; apply in_or_app; right; left; auto).
      rewrite <- C. symmetry. apply find_in; auto. apply (Permutation_in _ Pm I).
    - destruct (find_object ds' x) as [o|] eqn:E'; [|auto].
      pose proof (found_code _ _ _ E') as C. apply find_object_some in E' as (pre & post & E1 & _). assert (I : In o ds') by (rewrite E1; apply in_or_app; right; left; auto).
      rewrite <- C in E. rewrite (find_in ds o D) in E by (apply (Permutation_in _ (Permutation_sym Pm) I)). discriminate.
  Qed.

  (** ** The claim *)
  (** Nothing is lost by adding: every device is there as it was added, every object the
      node had (but the node profile, which gets new lists) is as before, and adding does not panic. *)
  Theorem C142_added : forall (n : node U) ds, new_devices n ds -> exists n', add_all n ds = Ret n' /\ n_handlers n' = n_handlers n /\
    (forall o, In o ds -> addressed (n_objects n') (object_code o) o) /\
    (forall x o, x <> 0x0EF001 -> addressed (n_objects n) x o -> addressed (n_objects n') x o).
  Proof.
    intros n ds (D & Np & Nw). assert (E : exists n', add_all n ds = Ret n').
    { clear. revert n. induction ds as [|o ds IH]; intro n; cbn [add_all]; [eauto|]. destruct (add_object_eq n o) as (os & -> & _). cbn [obind]. apply IH. }
    destruct E as [n' E]. exists n'. split; auto. split; [apply (add_all_found ds n n' 0 E); discriminate|]. split.
    - intros o I. assert (X : object_code o <> 0x0EF001) by (intro Q; apply Np; rewrite <- Q; apply in_map; auto).
      apply find_object_some. destruct (add_all_found ds n n' _ E X) as [-> _]. rewrite find_app.
      destruct (find_object (n_objects n) (object_code o)) as [a|] eqn:Fa; [|apply find_in; auto].
      elim (Nw o I). pose proof (found_code _ _ _ Fa) as C. apply find_object_some in Fa as (pre & post & E1 & _). rewrite <- C. apply in_map. rewrite E1. apply in_or_app. right. left. auto.
    - intros x o X A. apply find_object_some. destruct (add_all_found ds n n' _ E X) as [-> _]. rewrite find_app.
      apply addressed_find in A. rewrite A. reflexivity.
  Qed.

  (** The same devices added in another order: any history of messages and of calls by
      the application has the same results at every device. *)
  Theorem C142_order_partial : forall (n : node U) ds ds' n1 n2, Permutation ds ds' -> NoDup (map object_code ds) -> add_all n ds = Ret n1 -> add_all n ds' = Ret n2 ->
    forall x, x <> 0x0EF001 -> agree x n1 n2 /\
      forall R (u : U) ss u1 k1 rs u2 k2 qs, Forall (apart x R) (n_handlers n) -> R u u ->
        history u n1 ss = Ret (u1, k1, rs) -> history u n2 ss = Ret (u2, k2, qs) -> seen_at x rs = seen_at x qs.
  Proof.
    intros n ds ds' n1 n2 Pm D A B x X. destruct (add_all_found ds n n1 x A X) as [A1 A2]. destruct (add_all_found ds' n n2 x B X) as [B1 B2].
    assert (Ag : agree x n1 n2).
    { split; [|congruence]. rewrite A1, B1, !find_app. destruct (find_object (n_objects n) x); auto. apply find_perm; auto. }
    split; auto. intros R u ss u1 k1 rs u2 k2 qs F Ru H1 H2.
    refine (proj1 (C137_same x R u u n1 n2 ss ss u1 k1 rs u2 k2 qs _ Ag Ru Ru eq_refl H1 H2)). rewrite A2. exact F.
  Qed.

  (** A device added at the end, or never: the others are not affected. *)
  Theorem C142_more : forall (n : node U) ds n1, add_all n ds = Ret n1 -> forall x, x <> 0x0EF001 -> ~ In x (map object_code ds) -> agree x n n1.
  Proof.
    intros n ds n1 A x X I. destruct (add_all_found ds n n1 x A X) as [A1 A2]. split; [|auto]. rewrite A1, find_app.
    destruct (find_object (n_objects n) x); auto. destruct (find_object ds x) as [o|] eqn:E; auto. elim I.
    pose proof (found_code _ _ _ E) as C. apply find_object_some in E as (pre & post & -> & _). rewrite <- C. apply in_map. apply in_or_app. right. left. auto.
  Qed.

  (** What the node profile of a new node tells: the same number of devices, and the same
      devices, in the order in which they were added. *)
  Theorem C142_lists : forall np n0 (u : U) ds ds' n1 n2, profile_like np -> node_new np = Ret n0 -> Permutation ds ds' ->
    Forall obj_built ds -> ~ In 0x0EF001 (map object_code ds) -> (length ds <= 255)%nat -> add_all n0 ds = Ret n1 -> add_all n0 ds' = Ret n2 ->
    exists o1 o2 l1 l2, addressed (n_objects n1) 0x0EF001 o1 /\ addressed (n_objects n2) 0x0EF001 o2 /\ Permutation l1 l2 /\
      l1 = map object_code ds /\ l2 = map object_code ds' /\
      object_property_data o1 0xD3 = object_property_data o2 0xD3 /\
      object_property_data o1 0xD6 = Some (instance_list l1) /\ object_property_data o2 0xD6 = Some (instance_list l2).
  Proof.
    intros np n0 u ds ds' n1 n2 Pl Nn Pm Fb Np L A B.
    assert (Run : forall ds (u : U) n n' w, add_all n ds = Ret n' -> node_run (u, n, w) (map (fun o => OpAddObject o) ds) = Ret (u, n', w)).
    { clear. induction ds as [|o ds IH]; intros u n n' w H; cbn [add_all map node_run] in *; [inversion H; auto|].
      destruct (node_add_object n o) as [m|] eqn:E; cbn [obind] in H; [|discriminate]. cbn [node_step]. rewrite E. cbn [obind]. apply IH. auto. }
    assert (Ad : forall ds : list object, added (U := U) (map (fun o => OpAddObject o) ds) = map object_code ds).
    { clear. induction ds as [|o ds IH]; cbn [map added flat_map app]; [auto|]. f_equal. exact IH. }
    assert (One : forall l k, Permutation ds l -> add_all n0 l = Ret k -> exists o, addressed (n_objects k) 0x0EF001 o /\
      object_property_data o 0xD3 = Some [0; 0; N.of_nat (length l)] /\ object_property_data o 0xD6 = Some (instance_list (map object_code l))).
    { intros l k Pl' Al. destruct (C32_instance_lists np n0 (map (fun o => OpAddObject o) l) u w0 u k w0 Pl Nn) as (_ & o & Ao & E3 & _ & E6).
      - apply Forall_forall. intros op I. apply in_map_iff in I as (o & <- & I). cbn [op_ok]. apply (proj1 (Forall_forall _ _) Fb). apply (Permutation_in _ (Permutation_sym Pl') I).
      - apply Forall_forall. intros op I. apply in_map_iff in I as (o & <- & I). cbn [PropertiesProfile.undisturbed]. intro Q. apply Np. rewrite <- Q. apply in_map. apply (Permutation_in _ (Permutation_sym Pl') I).
      - apply Run. auto.
      - rewrite Ad, map_length, <- (Permutation_length Pl'). auto.
      - rewrite Ad, map_length in *. exists o. auto. }
    destruct (One ds n1 (Permutation_refl _) A) as (o1 & A1 & C1 & D1). destruct (One ds' n2 Pm B) as (o2 & A2 & C2 & D2).
    exists o1, o2, (map object_code ds), (map object_code ds'). split; auto. split; auto. split; [apply Permutation_map; auto|]. split; auto. split; auto.
    split; [|auto]. rewrite C1, C2, (Permutation_length Pm). reflexivity.
  Qed.
End S.

(** ** Cases *)
Section Cases.
  Local Existing Instance ex_order.
  Definition cooler : object := object_from_code 0 0x013001.
  (** The example lamp with other data: the same code. *)
  Definition lit1 : object := fst (object_set_property_data lamp 0x80 [0x77]).
  Definition with_devices (ds : list object) : node unit := the ex_node0 (add_all (P := true) ex_node0 ds).
  (** What a read of the lamp's operating status is answered with, after a write to the
      other device. *)
  Definition read_lamp : list step := [Sets 0x013001 0x80 [0x31]; Got 0 (ex_rcv (to_lamp 7 0x62 [1; 0x80; 0]))].
  Definition told_by (ds : list object) : option (list (option (list pprop))) :=
    match history (P := true) tt (node_add_handler (with_devices ds) yes) read_lamp with
    | Ret (_, _, rs) => Some (flat_map (fun e => match snd e with Answer (Some r) => [Some (m_props r)] | Answer None => [None] | _ => [] end) rs)
    | Panic => None
    end.
  Example C142_case : new_devices ex_node0 [lit1; cooler] /\ Permutation [lit1; cooler] [cooler; lit1] /\
    told_by [lit1; cooler] = Some [Some [PProp 0x80 [0x77]]] /\ told_by [cooler; lit1] = Some [Some [PProp 0x80 [0x77]]].
  Proof.
    split; [|split; [apply perm_swap|split; vm_compute; reflexivity]].
    assert (E : map object_code [lit1; cooler] = [0x029101; 0x013001]) by (vm_compute; reflexivity).
    assert (E0 : map object_code (n_objects ex_node0) = [0x0EF001]) by (vm_compute; reflexivity).
    split; [rewrite E; repeat constructor; cbn [In]; intuition discriminate|]. split; [rewrite E; cbn [In]; intuition discriminate|].
    intros o I. apply (in_map object_code) in I. rewrite E in I. rewrite E0. cbn [In] in *. intuition congruence.
  Qed.
  (** The instance list does tell the order. *)
  Theorem C142_lists_refuted : exists ds ds', Permutation ds ds' /\ new_devices ex_node0 ds /\
    data_in (with_devices ds) 0x0EF001 0xD6 = Some [2; 0x02; 0x91; 0x01; 0x01; 0x30; 0x01] /\
    data_in (with_devices ds') 0x0EF001 0xD6 = Some [2; 0x01; 0x30; 0x01; 0x02; 0x91; 0x01].
  Proof.
    exists [lit1; cooler], [cooler; lit1]. split; [apply perm_swap|]. split; [exact (proj1 C142_case)|]. split; vm_compute; reflexivity.
  Qed.
  (** add_object takes a second device with the same code; which of the two answers
      depends on the order. *)
  Theorem C142_same_code_refuted : exists ds ds', Permutation ds ds' /\
    told_by ds = Some [Some [PProp 0x80 []]] /\ told_by ds' = Some [Some [PProp 0x80 [0x77]]].
  Proof. exists [lamp; lit1], [lit1; lamp]. split; [apply perm_swap|]. split; vm_compute; reflexivity. Qed.
End Cases.
Print Assumptions C142_added.
Print Assumptions C142_order_partial.
Print Assumptions C142_more.
Print Assumptions C142_lists.
Print Assumptions C142_lists_refuted.
Print Assumptions C142_same_code_refuted.
