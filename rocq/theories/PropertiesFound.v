(** C114: the nodes which a controller returns, in all executions. *)
From Verif Require Import Base HMap ModelCodec ModelMessages DbTable ModelObject ModelTransport ModelNode ModelController ModelDevice ModelThreads
  SpecWire SpecObject SpecNode SpecThreads SpecFound PropertiesProfile PropertiesDb ProofsDevice ProofsController PropertiesController ProofsThreads PropertiesThreads ProofsFound ExamplesNode.

Section S.
  Context {U : Type} {P : Profile} {HO : HashOrder} {Os : OS} {Uu : Uuids}.

  (** Every node that is returned has told about itself in a message that arrived
      before: it has the address of the sender, the objects which the message
      lists, and their standard properties. No two have the same address. *)
  Theorem C114_found : forall seed db, standard_database seed = Ret db -> (forall k, uuid_ok (new_uuid k)) ->
    forall what net (ns : nat -> nstate U) cs xs s h1 t c l h2, down ns -> (forall c, fst (cs c) = []) ->
    steps db what net (begins ns cs xs) s -> history s = h1 ++ EReturn t (CNodes c) (VNodes l) :: h2 ->
    Forall (found db h1) l /\ NoDup (map rn_addr l).
  Proof.
    intros seed db Db Uo what net ns cs xs s h1 t c l h2 Dn Em St E. destruct (C106_in_turn db _ _ _ _ _ _ Dn St) as (a & A & H & _).
    rewrite <- H in E. destruct (fi_past _ _ (finds_all seed db what net Db Uo _ _ _ a Em A) _ _ _ _ _ E) as [F Nd]. split; [|exact Nd].
    eapply Forall_impl; [|exact F]. intros r [_ X]. exact X.
  Qed.

  (** A node that was returned is returned by every later call. *)
  Theorem C114_kept : forall db what net (ns : nat -> nstate U) cs xs s c h1 t1 l1 h2 t2 h3 l2 h4, down ns ->
    steps db what net (begins ns cs xs) s ->
    history s = h1 ++ EReturn t1 (CNodes c) (VNodes l1) :: h2 ++ ECall t2 (CNodes c) :: h3 ++ EReturn t2 (CNodes c) (VNodes l2) :: h4 ->
    incl (map rn_addr l1) (map rn_addr l2).
  Proof.
    intros db what net ns cs xs s c h1 t1 l1 h2 t2 h3 l2 h4 Dn St E. destruct (C106_in_turn db _ _ _ _ _ _ Dn St) as (a & A & H & _).
    rewrite <- H in E. pose proof (keeps_all db what net _ _ _ a A) as [_ _ _ K].
    apply (K ((h1 ++ EReturn t1 (CNodes c) (VNodes l1) :: h2) ++ ECall t2 (CNodes c) :: h3) t2 c l2 h4) with (g1 := h1 ++ EReturn t1 (CNodes c) (VNodes l1) :: h2) (x := CNodes c) (g2 := h3) (t' := t1).
    - rewrite E. repeat (rewrite <- app_assoc; cbn [app]). reflexivity.
    - reflexivity.
    - apply in_or_app. right. left. reflexivity.
  Qed.
End S.

(* ------------------------------------------------------------------ *)
(** ** Cases *)

(** A controller with the mutex 0 and the node 0, not yet started. Its observers:
    the node and the controller node. *)
Definition tc_idle : list (node_op unit) := map OpAddObserver [Observer 1 ObsNode; Observer 2 ObsController].
Definition tc_ns : nat -> nstate unit := fun _ => (tt, ex_n tc_idle, ex_w tc_idle).
Definition tc_what (o : observer) : obs := if ob_id o =? 1 then RNode 1 0 else if ob_id o =? 2 then RCtrl 2 0 else ROther (N.to_nat (ob_id o)).
Definition tc_uuids : Uuids := PropertiesController.ex_uuids.
Definition tc_play xs l : option (process unit) :=
  play (P := true) (HO := ex_order) (Os := ex_os) (Uu := tc_uuids) ex_db tc_what (begins (P := true) (HO := ex_order) (O := ex_os) tc_ns ex_cs xs) l.
Notation tc_execution xs s :=
  (steps (P := true) (HO := ex_order) (O := ex_os) (Uu := tc_uuids) ex_db tc_what true (begins (P := true) (HO := ex_order) (O := ex_os) tc_ns ex_cs xs) s).
Lemma tc_played {A} (f : process unit -> A) xs l y : option_map f (tc_play xs l) = Some y -> exists s, tc_execution xs s /\ f s = y.
Proof.
  intros E. destruct (tc_play xs l) as [s|] eqn:X; [|discriminate]. inversion E. exists s. split; [|reflexivity]. eapply play_sound, X.
Qed.
Example tc_down : down tc_ns.
Proof. intros n. vm_compute. reflexivity. Qed.
Example tc_empty : forall c, fst (ex_cs c) = [].
Proof. reflexivity. Qed.

Definition x_looks : client unit :=
  Call (CStart (Some 0%nat) 0) (fun _ => Call (CNodes 0) (fun _ => Call (CNodes 0) (fun _ => Finished))).
Definition glimpse (e : event unit) : nat * option (list (sockaddr * list N)) :=
  match e with
  | EReturn t _ (VNodes l) => (t, Some (map (fun r => (rn_addr r, map object_code (rn_objects r))) l))
  | ECall t _ | EReturn t _ _ => (t, None)
  | EGot t m => (t, Some [(msg_from m, [])])
  end.
Definition glimpses xs l := option_map (fun s => map glimpse (history s)) (tc_play xs l).

(** A node lists a lamp, and then, by another socket, an air conditioner. The
    receive threads 1 and 2 pass the messages on in turn: the first call sees the
    air conditioner; the lamp is handled later and replaces it. *)
Definition lists_lamp : list N := list_datagram 1 [0x029101].
Definition lists_aircon : list N := list_datagram 1 [0x013001].
Definition plan_first := gos [(0, 39); (1, 1); (2, 1)]%nat ++ [Get 1 lists_lamp node_a; Get 2 lists_aircon node_a] ++ gos [(2, 18); (0, 6)]%nat.
Definition plan_later := plan_first ++ gos [(1, 18); (0, 6)]%nat.
Example C114_case : glimpses [x_looks] plan_later =
  Some [(0%nat, None); (0%nat, None); (1%nat, Some [(node_a, [])]); (2%nat, Some [(node_a, [])]);
        (0%nat, None); (0%nat, Some [(node_a, [0x013001; 0x0EF001])]); (0%nat, None); (0%nat, Some [(node_a, [0x029101; 0x0EF001])])].
Proof. vm_compute. reflexivity. Qed.

(** The full statement would be: the objects are those of the latest list that the
    node has sent and that has been handled. It is false: the older list was
    handled after the newer one. *)
Definition codes_of (r : remote_node) : sockaddr * list N := (rn_addr r, map object_code (rn_objects r)).
(** What matters of an event. *)
Inductive key := KOther | KGot (t : nat) (esv deoj : N) (from : sockaddr) (props : list pprop) | KNodes (t c : nat) (l : list (sockaddr * list N)).
Definition key_of (e : event unit) : key :=
  match e with
  | EGot t m => KGot t (m_esv m) (msg_deoj m) (msg_from m) (m_props m)
  | EReturn t (CNodes c) (VNodes l) => KNodes t c (map codes_of l)
  | _ => KOther
  end.
Lemma key_got e t esv deoj from props : key_of e = KGot t esv deoj from props ->
  exists m, e = EGot t m /\ m_esv m = esv /\ msg_deoj m = deoj /\ msg_from m = from /\ m_props m = props.
Proof. destruct e as [|? [] []|]; cbn; try discriminate. intros E. inversion E; subst. eauto 10. Qed.
Lemma key_nodes e t c l : key_of e = KNodes t c l -> exists l', e = EReturn t (CNodes c) (VNodes l') /\ map codes_of l' = l.
Proof. destruct e as [|? [] []|]; cbn; try discriminate. intros E. inversion E; subst. eauto 10. Qed.
Definition keys_later : list key := [KOther; KOther; KGot 1 0x72 0x0EF001 node_a [PProp 0xD6 (instance_list [0x029101])];
  KGot 2 0x72 0x0EF001 node_a [PProp 0xD6 (instance_list [0x013001])];
  KOther; KNodes 0 0 [(node_a, [0x013001; 0x0EF001])]; KOther; KNodes 0 0 [(node_a, [0x029101; 0x0EF001])]].
Lemma seen_later : exists s, tc_execution [x_looks] s /\ map key_of (history s) = keys_later.
Proof. apply (tc_played (fun s => map key_of (history s)) [x_looks] plan_later). vm_compute. reflexivity. Qed.
Theorem C114_latest_refuted : exists xs s h1 t1 m1 h2 t2 m2 h3 l1 h4 l2 h5, down tc_ns /\ (forall c, fst (ex_cs c) = []) /\ tc_execution xs s /\
  history s = h1 ++ EGot t1 m1 :: h2 ++ EGot t2 m2 :: h3 ++ EReturn 0 (CNodes 0) (VNodes l1) :: h4 ++ EReturn 0 (CNodes 0) (VNodes l2) :: h5 /\
  for_profile m1 /\ for_profile m2 /\ msg_from m1 = node_a /\ msg_from m2 = node_a /\
  m_props m1 = [PProp 0xD6 (instance_list [0x029101])] /\ m_props m2 = [PProp 0xD6 (instance_list [0x013001])] /\
  map codes_of l1 = [(node_a, [0x013001; 0x0EF001])] /\ map codes_of l2 = [(node_a, [0x029101; 0x0EF001])].
Proof.
  exists [x_looks]. destruct seen_later as (s & X & E). exists s. unfold keys_later in E. remember (history s) as h eqn:Eh. clear Eh.
  do 8 (destruct h as [|?e h]; [discriminate|]). destruct h; [|discriminate].
  pose proof (f_equal (fun l => nth 2 l KOther) E) as E3. pose proof (f_equal (fun l => nth 3 l KOther) E) as E4.
  pose proof (f_equal (fun l => nth 5 l KOther) E) as E6. pose proof (f_equal (fun l => nth 7 l KOther) E) as E8. clear E. cbn [map nth] in E3, E4, E6, E8.
  apply key_got in E3 as (m1 & -> & A1 & A2 & A3 & A4). apply key_got in E4 as (m2 & -> & B1 & B2 & B3 & B4).
  apply key_nodes in E6 as (l1 & -> & C1). apply key_nodes in E8 as (l2 & -> & C2).
  exists [e; e0], 1%nat, m1, [], 2%nat, m2, [e3], l1, [e5], l2, []. split; [exact tc_down|]. split; [exact tc_empty|]. split; [exact X|]. split; [reflexivity|].
  unfold for_profile. rewrite A1, A2, B1, B2. tauto.
Qed.

(** The premises of C114_found hold for the standard database. *)
Example C114_case_premises : standard_database (P := true) (HO := ex_order) (fun k => k) = Ret ex_db /\ (forall k, uuid_ok (new_uuid (Uuids := tc_uuids) k)) /\
  down tc_ns /\ (forall c, fst (ex_cs c) = []) /\ exists s, tc_execution [x_looks] s /\ map key_of (history s) = keys_later.
Proof.
  split; [exact ex_db_standard|]. split; [exact ex_uuids_ok|]. split; [exact tc_down|]. split; [exact tc_empty|].
  exact seen_later.
Qed.

Print Assumptions C114_found.
Print Assumptions C114_kept.
Print Assumptions C114_latest_refuted.
