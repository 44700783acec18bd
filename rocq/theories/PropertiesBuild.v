(** Properties of the two builds, with and without overflow checks: C89. *)
From Verif Require Import Base HMap ModelCodec ModelMessages DbTable ModelObject ModelTransport ModelNode ModelController ModelHost ModelDevice
  SpecWire SpecObject SpecNode SpecHost SpecDevice ProofsCodec ProofsCodec2 PropertiesCodec ProofsObject ProofsObject2 ProofsObject3
  PropertiesObject PropertiesDb ProofsDevice ProofsNode ProofsNode2 ProofsNode3 ProofsNode4 ExamplesNode PropertiesNode PropertiesTrans
  PropertiesProfile PropertiesTransport ProofsExchange ProofsController ProofsHistory PropertiesController ProofsHost ProofsHost2 PropertiesHost ProofsBuild.

(** ** C89: what a debug build computes, a release build computes too *)
Theorem C89_codec : 
  (forall v k d, bytes_from_u32 (P := true) v k = Ret d -> bytes_from_u32 (P := false) v k = Ret d) /\
  (forall d v, bytes_to_u32 (P := true) d = Ret v -> bytes_to_u32 (P := false) d = Ret v) /\
  (forall d l, node_profile_codes (P := true) d = Ret l -> node_profile_codes (P := false) d = Ret l).
Proof. split; [exact from_u32_ref|]. split; [exact to_u32_ref|exact profile_codes_ref]. Qed.
Theorem C89_object : forall (HO : HashOrder),
  (forall o p o', object_add_property (P := true) o p = Ret o' -> object_add_property (P := false) o p = Ret o') /\
  (forall s o o', object_clone (P := true) s o = Ret o' -> object_clone (P := false) s o = Ret o') /\
  (forall o c v k x, object_set_property_int (P := true) o c v k = Ret x -> object_set_property_int (P := false) o c v k = Ret x) /\
  (forall o c x, object_property_data_as_int (P := true) o c = Ret x -> object_property_data_as_int (P := false) o c = Ret x) /\
  (forall o c x, object_set_manufacturer_code (P := true) o c = Ret x -> object_set_manufacturer_code (P := false) o c = Ret x).
Proof.
  intro HO. split; [exact add_property_ref|]. split; [exact clone_ref|]. split; [exact object_set_int_ref|]. split; [exact object_as_int_ref|exact manufacturer_ref].
Qed.
(** The standard database and the objects built from it. *)
Theorem C89_database : forall (HO : HashOrder),
  (forall seed db, standard_database (P := true) seed = Ret db -> standard_database (P := false) seed = Ret db) /\
  (forall db u1 u2 s c o, device_object (P := true) db u1 u2 s c = Ret o -> device_object (P := false) db u1 u2 s c = Ret o).
Proof. intro HO. split; [exact database_ref|exact device_object_ref]. Qed.
(** Histories of a node: state, answers and everything sent. *)
Theorem C89_node : forall (U : Type) (HO : HashOrder) (Os : OS) (s s' : U * node U * world) ops,
  node_run (P := true) s ops = Ret s' -> node_run (P := false) s ops = Ret s'.
Proof. intros U HO Os s s' ops. apply run_ref. Qed.
Theorem C89_device : forall (U : Type) (HO : HashOrder),
  (forall db u1 u2 s (n : node U) i c x, device_new (P := true) db u1 u2 s n i c = Ret x -> device_new (P := false) db u1 u2 s n i c = Ret x) /\
  (forall ks (n : node U) x, device_dos (P := true) n ks = Ret x -> device_dos (P := false) n ks = Ret x).
Proof. intros U HO. split; [exact device_new_ref|exact device_dos_ref]. Qed.
(** Histories of a process, as long as no observer panicked on a receive thread. *)
Theorem C89_process : forall (U : Type) (HO : HashOrder) (Os : OS) (Uu : Uuids) db ops (h h' : host U) w w', h_wpoisoned h' = [] ->
  host_run (P := true) db (h, w) ops = Ret (h', w') -> host_run (P := false) db (h, w) ops = Ret (h', w').
Proof. intros U HO Os Uu db ops h h' w w'. apply host_run_ref. Qed.
(** With properties at 0x80 to 0xFF and safe datagrams, the builds are the same. *)
Theorem C89_same : forall (U : Type) (HO : HashOrder) (Os : OS) (Uu : Uuids) seed db, standard_database (P := true) seed = Ret db ->
  (forall k, uuid_ok (new_uuid k)) ->
  forall np n0 (u : U) w ops, obj_built (P := true) np -> (forall c p, object_find_property np c = Some p -> 0x80 <= c) -> node_new (P := true) np = Ret n0 ->
  Forall (hop_ok (P := true)) ops ->
  host_run (P := false) db (host_new u n0, w) ops = host_run (P := true) db (host_new u n0, w) ops /\
  host_run (P := true) db (host_new u n0, w) ops <> Panic.
Proof.
  intros U HO Os Uu seed db Db Uo np n0 u w ops B C N F.
  destruct (hrun_healthy (P := true) seed db Db Uo ops (host_new u n0) w F (new_healthy (P := true) np n0 u B C N)) as (h & w' & E & H).
  rewrite E. split; [|discriminate]. apply C89_process; [|exact E]. exact (hh_wpoisoned h H).
Qed.
Print Assumptions C89_codec.
Print Assumptions C89_object.
Print Assumptions C89_database.
Print Assumptions C89_node.
Print Assumptions C89_device.
Print Assumptions C89_process.
Print Assumptions C89_same.

(** *** Cases *)
(** The lamp process in both builds: the answer is the same. *)
Example C89_case : let ops := dev_ops ++ [get (on_lamp 5)] in
  exists h w, host_run (P := true) (HO := ex_order) (O := ex_os) (Uu := ex_uuids) ex_db (ex_host, w0) ops = Ret (h, w) /\ h_wpoisoned h = [] /\
  host_run (P := false) (HO := ex_order) (O := ex_os) (Uu := ex_uuids) ex_db (ex_host, w0) ops = Ret (h, w).
Proof.
  cbv zeta. pose proof (the_run (dev_run (dev_ops ++ [get (on_lamp 5)])) ltac:(vm_compute; reflexivity)) as E.
  assert (W : h_wpoisoned (fst (the (ex_host, w0) (dev_run (dev_ops ++ [get (on_lamp 5)])))) = []) by (vm_compute; reflexivity).
  unfold dev_run in E, W at 1. exists (fst (the (ex_host, w0) (dev_run (dev_ops ++ [get (on_lamp 5)])))), (snd (the (ex_host, w0) (dev_run (dev_ops ++ [get (on_lamp 5)])))).
  split; [exact E|]. split; [exact W|]. exact (C89_process _ _ _ _ _ _ _ _ _ _ W E).
Qed.
(** Where the debug build panics, the release build goes on: with 16 readable
    properties one of which has code 0x10, the Get map of the release build
    names property 0x90 instead; the first of five octets of a
    number is counted as if it were the last one. *)
Definition low_props : list prop := map (fun c => ex_prop c Required Prohibited Optional)
  [0x9F; 0x10; 0x81; 0x82; 0x83; 0x84; 0x85; 0x86; 0x87; 0x88; 0x89; 0x8A; 0x8B; 0x8C; 0x8D; 0x8E].
Definition low_release : object := the (object_new 0) (adds (P := false) (HO := ex_order) (object_from_code 0 0x029101) low_props).
Example C89_differ : adds (P := true) (HO := ex_order) (object_from_code 0 0x029101) low_props = Panic /\
  adds (P := false) (HO := ex_order) (object_from_code 0 0x029101) low_props = Ret low_release /\
  object_property_data low_release 0x9F = Some [16; 2; 1; 1; 1; 1; 1; 1; 1; 1; 1; 1; 1; 1; 1; 1; 2] /\
  (let p := ex_prop 0x85 Required Prohibited Optional in
   prop_data_as_int (P := true) (prop_set_data p [1; 0; 0; 0; 2]) = Panic /\ prop_data_as_int (P := false) (prop_set_data p [1; 0; 0; 0; 2]) = Ret 3).
Proof. vm_compute. repeat split. Qed.
