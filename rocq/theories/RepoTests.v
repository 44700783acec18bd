(** The tests of the repository, played in the model. They are tests of the model,
    not proofs: every [Example] is the translation of one test of /repo (loops are
    unfolded by computation), and must hold because the test passes there. *)
From Verif Require Import Base HMap ModelCodec ModelMessages ModelObject DbTable MakerTable ModelTransport ModelNode ModelController ModelHost ModelDevice
  ModelNetwork SpecWire SpecObject SpecNode PropertiesObject ExamplesNode PropertiesController.

(** assert!(x) and the rest. *)
Definition passes (b : bool) : Prop := b = true.
Definition val {A} (d : A) (x : outcome A) : A := match x with Ret a => a | Panic => d end.
Fixpoint range (k : nat) (from : N) : list N := match k with O => [] | S k => from :: range k (from + 1) end.

(** ** src/protocol/esv_test.rs:22-28 *)
Example test_esv : passes (forallb (fun e => esv_eqb e (esv_from_u8 (esv_to_u8 e))) esv_iter).
Proof. vm_compute. reflexivity. Qed.

(** ** src/protocol/message_test.rs *)
(** lines 22-26 *)
Example test_new_message : passes (msg_is_format1 msg_new).
Proof. vm_compute. reflexivity. Qed.
(** lines 28-47 *)
Example test_message_setter :
  let m := msg_set_esv (msg_set_deoj (msg_set_seoj (msg_set_tid msg_new 0x1234) 0x2345) 0x3456) EWriteRequest in
  msg_tid m = 0x1234 /\ msg_seoj m = 0x2345 /\ msg_deoj m = 0x3456 /\ msg_esv m = EWriteRequest.
Proof. vm_compute. auto. Qed.
(** lines 49-118 *)
Definition test_msg (n : N) : list N :=
  [0x10; 0x81; 0x01; 0x01; 0xA0; 0xB0; 0xC0; 0xD0; 0xE0; 0xF0; esv_to_u8 ENotification; n] ++
  firstn (nth (N.to_nat n) [0; 3; 7]%nat 0%nat) [1; 1; 0x61; 2; 2; 0x62; 0x63; 3; 3; 0x63; 0x64; 0x65].
Definition message_parse (bs : list N) : bool :=
  match msg_parse msg_new bs with
  | Ret (true, m) =>
    (msg_tid m =? 0x0101) && (msg_seoj m =? 0xA0B0C0) && (msg_deoj m =? 0xD0E0F0) && esv_eqb (msg_esv m) ENotification &&
    forallb (fun i => match msg_property m (N.to_nat i) with
                      | Ret p => (N.of_nat (pp_size p) =? i + 1) && (N.of_nat (length (pp_data p)) =? i + 1) &&
                                 forallb (fun j => nth (N.to_nat j) (pp_data p) 0 =? 0x61 + i + j) (range (pp_size p) 0)
                      | Panic => false
                      end) (range (msg_opc m) 0) &&
    match msg_parse msg_new (msg_bytes m) with Ret (true, m') => msg_equals m m' | _ => false end
  | _ => false
  end.
Example test_message_parse : passes (forallb (fun n => message_parse (test_msg n)) [0; 1; 2]).
Proof. vm_compute. reflexivity. Qed.
(** lines 120-134; the frame has SEOJ and DEOJ 00F001 00F001 *)
Example test_message_parse_requests : passes (fst (val (false, msg_new)
  (msg_parse msg_new [0x10; 0x81; 0x00; 0x01; 0x00; 0xF0; 0x01; 0x00; 0xF0; 0x01; 0x62; 0x01; 0xD6; 0x00]))).
Proof. vm_compute. reflexivity. Qed.
(** lines 136-141 *)
Example test_message_from_message : msg_from_bytes
  [0x10; 0x81; 0x00; 0x01; 0x0E; 0xF0; 0x01; 0x0E; 0xF0; 0x01; 0x72; 0x01; 0xD6; 0x07; 0x02; 0x0F; 0x20; 0x01; 0x02; 0x91; 0x01] <> Panic.
Proof. vm_compute. discriminate. Qed.

(** ** src/message_test.rs *)
(** lines 24-31 *)
Example test_search_message : msg_bytes search_message = [0x10; 0x81; 0x00; 0x00; 0x0E; 0xF0; 0x01; 0x0E; 0xF0; 0x01; 0x62; 0x01; 0xD6; 0x00].
Proof. vm_compute. reflexivity. Qed.
(** lines 33-40; NodeProfileMessage::parse returns true always *)
Example test_node_profile_message :
  (let! m := msg_from_bytes [0x10; 0x81; 0x00; 0x01; 0x0E; 0xF0; 0x01; 0x0E; 0xF0; 0x01; 0x72; 0x01; 0xD6; 0x04; 0x01; 0x05; 0xFF; 0x01] in
   let! l := node_profile_codes (P := true) (m_props m) in Ret (length l)) = Ret 1%nat.
Proof. vm_compute. reflexivity. Qed.
(** lines 42-58 *)
Definition test_req : message := val msg_new (msg_from_bytes [0x10; 0x81; 0x00; 0x33; 0x0E; 0xF0; 0x01; 0x0E; 0xF0; 0x01; 0x62; 0x01; 0xD6; 0x00]).
Example test_response_message : msg_esv (response_message test_req) = EReadResponse /\ msg_tid (response_message test_req) = 0x0033.
Proof. vm_compute. auto. Qed.
Example test_error_response_message :
  msg_esv (response_error_message test_req) = EReadRequestError /\ msg_tid (response_error_message test_req) = 0x0033.
Proof. vm_compute. auto. Qed.

(** ** src/object_test.rs *)
(** lines 21-29 *)
Example test_object_code :
  let o := object_set_code (object_new 0) 0x0EF001 in
  object_code o = 0x0EF001 /\ object_class_group_code o = 0x0E /\ object_class_code o = 0xF0 /\ object_instance_code o = 0x01.
Proof. vm_compute. auto. Qed.
(** lines 31-45: the object starts without property maps, so that codes below 0x80
    do no harm *)
Example test_object_property :
  match add_properties (P := true) (HO := ex_order) (object_new 0) (map (prop_set_code prop_new) (range 9 1)) with
  | Ret o => forallb (object_has_property o) (range 9 1)
  | Panic => false
  end = true.
Proof. vm_compute. reflexivity. Qed.

(** ** src/property_test.rs *)
(** lines 20-28 *)
Example test_property_set_data :
  passes (forallb (fun n => N.of_nat (length (p_data (prop_set_data prop_new (repeat 0 (N.to_nat n))))) =? n) (range 9 1)).
Proof. vm_compute. reflexivity. Qed.
(** lines 30-40 *)
Example test_property_add_data :
  snd (fold_left (fun s n => let '(p, total, ok) := s in let p := prop_add_data p (repeat 0 (N.to_nat n)) in
                             (p, total + n, ok && (N.of_nat (length (p_data p)) =? total + n))) (range 9 1) (prop_new, 0, true)) = true.
Proof. vm_compute. reflexivity. Qed.

(** ** src/util/bytes_test.rs:20-45 *)
Definition back_and_forth (k : nat) (n : N) : bool :=
  match bytes_from_u32 (P := true) n k with
  | Ret b => match bytes_to_u32 (P := true) b with Ret x => x =? n | Panic => false end
  | Panic => false
  end.
Example test_bytes_from :
  passes (forallb (back_and_forth 1) (range 256 0) &&
          forallb (fun i => back_and_forth 2 (i * 0x101)) (range 256 0) &&
          forallb (fun i => back_and_forth 3 (i * 0x10101)) (range 256 0) &&
          forallb (fun i => back_and_forth 4 (i * 0x1010101)) (range 256 0)).
Proof. vm_compute. reflexivity. Qed.

(** ** src/util/oid_test.rs:21-25 *)
Example test_oid : match oid_new (P := true) OBJECT_MANUFACTURER_EXPERIMENT (new_uuid (Uuids := ex_uuids) 0) with
                   | Ret id => length id | Panic => 0%nat end = 17%nat.
Proof. vm_compute. reflexivity. Qed.

(** ** src/database_test.rs:21-40 *)
Example test_standard_database :
  find_manufacture 0x00000B <> None /\
  match db_find_object ex_db SUPER_OBJECT_CODE with Some o => object_has_property o 0x80 | None => false end = true /\
  match db_find_object ex_db 0x029100 with Some o => object_has_property o 0xB0 | None => false end = true.
Proof. vm_compute. repeat split; discriminate || reflexivity. Qed.

(** ** src/node_profile_test.rs:21-33 and src/node_test.rs:22-39 *)
Definition test_np : object := val (object_new 0) (node_profile_object (P := true) (HO := ex_order) ex_db
  (new_uuid (Uuids := ex_uuids) 0) (new_uuid (Uuids := ex_uuids) 1) 3).
Example test_node_profile : object_code test_np = NODE_PROFILE_OBJECT_CODE /\
  object_property_data_as_int (P := true) test_np 0x8A = Ret (Some OBJECT_MANUFACTURER_EXPERIMENT) /\
  match object_property_data test_np 0x83 with Some d => length d | None => 0%nat end = 17%nat.
Proof. vm_compute. auto. Qed.

Definition test_node0 {U} : node U := val (Node manager_new [] 0 None [] []) (node_new (P := true) test_np).
Example test_node :
  match find_object (n_objects (test_node0 (U := unit))) NODE_PROFILE_OBJECT_CODE with
  | Some o => match object_property_data_as_int (P := true) o 0x8A, object_property_data o 0x83 with
              | Ret (Some c), Some d => (c =? OBJECT_MANUFACTURER_EXPERIMENT) && Nat.ltb 0 (length d)
              | _, _ => false
              end
  | None => false
  end = true /\
  match node_start (O := ex_os) w0 (test_node0 (U := unit)) with
  | Ret (ok, n, w) => ok && match node_stop n with Ret (ok, _) => ok | Panic => false end
  | Panic => false
  end = true.
Proof. vm_compute. auto. Qed.

(** ** src/device_test.rs:22-73 *)
Definition test_dev : outcome (device * node unit) :=
  device_new (P := true) (HO := ex_order) ex_db (new_uuid (Uuids := ex_uuids) 2) (new_uuid (Uuids := ex_uuids) 3) 5 test_node0 10 0x029101.
Definition is_data (x : option (list N)) (d : list N) : bool := match x with Some l => bytes_eqb l d | None => false end.
Definition device_mandatory_properties : bool :=
  match test_dev with
  | Panic => false
  | Ret (d, n) =>
    match device_property d n 0x82 with Some l => Nat.eqb (length l) 4 && (nth 2 l 0 =? 0x50) | None => false end &&
    is_data (device_property d n 0x88) [0x42] && is_data (device_property d n 0x81) [0x00] &&
    is_data (device_property d n 0x8A) [0xFF; 0xFF; 0xFF] &&
    let '(ok1, n) := device_set_property d n 0x80 [0x30] in
    ok1 && is_data (device_property d n 0x80) [0x30] &&
    let '(ok2, n) := device_set_property d n 0x80 [0x31] in
    ok2 && is_data (device_property d n 0x80) [0x31] &&
    match device_start (O := ex_os) w0 n with
    | Panic => false
    | Ret (ok3, n, w) =>
      ok3 && is_data (device_property d n 0x80) [0x30] &&
      match device_stop n with
      | Panic => false
      | Ret (ok4, n) => ok4 && is_data (device_property d n 0x80) [0x31]
      end
    end
  end.
Example test_device : passes device_mandatory_properties.
Proof. vm_compute. reflexivity. Qed.

(** ** src/controller_test.rs:21-30 and src/remote_node_test.rs:21-29 *)
Example test_controller :
  match controller_start (O := ex_os) w0 (test_node0 (U := unit)) [] with
  | Panic => false
  | Ret (ok, n, l, w) =>
    let '(ok2, n, w) := controller_search_all (O := ex_os) w n in
    ok && ok2 && match controller_stop n l with Ret (ok, _, _) => ok | Panic => false end
  end = true.
Proof. vm_compute. reflexivity. Qed.
Example test_remote_node :
  length (rn_objects (fold_left (fun r c => remote_add_object r (object_set_code (object_new 0) c)) (range 9 1) (Remote (V4 0, 0) []))) = 9%nat.
Proof. vm_compute. reflexivity. Qed.

(** ** tests/node_test.rs *)
(** The network of the test: one interface; what is sent to its address is received
    by the unicast server, what is sent to the group by the multicast server. All
    datagrams are received before the next call (the test waits for the answer). *)
Definition lo_receive (x : host (N * N) * world) (p : packet) : host (N * N) * world :=
  receive (P := true) (HO := ex_order) (O := ex_os) (Uu := ex_uuids) ex_db (fun _ => true) (fst x) (snd x)
    (if sockaddr_eqb (pk_to p) (MULTICAST_V4_ADDRESS, PORT) then Multi 0 else Uni 0) (pk_data p) (V4 0xC0A8000A, PORT).
Fixpoint lo_settle (fuel : nat) (seen : nat) (x : host (N * N) * world) : host (N * N) * world :=
  match fuel with
  | O => x
  | S fuel =>
    match nth_error (packets (w_trace (snd x))) seen with
    | Some p => lo_settle fuel (S seen) (lo_receive x p)
    | None => x
    end
  end.
(** One call and the datagrams that follow it. *)
Definition lo_step (x : outcome (host (N * N) * world)) (op : host_op (N * N)) : outcome (host (N * N) * world) :=
  let! s := x in
  let seen := length (packets (w_trace (snd s))) in
  let! s := host_step (P := true) (HO := ex_order) (O := ex_os) (Uu := ex_uuids) ex_db s op in
  Ret (lo_settle 20 seen s).

(** tests/node_test.rs:33-40, the node, the test device (tests/test.rs:34-43) and
    the controller (src/controller.rs:83-91, src/controller_node.rs:36-48). *)
Definition t_dev : outcome (device * node (N * N)) :=
  device_new (P := true) (HO := ex_order) ex_db (new_uuid (Uuids := ex_uuids) 2) (new_uuid (Uuids := ex_uuids) 3) 5 test_node0 10 0x05FD.
Definition t_node : node (N * N) :=
  let n := snd (val (Device 0, test_node0) t_dev) in
  node_add_observer (node_add_observer (device_set_handler n (testdevice_handler (P := true) 0x05FD)) (Observer 20 ObsNode)) (Observer 21 ObsController).
Definition t_start : outcome (host (N * N) * world) :=
  fold_left lo_step [HApi OpStart; HCtrlStart; HSearch NODE_PROFILE_OBJECT_CODE] (Ret (host_new (0, 0) t_node, w0)).

(** A call of post_message and what its channel gets. *)
Definition t_post (s : outcome (host (N * N) * world)) (m : message) : outcome (host (N * N) * world) * list message :=
  match s with
  | Panic => (Panic, [])
  | Ret (h, w) =>
    match h_remotes h with
    | [] => (Panic, [])
    | r :: _ =>
      let c := w_chan w in
      match lo_step s (HCtrlPost r m) with
      | Panic => (Panic, [])
      | Ret s => (Ret s, flat_map (fun e => match e with EvDeliver k m => if k =? c then [m] else [] | _ => [] end) (w_trace (snd s)))
      end
    end
  end.
Definition t_write (v : N) : message := msg_add_property (msg_set_esv (msg_set_deoj msg_new 0x05FD) EWriteRequestResponseRequired) (PProp 0x80 [v]).
Definition t_read : message := msg_add_property (msg_set_esv (msg_set_deoj msg_new 0x05FD) EReadRequest) (PProp 0x80 []).
Definition t_write_read (v : N) : message :=
  msg_add_property_get (msg_add_property_set (msg_set_esv (msg_set_deoj msg_new 0x05FD) EWriteReadRequest) (PProp 0x80 [v])) (PProp 0x80 []).
(** tests/node_test.rs:65-103, one round. *)
Definition t_round1 (x : outcome (host (N * N) * world) * bool) (v : N) : outcome (host (N * N) * world) * bool :=
  let '(s, ok) := x in
  let '(s, r1) := t_post s (t_write v) in
  let '(s, r2) := t_post s t_read in
  (s, ok && match r1, r2 with
            | [a], [b] => esv_eqb (msg_esv a) EWriteResponse && Nat.eqb (msg_opc a) 1 &&
                          esv_eqb (msg_esv b) EReadResponse && Nat.eqb (msg_opc b) 1 &&
                          match msg_property b 0 with Ret p => bytes_eqb (pp_data p) [v] | Panic => false end
            | _, _ => false
            end).
(** tests/node_test.rs:105-132, one round. *)
Definition t_round2 (x : outcome (host (N * N) * world) * bool) (v : N) : outcome (host (N * N) * world) * bool :=
  let '(s, ok) := x in
  let '(s, r) := t_post s (t_write_read v) in
  (s, ok && match r with
            | [a] => esv_eqb (msg_esv a) EWriteReadResponse && Nat.eqb (msg_opc a) 0 && Nat.eqb (msg_opc_set a) 1 && Nat.eqb (msg_opc_get a) 1 &&
                     match msg_property_get a 0 with Ret p => bytes_eqb (pp_data p) [v] | Panic => false end
            | _ => false
            end).
Definition t_all : outcome (host (N * N) * world) * bool :=
  fold_left t_round2 [0x30; 0x31] (fold_left t_round1 [0x30; 0x31] (t_start, true)).
Example test_integration_found :
  match t_start with
  | Ret (h, _) => forallb (fun r => manager_has_interface (n_mgr (h_node h)) (fst (rn_addr r))) (h_remotes h) && Nat.eqb (length (h_remotes h)) 1
  | Panic => false
  end = true.
Proof. vm_compute. reflexivity. Qed.
Example test_integration :
  match t_all with
  | (Ret (h, w), ok) => ok && match node_stop (h_node h) with
                              | Ret (ok1, n) => ok1 && match node_stop n with Ret (ok2, _) => ok2 | Panic => false end
                              | Panic => false
                              end
  | _ => false
  end = true.
Proof. vm_compute. reflexivity. Qed.
