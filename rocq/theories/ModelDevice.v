(** Model of src/device.rs and src/device_node.rs, and of the request handlers of
    examples/monolight and tests/test.rs. *)
From Verif Require Import Base HMap ModelCodec ModelMessages ModelObject ModelTransport ModelNode.

Section Device.
  Context {U : Type}.

  (** src/device_node.rs:36-47, DeviceNode::new_with_node: it registers the node
      and itself as observers. [i] and [i + 1] are the identities of the two new
      Arcs. [remote_nodes] is never used. *)
  Definition device_node_new (n : node U) (i : N) : node U :=
    node_add_observer (node_add_observer n (Observer i ObsNode)) (Observer (i + 1) ObsDevice).

  (** src/device_node.rs:68-85, DeviceNode::set_property. *)
  Definition device_node_set_property (n : node U) (oc c : N) (data : list N) : bool * node U :=
    match find_object (n_objects n) oc with
    | None => (false, n)
    | Some o =>
      match object_find_property o c with
      | None => (false, n)
      | Some p =>
        (true, n_with_objects n (put_object (n_objects n) oc
                 (obj_with_props o (hput (o_props o) c (prop_set_data p data)))))
      end
    end.

  (** src/device_node.rs:88-99, DeviceNode::property. *)
  Definition device_node_property (n : node U) (oc c : N) : option (list N) :=
    match find_object (n_objects n) oc with
    | None => None
    | Some o => match object_find_property o c with None => None | Some p => Some (p_data p) end
    end.

  (** src/device.rs:163-166, Device. Simplified: the node, which may be shared by
      several devices, is an argument of the methods. *)
  Record device : Type := Device { dv_code : N }.

  (** src/device.rs:180-198, new_with_node and init; [o] is the object that init
      builds. [Device::new] (lines 170-177) does the same on a new node. *)
  Definition device_init {P : Profile} (n : node U) (i : N) (code : N) (o : object) : outcome (device * node U) :=
    let! n := node_add_object (device_node_new n i) o in Ret (Device code, n).
  (** src/device.rs:170-177, Device::new, and src/device.rs:189-198, init, with the
      object made there. *)
  Definition device_new {P : Profile} {HO : HashOrder} (db : list object) (u1 u2 : list N) (seed : N)
    (n : node U) (i : N) (code : N) : outcome (device * node U) :=
    let! o := device_object db u1 u2 seed code in device_init n i code o.

  (** src/device.rs:220-229, set_property, property. *)
  Definition device_set_property (d : device) (n : node U) (c : N) (data : list N) : bool * node U :=
    device_node_set_property n (dv_code d) c data.
  (** src/device.rs:226-229, property. *)
  Definition device_property (d : device) (n : node U) (c : N) : option (list N) :=
    device_node_property n (dv_code d) c.

  (** src/device.rs:231-234, src/device_node.rs:54-57, set_request_handler. *)
  Definition device_set_handler (n : node U) (h : user_handler (U := U)) : node U := node_add_handler n (HUser h).

  (** src/device.rs:237-249 and 292-296, start, stop and drop; src/device_node.rs:105-119. *)
  Definition device_start {O : OS} (w : world) (n : node U) : outcome (bool * node U * world) :=
    let! x := node_start w n in
    let '(ok, n, w) := x in
    if negb ok then Ret (false, n, w) else Ret (true, n, w).
  (** src/device.rs:246-249, stop. *)
  Definition device_stop (n : node U) : outcome (bool * node U) :=
    let! x := node_stop n in
    if negb (fst x) then Ret (false, snd x) else Ret (true, snd x).
  (** src/device.rs:293-295, Drop for Device. *)
  Definition device_drop (n : node U) : outcome (node U) :=
    let! x := device_stop n in Ret (snd x).

  (** src/device.rs:252-290, the typed setters. *)
  Definition device_set_manufacturer_code {P : Profile} (d : device) (n : node U) (code : N) : outcome (bool * node U) :=
    let! buf := bytes_from_u32 code 3 in Ret (device_set_property d n 0x8A buf).
  (** src/device.rs:259-266, set_operating_status. *)
  Definition device_set_operating_status (d : device) (n : node U) (status : bool) : bool * node U :=
    device_set_property d n 0x80 [if status then 0x30 else 0x31].
  (** src/device.rs:268-270, set_installation_location. *)
  Definition device_set_installation_location (d : device) (n : node U) (loc : N) : bool * node U :=
    device_set_property d n 0x81 [loc].
  (** src/device.rs:272-276, set_standard_version. *)
  Definition device_set_standard_version (d : device) (n : node U) (ver : N) : bool * node U :=
    device_set_property d n 0x82 [0; 0; ver; 0].
  (** src/device.rs:278-280, standard_version. *)
  Definition device_standard_version (d : device) (n : node U) : option (list N) := device_property d n 0x82.
  (** src/device.rs:282-289, set_fault_status. *)
  Definition device_set_fault_status (d : device) (n : node U) (status : bool) : bool * node U :=
    device_set_property d n 0x88 [if status then 0x41 else 0x42].
End Device.

(* ------------------------------------------------------------------ *)
(** ** examples/monolight/monolight.rs *)

(** examples/monolight/monolight.rs:59-94, the request handler, also in the
    documentation of Device (src/device.rs:127-160). The state is the field [on];
    [code] is the code of the device. *)
Definition monolight_handler {P : Profile} (code : N) (on : bool) (deoj : object) (e : esv) (p : pprop)
  : outcome (bool * object * bool) :=
  if negb (object_code deoj =? code) then Ret (on, deoj, false)
  else match e with
       | EWriteRequest | EWriteReadRequest =>
         if pp_code p =? 0x80 then
           let! v := bytes_to_u32 (pp_data p) in
           if v =? 0x30 then Ret (true, deoj, true)
           else if v =? 0x31 then Ret (false, deoj, true)
           else Ret (on, deoj, false)
         else Ret (on, deoj, false)
       | _ => Ret (on, deoj, false)
       end.

(** examples/monolight/monolight.rs:33-40, MonoLight::new on a new node: the
    state [on] and the node. *)
Definition MONOLIGHT_CODE : N := 0x029101.
(** examples/monolight/monolight.rs:33-40, MonoLight::new. *)
Definition monolight_new {P : Profile} {HO : HashOrder} (db : list object) (u1 u2 : list N) (seed : N)
  (n : node bool) (i : N) : outcome (device * bool * node bool) :=
  let! x := device_new db u1 u2 seed n i MONOLIGHT_CODE in
  let '(d, n) := x in
  Ret (d, false, device_set_handler n (monolight_handler (dv_code d))).

(* ------------------------------------------------------------------ *)
(** ** tests/test.rs *)

(** tests/test.rs:62-101, the request handler of the test device. The state
    counts the requests to switch on and off (u32). *)
Definition testdevice_handler {P : Profile} (code : N) (s : N * N) (deoj : object) (e : esv) (p : pprop)
  : outcome (N * N * object * bool) :=
  if negb (object_code deoj =? code) then Ret (s, deoj, false)
  else match e with
       | EWriteRequest | EWriteReadRequest | EWriteRequestResponseRequired =>
         if pp_code p =? 0x80 then
           let! v := bytes_to_u32 (pp_data p) in
           if v =? 0x30 then
             let! k := add_w 32 (fst s) 1 in
             Ret ((k, snd s), fst (object_set_property_byte deoj (pp_code p) 0x30), true)
           else if v =? 0x31 then
             let! k := add_w 32 (snd s) 1 in
             Ret ((fst s, k), fst (object_set_property_byte deoj (pp_code p) 0x31), true)
           else Ret (s, deoj, false)
         else Ret (s, deoj, false)
       | _ => Ret (s, deoj, true)
       end.
