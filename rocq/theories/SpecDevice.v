(** Vocabulary for the properties of devices. *)
From Verif Require Import Base HMap ModelCodec ModelMessages ModelObject ModelTransport ModelNode ModelDevice SpecWire SpecObject SpecNode.

(** What devices on one node store: data by object code and property code. *)
Definition shelf : Type := N -> N -> option (list N).
Definition shelve (st : shelf) (oc c : N) (d : list N) : shelf :=
  fun oc' c' => if (oc' =? oc) && (c' =? c) then match st oc c with Some _ => Some d | None => None end else st oc' c'.

(** Calls of the methods of a device with object code [oc]. *)
Inductive device_call : Type :=
| SetProperty (oc c : N) (d : list N) | Property (oc c : N)
| SetManufacturerCode (oc v : N) | SetOperatingStatus (oc : N) (b : bool)
| SetInstallationLocation (oc v : N) | SetStandardVersion (oc v : N)
| SetFaultStatus (oc : N) (b : bool).
Inductive result : Type := Done (b : bool) | Data (d : option (list N)).

(** The property and the data which a setter is to write (ECHONET Lite
    Appendix, device object super class). *)
Definition written (k : device_call) : option (N * N * list N) :=
  match k with
  | SetProperty oc c d => Some (oc, c, d)
  | Property _ _ => None
  | SetManufacturerCode oc v => Some (oc, 0x8A, [v / 2 ^ 16 mod 2 ^ 8; v / 2 ^ 8 mod 2 ^ 8; v mod 2 ^ 8])
  | SetOperatingStatus oc b => Some (oc, 0x80, [if b then 0x30 else 0x31])
  | SetInstallationLocation oc v => Some (oc, 0x81, [v])
  | SetStandardVersion oc v => Some (oc, 0x82, [0; 0; v; 0])
  | SetFaultStatus oc b => Some (oc, 0x88, [if b then 0x41 else 0x42])
  end.
Definition u32_args (k : device_call) : Prop :=
  match k with SetManufacturerCode _ v => v < 2 ^ 32 | _ => True end.
(** Result of a call and the contents after it. *)
Definition answer_of (st : shelf) (k : device_call) : result * shelf :=
  match k with
  | Property oc c => (Data (st oc c), st)
  | _ => match written k with
         | Some (oc, c, d) => (Done (match st oc c with Some _ => true | None => false end), shelve st oc c d)
         | None => (Done false, st)
         end
  end.
Fixpoint answers_of (st : shelf) (ks : list device_call) : list result * shelf :=
  match ks with
  | [] => ([], st)
  | k :: r => let '(a, st) := answer_of st k in let '(l, st) := answers_of st r in (a :: l, st)
  end.

Section S.
  Context {U : Type}.
  (** The same calls in the model. *)
  Definition device_do {P : Profile} (n : node U) (k : device_call) : outcome (result * node U) :=
    let done (x : bool * node U) := Ret (Done (fst x), snd x) in
    match k with
    | SetProperty oc c d => done (device_set_property (Device oc) n c d)
    | Property oc c => Ret (Data (device_property (Device oc) n c), n)
    | SetManufacturerCode oc v => let! x := device_set_manufacturer_code (Device oc) n v in done x
    | SetOperatingStatus oc b => done (device_set_operating_status (Device oc) n b)
    | SetInstallationLocation oc v => done (device_set_installation_location (Device oc) n v)
    | SetStandardVersion oc v => done (device_set_standard_version (Device oc) n v)
    | SetFaultStatus oc b => done (device_set_fault_status (Device oc) n b)
    end.
  Fixpoint device_dos {P : Profile} (n : node U) (ks : list device_call) : outcome (list result * node U) :=
    match ks with
    | [] => Ret ([], n)
    | k :: r => let! x := device_do n k in let! y := device_dos (snd x) r in Ret (fst x :: fst y, snd y)
    end.

  (** The node [n] stores [st]: the object that a code addresses is the first one
      added with it. *)
  Definition stores (n : node U) (st : shelf) : Prop := forall oc c d,
    st oc c = Some d <-> exists o p, addressed (n_objects n) oc o /\ object_find_property o c = Some p /\ p_data p = d.

  (** Operations which are not addressed to the object [oc]; the ones that start
      or stop the node. *)
  Definition elsewhere (oc : N) (op : node_op U) : Prop :=
    match op with
    | OpSetData oc' _ _ => oc' <> oc
    | OpRecv m => msg_deoj m <> oc
    | _ => True
    end.
  Definition lifecycle (op : node_op U) : Prop := op = OpStart \/ op = OpStop.
End S.
