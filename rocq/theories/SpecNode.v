(** Independent vocabulary for the node properties. *)
From Verif Require Import Base HMap ModelCodec ModelMessages ModelObject ModelTransport ModelNode SpecWire SpecObject.

(** A message as a receive thread hands it out: decoded from octets, with the
    address of the sender. *)
Definition received (m : message) : Prop :=
  exists bs m0 a, octets bs /\ msg_parse msg_new bs = Ret (true, m0) /\ m = msg_set_from m0 a.

(** The object of the node that is addressed by code [c]: the first one added. *)
Definition addressed (os : list object) (c : N) (o : object) : Prop :=
  exists pre post, os = pre ++ o :: post /\ object_code o = c /\ Forall (fun x => object_code x <> c) pre.
Definition not_owned (os : list object) (c : N) : Prop := Forall (fun x => object_code x <> c) os.

(** Service codes (ECHONET Lite part II, 3.2.5). *)
Definition request_service (e : N) : Prop := In e [0x60; 0x61; 0x62; 0x63; 0x6E; 0x74].
Definition success_service (e : N) : option N :=
  if e =? 0x61 then Some 0x71 else if e =? 0x62 then Some 0x72 else if e =? 0x63 then Some 0x73
  else if e =? 0x6E then Some 0x7E else if e =? 0x74 then Some 0x7A else None.
Definition failure_service (e : N) : option N :=
  if e =? 0x60 then Some 0x50 else if e =? 0x61 then Some 0x51 else if e =? 0x62 then Some 0x52
  else if e =? 0x63 then Some 0x53 else if e =? 0x6E then Some 0x5E else if e =? 0x74 then Some 0x53 else None.

(** Properties written and read by a request. *)
Definition writes_of (m : message) : list pprop :=
  if (m_esv m =? 0x60) || (m_esv m =? 0x61) then m_props m else if m_esv m =? 0x6E then m_set m else [].
Definition reads_of (m : message) : list pprop :=
  if (m_esv m =? 0x62) || (m_esv m =? 0x63) || (m_esv m =? 0x74) then m_props m
  else if m_esv m =? 0x6E then m_get m else [].
Definition all_props (m : message) : list pprop := m_props m ++ m_set m ++ m_get m.

(** The object permits the request: every property exists, what is written is
    writable and not too long, what is read is readable. *)
Definition may_write (o : object) (q : pprop) : Prop :=
  exists p, object_find_property o (pp_code q) = Some p /\ allows (p_write p) /\
    (p_cap p = 0 \/ N.of_nat (length (pp_data q)) <= p_cap p).
Definition may_read (o : object) (q : pprop) : Prop := can_read o (pp_code q).
Definition permitted (o : object) (m : message) : Prop :=
  Forall (may_write o) (writes_of m) /\ Forall (may_read o) (reads_of m).

Definition error_service (e : N) : Prop := In e [0x50; 0x51; 0x52; 0x53; 0x5E].
(** The service octet of a datagram. *)
Definition service_of (data : list N) : N := nth 10 data 0.

(** The data which a list of properties carries last for a code. *)
Fixpoint last_data (c : N) (ps : list pprop) : option (list N) :=
  match ps with
  | [] => None
  | q :: r => match last_data c r with
              | Some d => Some d
              | None => if pp_code q =? c then Some (pp_data q) else None
              end
  end.

(** Everything of an object but the data of its properties is the same. *)
Definition same_shape (a b : object) : Prop :=
  o_codes a = o_codes b /\ o_name a = o_name b /\ o_class_name a = o_class_name b /\
  (forall c, object_find_property a c = None <-> object_find_property b c = None) /\
  (forall c p q, object_find_property a c = Some p -> object_find_property b c = Some q -> same_attributes p q).

(** Datagrams which the operating system accepted. *)
Fixpoint sent (tr : list event) : list (sockaddr * list N) :=
  match tr with
  | [] => []
  | EvSend _ to data true :: r => (to, data) :: sent r
  | _ :: r => sent r
  end.
(** Datagrams offered to the operating system, successfully or not. *)
Fixpoint offered (tr : list event) : list (sockaddr * list N) :=
  match tr with
  | [] => []
  | EvSend _ to data _ :: r => (to, data) :: offered r
  | _ :: r => offered r
  end.
(** Messages put into channels. *)
Fixpoint deliveries (tr : list event) : list (N * message) :=
  match tr with
  | [] => []
  | EvDeliver c m :: r => (c, m) :: deliveries r
  | _ :: r => deliveries r
  end.
Definition group : sockaddr := (V4 (224 * 2 ^ 24 + 23 * 2 ^ 8), 3610).

(** What happened between two worlds. *)
Definition since (w w' : world) (tr : list event) : Prop := w_trace w' = w_trace w ++ tr.

Section S.
  Context {U : Type}.

  (** A handler that does not touch the object it is given. *)
  Definition hands_off (h : handler U) : Prop :=
    match h with
    | HNode => True
    | HUser f => forall u o e p u' o' b, f u o e p = Ret (u', o', b) -> o' = o
    end.
  (** A handler of the right types: it stores octets. *)
  Definition obj_octets (o : object) : Prop :=
    forall p, In p (object_properties o) -> p_code p < 256 /\ octets (p_data p).
  Definition typed_handler (h : handler U) : Prop :=
    match h with
    | HNode => True
    | HUser f => forall u o e p u' o' b, obj_octets o -> f u o e p = Ret (u', o', b) -> obj_octets o'
    end.

  (** The run of one handler over the properties: its verdicts, in order. *)
  Inductive asked (h : handler U) (e : esv) : U -> object -> list pprop -> list bool -> U -> object -> Prop :=
  | asked_nil u o : asked h e u o [] [] u o
  | asked_cons u o p u1 o1 b ps bs u2 o2 :
      call_handler h u o e p = Ret (u1, o1, b) -> asked h e u1 o1 ps bs u2 o2 ->
      asked h e u o (p :: ps) (b :: bs) u2 o2.
  (** All handlers in registration order. *)
  Inductive all_asked (e : esv) (ps : list pprop) : list (handler U) -> U -> object -> list (list bool) -> U -> object -> Prop :=
  | all_nil u o : all_asked e ps [] u o [] u o
  | all_cons h hs u o bs u1 o1 bss u2 o2 :
      asked h e u o ps bs u1 o1 -> all_asked e ps hs u1 o1 bss u2 o2 ->
      all_asked e ps (h :: hs) u o (bs :: bss) u2 o2.

  (** The verdict [b] of the registered handlers over a request: without
      handlers it is accepted, otherwise some handler must accept all properties. *)
  Definition verdict (hs : list (handler U)) (m : message) (u : U) (o : object) (u' : U) (o' : object) (b : bool) : Prop :=
    (hs = [] /\ u' = u /\ o' = o /\ b = true) \/
    (hs <> [] /\ exists bss, all_asked (msg_esv m) (m_props m) hs u o bss u' o' /\
       (b = true <-> exists bs, In bs bss /\ ~ In false bs)).

  (** Calls of the public methods of Node, and received messages. *)
  Inductive node_op : Type :=
  | OpAddObject (o : object) | OpAddHandler (h : handler U) | OpAddObserver (o : observer)
  | OpSetData (obj prop : N) (d : list N)       (* DeviceNode::set_property *)
  | OpSend (to : sockaddr) (m : message) | OpPost (to : sockaddr) (m : message) | OpNotify (m : message)
  | OpAnnounce | OpAnnounceProperty (o : object) (p : prop)
  | OpStart | OpStop | OpRecv (m : message).

  Definition set_data (n : node U) (oc c : N) (d : list N) : node U :=
    match find_object (n_objects n) oc with
    | Some o => n_with_objects n (put_object (n_objects n) oc (fst (object_set_property_data o c d)))
    | None => n
    end.

  Definition node_step {P : Profile} {HO : HashOrder} {O : OS} (s : U * node U * world) (op : node_op)
    : outcome (U * node U * world) :=
    let '(u, n, w) := s in
    match op with
    | OpAddObject o => let! n := node_add_object n o in Ret (u, n, w)
    | OpAddHandler h => Ret (u, node_add_handler n h, w)
    | OpAddObserver o => Ret (u, node_add_observer n o, w)
    | OpSetData oc c d => Ret (u, set_data n oc c d, w)
    | OpSend to m => let '(_, _, n, w) := node_send w n to m in Ret (u, n, w)
    | OpPost to m => let '(_, _, n, w) := node_post w n to m in Ret (u, n, w)
    | OpNotify m => let '(_, _, n, w) := node_notify w n m in Ret (u, n, w)
    | OpAnnounce => let '(_, n, w) := node_announce w n in Ret (u, n, w)
    | OpAnnounceProperty o p => let '(_, n, w) := node_announce_property w n o p in Ret (u, n, w)
    | OpStart => let! x := node_start w n in let '(_, n, w) := x in Ret (u, n, w)
    | OpStop => let! x := node_stop n in Ret (u, snd x, w)
    | OpRecv m => let! x := node_observe w u n m in let '(u, n, w) := x in Ret (u, n, w)
    end.
  Fixpoint node_run {P : Profile} {HO : HashOrder} {O : OS} (s : U * node U * world) (ops : list node_op)
    : outcome (U * node U * world) :=
    match ops with
    | [] => Ret s
    | op :: r => let! s := node_step s op in node_run s r
    end.

  (** Arguments of the right types. *)
  Definition op_ok {P : Profile} {HO : HashOrder} (op : node_op) : Prop :=
    match op with
    | OpAddObject o => obj_built o
    | OpAddHandler h => typed_handler h
    | OpSetData _ c d => octets d
    | OpSend _ m | OpPost _ m | OpNotify m => built m
    | OpAnnounceProperty o p => obj_built o /\ prop_built p
    | OpRecv m => received m
    | OpAddObserver _ | OpAnnounce | OpStart | OpStop => True
    end.
  (** States of a node after its creation and any number of calls and messages. *)
  Definition reachable {P : Profile} {HO : HashOrder} {O : OS} (u : U) (n : node U) (w : world) : Prop :=
    exists np n0 u0 w0 ops, obj_built np /\ node_new np = Ret n0 /\ Forall op_ok ops /\
      node_run (u0, n0, w0) ops = Ret (u, n, w).
End S.
Arguments node_op U : clear implicits.
