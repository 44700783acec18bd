(** Vocabulary for executions of a process with receive threads. *)
From Verif Require Import Base HMap ModelCodec ModelMessages ModelObject ModelTransport ModelNode ModelController ModelHost SpecWire SpecObject SpecNode.

(** What a receive thread sees of a datagram: its first 1024 bytes
    (src/transport/default.rs:23). *)
Definition seen (d : list N) : list N := firstn (N.to_nat 1024) d.
(** The datagram [d] holds the frame [f], possibly with more bytes after it. *)
Definition holds (d : list N) (f : frame) : Prop := frame_ok f /\ exists rest, seen d = wire f ++ rest.
Definition no_frame (d : list N) : Prop := forall f, ~ holds d f.
(** The datagram ends after the first property list of a frame with two lists. *)
Definition half (d : list N) : Prop := exists t s o v ss, two_lists v /\ wprops_ok ss /\
  seen d = [0x10; 0x81; t / 256; t mod 256] ++ wire_eoj s ++ wire_eoj o ++ [v] ++ wire_props ss.
(** Datagrams without such an end and without a SetGet_SNA frame. *)
Record safe (d : list N) : Prop := {
  safe_octets : octets d;
  safe_half : ~ half d;
  safe_esv : forall f, holds d f -> f_esv f <> 0x5E }.

(** The calls that the datagram [d] from [a] causes on the observers [obs]: each
    of them once with the frame and the address of the sender, or none. *)
Inductive calls (obs : list observer) (d : list N) (a : sockaddr) : list (observer * message) -> Prop :=
| Calls f m : holds d f -> carries m f -> msg_from m = a -> calls obs d a (map (fun o => (o, m)) obs)
| No_calls : no_frame d -> calls obs d a [].

(** A receive thread that is in its loop. *)
Definition receiving {U} (h : host U) (i : server_id) (s : server) : Prop :=
  h_server h i = Some s /\ sv_thread s = TRunning /\ sv_stop s = false.

Section S.
  Context {U : Type}.
  (** Handlers that never panic. *)
  Definition returns (h : handler U) : Prop := forall u o e p, call_handler h u o e p <> Panic.
  (** Calls and datagrams that are not known to break anything: arguments of the
      right types, objects whose property codes are 0x80 and above, handlers
      that return, and safe datagrams. *)
  Definition hop_ok {P : Profile} {HO : HashOrder} (op : host_op U) : Prop :=
    match op with
    | HApi (OpRecv _) => False
    | HApi op => op_ok op /\
        match op with OpAddObject o => (forall c p, object_find_property o c = Some p -> 0x80 <= c) | OpAddHandler h => returns h | _ => True end
    | HRecv _ d _ _ => safe d
    | HCtrlSend _ m | HCtrlPost _ m => built m
    | HSearch _ | HNodes | HCtrlStart | HCtrlStop | HRecvError _ => True
    end.
End S.
