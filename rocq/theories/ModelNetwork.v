(** A local network of processes. The network is not part of the code: it is the
    environment of [ModelHost], and is described by what UDP may do with the
    datagrams that are handed to the operating system (src/transport/socket.rs,
    [EvSend] with result true). *)
From Verif Require Import Base HMap ModelCodec ModelMessages ModelObject ModelTransport ModelNode ModelController ModelHost SpecWire SpecObject SpecNode.

(** What a process runs on: build profile, hash seeds, operating system, UUIDs and its
    copy of the standard database. Not in the code: what the calls into the standard
    library and the operating system rely on (src/transport/udp_socket.rs:39-63,
    src/database.rs:51-59). *)
Record machine : Type := Machine {
  mc_profile : Profile; mc_order : HashOrder; mc_os : OS; mc_uuids : Uuids; mc_db : list object }.

(** A datagram on its way. Not in the code: what is between send_to and recv_from
    (src/transport/udp_socket.rs:136-152). *)
Record packet : Type := Packet { pk_from : sockaddr; pk_to : sockaddr; pk_data : list N }.
(** The datagrams which the operating system took: src/transport/udp_socket.rs:136-145.
    *)
Fixpoint packets (tr : list event) : list packet :=
  match tr with
  | [] => []
  | EvSend local to data true :: r => Packet local to data :: packets r
  | _ :: r => packets r
  end.

Section Net.
  Context {U : Type}.
  Variable machines : nat -> machine.

  (** Process number [k] receives the datagram in its receive thread [i]. [rc_from]:
      the address of the sender as the receiver sees it, which is not [pk_from] when
      the socket is bound to the wildcard address, or after address translation.
      src/transport/udp_socket.rs:147-152, what recv_from gives to
      src/transport/unicast_server.rs:109 or multicast_server.rs:143. *)
  Record reception : Type := Reception { rc_host : nat; rc_server : server_id; rc_from : sockaddr; rc_free : nat -> bool }.
  (** src/transport/unicast_server.rs:108-131, multicast_server.rs:142-165. *)
  Definition takes (k : nat) (r : reception) (h : host U) (w : world) (p : packet) : host U * world :=
    receive (P := mc_profile (machines k)) (HO := mc_order (machines k)) (O := mc_os (machines k)) (Uu := mc_uuids (machines k))
      (mc_db (machines k)) (rc_free r) h w (rc_server r) (pk_data p) (rc_from r).

  (** One datagram reaches some receive threads of some processes, one after the other.
      [new]: the datagrams that these send meanwhile. Not in the code: the network
      (src/transport/udp_socket.rs:136-152). *)
  Inductive arrives (p : packet) : list (host U * world) -> list reception -> list (host U * world) -> list packet -> Prop :=
  | arrives_nil hs : arrives p hs [] hs []
  | arrives_cons hs r h w h' w' tr rs hs' new :
      nth_error hs (rc_host r) = Some (h, w) -> takes (rc_host r) r h w p = (h', w') -> since w w' tr ->
      arrives p (set_nth hs (rc_host r) (h', w')) rs hs' new ->
      arrives p hs (r :: rs) hs' (packets tr ++ new).

  (** A step of the network: any datagram on its way is lost or delivered to at most
      [R] receive threads (the sockets of the network). Not in the code: the network
      (src/transport/udp_socket.rs:136-152). *)
  Inductive net_step (R : nat) : list (host U * world) * list packet -> list (host U * world) * list packet -> Prop :=
  | Net_step hs pre p post rs hs' new : (length rs <= R)%nat -> arrives p hs rs hs' new ->
      net_step R (hs, pre ++ p :: post) (hs', pre ++ post ++ new).
  (** Not in the code: [n] such steps (src/transport/udp_socket.rs:136-152). *)
  Inductive net_run (R : nat) : list (host U * world) * list packet -> nat -> list (host U * world) * list packet -> Prop :=
  | net_run_nil s : net_run R s 0 s
  | net_run_cons s s1 n s2 : net_step R s s1 -> net_run R s1 n s2 -> net_run R s (S n) s2.

  (** Processes as they are after any calls and datagrams, also such that break
      threads. Arguments are of the right types. The types of the arguments in
      src/node.rs:61-275 and src/controller.rs:88-142. *)
  Definition typed_op {P : Profile} {HO : HashOrder} (op : host_op U) : Prop :=
    match op with
    | HApi op => op_ok op
    | HRecv _ d _ _ => octets d
    | HCtrlSend _ m | HCtrlPost _ m => built m
    | HSearch _ | HNodes | HCtrlStart | HCtrlStop | HRecvError _ => True
    end.
  (** Not in the code: a process after calls and datagrams (src/node.rs:43-58). *)
  Definition lived (m : machine) (x : host U * world) : Prop :=
    exists np n0 u w ops, obj_built (P := mc_profile m) (HO := mc_order m) np /\ node_new (P := mc_profile m) np = Ret n0 /\
      Forall (typed_op (P := mc_profile m) (HO := mc_order m)) ops /\
      host_run (P := mc_profile m) (HO := mc_order m) (O := mc_os m) (Uu := mc_uuids m) (mc_db m) (host_new u n0, w) ops = Ret x.
End Net.
