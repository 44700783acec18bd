(** Model of src/transport/*.rs: sockets, servers and the transport manager.

    The operating system is an oracle: every call into it has a number, and the
    oracle gives the answer to the call with that number. Since the oracle is
    arbitrary, every behaviour of an operating system is covered. Calls are
    recorded in a trace. *)
From Verif Require Import Base ModelCodec.

(** src/transport/default.rs:17-20 (224.0.23.0, 3610, 1024). *)
Definition MULTICAST_V4_ADDRESS : ipaddr := V4 0xE0001700.
(** src/transport/default.rs:17-20, the port. *)
Definition PORT : N := 3610.
(** src/transport/default.rs:17-20, the size of the receive buffer. *)
Definition MAX_PACKET_SIZE : nat := 1024.

(** A network interface of pnet::datalink::interfaces as far as
    src/transport/interface_unix.rs:56-66 looks at it; an address comes with its
    prefix length. *)
Record iface : Type := Iface {
  if_up : bool; if_loopback : bool; if_p2p : bool; if_ips : list (ipaddr * N) }.

(** Answers of the operating system and of the runtime, by call number. A UDP datagram
    is sent as a whole or not at all. [os_seed] are hash seeds. The calls are made in
    src/transport/interface_unix.rs:54-77 and src/transport/udp_socket.rs:39-173. *)
Class OS := {
  os_interfaces : N -> list iface;
  os_bind : N -> bool;
  os_join : N -> bool;
  os_send : N -> bool;
  os_seed : N -> N }.

(** Calls into the operating system, and deliveries. [EvDeliver c m]: the message [m]
    is put into the channel [c] returned by post_message.
    src/transport/udp_socket.rs:84-173; src/node.rs:226-249 for deliveries. *)
Inductive event : Type :=
| EvBind (local : sockaddr) (ok : bool)
| EvJoin (interface : ipaddr) (ok : bool)
| EvSend (local : sockaddr) (to : sockaddr) (data : list N) (ok : bool)
| EvDeliver (c : N) (m : message).

(** Number of the next call, calls so far, number of the next channel. Not in the code:
    the outside of src/transport/udp_socket.rs:84-173. *)
Record world : Type := World { w_calls : N; w_trace : list event; w_chan : N }.
(** Not in the code: records a call of src/transport/udp_socket.rs:84-173. *)
Definition log (w : world) (e : event) : world :=
  World (w_calls w + 1) (w_trace w ++ [e]) (w_chan w).
(** Not in the code: a call into the runtime that leaves no trace. *)
Definition tick (w : world) : world := World (w_calls w + 1) (w_trace w) (w_chan w).

(* ------------------------------------------------------------------ *)
(** ** src/transport/interface_unix.rs *)

(** src/transport/interface_unix.rs:29-36, is_ignore_interface (172.17.0.1/16). *)
Definition is_ignore_interface (ip : ipaddr * N) : bool :=
  ipaddr_eqb (fst ip) (V4 0xAC110001) && (snd ip =? 16).
(** src/transport/interface_unix.rs:44-46, is_v4_interface. *)
Definition is_v4_interface (ip : ipaddr * N) : bool :=
  match fst ip with V4 _ => true | V6 _ => false end.
(** src/transport/interface_unix.rs:66-74, the loop over the addresses. *)
Fixpoint interface_ips (ips : list (ipaddr * N)) : list ipaddr :=
  match ips with
  | [] => []
  | ip :: r => if is_ignore_interface ip then interface_ips r
               else if negb (is_v4_interface ip) then interface_ips r
               else fst ip :: interface_ips r
  end.
(** src/transport/interface_unix.rs:54-77, get_interfaces(is_v4_interface). *)
Fixpoint get_interfaces (is : list iface) : list ipaddr :=
  match is with
  | [] => []
  | i :: r => if negb (if_up i) then get_interfaces r
              else if if_loopback i || if_p2p i then get_interfaces r
              else match if_ips i with
                   | [] => get_interfaces r
                   | ips => interface_ips ips ++ get_interfaces r
                   end
  end.
(** src/transport/interface_unix.rs:80-82, get_all_interfaces. *)
Definition get_all_interfaces {O : OS} (w : world) : list ipaddr * world :=
  (get_interfaces (os_interfaces (w_calls w)), tick w).

(* ------------------------------------------------------------------ *)
(** ** src/transport/udp_socket.rs *)

(** src/transport/udp_socket.rs:33-36. [sk_sock] is the address to which the
    socket of the operating system is bound, [sk_ifaddr] the recorded address. *)
Record socket : Type := Socket { sk_sock : option sockaddr; sk_ifaddr : option sockaddr }.
(** src/transport/udp_socket.rs:67-72. *)
Definition socket_new : socket := Socket None None.

(** src/transport/udp_socket.rs:30. *)
Definition UDP_SOCKET_BIND_RETRY_MAX : nat := 3.

(** src/transport/udp_socket.rs:91-106, the retry loop (sleeps left out). *)
Fixpoint bind_loop {O : OS} (n : nat) (w : world) (addr : sockaddr) : bool * world :=
  match n with
  | O => (false, w)
  | S n' =>
    let ok := os_bind (w_calls w) in
    let w := log w (EvBind addr ok) in
    if ok then (true, w) else bind_loop n' w addr
  end.

(** src/transport/udp_socket.rs:84-119, bind (shutdown of an old socket and the
    read timeout left out). *)
Definition socket_bind {O : OS} (w : world) (s : socket) (addr : sockaddr) : bool * socket * world :=
  let '(ok, w) := bind_loop UDP_SOCKET_BIND_RETRY_MAX w addr in
  if negb ok then (false, s, w) else (true, Socket (Some addr) (Some addr), w).

(** src/transport/udp_socket.rs:136-145, send_to. *)
Definition socket_send_to {O : OS} (w : world) (s : socket) (data : list N) (to : sockaddr) : bool * world :=
  match sk_sock s with
  | None => (false, w)
  | Some local => let ok := os_send (w_calls w) in (ok, log w (EvSend local to data ok))
  end.

(** src/transport/udp_socket.rs:154-163, join_multicast_v4 (sets the recorded
    address first). *)
Definition socket_join {O : OS} (w : world) (s : socket) (ifaddr : ipaddr) : bool * socket * world :=
  match sk_sock s with
  | None => (false, s, w)
  | Some _ => let ok := os_join (w_calls w) in
              (ok, Socket (sk_sock s) (Some (ifaddr, PORT)), log w (EvJoin ifaddr ok))
  end.

(* ------------------------------------------------------------------ *)
(** ** Observers and src/transport/notify_manager.rs *)

(** An Arc<Mutex<dyn Observer>>. [ob_id] is the identity of the Arc; what is
    behind it: a node (src/node.rs:449), a device node (src/device_node.rs:122),
    a controller node (src/controller_node.rs:129) or a user's observer. *)
Inductive obs_kind : Type := ObsNode | ObsDevice | ObsController | ObsUser.
(** src/transport/observer.rs:25. *)
Record observer : Type := Observer { ob_id : N; ob_kind : obs_kind }.

(** src/transport/notify_manager.rs:31-42, add_observer. *)
Definition observers_add (l : list observer) (o : observer) : list observer := l ++ [o].

(* ------------------------------------------------------------------ *)
(** ** src/transport/unicast_server.rs and multicast_server.rs *)

(** State of the receive thread behind [thread_handle]: none, in its loop, returned, or
    ended by a panic. src/transport/unicast_server.rs:102-161,
    multicast_server.rs:136-196. *)
Inductive thread : Type := TNone | TRunning | TReturned | TPanicked.

(** src/transport/unicast_server.rs:30-35, multicast_server.rs:30-35. The
    notifier is its observer list and the poison flag of its mutex. *)
Record server : Type := Server {
  sv_socket : socket; sv_observers : list observer; sv_poisoned : bool;
  sv_stop : bool; sv_thread : thread }.
(** src/transport/unicast_server.rs:38-45, multicast_server.rs:38-45. *)
Definition server_new : server := Server socket_new [] false false TNone.
(** Assignment to the field socket of src/transport/unicast_server.rs:30-35,
    multicast_server.rs:30-35. *)
Definition sv_with_socket (s : server) k := Server k (sv_observers s) (sv_poisoned s) (sv_stop s) (sv_thread s).
(** Assignment to the field thread_handle of src/transport/unicast_server.rs:30-35,
    multicast_server.rs:30-35. *)
Definition sv_with_thread (s : server) t := Server (sv_socket s) (sv_observers s) (sv_poisoned s) (sv_stop s) t.
(** std::sync::Mutex: a panic while the notifier of src/transport/unicast_server.rs:32,
    multicast_server.rs:32 is locked. *)
Definition sv_poison (s : server) := Server (sv_socket s) (sv_observers s) true (sv_stop s) (sv_thread s).

(** src/transport/unicast_server.rs:47-49, multicast_server.rs:47-49,
    add_observer; [lock().unwrap()] panics when the mutex is poisoned. *)
Definition server_add_observer (s : server) (o : observer) : outcome server :=
  if sv_poisoned s then Panic
  else Ret (Server (sv_socket s) (observers_add (sv_observers s) o) false (sv_stop s) (sv_thread s)).

(** src/transport/unicast_server.rs:51-73, send. *)
Definition ucast_server_send {O : OS} (w : world) (s : server) (to : sockaddr) (msg : message) : bool * world :=
  socket_send_to w (sv_socket s) (msg_bytes msg) to.
(** src/transport/multicast_server.rs:51-75, notify. *)
Definition mcast_server_notify {O : OS} (w : world) (s : server) (msg : message) : bool * world :=
  socket_send_to w (sv_socket s) (msg_bytes msg) (MULTICAST_V4_ADDRESS, PORT).

(** src/transport/unicast_server.rs:79-91, bind; the text "{addr}:{port}" of an
    IPv6 address has no brackets and does not parse. *)
Definition ucast_server_bind {O : OS} (w : world) (s : server) (ifaddr : ipaddr) : bool * server * world :=
  match ifaddr with
  | V6 _ => (false, s, w)
  | V4 _ => let '(ok, k, w) := socket_bind w (sv_socket s) (ifaddr, PORT) in
            (ok, sv_with_socket s k, w)
  end.

(** src/transport/multicast_server.rs:81-125, bind; only IPv4 (IPv6 addresses
    never come from get_all_interfaces). *)
Definition mcast_server_bind {O : OS} (w : world) (s : server) (ifaddr : ipaddr) : bool * server * world :=
  let '(ok, k, w) := socket_bind w (sv_socket s) (V4 0, PORT) in
  if negb ok then (false, sv_with_socket s k, w)
  else let '(ok, k, w) := socket_join w k ifaddr in
       (ok, sv_with_socket s k, w).

(** src/transport/unicast_server.rs:102-150, multicast_server.rs:136-185, start:
    spawns the receive thread and returns true. The loop is in ModelHost.v. *)
Definition server_start (s : server) : bool * server := (true, sv_with_thread s TRunning).

(** src/transport/unicast_server.rs:152-161, multicast_server.rs:187-196, stop.
    [close] returns true: nobody holds the write lock of the socket and no panic
    happens under it. The join waits for the thread, which ends after its current
    iteration, and panics when the thread panicked. *)
Definition server_stop (s : server) : outcome (bool * server) :=
  match sv_thread s with
  | TPanicked => Panic
  | _ => Ret (true, Server (sv_socket s) (sv_observers s) (sv_poisoned s) true TNone)
  end.

(** src/transport/unicast_server.rs:75-77, multicast_server.rs:77-79, ifaddr. *)
Definition server_ifaddr (s : server) : option sockaddr := sk_ifaddr (sv_socket s).

(* ------------------------------------------------------------------ *)
(** ** src/transport/unicast_manager.rs, multicast_manager.rs *)

(** unicast_manager.rs:40-47, multicast_manager.rs:40-47, add_observer. *)
Fixpoint servers_add_observer (l : list server) (o : observer) : outcome (list server) :=
  match l with
  | [] => Ret []
  | s :: r => let! s' := server_add_observer s o in
              let! r' := servers_add_observer r o in Ret (s' :: r')
  end.

(** unicast_manager.rs:49-56, send. *)
Fixpoint ucast_send {O : OS} (w : world) (l : list server) (to : sockaddr) (msg : message) : bool * world :=
  match l with
  | [] => (false, w)
  | s :: r => let '(ok, w) := ucast_server_send w s to msg in
              if ok then (true, w) else ucast_send w r to msg
  end.

(** multicast_manager.rs:49-56, notify. *)
Fixpoint mcast_notify {O : OS} (w : world) (l : list server) (msg : message) : bool * world :=
  match l with
  | [] => (true, w)
  | s :: r => let '(ok, w) := mcast_server_notify w s msg in
              if negb ok then (false, w) else mcast_notify w r msg
  end.

(** unicast_manager.rs:58-63, multicast_manager.rs:58-63, is_running. *)
Definition servers_running (l : list server) : bool :=
  if Nat.eqb (length l) 0 then false else true.

(** unicast_manager.rs:65-75, multicast_manager.rs:65-75, has_interface. *)
Fixpoint servers_has_interface (l : list server) (a : ipaddr) : bool :=
  match l with
  | [] => false
  | s :: r => match server_ifaddr s with
              | None => servers_has_interface r a
              | Some x => if ipaddr_eqb (fst x) a then true else servers_has_interface r a
              end
  end.

(** unicast_manager.rs:82-91 and multicast_manager.rs:82-91, the loop of start,
    for the given bind method. Servers that fail are dropped. *)
Fixpoint servers_start {O : OS} (bind : world -> server -> ipaddr -> bool * server * world)
  (w : world) (ifs : list ipaddr) (l : list server) : list server * world :=
  match ifs with
  | [] => (l, w)
  | i :: r =>
    let '(ok, s, w) := bind w server_new i in
    if negb ok then servers_start bind w r l
    else let '(ok, s) := server_start s in
         if negb ok then servers_start bind w r l
         else servers_start bind w r (l ++ [s])
  end.

(** unicast_manager.rs:77-93, start. *)
Definition ucast_start {O : OS} (w : world) (l : list server) : bool * list server * world :=
  if servers_running l then (true, l, w)
  else let '(ifs, w) := get_all_interfaces w in
       let '(l, w) := servers_start ucast_server_bind w ifs l in
       (negb (Nat.eqb (length l) 0), l, w).

(** multicast_manager.rs:77-93, start. *)
Definition mcast_start {O : OS} (w : world) (l : list server) : bool * list server * world :=
  if servers_running l then (true, l, w)
  else let '(ifs, w) := get_all_interfaces w in
       let '(l, w) := servers_start mcast_server_bind w ifs l in
       (negb (Nat.eqb (length l) 0), l, w).

(** unicast_manager.rs:95-104, multicast_manager.rs:95-104, stop; the servers are
    dropped by [clear]. *)
Fixpoint servers_stop (l : list server) (all : bool) : outcome (bool * list server) :=
  match l with
  | [] => Ret (all, [])
  | s :: r => let! x := server_stop s in
              servers_stop r (if negb (fst x) then false else all)
  end.

(* ------------------------------------------------------------------ *)
(** ** src/transport/manager.rs *)

(** src/transport/manager.rs:23-26. *)
Record manager : Type := Manager { mg_ucast : list server; mg_mcast : list server }.
(** src/transport/manager.rs:29-34. *)
Definition manager_new : manager := Manager [] [].

(** src/transport/manager.rs:36-44, add_observer (returns true). *)
Definition manager_add_observer (m : manager) (o : observer) : outcome manager :=
  let! u := servers_add_observer (mg_ucast m) o in
  let! c := servers_add_observer (mg_mcast m) o in
  Ret (Manager u c).

(** src/transport/manager.rs:46-52, send, notify. *)
Definition manager_send {O : OS} (w : world) (m : manager) (to : sockaddr) (msg : message) : bool * world :=
  ucast_send w (mg_ucast m) to msg.
(** src/transport/manager.rs:50-52, notify. *)
Definition manager_notify {O : OS} (w : world) (m : manager) (msg : message) : bool * world :=
  mcast_notify w (mg_mcast m) msg.

(** src/transport/manager.rs:54-59, has_interface. *)
Definition manager_has_interface (m : manager) (a : ipaddr) : bool :=
  if servers_has_interface (mg_mcast m) a then true else servers_has_interface (mg_ucast m) a.

(** src/transport/manager.rs:61-69, is_running. *)
Definition manager_running (m : manager) : bool :=
  if negb (servers_running (mg_mcast m)) then false
  else if negb (servers_running (mg_ucast m)) then false
  else true.

(** src/transport/manager.rs:86-90, stop ([ret |= ...]). *)
Definition manager_stop (m : manager) : outcome (bool * manager) :=
  let! u := servers_stop (mg_ucast m) true in
  let! c := servers_stop (mg_mcast m) true in
  Ret (fst u || fst c, Manager (snd u) (snd c)).

(** src/transport/manager.rs:71-84, start. *)
Definition manager_start {O : OS} (w : world) (m : manager) : outcome (bool * manager * world) :=
  if manager_running m then Ret (true, m, w)
  else
    let '(ok, c, w) := mcast_start w (mg_mcast m) in
    let m := Manager (mg_ucast m) c in
    if negb ok then let! x := manager_stop m in Ret (false, snd x, w)
    else
      let '(ok, u, w) := ucast_start w (mg_ucast m) in
      let m := Manager u c in
      if negb ok then let! x := manager_stop m in Ret (false, snd x, w)
      else Ret (true, m, w).
