(** How long start and stop take: the functions of ModelTransport.v again, with
    the time that passes in them. Time passes in thread::sleep, in recv_from, in
    the work of a receive thread between two receives, and in join; everything
    else takes no time. The unit is the nanosecond. *)
From Verif Require Import Base ModelCodec ModelMessages ModelTransport.

(** A millisecond, as in src/transport/udp_socket.rs:105 and 115. *)
Definition ms : N := 1000000.

(** ** The receive loop
    src/transport/unicast_server.rs:107-147, multicast_server.rs:141-181. One
    round of the loop: recv_from returns after [recv] (a datagram, or the time is
    up), and [work] later the loop is back at its condition; or recv_from fails
    after [recv] in another way and the loop is left; or recv_from never returns. *)
Inductive round : Type :=
| Round (recv work : N)
| Breaks (recv : N)
| Blocks.
(** src/transport/unicast_server.rs:107-147, multicast_server.rs:141-181, the rounds of
    one receive thread. *)
Definition life : Type := nat -> round.

(** The runtime: the rounds of the thread of a socket, and whether set_read_timeout
    worked on it, by the number of the next call. Used for
    src/transport/unicast_server.rs:102-147, multicast_server.rs:136-181. *)
Class Clock := { clk_life : N -> life; clk_timeout : N -> bool }.

(** A server with the time at which its thread was spawned.
    src/transport/unicast_server.rs:30-35, multicast_server.rs:30-35. *)
Record tserver : Type := TServer { ts_server : server; ts_born : N; ts_life : life }.
(** src/transport/manager.rs:23-26. *)
Record tmanager : Type := TManager { tm_ucast : list tserver; tm_mcast : list tserver }.

(** [at_head l born n t]: the thread looks at the stop flag for the n-th time at [t].
    src/transport/unicast_server.rs:108, multicast_server.rs:142. *)
Inductive at_head (l : life) (born : N) : nat -> N -> Prop :=
| head_first : at_head l born 0 born
| head_next n t recv work : at_head l born n t -> l n = Round recv work -> at_head l born (S n) (t + recv + work).

(** [ended l born stop e]: the thread ends at [e] when the flag is set at [stop]: it
    sees the flag, or has left the loop because of an error.
    src/transport/unicast_server.rs:108-147, multicast_server.rs:142-181. *)
Definition ended (l : life) (born stop e : N) : Prop :=
  exists n t, at_head l born n t /\ (forall m u, (m < n)%nat -> at_head l born m u -> u < stop) /\
    ((stop <= t /\ e = t) \/ (t < stop /\ exists recv, l n = Breaks recv /\ e = t + recv)).

(** src/transport/unicast_server.rs:152-161, multicast_server.rs:187-196, stop at
    the time [t] returns at [e]. *)
Definition server_stopped (s : tserver) (t e : N) : Prop :=
  match sv_thread (ts_server s) with
  | TNone => e = t
  | _ => exists f, ended (ts_life s) (ts_born s) t f /\ e = N.max t f
  end.

(** unicast_manager.rs:95-104, multicast_manager.rs:95-104, stop: one server
    after the other; a panic of join leaves the function. *)
Inductive servers_stopped : list tserver -> N -> N -> Prop :=
| stopped_nil t : servers_stopped [] t t
| stopped_panic s r t e : server_stopped s t e -> server_stop (ts_server s) = Panic -> servers_stopped (s :: r) t e
| stopped_cons s r t u e x : server_stopped s t u -> server_stop (ts_server s) = Ret x -> servers_stopped r u e ->
    servers_stopped (s :: r) t e.

(** src/transport/manager.rs:86-90, stop. *)
Inductive manager_stopped (m : tmanager) (t : N) : N -> Prop :=
| mstopped_panic e : servers_stopped (tm_ucast m) t e -> servers_stop (map ts_server (tm_ucast m)) true = Panic -> manager_stopped m t e
| mstopped_all u e x : servers_stopped (tm_ucast m) t u -> servers_stop (map ts_server (tm_ucast m)) true = Ret x ->
    servers_stopped (tm_mcast m) u e -> manager_stopped m t e.

(** ** Start *)

(** src/transport/udp_socket.rs:31. *)
Definition UDP_SOCKET_BIND_SLEEP_MSEC : N := 100.

(** src/transport/udp_socket.rs:91-106, the retry loop; [t] is the time. *)
Fixpoint tbind_loop {O : OS} (n : nat) (w : world) (addr : sockaddr) (t : N) : bool * world * N :=
  match n with
  | O => (false, w, t)
  | S n' =>
    let ok := os_bind (w_calls w) in
    let w := log w (EvBind addr ok) in
    if ok then (true, w, t) else tbind_loop n' w addr (t + UDP_SOCKET_BIND_SLEEP_MSEC * ms)
  end.

(** src/transport/udp_socket.rs:84-119, bind; what set_read_timeout returns
    ([clk_timeout]) is thrown away. *)
Definition tsocket_bind {O : OS} (w : world) (s : socket) (addr : sockaddr) (t : N) : bool * socket * world * N :=
  let '(ok, w, t) := tbind_loop UDP_SOCKET_BIND_RETRY_MAX w addr t in
  if negb ok then (false, s, w, t) else (true, Socket (Some addr) (Some addr), w, t).

(** src/transport/unicast_server.rs:79-91. *)
Definition tucast_server_bind {O : OS} (w : world) (s : server) (ifaddr : ipaddr) (t : N) : bool * server * world * N :=
  match ifaddr with
  | V6 _ => (false, s, w, t)
  | V4 _ => let '(ok, k, w, t) := tsocket_bind w (sv_socket s) (ifaddr, PORT) t in
            (ok, sv_with_socket s k, w, t)
  end.

(** src/transport/multicast_server.rs:81-125. *)
Definition tmcast_server_bind {O : OS} (w : world) (s : server) (ifaddr : ipaddr) (t : N) : bool * server * world * N :=
  let '(ok, k, w, t) := tsocket_bind w (sv_socket s) (V4 0, PORT) t in
  if negb ok then (false, sv_with_socket s k, w, t)
  else let '(ok, k, w) := socket_join w k ifaddr in
       (ok, sv_with_socket s k, w, t).

(** unicast_manager.rs:82-91 and multicast_manager.rs:82-91, the loop of start. *)
Fixpoint tservers_start {O : OS} {K : Clock} (bind : world -> server -> ipaddr -> N -> bool * server * world * N)
  (w : world) (ifs : list ipaddr) (l : list tserver) (t : N) : list tserver * world * N :=
  match ifs with
  | [] => (l, w, t)
  | i :: r =>
    let '(ok, s, w, t) := bind w server_new i t in
    if negb ok then tservers_start bind w r l t
    else let '(ok, s) := server_start s in
         if negb ok then tservers_start bind w r l t
         else tservers_start bind w r (l ++ [TServer s t (clk_life (w_calls w))]) t
  end.

(** unicast_manager.rs:77-93 and multicast_manager.rs:77-93, start. *)
Definition tgroup_start {O : OS} {K : Clock} (bind : world -> server -> ipaddr -> N -> bool * server * world * N)
  (w : world) (l : list tserver) (t : N) : bool * list tserver * world * N :=
  if servers_running (map ts_server l) then (true, l, w, t)
  else let '(ifs, w) := get_all_interfaces w in
       let '(l, w, t) := tservers_start bind w ifs l t in
       (negb (Nat.eqb (length l) 0), l, w, t).

(** Not in the code: the manager (src/transport/manager.rs:23-26) without the times. *)
Definition untimed (m : tmanager) : manager := Manager (map ts_server (tm_ucast m)) (map ts_server (tm_mcast m)).

(** src/transport/manager.rs:71-84, start at the time [t] returns [ok] at [e];
    where the threads that were started have to be stopped, it waits for them. *)
Inductive manager_started {O : OS} {K : Clock} (w : world) (m : tmanager) (t : N) : bool -> tmanager -> world -> N -> Prop :=
| started_before : manager_running (untimed m) = true -> manager_started w m t true m w t
| started_no_mcast c w1 t1 e : manager_running (untimed m) = false ->
    tgroup_start tmcast_server_bind w (tm_mcast m) t = (false, c, w1, t1) ->
    manager_stopped (TManager (tm_ucast m) c) t1 e ->
    (exists x, manager_stop (untimed (TManager (tm_ucast m) c)) = Ret x) ->
    manager_started w m t false (TManager [] []) w1 e
| started_no_ucast c w1 t1 u w2 t2 e : manager_running (untimed m) = false ->
    tgroup_start tmcast_server_bind w (tm_mcast m) t = (true, c, w1, t1) ->
    tgroup_start tucast_server_bind w1 (tm_ucast m) t1 = (false, u, w2, t2) ->
    manager_stopped (TManager u c) t2 e ->
    (exists x, manager_stop (untimed (TManager u c)) = Ret x) ->
    manager_started w m t false (TManager [] []) w2 e
| started_now c w1 t1 u w2 t2 : manager_running (untimed m) = false ->
    tgroup_start tmcast_server_bind w (tm_mcast m) t = (true, c, w1, t1) ->
    tgroup_start tucast_server_bind w1 (tm_ucast m) t1 = (true, u, w2, t2) ->
    manager_started w m t true (TManager u c) w2 t2.
