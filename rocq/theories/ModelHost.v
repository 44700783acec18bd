(** Model of a process: one node with its transport, receive threads and
    observers, and optionally a controller on that node.

    One step is one call of the API by the application or one datagram handled
    by a receive thread. Simplified: a step is atomic. In the code the node is
    locked during every such step, observers of different nodes and controllers
    do not share state, and what else may happen at the same time is expressed
    by the argument [free], which says whether try_lock succeeds. *)
From Verif Require Import Base HMap ModelCodec ModelMessages ModelObject ModelTransport ModelNode ModelController SpecNode.

Section Host.
  Context {U : Type}.

  (** [h_poisoned], [h_cpoisoned], [h_wpoisoned]: poison flags of the mutex of the
      node, of the mutex of the controller node and of the mutexes around the observers
      (by [ob_id]; std::sync::Mutex is poisoned by a panic of the holder). [h_log]
      records the calls of Observer::message_received. The fields of src/node.rs:33-40
      and src/controller_node.rs:31-34, and the mutexes made in src/node.rs:43-58,
      src/device_node.rs:36-47 and src/controller_node.rs:41-52. *)
  Record host : Type := Host {
    h_user : U; h_node : node U; h_poisoned : bool;
    h_remotes : list remote_node; h_cpoisoned : bool;
    h_wpoisoned : list N; h_log : list (observer * message) }.
  (** Not in the code: the data behind the mutex of the node (src/node.rs:33-40) after
      a step. *)
  Definition h_with_node (h : host) u n := Host u n (h_poisoned h) (h_remotes h) (h_cpoisoned h) (h_wpoisoned h) (h_log h).
  (** Not in the code: the field remote_nodes (src/controller_node.rs:31-34) after a
      step. *)
  Definition h_with_remotes (h : host) r := Host (h_user h) (h_node h) (h_poisoned h) r (h_cpoisoned h) (h_wpoisoned h) (h_log h).
  (** std::sync::Mutex: a panic while the node is locked (src/node.rs:449-471). *)
  Definition h_poison_node (h : host) := Host (h_user h) (h_node h) true (h_remotes h) (h_cpoisoned h) (h_wpoisoned h) (h_log h).
  (** std::sync::Mutex: a panic while the controller node is locked
      (src/controller_node.rs:129-148). *)
  Definition h_poison_ctrl (h : host) := Host (h_user h) (h_node h) (h_poisoned h) (h_remotes h) true (h_wpoisoned h) (h_log h).
  (** std::sync::Mutex: a panic while an observer is locked
      (src/transport/notify_manager.rs:48-54). *)
  Definition h_poison_wrapper (h : host) i := Host (h_user h) (h_node h) (h_poisoned h) (h_remotes h) (h_cpoisoned h) (i :: h_wpoisoned h) (h_log h).
  (** Not in the code: records the call in src/transport/notify_manager.rs:48-54. *)
  Definition h_called (h : host) o m := Host (h_user h) (h_node h) (h_poisoned h) (h_remotes h) (h_cpoisoned h) (h_wpoisoned h) (h_log h ++ [(o, m)]).

  (** Observer::message_received of the observers of the library:
      src/node.rs:449-471, src/controller_node.rs:129-148, src/device_node.rs:122-124.
      [free]: nobody else holds the mutex, so that try_lock succeeds unless the
      mutex is poisoned. The flag returned says that the call panicked.
      Simplified: observers of users do not use the node. *)
  Definition observer_received {P : Profile} {HO : HashOrder} {O : OS} {Uu : Uuids} (db : list object) (free : bool)
    (h : host) (w : world) (o : observer) (m : message) : bool * host * world :=
    match ob_kind o with
    | ObsNode =>
      if h_poisoned h || negb free then (false, h, w)
      else match node_observe w (h_user h) (h_node h) m with
           | Ret (u, n, w) => (false, h_with_node h u n, w)
           | Panic => (true, h_poison_node h, w)
           end
    | ObsController =>
      if h_cpoisoned h || negb free then (false, h, w)
      else match controller_observe db w (h_remotes h) m with
           | Ret (r, w) => (false, h_with_remotes h r, w)
           | Panic => (true, h_poison_ctrl h, w)
           end
    | ObsDevice | ObsUser => (false, h, w)
    end.

  (** src/transport/notify_manager.rs:48-54, notify: [observer.lock().unwrap()]
      panics when the mutex around the observer is poisoned, and a panic of the
      observer poisons it. *)
  Fixpoint notify_observers {P : Profile} {HO : HashOrder} {O : OS} {Uu : Uuids} (db : list object) (free : nat -> bool)
    (i : nat) (h : host) (w : world) (l : list observer) (m : message) : bool * host * world :=
    match l with
    | [] => (false, h, w)
    | o :: r =>
      if existsb (N.eqb (ob_id o)) (h_wpoisoned h) then (true, h, w)
      else
        let '(bad, h, w) := observer_received db (free i) (h_called h o m) w o m in
        if bad then (true, h_poison_wrapper h (ob_id o), w)
        else notify_observers db free (S i) h w r m
    end.

  (** A receive thread: unicast or multicast server number [k].
      src/transport/unicast_manager.rs:29-31, multicast_manager.rs:29-31. *)
  Inductive server_id : Type := Uni (k : nat) | Multi (k : nat).
  (** src/transport/manager.rs:23-26, the server of that number. *)
  Definition server_at (m : manager) (i : server_id) : option server :=
    match i with Uni k => nth_error (mg_ucast m) k | Multi k => nth_error (mg_mcast m) k end.
  (** Assignment to an element of a Vec; used for src/transport/manager.rs:23-26. *)
  Fixpoint set_nth {A} (l : list A) (k : nat) (x : A) : list A :=
    match l, k with
    | [], _ => []
    | _ :: r, O => x :: r
    | y :: r, S k => y :: set_nth r k x
    end.
  (** src/transport/manager.rs:23-26, the server of that number after a step. *)
  Definition set_server (m : manager) (i : server_id) (s : server) : manager :=
    match i with
    | Uni k => Manager (set_nth (mg_ucast m) k s) (mg_mcast m)
    | Multi k => Manager (mg_ucast m) (set_nth (mg_mcast m) k s)
    end.
  (** Not in the code: the transport manager (src/node.rs:33-40) after a step of a
      receive thread. *)
  Definition h_set_server (h : host) (i : server_id) (s : server) : host :=
    h_with_node h (h_user h) (n_with_mgr (h_node h) (set_server (n_mgr (h_node h)) i s)).
  (** src/transport/manager.rs:23-26, the server of a receive thread. *)
  Definition h_server (h : host) (i : server_id) : option server := server_at (n_mgr (h_node h)) i.

  (** src/transport/unicast_server.rs:108-131, multicast_server.rs:142-165: one
      iteration of the receive loop that got the datagram [data]; the system
      cuts it to the size of the buffer. No lock is held while parsing. *)
  Definition receive {P : Profile} {HO : HashOrder} {O : OS} {Uu : Uuids} (db : list object) (free : nat -> bool)
    (h : host) (w : world) (i : server_id) (data : list N) (from : sockaddr) : host * world :=
    match h_server h i with
    | None => (h, w)
    | Some s =>
      match sv_thread s with
      | TRunning =>
        if sv_stop s then (h_set_server h i (sv_with_thread s TReturned), w)
        else match msg_parse msg_new (firstn MAX_PACKET_SIZE data) with
             | Panic => (h_set_server h i (sv_with_thread s TPanicked), w)
             | Ret (false, _) => (h, w)
             | Ret (true, m) =>
               let m := msg_set_from m from in
               if sv_poisoned s then (h_set_server h i (sv_with_thread s TPanicked), w)
               else let '(bad, h, w) := notify_observers db free 0 h w (sv_observers s) m in
                    if bad then (h_set_server h i (sv_with_thread (sv_poison s) TPanicked), w)
                    else (h, w)
             end
      | _ => (h, w)
      end
    end.

  (** src/transport/unicast_server.rs:132-144, multicast_server.rs:166-178: an
      error of recv_from other than a timeout ends the loop. *)
  Definition receive_error (h : host) (i : server_id) : host :=
    match h_server h i with
    | Some s => match sv_thread s with TRunning => h_set_server h i (sv_with_thread s TReturned) | _ => h end
    | None => h
    end.

  (** Steps of a host. [HApi]: a method of Node, Device or DeviceNode, all of which
      lock the node with lock().unwrap(). [HSearch], [HCtrlSend], [HCtrlPost],
      [HNodes]: methods of Controller, which lock the controller node first.
      src/node.rs:61-275, src/controller.rs:88-142 and
      src/transport/unicast_server.rs:108-144. *)
  Inductive host_op : Type :=
  | HApi (op : node_op U)
  | HSearch (code : N) | HCtrlSend (r : remote_node) (m : message) | HCtrlPost (r : remote_node) (m : message)
  | HNodes | HCtrlStart | HCtrlStop
  | HRecv (i : server_id) (data : list N) (from : sockaddr) (free : nat -> bool)
  | HRecvError (i : server_id).

  (** One of these calls (src/node.rs:61-275, src/controller.rs:88-142) or one round of
      a receive loop (src/transport/unicast_server.rs:108-144,
      multicast_server.rs:142-178). *)
  Definition host_step {P : Profile} {HO : HashOrder} {O : OS} {Uu : Uuids} (db : list object) (s : host * world) (op : host_op)
    : outcome (host * world) :=
    let '(h, w) := s in
    match op with
    | HApi op => if h_poisoned h then Panic
                 else let! x := node_step (h_user h, h_node h, w) op in
                      let '(u, n, w) := x in Ret (h_with_node h u n, w)
    | HSearch c => if h_cpoisoned h then Panic else if h_poisoned h then Panic
                   else let '(_, n, w) := controller_search_object w (h_node h) c in
                        Ret (h_with_node h (h_user h) n, w)
    | HCtrlSend r m => if h_cpoisoned h then Ret (h, w) (* try_lock fails: returns false *)
                       else if h_poisoned h then Panic
                       else let '(_, _, n, w) := controller_send w (h_node h) r m in
                            Ret (h_with_node h (h_user h) n, w)
    | HCtrlPost r m => if h_cpoisoned h then Panic else if h_poisoned h then Panic
                       else let '(_, _, n, w) := controller_post w (h_node h) r m in
                            Ret (h_with_node h (h_user h) n, w)
    | HNodes => if h_cpoisoned h then Panic
                else let! x := controller_nodes w (h_remotes h) in Ret (h, snd x)
    | HCtrlStart => if h_cpoisoned h then Panic else if h_poisoned h then Panic
                    else let! x := controller_start w (h_node h) (h_remotes h) in
                         let '(_, n, r, w) := x in
                         Ret (h_with_remotes (h_with_node h (h_user h) n) r, w)
    | HCtrlStop => if h_cpoisoned h then Panic else if h_poisoned h then Panic
                   else let! x := controller_stop (h_node h) (h_remotes h) in
                        let '(_, n, r) := x in
                        Ret (h_with_remotes (h_with_node h (h_user h) n) r, w)
    | HRecv i data from free => Ret (receive db free h w i data from)
    | HRecvError i => Ret (receive_error h i, w)
    end.
  (** Not in the code: the steps one after another (src/controller.rs:88-142,
      src/transport/unicast_server.rs:108-144). *)
  Fixpoint host_run {P : Profile} {HO : HashOrder} {O : OS} {Uu : Uuids} (db : list object) (s : host * world) (ops : list host_op)
    : outcome (host * world) :=
    match ops with
    | [] => Ret s
    | op :: r => let! s := host_step db s op in host_run db s r
    end.

  (** src/node.rs:43-58 and src/controller_node.rs:41-52, a new node and a new
      controller node. *)
  Definition host_new (u : U) (n : node U) : host := Host u n false [] false [] [].
End Host.
Arguments host U : clear implicits.
Arguments host_op U : clear implicits.
