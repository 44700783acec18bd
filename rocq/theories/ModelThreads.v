(** Threads which use the nodes and controllers of one process, statement by
    statement.

    [ModelHost] runs a call of the API, or what an observer does with a message,
    as one step. Here several application threads and receive threads run at the
    same time: every step is one statement of one thread, the mutexes decide
    who may go on, and the data behind a mutex are those of [ModelNode] and
    [ModelController].

    The receive threads are those which start has spawned; stop tells them to end
    and waits for them.

    Simplified: the request handlers of the application are called without taking
    a mutex, their state belongs to the node. A statement which sends goes through
    all servers in one step. The read lock of a socket, which the receive thread
    takes around recv_from, is left out: after bind nobody takes the write lock. *)
From Verif Require Import Base HMap ModelCodec ModelMessages ModelObject ModelTransport ModelNode ModelController ModelDevice.
From Verif Require ModelLocks.

(** The statements of a function body which works on the data [S] behind a mutex it
    holds; the local variables are in the continuation. [Act]: a statement which has to
    do with other threads. The bodies of src/node.rs:68-275 and 276-471,
    src/controller_node.rs:59-148. *)
Inductive body (S A R : Type) : Type :=
| Done (r : R)
| Stmt (f : S -> outcome (S * body S A R))
| Act (x : A) (b : body S A R).
Arguments Done {S A R} _.
Arguments Stmt {S A R} _.
Arguments Act {S A R} _ _.

(** A loop which runs one statement for each element. The for loops of
    src/node.rs:404-438. *)
Fixpoint each {S A R X} (xs : list X) (f : X -> S -> S) (k : body S A R) : body S A R :=
  match xs with
  | [] => k
  | x :: r => Stmt (fun s => Ret (f x s, each r f k))
  end.

(** The two lists of servers of a manager (src/transport/manager.rs:23-26). A
    server is known by the number of its receive thread. *)
Inductive kind : Type := Ucast | Mcast.
(** What start and stop do with the receive threads of the node they hold: [Spawn k]: a
    new server of the list [k] starts its thread; [Register k j o]: the loop which
    registers the observer [o] with the servers of the list [k], from the server number
    [j] on; [Stop k j]: the loop which stops the servers, from number [j] on, and
    clears the list. src/transport/unicast_manager.rs:40-104,
    multicast_manager.rs:40-104. *)
Inductive act : Type := Spawn (k : kind) | Register (k : kind) (j : nat) (o : observer) | Stop (k : kind) (j : nat).

Section Threads.
  Context {U : Type}.

  (** What the mutex of a node protects, with its part of the outside world.
      src/node.rs:33-40. *)
  Definition nstate : Type := U * node U * world.
  (** What the mutex of a controller node protects, with the numbering of its own calls
      into the runtime. src/controller_node.rs:31-34. *)
  Definition cstate : Type := list remote_node * world.

  (** The calls of the API: [d] is the mutex of the device node, [c] that of the
      controller node, [n] the node; [oc] is the code of the device. A node is started
      and stopped through a device or controller, or directly. [CWait]: recv_timeout on
      the receiver [ch] which a post on the node [n] has returned; whichever thread has
      the receiver may wait. src/node.rs:68-212, src/device.rs:189-250,
      src/controller.rs:88-142. *)
  Inductive call : Type :=
  | CSetProperty (d n : nat) (oc code : N) (data : list N)
  | CProperty (d n : nat) (oc code : N)
  | CSetHandler (d n : nat) (h : user_handler (U := U))
  | CDeviceObject (d n : nat) (o : object)
  | CAddObject (n : nat) (o : object)
  | CAddHandler (n : nat) (h : user_handler (U := U))
  | CAddObserver (n : nat) (o : observer)
  | CSend (n : nat) (to : sockaddr) (m : message)
  | CPost (n : nat) (to : sockaddr) (m : message)
  | CNotify (n : nat) (m : message)
  | CAnnounce (n : nat)
  | CSearch (c n : nat) (code : N)
  | CCtrlSend (c n : nat) (r : remote_node) (m : message)
  | CCtrlPost (c n : nat) (r : remote_node) (m : message)
  | CCtrlObserver (c n : nat) (o : observer)
  | CNodes (c : nat)
  | CStart (d : option nat) (n : nat)
  | CStop (d : option nat) (n : nat)
  | CRunning (n : nat)
  | CWait (n : nat) (ch : N).

  (** What the caller gets: the result and, where the call changes it, the message
      after the call. The result types of src/node.rs:68-212, src/device.rs:189-250,
      src/controller.rs:88-142. *)
  Inductive answer : Type :=
  | VUnit
  | VBool (b : bool)
  | VData (d : option (list N))
  | VSent (b : bool) (m : message)
  | VPosted (ch : N) (m : message)
  | VNodes (l : list remote_node)
  | VGot (m : option message).

  (** Bodies that run behind the mutex of a node (src/node.rs:68-471). *)
  Definition nbody : Type := body nstate act answer.
  (** Bodies that run behind the mutex of a controller node
      (src/controller_node.rs:59-148). *)
  Definition cbody : Type := body cstate Empty_set answer.

  (* ---------------------------------------------------------------- *)
  (** ** Function bodies *)

  (** src/node.rs:214-228, update_message_trandaction_id, next_tid. *)
  Definition tid_body (m : message) (k : message -> nbody) : nbody :=
    if msg_has_tid m then k m
    else Stmt (fun '(u, n, w) =>
           Ret (u, n_with_tid n (if TID_MAX <=? n_last_tid n then TID_MIN else n_last_tid n + 1), w,
         Stmt (fun '(u, n, w) => Ret (u, n, w, k (msg_set_tid m (n_last_tid n)))))).

  (** src/node.rs:119-122, send_message. *)
  Definition send_body {O : OS} (to : sockaddr) (m : message) (k : bool -> message -> nbody) : nbody :=
    tid_body m (fun m =>
    Stmt (fun '(u, n, w) => let '(ok, w) := manager_send w (n_mgr n) to m in Ret (u, n, w, k ok m))).

  (** src/node.rs:124-130, post_message. *)
  Definition post_body {O : OS} (to : sockaddr) (m : message) : nbody :=
    tid_body m (fun m =>
    Stmt (fun '(u, n, w) => Ret (u, n, World (w_calls w) (w_trace w) (w_chan w + 1),
      let ch := w_chan w in
    Stmt (fun '(u, n, w) => Ret (u, n_with_post n (Some ch), w,
    Stmt (fun '(u, n, w) => let '(_, w) := manager_send w (n_mgr n) to m in Ret (u, n, w,
    Done (VPosted ch m)))))))).

  (** src/node.rs:132-135, notify. *)
  Definition notify_body {O : OS} (m : message) (k : bool -> message -> nbody) : nbody :=
    tid_body m (fun m =>
    Stmt (fun '(u, n, w) => let '(ok, w) := manager_notify w (n_mgr n) m in Ret (u, n, w, k ok m))).

  (** src/node.rs:151-165, annouce. *)
  Definition announce_body {O : OS} : nbody :=
    Stmt (fun '(u, n, w) => Ret (u, n, w,
      match find_object (n_objects n) NODE_PROFILE_OBJECT_CODE with
      | None => Done (VBool false)
      | Some o =>
        match object_find_property o NP_INSTANCE_LIST_NOTIFICATION with
        | None => Done (VBool false)
        | Some p => notify_body (announce_message o p) (fun ok _ => Done (VBool ok))
        end
      end)).

  (** src/node.rs:68-72 and 251-263, add_object, update_node_profile. *)
  Definition add_object_body {P : Profile} (o : object) : nbody :=
    Stmt (fun '(u, n, w) => Ret (u, n_with_objects n (n_objects n ++ [o]), w,
    Stmt (fun '(u, n, w) => Ret (u, n, w,
      let codes := map object_code (n_objects n) in
    Stmt (fun '(u, n, w) =>
      match find_object (n_objects n) NODE_PROFILE_OBJECT_CODE with
      | None => Ret (u, n, w, Done (VBool true))
      | Some np =>
        let! np := node_profile_update np codes in
        Ret (u, n_with_objects n (put_object (n_objects n) NODE_PROFILE_OBJECT_CODE np), w, Done (VBool true))
      end))))).

  (** src/node.rs:111-117, add_request_handler, add_observer. *)
  Definition add_handler_body (h : user_handler (U := U)) : nbody :=
    Stmt (fun '(u, n, w) => Ret (u, node_add_handler n (HUser h), w, Done (VBool true))).
  (** src/node.rs:115-117, add_observer. *)
  Definition add_observer_body (o : observer) : nbody :=
    Stmt (fun '(u, n, w) => Ret (u, node_add_observer n o, w, Done (VBool true))).

  (** src/node.rs:171-173, is_running. *)
  Definition running_body : nbody :=
    Stmt (fun '(u, n, w) => Ret (u, n, w, Done (VBool (manager_running (n_mgr n))))).

  (** The servers of a list, in the data of the node. src/transport/manager.rs:23-26.
      *)
  Definition servers (k : kind) (n : node U) : list server := match k with Ucast => mg_ucast (n_mgr n) | Mcast => mg_mcast (n_mgr n) end.
  (** src/transport/manager.rs:23-26, the list after a change. *)
  Definition set_servers (k : kind) (n : node U) (l : list server) : node U :=
    n_with_mgr n match k with Ucast => Manager l (mg_mcast (n_mgr n)) | Mcast => Manager (mg_ucast (n_mgr n)) l end.
  (** src/transport/unicast_server.rs:79-91, multicast_server.rs:81-125. *)
  Definition server_bind {O : OS} (k : kind) : world -> server -> ipaddr -> bool * server * world :=
    match k with Ucast => ucast_server_bind | Mcast => mcast_server_bind end.

  (** src/transport/unicast_manager.rs:82-91, multicast_manager.rs:82-91, the loop
      of start: bind, start (src/transport/unicast_server.rs:102-150,
      multicast_server.rs:136-185), push. *)
  Fixpoint up_body {O : OS} (k : kind) (ifs : list ipaddr) (next : nbody) : nbody :=
    match ifs with
    | [] => next
    | i :: r => Stmt (fun '(u, n, w) =>
        let '(ok, sv, w) := server_bind k w server_new i in
        Ret (u, n, w,
          if negb ok then up_body k r next
          else Act (Spawn k) (Stmt (fun '(u, n, w) =>
                 Ret (u, set_servers k n (servers k n ++ [snd (server_start sv)]), w, up_body k r next)))))
    end.
  (** src/transport/unicast_manager.rs:77-93, multicast_manager.rs:77-93, start. *)
  Definition servers_start_body {O : OS} (k : kind) (next : bool -> nbody) : nbody :=
    Stmt (fun '(u, n, w) => Ret (u, n, w,
      if servers_running (servers k n) then next true
      else Stmt (fun '(u, n, w) =>
        let '(ifs, w) := get_all_interfaces w in
        Ret (u, n, w, up_body k ifs
      (Stmt (fun '(u, n, w) => Ret (u, n, w, next (negb (Nat.eqb (length (servers k n)) 0))))))))).

  (** src/transport/unicast_manager.rs:95-104, multicast_manager.rs:95-104, stop,
      with src/transport/unicast_server.rs:152-161, multicast_server.rs:187-196. *)
  Definition servers_stop_body (k : kind) (next : bool -> nbody) : nbody :=
    Act (Stop k 0) (Stmt (fun '(u, n, w) =>
      let! x := servers_stop (servers k n) true in
      Ret (u, set_servers k n (snd x), w, next (fst x)))).
  (** src/transport/manager.rs:86-90, stop. *)
  Definition manager_stop_body (next : bool -> nbody) : nbody :=
    servers_stop_body Ucast (fun r => servers_stop_body Mcast (fun r' => next (r || r'))).
  (** src/transport/manager.rs:71-84, start. *)
  Definition manager_start_body {O : OS} (next : bool -> nbody) : nbody :=
    Stmt (fun '(u, n, w) => Ret (u, n, w,
      if manager_running (n_mgr n) then next true
      else servers_start_body Mcast (fun ok =>
        if negb ok then manager_stop_body (fun _ => next false)
        else servers_start_body Ucast (fun ok =>
          if negb ok then manager_stop_body (fun _ => next false) else next true)))).

  (** src/transport/unicast_manager.rs:40-47, multicast_manager.rs:40-47,
      add_observer, with src/transport/unicast_server.rs:47-49,
      multicast_server.rs:47-49. *)
  Definition servers_observer_body (k : kind) (o : observer) (next : nbody) : nbody :=
    Act (Register k 0 o) (Stmt (fun '(u, n, w) =>
      let! l := servers_add_observer (servers k n) o in
      Ret (u, set_servers k n l, w, next))).
  (** src/node.rs:190-192, the loop over the observers of the node;
      src/transport/manager.rs:36-44, add_observer. *)
  Fixpoint observers_body (l : list observer) (next : nbody) : nbody :=
    match l with
    | [] => next
    | o :: r => servers_observer_body Ucast o (servers_observer_body Mcast o (observers_body r next))
    end.

  (** src/node.rs:180-198, start, after the transport has been started. *)
  Definition started_body {O : OS} (ok : bool) : nbody :=
    if negb ok then Done (VBool false)
    else Stmt (fun '(u, n, w) => Ret (u, set_object_properties_byte n 0x80 0x30, w,
         Stmt (fun '(u, n, w) => Ret (u, set_object_properties_byte n 0x88 0x42, w,
         Stmt (fun '(u, n, w) => Ret (u, n, w, observers_body (n_observers n) announce_body)))))).
  (** src/node.rs:175-199, start. *)
  Definition start_body {O : OS} : nbody :=
    Stmt (fun '(u, n, w) => Ret (u, n, w,
      if negb (manager_running (n_mgr n)) then manager_start_body started_body else started_body true)).
  (** src/node.rs:201-212, stop. *)
  Definition stop_body : nbody :=
    Stmt (fun '(u, n, w) => Ret (u, set_object_properties_byte n 0x80 0x31, w,
      manager_stop_body (fun ok => Done (VBool ok)))).

  (** src/device_node.rs:68-85, set_property: the search for the object, the
      search for the property, the assignment through the reference found. *)
  Definition set_property_body (oc c : N) (data : list N) : nbody :=
    Stmt (fun '(u, n, w) => Ret (u, n, w,
      match find_object (n_objects n) oc with
      | None => Done (VBool false)
      | Some o =>
    Stmt (fun '(u, n, w) => Ret (u, n, w,
        match object_find_property o c with
        | None => Done (VBool false)
        | Some p =>
    Stmt (fun '(u, n, w) => Ret (u, n_with_objects n (put_object (n_objects n) oc
            (obj_with_props o (hput (o_props o) c (prop_set_data p data)))), w, Done (VBool true)))
        end))
      end)).

  (** src/device_node.rs:88-99, property. *)
  Definition property_body (oc c : N) : nbody :=
    Stmt (fun '(u, n, w) => Ret (u, n, w,
      match find_object (n_objects n) oc with
      | None => Done (VData None)
      | Some o =>
    Stmt (fun '(u, n, w) => Ret (u, n, w,
        match object_find_property o c with
        | None => Done (VData None)
        | Some p => Done (VData (Some (p_data p)))
        end))
      end)).

  (** src/request_handler.rs:116-130, the loops over the handlers and the
      properties; a call of a handler is one statement. *)
  Fixpoint ask_body (h : handler U) (o : object) (e : esv) (ps : list pprop) (all : bool) (k : object -> bool -> nbody) : nbody :=
    match ps with
    | [] => k o all
    | p :: r => Stmt (fun '(u, n, w) =>
        let! x := call_handler h u o e p in
        let '(u, o, ok) := x in
        Ret (u, n, w, ask_body h o e r (if negb ok then false else all) k))
    end.
  (** src/request_handler.rs:116-130, the loop over the handlers. *)
  Fixpoint ask_all_body (hs : list (handler U)) (o : object) (e : esv) (ps : list pprop) (acc : bool) (k : object -> bool -> nbody) : nbody :=
    match hs with
    | [] => k o acc
    | h :: r => ask_body h o e ps true (fun o all => ask_all_body r o e ps (if all then true else acc) k)
    end.

  (** Assignment to one property of the object with the code found by
      find_object_mut: src/node.rs:404-409, 422-428, 432-438. *)
  Definition assign (code : N) (x : N * list N) (s : nstate) : nstate :=
    let '(u, n, w) := s in
    match find_object (n_objects n) code with
    | None => s
    | Some o => (u, n_with_objects n (put_object (n_objects n) code (fst (object_set_property_data o (fst x) (snd x)))), w)
    end.
  (** src/node.rs:420-438, the properties that a request writes. *)
  Definition to_write (req : message) : list pprop :=
    match msg_esv req with
    | EWriteRequest | EWriteRequestResponseRequired => m_props req
    | EWriteReadRequest => m_set req
    | _ => []
    end.

  (** src/node.rs:391-445, what follows the verdict of the handlers. *)
  Definition decided_body (req : message) (k : option message -> nbody) (copy : object) (accepted : bool) : nbody :=
    let code := msg_deoj req in
    if negb accepted then k (Some (response_error_message req))
    else each (map (fun p => (p_code p, p_data p)) (object_properties copy)) (assign code)
        (each (map (fun q => (pp_code q, pp_data q)) (to_write req)) (assign code)
        (Stmt (fun '(u, n, w) => Ret (u, n, w,
           match find_object (n_objects n) code with
           | None => k None
           | Some o => k (object_message_received o req)
           end)))).

  (** src/node.rs:276-446, message_received; [k] gets the response. *)
  Definition received_body {P : Profile} {HO : HashOrder} {O : OS} (req : message) (k : option message -> nbody) : nbody :=
    if esv_is_response (msg_esv req) then k None
    else
      let code := msg_deoj req in
      Stmt (fun '(u, n, w) => Ret (u, n, w,
        match find_object (n_objects n) code with
        | None => k None
        | Some o =>
          if negb (esv_is_request (msg_esv req)) then k None
          else if negb (request_valid o req) then k (Some (response_error_message req))
          else Stmt (fun '(u, n, w) =>
            let! copy := object_clone (os_seed (w_calls w)) o in
            Ret (u, n, w,
            if Nat.eqb (length (n_handlers n)) 0 then decided_body req k copy true
            else ask_all_body (n_handlers n) copy (msg_esv req) (m_props req) false (decided_body req k)))
        end)).

  (** src/node.rs:449-471, Observer for Arc<Mutex<Node>>, behind the lock. The
      runtime is asked for a hash seed in any case, as in [ModelNode]. *)
  Definition observe_body {P : Profile} {HO : HashOrder} {O : OS} (req : message) : nbody :=
    let respond (res : option message) : nbody :=
      Stmt (fun '(u, n, w) => Ret (u, n, tick w,
        match res with
        | None => Done VUnit
        | Some res =>
          if esv_is_response (msg_esv res) then
            if esv_is_unicast_response (msg_esv res)
            then send_body (fst (msg_from req), PORT) res (fun _ _ => Done VUnit)
            else notify_body res (fun _ _ => Done VUnit)
          else Done VUnit
        end)) in
    Stmt (fun '(u, n, w) => Ret (u, n, w,
      if is_last_message_response n req then
        Stmt (fun '(u, n, w) =>
          let! m := msg_clone req in
          Ret (u, n, match n_post n with Some ch => log w (EvDeliver ch m) | None => w end,
        Stmt (fun '(u, n, w) => Ret (u, n_with_post n None, w, received_body req respond))))
      else received_body req respond)).

  (** src/controller_node.rs:129-148, Observer for Arc<Mutex<ControllerNode>>,
      behind the lock; src/controller_node.rs:64-74, replace_remote_node. *)
  Definition cobserve_body {P : Profile} {HO : HashOrder} {O : OS} {Uu : Uuids} (db : list object) (m : message) : cbody :=
    if negb (is_node_profile_message m) then Done VUnit
    else Stmt (fun '(l, w) =>
      let! x := remote_from_message w m in
      let '(r, w) := x in
      Ret (l, w,
    Stmt (fun '(l, w) =>
      let! y := add_standard_all db w (rn_objects r) in
      let '(os, w) := y in
      Ret (l, w,
    Stmt (fun '(l, w) =>
      let! np := node_profile_object db (new_uuid (w_calls w)) (new_uuid (w_calls w + 1)) (os_seed (w_calls w)) in
      let r := remote_add_object (Remote (rn_addr r) os) np in
      Ret (l, tick (tick w),
    Stmt (fun '(l, w) => Ret (remove_remote l r, w,
    Stmt (fun '(l, w) => Ret (l ++ [r], w, Done VUnit)))))))))).

  (** src/controller.rs:93-101, nodes: one statement for each entry. *)
  Fixpoint clones_body {P : Profile} {HO : HashOrder} {O : OS} (rest acc : list remote_node) : cbody :=
    match rest with
    | [] => Done (VNodes (rev acc))
    | r :: t => Stmt (fun '(l, w) =>
        let! x := remote_clone w r in
        Ret (l, snd x, clones_body t (fst x :: acc)))
    end.
  (** src/controller.rs:93-101, nodes. *)
  Definition nodes_body {P : Profile} {HO : HashOrder} {O : OS} : cbody :=
    Stmt (fun '(l, w) => Ret (l, w, clones_body l [])).

  (* ---------------------------------------------------------------- *)
  (** ** Programs of threads *)

  (** What a thread still has to do. [Enter], [Leave]: the application calls and gets
      the answer. [Lock], [Unlock]: lock().unwrap() and the end of the scope of the
      guard. [Attempt]: try_lock().is_err(), whose guard ends with the condition.
      [OnNode], [OnCtrl]: lock().unwrap() on a node or controller node, the statements
      which use the guard, and the end of its scope. [TryNode], [TryCtrl]: the same
      with try_lock(), without effect when it fails. [Await]: recv_timeout. [Again],
      [Recv], [Deliver], [Over]: the receive thread is at the head of its loop, waits
      for a datagram, has the message to notify, has returned. The statements of
      src/device.rs:189-250, src/controller.rs:88-142,
      src/transport/unicast_server.rs:107-147 and
      src/transport/notify_manager.rs:48-54. *)
  Inductive prog : Type :=
  | Halt
  | Enter (c : call) (p : prog)
  | Leave (c : call) (v : answer) (p : prog)
  | Lock (l : ModelLocks.lock) (p : prog)
  | Unlock (l : ModelLocks.lock) (p : prog)
  | Attempt (l : ModelLocks.lock) (yes no : prog)
  | OnNode (n : nat) (b : nbody) (k : answer -> prog)
  | OnCtrl (c : nat) (b : cbody) (k : answer -> prog)
  | TryNode (n : nat) (b : nbody) (p : prog)
  | TryCtrl (c : nat) (b : cbody) (p : prog)
  | Await (n : nat) (ch : N) (k : answer -> prog)
  | Again
  | Recv
  | Deliver (m : message)
  | Over.

  (** A method of a device or controller: src/device.rs:220-234,
      src/controller.rs:88-91 and 104-127. *)
  Definition through (d n : nat) (b : nbody) (k : answer -> prog) : prog :=
    Lock (ModelLocks.Dev d) (OnNode n b (fun v => Unlock (ModelLocks.Dev d) (k v))).

  (** The program of a call; [k] goes on with the answer. The lines are given at each
      call (src/node.rs:68-212, src/device.rs:189-250, src/controller.rs:88-142). *)
  Definition prog_of {P : Profile} {HO : HashOrder} {O : OS} (c : call) (k : answer -> prog) : prog :=
    match c with
    (* src/device.rs:220-223, src/device_node.rs:68-85 *)
    | CSetProperty d n oc code data => through d n (set_property_body oc code data) k
    (* src/device.rs:226-229, src/device_node.rs:88-99 *)
    | CProperty d n oc code => through d n (property_body oc code) k
    (* src/device.rs:231-234, src/device_node.rs:54-57 *)
    | CSetHandler d n h => through d n (add_handler_body h) k
    (* src/device.rs:196-197, src/device_node.rs:49-52 *)
    | CDeviceObject d n o => through d n (add_object_body o) k
    (* src/node.rs:68-72 *)
    | CAddObject n o => OnNode n (add_object_body o) k
    (* src/node.rs:111-113 *)
    | CAddHandler n h => OnNode n (add_handler_body h) k
    (* src/node.rs:115-117 *)
    | CAddObserver n o => OnNode n (add_observer_body o) k
    (* src/node.rs:119-122 *)
    | CSend n to m => OnNode n (send_body to m (fun ok m => Done (VSent ok m))) k
    (* src/node.rs:124-130 *)
    | CPost n to m => OnNode n (post_body to m) k
    (* src/node.rs:132-135 *)
    | CNotify n m => OnNode n (notify_body m (fun ok m => Done (VSent ok m))) k
    (* src/node.rs:151-165 *)
    | CAnnounce n => OnNode n announce_body k
    (* src/controller.rs:104-107, src/controller_node.rs:84-90 *)
    | CSearch c n code => through c n (notify_body (search_request code) (fun ok _ => Done (VBool ok))) k
    (* src/controller.rs:115-121, src/controller_node.rs:96-100 *)
    | CCtrlSend c n r m =>
        Attempt (ModelLocks.Dev c)
          (through c n (send_body (fst (rn_addr r), PORT) (msg_set_seoj m NODE_PROFILE_OBJECT_CODE) (fun ok m => Done (VSent ok m))) k)
          (k (VSent false m))
    (* src/controller.rs:124-127, src/controller_node.rs:102-106 *)
    | CCtrlPost c n r m => through c n (post_body (fst (rn_addr r), PORT) (msg_set_seoj m NODE_PROFILE_OBJECT_CODE)) k
    (* src/controller.rs:88-91, src/controller_node.rs:54-57 *)
    | CCtrlObserver c n o => through c n (add_observer_body o) k
    (* src/controller.rs:93-101 *)
    | CNodes c => OnCtrl c nodes_body k
    (* src/device.rs:237-243, src/device_node.rs:105-111, src/controller.rs:130-136, src/controller_node.rs:112-118 *)
    | CStart (Some d) n => through d n start_body k
    (* src/node.rs:175-199 *)
    | CStart None n => OnNode n start_body k
    (* src/device.rs:246-249, src/device_node.rs:113-119, src/controller.rs:139-142, src/controller_node.rs:120-126 *)
    | CStop (Some d) n => through d n stop_body k
    (* src/node.rs:201-212 *)
    | CStop None n => OnNode n stop_body k
    (* src/node.rs:171-173 *)
    | CRunning n => OnNode n running_body k
    (* std::sync::mpsc::Receiver::recv_timeout, as in bin/uechopost/uechopost.rs:182,
       bin/uechosearch/uechosearch.rs:68 and 104, bin/uechobench/uechobench.rs:90 *)
    | CWait n ch => Await n ch k
    end.

  (** What an application thread does: the calls it makes one after another, each
      chosen with the answers to the ones before. Not in the code: an application, such
      as bin/uechosearch/uechosearch.rs:33-127. *)
  Inductive client : Type :=
  | Finished
  | Call (c : call) (k : answer -> client).
  (** Not in the code: the program of such a thread. *)
  Fixpoint client_prog {P : Profile} {HO : HashOrder} {O : OS} (x : client) : prog :=
    match x with
    | Finished => Halt
    | Call c k => Enter c (prog_of c (fun v => Leave c v (client_prog (k v))))
    end.

  (** A registered observer with the mutex [w] around it: the node [n], the
      controller node [c], or one which does not use them (a device node,
      src/device_node.rs:122-124, or one of the application). *)
  Inductive obs : Type := RNode (w n : nat) | RCtrl (w c : nat) | ROther (w : nat).

  (** src/transport/notify_manager.rs:48-54, notify, for the observers. *)
  Fixpoint notify_prog {P : Profile} {HO : HashOrder} {O : OS} {Uu : Uuids} (db : list object) (l : list obs) (m : message) (p : prog) : prog :=
    match l with
    | [] => p
    | RNode w n :: r =>
      Lock (ModelLocks.Wrap w) (TryNode n (observe_body m) (Unlock (ModelLocks.Wrap w) (notify_prog db r m p)))
    | RCtrl w c :: r =>
      Lock (ModelLocks.Wrap w) (TryCtrl c (cobserve_body db m) (Unlock (ModelLocks.Wrap w) (notify_prog db r m p)))
    | ROther w :: r => Lock (ModelLocks.Wrap w) (Unlock (ModelLocks.Wrap w) (notify_prog db r m p))
    end.

  (** src/transport/unicast_server.rs:130, multicast_server.rs:164, behind the
      lock of the notifier. *)
  Definition deliver_prog {P : Profile} {HO : HashOrder} {O : OS} {Uu : Uuids} (db : list object) (t : nat) (l : list obs) (m : message) : prog :=
    notify_prog db l m (Unlock (ModelLocks.Notif t) Again).

  (* ---------------------------------------------------------------- *)
  (** ** The process *)

  (** [InNode], [InCtrl]: the thread holds the mutex and has these statements to run.
      [Dead]: it has panicked. std::thread, with the guards of src/node.rs:449-471 and
      src/controller_node.rs:129-148. *)
  Inductive thread : Type :=
  | Out (p : prog)
  | InNode (n : nat) (b : nbody) (k : answer -> prog)
  | InCtrl (c : nat) (b : cbody) (k : answer -> prog)
  | Dead.

  (** What can be seen from outside: thread [t] calls, gets an answer, or receives a
      message that parses. Not in the code: calls of src/device.rs:189-250 and
      src/controller.rs:88-142, and datagrams received by
      src/transport/unicast_server.rs:109. *)
  Inductive event : Type := ECall (t : nat) (c : call) | EReturn (t : nat) (c : call) (v : answer) | EGot (t : nat) (m : message).

  (** The receive threads: [srvs n k] are those of the servers in the list [k] of the
      node [n], [regs t] are the observers registered with the server of [t], [next] is
      the number of the next thread. src/transport/manager.rs:23-26,
      src/transport/unicast_server.rs:30-35, src/transport/notify_manager.rs:21-23. *)
  Record receivers : Type := Receivers {
    srvs : nat -> kind -> list nat;
    regs : nat -> list observer;
    next : nat }.

  (** The messages put into the channel [ch], in order. std::sync::mpsc, the channel
      made in src/node.rs:124-130. *)
  Fixpoint messages_in (ch : N) (tr : list ModelTransport.event) : list message :=
    match tr with
    | [] => []
    | EvDeliver c m :: r => if c =? ch then m :: messages_in ch r else messages_in ch r
    | _ :: r => messages_in ch r
    end.

  (** [flags t]: the stop flag of the server of [t]; [reads n ch]: how many messages
      the receiver [ch] of the node [n] has given out. The mutexes, their data, the
      threads and the stop flags of src/node.rs:33-40, src/controller_node.rs:31-34 and
      src/transport/unicast_server.rs:30-35. *)
  Record process : Type := Process {
    owner : ModelLocks.lock -> option nat;
    poisoned : ModelLocks.lock -> bool;
    nodes : nat -> nstate;
    ctrls : nat -> cstate;
    threads : nat -> thread;
    life : receivers;
    flags : nat -> bool;
    history : list event;
    reads : nat -> N -> nat }.

  (** Not in the code: a function changed in one place. *)
  Definition upd {A} (f : nat -> A) (k : nat) (v : A) : nat -> A := fun x => if Nat.eqb x k then v else f x.
  (** std::sync::Mutex: [l] gets or loses its holder. *)
  Definition set_owner (f : ModelLocks.lock -> option nat) (l : ModelLocks.lock) (v : option nat) : ModelLocks.lock -> option nat :=
    fun x => if ModelLocks.lock_eq_dec x l then v else f x.

  (** Not in the code: thread [t] goes on with [x]. *)
  Definition goes (s : process) (t : nat) (x : thread) : process :=
    Process (owner s) (poisoned s) (nodes s) (ctrls s) (upd (threads s) t x) (life s) (flags s) (history s) (reads s).
  (** std::sync::Mutex: lock. *)
  Definition takes (s : process) (l : ModelLocks.lock) (t : nat) : process :=
    Process (set_owner (owner s) l (Some t)) (poisoned s) (nodes s) (ctrls s) (threads s) (life s) (flags s) (history s) (reads s).
  (** std::sync::Mutex: the guard is dropped. *)
  Definition frees (s : process) (l : ModelLocks.lock) : process :=
    Process (set_owner (owner s) l None) (poisoned s) (nodes s) (ctrls s) (threads s) (life s) (flags s) (history s) (reads s).
  (** The data behind the mutex of a node (src/node.rs:33-40) after a statement. *)
  Definition with_node (s : process) (n : nat) (d : nstate) : process :=
    Process (owner s) (poisoned s) (upd (nodes s) n d) (ctrls s) (threads s) (life s) (flags s) (history s) (reads s).
  (** The data behind the mutex of a controller node (src/controller_node.rs:31-34)
      after a statement. *)
  Definition with_ctrl (s : process) (c : nat) (d : cstate) : process :=
    Process (owner s) (poisoned s) (nodes s) (upd (ctrls s) c d) (threads s) (life s) (flags s) (history s) (reads s).
  (** Not in the code: records what can be seen from outside. *)
  Definition logs (s : process) (e : event) : process :=
    Process (owner s) (poisoned s) (nodes s) (ctrls s) (threads s) (life s) (flags s) (history s ++ [e]) (reads s).

  (** The servers and their observers (src/transport/manager.rs:23-26,
      src/transport/notify_manager.rs:21-23) after a statement. *)
  Definition with_life (s : process) (x : receivers) : process :=
    Process (owner s) (poisoned s) (nodes s) (ctrls s) (threads s) x (flags s) (history s) (reads s).
  (** The stop flag: src/transport/unicast_server.rs:152-161,
      multicast_server.rs:187-196. *)
  Definition with_flag (s : process) (t : nat) : process :=
    Process (owner s) (poisoned s) (nodes s) (ctrls s) (threads s) (life s) (upd (flags s) t true) (history s) (reads s).

  (** std::sync::mpsc: a receiver made in src/node.rs:124-130 gives out a message. *)
  Definition with_read (s : process) (n : nat) (ch : N) : process :=
    Process (owner s) (poisoned s) (nodes s) (ctrls s) (threads s) (life s) (flags s) (history s)
      (fun n' c' => if Nat.eqb n' n && (c' =? ch) then S (reads s n' c') else reads s n' c').

  (** Not in the code: whether two of the lists of src/transport/manager.rs:23-26 are
      the same. *)
  Definition kind_eqb (a b : kind) : bool := match a, b with Ucast, Ucast | Mcast, Mcast => true | _, _ => false end.
  (** src/transport/manager.rs:23-26, one list after a change. *)
  Definition set_srvs (x : receivers) (n : nat) (k : kind) (l : list nat) : receivers :=
    Receivers (fun n' k' => if Nat.eqb n' n && kind_eqb k' k then l else srvs x n' k') (regs x) (next x).
  (** A new thread for a new server without observers; src/transport/unicast_server.rs:38-45,
      multicast_server.rs:38-45. *)
  Definition spawn (x : receivers) (n : nat) (k : kind) : receivers :=
    let x' := set_srvs x n k (srvs x n k ++ [next x]) in
    Receivers (srvs x') (upd (regs x') (next x) []) (S (next x)).
  (** src/transport/notify_manager.rs:31-42, add_observer. *)
  Definition register (x : receivers) (t : nat) (o : observer) : receivers :=
    Receivers (srvs x) (upd (regs x) t (observers_add (regs x t) o)) (next x).

  (** A panic unwinds the thread: the guards it holds are dropped and poison their
      mutexes (std::sync::Mutex). std::sync::Mutex: the guards that thread [t] holds.
      *)
  Definition mine (s : process) (t : nat) (l : ModelLocks.lock) : bool :=
    match owner s l with Some t' => Nat.eqb t' t | None => false end.
  (** For example in src/transport/unicast_server.rs:130 or src/node.rs:449-471. *)
  Definition dies (s : process) (t : nat) : process :=
    Process (fun l => if mine s t l then None else owner s l) (fun l => poisoned s l || mine s t l)
      (nodes s) (ctrls s) (upd (threads s) t Dead) (life s) (flags s) (history s) (reads s).

  (** [what o]: what is behind the registered observer [o]; [net]: datagrams arrive.
      One statement of one thread; the lines are given with the bodies and programs
      above (src/node.rs:68-471, src/controller_node.rs:59-148,
      src/transport/unicast_server.rs:107-147). *)
  Inductive step {P : Profile} {HO : HashOrder} {O : OS} {Uu : Uuids} (db : list object) (what : observer -> obs) (net : bool)
    (s : process) : process -> Prop :=
  | st_enter t c p : threads s t = Out (Enter c p) -> step db what net s (logs (goes s t (Out p)) (ECall t c))
  | st_leave t c v p : threads s t = Out (Leave c v p) -> step db what net s (logs (goes s t (Out p)) (EReturn t c v))
  | st_lock t l p : threads s t = Out (Lock l p) -> owner s l = None -> poisoned s l = false ->
      step db what net s (goes (takes s l t) t (Out p))
  | st_lock_poisoned t l p : threads s t = Out (Lock l p) -> owner s l = None -> poisoned s l = true ->
      step db what net s (dies s t)
  | st_unlock t l p : threads s t = Out (Unlock l p) -> owner s l = Some t -> step db what net s (goes (frees s l) t (Out p))
  | st_attempt t l y q : threads s t = Out (Attempt l y q) -> owner s l = None -> poisoned s l = false ->
      step db what net s (goes s t (Out y))
  | st_attempt_fails t l y q : threads s t = Out (Attempt l y q) -> owner s l <> None \/ poisoned s l = true ->
      step db what net s (goes s t (Out q))
  | st_on_node t n b k : threads s t = Out (OnNode n b k) -> owner s (ModelLocks.Node n) = None -> poisoned s (ModelLocks.Node n) = false ->
      step db what net s (goes (takes s (ModelLocks.Node n) t) t (InNode n b k))
  | st_on_node_poisoned t n b k : threads s t = Out (OnNode n b k) -> owner s (ModelLocks.Node n) = None -> poisoned s (ModelLocks.Node n) = true ->
      step db what net s (dies s t)
  | st_on_ctrl t c b k : threads s t = Out (OnCtrl c b k) -> owner s (ModelLocks.Dev c) = None -> poisoned s (ModelLocks.Dev c) = false ->
      step db what net s (goes (takes s (ModelLocks.Dev c) t) t (InCtrl c b k))
  | st_on_ctrl_poisoned t c b k : threads s t = Out (OnCtrl c b k) -> owner s (ModelLocks.Dev c) = None -> poisoned s (ModelLocks.Dev c) = true ->
      step db what net s (dies s t)
  | st_try_node t n b p : threads s t = Out (TryNode n b p) -> owner s (ModelLocks.Node n) = None -> poisoned s (ModelLocks.Node n) = false ->
      step db what net s (goes (takes s (ModelLocks.Node n) t) t (InNode n b (fun _ => p)))
  | st_try_node_fails t n b p : threads s t = Out (TryNode n b p) -> owner s (ModelLocks.Node n) <> None \/ poisoned s (ModelLocks.Node n) = true ->
      step db what net s (goes s t (Out p))
  | st_try_ctrl t c b p : threads s t = Out (TryCtrl c b p) -> owner s (ModelLocks.Dev c) = None -> poisoned s (ModelLocks.Dev c) = false ->
      step db what net s (goes (takes s (ModelLocks.Dev c) t) t (InCtrl c b (fun _ => p)))
  | st_try_ctrl_fails t c b p : threads s t = Out (TryCtrl c b p) -> owner s (ModelLocks.Dev c) <> None \/ poisoned s (ModelLocks.Dev c) = true ->
      step db what net s (goes s t (Out p))
  | st_node_stmt t n f k d b : threads s t = InNode n (Stmt f) k -> f (nodes s n) = Ret (d, b) ->
      step db what net s (goes (with_node s n d) t (InNode n b k))
  | st_node_panic t n f k : threads s t = InNode n (Stmt f) k -> f (nodes s n) = Panic -> step db what net s (dies s t)
  | st_node_done t n v k : threads s t = InNode n (Done v) k -> step db what net s (goes (frees s (ModelLocks.Node n)) t (Out (k v)))
  | st_ctrl_stmt t c f k d b : threads s t = InCtrl c (Stmt f) k -> f (ctrls s c) = Ret (d, b) ->
      step db what net s (goes (with_ctrl s c d) t (InCtrl c b k))
  | st_ctrl_panic t c f k : threads s t = InCtrl c (Stmt f) k -> f (ctrls s c) = Panic -> step db what net s (dies s t)
  | st_ctrl_done t c v k : threads s t = InCtrl c (Done v) k -> step db what net s (goes (frees s (ModelLocks.Dev c)) t (Out (k v)))
  (** a receiver gives out the next message that has been put into its channel;
      it times out, or the sender is gone *)
  | st_got t n ch k m : threads s t = Out (Await n ch k) ->
      nth_error (messages_in ch (w_trace (snd (nodes s n)))) (reads s n ch) = Some m ->
      step db what net s (goes (with_read s n ch) t (Out (k (VGot (Some m)))))
  | st_waited t n ch k : threads s t = Out (Await n ch k) -> step db what net s (goes s t (Out (k (VGot None))))
  (** start spawns a receive thread *)
  | st_spawn t n k' b k : threads s t = InNode n (Act (Spawn k') b) k ->
      step db what net s (goes (goes (with_life s (spawn (life s) n k')) (next (life s)) (Out Again)) t (InNode n b k))
  (** ... registers an observer: notifier.lock().unwrap().add_observer(o) *)
  | st_register t n k' j o b k t' : threads s t = InNode n (Act (Register k' j o) b) k -> nth_error (srvs (life s) n k') j = Some t' ->
      owner s (ModelLocks.Notif t') = None -> poisoned s (ModelLocks.Notif t') = false ->
      step db what net s (goes (with_life s (register (life s) t' o)) t (InNode n (Act (Register k' (S j) o) b) k))
  | st_register_poisoned t n k' j o b k t' : threads s t = InNode n (Act (Register k' j o) b) k -> nth_error (srvs (life s) n k') j = Some t' ->
      owner s (ModelLocks.Notif t') = None -> poisoned s (ModelLocks.Notif t') = true -> step db what net s (dies s t)
  | st_registered t n k' j o b k : threads s t = InNode n (Act (Register k' j o) b) k -> nth_error (srvs (life s) n k') j = None ->
      step db what net s (goes s t (InNode n b k))
  (** stop sets the stop flag of a server, joins the thread, and unwraps the
      result; at the end it drops the servers *)
  | st_signal t n k' j b k t' : threads s t = InNode n (Act (Stop k' j) b) k -> nth_error (srvs (life s) n k') j = Some t' ->
      flags s t' = false -> step db what net s (with_flag s t')
  | st_join t n k' j b k t' : threads s t = InNode n (Act (Stop k' j) b) k -> nth_error (srvs (life s) n k') j = Some t' ->
      flags s t' = true -> threads s t' = Out Over -> step db what net s (goes s t (InNode n (Act (Stop k' (S j)) b) k))
  | st_join_panic t n k' j b k t' : threads s t = InNode n (Act (Stop k' j) b) k -> nth_error (srvs (life s) n k') j = Some t' ->
      flags s t' = true -> threads s t' = Dead -> step db what net s (dies s t)
  | st_stopped t n k' j b k : threads s t = InNode n (Act (Stop k' j) b) k -> nth_error (srvs (life s) n k') j = None ->
      step db what net s (goes (with_life s (set_srvs (life s) n k' [])) t (InNode n b k))
  (** src/transport/unicast_server.rs:108-147, multicast_server.rs:142-182, the
      loop of a receive thread: it looks at the stop flag; *)
  | st_again t : threads s t = Out Again -> flags s t = false -> step db what net s (goes s t (Out Recv))
  | st_over t : threads s t = Out Again -> flags s t = true -> step db what net s (goes s t (Out Over))
  (** recv_from times out, or the datagram does not parse; *)
  | st_nothing t : threads s t = Out Recv -> step db what net s (goes s t (Out Again))
  (** recv_from fails in another way; *)
  | st_failure t : threads s t = Out Recv -> net = true -> step db what net s (goes s t (Out Over))
  (** it gets a datagram that parses; *)
  | st_datagram t data from m : threads s t = Out Recv -> net = true -> octets data ->
      msg_parse msg_new (firstn MAX_PACKET_SIZE data) = Ret (true, m) ->
      step db what net s (logs (goes s t (Out (Deliver (msg_set_from m from)))) (EGot t (msg_set_from m from)))
  (** ... or one on which the decoder panics; *)
  | st_datagram_panic t data : threads s t = Out Recv -> net = true -> octets data ->
      msg_parse msg_new (firstn MAX_PACKET_SIZE data) = Panic -> step db what net s (dies s t)
  (** it takes the mutex of the notifier and goes through the observers. *)
  | st_deliver t m : threads s t = Out (Deliver m) -> owner s (ModelLocks.Notif t) = None -> poisoned s (ModelLocks.Notif t) = false ->
      step db what net s (goes (takes s (ModelLocks.Notif t) t) t (Out (deliver_prog db t (map what (regs (life s) t)) m)))
  | st_deliver_poisoned t m : threads s t = Out (Deliver m) -> owner s (ModelLocks.Notif t) = None -> poisoned s (ModelLocks.Notif t) = true ->
      step db what net s (dies s t).

  (** Not in the code: steps of any threads one after another. *)
  Inductive steps {P : Profile} {HO : HashOrder} {O : OS} {Uu : Uuids} (db : list object) (what : observer -> obs) (net : bool) : process -> process -> Prop :=
  | steps_refl s : steps db what net s s
  | steps_step s s' s'' : steps db what net s s' -> step db what net s' s'' -> steps db what net s s''.

  (** The process when the application threads begin; no node has been started. Not in
      the code: the application before its first call. *)
  Definition begins {P : Profile} {HO : HashOrder} {O : OS} (ns : nat -> nstate) (cs : nat -> cstate) (xs : list client) : process :=
    Process (fun _ => None) (fun _ => false) ns cs (fun t => Out (client_prog (nth t xs Finished)))
      (Receivers (fun _ _ => []) (fun _ => []) (length xs)) (fun _ => false) [] (fun _ _ => 0%nat).
End Threads.
Arguments call U : clear implicits.
Arguments client U : clear implicits.
Arguments prog U : clear implicits.
Arguments process U : clear implicits.
Arguments nbody U : clear implicits.
Arguments nstate U : clear implicits.
Arguments thread U : clear implicits.
Arguments event U : clear implicits.
