(** The mutexes of the library and the threads which take them.

    The other models run one API call or one received datagram at a time.
    This one keeps nothing of the data and models what they leave out: the
    order in which the threads of the process acquire and release the
    mutexes, step by step, with every interleaving.

    Modelled: the mutex of a [DeviceNode] or [ControllerNode], the mutex of a
    [Node], the mutex of the [NotifytManager] of each server, the mutexes in
    which the library wraps its own observers and its own request handler,
    the mutexes of the application, the stop flags, and the joining of the
    receive threads.

    Not modelled: panics (so no mutex is poisoned), the [RwLock] of a socket
    (written only by [bind] before the receive thread exists and read
    afterwards, so no [read()] on it ever waits), the locks inside the
    standard library (channels, logger), and waiting for a response on the
    receiver which [post_message] returns. *)

From Coq Require Import List Arith Lia Bool.
Import ListNotations.

(** A mutex.
    - [App a] and [Usr h]: mutexes of the application; [Usr h] is one which
      is registered as a request handler or as an observer, or is taken by
      the code of one.
    - [Dev d]: src/device.rs line 165 and src/controller.rs line 70
      ([Arc<Mutex<DeviceNode>>], [Arc<Mutex<ControllerNode>>]).
    - [Node n]: src/device_node.rs line 27, src/controller_node.rs line 32.
    - [Notif t]: the notifier of the server whose receive thread is [t],
      src/transport/unicast_server.rs line 32, multicast_server.rs line 32.
    - [Wrap w]: the mutex around an observer which the library registers for
      itself, src/device_node.rs lines 41 and 45, src/controller_node.rs
      lines 46 and 50.
    - [Own n]: the mutex around the request handler which a node registers
      for itself, src/node.rs line 56. *)
Inductive lock :=
| App (a : nat)
| Dev (d : nat)
| Node (n : nat)
| Notif (t : nat)
| Wrap (w : nat)
| Own (n : nat)
| Usr (h : nat).

(** Two mutexes are the same or not (see the fields cited for [lock]:
    src/device.rs:165, src/controller.rs:70, src/device_node.rs:27,
    src/controller_node.rs:32). *)
Definition lock_eq_dec : forall a b : lock, {a = b} + {a <> b}.
Proof. decide equality; apply Nat.eq_dec. Defined.

(** A registered observer: src/transport/observer.rs line 25.  [ObsNode w n]
    is the node [n] (src/node.rs lines 449-471), [ObsCtrl w c] the controller
    node [c] (src/controller_node.rs lines 129-148), [ObsDev w] a device node
    (src/device_node.rs lines 122-124), [ObsUser h] one of the application. *)
Inductive observer :=
| ObsNode (w n : nat)
| ObsCtrl (w c : nat)
| ObsDev (w : nat)
| ObsUser (h : nat).

(** A registered request handler: src/request_handler.rs line 89.  [HNode n]
    is the one of src/node.rs line 56. *)
Inductive handler :=
| HNode (n : nat)
| HUser (h : nat).

(** src/request_handler.rs:89, the mutex of a handler. *)
Definition lock_of (h : handler) : lock :=
  match h with
  | HNode n => Own n
  | HUser h => Usr h
  end.

(** What a thread still has to do.  [Acq] is [lock().unwrap()], [Rel] the end of the
    guard's scope, [Try l ys] is [try_lock()] followed, when it succeeds, by [ys].  The
    other operations are steps of the functions below; those which loop over a list are
    replaced by their iterations when they are reached. The steps of src/node.rs:43-212
    and 449-493, src/transport/manager.rs:36-90,
    src/transport/unicast_server.rs:102-161 and src/transport/notify_manager.rs:31-54.
    *)
Inductive op :=
| Acq (l : lock)
| Rel (l : lock)
| Try (l : lock) (ys : list op)
| AddObs (n : nat) (o : observer)
| AddHandler (n : nat) (h : handler)
| Start (n : nat)
| Spawn (n : nat)
| Register (n : nat)
| Push (t : nat) (o : observer)
| StopAll (n : nat)
| StopServer (t : nat)
| Clear (n : nat)
| Notify (t : nat)
| Handle (n : nat).

(** The state of the process.  [receive t] tells whether thread [t] is a receive
    thread, [home t] which node its server belongs to, [ended t] whether its closure
    has returned. The fields of src/node.rs:33-40,
    src/transport/unicast_server.rs:30-35 and src/transport/notify_manager.rs:21-23. *)
Record process := {
  owner : lock -> option nat;
  servers : nat -> list nat;
  observers : nat -> list observer;
  handlers : nat -> list handler;
  registered : nat -> list observer;
  flag : nat -> bool;
  receive : nat -> bool;
  home : nat -> nat;
  ended : nat -> bool;
  todo : nat -> list op;
  next : nat
}.

(** Not in the code: a function changed in one place. *)
Definition upd {A} (f : nat -> A) (k : nat) (v : A) : nat -> A :=
  fun x => if Nat.eqb x k then v else f x.

(** Not in the code: a function changed in one place. *)
Definition upd_lock (f : lock -> option nat) (k : lock) (v : option nat) : lock -> option nat :=
  fun x => if lock_eq_dec x k then v else f x.

(** Not in the code: thread [t] goes on with [p]. *)
Definition with_todo (s : process) (t : nat) (p : list op) : process :=
  {| owner := owner s; servers := servers s; observers := observers s;
     handlers := handlers s; registered := registered s; flag := flag s;
     receive := receive s; home := home s; ended := ended s; todo := upd (todo s) t p; next := next s |}.

(** std::sync::Mutex: [l] gets or loses its holder. *)
Definition with_owner (s : process) (l : lock) (v : option nat) : process :=
  {| owner := upd_lock (owner s) l v; servers := servers s; observers := observers s;
     handlers := handlers s; registered := registered s; flag := flag s;
     receive := receive s; home := home s; ended := ended s; todo := todo s; next := next s |}.

(** The fields ucast_mgr and mcast_mgr of src/transport/manager.rs:23-26. *)
Definition with_servers (s : process) (n : nat) (v : list nat) : process :=
  {| owner := owner s; servers := upd (servers s) n v; observers := observers s;
     handlers := handlers s; registered := registered s; flag := flag s;
     receive := receive s; home := home s; ended := ended s; todo := todo s; next := next s |}.

(** The field notify_mgr of src/node.rs:33-40. *)
Definition with_observers (s : process) (n : nat) (v : list observer) : process :=
  {| owner := owner s; servers := servers s; observers := upd (observers s) n v;
     handlers := handlers s; registered := registered s; flag := flag s;
     receive := receive s; home := home s; ended := ended s; todo := todo s; next := next s |}.

(** The field request_mgr of src/node.rs:33-40. *)
Definition with_handlers (s : process) (n : nat) (v : list handler) : process :=
  {| owner := owner s; servers := servers s; observers := observers s;
     handlers := upd (handlers s) n v; registered := registered s; flag := flag s;
     receive := receive s; home := home s; ended := ended s; todo := todo s; next := next s |}.

(** The field observers of src/transport/notify_manager.rs:21-23. *)
Definition with_registered (s : process) (t : nat) (v : list observer) : process :=
  {| owner := owner s; servers := servers s; observers := observers s;
     handlers := handlers s; registered := upd (registered s) t v; flag := flag s;
     receive := receive s; home := home s; ended := ended s; todo := todo s; next := next s |}.

(** The stop flag: src/transport/unicast_server.rs:152-161,
    multicast_server.rs:187-196. *)
Definition with_flag (s : process) (t : nat) : process :=
  {| owner := owner s; servers := servers s; observers := observers s;
     handlers := handlers s; registered := registered s; flag := upd (flag s) t true;
     receive := receive s; home := home s; ended := ended s; todo := todo s; next := next s |}.

(** The closure of src/transport/unicast_server.rs:107-147 or
    multicast_server.rs:141-181 returns. *)
Definition with_ended (s : process) (t : nat) : process :=
  {| owner := owner s; servers := servers s; observers := observers s;
     handlers := handlers s; registered := registered s; flag := flag s;
     receive := receive s; home := home s; ended := upd (ended s) t true; todo := todo s; next := next s |}.

(** [thread::spawn] in [UnicastServer::start] (src/transport/unicast_server.rs
    lines 102-150) or [MulticastServer::start] (multicast_server.rs lines
    136-185), and the push of the server on its list (unicast_manager.rs line
    90, multicast_manager.rs line 90).  The two lists of servers of a node are
    one list here. *)
Definition spawned (s : process) (n : nat) : process :=
  {| owner := owner s; servers := upd (servers s) n (servers s n ++ [next s]);
     observers := observers s; handlers := handlers s;
     registered := upd (registered s) (next s) [];
     flag := upd (flag s) (next s) false; receive := upd (receive s) (next s) true;
     home := upd (home s) (next s) n;
     ended := upd (ended s) (next s) false; todo := upd (todo s) (next s) [];
     next := S (next s) |}.

(** [Manager::add_observer] for every observer of the node, in [Node::start]
    (src/node.rs lines 191-193): src/transport/manager.rs lines 36-44,
    unicast_manager.rs lines 40-47, unicast_server.rs lines 47-49. *)
Definition registering (os : list observer) (ts : list nat) : list op :=
  flat_map (fun o => flat_map (fun t => [Acq (Notif t); Push t o; Rel (Notif t)]) ts) os.

(** [Manager::stop] (src/transport/manager.rs lines 86-90): for every server
    [stop] (unicast_server.rs lines 152-161), then the list is cleared
    (unicast_manager.rs lines 95-104).  [StopServer] stores the stop flag and
    then joins the thread. *)
Definition stopping (n : nat) (ts : list nat) : list op :=
  map StopServer ts ++ [Clear n].

Section Code.
  (** [code h b]: [b] is a possible run of the application's code behind the
      mutex [Usr h], when it is called as a request handler or observer. *)
  Variable code : nat -> list op -> Prop.

  (** One call of a request handler for one property: src/request_handler.rs
      lines 118-124; the node's own handler takes no lock in its body
      (src/node.rs lines 473-493). *)
  Inductive asked : handler -> list op -> Prop :=
  | asked_node n : asked (HNode n) [Acq (Own n); Rel (Own n)]
  | asked_user h b : code h b -> asked (HUser h) (Acq (Usr h) :: b ++ [Rel (Usr h)]).

  (** [RequestManager::property_request_received]: src/request_handler.rs lines
      109-132, for a message with [k] properties.  [k] is 0 also when
      [Node::message_received] returns before it (src/node.rs lines 273-391)
      or when the message is not a request. *)
  Definition handling (hs : list handler) (k : nat) (ps : list (list op)) : Prop :=
    Forall2 asked (flat_map (fun h => repeat h k) hs) ps.

  (** One iteration of [NotifytManager::notify]: src/transport/notify_manager.rs
      lines 49-52, with the [message_received] of the observer inlined:
      src/node.rs lines 449-471, src/controller_node.rs lines 129-148,
      src/device_node.rs lines 122-124. *)
  Inductive notified : observer -> list op -> Prop :=
  | notified_node w n :
      notified (ObsNode w n) [Acq (Wrap w); Try (Node n) [Handle n; Rel (Node n)]; Rel (Wrap w)]
  | notified_ctrl w c :
      notified (ObsCtrl w c) [Acq (Wrap w); Try (Dev c) [Rel (Dev c)]; Rel (Wrap w)]
  | notified_dev w : notified (ObsDev w) [Acq (Wrap w); Rel (Wrap w)]
  | notified_user h b : code h b -> notified (ObsUser h) (Acq (Usr h) :: b ++ [Rel (Usr h)]).

  (** One step of thread [t]. The lines are given at the constructors:
      src/node.rs:111-212, src/transport/manager.rs:71-90,
      src/transport/unicast_server.rs:102-161, src/transport/notify_manager.rs:31-54,
      src/request_handler.rs:109-132. *)
  Inductive runs (t : nat) (s : process) : process -> Prop :=
  | run_acq l p :
      todo s t = Acq l :: p -> owner s l = None ->
      runs t s (with_todo (with_owner s l (Some t)) t p)
  | run_rel l p :
      todo s t = Rel l :: p -> owner s l = Some t ->
      runs t s (with_todo (with_owner s l None) t p)
  | run_try_yes l ys p :
      todo s t = Try l ys :: p -> owner s l = None ->
      runs t s (with_todo (with_owner s l (Some t)) t (ys ++ p))
  | run_try_no l ys p :
      todo s t = Try l ys :: p -> owner s l <> None ->
      runs t s (with_todo s t p)
  (** src/node.rs lines 115-117 *)
  | run_add_observer n o p :
      todo s t = AddObs n o :: p ->
      runs t s (with_todo (with_observers s n (observers s n ++ [o])) t p)
  (** src/node.rs lines 111-113 *)
  | run_add_handler n h p :
      todo s t = AddHandler n h :: p ->
      runs t s (with_todo (with_handlers s n (handlers s n ++ [h])) t p)
  (** [Node::start], src/node.rs lines 175-199, when the node is running *)
  | run_start_again n p :
      todo s t = Start n :: p -> servers s n <> [] ->
      runs t s (with_todo s t (Register n :: p))
  (** ... when the transport manager starts: src/transport/manager.rs lines
      71-84; a server for each kind at least *)
  | run_start n k p :
      todo s t = Start n :: p -> servers s n = [] -> 2 <= k ->
      runs t s (with_todo s t (repeat (Spawn n) k ++ Register n :: p))
  (** ... when it does not start *)
  | run_start_fails n k p :
      todo s t = Start n :: p -> servers s n = [] ->
      runs t s (with_todo s t (repeat (Spawn n) k ++ StopAll n :: p))
  | run_spawn n p :
      todo s t = Spawn n :: p ->
      runs t s (with_todo (spawned s n) t p)
  | run_register n p :
      todo s t = Register n :: p ->
      runs t s (with_todo s t (registering (observers s n) (servers s n) ++ p))
  (** src/transport/notify_manager.rs lines 31-41 *)
  | run_push u o p :
      todo s t = Push u o :: p ->
      runs t s (with_todo (with_registered s u (registered s u ++ [o])) t p)
  (** src/node.rs lines 201-212 *)
  | run_stop n p :
      todo s t = StopAll n :: p ->
      runs t s (with_todo s t (stopping n (servers s n) ++ p))
  | run_signal u p :
      todo s t = StopServer u :: p -> flag s u = false ->
      runs t s (with_flag s u)
  | run_join u p :
      todo s t = StopServer u :: p -> flag s u = true -> ended s u = true ->
      runs t s (with_todo s t p)
  | run_clear n p :
      todo s t = Clear n :: p ->
      runs t s (with_todo (with_servers s n []) t p)
  | run_notify u ps p :
      todo s t = Notify u :: p -> Forall2 notified (registered s u) ps ->
      runs t s (with_todo s t (concat ps ++ p))
  | run_handle n k ps p :
      todo s t = Handle n :: p -> handling (handlers s n) k ps ->
      runs t s (with_todo s t (concat ps ++ p))
  (** the loop of the receive thread ends at the stop flag:
      src/transport/unicast_server.rs line 108 *)
  | run_exit :
      t < next s -> receive s t = true -> ended s t = false -> todo s t = [] -> flag s t = true ->
      runs t s (with_ended s t).

  (** What the network does to the receive thread [t]: a datagram which parses
      arrives (src/transport/unicast_server.rs lines 109-131; the flag may have
      been set since it was read), or [recv_from] fails (lines 132-144). *)
  Inductive network (t : nat) (s : process) : process -> Prop :=
  | datagram :
      t < next s -> receive s t = true -> ended s t = false -> todo s t = [] ->
      network t s (with_todo s t [Acq (Notif t); Notify t; Rel (Notif t)])
  | recv_error :
      t < next s -> receive s t = true -> ended s t = false -> todo s t = [] ->
      network t s (with_ended s t).

  (** Not in the code: any steps of any threads, and what the network does, one after
      another (src/transport/unicast_server.rs:108-144). *)
  Inductive steps : process -> process -> Prop :=
  | steps_refl s : steps s s
  | steps_run t s s' s'' : runs t s s' -> steps s' s'' -> steps s s''
  | steps_network t s s' s'' : network t s s' -> steps s' s'' -> steps s s''.
End Code.

(** The process when its threads start: [ps] are the programs of the application's
    threads. Not in the code: the application before its first call
    (src/node.rs:43-58). *)
Definition boot (ps : list (list op)) : process :=
  {| owner := fun _ => None; servers := fun _ => []; observers := fun _ => [];
     handlers := fun _ => []; registered := fun _ => []; flag := fun _ => false;
     receive := fun _ => false; home := fun _ => 0; ended := fun _ => false;
     todo := fun t => nth t ps []; next := length ps |}.

(** ** The lock operations of the API *)

(** A call of a [Node] method through its mutex. For example src/device_node.rs:49-66.
    *)
Definition node_call (n : nat) (b : list op) : list op := Acq (Node n) :: b ++ [Rel (Node n)].

(** A call of a [Device] or [Controller] method: [self.node.lock().unwrap()] in
    src/device.rs or src/controller.rs and again in src/device_node.rs or
    src/controller_node.rs. src/device.rs:189-250, src/controller.rs:88-142. *)
Definition dev_call (d n : nat) (b : list op) : list op :=
  Acq (Dev d) :: node_call n b ++ [Rel (Dev d)].

(** The calls of the API: [d], [c] is the device or controller, [n] its node, [h] the
    mutex of a handler or observer of the application. src/node.rs:43-212,
    src/device.rs:170-250, src/controller.rs:73-142. *)
Inductive call :=
| Node_new (n : nat)
| Node_add_object (n : nat)
| Node_add_request_handler (n h : nat)
| Node_add_observer (n h : nat)
| Node_send (n : nat)
| Node_is_running (n : nat)
| Node_start (n : nat)
| Node_stop (n : nat)
| Device_new (d n : nat)
| Device_node (d : nat)
| Device_set_property (d n : nat)
| Device_property (d n : nat)
| Device_set_request_handler (d n h : nat)
| Device_start (d n : nat)
| Device_stop (d n : nat)
| Controller_new (c n : nat)
| Controller_add_observer (c n h : nat)
| Controller_nodes (c : nat)
| Controller_search (c n : nat)
| Controller_send (c n : nat)
| Controller_post (c n : nat)
| Controller_start (c n : nat)
| Controller_stop (c n : nat).

(** The mutexes that each call takes, in order; the lines are given at each call
    (src/node.rs:43-212, src/device.rs:180-250, src/controller.rs:73-142). *)
Definition ops_of (c : call) : list op :=
  match c with
  (* src/node.rs lines 43-58 *)
  | Node_new n => node_call n [] ++ node_call n [AddHandler n (HNode n)]
  (* src/node.rs line 68, behind [node.lock()] *)
  | Node_add_object n => node_call n []
  (* src/node.rs line 111 *)
  | Node_add_request_handler n h => node_call n [AddHandler n (HUser h)]
  (* src/node.rs line 115 *)
  | Node_add_observer n h => node_call n [AddObs n (ObsUser h)]
  (* src/node.rs lines 119-135 *)
  | Node_send n => node_call n []
  (* src/node.rs line 171 *)
  | Node_is_running n => node_call n []
  (* src/node.rs line 175 *)
  | Node_start n => node_call n [Start n]
  (* src/node.rs line 201 *)
  | Node_stop n => node_call n [StopAll n]
  (* src/device.rs lines 180-198, src/device_node.rs lines 36-52 *)
  | Device_new d n =>
      node_call n [AddObs n (ObsNode (2 * d) n)]
      ++ dev_call d n [AddObs n (ObsDev (2 * d + 1))] ++ dev_call d n []
  (* src/device.rs lines 206-209 *)
  | Device_node d => [Acq (Dev d); Rel (Dev d)]
  (* src/device.rs lines 220-223, src/device_node.rs lines 68-85 *)
  | Device_set_property d n => dev_call d n []
  (* src/device.rs lines 226-229, src/device_node.rs lines 88-99 *)
  | Device_property d n => dev_call d n []
  (* src/device.rs lines 231-234, src/device_node.rs lines 54-57 *)
  | Device_set_request_handler d n h => dev_call d n [AddHandler n (HUser h)]
  (* src/device.rs lines 237-243, src/device_node.rs lines 105-111 *)
  | Device_start d n => dev_call d n [Start n]
  (* src/device.rs lines 246-249 and 292-296 (drop), src/device_node.rs lines 113-119 *)
  | Device_stop d n => dev_call d n [StopAll n]
  (* src/controller_node.rs lines 41-57 *)
  | Controller_new c n =>
      node_call n [AddObs n (ObsNode (2 * c) n)] ++ dev_call c n [AddObs n (ObsCtrl (2 * c + 1) c)]
  (* src/controller.rs lines 88-91 *)
  | Controller_add_observer c n h => dev_call c n [AddObs n (ObsUser h)]
  (* src/controller.rs lines 94-101 *)
  | Controller_nodes c => [Acq (Dev c); Rel (Dev c)]
  (* src/controller.rs lines 104-112, src/controller_node.rs lines 84-90 *)
  | Controller_search c n => dev_call c n []
  (* src/controller.rs lines 115-121, src/controller_node.rs lines 96-100 *)
  | Controller_send c n => [Try (Dev c) (Rel (Dev c) :: dev_call c n [])]
  (* src/controller.rs lines 124-127, src/controller_node.rs lines 102-106 *)
  | Controller_post c n => dev_call c n []
  (* src/controller.rs lines 130-136, src/controller_node.rs lines 112-118 *)
  | Controller_start c n => dev_call c n [Start n]
  (* src/controller.rs lines 139-149 (stop and drop), src/controller_node.rs lines 120-126 *)
  | Controller_stop c n => dev_call c n [StopAll n]
  end.
