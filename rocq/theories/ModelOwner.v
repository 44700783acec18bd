(** Model of who owns what: which Arc cells nodes, devices and controllers make,
    which of them hold which, and what runs when the application lets go of one
    (src/node.rs:43-58 and 495-499, src/device_node.rs:31-47,
    src/controller_node.rs:37-52, src/device.rs:170-187 and 292-296,
    src/controller.rs:73-86 and 145-149).

    Only ownership and whether the transport of a node is running are kept;
    objects, messages, locks and panics are in the other models. The servers of a
    running node hold further copies of the observers of that node; they are left
    out, since the node itself holds every observer (src/node.rs:115-117) and
    nothing removes one. *)
From Verif Require Import Base ModelHost.

(** ** Cells *)
(** What a variable or field can own: a reference-counted pointer to a cell, a
    Device (src/device.rs:163-166) or a Controller (src/controller.rs:69-71); the
    latter two own a pointer to a DeviceNode or ControllerNode. *)
Inductive hold : Type := HArc (i : nat) | HDevice (d : nat) | HController (c : nat).
(** The cell that is pointed to: src/device.rs:163-166, src/controller.rs:69-71. *)
Definition target (x : hold) : nat := match x with HArc i => i | HDevice d => d | HController c => c end.

(** The content of an Arc<Mutex<...>>: a node; a pointer to a node, device node or
    controller node (made to register these as handler or observer); a device node; a
    controller node; a value of the application. src/node.rs:33-40,
    src/device_node.rs:26-29, src/controller_node.rs:31-34. *)
Inductive kind : Type := KNode (running : bool) | KRef | KDevNode | KCtrlNode | KUser.
(** std::sync::Arc: the count, and what the content owns (src/node.rs:33-40,
    src/device_node.rs:26-29, src/controller_node.rs:31-34). *)
Record cell : Type := Cell { c_strong : nat; c_kind : kind; c_holds : list hold }.
(** The cells by number; [None] after deallocation. Not in the code: all cells made by
    src/node.rs:43-58, src/device_node.rs:36-47, src/controller_node.rs:41-52 and the
    application. *)
Definition heap : Type := list (option cell).
(** Not in the code: the cell with a number, if it still exists. *)
Definition at_ (h : heap) (i : nat) : option cell := match nth_error h i with Some (Some c) => Some c | _ => None end.

(** What the destructors do: [EvNodeDrop n], Drop for Node (src/node.rs:495-499);
    [EvStop n], Node::stop called by Drop for Device (src/device.rs:292-296) or for
    Controller (src/controller.rs:145-149); [EvUserDrop u], a value of the
    application is dropped. *)
Inductive drop_event : Type := EvNodeDrop (n : nat) | EvStop (n : nat) | EvUserDrop (u : nat).
(** src/node.rs:495-499, Drop for Node. *)
Definition on_free (i : nat) (k : kind) : list drop_event :=
  match k with KNode _ => [EvNodeDrop i] | KUser => [EvUserDrop i] | _ => [] end.

(** The node of a node, device node or controller node: field [node] of
    src/device_node.rs:26-29 and src/controller_node.rs:31-34. *)
Definition node_at (h : heap) (i : nat) : option nat :=
  match at_ h i with
  | Some (Cell _ (KNode _) _) => Some i
  | Some (Cell _ KDevNode (HArc n :: _)) | Some (Cell _ KCtrlNode (HArc n :: _)) => Some n
  | _ => None
  end.
(** src/node.rs:175-212, what start and stop do. *)
Definition set_running (h : heap) (n : nat) (b : bool) : heap :=
  match at_ h n with
  | Some (Cell s (KNode _) l) => set_nth h n (Some (Cell s (KNode b) l))
  | _ => h
  end.
(** src/node.rs:171-173, is_running. *)
Definition runs (h : heap) (n : nat) : bool := match at_ h n with Some (Cell _ (KNode b) _) => b | _ => false end.

(** Dropping the values of a list, one after the other (standard library: the last
    pointer drops the content, then the fields of the content). src/device.rs:292-296,
    src/controller.rs:145-149, src/node.rs:495-499. *)
Inductive release : heap -> list hold -> heap -> list drop_event -> Prop :=
| rel_nil h : release h [] h []
| rel_more h i r s k l h' ev : at_ h i = Some (Cell (S (S s)) k l) ->
    release (set_nth h i (Some (Cell (S s) k l))) r h' ev -> release h (HArc i :: r) h' ev
| rel_last h i r k l h' ev : at_ h i = Some (Cell 1 k l) ->
    release (set_nth h i None) (l ++ r) h' ev -> release h (HArc i :: r) h' (on_free i k ++ ev)
| rel_device h d r n h' ev : node_at h d = Some n ->
    release (set_running h n false) (HArc d :: r) h' ev -> release h (HDevice d :: r) h' (EvStop n :: ev)
| rel_controller h c r n h' ev : node_at h c = Some n ->
    release (set_running h n false) (HArc c :: r) h' ev -> release h (HController c :: r) h' (EvStop n :: ev).

(** ** What an application does *)
(** The cells, and what the variables of the application own. Not in the code: the
    variables of an application that uses src/device.rs:170-187 and
    src/controller.rs:73-86. *)
Record store : Type := Store { st_heap : heap; st_vars : list hold }.
(** src/node.rs:43-58 and 495-499, src/device.rs:170-187 and 292-296,
    src/controller.rs:73-86 and 145-149, src/node.rs:111-117 and 175-212. *)
Inductive own_op : Type :=
| ONode                                   (* Node::new() *)
| ODevice | ODeviceWith (n : nat)         (* Device::new(code), new_with_node(code, n) *)
| OController | OControllerWith (n : nat) (* Controller::new(), new_with_node(n) *)
| OUser                                   (* Arc::new(Mutex::new(value)) *)
| OPut (u : nat) (x : hold)               (* moves x from a variable into a value u of the application *)
| OTake (u : nat) (x : hold)              (* and back *)
| OClone (i : nat)                        (* Arc::clone *)
| OGetNode (x : hold)                     (* Device::node() *)
| OHandler (x : hold) (u : nat)           (* registers a clone of u as request handler of the node of x *)
| OObserver (x : hold) (u : nat)          (* registers a clone of u as observer of the node of x *)
| OStart (x : hold) | OStop (x : hold)    (* start, stop; the former succeeds *)
| ODrop (x : hold).                       (* a variable goes out of scope *)

(** Not in the code: comparison of holders (src/device.rs:163-166,
    src/controller.rs:69-71). *)
Definition hold_eqb (x y : hold) : bool :=
  match x, y with
  | HArc i, HArc j | HDevice i, HDevice j | HController i, HController j => Nat.eqb i j
  | _, _ => false
  end.
(** Removes one occurrence. Not in the code: a variable is moved or dropped. *)
Fixpoint without (x : hold) (l : list hold) : list hold :=
  match l with [] => [] | y :: r => if hold_eqb y x then r else y :: without x r end.
(** What the application can reach: its variables and its values. Not in the code: what
    an application can name. *)
Definition reaches (s : store) (x : hold) : Prop :=
  In x (st_vars s) \/ exists u c l, at_ (st_heap s) u = Some (Cell c KUser l) /\ In x l.

(** Another pointer to [i]. std::sync::Arc::clone, as in src/device_node.rs:36-47. *)
Definition inc (h : heap) (i : nat) : heap :=
  match at_ h i with Some (Cell s k l) => set_nth h i (Some (Cell (S s) k l)) | None => h end.
(** A field that refers to [x] in the cell [i]. A push on a Vec of pointers, as in
    src/node.rs:111-117. *)
Definition give (h : heap) (i : nat) (x : hold) : heap :=
  match at_ h i with Some (Cell s k l) => set_nth h i (Some (Cell s k (l ++ [x]))) | None => h end.

(** src/node.rs:43-58, Node::new: the node, and a pointer to it that the node
    itself keeps as request handler (54-56). *)
Definition new_node (h : heap) : nat * heap :=
  let n := length h in (n, h ++ [Some (Cell 2 (KNode false) [HArc (S n)]); Some (Cell 1 KRef [HArc n])]).
(** src/device_node.rs:36-47 and src/controller_node.rs:41-52, new_with_node:
    takes the pointer [n]; makes the device node (or controller node) [d] that
    keeps it, and registers pointers to the node and to [d] with the node. *)
Definition with_node (k : kind) (h : heap) (n : nat) : nat * heap :=
  let d := length h in
  let h := h ++ [Some (Cell 2 k [HArc n]); Some (Cell 1 KRef [HArc n]); Some (Cell 1 KRef [HArc d])] in
  (d, give (give (inc h n) n (HArc (S d))) n (HArc (S (S d)))).

(** src/node.rs:43-58 and 495-499, src/device.rs:170-187 and 292-296,
    src/controller.rs:73-86 and 145-149; the lines are given at the constructors. *)
Inductive own_step : store -> own_op -> store -> list drop_event -> Prop :=
| own_node h v n h' : new_node h = (n, h') -> own_step (Store h v) ONode (Store h' (HArc n :: v)) []
(** src/device.rs:170-177, Device::new; src/device_node.rs:32-34. *)
| own_device h v n h1 d h' : new_node h = (n, h1) -> with_node KDevNode h1 n = (d, h') -> own_step (Store h v) ODevice (Store h' (HDevice d :: v)) []
(** src/device.rs:180-187, Device::new_with_node. *)
| own_device_with h v n d h' : In (HArc n) v -> node_at h n = Some n -> with_node KDevNode h n = (d, h') ->
    own_step (Store h v) (ODeviceWith n) (Store h' (HDevice d :: without (HArc n) v)) []
(** src/controller.rs:75-79 and 82-86, src/controller_node.rs:37-39. *)
| own_controller h v n h1 c h' : new_node h = (n, h1) -> with_node KCtrlNode h1 n = (c, h') -> own_step (Store h v) OController (Store h' (HController c :: v)) []
| own_controller_with h v n c h' : In (HArc n) v -> node_at h n = Some n -> with_node KCtrlNode h n = (c, h') ->
    own_step (Store h v) (OControllerWith n) (Store h' (HController c :: without (HArc n) v)) []
| own_user h v : own_step (Store h v) OUser (Store (h ++ [Some (Cell 1 KUser [])]) (HArc (length h) :: v)) []
| own_put h v u s l x : In x v -> at_ h u = Some (Cell s KUser l) -> own_step (Store h v) (OPut u x) (Store (give h u x) (without x v)) []
| own_take h v u s l x : at_ h u = Some (Cell s KUser l) -> In x l ->
    own_step (Store h v) (OTake u x) (Store (set_nth h u (Some (Cell s KUser (without x l)))) (x :: v)) []
| own_clone h v i : reaches (Store h v) (HArc i) -> own_step (Store h v) (OClone i) (Store (inc h i) (HArc i :: v)) []
(** src/device.rs:206-209, Device::node; src/device_node.rs:64-66. *)
| own_get_node h v d n : reaches (Store h v) (HDevice d) -> node_at h d = Some n -> own_step (Store h v) (OGetNode (HDevice d)) (Store (inc h n) (HArc n :: v)) []
(** src/node.rs:111-117, add_request_handler, add_observer; src/device.rs:231-234,
    src/controller.rs:88-91. *)
| own_handler h v x u n : reaches (Store h v) x -> reaches (Store h v) (HArc u) -> node_at h (target x) = Some n ->
    own_step (Store h v) (OHandler x u) (Store (give (inc h u) n (HArc u)) v) []
| own_observer h v x u n : reaches (Store h v) x -> reaches (Store h v) (HArc u) -> node_at h (target x) = Some n ->
    own_step (Store h v) (OObserver x u) (Store (give (inc h u) n (HArc u)) v) []
| own_start h v x n : reaches (Store h v) x -> node_at h (target x) = Some n -> own_step (Store h v) (OStart x) (Store (set_running h n true) v) []
| own_stop h v x n : reaches (Store h v) x -> node_at h (target x) = Some n -> own_step (Store h v) (OStop x) (Store (set_running h n false) v) []
| own_drop h v x h' ev : In x v -> release h [x] h' ev -> own_step (Store h v) (ODrop x) (Store h' (without x v)) ev.
(** Not in the code: such steps one after another. *)
Inductive own_run : store -> list own_op -> store -> list drop_event -> Prop :=
| own_done s : own_run s [] s []
| own_more s op s1 ev ops s2 ev' : own_step s op s1 ev -> own_run s1 ops s2 ev' -> own_run s (op :: ops) s2 (ev ++ ev').
(** Not in the code: before the first call (src/node.rs:43-58). *)
Definition nothing : store := Store [] [].
