(** Model of src/remote_node.rs, src/controller_node.rs and src/controller.rs. *)
From Verif Require Import Base HMap ModelCodec ModelMessages ModelObject ModelTransport ModelNode.

(** Results of Uuid::new_v4 (src/util/oid.rs:41), by call number. *)
Class Uuids := { new_uuid : N -> list N }.

(* ------------------------------------------------------------------ *)
(** ** src/remote_node.rs *)

(** src/remote_node.rs:24-27, RemoteNode. *)
Record remote_node : Type := Remote { rn_addr : sockaddr; rn_objects : list object }.

(** src/remote_node.rs:104-108, PartialEq: the address with its port. *)
Definition remote_eqb (a b : remote_node) : bool := sockaddr_eqb (rn_addr a) (rn_addr b).

(** src/remote_node.rs:54-57, add_object (returns true). *)
Definition remote_add_object (r : remote_node) (o : object) : remote_node :=
  Remote (rn_addr r) (rn_objects r ++ [o]).

(** src/remote_node.rs:67-74, find_object. *)
Definition remote_find_object (r : remote_node) (code : N) : option object := find_object (rn_objects r) code.

(** src/remote_node.rs:84-86, the loop that adds an object for every code. *)
Fixpoint remote_add_codes {O : OS} (w : world) (r : remote_node) (codes : list N) : remote_node * world :=
  match codes with
  | [] => (r, w)
  | c :: l => remote_add_codes (tick w) (remote_add_object r (object_from_code (os_seed (w_calls w)) c)) l
  end.

(** src/remote_node.rs:37-44 and 76-88, from_message, parse. *)
Definition remote_from_message {P : Profile} {O : OS} (w : world) (msg : message) : outcome (remote_node * world) :=
  let node := Remote (msg_from msg) [] in
  if negb (is_node_profile_message msg) then Ret (node, w)
  else let! codes := node_profile_codes (m_props msg) in
       Ret (remote_add_codes w node codes).

(** src/remote_node.rs:91-102, Clone. *)
Fixpoint clone_objects {P : Profile} {HO : HashOrder} {O : OS} (w : world) (os : list object) : outcome (list object * world) :=
  match os with
  | [] => Ret ([], w)
  | o :: r => let! o' := object_clone (os_seed (w_calls w)) o in
              let! x := clone_objects (tick w) r in
              Ret (o' :: fst x, snd x)
  end.
(** src/remote_node.rs:91-102, Clone for RemoteNode. *)
Definition remote_clone {P : Profile} {HO : HashOrder} {O : OS} (w : world) (r : remote_node) : outcome (remote_node * world) :=
  let! x := clone_objects w (rn_objects r) in Ret (Remote (rn_addr r) (fst x), snd x).

(* ------------------------------------------------------------------ *)
(** ** src/controller_node.rs *)

(** src/controller_node.rs:65-71, removing the first equal entry. *)
Fixpoint remove_remote (l : list remote_node) (r : remote_node) : list remote_node :=
  match l with
  | [] => []
  | x :: t => if negb (remote_eqb x r) then x :: remove_remote t r else t
  end.
(** src/controller_node.rs:59-74, add_remote_node, replace_remote_node. *)
Definition add_remote (l : list remote_node) (r : remote_node) : list remote_node := l ++ [r].
(** src/controller_node.rs:64-74, replace_remote_node. *)
Definition replace_remote (l : list remote_node) (r : remote_node) : list remote_node := remove_remote l r ++ [r].

(** src/controller_node.rs:141-144, the standard properties of every object. *)
Fixpoint add_standard_all {P : Profile} {HO : HashOrder} {Uu : Uuids} (db : list object) (w : world) (os : list object)
  : outcome (list object * world) :=
  match os with
  | [] => Ret ([], w)
  | o :: r =>
    let! o' := with_standard_properties db (new_uuid (w_calls w)) (new_uuid (w_calls w + 1)) o (object_code o) in
    let! x := add_standard_all db (tick (tick w)) r in
    Ret (o' :: fst x, snd x)
  end.

(** src/controller_node.rs:129-148, Observer for Arc<Mutex<ControllerNode>>, when
    the lock was obtained; [db] is the shared standard database. *)
Definition controller_observe {P : Profile} {HO : HashOrder} {O : OS} {Uu : Uuids} (db : list object)
  (w : world) (remotes : list remote_node) (msg : message) : outcome (list remote_node * world) :=
  if negb (is_node_profile_message msg) then Ret (remotes, w)
  else
    let! x := remote_from_message w msg in
    let '(r, w) := x in
    let! y := add_standard_all db w (rn_objects r) in
    let '(os, w) := y in
    let! np := node_profile_object db (new_uuid (w_calls w)) (new_uuid (w_calls w + 1)) (os_seed (w_calls w)) in
    Ret (replace_remote remotes (remote_add_object (Remote (rn_addr r) os) np), tick (tick w)).

(** src/controller_node.rs:84-94, search_object, search_all; also
    src/controller.rs:103-112. *)
Definition search_request (code : N) : message :=
  msg_set_deoj (msg_set_seoj search_message NODE_PROFILE_OBJECT_CODE) code.
(** src/controller_node.rs:84-90, search_object. *)
Definition controller_search_object {U : Type} {O : OS} (w : world) (n : node U) (code : N) : bool * node U * world :=
  let '(ok, _, n, w) := node_notify w n (search_request code) in (ok, n, w).
(** src/controller_node.rs:92-94, search_all. *)
Definition controller_search_all {U : Type} {O : OS} (w : world) (n : node U) : bool * node U * world :=
  controller_search_object w n NODE_PROFILE_OBJECT_CODE.

(** src/controller_node.rs:96-106, send_message, post_message; also
    src/controller.rs:114-127 when the lock of the controller is free. *)
Definition controller_send {U : Type} {O : OS} (w : world) (n : node U) (r : remote_node) (msg : message)
  : bool * message * node U * world :=
  node_send w n (fst (rn_addr r), PORT) (msg_set_seoj msg NODE_PROFILE_OBJECT_CODE).
(** src/controller_node.rs:102-106, post_message. *)
Definition controller_post {U : Type} {O : OS} (w : world) (n : node U) (r : remote_node) (msg : message)
  : N * message * node U * world :=
  node_post w n (fst (rn_addr r), PORT) (msg_set_seoj msg NODE_PROFILE_OBJECT_CODE).

(** src/controller.rs:93-101, nodes: clones of the entries. *)
Fixpoint controller_nodes {P : Profile} {HO : HashOrder} {O : OS} (w : world) (l : list remote_node) : outcome (list remote_node * world) :=
  match l with
  | [] => Ret ([], w)
  | r :: t => let! x := remote_clone w r in
              let! y := controller_nodes (snd x) t in
              Ret (fst x :: fst y, snd y)
  end.

(** src/controller_node.rs:112-126 and src/controller.rs:129-142, start, stop: those
    of the node; the entries are left alone. *)
Definition controller_start {U : Type} {O : OS} (w : world) (n : node U) (l : list remote_node)
  : outcome (bool * node U * list remote_node * world) :=
  let! x := node_start w n in let '(ok, n, w) := x in Ret (ok, n, l, w).
(** src/controller_node.rs:120-126, stop. *)
Definition controller_stop {U : Type} (n : node U) (l : list remote_node) : outcome (bool * node U * list remote_node) :=
  let! x := node_stop n in Ret (fst x, snd x, l).
