(** Model of src/node_profile.rs, src/request_handler.rs and src/node.rs. *)
From Verif Require Import Base HMap ModelCodec ModelMessages ModelObject ModelTransport.

(* ------------------------------------------------------------------ *)
(** ** src/node_profile.rs *)

(** src/node_profile.rs:82-85, the octets of one class list entry. *)
Definition class_entry (c : N) : list N :=
  [as_u8 (N.shiftr (N.land c 0xFF0000) 16); as_u8 (N.shiftr (N.land c 0x00FF00) 8)].
(** src/node_profile.rs:89-96, the octets of one instance list entry; the node
    profile is skipped. *)
Definition instance_entry (c : N) : list N :=
  if c =? NODE_PROFILE_OBJECT_CODE then []
  else [as_u8 (N.shiftr (N.land c 0xFF0000) 16); as_u8 (N.shiftr (N.land c 0x00FF00) 8);
        as_u8 (N.land c 0x0000FF)].

(** [self.obj.find_property_mut(c)] followed by set_int_data
    (src/node_profile.rs:99-114). *)
Definition object_set_int_if_present {P : Profile} (o : object) (c v : N) (size : nat) : outcome object :=
  match object_find_property o c with
  | None => Ret o
  | Some p => let! p' := prop_set_int_data p v size in
              Ret (obj_with_props o (hput (o_props o) c p'))
  end.

(** src/node_profile.rs:76-142, NodeProfile::update. [obj_codes.len() - 1] is
    computed on usize; the only caller passes a non-empty list. *)
Definition node_profile_update {P : Profile} (o : object) (codes : list N) : outcome object :=
  let num_class_codes := len_u8 codes in
  let! k := sub_w 64 (N.of_nat (length codes)) 1 in
  let num_obj_codes := as_u8 k in
  let class_list := num_class_codes :: flat_map class_entry codes in
  let instance_list := num_obj_codes :: flat_map instance_entry codes in
  let! o := object_set_int_if_present o NP_NUMBER_OF_INSTANCES num_obj_codes 3 in
  let! o := object_set_int_if_present o NP_NUMBER_OF_CLASSES num_class_codes 2 in
  let o := fst (object_set_property_data o NP_INSTANCE_LIST_S instance_list) in
  let o := fst (object_set_property_data o NP_INSTANCE_LIST_NOTIFICATION instance_list) in
  Ret (fst (object_set_property_data o NP_CLASS_LIST_S class_list)).

Section Node.
  (** The state behind the users' request handlers. *)
  Context {U : Type}.

  (* ---------------------------------------------------------------- *)
  (** ** src/request_handler.rs *)

  (** src/request_handler.rs:84-86, RequestHandler::property_request_received of
      a user: it may change its state and the object, and may panic. It runs
      while the node is locked, so it cannot use the node. *)
  Definition user_handler : Type := U -> object -> esv -> pprop -> outcome (U * object * bool).

  (** A registered handler: the node itself (src/node.rs:54-56) or a user's. *)
  Inductive handler : Type := HNode | HUser (f : user_handler).

  (** src/node.rs:473-493, RequestHandler for Arc<Mutex<Node>>. *)
  Definition node_handler (o : object) (e : esv) (p : pprop) : bool :=
    if negb (object_code o =? NODE_PROFILE_OBJECT_CODE) then false
    else match e with
         | EReadRequest | ENotificationRequest =>
           match object_find_property o (pp_code p) with None => false | Some _ => true end
         | _ => false
         end.

  (** src/request_handler.rs:119-123, the call of one handler. *)
  Definition call_handler (h : handler) (u : U) (o : object) (e : esv) (p : pprop) : outcome (U * object * bool) :=
    match h with
    | HNode => Ret (u, o, node_handler o e p)
    | HUser f => f u o e p
    end.

  (** src/request_handler.rs:118-126, the loop over the properties for one
      handler. *)
  Fixpoint ask_handler (h : handler) (u : U) (o : object) (e : esv) (ps : list pprop) (all : bool)
    : outcome (U * object * bool) :=
    match ps with
    | [] => Ret (u, o, all)
    | p :: r => let! x := call_handler h u o e p in
                let '(u, o, ok) := x in
                ask_handler h u o e r (if negb ok then false else all)
    end.

  (** src/request_handler.rs:116-130, the loop over the handlers. *)
  Fixpoint ask_handlers (hs : list handler) (u : U) (o : object) (e : esv) (ps : list pprop) (acc : bool)
    : outcome (U * object * bool) :=
    match hs with
    | [] => Ret (u, o, acc)
    | h :: r => let! x := ask_handler h u o e ps true in
                let '(u, o, all) := x in
                ask_handlers r u o e ps (if all then true else acc)
    end.

  (** src/request_handler.rs:109-132, RequestManager::property_request_received. *)
  Definition request_received (hs : list handler) (u : U) (o : object) (msg : message)
    : outcome (U * object * bool) :=
    if Nat.eqb (length hs) 0 then Ret (u, o, true)
    else ask_handlers hs u o (msg_esv msg) (m_props msg) false.

  (* ---------------------------------------------------------------- *)
  (** ** src/node.rs *)

  (** src/node.rs:33-40, Node. The sender of a channel whose receiver is gone
      from the beginning (lines 44 and 247) is [None]. *)
  Record node : Type := Node {
    n_mgr : manager; n_objects : list object; n_last_tid : N; n_post : option N;
    n_handlers : list handler; n_observers : list observer }.
  (** Assignment to the field transport_mgr of src/node.rs:33-40. *)
  Definition n_with_mgr (n : node) x := Node x (n_objects n) (n_last_tid n) (n_post n) (n_handlers n) (n_observers n).
  (** Assignment to the field objects of src/node.rs:33-40. *)
  Definition n_with_objects (n : node) x := Node (n_mgr n) x (n_last_tid n) (n_post n) (n_handlers n) (n_observers n).
  (** Assignment to the field last_tid of src/node.rs:33-40. *)
  Definition n_with_tid (n : node) x := Node (n_mgr n) (n_objects n) x (n_post n) (n_handlers n) (n_observers n).
  (** Assignment to the field post_sender of src/node.rs:33-40. *)
  Definition n_with_post (n : node) x := Node (n_mgr n) (n_objects n) (n_last_tid n) x (n_handlers n) (n_observers n).
  (** Assignment to the field request_mgr of src/node.rs:33-40. *)
  Definition n_with_handlers (n : node) x := Node (n_mgr n) (n_objects n) (n_last_tid n) (n_post n) x (n_observers n).
  (** Assignment to the field notify_mgr of src/node.rs:33-40. *)
  Definition n_with_observers (n : node) x := Node (n_mgr n) (n_objects n) (n_last_tid n) (n_post n) (n_handlers n) x.

  (** src/protocol/message.rs:28-29, TID_MIN, TID_MAX. *)
  Definition TID_MIN : N := 0.
  (** src/protocol/message.rs:29, TID_MAX. *)
  Definition TID_MAX : N := 65535.

  (** src/node.rs:78-94, find_object, find_object_mut. *)
  Fixpoint find_object (os : list object) (code : N) : option object :=
    match os with
    | [] => None
    | o :: r => if object_code o =? code then Some o else find_object r code
    end.
  (** Assignment through the reference returned by find_object_mut(code).
      src/node.rs:87-94. *)
  Fixpoint put_object (os : list object) (code : N) (o' : object) : list object :=
    match os with
    | [] => []
    | o :: r => if object_code o =? code then o' :: r else o :: put_object r code o'
    end.

  (** src/node.rs:251-263, update_node_profile. *)
  Definition update_node_profile {P : Profile} (n : node) : outcome node :=
    let codes := map object_code (n_objects n) in
    match find_object (n_objects n) NODE_PROFILE_OBJECT_CODE with
    | None => Ret n
    | Some o => let! o' := node_profile_update o codes in
                Ret (n_with_objects n (put_object (n_objects n) NODE_PROFILE_OBJECT_CODE o'))
    end.

  (** src/node.rs:68-72, add_object (returns true). *)
  Definition node_add_object {P : Profile} (n : node) (o : object) : outcome node :=
    update_node_profile (n_with_objects n (n_objects n ++ [o])).

  (** src/node.rs:111-117, add_request_handler, add_observer. *)
  Definition node_add_handler (n : node) (h : handler) : node := n_with_handlers n (n_handlers n ++ [h]).
  (** src/node.rs:115-117, add_observer. *)
  Definition node_add_observer (n : node) (o : observer) : node := n_with_observers n (observers_add (n_observers n) o).

  (** src/node_profile.rs:64-70, NodeProfile::new. *)
  Definition node_profile_object {P : Profile} {HO : HashOrder} (db : list object) (u1 u2 : list N) (seed : N) : outcome object :=
    device_object db u1 u2 seed NODE_PROFILE_OBJECT_CODE.

  (** src/node.rs:43-66, Node::new with the node profile object [np]. *)
  Definition node_new {P : Profile} (np : object) : outcome node :=
    let! n := node_add_object (Node manager_new [] TID_MIN None [] []) np in
    Ret (node_add_handler n HNode).

  (** src/node.rs:96-105, set_object_properties_data, _byte. *)
  Definition set_object_properties_byte (n : node) (c v : N) : node :=
    n_with_objects n (map (fun o => fst (object_set_property_data o c [v])) (n_objects n)).

  (** src/node.rs:221-228, next_tid. *)
  Definition next_tid (n : node) : node * N :=
    let t := if TID_MAX <=? n_last_tid n then TID_MIN else n_last_tid n + 1 in
    (n_with_tid n t, t).

  (** src/node.rs:214-219, update_message_trandaction_id. *)
  Definition update_tid (n : node) (msg : message) : node * message :=
    if msg_has_tid msg then (n, msg)
    else let '(n, t) := next_tid n in (n, msg_set_tid msg t).

  (** src/node.rs:119-122, send_message. The message after the call is returned
      too, as the caller sees the TID. *)
  Definition node_send {O : OS} (w : world) (n : node) (to : sockaddr) (msg : message)
    : bool * message * node * world :=
    let '(n, msg) := update_tid n msg in
    let '(ok, w) := manager_send w (n_mgr n) to msg in
    (ok, msg, n, w).

  (** src/node.rs:124-130, post_message. Returns the channel. *)
  Definition node_post {O : OS} (w : world) (n : node) (to : sockaddr) (msg : message)
    : N * message * node * world :=
    let '(n, msg) := update_tid n msg in
    let c := w_chan w in
    let w := World (w_calls w) (w_trace w) (w_chan w + 1) in
    let n := n_with_post n (Some c) in
    let '(_, w) := manager_send w (n_mgr n) to msg in
    (c, msg, n, w).

  (** src/node.rs:132-135, notify. *)
  Definition node_notify {O : OS} (w : world) (n : node) (msg : message) : bool * message * node * world :=
    let '(n, msg) := update_tid n msg in
    let '(ok, w) := manager_notify w (n_mgr n) msg in
    (ok, msg, n, w).

  (** src/node.rs:137-144, create_annouce_property_message. *)
  Definition announce_message (o : object) (p : prop) : message :=
    let msg := msg_set_esv msg_new ENotification in
    let msg := msg_set_deoj msg NODE_PROFILE_OBJECT_CODE in
    let msg := msg_set_seoj msg (object_code o) in
    msg_add_property msg (pprop_of_prop p).

  (** src/node.rs:146-149, annouce_property. *)
  Definition node_announce_property {O : OS} (w : world) (n : node) (o : object) (p : prop) : bool * node * world :=
    let '(ok, _, n, w) := node_notify w n (announce_message o p) in (ok, n, w).

  (** src/node.rs:151-165, annouce. *)
  Definition node_announce {O : OS} (w : world) (n : node) : bool * node * world :=
    match find_object (n_objects n) NODE_PROFILE_OBJECT_CODE with
    | None => (false, n, w)
    | Some o =>
      match object_find_property o NP_INSTANCE_LIST_NOTIFICATION with
      | None => (false, n, w)
      | Some p => let '(ok, _, n, w) := node_notify w n (announce_message o p) in (ok, n, w)
      end
    end.

  (** src/node.rs:191-193, the loop that gives the observers to the transport. *)
  Fixpoint manager_add_observers (m : manager) (l : list observer) : outcome manager :=
    match l with
    | [] => Ret m
    | o :: r => let! m := manager_add_observer m o in manager_add_observers m r
    end.

  (** src/node.rs:175-199, start. *)
  Definition node_start {O : OS} (w : world) (n : node) : outcome (bool * node * world) :=
    let! x := (if negb (manager_running (n_mgr n)) then manager_start w (n_mgr n)
               else Ret (true, n_mgr n, w)) in
    let '(ok, m, w) := x in
    let n := n_with_mgr n m in
    if negb ok then Ret (false, n, w)
    else
      let n := set_object_properties_byte n 0x80 0x30 in
      let n := set_object_properties_byte n 0x88 0x42 in
      let! m := manager_add_observers (n_mgr n) (n_observers n) in
      let n := n_with_mgr n m in
      let '(ok, n, w) := node_announce w n in
      if negb ok then Ret (false, n, w) else Ret (true, n, w).

  (** src/node.rs:201-212, stop. *)
  Definition node_stop (n : node) : outcome (bool * node) :=
    let n := set_object_properties_byte n 0x80 0x31 in
    let! x := manager_stop (n_mgr n) in
    Ret (fst x, n_with_mgr n (snd x)).

  (** src/node.rs:230-238, is_last_message_response. *)
  Definition is_last_message_response (n : node) (msg : message) : bool :=
    if esv_is_request (msg_esv msg) then false
    else if negb (msg_tid msg =? n_last_tid n) then false
    else true.

  (** src/node.rs:240-249, send_post_reopnse. *)
  Definition send_post_response (w : world) (n : node) (msg : message) : node * world :=
    let w := match n_post n with Some c => log w (EvDeliver c msg) | None => w end in
    (n_with_post n None, w).

  (** src/node.rs:320-344, the match over the service. *)
  Definition service_available (p : prop) (e : esv) : bool :=
    match e with
    | EWriteRequest | EWriteRequestResponseRequired =>
      if negb (prop_is_writable p) then false else true
    | EReadRequest | ENotificationRequest | ENotificationResponseRequired =>
      if negb (prop_is_readable p) then false else true
    | EWriteReadRequest =>
      if negb (prop_is_writable p) then false else if negb (prop_is_readable p) then false else true
    | _ => false
    end.
  (** src/node.rs:346-355, the match over the size. *)
  Definition size_fits (p : prop) (e : esv) (q : pprop) : bool :=
    match e with
    | EWriteRequest | EWriteRequestResponseRequired | EWriteReadRequest =>
      if (0 <? p_cap p) && (p_cap p <? N.of_nat (pp_size q)) then false else true
    | _ => true
    end.
  (** src/node.rs:307-358, is_valid_request_message. *)
  Fixpoint is_valid_request (o : object) (e : esv) (ps : list pprop) : bool :=
    match ps with
    | [] => true
    | q :: r =>
      match object_find_property o (pp_code q) with
      | None => false
      | Some p => if negb (service_available p e) then false
                  else if negb (size_fits p e q) then false
                  else is_valid_request o e r
      end
    end.

  (** src/node.rs:402-409, copying the data back from the copy. *)
  Definition copy_back (o : object) (ps : list prop) : object :=
    fold_left (fun o p => fst (object_set_property_data o (p_code p) (p_data p))) ps o.
  (** src/node.rs:421-428 and 431-438, writing the data of the request. *)
  Definition write_props (o : object) (ps : list pprop) : object :=
    fold_left (fun o q => fst (object_set_property_data o (pp_code q) (pp_data q))) ps o.

  (** src/node.rs:360-374, the validity check of a whole request. *)
  Definition request_valid (o : object) (req : message) : bool :=
    match msg_esv req with
    | EWriteReadRequest =>
      if negb (is_valid_request o EWriteRequest (m_set req)) then false
      else if negb (is_valid_request o EReadRequest (m_get req)) then false
      else true
    | e => if negb (is_valid_request o e (m_props req)) then false else true
    end.

  (** src/node.rs:419-441, the writes of an accepted request. *)
  Definition apply_writes (o : object) (req : message) : object :=
    match msg_esv req with
    | EWriteRequest | EWriteRequestResponseRequired => write_props o (m_props req)
    | EWriteReadRequest => write_props o (m_set req)
    | _ => o
    end.

  (** src/node.rs:276-446, Node::message_received. [seed] is the hash seed of the
      copied object. The repeated find_object_mut(dst_obj_code) find the same
      object, as its code does not change. *)
  Definition node_message_received {P : Profile} {HO : HashOrder} (seed : N) (u : U) (n : node) (req : message)
    : outcome (U * node * option message) :=
    if esv_is_response (msg_esv req) then Ret (u, n, None)
    else
      let code := msg_deoj req in
      match find_object (n_objects n) code with
      | None => Ret (u, n, None)
      | Some o =>
        if negb (esv_is_request (msg_esv req)) then Ret (u, n, None)
        else if negb (request_valid o req) then Ret (u, n, Some (response_error_message req))
        else
          let! copy := object_clone seed o in
          let! x := request_received (n_handlers n) u copy req in
          let '(u, copy, accepted) := x in
          if negb accepted then Ret (u, n, Some (response_error_message req))
          else
            let o := copy_back o (object_properties copy) in
            let o := apply_writes o req in
            let n := n_with_objects n (put_object (n_objects n) code o) in
            Ret (u, n, object_message_received o req)
      end.

  (** src/node.rs:449-471, Observer for Arc<Mutex<Node>>, when the lock was
      obtained. *)
  Definition node_observe {P : Profile} {HO : HashOrder} {O : OS} (w : world) (u : U) (n : node) (req : message)
    : outcome (U * node * world) :=
    let! x := (if is_last_message_response n req
               then let! m := msg_clone req in Ret (send_post_response w n m)
               else Ret (n, w)) in
    let '(n, w) := x in
    let! y := node_message_received (os_seed (w_calls w)) u n req in
    let w := tick w in
    let '(u, n, res) := y in
    match res with
    | None => Ret (u, n, w)
    | Some res =>
      if esv_is_response (msg_esv res) then
        if esv_is_unicast_response (msg_esv res) then
          let '(_, _, n, w) := node_send w n (fst (msg_from req), PORT) res in Ret (u, n, w)
        else
          let '(_, _, n, w) := node_notify w n res in Ret (u, n, w)
      else Ret (u, n, w)
    end.
End Node.
Arguments node U : clear implicits.
Arguments handler U : clear implicits.
