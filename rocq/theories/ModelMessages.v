(** Model of src/message.rs: the messages built by nodes and controllers. *)
From Verif Require Import Base ModelCodec.

(** src/node_profile.rs:20-21 and 31-37. *)
Definition NODE_PROFILE_OBJECT_CODE : N := 0x0EF001.
(** src/node_profile.rs:21. *)
Definition NODE_PROFILE_OBJECT_READ_ONLY : N := 0x0EF002.
(** src/node_profile.rs:31-37. *)
Definition NP_NUMBER_OF_INSTANCES : N := 0xD3.
(** src/node_profile.rs:31-37. *)
Definition NP_NUMBER_OF_CLASSES : N := 0xD4.
(** src/node_profile.rs:31-37. *)
Definition NP_INSTANCE_LIST_NOTIFICATION : N := 0xD5.
(** src/node_profile.rs:31-37. *)
Definition NP_INSTANCE_LIST_S : N := 0xD6.
(** src/node_profile.rs:31-37. *)
Definition NP_CLASS_LIST_S : N := 0xD7.

(** src/message.rs:25-37, SearchMessage::from_object_code. *)
Definition search_message_from (code : N) : message :=
  let msg := msg_new in
  let msg := msg_set_esv msg EReadRequest in
  let msg := msg_set_seoj msg NODE_PROFILE_OBJECT_CODE in
  let msg := msg_set_deoj msg code in
  msg_add_property msg (PProp NP_INSTANCE_LIST_S []).

(** src/message.rs:39-41, SearchMessage::new. *)
Definition search_message : message := search_message_from NODE_PROFILE_OBJECT_CODE.

(** src/message.rs:49-77, the service of the error response. *)
Definition error_esv (e : esv) : esv :=
  match e with
  | EWriteRequest => EWriteRequestError
  | EWriteRequestResponseRequired => EWriteRequestResponseRequiredError
  | EReadRequest => EReadRequestError
  | EWriteReadRequest => EWriteReadRequestError
  | ENotificationRequest => ENotificationRequestError
  | ENotificationResponseRequired => ENotificationRequestError
  | _ => EUnknown
  end.

(** src/message.rs:47-98, ResponseErrorMessage::from. For write-read requests
    both loops run over the set properties (lines 84-89). *)
Definition response_error_message (req : message) : message :=
  let msg := msg_set_esv msg_new (error_esv (msg_esv req)) in
  let msg := msg_set_tid msg (msg_tid req) in
  let msg := msg_set_seoj msg (msg_deoj req) in
  let msg := msg_set_deoj msg (msg_seoj req) in
  match msg_esv msg with
  | EWriteReadRequestError =>
    let msg := fold_left msg_add_property (m_set req) msg in
    fold_left msg_add_property (m_set req) msg
  | _ => fold_left msg_add_property (m_props req) msg
  end.

(** src/message.rs:107-131, the service of the response. *)
Definition response_esv (e : esv) : esv :=
  match e with
  | EWriteRequestResponseRequired => EWriteResponse
  | EReadRequest => EReadResponse
  | EWriteReadRequest => EWriteReadResponse
  | ENotificationRequest => ENotification
  | ENotificationResponseRequired => ENotificationResponse
  | _ => EUnknown
  end.

(** src/message.rs:104-135, ResponseMessage::from. *)
Definition response_message (req : message) : message :=
  let msg := msg_set_tid msg_new (msg_tid req) in
  let msg := msg_set_esv msg (response_esv (msg_esv req)) in
  let msg := msg_set_seoj msg (msg_deoj req) in
  msg_set_deoj msg (msg_seoj req).

(** src/message.rs:171-178: the loop [for idx in (1..len).step_by(3)] over the
    octets after the count; a rest of fewer than three octets is skipped. *)
Fixpoint instance_codes {P : Profile} (data : list N) : outcome (list N) :=
  match data with
  | a :: b :: c :: r =>
    let! code := bytes_to_u32 [a; b; c] in
    let! l := instance_codes r in
    Ret (code :: l)
  | _ => Ret []
  end.

(** src/message.rs:155-182, NodeProfileMessage::parse: the object codes found
    in all instance list properties (0xD6). The method always returns true. *)
Fixpoint node_profile_codes {P : Profile} (props : list pprop) : outcome (list N) :=
  match props with
  | [] => Ret []
  | p :: r =>
    if negb (pp_code p =? NP_INSTANCE_LIST_S) then node_profile_codes r
    else match pp_data p with
         | [] => node_profile_codes r
         | n :: data =>
           if Nat.ltb (S (length data)) (N.to_nat n * 3 + 1) then node_profile_codes r
           else let! l := instance_codes data in
                let! l' := node_profile_codes r in
                Ret (l ++ l')
         end
  end.

(** src/message.rs:185-195, Message::is_node_profile_message. *)
Definition is_node_profile_message (m : message) : bool :=
  if negb (esv_eqb (msg_esv m) ENotification) && negb (esv_eqb (msg_esv m) EReadResponse) then false
  else if negb (msg_deoj m =? NODE_PROFILE_OBJECT_CODE) && negb (msg_deoj m =? NODE_PROFILE_OBJECT_READ_ONLY) then false
  else true.
