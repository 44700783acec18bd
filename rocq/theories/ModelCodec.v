(** Model of src/protocol/esv.rs, src/protocol/property.rs,
    src/protocol/message.rs, src/util/bytes.rs and src/util/oid.rs. *)
From Verif Require Import Base.

(* ------------------------------------------------------------------ *)
(** ** src/protocol/esv.rs *)

(** src/protocol/esv.rs:21-39, the enum in declaration order. *)
Inductive esv : Type :=
| EUnknown | EWriteRequest | EWriteRequestResponseRequired | EReadRequest
| ENotificationRequest | EWriteReadRequest | EWriteResponse | EReadResponse
| ENotification | ENotificationResponseRequired | ENotificationResponse
| EWriteReadResponse | EWriteRequestError | EWriteRequestResponseRequiredError
| EReadRequestError | ENotificationRequestError | EWriteReadRequestError.

(** src/protocol/esv.rs:21-39, discriminants; also ESV::to_u8 (51-53) and
    [esv as u8]. *)
Definition esv_to_u8 (e : esv) : N :=
  match e with
  | EUnknown => 0x00
  | EWriteRequest => 0x60
  | EWriteRequestResponseRequired => 0x61
  | EReadRequest => 0x62
  | ENotificationRequest => 0x63
  | EWriteReadRequest => 0x6E
  | EWriteResponse => 0x71
  | EReadResponse => 0x72
  | ENotification => 0x73
  | ENotificationResponseRequired => 0x74
  | ENotificationResponse => 0x7A
  | EWriteReadResponse => 0x7E
  | EWriteRequestError => 0x50
  | EWriteRequestResponseRequiredError => 0x51
  | EReadRequestError => 0x52
  | ENotificationRequestError => 0x53
  | EWriteReadRequestError => 0x5E
  end.

(** src/protocol/esv.rs:20, [EnumIter] order of ESV::iter(). *)
Definition esv_iter : list esv :=
  [EUnknown; EWriteRequest; EWriteRequestResponseRequired; EReadRequest;
   ENotificationRequest; EWriteReadRequest; EWriteResponse; EReadResponse;
   ENotification; ENotificationResponseRequired; ENotificationResponse;
   EWriteReadResponse; EWriteRequestError; EWriteRequestResponseRequiredError;
   EReadRequestError; ENotificationRequestError; EWriteReadRequestError].

(** src/protocol/esv.rs:42-49, ESV::from_u8. *)
Definition esv_from_u8 (x : N) : esv :=
  match find (fun e => x =? esv_to_u8 e) esv_iter with
  | Some e => e
  | None => EUnknown
  end.

(** src/protocol/esv.rs:55-65, ESV::is_request. *)
Definition esv_is_request (e : esv) : bool :=
  match e with
  | EWriteRequest | EWriteRequestResponseRequired | EReadRequest
  | ENotificationRequest | EWriteReadRequest | ENotificationResponseRequired => true
  | _ => false
  end.

(** src/protocol/esv.rs:67-81, ESV::is_response. *)
Definition esv_is_response (e : esv) : bool :=
  match e with
  | EWriteResponse | EReadResponse | ENotification | ENotificationResponse
  | EWriteReadResponse | EWriteRequestError | EWriteRequestResponseRequiredError
  | EReadRequestError | ENotificationRequestError | EWriteReadRequestError => true
  | _ => false
  end.

(** src/protocol/esv.rs:83-92, ESV::is_error_response. *)
Definition esv_is_error_response (e : esv) : bool :=
  match e with
  | EWriteRequestError | EWriteRequestResponseRequiredError | EReadRequestError
  | ENotificationRequestError | EWriteReadRequestError => true
  | _ => false
  end.

(** src/protocol/esv.rs:94-100, ESV::is_notification_response. *)
Definition esv_is_notification_response (e : esv) : bool :=
  match e with
  | ENotification | ENotificationResponse => true
  | _ => false
  end.

(** src/protocol/esv.rs:102-107, ESV::is_unicast_response. *)
Definition esv_is_unicast_response (e : esv) : bool :=
  if negb (esv_is_response e) then false
  else negb (esv_is_notification_response e).

(** src/protocol/esv.rs:20, derived PartialEq of ESV. *)
Definition esv_eqb (a b : esv) : bool := esv_to_u8 a =? esv_to_u8 b.

(* ------------------------------------------------------------------ *)
(** ** src/protocol/property.rs *)

(** src/protocol/property.rs:21-24, struct protocol::Property. *)
Record pprop : Type := PProp { pp_code : N; pp_data : list N }.

(** src/protocol/property.rs:27-32, Property::new. *)
Definition pprop_new : pprop := PProp 0 [].

(** src/protocol/property.rs:59-61, Property::size. *)
Definition pp_size (p : pprop) : nat := length (pp_data p).

(** src/protocol/property.rs:63-87, Property::parse. *)
Definition pprop_parse (self : pprop) (msg : list N) : outcome (bool * pprop) :=
  let msg_len := length msg in
  if Nat.ltb msg_len 2 then Ret (false, self)
  else
    let! code := idx msg 0 in
    let! sz := idx msg 1 in
    let data_size := N.to_nat sz in
    if Nat.eqb data_size 0 then Ret (true, PProp code [])
    else if Nat.ltb msg_len (2 + data_size) then Ret (false, PProp code [])
    else
      let! prop_data := slice_from msg 2 in
      let! data := idx_range prop_data 0 data_size in
      Ret (true, PProp code data).

(** src/protocol/property.rs:89-104, Property::equals. *)
Definition pprop_equals (a b : pprop) : bool :=
  if negb (pp_code a =? pp_code b) then false
  else if negb (Nat.eqb (pp_size a) (pp_size b)) then false
  else bytes_eqb (pp_data a) (pp_data b).

(* ------------------------------------------------------------------ *)
(** ** src/protocol/message.rs *)

(** std::net::IpAddr and SocketAddr as used by src/protocol/message.rs:75,
    202-209. Simplified: flow info and scope id of IPv6 addresses are left out. *)
Inductive ipaddr : Type := V4 (a : N) | V6 (a : N).
(** Equality of IpAddr (standard library), as used by
    src/transport/unicast_manager.rs:65-75. *)
Definition ipaddr_eqb (a b : ipaddr) : bool :=
  match a, b with
  | V4 x, V4 y => x =? y
  | V6 x, V6 y => x =? y
  | _, _ => false
  end.
(** std::net::SocketAddr, the type of the field from_addr (src/protocol/message.rs:75).
    *)
Definition sockaddr : Type := (ipaddr * N)%type.
(** Equality of SocketAddr (standard library), as used by src/remote_node.rs:104-110.
    *)
Definition sockaddr_eqb (a b : sockaddr) : bool :=
  ipaddr_eqb (fst a) (fst b) && (snd a =? snd b).

(** src/protocol/message.rs:66-76, struct Message. *)
Record message : Type := Msg {
  m_ehd : N * N;
  m_tid : N * N;
  m_seoj : N * N * N;
  m_deoj : N * N * N;
  m_esv : N;
  m_props : list pprop;
  m_set : list pprop;
  m_get : list pprop;
  m_from : sockaddr }.

(** src/protocol/message.rs:79-91, Message::new. *)
Definition msg_new : message :=
  Msg (0x10, 0x81) (0, 0) (0, 0, 0) (0, 0, 0) 0 [] [] [] (V4 0, 0).

(** Field assignments [self.f = v] used by the methods below. src/protocol/message.rs
    lines 236-245. *)
Definition with_ehd (m : message) v := Msg v (m_tid m) (m_seoj m) (m_deoj m) (m_esv m) (m_props m) (m_set m) (m_get m) (m_from m).
(** src/protocol/message.rs lines 99-103 and 236-245. *)
Definition with_tid (m : message) v := Msg (m_ehd m) v (m_seoj m) (m_deoj m) (m_esv m) (m_props m) (m_set m) (m_get m) (m_from m).
(** src/protocol/message.rs lines 120-125 and 247-298. *)
Definition with_seoj (m : message) v := Msg (m_ehd m) (m_tid m) v (m_deoj m) (m_esv m) (m_props m) (m_set m) (m_get m) (m_from m).
(** src/protocol/message.rs lines 131-136 and 247-298. *)
Definition with_deoj (m : message) v := Msg (m_ehd m) (m_tid m) (m_seoj m) v (m_esv m) (m_props m) (m_set m) (m_get m) (m_from m).
(** src/protocol/message.rs lines 142-145 and 247-298. *)
Definition with_esv (m : message) v := Msg (m_ehd m) (m_tid m) (m_seoj m) (m_deoj m) v (m_props m) (m_set m) (m_get m) (m_from m).
(** src/protocol/message.rs lines 163-166 and 247-298. *)
Definition with_props (m : message) v := Msg (m_ehd m) (m_tid m) (m_seoj m) (m_deoj m) (m_esv m) v (m_set m) (m_get m) (m_from m).
(** src/protocol/message.rs lines 168-171 and 247-298. *)
Definition with_set (m : message) v := Msg (m_ehd m) (m_tid m) (m_seoj m) (m_deoj m) (m_esv m) (m_props m) v (m_get m) (m_from m).
(** src/protocol/message.rs lines 173-176 and 247-298. *)
Definition with_get (m : message) v := Msg (m_ehd m) (m_tid m) (m_seoj m) (m_deoj m) (m_esv m) (m_props m) (m_set m) v (m_from m).
(** src/protocol/message.rs lines 202-205. *)
Definition with_from (m : message) v := Msg (m_ehd m) (m_tid m) (m_seoj m) (m_deoj m) (m_esv m) (m_props m) (m_set m) (m_get m) v.

(** src/protocol/message.rs:99-103, Message::set_tid (TID is u16, line 27). *)
Definition msg_set_tid (m : message) (tid : N) : message :=
  with_tid m (as_u8 (N.shiftr (N.land tid 0xFF00) 8), as_u8 (N.land tid 0x00FF)).

(** src/protocol/message.rs:112-114, Message::tid. *)
Definition msg_tid (m : message) : N :=
  N.shiftl (fst (m_tid m)) 8 + snd (m_tid m).

(** src/protocol/message.rs:105-110, Message::has_tid. *)
Definition msg_has_tid (m : message) : bool :=
  if msg_tid m =? 0 then false else true.

(** src/protocol/message.rs:116-118, to_object_code. *)
Definition to_object_code (e : N * N * N) : N :=
  let '(a, b, c) := e in N.shiftl a 16 + N.shiftl b 8 + c.

(** src/protocol/message.rs:120-125 and 131-136, the code split shared by
    set_seoj and set_deoj. *)
Definition split_object_code (code : N) : N * N * N :=
  (as_u8 (N.shiftr (N.land code 0xFF0000) 16),
   as_u8 (N.shiftr (N.land code 0xFF00) 8),
   as_u8 (N.land code 0x00FF)).

(** src/protocol/message.rs:120-140, set_seoj, seoj, set_deoj, deoj. *)
Definition msg_set_seoj (m : message) (code : N) : message := with_seoj m (split_object_code code).
(** src/protocol/message.rs:127-129, seoj. *)
Definition msg_seoj (m : message) : N := to_object_code (m_seoj m).
(** src/protocol/message.rs:131-136, set_deoj. *)
Definition msg_set_deoj (m : message) (code : N) : message := with_deoj m (split_object_code code).
(** src/protocol/message.rs:138-140, deoj. *)
Definition msg_deoj (m : message) : N := to_object_code (m_deoj m).

(** src/protocol/message.rs:142-149, set_esv, esv. *)
Definition msg_set_esv (m : message) (e : esv) : message := with_esv m (esv_to_u8 e).
(** src/protocol/message.rs:147-149, esv. *)
Definition msg_esv (m : message) : esv := esv_from_u8 (m_esv m).

(** src/protocol/message.rs:151-161, opc, opc_set, opc_get. *)
Definition msg_opc (m : message) : nat := length (m_props m).
(** src/protocol/message.rs:155-157, opc_set. *)
Definition msg_opc_set (m : message) : nat := length (m_set m).
(** src/protocol/message.rs:159-161, opc_get. *)
Definition msg_opc_get (m : message) : nat := length (m_get m).

(** src/protocol/message.rs:163-176, add_property, add_property_set,
    add_property_get. *)
Definition msg_add_property (m : message) (p : pprop) : message := with_props m (m_props m ++ [p]).
(** src/protocol/message.rs:168-171, add_property_set. *)
Definition msg_add_property_set (m : message) (p : pprop) : message := with_set m (m_set m ++ [p]).
(** src/protocol/message.rs:173-176, add_property_get. *)
Definition msg_add_property_get (m : message) (p : pprop) : message := with_get m (m_get m ++ [p]).

(** src/protocol/message.rs:190-200, property(n), property_set(n),
    property_get(n). *)
Definition msg_property (m : message) (n : nat) : outcome pprop := idx (m_props m) n.
(** src/protocol/message.rs:194-196, property_set. *)
Definition msg_property_set (m : message) (n : nat) : outcome pprop := idx (m_set m) n.
(** src/protocol/message.rs:198-200, property_get. *)
Definition msg_property_get (m : message) (n : nat) : outcome pprop := idx (m_get m) n.

(** src/protocol/message.rs:202-209, set_from, from. *)
Definition msg_set_from (m : message) (a : sockaddr) : message := with_from m a.
(** src/protocol/message.rs:207-209, from. *)
Definition msg_from (m : message) : sockaddr := m_from m.

(** src/protocol/message.rs:211-217, is_format1. *)
Definition msg_is_format1 (m : message) : bool :=
  if negb (fst (m_ehd m) =? 0x10) || negb (snd (m_ehd m) =? 0x81) then false else true.

(** src/protocol/message.rs:236-245, parse_header. *)
Definition msg_parse_header (m : message) (header : list N) : outcome (bool * message) :=
  if Nat.leb (length header) 4 then Ret (false, m)
  else
    let! h0 := idx header 0 in
    let! h1 := idx header 1 in
    let! h2 := idx header 2 in
    let! h3 := idx header 3 in
    Ret (true, with_tid (with_ehd m (h0, h1)) (h2, h3)).

(** src/protocol/message.rs:263-271, the loop of parse_property_bytes. The
    result is the returned flag, the property vector and the offset. *)
Fixpoint parse_props_loop (n : nat) (props : list pprop) (msg : list N) (off : nat)
  : outcome (bool * list pprop * nat) :=
  match n with
  | O => Ret (true, props, off)
  | S n' =>
    let! prop_msg := slice_from msg off in
    let! r := pprop_parse pprop_new prop_msg in
    let '(ok, prop) := r in
    if negb ok then Ret (false, props, off)
    else parse_props_loop n' (props ++ [prop]) msg (off + (2 + pp_size prop))
  end.

(** src/protocol/message.rs:256-274, parse_property_bytes. *)
Definition parse_property_bytes (props : list pprop) (msg : list N) (off : nat)
  : outcome (bool * list pprop * nat) :=
  let! opc := idx msg off in
  parse_props_loop (N.to_nat opc) props msg (off + 1).

(** src/protocol/message.rs:247-298, parse_format1_data. *)
Definition msg_parse_format1_data (m : message) (msg : list N) : outcome (bool * message) :=
  if Nat.ltb (length msg) 8 then Ret (false, m)
  else
    let! b0 := idx msg 0 in
    let! b1 := idx msg 1 in
    let! b2 := idx msg 2 in
    let! b3 := idx msg 3 in
    let! b4 := idx msg 4 in
    let! b5 := idx msg 5 in
    let! b6 := idx msg 6 in
    let m1 := with_esv (with_deoj (with_seoj m (b0, b1, b2)) (b3, b4, b5)) b6 in
    let! prop_msg := slice_from msg 7 in
    match msg_esv m1 with
    | EWriteReadRequest | EWriteReadResponse | EWriteReadRequestError =>
      let! r := parse_property_bytes (m_set m1) prop_msg 0 in
      let '(ok, ps, off) := r in
      let m2 := with_set m1 ps in
      if negb ok then Ret (false, m2)
      else
        let! r2 := parse_property_bytes (m_get m2) prop_msg off in
        let '(ok2, gs, _) := r2 in
        let m3 := with_get m2 gs in
        if negb ok2 then Ret (false, m3) else Ret (true, m3)
    | _ =>
      let! r := parse_property_bytes (m_props m1) prop_msg 0 in
      let '(ok, ps, _) := r in
      let m2 := with_props m1 ps in
      if negb ok then Ret (false, m2) else Ret (true, m2)
    end.

(** src/protocol/message.rs:219-234, Message::parse. *)
Definition msg_parse (m : message) (msg : list N) : outcome (bool * message) :=
  let! r := msg_parse_header m msg in
  let '(ok, m1) := r in
  if negb ok then Ret (false, m1)
  else if negb (msg_is_format1 m1) then Ret (false, m1)
  else
    let! format1_msg := slice_from msg 4 in
    let! r2 := msg_parse_format1_data m1 format1_msg in
    let '(ok2, m2) := r2 in
    if negb ok2 then Ret (false, m2) else Ret (true, m2).

(** src/protocol/message.rs:93-97, Message::from_bytes; the flag returned by
    parse is dropped. *)
Definition msg_from_bytes (b : list N) : outcome message :=
  let! r := msg_parse msg_new b in
  let '(_, m) := r in Ret m.

(** src/protocol/message.rs:317-323, the property loop of equals. *)
Fixpoint props_equals (a b : list pprop) : bool :=
  match a, b with
  | [], [] => true
  | x :: a', y :: b' => if negb (pprop_equals x y) then false else props_equals a' b'
  | _, _ => false
  end.

(** src/protocol/message.rs:300-326, Message::equals. Simplified: the indexed
    loop over two vectors of equal length (checked by line 313) is a
    simultaneous recursion. *)
Definition msg_equals (a b : message) : bool :=
  if negb (msg_tid a =? msg_tid b) then false
  else if negb (msg_seoj a =? msg_seoj b) then false
  else if negb (msg_deoj a =? msg_deoj b) then false
  else if negb (esv_eqb (msg_esv a) (msg_esv b)) then false
  else if negb (Nat.eqb (msg_opc a) (msg_opc b)) then false
  else props_equals (m_props a) (m_props b).

(** src/protocol/message.rs:328-339, add_property_bytes: the octets appended. *)
Definition property_bytes (p : pprop) : list N :=
  pp_code p :: as_u8 (N.of_nat (pp_size p)) :: pp_data p.
(** src/protocol/message.rs:328-339, add_property_bytes: the count and the properties.
    *)
Definition props_bytes (ps : list pprop) : list N :=
  len_u8 ps :: flat_map property_bytes ps.

(** src/protocol/message.rs:341-366, Message::bytes. *)
Definition msg_bytes (m : message) : list N :=
  let '(e0, e1) := m_ehd m in
  let '(t0, t1) := m_tid m in
  let '(s0, s1, s2) := m_seoj m in
  let '(d0, d1, d2) := m_deoj m in
  [e0; e1; t0; t1; s0; s1; s2; d0; d1; d2; m_esv m] ++
  match msg_esv m with
  | EWriteReadRequest | EWriteReadResponse => props_bytes (m_set m) ++ props_bytes (m_get m)
  | _ => props_bytes (m_props m)
  end.

(** src/protocol/message.rs:369-375, Clone for Message. *)
Definition msg_clone (m : message) : outcome message :=
  let! r := msg_parse msg_new (msg_bytes m) in
  let '(_, m') := r in Ret m'.

(* ------------------------------------------------------------------ *)
(** ** src/util/bytes.rs *)

(** src/util/bytes.rs:19-25, Bytes::from_u32 on a zeroed or existing buffer of
    [n] octets: octet [idx] gets [(val >> ((n-1-idx)*8)) & 0xFF]. Written from
    the last octet to the first one like the loop. *)
Fixpoint bytes_from_u32_loop {P : Profile} (val : N) (k : nat) : outcome (list N) :=
  match k with
  | O => Ret []
  | S k' =>
    (* loop iterations 0 .. k'-1 fill the tail, iteration k' the octet before *)
    let! tl := bytes_from_u32_loop val k' in
    let! v := shr_w 32 val (N.of_nat k' * 8) in
    Ret (as_u8 (N.land v 0xFF) :: tl)
  end.
(** src/util/bytes.rs:19-25, Bytes::from_u32. *)
Definition bytes_from_u32 {P : Profile} (val : N) (size : nat) : outcome (list N) :=
  bytes_from_u32_loop val size.

(** src/util/bytes.rs:26-34, Bytes::to_u32: [n] counts octets from the end of
    the buffer; [rev bytes] lists them in that order. *)
Fixpoint bytes_to_u32_loop {P : Profile} (rbytes : list N) (n : N) (val : N) : outcome N :=
  match rbytes with
  | [] => Ret val
  | b :: r =>
    let! s := shl_w 32 b (n * 8) in
    let! v := add_w 32 val s in
    bytes_to_u32_loop r (n + 1) v
  end.
(** src/util/bytes.rs:26-34, Bytes::to_u32. *)
Definition bytes_to_u32 {P : Profile} (bytes : list N) : outcome N :=
  bytes_to_u32_loop (rev bytes) 0 0.

(* ------------------------------------------------------------------ *)
(** ** src/util/oid.rs *)

(** src/util/oid.rs:26-47, OID::new with feature "std"; [uuid] stands for the 16
    octets of Uuid::new_v4(). *)
Definition oid_new {P : Profile} (code : N) (uuid : list N) : outcome (list N) :=
  let! man := bytes_from_u32 code 3 in
  let! tail := idx_range (rev uuid) 0 13 in
  Ret (0xFE :: man ++ tail).
