(** Vocabulary for C77: an application that uses a device of another process
    through a controller. *)
From Verif Require Import Base HMap ModelCodec ModelMessages ModelObject ModelTransport ModelNode ModelController
  SpecWire SpecObject SpecNode.

(** Requests of the application, and the message it builds for them. *)
Inductive request : Type :=
| Write (ps : list wprop)      (* codes and data *)
| Read (cs : list N).          (* codes *)
Definition message_of (code : N) (r : request) : message :=
  match r with
  | Write ps => fold_left msg_add_property (map (fun x => PProp (fst x) (snd x)) ps)
                  (msg_set_esv (msg_set_deoj msg_new code) EWriteRequestResponseRequired)
  | Read cs => fold_left msg_add_property (map (fun c => PProp c []) cs)
                  (msg_set_esv (msg_set_deoj msg_new code) EReadRequest)
  end.

(** The specification: a map from codes to data. *)
Definition store : Type := N -> list N.
Definition put (st : store) (x : wprop) : store := fun c => if c =? fst x then snd x else st c.
Definition store_step (st : store) (r : request) : store :=
  match r with Write ps => fold_left put ps st | Read _ => st end.
Definition store_answer (st : store) (r : request) : N * list wprop :=
  match r with
  | Write ps => (0x71, map (fun x => (fst x, [])) ps)
  | Read cs => (0x72, map (fun c => (c, st c)) cs)
  end.
Fixpoint store_answers (st : store) (rs : list request) : list (N * list wprop) :=
  match rs with
  | [] => []
  | r :: l => store_answer st r :: store_answers (store_step st r) l
  end.

(** A frame with these properties is representable and fits into one receive
    buffer. *)
Definition fits (ps : list wprop) : Prop := wprops_ok ps /\ (length (wire_props ps) <= 1013)%nat.
(** The properties are used as the object allows, and are not the property maps. *)
Definition usable (o : object) (r : request) : Prop :=
  match r with
  | Write ps => Forall (fun x => may_write o (PProp (fst x) (snd x)) /\ ~ In (fst x) [0x9D; 0x9E; 0x9F]) ps /\ fits ps
  | Read cs => Forall (fun c => can_read o c /\ ~ In c [0x9D; 0x9E; 0x9F]) cs /\ fits (map (fun c => (c, [])) cs)
  end.
Fixpoint all_fit (st : store) (rs : list request) : Prop :=
  match rs with
  | [] => True
  | r :: l => fits (snd (store_answer st r)) /\ all_fit (store_step st r) l
  end.

(** Two processes and a network that loses nothing. *)
Section S.
  Context {V U : Type} {P : Profile} {HO : HashOrder} (Oc Od : OS).

  (** A receive thread gets the datagrams [ds] from the address [from]. *)
  Fixpoint take {W : Type} (O : OS) (from : sockaddr) (u : W) (n : node W) (w : world) (ds : list (list N)) : outcome (W * node W * world) :=
    match ds with
    | [] => Ret (u, n, w)
    | d :: r =>
      match msg_parse msg_new (firstn MAX_PACKET_SIZE d) with
      | Ret (true, m) => let! x := node_observe w u n (msg_set_from m from) in
                         let '(u, n, w) := x in take O from u n w r
      | Ret (false, _) => take O from u n w r
      | Panic => Panic
      end
    end.
  (** What a node sent to the port 3610 of [ip], and what came out of the channel
      [c]. *)
  Definition new_events (w w' : world) : list event := skipn (length (w_trace w)) (w_trace w').
  Definition sent_to (ip : ipaddr) (w w' : world) : list (list N) :=
    map snd (filter (fun x => ipaddr_eqb (fst (fst x)) ip && (snd (fst x) =? 3610)) (sent (new_events w w'))).
  Definition came_out (c : N) (w w' : world) : list message :=
    map snd (filter (fun x => fst x =? c) (deliveries (new_events w w'))).

  Definition session : Type := (V * node V * world) * (U * node U * world).
  (** The application posts the request to the device [code] of the node [r] with
      a controller whose address is [ac]; the result is what the receiver of post
      yields. *)
  Definition exchange (ac : sockaddr) (r : remote_node) (code : N) (s : session) (q : request) : outcome (session * list message) :=
    let '((uc, nc, wc), (ud, nd, wd)) := s in
    let '(c, _, nc1, wc1) := controller_post (O := Oc) wc nc r (message_of code q) in
    let! x := take Od ac ud nd wd (sent_to (fst (rn_addr r)) wc wc1) in
    let '(ud, nd, wd1) := x in
    let! y := take Oc (rn_addr r) uc nc1 wc1 (sent_to (fst ac) wd wd1) in
    let '(uc, nc, wc2) := y in
    Ret ((uc, nc, wc2), (ud, nd, wd1), came_out c wc1 wc2).
  Fixpoint exchanges (ac : sockaddr) (r : remote_node) (code : N) (s : session) (qs : list request) : outcome (session * list (list message)) :=
    match qs with
    | [] => Ret (s, [])
    | q :: l => let! x := exchange ac r code s q in
                let! y := exchanges ac r code (fst x) l in
                Ret (fst y, snd x :: snd y)
    end.
End S.

(** What the application sees of a response. *)
Definition seen_as (m : message) : N * list wprop := (m_esv m, map to_wprop (m_props m)).

(** A handler that accepts everything. *)
Definition accepts_all {U} (h : handler U) : Prop :=
  forall u o e p u' o' b, call_handler h u o e p = Ret (u', o', b) -> b = true.
Definition can_send {U} (n : node U) : Prop := exists s, In s (mg_ucast (n_mgr n)) /\ sk_sock (sv_socket s) <> None.
