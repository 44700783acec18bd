(** One device which several threads and the network use: what its properties
    hold, which calls and messages are under way, what was sent. No objects, no
    mutexes: a call, and the reaction to a message, is one step that reads and
    writes the properties. *)
From Verif Require Import Base HMap ModelCodec ModelMessages ModelObject ModelTransport ModelNode ModelController ModelDevice ModelThreads
  SpecWire SpecObject SpecNode.

(** The data of the properties, by code; the property maps are left out. *)
Definition values : Type := N -> option (list N).
Definition stored (c : N) : Prop := ~ map_code c.
Definition write1 (c : N) (x : list N) (s : values) : values :=
  fun c' => if c' =? c then match s c with Some _ => Some x | None => None end else s c'.
Fixpoint writes (ps : list pprop) (s : values) : values :=
  match ps with [] => s | q :: r => writes r (write1 (pp_code q) (pp_data q) s) end.
Definition value (h : option values) (c : N) : option (list N) := match h with Some s => s c | None => None end.

(** A datagram; its TID and its source object on the wire. *)
Definition datagram : Type := sockaddr * list N.
Definition tid_of (data : list N) : N := nth 2 data 0 * 256 + nth 3 data 0.
Definition source_of (data : list N) : N := nth 4 data 0 * 65536 + nth 5 data 0 * 256 + nth 6 data 0.
(** The datagram answers the request [m] with service [e] and these properties. *)
Definition says (m : message) (e : N) (ps ss gs : list pprop) (data : list N) : Prop :=
  exists r, data = msg_bytes r /\ m_esv r = e /\ msg_seoj r = msg_deoj m /\ msg_deoj r = msg_seoj m /\
    m_props r = ps /\ m_set r = ss /\ m_get r = gs /\ (msg_tid m <> 0 -> msg_tid r = msg_tid m).
(** The answer [a] to the question [q] is what the properties hold. *)
Definition tells (s : values) (q a : pprop) : Prop :=
  pp_code a = pp_code q /\ (map_code (pp_code q) \/ s (pp_code q) = Some (pp_data a)).
Definition acknowledges (q a : pprop) : Prop := a = PProp (pp_code q) [].
(** The datagram is the answer to the request [m], carried out, after which the
    properties hold [s]. *)
Definition carried (s : values) (m : message) (x : datagram) : Prop :=
  exists e ps ss gs, success_service (m_esv m) = Some e /\ says m e ps ss gs (snd x) /\
    fst x = (if (e =? 0x73) || (e =? 0x7A) then group else (fst (msg_from m), 3610)) /\
    (m_esv m = 0x61 \/ m_esv m = 0x74 -> Forall2 acknowledges (m_props m) ps /\ ss = [] /\ gs = []) /\
    (m_esv m = 0x62 \/ m_esv m = 0x63 -> Forall2 (tells s) (m_props m) ps /\ ss = [] /\ gs = []) /\
    (m_esv m = 0x6E -> ps = [] /\ Forall2 acknowledges (m_set m) ss /\ Forall2 (tells s) (m_get m) gs).

Section S.
  Context {U : Type} (n : nat) (oc : N).

  Definition data_in (o : object) : values := fun c => if (c =? 0x9D) || (c =? 0x9E) || (c =? 0x9F) then None else option_map p_data (object_find_property o c).

  (** The service of the datagrams which a call sends through the node. *)
  Definition sends (c : call U) : option N :=
    match c with
    | CSend n' _ m | CPost n' _ m | CNotify n' m | CCtrlSend _ n' _ m | CCtrlPost _ n' _ m => if Nat.eqb n' n then Some (m_esv m) else None
    | CAnnounce n' | CStart _ n' => if Nat.eqb n' n then Some 0x73 else None
    | CSearch _ n' _ => if Nat.eqb n' n then Some 0x62 else None
    | _ => None
    end.
  (** Calls that are about the device. *)
  Definition concerns (c : call U) : Prop :=
    match c with
    | CSetProperty _ n' oc' c _ | CProperty _ n' oc' c => n' = n /\ oc' = oc /\ stored c
    | CDeviceObject _ n' o | CAddObject n' o => n' = n /\ object_code o = oc
    | CStart _ n' | CStop _ n' => n' = n
    | _ => False
    end.

  (** What a call does to the device, its answer, and what is sent. *)
  Inductive does (h : option values) : call U -> option values -> answer -> list datagram -> Prop :=
  | do_set d c x : stored c -> does h (CSetProperty d n oc c x) (option_map (write1 c x) h) (VBool (match value h c with Some _ => true | None => false end)) []
  | do_get d c : stored c -> does h (CProperty d n oc c) h (VData (value h c)) []
  | do_device d o : object_code o = oc -> does h (CDeviceObject d n o) (match h with Some s => Some s | None => Some (data_in o) end) (VBool true) []
  | do_add o : object_code o = oc -> does h (CAddObject n o) (match h with Some s => Some s | None => Some (data_in o) end) (VBool true) []
  | do_start d b l : Forall (fun x => service_of (snd x) = 0x73) l ->
      does h (CStart d n) (option_map (fun s => write1 0x88 [0x42] (write1 0x80 [0x30] s)) h) (VBool b) l
  | do_start_failed d : does h (CStart d n) h (VBool false) []
  | do_stop d b : does h (CStop d n) (option_map (write1 0x80 [0x31]) h) (VBool b) []
  | do_send c e v l : ~ concerns c -> sends c = Some e -> Forall (fun x => service_of (snd x) = e) l -> does h c h v l
  | do_other c v : ~ concerns c -> does h c h v [].

  (** What a message does to the device when it is handled. *)
  Inductive reacts (h : option values) (m : message) : option values -> list datagram -> Prop :=
  | re_other l : msg_deoj m <> oc -> Forall (fun x => exists e ps ss gs, says m e ps ss gs (snd x)) l -> reacts h m h l
  | re_ignored : reacts h m h []
  | re_refused e l : msg_deoj m = oc -> failure_service (m_esv m) = Some e -> Forall (fun x => exists ps, says m e ps [] [] (snd x)) l -> reacts h m h l
  | re_done s l : msg_deoj m = oc -> h = Some s ->
      Forall (fun q => stored (pp_code q) -> s (pp_code q) <> None) (writes_of m ++ reads_of m) ->
      Forall (carried (writes (writes_of m) s) m) l -> reacts h m (Some (writes (writes_of m) s)) l.

  (** What a thread is doing: nothing; a call which has not, or which has taken
      effect; it has received a message (the last one). *)
  Inductive activity : Type := Free | Calls (c : call U) | Returns (c : call U) (v : answer) | Has (m : message).
  Record shared : Type := Shared { contents : option values; doing : nat -> activity; wires : list datagram; past : list (event U) }.
  Definition now (f : nat -> activity) (t : nat) (x : activity) : nat -> activity := fun t' => if Nat.eqb t' t then x else f t'.

  Inductive sstep (d : shared) : shared -> Prop :=
  | s_call t c : doing d t = Free -> sstep d (Shared (contents d) (now (doing d) t (Calls c)) (wires d) (past d ++ [ECall t c]))
  | s_does t c h v l : doing d t = Calls c -> does (contents d) c h v l -> sstep d (Shared h (now (doing d) t (Returns c v)) (wires d ++ l) (past d))
  | s_return t c v : doing d t = Returns c v -> sstep d (Shared (contents d) (now (doing d) t Free) (wires d) (past d ++ [EReturn t c v]))
  | s_gets t m : (doing d t = Free \/ exists m', doing d t = Has m') ->
      sstep d (Shared (contents d) (now (doing d) t (Has m)) (wires d) (past d ++ [EGot t m]))
  | s_reacts t m h l : doing d t = Has m -> reacts (contents d) m h l -> sstep d (Shared h (doing d) (wires d ++ l) (past d)).
  Inductive ssteps : shared -> shared -> Prop :=
  | ss_refl d : ssteps d d
  | ss_step d d' d'' : ssteps d d' -> sstep d' d'' -> ssteps d d''.

  (** The device on the node, and what the node has sent. *)
  Definition view (x : nstate U) : option values := option_map data_in (find_object (n_objects (snd (fst x))) oc).
  Definition shows (h : option values) (x : nstate U) : Prop :=
    match h, find_object (n_objects (snd (fst x))) oc with
    | Some s, Some o => forall c, s c = data_in o c
    | None, None => True
    | _, _ => False
    end.
  Definition line (x : nstate U) : list datagram := offered (w_trace (snd x)).
  Definition fresh (x : nstate U) : shared := Shared (view x) (fun _ => Free) (line x) [].

  (** The handlers which the application registers leave the objects alone. *)
  Definition tame (c : call U) : Prop :=
    match c with CSetHandler _ n' g | CAddHandler n' g => n' = n -> hands_off (HUser g) | _ => True end.
  Definition tame_calls (h : list (event U)) : Prop := forall t c, In (ECall t c) h -> tame c.

  (** ** Events that write *)

  Definition who (e : event U) : nat := match e with ECall t _ | EReturn t _ _ | EGot t _ => t end.
  (** The event may change what the property [c] holds. *)
  Definition changes (c : N) (e : event U) : Prop :=
    match e with
    | ECall _ (CSetProperty _ n' oc' c' _) => n' = n /\ oc' = oc /\ c' = c
    | ECall _ (CStart _ n') => n' = n /\ (c = 0x80 \/ c = 0x88)
    | ECall _ (CStop _ n') => n' = n /\ c = 0x80
    | EGot _ m => msg_deoj m = oc /\ In c (map pp_code (writes_of m))
    | _ => False
    end.
  (** Such events are over: the call has returned, or the receive thread has got
      another message. *)
  Definition settled (c : N) (h : list (event U)) : Prop :=
    forall h1 e h2, h = h1 ++ e :: h2 -> changes c e -> exists e', In e' h2 /\ who e' = who e.
  (** The event writes [y] into the property [c]. *)
  Definition origin (c : N) (y : list N) (e : event U) : Prop :=
    match e with
    | ECall _ (CSetProperty _ n' oc' c' y') => n' = n /\ oc' = oc /\ c' = c /\ y' = y
    | ECall _ (CStart _ n') => n' = n /\ (c = 0x80 /\ y = [0x30] \/ c = 0x88 /\ y = [0x42])
    | ECall _ (CStop _ n') => n' = n /\ c = 0x80 /\ y = [0x31]
    | ECall _ (CDeviceObject _ n' o) | ECall _ (CAddObject n' o) => n' = n /\ object_code o = oc /\ data_in o c = Some y
    | EGot _ m => msg_deoj m = oc /\ In (PProp c y) (writes_of m)
    | _ => False
    end.
End S.
Arguments activity U : clear implicits.
Arguments shared U : clear implicits.
