(** Vocabulary for what one thread of the application does. *)
From Verif Require Import Base HMap ModelCodec ModelMessages ModelObject ModelTransport ModelNode ModelController ModelDevice ModelThreads.

Section S.
  Context {U : Type}.

  (** The events of the thread [t]. *)
  Definition who (e : event U) : nat := match e with ECall t _ | EReturn t _ _ | EGot t _ => t end.
  Definition events_of (t : nat) (h : list (event U)) : list (event U) := filter (fun e => Nat.eqb (who e) t) h.

  (** The events [h] of thread [t] are calls of the program [x] which have returned,
      one after another; what remains is [y]. *)
  Inductive calls_made (t : nat) : client U -> list (event U) -> client U -> Prop :=
  | cm_none x : calls_made t x [] x
  | cm_call c k v h y : calls_made t (k v) h y -> calls_made t (Call c k) (ECall t c :: EReturn t c v :: h) y.

  (** The message [m] as a controller posts it: from the node profile, to the same
      object, with the same service and properties. *)
  Definition passed (m m' : message) : Prop :=
    msg_seoj m' = 0x0EF001 /\ msg_deoj m' = msg_deoj m /\ m_esv m' = m_esv m /\ m_props m' = m_props m.
  (** The kind of answer that a call returns. *)
  Definition kind_of_answer (c : call U) (v : answer) : Prop :=
    match c with
    | CPost _ _ _ => exists ch m, v = VPosted ch m
    | CCtrlPost _ _ _ m => exists ch m', v = VPosted ch m' /\ passed m m'
    | CSend _ _ _ | CNotify _ _ | CCtrlSend _ _ _ _ => exists ok m, v = VSent ok m
    | CProperty _ _ _ _ => exists d, v = VData d
    | CNodes _ => exists l, v = VNodes l
    | CWait _ _ => exists m, v = VGot m
    | _ => exists b, v = VBool b
    end.

  (** Requests posted through a controller, with the receivers and the messages
      that came back; what receivers gave; lists of nodes; how often stop was
      called. *)
  Fixpoint requests (h : list (event U)) : list (remote_node * message) :=
    match h with [] => [] | ECall _ (CCtrlPost _ _ r m) :: l => (r, m) :: requests l | _ :: l => requests l end.
  Fixpoint answers (h : list (event U)) : list (option message) :=
    match h with [] => [] | EReturn _ _ (VGot m) :: l => m :: answers l | _ :: l => answers l end.
  Fixpoint lists (h : list (event U)) : list (list remote_node) :=
    match h with [] => [] | EReturn _ _ (VNodes l) :: r => l :: lists r | _ :: r => lists r end.
  Fixpoint stops (h : list (event U)) : nat :=
    match h with [] => 0 | EReturn _ (CStop _ _) _ :: l => S (stops l) | _ :: l => stops l end.
End S.

(** A message posted to a node, as it was given and as it was sent, and what its
    receiver gave out. *)
Record exchange : Type := Exchange { x_to : remote_node; x_asked : message; x_sent : message; x_got : option message }.

Section T.
  Context {U : Type} (t c n : nat).

  (** The thread posts through the controller [c] of the node [n], waits on the
      receiver of that post, posts the next message, and so on. *)
  Inductive conversation : list exchange -> list (event U) -> Prop :=
  | co_nil : conversation [] []
  | co_next r m ch m' a l h : conversation l h ->
      conversation (Exchange r m m' a :: l)
        (ECall t (CCtrlPost c n r m) :: EReturn t (CCtrlPost c n r m) (VPosted ch m') :: ECall t (CWait n ch) :: EReturn t (CWait n ch) (VGot a) :: h).
  (** A call that answers yes or no. *)
  Definition says (x : call U) (b : bool) : list (event U) := [ECall t x; EReturn t x (VBool b)].
  (** start, search, nodes. *)
  Definition opening (b1 b2 : bool) : list (event U) := says (CStart (Some c) n) b1 ++ says (CSearch c n 0x0EF001) b2.
  Definition look (l : list remote_node) : list (event U) := [ECall t (CNodes c); EReturn t (CNodes c) (VNodes l)].
  (** stop. *)
  Definition stopping (b : bool) : list (event U) := says (CStop (Some c) n) b.
  (** Rounds of a list of nodes and a conversation. *)
  Inductive rounds : list (list remote_node * list exchange) -> list (event U) -> Prop :=
  | ro_nil : rounds [] []
  | ro_next l es h k h' : conversation es h -> rounds k h' -> rounds ((l, es) :: k) (look l ++ h ++ h').
End T.
