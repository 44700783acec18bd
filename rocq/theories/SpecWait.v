(** Vocabulary for calls that wait for the answer to a post. *)
From Verif Require Import Base HMap ModelCodec ModelMessages ModelObject ModelTransport ModelNode ModelController ModelDevice ModelThreads
  SpecWire SpecObject SpecNode SpecThreads.

Section S.
  Context {U : Type}.

  (** The call posts a message on the node [n]. *)
  Definition posts (n : nat) (c : call U) : bool :=
    match c with CPost n' _ _ | CCtrlPost _ n' _ _ => Nat.eqb n' n | _ => false end.
  (** The receivers which posts on the node have returned. *)
  Fixpoint channels (n : nat) (h : list (event U)) : list N :=
    match h with
    | [] => []
    | EReturn _ c (VPosted ch _) :: r => if posts n c then ch :: channels n r else channels n r
    | _ :: r => channels n r
    end.
  (** The messages which the receiver [ch] of the node has given. *)
  Fixpoint gots (n : nat) (ch : N) (h : list (event U)) : list message :=
    match h with
    | [] => []
    | EReturn _ (CWait n' ch') (VGot (Some m)) :: r => if Nat.eqb n' n && (ch' =? ch) then m :: gots n ch r else gots n ch r
    | _ :: r => gots n ch r
    end.

  (** The call may change the latest TID of the node, and is not a post of a message
      without TID; or it is a post of a message with a TID. *)
  Definition disturbs (n : nat) (c : call U) : bool :=
    match c with
    | CAnnounce n' | CSearch _ n' _ | CStart _ n' => Nat.eqb n' n
    | CSend n' _ m | CNotify n' m | CCtrlSend _ n' _ m => Nat.eqb n' n && (msg_tid m =? 0)
    | CPost n' _ m | CCtrlPost _ n' _ m => Nat.eqb n' n && negb (msg_tid m =? 0)
    | _ => false
    end.
  (** The call which thread [t] has made and which has not returned. *)
  Fixpoint open_call (t : nat) (o : option (call U)) (h : list (event U)) : option (call U) :=
    match h with
    | [] => o
    | ECall t' c :: r => open_call t (if Nat.eqb t' t then Some c else o) r
    | EReturn t' _ _ :: r => open_call t (if Nat.eqb t' t then None else o) r
    | EGot _ _ :: r => open_call t o r
    end.
  (** From the first post on, only posts of messages without TID choose TIDs of the
      node: such calls have returned before, and there are none later. *)
  Definition undisturbed (n : nat) (h : list (event U)) : Prop := forall h1 t c h2, h = h1 ++ ECall t c :: h2 ->
    (posts n c = true -> disturbs n c = false /\ forall t' c', open_call t' None h1 = Some c' -> disturbs n c' = false) /\
    (disturbs n c = true -> forall t' c', In (ECall t' c') h1 -> posts n c' = false).
  (** All requests that have arrived have a TID. *)
  Definition requests_numbered (h : list (event U)) : Prop :=
    forall t m, In (EGot t m) h -> request_service (m_esv m) -> msg_tid m <> 0.

  (** A node that has neither posted nor delivered anything. *)
  Definition unposted (d : nstate U) : Prop := n_post (snd (fst d)) = None /\ deliveries (w_trace (snd d)) = [].
End S.
