(** The devices which an application adds to a node, and applications which leave
    the node profile to the node. *)
From Verif Require Import Base HMap ModelCodec ModelMessages ModelObject ModelTransport ModelNode ModelController ModelDevice ModelThreads
  SpecWire SpecNode.

(** The properties of the node profile that describe the node. *)
Definition profile_code (c : N) : Prop := In c [0xD3; 0xD4; 0xD5; 0xD6; 0xD7].
(** At most 255 octets, what a message can hold. *)
Definition fits (d : list N) : Prop := (length d <= 255)%nat.

Section S.
  Context {U : Type}.

  (** The codes of the objects which calls in the history add to the node [n]. *)
  Definition adds1 (n : nat) (c : call U) : list N :=
    match c with CAddObject n' o | CDeviceObject _ n' o => if Nat.eqb n' n then [object_code o] else [] | _ => [] end.
  Definition adds (n : nat) (h : list (event U)) : list N :=
    flat_map (fun e => match e with ECall _ c => adds1 n c | _ => [] end) h.

  (** A call that leaves the description of the node to the node: no second node
      profile, no device with a property 0xD6 of its own, no change of the
      description, by itself or in a handler, no answers and notifications of its
      own. *)
  Definition fair (c : call U) : Prop :=
    match c with
    | CSetProperty _ _ oc code d => (oc <> 0x0EF001 \/ ~ profile_code code) /\ fits d
    | CSetHandler _ _ g | CAddHandler _ g => hands_off (HUser g)
    | CDeviceObject _ _ o | CAddObject _ o => object_code o <> 0x0EF001 /\ object_find_property o 0xD6 = None /\
        forall p, In p (object_properties o) -> fits (p_data p)
    | CSend _ _ m | CPost _ _ m | CNotify _ m | CCtrlSend _ _ _ m | CCtrlPost _ _ _ m => m_esv m <> 0x72 /\ m_esv m <> 0x73
    | _ => True
    end.
  Definition all_fair (h : list (event U)) : Prop := forall t c, In (ECall t c) h -> fair c.

  (** The codes of the objects which were added, by calls that have returned,
      before anybody called start on the node. *)
  Definition starts (n : nat) (e : event U) : bool := match e with ECall _ (CStart _ n') => Nat.eqb n' n | _ => false end.
  Definition started (n : nat) (h : list (event U)) : bool := existsb (starts n) h.
  Fixpoint early (n : nat) (h : list (event U)) : list N :=
    match h with
    | [] => []
    | e :: r => if starts n e then [] else match e with EReturn _ c _ => adds1 n c | _ => [] end ++ early n r
    end.

  (** The codes of the objects which were added by calls that have returned. *)
  Definition done (n : nat) (h : list (event U)) : list N :=
    flat_map (fun e => match e with EReturn _ c _ => adds1 n c | _ => [] end) h.
End S.
