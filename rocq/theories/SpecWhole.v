(** What an event makes of the properties of a device when it takes effect, as a
    whole (C122). *)
From Verif Require Import Base ModelCodec ModelMessages ModelObject ModelNode ModelDevice ModelThreads SpecWire SpecNode SpecShared.

Section S.
  Context {U : Type} (n : nat) (oc : N).
  (** What a property with the code [c] holds afterwards, if it held [x]. *)
  Definition after (e : event U) (c : N) (x : list N) : list N :=
    match e with
    | ECall _ (CSetProperty _ n' oc' c' y) => if Nat.eqb n' n && (oc' =? oc) && (c' =? c) then y else x
    | ECall _ (CStart _ n') => if Nat.eqb n' n then (if c =? 0x80 then [0x30] else if c =? 0x88 then [0x42] else x) else x
    | ECall _ (CStop _ n') => if Nat.eqb n' n && (c =? 0x80) then [0x31] else x
    | EGot _ m => if msg_deoj m =? oc then match last_data c (writes_of m) with Some y => y | None => x end else x
    | _ => x
    end.
  Definition effect (e : event U) (s : values) : values := fun c => option_map (after e c) (s c).
  (** A message may take effect when the device has all the properties it is about;
      a call always may. *)
  Definition possible (e : event U) (s : values) : Prop :=
    match e with EGot _ m => Forall (fun q => stored (pp_code q) -> s (pp_code q) <> None) (writes_of m ++ reads_of m) | _ => True end.
  (** The event keeps [Q]: if it held, it holds after the whole effect; devices that
      are added have it. *)
  Definition keeps (Q : values -> Prop) (e : event U) : Prop :=
    (forall s, Q s -> possible e s -> Q (effect e s)) /\
    match e with ECall _ (CDeviceObject _ n' o) | ECall _ (CAddObject n' o) => n' = n -> object_code o = oc -> Q (data_in o) | _ => True end.
  (** The same for two properties: what the two hold. *)
  Definition both (R : list N -> list N -> Prop) (c1 c2 : N) (s : values) : Prop :=
    forall x y, s c1 = Some x -> s c2 = Some y -> R x y.
End S.
(** What an answer says is what the properties [s] hold. *)
Definition quotes (m : message) (s : values) : Prop := forall c y, In (PProp c y) (m_props m) -> stored c -> s c = Some y.
