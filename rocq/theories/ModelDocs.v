(** The programs which the documentation shows: the request handlers of
    doc/device_overview.md and doc/device_inside.md, and the example of
    src/controller.rs. *)
From Verif Require Import Base HMap ModelCodec ModelMessages ModelObject ModelTransport ModelNode ModelController ModelTools.

(** doc/device_overview.md:46-64, the handler of MyDevice. [check] stands for the dots
    in the match on the code of the property: it returns false from the handler or goes
    on. The handler of the text keeps no state of its own. *)
Definition overview_handler {U : Type} (code : N) (check : N -> list N -> bool) : user_handler (U := U) :=
  fun u deoj e p =>
    if negb (object_code deoj =? code) then Ret (u, deoj, false)
    else match e with
         | EWriteRequest | EWriteReadRequest =>
           if negb (check (pp_code p) (pp_data p)) then Ret (u, deoj, false) else Ret (u, deoj, true)
         | _ => Ret (u, deoj, true)
         end.

(** doc/device_inside.md:40-66, the handler which checks a write request. The text
    compares the object with a code and does not define prop_code and prop_bytes; they
    are read as in src/device.rs:127-160: the code of the object, of the property and its
    data. *)
Definition inside_handler {P : Profile} {U : Type} (code : N) : user_handler (U := U) :=
  fun u deoj e p =>
    if negb (object_code deoj =? code) then Ret (u, deoj, false)
    else if pp_code p =? 0x80 then
      let! v := bytes_to_u32 (pp_data p) in
      if v =? 0x30 then Ret (u, deoj, true)
      else if v =? 0x31 then Ret (u, deoj, true)
      else Ret (u, deoj, false)
    else Ret (u, deoj, false).

(** src/controller.rs:48-50, the message: the property made in lines 51-52 is not
    added to it. *)
Definition example_message (obj : N) : message := msg_set_deoj (msg_set_esv msg_new EReadRequest) obj.

(** What follows the name of a property on its line (src/controller.rs:54-63). *)
Inductive shown : Type := SData (text : list N) | STimeout | SNothing.
(** src/controller.rs:54-63. *)
Definition example_shown (ans : option message) : outcome shown :=
  match ans with
  | None => Ret STimeout
  | Some m => if Nat.ltb 0 (msg_opc m) then let! p := msg_property m 0 in Ret (SData (hex_encode (pp_data p)))
              else Ret SNothing
  end.
(** What the program does. src/controller.rs:37-64. *)
Inductive example_act : Type :=
| XNode (i : nat) (addr : sockaddr)
| XObject (j : nat) (code : N)
| XPost (r : remote_node) (m : message)
| XProp (code : N) (name : string) (s : shown).

(** src/controller.rs:43-64, the loop over the properties; [ans k] is what the k-th
    request gets within its second. *)
Fixpoint example_props (ans : nat -> option message) (k : nat) (r : remote_node) (oc : N) (ps : list prop)
  : outcome (nat * list example_act) :=
  match ps with
  | [] => Ret (k, [])
  | p :: l =>
    if negb (prop_is_read_required p) then example_props ans k r oc l
    else
      let! s := example_shown (ans k) in
      let! x := example_props ans (S k) r oc l in
      Ret (fst x, XPost r (example_message oc) :: XProp (p_code p) (p_name p) s :: snd x)
  end.
(** src/controller.rs:41-65 *)
Fixpoint example_objects (ans : nat -> option message) (k j : nat) (r : remote_node) (os : list object)
  : outcome (nat * list example_act) :=
  match os with
  | [] => Ret (k, [])
  | o :: l =>
    let! x := example_props ans k r (object_code o) (object_properties o) in
    let! y := example_objects ans (fst x) (S j) r l in
    Ret (fst y, XObject j (object_code o) :: snd x ++ snd y)
  end.
(** src/controller.rs:39-66 *)
Fixpoint example_nodes (ans : nat -> option message) (k i : nat) (nodes : list remote_node)
  : outcome (nat * list example_act) :=
  match nodes with
  | [] => Ret (k, [])
  | r :: l =>
    let! x := example_objects ans k 0 r (rn_objects r) in
    let! y := example_nodes ans (fst x) (S i) l in
    Ret (fst y, XNode i (rn_addr r) :: snd x ++ snd y)
  end.
