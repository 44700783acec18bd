(** Applications whose handlers and observers use other devices and controllers:
    the nodes are put in tiers, and the code behind a mutex calls the API only
    for nodes of higher tiers. *)

From Coq Require Import List Arith Bool.
From Verif Require Import ModelLocks.
Import ListNotations.

Section Tiers.
  (** The tier of a node, of a device or controller, and of a mutex which is
      registered as a handler or observer or taken by the code of one. *)
  Variables tn td th : nat -> nat.

  (** The tier of the node or device for which the API is called. *)
  Definition tier_of (c : call) : nat :=
    match c with
    | Node_new n | Node_add_object n | Node_add_request_handler n _ | Node_add_observer n _ | Node_send n
    | Node_is_running n | Node_start n | Node_stop n => tn n
    | Device_node d | Controller_nodes d => td d
    | Device_new d _ | Device_set_property d _ | Device_property d _ | Device_set_request_handler d _ _
    | Device_start d _ | Device_stop d _ | Controller_new d _ | Controller_add_observer d _ _
    | Controller_search d _ | Controller_send d _ | Controller_post d _ | Controller_start d _ | Controller_stop d _ => td d
    end.

  (** A device is in the tier of its node, and a handler or observer in no tier
      below that of the node which it is registered with. *)
  Definition call_ok (c : call) : Prop :=
    match c with
    | Node_new n | Node_add_object n | Node_send n | Node_is_running n | Node_start n | Node_stop n => True
    | Device_node d | Controller_nodes d => True
    | Node_add_request_handler n h | Node_add_observer n h => tn n <= th h
    | Device_new d n | Device_set_property d n | Device_property d n | Device_start d n | Device_stop d n
    | Controller_new d n | Controller_search d n | Controller_send d n | Controller_post d n | Controller_start d n
    | Controller_stop d n => td d = tn n
    | Device_set_request_handler d n h | Controller_add_observer d n h => td d = tn n /\ tn n <= th h
    end.

  (** The order of the mutexes of handlers and observers: by tier, then by
      number. *)
  Definition before (x y : nat) : Prop := th x < th y \/ (th x = th y /\ x < y).

  (** [polite U p]: code which has taken the mutexes [U], the last one first. It
      takes further ones in order and gives them back, and calls the API for
      tiers above all which it holds. It does not give back the one which it is
      called with before its end. *)
  Inductive polite : list nat -> list op -> Prop :=
  | polite_done : polite [] []
  | polite_take h U p : U <> [] -> Forall (fun x => before x h) U -> polite (h :: U) p -> polite U (Acq (Usr h) :: p)
  | polite_drop h U p : polite U p -> polite (h :: U) (Rel (Usr h) :: p)
  | polite_call c U p : U <> [] -> call_ok c -> Forall (fun x => th x < tier_of c) U -> polite U p -> polite U (ops_of c ++ p).

  Definition upward (code : nat -> list op -> Prop) : Prop :=
    forall h b, code h b -> polite [h] (b ++ [Rel (Usr h)]).

  (** A thread of the application: as above, and it takes the mutexes which no
      handler and no observer needs ([App]) before the others. *)
  Inductive tiered : list nat -> list nat -> list op -> Prop :=
  | tiered_done : tiered [] [] []
  | tiered_call A c U p : call_ok c -> Forall (fun x => th x < tier_of c) U -> tiered A U p -> tiered A U (ops_of c ++ p)
  | tiered_take_app a A p : Forall (fun x => x < a) A -> tiered (a :: A) [] p -> tiered A [] (Acq (App a) :: p)
  | tiered_drop_app a A p : tiered A [] p -> tiered (a :: A) [] (Rel (App a) :: p)
  | tiered_take h A U p : Forall (fun x => before x h) U -> tiered A (h :: U) p -> tiered A U (Acq (Usr h) :: p)
  | tiered_drop h A U p : tiered A U p -> tiered A (h :: U) (Rel (Usr h) :: p).
End Tiers.
