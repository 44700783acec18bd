(** What it means for threads to block each other, and how an application is
    expected to use its own mutexes. *)

From Coq Require Import List Arith Bool.
From Verif Require Import ModelLocks.
Import ListNotations.

(** Thread [t] cannot go on before thread [u] does something: it waits for a
    mutex which [u] holds, or for [u] to end. *)
Definition waits (s : process) (t u : nat) : Prop :=
  (exists l p, todo s t = Acq l :: p /\ owner s l = Some u)
  \/ (exists p, todo s t = StopServer u :: p /\ flag s u = true /\ ended s u = false).

(** A deadlock: a set of threads of the process each of which waits for one of
    the set. *)
Definition deadlock (s : process) (S : nat -> Prop) : Prop :=
  (exists t, S t)
  /\ forall t, S t -> t < next s /\ exists u, S u /\ waits s t u.

(** A call of the API, or any other part of a program, has been completed. *)
Definition finished (s : process) (t : nat) : Prop := todo s t = [].

(** Code of the application which takes its own mutexes [Usr] in ascending
    order (the application chooses the numbering) and gives them back:
    [nested U p] with the mutexes [U] taken, the last one first. *)
Inductive nested : list nat -> list op -> Prop :=
| nested_done : nested [] []
| nested_take h U p :
    Forall (fun x => x < h) U -> nested (h :: U) p -> nested U (Acq (Usr h) :: p)
| nested_drop h U p : nested U p -> nested (h :: U) (Rel (Usr h) :: p).

(** The code behind the mutex [Usr h] takes only such mutexes, above [h]. *)
Definition modest (code : nat -> list op -> Prop) : Prop :=
  forall h b, code h b -> nested [h] (b ++ [Rel (Usr h)]).

(** A thread of the application: it takes its mutexes in ascending order, those
    which no handler and no observer needs ([App]) before the others ([Usr]),
    and calls the API only while it holds none of the latter. *)
Inductive disciplined : list nat -> list nat -> list op -> Prop :=
| disciplined_done : disciplined [] [] []
| disciplined_call A c p : disciplined A [] p -> disciplined A [] (ops_of c ++ p)
| disciplined_take_app a A p :
    Forall (fun x => x < a) A -> disciplined (a :: A) [] p -> disciplined A [] (Acq (App a) :: p)
| disciplined_drop_app a A p : disciplined A [] p -> disciplined (a :: A) [] (Rel (App a) :: p)
| disciplined_take h A U p :
    Forall (fun x => x < h) U -> disciplined A (h :: U) p ->
    disciplined A U (Acq (Usr h) :: p)
| disciplined_drop h A U p : disciplined A U p -> disciplined A (h :: U) (Rel (Usr h) :: p).
