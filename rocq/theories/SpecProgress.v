(** Small specification of progress: when a thread gets on, and what an execution
    is that never ends. *)
From Verif Require Import Base HMap ModelObject ModelTransport ModelNode ModelController ModelDevice ModelThreads.
From Verif Require ModelLocks.

Section Spec.
  Context {U : Type} {P : Profile} {HO : HashOrder} {O : OS} {Uu : Uuids} (db : list object) (what : observer -> obs) (net : bool).

  (** Thread [t] gets on: it comes to another place of its program, or it tells the
      receive thread it waits for in stop to end. *)
  Definition gets_on (t : nat) (s s' : process U) : Prop :=
    threads s' t <> threads s t \/
    exists n k j b q t', threads s t = InNode n (Act (Stop k j) b) q /\ nth_error (srvs (life s) n k) j = Some t' /\ flags s t' = false /\ flags s' t' = true.
  (** One or more steps, and in the last one the thread [t] gets on. *)
  Definition later (t : nat) (s' s : process U) : Prop :=
    exists s1, steps db what net s s1 /\ step db what net s1 s' /\ gets_on t s1 s'.

  (** An execution that never ends. *)
  Definition endless (e : nat -> process U) : Prop := forall i, step db what net (e i) (e (S i)).
  (** Infinitely often: there is no point after which it never happens. *)
  Definition often (A : nat -> Prop) : Prop := forall i, ~ forall j, (i <= j)%nat -> ~ A j.
  (** Some time. *)
  Definition some_time (A : nat -> Prop) : Prop := ~ forall i, ~ A i.
  (** A thread which could get on again and again does so. *)
  Definition fair (e : nat -> process U) : Prop :=
    forall t, often (fun i => exists s, step db what net (e i) s /\ gets_on t (e i) s) -> often (fun i => gets_on t (e i) (e (S i))).
End Spec.
