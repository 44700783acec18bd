(** std::collections::HashMap with keys of an integer type, as used by
    src/object.rs:36 and src/property.rs:156.

    A map is the list of its entries in iteration order. Inserting a new key
    may change the iteration order of the whole map (hashing with a random
    seed, growth of the table), so the new list is an arbitrary permutation
    chosen by an oracle. The oracle depends on the seed of the map and on the
    entries; since entries are never removed, every length occurs at most once
    in the life of a map, so any behaviour of a real HashMap is covered by some
    oracle. Simplified: the hash function itself is not modelled. *)
From Verif Require Import Base.

Class HashOrder := {
  reorder : N -> forall V : Type, list (N * V) -> list (N * V);
  reorder_perm : forall s V (l : list (N * V)), Permutation l (reorder s V l) }.
Arguments reorder {_} s {V} l.

Section Map.
  Context {V : Type}.

  (** HashMap::get *)
  Fixpoint hget (m : list (N * V)) (k : N) : option V :=
    match m with
    | [] => None
    | (k', v) :: r => if k =? k' then Some v else hget r k
    end.

  (** assignment through HashMap::get_mut, or HashMap::insert of a present key *)
  Fixpoint hput (m : list (N * V)) (k : N) (v : V) : list (N * V) :=
    match m with
    | [] => []
    | (k', v') :: r => if k =? k' then (k', v) :: r else (k', v') :: hput r k v
    end.

  (** HashMap::entry(k).or_insert(v) *)
  Definition hor_insert {HO : HashOrder} (seed : N) (m : list (N * V)) (k : N) (v : V) : list (N * V) :=
    match hget m k with
    | Some _ => m
    | None => reorder seed ((k, v) :: m)
    end.

  (** HashMap::values *)
  Definition hvalues (m : list (N * V)) : list V := map snd m.
  Definition hkeys (m : list (N * V)) : list N := map fst m.
End Map.

(** An oracle for examples: insertion order reversed or kept, by the parity of
    the seed. *)
Definition ex_order : HashOrder.
Proof.
  refine {| reorder := fun s V l => if N.even s then l else rev l |}.
  intros s V l. destruct (N.even s); [apply Permutation_refl|apply Permutation_rev].
Defined.
