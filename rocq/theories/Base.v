(** Basic vocabulary shared by the whole model: outcomes of Rust calls,
    checked slice accesses and machine-integer casts.

    These definitions model the semantics of the Rust language and of its core
    library as used in /repo; they do not correspond to a file of /repo. *)
From Coq Require Export String NArith ZArith Bool Lia Permutation List.
From Coq Require Export ZifyBool ZifyN ZifyNat.
Export ListNotations.
Global Open Scope N_scope.
Global Open Scope list_scope.
Ltac Zify.zify_post_hook ::= Z.div_mod_to_equations.

(** Result of running Rust code which may panic. Rust semantics: [v[i]],
    [&v[a..]], [Option::unwrap], overflow checks. *)
Inductive outcome (A : Type) : Type :=
| Ret (a : A)
| Panic.
Arguments Ret {A} _.
Arguments Panic {A}.

Definition obind {A B} (x : outcome A) (f : A -> outcome B) : outcome B :=
  match x with Ret a => f a | Panic => Panic end.
Definition omap {A B} (f : A -> B) (x : outcome A) : outcome B :=
  match x with Ret a => Ret (f a) | Panic => Panic end.
Notation "'let!' x ':=' e 'in' k" := (obind e (fun x => k))
  (at level 200, x pattern, e at level 100, k at level 200, right associativity).

(** Build profile of rustc: [overflow_checks = true] is a debug build (integer
    overflow and oversized shifts panic), [false] a release build (they wrap). *)
Class Profile := overflow_checks : bool.

(** [v[i]] of Rust: panics when out of bounds. *)
Definition idx {A} (l : list A) (i : nat) : outcome A :=
  match nth_error l i with Some a => Ret a | None => Panic end.

(** [&v[a..]] of Rust: panics when [a > v.len()]. *)
Definition slice_from {A} (l : list A) (a : nat) : outcome (list A) :=
  if Nat.leb a (length l) then Ret (skipn a l) else Panic.

(** [for n in from..from+count { out.push(v[n]) }] *)
Fixpoint idx_range {A} (l : list A) (from count : nat) : outcome (list A) :=
  match count with
  | O => Ret []
  | S c => let! a := idx l from in
           let! r := idx_range l (S from) c in
           Ret (a :: r)
  end.

(** [v[i] = x] of Rust on a vector. *)
Definition upd {A} (l : list A) (i : nat) (x : A) : outcome (list A) :=
  if Nat.ltb i (length l) then Ret (firstn i l ++ x :: skipn (S i) l) else Panic.

(** [e as u8], [e as u16], [e as u32]: truncating casts. *)
Definition as_u8 (x : N) : N := x mod 256.
Definition as_u16 (x : N) : N := x mod 65536.
Definition as_u32 (x : N) : N := x mod 4294967296.
Definition len_u8 {A} (l : list A) : N := as_u8 (N.of_nat (length l)).

(** [a << s] and [a >> s] on a [w]-bit unsigned integer. *)
Definition shl_w {P : Profile} (w : N) (a s : N) : outcome N :=
  if s <? w then Ret (N.shiftl a s mod 2 ^ w)
  else if overflow_checks then Panic else Ret (N.shiftl a (s mod w) mod 2 ^ w).
Definition shr_w {P : Profile} (w : N) (a s : N) : outcome N :=
  if s <? w then Ret (N.shiftr a s)
  else if overflow_checks then Panic else Ret (N.shiftr a (s mod w)).

(** [a + b] and [a - b] on a [w]-bit unsigned integer. *)
Definition add_w {P : Profile} (w : N) (a b : N) : outcome N :=
  if a + b <? 2 ^ w then Ret (a + b)
  else if overflow_checks then Panic else Ret ((a + b) mod 2 ^ w).
Definition sub_w {P : Profile} (w : N) (a b : N) : outcome N :=
  if b <=? a then Ret (a - b)
  else if overflow_checks then Panic else Ret ((a + 2 ^ w - b) mod 2 ^ w).

(** Element-wise [!=] loop over two slices of equal length, as written in
    src/protocol/property.rs:97-101 and src/property.rs:362-366. *)
Fixpoint bytes_eqb (a b : list N) : bool :=
  match a, b with
  | [], [] => true
  | x :: a', y :: b' => (x =? y) && bytes_eqb a' b'
  | _, _ => false
  end.

(** Every element of a byte string is an octet (Rust: type [u8]). *)
Definition octet (x : N) : Prop := x < 256.
Definition octets (l : list N) : Prop := Forall octet l.
