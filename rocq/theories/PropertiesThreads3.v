(** Property C112: every call returns in every fair execution. *)
From Verif Require Import Base HMap ModelCodec ModelMessages ModelObject ModelTransport ModelNode ModelController ModelDevice ModelThreads
  SpecNode SpecThreads SpecProgress ProofsNode2 ProofsThreads ProofsThreads2 ProofsThreads4 ProofsThreads5 PropertiesTrans PropertiesDevice ExamplesNode PropertiesThreads.
From Verif Require ModelLocks.

Section S.
  Context {U : Type} {P : Profile} {HO : HashOrder} {Os : OS} {Uu : Uuids} (db : list object).
  Implicit Types (s : process U).

  (** Whatever the other threads do and whatever arrives in between: there is no
      endless sequence of states of an execution such that a thread of the
      application gets on before each of them. *)
  Theorem C112_finite what net ns cs xs s t : down ns -> steps db what net (begins ns cs xs) s -> (t < length xs)%nat ->
    Acc (later db what net t) s.
  Proof. intros D Hr Lt. eapply acc_ok; [eapply ok_begins; eauto|exact Lt]. Qed.

  (** So in an execution that never ends each thread of the application gets on
      only finitely often: what goes on for ever are the receive threads. *)
  Theorem C112_endless what net ns cs xs (e : nat -> process U) t : down ns -> e O = begins ns cs xs -> endless db what net e -> (t < length xs)%nat ->
    ~ often (fun i => gets_on t (e i) (e (S i))).
  Proof.
    intros D E0 En Lt Of.
    assert (Run : forall j i, (i <= j)%nat -> steps db what net (e i) (e j)).
    { induction j as [|j IH]; intros i L; [replace i with O by lia; constructor|]. destruct (Nat.eq_dec i (S j)) as [->|]; [constructor|].
      eapply steps_step; [apply IH; lia|apply En]. }
    assert (A : forall s, Acc (later db what net t) s -> forall i, e i = s -> False).
    { induction 1 as [s _ IH]. intros i Ei. apply (Of i). intros j L G. apply (IH (e (S j))) with (i := S j); [|reflexivity].
      exists (e j). split; [rewrite <- Ei; apply Run, L|]. split; [apply En|exact G]. }
    eapply A; [|reflexivity]. eapply C112_finite; eauto. rewrite <- E0. apply (Run O O). constructor.
  Qed.

  Lemma begins_leads ns cs (xs : list (client U)) : leads_all (length xs) (begins ns cs xs).
  Proof. intros t L. cbn in L. lia. Qed.

  (** In a fair execution that never ends there is a moment when all threads of the
      application have returned from all their calls, or have panicked. (An
      execution that ends is one of C107.) *)
  Theorem C112_fair what net ns cs xs (e : nat -> process U) : down ns -> e O = begins ns cs xs -> endless db what net e -> fair db what net e ->
    some_time (fun i => forall t, (t < length xs)%nat -> threads (e i) t = Out Halt \/ threads (e i) t = Dead).
  Proof.
    intros D E0 En Fr. eapply all_end; eauto; rewrite E0; [apply (ok_begins db what _ net ns cs xs _ eq_refl D); constructor|apply begins_leads].
  Qed.

  (** And every receive thread comes back to its loop again and again, or has
      ended: no observer keeps it for ever. *)
  Theorem C112_receivers what net ns cs xs (e : nat -> process U) i t : down ns -> e O = begins ns cs xs -> endless db what net e -> fair db what net e ->
    (length xs <= t < ModelThreads.next (life (e i)))%nat ->
    often (fun j => threads (e j) t = Out Again \/ threads (e j) t = Out Over \/ threads (e j) t = Dead).
  Proof.
    intros D E0 En Fr Lt k A.
    assert (K0 : ok (U := U) db (length xs) (e O)) by (rewrite E0; apply (ok_begins db what _ net ns cs xs _ eq_refl D); constructor).
    assert (L0 : leads_all (length xs) (e O)) by (rewrite E0; apply begins_leads).
    apply (comes_home db what net (length xs) e K0 L0 En Fr t (i + k)).
    - apply (run_serving db what net (length xs) e En i); [lia|exact Lt].
    - intros j L. apply A. lia.
  Qed.

  (** One which was told to end ends. *)
  Theorem C112_told what net ns cs xs (e : nat -> process U) i t : down ns -> e O = begins ns cs xs -> endless db what net e -> fair db what net e ->
    (length xs <= t < ModelThreads.next (life (e i)))%nat -> flags (e i) t = true ->
    some_time (fun j => threads (e j) t = Out Over \/ threads (e j) t = Dead).
  Proof.
    intros D E0 En Fr Lt Fl A.
    assert (K0 : ok (U := U) db (length xs) (e O)) by (rewrite E0; apply (ok_begins db what _ net ns cs xs _ eq_refl D); constructor).
    assert (L0 : leads_all (length xs) (e O)) by (rewrite E0; apply begins_leads).
    apply (told_ends db what net (length xs) e K0 L0 En Fr t i Lt Fl). intros j L. split; intros X; apply (A j); auto.
  Qed.
End S.

(** An execution that never ends: thread 0 starts the lamp, its call returns after
    39 steps, and then the receive threads 1 and 2 look at their stop flags and time
    out in turn, again and again. It is fair. *)
Definition x_start : client unit := Call (CStart (Some 0%nat) 0) (fun _ => Finished).
Definition ex_next := next_step (U := unit) (P := true) (HO := ex_order) (Os := ex_os) (Uu := ex_uuids) [] ex_what.
Definition ex_turn (j : nat) : nat := if (j <? 39)%nat then 0%nat else if Nat.even j then 1%nat else 2%nat.
Fixpoint ex_endless (i : nat) : process unit :=
  match i with
  | O => begins (P := true) (HO := ex_order) (O := ex_os) ex_ns ex_cs [x_start]
  | S j => match ex_next (ex_endless j) (ex_turn j) with Some s => s | None => ex_endless j end
  end.
Notation ex_step := (step (U := unit) (P := true) (HO := ex_order) (O := ex_os) (Uu := ex_uuids) [] ex_what false).
Definition loops (s : process unit) (t : nat) : Prop := (threads s t = Out Again \/ threads s t = Out Recv) /\ flags s t = false.
Definition quiet (s : process unit) : Prop := loops s 1 /\ loops s 2 /\ forall t, t <> 1%nat -> t <> 2%nat -> threads s t = Out Halt.
Lemma loops_on s t : loops s t -> exists x, ex_next s t = Some (goes s t x) /\ (x = Out Again \/ x = Out Recv) /\ x <> threads s t.
Proof.
  intros [[T|T] F]; unfold ex_next, next_step; rewrite T, ?F; eexists; (split; [reflexivity|]); (split; [auto|discriminate]).
Qed.
Lemma quiet_on s t : quiet s -> t = 1%nat \/ t = 2%nat -> exists s', ex_next s t = Some s' /\ quiet s' /\ threads s' t <> threads s t.
Proof.
  intros (L1 & L2 & L3) Et.
  assert (Lt : loops s t) by (destruct Et; subst t; assumption).
  destruct (loops_on s t Lt) as (x & E & Hx & Nx). exists (goes s t x). split; [exact E|].
  assert (At : threads (goes s t x) t = x) by (cbn; unfold upd; rewrite Nat.eqb_refl; reflexivity).
  assert (Ot : forall u, u <> t -> threads (goes s t x) u = threads s u) by (intros u Ne; cbn; unfold upd; destruct (Nat.eqb_spec u t); [contradiction|reflexivity]).
  assert (X : forall u, loops s u -> loops (goes s t x) u).
  { intros u [A B]. split; [|exact B]. destruct (Nat.eq_dec u t) as [->|Ne]; [rewrite At; exact Hx|rewrite Ot by exact Ne; exact A]. }
  split; [|rewrite At; exact Nx]. split; [auto|]. split; [auto|]. intros u N1 N2. rewrite Ot; [auto|]. destruct Et; subst t; assumption.
Qed.
Lemma ex_quiet i : (39 <= i)%nat -> quiet (ex_endless i).
Proof.
  induction 1 as [|i L IH].
  - assert (A : match ex_endless 39 with
                | s => (match threads s 0 with Out Halt => true | _ => false end, match threads s 1 with Out Again => negb (flags s 1) | _ => false end,
                        match threads s 2 with Out Again => negb (flags s 2) | _ => false end, ModelThreads.next (life s)) end = (true, true, true, 3%nat)) by (vm_compute; reflexivity).
    assert (Sa : sane (ex_endless 39)).
    { assert (X : forall k, steps (P := true) (HO := ex_order) (O := ex_os) (Uu := ex_uuids) [] ex_what false (ex_endless 0) (ex_endless k)).
      { induction k as [|k IHk]; [constructor|]. cbn [ex_endless]. destruct (ex_next (ex_endless k) (ex_turn k)) as [s'|] eqn:E; [|exact IHk].
        eapply steps_step; [exact IHk|eapply next_step_sound, E]. }
      exact (proj1 (proj2 (ok_begins (P := true) (HO := ex_order) (O := ex_os) (Uu := ex_uuids) [] ex_what 1 false ex_ns ex_cs [x_start] _ eq_refl ex_down (X 39%nat)))). }
    revert A Sa. generalize (ex_endless 39). intros s A Sa.
    assert (A1 : threads s 0%nat = Out Halt /\ loops s 1 /\ loops s 2 /\ ModelThreads.next (life s) = 3%nat).
    { unfold loops. destruct (threads s 0) as [[]| | |]; try discriminate A; destruct (threads s 1) as [[]| | |]; try discriminate A;
        destruct (threads s 2) as [[]| | |]; try discriminate A; destruct (flags s 1); try discriminate A; destruct (flags s 2); try discriminate A.
      injection A as A. repeat split; auto. }
    destruct A1 as (A0 & A1 & A2 & A3). split; [exact A1|]. split; [exact A2|]. intros t N1 N2.
    destruct t as [|[|[|t]]]; try contradiction; [exact A0|]. apply (s_fresh _ Sa). lia.
  - cbn [ex_endless]. destruct (quiet_on _ (ex_turn i) IH) as (s' & E & Q & _).
    + unfold ex_turn. destruct (Nat.ltb_spec i 39); [lia|]. destruct (Nat.even i); auto.
    + rewrite E. exact Q.
Qed.
Lemma ex_goes_on i : exists s', ex_next (ex_endless i) (ex_turn i) = Some s' /\ ((39 <= i)%nat -> threads s' (ex_turn i) <> threads (ex_endless i) (ex_turn i)).
Proof.
  destruct (Nat.ltb_spec i 39) as [L|L].
  - assert (A : forallb (fun i => match ex_next (ex_endless i) (ex_turn i) with Some _ => true | None => false end) (seq 0 39) = true) by (vm_compute; reflexivity).
    rewrite forallb_forall in A. specialize (A i). destruct (ex_next (ex_endless i) (ex_turn i)) as [s'|].
    + exists s'. split; [reflexivity|lia].
    + discriminate A. apply in_seq. lia.
  - destruct (quiet_on _ (ex_turn i) (ex_quiet i L)) as (s' & E & _ & Ne); [|exists s'; auto].
    unfold ex_turn. destruct (Nat.ltb_spec i 39); [lia|]. destruct (Nat.even i); auto.
Qed.
Lemma quiet_halt s s' t : quiet s -> ex_step s s' -> t <> 1%nat -> t <> 2%nat -> ~ gets_on t s s'.
Proof.
  intros (([A1|A1] & _) & ([A2|A2] & _) & A3) Hs N1 N2 [G|(n & k & j & b & q & t' & T & _)];
    try (rewrite A3 in T by assumption; discriminate T); apply G; clear G;
    inversion Hs; subst s';
    match goal with T : threads s ?u = _ |- _ =>
      destruct (Nat.eq_dec u 1) as [->|M1]; [rewrite A1 in T|destruct (Nat.eq_dec u 2) as [->|M2]; [rewrite A2 in T|rewrite A3 in T by assumption]] end;
    try discriminate; cbn; unfold upd; match goal with |- context [(?a =? ?b)%nat] => destruct (Nat.eqb_spec a b); [contradiction|reflexivity] end.
Qed.
Example C112_case :
  endless (P := true) (HO := ex_order) (O := ex_os) (Uu := ex_uuids) [] ex_what false ex_endless /\
  fair (P := true) (HO := ex_order) (O := ex_os) (Uu := ex_uuids) [] ex_what false ex_endless /\
  map (fun i => done_by 0 (Some (ex_endless i))) [38; 39; 60]%nat = [None; Some true; Some true].
Proof.
  assert (Nx : forall i, ex_step (ex_endless i) (ex_endless (S i)) /\ ((39 <= i)%nat -> threads (ex_endless (S i)) (ex_turn i) <> threads (ex_endless i) (ex_turn i))).
  { intros i. destruct (ex_goes_on i) as (s' & E & N). assert (X : ex_endless (S i) = s') by (cbn [ex_endless]; rewrite E; reflexivity). rewrite X.
    split; [eapply next_step_sound, E|exact N]. }
  split; [intros i; apply Nx|]. split; [|vm_compute; reflexivity].
  intros t Of i A. destruct (Nat.eq_dec t 1) as [->|N1]; [|destruct (Nat.eq_dec t 2) as [->|N2]].
  - apply (A (2 * (i + 20))%nat); [lia|]. left. destruct (Nx (2 * (i + 20))%nat) as [_ N]. unfold ex_turn in N.
    destruct (Nat.ltb_spec (2 * (i + 20)) 39); [lia|]. replace (Nat.even (2 * (i + 20))) with true in N; [apply N; lia|].
    symmetry. apply Nat.even_spec. exists (i + 20)%nat. reflexivity.
  - apply (A (2 * (i + 20) + 1)%nat); [lia|]. left. destruct (Nx (2 * (i + 20) + 1)%nat) as [_ N]. unfold ex_turn in N.
    destruct (Nat.ltb_spec (2 * (i + 20) + 1) 39); [lia|]. replace (Nat.even (2 * (i + 20) + 1)) with false in N; [apply N; lia|].
    symmetry. rewrite <- Nat.negb_odd. apply negb_false_iff, Nat.odd_spec. exists (i + 20)%nat. reflexivity.
  - apply (Of 39%nat). intros j L (s' & Hs & G). exact (quiet_halt _ _ _ (ex_quiet j L) Hs N1 N2 G).
Qed.

Print Assumptions C112_finite.
Print Assumptions C112_endless.
Print Assumptions C112_fair.
Print Assumptions C112_receivers.
Print Assumptions C112_told.
