(** From every state every call can return: no datagram needs to arrive, and no
    thread waits for ever. *)
From Verif Require Import Base HMap ModelCodec ModelMessages ModelObject ModelTransport ModelNode ModelController ModelDevice ModelThreads
  SpecThreads ProofsThreads.
From Verif Require ModelLocks.

Section Progress.
  Context {U : Type} {P : Profile} {HO : HashOrder} {O : OS} {Uu : Uuids} (db : list object) (what : observer -> obs) (base : nat).
  Notation Dev := ModelLocks.Dev. Notation LNode := ModelLocks.Node. Notation lock := ModelLocks.lock.
  Notation Notif := ModelLocks.Notif. Notation Wrap := ModelLocks.Wrap. Notation next := ModelThreads.next.
  Notation rel := (rel (U := U) db). Notation sane := (sane (U := U)).
  Implicit Types (s : process U) (a : state U) (t : nat) (l : lock).

  (* ---------------------------------------------------------------- *)
  (** ** Threads of the application and receive threads *)

  Inductive calling : prog U -> Prop :=
  | c_halt : calling Halt
  | c_enter c p : calling p -> calling (Enter c p)
  | c_leave c v p : calling p -> calling (Leave c v p)
  | c_lock l p : data_lock l -> calling p -> calling (Lock l p)
  | c_unlock l p : calling p -> calling (Unlock l p)
  | c_attempt l y q : calling y -> calling q -> calling (Attempt l y q)
  | c_on_node n b k : (forall v, calling (k v)) -> calling (OnNode n b k)
  | c_on_ctrl c b k : (forall v, calling (k v)) -> calling (OnCtrl c b k)
  | c_await n ch k : (forall v, calling (k v)) -> calling (Await n ch k).
  Inductive serving : prog U -> Prop :=
  | v_again : serving Again
  | v_recv : serving Recv
  | v_over : serving Over
  | v_lock w p : serving p -> serving (Lock (Wrap w) p)
  | v_unlock l p : serving p -> serving (Unlock l p)
  | v_try_node n b p : plain b -> serving p -> serving (TryNode n b p)
  | v_try_ctrl c b p : serving p -> serving (TryCtrl c b p).
  Definition calls (x : thread U) : Prop :=
    match x with Out p => calling p | InNode _ _ k | InCtrl _ _ k => forall v, calling (k v) | Dead => True end.
  Definition serves (x : thread U) : Prop :=
    match x with
    | Out p => serving p \/ exists m, p = Deliver m
    | InNode _ b k => plain b /\ forall v, serving (k v)
    | InCtrl _ _ k => forall v, serving (k v)
    | Dead => True
    end.
  Record kinds s : Prop := {
    k_base : (base <= next (life s))%nat;
    k_calls : forall t, (t < base)%nat -> calls (threads s t);
    k_serves : forall t, (base <= t < next (life s))%nat -> serves (threads s t);
    k_srvs : forall n k t, In t (srvs (life s) n k) -> (base <= t < next (life s))%nat;
    k_own : forall l t, owner s l = Some t -> (t < base)%nat -> data_lock l }.

  Lemma prog_of_calling c k : (forall v, calling (k v)) -> calling (prog_of c k).
  Proof.
    intros K. destruct c; try (match goal with d : option nat |- _ => destruct d end); cbn [prog_of]; unfold through;
      repeat first [apply c_attempt|apply c_lock; [exact Logic.I|]|apply c_on_node; intros v|apply c_on_ctrl; intros v|apply c_await; intros v|apply c_unlock|apply K].
  Qed.
  Lemma client_calling x : calling (client_prog x).
  Proof. induction x as [|c k IH]; cbn [client_prog]; [constructor|]. apply c_enter, prog_of_calling. intros v. apply c_leave, IH. Qed.
  Lemma deliver_serving t (os : list obs) m : serving (deliver_prog db t os m).
  Proof.
    unfold deliver_prog. induction os as [|[w n|w c|w] r IH]; cbn [notify_prog]; repeat first [apply v_lock|apply v_unlock|apply v_try_node; [apply plain_observe|]|apply v_try_ctrl|exact IH|constructor].
  Qed.

  Lemma kinds_goes s t x : kinds s -> ((t < base)%nat -> calls x) -> ((base <= t < next (life s))%nat -> serves x) -> kinds (goes s t x).
  Proof.
    intros [B C V Sr Ow] Cx Vx. constructor; cbn; auto; intros t' L; unfold upd; destruct (Nat.eqb_spec t' t) as [->|]; auto.
  Qed.
  Lemma kinds_takes s l t : kinds s -> ((t < base)%nat -> data_lock l) -> kinds (takes s l t).
  Proof.
    intros [B C V Sr Ow] N. constructor; cbn; auto. intros l' t'. unfold set_owner.
    destruct (ModelLocks.lock_eq_dec l' l) as [->|]; [intros [= <-]; exact N|apply Ow].
  Qed.
  Lemma kinds_frees s l : kinds s -> kinds (frees s l).
  Proof.
    intros [B C V Sr Ow]. constructor; cbn; auto. intros l' t'. unfold set_owner.
    destruct (ModelLocks.lock_eq_dec l' l) as [->|]; [discriminate|apply Ow].
  Qed.
  Lemma kinds_dies s t : kinds s -> kinds (dies s t).
  Proof.
    intros [B C V Sr Ow]. constructor; cbn; auto; try (intros t' L; unfold upd; destruct (Nat.eqb_spec t' t) as [->|]; cbn; auto).
    intros l t'. destruct (mine s t l); [discriminate|apply Ow].
  Qed.
  Lemma kinds_same s s' : kinds s -> (forall t, threads s' t = threads s t) -> owner s' = owner s -> next (life s') = next (life s) ->
    (forall n k t, In t (srvs (life s') n k) -> In t (srvs (life s) n k)) -> kinds s'.
  Proof.
    intros [B C V Sr Ow] E1 E2 E3 E4. constructor; rewrite ?E2, ?E3; auto.
    - intros t L. rewrite E1. auto.
    - intros t L. rewrite E1. auto.
    - intros n k t X. eapply Sr, E4, X.
  Qed.
  Lemma kinds_spawn s n k : kinds s -> sane s -> kinds (goes (with_life s (spawn (life s) n k)) (next (life s)) (Out Again)).
  Proof.
    intros [B C V Sr Ow] Sa. constructor; cbn; auto.
    - intros t L. unfold upd. destruct (Nat.eqb_spec t (next (life s))); [lia|]. auto.
    - intros t L. unfold upd. destruct (Nat.eqb_spec t (next (life s))); [left; constructor|]. apply V. lia.
    - intros n' k' t X. destruct (_ && _); [|apply Sr in X; lia]. apply in_app_or in X. destruct X as [X|[<-|[]]]; [apply Sr in X; lia|lia].
  Qed.
  Lemma kinds_begins ns cs (xs : list (client U)) : base = length xs -> kinds (begins ns cs xs).
  Proof.
    intros E. constructor; cbn; try lia; try discriminate; try contradiction.
    intros t _. apply client_calling.
  Qed.

  Lemma kinds_step net s s' : kinds s -> sane s -> step db what net s s' -> kinds s'.
  Proof.
    intros K Sa Hs.
    assert (X : forall t y, threads s t = y -> ((t < base)%nat -> calls y) /\ ((base <= t < next (life s))%nat -> serves y)).
    { intros t y <-. split; [apply (k_calls _ K)|apply (k_serves _ K)]. }
    inversion Hs as [t c p T|t c v p T|t l p T Ow Po|t l p T Ow Po|t l p T Ow|t l y q T Ow Po|t l y q T Ex
      |t n b k T Ow Po|t n b k T Ow Po|t c b k T Ow Po|t c b k T Ow Po|t n b p T Ow Po|t n b p T Ex|t c b p T Ow Po|t c b p T Ex
      |t n f k d b T E|t n f k T E|t n v k T|t c f k d b T E|t c f k T E|t c v k T|t n ch k m T Nm|t n ch k T
      |t n k' b k T|t n k' j o b k t' T Nt Ow Po|t n k' j o b k t' T Nt Ow Po|t n k' j o b k T Nt
      |t n k' j b k t' T Nt Fl|t n k' j b k t' T Nt Fl T'|t n k' j b k t' T Nt Fl T'|t n k' j b k T Nt
      |t T Fl|t T Fl|t T|t T Ne|t data from m T Ne Oc Pa|t data T Ne Oc Pa|t m T Ow Po|t m T Ow Po]; subst s'; try apply (kinds_dies _ _ K);
      destruct (X t _ T) as [C V]; clear X.
    - apply (kinds_same (goes s t (Out p))); auto. apply kinds_goes; [exact K| |].
      + intros L. apply C in L. inversion L; assumption.
      + intros L. apply V in L. destruct L as [L|(m & L)]; [inversion L|discriminate].
    - apply (kinds_same (goes s t (Out p))); auto. apply kinds_goes; [exact K| |].
      + intros L. apply C in L. inversion L; assumption.
      + intros L. apply V in L. destruct L as [L|(m & L)]; [inversion L|discriminate].
    - apply kinds_goes; [apply kinds_takes; [exact K|]| |].
      + intros L. apply C in L. inversion L; assumption.
      + intros L. apply C in L. inversion L; assumption.
      + intros L. apply V in L. left. destruct L as [L|(m & L)]; [inversion L; assumption|discriminate].
    - apply kinds_goes; [apply kinds_frees, K| |].
      + intros L. apply C in L. inversion L; assumption.
      + intros L. apply V in L. left. destruct L as [L|(m & L)]; [inversion L; assumption|discriminate].
    - apply kinds_goes; [exact K| |].
      + intros L. apply C in L. inversion L; assumption.
      + intros L. apply V in L. destruct L as [L|(m & L)]; [inversion L|discriminate].
    - apply kinds_goes; [exact K| |].
      + intros L. apply C in L. inversion L; assumption.
      + intros L. apply V in L. destruct L as [L|(m & L)]; [inversion L|discriminate].
    - apply kinds_goes; [apply kinds_takes; [exact K|intros _; exact Logic.I]| |].
      + intros L. apply C in L. inversion L; assumption.
      + intros L. apply V in L. destruct L as [L|(m & L)]; [inversion L|discriminate].
    - apply kinds_goes; [apply kinds_takes; [exact K|intros _; exact Logic.I]| |].
      + intros L. apply C in L. inversion L; assumption.
      + intros L. apply V in L. destruct L as [L|(m & L)]; [inversion L|discriminate].
    - apply kinds_goes; [apply kinds_takes; [exact K|intros _; exact Logic.I]| |].
      + intros L. apply C in L. inversion L.
      + intros L. apply V in L. destruct L as [L|(m & L)]; [inversion L; subst; cbn; auto|discriminate].
    - apply kinds_goes; [exact K| |].
      + intros L. apply C in L. inversion L.
      + intros L. apply V in L. left. destruct L as [L|(m & L)]; [inversion L; assumption|discriminate].
    - apply kinds_goes; [apply kinds_takes; [exact K|intros _; exact Logic.I]| |].
      + intros L. apply C in L. inversion L.
      + intros L. apply V in L. destruct L as [L|(m & L)]; [inversion L; subst; cbn; auto|discriminate].
    - apply kinds_goes; [exact K| |].
      + intros L. apply C in L. inversion L.
      + intros L. apply V in L. left. destruct L as [L|(m & L)]; [inversion L; assumption|discriminate].
    - apply kinds_goes; [apply (kinds_same s); auto| |].
      + intros L. exact (C L).
      + intros L. apply V in L. destruct L as [L1 L2]. inversion L1 as [|f' Pl]; subst f'. split; [eapply Pl, E|exact L2].
    - apply kinds_goes; [apply kinds_frees, K| |].
      + intros L. exact (C L v).
      + intros L. left. apply (V L).
    - apply kinds_goes; [apply (kinds_same s); auto| |].
      + intros L. exact (C L).
      + intros L. exact (V L).
    - apply kinds_goes; [apply kinds_frees, K| |].
      + intros L. exact (C L v).
      + intros L. left. apply (V L).
    - apply kinds_goes; [apply (kinds_same s); auto| |].
      + intros L. apply C in L. inversion L; cbn; auto.
      + intros L. apply V in L. destruct L as [L|(m' & L)]; [inversion L|discriminate].
    - apply kinds_goes; [exact K| |].
      + intros L. apply C in L. inversion L; cbn; auto.
      + intros L. apply V in L. destruct L as [L|(m & L)]; [inversion L|discriminate].
    - apply kinds_goes; [apply kinds_spawn; assumption| |].
      + intros L. exact (C L).
      + cbn. intros L. assert (L' : (base <= t < next (life s))%nat).
        { split; [lia|]. destruct (Nat.lt_ge_cases t (next (life s))) as [Y|Y]; [exact Y|]. rewrite (s_fresh _ Sa t Y) in T. discriminate. }
        apply V in L'. destruct L' as [L1 _]. inversion L1.
    - apply kinds_goes; [apply (kinds_same s); auto| |].
      + intros L. exact (C L).
      + intros L. apply V in L. destruct L as [L1 _]. inversion L1.
    - apply kinds_goes; [exact K| |].
      + intros L. exact (C L).
      + intros L. apply V in L. destruct L as [L1 _]. inversion L1.
    - apply (kinds_same s); auto.
    - apply kinds_goes; [exact K| |].
      + intros L. exact (C L).
      + intros L. apply V in L. destruct L as [L1 _]. inversion L1.
    - apply kinds_goes; [apply (kinds_same s); auto| |].
      + cbn. intros n' k0 t'. destruct (_ && _); [intros []|auto].
      + intros L. exact (C L).
      + intros L. apply V in L. destruct L as [L1 _]. inversion L1.
    - apply kinds_goes; [exact K| |]; [intros L; apply C in L; inversion L|intros _; left; constructor].
    - apply kinds_goes; [exact K| |]; [intros L; apply C in L; inversion L|intros _; left; constructor].
    - apply kinds_goes; [exact K| |]; [intros L; apply C in L; inversion L|intros _; left; constructor].
    - apply kinds_goes; [exact K| |]; [intros L; apply C in L; inversion L|intros _; left; constructor].
    - assert (X : kinds (goes s t (Out (Deliver (msg_set_from m from))))) by (apply kinds_goes; [exact K|intros L; apply C in L; inversion L|intros _; right; eauto]).
      apply (kinds_same (goes s t (Out (Deliver (msg_set_from m from))))); auto.
    - apply kinds_goes; [apply kinds_takes; [exact K|]| |]; [intros L; apply C in L; inversion L|intros L; apply C in L; inversion L|intros _; left; apply deliver_serving].
  Qed.

  (** ** Executions *)

  Definition ok s : Prop := (exists a, rel s a) /\ sane s /\ kinds s.
  Lemma steps_trans net s s' s'' : steps db what net s s' -> steps db what net s' s'' -> steps db what net s s''.
  Proof. intros A B. induction B as [|s0 s1 s2 B IH St]; [exact A|]. eapply steps_step; [apply IH, A|exact St]. Qed.
  Lemma step_run net s s' : step db what net s s' -> steps db what net s s'.
  Proof. intros A. eapply steps_step; [constructor|exact A]. Qed.
  Lemma ok_step net s s' : ok s -> step db what net s s' -> ok s'.
  Proof.
    intros ([a R] & Sa & K) St. destruct (simulate db what net _ _ _ R Sa St) as (a' & _ & R').
    split; [exists a'; exact R'|]. split; [exact (sane_step db what net s a s' R Sa St)|exact (kinds_step net s s' K Sa St)].
  Qed.
  Lemma ok_steps net s s' : ok s -> steps db what net s s' -> ok s'.
  Proof. intros K St. induction St as [|s0 s1 s2 St IH S1]; [exact K|]. eapply ok_step; [apply IH, K|exact S1]. Qed.
  Lemma ok_begins net ns cs xs s : base = length xs -> down ns -> steps db what net (begins ns cs xs) s -> ok s.
  Proof.
    intros E D. apply ok_steps. split; [exists (a_begins ns cs (length xs)); apply rel_begins, D|]. split; [apply sane_begins|apply kinds_begins, E].
  Qed.

  (** No datagrams arrive. *)
  Notation run := (steps db what false).

  (** The threads in [T] are where they were. *)
  Definition spare (T : nat -> Prop) s s' : Prop :=
    forall t, T t -> threads s' t = threads s t /\ forall l, owner s' l = Some t <-> owner s l = Some t.
  Lemma spare_refl T s : spare T s s.
  Proof. intros t _. split; [reflexivity|]. tauto. Qed.
  Lemma spare_trans T s s' s'' : spare T s s' -> spare T s' s'' -> spare T s s''.
  Proof.
    intros A B t Tt. destruct (A t Tt) as [A1 A2], (B t Tt) as [B1 B2]. split; [congruence|]. intros l. rewrite B2. apply A2.
  Qed.
  Lemma spare_weak (T T' : nat -> Prop) s s' : (forall t, T t -> T' t) -> spare T' s s' -> spare T s s'.
  Proof. intros W A t Tt. apply A, W, Tt. Qed.

  Definition except (t : nat) : nat -> Prop := fun t' => t' <> t.
  Lemma goes_spare s t x : spare (except t) s (goes s t x).
  Proof. intros t' Ne. split; [cbn; unfold upd; destruct (Nat.eqb_spec t' t); [contradiction|reflexivity]|cbn; tauto]. Qed.
  Lemma takes_spare s l t : owner s l = None -> spare (except t) s (takes s l t).
  Proof.
    intros Ow t' Ne. split; [reflexivity|]. intros l'. cbn. unfold set_owner. destruct (ModelLocks.lock_eq_dec l' l) as [->|]; [|tauto].
    rewrite Ow. split; [intros [= X]; congruence|discriminate].
  Qed.
  Lemma frees_spare s l t : owner s l = Some t -> spare (except t) s (frees s l).
  Proof.
    intros Ow t' Ne. split; [reflexivity|]. intros l'. cbn. unfold set_owner. destruct (ModelLocks.lock_eq_dec l' l) as [->|]; [|tauto].
    rewrite Ow. split; [discriminate|intros [= X]; congruence].
  Qed.
  Lemma dies_spare s t : spare (except t) s (dies s t).
  Proof.
    intros t' Ne. split; [cbn; unfold upd; destruct (Nat.eqb_spec t' t); [contradiction|reflexivity]|].
    intros l. cbn. unfold mine. destruct (owner s l) as [t0|]; [|tauto]. destruct (Nat.eqb_spec t0 t) as [->|]; [|tauto].
    split; [discriminate|intros [= X]; congruence].
  Qed.
  Lemma goes_at s t x : threads (goes s t x) t = x.
  Proof. cbn. unfold upd. rewrite Nat.eqb_refl. reflexivity. Qed.
  Lemma dies_at s t : threads (dies s t) t = Dead.
  Proof. cbn. unfold upd. rewrite Nat.eqb_refl. reflexivity. Qed.
  Lemma dies_frees s t l : owner s l = Some t -> owner (dies s t) l = None.
  Proof. intros Ow. cbn. unfold mine. rewrite Ow, Nat.eqb_refl. reflexivity. Qed.

  (** A run in which nothing happens to the threads in [T] and no thread begins,
      is told to end, or gets an observer. *)
  Definition qrun (T : nat -> Prop) s s' : Prop := run s s' /\ spare T s s' /\ life s' = life s /\ flags s' = flags s.
  Lemma qrun_refl T s : qrun T s s.
  Proof. split; [constructor|]. split; [apply spare_refl|]. auto. Qed.
  Lemma qrun_trans T s s' s'' : qrun T s s' -> qrun T s' s'' -> qrun T s s''.
  Proof.
    intros (A & B & C & D) (A' & B' & C' & D'). split; [eapply steps_trans; eauto|]. split; [eapply spare_trans; eauto|]. split; congruence.
  Qed.
  Lemma qrun_weak (T T' : nat -> Prop) s s' : (forall t, T t -> T' t) -> qrun T' s s' -> qrun T s s'.
  Proof. intros W (A & B & C & D). split; [exact A|]. split; [eapply spare_weak; eauto|]. auto. Qed.
  Lemma qrun_ok T s s' : ok s -> qrun T s s' -> ok s'.
  Proof. intros K (A & _). eapply ok_steps; eauto. Qed.
  Lemma qrun_step T s s' : step db what false s s' -> spare T s s' -> life s' = life s -> flags s' = flags s -> qrun T s s'.
  Proof. intros A B C D. split; [apply step_run, A|]. auto. Qed.

  Definition below (r : nat) s : nat -> Prop := fun t => forall l, owner s l = Some t -> (rank l < r)%nat.

  (** Thread [t] has left the section of [L], or has panicked. *)
  Definition left s s' t (L : lock) (k : answer -> prog U) : Prop :=
    (exists v, threads s' t = Out (k v) /\ owner s' L = None /\ forall l, l <> L -> owner s l = Some t -> owner s' l = Some t) \/
    threads s' t = Dead /\ forall l, owner s l = Some t -> owner s' l = None.

  Lemma done_node s n t v k : ok s -> threads s t = InNode n (Done v) k ->
    let s' := goes (frees s (LNode n)) t (Out (k v)) in qrun (except t) s s' /\ left s s' t (LNode n) k.
  Proof.
    intros K T s'. destruct K as ([a R] & _). pose proof (inside_node db _ _ _ _ _ _ R T) as Ow. split.
    - apply qrun_step; [apply st_node_done; exact T| |reflexivity|reflexivity]. eapply spare_trans; [apply frees_spare, Ow|apply goes_spare].
    - left. exists v. split; [apply goes_at|]. cbn. unfold set_owner. split.
      + destruct (ModelLocks.lock_eq_dec (LNode n) (LNode n)); [reflexivity|contradiction].
      + intros l Ne. destruct (ModelLocks.lock_eq_dec l (LNode n)); [contradiction|auto].
  Qed.
  Lemma panic_left s t L k : left s (dies s t) t L k.
  Proof. right. split; [apply dies_at|]. intros l. apply dies_frees. Qed.

  (** The statements of a critical section come to an end. *)
  Lemma body_plain b : plain b -> forall s n t k, ok s -> threads s t = InNode n b k ->
    exists s', qrun (except t) s s' /\ left s s' t (LNode n) k.
  Proof.
    induction 1 as [v|f Pl IH]; intros s n t k K T.
    - eexists. exact (done_node s n t v k K T).
    - destruct (f (nodes s n)) as [[d b]|] eqn:E.
      + set (s1 := goes (with_node s n d) t (InNode n b k)).
        assert (Q : qrun (except t) s s1) by (apply qrun_step; [eapply st_node_stmt; eauto|exact (goes_spare s t _)|reflexivity|reflexivity]).
        destruct (IH _ _ _ E s1 n t k (qrun_ok _ _ _ K Q) (goes_at _ _ _)) as (s' & A & C).
        exists s'. split; [eapply qrun_trans; eauto|exact C].
      + exists (dies s t). split; [apply qrun_step; [eapply st_node_panic; eauto|apply dies_spare|reflexivity|reflexivity]|apply panic_left].
  Qed.
  Lemma cbody_ind (Q : cbody -> Prop) :
    (forall r, Q (Done r)) -> (forall f, (forall x x' b, f x = Ret (x', b) -> Q b) -> Q (Stmt f)) -> forall b, Q b.
  Proof.
    intros D St. fix F 1. intros [r|f|[]]; [apply D|]. apply St. intros x x' b E.
    pose proof (match f x as o return match o with Ret (_, b) => Q b | Panic => True end with Ret (_, b) => F b | Panic => Logic.I end) as X.
    rewrite E in X. exact X.
  Qed.
  Lemma body_ctrl b : forall s n t k, ok s -> threads s t = InCtrl n b k ->
    exists s', qrun (except t) s s' /\ left s s' t (Dev n) k.
  Proof.
    induction b as [v|f IH] using cbody_ind; intros s n t k K T.
    - exists (goes (frees s (Dev n)) t (Out (k v))). destruct K as ([a R] & _). pose proof (inside_ctrl db _ _ _ _ _ _ R T) as Ow. split.
      + apply qrun_step; [apply st_ctrl_done; exact T| |reflexivity|reflexivity]. eapply spare_trans; [apply frees_spare, Ow|apply goes_spare].
      + left. exists v. split; [apply goes_at|]. cbn. unfold set_owner. split.
        * destruct (ModelLocks.lock_eq_dec (Dev n) (Dev n)); [reflexivity|contradiction].
        * intros l Ne. destruct (ModelLocks.lock_eq_dec l (Dev n)); [contradiction|auto].
    - destruct (f (ctrls s n)) as [[d b]|] eqn:E.
      + set (s1 := goes (with_ctrl s n d) t (InCtrl n b k)).
        assert (Q : qrun (except t) s s1) by (apply qrun_step; [eapply st_ctrl_stmt; eauto|exact (goes_spare s t _)|reflexivity|reflexivity]).
        destruct (IH _ _ _ E s1 n t k (qrun_ok _ _ _ K Q) (goes_at _ _ _)) as (s' & A & C).
        exists s'. split; [eapply qrun_trans; eauto|exact C].
      + exists (dies s t). split; [apply qrun_step; [eapply st_ctrl_panic; eauto|apply dies_spare|reflexivity|reflexivity]|apply panic_left].
  Qed.

  (* ---------------------------------------------------------------- *)
  (** ** What a thread may hold where *)

  Lemma holds_nothing s t p : ok s -> threads s t = Out p ->
    match p with Halt | Enter _ _ | Leave _ _ _ | Attempt _ _ _ | OnCtrl _ _ _ | Await _ _ _ | Again | Recv | Deliver _ | Over => True | _ => False end -> forall l, owner s l <> Some t.
  Proof.
    intros ([a R] & _) T Sh l Ow. destruct (out_fits db _ _ _ _ R T) as (H & ND & Ho & Hn & F). apply Ho in Ow.
    destruct p; try contradiction; inversion F as [| | | | | | |H' c' n' f b' k' Ef Eb Nin In1 In2 F' E1 E2 E3| | | | | | | | | |]; subst; try (destruct Ow; fail).
    assert (I1 : In l (locks_of c')) by (apply In1; right; exact Ow). destruct c'; cbn in Ef; try discriminate.
    injection Ef as -> _. destruct I1 as [<-|[]]. contradiction.
  Qed.
  Lemma dead_holds s t : ok s -> threads s t = Dead -> forall l, owner s l <> Some t.
  Proof.
    intros ([a R] & _) T l Ow. destruct (r_thr _ _ _ R t) as (H & ND & Ho & F). unfold tfits in F. rewrite T in F. destruct F as [-> _].
    apply Ho in Ow. destruct Ow.
  Qed.
  Lemma lock_above s t l p : ok s -> threads s t = Out (Lock l p) -> forall l', owner s l' = Some t -> (rank l' < rank l)%nat.
  Proof.
    intros ([a R] & _) T l' Ow. destruct (out_fits db _ _ _ _ R T) as (H & ND & Ho & Hn & F). apply Ho in Ow.
    inversion F as [| | |H' c l0 p' N1 N2 In1 F' E1 E2 E3| | | | |H' m r w p' Nd Nr F' E1 E2 E3| | | | | | | | |]; subst.
    - exfalso. assert (I1 : In l (locks_of c)) by (apply In1; left; reflexivity). assert (I2 : In l' (locks_of c)) by (apply In1; right; exact Ow).
      rewrite Forall_forall in Hn. apply Hn in Ow as Nn.
      assert (X : forall x, In x (locks_of c) -> ~ is_node x -> forall y, In y (locks_of c) -> ~ is_node y -> x = y).
      { clear. destruct c; try (match goal with d : option nat |- _ => destruct d end); cbn; intros x Ix Nx y Iy Ny; repeat (destruct Ix as [<-|Ix]; [try (exfalso; apply Nx; exact Logic.I)|]); try destruct Ix;
          repeat (destruct Iy as [<-|Iy]; [try (exfalso; apply Ny; exact Logic.I)|]); try destruct Iy; reflexivity. }
      apply N1. rewrite (X l I1 N2 l' I2 Nn). exact Ow.
    - rewrite Forall_forall in Nr. apply Nr, Ow.
  Qed.
  Lemma unlock_owned s t l p : ok s -> threads s t = Out (Unlock l p) -> owner s l = Some t.
  Proof.
    intros ([a R] & _) T. destruct (out_fits db _ _ _ _ R T) as (H & ND & Ho & Hn & F). apply Ho.
    inversion F; subst; left; reflexivity.
  Qed.
  Lemma outside_no_node s t p : ok s -> threads s t = Out p -> forall l, owner s l = Some t -> ~ is_node l.
  Proof.
    intros ([a R] & _) T l Ow. destruct (out_fits db _ _ _ _ R T) as (H & ND & Ho & Hn & F). rewrite Forall_forall in Hn. apply Hn, Ho, Ow.
  Qed.
  Lemma app_below s t : ok s -> (t < base)%nat -> below 2 s t.
  Proof. intros (_ & _ & K) L l Ow. pose proof (k_own _ K l t Ow L). destruct l; cbn in *; try contradiction; lia. Qed.

  (* ---------------------------------------------------------------- *)
  (** ** Receive threads *)

  Definition serving_thread s t : Prop := (base <= t < next (life s))%nat.
  (** At rest: waiting for a datagram without having been told to end, or at the
      end. *)
  Definition parked s t : Prop := threads s t = Out Over \/ threads s t = Dead \/ threads s t = Out Recv /\ flags s t = false.
  (** A thread runs until it is at rest or, with [stop], until it gives the mutex
      back. *)
  Definition rests (stop : option lock) s t : Prop := match stop with Some l => owner s l = None | None => parked s t end.
  Definition held (stop : option lock) s t : Prop := match stop with Some l => owner s l = Some t | None => True end.
  Definition apart s t (T : nat -> Prop) : Prop := forall t', T t' -> t' <> t /\ below 3 s t'.

  Lemma apart_spare s s' t T : apart s t T -> spare T s s' -> apart s' t T.
  Proof.
    intros A B t' Tt. destruct (A t' Tt) as [A1 A2], (B t' Tt) as [_ B2]. split; [exact A1|]. intros l Ow. apply A2, B2, Ow.
  Qed.
  Lemma apart_except s t (T : nat -> Prop) : apart s t T -> forall t', T t' -> except t t'.
  Proof. intros A t' Tt. apply (A t' Tt). Qed.

  Definition wraps_free : Prop := forall w s, ok s -> exists s', qrun (below 3 s) s s' /\ owner s' (Wrap w) = None.

  Section Serve.
    Variable stop : option lock.
    Hypothesis Free : match stop with Some l => (rank l < 3)%nat -> wraps_free | None => wraps_free end.
    Definition goal1 s t (T : nat -> Prop) : Prop := exists s', qrun T s s' /\ rests stop s' t.

    Lemma after1 s s' t T : qrun T s s' -> goal1 s' t T -> goal1 s t T.
    Proof. intros A (s'' & C & D). exists s''. split; [eapply qrun_trans; eauto|exact D]. Qed.
    Lemma panic1 s t T : step db what false s (dies s t) -> held stop s t -> apart s t T -> goal1 s t T.
    Proof.
      intros St Hd Sf. exists (dies s t). split.
      - eapply qrun_weak; [apply (apart_except _ _ _ Sf)|]. apply qrun_step; [exact St|apply dies_spare|reflexivity|reflexivity].
      - unfold rests, held in *. destruct stop; [apply dies_frees, Hd|right; left; apply dies_at].
    Qed.
    Lemma section1 s s' t T L k : ok s -> qrun (except t) s s' -> left s s' t L k -> held stop s t -> apart s t T ->
      (forall v s, ok s -> threads s t = Out (k v) -> held stop s t -> apart s t T -> goal1 s t T) -> goal1 s t T.
    Proof.
      intros K A C Hd Sf IH. assert (A' : qrun T s s') by (eapply qrun_weak; [apply (apart_except _ _ _ Sf)|exact A]).
      eapply after1; [exact A'|]. destruct C as [(v & C1 & C2 & C3)|[C1 C2]].
      - assert (X : stop = Some L \/ stop <> Some L) by (destruct stop as [l0|]; [destruct (ModelLocks.lock_eq_dec l0 L); [left|right]; congruence|right; discriminate]).
        destruct X as [X|X].
        + exists s'. split; [apply qrun_refl|]. unfold rests. rewrite X. exact C2.
        + eapply IH; [eapply qrun_ok; eauto|exact C1| |eapply apart_spare; [exact Sf|apply A']].
          unfold held in *. destruct stop as [l0|]; [|exact Logic.I]. apply C3; [congruence|exact Hd].
      - exists s'. split; [apply qrun_refl|]. unfold rests, held in *. destruct stop as [l0|]; [apply C2, Hd|right; left; exact C1].
    Qed.
    Lemma one1 s t T x : ok s -> step db what false s (goes s t x) -> held stop s t -> apart s t T ->
      (ok (goes s t x) -> held stop (goes s t x) t -> apart (goes s t x) t T -> goal1 (goes s t x) t T) -> goal1 s t T.
    Proof.
      intros K St Hd Sf IH.
      assert (Q : qrun T s (goes s t x)).
      { eapply qrun_weak; [apply (apart_except _ _ _ Sf)|]. apply qrun_step; [exact St|apply goes_spare|reflexivity|reflexivity]. }
      eapply after1; [exact Q|]. apply IH; [eapply ok_step; eauto| |eapply apart_spare; [exact Sf|apply Q]].
      unfold held in *. destruct stop; [exact Hd|exact Logic.I].
    Qed.
    Lemma nothing_held s t p : ok s -> threads s t = Out p -> held stop s t ->
      match p with Again | Recv | Deliver _ | Over => True | _ => False end -> stop = None.
    Proof.
      intros K T Hd Sh. unfold held in Hd. destruct stop as [l|]; [|reflexivity]. exfalso.
      eapply (holds_nothing s t p K T); [destruct p; try contradiction; exact Logic.I|exact Hd].
    Qed.

    Lemma to_recv s t T : ok s -> threads s t = Out Again -> held stop s t -> apart s t T -> goal1 s t T.
    Proof.
      intros K Tx Hd Sf. assert (N : stop = None) by (eapply nothing_held; eauto; exact Logic.I).
      destruct (flags s t) eqn:Fl.
      - exists (goes s t (Out Over)). split.
        + eapply qrun_weak; [apply (apart_except _ _ _ Sf)|]. apply qrun_step; [apply st_over; assumption|apply goes_spare|reflexivity|reflexivity].
        + rewrite N. left. apply goes_at.
      - exists (goes s t (Out Recv)). split.
        + eapply qrun_weak; [apply (apart_except _ _ _ Sf)|]. apply qrun_step; [apply st_again; assumption|apply goes_spare|reflexivity|reflexivity].
        + rewrite N. right. right. split; [apply goes_at|exact Fl].
    Qed.

    Lemma serve_on p : serving p -> forall s t T, ok s -> threads s t = Out p -> held stop s t -> apart s t T -> goal1 s t T.
    Proof.
      induction 1 as [| | |w p Sv IH|l p Sv IH|n b p Pl Sv IH|c b p Sv IH]; intros s t T K Tx Hd Sf.
      - apply to_recv; assumption.
      - assert (N : stop = None) by (eapply nothing_held; eauto; exact Logic.I). destruct (flags s t) eqn:Fl.
        + eapply (one1 s t T (Out Again)); try eassumption; [apply st_nothing, Tx|]. intros K' Hd' Sf'. apply to_recv; auto. apply goes_at.
        + exists s. split; [apply qrun_refl|]. rewrite N. right. right. auto.
      - assert (N : stop = None) by (eapply nothing_held; eauto; exact Logic.I).
        exists s. split; [apply qrun_refl|]. rewrite N. left. exact Tx.
      - assert (W : wraps_free).
        { revert Free Hd. unfold held. destruct stop as [l|]; [|auto]. intros Free' Hd'. apply Free'. apply (lock_above _ _ _ _ K Tx l Hd'). }
        destruct (W w s K) as (s1 & Q & Ow).
        assert (Bt : below 3 s t) by (intros l Ol; apply (lock_above _ _ _ _ K Tx l Ol)).
        destruct Q as (Q1 & Q2 & Q3). destruct (Q2 t Bt) as [T1 O1].
        assert (Q : qrun T s s1) by (split; [exact Q1|]; split; [|exact Q3]; eapply spare_weak; [|exact Q2]; intros t' Tt; apply (Sf t' Tt)).
        eapply after1; [exact Q|]. pose proof (apart_spare _ _ _ _ Sf (proj1 (proj2 Q))) as Sf1. pose proof (qrun_ok _ _ _ K Q) as K1.
        assert (Hd1 : held stop s1 t) by (unfold held in *; destruct stop; [apply O1, Hd|exact Logic.I]).
        rewrite Tx in T1. destruct (poisoned s1 (Wrap w)) eqn:Po.
        + apply panic1; try assumption. eapply st_lock_poisoned; eauto.
        + assert (Q' : qrun T s1 (goes (takes s1 (Wrap w) t) t (Out p))).
          { eapply qrun_weak; [apply (apart_except _ _ _ Sf)|]. apply qrun_step; [apply st_lock; assumption| |reflexivity|reflexivity].
            eapply spare_trans; [apply takes_spare, Ow|apply goes_spare]. }
          eapply after1; [exact Q'|].
          eapply IH; [eapply qrun_ok; eauto|apply goes_at| |eapply apart_spare; [exact Sf1|apply Q']].
          unfold held in *. destruct stop as [l0|]; [|exact Logic.I]. cbn. unfold set_owner. destruct (ModelLocks.lock_eq_dec l0 (Wrap w)); [reflexivity|exact Hd1].
      - pose proof (unlock_owned _ _ _ _ K Tx) as Ow.
        assert (Q : qrun T s (goes (frees s l) t (Out p))).
        { eapply qrun_weak; [apply (apart_except _ _ _ Sf)|]. apply qrun_step; [apply st_unlock; assumption| |reflexivity|reflexivity].
          eapply spare_trans; [apply frees_spare, Ow|apply goes_spare]. }
        eapply after1; [exact Q|].
        assert (X : stop = Some l \/ stop <> Some l) by (destruct stop as [l0|]; [destruct (ModelLocks.lock_eq_dec l0 l); [left|right]; congruence|right; discriminate]).
        destruct X as [X|X].
        + eexists. split; [apply qrun_refl|]. unfold rests. rewrite X. cbn. unfold set_owner.
          destruct (ModelLocks.lock_eq_dec l l); [reflexivity|contradiction].
        + eapply IH; [eapply qrun_ok; eauto|apply goes_at| |eapply apart_spare; [exact Sf|apply Q]].
          unfold held in *. destruct stop as [l0|]; [|exact Logic.I]. cbn. unfold set_owner. destruct (ModelLocks.lock_eq_dec l0 l); [congruence|exact Hd].
      - assert (X : owner s (LNode n) = None /\ poisoned s (LNode n) = false \/ owner s (LNode n) <> None \/ poisoned s (LNode n) = true).
        { destruct (owner s (LNode n)); [right; left; discriminate|]. destruct (poisoned s (LNode n)); auto. }
        destruct X as [[Ow Po]|X].
        + set (s1 := goes (takes s (LNode n) t) t (InNode n b (fun _ => p))).
          assert (Q : qrun T s s1).
          { eapply qrun_weak; [apply (apart_except _ _ _ Sf)|]. apply qrun_step; [apply st_try_node; assumption| |reflexivity|reflexivity].
            eapply spare_trans; [apply takes_spare, Ow|apply goes_spare]. }
          pose proof (qrun_ok _ _ _ K Q) as K1. eapply after1; [exact Q|].
          destruct (body_plain b Pl s1 n t (fun _ => p) K1 (goes_at _ _ _)) as (s2 & A & C).
          eapply section1; [exact K1|exact A|exact C| |eapply apart_spare; [exact Sf|apply Q]|intros v s0; exact (IH s0 t T)].
          unfold held in *. destruct stop as [l0|]; [|exact Logic.I]. cbn. unfold set_owner. destruct (ModelLocks.lock_eq_dec l0 (LNode n)); [reflexivity|exact Hd].
        + eapply (one1 s t T (Out p)); try eassumption; [eapply st_try_node_fails; eauto|].
          intros K' Hd' Sf'. eapply IH; eauto. apply goes_at.
      - assert (X : owner s (Dev c) = None /\ poisoned s (Dev c) = false \/ owner s (Dev c) <> None \/ poisoned s (Dev c) = true).
        { destruct (owner s (Dev c)); [right; left; discriminate|]. destruct (poisoned s (Dev c)); auto. }
        destruct X as [[Ow Po]|X].
        + set (s1 := goes (takes s (Dev c) t) t (InCtrl c b (fun _ => p))).
          assert (Q : qrun T s s1).
          { eapply qrun_weak; [apply (apart_except _ _ _ Sf)|]. apply qrun_step; [apply st_try_ctrl; assumption| |reflexivity|reflexivity].
            eapply spare_trans; [apply takes_spare, Ow|apply goes_spare]. }
          pose proof (qrun_ok _ _ _ K Q) as K1. eapply after1; [exact Q|].
          destruct (body_ctrl b s1 c t (fun _ => p) K1 (goes_at _ _ _)) as (s2 & A & C).
          eapply section1; [exact K1|exact A|exact C| |eapply apart_spare; [exact Sf|apply Q]|intros v s0; exact (IH s0 t T)].
          unfold held in *. destruct stop as [l0|]; [|exact Logic.I]. cbn. unfold set_owner. destruct (ModelLocks.lock_eq_dec l0 (Dev c)); [reflexivity|exact Hd].
        + eapply (one1 s t T (Out p)); try eassumption; [eapply st_try_ctrl_fails; eauto|].
          intros K' Hd' Sf'. eapply IH; eauto. apply goes_at.
    Qed.

    Lemma serve_any s t T : ok s -> serving_thread s t -> held stop s t -> apart s t T -> goal1 s t T.
    Proof.
      intros K Sv Hd Sf. pose proof (k_serves _ (proj2 (proj2 K)) t Sv) as V.
      destruct (threads s t) as [p|n b k|n b k|] eqn:Tx.
      - destruct V as [V|(m & ->)]; [eapply serve_on; eauto|].
        assert (Ow : owner s (Notif t) = None).
        { destruct (owner s (Notif t)) as [t'|] eqn:Ow; [|reflexivity]. pose proof (s_own _ (proj1 (proj2 K)) _ _ Ow). subst t'.
          exfalso. eapply (holds_nothing s t _ K Tx Logic.I), Ow. }
        assert (Po : poisoned s (Notif t) = false).
        { destruct (poisoned s (Notif t)) eqn:Po; [|reflexivity]. apply (s_dead _ (proj1 (proj2 K))) in Po. congruence. }
        set (s1 := goes (takes s (Notif t) t) t (Out (deliver_prog db t (map what (regs (life s) t)) m))).
        assert (Q : qrun T s s1).
        { eapply qrun_weak; [apply (apart_except _ _ _ Sf)|]. apply qrun_step; [apply st_deliver; assumption| |reflexivity|reflexivity].
          eapply spare_trans; [apply takes_spare, Ow|apply goes_spare]. }
        eapply after1; [exact Q|].
        eapply serve_on; [apply deliver_serving|eapply qrun_ok; eauto|apply goes_at| |eapply apart_spare; [exact Sf|apply Q]].
        unfold held in *. destruct stop as [l0|]; [|exact Logic.I]. cbn. unfold set_owner. destruct (ModelLocks.lock_eq_dec l0 (Notif t)); [reflexivity|exact Hd].
      - destruct V as [Pl V]. destruct (body_plain b Pl s n t k K Tx) as (s1 & A & C).
        eapply section1; eauto. intros v s2 K2 T2. apply (serve_on (k v)); auto.
      - destruct (body_ctrl b s n t k K Tx) as (s1 & A & C).
        eapply section1; eauto. intros v s2 K2 T2. apply (serve_on (k v)); auto.
      - exists s. split; [apply qrun_refl|]. unfold rests, held in *. destruct stop as [l0|]; [|right; left; exact Tx].
        exfalso. eapply dead_holds; eauto.
    Qed.
  End Serve.

  Lemma owner_kind s l t : ok s -> owner s l = Some t -> (t < base)%nat \/ serving_thread s t.
  Proof.
    intros K Ow. destruct (Nat.lt_ge_cases t base) as [L|L]; [auto|]. right. split; [exact L|].
    destruct (Nat.lt_ge_cases t (next (life s))) as [M|M]; [exact M|]. exfalso.
    eapply (holds_nothing s t Halt K); [apply (s_fresh _ (proj1 (proj2 K))), M|exact Logic.I|exact Ow].
  Qed.
  Lemma wraps : wraps_free.
  Proof.
    intros w s K. destruct (owner s (Wrap w)) as [t|] eqn:Ow; [|exists s; split; [apply qrun_refl|exact Ow]].
    destruct (owner_kind _ _ _ K Ow) as [L|Sv]; [destruct (k_own _ (proj2 (proj2 K)) _ _ Ow L)|].
    destruct (serve_any (Some (Wrap w))) with (s := s) (t := t) (T := below 3 s) as (s' & A & B); auto.
    - cbn. lia.
    - intros t' Bl. split; [|exact Bl]. intros ->. apply Bl in Ow. cbn in Ow. lia.
    - exists s'. auto.
  Qed.
  (** A receive thread gives a mutex back, and comes to rest. *)
  Lemma release s t l : ok s -> serving_thread s t -> owner s l = Some t ->
    exists s', qrun (fun t' => t' <> t /\ below 3 s t') s s' /\ owner s' l = None.
  Proof.
    intros K Sv Ow. destruct (serve_any (Some l)) with (s := s) (t := t) (T := fun t' => t' <> t /\ below 3 s t') as (s' & A & B); auto.
    - intros _. exact wraps.
    - intros t' X. exact X.
    - exists s'. auto.
  Qed.
  Lemma park s t : ok s -> serving_thread s t -> exists s', qrun (fun t' => t' <> t /\ below 3 s t') s s' /\ parked s' t.
  Proof.
    intros K Sv. destruct (serve_any None) with (s := s) (t := t) (T := fun t' => t' <> t /\ below 3 s t') as (s' & A & B); auto.
    - exact wraps.
    - exact Logic.I.
    - intros t' X. exact X.
    - exists s'. auto.
  Qed.

  (* ---------------------------------------------------------------- *)
  (** ** Threads of the application *)

  Definition around (t : nat) : nat -> Prop := fun t' => t' <> t /\ (t' < base)%nat.
  Lemma except_around t t' : around t t' -> except t t'.
  Proof. intros [A _]. exact A. Qed.
  Lemma app_spare s s' t (Q : qrun (fun t' => t' <> t /\ below 3 s t') s s') : ok s -> serving_thread s t -> spare (fun t' => (t' < base)%nat) s s'.
  Proof.
    intros K Sv. destruct Q as (_ & Sp & _). eapply spare_weak; [|exact Sp]. intros t' L. split; [unfold serving_thread in Sv; lia|].
    intros l Ow. pose proof (app_below s t' K L l Ow). lia.
  Qed.
  Definition leaves s n t k : Prop := exists s', run s s' /\ spare (around t) s s' /\ left s s' t (LNode n) k.
  Lemma leaves_after s s1 n t k : run s s1 -> spare (around t) s s1 -> (forall l, owner s l = Some t -> owner s1 l = Some t) -> leaves s1 n t k -> leaves s n t k.
  Proof.
    intros A B C (s' & A' & B' & L). exists s'. split; [eapply steps_trans; eauto|]. split; [eapply spare_trans; eauto|].
    destruct L as [(v & L1 & L2 & L3)|[L1 L2]]; [left; exists v; auto|right; auto].
  Qed.
  Lemma leaves_panic s n t k : step db what false s (dies s t) -> leaves s n t k.
  Proof.
    intros St. exists (dies s t). split; [apply step_run, St|]. split; [eapply spare_weak; [apply except_around|apply dies_spare]|apply panic_left].
  Qed.
  Lemma nbody_ind (Q : nbody U -> Prop) :
    (forall r, Q (Done r)) -> (forall f, (forall x x' b, f x = Ret (x', b) -> Q b) -> Q (Stmt f)) -> (forall (x : act) b, Q b -> Q (Act x b)) -> forall b, Q b.
  Proof.
    intros D St Ac. fix F 1. intros [r|f|a b]; [apply D| |apply Ac, F]. apply St. intros x x' b E.
    pose proof (match f x as o return match o with Ret (_, b) => Q b | Panic => True end with Ret (_, b) => F b | Panic => Logic.I end) as X.
    rewrite E in X. exact X.
  Qed.

  Lemma registering k' o b n k t (IH : forall s, ok s -> threads s t = InNode n b k -> leaves s n t k) (Lt : (t < base)%nat) m : forall j s, (length (srvs (life s) n k') <= m + j)%nat ->
    ok s -> threads s t = InNode n (Act (Register k' j o) b) k -> leaves s n t k.
  Proof.
    assert (Last : forall j s, ok s -> threads s t = InNode n (Act (Register k' j o) b) k -> nth_error (srvs (life s) n k') j = None -> leaves s n t k).
    { intros j s K T Nt. set (s1 := goes s t (InNode n b k)). assert (St : step db what false s s1) by (eapply st_registered; eauto).
      eapply (leaves_after s s1); [apply step_run, St|eapply spare_weak; [apply except_around|apply goes_spare]|auto|].
      apply IH; [eapply ok_step; eauto|apply goes_at]. }
    induction m as [|m IHm]; intros j s Le K T.
    - apply (Last j s K T). apply nth_error_None. lia.
    - destruct (nth_error (srvs (life s) n k') j) as [t'|] eqn:Nt; [|eapply Last; eauto].
      assert (Sv : serving_thread s t') by (eapply (k_srvs _ (proj2 (proj2 K))), nth_error_In, Nt).
      assert (X : exists s1, run s s1 /\ spare (fun t => (t < base)%nat) s s1 /\ life s1 = life s /\ owner s1 (Notif t') = None).
      { destruct (owner s (Notif t')) as [t0|] eqn:Ow.
        - pose proof (s_own _ (proj1 (proj2 K)) _ _ Ow). subst t0. destruct (release s t' _ K Sv Ow) as (s1 & Q & F).
          exists s1. split; [apply Q|]. split; [eapply app_spare; eauto|]. split; [apply Q|exact F].
        - exists s. split; [constructor|]. split; [apply spare_refl|]. auto. }
      destruct X as (s1 & Rn & Sp & El & Ow). destruct (Sp t Lt) as [Et Eo].
      eapply (leaves_after s s1); [exact Rn|eapply spare_weak; [|exact Sp]; intros t0 [_ X]; exact X|intros l; apply Eo|].
      pose proof (ok_steps _ _ _ K Rn) as K1. rewrite T in Et. rewrite <- El in Nt.
      destruct (poisoned s1 (Notif t')) eqn:Po; [apply leaves_panic; eapply st_register_poisoned; eauto|].
      set (s2 := goes (with_life s1 (register (life s1) t' o)) t (InNode n (Act (Register k' (S j) o) b) k)).
      assert (St : step db what false s1 s2) by (eapply st_register; eauto).
      eapply (leaves_after s1 s2); [apply step_run, St|eapply spare_weak; [apply except_around|exact (goes_spare s1 t _)]|auto|].
      apply (IHm (S j)); [|eapply ok_step; eauto|apply goes_at]. cbn [life goes with_life s2]. rewrite El. cbn. lia.
  Qed.
  Lemma stopping k' b n k t (IH : forall s, ok s -> threads s t = InNode n b k -> leaves s n t k) (Lt : (t < base)%nat) m : forall j s, (length (srvs (life s) n k') <= m + j)%nat ->
    ok s -> threads s t = InNode n (Act (Stop k' j) b) k -> leaves s n t k.
  Proof.
    assert (Last : forall j s, ok s -> threads s t = InNode n (Act (Stop k' j) b) k -> nth_error (srvs (life s) n k') j = None -> leaves s n t k).
    { intros j s K T Nt. set (s1 := goes (with_life s (set_srvs (life s) n k' [])) t (InNode n b k)).
      assert (St : step db what false s s1) by (eapply st_stopped; eauto).
      eapply (leaves_after s s1); [apply step_run, St|eapply spare_weak; [apply except_around|exact (goes_spare s t _)]|auto|].
      apply IH; [eapply ok_step; eauto|apply goes_at]. }
    induction m as [|m IHm]; intros j s Le K T.
    - apply (Last j s K T). apply nth_error_None. lia.
    - destruct (nth_error (srvs (life s) n k') j) as [t'|] eqn:Nt; [|eapply Last; eauto].
      assert (X : exists s0, run s s0 /\ spare (fun t => (t < base)%nat) s s0 /\ life s0 = life s /\ flags s0 t' = true).
      { destruct (flags s t') eqn:Fl; [exists s; split; [constructor|]; split; [apply spare_refl|]; auto|].
        exists (with_flag s t'). split; [apply step_run; eapply st_signal; eauto|]. split; [exact (spare_refl _ s)|]. split; [reflexivity|].
        cbn. unfold upd. rewrite Nat.eqb_refl. reflexivity. }
      destruct X as (s0 & Rn0 & Sp0 & El0 & Fl0). pose proof (ok_steps _ _ _ K Rn0) as K0.
      assert (Sv : serving_thread s0 t') by (unfold serving_thread; rewrite El0; eapply (k_srvs _ (proj2 (proj2 K))), nth_error_In, Nt).
      destruct (park s0 t' K0 Sv) as (s1 & Q & Pk). pose proof (app_spare _ _ _ Q K0 Sv) as Sp1. destruct Q as (Rn1 & _ & El1 & Ef1).
      assert (Rn : run s s1) by (eapply steps_trans; eauto). pose proof (spare_trans _ _ _ _ Sp0 Sp1) as Sp. destruct (Sp t Lt) as [Et Eo].
      assert (El : life s1 = life s) by congruence. rewrite <- Ef1 in Fl0.
      eapply (leaves_after s s1); [exact Rn|eapply spare_weak; [|exact Sp]; intros t0 [_ X]; exact X|intros l; apply Eo|].
      pose proof (ok_steps _ _ _ K Rn) as K1. rewrite T in Et. rewrite <- El in Nt.
      destruct Pk as [Pk|[Pk|[_ Pk]]]; [|apply leaves_panic; eapply st_join_panic; eauto|congruence].
      set (s2 := goes s1 t (InNode n (Act (Stop k' (S j)) b) k)).
      assert (St : step db what false s1 s2) by (eapply st_join; eauto).
      eapply (leaves_after s1 s2); [apply step_run, St|eapply spare_weak; [apply except_around|exact (goes_spare s1 t _)]|auto|].
      apply (IHm (S j)); [|eapply ok_step; eauto|apply goes_at]. cbn [life goes s2]. rewrite El. lia.
  Qed.
  Lemma body_node b : forall s n t k, ok s -> (t < base)%nat -> threads s t = InNode n b k -> leaves s n t k.
  Proof.
    induction b as [v|f IH|a b IH] using nbody_ind; intros s n t k K Lt T.
    - destruct (done_node s n t v k K T) as [(A & B & _) C]. eexists. split; [exact A|]. split; [|exact C].
      eapply spare_weak; [apply except_around|exact B].
    - destruct (f (nodes s n)) as [[d b]|] eqn:E; [|apply leaves_panic; eapply st_node_panic; eauto].
      set (s1 := goes (with_node s n d) t (InNode n b k)). assert (St : step db what false s s1) by (eapply st_node_stmt; eauto).
      eapply (leaves_after s s1); [apply step_run, St|eapply spare_weak; [apply except_around|exact (goes_spare s t _)]|auto|].
      eapply IH; [exact E|eapply ok_step; eauto|exact Lt|apply goes_at].
    - destruct a as [k'|k' j o|k' j].
      + set (s1 := goes (goes (with_life s (spawn (life s) n k')) (next (life s)) (Out Again)) t (InNode n b k)).
        assert (St : step db what false s s1) by (eapply st_spawn; eauto).
        eapply (leaves_after s s1); [apply step_run, St| |auto|].
        * intros t' [Ne L]. split; [|cbn; tauto]. pose proof (k_base _ (proj2 (proj2 K))). cbn. unfold upd.
          destruct (Nat.eqb_spec t' t); [contradiction|]. destruct (Nat.eqb_spec t' (next (life s))); [lia|reflexivity].
        * apply IH; [eapply ok_step; eauto|exact Lt|apply goes_at].
      + eapply (registering k' o b n k t); [intros s0 K0 T0; apply IH; assumption|exact Lt| |exact K|exact T]. instantiate (1 := length (srvs (life s) n k')). lia.
      + eapply (stopping k' b n k t); [intros s0 K0 T0; apply IH; assumption|exact Lt| |exact K|exact T]. instantiate (1 := length (srvs (life s) n k')). lia.
  Qed.
  Lemma body_dev b s n t k : ok s -> threads s t = InCtrl n b k ->
    exists s', run s s' /\ spare (around t) s s' /\ left s s' t (Dev n) k.
  Proof.
    intros K T. destruct (body_ctrl b s n t k K T) as (s' & (A & B & _) & C). exists s'. split; [exact A|]. split; [|exact C].
    eapply spare_weak; [apply except_around|exact B].
  Qed.

  (** No other thread needs to be disturbed than those which hold [l], or a mutex
      taken after [l]. *)
  Definition freeable l : Prop :=
    forall s, ok s -> exists s', run s s' /\ owner s' l = None /\ spare (fun t => (t < base)%nat /\ below (rank l) s t) s s'.
  Definition finished s t : Prop := threads s t = Out Halt \/ threads s t = Dead.
  Definition stopped (stop : option lock) s t : Prop := match stop with Some l => owner s l = None | None => finished s t end.
  Definition bound (stop : option lock) : nat := match stop with Some l => rank l | None => 0 end.
  Definition safe (stop : option lock) s t (T : nat -> Prop) : Prop := forall t', T t' -> around t t' /\ below (bound stop) s t'.
  Lemma safe_spare stop s s' t T : safe stop s t T -> spare T s s' -> safe stop s' t T.
  Proof.
    intros A B t' Tt. destruct (A t' Tt) as [A1 A2], (B t' Tt) as [_ B2]. split; [exact A1|]. intros l Ow. apply A2, B2, Ow.
  Qed.
  Lemma safe_around stop s t (T : nat -> Prop) : safe stop s t T -> forall t', T t' -> around t t'.
  Proof. intros A t' Tt. apply (A t' Tt). Qed.

  Section Call.
    Variable stop : option lock.
    Hypothesis Free : forall l, data_lock l -> match stop with Some l0 => (rank l0 < rank l)%nat | None => True end -> freeable l.
    Definition goal s t (T : nat -> Prop) : Prop := exists s', run s s' /\ stopped stop s' t /\ spare T s s'.

    Lemma after s s' t T : run s s' -> spare T s s' -> goal s' t T -> goal s t T.
    Proof.
      intros A B (s'' & C & D & E). exists s''. split; [eapply steps_trans; eauto|]. split; [exact D|eapply spare_trans; eauto].
    Qed.

    (** Wait for [l]. *)
    Lemma wait s t T l x : ok s -> (t < base)%nat -> data_lock l -> threads s t = x -> held stop s t -> safe stop s t T -> (forall l', owner s l' = Some t -> (rank l' < rank l)%nat) ->
      exists s', run s s' /\ ok s' /\ threads s' t = x /\ held stop s' t /\ owner s' l = None /\ spare T s s' /\ (forall l', owner s' l' = Some t <-> owner s l' = Some t).
    Proof.
      intros K Lt Dl Tx Hd Sf Lo. destruct (Free l Dl) with (s := s) as (s' & A & B & C); [destruct stop; [apply Lo, Hd|exact Logic.I]|exact K|].
      destruct (C t (conj Lt Lo)) as [C1 C2]. exists s'. split; [exact A|]. split; [eapply ok_steps; eauto|]. split; [congruence|].
      split; [unfold held in *; destruct stop; [apply C2, Hd|exact Logic.I]|]. split; [exact B|]. split; [|exact C2].
      eapply spare_weak; [|exact C]. intros t' Tt. destruct (Sf t' Tt) as [[_ L] X]. split; [exact L|]. intros l' Ow. apply X in Ow. unfold bound in Ow.
      destruct stop as [l0|]; [|lia]. pose proof (Lo l0 Hd). lia.
    Qed.

    (** After a critical section. *)
    Lemma after_section s s' t T L k : ok s -> run s s' -> spare (around t) s s' -> left s s' t L k -> held stop s t -> safe stop s t T ->
      (forall v s, ok s -> threads s t = Out (k v) -> held stop s t -> safe stop s t T -> goal s t T) -> goal s t T.
    Proof.
      intros K A B C Hd Sf IH. assert (B' : spare T s s') by (eapply spare_weak; [apply (safe_around _ _ _ _ Sf)|exact B]).
      eapply after; [exact A|exact B'|]. destruct C as [(v & C1 & C2 & C3)|[C1 C2]].
      - assert (X : stop = Some L \/ stop <> Some L) by (destruct stop as [l0|]; [destruct (ModelLocks.lock_eq_dec l0 L); [left|right]; congruence|right; discriminate]).
        destruct X as [X|X].
        + exists s'. split; [constructor|]. split; [|apply spare_refl]. unfold stopped. rewrite X. exact C2.
        + eapply IH; [eapply ok_steps; eauto|exact C1| |eapply safe_spare; eauto].
          unfold held in *. destruct stop as [l0|]; [|exact Logic.I]. apply C3; [congruence|exact Hd].
      - exists s'. split; [constructor|]. split; [|apply spare_refl]. unfold stopped, held in *. destruct stop as [l0|]; [apply C2, Hd|right; exact C1].
    Qed.
    Lemma panic s t T : step db what false s (dies s t) -> held stop s t -> safe stop s t T -> goal s t T.
    Proof.
      intros St Hd Sf. exists (dies s t). split; [apply step_run, St|]. split.
      - unfold stopped, held in *. destruct stop; [apply dies_frees, Hd|right; apply dies_at].
      - eapply spare_weak; [intros t' Tt; apply except_around, (safe_around _ _ _ _ Sf), Tt|apply dies_spare].
    Qed.
    Lemma one s s' t T : ok s -> step db what false s s' -> spare (except t) s s' -> held stop s t -> (forall l, owner s' l = owner s l) -> safe stop s t T ->
      (ok s' -> held stop s' t -> safe stop s' t T -> goal s' t T) -> goal s t T.
    Proof.
      intros K St B Hd Ow Sf IH. assert (B' : spare T s s') by (eapply spare_weak; [intros t' Tt; apply except_around, (safe_around _ _ _ _ Sf), Tt|exact B]).
      eapply after; [apply step_run, St|exact B'|]. apply IH; [eapply ok_step; eauto| |eapply safe_spare; eauto].
      unfold held in *. destruct stop; [rewrite Ow; exact Hd|exact Logic.I].
    Qed.

    Lemma call_on p : calling p -> forall s t T, ok s -> (t < base)%nat -> threads s t = Out p -> held stop s t -> safe stop s t T -> goal s t T.
    Proof.
      induction 1 as [|c p Ca IH|c v p Ca IH|l p Dl Ca IH|l p Ca IH|l y q Cy IHy Cq IHq|n b k Ca IH|n b k Ca IH|n ch k Ca IH]; intros s t T K Lt Tx Hd Sf.
      - exists s. split; [constructor|]. split; [|apply spare_refl]. unfold stopped, held in *. destruct stop as [l0|]; [|left; exact Tx].
        exfalso. eapply (holds_nothing _ _ _ K Tx Logic.I), Hd.
      - eapply (one s (logs (goes s t (Out p)) (ECall t c))); try eassumption; [apply st_enter; exact Tx|exact (goes_spare s t (Out p))|reflexivity|].
        intros K' Hd' Sf'. eapply IH; eauto. apply goes_at.
      - eapply (one s (logs (goes s t (Out p)) (EReturn t c v))); try eassumption; [apply st_leave; exact Tx|exact (goes_spare s t (Out p))|reflexivity|].
        intros K' Hd' Sf'. eapply IH; eauto. apply goes_at.
      - destruct (wait s t T l _ K Lt Dl Tx Hd Sf (lock_above _ _ _ _ K Tx)) as (s1 & A & K1 & T1 & Hd1 & Ow & Sp & _).
        eapply after; [exact A|exact Sp|]. pose proof (safe_spare _ _ _ _ _ Sf Sp) as Sf1. destruct (poisoned s1 l) eqn:Po.
        + apply panic; try assumption. eapply st_lock_poisoned; eauto.
        + assert (St : step db what false s1 (goes (takes s1 l t) t (Out p))) by (apply st_lock; assumption).
          assert (Sp1 : spare T s1 (goes (takes s1 l t) t (Out p))).
          { eapply spare_weak; [intros t' Tt; apply except_around, (safe_around _ _ _ _ Sf), Tt|]. eapply spare_trans; [apply takes_spare, Ow|apply goes_spare]. }
          eapply after; [apply step_run, St|exact Sp1|].
          eapply IH; [eapply ok_step; eauto|exact Lt|apply goes_at| |eapply safe_spare; eauto].
          unfold held in *. destruct stop as [l0|]; [|exact Logic.I]. cbn. unfold set_owner. destruct (ModelLocks.lock_eq_dec l0 l); [reflexivity|exact Hd1].
      - pose proof (unlock_owned _ _ _ _ K Tx) as Ow.
        assert (St : step db what false s (goes (frees s l) t (Out p))) by (apply st_unlock; assumption).
        assert (Sp1 : spare T s (goes (frees s l) t (Out p))).
        { eapply spare_weak; [intros t' Tt; apply except_around, (safe_around _ _ _ _ Sf), Tt|]. eapply spare_trans; [apply frees_spare, Ow|apply goes_spare]. }
        eapply after; [apply step_run, St|exact Sp1|].
        assert (X : stop = Some l \/ stop <> Some l) by (destruct stop as [l0|]; [destruct (ModelLocks.lock_eq_dec l0 l); [left|right]; congruence|right; discriminate]).
        destruct X as [X|X].
        + eexists. split; [constructor|]. split; [|apply spare_refl]. unfold stopped. rewrite X. cbn. unfold set_owner.
          destruct (ModelLocks.lock_eq_dec l l); [reflexivity|contradiction].
        + eapply IH; [eapply ok_step; eauto|exact Lt|apply goes_at| |eapply safe_spare; eauto].
          unfold held in *. destruct stop as [l0|]; [|exact Logic.I]. cbn. unfold set_owner. destruct (ModelLocks.lock_eq_dec l0 l); [congruence|exact Hd].
      - assert (X : owner s l = None /\ poisoned s l = false \/ owner s l <> None \/ poisoned s l = true).
        { destruct (owner s l); [right; left; discriminate|]. destruct (poisoned s l); auto. }
        destruct X as [[Ow Po]|X].
        + eapply (one s (goes s t (Out y))); try eassumption; [eapply st_attempt; eauto|apply goes_spare|reflexivity|].
          intros K' Hd' Sf'. eapply IHy; eauto. apply goes_at.
        + eapply (one s (goes s t (Out q))); try eassumption; [eapply st_attempt_fails; eauto|apply goes_spare|reflexivity|].
          intros K' Hd' Sf'. eapply IHq; eauto. apply goes_at.
      - destruct (wait s t T (LNode n) _ K Lt Logic.I Tx Hd Sf) as (s1 & A & K1 & T1 & Hd1 & Ow & Sp & _).
        { intros l' Ol. pose proof (outside_no_node _ _ _ K Tx _ Ol). pose proof (k_own _ (proj2 (proj2 K)) _ _ Ol Lt). destruct l'; cbn in *; try lia; exfalso; auto. }
        eapply after; [exact A|exact Sp|]. pose proof (safe_spare _ _ _ _ _ Sf Sp) as Sf1. destruct (poisoned s1 (LNode n)) eqn:Po.
        + apply panic; try assumption. eapply st_on_node_poisoned; eauto.
        + set (s2 := goes (takes s1 (LNode n) t) t (InNode n b k)).
          assert (St : step db what false s1 s2) by (apply st_on_node; assumption).
          assert (Sp2 : spare T s1 s2).
          { eapply spare_weak; [intros t' Tt; apply except_around, (safe_around _ _ _ _ Sf), Tt|]. eapply spare_trans; [apply takes_spare, Ow|apply goes_spare]. }
          eapply after; [apply step_run, St|exact Sp2|]. pose proof (ok_step _ _ _ K1 St) as K2.
          destruct (body_node b s2 n t k K2 Lt (goes_at _ _ _)) as (s3 & A3 & B3 & C3).
          eapply after_section; [exact K2|exact A3|exact B3|exact C3| |eapply safe_spare; eauto|intros v s0 K0 T0; exact (IH v s0 t T K0 Lt T0)].
          unfold held in *. destruct stop as [l0|]; [|exact Logic.I]. cbn. unfold set_owner. destruct (ModelLocks.lock_eq_dec l0 (LNode n)); [reflexivity|exact Hd1].
      - destruct (wait s t T (Dev n) _ K Lt Logic.I Tx Hd Sf) as (s1 & A & K1 & T1 & Hd1 & Ow & Sp & _).
        { intros l' Ol. exfalso. eapply (holds_nothing _ _ _ K Tx Logic.I), Ol. }
        eapply after; [exact A|exact Sp|]. pose proof (safe_spare _ _ _ _ _ Sf Sp) as Sf1. destruct (poisoned s1 (Dev n)) eqn:Po.
        + apply panic; try assumption. eapply st_on_ctrl_poisoned; eauto.
        + set (s2 := goes (takes s1 (Dev n) t) t (InCtrl n b k)).
          assert (St : step db what false s1 s2) by (apply st_on_ctrl; assumption).
          assert (Sp2 : spare T s1 s2).
          { eapply spare_weak; [intros t' Tt; apply except_around, (safe_around _ _ _ _ Sf), Tt|]. eapply spare_trans; [apply takes_spare, Ow|apply goes_spare]. }
          eapply after; [apply step_run, St|exact Sp2|]. pose proof (ok_step _ _ _ K1 St) as K2.
          destruct (body_dev b s2 n t k K2 (goes_at _ _ _)) as (s3 & A3 & B3 & C3).
          eapply after_section; [exact K2|exact A3|exact B3|exact C3| |eapply safe_spare; eauto|intros v s0 K0 T0; exact (IH v s0 t T K0 Lt T0)].
          unfold held in *. destruct stop as [l0|]; [|exact Logic.I]. cbn. unfold set_owner. destruct (ModelLocks.lock_eq_dec l0 (Dev n)); [reflexivity|exact Hd1].
      - eapply (one s (goes s t (Out (k (VGot None))))); try eassumption; [eapply st_waited; exact Tx|apply goes_spare|reflexivity|].
        intros K' Hd' Sf'. eapply IH; eauto. apply goes_at.
    Qed.

    Lemma call_any s t T : ok s -> (t < base)%nat -> held stop s t -> safe stop s t T -> goal s t T.
    Proof.
      intros K Lt Hd Sf. pose proof (k_calls _ (proj2 (proj2 K)) t Lt) as Ca. destruct (threads s t) as [p|n b k|n b k|] eqn:Tx.
      - eapply call_on; eauto.
      - destruct (body_node b s n t k K Lt Tx) as (s1 & A & B & C).
        eapply after_section; eauto. intros v s2 K2 T2. apply (call_on (k v)); auto.
      - destruct (body_dev b s n t k K Tx) as (s1 & A & B & C).
        eapply after_section; eauto. intros v s2 K2 T2. apply (call_on (k v)); auto.
      - exists s. split; [constructor|]. split; [|apply spare_refl]. unfold stopped, held in *. destruct stop as [l0|]; [|right; exact Tx].
        exfalso. eapply dead_holds; eauto.
    Qed.
  End Call.

  Lemma all_freeable d : forall l, data_lock l -> (2 - rank l <= d)%nat -> freeable l.
  Proof.
    induction d as [|d IH]; intros l Dl Le s K; [destruct l; cbn in Le; try lia; destruct Dl|].
    destruct (owner s l) as [t|] eqn:Ow; [|exists s; split; [constructor|split; [exact Ow|apply spare_refl]]].
    destruct (owner_kind _ _ _ K Ow) as [L|Sv].
    - destruct (call_any (Some l)) with (s := s) (t := t) (T := fun t => (t < base)%nat /\ below (rank l) s t) as (s' & A & B & C); auto.
      + intros l' Dl' Lt. apply IH; [exact Dl'|]. destruct l'; try contradiction; cbn [rank] in Lt |- *; lia.
      + intros t' [L' Bl]. split; [split; [|exact L']|exact Bl]. intros ->. apply Bl in Ow. lia.
      + exists s'. auto.
    - destruct (release s t l K Sv Ow) as (s' & Q & F). exists s'. split; [apply Q|]. split; [exact F|].
      eapply spare_weak; [|eapply app_spare; eauto]. intros t' [L' _]. exact L'.
  Qed.

  (** One thread finishes, and those which have finished stay so. *)
  Lemma finished_holds s t : ok s -> finished s t -> forall l, owner s l <> Some t.
  Proof. intros K [Fi|Fi] l Ow; [eapply (holds_nothing _ _ _ K Fi Logic.I), Ow|eapply dead_holds; eauto]. Qed.
  Lemma finish s t : ok s -> (t < base)%nat -> exists s', run s s' /\ finished s' t /\ spare (fun t' => around t t' /\ finished s t') s s'.
  Proof.
    intros K L. destruct (call_any None) with (s := s) (t := t) (T := fun t' => around t t' /\ finished s t') as (s' & A & B & C).
    - intros l Dl _. eapply (all_freeable 2); [exact Dl|lia].
    - exact K.
    - exact L.
    - exact Logic.I.
    - intros t' [Ne Fi]. split; [exact Ne|]. intros l Ow. exfalso. eapply finished_holds; eauto.
    - exists s'. auto.
  Qed.
  Lemma finish_all d : (d <= base)%nat -> forall s, ok s -> exists s', run s s' /\ forall t, (t < d)%nat -> finished s' t.
  Proof.
    induction d as [|d IH]; intros Le s K; [exists s; split; [constructor|]; intros; lia|].
    destruct (IH ltac:(lia) s K) as (s1 & A & B). destruct (finish s1 d (ok_steps _ _ _ K A) ltac:(lia)) as (s2 & A2 & B2 & C2).
    exists s2. split; [eapply steps_trans; eauto|]. intros t L. destruct (Nat.eq_dec t d) as [->|Ne]; [exact B2|].
    assert (Fi : finished s1 t) by (apply B; lia). unfold finished. rewrite (proj1 (C2 t ltac:(split; [split; lia|exact Fi]))). exact Fi.
  Qed.

  (** Every receive thread comes to rest. *)
  Lemma parked_holds s t : ok s -> parked s t -> forall l, owner s l <> Some t.
  Proof.
    intros K [T|[T|[T _]]] l Ow; [eapply (holds_nothing _ _ _ K T Logic.I), Ow|eapply dead_holds; eauto|eapply (holds_nothing _ _ _ K T Logic.I), Ow].
  Qed.
  Lemma park_all d : forall s, ok s -> (base + d <= next (life s))%nat ->
    exists s', qrun (fun t => (t < base)%nat) s s' /\ forall t, (base <= t < base + d)%nat -> parked s' t.
  Proof.
    induction d as [|d IH]; intros s K Le; [exists s; split; [apply qrun_refl|]; intros; lia|].
    destruct (IH s K ltac:(lia)) as (s1 & Q & Pk). pose proof (qrun_ok _ _ _ K Q) as K1.
    assert (El : life s1 = life s) by apply Q. assert (Sv : serving_thread s1 (base + d)) by (unfold serving_thread; rewrite El; lia).
    destruct (park s1 (base + d) K1 Sv) as (s2 & Q2 & P2).
    assert (Q2' : qrun (fun t => (t < base)%nat) s1 s2) by (destruct Q2 as (A & B & C); split; [exact A|]; split; [eapply (app_spare s1 s2 (base + d)); [split; eauto|exact K1|exact Sv]|exact C]).
    exists s2. split; [eapply qrun_trans; eauto|]. intros t L. destruct (Nat.eq_dec t (base + d)) as [->|Ne]; [exact P2|].
    assert (Pt : parked s1 t) by (apply Pk; lia). destruct Q2 as (_ & Sp & _ & Ef).
    destruct (Sp t) as [E _]; [split; [exact Ne|intros l Ow; exfalso; eapply parked_holds; eauto]|].
    unfold parked. rewrite E, Ef. exact Pt.
  Qed.

  Theorem completes s : ok s -> exists s', run s s' /\ (forall t, (t < base)%nat -> finished s' t) /\ forall t, finished s' t \/ parked s' t.
  Proof.
    intros K. destruct (finish_all base (Nat.le_refl _) s K) as (s1 & A & B). pose proof (ok_steps _ _ _ K A) as K1.
    pose proof (k_base _ (proj2 (proj2 K1))) as Le.
    destruct (park_all (next (life s1) - base) s1 K1 ltac:(lia)) as (s2 & Q & Pk). pose proof (qrun_ok _ _ _ K1 Q) as K2.
    destruct Q as (A2 & Sp & El & Ef).
    assert (X : forall t, (t < base)%nat -> finished s2 t) by (intros t L; unfold finished; rewrite (proj1 (Sp t L)); apply B, L).
    exists s2. split; [eapply steps_trans; eauto|]. split; [exact X|]. intros t.
    destruct (Nat.lt_ge_cases t base) as [L|L]; [left; apply X, L|].
    destruct (Nat.lt_ge_cases t (next (life s1))) as [M|M]; [right; apply Pk; lia|].
    left. left. apply (s_fresh _ (proj1 (proj2 K2))). rewrite El. exact M.
  Qed.
End Progress.
