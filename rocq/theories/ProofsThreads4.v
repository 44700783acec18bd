(** A thread of the application gets on only finitely often. *)
From Verif Require Import Base HMap ModelCodec ModelMessages ModelObject ModelTransport ModelNode ModelController ModelDevice ModelThreads
  SpecThreads SpecProgress ProofsThreads ProofsThreads2.
From Verif Require ModelLocks.

Section Ends.
  Context {U : Type} {P : Profile} {HO : HashOrder} {O : OS} {Uu : Uuids} (db : list object) (what : observer -> obs) (net : bool) (base : nat).
  Notation LNode := ModelLocks.Node. Notation next := ModelThreads.next.
  Notation ok := (ok (U := U) db base).
  Implicit Types (s : process U) (t : nat).

  Notation later := (later (U := U) db what net).

  Lemma act_acyclic (b : nbody U) : forall x, b <> Act x b.
  Proof. induction b as [v|f IH|a b IH] using nbody_ind; intros x E; try discriminate. injection E as <- E. exact (IH _ E). Qed.

  (** What thread [t] does in one step; [l] and [l'] are the lists of servers
      before and after, [g] and [g'] the stop flags. *)
  Inductive move (l l' : nat -> kind -> list nat) (g g' : nat -> bool) : thread U -> thread U -> Prop :=
  | m_enter c p : move l l' g g' (Out (Enter c p)) (Out p)
  | m_leave c v p : move l l' g g' (Out (Leave c v p)) (Out p)
  | m_lock x p : move l l' g g' (Out (Lock x p)) (Out p)
  | m_unlock x p : move l l' g g' (Out (Unlock x p)) (Out p)
  | m_attempt x y q : move l l' g g' (Out (Attempt x y q)) (Out y)
  | m_fails x y q : move l l' g g' (Out (Attempt x y q)) (Out q)
  | m_on_node n b k : move l l' g g' (Out (OnNode n b k)) (InNode n b k)
  | m_on_ctrl n b k : move l l' g g' (Out (OnCtrl n b k)) (InCtrl n b k)
  | m_node_stmt n f k d d' b : f d = Ret (d', b) -> move l l' g g' (InNode n (Stmt f) k) (InNode n b k)
  | m_node_done n v k : move l l' g g' (InNode n (Done v) k) (Out (k v))
  | m_ctrl_stmt n f k d d' b : f d = Ret (d', b) -> move l l' g g' (InCtrl n (Stmt f) k) (InCtrl n b k)
  | m_ctrl_done n v k : move l l' g g' (InCtrl n (Done v) k) (Out (k v))
  | m_spawn n k' b k : move l l' g g' (InNode n (Act (Spawn k') b) k) (InNode n b k)
  | m_register n k' j o b k : (j < length (l n k'))%nat -> l' = l -> move l l' g g' (InNode n (Act (Register k' j o) b) k) (InNode n (Act (Register k' (S j) o) b) k)
  | m_registered n k' j o b k : move l l' g g' (InNode n (Act (Register k' j o) b) k) (InNode n b k)
  | m_signal n k' j b k t' : nth_error (l n k') j = Some t' -> l' = l -> g t' = false -> g' t' = true ->
      move l l' g g' (InNode n (Act (Stop k' j) b) k) (InNode n (Act (Stop k' j) b) k)
  | m_join n k' j b k : (j < length (l n k'))%nat -> l' = l -> move l l' g g' (InNode n (Act (Stop k' j) b) k) (InNode n (Act (Stop k' (S j)) b) k)
  | m_stopped n k' j b k : move l l' g g' (InNode n (Act (Stop k' j) b) k) (InNode n b k)
  | m_await n ch k v : move l l' g g' (Out (Await n ch k)) (Out (k v))
  | m_dies x : x <> Dead -> move l l' g g' x Dead.

  Lemma nth_lt {A} (l : list A) j x : nth_error l j = Some x -> (j < length l)%nat.
  Proof. intros E. apply nth_error_Some. congruence. Qed.

  Lemma step_moves s s' t : ok s -> (t < base)%nat -> step db what net s s' ->
    threads s' t = threads s t \/
    move (srvs (life s)) (srvs (life s')) (flags s) (flags s') (threads s t) (threads s' t).
  Proof.
    intros K Lt Hs. destruct K as ([a R] & Sa & Kn).
    pose proof (k_base _ _ Kn) as Kb. pose proof (k_calls _ _ Kn t Lt) as C.
    inversion Hs as [t0 c p T|t0 c v p T|t0 l p T Ow Po|t0 l p T Ow Po|t0 l p T Ow|t0 l y q T Ow Po|t0 l y q T Ex
      |t0 n b k T Ow Po|t0 n b k T Ow Po|t0 c b k T Ow Po|t0 c b k T Ow Po|t0 n b p T Ow Po|t0 n b p T Ex|t0 c b p T Ow Po|t0 c b p T Ex
      |t0 n f k d b T E|t0 n f k T E|t0 n v k T|t0 c f k d b T E|t0 c f k T E|t0 c v k T|t0 n ch k m T Nm|t0 n ch k T
      |t0 n k' b k T|t0 n k' j o b k t' T Nt Ow Po|t0 n k' j o b k t' T Nt Ow Po|t0 n k' j o b k T Nt
      |t0 n k' j b k t' T Nt Fl|t0 n k' j b k t' T Nt Fl T'|t0 n k' j b k t' T Nt Fl T'|t0 n k' j b k T Nt
      |t0 T Fl|t0 T Fl|t0 T|t0 T Ne|t0 data from m T Ne Oc Pa|t0 data T Ne Oc Pa|t0 m T Ow Po|t0 m T Ow Po]; subst s';
      (destruct (Nat.eq_dec t t0) as [<-|Ne0];
        [try (left; reflexivity); right|left; first [reflexivity|cbn; unfold upd; destruct (Nat.eqb_spec t t0); [contradiction|try reflexivity]]]);
      try (rewrite T in C; cbn in C; inversion C; fail);
      try (cbn; unfold upd; rewrite ?Nat.eqb_refl; rewrite T; econstructor; eauto using nth_lt; discriminate).
    destruct (Nat.eqb_spec t (next (life s))); [lia|reflexivity].
  Qed.

  (** Nobody else changes the servers of the node thread [t] is in. *)
  Lemma step_lists s s' t n b q : ok s -> step db what net s s' -> threads s t = InNode n b q -> threads s' t = threads s t ->
    forall k, srvs (life s') n k = srvs (life s) n k.
  Proof.
    intros ([a R] & Sa & Kn) Hs T Same k0. pose proof (inside_node db _ _ _ _ _ _ R T) as Ow0.
    inversion Hs as [t0 c p T0|t0 c v p T0|t0 l p T0 Ow Po|t0 l p T0 Ow Po|t0 l p T0 Ow|t0 l y q0 T0 Ow Po|t0 l y q0 T0 Ex
      |t0 n0 b0 k T0 Ow Po|t0 n0 b0 k T0 Ow Po|t0 c b0 k T0 Ow Po|t0 c b0 k T0 Ow Po|t0 n0 b0 p T0 Ow Po|t0 n0 b0 p T0 Ex|t0 c b0 p T0 Ow Po|t0 c b0 p T0 Ex
      |t0 n0 f k d b0 T0 E|t0 n0 f k T0 E|t0 n0 v k T0|t0 c f k d b0 T0 E|t0 c f k T0 E|t0 c v k T0|t0 n0 ch k m T0 Nm|t0 n0 ch k T0
      |t0 n0 k' b0 k T0|t0 n0 k' j o b0 k t' T0 Nt Ow Po|t0 n0 k' j o b0 k t' T0 Nt Ow Po|t0 n0 k' j o b0 k T0 Nt
      |t0 n0 k' j b0 k t' T0 Nt Fl|t0 n0 k' j b0 k t' T0 Nt Fl T'|t0 n0 k' j b0 k t' T0 Nt Fl T'|t0 n0 k' j b0 k T0 Nt
      |t0 T0 Fl|t0 T0 Fl|t0 T0|t0 T0 Ne|t0 data from m T0 Ne Oc Pa|t0 data T0 Ne Oc Pa|t0 m T0 Ow Po|t0 m T0 Ow Po]; subst s'; try reflexivity;
      cbn; destruct (Nat.eqb_spec n n0) as [<-|]; try reflexivity; exfalso;
      pose proof (inside_node db _ _ _ _ _ _ R T0) as Ow1; rewrite Ow0 in Ow1; injection Ow1 as <-;
      cbn in Same; unfold upd in Same; rewrite Nat.eqb_refl, T0 in Same; injection Same as Same;
      exact (act_acyclic _ _ Same).
  Qed.

  Lemma step_flags s s' u : step db what net s s' -> flags s u = true -> flags s' u = true.
  Proof. intros Hs Fu. inversion Hs; subst s'; cbn; auto. unfold upd. destruct (_ =? _)%nat; auto. Qed.

  Lemma gets_on_move s s' t : ok s -> (t < base)%nat -> step db what net s s' -> gets_on t s s' ->
    move (srvs (life s)) (srvs (life s')) (flags s) (flags s') (threads s t) (threads s' t).
  Proof.
    intros K Lt Hs G. destruct (step_moves s s' t K Lt Hs) as [Same|M]; [|exact M].
    destruct G as [G|(n & k & j & b & q & t' & T & Nt & F0 & F1)]; [contradiction|]. rewrite Same, T.
    assert (L : srvs (life s') = srvs (life s)).
    { inversion Hs; subst s'; try reflexivity; cbn in F1; congruence. }
    eapply m_signal; eauto.
  Qed.

  (** Steps in which thread [t] stays where it is. *)
  Inductive still (t : nat) s : process U -> Prop :=
  | still_refl : still t s s
  | still_step s1 s2 : still t s s1 -> step db what net s1 s2 -> threads s2 t = threads s1 t -> still t s s2.

  Lemma still_same t s s1 : still t s s1 -> ok s ->
    ok s1 /\ threads s1 t = threads s t /\ (forall n b q, threads s t = InNode n b q -> forall k, srvs (life s1) n k = srvs (life s) n k) /\
    (forall u, flags s u = true -> flags s1 u = true).
  Proof.
    intros Hst K. induction Hst as [|s1 s2 Hst IH Hs Same]; [auto|]. destruct IH as (A & B & C & D).
    split; [eapply ok_step; eauto|]. split; [congruence|]. split.
    - intros n b q T k. rewrite <- (C n b q T k). eapply step_lists; eauto. rewrite B; exact T.
    - intros u Fu. eapply step_flags; eauto.
  Qed.

  Lemma split_run t s s1 : ok s -> (t < base)%nat -> steps db what net s s1 ->
    still t s s1 \/
    exists s2 s3, still t s s2 /\ step db what net s2 s3 /\
      move (srvs (life s2)) (srvs (life s3)) (flags s2) (flags s3) (threads s2 t) (threads s3 t) /\ steps db what net s3 s1.
  Proof.
    intros K Lt Hr. induction Hr as [|s0 s1 s2 Hr IH Hs]; [left; constructor|].
    destruct (IH K) as [St|(s3 & s4 & A & B & C & D)].
    - destruct (still_same _ _ _ St K) as (K1 & _). destruct (step_moves s1 s2 t K1 Lt Hs) as [Same|M].
      + left. eapply still_step; eauto.
      + right. exists s1, s2. repeat (split; [assumption|]). constructor.
    - right. exists s3, s4. repeat (split; [assumption|]). eapply steps_step; eauto.
  Qed.

  Lemma acc_first t s : ok s -> (t < base)%nat ->
    (forall s1 s2, still t s s1 -> ok s2 ->
       move (srvs (life s1)) (srvs (life s2)) (flags s1) (flags s2) (threads s t) (threads s2 t) -> Acc (later t) s2) -> Acc (later t) s.
  Proof.
    intros K Lt H. constructor. intros s' (s1 & Hr & Hs & G).
    destruct (split_run t s s1 K Lt Hr) as [St|(s2 & s3 & A & B & C & D)].
    - destruct (still_same _ _ _ St K) as (K1 & Tt & _). apply (H s1 s'); [exact St|eapply ok_step; eauto|].
      rewrite <- Tt. apply gets_on_move; assumption.
    - destruct (still_same _ _ _ A K) as (K1 & Tt & _). rewrite Tt in C.
      apply Acc_inv with (x := s3); [apply (H s2 s3); [exact A|eapply ok_step; eauto|exact C]|].
      exists s1. auto.
  Qed.

  Lemma acc_dead t s : ok s -> (t < base)%nat -> threads s t = Dead -> Acc (later t) s.
  Proof.
    intros K Lt T. apply acc_first; auto. intros s1 s2 _ _ M. rewrite T in M. inversion M. contradiction.
  Qed.

  (** Statements in the mutex of a node. *)
  Lemma acc_node t n q (Lt : (t < base)%nat) (Q : forall v s, ok s -> threads s t = Out (q v) -> Acc (later t) s) b :
    forall s, ok s -> threads s t = InNode n b q -> Acc (later t) s.
  Proof.
    induction b as [v|f IH|a b IH] using nbody_ind.
    - intros s K T. apply acc_first; auto. intros s1 s2 _ K2 M. rewrite T in M. inversion M as [| | | | | | | | |n0 v0 k0 E1 E2| | | | | | | | | |x Ne E1 E2]; subst.
      + apply (Q v); auto.
      + apply acc_dead; auto.
    - intros s K T. apply acc_first; auto. intros s1 s2 _ K2 M. rewrite T in M. inversion M as [| | | | | | | |n0 f0 k0 d d' b Ef E1 E2| | | | | | | | | | |x Ne E1 E2]; subst.
      + eapply IH; eauto.
      + apply acc_dead; auto.
    - destruct a as [k'|k' j o|k' j].
      + intros s K T. apply acc_first; auto. intros s1 s2 _ K2 M. rewrite T in M. inversion M; subst; [apply IH; auto|apply acc_dead; auto].
      + assert (X : forall m j s, ok s -> (length (srvs (life s) n k') - j <= m)%nat -> threads s t = InNode n (Act (Register k' j o) b) q -> Acc (later t) s).
        { clear j. induction m as [|m IHm]; intros j s K Lm T; apply acc_first; auto; intros s1 s2 St K2 M;
            destruct (still_same _ _ _ St K) as (_ & _ & Sl & _); specialize (Sl _ _ _ T k');
            rewrite T in M; inversion M as [| | | | | | | | | | | | |n0 k0 j0 o0 b0 q0 Lj El E1 E2| | | | | |]; subst; try (apply IH; auto; fail); try (apply acc_dead; auto; fail).
          - rewrite Sl in Lj. lia.
          - apply (IHm (S j)); auto. rewrite El, Sl. rewrite Sl in Lj. lia. }
        intros s K. apply (X (length (srvs (life s) n k') - j)%nat); auto.
      + set (w := fun s j => (2 * (length (srvs (life s) n k') - j) - match nth_error (srvs (life s) n k') j with Some u => if flags s u then 1 else 0 | None => 0 end)%nat).
        assert (X : forall m j s, ok s -> (w s j <= m)%nat -> threads s t = InNode n (Act (Stop k' j) b) q -> Acc (later t) s).
        { clear j. induction m as [|m IHm]; intros j s K Lm T; apply acc_first; auto; intros s1 s2 St K2 M;
            destruct (still_same _ _ _ St K) as (_ & _ & Sl & Sf); specialize (Sl _ _ _ T k');
            rewrite T in M; inversion M as [| | | | | | | | | | | | | | |n0 k0 j0 b0 q0 t' Nt El F0 F1 E1 E2|n0 k0 j0 b0 q0 Lj El E1 E2| | |]; subst;
            try (apply IH; auto; fail); try (apply acc_dead; auto; fail); rewrite Sl in *; unfold w in Lm.
          - rewrite Nt in Lm. apply nth_lt in Nt. destruct (flags s t') eqn:F; [apply Sf in F; congruence|]. lia.
          - destruct (nth_error (srvs (life s) n k') j) as [u|]; [destruct (flags s u)|]; lia.
          - apply (IHm j); auto. unfold w. rewrite El, Sl, Nt, F1. rewrite Nt in Lm. apply nth_lt in Nt.
            destruct (flags s t') eqn:F; [apply Sf in F; congruence|]. lia.
          - apply (IHm (S j)); auto. unfold w. rewrite El, Sl. destruct (nth_error (srvs (life s) n k') (S j)) as [u'|], (nth_error (srvs (life s) n k') j) as [u|];
              repeat match goal with |- context [flags ?s ?u] => destruct (flags s u) end;
              try match goal with H : context [flags ?s ?u] |- _ => destruct (flags s u) end; lia. }
        intros s K. apply (X (w s j)); auto.
  Qed.

  Lemma acc_ctrl t n q (Lt : (t < base)%nat) (Q : forall v s, ok s -> threads s t = Out (q v) -> Acc (later t) s) b :
    forall s, ok s -> threads s t = InCtrl n b q -> Acc (later t) s.
  Proof.
    induction b as [v|f IH] using cbody_ind; intros s K T; apply acc_first; auto; intros s1 s2 _ K2 M; rewrite T in M; inversion M; subst; eauto using acc_dead.
  Qed.

  Lemma acc_out t (Lt : (t < base)%nat) p : calling p -> forall s, ok s -> threads s t = Out p -> Acc (later t) s.
  Proof.
    induction 1 as [|c p Cp IH|c v p Cp IH|l p Dl Cp IH|l p Cp IH|l y q Cy IHy Cq IHq|n b k Ck IH|c b k Ck IH|n ch k Ck IH]; intros s K T; apply acc_first; auto;
      intros s1 s2 _ K2 M; rewrite T in M; inversion M; subst; eauto using acc_dead, acc_node, acc_ctrl.
  Qed.

  Theorem acc_ok t s : ok s -> (t < base)%nat -> Acc (later t) s.
  Proof.
    intros K Lt. assert (C : calls (threads s t)) by (destruct K as (_ & _ & Kn); exact (k_calls _ _ Kn t Lt)).
    destruct (threads s t) as [p|n b q|n b q|] eqn:T; cbn in C; eauto using acc_out, acc_node, acc_ctrl, acc_dead.
  Qed.
End Ends.
