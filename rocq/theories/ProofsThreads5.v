(** In a fair execution every thread of the application comes to its end. *)
From Verif Require Import Base HMap ModelCodec ModelMessages ModelObject ModelTransport ModelNode ModelController ModelDevice ModelThreads
  SpecThreads SpecProgress ProofsThreads ProofsThreads2 ProofsThreads4.
From Verif Require ModelLocks.

Lemma acc_irreflexive {A} (R : A -> A -> Prop) x : Acc R x -> ~ R x x.
Proof. induction 1 as [x _ IH]. intros X. exact (IH x X X). Qed.
(** Classical steps on the way to a contradiction. *)
Lemma not_often (A : nat -> Prop) : ~ often A -> ~ ~ exists N, forall j, (N <= j)%nat -> ~ A j.
Proof. intros H C. apply H. intros i X. apply C. exists i. exact X. Qed.

Section Fair.
  Context {U : Type} {P : Profile} {HO : HashOrder} {O : OS} {Uu : Uuids} (db : list object) (what : observer -> obs) (net : bool) (base : nat).
  Notation Dev := ModelLocks.Dev. Notation LNode := ModelLocks.Node. Notation next := ModelThreads.next.
  Notation Notif := ModelLocks.Notif. Notation Wrap := ModelLocks.Wrap.
  Notation ok := (ok (U := U) db base). Notation step := (step (U := U) db what net).
  Implicit Types (s : process U) (t : nat).

  (* ---------------------------------------------------------------- *)
  (** ** Every step leads to another place *)

  Inductive after_prog : prog U -> prog U -> Prop :=
  | ap_enter c p : after_prog p (Enter c p)
  | ap_leave c v p : after_prog p (Leave c v p)
  | ap_lock l p : after_prog p (Lock l p)
  | ap_unlock l p : after_prog p (Unlock l p)
  | ap_yes l y q : after_prog y (Attempt l y q)
  | ap_no l y q : after_prog q (Attempt l y q)
  | ap_node n b p : after_prog p (TryNode n b p)
  | ap_ctrl c b p : after_prog p (TryCtrl c b p)
  | ap_wait n ch k v : after_prog (k v) (Await n ch k).
  Lemma after_prog_wf p : Acc after_prog p.
  Proof. induction p; constructor; intros p' A; inversion A; subst; auto. Qed.
  Inductive after_node : nbody U -> nbody U -> Prop := an_stmt f d d' b : f d = Ret (d', b) -> after_node b (Stmt f).
  Lemma after_node_wf b : Acc after_node b.
  Proof. induction b as [v|f IH|a b IH] using nbody_ind; constructor; intros b' A; inversion A; subst; eauto. Qed.
  Inductive after_ctrl : cbody -> cbody -> Prop := ac_stmt f d d' b : f d = Ret (d', b) -> after_ctrl b (Stmt f).
  Lemma after_ctrl_wf b : Acc after_ctrl b.
  Proof. induction b as [v|f IH] using cbody_ind; constructor; intros b' A; inversion A; subst; eauto. Qed.

  Definition can t s : Prop := exists s', step s s' /\ gets_on t s s'.
  Lemma can_moves t s s' x : step s s' -> threads s' t = x -> x <> threads s t -> can t s.
  Proof. intros St E Ne. exists s'. split; [exact St|]. left. congruence. Qed.
  Lemma out_moves p p' : after_prog p' p -> @Out U p' <> Out p.
  Proof. intros A [= E]. subst p'. exact (acc_irreflexive _ _ (after_prog_wf p) A). Qed.
  Lemma node_moves n k b b' : after_node b' b -> @InNode U n b' k <> InNode n b k.
  Proof. intros A [= E]. subst b'. exact (acc_irreflexive _ _ (after_node_wf b) A). Qed.
  Lemma ctrl_moves n k b b' : after_ctrl b' b -> @InCtrl U n b' k <> InCtrl n b k.
  Proof. intros A [= E]. subst b'. exact (acc_irreflexive _ _ (after_ctrl_wf b) A). Qed.
  Lemma act_moves n k x b : @InNode U n b k <> InNode n (Act x b) k.
  Proof. intros [= E]. exact (act_acyclic _ _ E). Qed.

  Lemma can_dies t s : step s (dies s t) -> threads s t <> Dead -> can t s.
  Proof. intros St Ne. eapply can_moves; [exact St|apply dies_at|congruence]. Qed.

  (** Where a thread cannot get on. *)
  Lemma stuck s t : ok s -> ~ can t s ->
    match threads s t with
    | Out p => match p with
               | Halt | Over => True
               | Lock l _ => owner s l <> None
               | OnNode n _ _ => owner s (LNode n) <> None
               | OnCtrl c _ _ => owner s (Dev c) <> None
               | Deliver _ => owner s (Notif t) <> None
               | _ => False
               end
    | InNode n b k => match b with
                      | Act (Register k' j _) _ => exists t', nth_error (srvs (life s) n k') j = Some t' /\ owner s (Notif t') <> None
                      | Act (Stop k' j) _ => exists t', nth_error (srvs (life s) n k') j = Some t' /\ flags s t' = true /\ threads s t' <> Out Over /\ threads s t' <> Dead
                      | _ => False
                      end
    | InCtrl _ _ _ => False
    | Dead => True
    end.
  Proof.
    intros K C. destruct (threads s t) as [[|c p|c v p|l p|l p|l y q|n b k|c b k|n b p|c b p|n ch k| | |m| ]|n [v|f|[k'|k' j o|k' j] b] k|c [v|f|[] b] k|] eqn:T; try exact Logic.I.
    - apply C. eapply can_moves; [eapply st_enter, T|apply goes_at|rewrite T; apply out_moves; constructor].
    - apply C. eapply can_moves; [eapply st_leave, T|apply goes_at|rewrite T; apply out_moves; constructor].
    - intros Ow. apply C. destruct (poisoned s l) eqn:Po.
      + apply can_dies; [eapply st_lock_poisoned; eauto|congruence].
      + eapply can_moves; [eapply st_lock; eauto|apply goes_at|rewrite T; apply out_moves; constructor].
    - apply C. eapply can_moves; [eapply st_unlock; [exact T|eapply unlock_owned; eauto]|apply goes_at|rewrite T; apply out_moves; constructor].
    - apply C. destruct (owner s l) eqn:Ow; [|destruct (poisoned s l) eqn:Po].
      + eapply can_moves; [eapply st_attempt_fails; [exact T|left; congruence]|apply goes_at|rewrite T; apply out_moves; constructor].
      + eapply can_moves; [eapply st_attempt_fails; eauto|apply goes_at|rewrite T; apply out_moves; constructor].
      + eapply can_moves; [eapply st_attempt; eauto|apply goes_at|rewrite T; apply out_moves; constructor].
    - intros Ow. apply C. destruct (poisoned s (LNode n)) eqn:Po.
      + apply can_dies; [eapply st_on_node_poisoned; eauto|congruence].
      + eapply can_moves; [eapply st_on_node; eauto|apply goes_at|congruence].
    - intros Ow. apply C. destruct (poisoned s (Dev c)) eqn:Po.
      + apply can_dies; [eapply st_on_ctrl_poisoned; eauto|congruence].
      + eapply can_moves; [eapply st_on_ctrl; eauto|apply goes_at|congruence].
    - apply C. destruct (owner s (LNode n)) eqn:Ow; [|destruct (poisoned s (LNode n)) eqn:Po].
      + eapply can_moves; [eapply st_try_node_fails; [exact T|left; congruence]|apply goes_at|rewrite T; apply out_moves; constructor].
      + eapply can_moves; [eapply st_try_node_fails; eauto|apply goes_at|rewrite T; apply out_moves; constructor].
      + eapply can_moves; [eapply st_try_node; eauto|apply goes_at|congruence].
    - apply C. destruct (owner s (Dev c)) eqn:Ow; [|destruct (poisoned s (Dev c)) eqn:Po].
      + eapply can_moves; [eapply st_try_ctrl_fails; [exact T|left; congruence]|apply goes_at|rewrite T; apply out_moves; constructor].
      + eapply can_moves; [eapply st_try_ctrl_fails; eauto|apply goes_at|rewrite T; apply out_moves; constructor].
      + eapply can_moves; [eapply st_try_ctrl; eauto|apply goes_at|congruence].
    - apply C. eapply can_moves; [eapply st_waited, T|apply goes_at|rewrite T; apply out_moves; constructor].
    - apply C. destruct (flags s t) eqn:F.
      + eapply can_moves; [eapply st_over; eauto|apply goes_at|congruence].
      + eapply can_moves; [eapply st_again; eauto|apply goes_at|congruence].
    - apply C. eapply can_moves; [eapply st_nothing; eauto|apply goes_at|congruence].
    - intros Ow. apply C. destruct (poisoned s (Notif t)) eqn:Po.
      + apply can_dies; [eapply st_deliver_poisoned; eauto|congruence].
      + assert (X : deliver_prog (U := U) db t (map what (regs (life s) t)) m <> Deliver m).
        { unfold deliver_prog. intros X. destruct (map what (regs (life s) t)) as [|[] r]; discriminate X. }
        eapply can_moves; [eapply st_deliver; eauto|apply goes_at|congruence].
    - apply C. eapply can_moves; [eapply st_node_done; eauto|apply goes_at|congruence].
    - apply C. destruct (f (nodes s n)) as [[d b]|] eqn:E.
      + eapply can_moves; [eapply st_node_stmt; eauto|apply goes_at|rewrite T; apply node_moves; econstructor; eauto].
      + apply can_dies; [eapply st_node_panic; eauto|congruence].
    - apply C. eapply can_moves; [eapply st_spawn; eauto|apply goes_at|rewrite T; apply act_moves].
    - destruct (nth_error (srvs (life s) n k') j) as [t'|] eqn:Nt.
      + exists t'. split; [reflexivity|]. intros Ow. apply C. destruct (poisoned s (Notif t')) eqn:Po.
        * apply can_dies; [eapply st_register_poisoned; eauto|congruence].
        * eapply can_moves; [eapply st_register; eauto|apply goes_at|]. rewrite T. intros [= X]. lia.
      + exfalso. apply C. eapply can_moves; [eapply st_registered; eauto|apply goes_at|rewrite T; apply act_moves].
    - destruct (nth_error (srvs (life s) n k') j) as [t'|] eqn:Nt.
      + exists t'. split; [reflexivity|]. destruct (flags s t') eqn:Fl.
        * split; [reflexivity|]. split; intros T'; apply C.
          -- eapply can_moves; [eapply st_join; eauto|apply goes_at|]. rewrite T. intros [= X]. lia.
          -- apply can_dies; [eapply st_join_panic; eauto|congruence].
        * exfalso. apply C. exists (with_flag s t'). split; [eapply st_signal; eauto|]. right.
          exists n, k', j, b, k, t'. repeat (split; [assumption|]). cbn. unfold upd. rewrite Nat.eqb_refl. reflexivity.
      + exfalso. apply C. eapply can_moves; [eapply st_stopped; eauto|apply goes_at|rewrite T; apply act_moves].
    - apply C. eapply can_moves; [eapply st_ctrl_done; eauto|apply goes_at|congruence].
    - apply C. destruct (f (ctrls s c)) as [[d b]|] eqn:E.
      + eapply can_moves; [eapply st_ctrl_stmt; eauto|apply goes_at|rewrite T; apply ctrl_moves; econstructor; eauto].
      + apply can_dies; [eapply st_ctrl_panic; eauto|congruence].
  Qed.

  (* ---------------------------------------------------------------- *)
  (** ** Receive threads *)

  (** What receive thread [t], whose stop flag is [g], does in one step. *)
  Inductive rmove (g : bool) (t : nat) : thread U -> thread U -> Prop :=
  | r_recv : g = false -> rmove g t (Out Again) (Out Recv)
  | r_over : g = true -> rmove g t (Out Again) (Out Over)
  | r_nothing : rmove g t (Out Recv) (Out Again)
  | r_failure : rmove g t (Out Recv) (Out Over)
  | r_got m : rmove g t (Out Recv) (Out (Deliver m))
  | r_deliver m os : rmove g t (Out (Deliver m)) (Out (deliver_prog db t os m))
  | r_lock l p : rmove g t (Out (Lock l p)) (Out p)
  | r_unlock l p : rmove g t (Out (Unlock l p)) (Out p)
  | r_try_node n b p : plain b -> rmove g t (Out (TryNode n b p)) (InNode n b (fun _ => p))
  | r_try_node_fails n b p : rmove g t (Out (TryNode n b p)) (Out p)
  | r_try_ctrl c b p : rmove g t (Out (TryCtrl c b p)) (InCtrl c b (fun _ => p))
  | r_try_ctrl_fails c b p : rmove g t (Out (TryCtrl c b p)) (Out p)
  | r_node_stmt n f k d d' b : f d = Ret (d', b) -> rmove g t (InNode n (Stmt f) k) (InNode n b k)
  | r_node_done n v k : rmove g t (InNode n (Done v) k) (Out (k v))
  | r_ctrl_stmt n f k d d' b : f d = Ret (d', b) -> rmove g t (InCtrl n (Stmt f) k) (InCtrl n b k)
  | r_ctrl_done n v k : rmove g t (InCtrl n (Done v) k) (Out (k v))
  | r_dies x : x <> Dead -> x <> Out Over -> x <> Out Again -> rmove g t x Dead.

  Lemma step_rmoves s s' t : ok s -> (base <= t < next (life s))%nat -> step s s' ->
    threads s' t = threads s t \/ rmove (flags s t) t (threads s t) (threads s' t).
  Proof.
    intros K Lt Hs. destruct K as ([a R] & Sa & Kn). pose proof (k_serves _ _ Kn t Lt) as V.
    inversion Hs as [t0 c p T|t0 c v p T|t0 l p T Ow Po|t0 l p T Ow Po|t0 l p T Ow|t0 l y q T Ow Po|t0 l y q T Ex
      |t0 n b k T Ow Po|t0 n b k T Ow Po|t0 c b k T Ow Po|t0 c b k T Ow Po|t0 n b p T Ow Po|t0 n b p T Ex|t0 c b p T Ow Po|t0 c b p T Ex
      |t0 n f k d b T E|t0 n f k T E|t0 n v k T|t0 c f k d b T E|t0 c f k T E|t0 c v k T|t0 n ch k m T Nm|t0 n ch k T
      |t0 n k' b k T|t0 n k' j o b k t' T Nt Ow Po|t0 n k' j o b k t' T Nt Ow Po|t0 n k' j o b k T Nt
      |t0 n k' j b k t' T Nt Fl|t0 n k' j b k t' T Nt Fl T'|t0 n k' j b k t' T Nt Fl T'|t0 n k' j b k T Nt
      |t0 T Fl|t0 T Fl|t0 T|t0 T Ne|t0 data from m T Ne Oc Pa|t0 data T Ne Oc Pa|t0 m T Ow Po|t0 m T Ow Po]; subst s';
      (destruct (Nat.eq_dec t t0) as [<-|Ne0];
        [try (left; reflexivity); right|left; first [reflexivity|cbn; unfold upd; destruct (Nat.eqb_spec t t0); [contradiction|try reflexivity]]]);
      try (rewrite T in V; cbn in V; destruct V as [V|(m0 & V)]; [inversion V; fail|discriminate V]);
      try (rewrite T in V; cbn in V; destruct V as [V _]; inversion V; fail);
      try (cbn; unfold upd; rewrite ?Nat.eqb_refl; rewrite T; econstructor; eauto; discriminate).
    - cbn; unfold upd; rewrite ?Nat.eqb_refl; rewrite T. rewrite T in V. destruct V as [V|(m0 & V)]; [|discriminate V]. inversion V; subst. apply r_try_node; assumption.
    - destruct (Nat.eqb_spec t (next (life s))); [lia|reflexivity].
  Qed.

  (** The programs of receive threads lead back to the loop. *)
  Inductive leading : prog U -> Prop :=
  | l_again : leading Again
  | l_lock w p : leading p -> leading (Lock (Wrap w) p)
  | l_unlock l p : leading p -> leading (Unlock l p)
  | l_try_node n b p : leading p -> leading (TryNode n b p)
  | l_try_ctrl c b p : leading p -> leading (TryCtrl c b p).
  Definition leads (x : thread U) : Prop :=
    match x with
    | Out p => leading p \/ match p with Recv | Over | Deliver _ => True | _ => False end
    | InNode _ b k => plain b /\ forall v, leading (k v)
    | InCtrl _ _ k => forall v, leading (k v)
    | Dead => True
    end.
  Definition home (x : thread U) : Prop := x = Out Again \/ x = Out Over \/ x = Dead.

  Lemma deliver_leading t os m : leading (deliver_prog db t os m).
  Proof.
    unfold deliver_prog. induction os as [|[w n|w c|w] r IH]; cbn [notify_prog];
      repeat first [apply l_lock|apply l_unlock|apply l_try_node|apply l_try_ctrl|exact IH|constructor].
  Qed.
  Lemma leads_rmove g t x x' : rmove g t x x' -> leads x -> leads x'.
  Proof.
    intros M L.
    assert (X : forall p, leading p \/ False -> leading p) by (intros p [Y|[]]; exact Y).
    destruct M; cbn in *; auto using l_again, deliver_leading; try apply X in L; try (left; inversion L; subst; assumption).
    - split; [assumption|]. intros _. inversion L; assumption.
    - intros _. inversion L; assumption.
    - destruct L as [Pl L]. split; [|exact L]. inversion Pl; eauto.
    - left. apply L.
  Qed.
  Definition leads_all s : Prop := forall t, (base <= t < next (life s))%nat -> leads (threads s t).
  Lemma leads_step s s' : ok s -> leads_all s -> step s s' -> leads_all s'.
  Proof.
    intros K L Hs t Lt. destruct (Nat.lt_ge_cases t (next (life s))) as [M|M].
    - destruct (step_rmoves s s' t K (conj (proj1 Lt) M) Hs) as [->|R]; [apply L; lia|]. eapply leads_rmove; [exact R|apply L; lia].
    - pose proof (s_fresh _ (proj1 (proj2 K)) t M) as Fr.
      inversion Hs as [| | | | | | | | | | | | | | | | | | | | | | |t0 n k' b k T| | | | | | | | | | | | | | |]; subst s'; cbn in Lt; try lia.
      destruct Lt as [_ Lt]. assert (t = next (life s)) by lia. subst t. cbn. unfold upd.
      destruct (Nat.eqb_spec (next (life s)) t0) as [E|]; [subst t0; congruence|]. rewrite Nat.eqb_refl. left. constructor.
  Qed.

  Definition onward t (x' x : thread U) : Prop := (exists g, rmove g t x x') /\ ~ home x.
  Lemma acc_home t x : home x -> Acc (onward t) x.
  Proof. intros Hx. constructor. intros x' [_ N]. contradiction. Qed.
  Lemma acc_in_node t n k b : (forall v, Acc (onward t) (Out (k v))) -> Acc (onward t) (InNode n b k).
  Proof.
    intros Ak. induction b as [v|f IH|a b IH] using nbody_ind; constructor; intros x' [[g M] N]; inversion M; subst; eauto; try (apply acc_home; right; right; reflexivity).
  Qed.
  Lemma acc_in_ctrl t n k b : (forall v, Acc (onward t) (Out (k v))) -> Acc (onward t) (InCtrl n b k).
  Proof.
    intros Ak. induction b as [v|f IH] using cbody_ind; constructor; intros x' [[g M] N]; inversion M; subst; eauto; try (apply acc_home; right; right; reflexivity).
  Qed.
  Lemma acc_leading t p : leading p -> Acc (onward t) (Out p).
  Proof.
    induction 1 as [|w p L IH|l p L IH|n b p L IH|c b p L IH]; [apply acc_home; left; reflexivity| | | |]; constructor; intros x' [[g M] N]; inversion M; subst; auto;
      try (apply acc_home; right; right; reflexivity).
    - apply acc_in_node. auto.
    - apply acc_in_ctrl. auto.
  Qed.
  Lemma acc_leads t x : leads x -> Acc (onward t) x.
  Proof.
    assert (Dv : forall m, Acc (onward t) (Out (Deliver m))).
    { intros m. constructor. intros x' [[g M] N]; inversion M; subst; [apply acc_leading, deliver_leading|apply acc_home; right; right; reflexivity]. }
    destruct x as [p|n b k|n b k|]; cbn.
    - intros [L|L]; [apply acc_leading, L|]. destruct p; try contradiction; auto; try (apply acc_home; unfold home; auto; fail).
      constructor. intros x' [[g M] N]; inversion M; subst; auto; apply acc_home; unfold home; auto.
    - intros [_ L]. apply acc_in_node. intros v. apply acc_leading, L.
    - intros L. apply acc_in_ctrl. intros v. apply acc_leading, L.
    - intros _. apply acc_home. right. right. reflexivity.
  Qed.
  Lemma rmove_changes g t x x' : leads x -> rmove g t x x' -> x' <> x.
  Proof.
    intros L M ->. destruct x as [p|n b k|n b k|].
    - destruct p; try (inversion M; fail);
        refine (acc_irreflexive _ _ (acc_leads t _ L) (conj (ex_intro _ g M) _)); intros [X|[X|X]]; discriminate.
    - refine (acc_irreflexive _ _ (acc_leads t _ L) (conj (ex_intro _ g M) _)); intros [X|[X|X]]; discriminate.
    - refine (acc_irreflexive _ _ (acc_leads t _ L) (conj (ex_intro _ g M) _)); intros [X|[X|X]]; discriminate.
    - inversion M. contradiction.
  Qed.
  Lemma move_changes l l' g g' (x x' : thread U) : move l l' g g' x x' -> x' = x \/ x' <> x.
  Proof.
    intros M. destruct M; try (left; reflexivity); right; try discriminate; try (apply out_moves; constructor); try (apply act_moves).
    - apply node_moves. econstructor; eauto.
    - apply ctrl_moves. econstructor; eauto.
    - intros [= X]. lia.
    - intros [= X]. lia.
    - congruence.
  Qed.
  Lemma step_next s s' : step s s' -> (next (life s) <= next (life s'))%nat.
  Proof. intros Hs. inversion Hs; subst s'; cbn; lia. Qed.
  Lemma owner_stays s s' l h : step s s' -> owner s l = Some h -> owner s' l <> None -> owner s' l = Some h.
  Proof.
    intros Hs Ow Ne. inversion Hs; subst s'; cbn in *; try assumption; unfold set_owner in *;
      try (destruct (ModelLocks.lock_eq_dec l _) as [->|]; [try congruence|assumption]);
      try (destruct (mine _ _ l); [contradiction|assumption]).
  Qed.

  (* ---------------------------------------------------------------- *)
  (** ** A fair execution *)

  Section Run.
    Variable e : nat -> process U.
    Hypothesis K0 : ok (e 0%nat).
    Hypothesis L0 : leads_all (e 0%nat).
    Hypothesis En : endless db what net e.
    Hypothesis Fr : fair db what net e.

    Lemma run_ok i : ok (e i).
    Proof. induction i as [|i IH]; [exact K0|]. eapply ok_step; [exact IH|apply En]. Qed.
    Lemma run_leads i : leads_all (e i).
    Proof. induction i as [|i IH]; [exact L0|]. eapply leads_step; [apply run_ok|exact IH|apply En]. Qed.
    Lemma run_next i j : (i <= j)%nat -> (next (life (e i)) <= next (life (e j)))%nat.
    Proof. induction 1 as [|j L IH]; [lia|]. pose proof (step_next _ _ (En j)). lia. Qed.
    Lemma run_serving i j t : (i <= j)%nat -> (base <= t < next (life (e i)))%nat -> (base <= t < next (life (e j)))%nat.
    Proof. intros L. pose proof (run_next i j L). lia. Qed.
    Lemma run_steps i j : (i <= j)%nat -> steps db what net (e i) (e j).
    Proof. induction 1 as [|j L IH]; [constructor|]. eapply steps_step; [exact IH|apply En]. Qed.
    Lemma run_flags i j t : (i <= j)%nat -> flags (e i) t = true -> flags (e j) t = true.
    Proof. induction 1 as [|j L IH]; [auto|]. intros F. eapply step_flags; [apply En|apply IH, F]. Qed.

    Lemma never_both t : ~ often (fun i => gets_on t (e i) (e (S i))) ->
      ~ ~ exists N, forall j, (N <= j)%nat -> ~ gets_on t (e j) (e (S j)) /\ ~ can t (e j).
    Proof.
      intros H C. pose proof (fun X => H (Fr t X)) as H2.
      apply (not_often _ H). intros (N1 & A1). apply (not_often _ H2). intros (N2 & A2).
      apply C. exists (N1 + N2)%nat. intros j L. split; [apply A1; lia|apply A2; lia].
    Qed.

    (** *** Receive threads *)
    Lemma serving_step t j : (base <= t < next (life (e j)))%nat ->
      threads (e (S j)) t = threads (e j) t \/
      rmove (flags (e j) t) t (threads (e j) t) (threads (e (S j)) t) /\ threads (e (S j)) t <> threads (e j) t.
    Proof.
      intros Lt. destruct (step_rmoves _ _ t (run_ok j) Lt (En j)) as [E|M]; [left; exact E|right; split; [exact M|]].
      eapply rmove_changes; [apply run_leads, Lt|exact M].
    Qed.
    Lemma serving_gets_on t j s' : (base <= t < next (life (e j)))%nat -> gets_on t (e j) s' -> threads s' t <> threads (e j) t.
    Proof.
      intros Lt [G|(n & k & i & b & q & t' & T & _)]; [exact G|]. exfalso. pose proof (run_leads j t Lt) as L. rewrite T in L. destruct L as [L _]. inversion L.
    Qed.
    Lemma settle t N : (base <= t < next (life (e N)))%nat -> (forall j, (N <= j)%nat -> ~ home (threads (e j) t)) ->
      ~ ~ exists M, (N <= M)%nat /\ forall j, (M <= j)%nat -> threads (e j) t = threads (e M) t /\ ~ can t (e j).
    Proof.
      intros Lt Away C.
      assert (X : ~ often (fun i => gets_on t (e i) (e (S i)))).
      { intros Of.
        assert (A : forall x, Acc (onward t) x -> forall i, (N <= i)%nat -> threads (e i) t = x -> False).
        { induction 1 as [x _ IH]. intros i Li Ei. apply (Of i). intros j Lj G.
          assert (B : forall k, (i <= k)%nat -> threads (e k) t = x \/ exists k', (i <= k')%nat /\ onward t (threads (e k') t) x).
          { induction 1 as [|k Lk IHk]; [left; exact Ei|]. destruct IHk as [E|E]; [|right; exact E].
            destruct (serving_step t k) as [E'|[M Ne]]; [apply (run_serving N); [lia|exact Lt]|left; congruence|].
            right. exists (S k). split; [lia|]. rewrite <- E. split; [eauto|]. apply Away. lia. }
          assert (Ltj : (base <= t < next (life (e j)))%nat) by (apply (run_serving N); [lia|exact Lt]).
          destruct (B j Lj) as [E|(k & Lk & On)]; [|eapply (IH _ On k); [lia|reflexivity]].
          destruct (serving_step t j Ltj) as [E'|[M Ne]]; [exact (serving_gets_on t j _ Ltj G E')|].
          eapply (IH (threads (e (S j)) t)) with (i := S j); [|lia|reflexivity]. rewrite <- E. split; [eauto|]. apply Away. lia. }
        eapply (A (threads (e N) t)) with (i := N); [apply acc_leads, run_leads, Lt|lia|reflexivity]. }
      apply (never_both t X). intros (N1 & A). apply C. exists (N + N1)%nat. split; [lia|]. intros j Lj. split; [|apply A; lia].
      induction Lj as [|j Lj IH]; [reflexivity|]. rewrite <- IH.
      destruct (serving_step t j) as [E|[_ Ne]]; [apply (run_serving N); [lia|exact Lt]|exact E|].
      exfalso. apply (proj1 (A j ltac:(lia))). left. exact Ne.
    Qed.
    Lemma blocked t N : (base <= t < next (life (e N)))%nat -> (forall j, (N <= j)%nat -> ~ home (threads (e j) t)) ->
      ~ ~ exists M w p, (N <= M)%nat /\ forall j, (M <= j)%nat -> threads (e j) t = Out (Lock (Wrap w) p) /\ owner (e j) (Wrap w) <> None.
    Proof.
      intros Lt Away C. apply (settle t N Lt Away). intros (M & LM & A).
      assert (LtM : (base <= t < next (life (e M)))%nat) by (apply (run_serving N); assumption).
      pose proof (run_leads M t LtM) as L. pose proof (stuck _ _ (run_ok M) (proj2 (A M (le_n M)))) as St. pose proof (Away M LM) as Aw.
      destruct (threads (e M) t) as [p|n b k|n b k|] eqn:T.
      - destruct L as [L|L].
        + destruct L; try contradiction; try (apply Aw; left; reflexivity).
          apply C. exists M, w, p. split; [exact LM|]. intros j Lj. destruct (A j Lj) as [Ej Cj]. split; [exact Ej|].
          pose proof (stuck _ _ (run_ok j) Cj) as Sj. rewrite Ej in Sj. exact Sj.
        + destruct p; try contradiction; try (apply Aw; right; left; reflexivity).
          apply St. destruct (owner (e M) (Notif t)) as [t'|] eqn:Ow; [|reflexivity]. pose proof (s_own _ (proj1 (proj2 (run_ok M))) _ _ Ow). subst t'.
          exfalso. eapply (holds_nothing _ _ _ _ _ (run_ok M) T Logic.I), Ow.
      - destruct L as [L _]. inversion L; subst; contradiction.
      - contradiction.
      - apply Aw. right. right. reflexivity.
    Qed.

    Lemma owner_const l M : (forall j, (M <= j)%nat -> owner (e j) l <> None) -> exists h, forall j, (M <= j)%nat -> owner (e j) l = Some h.
    Proof.
      intros A. destruct (owner (e M) l) as [h|] eqn:Ow; [|exfalso; exact (A M (le_n M) Ow)]. exists h. induction 1 as [|j L IH]; [exact Ow|].
      eapply owner_stays; [apply En|exact IH|apply A; lia].
    Qed.
    Lemma holder_away l t M : (forall j, (M <= j)%nat -> owner (e j) l = Some t) -> forall j, (M <= j)%nat -> ~ home (threads (e j) t).
    Proof.
      intros A j L [X|[X|X]].
      - eapply (holds_nothing _ _ _ _ _ (run_ok j) X Logic.I), (A j L).
      - eapply (holds_nothing _ _ _ _ _ (run_ok j) X Logic.I), (A j L).
      - eapply dead_holds; [apply (run_ok j)|exact X|apply (A j L)].
    Qed.
    Lemma wrap_free w M : (forall j, (M <= j)%nat -> owner (e j) (Wrap w) <> None) -> False.
    Proof.
      intros A. destruct (owner_const _ _ A) as (h & B). pose proof (B M (le_n M)) as Ow.
      destruct (owner_kind _ _ _ _ _ (run_ok M) Ow) as [L|Sv]; [destruct (k_own _ _ (proj2 (proj2 (run_ok M))) _ _ Ow L)|].
      apply (blocked h M Sv (holder_away _ _ _ B)). intros (M' & w' & p & L & C). destruct (C M' (le_n M')) as [T _].
      pose proof (lock_above _ _ _ _ _ _ (run_ok M') T _ (B M' L)) as X. cbn in X. lia.
    Qed.
    (** A receive thread comes back to its loop, again and again. *)
    Lemma comes_home t M : (base <= t < next (life (e M)))%nat -> (forall j, (M <= j)%nat -> ~ home (threads (e j) t)) -> False.
    Proof.
      intros Lt Away. apply (blocked t M Lt Away). intros (M' & w & p & L & A). apply (wrap_free w M'). intros j Lj. apply (A j Lj).
    Qed.
    Lemma not_receiver l M : (forall j, (M <= j)%nat -> owner (e j) l <> None) ->
      exists h, (h < base)%nat /\ data_lock l /\ forall j, (M <= j)%nat -> owner (e j) l = Some h.
    Proof.
      intros A. destruct (owner_const _ _ A) as (h & B). pose proof (B M (le_n M)) as Ow. exists h.
      destruct (owner_kind _ _ _ _ _ (run_ok M) Ow) as [L|Sv]; [|exfalso; apply (comes_home h M Sv), (holder_away _ _ _ B)].
      split; [exact L|]. split; [exact (k_own _ _ (proj2 (proj2 (run_ok M))) _ _ Ow L)|exact B].
    Qed.
    Lemma notif_free t M : (forall j, (M <= j)%nat -> owner (e j) (Notif t) <> None) -> False.
    Proof. intros A. destruct (not_receiver _ _ A) as (h & _ & D & _). exact D. Qed.
    (** A receive thread which was told to end ends. *)
    Lemma told_ends t M : (base <= t < next (life (e M)))%nat -> flags (e M) t = true ->
      (forall j, (M <= j)%nat -> threads (e j) t <> Out Over /\ threads (e j) t <> Dead) -> False.
    Proof.
      intros Lt Fl A. apply (comes_home t M Lt). intros j Lj [X|[X|X]]; [|exact (proj1 (A j Lj) X)|exact (proj2 (A j Lj) X)].
      assert (B : forall k, (j <= k)%nat -> threads (e k) t = Out Again).
      { induction 1 as [|k Lk IH]; [exact X|]. destruct (serving_step t k) as [E|[R _]]; [apply (run_serving M); [lia|exact Lt]|congruence|].
        rewrite IH in R. inversion R as [F E0 E|F E0 E| | | | | | | | | | | | | | |y N1 N2 N3 E1 E2].
        - rewrite (run_flags M k t) in F; [discriminate|lia|exact Fl].
        - exfalso. apply (proj1 (A (S k) ltac:(lia))). symmetry. exact E.
        - contradiction. }
      assert (Of : often (fun i => exists s, step (e i) s /\ gets_on t (e i) s)).
      { intros i C. apply (C (i + j)%nat); [lia|]. exists (goes (e (i + j)%nat) t (Out Over)). split.
        - apply st_over; [apply B; lia|apply (run_flags M); [lia|exact Fl]].
        - left. rewrite goes_at, B by lia. discriminate. }
      apply (Fr t Of j). intros k Lk G. apply serving_gets_on in G; [|apply (run_serving M); [lia|exact Lt]].
      rewrite !B in G by lia. contradiction.
    Qed.

    (** *** Threads of the application *)
    Lemma app_often t : (t < base)%nat -> ~ often (fun i => gets_on t (e i) (e (S i))).
    Proof.
      intros Lt Of.
      assert (A : forall s, Acc (later db what net t) s -> forall i, e i = s -> False).
      { induction 1 as [s _ IH]. intros i Ei. apply (Of i). intros j L G. apply (IH (e (S j))) with (i := S j); [|reflexivity].
        exists (e j). split; [rewrite <- Ei; apply run_steps, L|]. split; [apply En|exact G]. }
      eapply (A (e 0%nat)); [|reflexivity]. eapply acc_ok; [apply run_ok|exact Lt].
    Qed.
    Definition settled N t : Prop := forall j, (N <= j)%nat -> ~ gets_on t (e j) (e (S j)) /\ ~ can t (e j).
    Lemma all_settled n : (n <= base)%nat -> ~ ~ exists N, forall t, (t < n)%nat -> settled N t.
    Proof.
      induction n as [|n IH]; intros L C; [apply C; exists 0%nat; intros t X; lia|].
      apply IH; [lia|]. intros (N1 & A1). apply (never_both n); [apply app_often; lia|]. intros (N2 & A2).
      apply C. exists (N1 + N2)%nat. intros t Lt j Lj. destruct (Nat.eq_dec t n) as [->|]; [apply A2; lia|]. apply (A1 t); lia.
    Qed.

    Section Settled.
      Variable N : nat.
      Hypothesis Sd : forall t, (t < base)%nat -> settled N t.

      Lemma same t : (t < base)%nat -> forall j, (N <= j)%nat -> threads (e (S j)) t = threads (e j) t.
      Proof.
        intros Lt j Lj. destruct (step_moves db what net base _ _ t (run_ok j) Lt (En j)) as [E|M]; [exact E|].
        destruct (move_changes _ _ _ _ _ _ M) as [E|Ne]; [exact E|]. exfalso. apply (proj1 (Sd t Lt j Lj)). left. exact Ne.
      Qed.
      Lemma same_all t M : (t < base)%nat -> (N <= M)%nat -> forall j, (M <= j)%nat -> threads (e j) t = threads (e M) t.
      Proof. intros Lt LM. induction 1 as [|j L IH]; [reflexivity|]. rewrite same; [exact IH|exact Lt|lia]. Qed.
      Lemma lists_all t n b q M : (t < base)%nat -> (N <= M)%nat -> threads (e M) t = InNode n b q ->
        forall k j, (M <= j)%nat -> srvs (life (e j)) n k = srvs (life (e M)) n k.
      Proof.
        intros Lt LM T k. induction 1 as [|j L IH]; [reflexivity|]. rewrite <- IH. eapply step_lists; [apply run_ok|apply En| |apply same; [exact Lt|lia]].
        rewrite (same_all t M Lt LM j L). exact T.
      Qed.
      Lemma stuck_at t j : (t < base)%nat -> (N <= j)%nat -> ~ can t (e j).
      Proof. intros Lt L. apply (Sd t Lt j L). Qed.

      Lemma not_inside t M : (t < base)%nat -> (N <= M)%nat -> match threads (e M) t with InNode _ _ _ | InCtrl _ _ _ => False | _ => True end.
      Proof.
        intros Lt LM. pose proof (stuck _ _ (run_ok M) (stuck_at t M Lt LM)) as St.
        destruct (threads (e M) t) as [p|n b k|n b k|] eqn:T; try exact Logic.I; [|exact St].
        destruct b as [v|f|[k'|k' i o|k' i] b]; try exact St.
        - destruct St as (t' & Nt & _). apply (notif_free t' M). intros j Lj.
          pose proof (stuck _ _ (run_ok j) (stuck_at t j Lt ltac:(lia))) as Sj. rewrite (same_all t M Lt LM j Lj), T in Sj.
          destruct Sj as (t2 & Nt2 & Ow). rewrite (lists_all t _ _ _ M Lt LM T k' j Lj), Nt in Nt2. injection Nt2 as <-. exact Ow.
        - destruct St as (t' & Nt & Fl & _).
          assert (Sv : (base <= t' < next (life (e M)))%nat) by (eapply (k_srvs _ _ (proj2 (proj2 (run_ok M)))), nth_error_In, Nt).
          apply (told_ends t' M Sv Fl). intros j Lj.
          pose proof (stuck _ _ (run_ok j) (stuck_at t j Lt ltac:(lia))) as Sj. rewrite (same_all t M Lt LM j Lj), T in Sj.
          destruct Sj as (t2 & Nt2 & _ & Ow). rewrite (lists_all t _ _ _ M Lt LM T k' j Lj), Nt in Nt2. injection Nt2 as <-. exact Ow.
      Qed.
      Lemma node_free n M : (N <= M)%nat -> (forall j, (M <= j)%nat -> owner (e j) (LNode n) <> None) -> False.
      Proof.
        intros LM A. destruct (not_receiver _ _ A) as (h & Lh & _ & B). pose proof (B M (le_n M)) as Ow. pose proof (not_inside h M Lh LM) as Ins.
        destruct (threads (e M) h) as [p|n' b k|n' b k|] eqn:T; try contradiction.
        - eapply outside_no_node; [apply (run_ok M)|exact T|exact Ow|exact Logic.I].
        - eapply dead_holds; [apply (run_ok M)|exact T|exact Ow].
      Qed.
      Lemma waits t M l : (t < base)%nat -> (N <= M)%nat ->
        match threads (e M) t with Out (Lock l' _) => l' = l | Out (OnNode n _ _) => LNode n = l | Out (OnCtrl c _ _) => Dev c = l | _ => False end ->
        forall j, (M <= j)%nat -> owner (e j) l <> None.
      Proof.
        intros Lt LM W j Lj. pose proof (stuck _ _ (run_ok j) (stuck_at t j Lt ltac:(lia))) as Sj. rewrite (same_all t M Lt LM j Lj) in Sj.
        destruct (threads (e M) t) as [[]|n' b k|n' b k|]; try contradiction; subst l; exact Sj.
      Qed.
      Lemma dev_free c M : (N <= M)%nat -> (forall j, (M <= j)%nat -> owner (e j) (Dev c) <> None) -> False.
      Proof.
        intros LM A. destruct (not_receiver _ _ A) as (h & Lh & _ & B). pose proof (B M (le_n M)) as Ow. pose proof (not_inside h M Lh LM) as Ins.
        pose proof (stuck _ _ (run_ok M) (stuck_at h M Lh LM)) as St. pose proof (k_calls _ _ (proj2 (proj2 (run_ok M))) h Lh) as Ca.
        pose proof (waits h M) as W. specialize (fun l => W l Lh LM).
        destruct (threads (e M) h) as [p|n' b k|n' b k|] eqn:T; try contradiction.
        - destruct Ca; try contradiction.
          + eapply (holds_nothing _ _ _ _ _ (run_ok M) T Logic.I), Ow.
          + pose proof (lock_above _ _ _ _ _ _ (run_ok M) T _ Ow) as X. destruct l; cbn in X; try contradiction; try lia.
            eapply node_free; [exact LM|apply W; reflexivity].
          + eapply node_free; [exact LM|apply W; reflexivity].
          + eapply (holds_nothing _ _ _ _ _ (run_ok M) T Logic.I), Ow.
        - eapply dead_holds; [apply (run_ok M)|exact T|exact Ow].
      Qed.
      Lemma ended t : (t < base)%nat -> threads (e N) t = Out Halt \/ threads (e N) t = Dead.
      Proof.
        intros Lt. pose proof (not_inside t N Lt (le_n N)) as Ins. pose proof (k_calls _ _ (proj2 (proj2 (run_ok N))) t Lt) as Ca.
        pose proof (stuck _ _ (run_ok N) (stuck_at t N Lt (le_n N))) as St. pose proof (waits t N) as W. specialize (fun l => W l Lt (le_n N)).
        destruct (threads (e N) t) as [p|n' b k|n' b k|] eqn:T; try contradiction; auto.
        destruct Ca; auto; try contradiction; exfalso.
        - destruct l; try contradiction; [eapply dev_free|eapply node_free]; try apply (le_n N); apply W; reflexivity.
        - apply (node_free n N (le_n N)), W. reflexivity.
        - apply (dev_free c N (le_n N)), W. reflexivity.
      Qed.
    End Settled.

    Theorem all_end : some_time (fun i => forall t, (t < base)%nat -> threads (e i) t = Out Halt \/ threads (e i) t = Dead).
    Proof.
      intros C. apply (all_settled base (le_n base)). intros (N & Sd). apply (C N). intros t Lt. exact (ended N Sd t Lt).
    Qed.
  End Run.
End Fair.
