(** Progress, permanence of deadlocks, and the end of the receive threads. *)

From Coq Require Import List Arith Lia Bool.
From Verif Require Import ModelLocks SpecLocks ProofsLocks.
Import ListNotations.

Section Code.
  Variable code : nat -> list op -> Prop.

  (** ** A deadlock lasts *)

  Lemma waits_busy s t u : waits s t u -> todo s t <> [].
  Proof. intros [(l & p & E & _)|(p & E & _)]; rewrite E; discriminate. Qed.

  Lemma waits_no_run s t u s' : waits s t u -> ~ runs code t s s'.
  Proof.
    intros W R. destruct W as [(l & p & E & Ho)|(p & E & Hf & He)];
      destruct R; congruence.
  Qed.

  Lemma waits_no_network s t u s' : waits s t u -> ~ network t s s'.
  Proof.
    intros W N. pose proof (waits_busy s t u W). destruct N; contradiction.
  Qed.

  Lemma deadlock_run s s' v S :
    deadlock s S -> runs code v s s' ->
    (forall t, S t -> todo s' t = todo s t) /\ deadlock s' S.
  Proof.
    intros [Hn H] R.
    assert (Hv : forall t, S t -> t <> v).
    { intros t Ht ->. destruct (H v Ht) as (_ & u & _ & W). exact (waits_no_run s v u s' W R). }
    assert (Todo : forall t, S t -> todo s' t = todo s t).
    { intros t Ht. specialize (Hv t Ht). pose proof (proj1 (H t Ht)) as Lt.
      destruct R; cbn; rewrite ?upd_other by (assumption || lia); reflexivity. }
    split; [exact Todo|]. split; [exact Hn|].
    intros t Ht. destruct (H t Ht) as (Lt & u & Hu & W). split.
    { destruct R; cbn; lia. }
    exists u. split; [exact Hu|]. pose proof (Hv u Hu) as Hne.
    pose proof (proj1 (H u Hu)) as Lu.
    assert (Ub : todo s u <> []).
    { destruct (H u Hu) as (_ & w & _ & W'). exact (waits_busy s u w W'). }
    destruct W as [(l & p & E & Ho)|(p & E & Hf & He)].
    - left. exists l, p. rewrite Todo by exact Ht. split; [exact E|].
      destruct R; cbn; try exact Ho;
        (destruct (lock_eq_dec l l0) as [<-|Hl];
         [congruence|rewrite upd_lock_other by exact Hl; exact Ho]).
    - right. exists p. rewrite Todo by exact Ht. split; [exact E|].
      destruct R; cbn; try (split; [exact Hf|exact He]).
      + rewrite !upd_other by lia. split; [exact Hf|exact He].
      + split; [|exact He]. unfold upd. destruct (Nat.eqb u u0); [reflexivity|exact Hf].
      + split; [exact Hf|]. rewrite upd_other by exact Hne. exact He.
  Qed.

  Lemma deadlock_network s s' v S :
    deadlock s S -> network v s s' ->
    (forall t, S t -> todo s' t = todo s t) /\ deadlock s' S.
  Proof.
    intros [Hn H] R.
    assert (Hv : forall t, S t -> t <> v).
    { intros t Ht ->. destruct (H v Ht) as (_ & u & _ & W). exact (waits_no_network s v u s' W R). }
    assert (Todo : forall t, S t -> todo s' t = todo s t).
    { intros t Ht. specialize (Hv t Ht).
      destruct R; cbn; rewrite ?upd_other by assumption; reflexivity. }
    split; [exact Todo|]. split; [exact Hn|].
    intros t Ht. destruct (H t Ht) as (Lt & u & Hu & W). split.
    { destruct R; cbn; lia. }
    exists u. split; [exact Hu|]. pose proof (Hv u Hu) as Hne.
    destruct W as [(l & p & E & Ho)|(p & E & Hf & He)].
    - left. exists l, p. rewrite Todo by exact Ht. split; [exact E|].
      destruct R; exact Ho.
    - right. exists p. rewrite Todo by exact Ht. split; [exact E|].
      destruct R; cbn; (split; [exact Hf|]); [exact He|].
      rewrite upd_other by exact Hne. exact He.
  Qed.

  Lemma deadlock_steps s s' S :
    steps code s s' -> deadlock s S ->
    (forall t, S t -> todo s' t = todo s t) /\ deadlock s' S.
  Proof.
    induction 1 as [s|v s s1 s2 R H IH|v s s1 s2 R H IH]; intros D.
    - split; [reflexivity|exact D].
    - destruct (deadlock_run s s1 v S D R) as [T D1]. destruct (IH D1) as [T2 D2].
      split; [|exact D2]. intros t Ht. rewrite T2 by exact Ht. exact (T t Ht).
    - destruct (deadlock_network s s1 v S D R) as [T D1]. destruct (IH D1) as [T2 D2].
      split; [|exact D2]. intros t Ht. rewrite T2 by exact Ht. exact (T t Ht).
  Qed.

  (** ** Progress *)

  Hypothesis Mo : modest code.
  Hypothesis Some_code : forall h, exists b, code h b.

  Lemma run_or_wait s t :
    inv s -> (exists s', runs code t s s') \/ todo s t = [] \/ exists u, waits s t u.
  Proof.
    intros I. destruct (todo s t) as [|o p] eqn:E; [right; left; reflexivity|].
    destruct o.
    - destruct (owner s l) as [u|] eqn:Ho.
      + right; right. exists u. left. exists l, p. auto.
      + left. eexists. eapply run_acq; eassumption.
    - destruct (inv_ordered s I t) as (held & _ & H & Sf). rewrite E in Sf.
      inversion Sf as [| |l' held' p' Sf' | | | | | | | | | | | |]; subst.
      left. eexists. eapply run_rel; [eassumption|].
      exact (proj2 (H (Mutex l)) (or_introl eq_refl)).
    - left. destruct (owner s l) as [u|] eqn:Ho.
      + eexists. eapply run_try_no; [eassumption|]. rewrite Ho. discriminate.
      + eexists. eapply run_try_yes; eassumption.
    - left. eexists. eapply run_add_observer; eassumption.
    - left. eexists. eapply run_add_handler; eassumption.
    - left. destruct (servers s n) as [|x l] eqn:Hs.
      + eexists. eapply (run_start_fails code t s n 0); eassumption.
      + eexists. eapply run_start_again; [eassumption|]. rewrite Hs. discriminate.
    - left. eexists. eapply run_spawn; eassumption.
    - left. eexists. eapply run_register; eassumption.
    - left. eexists. eapply run_push; eassumption.
    - left. eexists. eapply run_stop; eassumption.
    - destruct (flag s t0) eqn:Hf.
      + destruct (ended s t0) eqn:He.
        * left. eexists. eapply run_join; eassumption.
        * right; right. exists t0. right. exists p. auto.
      + left. eexists. eapply run_signal; eassumption.
    - left. eexists. eapply run_clear; eassumption.
    - left. destruct (notified_all code Some_code (registered s t0)) as (ps & F).
      eexists. eapply run_notify; eassumption.
    - left. eexists. eapply (run_handle code t s n 0 []); [eassumption|].
      unfold handling. induction (handlers s n) as [|h hs IH]; [constructor|exact IH].
  Qed.

  (** A receive thread which waits for nothing but its flag. *)
  Definition leaving (s : process) (t : nat) : bool :=
    receive s t && negb (ended s t) && flag s t
    && match todo s t with [] => true | _ => false end.

  Lemma progress s : inv s -> (exists t s', runs code t s s') \/ forall t, todo s t = [].
  Proof.
    intros I.
    assert (Search : forall k, (exists t s', runs code t s s')
      \/ forall t, t < k -> t < next s ->
                   (todo s t = [] /\ leaving s t = false) \/ exists u, waits s t u).
    { induction k as [|k [IH|IH]]; [right; lia|left; exact IH|].
      destruct (le_lt_dec (next s) k) as [Lk|Lk].
      { right. intros t Ht Hn. apply IH; lia. }
      destruct (run_or_wait s k I) as [(s' & R)|[E|W]].
      - left. exists k, s'. exact R.
      - destruct (leaving s k) eqn:Le.
        + left. unfold leaving in Le. rewrite !andb_true_iff in Le.
          destruct Le as [[[A B] C] _]. apply negb_true_iff in B.
          exists k. eexists. eapply run_exit; eassumption.
        + right. intros t Ht Hn. destruct (Nat.eq_dec t k) as [->|Hne]; [left; auto|].
          apply IH; lia.
      - right. intros t Ht Hn. destruct (Nat.eq_dec t k) as [->|Hne]; [right; exact W|].
        apply IH; lia. }
    destruct (Search (next s)) as [R|H]; [left; exact R|]. right.
    intro t. destruct (todo s t) as [|o p] eqn:E; [reflexivity|]. exfalso.
    apply (no_deadlock s (fun u => todo s u <> []) I). split.
    - exists t. rewrite E. discriminate.
    - intros u Hu. pose proof (busy_known s u I Hu) as Lu. split; [exact Lu|].
      destruct (H u Lu Lu) as [[E' _]|(v & W)]; [contradiction|].
      exists v. split; [|exact W]. intro Ev.
      destruct (waits_wanted s u v I W) as (r & Wr & Hr).
      destruct (inv_ordered s I v) as (held & _ & Hh & Sf).
      assert (Lv : v < next s).
      { destruct r as [l|x]; [|cbn in Hr; tauto].
        destruct (le_lt_dec (next s) v) as [L|L]; [|exact L].
        destruct (inv_fresh s I v L) as (_ & _ & F). contradiction (F l Hr). }
      rewrite Ev in Sf. inversion Sf; subst. apply Hh in Hr. unfold base in Hr.
      destruct (receive s v) eqn:Er; cbn in Hr; [|contradiction].
      destruct (ended s v) eqn:Ee; cbn in Hr; [contradiction|].
      destruct Hr as [<-|Hr]; [|contradiction].
      destruct W as [(l & q & W & _)|(q & W & Hf & _)].
      + unfold wanted in Wr. rewrite W in Wr. discriminate Wr.
      + destruct (H v Lv Lv) as [[_ Le]|(w & W')].
        * unfold leaving in Le. rewrite Er, Ee, Hf, Ev in Le. discriminate Le.
        * exact (waits_busy s v w W' Ev).
  Qed.

  Lemma completes s :
    inv s -> exists s', steps code s s' /\ forall t, todo s' t = [].
  Proof.
    intros I. pose proof (quiet_acc code Mo s I) as A. revert I.
    induction A as [s _ IH]. intros I.
    destruct (progress s I) as [(t & s1 & R)|H].
    - destruct (IH s1 (ex_intro _ t R) (runs_inv code Mo t s s1 I R)) as (s2 & St & H).
      exists s2. split; [|exact H]. eapply steps_run; eassumption.
    - exists s. split; [constructor|exact H].
  Qed.

  Lemma no_endless s : inv s ->
    ~ exists f : nat -> process, f 0 = s /\ forall k, exists t, runs code t (f k) (f (S k)).
  Proof.
    intros I. pose proof (quiet_acc code Mo s I) as A. clear I.
    induction A as [s _ IH]. intros (f & E & H).
    destruct (H 0) as (t & R). rewrite E in R.
    apply (IH (f 1)); [exists t; exact R|].
    exists (fun k => f (S k)). split; [reflexivity|]. intro k. apply H.
  Qed.

  (** ** The receive threads of a node which is stopped *)

  Fixpoint plain_op (o : op) : Prop :=
    match o with
    | Try _ ys =>
        (fix all (l : list op) := match l with [] => True | x :: l => plain_op x /\ all l end) ys
    | StopServer _ | Clear _ => False
    | _ => True
    end.

  Definition plain (p : list op) : Prop := Forall plain_op p.

  Lemma plain_try l ys : plain_op (Try l ys) <-> plain ys.
  Proof.
    cbn [plain_op]. induction ys as [|y ys IH].
    - split; intros _; [constructor|exact I].
    - rewrite IH. split.
      + intros [A B]. constructor; assumption.
      + intros H. inversion H; subst. split; assumption.
  Qed.

  Lemma plain_app p q : plain p -> plain q -> plain (p ++ q).
  Proof. intros. apply Forall_app. split; assumption. Qed.

  Lemma nested_plain U p : nested U p -> plain p.
  Proof. induction 1; constructor; cbn; auto. Qed.

  Lemma user_plain h b : code h b -> plain (Acq (Usr h) :: b ++ [Rel (Usr h)]).
  Proof. intros C. constructor; [exact I|]. exact (nested_plain _ _ (Mo h b C)). Qed.

  Lemma concat_plain {A} (P : A -> list op -> Prop) l ps :
    (forall x p, P x p -> plain p) -> Forall2 P l ps -> plain (concat ps).
  Proof.
    intros H F. induction F as [|x p l ps Hx F IH]; cbn; [constructor|].
    apply plain_app; [exact (H x p Hx)|exact IH].
  Qed.

  Lemma asked_plain h p : asked code h p -> plain p.
  Proof. intros [n|h' b C]; [repeat constructor|exact (user_plain h' b C)]. Qed.

  Lemma notified_plain o p : notified code o p -> plain p.
  Proof.
    intros [w n|w c|w|h b C]; [repeat constructor|repeat constructor|repeat constructor|].
    exact (user_plain h b C).
  Qed.

  Lemma registering_plain os ts : plain (registering os ts).
  Proof.
    unfold registering. induction os as [|o os IH]; cbn; [constructor|].
    apply plain_app; [|exact IH]. clear IH.
    induction ts as [|t ts IH]; cbn; [constructor|]. repeat (constructor; [exact I|]). exact IH.
  Qed.

  Lemma spawning_plain n k : plain (repeat (Spawn n) k).
  Proof. induction k; cbn; constructor; [exact I|assumption]. Qed.

  Lemma call_plain c : plain (ops_of c).
  Proof. destruct c; repeat constructor. Qed.

  Lemma disciplined_plain A U p : disciplined A U p -> plain p.
  Proof.
    induction 1; [constructor|apply plain_app; [apply call_plain|assumption]|..];
      (constructor; [exact I|assumption]).
  Qed.

  (** The shape of a thread which stops servers: those of the node which have
      not ended are still to be joined. *)
  Definition shape (s : process) (p : list op) : Prop :=
    plain p
    \/ exists ts n q, p = map StopServer ts ++ Clear n :: q /\ plain q
         /\ forall u, In u (servers s n) -> ended s u = true \/ In u ts.

  Record tidy (s : process) : Prop := {
    td_inv : inv s;
    td_shape : forall t, shape s (todo s t);
    td_home : forall u, u < next s -> receive s u = true -> ended s u = false ->
                        In u (servers s (home s u))
  }.

  Lemma shape_plain s o p : shape s (o :: p) -> plain_op o -> plain p.
  Proof.
    intros [H|(ts & n & q & E & Hq & _)] Ho; [inversion H; assumption|].
    destruct ts as [|u ts]; cbn in E; injection E as -> ->; contradiction.
  Qed.

  (** The thread which is about to clear the list holds the node. *)
  Lemma clear_owner s t ts n q :
    inv s -> todo s t = map StopServer ts ++ Clear n :: q -> owner s (Node n) = Some t.
  Proof.
    intros I E. destruct (inv_ordered s I t) as (held & _ & H & Sf). rewrite E in Sf.
    apply (H (Mutex (Node n))). clear -Sf. induction ts as [|u ts IH]; cbn in Sf; inversion Sf; subst; auto.
  Qed.

  Lemma spawn_owner s t n p : inv s -> todo s t = Spawn n :: p -> owner s (Node n) = Some t.
  Proof.
    intros I E. destruct (inv_ordered s I t) as (held & _ & H & Sf). rewrite E in Sf.
    apply (H (Mutex (Node n))). inversion Sf; subst; assumption.
  Qed.

  (** Nothing changes in the lists of servers, and threads only end. *)
  Lemma shape_same s s' p :
    servers s' = servers s -> (forall u, ended s u = true -> ended s' u = true) ->
    shape s p -> shape s' p.
  Proof.
    intros Es Ee [H|(ts & n & q & E & Hq & Hu)]; [left; exact H|].
    right. exists ts, n, q. split; [exact E|]. split; [exact Hq|].
    intros u Hin. rewrite Es in Hin. destruct (Hu u Hin) as [A|A]; auto.
  Qed.

  Lemma tidy_todo s s' t p :
    tidy s -> inv s' ->
    servers s' = servers s -> receive s' = receive s -> ended s' = ended s -> next s' = next s ->
    home s' = home s -> todo s' = upd (todo s) t p -> shape s p -> tidy s'.
  Proof.
    intros T I Es Er Ee En Eh Et Hp. constructor.
    - exact I.
    - intro u. apply (shape_same s); [exact Es|rewrite Ee; auto|].
      rewrite Et. destruct (Nat.eq_dec u t) as [->|Hne].
      + rewrite upd_same. exact Hp.
      + rewrite upd_other by exact Hne. apply td_shape. exact T.
    - intros u. rewrite En, Er, Ee, Eh, Es. apply (td_home s T).
  Qed.

  Lemma runs_tidy t s s' : tidy s -> runs code t s s' -> tidy s'.
  Proof.
    intros T R. pose proof (td_inv s T) as I0. pose proof (runs_inv code Mo t s s' I0 R) as I'.
    pose proof (td_shape s T t) as Sh.
    assert (Kn : todo s t <> [] -> t < next s) by (apply busy_known; exact I0).
    destruct R as
      [l p Nt Ho|l p Nt Ho|l ys p Nt Ho|l ys p Nt Ho|n o p Nt|n h p Nt|n p Nt Hs|n k p Nt Hs Hk
      |n k p Nt Hs|n p Nt|n p Nt|u o p Nt|n p Nt|u p Nt Hf|u p Nt Hf He|n p Nt|u ps p Nt Hn
      |n k ps p Nt Hh|Lt Er Ee Et Ef];
      try rewrite Nt in Sh;
      try (pose proof (shape_plain s _ _ Sh I) as Pl);
      try (eapply tidy_todo; [exact T|exact I'|reflexivity|reflexivity|reflexivity|reflexivity
                             |reflexivity|reflexivity|try (left; exact Pl)]).
    - left. destruct Sh as [Sh|(ts & n & q & E & _)].
      + inversion Sh as [|x y Hx Hy]; subst. apply plain_app; [|exact Hy].
        apply (plain_try l ys). exact Hx.
      + destruct ts; discriminate E.
    - left. destruct Sh as [Sh|(ts & n & q & E & _)].
      + inversion Sh; assumption.
      + destruct ts; discriminate E.
    - left. constructor; [exact I|exact Pl].
    - left. apply plain_app; [apply spawning_plain|]. constructor; [exact I|exact Pl].
    - left. apply plain_app; [apply spawning_plain|]. constructor; [exact I|exact Pl].
    - (* spawn *)
      assert (Lt : t < next s) by (apply Kn; rewrite Nt; discriminate).
      pose proof (spawn_owner s t n p I0 Nt) as Ow.
      constructor; [exact I'| |].
      + intro v. cbn [todo with_todo spawned]. destruct (Nat.eq_dec v t) as [->|Hvt].
        * rewrite upd_same. left. exact Pl.
        * rewrite upd_other by exact Hvt. destruct (Nat.eq_dec v (next s)) as [->|Hvn].
          { rewrite upd_same. left. constructor. }
          rewrite upd_other by exact Hvn.
          destruct (td_shape s T v) as [Hv|(ts & m & q & E & Hq & Hu)]; [left; exact Hv|].
          right. exists ts, m, q. split; [exact E|]. split; [exact Hq|].
          assert (Hmn : m <> n).
          { intros ->. pose proof (clear_owner s v ts n q I0 E). congruence. }
          cbn [servers ended with_todo spawned]. rewrite upd_other by exact Hmn.
          intros u Hin. destruct (Hu u Hin) as [A|A]; [left|right; exact A].
          pose proof (inv_servers s I0 m) as F. rewrite Forall_forall in F.
          destruct (F u Hin) as [Lu _]. rewrite upd_other by lia. exact A.
      + cbn [next receive ended servers home with_todo spawned]. intros v Lv.
        destruct (Nat.eq_dec v (next s)) as [->|Hvn].
        * intros _ _. rewrite !upd_same. apply in_or_app. right. left. reflexivity.
        * rewrite !(upd_other _ (next s)) by exact Hvn. intros Rv Ev.
          pose proof (td_home s T v ltac:(lia) Rv Ev) as Hin.
          unfold upd. destruct (Nat.eqb (home s v) n) eqn:E; [|exact Hin].
          apply Nat.eqb_eq in E. rewrite E in Hin. apply in_or_app. left. exact Hin.
    - left. apply plain_app; [apply registering_plain|exact Pl].
    - (* stop *)
      right. exists (servers s n), n, p. split; [|split].
      + unfold stopping. rewrite <- app_assoc. reflexivity.
      + exact Pl.
      + intros u Hu. right. exact Hu.
    - (* signal *)
      constructor; [exact I'| |exact (td_home s T)].
      intro v. exact (shape_same s (with_flag s u) (todo s v) eq_refl (fun _ H => H) (td_shape s T v)).
    - (* join *)
      destruct Sh as [Sh|(ts & n & q & E & Hq & Hu)].
      { inversion Sh as [|x y Hx Hy]; subst. contradiction. }
      destruct ts as [|x ts]; cbn in E; [discriminate E|]. injection E as -> ->.
      right. exists ts, n, q. split; [reflexivity|]. split; [exact Hq|].
      intros v Hv. destruct (Hu v Hv) as [A|[<-|A]]; [left; exact A|left; exact He|right; exact A].
    - (* clear *)
      destruct Sh as [Sh|(ts & m & q & E & Hq & Hu)].
      { inversion Sh as [|x y Hx Hy]; subst. contradiction. }
      destruct ts as [|x ts]; cbn in E; [|discriminate E]. injection E as -> ->.
      pose proof (clear_owner s t [] m q I0 Nt) as Ow.
      constructor; [exact I'| |].
      + intro v. cbn [todo with_todo with_servers]. destruct (Nat.eq_dec v t) as [->|Hvt].
        { rewrite upd_same. left. exact Hq. }
        rewrite upd_other by exact Hvt.
        destruct (td_shape s T v) as [Hv|(ts & k & r & E & Hr & Hk)]; [left; exact Hv|].
        right. exists ts, k, r. split; [exact E|]. split; [exact Hr|].
        cbn [servers ended with_todo with_servers]. unfold upd.
        destruct (Nat.eqb k m); [contradiction|]. exact Hk.
      + cbn [next receive ended servers home with_todo with_servers]. intros v Lv Rv Ev.
        pose proof (td_home s T v Lv Rv Ev) as Hin. unfold upd.
        destruct (Nat.eqb (home s v) m) eqn:Em; [|exact Hin].
        apply Nat.eqb_eq in Em. rewrite Em in Hin.
        destruct (Hu v Hin) as [A|A]; [congruence|contradiction].
    - left. apply plain_app; [|exact Pl]. exact (concat_plain _ _ _ notified_plain Hn).
    - left. apply plain_app; [|exact Pl]. exact (concat_plain _ _ _ asked_plain Hh).
    - (* exit *)
      constructor; [exact I'| |].
      + intro v. apply (shape_same s); [reflexivity| |exact (td_shape s T v)].
        intros x Hx. cbn. unfold upd. destruct (Nat.eqb x t); [reflexivity|exact Hx].
      + cbn. intros v Lv Rv Ev. apply (td_home s T v Lv Rv).
        unfold upd in Ev. destruct (Nat.eqb v t); [discriminate Ev|exact Ev].
  Qed.

  Lemma network_tidy t s s' : tidy s -> network t s s' -> tidy s'.
  Proof.
    intros T R. pose proof (network_inv t s s' (td_inv s T) R) as I'.
    destruct R as [Lt Er Ee Et|Lt Er Ee Et].
    - eapply tidy_todo; [exact T|exact I'|reflexivity|reflexivity|reflexivity|reflexivity
                        |reflexivity|reflexivity|].
      left. repeat constructor.
    - constructor; [exact I'| |].
      + intro v. apply (shape_same s); [reflexivity| |exact (td_shape s T v)].
        intros x Hx. cbn. unfold upd. destruct (Nat.eqb x t); [reflexivity|exact Hx].
      + cbn. intros v Lv Rv Ev. apply (td_home s T v Lv Rv).
        unfold upd in Ev. destruct (Nat.eqb v t); [discriminate Ev|exact Ev].
  Qed.

  Lemma steps_tidy s s' : tidy s -> steps code s s' -> tidy s'.
  Proof.
    intros T H. induction H as [s|t s s1 s2 R H IH|t s s1 s2 R H IH]; [exact T| |].
    - apply IH. exact (runs_tidy t s s1 T R).
    - apply IH. exact (network_tidy t s s1 T R).
  Qed.

  Lemma boot_tidy ps : Forall (disciplined [] []) ps -> tidy (boot ps).
  Proof.
    intros F. constructor.
    - exact (boot_inv ps F).
    - intro t. left. cbn. destruct (nth_in_or_default t ps []) as [Hin| ->]; [|constructor].
      rewrite Forall_forall in F. exact (disciplined_plain _ _ _ (F _ Hin)).
    - cbn. discriminate.
  Qed.
End Code.
