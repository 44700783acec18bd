(** Every thread takes the mutexes in a fixed order. *)

From Coq Require Import List Arith Lia Bool Wellfounded.
From Verif Require Import ModelLocks SpecLocks.
Import ListNotations.

(** What a thread can hold and another wait for: a mutex, or its own end. *)
Inductive res :=
| Mutex (l : lock)
| End (t : nat).

Definition class (r : res) : nat :=
  match r with
  | Mutex (App _) => 0
  | Mutex (Dev _) => 1
  | Mutex (Node _) => 2
  | End _ => 3
  | Mutex (Notif _) => 4
  | Mutex (Wrap _) => 5
  | Mutex (Own _) => 6
  | Mutex (Usr _) => 7
  end.

Definition index (r : res) : nat :=
  match r with
  | Mutex (App a) => a
  | Mutex (Usr h) => h
  | _ => 0
  end.

Definition less (a b : res) : Prop :=
  class a < class b \/ (class a = class b /\ index a < index b).

Lemma less_trans a b c : less a b -> less b c -> less a c.
Proof. unfold less; lia. Qed.

Lemma less_irrefl a : ~ less a a.
Proof. unfold less; lia. Qed.

Definition below (held : list res) (r : res) : Prop := Forall (fun x => less x r) held.

Definition under (held : list res) (k : nat) : Prop := Forall (fun x => class x < k) held.

Lemma under_below held k r : under held k -> class r = k -> below held r.
Proof. intros H E. eapply Forall_impl; [|exact H]. intros x Hx. cbn in Hx. left. lia. Qed.

Lemma under_le held k k' : under held k -> k <= k' -> under held k'.
Proof. intros H E. eapply Forall_impl; [|exact H]. intros x Hx. cbn in Hx. lia. Qed.

(** [safe R base held p]: a thread which holds [held] and runs [p] takes
    everything in order, stops only threads of [R] and ends with [base]. *)
Inductive safe (R : nat -> Prop) (base : list res) : list res -> list op -> Prop :=
| safe_nil : safe R base base []
| safe_acq l held p :
    below held (Mutex l) -> safe R base (Mutex l :: held) p -> safe R base held (Acq l :: p)
| safe_rel l held p : safe R base held p -> safe R base (Mutex l :: held) (Rel l :: p)
| safe_try l ys held p :
    safe R base (Mutex l :: held) (ys ++ p) -> safe R base held p -> safe R base held (Try l ys :: p)
| safe_addobs n o held p : safe R base held p -> safe R base held (AddObs n o :: p)
| safe_addhandler n h held p : safe R base held p -> safe R base held (AddHandler n h :: p)
| safe_start n held p :
    In (Mutex (Node n)) held -> under held 3 -> safe R base held p -> safe R base held (Start n :: p)
| safe_spawn n held p :
    In (Mutex (Node n)) held -> safe R base held p -> safe R base held (Spawn n :: p)
| safe_register n held p :
    In (Mutex (Node n)) held -> under held 4 -> safe R base held p -> safe R base held (Register n :: p)
| safe_push t o held p : safe R base held p -> safe R base held (Push t o :: p)
| safe_stopall n held p :
    In (Mutex (Node n)) held -> under held 3 -> safe R base held p -> safe R base held (StopAll n :: p)
| safe_stopserver t held p : R t -> under held 3 -> safe R base held p -> safe R base held (StopServer t :: p)
| safe_clear n held p :
    In (Mutex (Node n)) held -> safe R base held p -> safe R base held (Clear n :: p)
| safe_notify t held p : under held 5 -> safe R base held p -> safe R base held (Notify t :: p)
| safe_handle n held p : under held 6 -> safe R base held p -> safe R base held (Handle n :: p).

Lemma safe_mono (R R' : nat -> Prop) base held p :
  (forall t, R t -> R' t) -> safe R base held p -> safe R' base held p.
Proof. intros H S. induction S; econstructor; eauto. Qed.

Definition usr (U : list nat) : list res := map (fun h => Mutex (Usr h)) U.

Lemma below_usr U held h :
  Forall (fun x => x < h) U -> under held 7 -> below (usr U ++ held) (Mutex (Usr h)).
Proof.
  intros HU Hh. apply Forall_app. split.
  - unfold usr. rewrite Forall_map. eapply Forall_impl; [|exact HU].
    intros x Hx. cbn in Hx. right. cbn. lia.
  - eapply under_below; [exact Hh|reflexivity].
Qed.

Lemma nested_safe R base U p :
  nested U p ->
  forall held q, under held 7 -> safe R base held q -> safe R base (usr U ++ held) (p ++ q).
Proof.
  induction 1 as [|h U p HU Hp IH|h U p Hp IH]; intros held q Hu Hq; cbn.
  - exact Hq.
  - apply safe_acq.
    + apply below_usr; assumption.
    + exact (IH held q Hu Hq).
  - apply safe_rel. exact (IH held q Hu Hq).
Qed.

Section Code.
  Variable code : nat -> list op -> Prop.
  Hypothesis Mo : modest code.

  Lemma user_safe R base h b held q :
    code h b -> under held 7 -> safe R base held q ->
    safe R base held ((Acq (Usr h) :: b ++ [Rel (Usr h)]) ++ q).
  Proof.
    intros C Hu Hq. cbn. apply safe_acq.
    - eapply under_below; [exact Hu|reflexivity].
    - exact (nested_safe R base [h] _ (Mo h b C) held q Hu Hq).
  Qed.

  Lemma asked_safe R base h l held q :
    asked code h l -> under held 6 -> safe R base held q -> safe R base held (l ++ q).
  Proof.
    intros A Hu Hq. destruct A as [n|h b C].
    - cbn. apply safe_acq; [eapply under_below; [exact Hu|reflexivity]|].
      apply safe_rel. exact Hq.
    - apply user_safe; [exact C| |exact Hq]. eapply under_le; [exact Hu|lia].
  Qed.

  Lemma handling_safe R base hs k ps held q :
    handling code hs k ps -> under held 6 -> safe R base held q ->
    safe R base held (concat ps ++ q).
  Proof.
    unfold handling. generalize (flat_map (fun h => repeat h k) hs) as l.
    intros l F Hu Hq. induction F as [|h p l ps A F IH]; cbn; [exact Hq|].
    rewrite <- app_assoc. eapply asked_safe; [exact A|exact Hu|exact IH].
  Qed.

  Lemma notified_safe R base o l held q :
    notified code o l -> under held 5 -> safe R base held q -> safe R base held (l ++ q).
  Proof.
    intros A Hu Hq.
    assert (B : forall w, below held (Mutex (Wrap w)))
      by (intro w; eapply under_below; [exact Hu|reflexivity]).
    destruct A as [w n|w c|w|h b C].
    - cbn. apply safe_acq; [apply B|].
      apply safe_try.
      + cbn. apply safe_handle.
        * repeat apply Forall_cons; cbn; try lia.
          eapply Forall_impl; [|exact Hu]. intros x Hx. cbn in Hx. lia.
        * apply safe_rel. apply safe_rel. exact Hq.
      + apply safe_rel. exact Hq.
    - cbn. apply safe_acq; [apply B|].
      apply safe_try.
      + cbn. apply safe_rel. apply safe_rel. exact Hq.
      + apply safe_rel. exact Hq.
    - cbn. apply safe_acq; [apply B|]. apply safe_rel. exact Hq.
    - apply user_safe; [exact C| |exact Hq]. eapply under_le; [exact Hu|lia].
  Qed.

  Lemma notifying_safe R base os ps held q :
    Forall2 (notified code) os ps -> under held 5 -> safe R base held q ->
    safe R base held (concat ps ++ q).
  Proof.
    intros F Hu Hq. induction F as [|o p os ps A F IH]; cbn; [exact Hq|].
    rewrite <- app_assoc. eapply notified_safe; [exact A|exact Hu|exact IH].
  Qed.

  Lemma pushing_safe R base o ts held q :
    under held 4 -> safe R base held q ->
    safe R base held (flat_map (fun t => [Acq (Notif t); Push t o; Rel (Notif t)]) ts ++ q).
  Proof.
    intros Hu Hq. induction ts as [|t ts IH]; cbn; [exact Hq|].
    apply safe_acq; [eapply under_below; [exact Hu|reflexivity]|].
    apply safe_push. apply safe_rel. exact IH.
  Qed.

  Lemma registering_safe R base os ts held q :
    under held 4 -> safe R base held q -> safe R base held (registering os ts ++ q).
  Proof.
    intros Hu Hq. unfold registering. induction os as [|o os IH]; cbn; [exact Hq|].
    rewrite <- app_assoc. apply pushing_safe; assumption.
  Qed.

  Lemma stopping_safe R base n ts held q :
    Forall R ts -> In (Mutex (Node n)) held -> under held 3 -> safe R base held q ->
    safe R base held (stopping n ts ++ q).
  Proof.
    intros F Hn Hu Hq. unfold stopping. rewrite <- app_assoc.
    induction F as [|t ts Ht F IH]; cbn.
    - apply safe_clear; assumption.
    - apply safe_stopserver; assumption.
  Qed.

  Lemma spawning_safe R base n k held q :
    In (Mutex (Node n)) held -> safe R base held q ->
    safe R base held (repeat (Spawn n) k ++ q).
  Proof.
    intros Hn Hq. induction k as [|k IH]; cbn; [exact Hq|]. apply safe_spawn; assumption.
  Qed.

  (** ** The application *)

  Definition apps (A : list nat) : list res := map (fun a => Mutex (App a)) A.

  Lemma apps_under A : under (apps A) 1.
  Proof. unfold apps, under. rewrite Forall_map. apply Forall_forall. intros; cbn; lia. Qed.

  Lemma usr_under U k : 7 < k -> under (usr U) k.
  Proof. intros. unfold usr, under. rewrite Forall_map. apply Forall_forall. intros; cbn; lia. Qed.

  (** The operations inside a call of the API, between taking the node and
      releasing it. *)
  Definition inner (n : nat) (b : list op) : Prop :=
    forall R base held q, In (Mutex (Node n)) held -> under held 3 -> safe R base held q -> safe R base held (b ++ q).

  Lemma node_call_safe R base n b held q :
    inner n b -> under held 2 -> safe R base held q -> safe R base held (node_call n b ++ q).
  Proof.
    intros I Hu Hq. unfold node_call. cbn. rewrite <- app_assoc. apply safe_acq.
    - eapply under_below; [exact Hu|reflexivity].
    - apply I.
      + left. reflexivity.
      + apply Forall_cons; [cbn; lia|]. eapply under_le; [exact Hu|lia].
      + cbn. apply safe_rel. exact Hq.
  Qed.

  Lemma dev_call_safe R base d n b held q :
    inner n b -> under held 1 -> safe R base held q -> safe R base held (dev_call d n b ++ q).
  Proof.
    intros I Hu Hq. unfold dev_call. cbn [app]. rewrite <- app_assoc. apply safe_acq.
    - eapply under_below; [exact Hu|reflexivity].
    - apply node_call_safe; [exact I| |].
      + apply Forall_cons; [cbn; lia|]. eapply under_le; [exact Hu|lia].
      + cbn. apply safe_rel. exact Hq.
  Qed.

  Lemma inner_nil n : inner n [].
  Proof. intros R base held q Hn Hu Hq. exact Hq. Qed.

  Lemma inner_addobs n o : inner n [AddObs n o].
  Proof. intros R base held q Hn Hu Hq. cbn. apply safe_addobs. exact Hq. Qed.

  Lemma inner_addhandler n h : inner n [AddHandler n h].
  Proof. intros R base held q Hn Hu Hq. cbn. apply safe_addhandler. exact Hq. Qed.

  Lemma inner_start n : inner n [Start n].
  Proof. intros R base held q Hn Hu Hq. cbn. apply safe_start; assumption. Qed.

  Lemma inner_stop n : inner n [StopAll n].
  Proof. intros R base held q Hn Hu Hq. cbn. apply safe_stopall; assumption. Qed.

  Lemma call_safe R base c held q :
    under held 1 -> safe R base held q -> safe R base held (ops_of c ++ q).
  Proof.
    intros Hu Hq.
    assert (H2 : under held 2) by (eapply under_le; [exact Hu|lia]).
    assert (Hd : forall d, safe R base held ([Acq (Dev d); Rel (Dev d)] ++ q)).
    { intro d. cbn. apply safe_acq; [eapply under_below; [exact Hu|reflexivity]|].
      apply safe_rel. exact Hq. }
    destruct c; cbn [ops_of]; try apply Hd; rewrite <- ?app_assoc;
      repeat (apply node_call_safe || apply dev_call_safe);
      first [ assumption | exact (inner_nil _) | exact (inner_addobs _ _) | exact (inner_addhandler _ _)
            | exact (inner_start _) | exact (inner_stop _) | idtac ].
    cbn [app]. apply safe_try; [|exact Hq].
    cbn [app]. apply safe_rel. apply dev_call_safe; [apply inner_nil|exact Hu|exact Hq].
  Qed.

  Lemma disciplined_safe R A U p : disciplined A U p -> safe R [] (usr U ++ apps A) p.
  Proof.
    induction 1 as [|A c p D IH|a A p Ha D IH|a A p D IH|h A U p Hh D IH|h A U p D IH].
    - apply safe_nil.
    - cbn. apply call_safe; [apply apps_under|exact IH].
    - cbn. apply safe_acq; [|exact IH].
      unfold below, apps. rewrite Forall_map. eapply Forall_impl; [|exact Ha].
      intros x Hx. cbn in Hx. right. cbn. lia.
    - cbn. apply safe_rel. exact IH.
    - apply safe_acq; [|exact IH].
      apply below_usr; [exact Hh|]. eapply under_le; [apply apps_under|lia].
    - cbn. apply safe_rel. exact IH.
  Qed.

  (** ** The invariant *)

  Definition holds (s : process) (t : nat) (r : res) : Prop :=
    match r with
    | Mutex l => owner s l = Some t
    | End u => u = t /\ t < next s /\ receive s t = true /\ ended s t = false
    end.

  Definition base (s : process) (t : nat) : list res :=
    if receive s t && negb (ended s t) then [End t] else [].

  (** The receive threads. *)
  Definition serving (s : process) (t : nat) : Prop := t < next s /\ receive s t = true.

  Definition ordered (s : process) (t : nat) : Prop :=
    exists held, NoDup held /\ (forall r, holds s t r <-> In r held)
                 /\ safe (serving s) (base s t) held (todo s t).

  Record inv (s : process) : Prop := {
    inv_ordered : forall t, ordered s t;
    inv_fresh : forall t, next s <= t ->
      todo s t = [] /\ receive s t = false /\ forall l, owner s l <> Some t;
    inv_app : forall t, receive s t = false -> ended s t = false;
    inv_quiet : forall t, ended s t = true -> todo s t = [];
    inv_servers : forall n, Forall (serving s) (servers s n)
  }.

  Lemma upd_same {A} (f : nat -> A) k v : upd f k v k = v.
  Proof. unfold upd. rewrite Nat.eqb_refl. reflexivity. Qed.

  Lemma upd_other {A} (f : nat -> A) k v x : x <> k -> upd f k v x = f x.
  Proof. intros H. unfold upd. apply Nat.eqb_neq in H. rewrite H. reflexivity. Qed.

  Lemma upd_lock_same f k v : upd_lock f k v k = v.
  Proof. unfold upd_lock. destruct (lock_eq_dec k k); [reflexivity|contradiction]. Qed.

  Lemma upd_lock_other f k v x : x <> k -> upd_lock f k v x = f x.
  Proof. intros H. unfold upd_lock. destruct (lock_eq_dec x k); [contradiction|reflexivity]. Qed.

  Lemma busy_known s t : inv s -> todo s t <> [] -> t < next s.
  Proof.
    intros I H. destruct (le_lt_dec (next s) t) as [L|L]; [|exact L].
    destruct (inv_fresh s I t L) as [E _]. contradiction.
  Qed.

  Lemma busy_alive s t : inv s -> todo s t <> [] -> ended s t = false.
  Proof.
    intros I H. destruct (ended s t) eqn:E; [|reflexivity].
    contradiction (H (inv_quiet s I t E)).
  Qed.

  (** Only [todo] of one thread changes, and nothing the invariant looks at. *)
  Lemma inv_todo s s' t p :
    inv s -> t < next s ->
    owner s' = owner s -> receive s' = receive s -> ended s' = ended s -> next s' = next s ->
    todo s' = upd (todo s) t p ->
    (p <> [] -> ended s t = false) ->
    (forall n, Forall (serving s) (servers s' n)) ->
    (forall held, safe (serving s) (base s t) held (todo s t) -> safe (serving s) (base s t) held p) ->
    inv s'.
  Proof.
    intros I Lt Eo Er Ee En Et Ea Hv Hs.
    assert (Hh : forall u r, holds s' u r <-> holds s u r).
    { intros u r. destruct r; cbn; rewrite ?Eo, ?Er, ?Ee, ?En; reflexivity. }
    assert (Hb : forall u, base s' u = base s u) by (intro u; unfold base; rewrite Er, Ee; reflexivity).
    assert (Hr : forall u, serving s u -> serving s' u)
      by (intro u; unfold serving; rewrite En, Er; tauto).
    constructor.
    - intro u. destruct (inv_ordered s I u) as (held & Nd & H & Sf).
      exists held. split; [exact Nd|]. split; [intro r; rewrite Hh; apply H|].
      apply (safe_mono (serving s)); [exact Hr|].
      rewrite Hb, Et. destruct (Nat.eq_dec u t) as [->|Hne].
      + rewrite upd_same. apply Hs. exact Sf.
      + rewrite upd_other by exact Hne. exact Sf.
    - intros u Hu. rewrite En in Hu. destruct (inv_fresh s I u Hu) as (A & B & C).
      rewrite Et, Er, Eo. rewrite upd_other by lia. auto.
    - intros u Hu. rewrite Er in Hu. rewrite Ee. exact (inv_app s I u Hu).
    - intros u Hu. rewrite Ee in Hu. rewrite Et. destruct (Nat.eq_dec u t) as [->|Hne].
      + rewrite upd_same. destruct p as [|o p]; [reflexivity|].
        exfalso. assert (ended s t = false) by (apply Ea; discriminate). congruence.
      + rewrite upd_other by exact Hne. exact (inv_quiet s I u Hu).
    - intro n. eapply Forall_impl; [|exact (Hv n)]. exact Hr.
  Qed.

  (** A thread takes a mutex which is free. *)
  Lemma inv_take s t l p :
    inv s -> todo s t <> [] -> owner s l = None ->
    (forall held, safe (serving s) (base s t) held (todo s t) -> safe (serving s) (base s t) (Mutex l :: held) p) ->
    inv (with_todo (with_owner s l (Some t)) t p).
  Proof.
    intros I Nt Ho Hs. pose proof (busy_known s t I Nt) as Lt. pose proof (busy_alive s t I Nt) as Al.
    constructor.
    - intro u. destruct (inv_ordered s I u) as (held & Nd & H & Sf).
      destruct (Nat.eq_dec u t) as [->|Hne].
      + exists (Mutex l :: held). split; [|split].
        * constructor; [|exact Nd]. intro Hin. apply H in Hin. cbn in Hin. congruence.
        * intros [m|v].
          -- cbn. destruct (lock_eq_dec m l) as [->|Hm].
             ++ rewrite upd_lock_same. tauto.
             ++ rewrite upd_lock_other by exact Hm. specialize (H (Mutex m)). cbn in H. rewrite H.
                split; [tauto|]. intros [E|E]; [congruence|exact E].
          -- specialize (H (End v)). cbn in *. rewrite H.
             split; [tauto|]. intros [E|E]; [congruence|exact E].
        * cbn. rewrite upd_same. change (base _ t) with (base s t). apply Hs. exact Sf.
      + exists held. split; [exact Nd|]. split.
        * intros [m|v].
          -- cbn. destruct (lock_eq_dec m l) as [->|Hm].
             ++ rewrite upd_lock_same. specialize (H (Mutex l)). cbn in H. rewrite <- H.
                split; congruence.
             ++ rewrite upd_lock_other by exact Hm. exact (H (Mutex m)).
          -- exact (H (End v)).
        * cbn. rewrite upd_other by exact Hne. exact Sf.
    - cbn. intros u Hu. destruct (inv_fresh s I u Hu) as (A & B & C).
      rewrite upd_other by lia. split; [exact A|]. split; [exact B|].
      intro m. destruct (lock_eq_dec m l) as [->|Hm].
      + rewrite upd_lock_same. intro E. injection E as E. lia.
      + rewrite upd_lock_other by exact Hm. apply C.
    - exact (inv_app s I).
    - cbn. intros u Hu. destruct (Nat.eq_dec u t) as [->|Hne]; [congruence|].
      rewrite upd_other by exact Hne. exact (inv_quiet s I u Hu).
    - exact (inv_servers s I).
  Qed.

  Lemma inv_drop s t l p :
    inv s -> todo s t = Rel l :: p -> owner s l = Some t ->
    inv (with_todo (with_owner s l None) t p).
  Proof.
    intros I Nt Ho. assert (Nn : todo s t <> []) by (rewrite Nt; discriminate).
    pose proof (busy_known s t I Nn) as Lt. pose proof (busy_alive s t I Nn) as Al.
    constructor.
    - intro u. destruct (inv_ordered s I u) as (held & Nd & H & Sf).
      destruct (Nat.eq_dec u t) as [->|Hne].
      + rewrite Nt in Sf. inversion Sf as [| |l' held' p' Sf' | | | | | | | | | | | |]; subst.
        inversion Nd as [|x y Hx Nd']; subst.
        exists held'. split; [exact Nd'|]. split.
        * intros [m|v].
          -- cbn. destruct (lock_eq_dec m l) as [->|Hm].
             ++ rewrite upd_lock_same. split; [discriminate|]. intro E. contradiction.
             ++ rewrite upd_lock_other by exact Hm. specialize (H (Mutex m)). cbn in H. rewrite H.
                split; [|tauto]. intros [E|E]; [congruence|exact E].
          -- specialize (H (End v)). cbn in *. rewrite H.
             split; [|tauto]. intros [E|E]; [congruence|exact E].
        * cbn. rewrite upd_same. exact Sf'.
      + exists held. split; [exact Nd|]. split.
        * intros [m|v].
          -- cbn. destruct (lock_eq_dec m l) as [->|Hm].
             ++ rewrite upd_lock_same. specialize (H (Mutex l)). cbn in H. rewrite <- H.
                split; congruence.
             ++ rewrite upd_lock_other by exact Hm. exact (H (Mutex m)).
          -- exact (H (End v)).
        * cbn. rewrite upd_other by exact Hne. exact Sf.
    - cbn. intros u Hu. destruct (inv_fresh s I u Hu) as (A & B & C).
      rewrite upd_other by lia. split; [exact A|]. split; [exact B|].
      intro m. destruct (lock_eq_dec m l) as [->|Hm].
      + rewrite upd_lock_same. discriminate.
      + rewrite upd_lock_other by exact Hm. apply C.
    - exact (inv_app s I).
    - cbn. intros u Hu. destruct (Nat.eq_dec u t) as [->|Hne]; [congruence|].
      rewrite upd_other by exact Hne. exact (inv_quiet s I u Hu).
    - exact (inv_servers s I).
  Qed.

  (** A receive thread ends. *)
  Lemma inv_end s t :
    inv s -> t < next s -> receive s t = true -> ended s t = false -> todo s t = [] ->
    inv (with_ended s t).
  Proof.
    intros I Lt Er Ee Et. constructor.
    - intro u. destruct (inv_ordered s I u) as (held & Nd & H & Sf).
      destruct (Nat.eq_dec u t) as [->|Hne].
      + rewrite Et in Sf. inversion Sf as [E| | | | | | | | | | | | | |]; subst.
        unfold base in H. rewrite Er, Ee in H. cbn in H.
        exists []. split; [constructor|]. split.
        * intros [m|v].
          -- specialize (H (Mutex m)). cbn in *. rewrite H. split; [|tauto].
             intros [E|E]; [discriminate E|exact E].
          -- cbn. rewrite upd_same. split; [|tauto]. intros (_ & _ & _ & E). discriminate E.
        * unfold base. cbn. rewrite upd_same, Er, Et. cbn. apply safe_nil.
      + exists held. split; [exact Nd|]. split.
        * intros [m|v]; [exact (H (Mutex m))|]. specialize (H (End v)). cbn in *.
          rewrite upd_other by exact Hne. exact H.
        * unfold base in *. cbn. rewrite upd_other by exact Hne. exact Sf.
    - exact (inv_fresh s I).
    - cbn. intros u Hu. destruct (Nat.eq_dec u t) as [->|Hne]; [congruence|].
      rewrite upd_other by exact Hne. exact (inv_app s I u Hu).
    - cbn. intros u Hu. destruct (Nat.eq_dec u t) as [->|Hne]; [exact Et|].
      rewrite upd_other in Hu by exact Hne. exact (inv_quiet s I u Hu).
    - exact (inv_servers s I).
  Qed.

  Lemma inv_spawned s n : inv s -> inv (spawned s n).
  Proof.
    intros I. destruct (inv_fresh s I (next s) (le_n _)) as (F1 & F2 & F3).
    assert (Hr : forall u, serving s u -> serving (spawned s n) u).
    { intros u [A B]. split; cbn; [lia|]. rewrite upd_other by lia. exact B. }
    constructor.
    - intro u. destruct (inv_ordered s I u) as (held & Nd & H & Sf).
      destruct (Nat.eq_dec u (next s)) as [->|Hne].
      + exists [End (next s)]. split; [repeat constructor; tauto|]. split.
        * intros [m|v].
          -- cbn. split; [intro E; contradiction (F3 m E)|]. intros [E|E]; [discriminate E|contradiction].
          -- cbn. rewrite !upd_same. split.
             ++ intros (-> & _). left. reflexivity.
             ++ intros [E|E]; [|contradiction]. injection E as <-. repeat split; lia.
        * unfold base. cbn. rewrite !upd_same. cbn. apply safe_nil.
      + exists held. split; [exact Nd|]. split.
        * intros [m|v]; [exact (H (Mutex m))|]. specialize (H (End v)). cbn in *.
          rewrite !upd_other by exact Hne. rewrite <- H. split.
          -- intros (A & B & C & D). repeat split; try assumption. lia.
          -- intros (A & B & C & D). repeat split; try assumption. lia.
        * unfold base in *. cbn. rewrite !upd_other by exact Hne.
          exact (safe_mono _ _ _ _ _ Hr Sf).
    - cbn. intros u Hu. destruct (inv_fresh s I u ltac:(lia)) as (A & B & C).
      rewrite !upd_other by lia. auto.
    - cbn. intros u Hu. destruct (Nat.eq_dec u (next s)) as [->|Hne].
      + rewrite upd_same. reflexivity.
      + rewrite upd_other by exact Hne. rewrite upd_other in Hu by exact Hne.
        exact (inv_app s I u Hu).
    - cbn. intros u Hu. destruct (Nat.eq_dec u (next s)) as [->|Hne].
      + rewrite upd_same. reflexivity.
      + rewrite upd_other by exact Hne. rewrite upd_other in Hu by exact Hne.
        exact (inv_quiet s I u Hu).
    - cbn. intro m. unfold upd at 1. destruct (Nat.eqb m n).
      + apply Forall_app. split.
        * eapply Forall_impl; [|exact (inv_servers s I n)]. exact Hr.
        * constructor; [|constructor]. split; cbn; [lia|]. apply upd_same.
      + eapply Forall_impl; [|exact (inv_servers s I m)]. exact Hr.
  Qed.

  Ltac same I Nt :=
    match goal with
    | |- inv (with_todo ?s0 ?t ?p) =>
        eapply (inv_todo _ _ t p I);
        [ eapply busy_known; [exact I|rewrite Nt; discriminate]
        | reflexivity | reflexivity | reflexivity | reflexivity | reflexivity
        | intros _; eapply busy_alive; [exact I|rewrite Nt; discriminate]
        | try exact (inv_servers _ I)
        | intros held Sf; rewrite Nt in Sf; inversion Sf; subst ]
    end.

  Lemma runs_inv t s s' : inv s -> runs code t s s' -> inv s'.
  Proof.
    intros I R. destruct R as
      [l p Nt Ho|l p Nt Ho|l ys p Nt Ho|l ys p Nt Ho|n o p Nt|n h p Nt|n p Nt Hs|n k p Nt Hs Hk
      |n k p Nt Hs|n p Nt|n p Nt|u o p Nt|n p Nt|u p Nt Hf|u p Nt Hf He|n p Nt|u ps p Nt Hn
      |n k ps p Nt Hh|Lt Er Ee Et Ef].
    - apply inv_take; [exact I|rewrite Nt; discriminate|exact Ho|].
      intros held Sf. rewrite Nt in Sf. inversion Sf; subst. assumption.
    - apply inv_drop; assumption.
    - apply inv_take; [exact I|rewrite Nt; discriminate|exact Ho|].
      intros held Sf. rewrite Nt in Sf. inversion Sf; subst. assumption.
    - same I Nt. assumption.
    - same I Nt. assumption.
    - same I Nt. assumption.
    - same I Nt. apply safe_register; [assumption|eapply under_le; [eassumption|lia]|assumption].
    - same I Nt. apply spawning_safe; [assumption|].
      apply safe_register; [assumption|eapply under_le; [eassumption|lia]|assumption].
    - same I Nt. apply spawning_safe; [assumption|]. apply safe_stopall; assumption.
    - pose proof (inv_spawned s n I) as I'.
      assert (Nn : todo s t <> []) by (rewrite Nt; discriminate).
      pose proof (busy_known s t I Nn) as Lt.
      assert (Nt' : todo (spawned s n) t = Spawn n :: p) by (cbn; rewrite upd_other by lia; exact Nt).
      eapply (inv_todo _ _ t p I');
        [ eapply busy_known; [exact I'|rewrite Nt'; discriminate]
        | reflexivity | reflexivity | reflexivity | reflexivity | reflexivity
        | intros _; eapply busy_alive; [exact I'|rewrite Nt'; discriminate]
        | exact (inv_servers _ I')
        | intros held Sf; rewrite Nt' in Sf; inversion Sf; subst; assumption ].
    - same I Nt. apply registering_safe; assumption.
    - same I Nt. assumption.
    - same I Nt. apply stopping_safe; try assumption. exact (inv_servers s I n).
    - destruct I as [I1 I2 I3 I4 I5]. constructor; assumption.
    - same I Nt. assumption.
    - same I Nt; [|assumption]. cbn. intro m. unfold upd. destruct (Nat.eqb m n); [constructor|].
      exact (inv_servers s I m).
    - same I Nt. eapply notifying_safe; eassumption.
    - same I Nt. eapply handling_safe; eassumption.
    - apply inv_end; assumption.
  Qed.

  Lemma network_inv t s s' : inv s -> network t s s' -> inv s'.
  Proof.
    intros I [Lt Er Ee Et|Lt Er Ee Et].
    - eapply (inv_todo _ _ t _ I); [exact Lt|reflexivity|reflexivity|reflexivity|reflexivity|reflexivity| | |].
      + intros _. exact Ee.
      + exact (inv_servers s I).
      + intros held Sf. rewrite Et in Sf. inversion Sf; subst.
        unfold base. rewrite Er, Ee. cbn. apply safe_acq.
        * apply Forall_cons; [left; cbn; lia|constructor].
        * apply safe_notify; [repeat constructor|]. apply safe_rel. apply safe_nil.
    - apply inv_end; assumption.
  Qed.

  Lemma steps_inv s s' : inv s -> steps code s s' -> inv s'.
  Proof.
    intros I H. induction H as [s|t s s1 s2 R H IH|t s s1 s2 R H IH]; [exact I| |].
    - apply IH. exact (runs_inv t s s1 I R).
    - apply IH. exact (network_inv t s s1 I R).
  Qed.

  Lemma boot_inv ps : Forall (disciplined [] []) ps -> inv (boot ps).
  Proof.
    intros F. constructor.
    - intro t. exists []. split; [constructor|]. split.
      + intros [l|u]; cbn; [split; [discriminate|tauto]|].
        split; [|tauto]. intros (_ & _ & E & _). discriminate E.
      + cbn. destruct (nth_in_or_default t ps []) as [Hin| ->].
        * rewrite Forall_forall in F. exact (disciplined_safe _ [] [] _ (F _ Hin)).
        * apply safe_nil.
    - cbn. intros t Lt. rewrite nth_overflow by exact Lt. repeat split. discriminate.
    - reflexivity.
    - cbn. discriminate.
    - constructor.
  Qed.

  (** ** No deadlock *)

  (** What thread [t] waits for. *)
  Definition wanted (s : process) (t : nat) : option res :=
    match todo s t with
    | Acq l :: _ => Some (Mutex l)
    | StopServer u :: _ => Some (End u)
    | _ => None
    end.

  Lemma waits_wanted s t u :
    inv s -> waits s t u -> exists r, wanted s t = Some r /\ holds s u r.
  Proof.
    intros I [(l & p & E & Ho)|(p & E & Hf & He)]; unfold wanted; rewrite E.
    - exists (Mutex l). split; [reflexivity|exact Ho].
    - exists (End u). split; [reflexivity|]. cbn. split; [reflexivity|].
      destruct (inv_ordered s I t) as (held & _ & _ & Sf). rewrite E in Sf.
      inversion Sf as [| | | | | | | | | | |u' held' p' [A B] Hu Sf' | | |]; subst. auto.
  Qed.

  (** A thread holds only what is below what it waits for. *)
  Lemma wanted_above s t r r' :
    inv s -> wanted s t = Some r -> holds s t r' -> less r' r.
  Proof.
    intros I W Hh. destruct (inv_ordered s I t) as (held & _ & H & Sf).
    apply H in Hh. unfold wanted in W. destruct (todo s t) as [|o p]; [discriminate W|].
    destruct o; try discriminate W; injection W as <-.
    - inversion Sf; subst. unfold below in *.
      match goal with H : Forall _ held |- _ => rewrite Forall_forall in H; exact (H _ Hh) end.
    - inversion Sf; subst. unfold under in *.
      match goal with H : Forall _ held |- _ => rewrite Forall_forall in H; specialize (H _ Hh) end.
      left. cbn in *. assumption.
  Qed.

  Definition wants (s : process) (t u : nat) : Prop :=
    exists a b, wanted s t = Some a /\ wanted s u = Some b /\ less a b.

  Lemma wants_trans s t u v : wants s t u -> wants s u v -> wants s t v.
  Proof.
    intros (a & b & A & B & L) (b' & c & B' & C & L'). exists a, c.
    split; [exact A|]. split; [exact C|]. apply (less_trans a b c); [exact L|].
    rewrite B in B'. injection B' as <-. exact L'.
  Qed.

  Lemma wants_irrefl s t : ~ wants s t t.
  Proof.
    intros (a & b & A & B & L). rewrite A in B. injection B as <-. exact (less_irrefl a L).
  Qed.

  Lemma no_deadlock s S : inv s -> ~ deadlock s S.
  Proof.
    intros I [[t0 H0] H].
    assert (Next : forall t, S t -> exists u, S u /\ wants s t u).
    { intros t Ht. destruct (H t Ht) as (_ & u & Hu & W). exists u. split; [exact Hu|].
      destruct (H u Hu) as (_ & v & Hv & W').
      destruct (waits_wanted s t u I W) as (a & Wa & Ha).
      destruct (waits_wanted s u v I W') as (b & Wb & _).
      exists a, b. split; [exact Wa|]. split; [exact Wb|].
      exact (wanted_above s u b a I Wb Ha). }
    assert (Chain : forall m, exists t l, length l = m /\ S t /\ Forall S l /\ NoDup (t :: l)
                                          /\ Forall (fun x => wants s x t) l).
    { induction m as [|m (t & l & Len & Ht & Hl & Nd & W)].
      - exists t0, []. repeat split; auto; constructor; auto. constructor.
      - destruct (Next t Ht) as (u & Hu & Wu).
        assert (W' : Forall (fun x => wants s x u) (t :: l)).
        { constructor; [exact Wu|]. eapply Forall_impl; [|exact W].
          intros x Hx. exact (wants_trans s x t u Hx Wu). }
        exists u, (t :: l). split; [cbn; lia|]. split; [exact Hu|].
        split; [constructor; assumption|]. split; [|exact W'].
        constructor; [|exact Nd]. intro Hin. rewrite Forall_forall in W'.
        exact (wants_irrefl s u (W' u Hin)). }
    destruct (Chain (next s)) as (t & l & Len & Ht & Hl & Nd & _).
    assert (Inc : incl (t :: l) (seq 0 (next s))).
    { intros x Hx. apply in_seq. split; [lia|]. cbn. apply (H x).
      destruct Hx as [<-|Hx]; [exact Ht|]. rewrite Forall_forall in Hl. exact (Hl x Hx). }
    pose proof (NoDup_incl_length Nd Inc) as L. rewrite seq_length in L. cbn in L. lia.
  Qed.

  (** ** Threads which can go on *)

  Definition stuck (s : process) : Prop := forall t s', ~ runs code t s s'.

  (** The code of the application has a run, whenever it is called. *)
  Hypothesis Some_code : forall h, exists b, code h b.

  Lemma asked_some h : exists l, asked code h l.
  Proof.
    destruct h as [n|h]; [eexists; constructor|].
    destruct (Some_code h) as (b & B). eexists. constructor. exact B.
  Qed.

  Lemma notified_some o : exists l, notified code o l.
  Proof.
    destruct o as [w n|w c|w|h]; try (eexists; constructor; fail).
    destruct (Some_code h) as (b & B). eexists. constructor. exact B.
  Qed.

  Lemma notified_all os : exists ps, Forall2 (notified code) os ps.
  Proof.
    induction os as [|o os (ps & IH)]; [exists []; constructor|].
    destruct (notified_some o) as (l & L). exists (l :: ps). constructor; assumption.
  Qed.

  (** A thread which cannot run is done, or polls its socket, or waits. *)
  Lemma stuck_waits s t :
    inv s -> stuck s -> todo s t <> [] -> exists u, u < next s /\ todo s u <> [] /\ waits s t u.
  Proof.
    intros I St Nt. destruct (todo s t) as [|o p] eqn:E; [contradiction|].
    assert (Hw : exists u, waits s t u).
    { destruct o.
      - destruct (owner s l) as [u|] eqn:Ho.
        + exists u. left. exists l, p. auto.
        + exfalso. eapply St. eapply run_acq; eassumption.
      - destruct (inv_ordered s I t) as (held & _ & H & Sf). rewrite E in Sf.
        inversion Sf as [| |l' held' p' Sf' | | | | | | | | | | | |]; subst.
        exfalso. eapply St. eapply run_rel; [eassumption|].
        exact (proj2 (H (Mutex l)) (or_introl eq_refl)).
      - exfalso. destruct (owner s l) as [u|] eqn:Ho.
        + eapply St. eapply run_try_no; [eassumption|]. rewrite Ho. discriminate.
        + eapply St. eapply run_try_yes; eassumption.
      - exfalso. eapply St. eapply run_add_observer; eassumption.
      - exfalso. eapply St. eapply run_add_handler; eassumption.
      - exfalso. destruct (servers s n) as [|x l] eqn:Hs.
        + eapply St. eapply (run_start_fails code t s n 0); eassumption.
        + eapply St. eapply run_start_again; [eassumption|]. rewrite Hs. discriminate.
      - exfalso. eapply St. eapply run_spawn; eassumption.
      - exfalso. eapply St. eapply run_register; eassumption.
      - exfalso. eapply St. eapply run_push; eassumption.
      - exfalso. eapply St. eapply run_stop; eassumption.
      - destruct (flag s t0) eqn:Hf.
        + destruct (ended s t0) eqn:He.
          * exfalso. eapply St. eapply run_join; eassumption.
          * exists t0. right. exists p. auto.
        + exfalso. eapply St. eapply run_signal; eassumption.
      - exfalso. eapply St. eapply run_clear; eassumption.
      - exfalso. destruct (notified_all (registered s t0)) as (ps & F).
        eapply St. eapply run_notify; eassumption.
      - exfalso. eapply St. eapply (run_handle code t s n 0 []); [eassumption|].
        unfold handling. induction (handlers s n) as [|h hs IH]; [constructor|exact IH]. }
    destruct Hw as (u & W). exists u.
    destruct (waits_wanted s t u I W) as (r & Wr & Hr).
    assert (Lu : u < next s).
    { destruct r as [l|v].
      - destruct (le_lt_dec (next s) u) as [L|L]; [|exact L].
        destruct (inv_fresh s I u L) as (_ & _ & F). contradiction (F l Hr).
      - cbn in Hr. tauto. }
    split; [exact Lu|]. split; [|exact W].
    intro Eu. destruct (inv_ordered s I u) as (held & _ & H & Sf).
    rewrite Eu in Sf. inversion Sf; subst. apply H in Hr. unfold base in Hr.
    destruct (receive s u) eqn:Er; cbn in Hr; [|contradiction].
    destruct (ended s u) eqn:Ee; cbn in Hr; [contradiction|].
    destruct Hr as [<-|Hr]; [|contradiction].
    destruct W as [(l & q & W & _)|(q & W & Hf & _)].
    - unfold wanted in Wr. rewrite W in Wr. discriminate Wr.
    - eapply St. eapply run_exit; eassumption.
  Qed.

  Lemma stuck_finished s t : inv s -> stuck s -> todo s t = [].
  Proof.
    intros I St. destruct (todo s t) as [|o p] eqn:E; [reflexivity|]. exfalso.
    apply (no_deadlock s (fun u => todo s u <> []) I). split.
    - exists t. rewrite E. discriminate.
    - intros u Hu. split; [exact (busy_known s u I Hu)|].
      destruct (stuck_waits s u I St Hu) as (v & _ & Hv & W). exists v. auto.
  Qed.

  (** ** Without new datagrams everything comes to rest *)

  Fixpoint weight (i : nat) (o : op) : nat :=
    match o with
    | Try _ ys =>
        (if Nat.eqb i 0 then 1 else 0)
        + (fix sum (l : list op) := match l with [] => 0 | x :: l => weight i x + sum l end) ys
    | Start _ | Handle _ => if Nat.eqb i 2 then 1 else 0
    | Spawn _ | Register _ | StopAll _ => if Nat.eqb i 1 then 1 else 0
    | Notify _ => if Nat.eqb i 3 then 1 else 0
    | _ => if Nat.eqb i 0 then 1 else 0
    end.

  Fixpoint weights (i : nat) (p : list op) : nat :=
    match p with [] => 0 | x :: p => weight i x + weights i p end.

  Lemma weights_app i p q : weights i (p ++ q) = weights i p + weights i q.
  Proof. induction p as [|o p IH]; cbn; [reflexivity|]. rewrite IH. lia. Qed.

  Lemma weight_try i l ys :
    weight i (Try l ys) = (if Nat.eqb i 0 then 1 else 0) + weights i ys.
  Proof. cbn [weight]. f_equal. induction ys as [|y ys IH]; [reflexivity|]. cbn [weights]. rewrite <- IH. reflexivity. Qed.

  (** The part of a thread, with its flags for the lowest level. *)
  Definition load (s : process) (i t : nat) : nat :=
    weights i (todo s t)
    + (if Nat.eqb i 0 then (if ended s t then 0 else 1) + (if flag s t then 0 else 1) else 0).

  Fixpoint sum_to (n : nat) (f : nat -> nat) : nat :=
    match n with 0 => 0 | S n => f n + sum_to n f end.

  Definition total (s : process) (i : nat) : nat := sum_to (next s) (load s i).

  Lemma sum_to_ext n f g : (forall t, t < n -> f t = g t) -> sum_to n f = sum_to n g.
  Proof.
    induction n as [|n IH]; intros H; cbn; [reflexivity|].
    rewrite (H n) by lia. rewrite IH; [reflexivity|]. intros; apply H; lia.
  Qed.

  Lemma sum_to_one n f g t :
    t < n -> (forall u, u < n -> u <> t -> f u = g u) ->
    sum_to n f + g t = sum_to n g + f t.
  Proof.
    induction n as [|n IH]; intros L H; [lia|]. cbn.
    destruct (Nat.eq_dec t n) as [->|Hne].
    - rewrite (sum_to_ext n f g); [lia|]. intros u Hu. apply H; lia.
    - rewrite (H n) by lia. specialize (IH ltac:(lia)). specialize (IH ltac:(intros; apply H; lia)).
      lia.
  Qed.

  (** Lexicographic comparison of the four totals. *)
  Definition smaller (s' s : process) : Prop :=
    total s' 3 < total s 3
    \/ (total s' 3 = total s 3
        /\ (total s' 2 < total s 2
            \/ (total s' 2 = total s 2
                /\ (total s' 1 < total s 1
                    \/ (total s' 1 = total s 1 /\ total s' 0 < total s 0))))).

  Definition lighter (p' p : list op) : Prop :=
    weights 3 p' < weights 3 p
    \/ (weights 3 p' = weights 3 p
        /\ (weights 2 p' < weights 2 p
            \/ (weights 2 p' = weights 2 p
                /\ (weights 1 p' < weights 1 p
                    \/ (weights 1 p' = weights 1 p /\ weights 0 p' < weights 0 p))))).

  Lemma total_todo s s' t p i :
    t < next s -> todo s' = upd (todo s) t p -> ended s' = ended s -> flag s' = flag s ->
    next s' = next s ->
    total s' i + weights i (todo s t) = total s i + weights i p.
  Proof.
    intros Lt Et Ee Ef En. unfold total. rewrite En.
    pose proof (sum_to_one (next s) (load s' i) (load s i) t Lt) as H.
    specialize (H ltac:(intros u _ Hu; unfold load; rewrite Et, Ee, Ef, upd_other by exact Hu; reflexivity)).
    unfold load in H at 2 4. rewrite Et, Ee, Ef, upd_same in H. lia.
  Qed.

  Lemma smaller_todo s s' t p :
    t < next s -> todo s' = upd (todo s) t p -> ended s' = ended s -> flag s' = flag s ->
    next s' = next s -> lighter p (todo s t) -> smaller s' s.
  Proof.
    intros Lt Et Ee Ef En L. unfold smaller, lighter in *.
    pose proof (total_todo s s' t p 3 Lt Et Ee Ef En).
    pose proof (total_todo s s' t p 2 Lt Et Ee Ef En).
    pose proof (total_todo s s' t p 1 Lt Et Ee Ef En).
    pose proof (total_todo s s' t p 0 Lt Et Ee Ef En).
    lia.
  Qed.

  Lemma nested_weights U p i : nested U p -> 0 < i -> weights i p = 0.
  Proof.
    intros N Hi. destruct i as [|i]; [lia|].
    induction N; cbn; [reflexivity| |]; lia.
  Qed.

  Lemma user_weights h b i :
    code h b -> 0 < i -> weights i (Acq (Usr h) :: b ++ [Rel (Usr h)]) = 0.
  Proof.
    intros C Hi. change (weights i ([Acq (Usr h)] ++ (b ++ [Rel (Usr h)])) = 0).
    rewrite weights_app. rewrite (nested_weights _ _ i (Mo h b C) Hi).
    destruct i; [lia|reflexivity].
  Qed.

  Lemma handling_weights hs k ps i : handling code hs k ps -> 0 < i -> weights i (concat ps) = 0.
  Proof.
    unfold handling. generalize (flat_map (fun h => repeat h k) hs) as l.
    intros l F Hi. induction F as [|h p l ps A F IH]; cbn; [reflexivity|].
    rewrite weights_app, IH. destruct A as [n|h b C].
    - destruct i; [lia|reflexivity].
    - rewrite (user_weights h b i C Hi). reflexivity.
  Qed.

  Lemma notifying_weights os ps : Forall2 (notified code) os ps -> weights 3 (concat ps) = 0.
  Proof.
    intros F. induction F as [|o p os ps A F IH]; cbn; [reflexivity|].
    rewrite weights_app, IH. destruct A as [w n|w c|w|h b C]; try reflexivity.
    rewrite (user_weights h b 3 C ltac:(lia)). reflexivity.
  Qed.

  Lemma registering_weights os ts i : 0 < i -> weights i (registering os ts) = 0.
  Proof.
    intros Hi. destruct i as [|i]; [lia|]. unfold registering.
    induction os as [|o os IH]; cbn; [reflexivity|]. rewrite weights_app, IH.
    clear IH. induction ts as [|t ts IH]; cbn; [reflexivity|exact IH].
  Qed.

  Lemma stopping_weights n ts i : 0 < i -> weights i (stopping n ts) = 0.
  Proof.
    intros Hi. destruct i as [|i]; [lia|]. unfold stopping. rewrite weights_app. cbn.
    induction ts as [|t ts IH]; cbn; [reflexivity|exact IH].
  Qed.

  Lemma spawning_weights n k i : 1 < i -> weights i (repeat (Spawn n) k) = 0.
  Proof.
    intros Hi. destruct i as [|[|i]]; [lia|lia|]. induction k as [|k IH]; cbn; [reflexivity|exact IH].
  Qed.

  Lemma smaller_flag s u : u < next s -> flag s u = false -> smaller (with_flag s u) s.
  Proof.
    intros Lu Hf.
    assert (E : forall i, 0 < i -> total (with_flag s u) i = total s i).
    { intros i Hi. destruct i; [lia|reflexivity]. }
    right. split; [apply E; lia|]. right. split; [apply E; lia|]. right. split; [apply E; lia|].
    unfold total. change (next (with_flag s u)) with (next s).
    pose proof (sum_to_one (next s) (load (with_flag s u) 0) (load s 0) u Lu) as H.
    specialize (H ltac:(intros v _ Hv; unfold load; cbn; rewrite upd_other by exact Hv; reflexivity)).
    unfold load in H at 2 4. cbn in H. rewrite upd_same, Hf in H. lia.
  Qed.

  Lemma smaller_end s t :
    t < next s -> ended s t = false -> smaller (with_ended s t) s.
  Proof.
    intros Lu Hf.
    assert (E : forall i, 0 < i -> total (with_ended s t) i = total s i).
    { intros i Hi. destruct i; [lia|reflexivity]. }
    right. split; [apply E; lia|]. right. split; [apply E; lia|]. right. split; [apply E; lia|].
    unfold total. change (next (with_ended s t)) with (next s).
    pose proof (sum_to_one (next s) (load (with_ended s t) 0) (load s 0) t Lu) as H.
    specialize (H ltac:(intros v _ Hv; unfold load; cbn; rewrite upd_other by exact Hv; reflexivity)).
    unfold load in H at 2 4. cbn in H. rewrite upd_same, Hf in H. lia.
  Qed.

  Lemma smaller_spawn s t n p :
    t < next s -> todo s t = Spawn n :: p -> smaller (with_todo (spawned s n) t p) s.
  Proof.
    intros Lt Nt.
    assert (E : forall i, 0 < i -> total (with_todo (spawned s n) t p) i + weight i (Spawn n) = total s i).
    { intros i Hi. unfold total. cbn [next with_todo spawned sum_to].
      assert (L0 : load (with_todo (spawned s n) t p) i (next s) = 0).
      { unfold load. cbn [todo with_todo spawned ended flag].
        rewrite upd_other by lia. rewrite !upd_same. destruct i; [lia|reflexivity]. }
      rewrite L0.
      pose proof (sum_to_one (next s) (load (with_todo (spawned s n) t p) i) (load s i) t Lt) as H.
      specialize (H ltac:(intros v Lv Hv; unfold load; cbn [todo with_todo spawned ended flag];
        rewrite !upd_other by lia; reflexivity)).
      unfold load in H at 2 4. cbn [todo with_todo spawned ended flag] in H.
      rewrite upd_same, Nt in H. destruct i as [|i]; [lia|]. cbn [weights Nat.eqb] in H.
      lia. }
    pose proof (E 3 ltac:(lia)) as E3. pose proof (E 2 ltac:(lia)) as E2.
    pose proof (E 1 ltac:(lia)) as E1. cbn [weight Nat.eqb] in *. unfold smaller. lia.
  Qed.

  Ltac light Nt :=
    eapply smaller_todo; [eassumption|reflexivity|reflexivity|reflexivity|reflexivity|];
    rewrite Nt; unfold lighter; rewrite ?weights_app; cbn [weights];
    rewrite ?weight_try; cbn [weight Nat.eqb].

  Lemma runs_smaller t s s' : inv s -> runs code t s s' -> smaller s' s.
  Proof.
    intros I R.
    assert (Kn : todo s t <> [] -> t < next s) by (apply busy_known; exact I).
    destruct R as
      [l p Nt Ho|l p Nt Ho|l ys p Nt Ho|l ys p Nt Ho|n o p Nt|n h p Nt|n p Nt Hs|n k p Nt Hs Hk
      |n k p Nt Hs|n p Nt|n p Nt|u o p Nt|n p Nt|u p Nt Hf|u p Nt Hf He|n p Nt|u ps p Nt Hn
      |n k ps p Nt Hh|Lt Er Ee Et Ef];
      try (assert (Lt : t < next s) by (apply Kn; rewrite Nt; discriminate)).
    - light Nt. lia.
    - light Nt. lia.
    - light Nt. lia.
    - light Nt. lia.
    - light Nt. lia.
    - light Nt. lia.
    - light Nt. lia.
    - light Nt. rewrite (spawning_weights n k 3), (spawning_weights n k 2) by lia. lia.
    - light Nt. rewrite (spawning_weights n k 3), (spawning_weights n k 2) by lia. lia.
    - apply (smaller_spawn s t n p); assumption.
    - light Nt. rewrite !registering_weights by lia. lia.
    - light Nt. lia.
    - light Nt. rewrite !stopping_weights by lia. lia.
    - apply smaller_flag; [|exact Hf].
      destruct (inv_ordered s I t) as (held & _ & _ & Sf). rewrite Nt in Sf.
      inversion Sf as [| | | | | | | | | | |u' held' p' [A B] Hu Sf' | | |]; subst. exact A.
    - light Nt. lia.
    - light Nt. lia.
    - light Nt. rewrite (notifying_weights _ _ Hn). lia.
    - light Nt. rewrite !(handling_weights _ _ _ _ Hh) by lia. lia.
    - apply smaller_end; assumption.
  Qed.

  Definition quiet_step (s' s : process) : Prop := exists t, runs code t s s'.

  Lemma quiet_acc s : inv s -> Acc quiet_step s.
  Proof.
    remember (total s 3) as a eqn:Ea. revert s Ea.
    induction a as [a IHa] using lt_wf_ind. intros s Ea.
    remember (total s 2) as b eqn:Eb. revert s Ea Eb.
    induction b as [b IHb] using lt_wf_ind. intros s Ea Eb.
    remember (total s 1) as c eqn:Ec. revert s Ea Eb Ec.
    induction c as [c IHc] using lt_wf_ind. intros s Ea Eb Ec.
    remember (total s 0) as d eqn:Ed. revert s Ea Eb Ec Ed.
    induction d as [d IHd] using lt_wf_ind. intros s Ea Eb Ec Ed I.
    constructor. intros s' [t R]. pose proof (runs_inv t s s' I R) as I'.
    pose proof (runs_smaller t s s' I R) as [L|[E3 [L|[E2 [L|[E1 L]]]]]].
    - exact (IHa (total s' 3) ltac:(lia) s' eq_refl I').
    - exact (IHb (total s' 2) ltac:(lia) s' ltac:(lia) eq_refl I').
    - exact (IHc (total s' 1) ltac:(lia) s' ltac:(lia) ltac:(lia) eq_refl I').
    - exact (IHd (total s' 0) ltac:(lia) s' ltac:(lia) ltac:(lia) ltac:(lia) eq_refl I').
  Qed.
End Code.
