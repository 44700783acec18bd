(** Properties C73, C74 and C78 to C80: threads and mutexes. *)

From Coq Require Import List Arith Lia Bool.
From Verif Require Import ModelLocks SpecLocks ProofsLocks ProofsLocks2.
Import ListNotations.

(** ** C73: No deadlock between API and receive thread *)

(** Any number of application threads with any programs of API calls, any
    number of nodes, devices, controllers, servers, observers and handlers, any
    datagrams, any interleaving. *)
Theorem C73_no_deadlock (code : nat -> list op -> Prop) (ps : list (list op)) (s : process) :
  modest code -> Forall (disciplined [] []) ps -> steps code (boot ps) s ->
  forall S, ~ deadlock s S.
Proof.
  intros Mo F H S. apply no_deadlock. exact (steps_inv code Mo _ _ (boot_inv ps F) H).
Qed.

(** While no further datagram arrives, no schedule runs for ever, and when no
    thread can go on, every thread has completed all its calls: every call
    returns, whatever the scheduler does. *)
Theorem C73_calls_return (code : nat -> list op -> Prop) (ps : list (list op)) (s : process) :
  modest code -> (forall h, exists b, code h b) ->
  Forall (disciplined [] []) ps -> steps code (boot ps) s ->
  (~ exists f : nat -> process, f 0 = s /\ forall k, exists t, runs code t (f k) (f (S k)))
  /\ ((forall t s', ~ runs code t s s') -> forall t, finished s t).
Proof.
  intros Mo Sc F H. pose proof (steps_inv code Mo _ _ (boot_inv ps F) H) as I. split.
  - exact (no_endless code Mo s I).
  - intros St t. exact (stuck_finished code Sc s t I St).
Qed.

(** From every state which the process can reach, all calls can be completed. *)
Theorem C73_completes (code : nat -> list op -> Prop) (ps : list (list op)) (s : process) :
  modest code -> (forall h, exists b, code h b) ->
  Forall (disciplined [] []) ps -> steps code (boot ps) s ->
  exists s', steps code s s' /\ forall t, finished s' t.
Proof.
  intros Mo Sc F H. exact (completes code Mo Sc s (steps_inv code Mo _ _ (boot_inv ps F) H)).
Qed.

(** A receive thread never waits for a node, a device or a controller. *)
Theorem C73_receive_thread (code : nat -> list op -> Prop) (ps : list (list op))
    (s : process) (t : nat) (l : lock) (p : list op) :
  modest code -> Forall (disciplined [] []) ps -> steps code (boot ps) s ->
  receive s t = true -> todo s t = Acq l :: p ->
  forall k, l <> Node k /\ l <> Dev k.
Proof.
  intros Mo F H Hr E k. pose proof (steps_inv code Mo _ _ (boot_inv ps F) H) as I.
  assert (Nt : todo s t <> []) by (rewrite E; discriminate).
  assert (L : less (End t) (Mutex l)).
  { apply (wanted_above s t _ _ I).
    - unfold wanted. rewrite E. reflexivity.
    - cbn. repeat split; [exact (busy_known s t I Nt)|exact Hr|exact (busy_alive s t I Nt)]. }
  split; intros ->; unfold less in L; cbn in L; lia.
Qed.

(** ** C78: Nothing runs after stop *)

(** The list of servers of a node is empty from the moment [stop] has cleared
    it until the next [start]: then all receive threads of the node have
    ended, so that no observer and no handler is called any more. *)
Theorem C78_stopped (code : nat -> list op -> Prop) (ps : list (list op)) (s : process) (n t : nat) :
  modest code -> Forall (disciplined [] []) ps -> steps code (boot ps) s ->
  servers s n = [] -> t < next s -> receive s t = true -> home s t = n ->
  ended s t = true /\ finished s t.
Proof.
  intros Mo F H Es Lt Hr Hh.
  pose proof (steps_tidy code Mo _ _ (boot_tidy ps F) H) as T.
  assert (E : ended s t = true).
  { destruct (ended s t) eqn:E; [reflexivity|].
    pose proof (td_home s T t Lt Hr E) as Hin. rewrite Hh, Es in Hin. contradiction. }
  split; [exact E|]. exact (inv_quiet s (td_inv s T) t E).
Qed.

(** When [stop] gives the node back, the list is empty. *)
Theorem C78_cleared (code : nat -> list op -> Prop) (ps : list (list op)) (s s' : process)
    (n t : nat) (p : list op) :
  modest code -> Forall (disciplined [] []) ps -> steps code (boot ps) s ->
  todo s t = Clear n :: p -> runs code t s s' ->
  servers s' n = []
  /\ forall u, u < next s' -> receive s' u = true -> home s' u = n -> ended s' u = true.
Proof.
  intros Mo F H E R.
  assert (Es : servers s' n = []).
  { destruct R; rewrite E in *; try discriminate.
    - match goal with H : _ = _ :: _ |- _ => injection H as <- <- end. cbn. apply upd_same.
  }
  split; [exact Es|]. intros u Lu Hr Hh.
  assert (H' : steps code (boot ps) s').
  { clear -H R. induction H as [s|v s s1 s2 R' H IH|v s s1 s2 R' H IH].
    - eapply steps_run; [exact R|constructor].
    - eapply steps_run; [exact R'|exact (IH R)].
    - eapply steps_network; [exact R'|exact (IH R)]. }
  exact (proj1 (C78_stopped code ps s' n u Mo F H' Es Lu Hr Hh)).
Qed.

(** ** A deadlock is for ever *)

Theorem C74_for_ever (code : nat -> list op -> Prop) (s s' : process) (S : nat -> Prop) (t : nat) :
  deadlock s S -> steps code s s' -> S t -> todo s' t = todo s t /\ ~ finished s' t.
Proof.
  intros D H Ht. destruct (deadlock_steps code s s' S H D) as [T D'].
  split; [exact (T t Ht)|]. destruct D' as [_ D'].
  destruct (D' t Ht) as (_ & u & _ & W). exact (waits_busy s' t u W).
Qed.

(** ** Runs of concrete programs *)

Section Play.
  Variable body : nat -> list op.

  Definition one_run (h : nat) (b : list op) : Prop := b = body h.

  Definition ask (h : handler) : list op :=
    match h with
    | HNode n => [Acq (Own n); Rel (Own n)]
    | HUser h => Acq (Usr h) :: body h ++ [Rel (Usr h)]
    end.

  Definition tell (o : observer) : list op :=
    match o with
    | ObsNode w n => [Acq (Wrap w); Try (Node n) [Handle n; Rel (Node n)]; Rel (Wrap w)]
    | ObsCtrl w c => [Acq (Wrap w); Try (Dev c) [Rel (Dev c)]; Rel (Wrap w)]
    | ObsDev w => [Acq (Wrap w); Rel (Wrap w)]
    | ObsUser h => Acq (Usr h) :: body h ++ [Rel (Usr h)]
    end.

  (** One step of thread [t]; [k] is the number of servers which start, or the
      number of properties of the request. *)
  Definition step1 (t k : nat) (s : process) : option process :=
    match todo s t with
    | [] =>
        if (t <? next s) && receive s t && negb (ended s t) && flag s t
        then Some (with_ended s t) else None
    | Acq l :: p =>
        match owner s l with
        | None => Some (with_todo (with_owner s l (Some t)) t p)
        | Some _ => None
        end
    | Rel l :: p =>
        match owner s l with
        | Some u => if Nat.eqb u t then Some (with_todo (with_owner s l None) t p) else None
        | None => None
        end
    | Try l ys :: p =>
        match owner s l with
        | None => Some (with_todo (with_owner s l (Some t)) t (ys ++ p))
        | Some _ => Some (with_todo s t p)
        end
    | AddObs n o :: p => Some (with_todo (with_observers s n (observers s n ++ [o])) t p)
    | AddHandler n h :: p => Some (with_todo (with_handlers s n (handlers s n ++ [h])) t p)
    | Start n :: p =>
        match servers s n with
        | [] => if 2 <=? k then Some (with_todo s t (repeat (Spawn n) k ++ Register n :: p)) else None
        | _ => Some (with_todo s t (Register n :: p))
        end
    | Spawn n :: p => Some (with_todo (spawned s n) t p)
    | Register n :: p => Some (with_todo s t (registering (observers s n) (servers s n) ++ p))
    | Push u o :: p => Some (with_todo (with_registered s u (registered s u ++ [o])) t p)
    | StopAll n :: p => Some (with_todo s t (stopping n (servers s n) ++ p))
    | StopServer u :: p =>
        if flag s u then (if ended s u then Some (with_todo s t p) else None)
        else Some (with_flag s u)
    | Clear n :: p => Some (with_todo (with_servers s n []) t p)
    | Notify u :: p => Some (with_todo s t (concat (map tell (registered s u)) ++ p))
    | Handle n :: p =>
        Some (with_todo s t
                (concat (map ask (flat_map (fun h => repeat h k) (handlers s n))) ++ p))
    end.

  Lemma step1_runs t k s s' : step1 t k s = Some s' -> runs one_run t s s'.
  Proof.
    unfold step1. destruct (todo s t) as [|o p] eqn:E.
    - destruct ((t <? next s) && receive s t && negb (ended s t) && flag s t) eqn:C; [|discriminate].
      intro H. injection H as <-. rewrite !andb_true_iff in C. destruct C as [[[A B] C] D].
      apply Nat.ltb_lt in A. apply negb_true_iff in C. apply run_exit; assumption.
    - destruct o.
      + destruct (owner s l) eqn:Ho; [discriminate|]. intro H; injection H as <-.
        eapply run_acq; eassumption.
      + destruct (owner s l) as [u|] eqn:Ho; [|discriminate].
        destruct (Nat.eqb u t) eqn:Eu; [|discriminate]. intro H; injection H as <-.
        apply Nat.eqb_eq in Eu. subst u. eapply run_rel; eassumption.
      + destruct (owner s l) as [u|] eqn:Ho; intro H; injection H as <-.
        * eapply run_try_no; [eassumption|]. congruence.
        * eapply run_try_yes; eassumption.
      + intro H; injection H as <-. eapply run_add_observer; eassumption.
      + intro H; injection H as <-. eapply run_add_handler; eassumption.
      + destruct (servers s n) as [|x l] eqn:Hs.
        * destruct (2 <=? k) eqn:Hk; [|discriminate]. intro H; injection H as <-.
          apply Nat.leb_le in Hk. eapply run_start; eassumption.
        * intro H; injection H as <-. eapply run_start_again; [eassumption|]. congruence.
      + intro H; injection H as <-. eapply run_spawn; eassumption.
      + intro H; injection H as <-. eapply run_register; eassumption.
      + intro H; injection H as <-. eapply run_push; eassumption.
      + intro H; injection H as <-. eapply run_stop; eassumption.
      + destruct (flag s t0) eqn:Hf.
        * destruct (ended s t0) eqn:He; [|discriminate]. intro H; injection H as <-.
          eapply run_join; eassumption.
        * intro H; injection H as <-. eapply run_signal; eassumption.
      + intro H; injection H as <-. eapply run_clear; eassumption.
      + intro H; injection H as <-. eapply run_notify; [eassumption|].
        clear. induction (registered s t0) as [|o os IH]; cbn; constructor; [|exact IH].
        destruct o; constructor; reflexivity.
      + intro H; injection H as <-. eapply (run_handle one_run t s n k); [eassumption|].
        unfold handling. clear.
        induction (flat_map (fun h => repeat h k) (handlers s n)) as [|h hs IH]; cbn; constructor; [|exact IH].
        destruct h; constructor; reflexivity.
  Qed.

  (** [Runs t m k]: [m] steps of thread [t]; [Datagram t]: one arrives. *)
  Inductive move := Runs (t m k : nat) | Datagram (t : nat).

  Fixpoint stepn (t m k : nat) (s : process) : option process :=
    match m with
    | 0 => Some s
    | S m => match step1 t k s with Some s' => stepn t m k s' | None => None end
    end.

  Definition arrive (t : nat) (s : process) : option process :=
    match todo s t with
    | [] =>
        if (t <? next s) && receive s t && negb (ended s t)
        then Some (with_todo s t [Acq (Notif t); Notify t; Rel (Notif t)]) else None
    | _ => None
    end.

  Fixpoint play (ms : list move) (s : process) : option process :=
    match ms with
    | [] => Some s
    | Runs t m k :: ms => match stepn t m k s with Some s' => play ms s' | None => None end
    | Datagram t :: ms => match arrive t s with Some s' => play ms s' | None => None end
    end.

  Lemma stepn_steps t m k s s' s'' :
    stepn t m k s = Some s' -> steps one_run s' s'' -> steps one_run s s''.
  Proof.
    revert s. induction m as [|m IH]; cbn; intros s H St.
    - injection H as <-. exact St.
    - destruct (step1 t k s) as [s1|] eqn:E; [|discriminate H].
      eapply steps_run; [exact (step1_runs t k s s1 E)|exact (IH s1 H St)].
  Qed.

  Lemma play_steps ms s s' : play ms s = Some s' -> steps one_run s s'.
  Proof.
    revert s. induction ms as [|[t m k|t] ms IH]; cbn; intros s H.
    - injection H as <-. constructor.
    - destruct (stepn t m k s) as [s1|] eqn:E; [|discriminate H].
      exact (stepn_steps t m k s s1 s' E (IH s1 H)).
    - destruct (arrive t s) as [s1|] eqn:E; [|discriminate H].
      eapply steps_network; [|exact (IH s1 H)].
      unfold arrive in E. destruct (todo s t) eqn:Et; [|discriminate E].
      destruct ((t <? next s) && receive s t && negb (ended s t)) eqn:C; [|discriminate E].
      injection E as <-. rewrite !andb_true_iff in C. destruct C as [[A B] C].
      apply Nat.ltb_lt in A. apply negb_true_iff in C. apply datagram; assumption.
  Qed.

  Definition reached (ps : list (list op)) (ms : list move) : process :=
    match play ms (boot ps) with Some s => s | None => boot [] end.

  Lemma reached_steps ps ms :
    (match play ms (boot ps) with Some _ => true | None => false end) = true ->
    steps one_run (boot ps) (reached ps ms).
  Proof.
    unfold reached. destruct (play ms (boot ps)) as [s|] eqn:E; [|discriminate].
    intros _. exact (play_steps ms _ s E).
  Qed.
End Play.

(** A set of two threads, each of which waits for the other. *)
Lemma pair_deadlock s t u :
  t < next s -> u < next s -> waits s t u -> waits s u t -> deadlock s (fun x => x = t \/ x = u).
Proof.
  intros Lt Lu A B. split; [exists t; left; reflexivity|].
  intros x [-> | ->].
  - split; [exact Lt|]. exists u. split; [right; reflexivity|exact A].
  - split; [exact Lu|]. exists t. split; [left; reflexivity|exact B].
Qed.

(** ** The case of C73 and C78 *)

(** A handler and observer which only changes the state behind its mutex. *)
Definition no_locks (h : nat) : list op := [].

Lemma no_locks_modest : modest (one_run no_locks).
Proof. intros h b ->. cbn. constructor. constructor. Qed.

(** Thread 0 creates a node with a device and a controller, registers a handler
    and an observer (both behind mutex 3), starts, writes a property while it
    holds a mutex of its own, starts again, and stops.  Thread 1 looks at the
    state behind mutex 3, and writes and sends. *)
Definition thread0 : list op :=
  ops_of (Node_new 0) ++ ops_of (Device_new 0 0) ++ ops_of (Controller_new 1 0)
  ++ ops_of (Device_set_request_handler 0 0 3) ++ ops_of (Controller_add_observer 1 0 3)
  ++ ops_of (Device_start 0 0)
  ++ [Acq (App 5)] ++ ops_of (Device_set_property 0 0) ++ [Rel (App 5)]
  ++ ops_of (Device_start 0 0) ++ ops_of (Device_stop 0 0).

Definition thread1 : list op :=
  [Acq (Usr 3); Rel (Usr 3)] ++ ops_of (Device_set_property 0 0) ++ ops_of (Controller_send 1 0).

Lemma threads_disciplined : Forall (disciplined [] []) [thread0; thread1].
Proof.
  constructor; [|constructor; [|constructor]].
  - unfold thread0.
    do 6 apply disciplined_call.
    apply disciplined_take_app; [constructor|].
    apply disciplined_call. apply disciplined_drop_app.
    apply disciplined_call. apply (disciplined_call [] (Device_stop 0 0) []). constructor.
  - unfold thread1. cbn [app].
    apply disciplined_take; [constructor|]. apply disciplined_drop.
    apply disciplined_call. apply (disciplined_call [] (Controller_send 1 0) []). constructor.
Qed.

(** The device runs with two servers; a request has arrived, its receive thread
    (2) is in the handler and holds the node, and both application threads wait
    for it: thread 0 for the node, thread 1 for the device which thread 0
    holds. *)
Definition busy_moves : list move :=
  [Runs 1 2 0; Runs 0 72 2; Datagram 2; Runs 2 8 1; Runs 0 3 0].

Definition busy : process := reached no_locks [thread0; thread1] busy_moves.

Lemma busy_reached : steps (one_run no_locks) (boot [thread0; thread1]) busy.
Proof. apply reached_steps. vm_compute. reflexivity. Qed.

Example C73_case :
  steps (one_run no_locks) (boot [thread0; thread1]) busy
  /\ waits busy 0 2 /\ waits busy 1 0
  /\ receive busy 2 = true /\ owner busy (Usr 3) = Some 2 /\ owner busy (Node 0) = Some 2
  /\ (forall S, ~ deadlock busy S)
  /\ exists s', steps (one_run no_locks) busy s' /\ forall t, finished s' t.
Proof.
  split; [exact busy_reached|]. split.
  { left. exists (Node 0). eexists. split; [vm_compute; reflexivity|vm_compute; reflexivity]. }
  split.
  { left. exists (Dev 0). eexists. split; [vm_compute; reflexivity|vm_compute; reflexivity]. }
  split; [vm_compute; reflexivity|]. split; [vm_compute; reflexivity|].
  split; [vm_compute; reflexivity|]. split.
  - exact (C73_no_deadlock _ _ _ no_locks_modest threads_disciplined busy_reached).
  - apply (C73_completes _ [thread0; thread1] _ no_locks_modest); [|exact threads_disciplined|exact busy_reached].
    intro h. exists []. reflexivity.
Qed.

(** The same run to its end: [stop] has joined both receive threads. *)
Definition over_moves : list move :=
  busy_moves ++ [Runs 2 17 0; Runs 0 3 0; Runs 1 10 0; Runs 0 41 0; Runs 2 1 0; Runs 0 2 0;
                 Runs 3 1 0; Runs 0 4 0].

Definition over : process := reached no_locks [thread0; thread1] over_moves.

Example C78_case :
  steps (one_run no_locks) (boot [thread0; thread1]) over
  /\ servers busy 0 = [2; 3] /\ ended busy 2 = false
  /\ servers over 0 = [] /\ home over 2 = 0 /\ home over 3 = 0
  /\ ended over 2 = true /\ ended over 3 = true /\ finished over 0 /\ finished over 1.
Proof.
  split; [apply reached_steps; vm_compute; reflexivity|].
  repeat match goal with |- _ /\ _ => split end; vm_compute; reflexivity.
Qed.

(** ** C74: The documented usage does not deadlock *)

(** The bundled example, examples/monolight/monolight.rs lines 33-40 and
    94-120, the same as the documentation of [Device] (src/device.rs lines
    97-160): the mutex 0 guards the handler, which also owns the device, and
    [start] and [stop] are called through it. *)
Definition monolight : list op :=
  ops_of (Node_new 0) ++ ops_of (Device_new 0 0)
  ++ [Acq (Usr 0)] ++ ops_of (Device_set_request_handler 0 0 0) ++ [Rel (Usr 0)]
  ++ [Acq (Usr 0)] ++ ops_of (Device_start 0 0) ++ [Rel (Usr 0)]
  ++ [Acq (Usr 0)] ++ ops_of (Device_stop 0 0) ++ [Rel (Usr 0)].

(** The example has been started.  A request arrives; before its receive thread
    (1) calls the handler, the main thread locks the mutex to call [stop]. *)
Definition monolight_moves : list move :=
  [Runs 0 46 2; Datagram 1; Runs 1 7 1; Runs 0 2 0].

Definition monolight_end : process := reached no_locks [monolight] monolight_moves.

(** The two threads wait for each other: the main thread, with the mutex of the
    handler, for the node; the receive thread, with the node, for the mutex of
    the handler.  Neither ever goes on. *)
Theorem C74_monolight_refuted :
  steps (one_run no_locks) (boot [monolight]) monolight_end
  /\ deadlock monolight_end (fun t => t = 0 \/ t = 1)
  /\ owner monolight_end (Usr 0) = Some 0 /\ owner monolight_end (Node 0) = Some 1
  /\ (forall s, steps (one_run no_locks) monolight_end s ->
        ~ finished s 0 /\ exists p, todo s 0 = Acq (Node 0) :: p).
Proof.
  assert (D : deadlock monolight_end (fun t => t = 0 \/ t = 1)).
  { apply pair_deadlock; [vm_compute; lia|vm_compute; lia| |].
    - left. exists (Node 0). eexists. split; vm_compute; reflexivity.
    - left. exists (Usr 0). eexists. split; vm_compute; reflexivity. }
  split; [apply reached_steps; vm_compute; reflexivity|]. split; [exact D|].
  split; [vm_compute; reflexivity|]. split; [vm_compute; reflexivity|].
  intros s H. destruct (C74_for_ever _ _ _ _ 0 D H (or_introl eq_refl)) as [E Nf].
  split; [exact Nf|]. eexists. rewrite E. vm_compute. reflexivity.
Qed.

(** The handler of the example takes no lock: what breaks the rule of C73 is
    the main thread. *)
Example C74_case :
  modest (one_run no_locks) /\ ~ disciplined [] [] monolight /\ finished (reached no_locks [monolight]
    [Runs 0 46 2; Datagram 1; Runs 1 16 1; Runs 0 5 0; Runs 1 1 0; Runs 0 2 0; Runs 2 1 0; Runs 0 5 0]) 0.
Proof.
  split; [exact no_locks_modest|]. split; [|vm_compute; reflexivity].
  intro D.
  (* the discipline excludes the deadlock *)
  destruct C74_monolight_refuted as (St & Dl & _).
  refine (C73_no_deadlock _ _ _ no_locks_modest _ St _ Dl).
  constructor; [exact D|constructor].
Qed.

(** ** C79: A request handler may use its device *)

(** The handler behind mutex 0 sets a property of the device which it serves. *)
Definition sets_property (h : nat) : list op := ops_of (Device_set_property 0 0).

Definition plain_device : list op :=
  ops_of (Node_new 0) ++ ops_of (Device_new 0 0)
  ++ ops_of (Device_set_request_handler 0 0 0) ++ ops_of (Device_start 0 0)
  ++ ops_of (Device_property 0 0).

Lemma plain_device_disciplined : disciplined [] [] plain_device.
Proof.
  unfold plain_device. do 4 apply disciplined_call.
  apply (disciplined_call [] (Device_property 0 0) []). constructor.
Qed.

Definition handler_end : process :=
  reached sets_property [plain_device] [Runs 0 42 2; Datagram 1; Runs 1 9 1].

(** The receive thread waits for the node which it holds itself; whoever uses
    the device afterwards waits as well. *)
Theorem C79_handler_refuted :
  Forall (disciplined [] []) [plain_device]
  /\ steps (one_run sets_property) (boot [plain_device]) handler_end
  /\ waits handler_end 1 1 /\ deadlock handler_end (fun t => t = 0 \/ t = 1)
  /\ (forall s, steps (one_run sets_property) handler_end s -> ~ finished s 0 /\ ~ finished s 1).
Proof.
  assert (W : waits handler_end 1 1).
  { left. exists (Node 0). eexists. split; vm_compute; reflexivity. }
  assert (D : deadlock handler_end (fun t => t = 0 \/ t = 1)).
  { split; [exists 1; right; reflexivity|]. intros t [-> | ->].
    - split; [vm_compute; lia|]. exists 1. split; [right; reflexivity|].
      left. exists (Dev 0). eexists. split; vm_compute; reflexivity.
    - split; [vm_compute; lia|]. exists 1. split; [right; reflexivity|exact W]. }
  split; [constructor; [exact plain_device_disciplined|constructor]|].
  split; [apply reached_steps; vm_compute; reflexivity|]. split; [exact W|]. split; [exact D|].
  intros s H. split.
  - exact (proj2 (C74_for_ever _ _ _ _ 0 D H (or_introl eq_refl))).
  - exact (proj2 (C74_for_ever _ _ _ _ 1 D H (or_intror eq_refl))).
Qed.

(** ** C80: An observer may use its controller *)

(** The observer behind mutex 0 posts a message through the controller. *)
Definition posts (h : nat) : list op := ops_of (Controller_post 0 0).

Definition plain_controller : list op :=
  ops_of (Node_new 0) ++ ops_of (Controller_new 0 0)
  ++ ops_of (Controller_add_observer 0 0 0) ++ ops_of (Controller_start 0 0)
  ++ ops_of (Controller_stop 0 0).

Lemma plain_controller_disciplined : disciplined [] [] plain_controller.
Proof.
  unfold plain_controller. do 4 apply disciplined_call.
  apply (disciplined_call [] (Controller_stop 0 0) []). constructor.
Qed.

(** Alone, the observer does post its message. *)
Definition observer_posts : process :=
  reached posts [plain_controller] [Runs 0 44 2; Datagram 1; Runs 1 18 0].

(** When the controller is stopped meanwhile, [stop] holds the controller and
    waits for the receive thread, which waits for the controller. *)
Definition observer_end : process :=
  reached posts [plain_controller] [Runs 0 44 2; Datagram 1; Runs 1 12 0; Runs 0 4 0].

Theorem C80_observer_refuted :
  Forall (disciplined [] []) [plain_controller]
  /\ steps (one_run posts) (boot [plain_controller]) observer_end
  /\ deadlock observer_end (fun t => t = 0 \/ t = 1)
  /\ (forall s, steps (one_run posts) observer_end s -> ~ finished s 0 /\ ended s 1 = false).
Proof.
  assert (D : deadlock observer_end (fun t => t = 0 \/ t = 1)).
  { apply pair_deadlock; [vm_compute; lia|vm_compute; lia| |].
    - right. eexists. split; [vm_compute; reflexivity|]. split; vm_compute; reflexivity.
    - left. exists (Dev 0). eexists. split; vm_compute; reflexivity. }
  split; [constructor; [exact plain_controller_disciplined|constructor]|].
  split; [apply reached_steps; vm_compute; reflexivity|]. split; [exact D|].
  intros s H. split.
  - exact (proj2 (C74_for_ever _ _ _ _ 0 D H (or_introl eq_refl))).
  - destruct (deadlock_steps _ _ _ _ H D) as [T [_ D']].
    destruct (D' 0 (or_introl eq_refl)) as (_ & u & Hu & W).
    pose proof (T 0 (or_introl eq_refl)) as E.
    destruct W as [(l & p & E' & _)|(p & E' & _ & He)].
    + rewrite E in E'. vm_compute in E'. discriminate E'.
    + rewrite E in E'. vm_compute in E'. injection E' as <- _. exact He.
Qed.

Example C80_case :
  steps (one_run posts) (boot [plain_controller]) observer_posts /\ finished observer_posts 1
  /\ registered observer_posts 1 = [ObsNode 0 0; ObsCtrl 1 0; ObsUser 0].
Proof.
  split; [apply reached_steps; vm_compute; reflexivity|]. split; vm_compute; reflexivity.
Qed.
