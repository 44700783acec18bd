(** Properties C73, C74 and C78 to C80 for applications whose handlers and
    observers use other devices and controllers. *)

From Coq Require Import List Arith Lia Bool.
From Verif Require Import ModelLocks SpecLocks SpecTiers ProofsTiers PropertiesLocks.
Import ListNotations.

(** ** C73: No deadlock *)

(** Any number of threads, nodes, devices, controllers, handlers and observers
    in any tiers; the handlers and observers call the API for higher tiers. *)
Theorem C73_tiers_no_deadlock (tn td th : nat -> nat) (code : nat -> list op -> Prop) (ps : list (list op)) (s : process) :
  upward tn td th code -> Forall (tiered tn td th [] []) ps -> steps code (boot ps) s ->
  forall S, ~ deadlock s S.
Proof.
  intros Mo F H S. apply (no_deadlock tn td th). exact (steps_inv tn td th code Mo _ _ (boot_inv tn td th ps F) H).
Qed.

Theorem C73_tiers_calls_return (tn td th : nat -> nat) (code : nat -> list op -> Prop) (ps : list (list op)) (s : process) :
  upward tn td th code -> (forall h, exists b, code h b) ->
  Forall (tiered tn td th [] []) ps -> steps code (boot ps) s ->
  (~ exists f : nat -> process, f 0 = s /\ forall k, exists t, runs code t (f k) (f (S k)))
  /\ ((forall t s', ~ runs code t s s') -> forall t, finished s t)
  /\ exists s', steps code s s' /\ forall t, finished s' t.
Proof.
  intros Mo Sc F H. pose proof (steps_inv tn td th code Mo _ _ (boot_inv tn td th ps F) H) as I. split; [|split].
  - exact (no_endless tn td th code Mo s I).
  - intros St t. exact (stuck_finished tn td th code Sc s t I St).
  - exact (completes tn td th code Mo Sc s I).
Qed.

(** An application which follows the rules of C73 follows these as well, with
    one tier for everything. *)
Theorem C73_one_tier (p : list op) :
  disciplined [] [] p -> tiered (fun _ => 0) (fun _ => 0) (fun _ => 0) [] [] p.
Proof.
  assert (Ok : forall c, call_ok (fun _ => 0) (fun _ => 0) (fun _ => 0) c) by (intro c; destruct c; cbn; lia).
  assert (Be : forall h U, Forall (fun x => x < h) U -> Forall (fun x => before (fun _ => 0) x h) U).
  { intros h U H. eapply Forall_impl; [|exact H]. intros x Hx. right. split; [reflexivity|exact Hx]. }
  generalize (@nil nat) at 1 3 as A. generalize (@nil nat) as U. intros U A H. induction H.
  - constructor.
  - apply tiered_call; [apply Ok|constructor|assumption].
  - apply tiered_take_app; assumption.
  - apply tiered_drop_app; assumption.
  - apply tiered_take; [apply Be|]; assumption.
  - apply tiered_drop; assumption.
Qed.

(** ** C78: Nothing runs after stop *)

Theorem C78_tiers_stopped (tn td th : nat -> nat) (code : nat -> list op -> Prop) (ps : list (list op)) (s : process) (n t : nat) :
  upward tn td th code -> Forall (tiered tn td th [] []) ps -> steps code (boot ps) s ->
  servers s n = [] -> t < next s -> receive s t = true -> home s t = n ->
  ended s t = true /\ finished s t.
Proof.
  intros Mo F H Es Lt Hr Hh.
  pose proof (steps_tidy tn td th code Mo _ _ (boot_tidy tn td th ps F) H) as T.
  assert (E : ended s t = true).
  { destruct (ended s t) eqn:E; [reflexivity|].
    pose proof (td_home _ _ _ s T t Lt Hr E) as Hin. rewrite Hh, Es in Hin. contradiction. }
  split; [exact E|]. exact (inv_quiet _ _ _ s (td_inv _ _ _ s T) t E).
Qed.

(** ** The calls of a thread return one after the other *)

Lemma steps_trans code a b c : steps code a b -> steps code b c -> steps code a c.
Proof.
  intros H. revert c. induction H as [s|v s s1 s2 R H IH|v s s1 s2 R H IH]; intros c Hc; [exact Hc| |].
  - eapply steps_run; [exact R|exact (IH c Hc)].
  - eapply steps_network; [exact R|exact (IH c Hc)].
Qed.

(** A step of a thread replaces the first operation by others. *)
Lemma run_tail code v t s s' o q p :
  runs code v s s' -> t < next s -> todo s t = o :: q ++ p -> t < next s' /\ exists q', todo s' t = q' ++ p.
Proof.
  intros R Lt E.
  assert (Keep : todo s' t = todo s t -> exists q', todo s' t = q' ++ p).
  { intro X. exists (o :: q). rewrite X, E. reflexivity. }
  assert (Eat : forall x y z, todo s t = x :: y -> todo s' t = z ++ y -> exists q', todo s' t = q' ++ p).
  { intros x y z Ex Ez. rewrite E in Ex. injection Ex as _ Ey. exists (z ++ q). rewrite Ez, <- Ey. apply app_assoc. }
  destruct (Nat.eq_dec t v) as [->|Hne].
  - assert (Ok : next s <= next s') by (destruct R; cbn; lia). split; [lia|].
    destruct R as
      [l r Nt Ho|l r Nt Ho|l ys r Nt Ho|l ys r Nt Ho|n x r Nt|n h r Nt|n r Nt Hs|n k r Nt Hs Hk
      |n k r Nt Hs|n r Nt|n r Nt|u x r Nt|n r Nt|u r Nt Hf|u r Nt Hf He|n r Nt|u ps r Nt Hn
      |n k ps r Nt Hh|_ Er Ee Et Ef];
      try (cbn [next with_todo spawned] in *);
      try (refine (Eat _ _ [] Nt _); cbn; rewrite upd_same; reflexivity).
    + refine (Eat _ _ ys Nt _). cbn. apply upd_same.
    + refine (Eat _ _ [Register n] Nt _). cbn. apply upd_same.
    + refine (Eat _ _ (repeat (Spawn n) k ++ [Register n]) Nt _). cbn. rewrite upd_same, <- app_assoc. reflexivity.
    + refine (Eat _ _ (repeat (Spawn n) k ++ [StopAll n]) Nt _). cbn. rewrite upd_same, <- app_assoc. reflexivity.
    + eapply (Eat _ _ _ Nt). cbn. apply upd_same.
    + eapply (Eat _ _ _ Nt). cbn. apply upd_same.
    + apply Keep. reflexivity.
    + eapply (Eat _ _ _ Nt). cbn. apply upd_same.
    + eapply (Eat _ _ _ Nt). cbn. apply upd_same.
    + rewrite E in Et. discriminate Et.
  - destruct R; (split; [cbn; lia|]); apply Keep; cbn; rewrite ?upd_other by (assumption || lia); reflexivity.
Qed.

Lemma network_tail v t s s' o q :
  network v s s' -> todo s t = o :: q -> next s' = next s /\ todo s' t = todo s t.
Proof.
  intros R E. destruct R as [Lt Er Ee Et|Lt Er Ee Et]; (split; [reflexivity|]); [|reflexivity].
  cbn. apply upd_other. intros ->. rewrite E in Et. discriminate Et.
Qed.

Lemma passes code t p s s' : steps code s s' ->
  forall q, t < next s -> todo s t = q ++ p -> finished s' t -> exists s1, steps code s s1 /\ todo s1 t = p.
Proof.
  induction 1 as [s|v s s1 s2 R H IH|v s s1 s2 R H IH]; intros q Lt E Fin;
    (destruct q as [|o q]; [exists s; split; [constructor|exact E]|]); cbn [app] in E.
  - unfold finished in Fin. rewrite E in Fin. discriminate Fin.
  - destruct (run_tail code v t s s1 o q p R Lt E) as (Lt' & q' & E').
    destruct (IH q' Lt' E' Fin) as (x & St & Ex). exists x. split; [|exact Ex]. eapply steps_run; eassumption.
  - destruct (network_tail v t s s1 o (q ++ p) R E) as (En & Et).
    destruct (IH (o :: q) ltac:(lia) ltac:(rewrite Et; exact E) Fin) as (x & St & Ex).
    exists x. split; [|exact Ex]. eapply steps_network; eassumption.
Qed.

(** Any call which a thread is about to make can be completed: [p] is what the
    thread does afterwards. *)
Theorem C73_tiers_each_call (tn td th : nat -> nat) (code : nat -> list op -> Prop) (ps : list (list op)) (s : process)
    (t : nat) (q p : list op) :
  upward tn td th code -> (forall h, exists b, code h b) ->
  Forall (tiered tn td th [] []) ps -> steps code (boot ps) s ->
  todo s t = q ++ p -> exists s', steps code s s' /\ todo s' t = p.
Proof.
  intros Mo Sc F H E.
  destruct q as [|o q]; [exists s; split; [constructor|exact E]|].
  pose proof (steps_inv tn td th code Mo _ _ (boot_inv tn td th ps F) H) as I.
  destruct (completes tn td th code Mo Sc s I) as (s' & St & Fin).
  apply (passes code t p s s' St (o :: q)); [|exact E|exact (Fin t)].
  apply (busy_known tn td th s t I). rewrite E. discriminate.
Qed.

(** ** Applications which are sequences of calls *)

(** The code of a handler or observer is a sequence of API calls for higher
    tiers, made while its mutex is held. *)
Definition calls_upward (tn td th : nat -> nat) (code : nat -> list op -> Prop) : Prop :=
  forall h b, code h b -> exists cs, b = flat_map ops_of cs
    /\ Forall (fun c => call_ok tn td th c /\ th h < tier_of tn td c) cs.

(** A thread of the application: a sequence of calls, and of sections in which
    it holds the mutex of a handler or observer and calls the API for higher
    tiers. *)
Inductive part := Calls (cs : list call) | Section_of (h : nat) (cs : list call).
Definition part_ops (x : part) : list op :=
  match x with
  | Calls cs => flat_map ops_of cs
  | Section_of h cs => Acq (Usr h) :: flat_map ops_of cs ++ [Rel (Usr h)]
  end.
Definition part_ok (tn td th : nat -> nat) (x : part) : Prop :=
  match x with
  | Calls cs => Forall (call_ok tn td th) cs
  | Section_of h cs => Forall (fun c => call_ok tn td th c /\ th h < tier_of tn td c) cs
  end.

Lemma calls_polite tn td th h cs q : polite tn td th [h] q ->
  Forall (fun c => call_ok tn td th c /\ th h < tier_of tn td c) cs -> polite tn td th [h] (flat_map ops_of cs ++ q).
Proof.
  intros Hq F. induction F as [|c cs [Ok Lt] F IH]; [exact Hq|]. cbn [flat_map]. rewrite <- app_assoc.
  apply polite_call; [discriminate|exact Ok|constructor; [exact Lt|constructor]|exact IH].
Qed.

Lemma calls_upward_ok tn td th code : calls_upward tn td th code -> upward tn td th code.
Proof.
  intros H h b C. destruct (H h b C) as (cs & -> & F). apply calls_polite; [|exact F]. repeat constructor.
Qed.

Lemma calls_tiered tn td th U cs q : tiered tn td th [] U q ->
  Forall (fun c => call_ok tn td th c /\ Forall (fun h => th h < tier_of tn td c) U) cs ->
  tiered tn td th [] U (flat_map ops_of cs ++ q).
Proof.
  intros Hq F. induction F as [|c cs [Ok Lt] F IH]; [exact Hq|]. cbn [flat_map]. rewrite <- app_assoc.
  apply tiered_call; assumption.
Qed.

Lemma parts_tiered tn td th xs : Forall (part_ok tn td th) xs -> tiered tn td th [] [] (flat_map part_ops xs).
Proof.
  induction 1 as [|x xs Ok F IH]; [constructor|]. cbn [flat_map]. destruct x as [cs|h cs]; cbn [part_ops part_ok] in *.
  - apply calls_tiered; [exact IH|]. eapply Forall_impl; [|exact Ok]. intros c Hc. split; [exact Hc|constructor].
  - cbn [app]. apply tiered_take; [constructor|]. rewrite <- app_assoc. apply calls_tiered.
    + cbn [app]. apply tiered_drop. exact IH.
    + eapply Forall_impl; [|exact Ok]. intros c [A B]. split; [exact A|]. constructor; [exact B|constructor].
Qed.

Lemma all_parts_tiered tn td th xss : Forall (Forall (part_ok tn td th)) xss ->
  Forall (tiered tn td th [] []) (map (flat_map part_ops) xss).
Proof. intros F. rewrite Forall_map. eapply Forall_impl; [|exact F]. apply parts_tiered. Qed.

(** ** C74: methods of a device behind the mutex of a handler *)

(** The handlers take no locks; the threads call methods of a device while they
    hold the mutex of a handler of another device, which is in a lower tier.
    Missing for C74: a device in the tier of the handler itself
    (C74_monolight_refuted). *)
Theorem C74_other_device_partial (tn td th : nat -> nat) (xss : list (list part)) (s : process) :
  Forall (Forall (part_ok tn td th)) xss ->
  steps (one_run no_locks) (boot (map (flat_map part_ops) xss)) s ->
  (forall S, ~ deadlock s S)
  /\ forall t h c p, owner s (Usr h) = Some t -> todo s t = ops_of c ++ p ->
       exists s', steps (one_run no_locks) s s' /\ todo s' t = p.
Proof.
  intros F H.
  assert (Mo : upward tn td th (one_run no_locks)).
  { apply calls_upward_ok. intros h b ->. exists []. split; [reflexivity|constructor]. }
  split.
  - exact (C73_tiers_no_deadlock tn td th _ _ s Mo (all_parts_tiered tn td th xss F) H).
  - intros t h c p _ E. eapply (C73_tiers_each_call tn td th); [exact Mo| |exact (all_parts_tiered tn td th xss F)|exact H|exact E].
    intro x. exists []. reflexivity.
Qed.

(** ** C79: a request handler uses other devices *)

(** A receive thread which is in the code of a handler holds the node and the
    mutex of the handler; the calls which it makes there return.  Missing for
    C79: the device of the handler itself (C79_handler_refuted). *)
Theorem C79_other_device_partial (tn td th : nat -> nat) (code : nat -> list op -> Prop) (xss : list (list part)) (s : process) :
  calls_upward tn td th code -> (forall h, exists b, code h b) ->
  Forall (Forall (part_ok tn td th)) xss ->
  steps code (boot (map (flat_map part_ops) xss)) s ->
  (forall S, ~ deadlock s S)
  /\ forall t n h c p, receive s t = true -> owner s (Node n) = Some t -> owner s (Usr h) = Some t -> todo s t = ops_of c ++ p ->
       exists s', steps code s s' /\ todo s' t = p.
Proof.
  intros Up Sc F H. apply calls_upward_ok in Up. split.
  - exact (C73_tiers_no_deadlock tn td th _ _ s Up (all_parts_tiered tn td th xss F) H).
  - intros t n h c p _ _ _ E.
    exact (C73_tiers_each_call tn td th _ _ _ _ _ _ Up Sc (all_parts_tiered tn td th xss F) H E).
Qed.

(** ** C80: an observer uses other controllers *)

(** A receive thread which is in the code of an observer holds its list of
    observers; the calls which it makes there return, and so does a [stop] of
    the observer's own controller, which waits for that thread.  Missing for
    C80: the observer's own controller (C80_observer_refuted). *)
Theorem C80_other_controller_partial (tn td th : nat -> nat) (code : nat -> list op -> Prop) (xss : list (list part)) (s : process) :
  calls_upward tn td th code -> (forall h, exists b, code h b) ->
  Forall (Forall (part_ok tn td th)) xss ->
  steps code (boot (map (flat_map part_ops) xss)) s ->
  (forall S, ~ deadlock s S)
  /\ (forall t h c p, receive s t = true -> owner s (Notif t) = Some t -> owner s (Usr h) = Some t -> todo s t = ops_of c ++ p ->
       exists s', steps code s s' /\ todo s' t = p)
  /\ (forall t u p, todo s t = StopServer u :: p -> exists s', steps code s s' /\ todo s' t = p).
Proof.
  intros Up Sc F H. apply calls_upward_ok in Up. split; [|split].
  - exact (C73_tiers_no_deadlock tn td th _ _ s Up (all_parts_tiered tn td th xss F) H).
  - intros t h c p _ _ _ E.
    exact (C73_tiers_each_call tn td th _ _ _ _ _ _ Up Sc (all_parts_tiered tn td th xss F) H E).
  - intros t u p E.
    exact (C73_tiers_each_call tn td th _ _ _ _ [StopServer u] _ Up Sc (all_parts_tiered tn td th xss F) H E).
Qed.

(** ** The cases *)

(** Device and node [k] are in tier [k], and so is the mutex [k]. *)
Definition same (k : nat) : nat := k.

(** The handler and observer behind mutex 0 uses device and controller 1. *)
Definition writes_next (h : nat) : list op :=
  match h with 0 => ops_of (Device_set_property 1 1) | _ => [] end.

Lemma writes_next_upward : calls_upward same same same (one_run writes_next).
Proof.
  intros h b ->. destruct h as [|h].
  - exists [Device_set_property 1 1]. split; [reflexivity|]. constructor; [|constructor]. split; [reflexivity|]. unfold same. cbn. lia.
  - exists []. split; [reflexivity|constructor].
Qed.

Lemma writes_next_some h : exists b, one_run writes_next h b.
Proof. eexists. reflexivity. Qed.

(** Thread 0 has two devices with their handlers, and uses device 1 also while it
    has the mutex of the handler of device 0. *)
Definition two_devices : list part :=
  [Calls [Node_new 0; Node_new 1; Device_new 0 0; Device_new 1 1;
          Device_set_request_handler 0 0 0; Device_set_request_handler 1 1 1;
          Device_start 0 0; Device_start 1 1; Device_property 1 1];
   Section_of 0 [Device_set_property 1 1; Device_stop 1 1];
   Calls [Device_stop 0 0]].

(** The rules of the tiers, decided. *)
Definition call_okb (tn td th : nat -> nat) (c : call) : bool :=
  match c with
  | Node_new _ | Node_add_object _ | Node_send _ | Node_is_running _ | Node_start _ | Node_stop _ => true
  | Device_node _ | Controller_nodes _ => true
  | Node_add_request_handler n h | Node_add_observer n h => tn n <=? th h
  | Device_new d n | Device_set_property d n | Device_property d n | Device_start d n | Device_stop d n
  | Controller_new d n | Controller_search d n | Controller_send d n | Controller_post d n | Controller_start d n
  | Controller_stop d n => td d =? tn n
  | Device_set_request_handler d n h | Controller_add_observer d n h => (td d =? tn n) && (tn n <=? th h)
  end.
Definition part_okb (tn td th : nat -> nat) (x : part) : bool :=
  match x with
  | Calls cs => forallb (call_okb tn td th) cs
  | Section_of h cs => forallb (fun c => call_okb tn td th c && (th h <? tier_of tn td c)) cs
  end.

Lemma call_okb_ok tn td th c : call_okb tn td th c = true -> call_ok tn td th c.
Proof.
  destruct c; cbn; rewrite ?andb_true_iff, ?Nat.eqb_eq, ?Nat.leb_le; auto.
Qed.

Lemma parts_okb_ok tn td th xss : forallb (forallb (part_okb tn td th)) xss = true -> Forall (Forall (part_ok tn td th)) xss.
Proof.
  rewrite forallb_forall. intros H. apply Forall_forall. intros xs Hxs. specialize (H xs Hxs).
  rewrite forallb_forall in H. apply Forall_forall. intros x Hx. specialize (H x Hx).
  destruct x as [cs|h cs]; cbn [part_okb part_ok] in *; rewrite forallb_forall in H; apply Forall_forall; intros c Hc; specialize (H c Hc).
  - apply call_okb_ok. exact H.
  - apply andb_true_iff in H as [A B]. apply Nat.ltb_lt in B. split; [apply call_okb_ok; exact A|exact B].
Qed.

Lemma two_devices_ok : Forall (Forall (part_ok same same same)) [two_devices].
Proof. apply parts_okb_ok. reflexivity. Qed.

(** The handler of device 0 is about to write a property of device 1, which
    thread 0 is starting: the receive thread 1, with node 0 and the mutex of the
    handler, waits for thread 0. *)
Definition handler_waits : process :=
  reached writes_next [flat_map part_ops two_devices] [Runs 0 76 2; Datagram 1; Runs 1 8 1].

Example C79_other_device_case :
  steps (one_run writes_next) (boot (map (flat_map part_ops) [two_devices])) handler_waits
  /\ waits handler_waits 1 0 /\ receive handler_waits 1 = true
  /\ owner handler_waits (Node 0) = Some 1 /\ owner handler_waits (Usr 0) = Some 1
  /\ todo handler_waits 1 = ops_of (Device_set_property 1 1) ++ [Rel (Usr 0); Rel (Node 0); Rel (Wrap 0); Acq (Wrap 1); Rel (Wrap 1); Rel (Notif 1)]
  /\ (forall S, ~ deadlock handler_waits S)
  /\ exists s', steps (one_run writes_next) handler_waits s'
       /\ todo s' 1 = [Rel (Usr 0); Rel (Node 0); Rel (Wrap 0); Acq (Wrap 1); Rel (Wrap 1); Rel (Notif 1)].
Proof.
  assert (St : steps (one_run writes_next) (boot (map (flat_map part_ops) [two_devices])) handler_waits)
    by (apply reached_steps; vm_compute; reflexivity).
  destruct (C79_other_device_partial same same same _ [two_devices] _ writes_next_upward writes_next_some two_devices_ok St) as [D R].
  split; [exact St|]. split.
  { left. exists (Dev 1). eexists. split; vm_compute; reflexivity. }
  split; [vm_compute; reflexivity|]. split; [vm_compute; reflexivity|]. split; [vm_compute; reflexivity|].
  split; [vm_compute; reflexivity|]. split; [exact D|].
  apply (R 1 0 0 (Device_set_property 1 1)); vm_compute; reflexivity.
Qed.

(** Thread 0 has the mutex of the handler of device 0 and stops device 1, while
    the receive thread 1, with node 0, waits for that mutex. *)
Definition section_waits : process :=
  reached no_locks [flat_map part_ops two_devices] [Runs 0 93 2; Datagram 1; Runs 1 7 1].

Example C74_other_device_case :
  steps (one_run no_locks) (boot (map (flat_map part_ops) [two_devices])) section_waits
  /\ waits section_waits 1 0 /\ owner section_waits (Node 0) = Some 1 /\ owner section_waits (Usr 0) = Some 0
  /\ todo section_waits 0 = ops_of (Device_stop 1 1) ++ Rel (Usr 0) :: ops_of (Device_stop 0 0)
  /\ (forall S, ~ deadlock section_waits S)
  /\ exists s', steps (one_run no_locks) section_waits s' /\ todo s' 0 = Rel (Usr 0) :: ops_of (Device_stop 0 0).
Proof.
  assert (St : steps (one_run no_locks) (boot (map (flat_map part_ops) [two_devices])) section_waits)
    by (apply reached_steps; vm_compute; reflexivity).
  destruct (C74_other_device_partial same same same [two_devices] _ two_devices_ok St) as [D R].
  split; [exact St|]. split.
  { left. exists (Usr 0). eexists. split; vm_compute; reflexivity. }
  split; [vm_compute; reflexivity|]. split; [vm_compute; reflexivity|]. split; [vm_compute; reflexivity|].
  split; [exact D|]. apply (R 0 0 (Device_stop 1 1)); vm_compute; reflexivity.
Qed.

(** The observer of controller 0 posts through controller 1, while thread 0 stops
    controller 0. *)
Definition posts_next (h : nat) : list op :=
  match h with 0 => ops_of (Controller_post 1 1) | _ => [] end.

Lemma posts_next_upward : calls_upward same same same (one_run posts_next).
Proof.
  intros h b ->. destruct h as [|h].
  - exists [Controller_post 1 1]. split; [reflexivity|]. constructor; [|constructor]. split; [reflexivity|]. unfold same. cbn. lia.
  - exists []. split; [reflexivity|constructor].
Qed.

Definition two_controllers : list part :=
  [Calls [Node_new 0; Node_new 1; Controller_new 0 0; Controller_new 1 1;
          Controller_add_observer 0 0 0; Controller_add_observer 1 1 1;
          Controller_start 0 0; Controller_start 1 1; Controller_stop 0 0; Controller_stop 1 1]].

Definition observer_posting : process :=
  reached posts_next [flat_map part_ops two_controllers] [Runs 0 86 2; Datagram 1; Runs 1 14 1; Runs 0 6 0].

Example C80_other_controller_case :
  steps (one_run posts_next) (boot (map (flat_map part_ops) [two_controllers])) observer_posting
  /\ waits observer_posting 0 1 /\ owner observer_posting (Notif 1) = Some 1 /\ owner observer_posting (Usr 0) = Some 1
  /\ (exists p, todo observer_posting 1 = ops_of (Controller_post 1 1) ++ p)
  /\ (forall S, ~ deadlock observer_posting S)
  /\ exists p s', todo observer_posting 0 = StopServer 1 :: p /\ steps (one_run posts_next) observer_posting s' /\ todo s' 0 = p.
Proof.
  assert (St : steps (one_run posts_next) (boot (map (flat_map part_ops) [two_controllers])) observer_posting)
    by (apply reached_steps; vm_compute; reflexivity).
  assert (Ok : Forall (Forall (part_ok same same same)) [two_controllers]) by (apply parts_okb_ok; reflexivity).
  destruct (C80_other_controller_partial same same same _ [two_controllers] _ posts_next_upward (fun h => ex_intro _ _ eq_refl) Ok St) as (D & _ & R).
  split; [exact St|]. split.
  { right. eexists. split; [vm_compute; reflexivity|]. split; vm_compute; reflexivity. }
  split; [vm_compute; reflexivity|]. split; [vm_compute; reflexivity|].
  split; [eexists; vm_compute; reflexivity|]. split; [exact D|].
  assert (E : exists p, todo observer_posting 0 = StopServer 1 :: p) by (eexists; vm_compute; reflexivity).
  destruct E as (p & E). destruct (R 0 1 p E) as (s' & St' & E'). exists p, s'. auto.
Qed.

(** The application of C73_case and C78_case follows the rules of one tier; the
    one of C79_other_device_case does not. *)
Example C73_tiers_case :
  Forall (tiered (fun _ => 0) (fun _ => 0) (fun _ => 0) [] []) [thread0; thread1]
  /\ upward (fun _ => 0) (fun _ => 0) (fun _ => 0) (one_run no_locks)
  /\ upward same same same (one_run writes_next) /\ ~ modest (one_run writes_next).
Proof.
  split; [eapply Forall_impl; [|exact threads_disciplined]; apply C73_one_tier|]. split.
  { intros h b ->. repeat constructor. }
  split; [apply calls_upward_ok; exact writes_next_upward|].
  intro M. pose proof (M 0 _ eq_refl) as X. cbn in X. inversion X.
Qed.
