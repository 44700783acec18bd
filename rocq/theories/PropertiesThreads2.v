(** Property C110: the receive threads belong to the servers of the nodes. *)
From Verif Require Import Base HMap ModelCodec ModelMessages ModelObject ModelTransport ModelNode ModelController ModelDevice ModelThreads
  SpecThreads ProofsThreads ProofsThreads2 ProofsThreads3 PropertiesThreads.
From Verif Require ModelLocks.

Section S.
  Context {U : Type} {P : Profile} {HO : HashOrder} {Os : OS} {Uu : Uuids} (db : list object).
  Implicit Types (s : process U).

  (** Whatever several threads do, starting and stopping the same node at the same
      time included: when nobody is in a node, one receive thread belongs to each of
      its unicast servers and one to each of its multicast servers, in the same
      order, with the observers that the node has registered with that server. *)
  Theorem C110_servers : forall what net ns cs xs s n, down ns -> steps db what net (begins ns cs xs) s ->
    owner s (ModelLocks.Node n) = None -> poisoned s (ModelLocks.Node n) = false ->
    map (regs (life s)) (srvs (life s) n Ucast) = map sv_observers (mg_ucast (n_mgr (snd (fst (nodes s n))))) /\
    map (regs (life s)) (srvs (life s) n Mcast) = map sv_observers (mg_mcast (n_mgr (snd (fst (nodes s n))))).
  Proof.
    intros what net ns cs xs s n Dn St Ow Po. destruct (books_reached db what net ns cs xs s Dn St) as [B _].
    destruct (simulates db what net ns cs xs s Dn St) as (_ & a & _ & R).
    pose proof (b_out _ _ B n Po (free_node _ _ _ _ R Ow)) as E. unfold life_lists, node_lists in E. inversion E. auto.
  Qed.

  (** None of these threads was told to end; *)
  Theorem C110_not_told : forall what net ns cs xs s n k t, down ns -> steps db what net (begins ns cs xs) s ->
    owner s (ModelLocks.Node n) = None -> poisoned s (ModelLocks.Node n) = false ->
    In t (srvs (life s) n k) -> flags s t = false.
  Proof.
    intros what net ns cs xs s n k t Dn St Ow Po I. destruct (books_reached db what net ns cs xs s Dn St) as [_ F].
    destruct (simulates db what net ns cs xs s Dn St) as (_ & a & _ & R).
    destruct (flags s t) eqn:E; [|reflexivity]. destruct (f_stops _ F _ _ _ I E) as [X|(t' & j & b & q & X)]; [congruence|].
    destruct (free_node _ _ _ _ R Ow _ _ _ X).
  Qed.

  (** no thread belongs to two servers, and none is a thread of the application; *)
  Theorem C110_own_threads : forall what net ns cs xs s, down ns -> steps db what net (begins ns cs xs) s ->
    (forall n k, NoDup (srvs (life s) n k)) /\
    (forall n k n' k' t, In t (srvs (life s) n k) -> In t (srvs (life s) n' k') -> n = n' /\ k = k') /\
    (forall n k t, In t (srvs (life s) n k) -> (length xs <= t)%nat).
  Proof.
    intros what net ns cs xs s Dn St. destruct (books_reached db what net ns cs xs s Dn St) as [B _]. pose proof (b_dist _ _ B) as D.
    split; [apply (d_nodup _ D)|]. split.
    - intros n k n' k' t X Y. destruct (d_apart _ D _ _ _ _ _ X Y) as [-> ->]. auto.
    - intros n k t X. destruct (ok_begins db what (length xs) net ns cs xs s eq_refl Dn St) as (_ & _ & K). apply (k_srvs _ _ K _ _ _ X).
  Qed.

  (** ... and every thread ever started for a server that is gone has ended: stop
      has waited for it, and so has a start that failed half way. *)
  Theorem C110_no_leak : forall what net ns cs xs s t, down ns -> steps db what net (begins ns cs xs) s ->
    (length xs <= t)%nat -> (t < ModelThreads.next (life s))%nat ->
    (exists n k, In t (srvs (life s) n k)) \/ threads s t = Out Over.
  Proof.
    intros what net ns cs xs s t Dn St L1 L2. destruct (books_reached db what net ns cs xs s Dn St) as [B _]. apply (b_gone _ _ B t L1 L2).
  Qed.

  (** So when every node is stopped, no receive thread is left. *)
  Theorem C110_stopped : forall what net ns cs xs s, down ns -> steps db what net (begins ns cs xs) s ->
    (forall n, owner s (ModelLocks.Node n) = None /\ poisoned s (ModelLocks.Node n) = false /\ n_mgr (snd (fst (nodes s n))) = manager_new) ->
    forall t, (length xs <= t)%nat -> (t < ModelThreads.next (life s))%nat -> threads s t = Out Over.
  Proof.
    intros what net ns cs xs s Dn St D t L1 L2. destruct (C110_no_leak _ _ _ _ _ _ _ Dn St L1 L2) as [(n & k & I)|X]; [|exact X].
    destruct (D n) as (Ow & Po & M). destruct (C110_servers _ _ _ _ _ _ _ Dn St Ow Po) as [A B]. rewrite M in A, B. cbn in A, B.
    apply map_eq_nil in A, B. destruct k; rewrite ?A, ?B in I; destruct I.
  Qed.
End S.

(** The lamp of C106 after start and during the calls; before start, there is no
    receive thread; after stop, the two have ended. *)
Definition receiving (x : option (process unit)) : option (list nat * list nat * list (list N) * list bool) :=
  option_map (fun s => (srvs (life s) 0 Ucast, srvs (life s) 0 Mcast, map (fun t => map ob_id (regs (life s) t)) (srvs (life s) 0 Ucast),
    map (flags s) (srvs (life s) 0 Ucast))) x.
Definition registered (x : option (process unit)) : option (list (list N) * list (list N) * option nat) :=
  option_map (fun s => (map (fun v => map ob_id (sv_observers v)) (mg_ucast (n_mgr (snd (fst (nodes s 0))))),
    map (fun v => map ob_id (sv_observers v)) (mg_mcast (n_mgr (snd (fst (nodes s 0))))), owner s (ModelLocks.Node 0))) x.
Example C110_case_started :
  receiving (ex_play [x_life; x_reads] plan_answered) = Some ([3%nat], [2%nat], [[0; 1]], [false]) /\
  registered (ex_play [x_life; x_reads] plan_answered) = Some ([[0; 1]], [[0; 1]], None).
Proof. vm_compute. repeat split. Qed.
Example C110_case_stopped :
  receiving (ex_play [x_life; x_reads] (plan_missed ++ gos [(0, 5)]%nat ++ plan_stop)) = Some ([], [], [], []) /\
  registered (ex_play [x_life; x_reads] (plan_missed ++ gos [(0, 5)]%nat ++ plan_stop)) = Some ([], [], None) /\
  option_map (fun s => (ModelThreads.next (life s), map (threads s) [2; 3]%nat)) (ex_play [x_life; x_reads] (plan_missed ++ gos [(0, 5)]%nat ++ plan_stop))
    = Some (4%nat, [Out Over; Out Over]).
Proof. vm_compute. repeat split. Qed.
(** Two threads start the same node: the second start finds it running, starts no
    further thread, and registers the observers once more with the same threads. *)
Definition x_start : client unit := Call (CStart (Some 0%nat) 0) (fun _ => Finished).
Example C110_case_twice :
  receiving (ex_play [x_start; x_start] (gos [(0, 5); (1, 1); (0, 33); (1, 25)]%nat)) = Some ([3%nat], [2%nat], [[0; 1; 0; 1]], [false]) /\
  registered (ex_play [x_start; x_start] (gos [(0, 5); (1, 1); (0, 33); (1, 25)]%nat)) = Some ([[0; 1; 0; 1]], [[0; 1; 0; 1]], None) /\
  view (ex_play [x_start; x_start] (gos [(0, 5); (1, 1); (0, 33); (1, 25)]%nat)) = Some [(0%nat, None); (1%nat, None); (1%nat, Some (VBool true))].
Proof. vm_compute. repeat split. Qed.

Print Assumptions C110_servers.
Print Assumptions C110_not_told.
Print Assumptions C110_own_threads.
Print Assumptions C110_no_leak.
Print Assumptions C110_stopped.
