(** Properties C106 to C109: calls and messages at the same time. *)
From Verif Require Import Base HMap ModelCodec ModelMessages ModelObject ModelTransport ModelNode ModelController ModelDevice ModelThreads
  SpecWire SpecObject SpecNode SpecThreads ProofsCodec ProofsObject ProofsNode ProofsNode2 ProofsNode3 PropertiesObject PropertiesTrans PropertiesDevice ExamplesNode
  ProofsThreads ProofsThreads2.
From Verif Require ModelLocks.

Section S.
  Context {U : Type} {P : Profile} {HO : HashOrder} {Os : OS} {Uu : Uuids} (db : list object).
  Implicit Types (s : process U) (a : state U).

  (** ** C106: Calls and messages take effect one after another *)

  (** Whatever several threads do to nodes, devices and controllers, statement by
      statement and in any order, receive threads that begin and end included, there
      is an execution without mutexes in which each call and each reaction to a
      message happens at one instant, in which the application sees the same calls
      and answers and the same messages arrive in the same order, in which the same receive threads with the same
      observers belong to every node, and after which every node and controller
      nobody is using has the same data. *)
  Theorem C106_in_turn : forall what net ns cs xs s, down ns -> steps db what net (begins ns cs xs) s ->
    exists a, asteps db what net (a_begins ns cs (length xs)) a /\ a_history a = history s /\ a_life a = life s /\
      (forall n, owner s (ModelLocks.Node n) = None -> poisoned s (ModelLocks.Node n) = false -> a_nodes a n = nodes s n) /\
      (forall c, owner s (ModelLocks.Dev c) = None -> poisoned s (ModelLocks.Dev c) = false -> a_ctrls a c = ctrls s c) /\
      (forall l, data_lock l -> owner s l = None -> a_bad a l = poisoned s l) /\
      (forall t, threads s t = Dead -> a_status a t = Gone) /\ (forall t, threads s t = Out Halt -> a_status a t = Idle) /\
      (forall t, threads s t = Out Recv -> a_status a t = Listening) /\ (forall t, threads s t = Out Over -> a_status a t = Ended).
  Proof.
    intros what net ns cs xs s Dn St. destruct (simulates db what net ns cs xs s Dn St) as (Sa & a & A & R). exists a. split; [exact A|].
    split; [apply (r_hist _ _ _ R)|]. split; [apply (r_life _ _ _ R)|]. repeat apply conj.
    - intros n Ow Po. apply (r_nodes _ _ _ R); [eapply free_node; eauto|exact Po].
    - intros n Ow Po. apply (r_ctrls _ _ _ R); [eapply free_ctrl; eauto|exact Po].
    - intros l D Ow. destruct (poisoned s l) eqn:Po; [apply (r_bad1 _ _ _ R); assumption|].
      destruct (a_bad a l) eqn:B; [|reflexivity]. destruct (r_bad2 _ _ _ R l D B) as [X|(t & X & _)]; congruence.
    - intros t T. destruct (r_thr _ _ _ R t) as (H & _ & _ & F). unfold tfits in F. rewrite T in F. apply F.
    - intros t T. destruct (out_fits db _ _ _ _ R T) as (H & _ & _ & _ & F). inversion F; reflexivity.
    - intros t T. destruct (out_fits db _ _ _ _ R T) as (H & _ & _ & _ & F). inversion F; reflexivity.
    - intros t T. destruct (out_fits db _ _ _ _ R T) as (H & _ & _ & _ & F). inversion F; reflexivity.
  Qed.

  (** ** C107: Every call can return *)

  (** From every state, panics and poisoned mutexes included, the threads of the
      application can go on until each has returned from all its calls, start and
      stop included, or has panicked; then every receive thread has ended, has
      panicked, or waits for a datagram and was not told to end. No further
      datagram is needed for it. *)
  Theorem C107_completes : forall what net ns cs xs s, down ns -> steps db what net (begins ns cs xs) s ->
    exists s', steps db what false s s' /\
      (forall t, (t < length xs)%nat -> threads s' t = Out Halt \/ threads s' t = Dead) /\
      (forall t, threads s' t = Out Halt \/ threads s' t = Dead \/ threads s' t = Out Over \/ threads s' t = Out Recv /\ flags s' t = false).
  Proof.
    intros what net ns cs xs s Dn St. destruct (completes db what (length xs) s) as (s' & A & B & C); [eapply ok_begins; eauto|].
    exists s'. split; [exact A|]. split; [exact B|]. intros t. destruct (C t) as [[X|X]|[X|[X|X]]]; auto.
  Qed.

  (** In particular no call of any thread can wait for ever: whatever has happened,
      it can return or panic. *)
  Theorem C107_no_deadlock : forall what net ns cs xs s t, down ns -> steps db what net (begins ns cs xs) s -> (t < length xs)%nat ->
    threads s t = Out Halt \/ threads s t = Dead \/ exists s', step db what false s s'.
  Proof.
    intros what net ns cs xs s t Dn St L. destruct (C107_completes _ _ _ _ _ _ Dn St) as (s' & A & B & _).
    assert (X : s' = s \/ exists s', step db what false s s').
    { clear B St. induction A as [|s0 s1 s2 A IH S1]; [left; reflexivity|]. right. destruct IH as [->|IH]; eauto. }
    destruct X as [->|X]; [|auto]. destruct (B t L); auto.
  Qed.

  (** ** C108: A node used by several threads is a node *)

  (** Arguments of the right types. *)
  Definition call_ok (c : call U) : Prop :=
    match c with
    | CSetProperty _ _ _ _ d => octets d
    | CSetHandler _ _ h | CAddHandler _ h => typed_handler (HUser h)
    | CDeviceObject _ _ o | CAddObject _ o => obj_built o
    | CSend _ _ m | CPost _ _ m | CNotify _ m | CCtrlSend _ _ _ m | CCtrlPost _ _ _ m => built m
    | CSearch _ _ code => code < 2 ^ 32
    | CProperty _ _ _ _ | CAddObserver _ _ | CAnnounce _ | CCtrlObserver _ _ _ | CNodes _ | CStart _ _ | CStop _ _ | CRunning _ | CWait _ _ => True
    end.
  Definition calls_ok (h : list (event U)) : Prop := forall t c, In (ECall t c) h -> call_ok c.

  (** The operation on the node which a call stands for. *)
  Definition ops_of (c : call U) : list (node_op U) :=
    match c with
    | CSetProperty _ _ oc code d => [OpSetData oc code d]
    | CProperty _ _ _ _ | CNodes _ | CRunning _ | CWait _ _ => []
    | CStart _ _ => [OpStart]
    | CStop _ _ => [OpStop]
    | CSetHandler _ _ h | CAddHandler _ h => [OpAddHandler (HUser h)]
    | CDeviceObject _ _ o | CAddObject _ o => [OpAddObject o]
    | CAddObserver _ o | CCtrlObserver _ _ o => [OpAddObserver o]
    | CSend _ to m => [OpSend to m]
    | CPost _ to m => [OpPost to m]
    | CNotify _ m => [OpNotify m]
    | CAnnounce _ => [OpAnnounce]
    | CSearch _ _ code => [OpNotify (search_request code)]
    | CCtrlSend _ _ r m => [OpSend (fst (rn_addr r), PORT) (msg_set_seoj m NODE_PROFILE_OBJECT_CODE)]
    | CCtrlPost _ _ r m => [OpPost (fst (rn_addr r), PORT) (msg_set_seoj m NODE_PROFILE_OBJECT_CODE)]
    end.
  Lemma search_built code : code < 2 ^ 32 -> built (search_request code).
  Proof.
    intros B. unfold search_request. repeat first [apply B_add|apply B_esv|apply B_deoj|apply B_seoj|apply B_new]; try reflexivity; try exact B.
    split; [reflexivity|constructor].
  Qed.
  Lemma ops_ok c : call_ok c -> Forall op_ok (ops_of c).
  Proof.
    intros K. destruct c; cbn [ops_of call_ok] in *; repeat (apply Forall_cons || apply Forall_nil); cbn [op_ok]; try exact K; try exact Logic.I;
      try (apply search_built, K); apply B_seoj; (exact K || reflexivity).
  Qed.
  Lemma effect_ops c n f (d d' : nstate U) v : effect_of c = AtNode n f -> f d = Ret (d', v) -> node_run d (ops_of c) = Ret d'.
  Proof.
    intros E X. destruct d as [[u x] w], c; cbn [effect_of] in E; inversion E; subst; clear E; cbn [ops_of node_run node_step obind] in *.
    - destruct (device_node_set_property x oc code data) as [ok x'] eqn:Y. inversion X; subst.
      rewrite <- set_property_set_data, Y. reflexivity.
    - inversion X; subst. reflexivity.
    - inversion X; subst. reflexivity.
    - destruct (node_add_object x o) as [x'|]; [|discriminate]. cbn in *. inversion X; subst. reflexivity.
    - destruct (node_add_object x o) as [x'|]; [|discriminate]. cbn in *. inversion X; subst. reflexivity.
    - inversion X; subst. reflexivity.
    - inversion X; subst. reflexivity.
    - destruct (node_send w x to m) as [[[ok m'] x'] w']. inversion X; subst. reflexivity.
    - destruct (node_post w x to m) as [[[ch m'] x'] w']. inversion X; subst. reflexivity.
    - destruct (node_notify w x m) as [[[ok m'] x'] w']. inversion X; subst. reflexivity.
    - destruct (node_announce w x) as [[ok x'] w']. inversion X; subst. reflexivity.
    - unfold controller_search_object in X. destruct (node_notify w x (search_request code)) as [[[ok m'] x'] w']. inversion X; subst. reflexivity.
    - unfold controller_send in X. destruct (node_send w x _ _) as [[[ok m'] x'] w']. inversion X; subst. reflexivity.
    - unfold controller_post in X. destruct (node_post w x _ _) as [[[ch m'] x'] w']. inversion X; subst. reflexivity.
    - inversion X; subst. reflexivity.
    - destruct (node_start w x) as [[[ok x'] w']|]; [|discriminate]. cbn in *. inversion X; subst. reflexivity.
    - destruct (node_stop x) as [[ok x']|]; [|discriminate]. cbn in *. inversion X; subst. reflexivity.
    - inversion X; subst. reflexivity.
  Qed.

  Lemma run_app (ops1 ops2 : list (node_op U)) : forall d d1 d2, node_run d ops1 = Ret d1 -> node_run d1 ops2 = Ret d2 -> node_run d (ops1 ++ ops2) = Ret d2.
  Proof.
    induction ops1 as [|op r IH]; intros d d1 d2 A B; cbn [app node_run] in *; [inversion A; subst; exact B|].
    destruct (node_step d op) as [d'|]; [|discriminate]. cbn [obind] in *. eapply IH; eauto.
  Qed.

  Definition sound_status (st : status U) : Prop := match st with Pending c => call_ok c | Got m | Busy m _ => received m | _ => True end.
  Lemma put_status (f : nat -> status U) t x : (forall t', sound_status (f t')) -> sound_status x -> forall t', sound_status (put f t x t').
  Proof. intros A B t'. unfold put. destruct (Nat.eqb t' t); auto. Qed.
  Lemma atomic_runs what net ns cs k a : asteps db what net (a_begins ns cs k) a -> calls_ok (a_history a) ->
    (forall t, sound_status (a_status a t)) /\ forall n, exists ops, Forall op_ok ops /\ node_run (ns n) ops = Ret (a_nodes a n).
  Proof.
    intros A. remember (a_begins ns cs k) as a0 eqn:E. induction A as [a|a a1 a2 A IH St]; intros K.
    { subst a. cbn. split; [intros _; exact Logic.I|]. intros n. exists []. split; [constructor|reflexivity]. }
    assert (K1 : calls_ok (a_history a1)).
    { intros t c I. apply (K t c). destruct St; cbn; try exact I; apply in_or_app; left; exact I. }
    destruct (IH E K1) as [B C]. clear IH A.
    assert (Same : forall n d, (exists ops, Forall op_ok ops /\ node_run (a_nodes a1 n) ops = Ret d) ->
      forall n', exists ops, Forall op_ok ops /\ node_run (ns n') ops = Ret (put (a_nodes a1) n d n')).
    { intros n d (ops & F & R) n'. unfold put. destruct (Nat.eqb_spec n' n) as [->|]; [|apply C].
      destruct (C n) as (ops0 & F0 & R0). exists (ops0 ++ ops). split; [apply Forall_app; auto|]. eapply run_app; eauto. }
    destruct St as [t c T|t c n f d v T Ef Lk X|t c x f d v T Ef Lk X|t n ch m T Nm|t n ch T|t c v T Rf Ex|t c v T
      |t c v n f k' r T|t c v n f k' j o r t' T|t c v n f k' j o r T|t c v n f k' j r t' T|t c v n f k' j r T
      |t data from m T Nt Oc Pa|t m T|t T|t m n r d T Bd Ob|t m c r d w T Bd Ob|t m n r T|t m c r T|t m T
      |t c L T|t m n r T|t m c r T|t data T|t m r t' T|t c v n f k' j o r t' T|t c v n f k' j r t' T];
      cbn [a_status a_nodes a_seen a_set a_node a_ctrl a_poison a_history a_lives a_read] in *;
      try (split; [apply put_status; [exact B|exact Logic.I]|exact C]);
      try (split; [apply put_status; [exact B|specialize (B t); rewrite T in B; exact B]|exact C]).
    - split; [|exact C]. apply put_status; [exact B|]. apply (K t c), in_or_app. right. left. reflexivity.
    - split; [apply put_status; [exact B|exact Logic.I]|]. apply Same. exists (ops_of c).
      split; [apply ops_ok; specialize (B t); rewrite T in B; exact B|]. eapply effect_ops; eauto.
    - split; [|exact C]. apply put_status; [apply put_status; [exact B|exact Logic.I]|exact Logic.I].
    - split; [|exact C]. apply put_status; [exact B|]. exists (firstn MAX_PACKET_SIZE data), m, from. split; [unfold octets in Oc; rewrite <- (firstn_skipn MAX_PACKET_SIZE data) in Oc; apply Forall_app in Oc; apply Oc|]. split; [exact Pa|reflexivity].
    - split; [apply put_status; [exact B|specialize (B t); rewrite T in B; exact B]|]. apply Same. exists [OpRecv m].
      split; [constructor; [specialize (B t); rewrite T in B; exact B|constructor]|].
      unfold observed in Ob. destruct (a_nodes a1 n) as [[u x] w]. cbn. rewrite Ob. cbn. destruct d as [[u' x'] w']. reflexivity.
  Qed.

  (** The data of a node, whenever its mutex is free, are those after some sequence
      of calls and messages one by one. *)
  Theorem C108_sequence : forall what net ns cs xs s n, down ns -> steps db what net (begins ns cs xs) s -> calls_ok (history s) ->
    owner s (ModelLocks.Node n) = None -> poisoned s (ModelLocks.Node n) = false ->
    exists ops, Forall op_ok ops /\ node_run (ns n) ops = Ret (nodes s n).
  Proof.
    intros what net ns cs xs s n Dn St K Ow Po. destruct (C106_in_turn _ _ _ _ _ _ Dn St) as (a & A & H & _ & N & _).
    rewrite <- H in K. destruct (atomic_runs _ _ _ _ _ _ A K) as [_ X]. rewrite <- (N n Ow Po). apply X.
  Qed.

  (** So all theorems about reachable states of a node hold for it. *)
  Theorem C108_reachable : forall what net ns cs xs s n, down ns -> steps db what net (begins ns cs xs) s -> calls_ok (history s) ->
    (let '(u, x, w) := ns n in reachable u x w) ->
    owner s (ModelLocks.Node n) = None -> poisoned s (ModelLocks.Node n) = false ->
    let '(u, x, w) := nodes s n in reachable u x w.
  Proof.
    intros what net ns cs xs s n Dn St K R Ow Po. destruct (C108_sequence _ _ _ _ _ _ _ Dn St K Ow Po) as (ops & F & E).
    destruct (ns n) as [[u0 x0] w0], (nodes s n) as [[u x] w]. destruct R as (np & n0 & u1 & w1 & ops1 & A & B & C & D).
    exists np, n0, u1, w1, (ops1 ++ ops). split; [exact A|]. split; [exact B|]. split; [apply Forall_app; auto|]. eapply run_app; eauto.
  Qed.

  (** ** C109: Messages sent at the same time have different TIDs *)

  (** The node which a call without a TID of its own uses, when it gets the message
      with the TID back. *)
  Definition numbering (n : nat) (c : call U) : bool :=
    match c with
    | CSend n' _ m | CPost n' _ m | CNotify n' m | CCtrlPost _ n' _ m => Nat.eqb n' n && negb (msg_has_tid m)
    | _ => false
    end.
  Definition tid_in (v : answer) : N := match v with VSent _ m | VPosted _ m => msg_tid m | _ => 0 end.
  Fixpoint tids (n : nat) (h : list (event U)) : list N :=
    match h with
    | [] => []
    | EReturn _ c v :: r => if numbering n c then tid_in v :: tids n r else tids n r
    | ECall _ _ :: r | EGot _ _ :: r => tids n r
    end.
  Fixpoint calls (h : list (event U)) : nat := match h with [] => 0 | ECall _ _ :: r => S (calls r) | EReturn _ _ _ :: r | EGot _ _ :: r => calls r end.

  Lemma tids_app n h1 h2 : tids n (h1 ++ h2) = tids n h1 ++ tids n h2.
  Proof. induction h1 as [|[t c|t c v|t m] r IH]; cbn; [reflexivity|exact IH| |exact IH]. destruct (numbering n c); cbn; rewrite IH; reflexivity. Qed.
  Lemma calls_app h1 h2 : calls (h1 ++ h2) = (calls h1 + calls h2)%nat.
  Proof. induction h1 as [|[t c|t c v|t m] r IH]; cbn; [reflexivity|rewrite IH; reflexivity|exact IH|exact IH]. Qed.

  Definition last_tid (d : nstate U) : N := n_last_tid (snd (fst d)).
  Definition tid_at (t0 : N) (k : nat) : N := (t0 + N.of_nat k) mod 65536.

  (** What a call does to the counter of its node. *)
  Lemma update_tid_counts (x x' : node U) m m' : update_tid x m = (x', m') -> n_last_tid x < 65536 ->
    if msg_has_tid m then n_last_tid x' = n_last_tid x /\ m' = m else n_last_tid x' = (n_last_tid x + 1) mod 65536 /\ msg_tid m' = n_last_tid x'.
  Proof.
    intros E B. unfold update_tid in E. destruct (msg_has_tid m); [inversion E; subst; auto|]. unfold next_tid in E.
    change (if TID_MAX <=? n_last_tid x then TID_MIN else n_last_tid x + 1) with (ProofsNode2.next (n_last_tid x)) in E. rewrite next_mod in E by exact B.
    inversion E; subst. cbn [n_last_tid n_with_tid]. split; [reflexivity|]. apply set_tid_tid. lia.
  Qed.
  Lemma effect_counts c n f (d d' : nstate U) v : effect_of c = AtNode n f -> f d = Ret (d', v) -> last_tid d < 65536 ->
    if numbering n c then last_tid d' = (last_tid d + 1) mod 65536 /\ tid_in v = last_tid d'
    else last_tid d' = last_tid d \/ last_tid d' = (last_tid d + 1) mod 65536.
  Proof.
    intros E X B. destruct d as [[u x] w]. unfold last_tid in *. cbn [fst snd] in *.
    assert (G : forall m m' x', update_tid x m = (x', m') -> n_last_tid x' = n_last_tid x \/ n_last_tid x' = (n_last_tid x + 1) mod 65536).
    { intros m m' x' Y. pose proof (update_tid_counts _ _ _ _ Y B) as Z. destruct (msg_has_tid m); tauto. }
    assert (G' : forall n' m m' x', update_tid x m = (x', m') ->
      if Nat.eqb n' n' && negb (msg_has_tid m) then n_last_tid x' = (n_last_tid x + 1) mod 65536 /\ msg_tid m' = n_last_tid x'
      else n_last_tid x' = n_last_tid x \/ n_last_tid x' = (n_last_tid x + 1) mod 65536).
    { intros n' m m' x' Y. rewrite Nat.eqb_refl. pose proof (update_tid_counts _ _ _ _ Y B) as Z. destruct (msg_has_tid m); cbn; tauto. }
    assert (An : forall (x0 : node U) w ok x' w', node_announce w x0 = (ok, x', w') -> n_last_tid x0 = n_last_tid x ->
      n_last_tid x' = n_last_tid x \/ n_last_tid x' = (n_last_tid x + 1) mod 65536).
    { intros x0 w1 ok x' w' Y E0. rewrite <- E0 in B |- *. clear G G' X. unfold node_announce in Y.
      destruct (find_object _ _); [|inversion Y; subst; auto]. destruct (object_find_property _ _); [|inversion Y; subst; auto].
      destruct (node_notify w1 x0 _) as [[[ok' m'] x1] w2] eqn:Z. inversion Y; subst. apply node_notify_spec in Z as [Z _].
      pose proof (update_tid_counts _ _ _ _ Z B) as V. destruct (msg_has_tid _); tauto. }
    destruct c; cbn [effect_of] in E; inversion E; subst; clear E; cbn [numbering] in *.
    - destruct (device_node_set_property x oc code data) as [ok x'] eqn:Y. inversion X; subst. left. cbn.
      pose proof (set_property_set_data x oc code data) as Z. rewrite Y in Z. cbn in Z. subst x'. unfold set_data. destruct (find_object _ _); reflexivity.
    - inversion X; subst. left. reflexivity.
    - inversion X; subst. left. reflexivity.
    - destruct (node_add_object x o) as [x'|] eqn:Y; [|discriminate]. cbn in X. inversion X; subst. left. apply add_object_tid in Y. apply Y.
    - destruct (node_add_object x o) as [x'|] eqn:Y; [|discriminate]. cbn in X. inversion X; subst. left. apply add_object_tid in Y. apply Y.
    - inversion X; subst. left. reflexivity.
    - inversion X; subst. left. reflexivity.
    - destruct (node_send w x to m) as [[[ok m'] x'] w'] eqn:Y. inversion X; subst. apply node_send_spec in Y as [Y _]. apply (G' n _ _ _ Y).
    - destruct (node_post w x to m) as [[[ch m'] x'] w'] eqn:Y. inversion X; subst. apply node_post_spec in Y as (_ & _ & x1 & ok & tr & Y & -> & _). exact (G' n _ _ _ Y).
    - destruct (node_notify w x m) as [[[ok m'] x'] w'] eqn:Y. inversion X; subst. apply node_notify_spec in Y as [Y _]. apply (G' n _ _ _ Y).
    - destruct (node_announce w x) as [[ok x'] w'] eqn:Y. inversion X; subst. cbn. eapply An; [exact Y|reflexivity].
    - unfold controller_search_object in X. destruct (node_notify w x _) as [[[ok m'] x'] w'] eqn:Y. inversion X; subst. apply node_notify_spec in Y as [Y _]. eapply G, Y.
    - unfold controller_send in X. destruct (node_send w x _ _) as [[[ok m'] x'] w'] eqn:Y. inversion X; subst. apply node_send_spec in Y as [Y _]. eapply G, Y.
    - unfold controller_post in X. destruct (node_post w x _ _) as [[[ch m'] x'] w'] eqn:Y. inversion X; subst.
      apply node_post_spec in Y as (_ & _ & x1 & ok & tr & Y & -> & _). exact (G' n _ _ _ Y).
    - inversion X; subst. left. reflexivity.
    - destruct (node_start w x) as [[[ok x'] w']|] eqn:Y; [|discriminate]. cbn in X. inversion X; subst. cbn.
      apply node_start_spec in Y as (ok1 & m1 & w1 & _ & _ & [(_ & _ & -> & _)|(_ & m2 & _ & Y)]); [left; reflexivity|].
      eapply An; [exact Y|reflexivity].
    - unfold node_stop in X. destruct (manager_stop _) as [[ok m']|]; [|discriminate]. cbn in X. inversion X; subst. left. reflexivity.
    - inversion X; subst. left. reflexivity.
  Qed.

  (** A reaction to a message with a TID takes none. *)
  Lemma observed_counts m (d d' : nstate U) : received m -> msg_tid m <> 0 -> observed m d = Ret d' -> last_tid d' = last_tid d.
  Proof.
    intros Rc Nz E. destruct d as [[u x] w], d' as [[u' x'] w']. unfold last_tid. cbn [fst snd observed] in *.
    destruct (observe_parts w u x m u' x' w' Rc E) as (t1 & t2 & n1 & n2 & res & _ & _ & _ & (seed & Hd) & Rx & T & _). rewrite <- T.
    apply received_rcvd in Rc as [W _ B].
    inversion Rx as [|q n' q' tr k Ut]; subst; [reflexivity|].
    destruct (handled_response _ _ _ _ _ _ _ Hd W B) as (_ & _ & Tq & _).
    apply update_tid_spec in Ut as [(_ & -> & _)|(Z & _)]; [reflexivity|]. exfalso. apply Nz. unfold msg_tid in *. rewrite <- Tq. exact Z.
  Qed.
  (** No request without a TID has arrived. *)
  Definition numbered (h : list (event U)) : Prop := forall t m, In (EGot t m) h -> msg_tid m <> 0.
  Definition with_tid m : Prop := received m /\ msg_tid m <> 0.

  Record counted (t0 : N) (n : nat) a (k : nat) (ks : list nat) (pk : nat -> option nat) (Q : list nat) : Prop := {
    ct_last : last_tid (a_nodes a n) = tid_at t0 k;
    ct_ret : tids n (a_history a) = map (tid_at t0) ks;
    ct_nodup : NoDup ks;
    ct_range : forall j, In j ks -> (1 <= j <= k)%nat;
    ct_ans : forall t c v r, a_status a t = Answered c v r -> numbering n c = true -> exists j, pk t = Some j /\ tid_in v = tid_at t0 j;
    ct_pk : forall t j, pk t = Some j -> (1 <= j <= k)%nat /\ ~ In j ks;
    ct_inj : forall t t' j, pk t = Some j -> pk t' = Some j -> t = t';
    ct_calls : forall t c, a_status a t = Pending c -> In t Q;
    ct_count : (k + length Q <= calls (a_history a))%nat;
    ct_busy : forall t m, (a_status a t = Got m -> with_tid m) /\ forall r, a_status a t = Busy m r -> with_tid m }.

  Lemma tid_next t0 k : (tid_at t0 k + 1) mod 65536 = tid_at t0 (S k).
  Proof. unfold tid_at. lia. Qed.
  Lemma put_at {A} (f : nat -> A) t x t' y : put f t x t' = y -> t' = t /\ y = x \/ t' <> t /\ y = f t'.
  Proof. unfold put. destruct (Nat.eqb_spec t' t); auto. Qed.

  (** A thread goes to a state that is neither pending, answered with a number, nor
      has a message. *)
  Lemma counted_plain t0 n a k ks pk Q (st : status U) t : counted t0 n a k ks pk Q ->
    (forall c, st <> Pending c) -> (forall c v r, st = Answered c v r -> numbering n c = false) -> (forall m, (st = Got m -> with_tid m) /\ forall r, st = Busy m r -> with_tid m) ->
    counted t0 n (a_set a t st) k ks pk Q.
  Proof.
    intros [C1 C2 C3 C4 C5 C6 C7 C8 C9 C10] N1 N2 N3. constructor; cbn; try assumption.
    - intros t' c v r X Nu. apply put_at in X as [[-> X]|[Ne X]]; [rewrite (N2 c v r) in Nu; [discriminate|congruence]|]. eapply C5; eauto.
    - intros t' c X. apply put_at in X as [[-> X]|[Ne X]]; [exfalso; eapply N1; eauto|]. eapply C8; eauto.
    - intros t' m. split; [|intros r]; intros X; (apply put_at in X as [[-> X]|[Ne X]]; [symmetry in X; revert X; apply N3|symmetry in X; revert X; apply C10]).
  Qed.
  Lemma counted_rest t0 n a k ks pk Q t c v r r' : counted t0 n a k ks pk Q -> a_status a t = Answered c v r -> counted t0 n (a_set a t (Answered c v r')) k ks pk Q.
  Proof.
    intros [C1 C2 C3 C4 C5 C6 C7 C8 C9 C10] T. constructor; cbn; try assumption.
    - intros t' c' v' r0 X Nu. apply put_at in X as [[-> X]|[Ne X]]; [inversion X; subst|]; eapply C5; eauto.
    - intros t' c' X. apply put_at in X as [[-> X]|[Ne X]]; [discriminate|]. eapply C8; eauto.
    - intros t' m. split; [|intros r0]; intros X; (apply put_at in X as [[-> X]|[Ne X]]; [discriminate|symmetry in X; revert X; apply C10]).
  Qed.
  Lemma counted_spawn t0 n a k ks pk Q t c v r r' x : counted t0 n a k ks pk Q -> a_status a t = Answered c v r ->
    counted t0 n (a_set (a_set a x Listening) t (Answered c v r')) k ks pk Q.
  Proof.
    intros [C1 C2 C3 C4 C5 C6 C7 C8 C9 C10] T. constructor; cbn; try assumption.
    - intros t' c' v' r0 X Nu. apply put_at in X as [[-> X]|[Ne X]]; [inversion X; subst; eapply C5; eauto|].
      symmetry in X. apply put_at in X as [[-> X]|[Ne' X]]; [discriminate|]. eapply C5; eauto.
    - intros t' c' X. apply put_at in X as [[-> X]|[Ne X]]; [discriminate|].
      symmetry in X. apply put_at in X as [[-> X]|[Ne' X]]; [discriminate|]. eapply C8; eauto.
    - intros t' m. split; [|intros r0]; intros X; (apply put_at in X as [[-> X]|[Ne X]]; [discriminate|]);
        symmetry in X; (apply put_at in X as [[-> X]|[Ne' X]]; [discriminate|symmetry in X; revert X; apply C10]).
  Qed.
  Lemma counted_lives t0 n a k ks pk Q x : counted t0 n a k ks pk Q -> counted t0 n (a_lives a x) k ks pk Q.
  Proof. intros [C1 C2 C3 C4 C5 C6 C7 C8 C9 C10]. constructor; assumption. Qed.

  Lemma counts what net m0 t0 n cs ns a : last_tid (ns n) = tid_at t0 0 -> asteps db what net (a_begins ns cs m0) a -> numbered (a_history a) -> exists k ks pk Q, counted t0 n a k ks pk Q.
  Proof.
    intros B A. remember (a_begins ns cs m0) as a0 eqn:E. induction A as [a|a a1 a2 A IH St]; intros Nz.
    { subst a. exists 0%nat, [], (fun _ => None), []. constructor; cbn; try discriminate; try tauto; try constructor; try exact B; intros; discriminate. }
    assert (Nz1 : numbered (a_history a1)).
    { intros t m I. apply (Nz t m). destruct St; cbn; try exact I; apply in_or_app; left; exact I. }
    destruct (IH E Nz1) as (k & ks & pk & Q & Ct). pose proof Ct as [C1 C2 C3 C4 C5 C6 C7 C8 C9 C10]. clear IH A.
    assert (Plain : forall (st : status U) t, (forall c, st <> Pending c) -> (forall c v r, st = Answered c v r -> numbering n c = false) -> (forall m, (st = Got m -> with_tid m) /\ forall r, st = Busy m r -> with_tid m) ->
      counted t0 n (a_set a1 t st) k ks pk Q).
    { intros st t. apply counted_plain. exact Ct. }
    destruct St as [t c T|t c n' f d v T Ef Lk X|t c n' f d v T Ef Lk X|t n' ch m T Nm|t n' ch T|t c v T Rf Ex|t c v T
      |t c v n' f k' r T|t c v n' f k' j o r t' T|t c v n' f k' j o r T|t c v n' f k' j r t' T|t c v n' f k' j r T
      |t data from m T Nt Oc Pa|t m T|t T|t m n' r d T Bd Ob|t m c r d w T|t m n' r T|t m c r T|t m T
      |t c L T|t m n' r T|t m c r T|t data T Nt|t m r t' T|t c v n' f k' j o r t' T|t c v n' f k' j r t' T].
    - (* call *)
      exists k, ks, pk, (if in_dec Nat.eq_dec t Q then Q else t :: Q). constructor; cbn; try assumption.
      + rewrite tids_app. cbn. rewrite app_nil_r. exact C2.
      + intros t' c' v r X Nu. apply put_at in X as [[-> X]|[Ne X]]; [discriminate|]. eapply C5; eauto.
      + intros t' c' X. destruct (in_dec Nat.eq_dec t Q) as [I|N].
        * apply put_at in X as [[-> X]|[Ne X]]; [exact I|]. eapply C8; eauto.
        * apply put_at in X as [[-> X]|[Ne X]]; [left; reflexivity|]. right. eapply C8; eauto.
      + rewrite calls_app. cbn. destruct (in_dec Nat.eq_dec t Q); cbn; lia.
      + intros t' m. split; [|intros r0]; intros X; (apply put_at in X as [[-> X]|[Ne X]]; [discriminate|symmetry in X; revert X; apply C10]).
    - (* at a node *)
      pose proof (remove_length_lt Nat.eq_dec Q t (C8 _ _ T)) as Lr.
      set (rs := acts_of c (a_nodes a1 n')).
      assert (P8 : forall t' c', put (a_status a1) t (Answered c v rs) t' = Pending c' -> In t' (remove Nat.eq_dec t Q)).
      { intros t' c' Y. apply put_at in Y as [[-> Y]|[Ne Y]]; [discriminate|]. apply in_in_remove; [exact Ne|]. eapply C8; eauto. }
      assert (P10 : forall t' m, (put (a_status a1) t (Answered c v rs) t' = Got m -> with_tid m) /\ forall r, put (a_status a1) t (Answered c v rs) t' = Busy m r -> with_tid m).
      { intros t' m. split; [|intros r0]; intros X1; (apply put_at in X1 as [[-> X1]|[Ne X1]]; [discriminate|symmetry in X1; revert X1; apply C10]). }
      destruct (Nat.eq_dec n' n) as [->|Nn].
      + assert (Bd : last_tid (a_nodes a1 n) < 65536) by (rewrite C1; unfold tid_at; lia).
        pose proof (effect_counts c n f _ _ _ Ef X Bd) as Y. destruct (numbering n c) eqn:Nu.
        * destruct Y as [Y1 Y2]. rewrite C1, tid_next in Y1.
          exists (S k), ks, (put pk t (Some (S k))), (remove Nat.eq_dec t Q). constructor; cbn; try assumption.
          -- unfold put. rewrite Nat.eqb_refl. exact Y1.
          -- intros j I. specialize (C4 j I). lia.
          -- intros t' c' v' r' Z Nu'. apply put_at in Z as [[-> Z]|[Ne Z]].
             ++ exists (S k). unfold put. rewrite Nat.eqb_refl. split; [reflexivity|]. inversion Z; subst. congruence.
             ++ unfold put. destruct (Nat.eqb_spec t' t); [contradiction|]. eapply C5; eauto.
          -- intros t' j Z. apply put_at in Z as [[-> Z]|[Ne Z]]; [|symmetry in Z; specialize (C6 _ _ Z); split; [lia|apply C6]].
             inversion Z; subst. split; [lia|]. intros I. specialize (C4 _ I). lia.
          -- intros t1 t2 j Z1 Z2. apply put_at in Z1 as [[-> Z1]|[Ne1 Z1]]; apply put_at in Z2 as [[-> Z2]|[Ne2 Z2]]; [reflexivity| | |].
             ++ inversion Z1; subst. symmetry in Z2. specialize (C6 _ _ Z2). lia.
             ++ inversion Z2; subst. symmetry in Z1. specialize (C6 _ _ Z1). lia.
             ++ symmetry in Z1, Z2. eapply C7; eauto.
          -- lia.
        * assert (Z : exists k', (k <= k' <= S k)%nat /\ last_tid d = tid_at t0 k').
          { destruct Y as [Y|Y]; [exists k; split; [lia|congruence]|exists (S k); split; [lia|rewrite Y, C1; apply tid_next]]. }
          destruct Z as (k' & Lk' & Z). exists k', ks, pk, (remove Nat.eq_dec t Q). constructor; cbn; try assumption.
          -- unfold put. rewrite Nat.eqb_refl. exact Z.
          -- intros j I. specialize (C4 j I). lia.
          -- intros t' c' v' r' W Nu'. apply put_at in W as [[-> W]|[Ne W]]; [inversion W; subst; congruence|]. eapply C5; eauto.
          -- intros t' j W. specialize (C6 _ _ W). split; [lia|apply C6].
          -- lia.
      + assert (Nu : numbering n c = false).
        { destruct c; cbn in Ef; inversion Ef; subst; cbn; try reflexivity; destruct (Nat.eqb_spec n' n); (contradiction || reflexivity). }
        exists k, ks, pk, Q. destruct (Plain (Answered c v rs) t) as [D1 D2 D3 D4 D5 D6 D7 D8 D9 D10]; try discriminate; try (split; [|intros ?]; discriminate).
        { intros c' v' r' Y. inversion Y; subst. exact Nu. }
        constructor; try assumption. cbn. unfold put. destruct (Nat.eqb_spec n n'); [congruence|exact C1].
    - (* at a controller *)
      exists k, ks, pk, Q. destruct (Plain (Answered c v []) t) as [D1 D2 D3 D4 D5 D6 D7 D8 D9 D10]; try discriminate; try (split; [|intros ?]; discriminate); [|constructor; assumption].
      intros c' v' r' Y. inversion Y; subst. destruct c'; cbn in Ef; try discriminate. reflexivity.
    - (* a receiver gives a message *)
      exists k, ks, pk, Q. destruct (Plain (Answered (CWait n' ch) (VGot (Some m)) []) t) as [D1 D2 D3 D4 D5 D6 D7 D8 D9 D10]; try discriminate; try (split; [|intros ?]; discriminate); [|constructor; assumption].
      intros c' v' r' Y. inversion Y; subst. reflexivity.
    - exists k, ks, pk, Q. apply Plain; try discriminate; try (split; [|intros ?]; discriminate). intros c' v' r' Y. inversion Y; subst. reflexivity.
    - exists k, ks, pk, Q. apply Plain; try discriminate; try (split; [|intros ?]; discriminate). intros c' v' r' Y. inversion Y; subst. destruct c'; cbn in Rf; try discriminate. reflexivity.
    - (* return *)
      destruct (numbering n c) eqn:Nu.
      + destruct (C5 _ _ _ _ T Nu) as (j & Pj & Tj). exists k, (ks ++ [j]), (put pk t None), Q. constructor; cbn; try assumption.
        * rewrite tids_app, map_app. cbn. rewrite Nu, C2, Tj. reflexivity.
        * apply NoDup_app_snoc; [exact C3|]. apply (C6 _ _ Pj).
        * intros j' I. apply in_app_or in I as [I|[<-|[]]]; [apply C4, I|apply (C6 _ _ Pj)].
        * intros t' c' v' r' Z Nu'. apply put_at in Z as [[-> Z]|[Ne Z]]; [discriminate|]. unfold put. destruct (Nat.eqb_spec t' t); [contradiction|]. eapply C5; eauto.
        * intros t' j' Z. apply put_at in Z as [[-> Z]|[Ne Z]]; [discriminate|]. symmetry in Z. destruct (C6 _ _ Z) as [Z1 Z2]. split; [exact Z1|].
          intros I. apply in_app_or in I as [I|[->|[]]]; [contradiction|]. apply Ne. eapply C7; eauto.
        * intros t1 t2 j' Z1 Z2. apply put_at in Z1 as [[-> Z1]|[Ne1 Z1]]; [discriminate|]. apply put_at in Z2 as [[-> Z2]|[Ne2 Z2]]; [discriminate|].
          symmetry in Z1, Z2. eapply C7; eauto.
        * intros t' c' Z. apply put_at in Z as [[-> Z]|[Ne Z]]; [discriminate|]. eapply C8; eauto.
        * rewrite calls_app. cbn. lia.
        * intros t' m. split; [|intros r0]; intros X; (apply put_at in X as [[-> X]|[Ne X]]; [discriminate|symmetry in X; revert X; apply C10]).
      + exists k, ks, pk, Q. destruct (Plain Idle t) as [D1 D2 D3 D4 D5 D6 D7 D8 D9 D10]; try discriminate; try (split; [|intros ?]; discriminate). constructor; try assumption.
        * cbn. rewrite tids_app. cbn. rewrite Nu, app_nil_r. exact C2.
        * cbn. rewrite calls_app. cbn. lia.
    - exists k, ks, pk, Q. apply counted_lives. eapply counted_spawn; eauto.
    - exists k, ks, pk, Q. apply counted_lives. eapply counted_rest; eauto.
    - exists k, ks, pk, Q. eapply counted_rest; eauto.
    - exists k, ks, pk, Q. eapply counted_rest; eauto.
    - exists k, ks, pk, Q. apply counted_lives. eapply counted_rest; eauto.
    - (* a datagram *)
      assert (Wt : with_tid (msg_set_from m from)).
      { split; [|apply (Nz t), in_or_app; right; left; reflexivity].
        exists (firstn MAX_PACKET_SIZE data), m, from. split; [unfold octets in Oc; rewrite <- (firstn_skipn MAX_PACKET_SIZE data) in Oc; apply Forall_app in Oc; apply Oc|]. split; [exact Pa|reflexivity]. }
      exists k, ks, pk, Q. destruct (Plain (Got (msg_set_from m from)) t) as [D1 D2 D3 D4 D5 D6 D7 D8 D9 D10]; try discriminate.
      { intros m'. split; [intros Y; inversion Y; subst; exact Wt|discriminate]. }
      constructor; try assumption; cbn.
      * rewrite tids_app. cbn. rewrite app_nil_r. exact C2.
      * rewrite calls_app. cbn. lia.
    - exists k, ks, pk, Q. apply Plain; try discriminate. intros m'. split; [discriminate|]. intros r0 Y. inversion Y; subst. exact (proj1 (C10 _ _) T).
    - exists k, ks, pk, Q. apply Plain; try discriminate; try (split; [|intros ?]; discriminate).
    - (* a reaction of a node *)
      destruct (proj2 (C10 _ _) _ T) as [Rc Tz]. exists k, ks, pk, Q.
      destruct (Plain (Busy m r) t) as [D1 D2 D3 D4 D5 D6 D7 D8 D9 D10]; try discriminate.
      { intros m'. split; [discriminate|]. intros r0 Y. inversion Y; subst. split; assumption. }
      constructor; try assumption. cbn. unfold put. destruct (Nat.eqb_spec n n') as [<-|]; [|exact C1].
      rewrite (observed_counts _ _ _ Rc Tz Ob). exact C1.
    - pose proof (proj2 (C10 _ _) _ T) as Wt. exists k, ks, pk, Q.
      destruct (Plain (Busy m r) t) as [D1 D2 D3 D4 D5 D6 D7 D8 D9 D10]; try discriminate; [|constructor; assumption].
      intros m'. split; [discriminate|]. intros r0 Y. inversion Y; subst. exact Wt.
    - exists k, ks, pk, Q. apply Plain; try discriminate. intros m'. split; [discriminate|]. intros r0 Y. inversion Y; subst. exact (proj2 (C10 _ _) _ T).
    - exists k, ks, pk, Q. apply Plain; try discriminate. intros m'. split; [discriminate|]. intros r0 Y. inversion Y; subst. exact (proj2 (C10 _ _) _ T).
    - exists k, ks, pk, Q. apply Plain; try discriminate; try (split; [|intros ?]; discriminate).
    - exists k, ks, pk, Q. destruct (Plain Gone t) as [D1 D2 D3 D4 D5 D6 D7 D8 D9 D10]; try discriminate; try (split; [|intros ?]; discriminate). constructor; assumption.
    - exists k, ks, pk, Q. destruct (Plain Gone t) as [D1 D2 D3 D4 D5 D6 D7 D8 D9 D10]; try discriminate; try (split; [|intros ?]; discriminate). constructor; assumption.
    - exists k, ks, pk, Q. destruct (Plain Gone t) as [D1 D2 D3 D4 D5 D6 D7 D8 D9 D10]; try discriminate; try (split; [|intros ?]; discriminate). constructor; assumption.
    - exists k, ks, pk, Q. apply Plain; try discriminate; try (split; [|intros ?]; discriminate).
    - exists k, ks, pk, Q. apply Plain; try discriminate; try (split; [|intros ?]; discriminate).
    - exists k, ks, pk, Q. destruct (Plain Gone t) as [D1 D2 D3 D4 D5 D6 D7 D8 D9 D10]; try discriminate; try (split; [|intros ?]; discriminate). constructor; assumption.
    - exists k, ks, pk, Q. destruct (Plain Gone t) as [D1 D2 D3 D4 D5 D6 D7 D8 D9 D10]; try discriminate; try (split; [|intros ?]; discriminate). constructor; assumption.
  Qed.

  Lemma NoDup_map_on {A B} (f : A -> B) l : (forall x y, In x l -> In y l -> f x = f y -> x = y) -> NoDup l -> NoDup (map f l).
  Proof.
    intros I N. induction N as [|x l Nx N IH]; cbn; constructor.
    - intros X. apply in_map_iff in X as (y & E & Iy). apply Nx. rewrite (I x y); [exact Iy|left; reflexivity|right; exact Iy|congruence].
    - apply IH. intros y z Iy Iz. apply I; right; assumption.
  Qed.

  (** While no message without a TID arrives and up to 65536 calls were made, no
      two messages which threads have sent, posted or announced through the same
      node, without a TID of their own, have the same TID. *)
  Theorem C109_tids : forall what net ns cs xs s n, down ns -> steps db what net (begins ns cs xs) s -> numbered (history s) ->
    last_tid (ns n) < 65536 -> N.of_nat (calls (history s)) <= 65536 -> NoDup (tids n (history s)).
  Proof.
    intros what net ns cs xs s n Dn St Nz B Le. destruct (C106_in_turn _ _ _ _ _ _ Dn St) as (a & A & H & _).
    destruct (counts what net (length xs) (last_tid (ns n)) n cs ns a) as (k & ks & pk & Q & [C1 C2 C3 C4 _ _ _ _ C9 _]); [unfold tid_at; lia|exact A|rewrite H; exact Nz|].
    rewrite H in C2, C9. rewrite C2. apply NoDup_map_on; [|exact C3]. intros x y Ix Iy E. apply C4 in Ix, Iy. unfold tid_at in E. lia.
  Qed.
End S.

(* ------------------------------------------------------------------ *)
(** ** Concrete executions *)

Section Play.
  Context {U : Type} {P : Profile} {HO : HashOrder} {Os : OS} {Uu : Uuids} (db : list object) (what : observer -> obs).

  (** The step of thread [t] when no datagram arrives. *)
  Definition free (s : process U) l : option bool := match owner s l with None => Some (poisoned s l) | Some _ => None end.
  Definition next_step (s : process U) (t : nat) : option (process U) :=
    match threads s t with
    | Out (Enter c p) => Some (logs (goes s t (Out p)) (ECall t c))
    | Out (Leave c v p) => Some (logs (goes s t (Out p)) (EReturn t c v))
    | Out (Lock l p) => match free s l with Some false => Some (goes (takes s l t) t (Out p)) | Some true => Some (dies s t) | None => None end
    | Out (Unlock l p) => if mine s t l then Some (goes (frees s l) t (Out p)) else None
    | Out (Attempt l y q) => match free s l with Some false => Some (goes s t (Out y)) | _ => Some (goes s t (Out q)) end
    | Out (OnNode n b k) => match free s (ModelLocks.Node n) with
        | Some false => Some (goes (takes s (ModelLocks.Node n) t) t (InNode n b k)) | Some true => Some (dies s t) | None => None end
    | Out (OnCtrl c b k) => match free s (ModelLocks.Dev c) with
        | Some false => Some (goes (takes s (ModelLocks.Dev c) t) t (InCtrl c b k)) | Some true => Some (dies s t) | None => None end
    | Out (TryNode n b p) => match free s (ModelLocks.Node n) with
        | Some false => Some (goes (takes s (ModelLocks.Node n) t) t (InNode n b (fun _ => p))) | _ => Some (goes s t (Out p)) end
    | Out (TryCtrl c b p) => match free s (ModelLocks.Dev c) with
        | Some false => Some (goes (takes s (ModelLocks.Dev c) t) t (InCtrl c b (fun _ => p))) | _ => Some (goes s t (Out p)) end
    | Out (Await n ch k) => match nth_error (messages_in ch (w_trace (snd (nodes s n)))) (reads s n ch) with
        | Some m => Some (goes (with_read s n ch) t (Out (k (VGot (Some m))))) | None => Some (goes s t (Out (k (VGot None)))) end
    | InNode n (Stmt f) k => match f (nodes s n) with Ret (d, b) => Some (goes (with_node s n d) t (InNode n b k)) | Panic => Some (dies s t) end
    | InNode n (Done v) k => Some (goes (frees s (ModelLocks.Node n)) t (Out (k v)))
    | InCtrl c (Stmt f) k => match f (ctrls s c) with Ret (d, b) => Some (goes (with_ctrl s c d) t (InCtrl c b k)) | Panic => Some (dies s t) end
    | InCtrl c (Done v) k => Some (goes (frees s (ModelLocks.Dev c)) t (Out (k v)))
    | InNode n (Act (Spawn k') b) k => Some (goes (goes (with_life s (spawn (life s) n k')) (ModelThreads.next (life s)) (Out Again)) t (InNode n b k))
    | InNode n (Act (Register k' j o) b) k =>
        match nth_error (srvs (life s) n k') j with
        | Some t' => match free s (ModelLocks.Notif t') with
            | Some false => Some (goes (with_life s (register (life s) t' o)) t (InNode n (Act (Register k' (S j) o) b) k))
            | Some true => Some (dies s t) | None => None end
        | None => Some (goes s t (InNode n b k))
        end
    | InNode n (Act (Stop k' j) b) k =>
        match nth_error (srvs (life s) n k') j with
        | Some t' => if flags s t' then match threads s t' with Out Over => Some (goes s t (InNode n (Act (Stop k' (S j)) b) k)) | Dead => Some (dies s t) | _ => None end
            else Some (with_flag s t')
        | None => Some (goes (with_life s (set_srvs (life s) n k' [])) t (InNode n b k))
        end
    | Out Again => Some (goes s t (Out (if flags s t then Over else Recv)))
    | Out Recv => Some (goes s t (Out Again))
    | Out (Deliver m) => match free s (ModelLocks.Notif t) with
        | Some false => Some (goes (takes s (ModelLocks.Notif t) t) t (Out (deliver_prog db t (map what (regs (life s) t)) m)))
        | Some true => Some (dies s t) | None => None end
    | InCtrl _ (Act x _) _ => match x with end
    | Out Halt | Out Over | Dead => None
    end.
  (** A datagram for the receive thread [t]. *)
  Definition arrives (s : process U) (t : nat) (data : list N) (from : sockaddr) : option (process U) :=
    match threads s t, msg_parse msg_new (firstn MAX_PACKET_SIZE data) with
    | Out Recv, Ret (true, m) => if forallb (fun b => b <? 256) data then Some (logs (goes s t (Out (Deliver (msg_set_from m from)))) (EGot t (msg_set_from m from))) else None
    | _, _ => None
    end.
  Inductive move := Go (t : nat) | Get (t : nat) (data : list N) (from : sockaddr).
  Fixpoint play (s : process U) (l : list move) : option (process U) :=
    match l with
    | [] => Some s
    | x :: r => match (match x with Go t => next_step s t | Get t d a => arrives s t d a end) with Some s' => play s' r | None => None end
    end.

  Lemma free_true s l : free s l = Some true -> owner s l = None /\ poisoned s l = true.
  Proof. unfold free. destruct (owner s l); [discriminate|]. intros [= E]. auto. Qed.
  Lemma free_false s l : free s l = Some false -> owner s l = None /\ poisoned s l = false.
  Proof. unfold free. destruct (owner s l); [discriminate|]. intros [= E]. auto. Qed.
  Lemma free_not s l : free s l <> Some false -> owner s l <> None \/ poisoned s l = true.
  Proof. unfold free. destruct (owner s l); [left; discriminate|]. destruct (poisoned s l); [right; reflexivity|intros X; contradiction]. Qed.
  Lemma next_step_sound net s t s' : next_step s t = Some s' -> step db what net s s'.
  Proof.
    unfold next_step. destruct (threads s t) as [[|c p|c v p|l p|l p|l y q|n b k|c b k|n b p|c b p|n ch k| | |m| ]|n [v|f|[k'|k' j o|k' j] b] k|c [v|f|[] b] k|] eqn:T; try discriminate; intros E.
    - inversion E; subst. apply st_enter; exact T.
    - inversion E; subst. apply st_leave; exact T.
    - destruct (free s l) as [[]|] eqn:F; inversion E; subst; [apply free_true in F as []; eapply st_lock_poisoned; eauto|apply free_false in F as []; apply st_lock; auto].
    - destruct (mine s t l) eqn:M; inversion E; subst. apply st_unlock; [exact T|]. unfold mine in M. destruct (owner s l) as [t'|]; [|discriminate].
      apply Nat.eqb_eq in M as ->. reflexivity.
    - destruct (free s l) as [[]|] eqn:F; inversion E; subst.
      + eapply st_attempt_fails; [exact T|]. apply free_not. congruence.
      + apply free_false in F as []. eapply st_attempt; eauto.
      + eapply st_attempt_fails; [exact T|]. apply free_not. congruence.
    - destruct (free s (ModelLocks.Node n)) as [[]|] eqn:F; inversion E; subst; [apply free_true in F as []; eapply st_on_node_poisoned; eauto|apply free_false in F as []; apply st_on_node; auto].
    - destruct (free s (ModelLocks.Dev c)) as [[]|] eqn:F; inversion E; subst; [apply free_true in F as []; eapply st_on_ctrl_poisoned; eauto|apply free_false in F as []; apply st_on_ctrl; auto].
    - destruct (free s (ModelLocks.Node n)) as [[]|] eqn:F; inversion E; subst.
      + eapply st_try_node_fails; [exact T|]. apply free_not. congruence.
      + apply free_false in F as []. eapply st_try_node; eauto.
      + eapply st_try_node_fails; [exact T|]. apply free_not. congruence.
    - destruct (free s (ModelLocks.Dev c)) as [[]|] eqn:F; inversion E; subst.
      + eapply st_try_ctrl_fails; [exact T|]. apply free_not. congruence.
      + apply free_false in F as []. eapply st_try_ctrl; eauto.
      + eapply st_try_ctrl_fails; [exact T|]. apply free_not. congruence.
    - destruct (nth_error _ _) as [m|] eqn:Nm; inversion E; subst; [eapply st_got; eauto|eapply st_waited; exact T].
    - destruct (flags s t) eqn:Fl; inversion E; subst; [apply st_over; assumption|apply st_again; assumption].
    - inversion E; subst. apply st_nothing; exact T.
    - destruct (free s (ModelLocks.Notif t)) as [[]|] eqn:F; inversion E; subst; [apply free_true in F as []; eapply st_deliver_poisoned; eauto|apply free_false in F as []; apply st_deliver; auto].
    - inversion E; subst. eapply st_node_done; exact T.
    - destruct (f (nodes s n)) as [[d b]|] eqn:F; inversion E; subst; [eapply st_node_stmt; eauto|eapply st_node_panic; eauto].
    - inversion E; subst. eapply st_spawn; exact T.
    - destruct (nth_error (srvs (life s) n k') j) as [t'|] eqn:Nt; [|inversion E; subst; eapply st_registered; eauto].
      destruct (free s (ModelLocks.Notif t')) as [[]|] eqn:F; inversion E; subst; [apply free_true in F as []; eapply st_register_poisoned; eauto|apply free_false in F as []; eapply st_register; eauto].
    - destruct (nth_error (srvs (life s) n k') j) as [t'|] eqn:Nt; [|inversion E; subst; eapply st_stopped; eauto].
      destruct (flags s t') eqn:Fl; [|inversion E; subst; eapply st_signal; eauto].
      destruct (threads s t') as [[]| | |] eqn:T'; inversion E; subst; [eapply st_join; eauto|eapply st_join_panic; eauto].
    - inversion E; subst. eapply st_ctrl_done; exact T.
    - destruct (f (ctrls s c)) as [[d b]|] eqn:F; inversion E; subst; [eapply st_ctrl_stmt; eauto|eapply st_ctrl_panic; eauto].
  Qed.
  Lemma arrives_sound s t d x s' : arrives s t d x = Some s' -> step db what true s s'.
  Proof.
    unfold arrives. destruct (threads s t) as [[]| | |] eqn:T; try discriminate.
    destruct (msg_parse _ _) as [[[] m]|] eqn:M; try discriminate. destruct (forallb _ d) eqn:O; [|discriminate]. intros [= <-].
    eapply st_datagram; eauto. apply Forall_forall. intros y Y. rewrite forallb_forall in O. apply N.ltb_lt, O, Y.
  Qed.
  Lemma play_sound l : forall s s', play s l = Some s' -> steps db what true s s'.
  Proof.
    induction l as [|x r IH]; intros s s' E; cbn [play] in E; [inversion E; constructor|].
    destruct (match x with Go t => _ | Get t d a => _ end) as [s1|] eqn:X; [|discriminate]. eapply steps_trans; [|apply IH, E]. apply step_run.
    destruct x; [eapply next_step_sound, X|eapply arrives_sound, X].
  Qed.
End Play.

(** The lamp as a device with the mutex 0 and the node 0, not yet started. Its
    observers: the device node and the node itself. *)
Definition ex_idle : list (node_op unit) :=
  OpAddObject lamp :: OpAddHandler yes :: map OpAddObserver [Observer 0 ObsDevice; Observer 1 ObsNode].
Definition ex_ns : nat -> nstate unit := fun _ => (tt, ex_n ex_idle, ex_w ex_idle).
Definition ex_cs : nat -> cstate := fun _ => ([], w0).
Definition ex_what (o : observer) : obs := if ob_id o =? 1 then RNode 1 0 else ROther (N.to_nat (ob_id o)).
Definition ex_uuids : Uuids := {| new_uuid := fun _ => repeat 7 16 |}.
Definition ex_play xs l : option (process unit) :=
  play (P := true) (HO := ex_order) (Os := ex_os) (Uu := ex_uuids) [] ex_what (begins (P := true) (HO := ex_order) (O := ex_os) ex_ns ex_cs xs) l.
Definition gos (l : list (nat * nat)) : list move := flat_map (fun '(t, k) => repeat (Go t) k) l.
(** The thread of an event, and the answer if it is one. *)
Definition seen (e : event unit) : nat * option answer := match e with ECall t _ | EGot t _ => (t, None) | EReturn t _ v => (t, Some v) end.
Definition view (x : option (process unit)) : option (list (nat * option answer)) := option_map (fun s => map seen (history s)) x.
Definition done_by (t : nat) (x : option (process unit)) : option bool :=
  match x with Some s => match threads s t with Out Halt => Some true | Dead => Some false | _ => None end | None => None end.
Definition log_of (n : nat) (x : option (process unit)) : option (list ModelTransport.event) :=
  option_map (fun s => w_trace (snd (nodes s n))) x.
Example ex_down : down ex_ns.
Proof. intros n. vm_compute. reflexivity. Qed.

(** Thread 0 starts the device, writes, and stops it; thread 1 reads twice. The
    device has a multicast server, whose receive thread is 2, and a unicast server
    with the receive thread 3. *)
Definition x_life : client unit :=
  Call (CStart (Some 0%nat) 0) (fun _ => Call (CSetProperty 0 0 0x029101 0x80 [0x31]) (fun _ => Call (CStop (Some 0%nat) 0) (fun _ => Finished))).
Definition x_reads : client unit := Call (CProperty 0 0 0x029101 0x80) (fun _ => Call (CProperty 0 0 0x029101 0x80) (fun _ => Finished)).
Definition ask : list N := to_lamp 5 0x62 [1; 0x80; 0].

(** A write by thread 0 begins before and ends after the first read of thread 1:
    the read sees the old value, the second read waits and sees the new one. A
    request which arrives while thread 0 is in the node is not answered. *)
Definition plan_missed := gos [(0, 39); (3, 1); (0, 1); (1, 8); (0, 4); (1, 1)]%nat ++ [Get 3 ask peer] ++ gos [(3, 8); (0, 4); (1, 7)]%nat.
Example C106_case_missed :
  view (ex_play [x_life; x_reads] plan_missed) =
    Some [(0%nat, None); (0%nat, Some (VBool true)); (0%nat, None); (1%nat, None); (1%nat, Some (VData (Some [0x30]))); (1%nat, None);
          (3%nat, None); (0%nat, Some (VBool true)); (1%nat, Some (VData (Some [0x31])))] /\
  map (fun t => done_by t (ex_play [x_life; x_reads] plan_missed)) [1; 3]%nat = [Some true; None] /\
  option_map (fun l => length (sent l)) (log_of 0 (ex_play [x_life; x_reads] plan_missed)) = Some 1%nat.
Proof. vm_compute. repeat split. Qed.
(** The same request after the write is answered with the new value. *)
Definition plan_answered := gos [(0, 39); (3, 1); (0, 1); (1, 8); (0, 7)]%nat ++ [Get 3 ask peer] ++ gos [(3, 5); (0, 1); (1, 1); (3, 17)]%nat.
Example C106_case_answered :
  view (ex_play [x_life; x_reads] plan_answered) =
    Some [(0%nat, None); (0%nat, Some (VBool true)); (0%nat, None); (1%nat, None); (1%nat, Some (VData (Some [0x30]))); (3%nat, None); (0%nat, Some (VBool true)); (1%nat, None)] /\
  option_map (fun l => skipn 1 (sent l)) (log_of 0 (ex_play [x_life; x_reads] plan_answered)) =
    Some [((V4 0xC0A80014, 3610), [0x10; 0x81; 0; 5; 0x02; 0x91; 0x01; 0x05; 0xFF; 0x01; 0x72; 1; 0x80; 1; 0x31])].
Proof. vm_compute. repeat split. Qed.
(** These are executions of the model, with calls of the right types. *)
Lemma ex_steps xs l s : ex_play xs l = Some s ->
  steps (P := true) (HO := ex_order) (O := ex_os) (Uu := ex_uuids) [] ex_what true (begins (P := true) (HO := ex_order) (O := ex_os) ex_ns ex_cs xs) s.
Proof. apply play_sound. Qed.
Definition calls_seen : list (event unit) :=
  [ECall 0 (CStart (Some 0%nat) 0); EReturn 0 (CStart (Some 0%nat) 0) (VBool true);
   ECall 0 (CSetProperty 0 0 0x029101 0x80 [0x31]); ECall 1 (CProperty 0 0 0x029101 0x80); EReturn 1 (CProperty 0 0 0x029101 0x80) (VData (Some [0x30]));
   EGot 3 (msg_set_from (ex_rcv ask) peer); EReturn 0 (CSetProperty 0 0 0x029101 0x80 [0x31]) (VBool true); ECall 1 (CProperty 0 0 0x029101 0x80)].
Example C108_case :
  option_map (@history unit) (ex_play [x_life; x_reads] plan_answered) = Some calls_seen /\
  option_map (fun s => (owner s (ModelLocks.Node 0), poisoned s (ModelLocks.Node 0), data_in (snd (fst (nodes s 0))) 0x029101 0x80))
    (ex_play [x_life; x_reads] plan_answered) = Some (None, false, Some [0x31]).
Proof. vm_compute. split; reflexivity. Qed.
Example C108_case_typed : calls_ok (P := true) (HO := ex_order) calls_seen /\
  (let '(u, x, w) := ex_ns 0 in reachable (P := true) (HO := ex_order) (O := ex_os) u x w).
Proof.
  split.
  - intros t c I. unfold calls_seen in I.
    repeat (destruct I as [I|I]; [inversion I; subst; cbn; try exact Logic.I; repeat constructor; fail|]). destruct I.
  - cbn [ex_ns]. apply ex_reachable; [|vm_compute; reflexivity].
    repeat (apply Forall_cons || apply Forall_nil); cbn [op_ok]; try exact Logic.I; [exact lamp_built|exact yes_typed].
Qed.

(** A handler which panics: the receive thread is gone with the node locked, and
    so is, later, the thread which reads. No thread waits. *)
Definition x_bad : client unit := Call (CStart (Some 0%nat) 0) (fun _ => Call (CSetHandler 0 0 (fun u o e p => Panic)) (fun _ => Finished)).
Definition plan_panic := gos [(0, 46); (3, 1)]%nat ++ [Get 3 ask peer] ++ gos [(3, 11); (1, 3)]%nat.
Example C107_case :
  map (fun t => done_by t (ex_play [x_bad; x_reads] plan_panic)) [0; 1; 3]%nat = [Some true; Some false; Some false] /\
  view (ex_play [x_bad; x_reads] plan_panic) = Some [(0%nat, None); (0%nat, Some (VBool true)); (0%nat, None); (0%nat, Some (VBool true)); (3%nat, None); (1%nat, None)].
Proof. vm_compute. repeat split. Qed.
(** stop has told thread 3 to end and cannot go on, until thread 3 has ended; when
    it returns, both receive threads have ended and are forgotten. *)
Definition plan_stop := gos [(3, 2); (0, 4); (2, 1); (0, 6)]%nat.
Example C107_case_stop :
  option_map (fun s => (next_step (P := true) (HO := ex_order) (Os := ex_os) (Uu := ex_uuids) [] ex_what s 0, flags s 3))
    (option_map (fun s => s) (ex_play [x_life; x_reads] (plan_missed ++ gos [(0, 5)]%nat))) = Some (None, true) /\
  map (fun t => done_by t (ex_play [x_life; x_reads] (plan_missed ++ gos [(0, 5)]%nat ++ plan_stop))) [0; 1]%nat = [Some true; Some true] /\
  option_map (fun s => (threads s 2, threads s 3, srvs (life s) 0 Ucast, srvs (life s) 0 Mcast))
    (ex_play [x_life; x_reads] (plan_missed ++ gos [(0, 5)]%nat ++ plan_stop)) = Some (Out Over, Out Over, [], []).
Proof. vm_compute. repeat split. Qed.

(** Two threads send at the same time: the second one cannot go on while the first
    one is in the node, and the TIDs are different. *)
Definition x_send : client unit := Call (CSend 0 peer (ex_rcv (to_lamp 0 0x62 [1; 0x80; 0]))) (fun _ => Finished).
Example C109_case :
  option_map (fun s => next_step (P := true) (HO := ex_order) (Os := ex_os) (Uu := ex_uuids) [] ex_what s 1) (ex_play [x_send; x_send] (gos [(0, 2); (1, 1); (0, 1)]%nat)) = Some None /\
  option_map (fun s => tids 0 (history s)) (ex_play [x_send; x_send] (gos [(0, 2); (1, 1); (0, 4); (1, 6); (0, 1)]%nat)) = Some [2; 1].
Proof. vm_compute. repeat split. Qed.

(** Thread 0 starts the device and sends twice; in between a request with the
    number [t] arrives and is answered. A request with a TID takes none; one
    without takes one. *)
Definition x_sends : client unit :=
  Call (CStart (Some 0%nat) 0) (fun _ => Call (CSend 0 peer (ex_rcv (to_lamp 0 0x62 [1; 0x80; 0]))) (fun _ =>
    Call (CSend 0 peer (ex_rcv (to_lamp 0 0x62 [1; 0x80; 0]))) (fun _ => Finished))).
Definition plan_between t := gos [(0, 46); (2, 1)]%nat ++ [Get 2 (to_lamp t 0x62 [1; 0x80; 0]) peer] ++ gos [(2, 22); (0, 7)]%nat.
Example C109_case_between :
  option_map (fun s => (tids 0 (history s), length (sent (w_trace (snd (nodes s 0)))))) (ex_play [x_sends] (plan_between 5)) = Some ([2; 3], 4%nat) /\
  option_map (fun s => (tids 0 (history s), length (sent (w_trace (snd (nodes s 0)))))) (ex_play [x_sends] (plan_between 0)) = Some ([2; 4], 4%nat).
Proof. vm_compute. repeat split. Qed.

Print Assumptions C106_in_turn.
Print Assumptions C107_completes.
Print Assumptions C107_no_deadlock.
Print Assumptions C108_sequence.
Print Assumptions C108_reachable.
Print Assumptions C109_tids.
