(** C128: which programs may share the port, and builds without SO_REUSEADDR. *)
From Verif Require Import Base HMap ModelCodec ModelMessages ModelObject ModelTransport ModelNode
  SpecWire SpecObject SpecNode ProofsCodec ProofsCodec2 PropertiesCodec ProofsObject ProofsObject2 ProofsObject3
  PropertiesObject ProofsNode ProofsNode2 ProofsNode3 ProofsNode4 ExamplesNode PropertiesNode PropertiesTransport.

(* ------------------------------------------------------------------ *)
(** ** What an operating system does about ports *)

(** An open UDP socket of any program of the machine: the address it is bound to,
    and whether it has SO_REUSEADDR. *)
Record port : Type := Port { pt_addr : sockaddr; pt_reuse : bool }.
(** Two addresses want the same datagrams: one port, and the same address or the
    wildcard address. *)
Definition overlap (a b : sockaddr) : bool :=
  (snd a =? snd b) &&
  match fst a, fst b with
  | V4 x, V4 y | V6 x, V6 y => (x =? y) || (x =? 0) || (y =? 0)
  | _, _ => false
  end.
(** A bind is granted unless there is an overlapping socket and not both have
    SO_REUSEADDR. *)
Definition granted (reuse : bool) (open : list port) (a : sockaddr) : bool :=
  forallb (fun p => negb (overlap (pt_addr p) a) || (pt_reuse p && reuse)) open.
(** The sockets of the machine after the calls [tr] of a start, if the system
    answered every bind like this. A socket that fails to join the group is dropped
    at once (src/transport/multicast_manager.rs:82-91). *)
Fixpoint replay (reuse : bool) (open : list port) (tr : list event) : option (list port) :=
  match tr with
  | [] => Some open
  | EvBind a ok :: r =>
    if Bool.eqb ok (granted reuse open a) then replay reuse (if ok then Port a reuse :: open else open) r else None
  | EvJoin _ ok :: r => replay reuse (if ok then open else tl open) r
  | _ :: r => replay reuse open r
  end.
(** The port is shared: who else is bound to an IPv4 address and port 3610 of the
    machine has SO_REUSEADDR. *)
Definition shared (open : list port) : Prop := forall x p, In p open -> pt_addr p = (V4 x, 3610) -> pt_reuse p = true.

Lemma replay_app reuse t : forall open s, replay reuse open (t ++ s) = match replay reuse open t with Some o => replay reuse o s | None => None end.
Proof.
  induction t as [|[a ok|i ok|l to d ok|c m] t IH]; intros open s; cbn [replay app]; auto. destruct (Bool.eqb _ _); auto.
Qed.
Lemma refused_wild open reuse x p : In p open -> pt_addr p = (V4 x, 3610) -> pt_reuse p && reuse = false -> granted reuse open (V4 0, PORT) = false.
Proof.
  intros I A R. unfold granted. destruct (forallb _ _) eqn:F; auto. rewrite forallb_forall in F. specialize (F p I). rewrite A, R in F. unfold overlap in F. cbn [fst snd] in F.
  change (3610 =? PORT) with true in F. rewrite N.eqb_refl, !orb_true_r in F. discriminate.
Qed.
Lemma refused_any open reuse x p : In p open -> pt_addr p = (V4 0, 3610) -> pt_reuse p && reuse = false -> granted reuse open (V4 x, PORT) = false.
Proof.
  intros I A R. unfold granted. destruct (forallb _ _) eqn:F; auto. rewrite forallb_forall in F. specialize (F p I). rewrite A, R in F. unfold overlap in F. cbn [fst snd] in F.
  change (3610 =? PORT) with true in F. rewrite N.eqb_refl, !orb_true_r in F. discriminate.
Qed.
Lemma granted_shared open x : shared open -> granted true open (V4 x, PORT) = true.
Proof.
  intros S. apply forallb_forall. intros [[[y|y] q] r] I; cbn [pt_addr pt_reuse]; unfold overlap; cbn [fst snd].
  - destruct (N.eqb_spec q PORT) as [->|]; [|reflexivity]. rewrite (S y _ I eq_refl : r = true). apply orb_true_r.
  - rewrite andb_false_r. reflexivity.
Qed.
Lemma shared_cons open x : shared open -> shared (Port (V4 x, PORT) true :: open).
Proof. intros S y p [<-|I] A; [reflexivity|]. eapply S; eauto. Qed.

Section S.
  Context {U : Type} {Os : OS}.

  (** *** Refusals *)
  Lemma loop_refused reuse a k : forall w ok w' tr open open', bind_loop k w a = (ok, w') -> since w w' tr -> replay reuse open tr = Some open' ->
    granted reuse open a = false -> ok = false /\ open' = open.
  Proof.
    induction k as [|k IH]; intros w ok w' tr open open' E T R G; cbn [bind_loop] in E.
    - inversion E; subst. rewrite (since_unique _ _ _ _ T (since_refl _)) in R. inversion R. auto.
    - set (b := os_bind (w_calls w)) in *. clearbody b. destruct b.
      + inversion E; subst. rewrite (since_unique _ _ _ _ T (since_log _ _)) in R. cbn [replay] in R. rewrite G in R. discriminate.
      + pose proof (bind_loop_quiet _ _ _ _ _ E) as (_ & t2 & S2 & _).
        rewrite (since_unique _ _ _ _ T (since_trans _ _ _ _ _ (since_log _ _) S2)), replay_app in R. cbn [replay] in R. rewrite G in R. cbn in R. eapply IH; eauto.
  Qed.
  Lemma loop_granted reuse a k : forall w ok w' tr open open', bind_loop k w a = (ok, w') -> since w w' tr -> replay reuse open tr = Some open' ->
    ok = true -> granted reuse open a = true /\ open' = Port a reuse :: open.
  Proof.
    induction k as [|k IH]; intros w ok w' tr open open' E T R K; cbn [bind_loop] in E.
    - inversion E; subst. discriminate.
    - set (b := os_bind (w_calls w)) in *. clearbody b. destruct b.
      + inversion E; subst. rewrite (since_unique _ _ _ _ T (since_log _ _)) in R. cbn [replay] in R. destruct (granted reuse open a); [|discriminate]. inversion R; auto.
      + pose proof (bind_loop_quiet _ _ _ _ _ E) as (_ & t2 & S2 & _).
        rewrite (since_unique _ _ _ _ T (since_trans _ _ _ _ _ (since_log _ _) S2)), replay_app in R. cbn [replay] in R. destruct (granted reuse open a) eqn:Eg; [discriminate|]. cbn in R.
        destruct (IH _ _ _ _ _ _ E S2 R K) as [X _]. congruence.
  Qed.
  Lemma bind_replay reuse a : forall w s ok s' w' tr open open', socket_bind w s a = (ok, s', w') -> since w w' tr -> replay reuse open tr = Some open' ->
    (granted reuse open a = false -> ok = false) /\ (if ok then open' = Port a reuse :: open /\ s' = Socket (Some a) (Some a) else open' = open /\ s' = s).
  Proof.
    intros w s ok s' w' tr open open' E T R. unfold socket_bind in E. destruct (bind_loop _ w a) as [b w1] eqn:El.
    assert (w' = w1) by (destruct b; inversion E; auto). subst w1.
    split.
    - intro G. destruct (loop_refused _ _ _ _ _ _ _ _ _ El T R G) as [-> _]. inversion E; auto.
    - destruct b; cbn [negb] in E; inversion E; subst.
      + destruct (loop_granted _ _ _ _ _ _ _ _ _ El T R eq_refl) as [_ ->]. auto.
      + split; auto. revert El T R. generalize UDP_SOCKET_BIND_RETRY_MAX. intro k. clear E. revert w tr open open'.
        induction k as [|k IH]; intros w tr open open' El T R; cbn [bind_loop] in El.
        * inversion El; subst. rewrite (since_unique _ _ _ _ T (since_refl _)) in R. inversion R. auto.
        * set (b := os_bind (w_calls w)) in *. clearbody b. destruct b; [inversion El|].
          pose proof (bind_loop_quiet _ _ _ _ _ El) as (_ & t2 & S2 & _).
          rewrite (since_unique _ _ _ _ T (since_trans _ _ _ _ _ (since_log _ _) S2)), replay_app in R. cbn [replay] in R.
          destruct (granted reuse open a); [discriminate|]. cbn in R. eapply IH; eauto.
  Qed.
  (** With SO_REUSEADDR on a shared port the first attempt is granted. *)
  Lemma bind_granted a w s ok s' w' tr open open' : socket_bind w s a = (ok, s', w') -> since w w' tr -> replay true open tr = Some open' ->
    granted true open a = true -> ok = true.
  Proof.
    intros E T R G. unfold socket_bind, UDP_SOCKET_BIND_RETRY_MAX in E. cbn [bind_loop] in E. destruct (os_bind (w_calls w)).
    - cbn [negb] in E. inversion E; auto.
    - exfalso. match type of E with context [if os_bind ?c then ?x else ?y] => destruct (if os_bind c then x else y) as [b w1] eqn:El end.
      assert (w' = w1) by (destruct b; inversion E; auto). subst w1.
      pose proof (bind_loop_quiet 2 _ _ _ _ El) as (_ & t2 & S2 & _).
      rewrite (since_unique _ _ _ _ T (since_trans _ _ _ _ _ (since_log _ _) S2)), replay_app in R. cbn [replay] in R. rewrite G in R. discriminate.
  Qed.
  Lemma ucast_replay reuse x : forall w ok s' w' tr open open', ucast_server_bind w server_new (V4 x) = (ok, s', w') -> since w w' tr -> replay reuse open tr = Some open' ->
    (granted reuse open (V4 x, PORT) = false -> ok = false) /\ open' = (if ok then Port (V4 x, PORT) reuse :: open else open).
  Proof.
    intros w ok s' w' tr open open' E T R. unfold ucast_server_bind in E. destruct (socket_bind w _ _) as [[b k] w1] eqn:Es. inversion E; subst.
    destruct (bind_replay _ _ _ _ _ _ _ _ _ _ Es T R) as [A B]. split; auto. destruct ok; apply B.
  Qed.
  Lemma mcast_replay reuse i : forall w ok s' w' tr open open', mcast_server_bind w server_new i = (ok, s', w') -> since w w' tr -> replay reuse open tr = Some open' ->
    (granted reuse open (V4 0, PORT) = false -> ok = false) /\ open' = (if ok then Port (V4 0, PORT) reuse :: open else open).
  Proof.
    intros w ok s' w' tr open open' E T R. unfold mcast_server_bind in E. destruct (socket_bind w _ _) as [[b k] w1] eqn:Es. destruct (socket_bind_quiet _ _ _ _ _ _ Es) as (_ & t1 & S1 & _). destruct b; cbn [negb] in E.
    - unfold socket_join in E. assert (X : sk_sock k = Some (V4 0, PORT)).
      { unfold socket_bind in Es. destruct (bind_loop _ w _) as [[] ?]; inversion Es. reflexivity. }
      rewrite X in E. set (j := os_join (w_calls w1)) in *. clearbody j. inversion E; subst.
      rewrite (since_unique _ _ _ _ T (since_trans _ _ _ _ _ S1 (since_log _ _))), replay_app in R. destruct (replay reuse open t1) as [o1|] eqn:R1; [|discriminate].
      destruct (bind_replay _ _ _ _ _ _ _ _ _ _ Es S1 R1) as [A [-> _]]. split; [intro G; specialize (A G); discriminate|]. cbn [replay] in R. destruct ok; inversion R; reflexivity.
    - inversion E; subst. destruct (bind_replay _ _ _ _ _ _ _ _ _ _ Es T R) as [A [-> _]]. auto.
  Qed.

  (** *** The loops of start *)
  Definition v4s (ifs : list ipaddr) : Prop := Forall (fun i => exists x, i = V4 x) ifs.
  Lemma ifs_v4 is : v4s (get_interfaces is).
  Proof. apply Forall_forall. intros i I. eapply interface_v4; eauto. Qed.

  Lemma mcast_loop reuse ifs : forall w l l' w' tr open open', servers_start mcast_server_bind w ifs l = (l', w') -> since w w' tr -> replay reuse open tr = Some open' ->
    incl open open' /\ (l' = l \/ In (Port (V4 0, PORT) reuse) open').
  Proof.
    induction ifs as [|i r IH]; intros w l l' w' tr open open' E T R; cbn [servers_start] in E.
    - inversion E; subst. rewrite (since_unique _ _ _ _ T (since_refl _)) in R. inversion R; subst. split; [apply incl_refl|auto].
    - destruct (mcast_server_bind w server_new i) as [[b s] w1] eqn:Eb. destruct (mcast_bind_quiet _ _ _ _ _ _ Eb) as (_ & t1 & S1 & _).
      cbn [server_start negb] in E.
      assert (Q : quiet_trace w1 w') by (destruct b; cbn [negb] in E; eapply servers_start_quiet; try exact E; intros; eapply mcast_bind_quiet; eauto).
      destruct Q as (_ & t2 & S2 & _). rewrite (since_unique _ _ _ _ T (since_trans _ _ _ _ _ S1 S2)), replay_app in R.
      destruct (replay reuse open t1) as [o1|] eqn:R1; [|discriminate]. destruct (mcast_replay _ _ _ _ _ _ _ _ _ Eb S1 R1) as [_ ->].
      destruct b; cbn [negb] in E; destruct (IH _ _ _ _ _ _ _ E S2 R) as [I J].
      + split; [intros p Ip; apply I; right; exact Ip|]. right. apply I. left. reflexivity.
      + auto.
  Qed.
  Lemma mcast_blocked reuse ifs : forall w l l' w' tr open open', servers_start mcast_server_bind w ifs l = (l', w') -> since w w' tr -> replay reuse open tr = Some open' ->
    granted reuse open (V4 0, PORT) = false -> l' = l.
  Proof.
    induction ifs as [|i r IH]; intros w l l' w' tr open open' E T R G; cbn [servers_start] in E.
    - inversion E; subst. reflexivity.
    - destruct (mcast_server_bind w server_new i) as [[b s] w1] eqn:Eb. destruct (mcast_bind_quiet _ _ _ _ _ _ Eb) as (_ & t1 & S1 & _).
      cbn [server_start negb] in E.
      assert (Q : quiet_trace w1 w') by (destruct b; cbn [negb] in E; eapply servers_start_quiet; try exact E; intros; eapply mcast_bind_quiet; eauto).
      destruct Q as (_ & t2 & S2 & _). rewrite (since_unique _ _ _ _ T (since_trans _ _ _ _ _ S1 S2)), replay_app in R.
      destruct (replay reuse open t1) as [o1|] eqn:R1; [|discriminate]. destruct (mcast_replay _ _ _ _ _ _ _ _ _ Eb S1 R1) as [A ->].
      rewrite (A G) in *. cbn [negb] in E. eapply IH; eauto.
  Qed.
  Lemma ucast_blocked reuse ifs : v4s ifs -> forall w l l' w' tr open open', servers_start ucast_server_bind w ifs l = (l', w') -> since w w' tr -> replay reuse open tr = Some open' ->
    (forall x, granted reuse open (V4 x, PORT) = false) -> l' = l.
  Proof.
    induction 1 as [|i r (x & ->) V IH]; intros w l l' w' tr open open' E T R G; cbn [servers_start] in E.
    - inversion E; subst. reflexivity.
    - destruct (ucast_server_bind w server_new (V4 x)) as [[b s] w1] eqn:Eb. destruct (ucast_bind_quiet _ _ _ _ _ _ Eb) as (_ & t1 & S1 & _).
      cbn [server_start negb] in E.
      assert (Q : quiet_trace w1 w') by (destruct b; cbn [negb] in E; eapply servers_start_quiet; try exact E; intros; eapply ucast_bind_quiet; eauto).
      destruct Q as (_ & t2 & S2 & _). rewrite (since_unique _ _ _ _ T (since_trans _ _ _ _ _ S1 S2)), replay_app in R.
      destruct (replay reuse open t1) as [o1|] eqn:R1; [|discriminate]. destruct (ucast_replay _ _ _ _ _ _ _ _ _ Eb S1 R1) as [A ->].
      rewrite (A (G x)) in *. cbn [negb] in E. eapply IH; eauto.
  Qed.

  (** A start of a stopped manager, in its two halves. *)
  Lemma start_halves w m ok m' w' : idle m -> manager_start w m = Ret (ok, m', w') -> exists c w1,
    servers_start mcast_server_bind (tick w) (get_interfaces (os_interfaces (w_calls w))) [] = (c, w1) /\
    (c = [] /\ ok = false /\ w' = w1 \/
     c <> [] /\ exists u, servers_start ucast_server_bind (tick w1) (get_interfaces (os_interfaces (w_calls w1))) [] = (u, w') /\
       (u = [] /\ ok = false \/ u <> [] /\ ok = true /\ m' = Manager u c)).
  Proof.
    intros I E. unfold manager_start in E. rewrite idle_running in E by auto. destruct I as [I1 I2].
    unfold mcast_start, ucast_start in E. rewrite I1, I2 in E. cbn [servers_running length Nat.eqb get_all_interfaces] in E.
    destruct (servers_start mcast_server_bind (tick w) (get_interfaces (os_interfaces (w_calls w))) []) as [c w1]. exists c, w1. split; [reflexivity|].
    destruct c as [|c0 cr]; cbn [length Nat.eqb negb] in E.
    { destruct (manager_stop _); cbn [obind] in E; inversion E; subst. auto. }
    right. split; [discriminate|]. cbn [mg_ucast servers_running length Nat.eqb get_all_interfaces] in E.
    destruct (servers_start ucast_server_bind (tick w1) (get_interfaces (os_interfaces (w_calls w1))) []) as [u w2]. exists u.
    destruct u as [|u0 ur]; cbn [length Nat.eqb negb] in E.
    - destruct (manager_stop _); cbn [obind] in E; inversion E; subst. auto.
    - inversion E; subst. split; [reflexivity|]. right. split; [discriminate|auto].
  Qed.
  Lemma half_quiet_m w ifs l l' w' : servers_start mcast_server_bind w ifs l = (l', w') -> quiet_trace w w'.
  Proof. apply servers_start_quiet. intros. eapply mcast_bind_quiet; eauto. Qed.
  Lemma half_quiet_u w ifs l l' w' : servers_start ucast_server_bind w ifs l = (l', w') -> quiet_trace w w'.
  Proof. apply servers_start_quiet. intros. eapply ucast_bind_quiet; eauto. Qed.

  (** A socket of another program on any IPv4 address and port 3610, without
      SO_REUSEADDR on both sides, keeps every transport from starting. *)
  Theorem C128_taken : forall reuse open open' w m ok m' w' tr x p, idle m -> manager_start w m = Ret (ok, m', w') -> since w w' tr ->
    replay reuse open tr = Some open' -> In p open -> pt_addr p = (V4 x, 3610) -> pt_reuse p && reuse = false -> ok = false /\ idle m'.
  Proof.
    intros reuse open open' w m ok m' w' tr x p I E T R Ip A B.
    assert (G : granted reuse open (V4 0, PORT) = false) by (eapply refused_wild; eauto).
    assert (ok = false).
    { destruct (start_halves _ _ _ _ _ I E) as (c & w1 & E1 & H). destruct (half_quiet_m _ _ _ _ _ E1) as (_ & t1 & S1 & _).
      destruct H as [(_ & -> & _)|(Nc & u & E2 & H)]; [reflexivity|]. exfalso. apply Nc.
      destruct (half_quiet_u _ _ _ _ _ E2) as (_ & t2 & S2 & _).
      rewrite (since_unique _ _ _ _ T (since_trans _ _ _ _ _ (since_tick w) (since_trans _ _ _ _ _ S1 (since_trans _ _ _ _ _ (since_tick w1) S2)))) in R. cbn [app] in R. rewrite replay_app in R.
      destruct (replay reuse open t1) as [o1|] eqn:R1; [|discriminate]. eapply mcast_blocked; eauto. }
    subst. split; auto. eapply C66_transport_partial; eauto.
  Qed.

  (** Without SO_REUSEADDR (every build without the feature "unix") no transport
      ever starts on such a system: the multicast socket, which is bound to the
      wildcard address, keeps the unicast socket of the same node away. *)
  Theorem C128_without_reuse : forall open open' w m ok m' w' tr, idle m -> manager_start w m = Ret (ok, m', w') -> since w w' tr ->
    replay false open tr = Some open' -> ok = false /\ idle m'.
  Proof.
    intros open open' w m ok m' w' tr I E T R. assert (ok = false).
    { destruct (start_halves _ _ _ _ _ I E) as (c & w1 & E1 & H). destruct (half_quiet_m _ _ _ _ _ E1) as (_ & t1 & S1 & _).
      destruct H as [(_ & -> & _)|(Nc & u & E2 & H)]; [reflexivity|].
      destruct (half_quiet_u _ _ _ _ _ E2) as (_ & t2 & S2 & _).
      rewrite (since_unique _ _ _ _ T (since_trans _ _ _ _ _ (since_tick w) (since_trans _ _ _ _ _ S1 (since_trans _ _ _ _ _ (since_tick w1) S2)))) in R. cbn [app] in R. rewrite replay_app in R.
      destruct (replay false open t1) as [o1|] eqn:R1; [|discriminate].
      destruct (mcast_loop _ _ _ _ _ _ _ _ _ E1 S1 R1) as [_ [X|X]]; [contradiction|].
      assert (u = []). { eapply ucast_blocked; [apply ifs_v4|exact E2|exact S2|exact R|]. intro y. eapply refused_any; [exact X|reflexivity|reflexivity]. }
      destruct H as [(_ & ->)|(Nu & _)]; [reflexivity|contradiction]. }
    subst. split; auto. eapply C66_transport_partial; eauto.
  Qed.

  (** *** Sharing *)
  Lemma ucast_shared ifs : v4s ifs -> forall w l l' w' tr open open', servers_start ucast_server_bind w ifs l = (l', w') -> since w w' tr -> replay true open tr = Some open' ->
    shared open -> exists n, l' = l ++ n /\ Forall2 serves_unicast ifs n /\ shared open'.
  Proof.
    induction 1 as [|i r (x & ->) V IH]; intros w l l' w' tr open open' E T R G; cbn [servers_start] in E.
    - inversion E; subst. rewrite (since_unique _ _ _ _ T (since_refl _)) in R. inversion R; subst. exists []. rewrite app_nil_r. auto.
    - destruct (ucast_server_bind w server_new (V4 x)) as [[b s] w1] eqn:Eb. destruct (ucast_bind_quiet _ _ _ _ _ _ Eb) as (_ & t1 & S1 & _).
      cbn [server_start negb] in E.
      assert (Q : quiet_trace w1 w') by (destruct b; cbn [negb] in E; eapply half_quiet_u; exact E).
      destruct Q as (_ & t2 & S2 & _). rewrite (since_unique _ _ _ _ T (since_trans _ _ _ _ _ S1 S2)), replay_app in R.
      destruct (replay true open t1) as [o1|] eqn:R1; [|discriminate]. destruct (ucast_replay _ _ _ _ _ _ _ _ _ Eb S1 R1) as [_ ->].
      assert (b = true).
      { unfold ucast_server_bind in Eb. destruct (socket_bind w _ _) as [[b' k] w1'] eqn:Es. inversion Eb; subst. eapply bind_granted; eauto. apply granted_shared. exact G. }
      subst b. cbn [negb] in E. pose proof (good_u _ _ _ _ _ Eb eq_refl) as Sv.
      destruct (IH _ _ _ _ _ _ _ E S2 R (shared_cons _ _ G)) as (n & -> & F & G'). eexists (_ :: n). rewrite <- app_assoc. split; [reflexivity|]. split; auto.
  Qed.
  Lemma mcast_shared ifs : forall w l l' w' tr open open', servers_start mcast_server_bind w ifs l = (l', w') -> since w w' tr -> replay true open tr = Some open' ->
    (forall i, ~ In (EvJoin i false) tr) -> shared open -> exists n, l' = l ++ n /\ Forall2 serves_multicast ifs n /\ shared open'.
  Proof.
    induction ifs as [|i r IH]; intros w l l' w' tr open open' E T R J G; cbn [servers_start] in E.
    - inversion E; subst. rewrite (since_unique _ _ _ _ T (since_refl _)) in R. inversion R; subst. exists []. rewrite app_nil_r. auto.
    - destruct (mcast_server_bind w server_new i) as [[b s] w1] eqn:Eb. destruct (mcast_bind_quiet _ _ _ _ _ _ Eb) as (_ & t1 & S1 & _).
      cbn [server_start negb] in E.
      assert (Q : quiet_trace w1 w') by (destruct b; cbn [negb] in E; eapply half_quiet_m; exact E).
      destruct Q as (_ & t2 & S2 & _). pose proof (since_unique _ _ _ _ T (since_trans _ _ _ _ _ S1 S2)) as Et. rewrite Et, replay_app in R.
      destruct (replay true open t1) as [o1|] eqn:R1; [|discriminate]. destruct (mcast_replay _ _ _ _ _ _ _ _ _ Eb S1 R1) as [_ ->].
      assert (b = true).
      { unfold mcast_server_bind in Eb. destruct (socket_bind w _ _) as [[b' k] w1'] eqn:Es. destruct (socket_bind_quiet _ _ _ _ _ _ Es) as (_ & t0 & S0 & _).
        assert (Rb : exists o0, replay true open t0 = Some o0).
        { assert (exists t3, t1 = t0 ++ t3) as (t3 & ->).
          { destruct b'; cbn [negb] in Eb; [|inversion Eb; subst; exists []; rewrite app_nil_r; eapply since_unique; eauto].
            unfold socket_join in Eb. destruct (sk_sock k); inversion Eb; subst; [eexists; eapply since_unique; [exact S1|eapply since_trans; [exact S0|apply since_log]]|exists []; rewrite app_nil_r; eapply since_unique; eauto]. }
          rewrite replay_app in R1. destruct (replay true open t0); [eauto|discriminate]. }
        destruct Rb as (o0 & Rb). pose proof (bind_granted _ _ _ _ _ _ _ _ _ Es S0 Rb (granted_shared _ 0 G)) as ->. cbn [negb] in Eb.
        destruct (bind_replay _ _ _ _ _ _ _ _ _ _ Es S0 Rb) as [_ [_ ->]]. unfold socket_join in Eb. cbn [sk_sock] in Eb.
        set (j := os_join (w_calls w1')) in *. clearbody j. destruct j; inversion Eb; subst; [reflexivity|]. exfalso. apply (J i). apply in_app_iff. left.
        rewrite (since_unique _ _ _ _ S1 (since_trans _ _ _ _ _ S0 (since_log _ _))). apply in_app_iff. right. left. reflexivity. }
      subst b. cbn [negb] in E. pose proof (good_m _ _ _ _ _ Eb eq_refl) as Sv.
      destruct (IH _ _ _ _ _ _ _ E S2 R) as (n & -> & F & G'); [intros i0 I0; apply (J i0); rewrite Et; apply in_app_iff; auto|apply shared_cons; exact G|].
      eexists (_ :: n). rewrite <- app_assoc. split; [reflexivity|]. split; auto.
  Qed.

  (** With SO_REUSEADDR (the default build) any number of nodes start on one
      machine, whatever else is bound to the port with SO_REUSEADDR: every usable
      address gets its two servers, and the port stays shared. *)
  Theorem C128_shared : forall open open' w m ok m' w' tr, idle m -> manager_start w m = Ret (ok, m', w') -> since w w' tr ->
    replay true open tr = Some open' -> shared open -> (forall i, ~ In (EvJoin i false) tr) -> (forall k, os_interfaces k = os_interfaces 0) ->
    shared open' /\ (ok = true <-> exists a, usable (os_interfaces 0) a) /\
    (forall a, usable (os_interfaces 0) a -> (exists s, In s (mg_mcast m') /\ serves_multicast a s) /\ (exists s, In s (mg_ucast m') /\ serves_unicast a s)).
  Proof.
    intros open open' w m ok m' w' tr I E T R G J Hi.
    destruct (start_halves _ _ _ _ _ I E) as (c & w1 & E1 & H). destruct (half_quiet_m _ _ _ _ _ E1) as (_ & t1 & S1 & _). rewrite Hi in E1.
    assert (K : forall P (is : list ipaddr) (l : list server) a, Forall2 P is l -> In a is -> exists s, In s l /\ P a s).
    { clear. intros P is l a F. induction F; [intros []|]. intros [<-|I]; [exists y; split; [left|]; auto|]. destruct (IHF I) as (s & A & B). exists s. split; [right|]; auto. }
    destruct H as [(-> & -> & ->)|(Nc & u & E2 & H)].
    - rewrite (since_unique _ _ _ _ T (since_trans _ _ _ _ _ (since_tick w) S1)) in R, J. cbn [app] in R, J.
      destruct (mcast_shared _ _ _ _ _ _ _ _ E1 S1 R J G) as (n & X & F & G'). destruct n; [|discriminate]. inversion F as [Y|]. split; [exact G'|].
      split; [split; [discriminate|intros (a & Ua); apply get_interfaces_in in Ua; rewrite <- Y in Ua; destruct Ua]|].
      intros a Ua. apply get_interfaces_in in Ua. rewrite <- Y in Ua. destruct Ua.
    - destruct (half_quiet_u _ _ _ _ _ E2) as (_ & t2 & S2 & _). rewrite Hi in E2.
      rewrite (since_unique _ _ _ _ T (since_trans _ _ _ _ _ (since_tick w) (since_trans _ _ _ _ _ S1 (since_trans _ _ _ _ _ (since_tick w1) S2)))) in R, J. cbn [app] in R, J. rewrite replay_app in R.
      destruct (replay true open t1) as [o1|] eqn:R1; [|discriminate].
      destruct (mcast_shared _ _ _ _ _ _ _ _ E1 S1 R1) as (n & X & F & G'); [intros i0 I0; apply (J i0); apply in_app_iff; auto|exact G|]. cbn [app] in X. subst n.
      destruct (ucast_shared _ (ifs_v4 _) _ _ _ _ _ _ _ E2 S2 R G') as (n & X & F2 & G2). cbn [app] in X. subst n. split; [exact G2|].
      destruct H as [(-> & _)|(Nu & -> & ->)].
      + inversion F2 as [Y|]. rewrite <- Y in F. inversion F; subst. contradiction.
      + split.
        * split; [intros _|auto]. destruct u as [|u0 ur]; [contradiction|]. inversion F2 as [|a b l1 l2 _ _ Ea]. exists a. apply get_interfaces_in. rewrite <- Ea. left. reflexivity.
        * intros a Ua. apply get_interfaces_in in Ua. split; eapply K; eauto.
  Qed.

  (** A node of such a build never starts, and announces nothing. *)
  Theorem C128_node : forall open open' w (n : node U) ok n' w' tr, idle (n_mgr n) -> node_start w n = Ret (ok, n', w') -> since w w' tr ->
    replay false open tr = Some open' -> ok = false /\ idle (n_mgr n') /\ offered tr = [].
  Proof.
    intros open open' w n ok n' w' tr I E T R. apply node_start_spec in E as (ok1 & m1 & w1 & (_ & t1 & S1 & _ & O1) & M & H).
    rewrite idle_running in M by auto. destruct M as [(M & _)|(_ & M)]; [discriminate|].
    assert (X : exists o1, replay false open t1 = Some o1).
    { destruct H as [(_ & _ & _ & ->)|(_ & m2 & _ & A)]; [rewrite (since_unique _ _ _ _ T S1) in R; eauto|].
      destruct (announce_keeps _ _ _ _ _ A) as (_ & _ & _ & _ & t2 & S2 & _).
      rewrite (since_unique _ _ _ _ T (since_trans _ _ _ _ _ S1 S2)), replay_app in R. destruct (replay false open t1); [eauto|discriminate]. }
    destruct X as (o1 & R1). destruct (C128_without_reuse _ _ _ _ _ _ _ _ I M S1 R1) as [-> Im].
    destruct H as [(_ & -> & -> & ->)|(X & _)]; [|discriminate]. rewrite (since_unique _ _ _ _ T S1). auto.
  Qed.
End S.

(* ------------------------------------------------------------------ *)
(** ** Cases *)

(** The default build on a machine with two addresses, twice: both managers start,
    and the port stays shared. A third program which bound 127.0.0.1:3610 without
    SO_REUSEADDR in between would have kept the second one from starting. *)
Definition two_yes : OS := two_os (fun _ => true) (fun _ => true).
Definition first_start : bool * manager * world := started two_yes.
Definition second_start : bool * manager * world := the (false, manager_new, w0) (manager_start (O := two_yes) (snd first_start) manager_new).
Definition refusing : OS := two_os (fun _ => false) (fun _ => true).
Definition refused_start : bool * manager * world := started refusing.
Example C128_case : exists open1 open2,
  replay true [] (w_trace (snd first_start)) = Some open1 /\ length open1 = 4%nat /\ fst (fst first_start) = true /\
  replay true open1 (skipn (length (w_trace (snd first_start))) (w_trace (snd second_start))) = Some open2 /\ length open2 = 8%nat /\ fst (fst second_start) = true /\
  shared open1 /\
  replay true [Port (V4 0x7F000001, 3610) false] (w_trace (snd refused_start)) = Some [Port (V4 0x7F000001, 3610) false] /\ fst (fst refused_start) = false.
Proof.
  eexists _, _. split; [vm_compute; reflexivity|]. split; [reflexivity|]. split; [vm_compute; reflexivity|]. split; [vm_compute; reflexivity|]. split; [reflexivity|].
  split; [vm_compute; reflexivity|]. split.
  - intros x p I _. cbn [In] in I. repeat (destruct I as [<-|I]; [reflexivity|]). destruct I.
  - split; vm_compute; reflexivity.
Qed.

(** A build without the feature "unix" uses 127.0.0.1 only
    (src/transport/interface.rs:20-25) and binds without SO_REUSEADDR
    (src/transport/udp_socket.rs:46-50): the answers of a machine where nobody else
    uses the port. The multicast socket is granted, the unicast socket is refused
    three times, start returns false. *)
Definition loopback_only : OS := {|
  os_interfaces := fun _ => [Iface true false false [(V4 0x7F000001, 8)]];
  os_bind := fun k => k =? 1; os_join := fun _ => true; os_send := fun _ => true; os_seed := fun k => k |}.
Theorem C128_portable_refuted : exists (O : OS) w m m' w' tr open', idle m /\ manager_start (O := O) w m = Ret (false, m', w') /\ since w w' tr /\
  replay false [] tr = Some open' /\ (forall k, get_interfaces (os_interfaces k) = [V4 0x7F000001]) /\
  tr = [EvBind (V4 0, 3610) true; EvJoin (V4 0x7F000001) true; EvBind (V4 0x7F000001, 3610) false; EvBind (V4 0x7F000001, 3610) false; EvBind (V4 0x7F000001, 3610) false].
Proof.
  exists loopback_only, w0, manager_new. eexists _, _, _, _. split; [split; reflexivity|]. split; [vm_compute; reflexivity|]. split; [vm_compute; reflexivity|].
  split; [vm_compute; reflexivity|]. split; [intro k; vm_compute; reflexivity|]. reflexivity.
Qed.

Print Assumptions C128_taken.
Print Assumptions C128_without_reuse.
Print Assumptions C128_shared.
Print Assumptions C128_node.
Print Assumptions C128_portable_refuted.
