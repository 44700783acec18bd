(** C133: how long start and stop of the transport take. *)
From Verif Require Import Base HMap ModelCodec ModelMessages ModelObject ModelTransport ModelNode ModelTime
  SpecWire SpecObject SpecNode ProofsCodec ProofsCodec2 PropertiesCodec ProofsObject ProofsNode ProofsNode2 ProofsNode3 ExamplesNode PropertiesTransport.

(** ** Vocabulary *)
(** Attempts to bind that failed. *)
Fixpoint failed_binds (tr : list event) : N :=
  match tr with
  | [] => 0
  | EvBind _ false :: r => 1 + failed_binds r
  | _ :: r => failed_binds r
  end.
(** The addresses of the host are at most [k]. *)
Definition at_most_addresses {O : OS} (k : N) : Prop :=
  forall c, N.of_nat (length (flat_map if_ips (os_interfaces c))) <= k.
(** recv_from on a socket with a timeout of half a second returns by then. *)
Definition punctual (K : Clock) : Prop := forall c n, clk_timeout (Clock := K) c = true ->
  match clk_life (Clock := K) c n with Round recv _ => recv <= 500 * ms | Breaks recv => recv <= 500 * ms | Blocks => False end.
(** set_read_timeout works. *)
Definition timeouts_set (K : Clock) : Prop := forall c, clk_timeout (Clock := K) c = true.
(** The work on a datagram takes at most [work]; a round takes some time. *)
Definition works_within (K : Clock) (work : N) : Prop := forall c n r w,
  clk_life (Clock := K) c n = Round r w -> w <= work /\ 1 <= r + w.

Lemma failed_app a : forall b, failed_binds (a ++ b) = failed_binds a + failed_binds b.
Proof. induction a as [|x r IH]; intro b; cbn [app failed_binds]; auto. destruct x as [l ok| | |]; try destruct ok; rewrite IH; lia. Qed.

(** ** The receive thread *)
Section Life.
  Variables (l : life) (born : N).
  Lemma at_head_fun n : forall t u, at_head l born n t -> at_head l born n u -> t = u.
  Proof.
    induction n as [|n IH]; intros t u A B; inversion A; inversion B; subst; auto.
    match goal with H : l n = Round ?a ?b, H' : l n = Round ?c ?d |- _ => rewrite H in H'; inversion H'; subst end.
    match goal with H : at_head l born n ?x, H' : at_head l born n ?y |- _ => rewrite (IH x y H H') end. auto.
  Qed.
  Variables (R W : N).
  Hypothesis G : forall n, match l n with Round r w => r <= R /\ w <= W /\ 1 <= r + w | Breaks r => r <= R | Blocks => False end.

  Lemma ended_bound stop e : born <= stop -> ended l born stop e -> e <= stop + R + W.
  Proof.
    intros B (n & t & A & F & [[L ->]|(L & r & E & ->)]).
    - destruct A as [|n t r w A E]; [lia|]. pose proof (G n) as Q. rewrite E in Q. specialize (F n t (Nat.lt_succ_diag_r n) A). lia.
    - specialize (G n). rewrite E in G. lia.
  Qed.
  Lemma ended_some stop : exists e, ended l born stop e.
  Proof.
    assert (S : forall k, (exists e, ended l born stop e) \/
      exists t, at_head l born k t /\ born + N.of_nat k <= t /\ forall m u, (m < k)%nat -> at_head l born m u -> u < stop).
    { induction k as [|k [IH|(t & A & L & F)]]; [right|auto|].
      - exists born. split; [constructor|]. split; [lia|]. intros m u X. lia.
      - destruct (N.le_gt_cases stop t) as [X|X]; [left; exists t, k, t; auto|].
        pose proof (G k) as Q. destruct (l k) as [r w|r|] eqn:E; [right|left|destruct Q].
        + exists (t + r + w). split; [econstructor; eauto|]. split; [lia|]. intros m u Lm Am.
          destruct (Nat.eq_dec m k) as [->|D]; [rewrite (at_head_fun k u t Am A); auto|apply (F m u); auto; lia].
        + exists (t + r), k, t. split; auto. split; auto. right. split; auto. exists r. auto. }
    destruct (S (N.to_nat stop)) as [E|(t & A & L & F)]; auto.
    exists t, (N.to_nat stop), t. split; auto. split; auto. left. split; [lia|auto].
  Qed.
End Life.

(** A thread that waits without a timeout does not see the flag. *)
Lemma blocked_never l born n t stop : at_head l born n t -> l n = Blocks ->
  (forall m u, (m <= n)%nat -> at_head l born m u -> u < stop) -> forall e, ~ ended l born stop e.
Proof.
  intros A B F e (k & u & Ak & Fk & C). destruct (Nat.lt_trichotomy k n) as [L|[->|L]].
  - destruct C as [[C _]|(_ & r & Er & _)]; [specialize (F k u ltac:(lia) Ak); lia|].
    assert (X : forall j, (k < j)%nat -> forall v, at_head l born j v -> False).
    { induction j as [|j IH]; intros Lj v H; [lia|]. inversion H as [|? ? ? ? H1 H2]; subst.
      destruct (Nat.eq_dec j k) as [->|D]; [congruence|]. apply (IH ltac:(lia) _ H1). }
    apply (X n L t A).
  - pose proof (at_head_fun _ _ n _ _ A Ak) as ->. specialize (F n u ltac:(lia) Ak). destruct C as [[C _]|(_ & r & Er & _)]; [lia|congruence].
  - assert (X : forall j, (n < j)%nat -> forall v, at_head l born j v -> False).
    { induction j as [|j IH]; intros Lj v H; [lia|]. inversion H as [|? ? ? ? H1 H2]; subst.
      destruct (Nat.eq_dec j n) as [->|D]; [congruence|]. apply (IH ltac:(lia) _ H1). }
    apply (X k L u Ak).
Qed.

(** ** Stop *)
Section Stop.
  Variable K : Clock.
  (** Servers whose threads run and were spawned by [t]. *)
  Definition running_by (t : N) (l : list tserver) : Prop := Forall (fun s =>
    sv_thread (ts_server s) = TRunning /\ ts_born s <= t /\ exists c, ts_life s = clk_life (Clock := K) c) l.
  Lemma running_later t u l : t <= u -> running_by t l -> running_by u l.
  Proof. intros L. apply Forall_impl. intros s (A & B & C). split; auto. split; [lia|auto]. Qed.

  Variable work : N.
  Hypotheses (P : punctual K) (T : timeouts_set K) (Wk : works_within K work).
  Lemma lives c n : match clk_life (Clock := K) c n with
    Round r w => r <= 500 * ms /\ w <= work /\ 1 <= r + w | Breaks r => r <= 500 * ms | Blocks => False end.
  Proof. pose proof (P c n (T c)) as Q. destruct (clk_life c n) as [r w|r|] eqn:E; auto. pose proof (Wk c n r w E). tauto. Qed.

  Lemma one_stop t s : sv_thread (ts_server s) = TRunning /\ ts_born s <= t /\ (exists c, ts_life s = clk_life (Clock := K) c) ->
    (exists e, server_stopped s t e) /\ forall e, server_stopped s t e -> t <= e <= t + 500 * ms + work.
  Proof.
    intros (Th & B & c & L). unfold server_stopped. rewrite Th, L. split.
    - destruct (ended_some (clk_life (Clock := K) c) (ts_born s) _ _ (lives c) t) as (f & F). exists (N.max t f), f. auto.
    - intros e (f & F & ->). apply (ended_bound _ _ _ _ (lives c)) in F; auto. lia.
  Qed.
  Lemma all_stop l : forall t, running_by t l ->
    (exists e, servers_stopped l t e) /\ forall e, servers_stopped l t e -> t <= e <= t + N.of_nat (length l) * (500 * ms + work).
  Proof.
    induction l as [|s r IH]; intros t Q.
    - split; [exists t; constructor|]. intros e H. inversion H; subst. cbn. lia.
    - inversion Q as [|? ? Qs Qr]; subst. destruct (one_stop t s Qs) as ((u & U) & B).
      assert (St : exists x, server_stop (ts_server s) = Ret x). { unfold server_stop. destruct Qs as (-> & _). eauto. }
      destruct St as (x & St). split.
      + destruct (B u U) as (L & _). destruct (IH u (running_later _ _ _ L Qr)) as ((e & E) & _). exists e. eapply stopped_cons; eauto.
      + intros e H. inversion H as [|? ? ? ? _ X|? ? ? v ? ? X Y Z]; subst; [congruence|]. destruct (B v X) as (L1 & L2).
        destruct (IH v (running_later _ _ _ L1 Qr)) as (_ & B2). specialize (B2 e Z). cbn [length]. lia.
  Qed.
  Lemma servers_stop_running l : forall t all, running_by t l -> exists x, servers_stop (map ts_server l) all = Ret x.
  Proof.
    induction l as [|s r IH]; intros t all Q; cbn [map servers_stop]; [eauto|]. inversion Q as [|? ? (A & _) Qr]; subst.
    unfold server_stop at 1. rewrite A. cbn [obind fst negb]. eapply IH; eauto.
  Qed.
  Lemma manager_stops m t : running_by t (tm_ucast m) -> running_by t (tm_mcast m) ->
    (exists e, manager_stopped m t e) /\ (forall e, manager_stopped m t e ->
      t <= e <= t + N.of_nat (length (tm_ucast m) + length (tm_mcast m)) * (500 * ms + work)) /\
    exists x, manager_stop (untimed m) = Ret x.
  Proof.
    intros Qu Qc. destruct (all_stop _ _ Qu) as ((u & U) & Bu). destruct (servers_stop_running _ t true Qu) as (x & X).
    destruct (Bu u U) as (L & _). split; [|split].
    - destruct (all_stop _ _ (running_later _ _ _ L Qc)) as ((e & E) & _). exists e. eapply mstopped_all; eauto.
    - intros e H. inversion H as [? ? Y|v ? y A _ C]; subst; [congruence|]. destruct (Bu v A) as (L1 & L2).
      destruct (all_stop _ _ (running_later _ _ _ L1 Qc)) as (_ & Bc). specialize (Bc e C). lia.
    - unfold manager_stop, untimed. cbn [mg_ucast mg_mcast]. rewrite X. cbn [obind].
      destruct (servers_stop_running _ t true Qc) as (y & ->). cbn [obind]. eauto.
  Qed.
End Stop.

(** ** Start *)
Section Start.
  Context {O : OS} {K : Clock}.
  Lemma tbind_loop_spec k : forall w a t ok w' t', tbind_loop k w a t = (ok, w', t') ->
    bind_loop k w a = (ok, w') /\ exists tr, since w w' tr /\ t' = t + 100 * ms * failed_binds tr /\ failed_binds tr <= N.of_nat k /\
      (ok = false -> failed_binds tr = N.of_nat k) /\ (ok = true -> failed_binds tr < N.of_nat k).
  Proof.
    induction k as [|k IH]; intros w a t ok w' t'; cbn [tbind_loop bind_loop].
    - intro H. inversion H; subst. split; auto. exists []. split; [apply since_refl|]. cbn. split; [lia|]. split; [lia|]. split; [auto|discriminate].
    - destruct (os_bind (w_calls w)) eqn:E.
      + intro H. inversion H; subst. split; auto. exists [EvBind a true]. split; [apply since_log|]. cbn [failed_binds]. split; [lia|]. split; [lia|]. split; [discriminate|lia].
      + intro H. apply IH in H as (A & tr & S & Et & L & F & Tr). split; auto. exists ([EvBind a false] ++ tr).
        split; [eapply since_trans; [apply since_log|exact S]|]. rewrite failed_app. cbn [failed_binds]. unfold UDP_SOCKET_BIND_SLEEP_MSEC in Et.
        split; [lia|]. split; [lia|]. split; intro X; [specialize (F X)|specialize (Tr X)]; lia.
  Qed.

  (** A bind sleeps a tenth of a second after every attempt that failed, also
      after the last one. *)
  Theorem C133_bind : forall w s a t ok s' w' t', tsocket_bind w s a t = (ok, s', w', t') ->
    socket_bind w s a = (ok, s', w') /\ exists tr, since w w' tr /\ t' = t + 100 * ms * failed_binds tr /\
      (ok = false -> t' = t + 300 * ms) /\ (ok = true -> t' <= t + 200 * ms).
  Proof.
    intros w s a t ok s' w' t'. unfold tsocket_bind, socket_bind, UDP_SOCKET_BIND_RETRY_MAX.
    destruct (tbind_loop 3 w a t) as [[b w1] t1] eqn:E. apply tbind_loop_spec in E as (-> & tr & S & Et & _ & F & Tr).
    destruct b; cbn [negb]; intro H; inversion H; subst; (split; [auto|]); exists tr; (split; [auto|]); (split; [auto|]).
    - split; [discriminate|]. intros _. specialize (Tr eq_refl). unfold ms. lia.
    - split; [|discriminate]. intros _. rewrite F by auto. unfold ms. lia.
  Qed.

  (** What one bind does to the clock. *)
  Definition fair (bind : world -> server -> ipaddr -> N -> bool * server * world * N) (plain : world -> server -> ipaddr -> bool * server * world) : Prop :=
    forall w s i t ok s' w' t', bind w s i t = (ok, s', w', t') -> plain w s i = (ok, s', w') /\
      exists tr, since w w' tr /\ t' = t + 100 * ms * failed_binds tr /\ failed_binds tr <= 3.
  Lemma tsocket_bind_fair w s a t ok s' w' t' : tsocket_bind w s a t = (ok, s', w', t') -> socket_bind w s a = (ok, s', w') /\
      exists tr, since w w' tr /\ t' = t + 100 * ms * failed_binds tr /\ failed_binds tr <= 3.
  Proof.
    intro H. apply C133_bind in H as (A & tr & S & Et & F & Tr). split; auto. exists tr. split; auto. split; auto. unfold ms in *.
    destruct ok; [specialize (Tr eq_refl)|specialize (F eq_refl)]; lia.
  Qed.
  Lemma tucast_fair : fair tucast_server_bind ucast_server_bind.
  Proof.
    intros w s i t ok s' w' t'. unfold tucast_server_bind, ucast_server_bind. destruct i as [x|x].
    - destruct (tsocket_bind w (sv_socket s) (V4 x, PORT) t) as [[[b k] w1] t1] eqn:E. apply tsocket_bind_fair in E as (-> & tr & Q).
      intro H. inversion H; subst. split; auto. exists tr. auto.
    - intro H. inversion H; subst. split; auto. exists []. split; [apply since_refl|]. cbn. lia.
  Qed.
  Lemma tmcast_fair : fair tmcast_server_bind mcast_server_bind.
  Proof.
    intros w s i t ok s' w' t'. unfold tmcast_server_bind, mcast_server_bind.
    destruct (tsocket_bind w (sv_socket s) (V4 0, PORT) t) as [[[b k] w1] t1] eqn:E. apply tsocket_bind_fair in E as (-> & tr & S & Q).
    destruct b; cbn [negb]; [|intro H; inversion H; subst; split; auto; exists tr; auto].
    unfold socket_join. destruct (sk_sock k).
    - intro H. inversion H; subst. split; auto. exists (tr ++ [EvJoin i (os_join (w_calls w1))]).
      split; [eapply since_trans; [exact S|apply since_log]|]. rewrite failed_app. cbn [failed_binds]. destruct Q as (Q1 & Q2). split; lia.
    - intro H. inversion H; subst. split; auto. exists tr. auto.
  Qed.

  Lemma tservers_start_spec bind plain : fair bind plain ->
    forall ifs w l t l' w' t', tservers_start bind w ifs l t = (l', w', t') -> running_by K t l ->
      servers_start plain w ifs (map ts_server l) = (map ts_server l', w') /\ running_by K t' l' /\ (length l' <= length l + length ifs)%nat /\
      exists tr, since w w' tr /\ t' = t + 100 * ms * failed_binds tr /\ failed_binds tr <= 3 * N.of_nat (length ifs).
  Proof.
    intros Fa. induction ifs as [|i r IH]; intros w l t l' w' t'; cbn [tservers_start servers_start].
    - intros H Q. inversion H; subst. split; auto. split; auto. split; [cbn; lia|]. exists []. split; [apply since_refl|]. cbn. lia.
    - destruct (bind w server_new i t) as [[[ok s] w1] t1] eqn:E. apply Fa in E as (-> & tr & S & Et & L).
      assert (Lt : t <= t1) by lia. destruct ok; cbn [negb].
      + cbn [server_start negb]. intros H Q. apply IH in H as (A & B & C & tr2 & S2 & Et2 & L2).
        * rewrite map_app in A. split; [exact A|]. split; auto. rewrite app_length in C. cbn [length] in *. split; [lia|].
          exists (tr ++ tr2). split; [eapply since_trans; eauto|]. rewrite failed_app. split; lia.
        * apply Forall_app. split; [eapply running_later; eauto|]. constructor; [|constructor]. cbn [ts_server ts_born ts_life sv_thread sv_with_thread]. split; [auto|]. split; [lia|eauto].
      + intros H Q. apply IH in H as (A & B & C & tr2 & S2 & Et2 & L2); [|eapply running_later; eauto].
        split; auto. split; auto. cbn [length] in *. split; [lia|]. exists (tr ++ tr2). split; [eapply since_trans; eauto|]. rewrite failed_app. split; lia.
  Qed.
  Lemma addresses_bound k : at_most_addresses k -> forall c, N.of_nat (length (get_interfaces (os_interfaces c))) <= k.
  Proof.
    intros B c. specialize (B c). enough (length (get_interfaces (os_interfaces c)) <= length (flat_map if_ips (os_interfaces c)))%nat by lia.
    clear B. assert (I : forall ips, (length (interface_ips ips) <= length ips)%nat).
    { induction ips as [|x q IHq]; cbn [interface_ips length]; auto. repeat match goal with |- context [if ?b then _ else _] => destruct b end; cbn [length]; lia. }
    induction (os_interfaces c) as [|i r IH]; cbn [get_interfaces flat_map length]; auto. rewrite app_length.
    destruct (negb (if_up i)); [lia|]. destruct (if_loopback i || if_p2p i); [lia|]. specialize (I (if_ips i)).
    destruct (if_ips i) eqn:E; [cbn; lia|]. rewrite app_length. lia.
  Qed.
  Lemma tgroup_spec bind plain k : fair bind plain -> at_most_addresses k -> forall w t ok l' w' t',
    tgroup_start bind w [] t = (ok, l', w', t') ->
    (exists w0, get_all_interfaces w = (fst (get_all_interfaces w), w0) /\ servers_start plain w0 (fst (get_all_interfaces w)) [] = (map ts_server l', w')) /\
    ok = negb (Nat.eqb (length l') 0) /\ running_by K t' l' /\ N.of_nat (length l') <= k /\
    exists tr, since w w' tr /\ t' = t + 100 * ms * failed_binds tr /\ failed_binds tr <= 3 * k.
  Proof.
    intros Fa B w t ok l' w' t'. unfold tgroup_start. cbn [map servers_running length Nat.eqb]. unfold servers_running. cbn [length Nat.eqb].
    pose proof (addresses_bound k B (w_calls w)) as Bk. unfold get_all_interfaces. cbn [fst].
    destruct (tservers_start bind (tick w) (get_interfaces (os_interfaces (w_calls w))) [] t) as [[l1 w1] t1] eqn:E.
    intro H. inversion H; subst. clear H. eapply tservers_start_spec in E; [|exact Fa|constructor].
    destruct E as (A & Q & L & tr & S & Et & Lt). split; [exists (tick w); split; auto|]. split; auto. split; auto.
    cbn [length plus] in L. split; [lia|]. exists tr. split; [exact S|]. split; [auto|lia].
  Qed.
End Start.

Section Whole.
  Context {O : OS} {K : Clock}.
  Lemma plain_mcast w l w0 c w' : get_all_interfaces w = (fst (get_all_interfaces w), w0) ->
    servers_start mcast_server_bind w0 (fst (get_all_interfaces w)) [] = (map ts_server c, w') -> l = [] ->
    mcast_start w l = (negb (Nat.eqb (length c) 0), map ts_server c, w').
  Proof.
    intros A B ->. unfold mcast_start, servers_running. cbn [length Nat.eqb]. rewrite A.
    rewrite B. rewrite map_length. auto.
  Qed.
  Lemma plain_ucast w l w0 c w' : get_all_interfaces w = (fst (get_all_interfaces w), w0) ->
    servers_start ucast_server_bind w0 (fst (get_all_interfaces w)) [] = (map ts_server c, w') -> l = [] ->
    ucast_start w l = (negb (Nat.eqb (length c) 0), map ts_server c, w').
  Proof.
    intros A B ->. unfold ucast_start, servers_running. cbn [length Nat.eqb]. rewrite A.
    rewrite B. rewrite map_length. auto.
  Qed.
  Lemma stop_empties l : forall all x, servers_stop l all = Ret x -> snd x = [].
  Proof.
    induction l as [|s r IH]; intros all x; cbn [servers_stop]; [intro H; inversion H; auto|].
    destruct (server_stop s); cbn [obind]; [apply IH|discriminate].
  Qed.
  Lemma manager_stop_empties m x : manager_stop m = Ret x -> snd x = manager_new.
  Proof.
    unfold manager_stop. destruct (servers_stop (mg_ucast m) true) as [u|] eqn:U; cbn [obind]; [|discriminate].
    destruct (servers_stop (mg_mcast m) true) as [c|] eqn:C; cbn [obind]; [|discriminate]. intro H. inversion H. cbn [snd].
    rewrite (stop_empties _ _ _ U), (stop_empties _ _ _ C). auto.
  Qed.

  (** Everything about a start of a manager that has no servers. *)
  Lemma start_facts k w t ok m' w' e : at_most_addresses k -> manager_started w (TManager [] []) t ok m' w' e ->
    manager_start w manager_new = Ret (ok, untimed m', w') /\ exists tr, since w w' tr /\ failed_binds tr <= 6 * k /\
      (ok = true -> e = t + 100 * ms * failed_binds tr /\ running_by K e (tm_ucast m') /\ running_by K e (tm_mcast m') /\
        N.of_nat (length (tm_ucast m')) <= k /\ N.of_nat (length (tm_mcast m')) <= k) /\
      (ok = false -> m' = TManager [] [] /\ exists c, running_by K (t + 100 * ms * failed_binds tr) c /\ N.of_nat (length c) <= k /\
        manager_stopped (TManager [] c) (t + 100 * ms * failed_binds tr) e).
  Proof.
    intros B H. destruct H as [R|c w1 t1 e R Gm St (x & X)|c w1 t1 u w2 t2 e R Gm Gu St (x & X)|c w1 t1 u w2 t2 R Gm Gu].
    - discriminate R.
    - cbn [tm_mcast] in Gm. apply (tgroup_spec _ _ k tmcast_fair B) in Gm as ((w0 & A & S) & Ok & Q & L & tr & Tr & Et & Lt).
      split.
      + unfold manager_start. change (manager_running manager_new) with false. cbn iota. cbn [mg_mcast mg_ucast manager_new].
        rewrite (plain_mcast w [] w0 c w1 A S eq_refl). rewrite <- Ok. cbn [negb].
        unfold untimed in X. cbn [tm_ucast tm_mcast map] in X. change (mg_ucast manager_new) with (@nil server). rewrite X. cbn [obind].
        rewrite (manager_stop_empties _ _ X). reflexivity.
      + exists tr. split; auto. split; [lia|]. split; [discriminate|]. intros _. split; auto. exists c. rewrite <- Et. cbn [tm_ucast] in St. auto.
    - cbn [tm_mcast] in Gm. apply (tgroup_spec _ _ k tmcast_fair B) in Gm as ((w0 & A & S) & Ok & Q & L & tr & Tr & Et & Lt).
      cbn [tm_ucast] in Gu. apply (tgroup_spec _ _ k tucast_fair B) in Gu as ((w0' & A' & S') & Ok' & Q' & L' & tr' & Tr' & Et' & Lt').
      assert (U : u = []) by (destruct u; [auto|discriminate Ok']). subst u.
      split.
      + unfold manager_start. change (manager_running manager_new) with false. cbn iota. cbn [mg_mcast mg_ucast manager_new].
        rewrite (plain_mcast w [] w0 c w1 A S eq_refl). rewrite <- Ok. cbn [negb mg_ucast].
        rewrite (plain_ucast w1 [] w0' [] w2 A' S' eq_refl). cbn [length Nat.eqb negb map].
        unfold untimed in X. cbn [tm_ucast tm_mcast map] in X. rewrite X. cbn [obind].
        rewrite (manager_stop_empties _ _ X). reflexivity.
      + exists (tr ++ tr'). split; [eapply since_trans; eauto|]. rewrite failed_app. split; [lia|]. split; [discriminate|]. intros _. split; auto.
        exists c. replace (t + 100 * ms * (failed_binds tr + failed_binds tr')) with t2 by lia. split; [eapply running_later; [|exact Q]; lia|]. auto.
    - cbn [tm_mcast] in Gm. apply (tgroup_spec _ _ k tmcast_fair B) in Gm as ((w0 & A & S) & Ok & Q & L & tr & Tr & Et & Lt).
      cbn [tm_ucast] in Gu. apply (tgroup_spec _ _ k tucast_fair B) in Gu as ((w0' & A' & S') & Ok' & Q' & L' & tr' & Tr' & Et' & Lt').
      split.
      + unfold manager_start. change (manager_running manager_new) with false. cbn iota. cbn [mg_mcast mg_ucast manager_new].
        rewrite (plain_mcast w [] w0 c w1 A S eq_refl). rewrite <- Ok. cbn [negb mg_ucast].
        rewrite (plain_ucast w1 [] w0' u w2 A' S' eq_refl). rewrite <- Ok'. reflexivity.
      + exists (tr ++ tr'). split; [eapply since_trans; eauto|]. rewrite failed_app. split; [lia|]. split; [|discriminate]. intros _.
        split; [lia|]. cbn [tm_ucast tm_mcast]. split; auto. split; [eapply running_later; [|exact Q]; lia|]. auto.
  Qed.

  (** A start that succeeds takes a tenth of a second for every attempt to bind
      that failed, so at most 0.6 seconds for every address of the host; it does
      what ModelTransport.v says. *)
  Theorem C133_start : forall k w t m' w' e, at_most_addresses k ->
    manager_started w (TManager [] []) t true m' w' e ->
    manager_start w manager_new = Ret (true, untimed m', w') /\
    exists tr, since w w' tr /\ e = t + 100 * ms * failed_binds tr /\ e <= t + k * (600 * ms).
  Proof.
    intros k w t m' w' e B H. apply (start_facts k) in H as (A & tr & S & L & F & _); auto. split; auto. exists tr. split; auto.
    destruct (F eq_refl) as (E & _). split; auto. unfold ms in *. lia.
  Qed.

  Variable work : N.
  Hypotheses (P : punctual K) (T : timeouts_set K) (Wk : works_within K work).

  (** Where recv_from keeps to its timeout, a start returns, also when it fails:
      then it waits for the threads it has started. *)
  Theorem C133_start_failed : forall k w t, at_most_addresses k ->
    (exists ok m' w' e, manager_started w (TManager [] []) t ok m' w' e) /\
    forall m' w' e, manager_started w (TManager [] []) t false m' w' e ->
      manager_start w manager_new = Ret (false, manager_new, w') /\ m' = TManager [] [] /\ e <= t + k * (600 * ms + (500 * ms + work)).
  Proof.
    intros k w t B. split.
    - destruct (tgroup_start tmcast_server_bind w [] t) as [[[ok c] w1] t1] eqn:Gm.
      pose proof (tgroup_spec _ _ k tmcast_fair B _ _ _ _ _ _ Gm) as (_ & Ok & Q & _). destruct ok.
      + destruct (tgroup_start tucast_server_bind w1 [] t1) as [[[ok u] w2] t2] eqn:Gu.
        pose proof (tgroup_spec _ _ k tucast_fair B _ _ _ _ _ _ Gu) as (_ & Ok' & Q' & _ & tr' & _ & Et' & _). destruct ok.
        * exists true. do 3 eexists. eapply started_now; eauto.
        * destruct (manager_stops K work P T Wk (TManager u c) t2) as ((e & E) & _ & X); [exact Q'|eapply running_later; [|exact Q]; lia|].
          exists false. do 3 eexists. eapply started_no_ucast; eauto.
      + destruct (manager_stops K work P T Wk (TManager [] c) t1) as ((e & E) & _ & X); [constructor|exact Q|].
        exists false. do 3 eexists. eapply started_no_mcast; eauto.
    - intros m' w' e H. apply (start_facts k) in H as (A & tr & S & L & _ & F); auto. destruct (F eq_refl) as (-> & c & Q & Lc & St).
      split; [exact A|]. split; auto. destruct (manager_stops K work P T Wk (TManager [] c) (t + 100 * ms * failed_binds tr)) as (_ & Bd & _); [constructor|exact Q|].
      specialize (Bd e St). cbn [tm_ucast tm_mcast length plus] in Bd. unfold ms in *. nia.
  Qed.

  (** A stop after a start returns, at most half a second and the work on one
      datagram later for every server, of which every address has two. *)
  Theorem C133_stop : forall k w t m' w' t' stop, at_most_addresses k ->
    manager_started w (TManager [] []) t true m' w' t' -> t' <= stop ->
    (exists e, manager_stopped m' stop e) /\ (exists x, manager_stop (untimed m') = Ret x) /\
    forall e, manager_stopped m' stop e -> stop <= e <= stop + k * 2 * (500 * ms + work).
  Proof.
    intros k w t m' w' t' stop B H L. apply (start_facts k) in H as (A & tr & S & _ & F & _); auto. destruct (F eq_refl) as (_ & Qu & Qc & Lu & Lc).
    destruct (manager_stops K work P T Wk m' stop) as (X & Y & Z); [eapply running_later; eauto..|]. split; auto. split; auto.
    intros e E. specialize (Y e E). nia.
  Qed.
End Whole.

(** ** Witnesses *)
(** A host with one address, 192.168.0.2. *)
Definition one_if : list iface := [Iface true false false [(V4 0xC0A80002, 24)]].
Definition host_os : OS := {| os_interfaces := fun _ => one_if; os_bind := fun _ => true; os_join := fun _ => true; os_send := fun _ => true; os_seed := fun _ => 0 |}.
(** The multicast socket (spawned at call 3) gets a datagram after 0.499
    seconds, nothing else comes. *)
Definition slow_life (c : N) : life := fun n => if N.eqb c 3 && Nat.eqb n 0 then Round (499 * ms) 0 else Round (500 * ms) 0.
Definition slow_clock : Clock := {| clk_life := slow_life; clk_timeout := fun _ => true |}.
(** set_read_timeout fails, nothing comes. *)
Definition deaf_clock : Clock := {| clk_life := fun _ _ => Blocks; clk_timeout := fun _ => false |}.
Definition started_host (K : Clock) : tmanager :=
  TManager [TServer (Server (Socket (Some (V4 0xC0A80002, 3610)) (Some (V4 0xC0A80002, 3610))) [] false false TRunning) 0 (clk_life (Clock := K) 5)]
           [TServer (Server (Socket (Some (V4 0, 3610)) (Some (V4 0xC0A80002, 3610))) [] false false TRunning) 0 (clk_life (Clock := K) 3)].
Lemma host_starts K : exists w', manager_started (O := host_os) (K := K) (World 0 [] 0) (TManager [] []) 0 true (started_host K) w' 0.
Proof. eexists. eapply started_now; reflexivity. Qed.
Lemma host_one : at_most_addresses (O := host_os) 1. Proof. intro c. vm_compute. discriminate. Qed.
Lemma slow_punctual : punctual slow_clock.
Proof. intros c n _. cbn [clk_life slow_clock]. unfold slow_life. destruct (N.eqb c 3 && Nat.eqb n 0)%bool; unfold ms; lia. Qed.
Lemma slow_works : works_within slow_clock 0.
Proof. intros c n r w. cbn [clk_life slow_clock]. unfold slow_life. destruct (N.eqb c 3 && Nat.eqb n 0)%bool; intro H; inversion H; subst; unfold ms; lia. Qed.

(** A stop does not return within the timeout of a receive: the flags are set one
    after the other. With one address it may take nearly a second. *)
Theorem C133_stop_within_timeout_refuted : exists (O : OS) (K : Clock) w m' w' stop e, at_most_addresses 1 /\ punctual K /\ timeouts_set K /\ works_within K 0 /\
  manager_started w (TManager [] []) 0 true m' w' 0 /\ manager_stopped m' stop e /\ stop + 998 * ms < e.
Proof.
  destruct (host_starts slow_clock) as (w' & H). exists host_os, slow_clock, (World 0 [] 0), (started_host slow_clock), w', 1, (999 * ms).
  split; [apply host_one|]. split; [apply slow_punctual|]. split; [intro; reflexivity|]. split; [apply slow_works|]. split; [exact H|]. split; [|unfold ms; lia].
  eapply mstopped_all with (u := 500 * ms).
  - eapply stopped_cons with (u := 500 * ms); [|reflexivity|constructor]. exists (500 * ms). split; [|reflexivity].
    exists 1%nat, (500 * ms). split; [change (500 * ms) with (0 + 500 * ms + 0); econstructor; [constructor|reflexivity]|].
    split; [|left; split; [unfold ms; lia|reflexivity]]. intros m u L A. assert (m = 0)%nat by lia. subst. inversion A. cbn. lia.
  - reflexivity.
  - eapply stopped_cons with (u := 999 * ms); [|reflexivity|constructor]. exists (999 * ms). split; [|reflexivity].
    assert (H1 : at_head (slow_life 3) 0 1 (499 * ms)). { change (499 * ms) with (0 + 499 * ms + 0); econstructor; [constructor|reflexivity]. }
    exists 2%nat, (999 * ms). split; [change (999 * ms) with (499 * ms + 500 * ms + 0); econstructor; [exact H1|reflexivity]|].
    split; [|left; split; [unfold ms; lia|reflexivity]]. intros m u L A. destruct m as [|[|m]]; [inversion A; unfold ms; cbn; lia| |lia].
    rewrite (at_head_fun _ _ _ _ _ A H1). unfold ms. lia.
Qed.

(** Where set_read_timeout fails, the start still succeeds, and on a silent
    network a later stop does not return. *)
Theorem C133_timeout_refuted : exists (O : OS) (K : Clock) w m' w', at_most_addresses 1 /\ punctual K /\ works_within K 0 /\
  manager_started w (TManager [] []) 0 true m' w' 0 /\ manager_start w manager_new = Ret (true, untimed m', w') /\
  forall stop, 0 < stop -> forall e, ~ manager_stopped m' stop e.
Proof.
  destruct (host_starts deaf_clock) as (w' & H). exists host_os, deaf_clock, (World 0 [] 0), (started_host deaf_clock), w'.
  split; [apply host_one|]. split; [intros c n X; discriminate X|]. split; [intros c n r w X; discriminate X|]. split; [exact H|].
  split; [apply (C133_start 1 _ _ _ _ _ host_one H)|]. intros stop L e St.
  assert (X : forall u, ~ servers_stopped (tm_ucast (started_host deaf_clock)) stop u).
  { intros u S. inversion S as [|s r t e' A B|s r t v e' x A B C]; subst; [discriminate B|]. destruct A as (f & F & _). revert F.
    eapply (blocked_never _ _ 0); [constructor|reflexivity|]. intros m y Lm Am. assert (m = 0)%nat by lia. subst. inversion Am. cbn. auto. }
  inversion St; subst; eapply X; eauto.
Qed.

(** ** Cases *)
(** Every bind fails twice: the start sleeps 0.4 seconds. *)
Definition slow_os : OS := {| os_interfaces := fun _ => one_if; os_bind := fun c => N.eqb c 3 || N.eqb c 8; os_join := fun _ => true; os_send := fun _ => true; os_seed := fun _ => 0 |}.
Example C133_case_start : exists m' w', manager_started (O := slow_os) (K := slow_clock) (World 0 [] 0) (TManager [] []) 0 true m' w' (400 * ms).
Proof. do 2 eexists. eapply started_now; reflexivity. Qed.
(** No bind works. *)
Definition no_os : OS := {| os_interfaces := fun _ => one_if; os_bind := fun _ => false; os_join := fun _ => true; os_send := fun _ => true; os_seed := fun _ => 0 |}.
Example C133_case_no_start : exists w', manager_started (O := no_os) (K := slow_clock) (World 0 [] 0) (TManager [] []) 0 false (TManager [] []) w' (300 * ms).
Proof. eexists. eapply started_no_mcast; try reflexivity; [|eexists; reflexivity]. eapply mstopped_all; [constructor|reflexivity|constructor]. Qed.
Example C133_case_bind : tsocket_bind (O := no_os) (World 0 [] 0) socket_new (V4 1, 3610) 7 =
  (false, socket_new, World 3 [EvBind (V4 1, 3610) false; EvBind (V4 1, 3610) false; EvBind (V4 1, 3610) false] 0, 7 + 300 * ms).
Proof. reflexivity. Qed.

Print Assumptions C133_bind.
Print Assumptions C133_start.
Print Assumptions C133_start_failed.
Print Assumptions C133_stop.
Print Assumptions C133_stop_within_timeout_refuted.
Print Assumptions C133_timeout_refuted.
