(** Properties of the transport: C65 to C69. *)
From Verif Require Import Base HMap ModelCodec ModelMessages ModelObject ModelTransport ModelNode
  SpecWire SpecObject SpecNode ProofsCodec ProofsCodec2 PropertiesCodec ProofsObject ProofsNode ProofsNode2 ProofsNode3 ExamplesNode.

(** ** Vocabulary *)
(** An IPv4 address of an interface that is up and neither a loopback nor a
    point-to-point interface; 172.17.0.1/16 is left out. *)
Definition usable (is : list iface) (a : ipaddr) : Prop :=
  exists i len, In i is /\ if_up i = true /\ if_loopback i = false /\ if_p2p i = false /\ In (a, len) (if_ips i) /\
    (exists x, a = V4 x) /\ ~ (a = V4 (172 * 2 ^ 24 + 17 * 2 ^ 16 + 1) /\ len = 16).
(** A server that receives what is sent to address [a]. *)
Definition serves_unicast (a : ipaddr) (s : server) : Prop :=
  sk_sock (sv_socket s) = Some (a, 3610) /\ sv_thread s = TRunning /\ sv_stop s = false.
(** A server that receives what is sent to the group on the interface of [a]. *)
Definition serves_multicast (a : ipaddr) (s : server) : Prop :=
  sk_sock (sv_socket s) = Some (V4 0, 3610) /\ sk_ifaddr (sv_socket s) = Some (a, 3610) /\
  sv_thread s = TRunning /\ sv_stop s = false.
Definition idle (m : manager) : Prop := mg_ucast m = [] /\ mg_mcast m = [].

(** ** Interfaces *)
Lemma interface_ips_in ips a : In a (interface_ips ips) <->
  exists len, In (a, len) ips /\ (exists x, a = V4 x) /\ ~ (a = V4 (172 * 2 ^ 24 + 17 * 2 ^ 16 + 1) /\ len = 16).
Proof.
  change (V4 (172 * 2 ^ 24 + 17 * 2 ^ 16 + 1)) with (V4 0xAC110001).
  induction ips as [|[b k] r IH]; cbn [interface_ips].
  - split; [intros []|intros (l & [] & _)].
  - unfold is_ignore_interface, is_v4_interface. cbn [fst snd].
    destruct b as [x|x]; cbn [ipaddr_eqb negb andb].
    + destruct (N.eqb_spec x 0xAC110001) as [->|E]; cbn [andb].
      * destruct (N.eqb_spec k 16) as [->|E2]; cbn [negb].
        -- rewrite IH. split; intros (l & I & V & D); exists l; [split; [right|]; auto|].
           destruct I as [I|I]; [inversion I; subst; exfalso; apply D; auto|auto].
        -- cbn [In]. rewrite IH. split.
           ++ intros [<-|(l & I & V & D)]; [exists k; split; [left; auto|split; [eauto|intros [_ X]; auto]]|exists l; split; [right|]; auto].
           ++ intros (l & [I|I] & V & D); [inversion I; auto|right; eauto].
      * cbn [negb In]. rewrite IH. split.
        -- intros [<-|(l & I & V & D)]; [exists k; split; [left; auto|split; [eauto|intros [X _]; inversion X; contradiction]]|exists l; split; [right|]; auto].
        -- intros (l & [I|I] & V & D); [inversion I; auto|right; eauto].
    + rewrite IH. split; intros (l & I & V & D); exists l; [split; [right|]; auto|].
      destruct I as [I|I]; [inversion I; subst; destruct V as (y & V); discriminate|auto].
Qed.
Lemma get_interfaces_in is a : In a (get_interfaces is) <-> usable is a.
Proof.
  unfold usable. induction is as [|i r IH]; cbn [get_interfaces].
  - split; [intros []|intros (i & l & [] & _)].
  - assert (X : (exists i0 len, In i0 (i :: r) /\ if_up i0 = true /\ if_loopback i0 = false /\ if_p2p i0 = false /\ In (a, len) (if_ips i0) /\
       (exists x, a = V4 x) /\ ~ (a = V4 (172 * 2 ^ 24 + 17 * 2 ^ 16 + 1) /\ len = 16)) <->
      (if_up i = true /\ if_loopback i = false /\ if_p2p i = false /\ In a (interface_ips (if_ips i))) \/ In a (get_interfaces r)).
    { rewrite IH, interface_ips_in. split.
      - intros (i0 & l & [<-|I] & H); [left; split; [tauto|]; split; [tauto|]; split; [tauto|]; exists l; tauto|right; eauto].
      - intros [(A & B & C & l & H)|(i0 & l & I & H)]; [exists i, l; split; [left; auto|tauto]|exists i0, l; split; [right; auto|auto]]. }
    rewrite X. destruct (if_up i); cbn [negb]; [|split; [tauto|intros [(A & _)|A]; [discriminate|auto]]].
    destruct (if_loopback i); cbn [orb]; [split; [tauto|intros [(_ & A & _)|A]; [discriminate|auto]]|].
    destruct (if_p2p i); [split; [tauto|intros [(_ & _ & A & _)|A]; [discriminate|auto]]|].
    destruct (if_ips i) as [|p q]; [cbn; split; [tauto|intros [(_ & _ & _ & [])|A]; auto]|]. rewrite in_app_iff. tauto.
Qed.

Section S.
  Context {U : Type} {Os : OS}.

  (** ** C67 *)
  Lemma bind_loop_spec k : forall w a ok w', bind_loop k w a = (ok, w') ->
    exists bs, since w w' (map (EvBind a) bs) /\ (length bs <= k)%nat /\ (ok = true <-> In true bs) /\ (ok = false -> length bs = k) /\
      (forall i, (i < length bs)%nat -> nth i bs false = os_bind (w_calls w + N.of_nat i)) /\ w_calls w' = w_calls w + N.of_nat (length bs).
  Proof.
    induction k as [|k IH]; intros w a ok w'; cbn [bind_loop].
    - intro H. inversion H; subst. exists []. split; [apply since_refl|]. cbn. split; [lia|]. split; [split; [discriminate|tauto]|].
      split; auto. split; [intros i Hi; lia|lia].
    - destruct (os_bind (w_calls w)) eqn:E.
      + intro H. inversion H; subst. exists [true]. split; [apply since_log|]. cbn. split; [lia|]. split; [tauto|]. split; [discriminate|].
        split; [|lia]. intros i Hi. assert (i = 0)%nat by lia. subst. rewrite N.add_0_r. auto.
      + intro H. apply IH in H as (bs & S & L & T & F & A & C). exists (false :: bs). split; [change (map (EvBind a) (false :: bs)) with ([EvBind a false] ++ map (EvBind a) bs); eapply since_trans; [apply since_log|exact S]|].
        cbn [length]. split; [lia|]. split; [rewrite T; cbn [In]; split; [auto|intros [X|X]; [discriminate|auto]]|]. split; [intro X; rewrite F; auto|].
        split; [|cbn in C; lia]. intros [|i] Hi; cbn [nth]; [rewrite N.add_0_r; auto|]. rewrite A by lia. cbn. f_equal. lia.
  Qed.
  (** Binding is attempted once, and at most twice more; it succeeds exactly
      when an attempt succeeds, and is given up only after three attempts. *)
  Theorem C67_retries : forall w s a ok s' w', socket_bind w s a = (ok, s', w') ->
    exists answers, since w w' (map (EvBind a) answers) /\ (1 <= length answers <= 3)%nat /\
      (forall i, (i < length answers)%nat -> nth i answers false = os_bind (w_calls w + N.of_nat i)) /\
      (ok = true <-> In true answers) /\ (ok = false -> length answers = 3%nat) /\
      (ok = true -> sk_sock s' = Some a) /\ (ok = false -> s' = s).
  Proof.
    intros w s a ok s' w'. unfold socket_bind. destruct (bind_loop UDP_SOCKET_BIND_RETRY_MAX w a) as [b w1] eqn:E.
    apply bind_loop_spec in E as (bs & S & L & T & F & A & _). unfold UDP_SOCKET_BIND_RETRY_MAX in *.
    assert (N1 : (1 <= length bs)%nat).
    { destruct b; [destruct bs; [cbn in T; tauto|cbn; lia]|rewrite F; auto]. }
    destruct b; cbn [negb]; intro H; inversion H; subst; exists bs; (split; [auto|]); (split; [lia|]); (split; [auto|]); (split; [auto|]); split; auto; split; auto; discriminate.
  Qed.

  (** ** C68 *)
  Lemma ucast_offers to m l : forall w ok w' tr, ucast_send w l to m = (ok, w') -> since w w' tr -> (length (offered tr) <= length l)%nat.
  Proof.
    induction l as [|s r IH]; intros w ok w' tr; cbn [ucast_send].
    - intros H S. inversion H; subst. rewrite (since_unique _ _ _ _ S (since_refl w')). cbn. lia.
    - unfold ucast_server_send, socket_send_to. destruct (sk_sock (sv_socket s)) as [x|].
      + destruct (os_send (w_calls w)); intros H S.
        * inversion H; subst. rewrite (since_unique _ _ _ _ S (since_log w _)). cbn. lia.
        * destruct (ucast_trace _ _ _ _ _ _ H) as (t & A & _). rewrite (since_unique _ _ _ _ S (since_trans _ _ _ _ _ (since_log w _) A)).
          cbn [app offered length]. apply le_n_S. eapply IH; eauto.
      + intros H S. cbn [length]. apply (IH _ _ _ _ H) in S. lia.
  Qed.
  (** The datagram is the encoded message; it is offered at most once per
      interface and accepted at most once, and the result says whether it was. *)
  Theorem C68_send : forall w (n : node U) to m ok m' n' w', node_send w n to m = (ok, m', n', w') ->
    (msg_tid m <> 0 -> m' = m) /\ (exists t, m' = m \/ m' = msg_set_tid m t) /\
    exists tr, since w w' tr /\ Forall (eq (to, msg_bytes m')) (offered tr) /\
      (length (offered tr) <= length (mg_ucast (n_mgr n)))%nat /\
      sent tr = (if ok then [(to, msg_bytes m')] else []) /\ deliveries tr = [].
  Proof.
    intros w n to m ok m' n' w' E. pose proof E as E0. apply node_send_spec in E as (A & tr & S & _ & D & F & T).
    split; [intro H; apply update_tid_spec in A as [(_ & _ & ->)|(Z & _)]; [auto|contradiction]|].
    split; [apply update_tid_spec in A as [(_ & _ & ->)|(_ & _ & ->)]; [exists 0; auto|eauto]|].
    exists tr. split; auto. split; auto. split; auto.
    unfold node_send in E0. rewrite A in E0. destruct (manager_send w (n_mgr n') to m') as [b w1] eqn:E1. inversion E0; subst.
    apply update_tid_keeps in A as (_ & _ & M & _). rewrite <- M. eapply ucast_offers; eauto.
  Qed.
  (** The same for the operating system's view: it is accepted if a bound server
      exists and the system accepts whatever it is offered. *)
  Theorem C68_send_possible : forall w (n : node U) to m ok m' n' w' s, node_send w n to m = (ok, m', n', w') ->
    (forall k, os_send k = true) -> In s (mg_ucast (n_mgr n)) -> sk_sock (sv_socket s) <> None -> ok = true.
  Proof.
    intros w n to m ok m' n' w' s E A. unfold node_send in E. destruct (update_tid n m) as [n1 m1] eqn:E0.
    apply update_tid_keeps in E0 as (_ & _ & M & _). destruct (manager_send w (n_mgr n1) to m1) as [b w1] eqn:E1. inversion E; subst.
    rewrite <- M. unfold manager_send in E1. clear E M. revert w E1. induction (mg_ucast (n_mgr n')) as [|x r IH]; intros w E1 I Q; [destruct I|].
    cbn [ucast_send] in E1. unfold ucast_server_send, socket_send_to in E1. destruct (sk_sock (sv_socket x)) as [y|] eqn:Ey.
    - rewrite A in E1. inversion E1. auto.
    - destruct I as [->|I]; [contradiction|]. eapply IH; eauto.
  Qed.

  (** ** C69 *)
  Theorem C69_notify_partial : forall w (n : node U) m ok m' n' w', node_notify w n m = (ok, m', n', w') ->
    exists tr k, since w w' tr /\ Forall (eq (group, msg_bytes m')) (offered tr) /\ sent tr = repeat (group, msg_bytes m') k /\
      (ok = true -> k = length (mg_mcast (n_mgr n))) /\ (ok = false -> (k < length (mg_mcast (n_mgr n)))%nat) /\
      (ok = true -> mg_mcast (n_mgr n) <> [] -> sent tr <> []).
  Proof.
    intros w n m ok m' n' w' E. apply node_notify_spec in E as (_ & tr & k & S & _ & _ & F & T & _ & K1 & K2).
    exists tr, k. split; auto. split; auto. split; auto. split; auto. split; auto. intros A B. rewrite T, (K1 A).
    destruct (mg_mcast (n_mgr n)); [contradiction|discriminate].
  Qed.
  (** Without an interface notify reports success and transmits nothing. *)
  Theorem C69_no_interface_refuted : forall w (n : node U) m, mg_mcast (n_mgr n) = [] ->
    exists m' n', node_notify w n m = (true, m', n', w).
  Proof.
    intros w n m E. unfold node_notify. destruct (update_tid n m) as [n1 m1] eqn:E0. apply update_tid_keeps in E0 as (_ & _ & M & _).
    unfold manager_notify. rewrite M, E. cbn. eauto.
  Qed.

  (** ** C65 *)
  Lemma ucast_bind_spec w i ok s w' : ucast_server_bind w server_new i = (ok, s, w') -> ok = true ->
    sk_sock (sv_socket s) = Some (i, 3610) /\ sv_stop s = false.
  Proof.
    intros E X. unfold ucast_server_bind in E. destruct i as [x|x]; [|inversion E; subst; discriminate].
    destruct (socket_bind w (sv_socket server_new) (V4 x, PORT)) as [[b k] w1] eqn:E1. inversion E; subst.
    apply C67_retries in E1 as (_ & _ & _ & _ & _ & _ & K & _). cbn. rewrite K by auto. auto.
  Qed.
  Lemma mcast_bind_spec w i ok s w' : mcast_server_bind w server_new i = (ok, s, w') -> ok = true ->
    sk_sock (sv_socket s) = Some (V4 0, 3610) /\ sk_ifaddr (sv_socket s) = Some (i, 3610) /\ sv_stop s = false.
  Proof.
    intros E X. unfold mcast_server_bind in E. destruct (socket_bind w (sv_socket server_new) (V4 0, PORT)) as [[b k] w1] eqn:E1.
    destruct b; cbn [negb] in E; [|inversion E; subst; discriminate].
    apply C67_retries in E1 as (_ & _ & _ & _ & _ & _ & K & _). specialize (K eq_refl).
    unfold socket_join in E. rewrite K in E. inversion E; subst. cbn. auto.
  Qed.
  Lemma servers_start_spec (bind : world -> server -> ipaddr -> bool * server * world) (good : ipaddr -> server -> Prop) :
    (forall w i ok s w', bind w server_new i = (ok, s, w') -> ok = true -> good i (sv_with_thread s TRunning)) ->
    forall ifs w l l' w', servers_start bind w ifs l = (l', w') ->
    exists new, l' = l ++ new /\ Forall (fun s => exists a, In a ifs /\ good a s) new.
  Proof.
    intros B. induction ifs as [|i r IH]; intros w l l' w'; cbn [servers_start].
    - intro H. inversion H; subst. exists []. rewrite app_nil_r. auto.
    - destruct (bind w server_new i) as [[ok s] w1] eqn:E. destruct ok; cbn [negb server_start].
      + intro H. apply IH in H as (new & -> & F). exists (sv_with_thread s TRunning :: new). rewrite <- app_assoc. split; auto. constructor.
        * exists i. split; [left; auto|]. eapply B; eauto.
        * eapply Forall_impl; [|exact F]. intros x (a & I & G). exists a. split; [right|]; auto.
      + intro H. apply IH in H as (new & -> & F). exists new. split; auto.
        eapply Forall_impl; [|exact F]. intros x (a & I & G). exists a. split; [right|]; auto.
  Qed.
  Lemma servers_start_all (bind : world -> server -> ipaddr -> bool * server * world) (good : ipaddr -> server -> Prop) :
    (forall w i ok s w', bind w server_new i = (ok, s, w') -> ok = true -> good i (sv_with_thread s TRunning)) ->
    forall ifs, (forall w i, In i ifs -> exists s w', bind w server_new i = (true, s, w')) ->
    forall w l l' w', servers_start bind w ifs l = (l', w') -> exists new, l' = l ++ new /\ Forall2 good ifs new.
  Proof.
    intros B. induction ifs as [|i r IH]; intros A w l l' w'; cbn [servers_start].
    - intro H. inversion H; subst. exists []. rewrite app_nil_r. auto.
    - destruct (A w i) as (s & w1 & E); [left; auto|]. rewrite E. cbn [negb server_start].
      intro H. apply IH in H as (new & -> & F); [|intros; apply A; right; auto]. exists (sv_with_thread s TRunning :: new). rewrite <- app_assoc. split; auto.
      constructor; auto. eapply B; eauto.
  Qed.
  Lemma good_u w i ok s w' : ucast_server_bind w server_new i = (ok, s, w') -> ok = true -> serves_unicast i (sv_with_thread s TRunning).
  Proof. intros E X. apply ucast_bind_spec in E as [A B]; auto. split; auto. Qed.
  Lemma good_m w i ok s w' : mcast_server_bind w server_new i = (ok, s, w') -> ok = true -> serves_multicast i (sv_with_thread s TRunning).
  Proof. intros E X. apply mcast_bind_spec in E as (A & B & C); auto. split; auto. Qed.
  Lemma idle_running m : idle m -> manager_running m = false.
  Proof. intros [A B]. unfold manager_running, servers_running. rewrite B. reflexivity. Qed.
  Lemma servers_stop_empty l : forall b x, servers_stop l b = Ret x -> fst x = b /\ snd x = [].
  Proof.
    induction l as [|s r IH]; intros b x; cbn [servers_stop]; [intro H; inversion H; auto|].
    destruct (server_stop s) as [y|] eqn:Es; cbn [obind]; [|discriminate]. intro H. apply IH in H as [-> H]. split; auto.
    unfold server_stop in Es. destruct (sv_thread s); inversion Es; reflexivity.
  Qed.
  Theorem C65_stop : forall m ok m', manager_stop m = Ret (ok, m') -> ok = true /\ idle m'.
  Proof.
    intros m ok m'. unfold manager_stop. destruct (servers_stop (mg_ucast m) true) as [u|] eqn:E1; cbn [obind]; [|discriminate].
    destruct (servers_stop (mg_mcast m) true) as [c|] eqn:E2; cbn [obind]; [|discriminate]. intro H. inversion H; subst.
    apply servers_stop_empty in E1 as [-> E1]. apply servers_stop_empty in E2 as [-> E2]. repeat split; auto.
  Qed.
  Theorem C65_node_stop : forall (n : node U) ok n', node_stop n = Ret (ok, n') -> ok = true /\ idle (n_mgr n').
  Proof.
    intros n ok n'. unfold node_stop. destruct (manager_stop _) as [[b m]|] eqn:E; cbn [obind]; [|discriminate].
    intro H. inversion H; subst. cbn. eapply C65_stop; eauto.
  Qed.
  (** A successful start: there are servers of both kinds, and each of them is
      bound, receiving, and belongs to a usable address. *)
  Theorem C65_start_partial : forall w m m' w', idle m -> manager_start w m = Ret (true, m', w') ->
    mg_ucast m' <> [] /\ mg_mcast m' <> [] /\
    (forall s, In s (mg_mcast m') -> exists a k, usable (os_interfaces k) a /\ serves_multicast a s) /\
    (forall s, In s (mg_ucast m') -> exists a k, usable (os_interfaces k) a /\ serves_unicast a s).
  Proof.
    intros w m m' w' I. unfold manager_start. rewrite idle_running by auto. destruct I as [I1 I2].
    unfold mcast_start, ucast_start. rewrite I1, I2. cbn [servers_running length Nat.eqb get_all_interfaces].
    destruct (servers_start mcast_server_bind (tick w) (get_interfaces (os_interfaces (w_calls w))) []) as [c w1] eqn:E1.
    destruct c as [|c0 cr]; cbn [length Nat.eqb negb].
    { destruct (manager_stop _); cbn [obind]; intro H; inversion H. }
    cbn [mg_ucast servers_running length Nat.eqb get_all_interfaces].
    destruct (servers_start ucast_server_bind (tick w1) (get_interfaces (os_interfaces (w_calls w1))) []) as [u w2] eqn:E2.
    destruct u as [|u0 ur]; cbn [length Nat.eqb negb].
    { destruct (manager_stop _); cbn [obind]; intro H; inversion H. }
    intro H. inversion H; subst. cbn [mg_ucast mg_mcast]. split; [discriminate|]. split; [discriminate|].
    apply (servers_start_spec _ _ good_m) in E1 as (n1 & -> & F1). apply (servers_start_spec _ _ good_u) in E2 as (n2 & -> & F2). cbn [app].
    split; intros s Is; [apply (proj1 (Forall_forall _ _) F1) in Is as (a & Ia & G)|apply (proj1 (Forall_forall _ _) F2) in Is as (a & Ia & G)];
      apply get_interfaces_in in Ia; eauto.
  Qed.
  Lemma interface_v4 is i : In i (get_interfaces is) -> exists x, i = V4 x.
  Proof. intro I. apply get_interfaces_in in I as (? & ? & _ & _ & _ & _ & _ & H & _). auto. Qed.
  Lemma bind_ok a : (forall k, os_bind k = true) -> forall w s, exists w', socket_bind w s a = (true, Socket (Some a) (Some a), w').
  Proof. intros A w s. unfold socket_bind, UDP_SOCKET_BIND_RETRY_MAX. cbn [bind_loop]. rewrite A. cbn. eauto. Qed.
  (** If the operating system grants every bind and join, every usable address
      gets a server of each kind. *)
  Theorem C65_start_complete_partial : forall w m ok m' w', idle m -> manager_start w m = Ret (ok, m', w') ->
    (forall k, os_bind k = true) -> (forall k, os_join k = true) -> (forall k, os_interfaces k = os_interfaces 0) ->
    (forall a, usable (os_interfaces 0) a -> (exists s, In s (mg_mcast m') /\ serves_multicast a s) /\
                                             (exists s, In s (mg_ucast m') /\ serves_unicast a s)) /\
    (ok = true <-> exists a, usable (os_interfaces 0) a).
  Proof.
    intros w m ok m' w' I E Hb Hj Hi. unfold manager_start in E. rewrite idle_running in E by auto. destruct I as [I1 I2].
    unfold mcast_start, ucast_start in E. rewrite I1, I2 in E. cbn [servers_running length Nat.eqb get_all_interfaces] in E. rewrite !Hi in E.
    destruct (servers_start mcast_server_bind (tick w) (get_interfaces (os_interfaces 0)) []) as [c w1] eqn:E1.
    assert (A1 : forall w i, In i (get_interfaces (os_interfaces 0)) -> exists s w', mcast_server_bind w server_new i = (true, s, w')).
    { intros v i _. unfold mcast_server_bind. destruct (bind_ok (V4 0, PORT) Hb v (sv_socket server_new)) as (v' & ->). cbn [negb].
      unfold socket_join. cbn [sk_sock]. rewrite Hj. eauto. }
    assert (A2 : forall w i, In i (get_interfaces (os_interfaces 0)) -> exists s w', ucast_server_bind w server_new i = (true, s, w')).
    { intros v i Ii. destruct (interface_v4 _ _ Ii) as (x & ->). unfold ucast_server_bind. destruct (bind_ok (V4 x, PORT) Hb v (sv_socket server_new)) as (v' & ->). eauto. }
    apply (servers_start_all _ _ good_m _ A1) in E1 as (n1 & -> & F1). cbn [app] in E.
    assert (G : forall P (is : list ipaddr) (l : list server) a, Forall2 P is l -> In a is -> exists s, In s l /\ P a s).
    { clear. intros P is l a F. induction F; [intros []|]. intros [<-|I]; [exists y; split; [left|]; auto|]. destruct (IHF I) as (s & A & B). exists s. split; [right|]; auto. }
    destruct n1 as [|c0 cr]; cbn [length Nat.eqb negb] in E.
    - inversion F1 as [X|]. rewrite <- X in *. destruct (manager_stop _) as [y|]; cbn [obind] in E; inversion E; subst.
      split; [intros a Ua; apply get_interfaces_in in Ua; rewrite <- X in Ua; destruct Ua|].
      split; [discriminate|intros (a & Ua); apply get_interfaces_in in Ua; rewrite <- X in Ua; destruct Ua].
    - cbn [mg_ucast servers_running length Nat.eqb get_all_interfaces] in E. rewrite Hi in E. destruct (servers_start ucast_server_bind (tick w1) (get_interfaces (os_interfaces 0)) []) as [u w2] eqn:E2.
      apply (servers_start_all _ _ good_u _ A2) in E2 as (n2 & -> & F2). cbn [app] in E.
      destruct n2 as [|u0 ur]; [inversion F2 as [X|]; rewrite <- X in F1; inversion F1|]. cbn [length Nat.eqb negb] in E.
      inversion E; subst. cbn [mg_mcast mg_ucast]. split.
      + intros a Ua. apply get_interfaces_in in Ua. split; [eapply G; [exact F1|auto]|eapply G; [exact F2|auto]].
      + split; auto. intros _. inversion F1 as [|x y l1 l2 _ _ E3 E4]. exists x. apply get_interfaces_in. rewrite <- E3. left. auto.
  Qed.

  (** ** C66 *)
  Theorem C66_transport_partial : forall w m m' w', manager_start w m = Ret (false, m', w') -> idle m'.
  Proof.
    intros w m m' w'. unfold manager_start. destruct (manager_running m); [discriminate|].
    destruct (mcast_start w (mg_mcast m)) as [[b c] w1]. destruct b; cbn [negb mg_ucast].
    - destruct (ucast_start w1 (mg_ucast m)) as [[b u] w2]. destruct b; cbn [negb]; [discriminate|].
      destruct (manager_stop _) as [[y m1]|] eqn:E; cbn [obind]; intro H; inversion H; subst. eapply C65_stop; eauto.
    - destruct (manager_stop _) as [[y m1]|] eqn:E; cbn [obind]; intro H; inversion H; subst. eapply C65_stop; eauto.
  Qed.
  Lemma add_observer_socks o l : forall l', servers_add_observer l o = Ret l' -> map (fun s => sk_sock (sv_socket s)) l' = map (fun s => sk_sock (sv_socket s)) l.
  Proof.
    induction l as [|s r IH]; intros l'; cbn [servers_add_observer]; [intro H; inversion H; auto|].
    unfold server_add_observer. destruct (sv_poisoned s); cbn [obind]; [discriminate|].
    destruct (servers_add_observer r o) as [r'|]; cbn [obind]; [|discriminate]. intro H. inversion H; subst. cbn. f_equal. auto.
  Qed.
  Lemma add_observers_socks l : forall m m', manager_add_observers m l = Ret m' ->
    map (fun s => sk_sock (sv_socket s)) (mg_mcast m') = map (fun s => sk_sock (sv_socket s)) (mg_mcast m).
  Proof.
    induction l as [|o r IH]; intros m m'; cbn [manager_add_observers]; [intro H; inversion H; auto|].
    unfold manager_add_observer. destruct (servers_add_observer (mg_ucast m) o) as [u|]; cbn [obind]; [|discriminate].
    destruct (servers_add_observer (mg_mcast m) o) as [c|] eqn:E; cbn [obind]; [|discriminate]. intro H. apply IH in H. rewrite H. cbn.
    eapply add_observer_socks; eauto.
  Qed.
  Lemma notify_refused m l : forall w w', mcast_notify w l m = (false, w') -> (forall s, In s l -> sk_sock (sv_socket s) <> None) ->
    exists tr a, since w w' tr /\ In (EvSend a group (msg_bytes m) false) tr.
  Proof.
    induction l as [|s r IH]; intros w w'; cbn [mcast_notify]; [discriminate|].
    unfold mcast_server_notify, socket_send_to. destruct (sk_sock (sv_socket s)) as [a|] eqn:Es; [|intros _ H; exfalso; apply (H s); [left|]; auto].
    destruct (os_send (w_calls w)) eqn:E; cbn [negb]; intros H B.
    - apply IH in H as (tr & b & S & I); [|intros; apply B; right; auto]. eexists. exists b. split; [eapply since_trans; [apply since_log|exact S]|]. right. exact I.
    - inversion H; subst. eexists. exists a. split; [apply since_log|left; reflexivity].
  Qed.
  (** If Node::start of a stopped node returns false, nothing is running, unless
      the operating system refused to send an announcement, or the node has
      nothing to announce. *)
  Theorem C66_node_partial : forall w (n n' : node U) w', idle (n_mgr n) -> node_start w n = Ret (false, n', w') ->
    idle (n_mgr n') \/
    (exists tr a d, since w w' tr /\ In (EvSend a group d false) tr) \/
    (forall o, find_object (n_objects n') 0x0EF001 = Some o -> object_find_property o 0xD5 = None).
  Proof.
    intros w n n' w' I E. apply node_start_spec in E as (ok1 & m1 & w1 & Q & M & [(-> & _ & -> & _)|(-> & m2 & Ob & A)]).
    - rewrite idle_running in M by auto. destruct M as [(M & _)|(_ & M)]; [discriminate|]. left. cbn. eapply C66_transport_partial; eauto.
    - right. rewrite idle_running in M by auto. destruct M as [(M & _)|(_ & M)]; [discriminate|].
      apply C65_start_partial in M as (_ & _ & Bd & _); auto.
      match type of A with node_announce _ ?x = _ => remember x as n2 eqn:En2 end.
      assert (Mg : n_mgr n2 = m2) by (subst; reflexivity). clear En2. unfold node_announce in A.
      destruct (find_object (n_objects n2) NODE_PROFILE_OBJECT_CODE) as [o|] eqn:Eo.
      2:{ inversion A; subst. right. intros o Ho. unfold NODE_PROFILE_OBJECT_CODE in Eo. rewrite Eo in Ho. discriminate. }
      destruct (object_find_property o NP_INSTANCE_LIST_NOTIFICATION) as [p|] eqn:Ep.
      2:{ inversion A; subst. right. intros o' Ho. unfold NODE_PROFILE_OBJECT_CODE in Eo. rewrite Eo in Ho. inversion Ho; subst. exact Ep. }
      left. unfold node_notify in A. destruct (update_tid n2 (announce_message o p)) as [n3 mm] eqn:Eu. apply update_tid_keeps in Eu as (_ & _ & Mg2 & _).
      destruct (manager_notify w1 (n_mgr n3) mm) as [b w2] eqn:Em. inversion A; subst.
      unfold manager_notify in Em. rewrite Mg2 in Em. apply notify_refused in Em as (tr & a & S & In1).
      + destruct Q as (_ & t0 & S0 & _). exists (t0 ++ tr), a, (msg_bytes mm). split; [eapply since_trans; eauto|]. apply in_app_iff. auto.
      + intros s Is Hs. apply add_observers_socks in Ob. assert (X : In None (map (fun s => sk_sock (sv_socket s)) (mg_mcast m1))).
        { rewrite <- Ob, <- Hs. apply in_map with (f := fun s => sk_sock (sv_socket s)). auto. }
        apply in_map_iff in X as (y & Ny & Iy). destruct (Bd y Iy) as (a & k & _ & G & _). rewrite G in Ny. discriminate.
  Qed.
End S.
Print Assumptions C65_start_partial.
Print Assumptions C65_start_complete_partial.
Print Assumptions C65_stop.
Print Assumptions C66_transport_partial.
Print Assumptions C66_node_partial.
Print Assumptions C67_retries.
Print Assumptions C68_send.
Print Assumptions C68_send_possible.
Print Assumptions C69_notify_partial.
Print Assumptions C69_no_interface_refuted.

(** ** Cases and refutations *)
(** Two interfaces; the answers to bind and send are given by call number. *)
Definition two_os (bind send : N -> bool) : OS := {|
  os_interfaces := fun _ => [Iface true false false [(V4 0xC0A8000A, 24)]; Iface true false false [(V4 0x0A000001, 8)]];
  os_bind := bind; os_join := fun _ => true; os_send := send; os_seed := fun k => k |}.
Definition started (Os : OS) : bool * manager * world := the (false, manager_new, w0) (manager_start w0 manager_new).
Definition addrs (l : list server) : list (option sockaddr) := map (fun s => sk_sock (sv_socket s)) l.

(** Binding to the second address fails three times: start still returns true. *)
Theorem C65_missing_interface_refuted : exists Os : OS, exists m w, manager_start w0 manager_new = Ret (true, m, w) /\
  usable (os_interfaces 0) (V4 0x0A000001) /\ forall s, In s (mg_ucast m) -> ~ serves_unicast (V4 0x0A000001) s.
Proof.
  exists (two_os (fun k => k <? 7) (fun _ => true)). eexists. eexists. split; [vm_compute; reflexivity|]. split.
  - exists (Iface true false false [(V4 0x0A000001, 8)]), 8. cbn. repeat split; auto; [eexists; reflexivity|]. intros [X _]. discriminate.
  - intros s. cbn [mg_ucast In]. intros [<-|[]] (E & _). discriminate.
Qed.
Example C65_case : let '(ok, m, w) := started (two_os (fun _ => true) (fun _ => true)) in
  ok = true /\ addrs (mg_ucast m) = [Some (V4 0xC0A8000A, 3610); Some (V4 0x0A000001, 3610)] /\ length (mg_mcast m) = 2%nat /\
  manager_stop m = Ret (true, Manager [] []).
Proof. vm_compute. auto. Qed.
(** The announcement is refused: start returns false and the servers run. *)
Theorem C66_running_refuted : exists Os : OS, exists (n' : node unit) w', node_start w0 ex_node0 = Ret (false, n', w') /\
  manager_running (n_mgr n') = true /\ exists s, In s (mg_ucast (n_mgr n')) /\ serves_unicast (V4 0xC0A8000A) s.
Proof.
  exists (two_os (fun _ => true) (fun _ => false)). eexists. eexists. split; [vm_compute; reflexivity|]. split; [vm_compute; reflexivity|].
  eexists. split; [left; reflexivity|]. repeat split.
Qed.
Example C66_case : let Os := two_os (fun _ => false) (fun _ => true) in
  exists (n' : node unit) w', node_start w0 ex_node0 = Ret (false, n', w') /\ idle (n_mgr n') /\ length (w_trace w') = 6%nat.
Proof. cbv zeta. eexists. eexists. split; [vm_compute; reflexivity|]. split; [split; reflexivity|reflexivity]. Qed.
Example C67_case : let Os := two_os (fun k => k =? 2) (fun _ => true) in
  let a := (V4 0xC0A8000A, 3610) in exists w', socket_bind w0 socket_new a = (true, Socket (Some a) (Some a), w') /\
  w_trace w' = [EvBind a false; EvBind a false; EvBind a true].
Proof. cbv zeta. eexists. split; vm_compute; reflexivity. Qed.
Definition two_node (Os : OS) : node unit := n_with_mgr ex_node0 (snd (fst (started Os))).
(** The first socket refuses, the second one transmits. *)
Example C68_case : let Os := two_os (fun _ => true) (fun k => negb (k =? 0)) in
  exists m' n' w', node_send w0 (two_node Os) peer search_message = (true, m', n', w') /\
  length (offered (w_trace w')) = 2%nat /\ sent (w_trace w') = [(peer, [0x10; 0x81; 0; 1; 0x0E; 0xF0; 1; 0x0E; 0xF0; 1; 0x62; 1; 0xD6; 0])].
Proof. cbv zeta. do 3 eexists. split; [vm_compute; reflexivity|]. split; vm_compute; reflexivity. Qed.
(** The first interface refuses: the second one is not tried. *)
Theorem C69_skipped_refuted : exists Os : OS, exists m' n' w', node_notify w0 (two_node Os) search_message = (false, m', n', w') /\
  length (mg_mcast (n_mgr (two_node Os))) = 2%nat /\ length (offered (w_trace w')) = 1%nat /\ sent (w_trace w') = [] /\
  os_send 1 = true.
Proof.
  exists (two_os (fun _ => true) (fun k => negb (k =? 0))). do 3 eexists. split; [vm_compute; reflexivity|].
  split; [vm_compute; reflexivity|]. split; [vm_compute; reflexivity|]. split; vm_compute; reflexivity.
Qed.
Example C69_case : let Os := two_os (fun _ => true) (fun _ => true) in
  exists m' n' w', node_notify w0 (two_node Os) search_message = (true, m', n', w') /\ length (sent (w_trace w')) = 2%nat.
Proof. cbv zeta. do 3 eexists. split; vm_compute; reflexivity. Qed.
Print Assumptions C65_missing_interface_refuted.
Print Assumptions C66_running_refuted.
Print Assumptions C69_skipped_refuted.
