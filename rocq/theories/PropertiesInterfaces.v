(** C101: Node::has_interface names the addresses the node serves. *)
From Verif Require Import Base HMap ModelCodec ModelMessages ModelObject ModelTransport ModelNode ModelController ModelHost ModelNetwork
  SpecWire SpecObject SpecNode SpecHost ProofsCodec ProofsCodec2 PropertiesCodec ProofsObject ProofsObject2 ProofsObject3
  PropertiesObject ProofsNode ProofsNode2 ProofsNode3 ProofsNode4 ExamplesNode PropertiesNode PropertiesTransport ProofsHistory ProofsController PropertiesController ProofsHost ProofsHost2 PropertiesHost PropertiesFrames PropertiesNetwork.

(** src/node.rs:167-169, has_interface. *)
Definition node_has_interface {U} (n : node U) (a : ipaddr) : bool := manager_has_interface (n_mgr n) a.

(** The sockets of a server for the address [a]. *)
Definition unicast_socket (a : ipaddr) (s : server) : Prop := sk_sock (sv_socket s) = Some (a, 3610).
Definition group_socket (a : ipaddr) (s : server) : Prop := sk_sock (sv_socket s) = Some (V4 0, 3610) /\ sk_ifaddr (sv_socket s) = Some (a, 3610).
(** The node has a socket for [a]. *)
Definition served {U} (n : node U) (a : ipaddr) : Prop :=
  (exists s, In s (mg_ucast (n_mgr n)) /\ unicast_socket a s) \/ (exists s, In s (mg_mcast (n_mgr n)) /\ group_socket a s).

Section S.
  Context {U : Type} {P : Profile} {HO : HashOrder} {Os : OS} {Uu : Uuids}.
  Variable db : list object.

  Definition u_ok (s : server) : Prop := exists a k, usable (os_interfaces k) a /\ sv_socket s = Socket (Some (a, 3610)) (Some (a, 3610)).
  Definition m_ok (s : server) : Prop := exists a k, usable (os_interfaces k) a /\ sv_socket s = Socket (Some (V4 0, 3610)) (Some (a, 3610)).
  Definition socks (m : manager) : Prop := Forall u_ok (mg_ucast m) /\ Forall m_ok (mg_mcast m).

  Lemma bind_socket w s a s' w' : socket_bind w s a = (true, s', w') -> s' = Socket (Some a) (Some a).
  Proof. unfold socket_bind. destruct (bind_loop _ w a) as [b w1]. destruct b; cbn [negb]; intro H; inversion H; auto. Qed.
  Lemma u_new w i ok s w' : ucast_server_bind w server_new i = (ok, s, w') -> ok = true -> sv_socket (sv_with_thread s TRunning) = Socket (Some (i, 3610)) (Some (i, 3610)).
  Proof.
    unfold ucast_server_bind. destruct i; [|intro H; inversion H; subst; discriminate]. destruct (socket_bind w _ _) as [[b k] w1] eqn:E. intro H. inversion H; subst. intros ->.
    apply bind_socket in E. cbn. exact E.
  Qed.
  Lemma m_new w i ok s w' : mcast_server_bind w server_new i = (ok, s, w') -> ok = true -> sv_socket (sv_with_thread s TRunning) = Socket (Some (V4 0, 3610)) (Some (i, 3610)).
  Proof.
    unfold mcast_server_bind. destruct (socket_bind w _ _) as [[b k] w1] eqn:E. destruct b; cbn [negb]; [|intro H; inversion H; subst; discriminate].
    apply bind_socket in E as ->. cbn [socket_join sk_sock]. intro H. inversion H; subst. intro X. cbn. reflexivity.
  Qed.
  Lemma ucast_start_socks w l ok l' w' : ucast_start w l = (ok, l', w') -> Forall u_ok l -> Forall u_ok l'.
  Proof.
    unfold ucast_start. destruct (servers_running l); [intros H; inversion H; subst; auto|]. cbn [get_all_interfaces].
    destruct (servers_start ucast_server_bind (tick w) _ l) as [l1 w2] eqn:E1. intros H F. inversion H; subst.
    apply (servers_start_spec ucast_server_bind (fun i s => sv_socket s = Socket (Some (i, 3610)) (Some (i, 3610)))) in E1 as (new & -> & N); [|exact u_new].
    apply Forall_app. split; auto. eapply Forall_impl; [|exact N]. intros s (a & I & K). apply get_interfaces_in in I. exists a, (w_calls w). auto.
  Qed.
  Lemma mcast_start_socks w l ok l' w' : mcast_start w l = (ok, l', w') -> Forall m_ok l -> Forall m_ok l'.
  Proof.
    unfold mcast_start. destruct (servers_running l); [intros H; inversion H; subst; auto|]. cbn [get_all_interfaces].
    destruct (servers_start mcast_server_bind (tick w) _ l) as [l1 w2] eqn:E1. intros H F. inversion H; subst.
    apply (servers_start_spec mcast_server_bind (fun i s => sv_socket s = Socket (Some (V4 0, 3610)) (Some (i, 3610)))) in E1 as (new & -> & N); [|exact m_new].
    apply Forall_app. split; auto. eapply Forall_impl; [|exact N]. intros s (a & I & K). apply get_interfaces_in in I. exists a, (w_calls w). auto.
  Qed.
  Lemma idle_socks m : idle m -> socks m.
  Proof. intros [A B]. unfold socks. rewrite A, B. split; constructor. Qed.
  Lemma manager_start_socks w m ok m' w' : manager_start w m = Ret (ok, m', w') -> socks m -> socks m'.
  Proof.
    unfold manager_start. destruct (manager_running m); [intros H; inversion H; subst; auto|]. intros H [Su Sm].
    destruct (mcast_start w (mg_mcast m)) as [[ok1 c] w1] eqn:E1. apply mcast_start_socks in E1; auto. cbn [mg_ucast] in H.
    assert (Stop : forall x w2, (let! x := manager_stop x in Ret (false, snd x, w2)) = Ret (ok, m', w') -> socks m').
    { intros x w2. destruct (manager_stop x) as [y|] eqn:E; cbn [obind]; [|discriminate]. intro X. inversion X; subst. apply idle_socks. destruct y as [c0 y]. exact (proj2 (C65_stop _ _ _ E)). }
    destruct ok1; cbn [negb] in H; [|eapply Stop; eauto]. destruct (ucast_start w1 (mg_ucast m)) as [[ok2 u] w2] eqn:E2. apply ucast_start_socks in E2; auto.
    destruct ok2; cbn [negb] in H; [|eapply Stop; eauto]. inversion H; subst. split; auto.
  Qed.
  Lemma servers_observer_sockets l o : forall l', servers_add_observer l o = Ret l' -> map sv_socket l' = map sv_socket l.
  Proof.
    induction l as [|s r IH]; intros l'; cbn [servers_add_observer]; [intro H; inversion H; auto|]. unfold server_add_observer. destruct (sv_poisoned s); cbn [obind]; [discriminate|].
    destruct (servers_add_observer r o) as [r'|]; cbn [obind]; [|discriminate]. intro H. inversion H; subst. cbn. rewrite (IH r' eq_refl). reflexivity.
  Qed.
  Lemma sockets_forall (Q : socket -> Prop) l l' : map sv_socket l' = map sv_socket l -> Forall (fun s => Q (sv_socket s)) l -> Forall (fun s => Q (sv_socket s)) l'.
  Proof. intros E F. apply (proj1 (Forall_map sv_socket Q l')). rewrite E. apply (proj2 (Forall_map sv_socket Q l)). exact F. Qed.
  Lemma manager_observer_socks m o m' : manager_add_observer m o = Ret m' -> socks m -> socks m'.
  Proof.
    unfold manager_add_observer. destruct (servers_add_observer (mg_ucast m) o) as [u|] eqn:E1; cbn [obind]; [|discriminate].
    destruct (servers_add_observer (mg_mcast m) o) as [c|] eqn:E2; cbn [obind]; [|discriminate]. intros H [A B]. inversion H; subst. apply servers_observer_sockets in E1, E2.
    split; cbn; [eapply (sockets_forall (fun k => exists a i, usable (os_interfaces i) a /\ k = Socket (Some (a, 3610)) (Some (a, 3610)))); eauto
                |eapply (sockets_forall (fun k => exists a i, usable (os_interfaces i) a /\ k = Socket (Some (V4 0, 3610)) (Some (a, 3610)))); eauto].
  Qed.
  Lemma manager_observers_socks l : forall m m', manager_add_observers m l = Ret m' -> socks m -> socks m'.
  Proof.
    induction l as [|o r IH]; intros m m'; cbn [manager_add_observers]; [intros H; inversion H; subst; auto|].
    destruct (manager_add_observer m o) as [m1|] eqn:E; cbn [obind]; [|discriminate]. intros H S. eapply IH; [exact H|]. eapply manager_observer_socks; eauto.
  Qed.
  Lemma node_start_socks w (n : node U) ok n' w' : node_start w n = Ret (ok, n', w') -> socks (n_mgr n) -> socks (n_mgr n').
  Proof.
    intros E S. apply node_start_spec in E as (ok1 & m1 & w1 & _ & M & A).
    assert (S1 : socks m1) by (destruct M as [(_ & _ & -> & _)|(_ & M)]; [auto|eapply manager_start_socks; eauto]).
    destruct A as [(_ & _ & -> & _)|(_ & m2 & Ob & An)]; [exact S1|]. apply announce_mgr in An as (-> & _). cbn. eapply manager_observers_socks; eauto.
  Qed.
  Lemma node_stop_socks (n : node U) ok n' : node_stop n = Ret (ok, n') -> socks (n_mgr n').
  Proof. intro E. apply idle_socks. exact (proj2 (C65_node_stop _ _ _ E)). Qed.
  Lemma set_server_socks m i s t : server_at m i = Some s -> sv_socket t = sv_socket s -> socks m -> socks (set_server m i t).
  Proof.
    intros E K [A B]. destruct i as [j|j]; cbn [server_at set_server mg_ucast mg_mcast] in *; apply nth_error_In in E; (split; cbn; [|]); auto; apply set_nth_all; auto;
      unfold u_ok, m_ok; rewrite K; [exact (proj1 (Forall_forall _ _) A s E)|exact (proj1 (Forall_forall _ _) B s E)].
  Qed.
  Lemma node_step_socks (u : U) n w op u' n' w' : op_ok op -> node_good n -> node_step (u, n, w) op = Ret (u', n', w') -> socks (n_mgr n) -> socks (n_mgr n').
  Proof.
    intros K G E S. assert (Q : quiet op -> socks (n_mgr n')) by (intro Q; destruct (quiet_step _ _ _ _ _ _ _ Q E) as [-> _]; exact S).
    destruct op; try exact (Q Logic.I); cbn [node_step] in E.
    - inversion E; subst. exact S.
    - destruct (node_start w n) as [[[ok n1] w1]|] eqn:E1; cbn [obind] in E; [|discriminate]. inversion E; subst. eapply node_start_socks; eauto.
    - destruct (node_stop n) as [[ok n1]|] eqn:E1; cbn [obind snd] in E; [|discriminate]. inversion E; subst. eapply node_stop_socks; eauto.
    - destruct (node_observe w u n m) as [[[u1 n1] w1]|] eqn:E1; cbn [obind] in E; [|discriminate]. inversion E; subst.
      destruct (observe_packets _ _ _ _ _ _ _ K G E1) as (_ & -> & _). exact S.
  Qed.
  Lemma receive_socks free (h : host U) w i d a h' w' : octets d -> node_good (h_node h) -> receive db free h w i d a = (h', w') -> socks (n_mgr (h_node h)) -> socks (n_mgr (h_node h')).
  Proof.
    intros Od G E S. unfold receive in E. destruct (h_server h i) as [s|] eqn:Es; [|inversion E; subst; auto]. unfold h_server in Es.
    destruct (sv_thread s) eqn:T; try (inversion E; subst; auto; fail).
    destruct (sv_stop s). { inversion E; subst. cbn. eapply set_server_socks; eauto. }
    destruct (msg_parse msg_new (firstn MAX_PACKET_SIZE d)) as [[[|] m]|] eqn:Ep.
    - assert (Rm : received (msg_set_from m a)) by (exists (firstn MAX_PACKET_SIZE d), m, a; split; [rewrite max_packet; apply seen_octets; auto|auto]).
      destruct (sv_poisoned s). { inversion E; subst. cbn. eapply set_server_socks; eauto. }
      destruct (notify_observers db free 0 h w (sv_observers s) (msg_set_from m a)) as [[bad h1] w1] eqn:En.
      apply notify_sends_most in En as (A & B & _); auto. destruct bad; inversion E; subst; cbn; rewrite B; auto. eapply set_server_socks; [exact Es|reflexivity|exact S].
    - inversion E; subst; auto.
    - inversion E; subst. cbn. eapply set_server_socks; eauto.
  Qed.
  Lemma host_step_socks (h : host U) w op h' w' : typed_op op -> node_good (h_node h) -> host_step db (h, w) op = Ret (h', w') -> socks (n_mgr (h_node h)) -> socks (n_mgr (h_node h')).
  Proof.
    intros K G E S. destruct op; cbn [host_step] in E; cbn [typed_op] in K.
    - destruct (h_poisoned h); [discriminate|]. destruct (node_step (h_user h, h_node h, w) op) as [[[u1 n1] w1]|] eqn:E1; cbn [obind] in E; [|discriminate].
      inversion E; subst. exact (node_step_socks _ _ _ _ _ _ _ K G E1 S).
    - destruct (h_cpoisoned h); [discriminate|]. destruct (h_poisoned h); [discriminate|]. unfold controller_search_object in E.
      destruct (node_notify w (h_node h) _) as [[[b m1] n1] w1] eqn:E1. inversion E; subst. apply node_notify_spec in E1 as (A & _). apply update_tid_keeps in A as (_ & _ & A & _). cbn. rewrite A. exact S.
    - destruct (h_cpoisoned h); [inversion E; subst; auto|]. destruct (h_poisoned h); [discriminate|]. unfold controller_send in E.
      destruct (node_send w (h_node h) _ _) as [[[b m1] n1] w1] eqn:E1. inversion E; subst. apply node_send_spec in E1 as (A & _). apply update_tid_keeps in A as (_ & _ & A & _). cbn. rewrite A. exact S.
    - destruct (h_cpoisoned h); [discriminate|]. destruct (h_poisoned h); [discriminate|]. unfold controller_post in E.
      destruct (node_post w (h_node h) _ _) as [[[b m1] n1] w1] eqn:E1. inversion E; subst. apply node_post_spec in E1 as (_ & _ & n2 & ok & tr & A & -> & _).
      apply update_tid_keeps in A as (_ & _ & A & _). cbn. rewrite A. exact S.
    - destruct (h_cpoisoned h); [discriminate|]. destruct (controller_nodes _ _) as [x|]; cbn [obind] in E; [|discriminate]. inversion E; subst; auto.
    - destruct (h_cpoisoned h); [discriminate|]. destruct (h_poisoned h); [discriminate|]. unfold controller_start in E.
      destruct (node_start w (h_node h)) as [[[ok n1] w1]|] eqn:E1; cbn [obind] in E; [|discriminate]. inversion E; subst. cbn. eapply node_start_socks; eauto.
    - destruct (h_cpoisoned h); [discriminate|]. destruct (h_poisoned h); [discriminate|]. unfold controller_stop in E.
      destruct (node_stop (h_node h)) as [[ok n1]|] eqn:E1; cbn [obind fst snd] in E; [|discriminate]. inversion E; subst. cbn. eapply node_stop_socks; eauto.
    - inversion E as [E1]. eapply receive_socks; eauto.
    - inversion E; subst. unfold receive_error. destruct (h_server h i) as [s|] eqn:Es; auto. destruct (sv_thread s); auto. cbn. eapply set_server_socks; eauto.
  Qed.
  Lemma host_run_socks ops : forall (h : host U) w h' w', Forall typed_op ops -> node_good (h_node h) -> host_run db (h, w) ops = Ret (h', w') -> socks (n_mgr (h_node h)) -> socks (n_mgr (h_node h')).
  Proof.
    induction ops as [|op r IH]; intros h w h' w' F G E S; cbn [host_run] in E; [inversion E; subst; auto|].
    destruct (host_step db (h, w) op) as [[h1 w1]|] eqn:E1; cbn [obind] in E; [|discriminate].
    eapply IH; [exact (Forall_inv_tail F)| |exact E|]; [exact (typed_good _ _ _ _ _ _ (Forall_inv F) G E1)|exact (host_step_socks _ _ _ _ _ (Forall_inv F) G E1 S)].
  Qed.

  Lemma ipaddr_eqb_true x y : ipaddr_eqb x y = true <-> x = y.
  Proof. destruct x, y; cbn; split; intro H; try discriminate; try (apply N.eqb_eq in H; subst; auto); inversion H; subst; apply N.eqb_refl. Qed.
  Lemma has_iff l a : servers_has_interface l a = true <-> exists s p, In s l /\ sk_ifaddr (sv_socket s) = Some (a, p).
  Proof.
    induction l as [|s r IH]; cbn [servers_has_interface]; [split; [discriminate|intros (s & p & [] & _)]|]. unfold server_ifaddr.
    destruct (sk_ifaddr (sv_socket s)) as [[x p]|] eqn:E; cbn [fst].
    - destruct (ipaddr_eqb x a) eqn:Q.
      + apply ipaddr_eqb_true in Q. subst. split; auto. intros _. exists s, p. split; [left|]; auto.
      + rewrite IH. split; [intros (s' & p' & I & K); exists s', p'; split; [right|]; auto|]. intros (s' & p' & [<-|I] & K); [|eauto].
        rewrite E in K. inversion K; subst. assert (ipaddr_eqb a a = true) by (apply ipaddr_eqb_true; auto). congruence.
    - rewrite IH. split; [intros (s' & p' & I & K); exists s', p'; split; [right|]; auto|]. intros (s' & p' & [<-|I] & K); [congruence|eauto].
  Qed.
  Lemma socks_has (n : node U) a : socks (n_mgr n) -> (node_has_interface n a = true <-> served n a) /\ (served n a -> exists k, usable (os_interfaces k) a).
  Proof.
    intros [A B]. unfold node_has_interface, manager_has_interface, served, unicast_socket, group_socket. rewrite Forall_forall in A, B. split.
    - assert (E : forall b c : bool, (if b then true else c) = true <-> b = true \/ c = true) by (intros [|] c; cbn; intuition). rewrite E, !has_iff. split.
      + intros [(s & p & I & K)|(s & p & I & K)].
        * right. exists s. split; auto. destruct (B s I) as (x & k & _ & S). rewrite S in *. cbn in *. inversion K; subst. auto.
        * left. exists s. split; auto. destruct (A s I) as (x & k & _ & S). rewrite S in *. cbn in *. inversion K; subst. auto.
      + intros [(s & I & K)|(s & I & _ & K)].
        * right. exists s, 3610. split; auto. destruct (A s I) as (x & k & _ & S). rewrite S in *. cbn in *. exact K.
        * left. exists s, 3610. auto.
    - intros [(s & I & K)|(s & I & _ & K)].
      + destruct (A s I) as (x & k & Hu & S). rewrite S in K. cbn in K. inversion K; subst. eauto.
      + destruct (B s I) as (x & k & Hu & S). rewrite S in K. cbn in K. inversion K; subst. eauto.
  Qed.
  Lemma new_mgr np (n0 : node U) : node_new np = Ret n0 -> n_mgr n0 = manager_new.
  Proof.
    unfold node_new. destruct (add_object_eq (Node manager_new [] TID_MIN None [] [] : node U) np) as (os & E & _). rewrite E. cbn [obind]. intro H. inversion H; subst. reflexivity.
  Qed.

  (** ** C101 *)
  (** After any calls and datagrams: has_interface is true of exactly the addresses
      for which the node has a socket, and these are addresses of interfaces. *)
  Theorem C101_exact np n0 u w ops (h : host U) w' a : obj_built np -> node_new np = Ret n0 -> Forall typed_op ops -> host_run db (host_new u n0, w) ops = Ret (h, w') ->
    (node_has_interface (h_node h) a = true <-> served (h_node h) a) /\ (node_has_interface (h_node h) a = true -> exists k, usable (os_interfaces k) a).
  Proof.
    intros Np N F E.
    assert (G0 : node_good (h_node (host_new u n0))) by (apply (node_new_good np n0); [exact (obj_ok_good np (obj_built_ok np Np))|exact N]).
    assert (S : socks (n_mgr (h_node h))).
    { eapply host_run_socks; [exact F|exact G0|exact E|]. cbn. rewrite (new_mgr _ _ N). apply idle_socks. split; reflexivity. }
    destruct (socks_has (h_node h) a S) as [A B]. split; auto. intro X. apply B, A, X.
  Qed.
  (** Before the first start and after a stop: none. *)
  Theorem C101_stopped (n : node U) a : idle (n_mgr n) -> node_has_interface n a = false.
  Proof. intros [A B]. unfold node_has_interface, manager_has_interface. rewrite A, B. reflexivity. Qed.
  Lemma sockets_in l l' s : map sv_socket l' = map sv_socket l -> In s l -> exists s', In s' l' /\ sv_socket s' = sv_socket s.
  Proof. intros E I. apply (in_map sv_socket) in I. rewrite <- E in I. apply in_map_iff in I as (s' & K & I). eauto. Qed.
  Lemma observers_sockets l : forall m m', manager_add_observers m l = Ret m' -> map sv_socket (mg_ucast m') = map sv_socket (mg_ucast m) /\ map sv_socket (mg_mcast m') = map sv_socket (mg_mcast m).
  Proof.
    induction l as [|o r IH]; intros m m'; cbn [manager_add_observers]; [intros H; inversion H; subst; auto|].
    unfold manager_add_observer. destruct (servers_add_observer (mg_ucast m) o) as [u|] eqn:E1; cbn [obind]; [|discriminate].
    destruct (servers_add_observer (mg_mcast m) o) as [c|] eqn:E2; cbn [obind]; [|discriminate]. intro H. apply servers_observer_sockets in E1, E2. apply IH in H as [A B]. cbn in A, B. split; congruence.
  Qed.
  (** When the operating system grants every bind and join, a node that was down
      has, after start, exactly the usable addresses of the host. *)
  Theorem C101_start w (n : node U) ok n' w' a : idle (n_mgr n) -> node_start w n = Ret (ok, n', w') ->
    (forall k, os_bind k = true) -> (forall k, os_join k = true) -> (forall k, os_interfaces k = os_interfaces 0) ->
    (node_has_interface n' a = true <-> usable (os_interfaces 0) a).
  Proof.
    intros Id E Hb Hj Hi. assert (S := node_start_socks _ _ _ _ _ E (idle_socks _ Id)). destruct (socks_has n' a S) as [A B]. rewrite A. split.
    - intro X. destruct (B X) as (k & Hu). rewrite Hi in Hu. exact Hu.
    - intro Hu. apply node_start_spec in E as (ok1 & m1 & w1 & _ & M & D).
      destruct M as [(Rn & _)|(_ & M)]; [rewrite (idle_running _ Id) in Rn; discriminate|]. destruct (C65_start_complete_partial _ _ _ _ _ Id M Hb Hj Hi) as [X Y].
      destruct (X a Hu) as [_ (s & I & K & _)]. unfold served, unicast_socket. destruct D as [(-> & _)|(_ & m2 & Ob & An)].
      + exfalso. assert (false = true) by (apply Y; eauto). discriminate.
      + apply announce_mgr in An as (-> & _). cbn. apply observers_sockets in Ob as [Ou _]. left. destruct (sockets_in _ _ _ Ou I) as (s' & I' & K'). exists s'. split; auto. congruence.
  Qed.
End S.

(** The node of the examples, started on a host with two interfaces of which only
    one can be bound for unicast; the group is joined on both. *)
Example C101_case : let Os := two_os (fun k => k <? 7) (fun _ => true) in
  match node_start (O := Os) w0 ex_node0 with
  | Ret (_, n, _) => (node_has_interface n (V4 0xC0A8000A), node_has_interface n (V4 0x0A000001), node_has_interface n (V4 0x7F000001))
  | Panic => (false, false, true)
  end = (true, true, false).
Proof. vm_compute. reflexivity. Qed.

Print Assumptions C101_exact.
Print Assumptions C101_stopped.
Print Assumptions C101_start.
