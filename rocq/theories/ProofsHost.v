(** Executions of a process: which calls return, what is received. *)
From Verif Require Import Base HMap ModelCodec ModelMessages DbTable ModelObject ModelTransport ModelNode ModelController ModelHost
  SpecWire SpecObject SpecNode SpecHost ProofsCodec ProofsCodec2 PropertiesCodec ProofsObject ProofsObject2 ProofsObject3
  PropertiesObject PropertiesDb ProofsDevice ProofsNode ProofsNode2 ProofsNode3 ProofsNode4 PropertiesNode PropertiesTrans
  PropertiesProfile PropertiesTransport ProofsExchange ProofsController ProofsHistory.

(** ** One response *)
Section One.
  Context {U : Type} {P : Profile} {HO : HashOrder} {Os : OS}.
  (** A node answers a request 0x61, 0x62 or 0x6E to one of its objects with one
      datagram. *)
  Lemma answers_once w (u : U) n m u' n' w' o : rcvd m -> In (m_esv m) [0x61; 0x62; 0x6E] -> addressed (n_objects n) (msg_deoj m) o ->
    node_observe w u n m = Ret (u', n', w') ->
    exists tr data (ok : bool), since w w' tr /\ deliveries tr = [] /\
      Forall (eq ((fst (msg_from m), 3610), data)) (offered tr) /\
      sent tr = (if ok then [((fst (msg_from m), 3610), data)] else []) /\
      ((forall k, os_send k = true) -> (exists s, In s (mg_ucast (n_mgr n)) /\ sk_sock (sv_socket s) <> None) -> ok = true) /\
      n_mgr n' = n_mgr n /\ n_observers n' = n_observers n.
  Proof.
    intros R Es A E. pose proof R as [W L B].
    assert (Q : request_service (m_esv m)) by (unfold request_service; cbn in *; intuition).
    rewrite observe_eq in E.
    assert (D0 : deliver w n m = Ret (n, w)).
    { unfold deliver, is_last_message_response. apply request_service_spec in Q. unfold msg_esv. rewrite Q. reflexivity. }
    rewrite D0 in E. cbn [obind] in E.
    destruct (node_message_received (os_seed (w_calls w)) u n m) as [[[u1 n1] res]|] eqn:E1; cbn [obind] in E; [|discriminate].
    destruct (respond (tick w) n1 m res) as [n2 w2] eqn:E2. inversion E; subst u1 n2 w2. clear E.
    apply handled_spec in E1.
    assert (X : n_mgr n1 = n_mgr n /\ n_observers n1 = n_observers n /\
      exists e ps ss gs, res = Some (resp m e ps ss gs) /\ In e [0x71; 0x72; 0x7E; 0x51; 0x52; 0x5E]).
    { destruct (failure_eq m W Q) as (e & Fe & Re).
      assert (Ie : In e [0x71; 0x72; 0x7E; 0x51; 0x52; 0x5E]).
      { cbn in Es. destruct Es as [X|[X|[X|[]]]]; rewrite <- X in Fe; inversion Fe; cbn; auto 10. }
      inversion E1 as [N|o0 _ Ao V|o0 copy u1 copy' _ Ao V C1 D1|pre o0 post copy u1 copy' _ Eo Ec Fp V C1 D1 Eu En Er]; subst.
      - exfalso. destruct N as [N|N]; [|tauto]. eapply addressed_not_owned; eauto.
      - split; auto. split; auto. rewrite Re. eauto 10.
      - split; auto. split; auto. rewrite Re. eauto 10.
      - split; auto. split; auto. destruct (success_eq o0 (answered o0 m copy') m W B Q V (answered_shape o0 m copy')) as [[X _]|(e' & ps & ss & gs & S1 & Em & _)].
        + exfalso. cbn in Es. rewrite X in Es. intuition discriminate.
        + rewrite Em. exists e', ps, ss, gs. split; auto. cbn in Es. destruct Es as [X|[X|[X|[]]]]; rewrite <- X in S1; inversion S1; cbn; auto 10. }
    destruct X as (M1 & O1 & e & ps & ss & gs & -> & Ie). unfold respond in E2.
    assert (T1 : esv_is_response (msg_esv (resp m e ps ss gs)) = true /\ esv_is_unicast_response (msg_esv (resp m e ps ss gs)) = true).
    { cbn in Ie. destruct Ie as [X|[X|[X|[X|[X|[X|[]]]]]]]; subst e; split; reflexivity. }
    destruct T1 as [T1 T2]. rewrite T1, T2 in E2.
    destruct (node_send (tick w) n1 (fst (msg_from m), PORT) (resp m e ps ss gs)) as [[[ok r'] n3] w3] eqn:E3. inversion E2; subst n3 w3.
    pose proof E3 as E3'. apply node_send_spec in E3 as (Ut & tr & S & _ & Dl & Fo & Se).
    pose proof (update_tid_keeps _ _ _ _ Ut) as (Ko & Kh & Km & Kb & Kp).
    exists tr, (msg_bytes r'), ok. split; [change tr with ([] ++ tr); eapply since_trans; [apply since_tick|exact S]|].
    split; auto. split; [exact Fo|]. split; [rewrite Se; reflexivity|]. split; [|split; congruence].
    intros Al Bd. unfold node_send in E3'. rewrite Ut in E3'. destruct (manager_send (tick w) (n_mgr n') _ _) as [b w4] eqn:Ms. inversion E3'; subst b.
    eapply manager_send_ok; eauto. rewrite Km, M1. exact Bd.
  Qed.
End One.

(** ** Servers that work *)
Definition fine (s : server) : Prop := sv_poisoned s = false /\ sv_thread s <> TPanicked.
Definition fine_mgr (m : manager) : Prop := Forall fine (mg_ucast m) /\ Forall fine (mg_mcast m).
(** As created by a start. *)
Definition fresh_server (s : server) : Prop := sv_poisoned s = false /\ sv_stop s = false /\ sv_thread s = TRunning /\ sv_observers s = [].
Definition with_observers (l : list observer) (s : server) : server := Server (sv_socket s) (sv_observers s ++ l) (sv_poisoned s) (sv_stop s) (sv_thread s).

Lemma fresh_fine s : fresh_server s -> fine s.
Proof. intros (A & _ & B & _). split; auto. rewrite B. discriminate. Qed.
Lemma stop_total l : Forall fine l -> forall b, exists b', servers_stop l b = Ret (b', []).
Proof.
  induction 1 as [|s r [_ T] F IH]; intro b; cbn [servers_stop]; [eauto|].
  unfold server_stop. destruct (sv_thread s); try (exfalso; auto; fail); cbn [obind fst negb]; apply IH.
Qed.
Lemma manager_stop_total m : fine_mgr m -> exists b, manager_stop m = Ret (b, Manager [] []).
Proof.
  intros [A B]. unfold manager_stop. destruct (stop_total _ A true) as (b1 & E1). rewrite E1. cbn [obind].
  destruct (stop_total _ B true) as (b2 & E2). rewrite E2. cbn [obind fst snd]. eauto.
Qed.
Lemma add_observer_total o l : Forall fine l -> servers_add_observer l o = Ret (map (with_observers [o]) l).
Proof.
  induction 1 as [|s r [Pn _] F IH]; cbn [servers_add_observer map]; auto. unfold server_add_observer. rewrite Pn. cbn [obind]. rewrite IH. cbn [obind].
  unfold with_observers at 2, observers_add. rewrite Pn. reflexivity.
Qed.
Lemma with_observers_fine l s : fine s -> fine (with_observers l s).
Proof. intros [A B]. split; auto. Qed.
Lemma with_observers_app a b s : with_observers b (with_observers a s) = with_observers (a ++ b) s.
Proof. unfold with_observers. cbn. rewrite app_assoc. auto. Qed.
Lemma with_observers_nil l : map (with_observers []) l = l.
Proof. rewrite <- (map_id l) at 2. apply map_ext. intros []. unfold with_observers. cbn. rewrite app_nil_r. auto. Qed.
Lemma fine_with l m : fine_mgr m -> fine_mgr (Manager (map (with_observers l) (mg_ucast m)) (map (with_observers l) (mg_mcast m))).
Proof. intros [A B]. split; apply Forall_map; [eapply Forall_impl; [|exact A]|eapply Forall_impl; [|exact B]]; intros s H; apply with_observers_fine; auto. Qed.
Lemma add_observers_total obs : forall m, fine_mgr m ->
  manager_add_observers m obs = Ret (Manager (map (with_observers obs) (mg_ucast m)) (map (with_observers obs) (mg_mcast m))).
Proof.
  induction obs as [|o r IH]; intros m F; cbn [manager_add_observers].
  - rewrite !with_observers_nil. destruct m; reflexivity.
  - unfold manager_add_observer. pose proof F as [A B]. rewrite (add_observer_total o _ A), (add_observer_total o _ B). cbn [obind].
    rewrite IH by (apply (fine_with [o] m F)). cbn [mg_ucast mg_mcast]. rewrite !map_map.
    f_equal. f_equal; apply map_ext; intro s; apply (with_observers_app [o] r).
Qed.

Section T.
  Context {Os : OS}.
  Lemma fresh_u w i ok s w' : ucast_server_bind w server_new i = (ok, s, w') -> ok = true -> fresh_server (sv_with_thread s TRunning).
  Proof.
    unfold ucast_server_bind. destruct i; [|intro H; inversion H; subst; discriminate].
    destruct (socket_bind w _ _) as [[b k] w1]. intro H. inversion H; subst. intros _. repeat split.
  Qed.
  Lemma fresh_m w i ok s w' : mcast_server_bind w server_new i = (ok, s, w') -> ok = true -> fresh_server (sv_with_thread s TRunning).
  Proof.
    unfold mcast_server_bind. destruct (socket_bind w _ _) as [[b k] w1]. destruct b; cbn [negb]; [|intro H; inversion H; subst; discriminate].
    destruct (socket_join w1 k i) as [[b k'] w2]. intro H. inversion H; subst. intros _. repeat split.
  Qed.
  Lemma start_list bind w l ok l' w' : (forall w i ok s w', bind w server_new i = (ok, s, w') -> ok = true -> fresh_server (sv_with_thread s TRunning)) ->
    (if servers_running l then (true, l, w) else let '(ifs, w) := get_all_interfaces w in let '(l, w) := servers_start bind w ifs l in (negb (Nat.eqb (length l) 0), l, w)) = (ok, l', w') ->
    (l <> [] /\ l' = l /\ w' = w /\ ok = true) \/ (l = [] /\ Forall fresh_server l' /\ (ok = true <-> l' <> [])).
  Proof.
    intros B. unfold servers_running. destruct (Nat.eqb_spec (length l) 0) as [E|E].
    - destruct l; [|discriminate]. destruct (get_all_interfaces w) as [ifs w1]. destruct (servers_start bind w1 ifs []) as [l1 w2] eqn:E1. intro H. inversion H; subst.
      right. split; auto. apply (servers_start_spec bind (fun _ => fresh_server)) in E1 as (new & -> & F); [|intros; eapply B; eauto]. cbn [app]. split.
      + eapply Forall_impl; [|exact F]. intros s (_ & _ & X). auto.
      + destruct new; cbn; split; congruence.
    - intro H. inversion H; subst. left. split; [intros ->; apply E; auto|auto].
  Qed.
  (** Starting succeeds in the sense of returning, leaves working servers, and from
      the idle state new ones. *)
  Lemma manager_start_total w m : fine_mgr m -> exists ok m' w', manager_start w m = Ret (ok, m', w') /\ fine_mgr m' /\
    (idle m -> ok = true -> Forall fresh_server (mg_ucast m') /\ Forall fresh_server (mg_mcast m')) /\
    (ok = false -> idle m').
  Proof.
    intros F. unfold manager_start. destruct (manager_running m) eqn:Rn.
    { exists true, m, w. split; auto. split; auto. split; [|discriminate]. intros I _. rewrite (idle_running m I) in Rn. discriminate. }
    destruct (mcast_start w (mg_mcast m)) as [[ok1 c] w1] eqn:E1. apply start_list in E1; [|exact fresh_m].
    assert (Fc : Forall fine c). { destruct E1 as [(_ & -> & _)|(_ & X & _)]; [apply F|]. eapply Forall_impl; [|exact X]. apply fresh_fine. }
    assert (Stop : forall u (w2 : world), Forall fine u -> exists ok m' w', (let! x := manager_stop {| mg_ucast := u; mg_mcast := c |} in Ret (false, snd x, w2)) = Ret (ok, m', w') /\ fine_mgr m' /\
      (idle m -> ok = true -> Forall fresh_server (mg_ucast m') /\ Forall fresh_server (mg_mcast m')) /\ (ok = false -> idle m')).
    { intros u w2 Fu. destruct (manager_stop_total (Manager u c)) as (b & Es); [split; auto|]. rewrite Es. cbn [obind snd].
      exists false, (Manager [] []), w2. split; auto. split; [split; constructor|]. split; [discriminate|]. intros _. split; auto. }
    destruct ok1; cbn [negb]; [|apply Stop; apply F].
    destruct (ucast_start w1 (mg_ucast m)) as [[ok2 u] w2] eqn:E2. cbn [mg_ucast]. rewrite E2. apply start_list in E2; [|exact fresh_u].
    assert (Fu : Forall fine u). { destruct E2 as [(_ & -> & _)|(_ & X & _)]; [apply F|]. eapply Forall_impl; [|exact X]. apply fresh_fine. }
    destruct ok2; cbn [negb]; [|apply Stop; auto].
    exists true, (Manager u c), w2. split; auto. split; [split; auto|]. split; [|discriminate]. intros [I1 I2] _. cbn.
    destruct E1 as [(X & _)|(_ & X1 & _)]; [contradiction|]. destruct E2 as [(X & _)|(_ & X2 & _)]; [contradiction|]. auto.
  Qed.

  Context {U : Type} {P : Profile} {HO : HashOrder}.
  Lemma announce_mgr w (n : node U) ok n' w' : node_announce w n = (ok, n', w') -> n_mgr n' = n_mgr n /\ n_observers n' = n_observers n /\ n_handlers n' = n_handlers n.
  Proof.
    unfold node_announce. destruct (find_object _ _) as [o|]; [|intro H; inversion H; auto].
    destruct (object_find_property _ _) as [p|]; [|intro H; inversion H; auto].
    destruct (node_notify w n _) as [[[b m1] n1] w1] eqn:E. intro H. inversion H; subst.
    apply node_notify_spec in E as (A & _). apply update_tid_keeps in A as (_ & B & C & _ & D). auto.
  Qed.
  (** All calls return when the servers work. *)
  Lemma start_total w (n : node U) : fine_mgr (n_mgr n) -> exists ok n' w', node_start w n = Ret (ok, n', w') /\ fine_mgr (n_mgr n') /\ n_observers n' = n_observers n.
  Proof.
    intro F. unfold node_start.
    assert (X : exists ok m w1, (if negb (manager_running (n_mgr n)) then manager_start w (n_mgr n) else Ret (true, n_mgr n, w)) = Ret (ok, m, w1) /\ fine_mgr m).
    { destruct (manager_running (n_mgr n)); cbn [negb]; [eauto|]. destruct (manager_start_total w (n_mgr n) F) as (ok & m & w1 & E & Fm & _). eauto. }
    destruct X as (ok & m & w1 & E & Fm). rewrite E. cbn [obind]. destruct ok; cbn [negb]; [|exists false, (n_with_mgr n m), w1; auto].
    cbn [n_mgr n_with_mgr set_object_properties_byte n_with_objects n_observers]. rewrite (add_observers_total _ m Fm). cbn [obind].
    destruct (node_announce w1 _) as [[b n1] w2] eqn:E1. apply announce_mgr in E1 as (A1 & A2 & _). cbn [n_mgr n_with_mgr n_observers set_object_properties_byte n_with_objects] in A1, A2.
    assert (Fx : fine_mgr (n_mgr n1)) by (rewrite A1; apply fine_with; auto). destruct b; cbn [negb]; eauto 10.
  Qed.
  Lemma stop_node_total (n : node U) : fine_mgr (n_mgr n) -> exists ok n', node_stop n = Ret (ok, n') /\ fine_mgr (n_mgr n').
  Proof.
    intro F. unfold node_stop. cbn [n_mgr set_object_properties_byte n_with_objects]. destruct (manager_stop_total _ F) as (b & E). rewrite E. cbn [obind fst snd].
    eexists. eexists. split; [reflexivity|]. split; constructor.
  Qed.
  Lemma step_total (u : U) n w op : (forall m, op <> OpRecv m) -> fine_mgr (n_mgr n) ->
    exists u' n' w', node_step (u, n, w) op = Ret (u', n', w') /\ fine_mgr (n_mgr n').
  Proof.
    intros N F. destruct op; cbn [node_step].
    - destruct (add_object_eq n o) as (os & E & _). rewrite E. cbn [obind]. eauto 10.
    - eauto 10.
    - eauto 10.
    - eexists. eexists. eexists. split; [reflexivity|]. unfold set_data. destruct (find_object _ _); auto.
    - destruct (node_send w n to m) as [[[b m1] n1] w1] eqn:E. apply node_send_spec in E as (A & _). apply update_tid_keeps in A as (_ & _ & A & _).
      exists u, n1, w1. split; auto. rewrite A. auto.
    - destruct (node_post w n to m) as [[[b m1] n1] w1] eqn:E. apply node_post_spec in E as (_ & _ & n2 & ok & tr & A & -> & _). apply update_tid_keeps in A as (_ & _ & A & _).
      eexists u, _, w1. split; [reflexivity|]. cbn. rewrite A. auto.
    - destruct (node_notify w n m) as [[[b m1] n1] w1] eqn:E. apply node_notify_spec in E as (A & _). apply update_tid_keeps in A as (_ & _ & A & _).
      exists u, n1, w1. split; auto. rewrite A. auto.
    - destruct (node_announce w n) as [[b n1] w1] eqn:E. apply announce_mgr in E as (A & _). exists u, n1, w1. split; auto. rewrite A. auto.
    - unfold node_announce_property. destruct (node_notify w n _) as [[[b m1] n1] w1] eqn:E. apply node_notify_spec in E as (A & _). apply update_tid_keeps in A as (_ & _ & A & _).
      exists u, n1, w1. split; auto. rewrite A. auto.
    - destruct (start_total w n F) as (ok & n1 & w1 & E & Fx & _). rewrite E. cbn [obind]. eauto 10.
    - destruct (stop_node_total n F) as (ok & n1 & E & Fx). rewrite E. cbn [obind]. eauto 10.
    - exfalso. eapply N. reflexivity.
  Qed.
End T.

(** ** States in which nothing is broken *)
Section H.
  Context {U : Type} {P : Profile} {HO : HashOrder} {Os : OS} {Uu : Uuids}.
  Variables (seed : N -> N) (db : list object).
  Hypothesis Db : standard_database seed = Ret db.
  Hypothesis Uo : forall k, uuid_ok (new_uuid k).

  Record healthy_node (n : node U) : Prop := {
    hn_good : node_good n; hn_std : node_std n; hn_total : Forall total_handler (n_handlers n); hn_fine : fine_mgr (n_mgr n) }.
  Definition remote_ok (r : remote_node) : Prop := Forall (fun o => obj_ok o /\ std_keys o) (rn_objects r).
  Record healthy (h : host U) : Prop := {
    hh_node : healthy_node (h_node h); hh_poisoned : h_poisoned h = false; hh_cpoisoned : h_cpoisoned h = false;
    hh_wpoisoned : h_wpoisoned h = []; hh_remotes : Forall remote_ok (h_remotes h) }.

  Lemma healthy_same (n n' : node U) : n_objects n' = n_objects n -> n_handlers n' = n_handlers n -> fine_mgr (n_mgr n') -> healthy_node n -> healthy_node n'.
  Proof. intros A B C []. constructor; unfold node_good, node_std in *; rewrite ?A, ?B; auto. Qed.
  Lemma healthy_shapes (n n' : node U) os hs : node_good n' -> fine_mgr (n_mgr n') -> Forall2 same_shape (n_objects n ++ os) (n_objects n') -> n_handlers n' = n_handlers n ++ hs ->
    Forall std_keys os -> Forall total_handler hs -> healthy_node n -> healthy_node n'.
  Proof.
    intros G F S H K T []. constructor; auto.
    - assert (X : Forall std_keys (n_objects n ++ os)) by (apply Forall_app; auto). unfold node_std. clear - S X.
      induction S; inversion X; subst; constructor; auto. eapply std_shape; eauto.
    - rewrite H. apply Forall_app. auto.
  Qed.
  Lemma observe_healthy w (u : U) n m : received m -> m_esv m <> 0x5E -> healthy_node n ->
    exists u' n' w', node_observe w u n m = Ret (u', n', w') /\ healthy_node n' /\ n_mgr n' = n_mgr n /\ n_observers n' = n_observers n /\
      Forall2 same_shape (n_objects n) (n_objects n').
  Proof.
    intros R Ne Hn. pose proof (received_rcvd m R) as Rc. destruct Hn as [G S T F] eqn:X. clear X.
    destruct (observe_total w u n m Rc G S T) as (u' & n' & w' & E); [tauto|]. exists u', n', w'. split; auto.
    assert (M : n_mgr n' = n_mgr n /\ n_observers n' = n_observers n).
    { pose proof Rc as [W L B]. destruct (observe_spec w u n m u' n' w' W B E) as (n1 & w1 & t1 & n2 & res & t2 & _ & _ & _ & D & H & R1).
      apply delivered_keeps in D as (_ & _ & D3 & _ & D5 & _). apply reaction_keeps in R1 as (_ & _ & R3 & _ & R5). rewrite R3, R5, <- D3, <- D5.
      inversion H; subst; auto. }
    assert (E1 : node_step (u, n, w) (OpRecv m) = Ret (u', n', w')) by (cbn [node_step]; rewrite E; reflexivity).
    destruct (step_shapes u n w (OpRecv m) u' n' w' R E1) as [Sh Hd].
    split; [|split; [apply M|split; [apply M|]]].
    - apply (healthy_shapes n n' [] []); auto; [exact (step_good u n w (OpRecv m) u' n' w' R G E1)|rewrite (proj1 M); auto].
    - cbn in Sh. rewrite app_nil_r in Sh. auto.
  Qed.
  Lemma standard_ok c o : standard_object db c o -> obj_ok o /\ std_keys o.
  Proof.
    intros (u1 & u2 & s & A & B & D). destruct (device_spec seed db u1 u2 s c Db A B) as (o' & D' & X & Y & _). rewrite D in D'. inversion D'; subst. auto.
  Qed.
  Lemma remove_in r l x : In x (remove_remote l r) -> In x l.
  Proof. induction l as [|y t IH]; cbn [remove_remote]; auto. destruct (remote_eqb y r); cbn [negb]; cbn; tauto. Qed.
  Lemma controller_healthy w rs m : received m -> Forall remote_ok rs -> exists rs' w', controller_observe db w rs m = Ret (rs', w') /\ Forall remote_ok rs'.
  Proof.
    intros R F. destruct (is_node_profile_message m) eqn:E.
    - apply for_profile_spec in E. assert (Up : Forall u8prop (m_props m)) by (apply received_rcvd in R as [[]]; auto).
      destruct (controller_entry seed db Db Uo w rs m) as (css & r & w' & _ & _ & S & _ & Ec); auto. rewrite Ec. eexists. eexists. split; [reflexivity|].
      unfold replace_remote. apply Forall_app. split.
      + apply Forall_forall. intros x I. apply remove_in in I. eapply Forall_forall in F; eauto.
      + constructor; [|constructor]. unfold remote_ok. apply Forall_forall. intros o I. 
        assert (X : exists c, standard_object db c o). { clear - S I. induction S; [destruct I|]. destruct I as [<-|I]; eauto. }
        destruct X as (c & X). eapply standard_ok; eauto.
    - unfold controller_observe. rewrite E. cbn [negb]. eauto.
  Qed.
  Lemma clone_objects_total w os : Forall (fun o => obj_ok o /\ std_keys o) os -> exists os' w', clone_objects w os = Ret (os', w').
  Proof.
    intro F. revert w. induction F as [|o r [A B] F IH]; intro w; cbn [clone_objects]; [eauto|].
    destruct (clone_total (os_seed (w_calls w)) o A B) as (o' & ->). cbn [obind]. destruct (IH (tick w)) as (os' & w' & ->). cbn [obind]. eauto.
  Qed.
  Lemma nodes_total w rs : Forall remote_ok rs -> exists rs' w', controller_nodes w rs = Ret (rs', w').
  Proof.
    intro F. revert w. induction F as [|r t A F IH]; intro w; cbn [controller_nodes]; [eauto|]. unfold remote_clone.
    destruct (clone_objects_total w (rn_objects r) A) as (os' & w1 & ->). cbn [obind snd fst]. destruct (IH w1) as (rs' & w2 & ->). cbn [obind]. eauto.
  Qed.

  Definition h_same_shapes (h h' : host U) : Prop := n_mgr (h_node h') = n_mgr (h_node h) /\ n_observers (h_node h') = n_observers (h_node h) /\
    Forall2 same_shape (n_objects (h_node h)) (n_objects (h_node h')).
  Lemma same_shapes_refl h : h_same_shapes h h.
  Proof. repeat split. apply shapes_refl. Qed.
  Lemma received_healthy free h w o m : healthy h -> received m -> m_esv m <> 0x5E ->
    exists h' w', observer_received db free h w o m = (false, h', w') /\ healthy h' /\ h_log h' = h_log h /\ h_same_shapes h h'.
  Proof.
    intros Hh R Ne. pose proof Hh as [N P1 P2 P3 Rm]. unfold observer_received. destruct (ob_kind o).
    - rewrite P1. cbn [orb]. destruct free; cbn [negb]; [|exists h, w; auto using same_shapes_refl].
      destruct (observe_healthy w (h_user h) (h_node h) m R Ne N) as (u' & n' & w' & E & N' & M & O' & S). rewrite E.
      eexists. eexists. split; [reflexivity|]. split; [constructor; auto|]. split; auto. repeat split; auto.
    - exists h, w; auto using same_shapes_refl.
    - rewrite P2. cbn [orb]. destruct free; cbn [negb]; [|exists h, w; auto using same_shapes_refl].
      destruct (controller_healthy w (h_remotes h) m R Rm) as (rs' & w' & E & F). rewrite E.
      eexists. eexists. split; [reflexivity|]. split; [constructor; auto|]. split; auto. split; [reflexivity|]. split; [reflexivity|]. apply shapes_refl.
    - exists h, w; auto using same_shapes_refl.
  Qed.
  Lemma notify_healthy free m l : received m -> m_esv m <> 0x5E -> forall i h w, healthy h ->
    exists h' w', notify_observers db free i h w l m = (false, h', w') /\ healthy h' /\ h_log h' = h_log h ++ map (fun o => (o, m)) l /\ h_same_shapes h h'.
  Proof.
    intros R Ne. induction l as [|o r IH]; intros i h w Hh; cbn [notify_observers map].
    { exists h, w. rewrite app_nil_r. auto using same_shapes_refl. }
    rewrite (hh_wpoisoned h Hh). cbn [existsb].
    assert (Hc : healthy (h_called h o m)) by (destruct Hh; constructor; auto).
    destruct (received_healthy (free i) (h_called h o m) w o m Hc R Ne) as (h1 & w1 & E & H1 & L1 & M1 & O1 & S1). rewrite E.
    destruct (IH (S i) h1 w1 H1) as (h2 & w2 & E2 & H2 & L2 & M2 & O2 & S2). exists h2, w2. split; auto. split; auto. split.
    - rewrite L2, L1. cbn. rewrite <- app_assoc. reflexivity.
    - split; [|split].
      + rewrite M2, M1. reflexivity.
      + rewrite O2, O1. reflexivity.
      + eapply shapes_trans; [exact S1|exact S2].
  Qed.
  Lemma fine_at m i s : fine_mgr m -> server_at m i = Some s -> fine s.
  Proof. intros [A B]. destruct i; cbn; intro E; apply nth_error_In in E; [eapply Forall_forall in A; eauto|eapply Forall_forall in B; eauto]. Qed.
  Lemma set_nth_fine l : forall k s, Forall fine l -> fine s -> Forall fine (set_nth l k s).
  Proof. induction l as [|x r IH]; intros k s F K; destruct k; cbn [set_nth]; auto; inversion F; subst; constructor; auto. Qed.
  Lemma set_server_healthy h i s : healthy h -> fine s -> healthy (h_set_server h i s).
  Proof.
    intros [N A B C D] F. constructor; auto. eapply healthy_same; [| | |exact N]; auto. pose proof (hn_fine _ N) as [F1 F2].
    cbn. destruct i; split; cbn; auto using set_nth_fine.
  Qed.
  (** What the receive threads parse. *)
  Lemma seen_octets d : octets d -> octets (seen d).
  Proof. intro H. unfold seen. rewrite <- (firstn_skipn (N.to_nat 1024) d) in H. apply octets_app in H. tauto. Qed.
  Lemma parse_seen d : octets d -> 
    (exists f, holds d f /\ msg_parse msg_new (seen d) = Ret (true, msg_of_frame msg_new f)) \/
    (no_frame d /\ exists m, msg_parse msg_new (seen d) = Ret (false, m)) \/
    (half d /\ msg_parse msg_new (seen d) = Panic).
  Proof.
    intro H. destruct (parse_classify msg_new (seen d) (seen_octets d H)) as [f rest F E Ep|m' Ep|t s o v ss A B C D E F Ep].
    - left. exists f. split; auto. split; eauto.
    - right. left. split; eauto. intros f (Fk & rest & E). rewrite E, parse_wire in Ep by auto. discriminate.
    - right. right. split; auto. exists t, s, o, v, ss. auto.
  Qed.
  Lemma half_panics d : half d -> msg_parse msg_new (seen d) = Panic.
  Proof. intros (t & s & o & v & ss & A & B & ->). apply parse_panics; auto. Qed.
  Lemma max_packet d : firstn MAX_PACKET_SIZE d = seen d.
  Proof. reflexivity. Qed.
  Lemma held_received d f a : octets d -> holds d f -> received (msg_set_from (msg_of_frame msg_new f) a) /\ carries (msg_set_from (msg_of_frame msg_new f) a) f.
  Proof.
    intros Od (Fk & rest & E). split.
    - exists (seen d), (msg_of_frame msg_new f), a. split; [apply seen_octets; auto|]. split; auto. rewrite E. apply parse_wire. auto.
    - exact (carries_msg_of_frame f Fk).
  Qed.
  Lemma receive_healthy free h w i d a s : healthy h -> receiving h i s -> safe d ->
    exists h' w' l, receive db free h w i d a = (h', w') /\ healthy h' /\ calls (sv_observers s) d a l /\ h_log h' = h_log h ++ l /\ h_same_shapes h h' /\
      (no_frame d -> h' = h /\ w' = w).
  Proof.
    intros Hh (E & T & S) [Od Hf He]. pose proof (fine_at _ _ _ (hn_fine _ (hh_node _ Hh)) E) as [Fp _]. unfold receive. rewrite E, T, S, max_packet.
    destruct (parse_seen d Od) as [(f & Hd & ->)|[(Nf & m & ->)|(Hf' & _)]]; [| |contradiction].
    - rewrite Fp. destruct (held_received d f a Od Hd) as [R C].
      destruct (notify_healthy free (msg_set_from (msg_of_frame msg_new f) a) (sv_observers s) R) with (i := 0%nat) (h := h) (w := w) as (h' & w' & En & H' & L' & Sh); auto.
      { destruct C as (_ & _ & _ & -> & _). apply He. auto. }
      rewrite En. exists h', w'. eexists. split; [reflexivity|]. split; auto. split; [eapply Calls; eauto; reflexivity|]. split; auto. split; auto.
      intro Nf. exfalso. apply (Nf f). auto.
    - exists h, w, []. rewrite app_nil_r. split; auto. split; auto. split; [apply No_calls; auto|]. split; auto. split; [apply same_shapes_refl|auto].
  Qed.
  Lemma receive_any_healthy free h w i d a : healthy h -> safe d -> healthy (fst (receive db free h w i d a)).
  Proof.
    intros Hh Sd. destruct (h_server h i) as [s|] eqn:E; [|unfold receive; rewrite E; auto].
    destruct (sv_thread s) eqn:T; try (unfold receive; rewrite E, T; auto; fail).
    destruct (sv_stop s) eqn:St.
    - unfold receive. rewrite E, T, St. cbn [fst]. apply set_server_healthy; auto. pose proof (fine_at _ _ _ (hn_fine _ (hh_node _ Hh)) E) as [Fp _]. split; auto. cbn. discriminate.
    - destruct (receive_healthy free h w i d a s Hh) as (h' & w' & l & -> & H' & _); auto. repeat split; auto.
  Qed.
  Lemma mgr_fine_search w (n : node U) m b m1 n1 w1 : node_notify w n m = (b, m1, n1, w1) -> healthy_node n -> healthy_node n1.
  Proof.
    intros E Hn. apply node_notify_spec in E as (A & _). apply update_tid_keeps in A as (A & B & C & _). eapply healthy_same; eauto. rewrite C. apply Hn.
  Qed.
  (** Every call returns, and nothing breaks. *)
  Lemma hstep_healthy h w op : hop_ok op -> healthy h -> exists h' w', host_step db (h, w) op = Ret (h', w') /\ healthy h'.
  Proof.
    intros K Hh. pose proof Hh as [N P1 P2 P3 Rm]. destruct op; cbn [host_step]; rewrite ?P1, ?P2.
    - assert (Nr : forall m, op <> OpRecv m) by (intros m ->; exact K).
      assert (K' : op_ok op /\ Forall std_keys (objects_added [op]) /\ Forall total_handler (handlers_added [op])).
      { destruct op; cbn [hop_ok] in K; try (exfalso; exact K); destruct K as [K1 K2]; (split; [exact K1|]); split; repeat constructor; try exact K2. }
      destruct K' as (K1 & K2 & K3).
      destruct (step_total (h_user h) (h_node h) w op Nr (hn_fine _ N)) as (u' & n' & w' & E & F). rewrite E. cbn [obind]. eexists. eexists. split; [reflexivity|].
      constructor; auto. cbn. destruct (step_shapes _ _ _ _ _ _ _ K1 E) as [S1 S2]. 
      apply (healthy_shapes (h_node h) n' (objects_added [op]) (handlers_added [op])); auto. exact (step_good _ _ _ _ _ _ _ K1 (hn_good _ N) E).
    - unfold controller_search_object. destruct (node_notify w (h_node h) _) as [[[b m1] n1] w1] eqn:E. eexists. eexists. split; [reflexivity|].
      constructor; auto. eapply mgr_fine_search; eauto.
    - unfold controller_send. destruct (node_send w (h_node h) _ _) as [[[b m1] n1] w1] eqn:E. eexists. eexists. split; [reflexivity|].
      constructor; auto. apply node_send_spec in E as (A & _). apply update_tid_keeps in A as (A & B & C & _). cbn. eapply healthy_same; eauto. rewrite C. apply N.
    - unfold controller_post. destruct (node_post w (h_node h) _ _) as [[[b m1] n1] w1] eqn:E. eexists. eexists. split; [reflexivity|].
      constructor; auto. apply node_post_spec in E as (_ & _ & n2 & ok & tr & A & -> & _). apply update_tid_keeps in A as (A & B & C & _). cbn.
      apply (healthy_same (h_node h)); auto. cbn. rewrite C. apply N.
    - destruct (nodes_total w (h_remotes h) Rm) as (rs' & w' & ->). cbn [obind]. eauto.
    - unfold controller_start. destruct (start_total w (h_node h) (hn_fine _ N)) as (ok & n1 & w1 & E & F & _). rewrite E. cbn [obind]. eexists. eexists. split; [reflexivity|].
      assert (E' : node_step (h_user h, h_node h, w) OpStart = Ret (h_user h, n1, w1)) by (cbn [node_step]; rewrite E; reflexivity).
      constructor; auto. cbn. destruct (step_shapes _ _ _ OpStart _ _ _ I E') as [S1 S2].
      apply (healthy_shapes (h_node h) n1 [] []); auto. exact (step_good _ _ _ OpStart _ _ _ I (hn_good _ N) E').
    - unfold controller_stop. destruct (stop_node_total (h_node h) (hn_fine _ N)) as (ok & n1 & E & F). rewrite E. cbn [obind fst snd]. eexists. eexists. split; [reflexivity|].
      assert (E' : node_step (h_user h, h_node h, w) OpStop = Ret (h_user h, n1, w)) by (cbn [node_step]; rewrite E; reflexivity).
      constructor; auto. cbn. destruct (step_shapes _ _ _ OpStop _ _ _ I E') as [S1 S2].
      apply (healthy_shapes (h_node h) n1 [] []); auto. exact (step_good _ _ _ OpStop _ _ _ I (hn_good _ N) E').
    - destruct (receive db free h w i data from) as [h' w'] eqn:E. exists h', w'. split; auto. change h' with (fst (h', w')). rewrite <- E. apply receive_any_healthy; auto.
    - eexists. eexists. split; [reflexivity|]. unfold receive_error. destruct (h_server h i) as [s|] eqn:E; auto. destruct (sv_thread s) eqn:T; auto.
      apply set_server_healthy; auto. pose proof (fine_at _ _ _ (hn_fine _ N) E) as [Fp _]. split; auto. cbn. discriminate.
  Qed.
  Lemma hrun_healthy ops : forall h w, Forall hop_ok ops -> healthy h -> exists h' w', host_run db (h, w) ops = Ret (h', w') /\ healthy h'.
  Proof.
    induction ops as [|op r IH]; intros h w F Hh; cbn [host_run]; [eauto|]. inversion F; subst.
    destruct (hstep_healthy h w op H1 Hh) as (h1 & w1 & -> & Hh1). cbn [obind]. apply IH; auto.
  Qed.
  Lemma new_healthy np (n : node U) u : obj_built np -> std_keys np -> node_new np = Ret n -> healthy (host_new u n).
  Proof.
    intros B S E. constructor; try reflexivity; [|constructor]. destruct (new_shapes np n E) as [A1 A2]. constructor.
    - eapply node_new_good; [|exact E]. apply obj_ok_good, obj_built_ok. auto.
    - unfold node_std. cbn. inversion A1 as [|? ? ? ? X Y]; subst. inversion Y; subst. repeat constructor. eapply std_shape; eauto.
    - cbn. rewrite A2. repeat constructor. intros x o e p. cbn. discriminate.
    - cbn. unfold node_new in E. destruct (node_add_object _ np) as [n1|] eqn:E1; cbn [obind] in E; [|discriminate]. inversion E; subst.
      destruct (add_object_eq (U := U) {| n_mgr := manager_new; n_objects := []; n_last_tid := TID_MIN; n_post := None; n_handlers := []; n_observers := [] |} np) as (os & E' & _).
      rewrite E1 in E'. inversion E'; subst. cbn. split; constructor.
  Qed.
End H.
