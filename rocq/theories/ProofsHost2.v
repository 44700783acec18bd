(** Executions of a process: who is registered on the servers, and how many
    responses a request causes. *)
From Verif Require Import Base HMap ModelCodec ModelMessages DbTable ModelObject ModelTransport ModelNode ModelController ModelHost
  SpecWire SpecObject SpecNode SpecHost ProofsCodec ProofsCodec2 PropertiesCodec ProofsObject ProofsObject2 ProofsObject3
  PropertiesObject PropertiesDb ProofsDevice ProofsNode ProofsNode2 ProofsNode3 ProofsNode4 PropertiesNode PropertiesTrans
  PropertiesProfile PropertiesTransport ProofsExchange ProofsController ProofsHistory ProofsHost.

Definition bound (s : server) : Prop := sk_sock (sv_socket s) <> None.
(** Down, or able to send. *)
Definition up_or_down (m : manager) : Prop := idle m \/ (mg_ucast m <> [] /\ Forall bound (mg_ucast m) /\ mg_mcast m <> []).
Definition all_servers (m : manager) : list server := mg_ucast m ++ mg_mcast m.
Definition registered (obs : list observer) (m : manager) : Prop := Forall (fun s => sv_observers s = obs) (all_servers m).

Section S.
  Context {U : Type} {P : Profile} {HO : HashOrder} {Os : OS} {Uu : Uuids}.

  (** ** Steps that leave transport and observers alone *)
  Definition quiet (op : node_op U) : Prop :=
    match op with OpStart | OpStop | OpAddObserver _ | OpRecv _ => False | _ => True end.
  Lemma quiet_step (u : U) n w op u' n' w' : quiet op -> node_step (u, n, w) op = Ret (u', n', w') -> n_mgr n' = n_mgr n /\ n_observers n' = n_observers n.
  Proof.
    intros Q E. destruct op; cbn [quiet] in Q; try contradiction; cbn [node_step] in E.
    - destruct (add_object_eq n o) as (os & E1 & _). rewrite E1 in E. inversion E; subst. auto.
    - inversion E; subst. auto.
    - inversion E; subst. unfold set_data. destruct (find_object _ _); auto.
    - destruct (node_send w n to m) as [[[b m1] n1] w1] eqn:E1. apply node_send_spec in E1 as (A & _). apply update_tid_keeps in A as (_ & _ & A & _ & B). inversion E; subst. auto.
    - destruct (node_post w n to m) as [[[b m1] n1] w1] eqn:E1. apply node_post_spec in E1 as (_ & _ & n2 & ok & tr & A & -> & _). apply update_tid_keeps in A as (_ & _ & A & _ & B). inversion E; subst. auto.
    - destruct (node_notify w n m) as [[[b m1] n1] w1] eqn:E1. apply node_notify_spec in E1 as (A & _). apply update_tid_keeps in A as (_ & _ & A & _ & B). inversion E; subst. auto.
    - destruct (node_announce w n) as [[b n1] w1] eqn:E1. apply announce_mgr in E1 as (A & B & _). inversion E; subst. auto.
    - unfold node_announce_property in E. destruct (node_notify w n _) as [[[b m1] n1] w1] eqn:E1. apply node_notify_spec in E1 as (A & _). apply update_tid_keeps in A as (_ & _ & A & _ & B). inversion E; subst. auto.
  Qed.

  (** ** Start and stop *)
  Lemma bound_u w i ok s w' : ucast_server_bind w server_new i = (ok, s, w') -> ok = true -> bound s.
  Proof.
    unfold ucast_server_bind. destruct i; [|intro H; inversion H; subst; discriminate].
    destruct (socket_bind w _ _) as [[b k] w1] eqn:E. intro H. inversion H; subst. intros ->.
    destruct (C67_retries _ _ _ _ _ _ E) as (_ & _ & _ & _ & _ & _ & X & _). unfold bound. cbn. rewrite (X eq_refl). discriminate.
  Qed.
  Lemma ucast_bound w l ok l' w' : ucast_start w l = (ok, l', w') -> ok = true -> Forall bound l -> l' <> [] /\ Forall bound l'.
  Proof.
    unfold ucast_start, servers_running. destruct (Nat.eqb_spec (length l) 0) as [E|E]; cbn [negb].
    - destruct l; [|discriminate]. destruct (get_all_interfaces w) as [ifs w1]. destruct (servers_start _ w1 ifs []) as [l1 w2] eqn:E1. intro H. inversion H; subst. intros K _.
      apply (servers_start_spec ucast_server_bind (fun _ => bound)) in E1 as (new & -> & F).
      + cbn [app] in *. split; [destruct new; [discriminate|discriminate]|]. eapply Forall_impl; [|exact F]. intros s (_ & _ & X). auto.
      + intros w0 i o s w3 Eb Ok. change (bound s). eapply bound_u; eauto.
    - intro H. inversion H; subst. intros _ F. split; auto. intros ->. apply E. auto.
  Qed.
  Lemma manager_start_up w m ok m' w' : fine_mgr m -> manager_start w m = Ret (ok, m', w') -> up_or_down m -> up_or_down m'.
  Proof.
    intros Fi. unfold manager_start. destruct (manager_running m); [intro H; inversion H; subst; auto|].
    destruct (mcast_start w (mg_mcast m)) as [[ok1 c] w1] eqn:E1. apply start_list in E1; [|exact fresh_m]. cbn [mg_ucast]. intros H K.
    assert (Bu : Forall bound (mg_ucast m)). { destruct K as [[-> _]|[_ [K _]]]; auto. }
    assert (Stop : forall x w2, (let! x := manager_stop x in Ret (false, snd x, w2)) = Ret (ok, m', w') -> up_or_down m').
    { intros x w2. destruct (manager_stop x) as [y|] eqn:E; cbn [obind]; [|discriminate]. intro X. inversion X; subst. left.
      destruct y as [c0 y]. exact (proj2 (C65_stop _ _ _ E)). }
    destruct ok1; cbn [negb] in H; [|eapply Stop; eauto].
    destruct (ucast_start w1 (mg_ucast m)) as [[ok2 u] w2] eqn:E2. destruct ok2; cbn [negb] in H; [|eapply Stop; eauto].
    inversion H; subst. right. cbn. destruct (ucast_bound _ _ _ _ _ E2 eq_refl Bu) as [A1 A2]. split; auto. split; auto.
    destruct E1 as [(A & -> & _)|(_ & _ & A)]; [auto|apply A; auto].
  Qed.
  Lemma with_observers_up l m : up_or_down m -> up_or_down (Manager (map (with_observers l) (mg_ucast m)) (map (with_observers l) (mg_mcast m))).
  Proof.
    intros [[A B]|(A & B & C)]; [left; split; cbn; rewrite ?A, ?B; auto|right; cbn]. split; [destruct (mg_ucast m); [auto|discriminate]|].
    split; [apply Forall_map; exact B|destruct (mg_mcast m); [auto|discriminate]].
  Qed.
  (** What a start does to the servers. *)
  Lemma start_servers w (n : node U) ok n' w' : fine_mgr (n_mgr n) -> node_start w n = Ret (ok, n', w') ->
    (up_or_down (n_mgr n) -> up_or_down (n_mgr n')) /\ n_observers n' = n_observers n /\
    (idle (n_mgr n) -> registered (n_observers n) (n_mgr n')) /\
    (forall i s, manager_running (n_mgr n) = true -> server_at (n_mgr n) i = Some s -> server_at (n_mgr n') i = Some (with_observers (n_observers n) s)).
  Proof.
    intros F. unfold node_start.
    set (st := if negb (manager_running (n_mgr n)) then manager_start w (n_mgr n) else Ret (true, n_mgr n, w)).
    assert (X : exists ok m w1, st = Ret (ok, m, w1) /\ fine_mgr m /\ (up_or_down (n_mgr n) -> up_or_down m) /\
      (idle (n_mgr n) -> if ok then Forall fresh_server (all_servers m) else idle m) /\ (manager_running (n_mgr n) = true -> ok = true /\ m = n_mgr n)).
    { unfold st. destruct (manager_running (n_mgr n)) eqn:Rn; cbn [negb].
      - exists true, (n_mgr n), w. split; auto. split; auto. split; auto. split; auto. intro I. rewrite (idle_running _ I) in Rn. discriminate.
      - destruct (manager_start_total w (n_mgr n) F) as (b & m & w1 & E & Fm & A & B). exists b, m, w1. split; auto. split; auto.
        split; [eapply manager_start_up; eauto|]. split; [|discriminate]. intro I. destruct b; [|auto]. destruct (A I eq_refl). apply Forall_app. auto. }
    destruct X as (b & m & w1 & -> & Fm & Up & Id & Rn). cbn [obind]. destruct b; cbn [negb].
    - cbn [n_mgr n_with_mgr set_object_properties_byte n_with_objects n_observers]. rewrite (add_observers_total _ m Fm). cbn [obind].
      destruct (node_announce w1 _) as [[c n1] w2] eqn:E1. apply announce_mgr in E1 as (A1 & A2 & _).
      cbn [n_mgr n_with_mgr n_observers set_object_properties_byte n_with_objects] in A1, A2. intro H.
      assert (n' = n1) as -> by (destruct c; cbn [negb] in H; inversion H; auto). clear H. rewrite A1, A2. split; [|split; [auto|split]].
      + intro K. apply with_observers_up. auto.
      + intro K. unfold registered, all_servers. cbn. rewrite <- map_app. apply Forall_map. eapply Forall_impl; [|exact (Id K)].
        intros s (_ & _ & _ & E). cbn. rewrite E. auto.
      + intros i s K Es. destruct (Rn K) as [_ ->]. destruct i; cbn in *; rewrite nth_error_map, Es; reflexivity.
    - intro H. inversion H; subst. cbn. split; auto. split; auto. split.
      + intro K. destruct (Id K) as [A B]. unfold registered, all_servers. rewrite A, B. constructor.
      + intros i s K. destruct (Rn K). discriminate.
  Qed.
  Lemma stop_servers (n : node U) ok n' : node_stop n = Ret (ok, n') -> idle (n_mgr n') /\ n_observers n' = n_observers n.
  Proof.
    unfold node_stop. cbn [n_mgr set_object_properties_byte n_with_objects]. destruct (manager_stop (n_mgr n)) as [x|] eqn:E; cbn [obind]; [|discriminate].
    intro H. inversion H; subst. cbn. split; auto. destruct x as [c0 x]. exact (proj2 (C65_stop _ _ _ E)).
  Qed.

  (** ** Invariants of executions *)
  Variables (seed : N -> N) (db : list object).
  Hypothesis Db : standard_database seed = Ret db.
  Hypothesis Uo : forall k, uuid_ok (new_uuid k).

  Lemma set_nth_forall (Q : server -> Prop) l : forall k s, Forall Q l -> (k < length l -> Q s)%nat -> Forall Q (set_nth l k s).
  Proof.
    induction l as [|x r IH]; intros k s F K; destruct k; cbn [set_nth]; auto; inversion F; subst; constructor; auto.
    - apply K. cbn. lia.
    - apply IH; auto. intro. apply K. cbn. lia.
  Qed.
  (** Replacing a server by one with the same socket and observers. *)
  Lemma set_server_keeps m i s t : server_at m i = Some s -> sv_socket t = sv_socket s -> sv_observers t = sv_observers s ->
    (up_or_down m -> up_or_down (set_server m i t)) /\ (forall obs, registered obs m -> registered obs (set_server m i t)).
  Proof.
    intros E A B. split.
    - intros [[I1 I2]|(I1 & I2 & I3)].
      + destruct i; cbn in E; [rewrite I1 in E|rewrite I2 in E]; destruct k; discriminate.
      + right. clear Db Uo. destruct i; cbn in E |- *; [|split; auto; split; auto; destruct (mg_mcast m), k; cbn; [auto|auto|discriminate|discriminate]].
        split; [destruct (mg_ucast m), k; cbn; [auto|auto|discriminate|discriminate]|]. split; auto.
        apply set_nth_forall; auto. intros _. unfold bound. rewrite A. apply nth_error_In in E. eapply Forall_forall in I2; eauto.
    - intros obs R. unfold registered, all_servers in *. apply Forall_app in R as [R1 R2]. apply Forall_app.
      clear Db Uo. destruct i; cbn in E |- *; split; auto; apply set_nth_forall; auto; intros _; rewrite B; apply nth_error_In in E; [eapply Forall_forall in R1; eauto|eapply Forall_forall in R2; eauto].
  Qed.

  Definition observers_added (ops : list (host_op U)) : list observer :=
    flat_map (fun op => match op with HApi (OpAddObserver o) => [o] | _ => [] end) ops.
  (** No start while running, and no new observers then. *)
  Definition calm_step (h : host U) (op : host_op U) : Prop :=
    match op with HApi OpStart | HCtrlStart | HApi (OpAddObserver _) => idle (n_mgr (h_node h)) | _ => True end.
  Definition calm (h : host U) (w : world) (ops : list (host_op U)) : Prop :=
    forall pre op post h1 w1, ops = pre ++ op :: post -> host_run db (h, w) pre = Ret (h1, w1) -> calm_step h1 op.

  Lemma receive_servers free (h : host U) w i d a : healthy h -> safe d ->
    let h' := fst (receive db free h w i d a) in
    n_observers (h_node h') = n_observers (h_node h) /\ (up_or_down (n_mgr (h_node h)) -> up_or_down (n_mgr (h_node h'))) /\
    (forall obs, registered obs (n_mgr (h_node h)) -> registered obs (n_mgr (h_node h'))) /\ (idle (n_mgr (h_node h)) -> h' = h).
  Proof.
    intros Hh Sd. cbn zeta. destruct (h_server h i) as [s|] eqn:E.
    2:{ unfold receive. rewrite E. auto. }
    assert (Ni : idle (n_mgr (h_node h)) -> False).
    { intros [A B]. unfold h_server in E. destruct i; cbn in E; [rewrite A in E|rewrite B in E]; destruct k; discriminate. }
    destruct (sv_thread s) eqn:T; try (unfold receive; rewrite E, T; auto; fail).
    destruct (sv_stop s) eqn:St.
    - unfold receive. rewrite E, T, St. cbn [fst]. destruct (set_server_keeps (n_mgr (h_node h)) i s (sv_with_thread s TReturned) E eq_refl eq_refl). cbn.
      split; auto. split; auto. split; auto. tauto.
    - destruct (receive_healthy seed db Db Uo free h w i d a s Hh) as (h' & w' & l & -> & _ & _ & _ & (M & O' & _) & _); auto; [repeat split; auto|].
      cbn [fst]. rewrite M, O'. split; auto. split; auto. split; auto. tauto.
  Qed.
  Lemma hstep_servers (h : host U) w op h' w' : hop_ok op -> healthy h -> host_step db (h, w) op = Ret (h', w') ->
    n_observers (h_node h') = n_observers (h_node h) ++ observers_added [op] /\
    (up_or_down (n_mgr (h_node h)) -> up_or_down (n_mgr (h_node h'))) /\
    (calm_step h op -> registered (n_observers (h_node h)) (n_mgr (h_node h)) -> registered (n_observers (h_node h')) (n_mgr (h_node h'))).
  Proof.
    intros K Hh E. pose proof Hh as [N P1 P2 P3 Rm].
    assert (Same : observers_added [op] = [] -> n_observers (h_node h') = n_observers (h_node h) -> n_mgr (h_node h') = n_mgr (h_node h) ->
      n_observers (h_node h') = n_observers (h_node h) ++ observers_added [op] /\ (up_or_down (n_mgr (h_node h)) -> up_or_down (n_mgr (h_node h'))) /\
      (calm_step h op -> registered (n_observers (h_node h)) (n_mgr (h_node h)) -> registered (n_observers (h_node h')) (n_mgr (h_node h')))).
    { intros -> -> ->. rewrite app_nil_r. auto. }
    assert (Start : forall ok n1 w1, node_start w (h_node h) = Ret (ok, n1, w1) -> h_node h' = n1 -> observers_added [op] = [] -> (calm_step h op -> idle (n_mgr (h_node h))) ->
      n_observers (h_node h') = n_observers (h_node h) ++ observers_added [op] /\ (up_or_down (n_mgr (h_node h)) -> up_or_down (n_mgr (h_node h'))) /\
      (calm_step h op -> registered (n_observers (h_node h)) (n_mgr (h_node h)) -> registered (n_observers (h_node h')) (n_mgr (h_node h')))).
    { intros ok n1 w1 Es -> -> Ca. destruct (start_servers w (h_node h) ok n1 w1 (hn_fine _ N) Es) as (A & B & C & _). rewrite app_nil_r, B. auto. }
    assert (Stop : forall ok n1, node_stop (h_node h) = Ret (ok, n1) -> h_node h' = n1 -> observers_added [op] = [] ->
      n_observers (h_node h') = n_observers (h_node h) ++ observers_added [op] /\ (up_or_down (n_mgr (h_node h)) -> up_or_down (n_mgr (h_node h'))) /\
      (calm_step h op -> registered (n_observers (h_node h)) (n_mgr (h_node h)) -> registered (n_observers (h_node h')) (n_mgr (h_node h')))).
    { intros ok n1 Es -> ->. destruct (stop_servers (h_node h) ok n1 Es) as (A & B). rewrite app_nil_r, B. split; auto. split; [left; auto|].
      intros _ _. destruct A as [A1 A2]. unfold registered, all_servers. rewrite A1, A2. constructor. }
    destruct op; cbn [host_step] in E; rewrite ?P1, ?P2 in E.
    - destruct (node_step (h_user h, h_node h, w) op) as [[[u1 n1] w1]|] eqn:E1; cbn [obind] in E; [|discriminate].
      inversion E; subst h' w'. clear E.
      destruct op; cbn [hop_ok] in K; try contradiction;
        try (match goal with E1 : node_step _ ?o = _ |- _ => destruct (quiet_step (h_user h) (h_node h) w o u1 n1 w1 I E1) as [Q1 Q2]; apply Same; auto; fail end).
      + cbn [node_step] in E1. inversion E1; subst. cbn [observers_added flat_map app h_node h_with_node n_observers n_with_observers n_mgr]. split; auto. split; auto.
        cbn [calm_step]. intros [A B] _. unfold registered, all_servers. cbn. rewrite A, B. constructor.
      + cbn [node_step] in E1. destruct (node_start w (h_node h)) as [[[ok n2] w2]|] eqn:E2; cbn [obind] in E1; [|discriminate]. inversion E1; subst.
        apply (Start ok n1 w1); auto.
      + cbn [node_step] in E1. destruct (node_stop (h_node h)) as [[ok n2]|] eqn:E2; cbn [obind] in E1; [|discriminate]. inversion E1; subst.
        apply (Stop ok n1); auto.
    - unfold controller_search_object in E. destruct (node_notify w (h_node h) _) as [[[b m1] n1] w1] eqn:E1. inversion E; subst.
      apply node_notify_spec in E1 as (A & _). apply update_tid_keeps in A as (_ & _ & A & _ & B). apply Same; auto.
    - unfold controller_send in E. destruct (node_send w (h_node h) _ _) as [[[b m1] n1] w1] eqn:E1. inversion E; subst.
      apply node_send_spec in E1 as (A & _). apply update_tid_keeps in A as (_ & _ & A & _ & B). apply Same; auto.
    - unfold controller_post in E. destruct (node_post w (h_node h) _ _) as [[[b m1] n1] w1] eqn:E1. inversion E; subst.
      apply node_post_spec in E1 as (_ & _ & n2 & ok & tr & A & -> & _). apply update_tid_keeps in A as (_ & _ & A & _ & B). apply Same; auto.
    - destruct (controller_nodes w (h_remotes h)) as [x|]; cbn [obind] in E; [|discriminate]. inversion E; subst. apply Same; auto.
    - unfold controller_start in E. destruct (node_start w (h_node h)) as [[[ok n1] w1]|] eqn:E1; cbn [obind] in E; [|discriminate]. inversion E; subst.
      apply (Start ok n1 w'); auto.
    - unfold controller_stop in E. destruct (node_stop (h_node h)) as [[ok n1]|] eqn:E1; cbn [obind fst snd] in E; [|discriminate]. inversion E; subst.
      apply (Stop ok n1); auto.
    - inversion E as [E1]. destruct (receive_servers free h w i data from Hh K) as (A & B & C & _). rewrite E1 in A, B, C. cbn [fst] in A, B, C. 
      split; [rewrite A; cbn; rewrite app_nil_r; auto|]. split; auto. intros _ R. rewrite A. auto.
    - inversion E; subst. unfold receive_error in *. destruct (h_server h i) as [s|] eqn:E1; [|apply Same; auto]. destruct (sv_thread s) eqn:T; try (apply Same; auto; fail).
      destruct (set_server_keeps (n_mgr (h_node h)) i s (sv_with_thread s TReturned) E1 eq_refl eq_refl). cbn. rewrite app_nil_r. auto.
  Qed.
  Lemma observers_app a b : observers_added (a ++ b) = observers_added a ++ observers_added b.
  Proof. apply flat_map_app. Qed.
  Lemma hrun_servers ops : forall h w h' w', Forall hop_ok ops -> healthy h -> host_run db (h, w) ops = Ret (h', w') ->
    n_observers (h_node h') = n_observers (h_node h) ++ observers_added ops /\
    (up_or_down (n_mgr (h_node h)) -> up_or_down (n_mgr (h_node h'))) /\
    (calm h w ops -> registered (n_observers (h_node h)) (n_mgr (h_node h)) -> registered (n_observers (h_node h')) (n_mgr (h_node h'))).
  Proof.
    induction ops as [|op r IH]; intros h w h' w' F Hh E; cbn [host_run] in E.
    { inversion E; subst. cbn. rewrite app_nil_r. auto. }
    inversion F; subst. destruct (hstep_healthy seed db Db Uo h w op H1 Hh) as (h1 & w1 & E1 & Hh1). rewrite E1 in E. cbn [obind] in E.
    destruct (hstep_servers h w op h1 w1 H1 Hh E1) as (A1 & B1 & C1). destruct (IH h1 w1 h' w' H2 Hh1 E) as (A2 & B2 & C2).
    split; [|split; [auto|]].
    - rewrite A2, A1, <- app_assoc. f_equal. rewrite <- observers_app. reflexivity.
    - intros Ca R. apply C2; [|apply C1; auto].
      + intros pre op' post h2 w2 Eq Er. apply (Ca (op :: pre) op' post h2 w2); [rewrite Eq; reflexivity|]. cbn [host_run]. rewrite E1. exact Er.
      + apply (Ca [] op r h w); reflexivity.
  Qed.
  Lemma new_servers np (n : node U) (u : U) : node_new np = Ret n -> idle (n_mgr (h_node (host_new u n))) /\ n_observers (h_node (host_new u n)) = [].
  Proof.
    intro E. cbn. unfold node_new in E. destruct (node_add_object _ np) as [n1|] eqn:E1; cbn [obind] in E; [|discriminate]. inversion E; subst.
    destruct (add_object_eq (U := U) {| n_mgr := manager_new; n_objects := []; n_last_tid := TID_MIN; n_post := None; n_handlers := []; n_observers := [] |} np) as (os & E' & _).
    rewrite E1 in E'. inversion E'; subst. cbn. repeat split.
  Qed.

  (** ** Responses *)
  Definition node_observers (l : list observer) : nat := length (filter (fun o => match ob_kind o with ObsNode => true | _ => false end) l).
  Lemma sent_app a b : sent (a ++ b) = sent a ++ sent b.
  Proof. induction a as [|e r IH]; cbn [app sent]; auto. destruct e as [| |? ? ? []|]; cbn [app]; rewrite ?IH; auto. Qed.
  Lemma notify_sends free m l c : received m -> In (m_esv m) [0x61; 0x62; 0x6E] -> (forall k, os_send k = true) -> (forall k, free k = true) ->
    forall i (h : host U) w, healthy h -> (exists o, addressed (n_objects (h_node h)) c o) -> msg_deoj m = c -> mg_ucast (n_mgr (h_node h)) <> [] -> Forall bound (mg_ucast (n_mgr (h_node h))) ->
    exists h' w' tr, notify_observers db free i h w l m = (false, h', w') /\ since w w' tr /\
      length (sent tr) = node_observers l /\ Forall (fun x => fst x = (fst (msg_from m), 3610)) (sent tr).
  Proof.
    intros R Es Al Fr. assert (Ne : m_esv m <> 0x5E) by (intro X; rewrite X in Es; cbn in Es; intuition discriminate).
    induction l as [|o r IH]; intros i h w Hh Ad Dc Nu Bu; cbn [notify_observers].
    { exists h, w, []. split; auto. split; [apply since_refl|]. cbn. auto. }
    rewrite (hh_wpoisoned h Hh). cbn [existsb].
    assert (Hc : healthy (h_called h o m)) by (destruct Hh; constructor; auto).
    destruct (received_healthy seed db Db Uo (free i) (h_called h o m) w o m Hc R Ne) as (h1 & w1 & E & H1 & _ & M1 & O1 & S1).
    cbn [h_called h_node] in M1, O1, S1.
    assert (T : exists tr, since w w1 tr /\ length (sent tr) = (match ob_kind o with ObsNode => 1 | _ => 0 end)%nat /\ Forall (fun x => fst x = (fst (msg_from m), 3610)) (sent tr)).
    { unfold observer_received in E. destruct (ob_kind o) eqn:Ko; try (inversion E; subst; exists []; split; [apply since_refl|]; cbn; auto; fail).
      - rewrite (hh_poisoned _ Hc), Fr in E. cbn [orb negb] in E. destruct (node_observe w _ _ m) as [[[u1 n1] w2]|] eqn:Eo; inversion E; subst.
        destruct Ad as (ob & Ad).
        destruct (answers_once _ _ _ _ _ _ _ ob (received_rcvd m R) Es Ad Eo) as (tr & data & ok & S & _ & _ & Se & Ok & _).
        exists tr. split; auto. rewrite Se. rewrite Ok; [|exact Al|].
        + split; [reflexivity|]. constructor; [reflexivity|constructor].
        + cbn. destruct (mg_ucast (n_mgr (h_node h))) as [|s0 q]; [contradiction|]. exists s0. split; [left; auto|]. inversion Bu; auto.
      - rewrite (hh_cpoisoned _ Hc), Fr in E. cbn [orb negb] in E. rewrite controller_ignores in E.
        + inversion E; subst. exists []. split; [apply since_refl|]. cbn. auto.
        + intros [X _]. destruct X as [X|X]; rewrite X in Es; cbn in Es; intuition discriminate. }
    destruct T as (tr1 & T1 & T2 & T3). rewrite E.
    destruct (IH (S i) h1 w1 H1) as (h2 & w2 & tr2 & E2 & S2 & L2 & F2); auto.
    { destruct Ad as (ob & pre & post & Eo & Co & Fp). rewrite Eo in S1. apply Forall2_app_inv_l in S1 as (p1 & q1 & A1 & A2 & A3). inversion A2 as [|? y ? q2 A4 A5]; subst.
      exists y, p1, q2. split; auto. split.
      - rewrite <- (object_code_codes ob y); auto. apply A4.
      - clear - A1 Fp. induction A1; inversion Fp; subst; constructor; auto. rewrite <- (object_code_codes x y); auto. apply H. }
    { rewrite M1. auto. }
    { rewrite M1. auto. }
    exists h2, w2, (tr1 ++ tr2). split; auto. split; [eapply since_trans; eauto|]. rewrite sent_app, app_length, T2, L2. split.
    - unfold node_observers. cbn [filter]. destruct (ob_kind o); cbn [length]; lia.
    - apply Forall_app. auto.
  Qed.
End S.
