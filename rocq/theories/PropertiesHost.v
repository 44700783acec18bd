(** Properties of a process with its receive threads: C50, C70 to C72, C75, C76. *)
From Verif Require Import Base HMap ModelCodec ModelMessages DbTable ModelObject ModelTransport ModelNode ModelController ModelHost
  SpecWire SpecObject SpecNode SpecHost ProofsCodec ProofsCodec2 PropertiesCodec ProofsObject ProofsObject2 ProofsObject3
  PropertiesObject PropertiesDb ProofsDevice ProofsNode ProofsNode2 ProofsNode3 ProofsNode4 ExamplesNode PropertiesNode PropertiesTrans
  PropertiesProfile PropertiesTransport ProofsExchange ProofsController ProofsHistory PropertiesController ProofsHost ProofsHost2.

Lemma wire_octets f : frame_ok f -> octets (wire f).
Proof.
  intros (Ht & Hs & Hd & Hv & Hb). rewrite <- (app_nil_r (wire _)), wire_unfold.
  repeat (apply octets_cons; split; [lia|]). apply octets_app; split; [|constructor].
  assert (W : forall ps, wprops_ok ps -> octets (wire_props ps)).
  { intros ps [A C]. apply octets_cons. split; [lia|]. clear C. induction A as [|p ps (X & Y & Z) _ IH]; [constructor|].
    cbn [map concat]. apply octets_app. split; auto. apply octets_cons; split; auto. apply octets_cons; split; [lia|auto]. }
  destruct (f_body f); cbn [wbody_ok wire_body] in *.
  - apply W; tauto.
  - apply octets_app; split; apply W; tauto.
Qed.
(** A datagram holds at most one frame. *)
Lemma holds_unique d f g : holds d f -> holds d g -> f = g.
Proof. intros (A & r & E) (B & s & F). rewrite E in F. apply wire_unique in F; tauto. Qed.
Lemma holds_not_half d f : holds d f -> ~ half d.
Proof.
  intros (A & r & E) H. apply half_panics in H. rewrite E, parse_wire in H by auto. discriminate.
Qed.
Lemma seen_short d : (length d <= N.to_nat 1024)%nat -> seen d = d.
Proof. intro H. apply firstn_all2. exact H. Qed.
Lemma wire_holds f : frame_ok f -> (length (wire f) <= N.to_nat 1024)%nat -> holds (wire f) f.
Proof. intros F L. split; auto. exists []. rewrite seen_short, app_nil_r; auto. Qed.
Lemma wire_safe f : frame_ok f -> (length (wire f) <= N.to_nat 1024)%nat -> f_esv f <> 0x5E -> safe (wire f).
Proof.
  intros F L V. pose proof (wire_holds f F L) as Hd. constructor; [apply wire_octets; auto|eapply holds_not_half; eauto|].
  intros g Hg. rewrite (holds_unique _ _ _ Hg Hd). auto.
Qed.

Section S.
  Context {U : Type} {P : Profile} {HO : HashOrder} {Os : OS} {Uu : Uuids}.
  Variables (seed : N -> N) (db : list object).
  Hypothesis Db : standard_database seed = Ret db.
  Hypothesis Uo : forall k, uuid_ok (new_uuid k).

  (** The state [h], [w'] of a process after the calls and datagrams [ops], with
      a node whose node profile object is [np]. *)
  Record history (np : object) (n0 : node U) (u : U) (w : world) (ops : list (host_op U)) (h : host U) (w' : world) : Prop := {
    hi_profile : obj_built np /\ (forall c p, object_find_property np c = Some p -> 0x80 <= c);
    hi_new : node_new np = Ret n0;
    hi_ops : Forall hop_ok ops;
    hi_run : host_run db (host_new u n0, w) ops = Ret (h, w') }.

  Lemma history_healthy np n0 u w ops h w' : history np n0 u w ops h w' -> healthy h.
  Proof.
    intros [[B S] N F E]. destruct (hrun_healthy seed db Db Uo ops (host_new u n0) w F (new_healthy np n0 u B S N)) as (h1 & w1 & E1 & H). congruence.
  Qed.
  Lemma history_servers np n0 u w ops h w' : history np n0 u w ops h w' -> up_or_down (n_mgr (h_node h)) /\ n_observers (h_node h) = observers_added ops /\
    (calm db (host_new u n0) w ops -> registered (observers_added ops) (n_mgr (h_node h))).
  Proof.
    intros [[B S] N F E]. destruct (new_servers np n0 u N) as [I O0].
    destruct (hrun_servers seed db Db Uo ops _ _ _ _ F (new_healthy np n0 u B S N) E) as (A1 & A2 & A3). rewrite O0 in A1, A3. cbn [app] in A1.
    split; [apply A2; left; auto|]. split; auto. intro C. rewrite <- A1. apply A3; auto. destruct I as [I1 I2]. unfold registered, all_servers. rewrite I1, I2. constructor.
  Qed.
  Lemma host_run_app a b : forall s, host_run db s (a ++ b) = (let! s1 := host_run db s a in host_run (U := U) db s1 b).
  Proof. induction a as [|op r IH]; intro s; cbn [app host_run obind]; auto. destruct (host_step db s op) as [s1|]; cbn [obind]; auto. Qed.
  Lemma history_more np n0 u w ops h w' more h2 w2 : history np n0 u w ops h w' -> Forall hop_ok more -> host_run db (h, w') more = Ret (h2, w2) ->
    history np n0 u w (ops ++ more) h2 w2.
  Proof.
    intros [A B C D] F E. constructor; auto; [apply Forall_app; auto|]. rewrite host_run_app, D. exact E.
  Qed.
  Lemma receiving_registered obs h i s : registered obs (n_mgr (h_node h)) -> h_server (U := U) h i = Some s -> sv_observers s = obs.
  Proof.
    intros R E. unfold registered, all_servers in R. apply Forall_app in R as [R1 R2]. clear Db Uo. unfold h_server in E.
    destruct i; cbn in E; apply nth_error_In in E; [eapply Forall_forall in R1; eauto|eapply Forall_forall in R2; eauto].
  Qed.
  Definition recv (i : server_id) (x : list N * sockaddr * (nat -> bool)) : host_op U := HRecv i (fst (fst x)) (snd (fst x)) (snd x).

  (** ** C76 *)
  (** After any history of calls and safe datagrams, every call returns. *)
  Theorem C76_calls_return_partial : forall np n0 (u : U) w ops h w' op, history np n0 u w ops h w' -> hop_ok op ->
    exists h2 w2, host_step db (h, w') op = Ret (h2, w2).
  Proof.
    intros np n0 u w ops h w' op H K. destruct (hstep_healthy seed db Db Uo h w' op K (history_healthy _ _ _ _ _ _ _ H)) as (h2 & w2 & E & _). eauto.
  Qed.
  (** ... and every such history is possible. *)
  Theorem C76_runs_partial : forall np n0 (u : U) w ops, obj_built np -> (forall c p, object_find_property np c = Some p -> 0x80 <= c) -> node_new np = Ret n0 ->
    Forall hop_ok ops -> exists h w', host_run db (host_new u n0, w) ops = Ret (h, w').
  Proof.
    intros np n0 u w ops B S N F. destruct (hrun_healthy seed db Db Uo ops (host_new u n0) w F (new_healthy np n0 u B S N)) as (h & w' & E & _). eauto.
  Qed.

  Lemma stop_panics l : forall b, Exists (fun s => sv_thread s = TPanicked) l -> servers_stop l b = Panic.
  Proof.
    induction l as [|s r IH]; intros b E; inversion E; subst; cbn [servers_stop]; unfold server_stop.
    - rewrite H0. reflexivity.
    - destruct (sv_thread s); cbn [obind]; auto.
  Qed.
  Lemma set_nth_at l : forall k (s t : server), nth_error l k = Some s -> nth_error (set_nth l k t) k = Some t.
  Proof. induction l as [|x r IH]; intros [|k] s t; cbn; try discriminate; eauto. Qed.
  Lemma set_server_at m i s t : server_at m i = Some s -> server_at (set_server m i t) i = Some t.
  Proof. destruct i; cbn [server_at set_server mg_ucast mg_mcast]; intro E; eapply set_nth_at; eauto. Qed.
  Lemma manager_stop_panics m i s : server_at m i = Some s -> sv_thread s = TPanicked -> manager_stop m = Panic.
  Proof.
    intros E T. unfold manager_stop. destruct i; cbn [server_at] in E; apply nth_error_In in E.
    - rewrite stop_panics; auto. apply Exists_exists. eauto.
    - destruct (servers_stop (mg_ucast m) true); cbn [obind]; auto. rewrite stop_panics; auto. apply Exists_exists. eauto.
  Qed.
  Lemma half_kills free h w i s d a : receiving (U := U) h i s -> half d -> receive db free h w i d a = (h_set_server h i (sv_with_thread s TPanicked), w).
  Proof. intros (E & T & S) Hf. unfold receive. rewrite E, T, S, max_packet, half_panics by auto. reflexivity. Qed.
  (** After a datagram that ends too early, stop panics. *)
  Theorem C76_stop_refuted : forall (h : host U) w i s d a free, receiving h i s -> half d ->
    exists h1 w1, host_step db (h, w) (HRecv i d a free) = Ret (h1, w1) /\
      host_step db (h1, w1) (HApi OpStop) = Panic /\ host_step db (h1, w1) HCtrlStop = Panic.
  Proof.
    intros h w i s d a free R Hf. cbn [host_step]. rewrite (half_kills free h w i s d a R Hf). eexists. eexists. split; [reflexivity|].
    assert (X : node_stop (h_node (h_set_server h i (sv_with_thread s TPanicked))) = Panic).
    { unfold node_stop. cbn [n_mgr set_object_properties_byte n_with_objects h_node h_set_server h_with_node n_with_mgr].
      rewrite (manager_stop_panics _ i (sv_with_thread s TPanicked)); [reflexivity| |reflexivity]. eapply set_server_at. apply R. }
    split; cbn [host_step node_step].
    - destruct (h_poisoned _); auto. rewrite X. reflexivity.
    - destruct (h_cpoisoned _); auto. destruct (h_poisoned _); auto. unfold controller_stop. rewrite X. reflexivity.
  Qed.

  Lemma not_node_keeps free h w o m : healthy h -> received m -> ob_kind o <> ObsNode ->
    exists h' w', observer_received db free h w o m = (false, h', w') /\ healthy h' /\ h_node h' = h_node (U := U) h.
  Proof.
    intros Hh R Ne. pose proof Hh as [N P1 P2 P3 Rm]. unfold observer_received. destruct (ob_kind o); try contradiction; eauto.
    rewrite P2. cbn [orb]. destruct free; cbn [negb]; [|eauto].
    destruct (controller_healthy seed db Db Uo w (h_remotes h) m R Rm) as (rs' & w1 & E & F). rewrite E.
    eexists. eexists. split; [reflexivity|]. split; [constructor; auto|auto].
  Qed.
  Lemma sna_poisons free m l : received m -> m_esv m = 0x5E -> (forall k, free k = true) -> (exists o, In o l /\ ob_kind o = ObsNode) ->
    forall i (h : host U) w, healthy h -> msg_tid m = n_last_tid (h_node h) -> exists h' w', notify_observers db free i h w l m = (true, h', w') /\ h_poisoned h' = true.
  Proof.
    intros R V Fr. induction l as [|o r IH]; intros (x & I & K) i h w Hh T; [destruct I|]. cbn [notify_observers].
    rewrite (hh_wpoisoned h Hh). cbn [existsb].
    assert (Hc : healthy (h_called h o m)) by (destruct Hh; constructor; auto).
    destruct (ob_kind o) eqn:Ko.
    - unfold observer_received. rewrite Ko, (hh_poisoned _ Hc), Fr. cbn [orb negb].
      assert (X : node_observe w (h_user (h_called h o m)) (h_node (h_called h o m)) m = Panic).
      { rewrite observe_eq. unfold deliver, is_last_message_response, msg_esv. rewrite V. cbn [h_called h_node]. rewrite T, N.eqb_refl. cbn [esv_from_u8 N.eqb Pos.eqb].
        change (esv_is_request _) with false. cbn match. rewrite (clone_rcvd_5E m (received_rcvd m R) V). reflexivity. }
      rewrite X. eexists. eexists. split; [reflexivity|]. reflexivity.
    - destruct (not_node_keeps (free i) (h_called h o m) w o m Hc R) as (h1 & w1 & E & H1 & N1); [congruence|]. rewrite E.
      apply IH; auto; [|rewrite N1; auto]. destruct I as [->|I]; [congruence|eauto].
    - destruct (not_node_keeps (free i) (h_called h o m) w o m Hc R) as (h1 & w1 & E & H1 & N1); [congruence|]. rewrite E.
      apply IH; auto; [|rewrite N1; auto]. destruct I as [->|I]; [congruence|eauto].
    - destruct (not_node_keeps (free i) (h_called h o m) w o m Hc R) as (h1 & w1 & E & H1 & N1); [congruence|]. rewrite E.
      apply IH; auto; [|rewrite N1; auto]. destruct I as [->|I]; [congruence|eauto].
  Qed.
  (** After a SetGet_SNA datagram with the TID used last, every call on the node
      panics. *)
  Theorem C76_sna_refuted : forall np n0 (u : U) w ops h w' i s d a f, history np n0 u w ops h w' -> receiving h i s ->
    (exists o, In o (sv_observers s) /\ ob_kind o = ObsNode) -> octets d -> holds d f -> f_esv f = 0x5E -> f_tid f = n_last_tid (h_node h) ->
    exists h1 w1, host_step db (h, w') (HRecv i d a (fun _ => true)) = Ret (h1, w1) /\
      forall op, host_step db (h1, w1) (HApi op) = Panic.
  Proof.
    intros np n0 u w ops h w' i s d a f H (E & T & S) Ob Od Hd V Ti. pose proof (history_healthy _ _ _ _ _ _ _ H) as Hh.
    cbn [host_step]. unfold receive. rewrite E, T, S, max_packet. pose proof Hd as (Fk & rest & Es). rewrite Es, parse_wire by auto.
    pose proof (fine_at _ _ _ (hn_fine _ (hh_node _ Hh)) E) as [-> _].
    destruct (held_received d f a Od Hd) as [R (C1 & _ & _ & C4 & _)].
    destruct (sna_poisons (fun _ => true) (msg_set_from (msg_of_frame msg_new f) a) (sv_observers s) R) with (i := 0%nat) (h := h) (w := w') as (h' & w1 & En & Pn); auto; try congruence.
    rewrite En. eexists. eexists. split; [reflexivity|]. intro op. cbn [host_step h_poisoned h_set_server h_with_node]. rewrite Pn. reflexivity.
  Qed.

  (** ** C70 *)
  (** Safe datagrams are handed out one by one, each to every registered
      observer, once, with the address of its sender. *)
  Theorem C70_in_order_partial : forall np n0 (u : U) w ops h w' i s xs, history np n0 u w ops h w' -> receiving h i s ->
    Forall (fun x => safe (fst (fst x))) xs ->
    exists h2 w2 ls, host_run db (h, w') (map (recv i) xs) = Ret (h2, w2) /\
      Forall2 (fun x l => calls (sv_observers s) (fst (fst x)) (snd (fst x)) l) xs ls /\
      h_log h2 = h_log h ++ concat ls /\ receiving h2 i s.
  Proof.
    intros np n0 u w ops h w' i s xs H R F. pose proof (history_healthy _ _ _ _ _ _ _ H) as Hh. clear H. revert h w' Hh R.
    induction F as [|[[d a] fr] r Sd F IH]; intros h w' Hh R; cbn [map host_run].
    - exists h, w', []. split; auto. split; [constructor|]. cbn. rewrite app_nil_r. auto.
    - cbn [recv fst snd host_step]. destruct (receive_healthy seed db Db Uo fr h w' i d a s Hh R Sd) as (h1 & w1 & l & E & H1 & C & L & (M & _) & _).
      rewrite E. cbn [obind].
      assert (R1 : receiving h1 i s) by (destruct R as (R1 & R2); split; auto; unfold h_server in *; rewrite M; auto).
      destruct (IH h1 w1 H1 R1) as (h2 & w2 & ls & E2 & F2 & L2 & R2). exists h2, w2, (l :: ls). split; auto. split; [constructor; auto|].
      split; auto. rewrite L2, L, <- app_assoc. reflexivity.
  Qed.
  (** What is not a frame has no effect at all. *)
  Theorem C70_others_ignored : forall (h : host U) w i s d a free, receiving h i s -> octets d -> no_frame d -> ~ half d ->
    receive db free h w i d a = (h, w).
  Proof.
    intros h w i s d a free (E & T & S) Od Nf Nh. unfold receive. rewrite E, T, S, max_packet.
    destruct (parse_seen d Od) as [(f & Hd & _)|[(_ & m & ->)|(Hf & _)]]; [exfalso; eapply Nf; eauto|reflexivity|contradiction].
  Qed.
  (** The loop ends when stop is requested; after stop nothing is received. *)
  Theorem C70_ends_on_request : forall (h : host U) w i s d a free, h_server h i = Some s -> sv_thread s = TRunning -> sv_stop s = true ->
    exists h', receive db free h w i d a = (h', w) /\ h_log h' = h_log h /\ h_server h' i = Some (sv_with_thread s TReturned).
  Proof.
    intros h w i s d a free E T S. unfold receive. rewrite E, T, S. eexists. split; [reflexivity|]. split; [reflexivity|]. eapply set_server_at. exact E.
  Qed.
  Theorem C70_nothing_after_stop : forall (h : host U) w h1 w1 i xs, host_step db (h, w) (HApi OpStop) = Ret (h1, w1) \/ host_step db (h, w) HCtrlStop = Ret (h1, w1) ->
    host_run db (h1, w1) (map (recv i) xs) = Ret (h1, w1).
  Proof.
    intros h w h1 w1 i xs E.
    assert (I : idle (n_mgr (h_node h1))).
    { destruct E as [E|E]; cbn [host_step node_step] in E.
      - destruct (h_poisoned h); [discriminate|]. destruct (node_stop (h_node h)) as [[ok n1]|] eqn:E1; cbn [obind] in E; [|discriminate].
        apply stop_servers in E1 as [I _]. inversion E; subst. exact I.
      - destruct (h_cpoisoned h); [discriminate|]. destruct (h_poisoned h); [discriminate|]. unfold controller_stop in E.
        destruct (node_stop (h_node h)) as [[ok n1]|] eqn:E1; cbn [obind fst snd] in E; [|discriminate].
        apply stop_servers in E1 as [I _]. inversion E; subst. exact I. }
    clear E. induction xs as [|x r IH]; cbn [map host_run]; auto. unfold recv at 1. cbn [host_step]. unfold receive.
    assert (X : h_server h1 i = None). { destruct I as [I1 I2]. unfold h_server. destruct i; cbn [server_at]; [rewrite I1|rewrite I2]; destruct k; reflexivity. }
    rewrite X. cbn [obind]. exact IH.
  Qed.
  (** A datagram that ends too early silences the server for good. *)
  Theorem C70_deaf_refuted : forall (h : host U) w i s d a free xs, receiving h i s -> half d ->
    exists h1 w1, host_step db (h, w) (HRecv i d a free) = Ret (h1, w1) /\ host_run db (h1, w1) (map (recv i) xs) = Ret (h1, w1) /\ h_log h1 = h_log h.
  Proof.
    intros h w i s d a free xs R Hf. cbn [host_step]. rewrite (half_kills free h w i s d a R Hf). eexists. eexists. split; [reflexivity|]. split; [|reflexivity].
    induction xs as [|x r IH]; cbn [map host_run]; auto. unfold recv at 1. cbn [host_step]. unfold receive.
    assert (X : h_server (h_set_server h i (sv_with_thread s TPanicked)) i = Some (sv_with_thread s TPanicked)) by (eapply set_server_at; apply R).
    rewrite X. cbn [sv_thread sv_with_thread obind]. exact IH.
  Qed.

  (** ** C71 *)
  (** If the application starts the node only when it is stopped, and adds
      observers only then, every observer is called once per frame. *)
  Theorem C71_once_partial : forall np n0 (u : U) w ops h w' i s d a f free, history np n0 u w ops h w' -> calm db (host_new u n0) w ops ->
    receiving h i s -> safe d -> holds d f ->
    exists h2 w2 m, host_step db (h, w') (HRecv i d a free) = Ret (h2, w2) /\ carries m f /\ msg_from m = a /\
      h_log h2 = h_log h ++ map (fun o => (o, m)) (observers_added ops).
  Proof.
    intros np n0 u w ops h w' i s d a f free H Ca R Sd Hd. pose proof (history_healthy _ _ _ _ _ _ _ H) as Hh.
    destruct (history_servers _ _ _ _ _ _ _ H) as (_ & _ & Rg). rewrite <- (receiving_registered _ h i s (Rg Ca)) by apply R.
    destruct (receive_healthy seed db Db Uo free h w' i d a s Hh R Sd) as (h2 & w2 & l & E & _ & C & L & _). cbn [host_step]. rewrite E.
    inversion C as [g m Hg Cm Fm El|Nf El]; [|exfalso; eapply Nf; eauto]. exists h2, w2, m. split; auto. rewrite (holds_unique _ _ _ Hd Hg). split; auto. split; auto.
    rewrite L, <- El. auto.
  Qed.
  (** Starting a running node registers all observers again. *)
  Lemma restart np n0 (u : U) w ops h w' i s : history np n0 u w ops h w' -> receiving h i s ->
    exists h1 w1 s1, host_step db (h, w') (HApi OpStart) = Ret (h1, w1) /\ history np n0 u w (ops ++ [HApi OpStart]) h1 w1 /\ receiving h1 i s1 /\
      sv_observers s1 = sv_observers s ++ observers_added ops /\ h_log h1 = h_log h /\ map object_code (n_objects (h_node h1)) = map object_code (n_objects (h_node h)).
  Proof.
    intros H (E & T & S). pose proof (history_healthy _ _ _ _ _ _ _ H) as Hh. destruct (history_servers _ _ _ _ _ _ _ H) as (Up & Ob & _).
    assert (K : hop_ok (U := U) (HApi OpStart)) by (split; exact I).
    destruct (hstep_healthy seed db Db Uo h w' (HApi OpStart) K Hh) as (h1 & w1 & E1 & H1). pose proof E1 as E0. cbn [host_step] in E1. rewrite (hh_poisoned _ Hh) in E1.
    destruct (node_step (h_user h, h_node h, w') OpStart) as [[[u1 n1] w2]|] eqn:E2; cbn [obind] in E1; [|discriminate].
    destruct (step_shapes _ _ _ OpStart _ _ _ I E2) as [Sh _]. cbn [objects_added flat_map] in Sh. rewrite app_nil_r in Sh.
    cbn [node_step] in E2. destruct (node_start w' (h_node h)) as [[[ok n2] w3]|] eqn:E3; cbn [obind] in E2; [|discriminate]. inversion E2; subst. inversion E1; subst.
    destruct (start_servers w' (h_node h) ok n1 w1 (hn_fine _ (hh_node _ Hh)) E3) as (_ & _ & _ & St).
    assert (Rn : manager_running (n_mgr (h_node h)) = true).
    { unfold manager_running, servers_running. destruct Up as [[I1 I2]|(I1 & _ & I2)].
      - exfalso. unfold h_server in E. destruct i; cbn [server_at] in E; [rewrite I1 in E|rewrite I2 in E]; destruct k; discriminate.
      - destruct (mg_ucast _); [contradiction|]. destruct (mg_mcast _); [contradiction|]. reflexivity. }
    specialize (St i s Rn E). eexists. eexists. exists (with_observers (n_observers (h_node h)) s). split; [exact E0|].
    split; [eapply history_more; [exact H|constructor; [exact K|constructor]|]; cbn [host_run]; rewrite E0; reflexivity|].
    split; [repeat split; auto|]. split; [cbn; rewrite Ob; auto|]. split; auto.
    cbn [h_node h_with_node]. clear - Sh. induction Sh as [|x y l l' Sx Sh IH]; cbn [map]; auto. f_equal; auto. symmetry. apply object_code_codes. apply Sx.
  Qed.
  Theorem C71_twice_refuted : forall np n0 (u : U) w ops h w' i s d a f free, history np n0 u w ops h w' -> calm db (host_new u n0) w ops ->
    receiving h i s -> safe d -> holds d f ->
    exists h2 w2 m, host_run db (h, w') [HApi OpStart; HRecv i d a free] = Ret (h2, w2) /\ carries m f /\
      h_log h2 = h_log h ++ map (fun o => (o, m)) (observers_added ops ++ observers_added ops).
  Proof.
    intros np n0 u w ops h w' i s d a f free H Ca R Sd Hd.
    destruct (history_servers _ _ _ _ _ _ _ H) as (_ & _ & Rg).
    destruct (restart _ _ _ _ _ _ _ _ _ H R) as (h1 & w1 & s1 & E1 & H1 & R1 & O1 & L1 & _). rewrite (receiving_registered _ h i s (Rg Ca)) in O1 by apply R.
    destruct (receive_healthy seed db Db Uo free h1 w1 i d a s1 (history_healthy _ _ _ _ _ _ _ H1) R1 Sd) as (h2 & w2 & l & E & _ & C & L & _).
    inversion C as [g m Hg Cm Fm El|Nf El]; [|exfalso; eapply Nf; eauto]. exists h2, w2, m. cbn [host_run]. rewrite E1. cbn [obind host_step]. rewrite E. cbn [obind].
    split; auto. rewrite (holds_unique _ _ _ Hd Hg). split; auto. rewrite L, <- El, L1, O1. auto.
  Qed.
  (** An observer added to a running node is not called. *)
  Theorem C71_late_refuted : forall np n0 (u : U) w ops h w' i s d a f free o, history np n0 u w ops h w' -> calm db (host_new u n0) w ops ->
    receiving h i s -> safe d -> holds d f ->
    exists h2 w2 m, host_run db (h, w') [HApi (OpAddObserver o); HRecv i d a free] = Ret (h2, w2) /\ carries m f /\
      h_log h2 = h_log h ++ map (fun o => (o, m)) (observers_added ops).
  Proof.
    intros np n0 u w ops h w' i s d a f free o H Ca R Sd Hd. pose proof (history_healthy _ _ _ _ _ _ _ H) as Hh.
    destruct (history_servers _ _ _ _ _ _ _ H) as (_ & _ & Rg). rewrite <- (receiving_registered _ h i s (Rg Ca)) by apply R.
    assert (K : hop_ok (U := U) (HApi (OpAddObserver o))) by (split; exact I).
    destruct (hstep_healthy seed db Db Uo h w' _ K Hh) as (h1 & w1 & E1 & H1). pose proof E1 as E0. cbn [host_step node_step] in E1. rewrite (hh_poisoned _ Hh) in E1. cbn [obind] in E1.
    inversion E1; subst. clear E1. cbn [host_run]. rewrite E0. cbn [obind].
    destruct (receive_healthy seed db Db Uo free _ w1 i d a s H1) with (2 := Sd) as (h2 & w2 & l & E & _ & C & L & _).
    { exact R. }
    inversion C as [g m Hg Cm Fm El|Nf El]; [|exfalso; eapply Nf; eauto]. exists h2, w2, m. cbn [host_step]. rewrite E. cbn [obind].
    split; auto. rewrite (holds_unique _ _ _ Hd Hg). split; auto. rewrite L, <- El. reflexivity.
  Qed.

  (** ** C72 *)
  (** A message that is sent and fits into 1024 bytes reaches the observers of
      the receiver unchanged. *)
  Theorem C72_fits_partial : forall U1 ws (ns : node U1) to m ok m' ns' ws' trs d, built m -> in_limits m -> m_esv m <> 0x5E ->
    node_send ws ns to m = (ok, m', ns', ws') -> since ws ws' trs -> In (to, d) (sent trs) -> (length d <= N.to_nat 1024)%nat ->
    forall np n0 (u : U) w ops h w' i s a free, history np n0 u w ops h w' -> receiving h i s ->
    exists h2 w2 m2, host_step db (h, w') (HRecv i d a free) = Ret (h2, w2) /\ same_content m' m2 /\ msg_from m2 = a /\
      h_log h2 = h_log h ++ map (fun o => (o, m2)) (sv_observers s).
  Proof.
    intros U1 ws ns to m ok m' ns' ws' trs d B L V Es Ss Id Ld np n0 u w ops h w' i s a free H R.
    pose proof (history_healthy _ _ _ _ _ _ _ H) as Hh.
    apply node_send_spec in Es as (Ut & tr & S & _ & _ & Fo & Se). rewrite (since_unique _ _ _ _ Ss S), Se in Id.
    assert (B' : built m' /\ in_limits m' /\ m_esv m' = m_esv m).
    { apply update_tid_spec in Ut as [(_ & _ & ->)|(_ & _ & ->)]; auto. split; [apply B_tid; auto; unfold next; destruct (N.leb_spec 65535 (n_last_tid ns)); lia|]. split; auto. }
    destruct B' as (B' & L' & V'). rewrite <- V' in V.
    destruct ok; [|destruct Id]. destruct Id as [Id|[]]. inversion Id; subst d. clear Id.
    pose proof (built_wf m' B') as Wm. set (f := frame_of m') in *.
    assert (Fk : frame_ok f) by (apply frame_of_ok; auto). assert (Eb : msg_bytes m' = wire f) by (apply msg_bytes_wire; auto). rewrite Eb in *.
    destruct (C01_round_trip m' B' L' V) as (m2 & Ep & Sc & _). rewrite Eb in Ep.
    assert (Sd : safe (wire f)) by (apply wire_safe; auto).
    destruct (receive_healthy seed db Db Uo free h w' i (wire f) a s Hh R Sd) as (h2 & w2 & l & E & _ & C & Lg & _).
    destruct R as (R1 & R2 & R3). cbn [host_step]. 
    pose proof (fine_at _ _ _ (hn_fine _ (hh_node _ Hh)) R1) as [Fp _].
    exists h2, w2, (msg_set_from m2 a). rewrite E. split; auto. split; [exact Sc|]. split; [reflexivity|].
    unfold receive in E. rewrite R1, R2, R3, max_packet, (seen_short (wire f)), Ep, Fp in E by auto.
    assert (Rc : received (msg_set_from m2 a)) by (exists (wire f), m2, a; split; [apply wire_octets|]; auto).
    assert (V2 : m_esv (msg_set_from m2 a) <> 0x5E) by (change (m_esv m2 <> 0x5E); destruct Sc as (_ & _ & _ & X & _); congruence).
    destruct (notify_healthy (U := U) seed db Db Uo free (msg_set_from m2 a) (sv_observers s) Rc V2 0%nat h w' Hh) as (h3 & w3 & En & _ & L3 & _); auto.
    rewrite En in E. inversion E; subst. exact L3.
  Qed.
  (** A frame of more than 1024 bytes reaches no observer of any process. *)
  Theorem C72_large_refuted : forall f, frame_ok f -> (length (wire f) > N.to_nat 1024)%nat ->
    forall (h : host U) w i a free, h_log (fst (receive db free h w i (wire f) a)) = h_log h.
  Proof.
    intros f Fk Len h w i a free. unfold receive. destruct (h_server h i) as [s|]; [|reflexivity]. destruct (sv_thread s); try reflexivity. destruct (sv_stop s); [reflexivity|].
    rewrite max_packet. destruct (parse_seen (wire f) (wire_octets f Fk)) as [(g & (Gk & rest & Eg) & _)|[(_ & m & ->)|(_ & ->)]]; try reflexivity. exfalso.
    assert (X : wire f ++ [] = wire g ++ (rest ++ skipn (N.to_nat 1024) (wire f))).
    { rewrite app_assoc, <- Eg, app_nil_r. symmetry. apply firstn_skipn. }
    apply wire_unique in X as [_ X]; auto. symmetry in X. apply app_eq_nil in X as [_ X]. apply (f_equal (@length N)) in X. rewrite skipn_length in X.
    revert Len X. generalize (N.to_nat 1024). cbn [length]. lia.
  Qed.

  (** ** C50 *)
  (** A request that needs a response causes one response per registration of the
      node as an observer of the server. *)
  Theorem C50_count : forall np n0 (u : U) w ops h w' i s d a f, history np n0 u w ops h w' -> receiving h i s ->
    octets d -> holds d f -> In (f_esv f) [0x61; 0x62; 0x6E] -> (exists o, addressed (n_objects (h_node h)) (f_deoj f) o) -> (forall k, os_send k = true) ->
    exists h2 w2 tr, host_step db (h, w') (HRecv i d a (fun _ => true)) = Ret (h2, w2) /\ since w' w2 tr /\
      length (sent tr) = node_observers (sv_observers s) /\ Forall (fun x => fst x = (fst a, 3610)) (sent tr).
  Proof.
    intros np n0 u w ops h w' i s d a f H (E & T & S) Od Hd Es Ad Al. pose proof (history_healthy _ _ _ _ _ _ _ H) as Hh.
    destruct (history_servers _ _ _ _ _ _ _ H) as (Up & _ & _).
    destruct Up as [[I1 I2]|(Nu & Bu & _)].
    { exfalso. unfold h_server in E. destruct i; cbn [server_at] in E; [rewrite I1 in E|rewrite I2 in E]; destruct k; discriminate. }
    cbn [host_step]. unfold receive. rewrite E, T, S, max_packet. pose proof Hd as (Fk & rest & Eq). rewrite Eq, parse_wire by auto.
    pose proof (fine_at _ _ _ (hn_fine _ (hh_node _ Hh)) E) as [-> _]. destruct (held_received d f a Od Hd) as [R (C1 & C2 & C3 & C4 & _)].
    rewrite <- C4 in Es.
    destruct (notify_sends (U := U) seed db Db Uo (fun _ => true) (msg_set_from (msg_of_frame msg_new f) a) (sv_observers s) (f_deoj f) R Es Al (fun _ => eq_refl) 0%nat h w' Hh Ad C3 Nu Bu)
      as (h2 & w2 & tr & En & Sn & Ln & Fn).
    rewrite En. exists h2, w2, tr. auto.
  Qed.
  Theorem C50_one_response_partial : forall np n0 (u : U) w ops h w' i s d a f, history np n0 u w ops h w' -> calm db (host_new u n0) w ops ->
    node_observers (observers_added ops) = 1%nat -> receiving h i s ->
    octets d -> holds d f -> In (f_esv f) [0x61; 0x62; 0x6E] -> (exists o, addressed (n_objects (h_node h)) (f_deoj f) o) -> (forall k, os_send k = true) ->
    exists h2 w2 tr data, host_step db (h, w') (HRecv i d a (fun _ => true)) = Ret (h2, w2) /\ since w' w2 tr /\ sent tr = [((fst a, 3610), data)].
  Proof.
    intros np n0 u w ops h w' i s d a f H Ca One R Od Hd Es Ad Al.
    destruct (history_servers _ _ _ _ _ _ _ H) as (_ & _ & Rg).
    destruct (C50_count _ _ _ _ _ _ _ i s d a f H R Od Hd Es Ad Al) as (h2 & w2 & tr & E & Sn & Ln & Fn).
    rewrite (receiving_registered _ h i s (Rg Ca)), One in Ln by apply R. destruct (sent tr) as [|[to data] [|y l]] eqn:Et; cbn in Ln; try discriminate.
    pose proof (Forall_inv Fn) as X. cbn [fst] in X. subst to. exists h2, w2, tr, data. auto.
  Qed.
  (** After one more start there are two responses. *)
  Theorem C50_restart_refuted : forall np n0 (u : U) w ops h w' i s d a f, history np n0 u w ops h w' -> calm db (host_new u n0) w ops ->
    node_observers (observers_added ops) = 1%nat -> receiving h i s ->
    octets d -> holds d f -> In (f_esv f) [0x61; 0x62; 0x6E] -> (exists o, addressed (n_objects (h_node h)) (f_deoj f) o) -> (forall k, os_send k = true) ->
    exists h1 w1 h2 w2 tr, host_step db (h, w') (HApi OpStart) = Ret (h1, w1) /\ host_step db (h1, w1) (HRecv i d a (fun _ => true)) = Ret (h2, w2) /\
      since w1 w2 tr /\ length (sent tr) = 2%nat /\ Forall (fun x => fst x = (fst a, 3610)) (sent tr).
  Proof.
    intros np n0 u w ops h w' i s d a f H Ca One R Od Hd Es Ad Al.
    destruct (history_servers _ _ _ _ _ _ _ H) as (_ & _ & Rg).
    destruct (restart _ _ _ _ _ _ _ _ _ H R) as (h1 & w1 & s1 & E1 & H1 & R1 & O1 & _ & Cd). rewrite (receiving_registered _ h i s (Rg Ca)) in O1 by apply R.
    destruct (C50_count _ _ _ _ _ _ _ i s1 d a f H1 R1 Od Hd Es) as (h2 & w2 & tr & E & Sn & Ln & Fn); auto.
    { destruct Ad as (o & pre & post & Eo & Co & Fp). rewrite Eo, map_app in Cd. cbn [map] in Cd. apply map_eq_app in Cd as (p1 & q1 & E2 & E3 & E4).
      destruct q1 as [|y q1]; [discriminate|]. cbn [map] in E4. injection E4 as Ey Eq. exists y, p1, q1. split; auto. split; [congruence|].
      clear - E3 Fp. revert pre E3 Fp. induction p1 as [|x p IH]; intros [|z q] E F; try discriminate; constructor; cbn [map] in E; injection E as A B; inversion F; subst; [congruence|eapply IH; eauto]. }
    exists h1, w1, h2, w2, tr. split; auto. split; auto. split; auto. split; auto. rewrite Ln, O1. unfold node_observers in *. rewrite filter_app, app_length, One. reflexivity.
  Qed.

  (** ** C75 *)
  (** If the node is in use during the call of the observers, the request is
      dropped: nothing is sent and nothing changes. *)
  Theorem C75_dropped_refuted : forall np n0 (u : U) w ops h w' i s d a, history np n0 u w ops h w' -> receiving h i s -> safe d ->
    exists h2, host_step db (h, w') (HRecv i d a (fun _ => false)) = Ret (h2, w') /\ h_node h2 = h_node h /\ h_user h2 = h_user h.
  Proof.
    intros np n0 u w ops h w' i s d a H (E & T & S) [Od Hf He]. pose proof (history_healthy _ _ _ _ _ _ _ H) as Hh.
    cbn [host_step]. unfold receive. rewrite E, T, S, max_packet. destruct (parse_seen d Od) as [(f & Hd & ->)|[(_ & m & ->)|(Hf' & _)]]; [|eauto|contradiction].
    pose proof (fine_at _ _ _ (hn_fine _ (hh_node _ Hh)) E) as [-> _].
    assert (X : forall m l i h w, h_wpoisoned h = [] -> exists h', notify_observers db (fun _ => false) i h w l m = (false, h', w) /\ h_node h' = h_node h /\ h_user h' = h_user (U := U) h).
    { clear. intros m l. induction l as [|o r IH]; intros i h w W; cbn [notify_observers]; [eauto|]. rewrite W. cbn [existsb].
      assert (Y : observer_received db false (h_called h o m) w o m = (false, h_called h o m, w)).
      { unfold observer_received. destruct (ob_kind o); auto; rewrite orb_true_r; auto. }
      rewrite Y. destruct (IH (S i) (h_called h o m) w W) as (h' & A & B & C). eauto. }
    destruct (X (msg_set_from (msg_of_frame msg_new f) a) (sv_observers s) 0%nat h w' (hh_wpoisoned _ Hh)) as (h2 & -> & A & B). eauto.
  Qed.
  (** Otherwise it is answered. *)
  Theorem C75_answered_partial : forall np n0 (u : U) w ops h w' i s d a f, history np n0 u w ops h w' -> receiving h i s ->
    (exists o, In o (sv_observers s) /\ ob_kind o = ObsNode) ->
    octets d -> holds d f -> In (f_esv f) [0x61; 0x62; 0x6E] -> (exists o, addressed (n_objects (h_node h)) (f_deoj f) o) -> (forall k, os_send k = true) ->
    exists h2 w2 tr data, host_step db (h, w') (HRecv i d a (fun _ => true)) = Ret (h2, w2) /\ since w' w2 tr /\ In ((fst a, 3610), data) (sent tr).
  Proof.
    intros np n0 u w ops h w' i s d a f H R (o & Io & Ko) Od Hd Es Ad Al.
    destruct (C50_count _ _ _ _ _ _ _ i s d a f H R Od Hd Es Ad Al) as (h2 & w2 & tr & E & Sn & Ln & Fn).
    destruct (sent tr) as [|[to data] l] eqn:Et.
    - exfalso. cbn in Ln. unfold node_observers in Ln.
      assert (X : In o (filter (fun o => match ob_kind o with ObsNode => true | _ => false end) (sv_observers s))) by (apply filter_In; rewrite Ko; auto).
      destruct (filter _ _); [destruct X|discriminate].
    - pose proof (Forall_inv Fn) as X. cbn in X. subst to. exists h2, w2, tr, data. split; auto. split; auto. rewrite Et. left. auto.
  Qed.
End S.

Print Assumptions C50_count.
Print Assumptions C50_one_response_partial.
Print Assumptions C50_restart_refuted.
Print Assumptions C70_in_order_partial.
Print Assumptions C70_others_ignored.
Print Assumptions C70_ends_on_request.
Print Assumptions C70_nothing_after_stop.
Print Assumptions C70_deaf_refuted.
Print Assumptions C71_once_partial.
Print Assumptions C71_twice_refuted.
Print Assumptions C71_late_refuted.
Print Assumptions C72_fits_partial.
Print Assumptions C72_large_refuted.
Print Assumptions C75_dropped_refuted.
Print Assumptions C75_answered_partial.
Print Assumptions C76_calls_return_partial.
Print Assumptions C76_runs_partial.
Print Assumptions C76_stop_refuted.
Print Assumptions C76_sna_refuted.

(** ** Concrete cases *)
(** A device process: the node observes its own messages, and so does the
    application with observer 2. *)
Definition dev_ops : list (host_op unit) :=
  [HApi (OpAddObserver (Observer 1 ObsNode)); HApi (OpAddObserver (Observer 2 ObsUser)); HApi (OpAddObject lamp); HApi (OpAddHandler yes); HApi OpStart].
Definition dev_run (ops : list (host_op unit)) : outcome (host unit * world) :=
  host_run (P := true) (HO := ex_order) (O := ex_os) (Uu := ex_uuids) ex_db (ex_host, w0) ops.
Definition dev_state (ops : list (host_op unit)) : host unit * world := the (ex_host, w0) (dev_run ops).
(** Calls of the observers: observer, TID and sender; datagrams sent after start. *)
Definition dev_calls (ops : list (host_op unit)) : option (list (N * N * sockaddr)) :=
  match dev_run (dev_ops ++ ops) with Ret (h, _) => Some (map (fun x => (ob_id (fst x), msg_tid (snd x), msg_from (snd x))) (h_log h)) | Panic => None end.
Definition dev_sent (ops : list (host_op unit)) : option (list (sockaddr * list N)) :=
  match dev_run (dev_ops ++ ops) with Ret (_, w) => Some (sent (skipn (length (w_trace (snd (dev_state dev_ops)))) (w_trace w))) | Panic => None end.
Definition on_lamp (tid : N) : list N := to_lamp tid 0x61 [1; 0x80; 1; 0x30].
Definition get (d : list N) : host_op unit := HRecv (Uni 0) d peer (fun _ => true).
Definition yes_answer (tid : N) : list N := [0x10; 0x81; tid / 256; tid mod 256; 0x02; 0x91; 1; 0x05; 0xFF; 1; 0x71; 1; 0x80; 0].

Lemma codes_check o : forallb (fun x => 0x80 <=? fst x) (o_props o) = true -> forall c p, object_find_property o c = Some p -> 0x80 <= c.
Proof. intros H c p E. apply hget_in in E. rewrite forallb_forall in H. apply H in E. apply N.leb_le. exact E. Qed.
Lemma lamp_codes : forall c p, object_find_property lamp c = Some p -> 0x80 <= c.
Proof. apply codes_check. vm_compute. reflexivity. Qed.
Lemma ex_np_codes : forall c p, object_find_property ex_np c = Some p -> 0x80 <= c.
Proof. apply codes_check. vm_compute. reflexivity. Qed.
Lemma dev_ok : Forall (hop_ok (P := true) (HO := ex_order)) dev_ops.
Proof.
  constructor; [split; exact I|]. constructor; [split; exact I|]. constructor; [split; [apply lamp_built|exact lamp_codes]|].
  constructor; [split; [apply yes_typed|intros u o e p; discriminate]|]. constructor; [split; exact I|]. constructor.
Qed.
(** Compare these by unfolding them first. *)
Strategy expand [dev_run dev_state ex_host].
Lemma the_run x : (match x with Ret _ => true | Panic => false end) = true -> x = Ret (fst (the (ex_host, w0) x), snd (the (ex_host, w0) x)).
Proof. destruct x as [[h w]|]; [reflexivity|discriminate]. Qed.
Lemma dev_history ops : Forall (hop_ok (P := true) (HO := ex_order)) ops ->
  (match dev_run ops with Ret _ => true | Panic => false end) = true ->
  history (P := true) (HO := ex_order) (Os := ex_os) (Uu := ex_uuids) ex_db ex_np ex_node0 tt w0 ops (fst (dev_state ops)) (snd (dev_state ops)).
Proof.
  intros F H. constructor.
  - split; [apply ex_np_built|exact ex_np_codes].
  - vm_compute. reflexivity.
  - exact F.
  - exact (the_run (dev_run ops) H).
Qed.
Lemma idle_check (P : Profile) (HO : HashOrder) (Os : OS) (Uu : Uuids) db (s : host unit * world) ops h w : host_run db s ops = Ret (h, w) ->
  (match host_run db s ops with Ret (h, _) => match mg_ucast (n_mgr (h_node h)), mg_mcast (n_mgr (h_node h)) with [], [] => true | _, _ => false end | Panic => false end) = true ->
  idle (n_mgr (h_node h)).
Proof. intros ->. unfold idle. destruct (mg_ucast _), (mg_mcast _); try discriminate. auto. Qed.
(** The assumptions of the theorems hold for this process. *)
Example host_case : let h := fst (dev_state dev_ops) in
  history (P := true) (HO := ex_order) (Os := ex_os) (Uu := ex_uuids) ex_db ex_np ex_node0 tt w0 dev_ops h (snd (dev_state dev_ops)) /\
  calm (P := true) (HO := ex_order) (Os := ex_os) (Uu := ex_uuids) ex_db (host_new tt ex_node0) w0 dev_ops /\
  node_observers (observers_added dev_ops) = 1%nat /\ (exists s, receiving h (Uni 0) s) /\ safe (on_lamp 5) /\
  holds (on_lamp 5) (Frame 5 0x05FF01 0x029101 0x61 (Single [(0x80, [0x30])])) /\ exists o, addressed (n_objects (h_node h)) 0x029101 o.
Proof.
  cbv zeta. split; [apply dev_history; [apply dev_ok|vm_compute; reflexivity]|]. split; [|split; [reflexivity|split; [|split; [|split]]]].
  - intros pre op post h1 w1 E R.
    destruct pre as [|a [|b [|c [|d [|e r]]]]]; cbn [app dev_ops] in E; injection E; intros; subst; try exact I;
      try (apply (idle_check _ _ _ _ _ _ _ _ _ R); vm_compute; reflexivity).
    destruct r; discriminate.
  - assert (X : match h_server (fst (dev_state dev_ops)) (Uni 0) with Some s => match sv_thread s with TRunning => negb (sv_stop s) | _ => false end | None => false end = true) by (vm_compute; reflexivity).
    unfold receiving. destruct (h_server _ _) as [s|]; [|discriminate]. exists s. destruct (sv_thread s); try discriminate. destruct (sv_stop s); [discriminate|auto].
  - change (on_lamp 5) with (wire (Frame 5 0x05FF01 0x029101 0x61 (Single [(0x80, [0x30])]))). apply wire_safe; [| |discriminate].
    + repeat split; cbn; try lia; repeat constructor; cbn; try lia; try (unfold octet; lia). intros [X|[X|X]]; discriminate.
    + cbn. lia.
  - change (on_lamp 5) with (wire (Frame 5 0x05FF01 0x029101 0x61 (Single [(0x80, [0x30])]))). apply wire_holds.
    + repeat split; cbn; try lia; repeat constructor; cbn; try lia; try (unfold octet; lia). intros [X|[X|X]]; discriminate.
    + cbn. lia.
  - assert (X : match n_objects (h_node (fst (dev_state dev_ops))) with [a; b] => negb (object_code a =? 0x029101) && (object_code b =? 0x029101) | _ => false end = true) by (vm_compute; reflexivity).
    destruct (n_objects _) as [|a [|b [|c l]]]; try discriminate. apply andb_true_iff in X as [X Y]. apply N.eqb_eq in Y. exists b, [a], []. split; auto. split; auto.
    constructor; [|constructor]. intro Z. rewrite Z in X. discriminate.
Qed.
Example C50_case : dev_sent [get (on_lamp 5)] = Some [(peer, yes_answer 5)] /\
  option_map (fun l => skipn 1 l) (dev_sent [HApi OpStart; get (on_lamp 5)]) = Some [(peer, yes_answer 5); (peer, yes_answer 5)].
Proof. vm_compute. auto. Qed.
Example C70_case : dev_calls [get (on_lamp 5); get [1; 2; 3]; get (on_lamp 6)] = Some [(1, 5, peer); (2, 5, peer); (1, 6, peer); (2, 6, peer)] /\
  dev_calls [get (on_lamp 5); HApi OpStop; get (on_lamp 6)] = Some [(1, 5, peer); (2, 5, peer)] /\
  dev_calls [get (to_lamp 5 0x6E [0]); get (on_lamp 6)] = Some [].
Proof. vm_compute. auto. Qed.
Example C71_case : dev_calls [HApi OpStart; get (on_lamp 5)] = Some [(1, 5, peer); (2, 5, peer); (1, 5, peer); (2, 5, peer)] /\
  dev_calls [HApi (OpAddObserver (Observer 3 ObsUser)); get (on_lamp 5)] = Some [(1, 5, peer); (2, 5, peer)] /\
  dev_calls [HApi OpStop; HApi (OpAddObserver (Observer 3 ObsUser)); HApi OpStart; get (on_lamp 5)] = Some [(1, 5, peer); (2, 5, peer); (3, 5, peer)].
Proof. vm_compute. auto. Qed.
(** 4 properties of 250 bytes fit, 5 do not. *)
Definition big (k : nat) : list N := to_lamp 5 0x61 (N.of_nat k :: concat (repeat (0x80 :: 250 :: repeat 0x30 250) k)).
Example C72_case : dev_calls [get (big 4)] = Some [(1, 5, peer); (2, 5, peer)] /\ dev_calls [get (big 5)] = Some [] /\ length (big 5) = 1272%nat.
Proof. vm_compute. auto. Qed.
Example C75_case : dev_sent [HRecv (Uni 0) (on_lamp 5) peer (fun _ => false)] = Some [] /\ dev_sent [get (on_lamp 5)] = Some [(peer, yes_answer 5)].
Proof. vm_compute. auto. Qed.
Example C76_case : match dev_run (dev_ops ++ [get (on_lamp 5); get [1; 2; 3]; HApi OpStop; HApi OpStart]) with Ret _ => true | Panic => false end = true /\
  dev_run (dev_ops ++ [get (to_lamp 5 0x6E [0]); HApi OpStop]) = Panic /\
  dev_run (dev_ops ++ [get (to_lamp (n_last_tid (h_node (fst (dev_state dev_ops)))) 0x5E [0; 0]); HApi OpAnnounce]) = Panic.
Proof. vm_compute. auto. Qed.
