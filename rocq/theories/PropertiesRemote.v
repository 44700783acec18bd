(** C77: a remote device behaves as a map. *)
From Verif Require Import Base HMap ModelCodec ModelMessages DbTable ModelObject ModelTransport ModelNode ModelController
  SpecWire SpecObject SpecNode ProofsCodec ProofsCodec2 PropertiesCodec ProofsObject ProofsObject2 ProofsObject3
  PropertiesObject PropertiesDb ProofsDevice ProofsNode ProofsNode2 ProofsNode3 ProofsNode4 ExamplesNode PropertiesNode PropertiesTrans
  PropertiesProfile ProofsExchange ProofsController ProofsHistory SpecRemote.

Lemma new_events_since w w' tr : since w w' tr -> new_events w w' = tr.
Proof. unfold since, new_events. intros ->. rewrite skipn_app, skipn_all, Nat.sub_diag. reflexivity. Qed.
Lemma ipaddr_eqb_refl a : ipaddr_eqb a a = true.
Proof. destruct a; cbn; apply N.eqb_refl. Qed.
Lemma sent_to_one ip w w' tr d : since w w' tr -> sent tr = [((ip, 3610), d)] -> sent_to ip w w' = [d].
Proof. intros S E. unfold sent_to. rewrite (new_events_since _ _ _ S), E. cbn. rewrite ipaddr_eqb_refl. reflexivity. Qed.

Lemma to_wprop_unw ps : map to_wprop (map (fun x : wprop => PProp (fst x) (snd x)) ps) = ps.
Proof. rewrite map_map. rewrite <- (map_id ps) at 2. apply map_ext. intros []. reflexivity. Qed.
Lemma wire_octets f : frame_ok f -> octets (wire f).
Proof.
  intros (Ht & Hs & Hd & Hv & Hb). unfold wire. apply octets_app. split; [repeat constructor; unfold octet; lia|].
  apply octets_app. split; [repeat constructor; unfold octet; lia|]. apply octets_app. split; [repeat constructor; unfold octet; lia|].
  constructor; [exact Hv|].
  assert (X : forall ps, wprops_ok ps -> octets (wire_props ps)).
  { intros ps [F L]. unfold wire_props. constructor; [unfold octet; lia|]. clear L. induction F as [|p r (A & B & C) F IH]; [constructor|].
    cbn [map concat]. apply octets_app. split; auto. constructor; [exact A|]. constructor; [unfold octet; lia|exact B]. }
  destruct (f_body f) as [ps|ss gs]; cbn [wire_body wbody_ok] in *; [apply X; tauto|]. apply octets_app. split; apply X; tauto.
Qed.
Lemma wire_fits t s d e ps : (length (wire_props ps) <= 1013)%nat -> firstn MAX_PACKET_SIZE (wire (Frame t s d e (Single ps))) = wire (Frame t s d e (Single ps)).
Proof.
  intro L. apply firstn_all2. unfold wire. rewrite !app_length. cbn [f_body wire_body length wire_eoj]. change MAX_PACKET_SIZE with (11 + 1013)%nat. lia.
Qed.

Lemma map_code_spec c : is_map_code c = false <-> ~ In c [0x9D; 0x9E; 0x9F].
Proof.
  unfold is_map_code. cbn [In]. split.
  - intros H I. destruct I as [<-|[<-|[<-|[]]]]; discriminate.
  - intro H. destruct (N.eqb_spec c 0x9D), (N.eqb_spec c 0x9E), (N.eqb_spec c 0x9F); cbn; auto; exfalso; apply H; auto.
Qed.

(** The request on the wire. *)
Definition esv_of (r : request) : N := match r with Write _ => 0x61 | Read _ => 0x62 end.
Definition props_of (r : request) : list wprop := match r with Write ps => ps | Read cs => map (fun c => (c, [])) cs end.
Lemma message_of_eq code r : message_of code r =
  Msg (0x10, 0x81) (0, 0) (m_seoj msg_new) (m_deoj (msg_set_deoj msg_new code)) (esv_of r) (map (fun x : wprop => PProp (fst x) (snd x)) (props_of r)) [] [] (m_from msg_new).
Proof. destruct r; unfold message_of; rewrite fold_add_props; cbn [props_of]; rewrite ?map_map; reflexivity. Qed.

Section Device.
  Context {U : Type} {P : Profile} {HO : HashOrder} {Os : OS}.

  (** The device is ready: the state of the object [code] is [st]. *)
  Record holds (code : N) (o0 : object) (st : store) (n : node U) : Prop := {
    hd_good : node_good n; hd_std : node_std n; hd_total : Forall total_handler (n_handlers n); hd_off : Forall hands_off (n_handlers n);
    hd_yes : n_handlers n = [] \/ exists h, In h (n_handlers n) /\ accepts_all h; hd_send : can_send n;
    hd_obj : exists o, addressed (n_objects n) code o /\ same_shape o0 o /\
      forall c p, ~ In c [0x9D; 0x9E; 0x9F] -> object_find_property o c = Some p -> p_data p = st c }.

  Lemma shape_find a b c p : same_shape a b -> object_find_property a c = Some p -> exists q, object_find_property b c = Some q /\ same_attributes p q.
  Proof.
    intros (_ & _ & _ & S & A) E. destruct (object_find_property b c) as [q|] eqn:Eb; [exists q; split; auto; eapply A; eauto|].
    apply S in Eb. congruence.
  Qed.
  Lemma shape_may_write a b q : same_shape a b -> may_write a q -> may_write b q.
  Proof.
    intros S (p & E & W & C). destruct (shape_find _ _ _ _ S E) as (p' & E' & _ & _ & _ & Hc & _ & Hw & _). exists p'. rewrite <- Hw, <- Hc. auto.
  Qed.
  Lemma shape_can_read a b c : same_shape a b -> can_read a c -> can_read b c.
  Proof.
    intros S (p & E & W). destruct (shape_find _ _ _ _ S E) as (p' & E' & _ & _ & _ & _ & Hr & _). exists p'. rewrite <- Hr. auto.
  Qed.
  Lemma put_last ps : forall st c, fold_left put ps st c =
    match last_data c (map (fun x : wprop => PProp (fst x) (snd x)) ps) with Some d => d | None => st c end.
  Proof.
    induction ps as [|x r IH]; intros st c; cbn [fold_left map last_data]; auto. rewrite IH.
    destruct (last_data c _); auto. unfold put. cbn [pp_code pp_data]. rewrite (N.eqb_sym c). destruct (fst x =? c); auto.
  Qed.

  Lemma serve code o0 st r t a (u : U) n w : code < 2 ^ 24 -> t < 65536 -> holds code o0 st n -> usable o0 r -> fits (snd (store_answer st r)) ->
    (forall k, os_send k = true) ->
    exists u' n' w' t' tr, take Os a u n w [wire (Frame t 0x0EF001 code (esv_of r) (Single (props_of r)))] = Ret (u', n', w') /\
      t' < 65536 /\ (t <> 0 -> t' = t) /\ since w w' tr /\
      sent tr = [((fst a, 3610), wire (Frame t' code 0x0EF001 (fst (store_answer st r)) (Single (snd (store_answer st r)))))] /\
      holds code o0 (store_step st r) n'.
  Proof.
    intros Bc Bt H Us Fa Al. destruct H as [G Sd Tt Of Ys Sn (o & Ao & Sh & Dt)].
    set (f := Frame t 0x0EF001 code (esv_of r) (Single (props_of r))).
    assert (Fp : fits (props_of r)) by (destruct r; apply Us).
    assert (Es : esv_of r = 0x61 \/ esv_of r = 0x62) by (destruct r; auto).
    assert (Fk : frame_ok f).
    { unfold f, frame_ok. cbn [f_tid f_seoj f_deoj f_esv f_body wbody_ok]. split; auto. split; [lia|]. split; [exact Bc|]. split; [destruct Es as [-> | ->]; lia|].
      split; [intros [X|[X|X]]; destruct Es; congruence|]. apply Fp. }
    assert (Pd : msg_parse msg_new (firstn MAX_PACKET_SIZE (wire f)) = Ret (true, msg_of_frame msg_new f)).
    { unfold f at 1. rewrite wire_fits by apply Fp. fold f. rewrite <- (app_nil_r (wire f)). apply parse_wire. auto. }
    set (m0 := msg_of_frame msg_new f) in *. set (m := msg_set_from m0 a).
    assert (Rm : received m). { exists (wire f), m0, a. split; [apply wire_octets; auto|]. split; auto. unfold m0. rewrite <- (app_nil_r (wire f)). apply parse_wire. auto. }
    pose proof (received_rcvd _ Rm) as Rc.
    pose proof (carries_msg_of_frame f Fk) as (C1 & C2 & C3 & C4 & C5 & _). fold m0 in C1, C2, C3, C4, C5. cbn [f_tid f_seoj f_deoj f_esv f_body f] in C1, C2, C3, C4, C5.
    assert (Mp : m_props m = map (fun x : wprop => PProp (fst x) (snd x)) (props_of r)) by reflexivity.
    assert (Me : m_esv m = esv_of r) by exact C4.
    destruct (observe_total w u n m Rc G Sd Tt) as (u' & n' & w' & Ob). { rewrite Me. intro X. destruct Es; congruence. }
    assert (Pm : permitted o m).
    { unfold permitted, writes_of, reads_of. rewrite Me, Mp. destruct r as [ps|cs]; cbn [esv_of props_of N.eqb Pos.eqb orb]; cbn [usable] in Us; destruct Us as [Us _].
      - split; [|constructor]. apply Forall_map. eapply Forall_impl; [|exact Us]. intros x [X _]. eapply shape_may_write; eauto.
      - split; [constructor|]. rewrite map_map. apply Forall_map. eapply Forall_impl; [|exact Us]. intros x [X _]. unfold may_read. cbn. eapply shape_can_read; eauto. }
    assert (Ac : accepted_by (n_handlers n) o m).
    { destruct Ys as [Y|(h & Ih & Y)]; [left; auto|right]. exists h. split; auto. intros sd copy _ x p x' copy' b _ Ch. eapply Y; eauto. }
    assert (Ao' : addressed (n_objects n) (msg_deoj m) o). { change (msg_deoj m) with (msg_deoj m0). rewrite C3. exact Ao. }
    destruct (reply w u n m u' n' w' o Rc G Of) as
      (pre & post & o' & ps & t' & tr & ok & Eo & Eo' & Aa & Sh' & Go' & Ff & Eps & Wt & Ht & S & _ & Fo & Se & Ok & Kh & Km & _); auto.
    rewrite Ok in Se by auto.
    assert (W' : forall c, ~ In c [0x9D; 0x9E; 0x9F] -> forall p, object_find_property o' c = Some p -> p_data p = store_step st r c).
    { intros c Nc p E. rewrite Ff in E by (apply map_code_spec; auto). destruct (object_find_property o c) as [q|] eqn:Eq; cbn in E; [|discriminate].
      pose proof (Dt c q Nc Eq) as Dq. inversion E; subst p. clear E. unfold writes_of. rewrite Me, Mp. destruct r as [qs|cs]; cbn [esv_of N.eqb Pos.eqb orb store_step].
      - rewrite put_last. cbn [props_of]. destruct (last_data c _); auto.
      - auto. }
    assert (Ps : map to_wprop ps = snd (store_answer st r) /\ esv_of r + 16 = fst (store_answer st r)).
    { rewrite Eps, Me, Mp. destruct r as [qs|cs]; cbn [esv_of N.eqb Pos.eqb store_answer fst snd props_of]; (split; [|reflexivity]).
      - unfold ack_props. rewrite !map_map. reflexivity.
      - rewrite !map_map. apply map_ext_in. intros c I. cbn [fst snd]. unfold to_wprop, held. cbn [pp_code pp_data]. f_equal.
        destruct Us as [Us _]. pose proof (proj1 (Forall_forall _ _) Us c I) as [Rd Nc].
        apply (shape_can_read o0 o' c) in Rd as (p & Ep & _). 2: { eapply same_shape_trans; eauto. }
        unfold data_of, object_property_data. rewrite Ep. apply (W' c Nc p Ep). }
    destruct Ps as [Ps Pe].
    exists u', n', w', (fst t' * 256 + snd t'), tr. split; [cbn [take]; rewrite Pd; cbn [obind]; fold m; rewrite Ob; reflexivity|].
    split; [destruct Wt; lia|]. split. { intro Nz. rewrite Ht; [|rewrite <- C1 in Nz; exact Nz]. rewrite <- C1, msg_tid_eq. reflexivity. }
    split; auto. split.
    { rewrite Se. f_equal. f_equal. rewrite Me, Pe. rewrite with_t_wire.
      - change (msg_deoj m) with (msg_deoj m0). change (msg_seoj m) with (msg_seoj m0). rewrite C2, C3, Ps. reflexivity.
      - apply Rc.
      - exact Wt.
      - destruct r; cbn; lia.
      - destruct r; intros [X|[X|X]]; discriminate.
      - destruct Fa as [[Fa _] _]. rewrite <- Ps in Fa. rewrite Forall_map in Fa. eapply Forall_impl; [|exact Fa]. intros q (A & B & C). split; auto.
      - destruct Fa as [[Fa Fb] _]. rewrite <- Ps in Fa, Fb. rewrite map_length in Fb. split; [lia|]. rewrite Forall_map in Fa. eapply Forall_impl; [|exact Fa].
        intros q (A & B & C). unfold prop_in_limit. cbn in *. lia. }
    constructor; rewrite ?Kh; auto.
    - assert (Rn : node_run (u, n, w) [OpRecv m] = Ret (u', n', w')) by (cbn [node_run node_step]; rewrite Ob; reflexivity).
      refine (run_good [OpRecv m] u n w u' n' w' _ G Rn). constructor; [exact Rm|constructor].
    - unfold node_std in *. rewrite Eo'. rewrite Eo in Sd. apply Forall_app in Sd as [S1 S2]. apply Forall_app. split; auto. constructor; [|exact (Forall_inv_tail S2)]. pose proof (Forall_inv S2).
      eapply std_shape; eauto.
    - unfold can_send. rewrite Km. exact Sn.
    - exists o'. split; [change (msg_deoj m) with (msg_deoj m0) in Aa; rewrite C3 in Aa; exact Aa|]. split; [eapply same_shape_trans; eauto|]. intros c p Nc E. apply (W' c Nc p E).
  Qed.
End Device.

Section Controller.
  Context {V : Type} {P : Profile} {HO : HashOrder} {Os : OS}.

  Lemma post_wire (n : node V) w r code q c m n' w' : code < 2 ^ 24 -> n_last_tid n < 65536 -> can_send n -> (forall k, os_send k = true) ->
    wprops_ok (props_of q) -> controller_post w n r (message_of code q) = (c, m, n', w') ->
    exists tr t, since w w' tr /\ t = (n_last_tid n + 1) mod 65536 /\
      sent tr = [((fst (rn_addr r), 3610), wire (Frame t 0x0EF001 code (esv_of q) (Single (props_of q))))] /\
      n_last_tid n' = t /\ n_post n' = Some c /\ n_mgr n' = n_mgr n.
  Proof.
    intros Bc Bt Sn Al Wp E. unfold controller_post in E. pose proof E as E0. apply node_post_spec in E as (-> & _ & n1 & ok & tr & A & -> & S & _ & _ & Se).
    pose proof (update_tid_keeps _ _ _ _ A) as (_ & _ & Km & _).
    assert (ok = true) as ->.
    { unfold node_post in E0. rewrite A in E0. destruct (manager_send _ _ _ _) as [b w1] eqn:Ms. inversion E0; subst w1.
      assert (b = true). { eapply manager_send_ok; [exact Ms|exact Al|]. cbn [n_mgr n_with_post]. rewrite Km. exact Sn. }
      subst b. destruct ok; auto. exfalso. apply send_trace in Ms as (tr' & S' & _ & _ & _ & Se').
      assert (tr' = tr) as -> by (unfold since in *; cbn in S'; rewrite S in S'; apply app_inv_head in S'; auto). congruence. }
    apply update_tid_spec in A as [(A & _)|(_ & -> & ->)].
    { exfalso. apply A. rewrite message_of_eq. reflexivity. }
    rewrite next_mod in * by auto. set (t := (n_last_tid n + 1) mod 65536) in *. assert (Ht : t < 65536) by (unfold t; lia).
    exists tr, t. split; auto. split; auto. split; [|split; [reflexivity|split; [reflexivity|exact Km]]].
    rewrite Se. f_equal. f_equal. rewrite message_of_eq, msg_set_tid_eq. unfold msg_set_seoj, with_seoj, with_tid.
    cbn [m_ehd m_seoj m_deoj m_esv m_props m_set m_get m_from].
    assert (Wd : wf3 (m_deoj (msg_set_deoj msg_new code))) by (unfold msg_set_deoj; cbn [m_deoj]; apply wf3_split).
    rewrite msg_bytes_wire.
    - unfold frame_of. rewrite msg_tid_eq. unfold msg_deoj. cbn [m_esv m_tid fst snd m_props m_deoj].
      assert (is_double (esv_of q) = false) as -> by (destruct q; reflexivity).
      f_equal. f_equal.
      + lia.
      + unfold msg_set_deoj. cbn [m_deoj with_deoj]. rewrite object_code_split. apply N.mod_small. exact Bc.
      + unfold wps. f_equal. apply to_wprop_unw.
    - destruct Wp as [Wp _]. constructor; cbn [m_ehd m_tid m_seoj m_deoj m_esv m_props m_set m_get]; auto.
      + split; cbn; lia.
      + apply wf3_split.
      + destruct q; cbn; lia.
      + apply Forall_map. eapply Forall_impl; [|exact Wp]. intros x (X1 & X2 & _). split; auto.
    - destruct Wp as [Wp Wl]. split; [|split; cbn; (split; [cbn; lia|constructor])]. cbn [m_props]. split; [rewrite map_length; lia|].
      apply Forall_map. eapply Forall_impl; [|exact Wp]. intros x (_ & _ & X). unfold prop_in_limit. cbn. lia.
    - destruct q; discriminate.
  Qed.

  (** The response reaches the receiver of post if its TID is the one of the request. *)
  Lemma taken a (u : V) n w c t code e ps : n_post n = Some c -> e = 0x71 \/ e = 0x72 -> code < 2 ^ 24 -> t < 65536 -> fits ps ->
    exists n' w' tr, take Os a u n w [wire (Frame t code 0x0EF001 e (Single ps))] = Ret (u, n', w') /\ since w w' tr /\
      n_mgr n' = n_mgr n /\ n_last_tid n' = n_last_tid n /\
      map (fun x => (fst x, seen_as (snd x))) (deliveries tr) = (if t =? n_last_tid n then [(c, (e, ps))] else []).
  Proof.
    intros Np He Bc Bt Fp. set (f := Frame t code 0x0EF001 e (Single ps)).
    assert (Nd : ~ two_lists e) by (intros [X|[X|X]]; destruct He; congruence).
    assert (Fk : frame_ok f).
    { unfold f, frame_ok. cbn [f_tid f_seoj f_deoj f_esv f_body wbody_ok]. split; auto. split; [exact Bc|]. split; [lia|]. split; [destruct He; lia|]. split; auto. apply Fp. }
    assert (Pd : msg_parse msg_new (wire f) = Ret (true, msg_of_frame msg_new f)) by (rewrite <- (app_nil_r (wire f)); apply parse_wire; auto).
    cbn [take]. unfold f at 1. rewrite wire_fits by apply Fp. fold f. rewrite Pd. set (m := msg_set_from (msg_of_frame msg_new f) a).
    pose proof (carries_msg_of_frame f Fk) as (C1 & C2 & C3 & C4 & C5 & _). cbn [f_tid f_seoj f_deoj f_esv f_body f] in C1, C2, C3, C4, C5.
    assert (Rm : received m). { exists (wire f), (msg_of_frame msg_new f), a. split; [apply wire_octets; auto|auto]. }
    assert (Me : m_esv m = e) by exact C4. assert (Mt : msg_tid m = t) by exact C1.
    assert (Q : ~ request_service (m_esv m)). { rewrite Me. unfold request_service. cbn. intro X. destruct He; subst e; intuition discriminate. }
    destruct (N.eqb_spec t (n_last_tid n)) as [T|T].
    - destruct (observe_answer w u n m c Rm Q) as (d & w' & Ob & S & (_ & _ & _ & D4 & _ & D5)); auto. { rewrite Me. destruct He; congruence. } { congruence. }
      exists (n_with_post n None), w', [EvDeliver c d]. rewrite Ob. cbn [obind]. split; auto. split; auto. split; auto. split; auto.
      cbn [deliveries map fst snd]. f_equal. f_equal. unfold seen_as. rewrite D4, Me. rewrite D5 by (rewrite D4, Me; auto). f_equal. exact C5.
    - rewrite (observe_unrelated w u n m) by (auto; congruence). cbn [obind]. exists n, (tick w), []. split; auto. split; [apply since_tick|]. auto.
  Qed.
End Controller.

Section Session.
  Context {V U : Type} {P : Profile} {HO : HashOrder} (Oc Od : OS).
  Hypothesis Lc : forall k, os_send (OS := Oc) k = true.
  Hypothesis Ld : forall k, os_send (OS := Od) k = true.
  Variables (ac : sockaddr) (r : remote_node) (code : N) (o0 : object).
  Hypothesis Bc : code < 2 ^ 24.

  Lemma one_exchange (uc : V) nc wc (ud : U) nd wd st q : n_last_tid nc < 65536 -> can_send nc -> holds code o0 st nd -> usable o0 q ->
    fits (snd (store_answer st q)) ->
    exists uc' nc' wc' ud' nd' wd' out, exchange Oc Od ac r code ((uc, nc, wc), (ud, nd, wd)) q = Ret ((uc', nc', wc'), (ud', nd', wd'), out) /\
      can_send nc' /\ n_last_tid nc' = (n_last_tid nc + 1) mod 65536 /\ holds code o0 (store_step st q) nd' /\
      (map seen_as out = [store_answer st q] \/ n_last_tid nc' = 0 /\ out = []).
  Proof.
    intros Bt Sn H Us Fa. cbn [exchange].
    destruct (controller_post wc nc r (message_of code q)) as [[[c m] nc1] wc1] eqn:E.
    assert (Wp : wprops_ok (props_of q)) by (destruct q; apply Us).
    destruct (post_wire (Os := Oc) nc wc r code q c m nc1 wc1 Bc Bt Sn Lc Wp E) as (tr & t & S & Et & Se & Lt & Po & Mg).
    assert (Bt1 : t < 65536) by (rewrite Et; lia).
    destruct (serve (Os := Od) code o0 st q t ac ud nd wd Bc Bt1 H Us Fa Ld) as (ud' & nd' & wd' & t' & tr' & Tk & Bt' & Tt & S' & Se' & H').
    rewrite (sent_to_one _ _ _ _ _ S Se), Tk. cbn [obind]. rewrite (sent_to_one _ _ _ _ _ S' Se').
    destruct (taken (Os := Oc) (rn_addr r) uc nc1 wc1 c t' code (fst (store_answer st q)) (snd (store_answer st q)) Po) as (nc2 & wc2 & tr2 & Tc & S2 & Mg2 & Lt2 & Dl); auto.
    { destruct q; auto. }
    rewrite Tc. cbn [obind]. exists uc, nc2, wc2, ud', nd', wd', (came_out c wc1 wc2). split; auto.
    split; [unfold can_send; rewrite Mg2, Mg; exact Sn|]. split; [congruence|]. split; auto.
    unfold came_out. rewrite (new_events_since _ _ _ S2).
    assert (X : forall l : list (N * message), map (fun x => (fst x, seen_as (snd x))) l = [(c, store_answer st q)] -> map seen_as (map snd (filter (fun x => fst x =? c) l)) = [store_answer st q]).
    { intros [|[c1 m1] [|]] Z; try discriminate. cbn [map fst snd] in Z. inversion Z; subst. cbn [filter fst]. rewrite N.eqb_refl. cbn. congruence. }
    destruct (N.eqb_spec t' (n_last_tid nc1)) as [T|T].
    - left. apply X. rewrite Dl. destruct (store_answer st q); reflexivity.
    - right. destruct (N.eq_dec t 0) as [Z|Z]; [|exfalso; apply T; rewrite Lt; auto]. split; [congruence|].
      destruct (deliveries tr2); [reflexivity|discriminate].
  Qed.

  Lemma all_exchanges qs : forall (uc : V) nc wc (ud : U) nd wd st, n_last_tid nc < 65536 -> can_send nc -> holds code o0 st nd -> Forall (usable o0) qs ->
    all_fit st qs ->
    exists s' outs, exchanges Oc Od ac r code ((uc, nc, wc), (ud, nd, wd)) qs = Ret (s', outs) /\
      holds code o0 (fold_left store_step qs st) (snd (fst (snd s'))) /\
      Forall2 (fun a out => map seen_as out = [a] \/ out = []) (store_answers st qs) outs /\
      (n_last_tid nc + N.of_nat (length qs) < 65536 -> map (map seen_as) outs = map (fun a => [a]) (store_answers st qs)).
  Proof.
    induction qs as [|q l IH]; intros uc nc wc ud nd wd st Bt Sn H Us Fa; cbn [exchanges].
    - eexists _, []. split; [reflexivity|]. split; [exact H|]. split; [constructor|reflexivity].
    - destruct Fa as [F1 F2].
      destruct (one_exchange uc nc wc ud nd wd st q Bt Sn H (Forall_inv Us) F1) as (uc' & nc' & wc' & ud' & nd' & wd' & out & E & Sn' & Lt & H' & Out).
      rewrite E. cbn [obind fst snd].
      destruct (IH uc' nc' wc' ud' nd' wd' (store_step st q)) as (s' & outs & E' & Hn & F & A); auto.
      { rewrite Lt. lia. } { exact (Forall_inv_tail Us). }
      rewrite E'. cbn [obind fst snd]. exists s', (out :: outs). split; [reflexivity|]. split; [exact Hn|]. cbn [store_answers]. split.
      + constructor; auto. destruct Out as [X|[_ X]]; auto.
      + intro B. cbn [length map] in *. assert (Lt' : n_last_tid nc' = n_last_tid nc + 1) by (rewrite Lt; apply N.mod_small; lia).
        destruct Out as [X|[X _]]; [|lia]. rewrite X, A by lia. reflexivity.
  Qed.
End Session.

(** The situation: a controller after any history, a node with an accepting device
    after any history, a network and systems that lose nothing. *)
Definition connected {V U} {P : Profile} {HO : HashOrder} (Oc Od : OS) (code : N) (o : object) (st : store)
  (s : (V * node V * world) * (U * node U * world)) : Prop :=
  let '((uc, nc, wc), (ud, nd, wd)) := s in
  (forall k, os_send (OS := Oc) k = true) /\ (forall k, os_send (OS := Od) k = true) /\
  reachable (O := Oc) uc nc wc /\ can_send nc /\
  reachable (O := Od) ud nd wd /\ can_send nd /\
  Forall (fun x => forall c p, object_find_property x c = Some p -> 0x80 <= c) (n_objects nd) /\
  Forall hands_off (n_handlers nd) /\ Forall (fun h => forall u o e p, call_handler h u o e p <> Panic) (n_handlers nd) /\
  (n_handlers nd = [] \/ exists h, In h (n_handlers nd) /\ accepts_all h) /\
  addressed (n_objects nd) code o /\ code < 2 ^ 24 /\
  forall c, ~ In c [0x9D; 0x9E; 0x9F] -> forall d, object_property_data o c = Some d -> st c = d.

Lemma connected_holds {V U} {P : Profile} {HO : HashOrder} Oc Od code o st (uc : V) nc wc (ud : U) nd wd :
  connected Oc Od code o st ((uc, nc, wc), (ud, nd, wd)) -> n_last_tid nc < 65536 /\ can_send nc /\ holds code o st nd.
Proof.
  intros (_ & _ & Rc & Sc & Rd & Sd & Ks & Ho & Ht & Ya & Ao & _ & Dt). split; [exact (reachable_tid (Os := Oc) uc nc wc Rc)|]. split; [exact Sc|].
  refine {| hd_good := reachable_good ud nd wd Rd; hd_std := Ks; hd_total := Ht; hd_off := Ho; hd_yes := Ya; hd_send := Sd; hd_obj := _ |}.
  exists o. split; auto. split; [apply same_shape_refl|]. intros c p Nc E. symmetry. apply Dt; auto. unfold object_property_data. rewrite E. reflexivity.
Qed.

(** Every request is answered as by a map, except possibly that the answer is
    missing. *)
Theorem C77_never_wrong : forall V U (P : Profile) (HO : HashOrder) (Oc Od : OS) ac r code o st (s : session (V := V) (U := U)) qs,
  connected Oc Od code o st s -> Forall (usable o) qs -> all_fit st qs ->
  exists s' outs, exchanges Oc Od ac r code s qs = Ret (s', outs) /\
    Forall2 (fun a out => map seen_as out = [a] \/ out = []) (store_answers st qs) outs.
Proof.
  intros V U P HO Oc Od ac r code o st [[[uc nc] wc] [[ud nd] wd]] qs C Us Fa.
  destruct (connected_holds _ _ _ _ _ _ _ _ _ _ _ C) as (Bt & Sn & H). destruct C as (Lc & Ld & _ & _ & _ & _ & _ & _ & _ & _ & _ & Bc & _).
  destruct (all_exchanges Oc Od Lc Ld ac r code o Bc qs uc nc wc ud nd wd st Bt Sn H Us Fa) as (s' & outs & E & _ & F & _). exists s', outs. auto.
Qed.
(** No answer is missing as long as the controller does not use up its TIDs: it
    chooses TID 0 after 65535, and the device answers under another TID.
    Missing: the requests after that (never wrong by the theorem above). *)
Theorem C77_remote_map_partial : forall V U (P : Profile) (HO : HashOrder) (Oc Od : OS) ac r code o st (s : session (V := V) (U := U)) qs,
  connected Oc Od code o st s -> Forall (usable o) qs -> all_fit st qs ->
  n_last_tid (snd (fst (fst s))) + N.of_nat (length qs) < 65536 ->
  exists s' outs, exchanges Oc Od ac r code s qs = Ret (s', outs) /\
    map (map seen_as) outs = map (fun a => [a]) (store_answers st qs).
Proof.
  intros V U P HO Oc Od ac r code o st [[[uc nc] wc] [[ud nd] wd]] qs C Us Fa B.
  destruct (connected_holds _ _ _ _ _ _ _ _ _ _ _ C) as (Bt & Sn & H). destruct C as (Lc & Ld & _ & _ & _ & _ & _ & _ & _ & _ & _ & Bc & _).
  destruct (all_exchanges Oc Od Lc Ld ac r code o Bc qs uc nc wc ud nd wd st Bt Sn H Us Fa) as (s' & outs & E & _ & _ & A). exists s', outs. auto.
Qed.
(** The device holds the map afterwards, for any number of requests. *)
Theorem C77_device_state : forall V U (P : Profile) (HO : HashOrder) (Oc Od : OS) ac r code o st (s : session (V := V) (U := U)) qs,
  connected Oc Od code o st s -> Forall (usable o) qs -> all_fit st qs ->
  exists s' outs o', exchanges Oc Od ac r code s qs = Ret (s', outs) /\ addressed (n_objects (snd (fst (snd s')))) code o' /\ same_shape o o' /\
    forall c d, ~ In c [0x9D; 0x9E; 0x9F] -> object_property_data o' c = Some d -> d = fold_left store_step qs st c.
Proof.
  intros V U P HO Oc Od ac r code o st [[[uc nc] wc] [[ud nd] wd]] qs C Us Fa.
  destruct (connected_holds _ _ _ _ _ _ _ _ _ _ _ C) as (Bt & Sn & H). destruct C as (Lc & Ld & _ & _ & _ & _ & _ & _ & _ & _ & _ & Bc & _).
  destruct (all_exchanges Oc Od Lc Ld ac r code o Bc qs uc nc wc ud nd wd st Bt Sn H Us Fa) as (s' & outs & E & Hn & _).
  destruct (hd_obj _ _ _ _ Hn) as (o' & Ao & Sh & Dt). exists s', outs, o'. split; auto. split; auto. split; auto. intros c d Nc Dd.
  unfold object_property_data in Dd. destruct (object_find_property o' c) as [p|] eqn:Ep; [|discriminate]. cbn in Dd. inversion Dd; subst. eapply Dt; eauto.
Qed.
Print Assumptions C77_never_wrong.
Print Assumptions C77_remote_map_partial.
Print Assumptions C77_device_state.

(* ------------------------------------------------------------------ *)
(** ** Concrete sessions *)
Lemma can_send_check {U} (n : node U) :
  existsb (fun s => match sk_sock (sv_socket s) with Some _ => true | None => false end) (mg_ucast (n_mgr n)) = true -> can_send n.
Proof. intro H. apply existsb_exists in H as (s & I & E). exists s. split; auto. destruct (sk_sock (sv_socket s)); [discriminate|discriminate E]. Qed.
Lemma keys_check os : forallb (fun o => forallb (fun k => 0x80 <=? k) (hkeys (o_props o))) os = true ->
  Forall (fun x => forall c p, object_find_property x c = Some p -> 0x80 <= c) os.
Proof.
  intro H. apply Forall_forall. intros o I c p E. rewrite forallb_forall in H. specialize (H o I). rewrite forallb_forall in H.
  apply N.leb_le. apply H. apply hget_in in E. apply (in_map fst) in E. exact E.
Qed.
(** A controller that has chosen TID [t] last, before its start. *)
Definition ex_busy (t : N) : outcome (unit * node unit * world) :=
  node_run (P := true) (HO := ex_order) (O := ex_os) (tt, n_with_tid ex_node0 t, w0) [OpStart].
Definition busy_n t : node unit := snd (fst (the (tt, ex_node0, w0) (ex_busy t))).
Definition busy_w t : world := snd (the (tt, ex_node0, w0) (ex_busy t)).
Definition lamp_n : node unit := ex_n (ex_ops [yes]).
Definition lamp_w : world := ex_w (ex_ops [yes]).
Definition ex_session (t : N) : (unit * node unit * world) * (unit * node unit * world) := ((tt, busy_n t, busy_w t), (tt, lamp_n, lamp_w)).
Definition ex_remote : remote_node := Remote peer [].
Definition ex_ac : sockaddr := (V4 0xC0A80015, 40000).
Definition ex_lamp0 : object := the (object_new 0) (match find_object (n_objects lamp_n) 0x029101 with Some o => Ret o | None => Panic end).
Definition ex_outs (t : N) (qs : list request) : option (list (list (N * list wprop))) :=
  match exchanges (P := true) (HO := ex_order) ex_os ex_os ex_ac ex_remote 0x029101 (ex_session t) qs with
  | Ret (_, outs) => Some (map (map seen_as) outs)
  | Panic => None
  end.
Definition ex_qs : list request := [Read [0x80; 0xB0]; Write [(0x80, [0x31]); (0xB0, [7])]; Read [0xB0]; Write [(0xB0, [8])]; Read [0x80; 0xB0]].
Definition ex_map : store := fun c => match object_property_data ex_lamp0 c with Some d => d | None => [] end.
Lemma node_run_app (a b : list (node_op unit)) : forall x, node_run (P := true) (HO := ex_order) (O := ex_os) x (a ++ b) =
  let! s := node_run (P := true) (HO := ex_order) (O := ex_os) x a in node_run (P := true) (HO := ex_order) (O := ex_os) s b.
Proof. induction a as [|op a IH]; intro x; cbn [app node_run obind]; auto. destruct (node_step x op); cbn [obind]; auto. Qed.
Lemma tid0 : n_last_tid ex_node0 = 0. Proof. vm_compute. reflexivity. Qed.
Lemma new0 : node_new (P := true) ex_np = Ret ex_node0. Proof. vm_compute. reflexivity. Qed.
Lemma mcast0 : mg_mcast (n_mgr ex_node0) = []. Proof. vm_compute. reflexivity. Qed.
Lemma busy_eq t : ex_busy t = node_run (P := true) (HO := ex_order) (O := ex_os) (tt, n_with_tid ex_node0 t, w0) [OpStart].
Proof. unfold ex_busy. exact eq_refl. Qed.
Lemma busy_reachable t : t < 65536 -> panics (ex_busy t) = false -> reachable (P := true) (HO := ex_order) (O := ex_os) tt (busy_n t) (busy_w t).
Proof.
  intros B Np. exists ex_np, ex_node0, tt, w0, (repeat (OpNotify ask) (N.to_nat t) ++ [OpStart]). split; [apply ex_np_built|]. split; [exact new0|]. split.
  - apply Forall_app. split; [|repeat constructor]. apply Forall_forall. intros op I. apply repeat_spec in I. subst. exact ask_built.
  - rewrite node_run_app, idle_sends; [|rewrite tid0, N2Nat.id; exact B|exact mcast0]. cbn [obind]. rewrite N2Nat.id, tid0, N.add_0_l.
    rewrite <- busy_eq.
    unfold busy_n, busy_w. destruct (ex_busy t) as [[[[] n] w]|]; [reflexivity|discriminate Np].
Qed.
Lemma lamp_reachable : reachable (P := true) (HO := ex_order) (O := ex_os) tt lamp_n lamp_w.
Proof. unfold lamp_n, lamp_w. reach. Qed.
Lemma lamp_sends : can_send lamp_n. Proof. apply can_send_check. vm_compute. reflexivity. Qed.
Lemma lamp_keys : Forall (fun x => forall c p, object_find_property x c = Some p -> 0x80 <= c) (n_objects lamp_n).
Proof. apply keys_check. vm_compute. reflexivity. Qed.
Lemma lamp_handlers : n_handlers lamp_n = [HNode; yes]. Proof. vm_compute. reflexivity. Qed.
Lemma lamp_there : addressed (n_objects lamp_n) 0x029101 ex_lamp0.
Proof. apply find_object_some. vm_compute. reflexivity. Qed.
Opaque lamp_n lamp_w ex_lamp0.
Lemma ex_connected t : t < 65536 -> panics (ex_busy t) = false -> can_send (busy_n t) ->
  connected (P := true) (HO := ex_order) ex_os ex_os 0x029101 ex_lamp0 ex_map (ex_session t).
Proof.
  intros B Np Cs. unfold ex_session, connected.
  split; [reflexivity|]. split; [reflexivity|]. split; [exact (busy_reachable t B Np)|].
  split; [exact Cs|]. split; [exact lamp_reachable|]. split; [exact lamp_sends|]. split; [exact lamp_keys|]. rewrite lamp_handlers.
  split; [constructor; [exact I|constructor; [exact yes_hands_off|constructor]]|].
  split; [constructor; [intros; discriminate|constructor; [intros; discriminate|constructor]]|].
  split; [right; exists yes; split; [right; left; auto|intros u o e p u' o' b E; inversion E; auto]|].
  split; [exact lamp_there|]. split; [lia|]. intros c _ d E. unfold ex_map. rewrite E. reflexivity.
Qed.
Transparent lamp_n lamp_w ex_lamp0.
Ltac usable_tac := repeat (constructor; [split; [eexists; split; [vm_compute; reflexivity|first [discriminate|split; [discriminate|vm_compute; auto]]]|cbn; intuition discriminate]|]); constructor.
Ltac fits_tac := split; [split; [repeat constructor; unfold octet; cbn; lia|cbn; lia]|cbn; lia].
Lemma ex_usable : Forall (usable ex_lamp0) ex_qs.
Proof. repeat (constructor; [split; [usable_tac|fits_tac]|]). constructor. Qed.
Lemma ex_fit : all_fit ex_map ex_qs.
Proof.
  assert (E : ex_map 0x80 = [0x30] /\ ex_map 0xB0 = []) by (split; vm_compute; reflexivity). destruct E as [E1 E2].
  unfold ex_qs. cbn [all_fit store_answer snd store_step map fold_left put fst N.eqb Pos.eqb]. unfold put. cbn [fst snd N.eqb Pos.eqb]. rewrite ?E1, ?E2.
  repeat (split; [fits_tac|]). exact I.
Qed.
Example C77_case : connected (P := true) (HO := ex_order) ex_os ex_os 0x029101 ex_lamp0 ex_map (ex_session 0) /\ Forall (usable ex_lamp0) ex_qs /\ all_fit ex_map ex_qs /\
  ex_outs 0 ex_qs = Some [[(0x72, [(0x80, [0x30]); (0xB0, [])])]; [(0x71, [(0x80, []); (0xB0, [])])]; [(0x72, [(0xB0, [7])])];
    [(0x71, [(0xB0, [])])]; [(0x72, [(0x80, [0x31]); (0xB0, [8])])]].
Proof.
  split; [apply ex_connected; [lia|vm_compute; reflexivity|apply can_send_check; vm_compute; reflexivity]|].
  split; [apply ex_usable|]. split; [apply ex_fit|vm_compute; reflexivity].
Qed.
Definition wrap_outs : list (list (N * list wprop)) :=
  [[(0x72, [(0x80, [0x30]); (0xB0, [])])]; []; [(0x72, [(0xB0, [7])])]; [(0x71, [(0xB0, [])])]; [(0x72, [(0x80, [0x31]); (0xB0, [8])])]].
Lemma ex_outs_of t qs s' outs l : ex_outs t qs = Some l ->
  exchanges (P := true) (HO := ex_order) ex_os ex_os ex_ac ex_remote 0x029101 (ex_session t) qs = Ret (s', outs) -> map (map seen_as) outs = l.
Proof.
  unfold ex_outs. generalize (exchanges (P := true) (HO := ex_order) ex_os ex_os ex_ac ex_remote 0x029101 (ex_session t) qs). intros x A B. subst x. congruence.
Qed.
Lemma wrap_computed : ex_outs 65533 ex_qs = Some wrap_outs. Proof. vm_compute. reflexivity. Qed.
Lemma wrap_connected : connected (P := true) (HO := ex_order) ex_os ex_os 0x029101 ex_lamp0 ex_map (ex_session 65533).
Proof. apply ex_connected; [lia|vm_compute; reflexivity|apply can_send_check; vm_compute; reflexivity]. Qed.
Lemma wrap_expected : skipn 2 wrap_outs = map (fun a => [a]) (skipn 2 (store_answers ex_map ex_qs)). Proof. vm_compute. reflexivity. Qed.
Opaque ex_session ex_lamp0 ex_map ex_qs.
(** The request with TID 0 gets no answer, although the device executes it. *)
Theorem C77_tid_zero_refuted : exists V U (P : Profile) (HO : HashOrder) (Oc Od : OS) ac r code o st (s : session (V := V) (U := U)) qs s' outs,
  connected Oc Od code o st s /\ Forall (usable o) qs /\ all_fit st qs /\ exchanges Oc Od ac r code s qs = Ret (s', outs) /\
  length outs = length qs /\ nth 1 outs [] = [] /\ map (map seen_as) (skipn 2 outs) = map (fun a => [a]) (skipn 2 (store_answers st qs)).
Proof.
  destruct (C77_never_wrong unit unit true ex_order ex_os ex_os ex_ac ex_remote 0x029101 ex_lamp0 ex_map (ex_session 65533) ex_qs wrap_connected ex_usable ex_fit) as (s' & outs & E & F).
  exists unit, unit, true, ex_order, ex_os, ex_os, ex_ac, ex_remote, 0x029101, ex_lamp0, ex_map, (ex_session 65533), ex_qs, s', outs.
  split; [exact wrap_connected|]. split; [exact ex_usable|]. split; [exact ex_fit|]. split; [exact E|].
  pose proof (ex_outs_of 65533 ex_qs s' outs wrap_outs wrap_computed E) as K. clear E. split; [|split].
  - transitivity (length (store_answers ex_map ex_qs)).
    + symmetry. eapply Forall2_length'. exact F.
    + generalize ex_map, ex_qs. intros st l. revert st. induction l; intro st; cbn; auto.
  - destruct outs as [|a [|b r]]; try reflexivity. cbn in K. destruct b; [reflexivity|discriminate K].
  - rewrite <- skipn_map, K. exact wrap_expected.
Qed.
Print Assumptions C77_tid_zero_refuted.
