(** Properties of request processing: C36 to C49 and C51.

    [node_observe] is what the transport calls for every received message,
    [node_message_received] the part of it that computes the response. *)
From Verif Require Import Base HMap ModelCodec ModelMessages ModelObject ModelTransport ModelNode
  SpecWire SpecObject SpecNode ProofsCodec ProofsCodec2 PropertiesCodec ProofsObject ProofsObject2 ProofsObject3
  PropertiesObject ProofsNode ProofsNode2 ProofsNode3 ProofsNode4 ExamplesNode.

Lemma Forall2_impl' {A B} (R S : A -> B -> Prop) l l' : (forall a b, R a b -> S a b) -> Forall2 R l l' -> Forall2 S l l'.
Proof. intros H F. induction F; constructor; auto. Qed.
Lemma Forall2_length' {A B} (R : A -> B -> Prop) l l' : Forall2 R l l' -> length l = length l'.
Proof. induction 1; cbn; auto. Qed.
Lemma add_property_codes {P : Profile} {HO : HashOrder} o p o' : object_add_property o p = Ret o' -> o_codes o' = o_codes o.
Proof.
  unfold object_add_property, object_update_property_maps. set (x := obj_with_props o _).
  destruct (to_property_map_bytes _) as [b1|]; cbn [obind]; [|discriminate].
  destruct (to_property_map_bytes _) as [b2|]; cbn [obind]; [|discriminate].
  destruct (to_property_map_bytes _) as [b3|]; cbn [obind]; [|discriminate].
  intro H. assert (E : o' = sets x [PProp 0x9F b1; PProp 0x9E b2; PProp 0x9D b3]) by (inversion H; reflexivity).
  rewrite E. apply (sets_meta _ x).
Qed.
Lemma clone_codes {P : Profile} {HO : HashOrder} seed o copy : object_clone seed o = Ret copy -> o_codes copy = o_codes o.
Proof.
  unfold object_clone. set (x := Obj _ _ _ _ _). change (o_codes o) with (o_codes x). generalize (object_properties o). intro l. clearbody x. revert x.
  induction l as [|p r IH]; intros x H; cbn [add_properties] in H; [inversion H; auto|].
  destruct (object_add_property x (prop_clone p)) as [y|] eqn:E; cbn [obind] in H; [|discriminate].
  apply IH in H. apply add_property_codes in E. congruence.
Qed.
Lemma manager_send_ok {O : OS} w mg to m ok w' : manager_send w mg to m = (ok, w') -> (forall k, os_send k = true) ->
  (exists s, In s (mg_ucast mg) /\ sk_sock (sv_socket s) <> None) -> ok = true.
Proof.
  unfold manager_send. intros E Al (s & I & Ns). revert w E. induction (mg_ucast mg) as [|x l IH]; [destruct I|].
  intros w E. cbn [ucast_send] in E. destruct (ucast_server_send w x to m) as [b w1] eqn:Eu.
  destruct b; [inversion E; auto|]. destruct I as [->|I].
  - exfalso. unfold ucast_server_send, socket_send_to in Eu. destruct (sk_sock (sv_socket s)); [|tauto].
    rewrite Al in Eu. inversion Eu.
  - eapply IH; eauto.
Qed.
Lemma respond_objects {U} {O : OS} w (n : node U) m res n' w' : respond w n m res = (n', w') -> n_objects n' = n_objects n.
Proof.
  unfold respond. destruct res as [r|]; [|intro H; inversion H; auto].
  destruct (esv_is_response _); [|intro H; inversion H; auto]. destruct (esv_is_unicast_response _).
  - destruct (node_send _ _ _ _) as [[[? ?] ?] ?] eqn:E. intro H. inversion H; subst. apply node_send_spec in E as [E _].
    apply update_tid_keeps in E. tauto.
  - destruct (node_notify _ _ _) as [[[? ?] ?] ?] eqn:E. intro H. inversion H; subst. apply node_notify_spec in E as [E _].
    apply update_tid_keeps in E. tauto.
Qed.

Section S.
  Context {U : Type} {P : Profile} {HO : HashOrder} {O : OS}.

  (** ** C36: No reply to what is not addressed to the node *)
  Theorem C36_no_reply : forall w (u : U) n m, received m ->
    not_owned (n_objects n) (msg_deoj m) \/ ~ request_service (m_esv m) ->
    match node_observe w u n m with
    | Ret (u', n', w') => u' = u /\ n_objects n' = n_objects n /\ exists tr, since w w' tr /\ offered tr = []
    | Panic => m_esv m = 0x5E /\ msg_tid m = n_last_tid n
    end.
  Proof.
    intros w u n m R H. apply received_rcvd in R.
    assert (H' : forall n', n_objects n' = n_objects n -> forall seed, node_message_received seed u n' m = Ret (u, n', None)).
    { intros n' E seed. unfold node_message_received. destruct (esv_is_response (msg_esv m)); auto. rewrite E.
      destruct (find_object (n_objects n) (msg_deoj m)) as [o|] eqn:F; auto.
      destruct (esv_is_request (msg_esv m)) eqn:Q; auto. exfalso. destruct H as [H|H].
      - apply find_object_some in F. eapply addressed_not_owned; eauto.
      - apply H. apply request_service_spec. exact Q. }
    rewrite observe_eq. unfold deliver. destruct (is_last_message_response n m) eqn:L.
    - unfold is_last_message_response in L. destruct (esv_is_request (msg_esv m)); [discriminate|].
      destruct (msg_tid m =? n_last_tid n) eqn:T; [|discriminate]. apply N.eqb_eq in T.
      destruct (N.eq_dec (m_esv m) 0x5E) as [E|E].
      + rewrite (clone_rcvd_5E m R E). cbn. auto.
      + rewrite (clone_rcvd m R E). cbn [obind]. unfold send_post_response. cbn [obind].
        rewrite H' by reflexivity. cbn [obind respond]. split; auto. split; auto.
        destruct (n_post n) as [c|].
        * eexists. split; [|]. { unfold since, log, tick. cbn. reflexivity. } reflexivity.
        * exists []. split; auto. unfold since, tick. cbn. rewrite app_nil_r. auto.
    - cbn [obind]. rewrite H' by reflexivity. cbn [obind respond]. split; auto. split; auto.
      exists []. split; auto. unfold since, tick. cbn. rewrite app_nil_r. auto.
  Qed.

  (** ** C37: Responses correlate with the request *)
  (** The TID only when it is not 0. *)
  Theorem C37_correlation_partial : forall w (u : U) n m u' n' w' tr to data, received m ->
    node_observe w u n m = Ret (u', n', w') -> since w w' tr -> In (to, data) (offered tr) ->
    firstn 6 (skipn 4 data) = wire_eoj (msg_deoj m) ++ wire_eoj (msg_seoj m) /\
    (msg_tid m <> 0 -> firstn 4 data = [0x10; 0x81; msg_tid m / 256; msg_tid m mod 256]).
  Proof.
    intros w u n m u' n' w' tr to data R E S I. apply received_rcvd in R.
    destruct (observe_offered w u n m u' n' w' tr to data R E S I) as (e & ps & ss & gs & t & n2 & Q & H & Eo & D & T & Te & Ed).
    subst data. pose proof (wf_seoj _ (rc_wf _ R)) as W3. pose proof (wf_deoj _ (rc_wf _ R)) as W4. pose proof (wf_tid _ (rc_wf _ R)) as W2.
    destruct (with_t_header m t e ps ss gs W3 W4) as [A B]. split; [exact B|]. intro Z. rewrite A, (Te Z).
    assert (X : msg_tid m < 65536) by (rewrite msg_tid_eq; destruct W2; lia).
    pose proof (tid_split m (rc_wf _ R)) as Y. rewrite <- Y. cbn [fst snd]. rewrite (N.mod_small (msg_tid m / 256)) by lia. reflexivity.
  Qed.

  (** ** C38: A rejected request changes nothing *)
  Theorem C38_rejected_unchanged : forall w (u : U) n m u' n' w' tr to data, received m ->
    node_observe w u n m = Ret (u', n', w') -> since w w' tr -> In (to, data) (offered tr) ->
    error_service (service_of data) -> n_objects n' = n_objects n.
  Proof.
    intros w u n m u' n' w' tr to data R E S I Er. apply received_rcvd in R.
    destruct (observe_offered w u n m u' n' w' tr to data R E S I) as (e & ps & ss & gs & t & n2 & Q & H & Eo & D & T & Te & Ed).
    subst data. pose proof (wf_seoj _ (rc_wf _ R)) as W3. pose proof (wf_deoj _ (rc_wf _ R)) as W4. pose proof (wf_tid _ (rc_wf _ R)) as W2. rewrite (with_t_service m t e ps ss gs W3 W4) in Er.
    apply handled_error in H as [H _]; auto. rewrite Eo, H. auto.
  Qed.
  (** Also when the response cannot be transmitted. *)
  Theorem C38_rejected_unchanged_untransmitted : forall seed (u : U) n m u' n' r, received m ->
    node_message_received seed u n m = Ret (u', n', Some r) -> error_service (m_esv r) -> n' = n.
  Proof.
    intros seed u n m u' n' r R E Er. apply received_rcvd in R. apply handled_spec in E.
    apply handled_error in E as [E _]; auto.
  Qed.

  (** ** C39: Error responses list what was requested *)
  (** Not for write-read requests. *)
  Theorem C39_error_contents_partial : forall w (u : U) n m u' n' w' tr to data, received m -> m_esv m <> 0x6E ->
    node_observe w u n m = Ret (u', n', w') -> since w w' tr -> In (to, data) (offered tr) ->
    error_service (service_of data) ->
    exists e t, failure_service (m_esv m) = Some e /\ (msg_tid m <> 0 -> t = msg_tid m) /\
      data = wire (Frame t (msg_deoj m) (msg_seoj m) e (Single (map to_wprop (m_props m)))).
  Proof.
    intros w u n m u' n' w' tr to data R N6 E S I Er. apply received_rcvd in R.
    destruct (observe_offered w u n m u' n' w' tr to data R E S I) as (e & ps & ss & gs & t & n2 & Q & H & Eo & D & T & Te & Ed).
    subst data. pose proof (wf_seoj _ (rc_wf _ R)) as W3. pose proof (wf_deoj _ (rc_wf _ R)) as W4. pose proof (wf_props _ (rc_wf _ R)) as W6. rewrite (with_t_service m t e ps ss gs W3 W4) in Er.
    apply handled_error in H as [_ Hr]; auto.
    destruct (failure_eq m (rc_wf _ R) Q) as (e' & F & Fe). rewrite Fe in Hr. destruct (m_esv m =? 0x6E) eqn:E6; [apply N.eqb_eq in E6; tauto|].
    assert (e' = e /\ ps = m_props m /\ ss = [] /\ gs = []) as (-> & -> & -> & ->) by (unfold resp in Hr; inversion Hr; auto).
    exists e, (fst t * 256 + snd t). split; auto. split.
    - intro Z. rewrite (Te Z), msg_tid_eq. reflexivity.
    - assert (X : ~ two_lists e /\ e < 256).
      { clear -Q F N6. services Q; rewrite <- Q in F, N6; inversion F; subst; try tauto; (split; [unfold two_lists; lia|lia]). }
      destruct X as [X1 X2]. rewrite with_t_wire; auto; [exact (rc_wf _ R)|].
      destruct (rc_lim _ R) as [L _]. exact L.
  Qed.

  (** ** C40: An accepted write is visible *)
  Theorem C40_write_visible : forall seed (u : U) n m u' n' res o, received m -> In (m_esv m) [0x60; 0x61; 0x6E] ->
    addressed (n_objects n) (msg_deoj m) o ->
    node_message_received seed u n m = Ret (u', n', res) -> (forall r, res = Some r -> ~ error_service (m_esv r)) ->
    exists o', addressed (n_objects n') (msg_deoj m) o' /\
      forall c d, last_data c (writes_of m) = Some d -> object_property_data o' c = Some d.
  Proof.
    intros seed u n m u' n' res o R Es A E Ok. apply received_rcvd in R. apply handled_spec in E.
    assert (Q : request_service (m_esv m)) by (unfold request_service; cbn in *; tauto).
    destruct (handled_success seed u n m u' n' res R E Q (ex_intro _ o A) Ok)
      as (pre & o0 & post & copy & copy' & Eo & Ec & F & Pm & Cl & V & En & Er).
    exists (answered o0 m copy'). split.
    - rewrite En. cbn [n_objects n_with_objects]. eapply addressed_after; eauto. apply answered_shape.
    - intros c d L. destruct Pm as [Pw _]. pose proof (last_data_in _ _ _ L) as I.
      destruct (proj1 (Forall_forall _ _) Pw _ I) as (p & Fp & _ & _). cbn [pp_code] in Fp.
      unfold object_property_data. rewrite (answered_written o0 m copy' c d p L Fp). reflexivity.
  Qed.

  (** *** Handlers that leave the object alone *)
  Lemma answered_hands_off o m seed copy c : obj_good o -> object_clone seed o = Ret copy -> is_map_code c = false ->
    object_find_property (answered o m copy) c = option_map (set_last (last_data c (writes_of m))) (object_find_property o c).
  Proof.
    intros G Cl Nm. destruct (answered_sets o m copy) as (l & -> & El). rewrite sets_find, last_data_app.
    destruct (last_data c (writes_of m)) as [d|]; auto. destruct (last_data c l) as [d|] eqn:L; auto.
    apply last_data_in in L. rewrite El in L. apply in_map_iff in L as (p & Ep & I). unfold pprop_of_prop in Ep. inversion Ep; subst.
    destruct (clone_good seed o copy G Cl) as (Ok & _ & _ & _ & F & _). specialize (F _ Nm).
    pose proof (obj_ok_good _ Ok) as Gc.
    destruct (object_find_property o (p_code p)) as [q|] eqn:Eq; auto. cbn [option_map].
    destruct Gc as [[Nd Kc] _]. unfold object_properties, hvalues in I. apply in_map_iff in I as ([k v] & Ev & I). cbn in Ev. subst v.
    pose proof (Kc _ _ I) as [K _]. subst k. apply (in_hget _ _ _ Nd) in I.
    change (hget (o_props copy) (p_code p)) with (object_find_property copy (p_code p)) in I. rewrite F in I. inversion I; subst. destruct p; reflexivity.
  Qed.

  (** A request that is accepted: everything that is known about it. *)
  Lemma accepted_full seed (u : U) n m u' n' res : rcvd m -> node_good n ->
    request_service (m_esv m) -> (exists o, addressed (n_objects n) (msg_deoj m) o) ->
    node_message_received seed u n m = Ret (u', n', res) -> (forall r, res = Some r -> ~ error_service (m_esv r)) ->
    exists pre o post copy o', n_objects n = pre ++ o :: post /\ object_code o = msg_deoj m /\
      Forall (fun x => object_code x <> msg_deoj m) pre /\ permitted o m /\
      object_clone seed o = Ret copy /\
      n' = n_with_objects n (pre ++ o' :: post) /\ addressed (n_objects n') (msg_deoj m) o' /\
      same_shape o o' /\ obj_good o' /\ obj_good o /\ res = object_message_received o' m /\
      (forall c d, last_data c (writes_of m) = Some d -> object_property_data o' c = Some d) /\
      (Forall hands_off (n_handlers n) -> forall c, is_map_code c = false ->
        object_find_property o' c = option_map (set_last (last_data c (writes_of m))) (object_find_property o c)).
  Proof.
    intros R G Q A E Ok. apply handled_spec in E. pose proof (handled_good _ _ _ _ _ _ _ (rc_wf _ R) G E) as G'.
    destruct (handled_success seed u n m u' n' res R E Q A Ok)
      as (pre & o0 & post & copy & copy' & Eo & Ec & F & Pm & Cl & V & En & Er).
    exists pre, o0, post, copy, (answered o0 m copy').
    assert (Go : obj_good o0).
    { destruct G as [G _]. rewrite Eo in G. apply Forall_app in G as [_ G]. inversion G; auto. }
    assert (Go' : obj_good (answered o0 m copy')).
    { destruct G' as [G' _]. rewrite En in G'. cbn in G'. apply Forall_app in G' as [_ G']. inversion G'; auto. }
    do 6 (split; [auto|]). split.
    { rewrite En. cbn [n_objects n_with_objects]. eapply addressed_after; eauto. apply answered_shape. }
    split; [apply answered_shape|]. do 3 (split; [auto|]). split.
    - intros c d L. destruct Pm as [Pw _]. pose proof (last_data_in _ _ _ L) as I.
      destruct (proj1 (Forall_forall _ _) Pw _ I) as (p & Fp & _ & _). cbn [pp_code] in Fp.
      unfold object_property_data. rewrite (answered_written o0 m copy' c d p L Fp). reflexivity.
    - intros Hh c Nm. apply verdict_spec in V. apply request_received_hands_off in V; auto. subst copy'.
      eapply answered_hands_off; eauto.
  Qed.

  (** Later reads over the network, for handlers which do not change the object
      and properties that are no property maps. *)
  Theorem C40_read_back_partial : forall w (u : U) n m o, reachable u n w -> received m -> In (m_esv m) [0x60; 0x61; 0x6E] ->
    addressed (n_objects n) (msg_deoj m) o -> Forall hands_off (n_handlers n) ->
    forall seed u1 n1 res1, node_message_received seed u n m = Ret (u1, n1, res1) ->
    (forall r, res1 = Some r -> ~ error_service (m_esv r)) ->
    forall m2, received m2 -> In (m_esv m2) [0x62; 0x63] -> msg_deoj m2 = msg_deoj m ->
    forall seed2 u2 n2 r, node_message_received seed2 u1 n1 m2 = Ret (u2, n2, Some r) -> ~ error_service (m_esv r) ->
    forall c d, last_data c (writes_of m) = Some d -> ~ map_code c -> In c (map pp_code (m_props m2)) ->
    In (PProp c d) (m_props r).
  Proof.
    intros w u n m o Rc R Es A Hh seed u1 n1 res1 E Ok m2 R2 Es2 Ed seed2 u2 n2 r E2 Ok2 c d L Nm I.
    apply received_rcvd in R. apply received_rcvd in R2. apply reachable_good in Rc.
    assert (Q : request_service (m_esv m)) by (unfold request_service; cbn in *; tauto).
    assert (Q2 : request_service (m_esv m2)) by (unfold request_service; cbn in *; tauto).
    destruct (accepted_full seed u n m u1 n1 res1 R Rc Q (ex_intro _ o A) E Ok)
      as (pre & o0 & post & copy & o1 & Eo & Ec & F & Pm & Cl & En & A1 & Sh & G1 & G0 & Er & Lw & _).
    assert (Gn : node_good n1). { apply handled_spec in E. eapply handled_good; eauto. apply (rc_wf _ R). }
    rewrite <- Ed in A1.
    destruct (accepted_full seed2 u1 n1 m2 u2 n2 (Some r) R2 Gn Q2 (ex_intro _ o1 A1) E2)
      as (pre2 & o2 & post2 & copy2 & o3 & Eo2 & Ec2 & F2 & Pm2 & Cl2 & En2 & A3 & Sh2 & G3 & G2 & Er2 & _ & Ho).
    { intros r' Hr. inversion Hr; subst. auto. }
    assert (o2 = o1). { apply (addressed_unique (n_objects n1) (msg_deoj m2)); auto. exists pre2, post2. auto. }
    subst o2.
    assert (Mc : is_map_code c = false) by (unfold map_code, is_map_code in *; lia).
    assert (Hn : n_handlers n1 = n_handlers n) by (rewrite En; reflexivity).
    rewrite Hn in Ho. specialize (Ho Hh c Mc).
    assert (W0 : writes_of m2 = []) by (unfold writes_of; cbn in Es2; destruct Es2 as [X|[X|[]]]; rewrite <- X; reflexivity).
    rewrite W0 in Ho. cbn [last_data set_last] in Ho.
    assert (D : object_property_data o3 c = Some d).
    { rewrite <- (Lw c d L). unfold object_property_data. rewrite Ho. destruct (object_find_property o1 c); reflexivity. }
    destruct (success_eq o1 o3 m2 (rc_wf _ R2) (rc_body _ R2) Q2 Pm2 Sh2) as [[X _]|(e & ps & ss & gs & _ & Em & _ & Rd & _)].
    { exfalso. cbn in Es2. rewrite X in Es2. intuition discriminate. }
    rewrite Em in Er2. inversion Er2; subst r. cbn [m_props resp].
    assert (X : m_esv m2 = 0x62 \/ m_esv m2 = 0x63) by (cbn in Es2; intuition).
    destruct (Rd X) as (Rp & _ & _). apply read_props_held in Rp; [|apply obj_good_coded; auto]. subst ps.
    apply in_map_iff in I as (q & Eq & I). apply in_map_iff. exists q. split; auto.
    unfold held, data_of. rewrite Eq, D. reflexivity.
  Qed.

  (** ** C41: A read returns the current data *)
  (** [o'] is the object addressed after the request was handled. *)
  Theorem C41_read_current : forall w (u : U) n m, reachable u n w -> received m -> In (m_esv m) [0x62; 0x63] ->
    forall seed u' n' r, node_message_received seed u n m = Ret (u', n', Some r) -> ~ error_service (m_esv r) ->
    exists o', addressed (n_objects n') (msg_deoj m) o' /\ success_service (m_esv m) = Some (m_esv r) /\
      m_set r = [] /\ m_get r = [] /\
      Forall2 (fun q a => pp_code a = pp_code q /\ object_property_data o' (pp_code q) = Some (pp_data a)) (m_props m) (m_props r).
  Proof.
    intros w u n m Rc R Es seed u' n' r E Ok. apply received_rcvd in R. apply reachable_good in Rc.
    assert (Q : request_service (m_esv m)) by (unfold request_service; cbn in *; tauto).
    assert (A : exists o, addressed (n_objects n) (msg_deoj m) o).
    { destruct (addressed_dec (n_objects n) (msg_deoj m)) as [N|N]; auto. exfalso.
      apply find_object_none in N. unfold node_message_received in E. rewrite N in E. destruct (esv_is_response (msg_esv m)); discriminate. }
    destruct (accepted_full seed u n m u' n' (Some r) R Rc Q A E)
      as (pre & o0 & post & copy & o1 & Eo & Ec & F & Pm & Cl & En & A1 & Sh & G1 & G0 & Er & _ & _).
    { intros r' Hr. inversion Hr; subst. auto. }
    exists o1. split; auto.
    destruct (success_eq o0 o1 m (rc_wf _ R) (rc_body _ R) Q Pm Sh) as [[X _]|(e & ps & ss & gs & Se & Em & _ & Rd & _)].
    { exfalso. cbn in Es. rewrite X in Es. intuition discriminate. }
    rewrite Em in Er. inversion Er; subst r. cbn [m_props m_set m_get m_esv resp].
    assert (X : m_esv m = 0x62 \/ m_esv m = 0x63) by (cbn in Es; intuition).
    destruct (Rd X) as (Rp & -> & ->). split; auto. split; auto. split; auto.
    apply read_props_spec in Rp. clear -Rp G1. induction Rp as [|q a l l' (p & Fp & ->) Rp IH]; constructor; auto. cbn.
    split; [apply (obj_good_coded _ G1 _ _ Fp)|]. unfold object_property_data. rewrite Fp. reflexivity.
  Qed.

  (** ** C42: Access rules are enforced *)
  (** A single property that is not permitted makes the node reject all of the
      request, without asking the handlers. *)
  Theorem C42_whole_request : forall seed (u : U) n m o, received m -> request_service (m_esv m) ->
    addressed (n_objects n) (msg_deoj m) o -> ~ permitted o m ->
    exists r, node_message_received seed u n m = Ret (u, n, Some r) /\ error_service (m_esv r).
  Proof.
    intros seed u n m o R Q A Np. apply received_rcvd in R. pose proof (addressed_find _ _ _ A) as F.
    exists (response_error_message m). split.
    - unfold node_message_received. rewrite (request_not_response _ Q : esv_is_response (msg_esv m) = false), F.
      rewrite (proj1 (request_service_spec _) Q : esv_is_request (msg_esv m) = true). cbn [negb].
      destruct (request_valid o m) eqn:V; [|reflexivity]. apply request_valid_spec in V; tauto.
    - destruct (failure_eq m (rc_wf _ R) Q) as (e & Fe & ->). cbn [m_esv resp].
      services Q; rewrite <- Q in Fe; inversion Fe; subst; cbn; auto 10.
  Qed.
  (** Data in a response is data of the request or of a readable property. *)
  Theorem C42_disclosure : forall seed (u : U) n m u' n' r q, received m ->
    node_message_received seed u n m = Ret (u', n', Some r) -> In q (all_props r) -> pp_data q <> [] ->
    In q (all_props m) \/ exists o c, addressed (n_objects n) (msg_deoj m) o /\ In c (map pp_code (all_props m)) /\ can_read o c /\
      exists o' p, addressed (n_objects n') (msg_deoj m) o' /\ object_find_property o' c = Some p /\ q = PProp (p_code p) (p_data p).
  Proof.
    intros seed u n m u' n' r q R E I D. apply received_rcvd in R. apply handled_spec in E. destruct R as [W L B].
    assert (Er : forall r', request_service (m_esv m) -> r' = response_error_message m -> In q (all_props r') -> In q (all_props m)).
    { intros r' Q -> I'. destruct (failure_eq m W Q) as (e & _ & X). rewrite X in I'. unfold all_props in *. cbn [m_props m_set m_get resp] in I'.
      rewrite !app_nil_r in I'. rewrite !in_app_iff. destruct (m_esv m =? 0x6E); [apply in_app_iff in I'; tauto|auto]. }
    inversion E as [|o Q A V|o copy u1 copy' Q A V C1 D1|pre o post copy u1 copy' Q Eo Ec Fp V C1 D1 Eu En Er']; subst; eauto.
    destruct (success_eq o (answered o m copy') m W B Q V (answered_shape o m copy')) as [[_ N]|(e & ps & ss & gs & Se & X & Ak & Rd & Wr)]; [congruence|].
    assert (r = resp m e ps ss gs) as -> by congruence.
    assert (Ao : addressed (n_objects n) (msg_deoj m) o) by (exists pre, post; auto).
    assert (Ao' : addressed (pre ++ answered o m copy' :: post) (msg_deoj m) (answered o m copy')) by (eapply addressed_after; eauto; apply answered_shape).
    assert (Nack : forall l, ~ In q (ack_props l)).
    { intros l I'. apply in_map_iff in I' as (x & <- & _). cbn in D. congruence. }
    assert (Hold : forall l l', read_props_of (answered o m copy') l = Some l' -> Forall (may_read o) l -> In q l' -> (forall x, In x l -> In x (all_props m)) ->
      exists o0 c, addressed (n_objects n) (msg_deoj m) o0 /\ In c (map pp_code (all_props m)) /\ can_read o0 c /\
        exists o' p, addressed (pre ++ answered o m copy' :: post) (msg_deoj m) o' /\ object_find_property o' c = Some p /\ q = PProp (p_code p) (p_data p)).
    { intros l l' Rp Fr I' Sub. apply read_props_spec in Rp. revert Fr Sub. induction Rp as [|x a l l' (p & Fp' & Ea) Rp IH]; [destruct I'|].
      intros Fr Sub. inversion Fr; subst. destruct I' as [I'|I'].
      - exists o, (pp_code x). split; auto. split; [apply in_map; apply Sub; left; auto|]. split; auto.
        exists (answered o m copy'), p. split; auto.
      - apply IH; auto. intros y Iy. apply Sub. right. auto. }
    destruct V as [_ Vr]. unfold all_props in I. cbn [m_props m_set m_get resp] in I. rewrite !in_app_iff in I.
    right. cbn [n_objects n_with_objects]. clear Er E.
    services Q; rewrite <- Q in *.
    - inversion Se.
    - destruct Ak as (-> & -> & ->); auto. cbn in I. exfalso. apply (Nack (m_props m)); tauto.
    - destruct Rd as (Rp & -> & ->); auto. cbn in I. apply (Hold (m_props m) ps); auto; [|tauto|].
      + unfold reads_of in Vr. rewrite <- Q in Vr. exact Vr.
      + intros x Ix. unfold all_props. apply in_app_iff. auto.
    - destruct Rd as (Rp & -> & ->); auto. cbn in I. apply (Hold (m_props m) ps); auto; [|tauto|].
      + unfold reads_of in Vr. rewrite <- Q in Vr. exact Vr.
      + intros x Ix. unfold all_props. apply in_app_iff. auto.
    - destruct Wr as (-> & -> & Rp); auto. destruct I as [[]|[I|I]]; [exfalso; apply (Nack (m_set m)); auto|].
      apply (Hold (m_get m) gs); auto.
      + unfold reads_of in Vr. rewrite <- Q in Vr. exact Vr.
      + intros x Ix. unfold all_props. rewrite !in_app_iff. auto.
    - destruct Ak as (-> & -> & ->); auto. cbn in I. exfalso. apply (Nack (m_props m)); tauto.
  Qed.
  (** Only writable properties change: for handlers which do not change the
      object, and apart from the property maps. *)
  Theorem C42_only_writable_change_partial : forall w (u : U) n m, reachable u n w -> received m -> Forall hands_off (n_handlers n) ->
    forall seed u' n' res, node_message_received seed u n m = Ret (u', n', res) ->
    forall o o' c, addressed (n_objects n) (msg_deoj m) o -> addressed (n_objects n') (msg_deoj m) o' -> ~ map_code c ->
    object_find_property o' c <> object_find_property o c -> can_write o c /\ In c (map pp_code (writes_of m)).
  Proof.
    intros w u n m Rc R Hh seed u' n' res E o o' c A A' Nm Ne. apply received_rcvd in R. apply reachable_good in Rc.
    apply handled_spec in E. assert (Same : n' = n -> False).
    { intros ->. apply Ne. rewrite (addressed_unique _ _ _ _ A A'). auto. }
    inversion E as [|o0 Q Ao V|o0 copy u1 copy' Q Ao V C1 D1|pre o0 post copy u1 copy' Q Eo Ec Fp V C1 D1 Eu En Er']; subst; try (exfalso; auto; fail).
    assert (o0 = o) as -> by (apply (addressed_unique (n_objects n) (msg_deoj m)); auto; exists pre, post; auto).
    assert (o' = answered o m copy') as ->.
    { eapply addressed_unique; eauto. cbn. eapply addressed_after; eauto. apply answered_shape. }
    apply request_received_hands_off in D1; auto. subst copy'.
    assert (Go : obj_good o). { destruct Rc as [G _]. rewrite Eo in G. apply Forall_app in G as [_ G]. inversion G; auto. }
    rewrite (answered_hands_off o m seed copy c Go C1) in Ne by (unfold map_code, is_map_code in *; lia).
    destruct (last_data c (writes_of m)) as [d|] eqn:L.
    - pose proof (last_data_in _ _ _ L) as I. split; [|apply (in_map pp_code) in I; exact I].
      destruct V as [V _]. destruct (proj1 (Forall_forall _ _) V _ I) as (p & Fx & Al & _). exists p. auto.
    - exfalso. apply Ne. destruct (object_find_property o c); reflexivity.
  Qed.

  (** ** C43: Request handlers have authority *)
  (** Not for write-read requests: if all registered handlers reject some
      property of the request, it is answered with an error and nothing changes. *)
  Theorem C43_authority_partial : forall seed (u : U) n m o copy bss u1 copy', received m -> request_service (m_esv m) ->
    m_esv m <> 0x6E -> addressed (n_objects n) (msg_deoj m) o -> permitted o m -> object_clone seed o = Ret copy ->
    n_handlers n <> [] -> all_asked (msg_esv m) (m_props m) (n_handlers n) u copy bss u1 copy' -> Forall (In false) bss ->
    exists r, node_message_received seed u n m = Ret (u1, n, Some r) /\ error_service (m_esv r).
  Proof.
    intros seed u n m o copy bss u1 copy' R Q N6 A Pm Cl Nh All Fl. apply received_rcvd in R.
    exists (response_error_message m). split.
    - unfold node_message_received. rewrite (request_not_response _ Q : esv_is_response (msg_esv m) = false), (addressed_find _ _ _ A).
      rewrite (proj1 (request_service_spec _) Q : esv_is_request (msg_esv m) = true). cbn [negb].
      rewrite (proj2 (request_valid_spec o m Q) Pm). cbn [negb]. rewrite Cl. cbn [obind].
      rewrite (proj2 (request_received_spec (n_handlers n) u copy m u1 copy' false Nh)); [reflexivity|].
      exists bss. split; auto. split; [discriminate|]. intros (bs & I & X). exfalso. apply X.
      exact (proj1 (Forall_forall _ _) Fl bs I).
    - destruct (failure_eq m (rc_wf _ R) Q) as (e & Fe & ->). cbn [m_esv resp].
      services Q; rewrite <- Q in Fe; inversion Fe; subst; cbn; auto 10.
  Qed.
  (** In terms of the handlers alone. *)
  Definition rejects (h : handler U) (e : esv) (q : pprop) : Prop :=
    forall u o u' o' b, call_handler h u o e q = Ret (u', o', b) -> b = false.
  Theorem C43_unanimous_rejection_partial : forall seed (u : U) n m q o, received m -> m_esv m <> 0x6E ->
    request_service (m_esv m) -> addressed (n_objects n) (msg_deoj m) o ->
    In q (m_props m) -> n_handlers n <> [] -> Forall (fun h => rejects h (msg_esv m) q) (n_handlers n) ->
    forall u' n' res, node_message_received seed u n m = Ret (u', n', res) ->
    n' = n /\ exists r, res = Some r /\ error_service (m_esv r).
  Proof.
    intros seed u n m q o R N6 Q A I Nh Rj u' n' res E. apply received_rcvd in R. apply handled_spec in E.
    assert (Er : error_service (m_esv (response_error_message m))).
    { destruct (failure_eq m (rc_wf _ R) Q) as (e & Fe & ->). cbn [m_esv resp].
      services Q; rewrite <- Q in Fe; inversion Fe; subst; cbn; auto 10. }
    inversion E as [N|o0 _ Ao V|o0 copy u1 copy' _ Ao V C1 D1|pre o0 post copy u1 copy' _ Eo Ec Fp V C1 D1 Eu En Er']; subst; eauto.
    - exfalso. destruct N as [N|N]; [|tauto]. eapply addressed_not_owned; eauto.
    - exfalso. apply request_received_spec in D1 as (bss & All & [X _]); auto. destruct (X eq_refl) as (bs & Ib & Nf). apply Nf.
      clear -All Ib Rj I. remember (msg_esv m) as e. remember (m_props m) as ps. revert Rj Ib.
      induction All as [|h hs u o bs0 u1 o1 bss u2 o2 Ak All IH]; [intros _ []|]. intros Rj [->|Ib]; inversion Rj; subst; [|apply IH; auto].
      clear -Ak I H1. induction Ak as [|u o p u1 o1 b ps bs u2 o2 Cl Ak IH]; [destruct I|]. destruct I as [->|I]; [left; eapply H1; eauto|right; auto].
  Qed.

  (** ** C44: Handlers only see valid requests *)
  (** What the copy of the object can become while handlers are called. *)
  Inductive passed_on (e : esv) (qs : list pprop) (hs : list (handler U)) (copy : object) : object -> Prop :=
  | po_copy : passed_on e qs hs copy copy
  | po_call o h u q u' o' b : passed_on e qs hs copy o -> In h hs -> In q qs -> call_handler h u o e q = Ret (u', o', b) ->
      passed_on e qs hs copy o'.
  Definition rule_permits (o : object) (e : N) (q : pprop) : Prop :=
    (In e [0x60; 0x61] /\ may_write o q) \/ (In e [0x62; 0x63; 0x74] /\ may_read o q).
  Definition valid_call (n : node U) (m : message) (o : object) (e : esv) (q : pprop) : Prop :=
    exists owned seed copy, addressed (n_objects n) (msg_deoj m) owned /\ object_clone seed owned = Ret copy /\
      passed_on e (m_props m) (n_handlers n) copy o /\ e = msg_esv m /\ In q (m_props m) /\ rule_permits owned (m_esv m) q.

  Lemma ask_handler_agree (h h' : handler U) e (good : object -> Prop) ps :
    (forall u o q, good o -> In q ps -> call_handler h' u o e q = call_handler h u o e q) ->
    (forall u o q u' o' b, good o -> In q ps -> call_handler h u o e q = Ret (u', o', b) -> good o') ->
    forall u o all, good o -> ask_handler h' u o e ps all = ask_handler h u o e ps all /\
      forall u' o' b, ask_handler h u o e ps all = Ret (u', o', b) -> good o'.
  Proof.
    intros A C. induction ps as [|q r IH]; intros u o all G; cbn [ask_handler].
    - split; auto. intros u' o' b H. inversion H; subst; auto.
    - rewrite A by (auto; left; auto). destruct (call_handler h u o e q) as [[[u1 o1] ok]|] eqn:E; cbn [obind]; [|split; auto; discriminate].
      apply IH.
      + intros. apply A; auto. right; auto.
      + intros u2 o2 q2 u3 o3 b3 G2 I2 E2. eapply C; eauto. right; auto.
      + eapply C; eauto. left; auto.
  Qed.
  Lemma ask_handlers_agree e (good : object -> Prop) ps (hs hs' : list (handler U)) :
    Forall2 (fun h h' => forall u o q, good o -> In q ps -> call_handler h' u o e q = call_handler h u o e q) hs hs' ->
    (forall h, In h hs -> forall u o q u' o' b, good o -> In q ps -> call_handler h u o e q = Ret (u', o', b) -> good o') ->
    forall u o acc, good o -> ask_handlers hs' u o e ps acc = ask_handlers hs u o e ps acc.
  Proof.
    induction 1 as [|h h' hs hs' A F IH]; intros C u o acc G; cbn [ask_handlers]; auto.
    destruct (ask_handler_agree h h' e good ps A (C h (or_introl eq_refl)) u o true G) as [E X]. rewrite E.
    destruct (ask_handler h u o e ps true) as [[[u1 o1] all]|]; cbn [obind]; auto. apply IH; eauto.
    intros h0 I. apply C. right. auto.
  Qed.
  Lemma permitted_rules o m q : request_service (m_esv m) -> one_body m -> permitted o m -> In q (m_props m) -> rule_permits o (m_esv m) q.
  Proof.
    intros Q [B _] [Pw Pr] I. unfold rule_permits. unfold writes_of, reads_of in *. services Q; rewrite <- Q in *; cbn in Pw, Pr |- *.
    1,2: left; split; auto; exact (proj1 (Forall_forall _ _) Pw q I).
    1,2,4: right; split; auto; exact (proj1 (Forall_forall _ _) Pr q I).
    rewrite B in I by reflexivity. destruct I.
  Qed.

  (** Whatever a handler would do in any other call makes no difference. *)
  Theorem C44_only_valid_calls : forall seed (u : U) n m hs', received m ->
    Forall2 (fun h h' => forall u o e q, valid_call n m o e q -> call_handler h' u o e q = call_handler h u o e q) (n_handlers n) hs' ->
    node_message_received seed u (n_with_handlers n hs') m =
    (let! x := node_message_received seed u n m in let '(u', n', res) := x in Ret (u', n_with_handlers n' hs', res)).
  Proof.
    intros seed u n m hs' R F. apply received_rcvd in R. unfold node_message_received. cbn [n_objects n_with_handlers n_handlers].
    destruct (esv_is_response (msg_esv m)) eqn:E1; [reflexivity|].
    destruct (find_object (n_objects n) (msg_deoj m)) as [o|] eqn:E2; [|reflexivity].
    destruct (esv_is_request (msg_esv m)) eqn:E3; [|reflexivity]. cbn [negb].
    destruct (request_valid o m) eqn:E4; [|reflexivity]. cbn [negb].
    destruct (object_clone seed o) as [copy|] eqn:E5; [|reflexivity]. cbn [obind].
    assert (Q : request_service (m_esv m)) by (apply request_service_spec; exact E3).
    apply request_valid_spec in E4; auto. apply find_object_some in E2.
    assert (X : request_received hs' u copy m = request_received (n_handlers n) u copy m).
    { unfold request_received. rewrite <- (Forall2_length' _ _ _ F). destruct (Nat.eqb _ 0); auto.
      apply (ask_handlers_agree (msg_esv m) (passed_on (msg_esv m) (m_props m) (n_handlers n) copy)); [| |constructor].
      - eapply Forall2_impl'; [|exact F]. intros h h' A u1 o1 q G I. apply A. exists o, seed, copy.
        do 5 (split; [auto|]). apply permitted_rules; auto. apply (rc_body _ R).
      - intros h Ih u1 o1 q u2 o2 b G I C. eapply po_call; eauto. }
    rewrite X. destruct (request_received (n_handlers n) u copy m) as [[[u1 c1] acc]|]; cbn [obind]; [|reflexivity].
    destruct acc; reflexivity.
  Qed.
  (** While the handlers change only data, the object they get is, apart from
      data, the one the node owns. *)
  Theorem C44_object_shape : forall n m o e q, node_good n -> (forall h, In h (n_handlers n) -> forall u o e q u' o' b,
      call_handler h u o e q = Ret (u', o', b) -> same_shape o o') ->
    valid_call n m o e q -> exists owned, addressed (n_objects n) (msg_deoj m) owned /\ same_shape owned o.
  Proof.
    intros n m o e q G K (owned & seed & copy & A & Cl & Po & _). exists owned. split; auto.
    assert (Go : obj_good owned). { destruct G as [G _]. apply (proj1 (Forall_forall _ _) G). eapply addressed_in; eauto. }
    pose proof (clone_shape seed owned copy Go Cl) as S. induction Po as [|o h u q' u' o' b Po IH Ih Iq C]; auto.
    eapply same_shape_trans; eauto.
  Qed.

  (** ** C45: A device without a user handler *)
  (** Not for write-read requests. *)
  Theorem C45_default_device_partial : forall seed (u : U) n m o, received m -> m_esv m <> 0x6E -> request_service (m_esv m) ->
    n_handlers n = [HNode] -> addressed (n_objects n) (msg_deoj m) o -> msg_deoj m <> 0x0EF001 -> m_props m <> [] ->
    forall u' n' res, node_message_received seed u n m = Ret (u', n', res) ->
    n' = n /\ exists r, res = Some r /\ error_service (m_esv r).
  Proof.
    intros seed u n m o R N6 Q Eh A Np Ne u' n' res E. apply received_rcvd in R. apply handled_spec in E.
    assert (Er : error_service (m_esv (response_error_message m))).
    { destruct (failure_eq m (rc_wf _ R) Q) as (e & Fe & ->). cbn [m_esv resp].
      services Q; rewrite <- Q in Fe; inversion Fe; subst; cbn; auto 10. }
    assert (Cc : forall o copy, addressed (n_objects n) (msg_deoj m) o -> object_clone seed o = Ret copy -> object_code copy = msg_deoj m).
    { intros o1 copy (pre & post & _ & Ec & _) Cl. rewrite <- Ec. apply object_code_codes. eapply clone_codes; eauto. }
    inversion E as [N|o0 _ Ao V|o0 copy u1 copy' _ Ao V C1 D1|pre o0 post copy u1 copy' _ Eo Ec Fp V C1 D1 Eu En Er']; subst; eauto.
    - exfalso. destruct N as [N|N]; [|tauto]. eapply addressed_not_owned; eauto.
    - exfalso. assert (Ao : addressed (n_objects n) (msg_deoj m) o0) by (exists pre, post; auto).
      specialize (Cc o0 copy Ao C1). rewrite Eh in D1. unfold request_received in D1. cbn [length Nat.eqb ask_handlers] in D1.
      destruct (m_props m) as [|q r] eqn:Ep; [tauto|]. cbn [ask_handler call_handler obind] in D1.
      assert (Nn : forall e p, node_handler copy e p = false).
      { intros e p. unfold node_handler. rewrite Cc. replace (msg_deoj m =? NODE_PROFILE_OBJECT_CODE) with false; auto.
        symmetry. apply N.eqb_neq. exact Np. }
      rewrite Nn in D1. cbn [negb] in D1.
      assert (Z : forall l, ask_handler HNode u copy (msg_esv m) l false = Ret (u, copy, false)).
      { induction l as [|p l IH]; cbn [ask_handler call_handler obind]; auto. rewrite Nn. cbn [negb]. exact IH. }
      rewrite Z in D1. cbn in D1. inversion D1.
  Qed.

  (** ** C46: Several handlers *)
  (** The request as a whole is accepted when one handler accepts all of its
      properties; every handler is asked about every property, handler by
      handler in registration order. *)
  Theorem C46_some_handler_accepts_all_partial : forall seed (u : U) n m o copy, received m -> request_service (m_esv m) ->
    addressed (n_objects n) (msg_deoj m) o -> permitted o m -> object_clone seed o = Ret copy ->
    forall u' n' res, node_message_received seed u n m = Ret (u', n', res) ->
    exists copy' b, verdict (n_handlers n) m u copy u' copy' b /\
      (b = false <-> exists r, res = Some r /\ error_service (m_esv r)).
  Proof.
    intros seed u n m o copy R Q A Pm Cl u' n' res E. apply received_rcvd in R. apply handled_spec in E.
    assert (Er : error_service (m_esv (response_error_message m))).
    { destruct (failure_eq m (rc_wf _ R) Q) as (e & Fe & ->). cbn [m_esv resp].
      services Q; rewrite <- Q in Fe; inversion Fe; subst; cbn; auto 10. }
    inversion E as [N|o0 _ Ao V|o0 copy0 u1 copy' _ Ao V C1 D1|pre o0 post copy0 u1 copy' _ Eo Ec Fp V C1 D1 Eu En Er']; subst.
    - exfalso. destruct N as [N|N]; [|tauto]. eapply addressed_not_owned; eauto.
    - exfalso. rewrite (addressed_unique _ _ _ _ Ao A) in V. tauto.
    - rewrite (addressed_unique _ _ _ _ Ao A) in C1. assert (copy0 = copy) as -> by congruence.
      exists copy', false. split; [apply verdict_spec; auto|]. split; eauto.
    - assert (Ao : addressed (n_objects n) (msg_deoj m) o0) by (exists pre, post; auto).
      rewrite (addressed_unique _ _ _ _ Ao A) in C1. assert (copy0 = copy) as -> by congruence.
      exists copy', true. split; [apply verdict_spec; auto|]. split; [discriminate|].
      intros (r & Er' & X). exfalso.
      destruct (success_eq o0 (answered o0 m copy') m (rc_wf _ R) (rc_body _ R) Q V (answered_shape o0 m copy')) as [[_ N]|(e & ps & ss & gs & S & Y & _)]; [congruence|].
      assert (r = resp m e ps ss gs) as -> by congruence. cbn in X.
      services Q; rewrite <- Q in S; inversion S; subst; cbn in X; intuition discriminate.
  Qed.

  (** ** C47: Requests are isolated *)
  (** At most the data of the addressed object changes, whatever the handlers do. *)
  Theorem C47_isolation_partial : forall seed (u : U) n m u' n' res,
    node_message_received seed u n m = Ret (u', n', res) ->
    n' = n \/ exists pre o post o', n_objects n = pre ++ o :: post /\ object_code o = msg_deoj m /\
      n' = n_with_objects n (pre ++ o' :: post) /\ same_shape o o'.
  Proof.
    intros seed u n m u' n' res E. apply handled_spec in E.
    inversion E as [N|o0 _ Ao V|o0 copy0 u1 copy' _ Ao V C1 D1|pre o0 post copy0 u1 copy' _ Eo Ec Fp V C1 D1 Eu En Er']; subst; auto.
    right. exists pre, o0, post, (answered o0 m copy'). split; auto. split; auto. split; auto. apply answered_shape.
  Qed.

  (** ** C48: Write request without response *)
  Theorem C48_write_no_response : forall w (u : U) n m u' n' w' tr o, received m -> m_esv m = 0x60 ->
    addressed (n_objects n) (msg_deoj m) o ->
    node_observe w u n m = Ret (u', n', w') -> since w w' tr ->
    (permitted o m /\ (exists copy copy', object_clone (os_seed (w_calls w)) o = Ret copy /\ verdict (n_handlers n) m u copy u' copy' true) /\
     offered tr = []) \/
    ((~ permitted o m \/ exists copy copy', object_clone (os_seed (w_calls w)) o = Ret copy /\ verdict (n_handlers n) m u copy u' copy' false) /\
     n_objects n' = n_objects n /\
     exists data, service_of data = 0x50 /\ Forall (eq ((fst (msg_from m), 3610), data)) (offered tr) /\ (length (sent tr) <= 1)%nat /\
      ((forall k, os_send k = true) -> (exists s, In s (mg_ucast (n_mgr n)) /\ sk_sock (sv_socket s) <> None) -> length (sent tr) = 1%nat)).
  Proof.
    intros w u n m u' n' w' tr o R E6 A E S. apply received_rcvd in R.
    assert (Q : request_service (m_esv m)) by (rewrite E6; unfold request_service; cbn; auto).
    rewrite observe_eq in E. destruct (deliver w n m) as [[n1 w1]|] eqn:Dl; cbn [obind] in E; [|discriminate].
    assert (X : n1 = n /\ w1 = w).
    { unfold deliver, is_last_message_response in Dl.
      rewrite (proj1 (request_service_spec _) Q : esv_is_request (msg_esv m) = true) in Dl. inversion Dl; auto. }
    destruct X as [-> ->].
    destruct (node_message_received (os_seed (w_calls w)) u n m) as [[[u1 n2] res]|] eqn:Em; cbn [obind] in E; [|discriminate].
    apply handled_spec in Em.
    destruct (failure_eq m (rc_wf _ R) Q) as (e & Fe & Re). rewrite E6 in Fe, Re. inversion Fe; subst e.
    assert (Rej : forall n3, respond (tick w) n m (Some (response_error_message m)) = (n3, w') ->
      exists data, service_of data = 0x50 /\ Forall (eq ((fst (msg_from m), 3610), data)) (offered tr) /\ (length (sent tr) <= 1)%nat /\
      ((forall k, os_send k = true) -> (exists s, In s (mg_ucast (n_mgr n)) /\ sk_sock (sv_socket s) <> None) -> length (sent tr) = 1%nat)).
    { intros n3 Hr. rewrite Re in Hr. cbn [respond] in Hr. change (esv_is_response (msg_esv (resp m 0x50 _ [] []))) with true in Hr.
      change (esv_is_unicast_response (msg_esv (resp m 0x50 _ [] []))) with true in Hr. cbn match in Hr.
      destruct (node_send (tick w) n (fst (msg_from m), PORT) (resp m 0x50 (if 0x60 =? 0x6E then m_set m ++ m_set m else m_props m) [] []))
        as [[[ok m'] n4] w4] eqn:Es. inversion Hr; subst n4 w4.
      pose proof (node_send_spec _ _ _ _ _ _ _ _ Es) as (Ut & t2 & S2 & _ & _ & Fo & Se).
      assert (t2 = tr). { assert (X : since w w' t2) by (unfold since, tick in *; exact S2). eapply since_unique; eauto. }
      subst t2. destruct (update_resp _ _ _ _ _ _ _ _ (rc_wf _ R) Ut) as (t & -> & Wt & Ht).
      exists (msg_bytes (with_t m t 80 (if 96 =? 110 then m_set m ++ m_set m else m_props m) [] [])).
      split; [apply with_t_service; [apply (wf_seoj _ (rc_wf _ R))|apply (wf_deoj _ (rc_wf _ R))]|].
      split; [exact Fo|]. rewrite Se. split; [destruct ok; cbn; lia|].
      intros Al Ex. replace ok with true; auto. symmetry. unfold node_send in Es. rewrite Ut in Es.
      assert (Emg : n_mgr n3 = n_mgr n) by (apply update_tid_keeps in Ut; tauto).
      destruct (manager_send (tick w) (n_mgr n3) _ _) as [b wb] eqn:Ms. inversion Es; subst.
      rewrite Emg in Ms. eapply manager_send_ok; eauto. }
    destruct (respond (tick w) n2 m res) as [n3 w3] eqn:Er. inversion E; subst u1 n3 w3.
    inversion Em as [N|o0 _ Ao V|o0 copy0 u1 copy' _ Ao V C1 D1|pre o0 post copy0 u1 copy' _ Eo Ec Fp V C1 D1 Eu En Er']; subst.
    - exfalso. destruct N as [N|N]; [|tauto]. eapply addressed_not_owned; eauto.
    - rewrite (addressed_unique _ _ _ _ Ao A) in V. right. split; auto. split; [|eauto].
      apply respond_objects in Er. auto.
    - rewrite (addressed_unique _ _ _ _ Ao A) in *. right. split; [right; exists copy0, copy'; split; auto; apply verdict_spec; auto|].
      split; [|eauto]. apply respond_objects in Er. auto.
    - assert (Ao : addressed (n_objects n) (msg_deoj m) o0) by (exists pre, post; auto).
      rewrite (addressed_unique _ _ _ _ Ao A) in *. left. split; auto.
      split; [exists copy0, copy'; split; auto; apply verdict_spec; auto|].
      destruct (success_eq o (answered o m copy') m (rc_wf _ R) (rc_body _ R) Q V (answered_shape o m copy')) as [[_ N]|(e & ps & ss & gs & S' & Y & _)].
      2:{ rewrite E6 in S'. inversion S'. }
      rewrite N in Er. cbn [respond] in Er. inversion Er; subst. replace tr with (@nil event); auto.
      assert (X : since w (tick w) []) by (unfold since, tick; cbn; rewrite app_nil_r; auto). eapply since_unique; eauto.
  Qed.

  (** ** C49: Responses go to the requester *)
  (** Not for requests 0x74. *)
  Theorem C49_destination_partial : forall w (u : U) n m u' n' w' tr to data, received m -> m_esv m <> 0x74 ->
    node_observe w u n m = Ret (u', n', w') -> since w w' tr -> In (to, data) (offered tr) ->
    (service_of data = 0x73 /\ to = group) \/ (service_of data <> 0x73 /\ to = (fst (msg_from m), 3610)).
  Proof.
    intros w u n m u' n' w' tr to data R N7 E S I. apply received_rcvd in R.
    destruct (observe_offered w u n m u' n' w' tr to data R E S I) as (e & ps & ss & gs & t & n2 & Q & H & Eo & D & T & Te & Ed).
    subst data. pose proof (wf_seoj _ (rc_wf _ R)) as W3. pose proof (wf_deoj _ (rc_wf _ R)) as W4.
    rewrite (with_t_service m t e ps ss gs W3 W4). subst to. unfold dest.
    destruct (e =? 0x73) eqn:E3; [apply N.eqb_eq in E3; auto|]. apply N.eqb_neq in E3. right. split; auto.
    destruct (e =? 0x7A) eqn:EA; auto. exfalso. apply N.eqb_eq in EA. subst e.
    inversion H as [|o0 _ Ao V Eq1|o0 copy0 u1 copy' _ Ao V C1 D1|pre o0 post copy0 u1 copy' _ Eo' Ec Fp V C1 D1 Eu En Er']; subst.
    1,2: destruct (failure_eq m (rc_wf _ R) Q) as (e & Fe & Re); rewrite Re in *;
      match goal with X : resp _ _ _ _ _ = resp _ _ _ _ _ |- _ => inversion X; subst end;
      services Q; rewrite <- Q in Fe; inversion Fe.
    destruct (success_eq o0 (answered o0 m copy') m (rc_wf _ R) (rc_body _ R) Q V (answered_shape o0 m copy')) as [[_ N]|(e & ps' & ss' & gs' & S' & Y & _)]; [congruence|].
    assert (X : resp m e ps' ss' gs' = resp m 0x7A ps ss gs) by congruence. inversion X; subst.
    services Q; rewrite <- Q in S', N7; inversion S'. tauto.
  Qed.

  (** ** C51: Write-read requests *)
  (** [o'] is the addressed object after the request. *)
  Theorem C51_write_read : forall w (u : U) n m, reachable u n w -> received m -> m_esv m = 0x6E ->
    forall seed u' n' r, node_message_received seed u n m = Ret (u', n', Some r) -> ~ error_service (m_esv r) ->
    m_esv r = 0x7E /\ m_props r = [] /\ m_set r = map (fun q => PProp (pp_code q) []) (m_set m) /\
    exists o', addressed (n_objects n') (msg_deoj m) o' /\
      Forall2 (fun q a => pp_code a = pp_code q /\ object_property_data o' (pp_code q) = Some (pp_data a) /\
                          forall d, last_data (pp_code q) (m_set m) = Some d -> pp_data a = d) (m_get m) (m_get r).
  Proof.
    intros w u n m Rc R Es seed u' n' r E Ok. apply received_rcvd in R. apply reachable_good in Rc.
    assert (Q : request_service (m_esv m)) by (rewrite Es; unfold request_service; cbn; tauto).
    assert (A : exists o, addressed (n_objects n) (msg_deoj m) o).
    { destruct (addressed_dec (n_objects n) (msg_deoj m)) as [N|N]; auto. exfalso.
      apply find_object_none in N. unfold node_message_received in E. rewrite N in E. destruct (esv_is_response (msg_esv m)); discriminate. }
    destruct (accepted_full seed u n m u' n' (Some r) R Rc Q A E)
      as (pre & o0 & post & copy & o1 & Eo & Ec & F & Pm & Cl & En & A1 & Sh & G1 & G0 & Er & Lw & _).
    { intros r' Hr. inversion Hr; subst. auto. }
    destruct (success_eq o0 o1 m (rc_wf _ R) (rc_body _ R) Q Pm Sh) as [[X _]|(e & ps & ss & gs & Se & Em & _ & _ & Wr)].
    { exfalso. congruence. }
    rewrite Em in Er. inversion Er; subst r. cbn [m_props m_set m_get m_esv resp].
    destruct (Wr Es) as (-> & -> & Rp). rewrite Es in Se. inversion Se; subst. do 3 (split; [auto|]).
    exists o1. split; auto. assert (Ws : writes_of m = m_set m) by (unfold writes_of; rewrite Es; reflexivity). rewrite Ws in Lw.
    apply read_props_spec in Rp. clear -Rp G1 Lw. induction Rp as [|q a l l' (p & Fp & ->) Rp IH]; constructor; auto. cbn.
    pose proof (obj_good_coded _ G1 _ _ Fp) as Cp. split; [auto|].
    assert (D : object_property_data o1 (pp_code q) = Some (p_data p)) by (unfold object_property_data; rewrite Fp; reflexivity).
    split; auto. intros d L. apply Lw in L. congruence.
  Qed.
End S.

(* ------------------------------------------------------------------ *)
(** ** Examples and refutations *)
Section Examples.
  Local Existing Instance ex_order.
  Local Existing Instance ex_os.
  Local Instance prof : Profile := true.

  Ltac reached := first [apply ex_reachable; [apply ex_ops_ok; typed|vm_compute; reflexivity]].
  Ltac run := vm_compute; reflexivity.
  Definition reached_n hs := ex_n (ex_ops hs).
  Definition reached_w hs := ex_w (ex_ops hs).

  (** C36: a message to an object the node does not have; a response. *)
  Example C36_example :
    not_owned (n_objects (reached_n [yes])) 0x013001 /\ reachable tt (reached_n [yes]) (reached_w [yes]) /\
    ex_trace [yes] [0x10; 0x81; 0; 9; 5; 0xFF; 1; 1; 0x30; 1; 0x62; 1; 0x80; 0] = [] /\
    ex_trace [yes] (to_lamp 9 0x72 [1; 0x80; 1; 0x30]) = [] /\
    offered (ex_trace [yes] (to_lamp 9 0x62 [1; 0x80; 0])) <> [].
  Proof.
    split; [apply find_object_none; run|]. split; [reached|]. split; [run|]. split; [run|]. vm_compute. discriminate.
  Qed.

  (** C37 *)
  Example C37_example : offered (ex_trace [yes] (to_lamp 0x1234 0x62 [1; 0x80; 0])) =
    [(peer, [0x10; 0x81; 0x12; 0x34; 2; 0x91; 1; 5; 0xFF; 1; 0x72; 1; 0x80; 1; 0x30])].
  Proof. run. Qed.
  (** A request with TID 0 is answered with another TID. *)
  Theorem C37_tid_zero_refuted : exists (u : unit) n w m u' n' w' tr to data, reachable u n w /\ received m /\
    node_observe w u n m = Ret (u', n', w') /\ since w w' tr /\ In (to, data) (offered tr) /\
    msg_tid m = 0 /\ firstn 4 data = [0x10; 0x81; 0; 2].
  Proof.
    exists tt, (reached_n [yes]), (reached_w [yes]), (ex_rcv (to_lamp 0 0x62 [1; 0x80; 0])), tt,
      (ex_after [yes] (to_lamp 0 0x62 [1; 0x80; 0])), (ex_world [yes] (to_lamp 0 0x62 [1; 0x80; 0])),
      (ex_trace [yes] (to_lamp 0 0x62 [1; 0x80; 0])), peer,
      [0x10; 0x81; 0; 2; 2; 0x91; 1; 5; 0xFF; 1; 0x72; 1; 0x80; 1; 0x30].
    split; [reached|]. split; [rcv|]. split; [run|]. split; [run|]. split; [vm_compute; left; reflexivity|]. split; run.
  Qed.

  (** C38: writing the unknown property 0xF0 along with 0x80. *)
  Example C38_example :
    offered (ex_trace [yes] (to_lamp 7 0x61 [2; 0x80; 1; 0x31; 0xF0; 0])) =
      [(peer, [0x10; 0x81; 0; 7; 2; 0x91; 1; 5; 0xFF; 1; 0x51; 2; 0x80; 1; 0x31; 0xF0; 0])] /\
    data_in (ex_after [yes] (to_lamp 7 0x61 [2; 0x80; 1; 0x31; 0xF0; 0])) 0x029101 0x80 = Some [0x30] /\
    data_in (ex_after [yes] (to_lamp 7 0x61 [1; 0x80; 1; 0x31])) 0x029101 0x80 = Some [0x31].
  Proof. split; [run|]. split; run. Qed.

  (** C39: [C38_example] shows an error response. A write-read request for
      writing 0x9D and reading 0x80 and 0xB0 is answered with 0x9D, 0x9D. *)
  Theorem C39_write_read_refuted : exists (u : unit) n w m u' n' w' tr to data, reachable u n w /\ received m /\
    node_observe w u n m = Ret (u', n', w') /\ since w w' tr /\ In (to, data) (offered tr) /\
    m_set m = [PProp 0x9D [0x31]] /\ map pp_code (m_get m) = [0x80; 0xB0] /\
    skipn 10 data = [0x5E; 2; 0x9D; 1; 0x31; 0x9D; 1; 0x31].
  Proof.
    exists tt, (reached_n [yes]), (reached_w [yes]), (ex_rcv (to_lamp 7 0x6E [1; 0x9D; 1; 0x31; 2; 0x80; 0; 0xB0; 0])), tt,
      (ex_after [yes] (to_lamp 7 0x6E [1; 0x9D; 1; 0x31; 2; 0x80; 0; 0xB0; 0])), (ex_world [yes] (to_lamp 7 0x6E [1; 0x9D; 1; 0x31; 2; 0x80; 0; 0xB0; 0])),
      (ex_trace [yes] (to_lamp 7 0x6E [1; 0x9D; 1; 0x31; 2; 0x80; 0; 0xB0; 0])), peer,
      [0x10; 0x81; 0; 7; 2; 0x91; 1; 5; 0xFF; 1; 0x5E; 2; 0x9D; 1; 0x31; 0x9D; 1; 0x31].
    split; [reached|]. split; [rcv|]. split; [run|]. split; [run|]. split; [vm_compute; left; reflexivity|]. split; [run|]. split; run.
  Qed.

  (** C39: a read request for a property the lamp has and one it does not have. *)
  Example C39_example :
    offered (ex_trace [yes] (to_lamp 7 0x62 [2; 0x80; 0; 0xF0; 0])) =
      [(peer, [0x10; 0x81; 0; 7; 2; 0x91; 1; 5; 0xFF; 1; 0x52; 2; 0x80; 0; 0xF0; 0])].
  Proof. run. Qed.

  (** C40: the same property twice. *)
  Example C40_example :
    data_in (ex_after [yes] (to_lamp 7 0x60 [3; 0x80; 1; 0x31; 0xB0; 2; 1; 2; 0x80; 1; 0x30])) 0x029101 0x80 = Some [0x30] /\
    data_in (ex_after [yes] (to_lamp 7 0x60 [3; 0x80; 1; 0x30; 0xB0; 2; 1; 2; 0x80; 1; 0x31])) 0x029101 0x80 = Some [0x31] /\
    data_in (ex_after [yes] (to_lamp 7 0x60 [3; 0x80; 1; 0x30; 0xB0; 2; 1; 2; 0x80; 1; 0x31])) 0x029101 0xB0 = Some [1; 2].
  Proof. split; [run|]. split; run. Qed.
  (** A handler can change the data when it is asked about the read. *)
  Theorem C40_read_back_refuted : exists (u : unit) n w m u1 n1 w1 m2 seed u2 n2 r, reachable u n w /\ received m /\ received m2 /\
    m_esv m = 0x61 /\ m_props m = [PProp 0x80 [0x31]] /\ node_observe w u n m = Ret (u1, n1, w1) /\
    data_in n1 0x029101 0x80 = Some [0x31] /\
    m_esv m2 = 0x62 /\ node_message_received seed u1 n1 m2 = Ret (u2, n2, Some r) /\ m_esv r = 0x72 /\ m_props r = [PProp 0x80 [0x42]].
  Proof.
    set (m := ex_rcv (to_lamp 7 0x61 [1; 0x80; 1; 0x31])). set (m2 := ex_rcv (to_lamp 8 0x62 [1; 0x80; 0])).
    set (n1 := ex_after [meddle 0x80] (to_lamp 7 0x61 [1; 0x80; 1; 0x31])).
    exists tt, (reached_n [meddle 0x80]), (reached_w [meddle 0x80]), m, tt, n1,
      (ex_world [meddle 0x80] (to_lamp 7 0x61 [1; 0x80; 1; 0x31])), m2, 0, tt,
      (snd (fst (the (tt, ex_node0, None) (node_message_received 0 tt n1 m2)))),
      (match snd (the (tt, ex_node0, None) (node_message_received 0 tt n1 m2)) with Some r => r | None => msg_new end).
    split; [reached|]. split; [rcv|]. split; [rcv|]. split; [run|]. split; [run|]. split; [run|]. split; [run|].
    split; [run|]. split; [run|]. split; run.
  Qed.

  (** C41: two properties, in the requested order. *)
  Example C41_example : option_map m_props (ex_answer [yes] (to_lamp 7 0x63 [3; 0xB0; 0; 0x80; 0; 0x9D; 0])) =
      Some [PProp 0xB0 []; PProp 0x80 [0x30]; PProp 0x9D [1; 0x80]].
  Proof. run. Qed.

  (** C42: the lamp's property 0xE0 may be written but not read, 0x9D may be
      read but not written. *)
  Example C42_example : (exists o, addressed (n_objects (reached_n [yes])) 0x029101 o /\
      ~ permitted o (ex_rcv (to_lamp 7 0x62 [2; 0x80; 0; 0xE0; 0]))) /\
    option_map m_esv (ex_answer [yes] (to_lamp 7 0x62 [2; 0x80; 0; 0xE0; 0])) = Some 0x52 /\
    option_map m_esv (ex_answer [yes] (to_lamp 7 0x62 [1; 0x80; 0])) = Some 0x72 /\
    option_map m_esv (ex_answer [yes] (to_lamp 7 0x61 [1; 0x9D; 0])) = Some 0x51.
  Proof.
    split; [|split; [run|split; run]].
    destruct (find_object (n_objects (reached_n [yes])) 0x029101) as [o|] eqn:E; [|vm_compute in E; discriminate].
    exists o. split; [apply find_object_some; auto|].
    intro Pm. apply request_valid_spec in Pm; [|vm_compute; auto 10].
    vm_compute in E. inversion E; subst o. vm_compute in Pm. discriminate.
  Qed.
  (** Every accepted request rewrites the property maps from a copy with other
      hash seeds: a read of 0x80 changes the data of 0x9F, which is read-only,
      with handlers that do not touch the object. *)
  Theorem C42_only_writable_change_refuted : exists (u : unit) n w m u' n' w' o, reachable u n w /\ received m /\ Forall hands_off (n_handlers n) /\
    node_observe w u n m = Ret (u', n', w') /\ m_esv m = 0x62 /\ m_props m = [PProp 0x80 []] /\
    addressed (n_objects n) (msg_deoj m) o /\ ~ can_write o 0x9F /\
    data_in n 0x029101 0x9F = Some [5; 0xB0; 0x80; 0x9F; 0x9E; 0x9D] /\ data_in n' 0x029101 0x9F = Some [5; 0x9E; 0x80; 0xB0; 0x9F; 0x9D].
  Proof.
    destruct (find_object (n_objects (reached_n [yes])) 0x029101) as [o|] eqn:E; [|vm_compute in E; discriminate].
    exists tt, (reached_n [yes]), (reached_w [yes]), (ex_rcv (to_lamp 7 0x62 [1; 0x80; 0])), tt,
      (ex_after [yes] (to_lamp 7 0x62 [1; 0x80; 0])), (ex_world [yes] (to_lamp 7 0x62 [1; 0x80; 0])), o.
    split; [reached|]. split; [rcv|]. split.
    { vm_compute. constructor; [exact I|]. constructor; [|constructor]. intros u x e p u' o' b H. inversion H; auto. }
    split; [run|]. split; [run|]. split; [run|]. split; [apply find_object_some in E; replace (msg_deoj _) with 0x029101 by run; exact E|].
    split; [|split; run].
    intros (p & F & A). vm_compute in E. inversion E; subst o. vm_compute in F. inversion F; subst p. apply A. reflexivity.
  Qed.

  (** C43: a rejecting handler; a write-read request is carried out in spite of it. *)
  Example C43_example : ex_answer [no] (to_lamp 7 0x61 [1; 0x80; 1; 0x31]) = Some (resp (ex_rcv (to_lamp 7 0x61 [1; 0x80; 1; 0x31])) 0x51 [PProp 0x80 [0x31]] [] []) /\
    Forall (fun h => rejects h EWriteRequestResponseRequired (PProp 0x80 [0x31])) (n_handlers (reached_n [no])).
  Proof.
    split; [run|]. replace (n_handlers _) with [HNode; @no unit] by run. constructor; [|constructor; [|constructor]].
    - intros u o u' o' b H. unfold call_handler, node_handler in H. destruct (negb _); inversion H; reflexivity.
    - intros u o u' o' b H. inversion H. reflexivity.
  Qed.
  Theorem C43_write_read_refuted : exists (u : unit) n w m u' n' w' tr data, reachable u n w /\ received m /\
    Forall (fun h => h = HNode \/ h = no) (n_handlers n) /\ In no (n_handlers n) /\
    node_observe w u n m = Ret (u', n', w') /\ since w w' tr /\ m_set m = [PProp 0x80 [0x31]] /\
    data_in n 0x029101 0x80 = Some [0x30] /\ data_in n' 0x029101 0x80 = Some [0x31] /\
    sent tr = [(peer, data)] /\ service_of data = 0x7E.
  Proof.
    exists tt, (reached_n [no]), (reached_w [no]), (ex_rcv (to_lamp 7 0x6E [1; 0x80; 1; 0x31; 1; 0x80; 0])), tt,
      (ex_after [no] (to_lamp 7 0x6E [1; 0x80; 1; 0x31; 1; 0x80; 0])), (ex_world [no] (to_lamp 7 0x6E [1; 0x80; 1; 0x31; 1; 0x80; 0])),
      (ex_trace [no] (to_lamp 7 0x6E [1; 0x80; 1; 0x31; 1; 0x80; 0])),
      [0x10; 0x81; 0; 7; 2; 0x91; 1; 5; 0xFF; 1; 0x7E; 1; 0x80; 0; 1; 0x80; 1; 0x31].
    split; [reached|]. split; [rcv|]. split; [vm_compute; auto|]. split; [vm_compute; auto|].
    split; [run|]. split; [run|]. split; [run|]. split; [run|]. split; [run|]. split; run.
  Qed.

  (** C44: a valid call, and an invalid one: a handler that panics when it is
      asked about 0xE0 in a read changes nothing. *)
  Definition touchy : handler unit := HUser (fun u o e p => match e with EReadRequest => if pp_code p =? 0xE0 then Panic else Ret (u, o, true) | _ => Ret (u, o, true) end).
  Example C44_example :
    ex_observe [touchy] (to_lamp 7 0x62 [2; 0x80; 0; 0xE0; 0]) = Ret (tt, ex_after [touchy] (to_lamp 7 0x62 [2; 0x80; 0; 0xE0; 0]), ex_world [touchy] (to_lamp 7 0x62 [2; 0x80; 0; 0xE0; 0])) /\
    exists o, valid_call (reached_n [yes]) (ex_rcv (to_lamp 7 0x62 [1; 0x80; 0])) o EReadRequest (PProp 0x80 []).
  Proof.
    split; [run|].
    destruct (find_object (n_objects (reached_n [yes])) 0x029101) as [o|] eqn:E; [|vm_compute in E; discriminate].
    destruct (object_clone 0 o) as [copy|] eqn:Cl; [|vm_compute in E; inversion E; subst o; vm_compute in Cl; discriminate].
    exists copy, o, 0, copy. split; [apply find_object_some in E; replace (msg_deoj _) with 0x029101 by run; exact E|]. split; auto. split; [constructor|].
    split; [run|]. split; [vm_compute; auto|]. right. split; [vm_compute; auto|].
    vm_compute in E. inversion E; subst o. eexists. split; [run|]. discriminate.
  Qed.

  (** C45: the lamp without a user handler; a write-read request is accepted. *)
  Example C45_example : n_handlers (reached_n []) = [HNode] /\
    option_map m_esv (ex_answer [] (to_lamp 7 0x62 [1; 0x80; 0])) = Some 0x52 /\
    option_map m_esv (ex_answer [yes] (to_lamp 7 0x62 [1; 0x80; 0])) = Some 0x72.
  Proof. split; [run|]. split; run. Qed.
  Theorem C45_default_device_refuted : exists (u : unit) n w m u' n' w' tr data, reachable u n w /\ received m /\
    n_handlers n = [HNode] /\ node_observe w u n m = Ret (u', n', w') /\ since w w' tr /\
    m_set m = [PProp 0x80 [0x31]] /\ data_in n 0x029101 0x80 = Some [0x30] /\ data_in n' 0x029101 0x80 = Some [0x31] /\
    sent tr = [(peer, data)] /\ service_of data = 0x7E.
  Proof.
    exists tt, (reached_n []), (reached_w []), (ex_rcv (to_lamp 7 0x6E [1; 0x80; 1; 0x31; 1; 0x80; 0])), tt,
      (ex_after [] (to_lamp 7 0x6E [1; 0x80; 1; 0x31; 1; 0x80; 0])), (ex_world [] (to_lamp 7 0x6E [1; 0x80; 1; 0x31; 1; 0x80; 0])),
      (ex_trace [] (to_lamp 7 0x6E [1; 0x80; 1; 0x31; 1; 0x80; 0])),
      [0x10; 0x81; 0; 7; 2; 0x91; 1; 5; 0xFF; 1; 0x7E; 1; 0x80; 0; 1; 0x80; 1; 0x31].
    split; [reached|]. split; [rcv|]. split; [run|]. split; [run|]. split; [run|]. split; [run|]. split; [run|]. split; [run|]. split; run.
  Qed.

  (** C46: one handler accepts 0x80, the other one 0xB0; a request for both is
      rejected. *)
  Theorem C46_each_property_accepted_refuted : exists (u : unit) n w m u' n' w' tr data, reachable u n w /\ received m /\
    n_handlers n = [HNode; only 0x80; only 0xB0] /\ map pp_code (m_props m) = [0x80; 0xB0] /\ m_esv m = 0x62 /\
    node_observe w u n m = Ret (u', n', w') /\ since w w' tr /\ sent tr = [(peer, data)] /\ service_of data = 0x52.
  Proof.
    exists tt, (reached_n [only 0x80; only 0xB0]), (reached_w [only 0x80; only 0xB0]), (ex_rcv (to_lamp 7 0x62 [2; 0x80; 0; 0xB0; 0])), tt,
      (ex_after [only 0x80; only 0xB0] (to_lamp 7 0x62 [2; 0x80; 0; 0xB0; 0])), (ex_world [only 0x80; only 0xB0] (to_lamp 7 0x62 [2; 0x80; 0; 0xB0; 0])),
      (ex_trace [only 0x80; only 0xB0] (to_lamp 7 0x62 [2; 0x80; 0; 0xB0; 0])),
      [0x10; 0x81; 0; 7; 2; 0x91; 1; 5; 0xFF; 1; 0x52; 2; 0x80; 0; 0xB0; 0].
    split; [reached|]. split; [rcv|]. split; [run|]. split; [run|]. split; [run|]. split; [run|]. split; [run|]. split; run.
  Qed.
  Example C46_example : option_map m_esv (ex_answer [no; only 0x80] (to_lamp 7 0x62 [2; 0x80; 0; 0x80; 0])) = Some 0x72.
  Proof. run. Qed.

  (** C47: a handler changes a property the message does not name. *)
  Theorem C47_other_property_refuted : exists (u : unit) n w m u' n' w', reachable u n w /\ received m /\
    node_observe w u n m = Ret (u', n', w') /\ map pp_code (all_props m) = [0x80] /\
    data_in n 0x029101 0xB0 = Some [] /\ data_in n' 0x029101 0xB0 = Some [0x42].
  Proof.
    exists tt, (reached_n [meddle 0xB0]), (reached_w [meddle 0xB0]), (ex_rcv (to_lamp 7 0x62 [1; 0x80; 0])), tt,
      (ex_after [meddle 0xB0] (to_lamp 7 0x62 [1; 0x80; 0])), (ex_world [meddle 0xB0] (to_lamp 7 0x62 [1; 0x80; 0])).
    split; [reached|]. split; [rcv|]. split; [run|]. split; [run|]. split; run.
  Qed.
  Example C47_example : data_in (ex_after [yes] (to_lamp 7 0x61 [1; 0x80; 1; 0x31])) 0x0EF001 0x80 = Some [0x30].
  Proof. run. Qed.

  (** C48 *)
  Example C48_example : offered (ex_trace [yes] (to_lamp 7 0x60 [1; 0x80; 1; 0x31])) = [] /\
    sent (ex_trace [no] (to_lamp 7 0x60 [1; 0x80; 1; 0x31])) = [(peer, [0x10; 0x81; 0; 7; 2; 0x91; 1; 5; 0xFF; 1; 0x50; 1; 0x80; 1; 0x31])].
  Proof. split; run. Qed.

  (** C49: the response to 0x74 goes to the multicast group. *)
  Theorem C49_response_7A_refuted : exists (u : unit) n w m u' n' w' tr data, reachable u n w /\ received m /\
    m_esv m = 0x74 /\ fst (msg_from m) = V4 0xC0A80014 /\
    node_observe w u n m = Ret (u', n', w') /\ since w w' tr /\ sent tr = [(group, data)] /\ service_of data = 0x7A.
  Proof.
    exists tt, (reached_n [yes]), (reached_w [yes]), (ex_rcv (to_lamp 7 0x74 [1; 0x80; 0])), tt,
      (ex_after [yes] (to_lamp 7 0x74 [1; 0x80; 0])), (ex_world [yes] (to_lamp 7 0x74 [1; 0x80; 0])),
      (ex_trace [yes] (to_lamp 7 0x74 [1; 0x80; 0])),
      [0x10; 0x81; 0; 7; 2; 0x91; 1; 5; 0xFF; 1; 0x7A; 1; 0x80; 0].
    split; [reached|]. split; [rcv|]. split; [run|]. split; [run|]. split; [run|]. split; [run|]. split; run.
  Qed.
  Example C49_example : map fst (sent (ex_trace [yes] (to_lamp 7 0x62 [1; 0x80; 0]))) = [peer] /\
    map fst (sent (ex_trace [yes] (to_lamp 7 0x63 [1; 0x80; 0]))) = [group].
  Proof. split; run. Qed.

  (** C51: overlapping lists. *)
  Example C51_example : option_map (fun r => (m_set r, m_get r)) (ex_answer [yes] (to_lamp 7 0x6E [2; 0x80; 1; 0x31; 0xB0; 1; 7; 2; 0xB0; 0; 0x80; 0])) =
    Some ([PProp 0x80 []; PProp 0xB0 []], [PProp 0xB0 [7]; PProp 0x80 [0x31]]).
  Proof. run. Qed.
End Examples.

Print Assumptions C36_no_reply.
Print Assumptions C37_correlation_partial.
Print Assumptions C37_tid_zero_refuted.
Print Assumptions C38_rejected_unchanged.
Print Assumptions C39_error_contents_partial.
Print Assumptions C40_write_visible.
Print Assumptions C40_read_back_partial.
Print Assumptions C41_read_current.
Print Assumptions C42_whole_request.
Print Assumptions C42_disclosure.
Print Assumptions C42_only_writable_change_partial.
Print Assumptions C43_authority_partial.
Print Assumptions C44_only_valid_calls.
Print Assumptions C45_default_device_partial.
Print Assumptions C46_some_handler_accepts_all_partial.
Print Assumptions C47_isolation_partial.
Print Assumptions C48_write_no_response.
Print Assumptions C49_destination_partial.
Print Assumptions C51_write_read.
