(** C147: a notification that asks for a confirmation (service 0x74) is confirmed to its
    sender. *)
From Verif Require Import Base HMap ModelCodec ModelMessages DbTable ModelObject ModelTransport ModelNode
  SpecWire SpecObject SpecNode ProofsCodec ProofsCodec2 ProofsObject ProofsNode ProofsNode2 ProofsNode3 ProofsNode4 ExamplesNode PropertiesNode.

(** What the sender is to get: a frame from the object that was told to the object that
    told it, with the service 0x7A, the TID of the notification and the codes of its
    properties, sent to the address where the notification came from. *)
Definition confirmation (m : message) (t : N) : frame :=
  Frame t (msg_deoj m) (msg_seoj m) 0x7A (Single (map (fun q => (pp_code q, [])) (m_props m))).
(** What is sent instead: 0x53, the refusal of a request for a notification, with the
    properties of the notification. *)
Definition refusal (m : message) (t : N) : frame :=
  Frame t (msg_deoj m) (msg_seoj m) 0x53 (Single (map to_wprop (m_props m))).

Section S.
  Context {U : Type} {P : Profile} {HO : HashOrder} {Os : OS}.
  (** What a node answers: either the confirmation, but to the multicast group, and only
      where the object that was told has all the properties itself and lets them be read;
      or the refusal, to the sender. Nothing else is sent. *)
  Theorem C147_answers_partial : forall w (u : U) n m u' n' w' tr to data, received m -> m_esv m = 0x74 ->
    node_observe w u n m = Ret (u', n', w') -> since w w' tr -> In (to, data) (offered tr) ->
    exists o t, addressed (n_objects n) (msg_deoj m) o /\ (msg_tid m <> 0 -> t = msg_tid m) /\
      ((Forall (fun q => can_read o (pp_code q)) (m_props m) /\ to = group /\ data = wire (confirmation m t)) \/
       (to = (fst (msg_from m), 3610) /\ n_objects n' = n_objects n /\ data = wire (refusal m t))).
  Proof.
    intros w u n m u' n' w' tr to data R E7 E S I. apply received_rcvd in R.
    destruct (observe_offered w u n m u' n' w' tr to data R E S I) as (e & ps & ss & gs & t & n2 & Q & H & Eo & D & T & Te & Ed).
    assert (Tt : msg_tid m <> 0 -> fst t * 256 + snd t = msg_tid m) by (intro Z; rewrite (Te Z), msg_tid_eq; reflexivity).
    destruct (rc_lim _ R) as [Lp _].
    assert (Fail : response_error_message m = resp m e ps ss gs -> e = 0x53 /\ ps = m_props m /\ ss = [] /\ gs = []).
    { intro X. destruct (failure_eq m (rc_wf _ R) Q) as (e' & F & Fe). rewrite E7 in F, Fe. cbn in F, Fe. rewrite Fe in X. unfold resp in X. inversion X; subst. inversion F; subst. auto. }
    inversion H as [|o0 _ Ao V Eq1|o0 copy0 u1 copy' _ Ao V C1 D1|pre o0 post copy0 u1 copy' _ Eo' Ec Fp V C1 D1 Eu En Er']; subst.
    1,2: exists o0, (fst t * 256 + snd t); split; [exact Ao|]; split; [exact Tt|]; right;
      destruct Fail as (-> & -> & -> & ->); [congruence|]; split; [reflexivity|]; split; [exact Eo|];
      unfold refusal; rewrite with_t_wire; auto; first [exact (rc_wf _ R)|exact (wf_props _ (rc_wf _ R))|unfold two_lists; lia].
    exists o0, (fst t * 256 + snd t). split; [exists pre, post; auto|]. split; [exact Tt|]. left.
    destruct (success_eq o0 (answered o0 m copy') m (rc_wf _ R) (rc_body _ R) Q V (answered_shape o0 m copy')) as [[N _]|(e' & ps' & ss' & gs' & S' & Y & Ak & _)]; [congruence|].
    assert (X : resp m e' ps' ss' gs' = resp m e ps ss gs) by congruence. unfold resp in X. inversion X; subst. rewrite E7 in S'. inversion S'; subst e.
    destruct (Ak (or_intror E7)) as (-> & -> & ->). split.
    { destruct V as [_ V]. unfold reads_of in V. rewrite E7 in V. exact V. }
    split; [reflexivity|]. unfold confirmation. rewrite with_t_wire; auto.
    all: try first [exact (rc_wf _ R)|unfold two_lists; lia].
    - unfold ack_props. rewrite map_map. reflexivity.
    - unfold ack_props. apply Forall_map. pose proof (wf_props _ (rc_wf _ R)) as Wp. eapply Forall_impl; [|exact Wp]. intros q Hq. split; [apply Hq|constructor].
    - split; [unfold ack_props; rewrite map_length; apply Lp|]. unfold ack_props. apply Forall_map. apply Forall_forall. intros q _. unfold prop_in_limit. cbn. lia.
  Qed.
  (** A sensor that tells of one of its own properties is refused by every object that does
      not have the same property: nobody is asked or told, and no confirmation is sent. *)
  Theorem C147_refused_refuted : forall w (u : U) n m u' n' w' tr o q, received m -> m_esv m = 0x74 ->
    addressed (n_objects n) (msg_deoj m) o -> In q (m_props m) -> ~ can_read o (pp_code q) ->
    node_observe w u n m = Ret (u', n', w') -> since w w' tr ->
    u' = u /\ n_objects n' = n_objects n /\
    forall to data, In (to, data) (offered tr) -> service_of data = 0x53 /\ to = (fst (msg_from m), 3610).
  Proof.
    intros w u n m u' n' w' tr o q R E7 A I Nr E S. split; [|split].
    3: { intros to data Io. destruct (C147_answers_partial w u n m u' n' w' tr to data R E7 E S Io) as (o' & t & A' & _ & [(F & _)|(-> & _ & ->)]).
      - exfalso. apply Nr. rewrite (addressed_unique _ _ _ _ A A'). exact (proj1 (Forall_forall _ _) F q I).
      - split; reflexivity. }
    all: apply received_rcvd in R; destruct R as [W L B]; pose proof E as E'; apply observe_spec in E' as (n1 & w1 & t1 & n2 & res & t2 & _ & _ & _ & D & H & Rx); auto;
      assert (Q : request_service (m_esv m)) by (rewrite E7; cbn; auto 10); pose proof (delivered_request _ _ _ _ Q D) as [-> ->];
      assert (X : u' = u /\ n2 = n) by (inversion H as [[N|N]|o0 _ Ao V Eq1|o0 copy0 u1 copy' _ Ao V C1 D1|pre o0 post copy0 u1 copy' _ Eo' Ec Fp V C1 D1 Eu En Er']; subst; auto;
        exfalso; apply Nr; destruct V as [_ V]; unfold reads_of in V; rewrite E7 in V; cbn in V;
        [rewrite (addressed_unique _ _ _ _ A Ao)|rewrite (addressed_unique _ _ _ _ A (ex_intro _ pre (ex_intro _ post (conj Eo' (conj Ec Fp)))))]; exact (proj1 (Forall_forall _ _) V q I)).
    - apply X.
    - destruct X as [_ ->]. inversion Rx as [|r n'' r' tr' k Ut _ _ _ _]; subst; [reflexivity|]. apply update_tid_keeps in Ut. tauto.
  Qed.
  (** The data of the notification are not taken over: with handlers that leave the objects
      alone, no property changes but the property maps. *)
  Theorem C147_nothing_written_partial : forall w (u : U) n m, reachable u n w -> received m -> Forall hands_off (n_handlers n) -> m_esv m = 0x74 ->
    forall seed u' n' res, node_message_received seed u n m = Ret (u', n', res) ->
    forall o o' c, addressed (n_objects n) (msg_deoj m) o -> addressed (n_objects n') (msg_deoj m) o' -> ~ map_code c ->
    object_find_property o' c = object_find_property o c.
  Proof.
    intros w u n m Rc R Hh E7 seed u' n' res E o o' c A A' Nm. apply received_rcvd in R. apply reachable_good in Rc.
    apply handled_spec in E. assert (Same : n' = n -> object_find_property o' c = object_find_property o c).
    { intros ->. rewrite (addressed_unique _ _ _ _ A A'). auto. }
    inversion E as [|o0 Q Ao V|o0 copy u1 copy' Q Ao V C1 D1|pre o0 post copy u1 copy' Q Eo Ec Fp V C1 D1 Eu En Er']; subst; auto.
    assert (o0 = o) as -> by (apply (addressed_unique (n_objects n) (msg_deoj m)); auto; exists pre, post; auto).
    assert (o' = answered o m copy') as ->.
    { eapply addressed_unique; eauto. cbn. eapply addressed_after; eauto. apply answered_shape. }
    apply request_received_hands_off in D1; auto. subst copy'.
    assert (Go : obj_good o). { destruct Rc as [G _]. rewrite Eo in G. apply Forall_app in G as [_ G]. inversion G; auto. }
    rewrite (answered_hands_off o m seed copy c Go C1) by (unfold map_code, is_map_code in *; lia).
    unfold writes_of. rewrite E7. cbn. destruct (object_find_property o c); reflexivity.
  Qed.
End S.
Print Assumptions C147_answers_partial.
Print Assumptions C147_refused_refuted.
Print Assumptions C147_nothing_written_partial.

(** ** Cases *)
Section Cases.
  Local Existing Instance ex_order.
  Local Existing Instance ex_os.
  (** A thermometer, 0x001101, tells the node profile of a node with a lamp: its temperature
      0xE0, which the node profile does not have, and its operating status 0x80, which the
      node profile has as well. Without a request handler the latter is refused, too. *)
  Definition told (c : N) (d : list N) : list N := wire (Frame 7 0x001101 0x0EF001 0x74 (Single [(c, d)])).
  Example C147_case : sent (ex_trace [] (told 0xE0 [0; 215])) = [(peer, wire (Frame 7 0x0EF001 0x001101 0x53 (Single [(0xE0, [0; 215])])))] /\
    sent (ex_trace [] (told 0x80 [0x31])) = [(peer, wire (Frame 7 0x0EF001 0x001101 0x53 (Single [(0x80, [0x31])])))] /\
    sent (ex_trace [yes] (told 0x80 [0x31])) = [(group, wire (Frame 7 0x0EF001 0x001101 0x7A (Single [(0x80, [])])))] /\
    data_in (ex_after [yes] (told 0x80 [0x31])) 0x0EF001 0x80 = Some [0x30].
  Proof. split; [vm_compute; reflexivity|]. split; [vm_compute; reflexivity|]. split; vm_compute; reflexivity. Qed.
End Cases.
