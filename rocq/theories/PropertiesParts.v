(** C149: of a request that cannot be carried out as a whole, what can be done is done. *)
From Verif Require Import Base HMap ModelCodec ModelMessages DbTable ModelObject ModelTransport ModelNode
  SpecWire SpecObject SpecNode ProofsCodec ProofsCodec2 ProofsObject ProofsNode ProofsNode2 ProofsNode3 ProofsNode4 ExamplesNode PropertiesNode ProofsObject2 PropertiesSizes.

(** ECHONET Lite, part II, 4.2.2 (C): a request of which only a part can be processed is
    processed in part. The answer, with the service of a failure, carries the data of the
    properties that can be read (0x52, 0x53), and leaves out the data of those that were
    written (0x50, 0x51). *)
Definition part_answer (o : object) (q : pprop) (a : wprop) : Prop :=
  fst a = pp_code q /\ (forall p, object_find_property o (pp_code q) = Some p -> allows (p_read p) -> snd a = p_data p).

Section S.
  Context {U : Type} {P : Profile} {HO : HashOrder} {Os : OS}.
  (** If one property of a request is not there, may not be read or written, or is too
      small, the answer has the properties as they were asked for, and nothing is done. It
      is the same whatever the other properties and their data are. *)
  Theorem C149_whole_refuted : forall w (u : U) n m u' n' w' tr to data o, received m -> In (m_esv m) [0x60; 0x61; 0x62; 0x63] ->
    addressed (n_objects n) (msg_deoj m) o -> ~ permitted o m ->
    node_observe w u n m = Ret (u', n', w') -> since w w' tr -> In (to, data) (offered tr) ->
    n_objects n' = n_objects n /\ exists e t, failure_service (m_esv m) = Some e /\ (msg_tid m <> 0 -> t = msg_tid m) /\
      data = wire (Frame t (msg_deoj m) (msg_seoj m) e (Single (map to_wprop (m_props m)))).
  Proof.
    intros w u n m u' n' w' tr to data o R Es A Np E S I. pose proof (received_rcvd m R) as Rc.
    assert (N6 : m_esv m <> 0x6E) by (cbn in Es; intuition congruence).
    destruct (observe_offered w u n m u' n' w' tr to data Rc E S I) as (e & ps & ss & gs & t & n2 & Q & H & Eo & D & T & Te & Ed).
    assert (X : n2 = n /\ resp m e ps ss gs = response_error_message m).
    { inversion H as [|o0 _ Ao V Eq1|o0 copy0 u1 copy' _ Ao V C1 D1|pre o0 post copy0 u1 copy' _ Eo' Ec Fp V C1 D1 Eu En Er']; subst; auto.
      exfalso. apply Np. rewrite (addressed_unique _ _ _ _ A (ex_intro _ pre (ex_intro _ post (conj Eo' (conj Ec Fp))))). exact V. }
    destruct X as [-> X]. split; auto.
    assert (Er : error_service (service_of data)).
    { subst data. rewrite (with_t_service m t e ps ss gs (wf_seoj _ (rc_wf _ Rc)) (wf_deoj _ (rc_wf _ Rc))).
      destruct (failure_eq m (rc_wf _ Rc) Q) as (e' & F & Fe). rewrite Fe in X. unfold resp in X. inversion X; subst.
      clear -Q F. services Q; rewrite <- Q in F; inversion F; cbn; auto 10. }
    exact (C39_error_contents_partial w u n m u' n' w' tr to data R N6 E S I Er).
  Qed.
  (** A request to read, which carries no data, is answered without any data. *)
  Theorem C149_no_data_refuted : forall w (u : U) n m u' n' w' tr to data o, received m -> In (m_esv m) [0x62; 0x63] ->
    addressed (n_objects n) (msg_deoj m) o -> Forall (fun q => pp_data q = []) (m_props m) -> Exists (fun q => ~ can_read o (pp_code q)) (m_props m) ->
    node_observe w u n m = Ret (u', n', w') -> since w w' tr -> In (to, data) (offered tr) ->
    exists t, data = wire (Frame t (msg_deoj m) (msg_seoj m) (m_esv m - 0x10) (Single (map (fun q => (pp_code q, [])) (m_props m)))).
  Proof.
    intros w u n m u' n' w' tr to data o R Es A Z X E S I.
    destruct (C149_whole_refuted w u n m u' n' w' tr to data o R) as (_ & e & t & F & _ & D); auto. { cbn in *. tauto. }
    { intros [_ V]. apply Exists_exists in X as (q & Iq & Nq). apply Nq. unfold reads_of in V. assert (Y : (m_esv m =? 0x62) || (m_esv m =? 0x63) || (m_esv m =? 0x74) = true) by (cbn in Es; intuition (subst; auto); match goal with H : _ = m_esv m |- _ => rewrite <- H end; reflexivity).
      rewrite Y in V. exact (proj1 (Forall_forall _ _) V q Iq). }
    exists t. rewrite D. f_equal. f_equal.
    - cbn in Es. destruct Es as [X1|[X1|[]]]; rewrite <- X1 in F |- *; inversion F; reflexivity.
    - f_equal. apply map_ext_in. intros q Iq. unfold to_wprop. rewrite (proj1 (Forall_forall _ _) Z q Iq). reflexivity.
  Qed.
  (** Asked for one by one, the properties that can be read are answered with their data
      (unless a handler objects, and property maps aside). *)
  Theorem C149_alone_partial : forall w (u : U) n m q o p, reachable u n w -> received m -> m_esv m = 0x62 -> m_props m = [q] ->
    addressed (n_objects n) (msg_deoj m) o -> object_find_property o (pp_code q) = Some p -> allows (p_read p) -> ~ map_code (pp_code q) ->
    Forall says_yes (n_handlers n) -> forall seed u' n' res, node_message_received seed u n m = Ret (u', n', res) ->
    exists r, res = Some r /\ m_esv r = 0x72 /\ m_props r = [PProp (pp_code q) (p_data p)].
  Proof.
    intros w u n m q o p Rc R Es Ep A F Al Nm Y seed u' n' res E. apply received_rcvd in R. apply reachable_good in Rc. apply handled_spec in E.
    assert (Q : request_service (m_esv m)) by (rewrite Es; cbn; auto).
    assert (Pm : permitted o m).
    { split; [unfold writes_of; rewrite Es; constructor|]. unfold reads_of. rewrite Es. cbn [N.eqb Pos.eqb orb]. rewrite Ep. constructor; [|constructor]. exists p. auto. }
    inversion E as [[N|N]|o0 _ Ao V|o0 copy u1 copy' _ Ao V C1 D1|pre o0 post copy u1 copy' _ Eo Ec Fp V C1 D1 Eu En Er']; subst.
    - exfalso. destruct A as (pre & post & Eo & Ec & _). rewrite Eo in N. apply Forall_app in N as [_ N]. inversion N; subst. congruence.
    - contradiction.
    - exfalso. apply V. rewrite (addressed_unique _ _ _ _ Ao A). exact Pm.
    - rewrite yes_received in D1 by auto. discriminate.
    - assert (o0 = o) as -> by (apply (addressed_unique (n_objects n) (msg_deoj m)); auto; exists pre, post; auto).
      rewrite yes_received in D1 by auto. inversion D1; subst u' copy'.
      assert (Go : obj_good o). { destruct Rc as [G _]. rewrite Eo in G. apply Forall_app in G as [_ G]. inversion G; auto. }
      destruct (success_eq o (answered o m copy) m (rc_wf _ R) (rc_body _ R) Q V (answered_shape o m copy)) as [[N _]|(e & ps & ss & gs & S' & X & _ & Rd & _)]; [congruence|].
      rewrite Es in S'. inversion S'; subst e. rewrite X. eexists. split; [reflexivity|]. split; [reflexivity|]. cbn [m_props resp].
      destruct (Rd (or_introl Es)) as (Rp & _). rewrite Ep in Rp. cbn [read_props_of] in Rp.
      rewrite (answered_hands_off o m seed copy (pp_code q) Go C1) in Rp by (unfold map_code, is_map_code in *; lia).
      rewrite F in Rp. unfold writes_of in Rp. rewrite Es in Rp. cbn in Rp. inversion Rp. f_equal. f_equal. destruct Go as [Wo _]. apply (find_code o _ p Wo F).
  Qed.
End S.
Print Assumptions C149_whole_refuted.
Print Assumptions C149_no_data_refuted.
Print Assumptions C149_alone_partial.

(** ** Cases *)
Section Cases.
  Local Existing Instance ex_order.
  Local Existing Instance ex_os.
  (** The lamp has 0x80 and no 0xF0. *)
  Example C149_case : sent (ex_trace [yes] (to_lamp 7 0x62 [1; 0x80; 0])) = [(peer, wire (Frame 7 0x029101 0x05FF01 0x72 (Single [(0x80, [0x30])])))] /\
    sent (ex_trace [yes] (to_lamp 7 0x62 [2; 0x80; 0; 0xF0; 0])) = [(peer, wire (Frame 7 0x029101 0x05FF01 0x52 (Single [(0x80, []); (0xF0, [])])))].
  Proof. split; vm_compute; reflexivity. Qed.
  (** The answer is not what the standard asks for. *)
  Definition started_lamp : object := match find_object (n_objects (ex_n (ex_ops [yes]))) 0x029101 with Some o => o | None => lamp end.
  Example C149_case_wrong : ~ part_answer started_lamp (PProp 0x80 []) (0x80, []).
  Proof.
    intros [_ H]. assert (X : match object_find_property started_lamp 0x80 with Some p => rule_allowed (p_read p) && (0 <? N.of_nat (length (p_data p))) | None => false end = true) by (vm_compute; reflexivity).
    cbn [pp_code snd] in H. destruct (object_find_property started_lamp 0x80) as [p|]; [|discriminate]. apply andb_true_iff in X as [X1 X2].
    rewrite <- (H p eq_refl) in X2; [discriminate|]. apply rule_allowed_spec. exact X1.
  Qed.
End Cases.
