(** How much a node sends for one datagram: C130. *)
From Verif Require Import Base HMap ModelCodec ModelMessages DbTable ModelObject ModelTransport ModelNode
  SpecWire SpecObject SpecNode ProofsCodec ProofsCodec2 PropertiesCodec ProofsObject ProofsObject2 ProofsObject3
  PropertiesObject PropertiesDb ProofsDevice ProofsNode ProofsNode2 ProofsNode3 ProofsNode4 ExamplesNode PropertiesNode PropertiesTrans
  PropertiesProfile ProofsExchange ProofsHistory PropertiesFrames.
From Verif Require Import PropertiesGrowth.

(** ** Vocabulary *)
(** [m] is what a receive thread makes of the octets [bs] from the address [a]. *)
Definition arrives (bs : list N) (a : sockaddr) (m : message) : Prop :=
  octets bs /\ exists m0, msg_parse msg_new bs = Ret (true, m0) /\ m = msg_set_from m0 a.
(** The number of properties a message names. *)
Definition named (m : message) : nat := length (all_props m).
(** Notifications go to the group, through every multicast server. *)
Definition to_all (e : N) : Prop := e = 0x73 \/ e = 0x7A.
(** The octets which the listed properties take when they are sent with their
    data. *)
Fixpoint octets_of (o : object) (cs : list N) : nat :=
  match cs with
  | [] => 0
  | c :: r => 2 + length (match object_property_data o c with Some d => d | None => [] end) + octets_of o r
  end.

(* ------------------------------------------------------------------ *)
Definition load (ps : list pprop) : nat := weight (map to_wprop ps).
Lemma load_cons q r : load (q :: r) = (2 + length (pp_data q) + load r)%nat.
Proof. reflexivity. Qed.
Lemma load_app a b : load (a ++ b) = (load a + load b)%nat.
Proof. induction a as [|q r IH]; [reflexivity|]. cbn [app]. rewrite !load_cons, IH. lia. Qed.
Lemma props_length ps : length (props_bytes ps) = S (load ps).
Proof.
  unfold props_bytes. cbn [length]. f_equal. induction ps as [|q r IH]; [reflexivity|]. cbn [flat_map]. rewrite app_length, IH, load_cons.
  unfold property_bytes. cbn [length]. lia.
Qed.
Lemma answer_length m t e ps ss gs : wf3 (m_seoj m) -> wf3 (m_deoj m) ->
  length (msg_bytes (with_t m t e ps ss gs)) = (11 + if (is_double e && negb (e =? 0x5E)%N)%bool then 2 + load ss + load gs else 1 + load ps)%nat.
Proof.
  intros A B. rewrite with_t_bytes by auto. rewrite !app_length. unfold body_bytes. cbn [length wire_eoj].
  destruct (_ && _); rewrite ?app_length, ?props_length; lia.
Qed.
Lemma arrives_received bs a m : arrives bs a m -> received m.
Proof. intros (O & m0 & E & ->). exists bs, m0, a. auto. Qed.
Lemma arrives_load bs a m : arrives bs a m -> (12 + load (m_props m) <= length bs)%nat /\ (12 + load (m_set m) + load (m_get m) <= length bs)%nat.
Proof.
  intros (Ho & m0 & E & ->). change (m_props (msg_set_from m0 a)) with (m_props m0). change (m_set (msg_set_from m0 a)) with (m_set m0). change (m_get (msg_set_from m0 a)) with (m_get m0).
  destruct (C04_decoded_content bs m0 Ho E) as (f & rest & _ & -> & (_ & _ & _ & _ & C) & _). rewrite app_length. unfold load.
  destruct (f_body f) as [ps|ss gs] eqn:B.
  - destruct C as (-> & -> & ->). rewrite (single_length f ps B). cbn. lia.
  - destruct C as (-> & -> & ->). unfold wire. rewrite B. cbn [wire_body]. rewrite !app_length, !wire_props_length. cbn. lia.
Qed.
Lemma ack_load ps : load (ack_props ps) = (2 * length ps)%nat.
Proof. induction ps as [|q r IH]; [reflexivity|]. change (ack_props (q :: r)) with (PProp (pp_code q) [] :: ack_props r). rewrite load_cons, IH. cbn. lia. Qed.
Lemma read_load o ps l : short o -> read_props_of o ps = Some l -> (load l <= 257 * length ps)%nat.
Proof.
  intros S E. apply read_props_spec in E. induction E as [|q r ps l (p & F & ->) X IH]; [cbn; lia|].
  rewrite load_cons. cbn [pp_data length]. pose proof (short_find o _ p S F). lia.
Qed.
Lemma read_octets o ps l : read_props_of o ps = Some l -> load l = octets_of o (map pp_code ps).
Proof.
  intro E. apply read_props_spec in E. induction E as [|q r ps l (p & F & ->) X IH]; [reflexivity|].
  rewrite load_cons, IH. cbn [pp_data map octets_of]. unfold object_property_data. rewrite F. reflexivity.
Qed.
Lemma repeat_octets o c k d : object_property_data o c = Some d -> octets_of o (repeat c k) = (k * (2 + length d))%nat.
Proof. intro E. induction k as [|k IH]; [reflexivity|]. cbn [repeat octets_of]. rewrite E, IH. lia. Qed.

Section S.
  Context {U : Type} {P : Profile} {HO : HashOrder} {Os : OS}.

  (** ** C130 *)
  (** What a node sends for one message is one datagram; it goes out once, unless it
      is for the group, then at most once through every multicast server. *)
  Theorem C130_count : forall w (u : U) n m u' n' w' tr, received m -> node_observe w u n m = Ret (u', n', w') -> since w w' tr ->
    exists to data k, sent tr = repeat (to, data) k /\ (k <= Nat.max 1 (length (mg_mcast (n_mgr n))))%nat /\
      (~ to_all (service_of data) -> (k <= 1)%nat).
  Proof.
    intros w u n m u' n' w' tr R E S. apply received_rcvd in R as [W L B].
    destruct (observe_spec w u n m u' n' w' W B E) as (n1 & w1 & t1 & n2 & res & t2 & S' & _ & _ & D & H & Rc).
    pose proof (since_unique _ _ _ _ S S') as ->. rewrite sent_app. apply delivered_keeps in D as (D1 & D2 & D3 & _ & _ & _ & ->). cbn [app].
    inversion Rc as [|r n'' r' tr k Ut _ _ Se K]; subst.
    - exists group, [], 0%nat. cbn. split; auto. split; lia.
    - exists (dest m (m_esv r)), (msg_bytes r'), k. split; auto.
      assert (Mg : n_mgr n2 = n_mgr n) by (rewrite <- D3; inversion H; subst; reflexivity). rewrite Mg in K. split.
      + destruct (_ || _); lia.
      + assert (Y : exists e ps ss gs, r = resp m e ps ss gs).
        { inversion H as [|? ? ? ?|? ? ? ? ? ? ? ? ?|pre o post copy u1 copy' R1 Eo Ec Fp V C Dd Eu En Er]; subst.
          - destruct (failure_eq m W) as (e & _ & ->); auto. eauto 10.
          - destruct (failure_eq m W) as (e & _ & ->); auto. eauto 10.
          - destruct (success_eq o (answered o m copy') m W B R1 V (answered_shape o m copy')) as [[_ N]|(e & ps & ss & gs & _ & E1 & _)]; [congruence|].
            exists e, ps, ss, gs. congruence. }
        destruct Y as (e & ps & ss & gs & ->). destruct (update_resp _ _ _ _ _ _ _ _ W Ut) as (t & -> & _ & _).
        rewrite with_t_service by apply W. intro N. cbn [m_esv resp] in K.
        destruct ((e =? 0x73) || (e =? 0x7A)) eqn:X; auto. exfalso. apply N. unfold to_all. lia.
  Qed.

  (** Its size: a refusal is at most twice as long as the request, any other answer
      has at most 257 octets for each property the request names. *)
  Theorem C130_size : forall w (u : U) n bs a m u' n' w' tr to data, arrives bs a m ->
    Forall short (n_objects n) -> Forall short_handler (n_handlers n) ->
    node_observe w u n m = Ret (u', n', w') -> since w w' tr -> In (to, data) (offered tr) ->
    (error_service (service_of data) -> (length data <= 2 * length bs)%nat) /\
    (~ error_service (service_of data) -> (length data <= 13 + 257 * named m)%nat).
  Proof.
    intros w u n bs a m u' n' w' tr to data Ar So Sh E S I. pose proof (received_rcvd _ (arrives_received bs a m Ar)) as R.
    destruct (arrives_load bs a m Ar) as [L1 L2].
    destruct (observe_offered w u n m u' n' w' tr to data R E S I) as (e & ps & ss & gs & t & n2 & Q & H & _ & -> & _ & _ & _).
    pose proof (wf_seoj _ (rc_wf _ R)) as W3. pose proof (wf_deoj _ (rc_wf _ R)) as W4. pose proof (rc_wf _ R) as W. pose proof (rc_body _ R) as B.
    rewrite with_t_service by auto. rewrite answer_length by auto.
    assert (Fa : response_error_message m = resp m e ps ss gs ->
      (error_service e -> (11 + (if (is_double e && negb (e =? 0x5E)%N)%bool then 2 + load ss + load gs else 1 + load ps) <= 2 * length bs)%nat) /\
      (~ error_service e -> (11 + (if (is_double e && negb (e =? 0x5E)%N)%bool then 2 + load ss + load gs else 1 + load ps) <= 13 + 257 * named m)%nat)).
    { intro X. destruct (failure_eq m W Q) as (e1 & E1 & E2). rewrite E2 in X. inversion X as [[X1 X2 X3 X4]]. rewrite <- X1.
      assert (Er : error_service e1) by (services Q; rewrite <- Q in E1; inversion E1; cbn; auto 10).
      assert (D : (is_double e1 && negb (e1 =? 0x5E)%N)%bool = false) by (services Q; rewrite <- Q in E1; inversion E1; reflexivity).
      rewrite D. split; [|intro N; contradiction]. intros _. destruct (m_esv m =? 0x6E); rewrite ?load_app; lia. }
    inversion H as [|o0 Q0 A0 V0 Eu En Er|o0 c0 u0 c1 Q0 A0 V0 C0 D0 Eu En Er|pre o post copy u1 copy' Q0 Eo Ec Fp V C Dd Eu En Er]; subst; auto.
    assert (Sa : short (answered o m copy')).
    { eapply answered_short; eauto. rewrite Eo in So. apply Forall_app in So as [_ So]. exact (Forall_inv So). }
    destruct (success_eq o (answered o m copy') m W B Q V (answered_shape o m copy')) as [[_ X]|(e1 & ps1 & ss1 & gs1 & E1 & E2 & K1 & K2 & K3)]; [congruence|].
    assert (E3 : resp m e ps ss gs = resp m e1 ps1 ss1 gs1) by congruence. clear Er E2 Fa. inversion E3. subst e1 ps1 ss1 gs1. clear E3.
    unfold named, all_props. rewrite !app_length.
    assert (Ne : ~ error_service e) by (services Q; rewrite <- Q in E1; inversion E1; cbn; intuition discriminate).
    split; [intro; contradiction|intros _]. services Q; rewrite <- Q in E1; inversion E1; subst e; cbn [is_double N.eqb Pos.eqb andb negb orb].
    all: try (destruct K1 as (-> & _); [auto|]; rewrite ack_load; cbn; lia).
    all: try (destruct K2 as (K2 & _); [auto|]; apply (read_load _ _ _ Sa) in K2; cbn; lia).
    destruct K3 as (_ & -> & K3); auto. apply (read_load _ _ _ Sa) in K3. rewrite ack_load. cbn. lia.
  Qed.

  (** The answer to a read request that is not refused: 12 octets and, for each
      property as often as the request names it, its data and 2 octets. *)
  Theorem C130_read : forall w (u : U) n m u' n' w' tr to data, received m -> In (m_esv m) [0x62; 0x63] ->
    node_observe w u n m = Ret (u', n', w') -> since w w' tr -> In (to, data) (offered tr) -> ~ error_service (service_of data) ->
    exists o, addressed (n_objects n') (msg_deoj m) o /\ length data = (12 + octets_of o (map pp_code (m_props m)))%nat.
  Proof.
    intros w u n m u' n' w' tr to data Rv Es E S I N. pose proof (received_rcvd _ Rv) as R.
    destruct (observe_offered w u n m u' n' w' tr to data R E S I) as (e & ps & ss & gs & t & n2 & Q & H & Eo' & -> & _ & _ & _).
    pose proof (wf_seoj _ (rc_wf _ R)) as W3. pose proof (wf_deoj _ (rc_wf _ R)) as W4. pose proof (rc_wf _ R) as W. pose proof (rc_body _ R) as B.
    rewrite with_t_service in N by auto. rewrite answer_length by auto. rewrite Eo'.
    assert (Fa : response_error_message m = resp m e ps ss gs -> False).
    { intro X. destruct (failure_eq m W Q) as (e1 & E1 & E2). rewrite E2 in X. inversion X as [[X1 X2 X3 X4]]. apply N. rewrite <- X1.
      services Q; rewrite <- Q in E1; inversion E1; cbn; auto 10. }
    inversion H as [|o0 Q0 A0 V0 Eu En Er|o0 c0 u0 c1 Q0 A0 V0 C0 D0 Eu En Er|pre o post copy u1 copy' Q0 Eo Ec Fp V C Dd Eu En Er]; subst; try (exfalso; auto; fail).
    destruct (success_eq o (answered o m copy') m W B Q V (answered_shape o m copy')) as [[X _]|(e1 & ps1 & ss1 & gs1 & E1 & E2 & _ & K2 & _)].
    { exfalso. cbn in Es. rewrite X in Es. intuition discriminate. }
    assert (E3 : resp m e ps ss gs = resp m e1 ps1 ss1 gs1) by congruence. clear Er E2 Fa. inversion E3. subst e1 ps1 ss1 gs1. clear E3.
    exists (answered o m copy'). split.
    - cbn. eapply addressed_after; eauto. apply answered_shape.
    - destruct K2 as (K2 & _); [cbn in Es; intuition|]. apply read_octets in K2. rewrite <- K2.
      cbn in Es. destruct Es as [X|[X|[]]]; rewrite <- X in E1; inversion E1; subst e; reflexivity.
  Qed.
  (** So a property which the request names [k] times is sent [k] times. *)
  Theorem C130_repeated : forall w (u : U) n m u' n' w' tr to data c k, received m -> In (m_esv m) [0x62; 0x63] ->
    map pp_code (m_props m) = repeat c k ->
    node_observe w u n m = Ret (u', n', w') -> since w w' tr -> In (to, data) (offered tr) -> ~ error_service (service_of data) ->
    forall d, data_in n' (msg_deoj m) c = Some d -> length data = (12 + k * (2 + length d))%nat.
  Proof.
    intros w u n m u' n' w' tr to data c k R Es Em E S I N d D. destruct (C130_read w u n m u' n' w' tr to data R Es E S I N) as (o & A & ->).
    rewrite Em. f_equal. apply repeat_octets. unfold data_in in D. apply addressed_find in A. rewrite A in D. exact D.
  Qed.
End S.
Print Assumptions C130_count.
Print Assumptions C130_size.
Print Assumptions C130_read.
Print Assumptions C130_repeated.

(** A request of 512 octets names the operating status 250 times: the answer has
    250 times 3 octets, a refusal as many octets as the request. *)
Definition often : list N := to_lamp 7 0x62 (250 :: concat (repeat [0x80; 0] 250)).
Example C130_case : length often = 512%nat /\ map (fun x => length (snd x)) (sent (ex_trace [yes] often)) = [762%nat] /\
  map (fun x => length (snd x)) (sent (ex_trace [no] often)) = [512%nat].
Proof. vm_compute. auto. Qed.
(** With 255 octets in the property the answer has 64262. *)
Example C130_large_case : let ops := ex_ops [yes] ++ [OpSetData 0x029101 0x80 (repeat 1 255)] in
  map (fun x => N.of_nat (length (snd x))) (sent (skipn (length (w_trace (ex_w ops))) (w_trace (ex_w (ops ++ [OpRecv (ex_rcv often)]))))) = [64262].
Proof. vm_compute. reflexivity. Qed.
