(** C92: a network of processes comes to rest: receptions cause a bounded number
    of further datagrams. *)
From Verif Require Import Base HMap ModelCodec ModelMessages ModelObject ModelTransport ModelNode ModelController ModelHost ModelNetwork
  SpecWire SpecObject SpecNode SpecHost ProofsCodec ProofsCodec2 PropertiesCodec ProofsObject ProofsObject2 ProofsObject3
  PropertiesObject ProofsNode ProofsNode2 ProofsNode3 ProofsNode4 ExamplesNode PropertiesNode ProofsHistory ProofsController PropertiesController ProofsHost ProofsHost2 PropertiesHost PropertiesFrames.

(** ** Octets on the wire *)
Lemma props_bytes_octets ps : Forall u8prop ps -> octets (props_bytes ps).
Proof.
  intro F. unfold props_bytes. constructor; [unfold octet, len_u8, as_u8; lia|].
  induction F as [|q r [A B] F IH]; [constructor|]. cbn [flat_map]. apply Forall_app. split; auto.
  constructor; [exact A|]. constructor; [|exact B]. unfold octet, as_u8. lia.
Qed.
Lemma msg_bytes_octets m : msg_wf m -> octets (msg_bytes m).
Proof.
  intro W. rewrite msg_bytes_eq. destruct W as [A B C D E F G H]. destruct m as [[e0 e1] [t0 t1] [[s0 s1] s2] [[d0 d1] d2] v ps ss gs fr].
  cbn [m_ehd m_tid m_seoj m_deoj m_esv m_props m_set m_get] in *. inversion A; subst. destruct B, C as (? & ? & ?), D as (? & ? & ?).
  apply Forall_app. split.
  - repeat (apply Forall_cons; [unfold octet; cbn in *; auto; lia|]). apply Forall_nil.
  - destruct (_ && _); [apply Forall_app; split|]; apply props_bytes_octets; auto.
Qed.

Lemma packets_app a b : packets (a ++ b) = packets a ++ packets b.
Proof. induction a as [|e r IH]; cbn; auto. destruct e; try (destruct ok; cbn; rewrite ?IH; auto; fail); auto. Qed.
Lemma packets_sent tr : map (fun p => (pk_to p, pk_data p)) (packets tr) = sent tr.
Proof. induction tr as [|e r IH]; cbn; auto. destruct e; auto. destruct ok; cbn; rewrite ?IH; auto. Qed.
Lemma packets_offered p tr : In p (packets tr) -> In (pk_to p, pk_data p) (offered tr).
Proof. induction tr as [|e r IH]; cbn; auto. destruct e; auto. destruct ok; cbn; intuition; subst; auto. Qed.

(** A datagram that is no request. *)
Definition silent (d : list N) : Prop := ~ request_service (service_of d).

Section M.
  Context {U : Type} {P : Profile} {HO : HashOrder} {Os : OS} {Uu : Uuids}.
  Variable db : list object.

  Lemma handled_wf s (u : U) n m u' n' e ps ss gs t : rcvd m -> node_good n -> handled s u n m u' n' (Some (resp m e ps ss gs)) -> wf2 t ->
    msg_wf (with_t m t e ps ss gs) /\ ~ request_service e.
  Proof.
    intros R G H Wt. pose proof R as [W L B].
    destruct (handled_response _ _ _ _ _ _ _ H W B) as (Q & Rc & _). cbn [m_esv resp] in Rc.
    assert (Ne : e < 256 /\ ~ request_service e).
    { clear -Rc. unfold response_code, request_service in *. cbn in *. intuition lia. }
    split; [|tauto]. destruct Ne as [Ne _].
    assert (Fa : response_error_message m = resp m e ps ss gs -> Forall u8prop ps /\ Forall u8prop ss /\ Forall u8prop gs).
    { intro E. destruct (failure_eq m W Q) as (e1 & E1 & E2). rewrite E2 in E. inversion E. subst. split; [|split; constructor].
      destruct (_ =? _); [apply Forall_app; split|]; apply W. }
    assert (X : Forall u8prop ps /\ Forall u8prop ss /\ Forall u8prop gs).
    2:{ destruct X as (X1 & X2 & X3). apply with_t_wf; auto. }
    inversion H as [|o0 Q0 A0 V0 Eu En Er|o0 c0 u0 c1 Q0 A0 V0 C0 D0 Eu En Er|pre o post copy u1 copy' Q0 Eo Ec Fp V C Dd Eu En Er]; subst; auto.
    assert (Ga : obj_good (answered o m copy')).
    { apply (handled_good s u n m u' _ _ W G) in H. destruct H as [H _]. cbn in H. apply Forall_app in H as [_ H]. exact (Forall_inv H). }
    clear H. destruct (success_eq o (answered o m copy') m W B Q V (answered_shape o m copy')) as [[_ X]|(e1 & ps1 & ss1 & gs1 & E1 & E2 & K1 & K2 & K3)]; [congruence|].
    assert (E3 : resp m e ps ss gs = resp m e1 ps1 ss1 gs1) by congruence. clear Er E2 Fa. inversion E3. subst e1 ps1 ss1 gs1. clear E3.
    pose proof (wf_props _ W) as W1. pose proof (wf_set _ W) as W2.
    clear Rc. services Q; try (rewrite <- Q in E1; discriminate E1).
    - destruct K1 as (-> & -> & ->); auto. split; [apply ack_u8; auto|split; constructor].
    - destruct K2 as (K2 & -> & ->); auto. split; [exact (read_u8 _ _ _ Ga K2)|split; constructor].
    - destruct K2 as (K2 & -> & ->); auto. split; [exact (read_u8 _ _ _ Ga K2)|split; constructor].
    - destruct K3 as (-> & -> & K3); auto. split; [constructor|]. split; [apply ack_u8; auto|exact (read_u8 _ _ _ Ga K3)].
    - destruct K1 as (-> & -> & ->); auto. split; [apply ack_u8; auto|split; constructor].
  Qed.

  (** What the node does with a message. *)
  Lemma observe_packets w (u : U) n m u' n' w' : received m -> node_good n -> node_observe w u n m = Ret (u', n', w') ->
    node_good n' /\ n_mgr n' = n_mgr n /\ exists tr, since w w' tr /\
      (length (packets tr) <= S (length (mg_mcast (n_mgr n))))%nat /\ (~ request_service (m_esv m) -> packets tr = []) /\
      Forall (fun p => octets (pk_data p) /\ silent (pk_data p)) (packets tr).
  Proof.
    intros R0 G E. pose proof (received_rcvd _ R0) as R. pose proof R as [W L B].
    assert (G' : node_good n').
    { apply (step_good u n w (OpRecv m) u' n' w'); auto. cbn [node_step]. rewrite E. reflexivity. }
    split; auto. pose proof E as E0.
    apply observe_spec in E as (n1 & w1 & t1 & n2 & res & t2 & T & _ & _ & D & H & Re); auto.
    pose proof (delivered_keeps _ _ _ _ D) as (_ & _ & D3 & _ & _ & D6 & D7). pose proof (reaction_keeps _ _ _ _ _ Re) as (_ & _ & R3 & _).
    assert (M2 : n_mgr n2 = n_mgr n1) by (inversion H; reflexivity).
    split; [congruence|]. exists (t1 ++ t2). split; auto. rewrite packets_app.
    assert (Z : packets t1 = []).
    { destruct (packets t1) as [|p r] eqn:Z; auto. exfalso. pose proof (packets_offered p t1) as X. rewrite Z in X. rewrite D6 in X. apply X. left. auto. }
    rewrite Z. cbn [app]. split; [|split].
    - rewrite <- (map_length (fun p => (pk_to p, pk_data p)) (packets t2)), packets_sent. inversion Re as [|r n'' r' tr k _ _ _ K1 K2]; subst; [cbn; lia|].
      rewrite K1, repeat_length. rewrite M2, D3 in K2. destruct (_ || _); lia.
    - intro Nq. inversion Re as [|r n'' r' tr k _ _ _ K1 K2]; subst; [reflexivity|].
      exfalso. apply Nq. destruct (handled_response _ _ _ _ _ _ _ H W B) as (Q & _). exact Q.
    - apply Forall_forall. intros p I. pose proof (packets_offered p t2 I) as Io.
      assert (Io' : In (pk_to p, pk_data p) (offered (t1 ++ t2))) by (rewrite offered_app; apply in_app_iff; auto).
      destruct (observe_offered w u n m u' n' w' (t1 ++ t2) _ _ R E0 T Io') as (e & ps & ss & gs & t & n3 & Q & H3 & _ & -> & Wt & _).
      destruct (handled_wf _ _ _ _ _ _ _ _ _ _ _ R G H3 Wt) as [X Y]. split; [apply msg_bytes_octets; auto|].
      unfold silent. rewrite with_t_service; auto; apply W.
  Qed.

  (** The controller sends nothing. *)
  Lemma add_codes_trace w r l : w_trace (snd (remote_add_codes w r l)) = w_trace w.
  Proof. revert w r. induction l as [|c l IH]; intros w r; cbn [remote_add_codes]; auto. rewrite IH. reflexivity. Qed.
  Lemma add_standard_trace os : forall w os' w', add_standard_all db w os = Ret (os', w') -> w_trace w' = w_trace w.
  Proof.
    induction os as [|o r IH]; intros w os' w' E; cbn [add_standard_all] in E; [inversion E; auto|].
    destruct (with_standard_properties _ _ _ _ _) as [o'|]; cbn [obind] in E; [|discriminate].
    destruct (add_standard_all db (tick (tick w)) r) as [[os1 w1]|] eqn:E1; cbn [obind fst snd] in E; [|discriminate]. inversion E; subst.
    apply IH in E1. exact E1.
  Qed.
  Lemma controller_silent w rs m rs' w' : controller_observe db w rs m = Ret (rs', w') -> w_trace w' = w_trace w.
  Proof.
    unfold controller_observe. destruct (is_node_profile_message m) eqn:En; cbn [negb]; [|intro H; inversion H; auto].
    unfold remote_from_message. rewrite En. cbn [negb]. destruct (node_profile_codes (m_props m)) as [cs|]; cbn [obind]; [|discriminate].
    destruct (remote_add_codes w _ cs) as [r w1] eqn:Ea. cbn [obind].
    destruct (add_standard_all db w1 (rn_objects r)) as [[os w2]|] eqn:E2; cbn [obind]; [|discriminate].
    destruct (node_profile_object _ _ _ _) as [np|]; cbn [obind]; [|discriminate]. intro H. inversion H; subst. cbn.
    apply add_standard_trace in E2. rewrite E2. pose proof (add_codes_trace w {| rn_addr := msg_from m; rn_objects := [] |} cs) as X. rewrite Ea in X. exact X.
  Qed.

  (** One step of what follows. *)
  Definition sends_at_most (k : nat) (m : message) (h : host U) (w : world) (h' : host U) (w' : world) : Prop :=
    node_good (h_node h') /\ n_mgr (h_node h') = n_mgr (h_node h) /\ exists tr, since w w' tr /\
      (length (packets tr) <= k)%nat /\ (~ request_service (m_esv m) -> packets tr = []) /\
      Forall (fun p => octets (pk_data p) /\ silent (pk_data p)) (packets tr).
  Lemma sends_nothing k m h w h' w' : node_good (h_node h') -> n_mgr (h_node h') = n_mgr (h_node h) -> w_trace w' = w_trace w -> sends_at_most k m h w h' w'.
  Proof.
    intros A B C. split; auto. split; auto. exists []. split; [unfold since; rewrite app_nil_r; auto|]. cbn. split; [lia|]. split; auto.
  Qed.
  Lemma observer_sends free h w o m bad h' w' : received m -> node_good (h_node h) -> observer_received db free h w o m = (bad, h', w') ->
    sends_at_most (S (length (mg_mcast (n_mgr (h_node h))))) m h w h' w'.
  Proof.
    intros R G E. unfold observer_received in E. destruct (ob_kind o).
    - destruct (_ || _); [inversion E; subst; apply sends_nothing; auto|].
      destruct (node_observe w (h_user h) (h_node h) m) as [[[u1 n1] w1]|] eqn:E1; inversion E; subst; [|apply sends_nothing; auto].
      destruct (observe_packets _ _ _ _ _ _ _ R G E1) as (A & B & C). split; auto.
    - inversion E; subst; apply sends_nothing; auto.
    - destruct (_ || _); [inversion E; subst; apply sends_nothing; auto|].
      destruct (controller_observe db w (h_remotes h) m) as [[r1 w1]|] eqn:E1; inversion E; subst; [|apply sends_nothing; auto].
      apply sends_nothing; auto. eapply controller_silent; eauto.
    - inversion E; subst; apply sends_nothing; auto.
  Qed.
  Lemma notify_sends_most free m l : received m -> forall i h w bad h' w', node_good (h_node h) -> notify_observers db free i h w l m = (bad, h', w') ->
    sends_at_most (length l * S (length (mg_mcast (n_mgr (h_node h))))) m h w h' w'.
  Proof.
    intro R. induction l as [|o r IH]; intros i h w bad h' w' G E; cbn [notify_observers] in E; [inversion E; subst; apply sends_nothing; auto|].
    destruct (existsb _ _); [inversion E; subst; apply sends_nothing; auto|].
    destruct (observer_received db (free i) (h_called h o m) w o m) as [[b h1] w1] eqn:E1.
    apply observer_sends in E1 as (A & B & t1 & T1 & L1 & Z1 & F1); auto. change (h_node (h_called h o m)) with (h_node h) in B, L1.
    destruct b.
    - inversion E; subst. split; [exact A|]. split; [exact B|]. exists t1. split; [exact T1|]. split; [cbn [length Nat.mul]; lia|]. auto.
    - apply IH in E as (A2 & B2 & t2 & T2 & L2 & Z2 & F2); auto. split; auto. split; [congruence|]. exists (t1 ++ t2). split; [eapply since_trans; eauto|].
      rewrite packets_app, app_length, B in *. split; [cbn [length Nat.mul]; lia|]. split; [intro Nq; rewrite Z1, Z2; auto|]. apply Forall_app; auto.
  Qed.

  (** Bound on the responses to one reception. *)
  Definition fan (k : nat) (mg : manager) : Prop :=
    Forall (fun s => (length (sv_observers s) * S (length (mg_mcast mg)) <= k)%nat) (mg_ucast mg ++ mg_mcast mg).
  Lemma set_nth_length {A} (l : list A) : forall k x, length (set_nth l k x) = length l.
  Proof. induction l as [|y r IH]; intros [|k] x; cbn; auto. Qed.
  Lemma set_nth_all {A} (Q : A -> Prop) l : forall k x, Forall Q l -> Q x -> Forall Q (set_nth l k x).
  Proof. induction l as [|y r IH]; intros k x F K; destruct k; cbn; auto; inversion F; subst; constructor; auto. Qed.
  Lemma fan_server k mg i s t : fan k mg -> server_at mg i = Some s -> sv_observers t = sv_observers s -> fan k (set_server mg i t).
  Proof.
    unfold fan. intros F E O'. destruct i as [j|j]; cbn [set_server mg_mcast mg_ucast server_at] in *; rewrite ?set_nth_length;
      apply Forall_app in F as [F1 F2]; apply Forall_app; split; auto; apply set_nth_all; auto; rewrite O'; apply nth_error_In in E;
      [exact (proj1 (Forall_forall _ _) F1 s E)|exact (proj1 (Forall_forall _ _) F2 s E)].
  Qed.
  Lemma fan_at k mg i s : fan k mg -> server_at mg i = Some s -> (length (sv_observers s) * S (length (mg_mcast mg)) <= k)%nat.
  Proof.
    unfold fan. intros F E. rewrite Forall_forall in F. apply F. apply in_app_iff. destruct i as [j|j]; cbn in E; apply nth_error_In in E; auto.
  Qed.

  (** The service octet of what is parsed is that of the datagram. *)
  Lemma parsed_service d m : octets d -> msg_parse msg_new (firstn MAX_PACKET_SIZE d) = Ret (true, m) -> m_esv m = service_of d.
  Proof.
    intros Od E. rewrite max_packet in E. destruct (parse_seen d Od) as [(f & (Fk & rest & Hs) & E')|[(_ & m' & E')|(_ & E')]]; rewrite E' in E; try discriminate.
    inversion E; subst m. clear E E'. destruct (carries_msg_of_frame f Fk) as (_ & _ & _ & -> & _).
    assert (X : nth 10 (seen d) 0 = nth 10 d 0).
    { unfold seen. rewrite <- (firstn_skipn (N.to_nat 1024) d) at 2.
      destruct (Nat.ltb_spec 10 (length (firstn (N.to_nat 1024) d))) as [Hl|Hl].
      - rewrite app_nth1 by exact Hl. reflexivity.
      - rewrite firstn_length in Hl. assert (Hd : (length d <= 10)%nat) by lia.
        rewrite nth_overflow by (rewrite firstn_length; lia). symmetry. apply nth_overflow. rewrite firstn_skipn. exact Hd. }
    unfold service_of. rewrite <- X, Hs. destruct f as [t s o v b]. reflexivity.
  Qed.

  (** One reception. *)
  Lemma receive_sends k free (h : host U) w i d a h' w' : octets d -> node_good (h_node h) -> fan k (n_mgr (h_node h)) -> receive db free h w i d a = (h', w') ->
    node_good (h_node h') /\ fan k (n_mgr (h_node h')) /\ exists tr, since w w' tr /\
      (length (packets tr) <= k)%nat /\ (silent d -> packets tr = []) /\
      Forall (fun p => octets (pk_data p) /\ silent (pk_data p)) (packets tr).
  Proof.
    intros Od G F E.
    assert (Q : forall h1, node_good (h_node h1) -> fan k (n_mgr (h_node h1)) -> (h1, w) = (h', w') -> 
      node_good (h_node h') /\ fan k (n_mgr (h_node h')) /\ exists tr, since w w' tr /\
      (length (packets tr) <= k)%nat /\ (silent d -> packets tr = []) /\ Forall (fun p => octets (pk_data p) /\ silent (pk_data p)) (packets tr)).
    { intros h1 G1 F1 X. inversion X; subst. split; auto. split; auto. exists []. split; [apply since_refl|]. cbn. split; [lia|]. auto. }
    unfold receive in E. destruct (h_server h i) as [s|] eqn:Es; [|apply (Q h); auto].
    unfold h_server in Es.
    destruct (sv_thread s) eqn:T; try (apply (Q h); auto; fail).
    destruct (sv_stop s). { eapply Q; [| |exact E]; [exact G|]. cbn. eapply fan_server; eauto. }
    destruct (msg_parse msg_new (firstn MAX_PACKET_SIZE d)) as [[[|] m]|] eqn:Ep.
    - pose proof (parsed_service d m Od Ep) as Sv.
      assert (Rm : received (msg_set_from m a)) by (exists (firstn MAX_PACKET_SIZE d), m, a; split; [rewrite max_packet; apply seen_octets; auto|auto]).
      destruct (sv_poisoned s). { eapply Q; [| |exact E]; [exact G|]. cbn. eapply fan_server; eauto. }
      destruct (notify_observers db free 0 h w (sv_observers s) (msg_set_from m a)) as [[bad h1] w1] eqn:En.
      pose proof (fan_at k _ i s F Es) as K.
      apply notify_sends_most in En as (A & B & tr & T1 & L1 & Z1 & F1); auto. change (m_esv (msg_set_from m a)) with (m_esv m) in Z1. rewrite Sv in Z1.
      assert (F2 : fan k (n_mgr (h_node h1))) by (rewrite B; auto).
      destruct bad; inversion E; subst.
      + split; [exact A|]. split; [cbn; rewrite B; eapply fan_server; [exact F|exact Es|reflexivity]|]. exists tr. split; auto. split; [lia|]. auto.
      + split; [exact A|]. split; auto. exists tr. split; auto. split; [lia|]. auto.
    - apply (Q h); auto.
    - eapply Q; [| |exact E]; [exact G|]. cbn. eapply fan_server; eauto.
  Qed.
End M.

(** ** Processes after any history *)
Section L.
  Context {U : Type} {P : Profile} {HO : HashOrder} {Os : OS} {Uu : Uuids}.
  Variable db : list object.
  Lemma some_fan mg : exists k, fan k mg.
  Proof.
    unfold fan. set (f := fun s => (length (sv_observers s) * S (length (mg_mcast mg)))%nat).
    assert (H : forall l : list server, exists k, Forall (fun s => (f s <= k)%nat) l).
    { induction l as [|s r (k & IH)]; [exists 0%nat; constructor|]. exists (f s + k)%nat. constructor; [lia|]. eapply Forall_impl; [|exact IH]. cbn. intros. lia. }
    apply H.
  Qed.
  Lemma fan_more k k' mg : (k <= k')%nat -> fan k mg -> fan k' mg.
  Proof. intros L F. eapply Forall_impl; [|exact F]. cbn. intros. lia. Qed.
  Lemma typed_good (h : host U) w op h' w' : typed_op op -> node_good (h_node h) -> host_step db (h, w) op = Ret (h', w') -> node_good (h_node h').
  Proof.
    intros K G E. destruct op; cbn [host_step] in E; cbn [typed_op] in K.
    - destruct (h_poisoned h); [discriminate|]. destruct (node_step (h_user h, h_node h, w) op) as [[[u1 n1] w1]|] eqn:E1; cbn [obind] in E; [|discriminate].
      inversion E; subst. exact (step_good _ _ _ _ _ _ _ K G E1).
    - destruct (h_cpoisoned h); [discriminate|]. destruct (h_poisoned h); [discriminate|]. unfold controller_search_object in E.
      destruct (node_notify w (h_node h) _) as [[[b m1] n1] w1] eqn:E1. inversion E; subst. apply node_notify_spec in E1 as (A & _).
      apply update_tid_keeps in A as (A & B & _). eapply objects_good_tid; eauto.
    - destruct (h_cpoisoned h); [inversion E; subst; auto|]. destruct (h_poisoned h); [discriminate|]. unfold controller_send in E.
      destruct (node_send w (h_node h) _ _) as [[[b m1] n1] w1] eqn:E1. inversion E; subst. apply node_send_spec in E1 as (A & _).
      apply update_tid_keeps in A as (A & B & _). eapply objects_good_tid; eauto.
    - destruct (h_cpoisoned h); [discriminate|]. destruct (h_poisoned h); [discriminate|]. unfold controller_post in E.
      destruct (node_post w (h_node h) _ _) as [[[b m1] n1] w1] eqn:E1. inversion E; subst. apply node_post_spec in E1 as (_ & _ & n2 & ok & tr & A & -> & _).
      apply update_tid_keeps in A as (A & B & _). eapply objects_good_tid; [| |exact G]; cbn; auto.
    - destruct (h_cpoisoned h); [discriminate|]. destruct (controller_nodes _ _) as [x|]; cbn [obind] in E; [|discriminate]. inversion E; subst; auto.
    - destruct (h_cpoisoned h); [discriminate|]. destruct (h_poisoned h); [discriminate|]. unfold controller_start in E.
      destruct (node_start w (h_node h)) as [[[ok n1] w1]|] eqn:E1; cbn [obind] in E; [|discriminate]. inversion E; subst. cbn.
      apply (step_good (h_user h) (h_node h) w OpStart (h_user h) n1 w'); [exact Logic.I|auto|]. cbn [node_step]. rewrite E1. reflexivity.
    - destruct (h_cpoisoned h); [discriminate|]. destruct (h_poisoned h); [discriminate|]. unfold controller_stop in E.
      destruct (node_stop (h_node h)) as [[ok n1]|] eqn:E1; cbn [obind fst snd] in E; [|discriminate]. inversion E; subst. cbn.
      apply (step_good (h_user h) (h_node h) w' OpStop (h_user h) n1 w'); [exact Logic.I|auto|]. cbn [node_step]. rewrite E1. reflexivity.
    - destruct (some_fan (n_mgr (h_node h))) as (k & F). inversion E as [E1]. apply (receive_sends db k) in E1; auto. tauto.
    - inversion E; subst. unfold receive_error. destruct (h_server h i) as [s|]; auto. destruct (sv_thread s); auto.
  Qed.
  Lemma run_typed_good ops : forall (h : host U) w h' w', Forall typed_op ops -> node_good (h_node h) -> host_run db (h, w) ops = Ret (h', w') -> node_good (h_node h').
  Proof.
    induction ops as [|op r IH]; intros h w h' w' F G E; cbn [host_run] in E; [inversion E; subst; auto|].
    destruct (host_step db (h, w) op) as [[h1 w1]|] eqn:E1; cbn [obind] in E; [|discriminate].
    eapply IH; [exact (Forall_inv_tail F)| |exact E]. exact (typed_good _ _ _ _ _ (Forall_inv F) G E1).
  Qed.
End L.

Section Net.
  Context {U : Type}.
  Variable machines : nat -> machine.
  Definition good_at (j : nat) (h : host U) : Prop := node_good (h_node h).

  Lemma lived_good j x : lived (U := U) (machines j) x -> good_at j (fst x).
  Proof.
    intros (np & n0 & u & w & ops & B & N & F & E). destruct x as [h w']. unfold good_at. cbn [fst].
    eapply run_typed_good; [exact F| |exact E]. cbn. apply (node_new_good (P := mc_profile (machines j)) np n0); [|exact N]. exact (obj_ok_good (P := mc_profile (machines j)) np (obj_built_ok (P := mc_profile (machines j)) (HO := mc_order (machines j)) np B)).
  Qed.

  Definition inv (k : nat) (hs : list (host U * world)) : Prop :=
    forall j h w, nth_error hs j = Some (h, w) -> good_at j h /\ fan k (n_mgr (h_node h)).
  Lemma nth_set_nth {A} (l : list A) : forall k j x, nth_error (set_nth l k x) j = (if Nat.eqb j k then (if Nat.ltb k (length l) then Some x else None) else nth_error l j).
  Proof.
    induction l as [|y r IH]; intros [|k] [|j] x; cbn [set_nth nth_error]; auto; try (destruct (Nat.eqb _ _); reflexivity). rewrite IH. reflexivity.
  Qed.
  Lemma arrives_sends k p : octets (pk_data p) -> forall hs rs hs' new, arrives machines p hs rs hs' new -> inv k hs ->
    inv k hs' /\ Forall (fun p => octets (pk_data p) /\ silent (pk_data p)) new /\ (length new <= length rs * k)%nat /\ (silent (pk_data p) -> new = []).
  Proof.
    intros Od hs rs hs' new A. induction A as [hs|hs r h w h' w' tr rs hs' new E T S A IH]; intro I.
    - split; [exact I|]. split; [constructor|]. split; [cbn; lia|reflexivity].
    - destruct (I _ _ _ E) as [G F]. apply (receive_sends _ k) in T as (G' & F' & tr' & S' & L & Z & Fp); auto.
      pose proof (since_unique _ _ _ _ S S') as <-.
      destruct IH as (I2 & Fn & Ln & Zn).
      { intros j h1 w1 E1. rewrite nth_set_nth in E1. destruct (Nat.eqb_spec j (rc_host r)) as [->|]; [|apply (I j h1 w1); auto].
        destruct (Nat.ltb_spec (rc_host r) (length hs)); [|discriminate]. inversion E1; subst. split; auto. }
      split; auto. split; [apply Forall_app; auto|]. split; [rewrite app_length; cbn [length Nat.mul]; lia|]. intro Sl. rewrite Z, Zn by auto. reflexivity.
  Qed.

  (** Every datagram counts one, a request with all the responses it may cause. *)
  Definition is_req (d : list N) : bool := existsb (N.eqb (service_of d)) [0x60; 0x61; 0x62; 0x63; 0x6E; 0x74].
  Definition weight (c : nat) (p : packet) : nat := if is_req (pk_data p) then S c else 1%nat.
  Definition weights (c : nat) (l : list packet) : nat := list_sum (map (weight c) l).
  Lemma weights_app c a b : weights c (a ++ b) = (weights c a + weights c b)%nat.
  Proof. unfold weights. rewrite map_app, list_sum_app. reflexivity. Qed.
  Lemma is_req_spec d : is_req d = true <-> request_service (service_of d).
  Proof.
    unfold is_req, request_service. rewrite existsb_exists. split.
    - intros (x & I & E). apply N.eqb_eq in E. rewrite E. exact I.
    - intro I. exists (service_of d). split; auto. apply N.eqb_refl.
  Qed.
  Lemma weights_silent c l : Forall (fun p => octets (pk_data p) /\ silent (pk_data p)) l -> weights c l = length l.
  Proof.
    induction 1 as [|p r [_ S] F IH]; auto. unfold weights in *. cbn [map list_sum fold_right length]. unfold weight at 1.
    destruct (is_req (pk_data p)) eqn:E; [apply is_req_spec in E; contradiction|]. change (fold_right Init.Nat.add 0%nat (map (weight c) r)) with (list_sum (map (weight c) r)). rewrite IH. reflexivity.
  Qed.
  Lemma weights_length c l : (length l <= weights c l)%nat.
  Proof. induction l as [|p r IH]; [auto|]. change (weights c (p :: r)) with (weight c p + weights c r)%nat. unfold weight. cbn [length]. destruct (is_req _); lia. Qed.
  Lemma weights_bound c l : (weights c l <= length l * S c)%nat.
  Proof. induction l as [|p r IH]; [auto|]. change (weights c (p :: r)) with (weight c p + weights c r)%nat. unfold weight. cbn [length Nat.mul]. destruct (is_req _); lia. Qed.

  Lemma net_weights R k : forall s n s', net_run machines R s n s' -> inv k (fst s) -> Forall (fun p => octets (pk_data p)) (snd s) ->
    (n + weights (R * k) (snd s') <= weights (R * k) (snd s))%nat.
  Proof.
    intros s n s' Rn. induction Rn as [s|s s1 n s2 St Rn IH]; intros I Od; [lia|].
    inversion St as [hs pre p post rs hs' new Lr A]; subst. cbn [fst snd] in *. apply Forall_app in Od as [O1 O2].
    destruct (arrives_sends k p (Forall_inv O2) _ _ _ _ A I) as (I2 & Fn & Ln & Zn).
    specialize (IH I2). rewrite !weights_app in IH |- *. change (weights (R * k) (p :: post)) with (weight (R * k) p + weights (R * k) post)%nat.
    assert (X : (weights (R * k) new <= weight (R * k) p - 1)%nat).
    { rewrite weights_silent by auto. unfold weight. destruct (is_req (pk_data p)) eqn:E.
      - assert (length rs * k <= R * k)%nat by (apply Nat.mul_le_mono_r; auto). lia.
      - rewrite Zn; [cbn; lia|]. intro Q. apply is_req_spec in Q. congruence. }
    assert (Y : (1 <= weight (R * k) p)%nat) by (unfold weight; destruct (is_req _); lia).
    assert (Z : Forall (fun p => octets (pk_data p)) (pre ++ post ++ new)).
    { apply Forall_app. split; auto. apply Forall_app. split; [exact (Forall_inv_tail O2)|]. eapply Forall_impl; [|exact Fn]. intros q [Oq _]. exact Oq. }
    specialize (IH Z). rewrite weights_app in IH. lia.
  Qed.

  (** ** C92 *)
  (** Without calls of applications the network comes to rest. With at most [R]
      receptions of one datagram, and at most [k] observers times multicast
      sockets at each receive thread, [n] deliveries and the datagrams that are
      still on their way are at most [1 + R * k] times what was on its way. *)
  Theorem C92_bound : forall R k hs flight n hs' flight', (forall j x, nth_error hs j = Some x -> lived (U := U) (machines j) x) ->
    Forall (fun x => fan k (n_mgr (h_node (fst x)))) hs -> Forall (fun p => octets (pk_data p)) flight ->
    net_run machines R (hs, flight) n (hs', flight') -> (n + length flight' <= length flight * S (R * k))%nat.
  Proof.
    intros R k hs flight n hs' flight' L F Od Rn.
    assert (I : inv k hs).
    { intros j h w E. split; [apply (lived_good j (h, w)); apply L; auto|]. rewrite Forall_forall in F. apply nth_error_In in E. exact (F _ E). }
    pose proof (net_weights R k _ _ _ Rn I Od) as X. cbn [snd] in X.
    pose proof (weights_length (R * k) flight'). pose proof (weights_bound (R * k) flight). lia.
  Qed.
  Theorem C92_rest : forall R hs flight, (forall j x, nth_error hs j = Some x -> lived (U := U) (machines j) x) ->
    Forall (fun p => octets (pk_data p)) flight ->
    exists most, forall n hs' flight', net_run machines R (hs, flight) n (hs', flight') -> (n + length flight' <= most)%nat.
  Proof.
    intros R hs flight L Od.
    assert (K : exists k, Forall (fun x => fan k (n_mgr (h_node (fst x)))) hs).
    { clear L. induction hs as [|x r (k & IH)]; [exists 0%nat; constructor|]. destruct (some_fan (n_mgr (h_node (fst x)))) as (k' & F).
      exists (k + k')%nat. constructor; [eapply fan_more; [|exact F]; lia|]. eapply Forall_impl; [|exact IH]. intros y Fy. eapply fan_more; [|exact Fy]. lia. }
    destruct K as (k & F). exists (length flight * S (R * k))%nat. intros n hs' flight' Rn. eapply C92_bound; eauto.
  Qed.
  (** Only requests cause datagrams, and what they cause are no requests. *)
  Theorem C92_only_requests : forall hs p rs hs' new, (forall j x, nth_error hs j = Some x -> lived (U := U) (machines j) x) ->
    octets (pk_data p) -> arrives machines p hs rs hs' new ->
    (new <> [] -> request_service (service_of (pk_data p))) /\ forall q, In q new -> ~ request_service (service_of (pk_data q)).
  Proof.
    intros hs p rs hs' new L Od A.
    assert (K : exists k, Forall (fun x => fan k (n_mgr (h_node (fst x)))) hs).
    { clear L A. induction hs as [|x r (k & IH)]; [exists 0%nat; constructor|]. destruct (some_fan (n_mgr (h_node (fst x)))) as (k' & F).
      exists (k + k')%nat. constructor; [eapply fan_more; [|exact F]; lia|]. eapply Forall_impl; [|exact IH]. intros y Fy. eapply fan_more; [|exact Fy]. lia. }
    destruct K as (k & F).
    assert (I : inv k hs).
    { intros j h w E. split; [apply (lived_good j (h, w)); apply L; auto|]. rewrite Forall_forall in F. apply nth_error_In in E. exact (F _ E). }
    destruct (arrives_sends k p Od _ _ _ _ A I) as (_ & Fn & _ & Z). split.
    - intro Nn. destruct (is_req (pk_data p)) eqn:E; [apply is_req_spec; auto|]. exfalso. apply Nn, Z. intro Q. apply is_req_spec in Q. congruence.
    - intros q Iq. rewrite Forall_forall in Fn. apply Fn. exact Iq.
  Qed.
End Net.
Print Assumptions C92_bound.
Print Assumptions C92_rest.
Print Assumptions C92_only_requests.

(** The lamp: a write causes one datagram, the response; the response, received
    by the same process, causes none. *)
Definition ex_machine : machine := Machine true ex_order ex_os ex_uuids ex_db.
Definition caused (d : list N) : list packet :=
  let '(h, w) := dev_state dev_ops in
  packets (skipn (length (w_trace w)) (w_trace (snd (takes (fun _ => ex_machine) 0 (Reception 0 (Uni 0) peer (fun _ => true)) h w (Packet peer (V4 0xC0A8000A, 3610) d))))).
Example C92_case : lived ex_machine (dev_state dev_ops) /\ octets (on_lamp 5) /\
  caused (on_lamp 5) = [Packet (V4 0xC0A8000A, 3610) peer (yes_answer 5)] /\ caused (yes_answer 5) = [] /\
  request_service (service_of (on_lamp 5)) /\ ~ request_service (service_of (yes_answer 5)).
Proof.
  split.
  { exists ex_np, ex_node0, tt, w0, dev_ops. split; [apply ex_np_built|]. split; [vm_compute; reflexivity|]. split.
    - constructor; [exact Logic.I|]. constructor; [exact Logic.I|]. constructor; [apply lamp_built|]. constructor; [apply yes_typed|]. constructor; [exact Logic.I|constructor].
    - assert (X : match dev_run dev_ops with Ret _ => true | Panic => false end = true) by (vm_compute; reflexivity).
      rewrite (surjective_pairing (dev_state dev_ops)). exact (the_run (dev_run dev_ops) X). }
  split; [repeat constructor|]. split; [vm_compute; reflexivity|]. split; [vm_compute; reflexivity|].
  split; [cbn; auto 10|]. cbn. intuition discriminate.
Qed.
