(** What a node tells about its devices. *)
From Verif Require Import Base HMap ModelCodec ModelMessages ModelObject ModelTransport ModelNode ModelController ModelDevice ModelThreads
  SpecWire SpecObject SpecNode SpecThreads ProofsCodec ProofsCodec2 ProofsObject ProofsNode ProofsNode2 ProofsNode3 ProofsNode4 PropertiesCodec PropertiesObject PropertiesNode PropertiesTrans
  PropertiesProfile ProofsExchange ProofsHistory PropertiesFrames ProofsThreads ProofsThreads2 PropertiesThreads ProofsThreads6 ProofsLines
  ProofsClients SpecShared ProofsShared ProofsMesh SpecListed.
From Verif Require ModelLocks.

(** Lists of instances in the datagram are the list of these codes. *)
Definition honest (cs : list N) (data : list N) : Prop :=
  octets data -> forall m0, msg_parse msg_new (firstn MAX_PACKET_SIZE data) = Ret (true, m0) -> m_esv m0 = 0x72 \/ m_esv m0 = 0x73 ->
  Forall (fun q => pp_code q = 0xD6 -> pp_data q = instance_list cs) (m_props m0).

Section S.
  Context {U : Type} {P : Profile} {HO : HashOrder} {Os : OS}.
  Implicit Types (n : node U).

  Definition fair_op (op : node_op U) : Prop :=
    match op with
    | OpAddObject o => object_code o <> 0x0EF001 /\ object_find_property o 0xD6 = None /\ short o
    | OpAddHandler h => hands_off h
    | OpSetData oc c d => (oc <> 0x0EF001 \/ ~ list_code c) /\ fits d
    | OpSend _ m | OpPost _ m | OpNotify m => m_esv m <> 0x72 /\ m_esv m <> 0x73
    | OpAnnounceProperty _ _ => False
    | _ => True
    end.
  Lemma fair_undisturbed op : fair_op op -> PropertiesProfile.undisturbed op.
  Proof. destruct op; cbn; tauto. Qed.
  Lemma hands_off_short (h : handler U) : hands_off h -> short_handler h.
  Proof. destruct h; cbn; [auto|]. intros H u o e p u' o' b S E. rewrite (H _ _ _ _ _ _ _ E). exact S. Qed.

  Definition truthful (rd : N -> rule) n (cs : list N) : Prop :=
    profile_inv rd n /\ node_good n /\ PropertiesFrames.small n /\ map object_code (n_objects n) = 0x0EF001 :: cs /\
    Forall (fun c => c < 16777216 /\ c <> 0x0EF001) cs /\ Forall (fun o => object_find_property o 0xD6 = None) (tl (n_objects n)).

  Lemma truthful_same rd n n' cs : n_objects n' = n_objects n -> n_handlers n' = n_handlers n -> truthful rd n cs -> truthful rd n' cs.
  Proof.
    intros Ob Hd (Pi & (G1 & G2) & Sm & M & F & Nd). split; [eapply inv_same; [| |exact Pi]; assumption|]. split; [split; [rewrite Ob; exact G1|rewrite Hd; exact G2]|].
    split; [eapply small_same; eauto|]. rewrite Ob. auto.
  Qed.
  Lemma quiet_honest cs data : service_of data <> 0x72 -> service_of data <> 0x73 -> honest cs data.
  Proof. intros A B Od m0 Pa S. exfalso. destruct (parsed_header data m0 Od Pa) as (_ & _ & _ & _ & _ & _ & _ & X). rewrite X in S. tauto. Qed.
  Lemma sent_honest cs n n' m m' : update_tid n m = (n', m') -> m_esv m <> 0x72 /\ m_esv m <> 0x73 -> honest cs (msg_bytes m').
  Proof. intros E [A B]. apply quiet_honest; rewrite service_sent, (update_tid_esv _ _ _ _ E); assumption. Qed.
  Lemma same_honest cs (to : sockaddr) data l : honest cs data -> Forall (eq (to, data)) l -> Forall (fun y => honest cs (snd y)) l.
  Proof. intros H F. eapply Forall_impl; [|exact F]. intros y <-. exact H. Qed.

  Lemma devices_entries cs : Forall (fun c => c < 16777216 /\ c <> 0x0EF001) cs -> flat_map instance_entry (0x0EF001 :: cs) = flat_map wire_eoj cs.
  Proof.
    intros F. rewrite instance_entries.
    - cbn [filter N.eqb Pos.eqb negb]. f_equal. induction F as [|c r [_ A] F IH]; [reflexivity|]. cbn [filter]. destruct (N.eqb_spec c 0x0EF001); [contradiction|]. cbn [negb]. f_equal. exact IH.
    - constructor; [reflexivity|]. eapply Forall_impl; [|exact F]. intros c [A _]. exact A.
  Qed.
  (** The list which the node profile holds. *)
  Lemma profile_holds rd n cs np rest : truthful rd n cs -> n_objects n = np :: rest -> (length cs <= 84)%nat ->
    exists p, object_find_property np 0xD6 = Some p /\ p_code p = 0xD6 /\ p_data p = instance_list cs.
  Proof.
    intros (Pi & _ & _ & M & F & _) E L. destruct Pi as (_ & np' & rest' & E' & _ & _ & X). rewrite E in E'. injection E' as <- <-.
    destruct (X 0xD6) as (p & A & B & _ & _ & D); [unfold list_code; cbn; tauto|]. exists p. split; [exact A|]. split; [exact B|].
    destruct (last_profile (map object_code (n_objects n))) as (_ & _ & _ & Y & _). rewrite Y, M in D.
    assert (D' : p_data p = as_u8 (N.of_nat (length (0x0EF001 :: cs)) - 1) :: flat_map instance_entry (0x0EF001 :: cs)) by congruence.
    rewrite D'. unfold instance_list. rewrite devices_entries by exact F. f_equal. cbn [length]. unfold as_u8. lia.
  Qed.

  Lemma announce_honest w n ok n' w' tr rd cs : truthful rd n cs -> node_announce w n = (ok, n', w') -> since w w' tr ->
    Forall (fun y => honest cs (snd y)) (offered tr).
  Proof.
    intros (Pi & (G & _) & (S & _) & _) E T. unfold node_announce in E.
    destruct (find_object (n_objects n) NODE_PROFILE_OBJECT_CODE) as [o|] eqn:Ef;
      [|inversion E; subst; rewrite (since_unique _ _ _ _ T (since_refl _)); constructor].
    destruct (object_find_property o NP_INSTANCE_LIST_NOTIFICATION) as [p|] eqn:Ep;
      [|inversion E; subst; rewrite (since_unique _ _ _ _ T (since_refl _)); constructor].
    destruct (node_notify w n (announce_message o p)) as [[[b m1] n1] w1] eqn:En. inversion E; subst.
    apply node_notify_spec in En as (A & t2 & k & B & _ & _ & F & _). rewrite (since_unique _ _ _ _ T B).
    apply find_object_some, addressed_in in Ef. rewrite Forall_forall in G, S. pose proof (G o Ef) as Go. pose proof (short_find _ _ _ (S o Ef) Ep) as L.
    pose proof (obj_good_coded o Go _ _ Ep) as Cp. eapply same_honest; [|exact F]. intros Od m0 Pa _.
    rewrite (parsed_single m1 _ m0 Od eq_refl) by first [exact Pa|rewrite (update_tid_esv _ _ _ _ A); right; reflexivity
      |apply update_tid_spec in A as [(_ & _ & ->)|(_ & _ & ->)]; (split; [cbn; lia|constructor; [exact L|constructor]])].
    apply update_tid_spec in A as [(_ & _ & ->)|(_ & _ & ->)]; (constructor; [|constructor]); intros X; cbn in X; rewrite Cp in X; discriminate X.
  Qed.

  Lemma truthful_shape rd n n' w w' (u u' : U) op cs : op_ok op -> fair_op op -> truthful rd n cs -> (length cs + length (added [op]) <= 84)%nat ->
    node_step (u, n, w) op = Ret (u', n', w') -> truthful rd n' (cs ++ added [op]).
  Proof.
    intros K Fo (Pi & G & Sm & M & F & Nd) L E. destruct (inv_step rd u n w op u' n' w' K (fair_undisturbed _ Fo) G Pi E) as [Pi' M'].
    destruct (step_shapes u n w op u' n' w' K E) as [Sh Hd].
    split; [exact Pi'|]. split; [exact (step_good u n w op u' n' w' K G E)|]. split.
    { destruct (step_since u n w op u' n' w' K E) as [tr T].
      assert (Ln : (length (n_objects n) + length (objects_added [op]) <= 85)%nat).
      { assert (A : length (objects_added [op]) = length (added [op])) by (destruct op; reflexivity). rewrite A. apply (f_equal (@length N)) in M. rewrite map_length in M. cbn in M. lia. }
      assert (Via : modest op -> PropertiesFrames.small n') by (intros Mo; exact (proj1 (step_frames u n w op u' n' w' tr K Mo G Sm Ln E T))).
      destruct op; try (apply Via; cbn in Fo |- *; tauto).
      - apply Via. cbn in Fo |- *. apply hands_off_short, Fo.
      - cbn [node_step] in E. destruct (node_send w n to m) as [[[b m1] n1] w1] eqn:E1. inversion E; subst.
        apply node_send_spec in E1 as (A & _). apply update_tid_keeps in A as (A & C & _). eapply small_same; eauto.
      - cbn [node_step] in E. destruct (node_post w n to m) as [[[b m1] n1] w1] eqn:E1. inversion E; subst.
        apply node_post_spec in E1 as (_ & _ & n2 & ok & t2 & A & -> & _). apply update_tid_keeps in A as (A & C & _). eapply small_same; eauto.
      - cbn [node_step] in E. destruct (node_notify w n m) as [[[b m1] n1] w1] eqn:E1. inversion E; subst.
        apply node_notify_spec in E1 as (A & _). apply update_tid_keeps in A as (A & C & _). eapply small_same; eauto. }
    split; [rewrite M', M; reflexivity|]. split.
    { apply Forall_app. split; [exact F|]. destruct op; cbn [added flat_map app]; try constructor. cbn in K, Fo. split; [apply built_code, K|apply Fo]. constructor. }
    destruct Pi as (_ & np & rest & En & _). rewrite En in Sh, Nd. cbn [app tl] in Sh, Nd. inversion Sh as [|x y l l' S1 S2 E1 E2]; subst. cbn [tl].
    assert (Nd2 : Forall (fun o => object_find_property o 0xD6 = None) (rest ++ objects_added [op])).
    { apply Forall_app. split; [exact Nd|]. destruct op; cbn [objects_added flat_map app]; try constructor; [|constructor]. cbn in Fo. apply Fo. }
    assert (S3 : exists l0, Forall2 same_shape l0 l' /\ Forall (fun o => object_find_property o 0xD6 = None) l0) by (exists (rest ++ objects_added [op]); split; [exact S2|exact Nd2]).
    clear - S3. destruct S3 as (l0 & S2 & Nd2). induction S2 as [|x y l k S1 S2 IH]; [constructor|]. inversion Nd2; subst. constructor; [|auto]. destruct S1 as (_ & _ & _ & S1 & _). apply S1. assumption.
  Qed.

  Lemma recv_honest w (u : U) n m u' n' w' tr rd cs : received m -> truthful rd n cs -> truthful rd n' cs -> (length cs <= 84)%nat -> node_observe w u n m = Ret (u', n', w') -> since w w' tr ->
    Forall (fun y => honest cs (snd y)) (offered tr).
  Proof.
    intros R T0 T' L E T. apply received_rcvd in R. pose proof R as [W Li B]. apply Forall_forall. intros [to data] I. cbn [snd].
    destruct (observe_offered w u n m u' n' w' tr to data R E T I) as (e & ps & ss & gs & t & n2 & Q & H & Eo & -> & Wt & _).
    pose proof T' as (_ & (G' & _) & (Sm' & _) & _ & _ & Nd).
    assert (Sv : service_of (msg_bytes (with_t m t e ps ss gs)) = e) by (apply with_t_service; apply W).
    assert (Fa : response_error_message m = resp m e ps ss gs -> honest cs (msg_bytes (with_t m t e ps ss gs))).
    { intros X. destruct (failure_eq m W Q) as (e1 & E1 & E2). rewrite E2 in X. assert (He : e = e1) by (inversion X; reflexivity). clear X. subst e1.
      apply quiet_honest; rewrite Sv; services Q; rewrite <- Q in E1; inversion E1; discriminate. }
    inversion H as [|o0 Q0 A0 V0 Eu En Er|o0 c0 u0 c1 Q0 A0 V0 C0 D0 Eu En Er|pre o post copy u1 copy' Q0 Eob Ec Fp V C Dd Eu En Er]; subst; auto.
    assert (Io : In (answered o m copy') (n_objects n')) by (rewrite Eo; cbn; apply in_or_app; right; left; reflexivity).
    rewrite Forall_forall in G', Sm'. pose proof (obj_good_coded _ (G' _ Io)) as Cd. pose proof (Sm' _ Io) as Sh. clear H.
    destruct (success_eq o (answered o m copy') m W B Q V (answered_shape o m copy')) as [[_ X]|(e1 & ps1 & ss1 & gs1 & E1 & E2 & _ & K2 & _)]; [congruence|].
    assert (E3 : resp m e ps ss gs = resp m e1 ps1 ss1 gs1) by congruence. inversion E3. subst e1 ps1 ss1 gs1. clear E2 E3.
    assert (Rd : m_esv m = 0x62 \/ m_esv m = 0x63 \/ e <> 0x72 /\ e <> 0x73).
    { services Q; rewrite <- Q in E1 |- *; inversion E1; auto; right; right; split; discriminate. }
    destruct Rd as [Rd|[Rd|[N1 N2]]]; [| |apply quiet_honest; rewrite Sv; assumption];
      (destruct K2 as (K2 & -> & ->); [auto|]; intros Od m0 Pa S0; rewrite (parsed_single _ _ m0 Od eq_refl) by
        first [exact Pa|solve [rewrite Rd in E1; inversion E1; cbn; auto]|cbn [m_props with_t]; exact (read_limit _ _ _ Sh (proj1 (proj1 Li)) K2)]);
      cbn [m_props with_t];
      (rewrite (read_props_held _ _ _ Cd K2); apply Forall_forall; intros q Iq; apply in_map_iff in Iq as (q0 & <- & Iq); unfold ProofsNode.held; cbn [pp_code pp_data]; intros C6;
       apply read_props_spec in K2;
       assert (Ex : exists p, object_find_property (answered o m copy') 0xD6 = Some p) by
         (rewrite <- C6; revert K2 Iq; clear; intros K2; induction K2 as [|x r xs rs (p & Ep & _) F IH]; intros Iq; [destruct Iq|]; destruct Iq as [<-|Iq]; [eauto|apply IH, Iq]);
       destruct Ex as (p & Ep);
       pose proof T' as (Pi' & _); destruct Pi' as (_ & np & rest & En' & _);
       rewrite En' in Io, Nd; destruct Io as [Io|Io]; cbn [tl] in Nd; [|rewrite Forall_forall in Nd; rewrite (Nd _ Io) in Ep; discriminate];
       destruct (profile_holds rd n' cs np rest T' En' L) as (p1 & P1 & _ & P3); rewrite C6; unfold data_of, object_property_data; rewrite <- Io, P1; exact P3).
  Qed.

  Lemma honest_step rd (u : U) n w op u' n' w' tr cs : op_ok op -> fair_op op -> truthful rd n cs -> (length cs + length (added [op]) <= 84)%nat ->
    node_step (u, n, w) op = Ret (u', n', w') -> since w w' tr -> truthful rd n' (cs ++ added [op]) /\ Forall (fun y => honest (cs ++ added [op]) (snd y)) (offered tr).
  Proof.
    intros K Fo T0 L E T. pose proof (truthful_shape rd n n' w w' u u' op cs K Fo T0 L E) as T'. split; [exact T'|].
    assert (Q : w' = w -> Forall (fun y => honest (cs ++ added [op]) (snd y)) (offered tr)).
    { intros ->. rewrite (since_unique _ _ _ _ T (since_refl _)). constructor. }
    destruct op; cbn [node_step] in E; cbn [op_ok] in K; cbn [fair_op] in Fo; cbn [added flat_map app length] in T', L |- *; try rewrite app_nil_r in T'; try rewrite app_nil_r.
    - destruct (node_add_object n o) as [n1|] eqn:E1; cbn [obind] in E; [|discriminate]. inversion E; subst. apply Q; auto.
    - inversion E; subst. rewrite app_nil_r in Q. apply Q; auto.
    - inversion E; subst. rewrite app_nil_r in Q. apply Q; auto.
    - inversion E; subst. rewrite app_nil_r in Q. apply Q; auto.
    - destruct (node_send w n to m) as [[[b m1] n1] w1] eqn:E1. inversion E; subst.
      apply node_send_spec in E1 as (A & t2 & B & _ & _ & F & _). rewrite (since_unique _ _ _ _ T B). eapply same_honest; [|exact F]. exact (sent_honest _ _ _ _ _ A Fo).
    - destruct (node_post w n to m) as [[[b m1] n1] w1] eqn:E1. inversion E; subst.
      apply node_post_spec in E1 as (_ & _ & n2 & ok & t2 & A & -> & B & _ & F & _). rewrite (since_unique _ _ _ _ T B). eapply same_honest; [|exact F]. exact (sent_honest _ _ _ _ _ A Fo).
    - destruct (node_notify w n m) as [[[b m1] n1] w1] eqn:E1. inversion E; subst.
      apply node_notify_spec in E1 as (A & t2 & k & B & _ & _ & F & _). rewrite (since_unique _ _ _ _ T B). eapply same_honest; [|exact F]. exact (sent_honest _ _ _ _ _ A Fo).
    - destruct (node_announce w n) as [[b n1] w1] eqn:E1. inversion E; subst. exact (announce_honest _ _ _ _ _ _ rd cs T0 E1 T).
    - contradiction.
    - destruct (node_start w n) as [[[b n1] w1]|] eqn:E1; cbn [obind] in E; [|discriminate]. inversion E; subst.
      apply node_start_spec in E1 as (ok1 & m1 & w2 & (_ & t1 & S1 & _ & O1) & _ & [(_ & _ & -> & ->)|(_ & m2 & _ & A)]).
      + rewrite (since_unique _ _ _ _ T S1), O1. constructor.
      + pose proof A as A0. apply announce_keeps in A0 as (Ob & Hd & _ & _ & t2 & T2 & _).
        rewrite (since_unique _ _ _ _ T (since_trans _ _ _ _ _ S1 T2)), offered_app, O1. cbn [app].
        exact (announce_honest _ _ _ _ _ _ rd cs (truthful_same _ _ _ _ (eq_sym Ob) (eq_sym Hd) T') A T2).
    - destruct (node_stop n) as [[b n1]|] eqn:E1; cbn [obind] in E; [|discriminate]. inversion E; subst. rewrite app_nil_r in Q. apply Q; auto.
    - destruct (node_observe w u n m) as [[[u1 n1] w1]|] eqn:E1; cbn [obind] in E; [|discriminate]. inversion E; subst.
      apply (recv_honest w u n m u' n' w' tr rd cs); auto. lia.
  Qed.

  (** Histories of a node. *)
  Definition truthfully (ops : list (node_op U)) (cs : list N) (y : datagram) : Prop := exists ops1 ops2, ops = ops1 ++ ops2 /\ honest (cs ++ added ops1) (snd y).
  Lemma honest_run rd ops : forall (u : U) n w u' n' w' cs, Forall op_ok ops -> Forall fair_op ops -> truthful rd n cs -> (length cs + length (added ops) <= 84)%nat ->
    node_run (u, n, w) ops = Ret (u', n', w') -> truthful rd n' (cs ++ added ops) /\ exists l, offered (w_trace w') = offered (w_trace w) ++ l /\ Forall (truthfully ops cs) l.
  Proof.
    induction ops as [|op r IH]; intros u n w u' n' w' cs K Fo T0 L E; cbn [node_run] in E.
    { inversion E; subst. cbn [added flat_map]. rewrite app_nil_r. split; [exact T0|]. exists []. rewrite app_nil_r. split; [reflexivity|constructor]. }
    destruct (node_step (u, n, w) op) as [[[u1 n1] w1]|] eqn:E1; cbn [obind] in E; [|discriminate].
    inversion K as [|? ? K1 K2]; inversion Fo as [|? ? F1 F2]; subst.
    assert (Ea : added (op :: r) = added [op] ++ added r) by (unfold added; cbn [flat_map]; rewrite app_nil_r; reflexivity).
    rewrite Ea, app_length in L. destruct (step_since u n w op u1 n1 w1 K1 E1) as [t1 T1].
    destruct (honest_step rd u n w op u1 n1 w1 t1 cs K1 F1 T0 ltac:(lia) E1 T1) as [T2 H1].
    destruct (IH u1 n1 w1 u' n' w' (cs ++ added [op]) K2 F2 T2) as [T3 (l & El & Fl)]; [rewrite app_length; lia|exact E|].
    rewrite Ea, app_assoc. split; [exact T3|]. exists (offered t1 ++ l). split.
    - rewrite El, (offered_line _ _ _ T1), app_assoc. reflexivity.
    - apply Forall_app. split.
      + eapply Forall_impl; [|exact H1]. intros y Hy. exists [op], r. split; [reflexivity|exact Hy].
      + eapply Forall_impl; [|exact Fl]. intros y (o1 & o2 & -> & Hy). exists (op :: o1), o2. split; [reflexivity|].
        assert (Eb : added (op :: o1) = added [op] ++ added o1) by (unfold added; cbn [flat_map]; rewrite app_nil_r; reflexivity).
        rewrite Eb, app_assoc. exact Hy.
  Qed.
  Lemma truthful_new np n : profile_like np -> short np -> node_new np = Ret n ->
    truthful (fun c => match object_find_property np c with Some p => p_read p | None => Prohibited end) n [].
  Proof.
    intros Pl Sh E. destruct (inv_new np n Pl E) as (Pi & M & G). split; [exact Pi|]. split; [exact G|]. split; [|split; [exact M|split; [constructor|]]].
    - unfold node_new in E. destruct (node_add_object _ np) as [n1|] eqn:E1; cbn [obind] in E; [|discriminate].
      assert (X : PropertiesFrames.small n1) by (eapply add_object_small; [exact Sh| | |exact E1]; [constructor; constructor|cbn; lia]).
      inversion E; subst. destruct X as [A C]. constructor; auto. cbn. apply Forall_app. split; auto. constructor; [exact Logic.I|constructor].
    - destruct (n_objects n) as [|x [|y l]]; [constructor|constructor|discriminate M].
  Qed.
End S.

(* ------------------------------------------------------------------ *)
(** ** Threads *)

Section T.
  Context {U : Type} {P : Profile} {HO : HashOrder} {Os : OS} {Uu : Uuids} (db : list object) (what : observer -> obs) (net : bool).
  Context (n : nat).
  Implicit Types (a : state U).

  Lemma ops_fair (c : call U) : fair c -> Forall fair_op (ops_of c).
  Proof. intros F. destruct c; cbn [ops_of fair] in *; repeat (apply Forall_cons || apply Forall_nil); cbn [fair_op]; try exact Logic.I; try exact F. split; discriminate. Qed.
  Lemma adds1_at (c : call U) f : effect_of c = AtNode n f -> adds1 n c = added (ops_of c).
  Proof. intros E. destruct c; cbn in *; inversion E; subst; try reflexivity; rewrite Nat.eqb_refl; reflexivity. Qed.

  Definition pend (st : status U) : nat := match st with Pending c => length (adds1 n c) | _ => 0 end.
  Definition total (k : nat) (f : nat -> status U) : nat := list_sum (map (fun t => pend (f t)) (seq 0 k)).
  Lemma total_le k (f g : nat -> status U) : (forall t, (pend (g t) <= pend (f t))%nat) -> (total k g <= total k f)%nat.
  Proof. intros H. unfold total, list_sum. induction (seq 0 k) as [|t l IH]; [reflexivity|]. cbn. specialize (H t). lia. Qed.
  Lemma total_put k (f : nat -> status U) t x : (t < k)%nat -> (total k (put f t x) + pend (f t) = total k f + pend x)%nat.
  Proof.
    intros Lt. unfold total, list_sum. assert (I : In t (seq 0 k)) by (apply in_seq; lia). pose proof (seq_NoDup k 0) as Nd. revert I Nd. induction (seq 0 k) as [|t' l IH]; intros I Nd; [destruct I|].
    inversion Nd as [|? ? N1 N2]; subst. cbn. destruct I as [->|I].
    - assert (Es : map (fun t0 => pend (put f t x t0)) l = map (fun t0 => pend (f t0)) l).
      { apply map_ext_in. intros t0 I0. unfold put. destruct (Nat.eqb_spec t0 t) as [->|]; [contradiction|reflexivity]. }
      rewrite Es. unfold put at 1. rewrite Nat.eqb_refl. lia.
    - specialize (IH I N2). unfold put at 1. destruct (Nat.eqb_spec t' t) as [->|]; [contradiction|]. lia.
  Qed.
  Lemma put_le (f : nat -> status U) t x : (pend x <= pend (f t))%nat -> forall t', (pend (put f t x t') <= pend (f t'))%nat.
  Proof. intros H t'. unfold put. destruct (Nat.eqb_spec t' t) as [->|]; [exact H|reflexivity]. Qed.

  Lemma total_dull k (f : nat -> status U) t x : pend x = 0%nat -> (total k (put f t x) <= total k f)%nat.
  Proof. intros E. apply total_le, put_le. rewrite E. lia. Qed.

  Definition waits (k : nat) (t : nat) (st : status U) : Prop := match st with Pending c => (t < k)%nat /\ fair c | _ => True end.
  Lemma waits_put k (f : nat -> status U) t x : (forall t', waits k t' (f t')) -> waits k t x -> forall t', waits k t' (put f t x t').
  Proof. intros A B t'. unfold put. destruct (Nat.eqb_spec t' t) as [->|]; auto. Qed.
  Record accounted (k : nat) (x0 : nstate U) a : Prop := {
    ac_waits : forall t, waits k t (a_status a t);
    ac_run : exists ops, Forall op_ok ops /\ Forall fair_op ops /\ node_run x0 ops = Ret (a_nodes a n) /\
      incl (added ops) (adds n (a_history a)) /\ (length (added ops) + total k (a_status a) <= length (adds n (a_history a)))%nat /\
      forall t, incl (match a_status a t with Pending c => adds1 n c | _ => [] end) (adds n (a_history a)) }.

  Lemma adds_app (h h' : list (event U)) : adds n (h ++ h') = adds n h ++ adds n h'.
  Proof. apply flat_map_app. Qed.
  Lemma accounted_step k x0 a a' : accounted k x0 a -> (forall t, sound_status (a_status a t)) -> of_app k (a_history a') -> all_fair (a_history a') ->
    kind_of_step a a' -> accounted k x0 a'.
  Proof.
    intros [W (ops & K & F & R & In1 & Ln & In2)] So Oa Fa Ks.
    assert (Put : forall t x m, (forall c, x <> Pending c) -> forall t', incl (match put (a_status a) t x t' with Pending c => adds1 n c | _ => [] end) (adds n (a_history a) ++ m)).
    { intros t x m Np t'. unfold put. destruct (Nat.eqb_spec t' t) as [->|]; [|apply incl_appl, In2]. destruct x; try (intros z []). exfalso. eapply Np; reflexivity. }
    assert (Put0 : forall t x, (forall c, x <> Pending c) -> forall t', incl (match put (a_status a) t x t' with Pending c => adds1 n c | _ => [] end) (adds n (a_history a))).
    { intros t x Np t'. pose proof (Put t x [] Np t') as X. rewrite app_nil_r in X. exact X. }
    destruct Ks as [a' En Eh Er Tu|t c T|t c n0 f d v r T Ef X|t n0 ch m T Nm|t c v T|t m T Rc|t m n0 r d T Ob].
    - split; [intros t; specialize (Tu t); specialize (W t); destruct Tu as [st|st st' D|c v r r'|m r|m r r'|c v r _]; try exact Logic.I; [exact W|]; destruct st'; try contradiction; exact Logic.I|].
      exists ops. rewrite En, Eh. split; [exact K|]. split; [exact F|]. split; [exact R|]. split; [exact In1|]. split.
      + assert (X : (total k (a_status a') <= total k (a_status a))%nat); [|lia]. apply total_le. intros t. destruct (Tu t) as [st|st st' D|c v r r'|m r|m r r'|c v r _]; cbn; try lia. destruct st'; try contradiction; cbn; lia.
      + intros t. specialize (In2 t). destruct (Tu t) as [st|st st' D|c v r r'|m r|m r r'|c v r _]; try (exact In2); try (intros z []; fail). destruct st'; try contradiction; intros z [].
    - assert (Lt : (t < k)%nat) by (apply (Oa (ECall t c)); cbn; apply in_or_app; right; left; reflexivity).
      assert (Fc : fair c) by (apply (Fa t c); cbn; apply in_or_app; right; left; reflexivity).
      assert (Ea : adds n (a_history a ++ [ECall t c]) = adds n (a_history a) ++ adds1 n c) by (rewrite adds_app; cbn; rewrite app_nil_r; reflexivity).
      split; cbn [a_status a_seen a_set a_history a_nodes].
      + apply waits_put; [exact W|]. split; assumption.
      + exists ops. rewrite Ea. split; [exact K|]. split; [exact F|]. split; [exact R|]. split; [apply incl_appl, In1|]. split.
        * pose proof (total_put k (a_status a) t (Pending c) Lt) as X. rewrite T in X. cbn [pend] in X. rewrite app_length. lia.
        * intros t'. unfold put. destruct (Nat.eqb_spec t' t) as [->|]; [apply incl_appr, incl_refl|apply incl_appl, In2].
    - pose proof (W t) as Wt. rewrite T in Wt. destruct Wt as [Lt Fc]. pose proof (So t) as Sc. rewrite T in Sc. cbn in Sc.
      split; cbn [a_status a_node a_set a_history a_nodes]; [apply waits_put; [exact W|exact Logic.I]|].
      pose proof (total_put k (a_status a) t (Answered c v r) Lt) as Tp. rewrite T in Tp. cbn [pend] in Tp.
      assert (Ep : put (a_nodes a) n0 d n = if Nat.eqb n n0 then d else a_nodes a n) by reflexivity. rewrite Ep. destruct (Nat.eqb_spec n n0) as [<-|Nn].
      + exists (ops ++ ops_of c). pose proof (adds1_at _ _ Ef) as Ea.
        assert (Eb : added (ops ++ ops_of c) = added ops ++ adds1 n c) by (unfold added; rewrite flat_map_app; rewrite Ea; reflexivity).
        split; [apply Forall_app; split; [exact K|apply ops_ok, Sc]|]. split; [apply Forall_app; split; [exact F|apply ops_fair, Fc]|].
        split; [eapply run_app; [exact R|]; eapply effect_ops; eauto|]. rewrite Eb, app_length. split; [|split; [lia|]].
        * apply incl_app; [exact In1|]. specialize (In2 t). rewrite T in In2. exact In2.
        * apply Put0. discriminate.
      + exists ops. split; [exact K|]. split; [exact F|]. split; [exact R|]. split; [exact In1|]. split; [lia|]. apply Put0. discriminate.
    - split; cbn [a_status a_read a_set a_history a_nodes]; [apply waits_put; [exact W|exact Logic.I]|]. exists ops.
      split; [exact K|]. split; [exact F|]. split; [exact R|]. split; [exact In1|]. split.
      + pose proof (total_dull k (a_status a) t (Answered (CWait n0 ch) (VGot (Some m)) []) eq_refl). lia.
      + apply Put0. discriminate.
    - assert (Ea : adds n (a_history a ++ [EReturn t c v]) = adds n (a_history a)) by (rewrite adds_app; apply app_nil_r).
      split; cbn [a_status a_seen a_set a_history a_nodes]; [apply waits_put; [exact W|exact Logic.I]|]. exists ops. rewrite Ea.
      split; [exact K|]. split; [exact F|]. split; [exact R|]. split; [exact In1|]. split.
      + pose proof (total_dull k (a_status a) t Idle eq_refl). lia.
      + apply Put0. discriminate.
    - assert (Ea : adds n (a_history a ++ [EGot t m]) = adds n (a_history a)) by (rewrite adds_app; apply app_nil_r).
      split; cbn [a_status a_seen a_set a_history a_nodes]; [apply waits_put; [exact W|exact Logic.I]|]. exists ops. rewrite Ea.
      split; [exact K|]. split; [exact F|]. split; [exact R|]. split; [exact In1|]. split.
      + pose proof (total_dull k (a_status a) t (Got m) eq_refl). lia.
      + apply Put0. discriminate.
    - pose proof (So t) as Sc. rewrite T in Sc. cbn in Sc.
      split; cbn [a_status a_node a_set a_history a_nodes]; [apply waits_put; [exact W|exact Logic.I]|].
      pose proof (total_dull k (a_status a) t (Busy m r) eq_refl) as Tp.
      assert (Ep : put (a_nodes a) n0 d n = if Nat.eqb n n0 then d else a_nodes a n) by reflexivity. rewrite Ep. destruct (Nat.eqb_spec n n0) as [<-|Nn].
      + exists (ops ++ [OpRecv m]).
        assert (Eb : added (ops ++ [OpRecv m]) = added ops) by (unfold added; rewrite flat_map_app; apply app_nil_r).
        split; [apply Forall_app; split; [exact K|constructor; [exact Sc|constructor]]|]. split; [apply Forall_app; split; [exact F|constructor; [exact Logic.I|constructor]]|].
        split.
        { eapply run_app; [exact R|]. unfold observed in Ob. destruct (a_nodes a n) as [[u x] w]. cbn. rewrite Ob. cbn. destruct d as [[u' x'] w']. reflexivity. }
        rewrite Eb. split; [exact In1|]. split; [lia|]. apply Put0. discriminate.
      + exists ops. split; [exact K|]. split; [exact F|]. split; [exact R|]. split; [exact In1|]. split; [lia|]. apply Put0. discriminate.
  Qed.
  Lemma accounted_all ns cs k a : asteps db what net (a_begins ns cs k) a -> calls_ok (a_history a) -> of_app k (a_history a) -> all_fair (a_history a) -> accounted k (ns n) a.
  Proof.
    intros A K Oa Fa.
    apply (atomic_ind db what net (fun a => of_app k (a_history a) -> all_fair (a_history a) -> accounted k (ns n) a) ns cs k a); auto.
    - intros _ _. split; [intros t; exact Logic.I|]. exists []. split; [constructor|]. split; [constructor|]. split; [reflexivity|]. split; [intros x []|]. split; [|intros t x []].
      cbn. unfold total. cbn. induction (seq 0 k); [reflexivity|assumption].
    - intros a1 a2 IH So _ Ks O2 F2. destruct (kind_history _ _ Ks) as (l & Eh).
      eapply accounted_step; [apply IH| | | |exact Ks]; auto; rewrite Eh in O2, F2; [intros e I; apply O2, in_or_app; auto|intros t c I; apply (F2 t c), in_or_app; auto].
  Qed.
End T.
