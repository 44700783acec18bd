(** Processes on a network: answers, and two moments of an execution. *)
From Verif Require Import Base HMap ModelCodec ModelMessages ModelObject ModelTransport ModelNode ModelController ModelDevice ModelThreads
  SpecWire SpecObject SpecNode SpecThreads ProofsCodec ProofsCodec2 ProofsObject ProofsNode ProofsNode2 ProofsNode3 PropertiesNode PropertiesDevice
  ProofsThreads ProofsThreads2 PropertiesThreads ProofsThreads6 ProofsClients ProofsLines
  SpecShared ProofsShared ProofsShared2 ProofsShared3 ProofsShared4 SpecMesh ProofsMesh.
From Verif Require ModelLocks.

Section S.
  Context {U : Type} {P : Profile} (HO : nat -> HashOrder) (Os : nat -> OS) (Uu : nat -> Uuids) (db : nat -> list object) (what : nat -> observer -> obs)
    (host : ipaddr -> option nat).
  Notation gsteps := (gsteps (U := U) HO Os Uu db what host). Notation gbegins := (gbegins (U := U) HO Os).
  Implicit Types (G : mesh (U := U)).

  (** An answer to a read request, sent between two moments. *)
  Lemma told ns cs xs G a b n oc to data m0 d00 d p0 : gsteps (gbegins ns cs xs) G ->
    ssteps n oc (fresh oc (ns b n)) d00 -> ssteps n oc d00 d -> history (G b) = past d ++ p0 ->
    In (to, data) (wires d) -> ~ In (to, data) (wires d00) -> octets data -> msg_parse msg_new (firstn MAX_PACKET_SIZE data) = Ret (true, m0) ->
    m_esv m0 = 0x72 -> msg_seoj m0 = oc -> host (fst to) = Some a \/ to = group ->
    (forall t k, In (ECall t k) (history (G b)) -> sends n k <> Some 0x72) -> small n oc (ns b n) (history (G b)) ->
    plain_reads host a oc (msg_tid m0) (history (G b)) ->
    exists d1 p t1 m1 s, ssteps n oc d00 d1 /\ past d = past d1 ++ p /\
      In (EGot t1 m1) (past d1) /\ host (fst (msg_from m1)) = Some a /\ (msg_tid m1 = 0 \/ msg_tid m1 = msg_tid m0) /\
      contents d1 = Some s /\ Forall2 (tells s) (m_props m1) (m_props m0).
  Proof.
    intros St S0 S1 Eh Iy Ni Od Pa Es So To Nc Sm Pl.
    destruct (parsed_header data m0 Od Pa) as (f & rest & _ & _ & _ & Ht & Hs & Hv). rewrite Hs in So. rewrite Hv in Es.
    pose proof (gsteps_steps HO Os Uu db what host _ _ St b) as Sb.
    assert (Nc' : forall t k, In (ECall t k) (past d) -> sends n k <> Some 0x72) by (intros t k I; apply (Nc t k); rewrite Eh; apply in_or_app; auto).
    destruct (read_answer_from n oc (fresh oc (ns b n)) d00 d (to, data) (fun _ => eq_refl) S0 S1 Iy Ni Es So Nc')
      as (d1 & p & t1 & m1 & r & s & S2 & Ep1 & I1 & D1 & E1 & T1 & F1 & Er & Es1 & Ec & F2). cbn [fst snd] in *.
    assert (I1' : In (EGot t1 m1) (history (G b))) by (rewrite Eh, Ep1, <- app_assoc; apply in_or_app; auto).
    destruct (all_genuine HO Os Uu db what host ns cs xs G b t1 m1 St I1') as [Ng Ge].
    assert (Ha : host (fst (msg_from m1)) = Some a) by (rewrite F1; destruct To as [To|To]; [exact To|exfalso; apply Ng; rewrite F1, To; reflexivity]).
    rewrite <- Ht in T1. exists d1, p, t1, m1, s. repeat (split; [assumption|]).
    destruct (Ge a Ha) as (data1 & m10 & _ & Od1 & Pa1 & Em1). destruct (limits_of_parsed data1 m10 Od1 Pa1) as [[Lc _] _].
    replace (m_props m10) with (m_props m1) in Lc by (rewrite Em1; reflexivity).
    assert (Lr : list_in_limit (m_props r)).
    { split; [rewrite <- (Forall2_length' _ _ _ F2); exact Lc|]. pose proof (Pl t1 m1 I1' Ha D1 T1) as Ps.
      assert (V : forall c y, s c = Some y -> (length y <= 255)%nat).
      { intros c y Vc. destruct (value_origin n oc (fresh oc (ns b n)) d1 c y (fun _ => eq_refl) (steps_more n oc _ _ _ S0 S2)) as [X|(e & Ie & X)]; [rewrite Ec; exact Vc|apply (proj1 Sm c y X)|].
        assert (Ie' : In e (history (G b))) by (rewrite Eh, Ep1, <- app_assoc; apply in_or_app; auto).
        destruct e as [te ke|te ke ve|te me]; [exact (proj2 Sm te ke c y Ie' X)|destruct X|]. destruct X as [_ X].
        (* what was received fits *)
        destruct (step_parsed (HO b) (Os b) (Uu b) (db b) (what b) true (ns b) (cs b) (xs b) (G b) te me Sb Ie') as (data2 & m20 & Od2 & Pa2 & Em2). destruct (limits_of_parsed data2 m20 Od2 Pa2) as ((_ & La) & (_ & Lb) & _).
        unfold writes_of in X. assert (Z : In (PProp c y) (m_props me) \/ In (PProp c y) (m_set me)).
        { repeat match goal with H : In _ (if ?q then _ else _) |- _ => destruct q end; auto. destruct X. }
        rewrite Em2 in Z. rewrite Forall_forall in La, Lb. destruct Z as [Z|Z]; [exact (La _ Z)|exact (Lb _ Z)]. }
      clear - F2 Ps V. induction F2 as [|q q' qs qs' [Qc Qd] F2 IH]; [constructor|]. inversion Ps as [|? ? Pq Ps']; subst. constructor; [|apply IH, Ps'].
      destruct Qd as [Qd|Qd]; [contradiction|]. exact (V _ _ Qd). }
    rewrite (parsed_answer r data m0 Od Er Es1 Lr Pa). exact F2.
  Qed.

  Lemma ahistory_grows HO' O' Uu' db' what' (a a' : state U) : asteps (HO := HO') (O := O') (Uu := Uu') db' what' true a a' -> exists l, a_history a' = a_history a ++ l.
  Proof.
    induction 1 as [a|a a1 a2 _ (l & IH) St]; [exists []; rewrite app_nil_r; reflexivity|].
    destruct (kind_history _ _ (step_kind _ _ _ _ _ St)) as (l' & Eh). rewrite Eh, IH, <- app_assoc. eexists. reflexivity.
  Qed.
  (** Two moments of a process, and of its device. *)
  Lemma twice ns cs xs G1 G2 b n oc : (forall i, down (ns i)) -> gsteps (gbegins ns cs xs) G1 -> gsteps G1 G2 ->
    calls_ok (HO := HO b) (history (G2 b)) -> (let '(u, x, w) := ns b n in reachable (HO := HO b) (O := Os b) u x w) -> Forall hands_off (n_handlers (snd (fst (ns b n)))) ->
    tame_calls n (history (G2 b)) -> oc <> 0x0EF001 ->
    exists d1 d2, ssteps n oc (fresh oc (ns b n)) d1 /\ ssteps n oc d1 d2 /\ past d1 = history (G1 b) /\ past d2 = history (G2 b) /\
      incl (line (nodes (G1 b) n)) (wires d1) /\ incl (line (nodes (G2 b) n)) (wires d2).
  Proof.
    intros Dn St1 St2 K R Ho T Np. pose proof (gsteps_steps HO Os Uu db what host _ _ St1 b) as S1. pose proof (gsteps_steps HO Os Uu db what host _ _ St2 b) as S2.
    pose proof (gsteps_steps HO Os Uu db what host _ _ (gsteps_trans HO Os Uu db what host _ _ _ St1 St2) b) as S3.
    pose proof (of_app_all (HO := HO b) (Os := Os b) (Uu := Uu b) (db b) (what b) true (ns b) (cs b) (xs b) (G2 b) (Dn b) S3) as O.
    destruct (lines_twice (HO := HO b) (O := Os b) (Uu := Uu b) (db b) (what b) true (ns b) (cs b) (xs b) (G1 b) (G2 b) (Dn b) S1 S2) as (a1 & a2 & A1 & A2 & R1 & L1 & R2 & L2).
    pose proof (r_hist _ _ _ R1) as H1. pose proof (r_hist _ _ _ R2) as H2. rewrite <- H2 in K, T, O.
    destruct (ahistory_grows _ _ _ _ _ _ _ A2) as (l & El).
    assert (K1 : calls_ok (HO := HO b) (a_history a1)) by (rewrite El in K; exact (calls_ok_app _ _ K)).
    assert (T1 : tame_calls n (a_history a1)) by (rewrite El in T; exact (tame_app _ _ _ T)).
    assert (O1 : of_app (length (xs b)) (a_history a1)) by (rewrite El in O; exact (of_app_prefix _ _ _ O)).
    destruct (joined_all (db b) (what b) true n oc (ns b) (cs b) (length (xs b)) a1 Np R Ho A1 K1 T1 O1) as (d1 & J1).
    destruct (joined_more (db b) (what b) true n oc (ns b) (cs b) (length (xs b)) a1 a2 d1 Np R A1 J1 A2 K T O) as (d2 & J2).
    destruct J1 as (X1 & Y1 & _ & Z1 & _), J2 as (X2 & Y2 & _ & Z2 & _). exists d1, d2. split; [exact X1|]. split; [exact X2|]. split; [congruence|]. split; [congruence|].
    rewrite Z1, Z2. split; [apply L1|apply L2].
  Qed.
End S.
