(** Processes on a network: what is received was sent before. *)
From Verif Require Import Base HMap ModelCodec ModelMessages ModelObject ModelTransport ModelNode ModelController ModelDevice ModelThreads
  SpecWire SpecNode SpecThreads ProofsCodec ProofsCodec2 ProofsObject ProofsNode ProofsNode2 ProofsNode3 PropertiesCodec PropertiesThreads ProofsThreads ProofsLines
  ProofsClients SpecShared ProofsShared ProofsShared2 ProofsShared3 SpecMesh.
From Verif Require ModelLocks.

(* ------------------------------------------------------------------ *)
(** ** Octets *)

Lemma props_of_octets : forall (ps : list wprop) rest (qs : list wprop), length ps = length qs -> Forall wprop_ok ps -> Forall (fun q => (length (snd q) <= 255)%nat) qs ->
  concat (map wire_prop ps) ++ rest = concat (map wire_prop qs) -> ps = qs.
Proof.
  induction ps as [|[c d] ps IH]; intros rest [|[c' d'] qs] L Ok Sh E; try discriminate; [reflexivity|].
  cbn [map concat] in E. unfold wire_prop in E at 1 3. cbn [fst snd app] in E. injection E as -> El E.
  inversion Ok as [|? ? (_ & _ & L1) Ok']; inversion Sh as [|? ? L2 Sh']; subst. cbn [snd] in L1, L2.
  assert (Ld : length d = length d') by lia. rewrite <- !app_assoc in E. apply app_eq_app in E as (l & [[-> E]|[-> E]]); rewrite app_length in Ld.
  - destruct l; [|cbn in Ld; lia]. rewrite app_nil_r. f_equal. apply (IH rest); auto.
  - destruct l; [|cbn in Ld; lia]. rewrite app_nil_r. f_equal. apply (IH rest); auto.
Qed.

Lemma parsed_header data m0 : octets data -> msg_parse msg_new (firstn MAX_PACKET_SIZE data) = Ret (true, m0) ->
  exists f rest, frame_ok f /\ data = wire f ++ rest /\ carries m0 f /\
    msg_tid m0 = tid_of data /\ msg_seoj m0 = source_of data /\ m_esv m0 = service_of data.
Proof.
  intros Od Pa. assert (Of : octets (firstn MAX_PACKET_SIZE data)).
  { apply Forall_forall. intros b Ib. unfold octets in Od. rewrite Forall_forall in Od. apply Od. rewrite <- (firstn_skipn MAX_PACKET_SIZE data). apply in_or_app. auto. }
  destruct (C04_decoded_content _ _ Of Pa) as (f & rest & Fo & E & Ca & _ & _). exists f, (rest ++ skipn MAX_PACKET_SIZE data). split; [exact Fo|].
  assert (Ed : data = wire f ++ rest ++ skipn MAX_PACKET_SIZE data) by (rewrite app_assoc, <- E, firstn_skipn; reflexivity). split; [exact Ed|]. split; [exact Ca|].
  destruct Ca as (C1 & C2 & C3 & C4 & _), Fo as (F1 & F2 & F3 & F4 & _). rewrite C1, C2, C4. rewrite Ed. unfold wire, wire_eoj, tid_of, source_of, service_of.
  cbn [app nth]. repeat split; lia.
Qed.
Lemma limits_of_parsed data m0 : octets data -> msg_parse msg_new (firstn MAX_PACKET_SIZE data) = Ret (true, m0) ->
  list_in_limit (m_props m0) /\ list_in_limit (m_set m0) /\ list_in_limit (m_get m0).
Proof.
  intros Od Pa. destruct (parsed_header data m0 Od Pa) as (f & rest & (_ & _ & _ & _ & Fb) & _ & (_ & _ & _ & _ & Ca) & _).
  assert (K : forall ps, wprops_ok (map to_wprop ps) -> list_in_limit ps).
  { intros ps [Ok L]. rewrite map_length in L. split; [exact L|]. apply Forall_forall. intros q Iq. rewrite Forall_forall in Ok.
    destruct (Ok _ (in_map to_wprop _ _ Iq)) as (_ & _ & X). exact X. }
  assert (Z : list_in_limit []) by (split; [cbn; lia|constructor]).
  destruct (f_body f) as [ps|ss gs]; cbn [wbody_ok] in Fb.
  - destruct Ca as (<- & -> & ->). destruct Fb as [_ Fb]. auto.
  - destruct Ca as (<- & <- & ->). destruct Fb as (_ & Fs & Fg). auto.
Qed.
(** What the receiver reads in an answer or a notification is what the sender put
    into it. *)
Lemma parsed_single r data m0 : octets data -> data = msg_bytes r -> m_esv r = 0x72 \/ m_esv r = 0x73 -> list_in_limit (m_props r) ->
  msg_parse msg_new (firstn MAX_PACKET_SIZE data) = Ret (true, m0) -> m_props m0 = m_props r.
Proof.
  intros Od Er Es Li Pa. destruct (parsed_header data m0 Od Pa) as (f & rest & (_ & _ & _ & _ & Fb) & Ed & (_ & _ & _ & Ce & Ca) & _ & _ & Sv).
  assert (E72 : f_esv f = m_esv r) by (rewrite <- Ce, Sv, Er; apply service_sent).
  destruct (f_body f) as [ps|ss gs] eqn:Eb; cbn [wbody_ok] in Fb; [|exfalso; destruct Fb as [T _]; rewrite E72 in T; destruct T as [T|[T|T]], Es; congruence].
  destruct Ca as (Cp & _ & _). destruct Fb as [_ [Ok L]].
  rewrite Er, msg_bytes_eq in Ed. assert (Nd : is_double (m_esv r) && negb (m_esv r =? 0x5E) = false) by (destruct Es as [-> | ->]; reflexivity).
  destruct (m_ehd r), (m_tid r), (m_seoj r) as [[? ?] ?], (m_deoj r) as [[? ?] ?].
  unfold wire in Ed. rewrite Eb in Ed. cbn [wire_body] in Ed. rewrite Nd in Ed.
  rewrite props_bytes_wire in Ed by exact Li. unfold wire_props, wire_eoj in Ed. cbn [app] in Ed. injection Ed as _ _ _ _ _ _ _ _ _ _ _ Ln Ed.
  assert (X : ps = wps (m_props r)).
  { symmetry in Ed. eapply (props_of_octets ps rest); [|exact Ok| |exact Ed].
    - destruct Li as [Li _]. unfold wps in *. rewrite map_length in *. lia.
    - destruct Li as [_ Li]. unfold wps. apply Forall_forall. intros q Iq. apply in_map_iff in Iq as (q' & <- & Iq). rewrite Forall_forall in Li. exact (Li _ Iq). }
  rewrite <- Cp in X. unfold wps in X. revert X. generalize (m_props r) (m_props m0). clear. intros l k. revert l.
  induction k as [|[a b] k IH]; intros [|[a' b'] l] X; try discriminate; [reflexivity|]. injection X as -> -> X. f_equal. apply IH, X.
Qed.
Lemma parsed_answer r data m0 : octets data -> data = msg_bytes r -> m_esv r = 0x72 -> list_in_limit (m_props r) ->
  msg_parse msg_new (firstn MAX_PACKET_SIZE data) = Ret (true, m0) -> m_props m0 = m_props r.
Proof. intros Od Er Es. apply parsed_single; auto. Qed.

(* ------------------------------------------------------------------ *)
(** ** Executions *)

Section S.
  Context {U : Type} {P : Profile} (HO : nat -> HashOrder) (Os : nat -> OS) (Uu : nat -> Uuids) (db : nat -> list object) (what : nat -> observer -> obs)
    (host : ipaddr -> option nat).
  Notation gstep := (gstep (U := U) HO Os Uu db what host). Notation gsteps := (gsteps (U := U) HO Os Uu db what host).
  Notation gbegins := (gbegins (U := U) HO Os). Notation genuine := (genuine (U := U) host).
  Implicit Types (G : mesh (U := U)).

  Lemma gsteps_steps G G' : gsteps G G' -> forall i, steps (HO := HO i) (O := Os i) (Uu := Uu i) (db i) (what i) true (G i) (G' i).
  Proof.
    induction 1 as [G|G G' G'' _ IH St]; intros i; [constructor|]. destruct St as [j s St _]. unfold replace. destruct (Nat.eqb_spec i j) as [->|]; [|apply IH].
    econstructor; [apply IH|exact St].
  Qed.
  Lemma gsteps_trans G G' G'' : gsteps G G' -> gsteps G' G'' -> gsteps G G''.
  Proof. intros A B. induction B as [|G1 G2 G3 _ IH St]; [exact A|]. exact (gs_step _ _ _ _ _ _ _ _ _ (IH A) St). Qed.
  Definition tidied G : Prop := forall i t, neat (threads (G i) t).
  Lemma tidied_begins ns cs xs : tidied (gbegins ns cs xs).
  Proof. intros i t. apply client_tidy. Qed.
  Lemma tidied_step G G' : tidied G -> gstep G G' -> tidied G'.
  Proof.
    intros N St i. destruct St as [j s St _]. unfold replace. destruct (Nat.eqb_spec i j) as [->|]; [|apply N]. exact (neat_step _ _ _ _ _ (N j) St).
  Qed.
  Lemma tidied_steps G G' : tidied G -> gsteps G G' -> tidied G'.
  Proof. intros N St. induction St as [|G1 G2 G3 _ IH St]; [exact N|]. eapply tidied_step; [apply IH, N|exact St]. Qed.
  Lemma lines_step G G' i n : tidied G -> gstep G G' -> incl (line (nodes (G i) n)) (line (nodes (G' i) n)).
  Proof.
    intros N St. destruct St as [j s St _]. unfold replace. destruct (Nat.eqb_spec i j) as [->|]; [|apply incl_refl].
    destruct (line_step _ _ _ _ _ n (N j) St) as (l & ->). apply incl_appl, incl_refl.
  Qed.
  Lemma lines_steps G G' i n : tidied G -> gsteps G G' -> incl (line (nodes (G i) n)) (line (nodes (G' i) n)).
  Proof.
    intros N St. induction St as [|G1 G2 G3 St1 IH St]; [apply incl_refl|]. eapply incl_tran; [apply IH, N|]. apply lines_step; [|exact St]. exact (tidied_steps _ _ N St1).
  Qed.
  Lemma genuine_later G G' i m : tidied G -> gsteps G G' -> genuine G i m -> genuine G' i m.
  Proof.
    intros N St [Ng Ge]. split; [exact Ng|]. intros j Hj. destruct (Ge j Hj) as (data & m0 & (n & to & I & To) & R). exists data, m0. split; [|exact R].
    exists n, to. split; [|exact To]. exact (lines_steps _ _ _ _ N St _ I).
  Qed.

  Lemma history_step HO' O' Uu' db' what' net (s s' : process U) : step (HO := HO') (O := O') (Uu := Uu') db' what' net s s' -> history s' = history s \/ exists e, history s' = history s ++ [e].
  Proof. intros St. inversion St; subst s'; try (left; reflexivity); right; eexists; reflexivity. Qed.
  Lemma step_parsed HO' O' Uu' db' what' net ns cs xs (s : process U) t m : steps (HO := HO') (O := O') (Uu := Uu') db' what' net (begins ns cs xs) s -> In (EGot t m) (history s) ->
    exists data m0, octets data /\ msg_parse msg_new (firstn MAX_PACKET_SIZE data) = Ret (true, m0) /\ m = msg_set_from m0 (msg_from m).
  Proof.
    intros St. remember (begins ns cs xs) as s0 eqn:E. induction St as [s|s s1 s2 _ IH St]; [subst s; intros []|].
    inversion St; subst s2; try (exact (IH E)); cbn [history logs goes]; intros I; apply in_app_or in I as [I|[I|[]]]; try discriminate I; try (exact (IH E I)).
    injection I as <- <-. eexists; eexists. split; [eassumption|]. split; [eassumption|]. reflexivity.
  Qed.
  (** Whatever was received is genuine. *)
  Lemma all_genuine ns cs xs G i t m : gsteps (gbegins ns cs xs) G -> In (EGot t m) (history (G i)) -> genuine G i m.
  Proof.
    intros St. remember (gbegins ns cs xs) as G0 eqn:E. induction St as [G|G G1 G2 St1 IH St]; [subst G; intros []|].
    assert (N : tidied G1) by (eapply tidied_steps; [|exact St1]; rewrite E; apply tidied_begins).
    assert (S1 : gsteps G1 G2) by (econstructor; [constructor|exact St]).
    intros I. apply (genuine_later G1 G2); [exact N|exact S1|]. destruct St as [j s St Ge]. unfold replace in I. destruct (Nat.eqb_spec i j) as [->|]; [|apply IH; auto].
    destruct (history_step _ _ _ _ _ _ _ _ St) as [Eh|(e & Eh)]; rewrite Eh in I; [apply IH; auto|]. apply in_app_or in I as [I|[->|[]]]; [apply IH; auto|]. apply (Ge t m Eh).
  Qed.
End S.
