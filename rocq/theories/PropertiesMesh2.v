(** Writes across a network of processes (C118). *)
From Verif Require Import Base HMap ModelCodec ModelMessages ModelObject ModelTransport ModelNode ModelController ModelDevice ModelThreads
  SpecWire SpecObject SpecNode SpecThreads ProofsCodec ProofsCodec2 ProofsObject ProofsNode ProofsNode2 ProofsNode3 PropertiesObject PropertiesTrans PropertiesNode PropertiesDevice
  ProofsThreads ProofsThreads2 PropertiesThreads PropertiesThreads4 ProofsThreads6 ExamplesNode ProofsClients ProofsLines SpecWait ProofsThreads5
  SpecShared ProofsShared ProofsShared2 ProofsShared3 ProofsShared4 PropertiesShared SpecMesh ProofsMesh ProofsMesh2 PropertiesMesh.
From Verif Require ModelLocks.

Section S.
  Context {U : Type} {P : Profile} (HO : nat -> HashOrder) (Os : nat -> OS) (Uu : nat -> Uuids) (db : nat -> list object) (what : nat -> observer -> obs)
    (host : ipaddr -> option nat).
  Notation gsteps := (gsteps (U := U) HO Os Uu db what host). Notation gbegins := (gbegins (U := U) HO Os).
  Implicit Types (G : mesh (U := U)).

  Lemma unsent ns cs xs G a b k t m : gsteps (gbegins ns cs xs) G -> In (EGot t m) (history (G b)) -> host (fst (msg_from m)) = Some a ->
    (forall n' y, In y (line (nodes (G a) n')) -> tid_of (snd y) <> 0 /\ tid_of (snd y) <> k) -> msg_tid m = 0 \/ msg_tid m = k -> False.
  Proof.
    intros St I Ha Nk T. destruct (all_genuine HO Os Uu db what host ns cs xs G b t m St I) as [_ Ge]. destruct (Ge a Ha) as (data & m0 & (n' & to & Iy & _) & Od & Pa & Em).
    destruct (parsed_header data m0 Od Pa) as (f & rest & _ & _ & _ & Ht & _). assert (Tm : msg_tid m = tid_of data) by (rewrite Em; exact Ht).
    destruct (Nk n' _ Iy) as [Z1 Z2]. cbn [snd] in Z1, Z2. rewrite Tm in T. destruct T; contradiction.
  Qed.

  (** Process [a] has got the answer to its write request from process [b]: since
      then, and from then on, the device holds what was written. *)
  Lemma written ns cs xs G0 G1 G2 a b n oc c x k t m h : (forall i, down (ns i)) -> gsteps (gbegins ns cs xs) G0 -> gsteps G0 G1 -> gsteps G1 G2 ->
    calls_ok (HO := HO b) (history (G2 b)) -> (let '(u, x, w) := ns b n in reachable (HO := HO b) (O := Os b) u x w) -> Forall hands_off (n_handlers (snd (fst (ns b n)))) ->
    tame_calls n (history (G2 b)) -> oc <> 0x0EF001 -> stored c -> line (ns b n) = [] ->
    (forall n' y, n' <> n -> In y (line (nodes (G1 b) n')) -> source_of (snd y) <> oc) ->
    (forall t k e, In (ECall t k) (history (G1 b)) -> write_answered e -> sends n k <> Some e) ->
    settled n oc c (history (G0 b)) -> history (G2 b) = history (G0 b) ++ h -> Forall (only_writes host a n oc k c x) h ->
    (forall n' y, In y (line (nodes (G0 a) n')) -> tid_of (snd y) <> 0 /\ tid_of (snd y) <> k) ->
    In (EGot t m) (history (G1 a)) -> host (fst (msg_from m)) = Some b -> write_answered (m_esv m) -> msg_seoj m = oc -> msg_tid m = k ->
    exists d1 d2, ssteps n oc (fresh oc (ns b n)) d1 /\ ssteps n oc d1 d2 /\ past d1 = history (G1 b) /\ past d2 = history (G2 b) /\ incl (line (nodes (G2 b) n)) (wires d2) /\
      forall d, ssteps n oc d1 d -> (exists p, past d2 = past d ++ p) -> value (contents d) c = Some x.
  Proof.
    intros Dn St0 St1 St2 K R Ho T Np Sc L0 Ot Nc Se Eh F Nk I Hb Es So Tk.
    pose proof (gsteps_trans HO Os Uu db what host _ _ _ St0 St1) as St01.
    destruct (twice HO Os Uu db what host ns cs xs G1 G2 b n oc Dn St01 St2 K R Ho T Np) as (d1 & d2 & S1 & S2 & P1 & P2 & L1 & L2).
    exists d1, d2. repeat (split; [assumption|]). intros d Sd (p & Ep).
    (* the answer *)
    destruct (all_genuine HO Os Uu db what host ns cs xs G1 a t m St01 I) as [_ Ge]. destruct (Ge b Hb) as (data & m0 & (n' & to & Iy & To) & Od & Pa & Em). clear Ge.
    destruct (parsed_header data m0 Od Pa) as (f & rest & _ & _ & _ & Ht & Hs & Hv).
    assert (Tm : tid_of data = k) by (rewrite <- Ht, <- Tk, Em; reflexivity). assert (Sq : source_of data = oc) by (rewrite <- Hs, <- So, Em; reflexivity).
    assert (Sv : write_answered (service_of data)) by (rewrite <- Hv; rewrite Em in Es; exact Es).
    destruct (Nat.eq_dec n' n) as [->|Ne]; [|destruct (Ot n' _ Ne Iy Sq)]. apply L1 in Iy.
    destruct (write_answer n oc (fresh oc (ns b n)) d1 (to, data) (fun _ => eq_refl) S1 Iy) as (dw & t1 & m1 & W1 & W2 & I1 & D1 & E1 & T1 & F1 & V);
      [unfold fresh; cbn; rewrite L0; intros []|exact Sv|exact Sq|rewrite P1; exact Nc|]. cbn [fst snd] in *. rewrite Tm in T1.
    destruct (past_grows n oc dw d1 W2) as (l & El). destruct (past_grows n oc d1 d Sd) as (l1 & El1).
    assert (I1' : In (EGot t1 m1) (history (G1 b))) by (rewrite <- P1, El; apply in_or_app; auto).
    destruct (all_genuine HO Os Uu db what host ns cs xs G1 b t1 m1 St01 I1') as [Ng _].
    assert (Ha : host (fst (msg_from m1)) = Some a) by (rewrite F1; destruct To as [To|To]; [exact To|exfalso; apply Ng; rewrite F1, To; reflexivity]).
    (* it was received after the beginning *)
    assert (E2 : past dw ++ l ++ l1 ++ p = history (G0 b) ++ h) by (rewrite <- Eh, <- P2, Ep, El1, El, !app_assoc; reflexivity).
    assert (X : exists g, past dw = history (G0 b) ++ g /\ In (EGot t1 m1) h).
    { assert (N0 : ~ In (EGot t1 m1) (history (G0 b))) by (intros J; exact (unsent ns cs xs G0 a b k t1 m1 St0 J Ha Nk T1)).
      apply app_eq_app in E2 as (g & [[E2 E3]|[E2 E3]]).
      - exists g. split; [exact E2|]. rewrite E2 in I1. apply in_app_or in I1 as [J|J]; [contradiction|]. rewrite E3. apply in_or_app. auto.
      - exfalso. apply N0. rewrite E2. apply in_or_app. auto. }
    destruct X as (g & Eg & Ih).
    assert (F' : Forall (rewrites n oc c x) h).
    { eapply Forall_impl; [|exact F]. intros e [O1 _] Ch. destruct (O1 Ch) as (t2 & m2 & -> & _ & Z). exact Z. }
    rewrite Eg, <- app_assoc in E2. apply app_inv_head in E2.
    assert (Lx : last_data c (writes_of m1) = Some x).
    { rewrite Forall_forall in F. destruct (F _ Ih) as [_ O2]. exact (O2 t1 m1 eq_refl (conj Ha (conj D1 T1)) E1). }
    apply (kept n oc (fresh oc (ns b n)) dw d c x (history (G0 b)) (g ++ l ++ l1) (fun _ => eq_refl) W1); [|exact Sc|exact Se|exists g; exact Eg| | |exact (V c x Sc Lx)].
    - eapply steps_more; [exact W2|exact Sd].
    - rewrite El1, El, Eg, !app_assoc. reflexivity.
    - rewrite <- E2, !app_assoc in F'. apply Forall_app in F' as [F' _]. rewrite !app_assoc. exact F'.
  Qed.

  (** ** C118: Writes over the network are read *)

  (** When process [a] has got the answer to its write request, every read of the
      property in the process of the device which begins later gives what was
      written, in whatever thread; unless something else that writes the property
      was under way when [a] made the request, or has begun since. *)
  Theorem C118_local : forall ns cs xs G0 G1 G2 a b n oc c x k t m h t' d' v h1 h2 h3, (forall i, down (ns i)) -> gsteps (gbegins ns cs xs) G0 -> gsteps G0 G1 -> gsteps G1 G2 ->
    calls_ok (HO := HO b) (history (G2 b)) -> (let '(u, x, w) := ns b n in reachable (HO := HO b) (O := Os b) u x w) -> Forall hands_off (n_handlers (snd (fst (ns b n)))) ->
    tame_calls n (history (G2 b)) -> oc <> 0x0EF001 -> stored c -> line (ns b n) = [] ->
    (forall n' y, n' <> n -> In y (line (nodes (G1 b) n')) -> source_of (snd y) <> oc) ->
    (forall t k e, In (ECall t k) (history (G1 b)) -> write_answered e -> sends n k <> Some e) ->
    settled n oc c (history (G0 b)) -> history (G2 b) = history (G0 b) ++ h -> Forall (only_writes host a n oc k c x) h ->
    (forall n' y, In y (line (nodes (G0 a) n')) -> tid_of (snd y) <> 0 /\ tid_of (snd y) <> k) ->
    In (EGot t m) (history (G1 a)) -> host (fst (msg_from m)) = Some b -> write_answered (m_esv m) -> msg_seoj m = oc -> msg_tid m = k ->
    history (G2 b) = history (G1 b) ++ h1 ++ ECall t' (CProperty d' n oc c) :: h2 ++ EReturn t' (CProperty d' n oc c) v :: h3 ->
    v = VData (Some x).
  Proof.
    intros ns cs xs G0 G1 G2 a b n oc c x k t m h t' d' v h1 h2 h3 Dn St0 St1 St2 K R Ho T Np Sc L0 Ot Nc Se Eh F Nk I Hb Es So Tk E.
    destruct (written ns cs xs G0 G1 G2 a b n oc c x k t m h Dn St0 St1 St2 K R Ho T Np Sc L0 Ot Nc Se Eh F Nk I Hb Es So Tk) as (d1 & d2 & S1 & S2 & P1 & P2 & _ & V).
    destruct (read_later n oc d1 d2 S2 t' d' c v Sc) as [_ M]. destruct (M (h1 ++ ECall t' (CProperty d' n oc c) :: h2) h3) as (d & A & B & ->).
    - rewrite P1, P2, E. repeat (rewrite <- ?app_assoc, <- ?app_comm_cons). reflexivity.
    - intros Z. apply Forall_app in Z as [_ Z]. inversion Z as [|? ? Z1 _]; subst. apply Z1. reflexivity.
    - rewrite (V d A (past_grows n oc d d2 B)). reflexivity.
  Qed.

  (** So does every answer to a read request which any process makes later. *)
  Theorem C118_remote : forall ns cs xs G0 G1 G2 a b n oc c x k t m h a' k' t' m', (forall i, down (ns i)) -> gsteps (gbegins ns cs xs) G0 -> gsteps G0 G1 -> gsteps G1 G2 ->
    calls_ok (HO := HO b) (history (G2 b)) -> (let '(u, x, w) := ns b n in reachable (HO := HO b) (O := Os b) u x w) -> Forall hands_off (n_handlers (snd (fst (ns b n)))) ->
    tame_calls n (history (G2 b)) -> oc <> 0x0EF001 -> stored c -> line (ns b n) = [] ->
    (forall n' y, n' <> n -> In y (line (nodes (G2 b) n')) -> source_of (snd y) <> oc) ->
    (forall t k e, In (ECall t k) (history (G2 b)) -> write_answered e \/ e = 0x72 -> sends n k <> Some e) -> small n oc (ns b n) (history (G2 b)) ->
    settled n oc c (history (G0 b)) -> history (G2 b) = history (G0 b) ++ h -> Forall (only_writes host a n oc k c x) h ->
    (forall n' y, In y (line (nodes (G0 a) n')) -> tid_of (snd y) <> 0 /\ tid_of (snd y) <> k) ->
    In (EGot t m) (history (G1 a)) -> host (fst (msg_from m)) = Some b -> write_answered (m_esv m) -> msg_seoj m = oc -> msg_tid m = k ->
    (forall n' y, In y (line (nodes (G1 a') n')) -> tid_of (snd y) <> 0 /\ tid_of (snd y) <> k') -> plain_reads host a' oc k' (history (G2 b)) ->
    In (EGot t' m') (history (G2 a')) -> host (fst (msg_from m')) = Some b -> m_esv m' = 0x72 -> msg_seoj m' = oc -> msg_tid m' = k' ->
    forall q, In q (m_props m') -> pp_code q = c -> pp_data q = x.
  Proof.
    intros ns cs xs G0 G1 G2 a b n oc c x k t m h a' k' t' m' Dn St0 St1 St2 K R Ho T Np Sc L0 Ot Nc Sm Se Eh F Nk I Hb Es So Tk Nk' Pl I' Hb' Es' So' Tk'.
    pose proof (gsteps_trans HO Os Uu db what host _ _ _ St0 St1) as St01. pose proof (gsteps_trans HO Os Uu db what host _ _ _ St01 St2) as St.
    assert (Ty : tidied (gbegins ns cs xs)) by apply tidied_begins.
    assert (Ot1 : forall n' y, n' <> n -> In y (line (nodes (G1 b) n')) -> source_of (snd y) <> oc).
    { intros n' y Ne Iy. apply (Ot n' y Ne). apply (lines_steps HO Os Uu db what host G1 G2 b n'); [exact (tidied_steps HO Os Uu db what host _ _ Ty St01)|exact St2|exact Iy]. }
    destruct (twice HO Os Uu db what host ns cs xs G1 G2 b n oc Dn St01 St2 K R Ho T Np) as (e1 & e2 & _ & E12 & Q1 & Q2 & _).
    destruct (past_grows n oc e1 e2 E12) as (l & El). rewrite Q1, Q2 in El. clear e1 e2 E12 Q1 Q2.
    destruct (written ns cs xs G0 G1 G2 a b n oc c x k t m h Dn St0 St1 St2 K R Ho T Np Sc L0 Ot1) as (d1 & d2 & S1 & S2 & P1 & P2 & L2 & V); try assumption.
    { intros t1 k1 e I1 W. apply (Nc t1 k1 e); [rewrite El; apply in_or_app|]; auto. }
    destruct (all_genuine HO Os Uu db what host ns cs xs G2 a' t' m' St I') as [_ Ge]. destruct (Ge b Hb') as (data & m0 & (n' & to & Iy & To) & Od & Pa & Em). clear Ge.
    destruct (parsed_header data m0 Od Pa) as (f & rest & _ & _ & _ & Ht & Hs & Hv).
    assert (Tm : msg_tid m0 = k') by (rewrite <- Tk', Em; reflexivity). assert (Sq : msg_seoj m0 = oc) by (rewrite <- So', Em; reflexivity).
    assert (Sv : m_esv m0 = 0x72) by (rewrite <- Es', Em; reflexivity). assert (Ep : m_props m' = m_props m0) by (rewrite Em; reflexivity). rewrite Ep.
    destruct (Nat.eq_dec n' n) as [->|Ne]; [|destruct (Ot n' _ Ne Iy); rewrite <- Sq; symmetry; exact Hs]. apply L2 in Iy. rewrite <- Tm in Pl.
    assert (Nc72 : forall t k, In (ECall t k) (history (G2 b)) -> sends n k <> Some 0x72) by (intros t1 k1 I1; apply (Nc t1 k1 _ I1); auto).
    assert (Ny : ~ In (to, data) (wires d1)).
    { intros J. destruct (told HO Os Uu db what host ns cs xs G2 a' b n oc to data m0 (fresh oc (ns b n)) d1 l St (ss_refl n oc _) S1) as (e1 & p & t1 & m1 & s & _ & Ee & Ie & Ha & T1 & _);
        try assumption; [rewrite P1; exact El|unfold fresh; cbn; rewrite L0; intros []|].
      rewrite Tm in T1. refine (unsent ns cs xs G1 a' b k' t1 m1 St01 _ Ha Nk' T1). rewrite <- P1, Ee. apply in_or_app. auto. }
    destruct (told HO Os Uu db what host ns cs xs G2 a' b n oc to data m0 d1 d2 [] St S1 S2) as (dr & p & t1 & m1 & s & Sr & Er & _ & _ & _ & Ec & F2); try assumption;
      [rewrite app_nil_r; symmetry; exact P2|].
    apply (told_fresh s c x _ _ F2 Sc). pose proof (V dr Sr (ex_intro _ p Er)) as W. rewrite Ec in W. exact W.
  Qed.

  (** So for posts: the answer to the write request came to the receiver of a post,
      and so did the answer to a later read request, maybe in another process. *)
  Theorem C118_posted : forall ns cs xs G0 G1 G2 a b n oc c x k h a' k' t n1 ch m t' n2 ch' m', (forall i, down (ns i)) -> gsteps (gbegins ns cs xs) G0 -> gsteps G0 G1 -> gsteps G1 G2 ->
    calls_ok (HO := HO b) (history (G2 b)) -> (let '(u, x, w) := ns b n in reachable (HO := HO b) (O := Os b) u x w) -> Forall hands_off (n_handlers (snd (fst (ns b n)))) ->
    tame_calls n (history (G2 b)) -> oc <> 0x0EF001 -> stored c -> line (ns b n) = [] ->
    (forall n' y, n' <> n -> In y (line (nodes (G2 b) n')) -> source_of (snd y) <> oc) ->
    (forall t k e, In (ECall t k) (history (G2 b)) -> write_answered e \/ e = 0x72 -> sends n k <> Some e) -> small n oc (ns b n) (history (G2 b)) ->
    settled n oc c (history (G0 b)) -> history (G2 b) = history (G0 b) ++ h -> Forall (only_writes host a n oc k c x) h ->
    (forall n' y, In y (line (nodes (G0 a) n')) -> tid_of (snd y) <> 0 /\ tid_of (snd y) <> k) ->
    (forall n' y, In y (line (nodes (G1 a') n')) -> tid_of (snd y) <> 0 /\ tid_of (snd y) <> k') -> plain_reads host a' oc k' (history (G2 b)) ->
    unposted (ns a n1) -> calls_ok (HO := HO a) (history (G1 a)) -> unposted (ns a' n2) -> calls_ok (HO := HO a') (history (G2 a')) ->
    (forall t m, In (EGot t m) (history (G1 a)) -> write_answered (m_esv m) -> msg_seoj m = oc -> msg_tid m = k -> host (fst (msg_from m)) = Some b) ->
    (forall t m, In (EGot t m) (history (G2 a')) -> m_esv m = 0x72 -> msg_seoj m = oc -> msg_tid m = k' -> host (fst (msg_from m)) = Some b) ->
    In (EReturn t (CWait n1 ch) (VGot (Some m))) (history (G1 a)) -> write_answered (m_esv m) -> msg_seoj m = oc -> msg_tid m = k ->
    In (EReturn t' (CWait n2 ch') (VGot (Some m'))) (history (G2 a')) -> m_esv m' = 0x72 -> msg_seoj m' = oc -> msg_tid m' = k' ->
    forall q, In q (m_props m') -> pp_code q = c -> pp_data q = x.
  Proof.
    intros ns cs xs G0 G1 G2 a b n oc c x k h a' k' t n1 ch m t' n2 ch' m' Dn St0 St1 St2 K R Ho T Np Sc L0 Ot Nc Sm Se Eh F Nk Nk' Pl Up Ka Up' Ka' On On' I Es So Tk I' Es' So' Tk'.
    pose proof (gsteps_trans HO Os Uu db what host _ _ _ St0 St1) as St01. pose proof (gsteps_trans HO Os Uu db what host _ _ _ St01 St2) as St.
    pose proof (gsteps_steps HO Os Uu db what host _ _ St01 a) as Sa. pose proof (gsteps_steps HO Os Uu db what host _ _ St a') as Sa'.
    destruct (in_split _ _ I) as (g1 & g2 & Eg). destruct (in_split _ _ I') as (g1' & g2' & Eg').
    destruct (C113_received (HO := HO a) (Os := Os a) (Uu := Uu a) (db a) (what a) true (ns a) (cs a) (xs a) (G1 a) n1 g1 t ch m g2 (Dn a) Up Sa Ka Eg) as (_ & t2 & m2 & I2 & Ct & Cs & _ & Ce & _).
    destruct (C113_received (HO := HO a') (Os := Os a') (Uu := Uu a') (db a') (what a') true (ns a') (cs a') (xs a') (G2 a') n2 g1' t' ch' m' g2' (Dn a') Up' Sa' Ka' Eg') as (_ & t3 & m3 & I3 & Ct' & Cs' & _ & Ce' & _ & Cp).
    assert (I2' : In (EGot t2 m2) (history (G1 a))) by (rewrite Eg; apply in_or_app; auto). rewrite Ce in Es. rewrite Cs in So. rewrite Ct in Tk.
    assert (I3' : In (EGot t3 m3) (history (G2 a'))) by (rewrite Eg'; apply in_or_app; auto). rewrite Ce' in Es'. rewrite Cs' in So'. rewrite Ct' in Tk'.
    assert (Ep : m_props m' = m_props m3) by (apply Cp; rewrite Ce', Es'; intros [Z|[Z|Z]]; discriminate). rewrite Ep.
    exact (C118_remote ns cs xs G0 G1 G2 a b n oc c x k t2 m2 h a' k' t3 m3 Dn St0 St1 St2 K R Ho T Np Sc L0 Ot Nc Sm Se Eh F Nk I2' (On _ _ I2' Es So Tk) Es So Tk Nk' Pl I3' (On' _ _ I3' Es' So' Tk') Es' So' Tk').
  Qed.
End S.

(* ------------------------------------------------------------------ *)
(** ** Cases *)

(** Process 1 is the lamp; process 0 writes to it, waits for the answer, and asks. *)
Definition m_put : message := msg_add_property (msg_set_esv (msg_set_deoj msg_new 0x029101) EWriteRequestResponseRequired) (PProp 0x80 [0x31]).
Definition x_then (m : message) (k : client unit) : client unit :=
  Call (CPost 0 at_lamp m) (fun v => match v with VPosted ch _ => Call (CWait 0 ch) (fun _ => k) | _ => Finished end).
Definition x_writer : client unit := Call (CStart None 0) (fun _ => x_then m_put (x_then m_ask Finished)).
Definition x_starts : client unit := Call (CStart (Some 0%nat) 0) (fun _ => Finished).
Definition w_xs (i : nat) : list (client unit) := match i with O => [x_writer] | _ => [x_starts; x_reads] end.
Definition w_begins : mesh (U := unit) := gbegins (P := true) (fun _ => ex_order) (fun _ => ex_os) (fun _ => ex_ns) (fun _ => ex_cs) w_xs.
Definition plan_w0 := mgos 1 [(0, 39); (3, 1)]%nat ++ mgos 0 [(0, 37); (2, 1)]%nat.
Definition plan_w1 := mgos 0 [(0, 9)]%nat ++ [MGet 1 3 0 0 1 peer] ++ mgos 1 [(3, 22)]%nat ++ [MGet 0 2 1 0 1 at_lamp] ++ mgos 0 [(2, 7); (0, 3)]%nat.
Definition plan_w2 := mgos 0 [(2, 6)]%nat ++ mgos 1 [(3, 2); (1, 8)]%nat ++ mgos 0 [(0, 9)]%nat ++ [MGet 1 3 0 0 2 peer] ++ mgos 1 [(3, 22)]%nat ++ [MGet 0 2 1 0 2 at_lamp] ++ mgos 0 [(2, 7); (0, 3)]%nat.
Lemma w_played (Q : mesh (U := unit) -> mesh (U := unit) -> mesh (U := unit) -> Prop) b l0 l1 l2 :
  match m_play b l0 with Some G0 => match m_play G0 l1 with Some G1 => match m_play G1 l2 with Some G2 => Q G0 G1 G2 | None => False end | None => False end | None => False end ->
  exists G0 G1 G2, m_steps b G0 /\ m_steps G0 G1 /\ m_steps G1 G2 /\ Q G0 G1 G2.
Proof.
  destruct (m_play b l0) as [G0|] eqn:E0; [|intros []]. destruct (m_play G0 l1) as [G1|] eqn:E1; [|intros []]. destruct (m_play G1 l2) as [G2|] eqn:E2; [|intros []]. intros H.
  exists G0, G1, G2. split; [eapply mplay_sound, E0|]. split; [eapply mplay_sound, E1|]. split; [eapply mplay_sound, E2|exact H].
Qed.
Definition w_request : message := Eval vm_compute in rcv_from [0x10; 0x81; 0; 2; 0; 0; 0; 0x02; 0x91; 0x01; 0x61; 1; 0x80; 1; 0x31] peer.
Definition w_done : message := Eval vm_compute in rcv_from [0x10; 0x81; 0; 2; 0x02; 0x91; 0x01; 0; 0; 0; 0x71; 1; 0x80; 0] at_lamp.
Definition w_question : message := Eval vm_compute in rcv_from [0x10; 0x81; 0; 3; 0; 0; 0; 0x02; 0x91; 0x01; 0x62; 1; 0x80; 0] peer.
Definition w_answer : message := Eval vm_compute in rcv_from [0x10; 0x81; 0; 3; 0x02; 0x91; 0x01; 0; 0; 0; 0x72; 1; 0x80; 1; 0x31] at_lamp.
Definition w_sent : datagram := (at_lamp, [0x10; 0x81; 0; 2; 0; 0; 0; 0x02; 0x91; 0x01; 0x61; 1; 0x80; 1; 0x31]).
Definition w_seen : list (event unit) :=
  [EGot 3 w_request; ECall 1 c_read; EReturn 1 c_read (VData (Some [0x31])); EGot 3 w_question].
(** Process 0 writes with the TID 2 and gets the answer; then a thread of the lamp
    reads, and process 0 asks with the TID 3 and gets the answer. *)
Example C118_case : exists G0 G1 G2, m_steps w_begins G0 /\ m_steps G0 G1 /\ m_steps G1 G2 /\
  history (G0 1%nat) = before_set /\ history (G1 1%nat) = before_set ++ [EGot 3 w_request] /\ history (G2 1%nat) = before_set ++ w_seen /\
  In (EGot 2 w_done) (history (G1 0%nat)) /\ In (EGot 2 w_answer) (history (G2 0%nat)) /\
  m_got (history (G2 0%nat)) = [(2%nat, [PProp 0x80 []]); (0%nat, [PProp 0x80 []]); (2%nat, [PProp 0x80 [0x31]]); (0%nat, [PProp 0x80 [0x31]])] /\
  (line (nodes (G0 0%nat) 0) = [m_announce] /\ forall n, line (nodes (G0 0%nat) (S n)) = []) /\
  (line (nodes (G1 0%nat) 0) = [m_announce; w_sent] /\ forall n, line (nodes (G1 0%nat) (S n)) = []) /\ (forall n, line (nodes (G2 1%nat) (S n)) = []).
Proof.
  apply (w_played (fun G0 G1 G2 => _) w_begins plan_w0 plan_w1 plan_w2). vm_compute. repeat split.
  - do 4 right. left. reflexivity.
  - do 9 right. left. reflexivity.
Qed.
(** All premises of the theorems are fulfilled. *)
Example C118_case_premises : let h := before_set ++ w_seen in down ex_ns /\ unposted (ex_ns 0) /\ calls_ok (P := true) (HO := ex_order) h /\
  (let '(u, x, w) := ex_ns 0 in reachable (P := true) (HO := ex_order) (O := ex_os) u x w) /\
  Forall hands_off (n_handlers (snd (fst (ex_ns 0)))) /\ tame_calls 0 h /\ stored 0x80 /\ line (ex_ns 0) = [] /\
  (forall t k e, In (ECall t k) h -> write_answered e \/ e = 0x72 -> sends 0 k <> Some e) /\ small 0 0x029101 (ex_ns 0) h /\
  settled 0 0x029101 0x80 before_set /\ Forall (only_writes m_host 0 0 0x029101 2 0x80 [0x31]) w_seen /\
  plain_reads m_host 0 0x029101 3 h /\
  tid_of (snd m_announce) = 1 /\ tid_of (snd w_sent) = 2 /\ write_answered (m_esv w_done) /\ msg_seoj w_done = 0x029101 /\ msg_tid w_done = 2 /\ m_host (fst (msg_from w_done)) = Some 1%nat /\
  m_esv w_answer = 0x72 /\ msg_seoj w_answer = 0x029101 /\ msg_tid w_answer = 3 /\ m_host (fst (msg_from w_answer)) = Some 1%nat.
Proof.
  cbv zeta. pose proof C117_case_premises as (Dn & Up & _ & Re & Ho & _ & Sc & L0 & _ & Sm & Se & _). split; [exact Dn|]. split; [exact Up|]. split.
  { intros t c I. repeat (destruct I as [I|I]; [inversion I; subst; cbn; try exact Logic.I; repeat constructor; fail|]). destruct I. }
  split; [exact Re|]. split; [exact Ho|].
  split; [intros t c I; repeat (destruct I as [I|I]; [inversion I; subst; exact Logic.I|]); destruct I|]. split; [exact Sc|]. split; [exact L0|].
  split; [intros t k e I; repeat (destruct I as [I|I]; [inversion I; subst; intros [[->| ->]| ->]; discriminate|]); destruct I|]. split.
  { split; [exact (proj1 Sm)|]. intros t k c y I. repeat (destruct I as [I|I]; [inversion I; subst; cbn; try (intros []; fail)|]); [|destruct I].
    intros (_ & [[_ ->]|[_ ->]]); cbn; lia. }
  split; [exact Se|]. split.
  { repeat apply Forall_cons; try apply Forall_nil; split.
    - intros _. exists 3%nat, w_request. split; [reflexivity|]. split; [|reflexivity]. split; [reflexivity|]. split; [reflexivity|right; reflexivity].
    - intros t m E _ _. injection E as <- <-. reflexivity.
    - intros [].
    - intros t m E. discriminate.
    - intros [].
    - intros t m E. discriminate.
    - intros [_ []].
    - intros t m E. injection E as <- <-. intros _ [Z|Z]; discriminate. }
  split; [intros t m I; repeat (destruct I as [I|I]; [inversion I; subst; cbn; intros; repeat constructor; exact Sc|]); destruct I|].
  split; [reflexivity|]. split; [reflexivity|]. split; [left; reflexivity|]. repeat (split; [reflexivity|]). reflexivity.
Qed.

(** The premise about other writes is needed, for the network too: the lamp is
    written by its own thread after the answer, with success; then the network
    repeats the request of process 0, and the lamp carries it out again. *)
Definition c_unset : call unit := CSetProperty 0 0 0x029101 0x80 [0x30].
Definition x_resets : client unit := Call (CStart (Some 0%nat) 0) (fun _ => Call c_unset (fun _ => Finished)).
Definition d_xs (i : nat) : list (client unit) := match i with O => [x_writer] | _ => [x_resets; x_reads] end.
Definition d_begins : mesh (U := unit) := gbegins (P := true) (fun _ => ex_order) (fun _ => ex_os) (fun _ => ex_ns) (fun _ => ex_cs) d_xs.
Definition plan_d2 := mgos 1 [(3, 2); (0, 9)]%nat ++ [MGet 1 3 0 0 1 peer] ++ mgos 1 [(3, 22); (1, 8)]%nat.
Example C118_case_repeated : exists G0 G1 G2, m_steps d_begins G0 /\ m_steps G0 G1 /\ m_steps G1 G2 /\
  In (EGot 2 w_done) (history (G1 0%nat)) /\ length (line (nodes (G2 0%nat) 0)) = 2%nat /\
  history (G2 1%nat) = before_set ++ EGot 3 w_request :: ECall 0 c_unset :: EReturn 0 c_unset (VBool true) :: EGot 3 w_request ::
    ECall 1 c_read :: [EReturn 1 c_read (VData (Some [0x31]))].
Proof.
  apply (w_played (fun G0 G1 G2 => _) d_begins plan_w0 plan_w1 plan_d2). vm_compute. repeat split. do 4 right. left. reflexivity.
Qed.
Print Assumptions C118_local.
Print Assumptions C118_remote.
Print Assumptions C118_posted.
