(** A controller which knows a device of another process knows all that were there before the start (C120). *)
From Verif Require Import Base HMap ModelCodec ModelMessages DbTable ModelObject ModelTransport ModelNode ModelController ModelDevice ModelThreads
  SpecWire SpecObject SpecNode SpecThreads ProofsCodec ProofsCodec2 ProofsObject ProofsNode ProofsNode2 ProofsNode3 ProofsNode4 PropertiesCodec PropertiesObject PropertiesDb PropertiesNode PropertiesTrans
  PropertiesProfile PropertiesFrames ProofsController SpecFound PropertiesFound ProofsThreads ProofsThreads2 PropertiesThreads ProofsThreads6 ProofsLines
  ProofsClients SpecShared ProofsShared SpecMesh ProofsMesh PropertiesMesh PropertiesController ExamplesNode PropertiesThreads4 PropertiesFound SpecListed ProofsListed ProofsListed2 PropertiesTransport PropertiesListed.
From Verif Require ModelLocks.


Section S.
  Context {U : Type} {P : Profile} (HO : nat -> HashOrder) (Os : nat -> OS) (Uu : nat -> Uuids) (db : nat -> list object) (what : nat -> observer -> obs)
    (host : ipaddr -> option nat).
  Notation gsteps := (gsteps (U := U) HO Os Uu db what host). Notation gbegins := (gbegins (U := U) HO Os).
  Implicit Types (G : mesh (U := U)).

  Lemma all_sent ns cs xs G b n : down (ns b) -> gsteps (gbegins ns cs xs) G -> calls_ok (HO := HO b) (history (G b)) -> all_fair (history (G b)) ->
    unused (HO := HO b) (ns b n) -> (length (adds n (history (G b))) <= 84)%nat ->
    forall y, In y (line (nodes (G b) n)) -> exists l, incl l (adds n (history (G b))) /\ incl (early n (history (G b))) l /\ Forall (fun c => c < 16777216) l /\ honest l (snd y).
  Proof.
    intros Dn St K Fa (L0 & np & n0 & Pl & Sh & Nn & Eo & Eh) Le y I. pose proof (gsteps_steps HO Os Uu db what host _ _ St b) as Sb.
    destruct (lines (HO := HO b) (O := Os b) (Uu := Uu b) (db b) (what b) true (ns b) (cs b) (xs b) (G b) Dn Sb) as (a & A & R & Li).
    pose proof (of_app_all (HO := HO b) (Os := Os b) (Uu := Uu b) (db b) (what b) true (ns b) (cs b) (xs b) (G b) Dn Sb) as Oa.
    pose proof (r_hist _ _ _ R) as Hh. rewrite <- Hh in K, Fa, Oa, Le |- *.
    destruct (kept_all (HO := HO b) (Os := Os b) (Uu := Uu b) (db b) (what b) true n (ns b) (cs b) _ a A K Oa Fa) as [_ _ (pre & post & Ko & Fo & Rn & In1 & Ln & _ & Np & Ea & _)].
    apply Li in I. specialize (Dn n). destruct (ns b n) as [[u x] w] eqn:Ens. cbn [fst snd] in Eo, Eh, Dn. unfold line in I, L0. cbn [snd] in L0.
    destruct (a_nodes a n) as [[u' x'] w']. cbn [snd] in I.
    pose proof (truthful_same _ _ _ _ Eo Eh (truthful_new (HO := HO b) np n0 Pl Sh Nn)) as T0.
    assert (Eadd : added (pre ++ post) = added pre ++ added post) by apply flat_map_app.
    apply run_split in Rn as ([[u1 x1] w1] & R1 & R2). apply Forall_app in Ko as [K1 K2]. apply Forall_app in Fo as [F1 F2].
    rewrite Eadd, app_length in Ln. rewrite Eadd in In1.
    destruct (honest_run (HO := HO b) (Os := Os b) _ pre u x w u1 x1 w1 [] K1 F1 T0 ltac:(cbn; lia) R1) as [T1 _]. cbn [app] in T1.
    assert (O1 : offered (w_trace w1) = []).
    { rewrite (idle_run (HO := HO b) (Os := Os b) pre u x w u1 x1 w1 K1 F1 Np); [exact L0| |exact R1]. rewrite Dn. split; reflexivity. }
    destruct (honest_run (HO := HO b) (Os := Os b) _ post u1 x1 w1 u' x' w' (added pre) K2 F2 T1 ltac:(lia) R2) as [(_ & _ & _ & _ & Bd & _) (l & El & Fl)].
    rewrite El, O1 in I. rewrite Forall_forall in Fl. destruct (Fl y I) as (o1 & o2 & -> & H). exists (added pre ++ added o1).
    assert (Eb : added (o1 ++ o2) = added o1 ++ added o2) by apply flat_map_app. rewrite Eb in *.
    assert (Ii : incl (added pre ++ added o1) (added pre ++ added o1 ++ added o2)) by (rewrite app_assoc; apply incl_appl, incl_refl).
    split; [intros c Ic; apply In1, Ii, Ic|]. split; [apply incl_appl, Ea|]. split; [|exact H].
    rewrite app_assoc in Bd. apply Forall_app in Bd as [Bd _]. eapply Forall_impl; [|exact Bd]. intros c [X _]. exact X.
  Qed.

  Lemma listed_all q l codes c : listed q codes -> Forall (fun c => c < 16777216) l -> (pp_code q = 0xD6 -> pp_data q = instance_list l) -> In c codes -> codes = l.
  Proof.
    intros L F E I. destruct (N.eq_dec (pp_code q) 0xD6) as [X|X].
    - assert (Eq : q = PProp 0xD6 (instance_list l)) by (specialize (E X); destruct q; cbn in X, E; subst; reflexivity).
      rewrite Eq in L. assert (L' : listed (PProp 0xD6 (instance_list l)) l).
      { unfold instance_list. rewrite <- (app_nil_r (flat_map wire_eoj l)). apply L_codes; [|cbn; lia|exact F].
        pose proof (instance_list_length l) as Z. unfold instance_list in Z. cbn [length] in Z. rewrite app_nil_r. lia. }
      exact (listed_unique _ _ _ L L').
    - assert (L' : listed q []) by (apply L_other, X). rewrite (listed_unique _ _ _ L L') in I. destruct I.
  Qed.

  (** ** C120: A controller lists all devices that were there before the start *)

  (** When a controller of process [a] returns a device at an address of process [b],
      it returns all devices which the application of [b] had added to the same node
      before it called start. *)
  Theorem C120_complete : forall seed ns cs xs G a b h1 t c l h2 r, standard_database (HO := HO a) seed = Ret (db a) -> (forall k, uuid_ok (new_uuid (Uuids := Uu a) k)) ->
    down (ns a) -> (forall c, fst (cs a c) = []) -> gsteps (gbegins ns cs xs) G ->
    history (G a) = h1 ++ EReturn t (CNodes c) (VNodes l) :: h2 -> In r l -> host (fst (rn_addr r)) = Some b ->
    down (ns b) -> (forall n, unused (HO := HO b) (ns b n)) -> calls_ok (HO := HO b) (history (G b)) -> all_fair (history (G b)) ->
    (forall n, (length (adds n (history (G b))) <= 84)%nat) ->
    (exists o, In o (rn_objects r) /\ object_code o <> 0x0EF001) ->
    exists n, Forall (fun o => object_code o = 0x0EF001 \/ In (object_code o) (adds n (history (G b)))) (rn_objects r) /\
      incl (early n (history (G b))) (map object_code (rn_objects r)).
  Proof.
    intros seed ns cs xs G a b h1 t c l h2 r Db Uo Da Em St Eh Ir Hb Dn Un K Fa Le (ob & Iob & Nob). pose proof (gsteps_steps HO Os Uu db what host _ _ St a) as Sa.
    destruct (C114_found (HO := HO a) (Os := Os a) (Uu := Uu a) seed (db a) Db Uo (what a) true (ns a) (cs a) (xs a) (G a) h1 t c l h2 Da Em Sa Eh) as [Fo _].
    rewrite Forall_forall in Fo. destruct (Fo r Ir) as (t1 & m & Im & [Sv _] & (codes & Lc & Ra & Ob)).
    assert (Im' : In (EGot t1 m) (history (G a))) by (rewrite Eh; apply in_or_app; auto).
    destruct (all_genuine HO Os Uu db what host ns cs xs G a t1 m St Im') as [_ Ge]. rewrite Ra in Hb.
    destruct (Ge b Hb) as (data & m0 & (n & to & Iy & _) & Od & Pa & Emm). exists n.
    destruct (all_sent ns cs xs G b n Dn St K Fa (Un n) (Le n) _ Iy) as (l0 & In0 & Ea & Bd & Ho). cbn [snd] in Ho.
    assert (Sv0 : m_esv m0 = 0x72 \/ m_esv m0 = 0x73) by (rewrite Emm in Sv; exact Sv). specialize (Ho Od m0 Pa Sv0).
    assert (Ep : m_props m = m_props m0) by (rewrite Emm; reflexivity). rewrite Ep in Lc.
    assert (Ic : incl (concat codes) l0).
    { clear - Lc Ho Bd. induction Lc as [|q cs qs css L1 L2 IH]; [intros x []|]. inversion Ho; subst. cbn [concat]. apply incl_app; [eapply listed_codes; eauto|auto]. }
    assert (Mo : map object_code (rn_objects r) = concat codes ++ [0x0EF001]).
    { clear - Ob. induction Ob as [|x o xs os [<- _] F IH]; [reflexivity|]. cbn [map]. rewrite IH. reflexivity. }
    split.
    - assert (Each : Forall (fun c => c = 0x0EF001 \/ In c (adds n (history (G b)))) (concat codes ++ [0x0EF001])).
      { apply Forall_app. split; [|constructor; [left; reflexivity|constructor]]. apply Forall_forall. intros x Ix. right. apply In0, Ic, Ix. }
      rewrite <- Mo in Each. apply Forall_map in Each. exact Each.
    - intros x Ix. rewrite Mo. apply in_or_app. left. apply Ea in Ix.
      assert (Io : In (object_code ob) (concat codes)).
      { apply (in_map object_code) in Iob. rewrite Mo in Iob. apply in_app_or in Iob as [Iob|[Iob|[]]]; [exact Iob|congruence]. }
      clear - Lc Ho Bd Io Ix. induction Lc as [|q cs qs css L1 L2 IH]; [destruct Io|]. inversion Ho; subst. cbn [concat] in *. apply in_or_app. apply in_app_or in Io as [Io|Io]; [left|right; auto].
      rewrite (listed_all q l0 cs _ L1 Bd H1 Io). exact Ix.
  Qed.
End S.

(* ------------------------------------------------------------------ *)
(** ** Cases *)

(** In the case of C119 the lamp was there before the start. *)
Example C120_case : exists G, v_steps (v_begins x_finds (x_offers lamp Finished)) G /\ calls (history (G 1%nat)) = lamp_calls /\
  shows (history (G 0%nat)) at_lamp 0x029101 = true /\ early 0 (history (G 1%nat)) = [0x029101].
Proof. apply (v_played (fun G => _) _ plan_lamp). vm_compute. repeat split. Qed.

(** The premise that there is a device is needed: the announcement of the start
    carries the list as property 0xD5, in which the controller does not look. When it
    arrives the controller returns the node without the lamp. *)
Definition x_watches : client unit := Call (CStart (Some 0%nat) 0) (fun _ => Call (CNodes 0) (fun _ => Finished)).
Definition plan_watch : list mmove :=
  mgos 0 [(0, 39); (1, 1); (2, 1)]%nat ++ mgos 1 [(0, 9); (0, 39)]%nat ++ [MGet 0 2 1 0 0 at_lamp] ++ mgos 0 [(2, 18); (0, 6)]%nat.
Example C120_case_announced : exists G, v_steps (v_begins x_watches (x_offers lamp Finished)) G /\ calls (history (G 1%nat)) = lamp_calls /\
  map glimpse (history (G 0%nat)) = [(0%nat, None); (0%nat, None); (2%nat, Some [(at_lamp, [])]); (0%nat, None); (0%nat, Some [(at_lamp, [0x0EF001])])] /\
  shows (history (G 0%nat)) at_lamp 0x0EF001 = true /\ shows (history (G 0%nat)) at_lamp 0x029101 = false /\ early 0 (history (G 1%nat)) = [0x029101].
Proof. apply (v_played (fun G => _) _ plan_watch). vm_compute. repeat split. Qed.
Lemma last_glimpse (h : list (event unit)) a code : last (map glimpse h) (0%nat, None) = (0%nat, Some [(a, [code])]) -> shows h a code = true ->
  exists h1 l r, h = h1 ++ EReturn 0%nat (CNodes 0) (VNodes l) :: [] /\ In r l /\ rn_addr r = a /\ map object_code (rn_objects r) = [code].
Proof.
  intros Eg Sh. destruct (shows_spec _ _ _ Sh) as (h1 & l & r & o & Eh & Ir & Ea & _ & _). exists h1, l, r. split; [exact Eh|]. split; [exact Ir|]. split; [exact Ea|].
  rewrite Eh, map_app in Eg. cbn [map] in Eg. rewrite last_last in Eg. cbn [glimpse] in Eg.
  assert (Em : map (fun r => (rn_addr r, map object_code (rn_objects r))) l = [(a, [code])]) by congruence.
  apply (in_map (fun r => (rn_addr r, map object_code (rn_objects r)))) in Ir. rewrite Em in Ir. destruct Ir as [Ir|[]]. congruence.
Qed.
Theorem C120_announced_refuted : exists x0 x1 G h1 l r, v_steps (v_begins x0 x1) G /\
  standard_database (P := true) (HO := ex_order) (fun k => k) = Ret ex_db /\ (forall k, uuid_ok (new_uuid (Uuids := tc_uuids) k)) /\
  down tc_ns /\ (forall c, fst (ex_cs c) = []) /\ (forall n, unused (P := true) (HO := ex_order) (tc_ns n)) /\
  history (G 0%nat) = h1 ++ EReturn 0%nat (CNodes 0) (VNodes l) :: [] /\ In r l /\ m_host (fst (rn_addr r)) = Some 1%nat /\
  calls_ok (P := true) (HO := ex_order) (history (G 1%nat)) /\ all_fair (history (G 1%nat)) /\ (forall n, (length (adds n (history (G 1%nat))) <= 84)%nat) /\
  (forall n, adds n (history (G 1%nat)) <> [] -> early n (history (G 1%nat)) = [0x029101]) /\ map object_code (rn_objects r) = [0x0EF001].
Proof.
  destruct C120_case_announced as (G & St & Ec & Eg & S1 & _ & Ee).
  destruct (last_glimpse (history (G 0%nat)) at_lamp 0x0EF001) as (h1 & l & r & Eh & Ir & Ea & Eo); [rewrite Eg; reflexivity|exact S1|].
  exists x_watches, (x_offers lamp Finished), G, h1, l, r. split; [exact St|]. pose proof C119_case_premises as (P1 & P2 & P3 & P4 & P5 & P6 & P7). destruct (P7 _ Ec) as (Q1 & Q2 & Q3 & Q4).
  split; [exact P1|]. split; [exact P2|]. split; [exact P3|]. split; [exact P4|]. split; [exact P6|]. split; [exact Eh|]. split; [exact Ir|]. split; [rewrite Ea; exact P5|].
  split; [exact Q1|]. split; [exact Q2|]. split; [exact Q3|]. split; [|exact Eo].
  intros n Na. destruct n; [exact Ee|]. exfalso. apply Na. rewrite adds_calls, Ec. reflexivity.
Qed.
Print Assumptions C120_complete.
Print Assumptions C120_announced_refuted.
