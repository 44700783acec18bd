(** A controller which knows a device of another process knows all that were there when the first question arrived (C121). *)
From Verif Require Import Base HMap ModelCodec ModelMessages DbTable ModelObject ModelTransport ModelNode ModelController ModelDevice ModelThreads
  SpecWire SpecObject SpecNode SpecThreads ProofsCodec ProofsCodec2 ProofsObject ProofsNode ProofsNode2 ProofsNode3 ProofsNode4 PropertiesCodec PropertiesObject PropertiesDb PropertiesNode PropertiesTrans
  PropertiesProfile PropertiesFrames ProofsController SpecFound PropertiesFound ProofsThreads ProofsThreads2 PropertiesThreads ProofsThreads6 ProofsLines
  ProofsClients SpecShared ProofsShared SpecMesh ProofsMesh PropertiesMesh PropertiesController ExamplesNode PropertiesThreads4 PropertiesFound SpecListed ProofsListed ProofsListed2 ProofsListed3
  PropertiesTransport PropertiesListed PropertiesListed2.
From Verif Require ModelLocks.


Section S.
  Context {U : Type} {P : Profile} (HO : nat -> HashOrder) (Os : nat -> OS) (Uu : nat -> Uuids) (db : nat -> list object) (what : nat -> observer -> obs)
    (host : ipaddr -> option nat).
  Notation gsteps := (gsteps (U := U) HO Os Uu db what host). Notation gbegins := (gbegins (U := U) HO Os).
  Implicit Types (G : mesh (U := U)).

  Lemma fresh_sent ns cs xs G b n : down (ns b) -> gsteps (gbegins ns cs xs) G -> calls_ok (HO := HO b) (history (G b)) -> all_fair (history (G b)) ->
    unused (HO := HO b) (ns b n) -> (length (adds n (history (G b))) <= 84)%nat ->
    forall y, In y (line (nodes (G b) n)) -> exists l, incl l (adds n (history (G b))) /\ Forall (fun c => c < 16777216) l /\ honest l (snd y) /\
      (listless (snd y) \/ exists m h1 t h2, history (G b) = h1 ++ EGot t m :: h2 /\ caused m (snd y) /\ incl (done n h1) l).
  Proof.
    intros Dn St K Fa (L0 & np & n0 & Pl & Sh & Nn & Eo & Eh) Le y I. pose proof (gsteps_steps HO Os Uu db what host _ _ St b) as Sb.
    destruct (lines (HO := HO b) (O := Os b) (Uu := Uu b) (db b) (what b) true (ns b) (cs b) (xs b) (G b) Dn Sb) as (a & A & R & Li).
    pose proof (of_app_all (HO := HO b) (Os := Os b) (Uu := Uu b) (db b) (what b) true (ns b) (cs b) (xs b) (G b) Dn Sb) as Oa.
    pose proof (r_hist _ _ _ R) as Hh. rewrite <- Hh in K, Fa, Oa, Le |- *.
    destruct (dated_all (HO := HO b) (Os := Os b) (Uu := Uu b) (db b) (what b) true n (ns b) (cs b) _ a A K Oa Fa) as [_ _ (ops & Ko & Fo & Rn & In1 & Ln & _ & _ & _ & Da)].
    apply Li in I. destruct (ns b n) as [[u x] w] eqn:Ens. cbn [fst snd] in Eo, Eh. unfold line in I, L0. cbn [snd] in L0.
    destruct (a_nodes a n) as [[u' x'] w']. cbn [snd] in I.
    pose proof (truthful_same _ _ _ _ Eo Eh (truthful_new (HO := HO b) np n0 Pl Sh Nn)) as T0.
    destruct (honest_run (HO := HO b) (Os := Os b) _ ops u x w u' x' w' [] Ko Fo T0 ltac:(cbn; lia) Rn) as [(_ & _ & _ & _ & Bd & _) _].
    destruct (fresh_run (HO := HO b) (Os := Os b) _ n (a_history a) ops u x w u' x' w' [] Ko Fo T0 ltac:(cbn; lia) Da Rn) as (l & El & Fl).
    rewrite El, L0 in I. rewrite Forall_forall in Fl. destruct (Fl y I) as (o1 & o2 & -> & H & Hc). exists (added o1).
    assert (Ea : added (o1 ++ o2) = added o1 ++ added o2) by apply flat_map_app. rewrite Ea in *. split; [intros c Ic; apply In1, in_or_app; auto|]. split; [|split; [exact H|exact Hc]].
    cbn [app] in Bd. apply Forall_app in Bd as [Bd _]. eapply Forall_impl; [|exact Bd]. intros c [X _]. exact X.
  Qed.

  Lemma history_on G1 G2 b : gsteps G1 G2 -> exists l, history (G2 b) = history (G1 b) ++ l.
  Proof.
    intros St. pose proof (gsteps_steps HO Os Uu db what host _ _ St b) as Sb. clear St. induction Sb as [s|s s1 s2 S1 IH St]; [exists []; symmetry; apply app_nil_r|]. destruct IH as (l & IH).
    destruct (history_step _ _ _ _ _ _ _ _ St) as [E|(e & E)]; rewrite E, IH; [eauto|]. exists (l ++ [e]). symmetry. apply app_assoc.
  Qed.
  Lemma split_after (A : Type) (l1 l2 h1 h2 : list A) x : l1 ++ l2 = h1 ++ x :: h2 -> ~ In x l1 -> exists l, h1 = l1 ++ l.
  Proof.
    revert h1. induction l1 as [|y l1 IH]; intros h1 E N; [exists h1; reflexivity|]. destruct h1 as [|z h1]; inversion E; subst; [exfalso; apply N; left; reflexivity|].
    destruct (IH h1 H1) as (l & ->); [intros I; apply N; right; exact I|]. exists l. reflexivity.
  Qed.

  (** What is in an answer, when no question that can have led to it had arrived at
      the moment [G1]. *)
  Lemma answer_lists ns cs xs G1 G2 a b t m : down (ns b) -> gsteps (gbegins ns cs xs) G1 -> gsteps G1 G2 -> (forall n, unused (HO := HO b) (ns b n)) ->
    calls_ok (HO := HO b) (history (G2 b)) -> all_fair (history (G2 b)) -> (forall n, (length (adds n (history (G2 b))) <= 84)%nat) ->
    In (EGot t m) (history (G2 a)) -> host (fst (msg_from m)) = Some b -> m_esv m = 0x72 \/ m_esv m = 0x73 ->
    (forall t' m', In (EGot t' m') (history (G1 b)) -> m_esv m' = 0x62 \/ m_esv m' = 0x63 -> msg_tid m' <> 0 /\ msg_tid m' <> msg_tid m) ->
    exists n, forall q, In q (m_props m) -> pp_code q = 0xD6 ->
      exists l, pp_data q = instance_list l /\ Forall (fun c => c < 16777216) l /\ incl (done n (history (G1 b))) l /\ incl l (adds n (history (G2 b))).
  Proof.
    intros Dn St1 St2 Un K Fa Le I Hb Sv Ea. pose proof (gsteps_trans HO Os Uu db what host _ _ _ St1 St2) as St.
    destruct (all_genuine HO Os Uu db what host ns cs xs G2 a t m St I) as [_ Ge]. destruct (Ge b Hb) as (data & m0 & (n & to & Iy & _) & Od & Pa & Em). exists n. intros q Iq C6.
    destruct (fresh_sent ns cs xs G2 b n Dn St K Fa (Un n) (Le n) _ Iy) as (l & In0 & Bd & Ho & Fr). cbn [snd] in Ho, Fr.
    assert (Sv0 : m_esv m0 = 0x72 \/ m_esv m0 = 0x73) by (rewrite Em in Sv; exact Sv). assert (Ep : m_props m = m_props m0) by (rewrite Em; reflexivity). rewrite Ep in Iq.
    exists l. assert (Eq : pp_data q = instance_list l) by (specialize (Ho Od m0 Pa Sv0); rewrite Forall_forall in Ho; exact (Ho q Iq C6)).
    split; [exact Eq|]. split; [exact Bd|]. split; [|exact In0].
    destruct Fr as [Li|(m1 & h1 & t1 & h2 & Eh & (Rd & Tc) & In1)].
    - exfalso. pose proof (Li [] Od m0 Pa Sv0) as X. pose proof (Li [1] Od m0 Pa Sv0) as Y. rewrite Forall_forall in X, Y. specialize (X q Iq C6). specialize (Y q Iq C6). rewrite X in Y. discriminate Y.
    - destruct (history_on G1 G2 b St2) as (hl & E2). rewrite E2 in Eh. destruct (split_after _ _ _ _ _ _ Eh) as (hr & ->).
      + intros J. destruct (Ea _ _ J Rd) as [Z1 Z2]. destruct (parsed_header data m0 Od Pa) as (f & rest & _ & _ & _ & Ht & _).
        assert (Tm : msg_tid m = tid_of data) by (rewrite Em; exact Ht). apply Z2. rewrite Tm. symmetry. exact (Tc Z1).
      + intros z Iz. apply In1. unfold done in *. rewrite flat_map_app. apply in_or_app. left. exact Iz.
  Qed.

  (** ** C121: Instance lists are fresh *)

  (** At the moment [G1] process [b] has got no question with the TID of the message
      [m], nor one without TID. When [m], from [b], later arrives somewhere, an
      instance list in it has all devices of a node of [b] for which add_object had
      returned at [G1], and none that is not added. *)
  Theorem C121_fresh : forall ns cs xs G1 G2 a b t m, down (ns b) -> gsteps (gbegins ns cs xs) G1 -> gsteps G1 G2 -> (forall n, unused (HO := HO b) (ns b n)) ->
    calls_ok (HO := HO b) (history (G2 b)) -> all_fair (history (G2 b)) -> (forall n, (length (adds n (history (G2 b))) <= 84)%nat) ->
    In (EGot t m) (history (G2 a)) -> host (fst (msg_from m)) = Some b -> m_esv m = 0x72 \/ m_esv m = 0x73 ->
    (forall t' m', In (EGot t' m') (history (G1 b)) -> m_esv m' = 0x62 \/ m_esv m' = 0x63 -> msg_tid m' <> 0 /\ msg_tid m' <> msg_tid m) ->
    exists n, forall q, In q (m_props m) -> pp_code q = 0xD6 ->
      exists l, listed q l /\ incl (done n (history (G1 b))) l /\ incl l (adds n (history (G2 b))).
  Proof.
    intros ns cs xs G1 G2 a b t m Dn St1 St2 Un K Fa Le I Hb Sv Ea. destruct (answer_lists ns cs xs G1 G2 a b t m Dn St1 St2 Un K Fa Le I Hb Sv Ea) as (n & H).
    exists n. intros q Iq C6. destruct (H q Iq C6) as (l & Eq & Bd & X). exists l. split; [|exact X].
    assert (Eq' : q = PProp 0xD6 (instance_list l)) by (destruct q; cbn in C6, Eq; subst; reflexivity). rewrite Eq'.
    unfold instance_list. rewrite <- (app_nil_r (flat_map wire_eoj l)). apply L_codes; [|cbn; lia|exact Bd].
    pose proof (instance_list_length l) as Z. unfold instance_list in Z. cbn [length] in Z. rewrite app_nil_r. lia.
  Qed.

  (** So a controller of process [a] which returns a device at an address of process
      [b] returns all devices which had been added to the node before the first
      question arrived at [b]. *)
  Theorem C121_controller : forall seed ns cs xs G1 G2 a b h1 t c l h2 r, standard_database (HO := HO a) seed = Ret (db a) -> (forall k, uuid_ok (new_uuid (Uuids := Uu a) k)) ->
    down (ns a) -> (forall c, fst (cs a c) = []) -> gsteps (gbegins ns cs xs) G1 -> gsteps G1 G2 ->
    history (G2 a) = h1 ++ EReturn t (CNodes c) (VNodes l) :: h2 -> In r l -> host (fst (rn_addr r)) = Some b ->
    down (ns b) -> (forall n, unused (HO := HO b) (ns b n)) -> calls_ok (HO := HO b) (history (G2 b)) -> all_fair (history (G2 b)) ->
    (forall n, (length (adds n (history (G2 b))) <= 84)%nat) ->
    (forall t' m', In (EGot t' m') (history (G1 b)) -> m_esv m' <> 0x62 /\ m_esv m' <> 0x63) ->
    (exists o, In o (rn_objects r) /\ object_code o <> 0x0EF001) ->
    exists n, Forall (fun o => object_code o = 0x0EF001 \/ In (object_code o) (adds n (history (G2 b)))) (rn_objects r) /\
      incl (done n (history (G1 b))) (map object_code (rn_objects r)).
  Proof.
    intros seed ns cs xs G1 G2 a b h1 t c l h2 r Db Uo Da Em St1 St2 Eh Ir Hb Dn Un K Fa Le Nq (ob & Iob & Nob). pose proof (gsteps_trans HO Os Uu db what host _ _ _ St1 St2) as St.
    pose proof (gsteps_steps HO Os Uu db what host _ _ St a) as Sa.
    destruct (C114_found (HO := HO a) (Os := Os a) (Uu := Uu a) seed (db a) Db Uo (what a) true (ns a) (cs a) (xs a) (G2 a) h1 t c l h2 Da Em Sa Eh) as [Fo _].
    rewrite Forall_forall in Fo. destruct (Fo r Ir) as (t1 & m & Im & [Sv _] & (codes & Lc & Ra & Ob)).
    assert (Im' : In (EGot t1 m) (history (G2 a))) by (rewrite Eh; apply in_or_app; auto). rewrite Ra in Hb.
    destruct (answer_lists ns cs xs G1 G2 a b t1 m Dn St1 St2 Un K Fa Le Im' Hb Sv) as (n & H).
    { intros t' m' I' [X|X]; destruct (Nq _ _ I'); contradiction. }
    exists n.
    assert (Mo : map object_code (rn_objects r) = concat codes ++ [0x0EF001]).
    { clear - Ob. induction Ob as [|x o xs os [<- _] F IH]; [reflexivity|]. cbn [map]. rewrite IH. reflexivity. }
    assert (Each : forall cd, In cd codes -> cd = [] \/ incl (done n (history (G1 b))) cd /\ incl cd (adds n (history (G2 b)))).
    { clear - Lc H. induction Lc as [|q cd qs css L1 L2 IH]; [intros cd []|]. intros cd' [<-|I]; [|apply IH; [intros q' Iq'; apply H; right; exact Iq'|exact I]].
      destruct (N.eq_dec (pp_code q) 0xD6) as [C6|C6]; [|left; exact (listed_unique _ _ _ L1 (L_other _ C6))]. destruct (H q (or_introl eq_refl) C6) as (l & Eq & Bd & X1 & X2).
      destruct cd as [|z cd]; [left; reflexivity|right]. rewrite (listed_all q l (z :: cd) z L1 Bd (fun _ => Eq) (or_introl eq_refl)). auto. }
    rewrite Mo. split.
    - assert (Ec : Forall (fun c => c = 0x0EF001 \/ In c (adds n (history (G2 b)))) (concat codes ++ [0x0EF001])).
      { apply Forall_app. split; [|constructor; [left; reflexivity|constructor]]. apply Forall_forall. intros x Ix. right. apply in_concat in Ix as (cd & I1 & I2).
        destruct (Each cd I1) as [->|[_ X]]; [destruct I2|exact (X x I2)]. }
      rewrite <- Mo in Ec. apply Forall_map in Ec. exact Ec.
    - assert (Io : In (object_code ob) (concat codes)).
      { apply (in_map object_code) in Iob. rewrite Mo in Iob. apply in_app_or in Iob as [Iob|[Iob|[]]]; [exact Iob|congruence]. }
      apply in_concat in Io as (cd & I1 & I2). destruct (Each cd I1) as [->|[X _]]; [destruct I2|]. intros z Iz. apply in_or_app. left. apply in_concat. exists cd. split; [exact I1|exact (X z Iz)].
  Qed.
End S.

(* ------------------------------------------------------------------ *)
(** ** Cases *)

Lemma v_played2 (Q : mesh (U := unit) -> mesh (U := unit) -> Prop) b l1 l2 :
  match v_play b l1 with Some G1 => match v_play G1 l2 with Some G2 => Q G1 G2 | None => False end | None => False end -> exists G1 G2, v_steps b G1 /\ v_steps G1 G2 /\ Q G1 G2.
Proof.
  destruct (v_play b l1) as [G1|] eqn:E1; [|intros []]. destruct (v_play G1 l2) as [G2|] eqn:E2; [|intros []]. intros H. exists G1, G2.
  split; [eapply mplay_sound, E1|]. split; [eapply mplay_sound, E2|exact H].
Qed.
Definition questions (h : list (event unit)) : list N := flat_map (fun e => match e with EGot _ m => if (m_esv m =? 0x62) || (m_esv m =? 0x63) then [msg_tid m] else [] | _ => [] end) h.
Lemma questions_in h t m : In (EGot t m) h -> m_esv m = 0x62 \/ m_esv m = 0x63 -> In (msg_tid m) (questions h).
Proof. intros I E. apply in_flat_map. exists (EGot t m). split; [exact I|]. destruct E as [-> | ->]; left; reflexivity. Qed.

(** Process 1 adds the lamp when it is already running, so C120 says nothing about it:
    nothing is added before the start. Then it gets the question. *)
Definition x_later : client unit := Call (CStart (Some 0%nat) 0) (fun _ => Call (CDeviceObject 0 0 lamp) (fun _ => Finished)).
Definition later_calls : list (call unit) := [CStart (Some 0%nat) 0; CDeviceObject 0 0 lamp].
Definition plan_l1 : list mmove := mgos 1 [(0, 39); (0, 9); (2, 1)]%nat.
Definition plan_l2 : list mmove := mgos 0 [(0, 39); (1, 1); (2, 1); (0, 9)]%nat ++ [MGet 1 2 0 0 1 peer] ++ mgos 1 [(2, 30)]%nat ++ [MGet 0 1 1 0 1 at_lamp] ++ mgos 0 [(1, 18); (0, 6)]%nat.
Example C121_case : exists G1 G2, v_steps (v_begins x_finds x_later) G1 /\ v_steps G1 G2 /\ calls (history (G2 1%nat)) = later_calls /\
  questions (history (G1 1%nat)) = [] /\ done 0 (history (G1 1%nat)) = [0x029101] /\ early 0 (history (G2 1%nat)) = [] /\ questions (history (G2 1%nat)) <> [] /\
  shows (history (G2 0%nat)) at_lamp 0x029101 = true.
Proof. apply (v_played2 (fun G1 G2 => _) _ plan_l1 plan_l2). vm_compute. repeat split; discriminate. Qed.

(** Without the premise about questions the claim is false: a node that gets another
    device while it is running tells nobody (src/node.rs:68-72). Process 1 has the
    lamp, and has answered the search, when it adds an air conditioner. The call has
    returned, nothing was sent, and a later call returns the lamp only. *)
Definition aircon : object := the (object_new 0) (ProofsObject3.adds (P := true) (HO := ex_order) (object_from_code 0 0x013001) [ex_prop 0x80 Required Prohibited Optional]).
Lemma aircon_built : obj_built (P := true) (HO := ex_order) aircon.
Proof.
  apply (adds_built [ex_prop 0x80 Required Prohibited Optional] (object_from_code 0 0x013001)); [repeat constructor| |].
  - constructor; [apply ex_prop_built; reflexivity|constructor].
  - vm_compute. reflexivity.
Qed.
Lemma aircon_fair : fair (U := unit) (CDeviceObject 0 0 aircon).
Proof.
  split; [vm_compute; discriminate|]. split; [vm_compute; reflexivity|].
  assert (Z : forallb (fun p => (length (p_data p) <=? 255)%nat) (object_properties aircon) = true) by (vm_compute; reflexivity).
  intros p I. rewrite forallb_forall in Z. apply Nat.leb_le, Z, I.
Qed.
Definition x_extends : client unit := x_offers lamp (Call (CDeviceObject 0 0 aircon) (fun _ => Finished)).
Definition extend_calls : list (call unit) := [CDeviceObject 0 0 lamp; CStart (Some 0%nat) 0; CDeviceObject 0 0 aircon].
Definition plan_x1 : list mmove :=
  mgos 1 [(0, 9); (0, 39); (2, 1)]%nat ++ mgos 0 [(0, 39); (1, 1); (2, 1); (0, 9)]%nat ++ [MGet 1 2 0 0 1 peer] ++ mgos 1 [(2, 30)]%nat ++
  [MGet 0 1 1 0 1 at_lamp] ++ mgos 0 [(1, 18)]%nat ++ mgos 1 [(0, 9)]%nat.
Definition plan_x2 : list mmove := mgos 0 [(0, 6)]%nat.
Example C121_case_told : exists G1 G2, v_steps (v_begins x_finds x_extends) G1 /\ v_steps G1 G2 /\ calls (history (G2 1%nat)) = extend_calls /\
  done 0 (history (G1 1%nat)) = [0x029101; 0x013001] /\ length (line (nodes (G2 1%nat) 0%nat)) = 2%nat /\
  map glimpse (history (G1 0%nat)) = [(0%nat, None); (0%nat, None); (0%nat, None); (0%nat, None); (1%nat, Some [(at_lamp, [])])] /\
  map glimpse (history (G2 0%nat)) = map glimpse (history (G1 0%nat)) ++ [(0%nat, None); (0%nat, Some [(at_lamp, [0x029101; 0x0EF001])])] /\
  shows (history (G2 0%nat)) at_lamp 0x029101 = true.
Proof. apply (v_played2 (fun G1 G2 => _) _ plan_x1 plan_x2). vm_compute. repeat split. Qed.
Lemma last_glimpses (h : list (event unit)) a codes : last (map glimpse h) (0%nat, None) = (0%nat, Some [(a, codes)]) -> shows h a 0x029101 = true ->
  exists h1 l r, h = h1 ++ EReturn 0%nat (CNodes 0) (VNodes l) :: [] /\ In r l /\ rn_addr r = a /\ map object_code (rn_objects r) = codes.
Proof.
  intros Eg Sh. destruct (shows_spec _ _ _ Sh) as (h1 & l & r & o & Eh & Ir & Ea & _ & _). exists h1, l, r. split; [exact Eh|]. split; [exact Ir|]. split; [exact Ea|].
  rewrite Eh, map_app in Eg. cbn [map] in Eg. rewrite last_last in Eg. cbn [glimpse] in Eg.
  assert (Em : map (fun r => (rn_addr r, map object_code (rn_objects r))) l = [(a, codes)]) by congruence.
  apply (in_map (fun r => (rn_addr r, map object_code (rn_objects r)))) in Ir. rewrite Em in Ir. destruct Ir as [Ir|[]]. congruence.
Qed.
Theorem C121_told_refuted : exists x0 x1 G1 G2 h1 l r, v_steps (v_begins x0 x1) G1 /\ v_steps G1 G2 /\
  standard_database (P := true) (HO := ex_order) (fun k => k) = Ret ex_db /\ (forall k, uuid_ok (new_uuid (Uuids := tc_uuids) k)) /\
  down tc_ns /\ (forall c, fst (ex_cs c) = []) /\ (forall n, unused (P := true) (HO := ex_order) (tc_ns n)) /\
  history (G2 0%nat) = h1 ++ EReturn 0%nat (CNodes 0) (VNodes l) :: [] /\ (length (history (G1 0%nat)) < length h1)%nat /\ In r l /\ m_host (fst (rn_addr r)) = Some 1%nat /\
  calls_ok (P := true) (HO := ex_order) (history (G2 1%nat)) /\ all_fair (history (G2 1%nat)) /\ (forall n, (length (adds n (history (G2 1%nat))) <= 84)%nat) /\
  done 0 (history (G1 1%nat)) = [0x029101; 0x013001] /\ map object_code (rn_objects r) = [0x029101; 0x0EF001].
Proof.
  destruct C121_case_told as (G1 & G2 & St1 & St2 & Ec & Ed & _ & Eg1 & Eg2 & Sh).
  destruct (last_glimpses (history (G2 0%nat)) at_lamp [0x029101; 0x0EF001]) as (h1 & l & r & Eh & Ir & Ea & Eo); [rewrite Eg2, Eg1; reflexivity|exact Sh|].
  exists x_finds, x_extends, G1, G2, h1, l, r. split; [exact St1|]. split; [exact St2|]. pose proof C119_case_premises as (P1 & P2 & P3 & P4 & P5 & P6 & _).
  split; [exact P1|]. split; [exact P2|]. split; [exact P3|]. split; [exact P4|]. split; [exact P6|]. split; [exact Eh|]. split.
  { rewrite Eh, map_app in Eg2. apply (f_equal (@length _)) in Eg2. rewrite !app_length, !map_length in Eg2. cbn [length] in Eg2. lia. }
  split; [exact Ir|]. split; [rewrite Ea; exact P5|].
  split; [|split; [|split; [|split; [exact Ed|exact Eo]]]].
  - intros t c I. apply calls_in in I. rewrite Ec in I. destruct I as [<-|[<-|[<-|[]]]]; [exact lamp_built|exact Logic.I|exact aircon_built].
  - intros t c I. apply calls_in in I. rewrite Ec in I. destruct I as [<-|[<-|[<-|[]]]]; [exact lamp_fair|exact Logic.I|exact aircon_fair].
  - intros n. rewrite adds_calls, Ec. unfold extend_calls. cbn [flat_map adds1]. destruct (Nat.eqb 0 n); cbn; lia.
Qed.
Print Assumptions C121_fresh.
Print Assumptions C121_controller.
Print Assumptions C121_told_refuted.
