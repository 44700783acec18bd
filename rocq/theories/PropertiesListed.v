(** What a controller knows about another process is what that process did (C119). *)
From Verif Require Import Base HMap ModelCodec ModelMessages DbTable ModelObject ModelTransport ModelNode ModelController ModelDevice ModelThreads
  SpecWire SpecObject SpecNode SpecThreads ProofsCodec ProofsCodec2 ProofsObject ProofsNode ProofsNode2 ProofsNode3 ProofsNode4 PropertiesCodec PropertiesObject PropertiesDb PropertiesNode PropertiesTrans
  PropertiesProfile PropertiesFrames ProofsController SpecFound PropertiesFound ProofsThreads ProofsThreads2 PropertiesThreads ProofsThreads6 ProofsLines
  ProofsClients SpecShared ProofsShared SpecMesh ProofsMesh PropertiesMesh PropertiesController ExamplesNode PropertiesThreads4 PropertiesFound SpecListed ProofsListed.
From Verif Require ModelLocks.

(** A node on which nothing was done but adding observers. *)
Definition unused {U} {P : Profile} {HO : HashOrder} (x : nstate U) : Prop :=
  line x = [] /\ exists np n0, profile_like np /\ PropertiesFrames.short np /\ node_new (U := U) np = Ret n0 /\ n_objects (snd (fst x)) = n_objects n0 /\ n_handlers (snd (fst x)) = n_handlers n0.

Section S.
  Context {U : Type} {P : Profile} (HO : nat -> HashOrder) (Os : nat -> OS) (Uu : nat -> Uuids) (db : nat -> list object) (what : nat -> observer -> obs)
    (host : ipaddr -> option nat).
  Notation gsteps := (gsteps (U := U) HO Os Uu db what host). Notation gbegins := (gbegins (U := U) HO Os).
  Implicit Types (G : mesh (U := U)).

  Lemma lists_sent ns cs xs G b n : down (ns b) -> gsteps (gbegins ns cs xs) G -> calls_ok (HO := HO b) (history (G b)) -> all_fair (history (G b)) ->
    unused (HO := HO b) (ns b n) -> (length (adds n (history (G b))) <= 84)%nat ->
    forall y, In y (line (nodes (G b) n)) -> exists l, incl l (adds n (history (G b))) /\ Forall (fun c => c < 16777216) l /\ honest l (snd y).
  Proof.
    intros Dn St K Fa (L0 & np & n0 & Pl & Sh & Nn & Eo & Eh) Le y I. pose proof (gsteps_steps HO Os Uu db what host _ _ St b) as Sb.
    destruct (lines (HO := HO b) (O := Os b) (Uu := Uu b) (db b) (what b) true (ns b) (cs b) (xs b) (G b) Dn Sb) as (a & A & R & Li).
    pose proof (of_app_all (HO := HO b) (Os := Os b) (Uu := Uu b) (db b) (what b) true (ns b) (cs b) (xs b) (G b) Dn Sb) as Oa.
    pose proof (r_hist _ _ _ R) as Hh. rewrite <- Hh in K, Fa, Oa, Le |- *.
    destruct (accounted_all (HO := HO b) (Os := Os b) (Uu := Uu b) (db b) (what b) true n (ns b) (cs b) _ a A K Oa Fa) as [_ (ops & Ko & Fo & Rn & In1 & Ln & _)].
    apply Li in I. destruct (ns b n) as [[u x] w] eqn:Ens. cbn [fst snd] in Eo, Eh. unfold line in I, L0. cbn [snd] in L0.
    destruct (a_nodes a n) as [[u' x'] w']. cbn [snd] in I.
    pose proof (truthful_same _ _ _ _ Eo Eh (truthful_new (HO := HO b) np n0 Pl Sh Nn)) as T0.
    destruct (honest_run (HO := HO b) (Os := Os b) _ ops u x w u' x' w' [] Ko Fo T0 ltac:(cbn; lia) Rn) as [(_ & _ & _ & _ & Bd & _) (l & El & Fl)].
    rewrite El, L0 in I. rewrite Forall_forall in Fl. destruct (Fl y I) as (o1 & o2 & -> & H). exists (added o1).
    assert (Ea : added (o1 ++ o2) = added o1 ++ added o2) by apply flat_map_app. rewrite Ea in *. split; [intros c Ic; apply In1, in_or_app; auto|]. split; [|exact H].
    cbn [app] in Bd. apply Forall_app in Bd as [Bd _]. eapply Forall_impl; [|exact Bd]. intros c [X _]. exact X.
  Qed.

  (** The codes which a controller takes from the list of these codes. *)
  Lemma listed_codes q l codes : listed q codes -> Forall (fun c => c < 16777216) l -> (pp_code q = 0xD6 -> pp_data q = instance_list l) -> incl codes l.
  Proof.
    intros L F E. destruct (N.eq_dec (pp_code q) 0xD6) as [X|X].
    - assert (Eq : q = PProp 0xD6 (instance_list l)) by (specialize (E X); destruct q; cbn in X, E; subst; reflexivity).
      rewrite Eq in L. assert (L' : listed (PProp 0xD6 (instance_list l)) l).
      { unfold instance_list. rewrite <- (app_nil_r (flat_map wire_eoj l)). apply L_codes; [|cbn; lia|exact F].
        pose proof (instance_list_length l) as Z. unfold instance_list in Z. cbn [length] in Z. rewrite app_nil_r. lia. }
      rewrite (listed_unique _ _ _ L L'). apply incl_refl.
    - assert (L' : listed q []) by (apply L_other, X). rewrite (listed_unique _ _ _ L L'). intros x [].
  Qed.

  (** ** C119: A controller lists only devices that were added *)

  (** What a controller of process [a] returns about an address of process [b] are,
      but for the node profile, devices which the application of [b] has added to
      one of its nodes. *)
  Theorem C119_added : forall seed ns cs xs G a b h1 t c l h2 r, standard_database (HO := HO a) seed = Ret (db a) -> (forall k, uuid_ok (new_uuid (Uuids := Uu a) k)) ->
    down (ns a) -> (forall c, fst (cs a c) = []) -> gsteps (gbegins ns cs xs) G ->
    history (G a) = h1 ++ EReturn t (CNodes c) (VNodes l) :: h2 -> In r l -> host (fst (rn_addr r)) = Some b ->
    down (ns b) -> (forall n, unused (HO := HO b) (ns b n)) -> calls_ok (HO := HO b) (history (G b)) -> all_fair (history (G b)) ->
    (forall n, (length (adds n (history (G b))) <= 84)%nat) ->
    exists n, Forall (fun o => object_code o = 0x0EF001 \/ In (object_code o) (adds n (history (G b)))) (rn_objects r).
  Proof.
    intros seed ns cs xs G a b h1 t c l h2 r Db Uo Da Em St Eh Ir Hb Dn Un K Fa Le. pose proof (gsteps_steps HO Os Uu db what host _ _ St a) as Sa.
    destruct (C114_found (HO := HO a) (Os := Os a) (Uu := Uu a) seed (db a) Db Uo (what a) true (ns a) (cs a) (xs a) (G a) h1 t c l h2 Da Em Sa Eh) as [Fo _].
    rewrite Forall_forall in Fo. destruct (Fo r Ir) as (t1 & m & Im & [Sv _] & (codes & Lc & Ra & Ob)).
    assert (Im' : In (EGot t1 m) (history (G a))) by (rewrite Eh; apply in_or_app; auto).
    destruct (all_genuine HO Os Uu db what host ns cs xs G a t1 m St Im') as [_ Ge]. rewrite Ra in Hb.
    destruct (Ge b Hb) as (data & m0 & (n & to & Iy & _) & Od & Pa & Emm). exists n.
    destruct (lists_sent ns cs xs G b n Dn St K Fa (Un n) (Le n) _ Iy) as (l0 & In0 & Bd & Ho). cbn [snd] in Ho.
    assert (Sv0 : m_esv m0 = 0x72 \/ m_esv m0 = 0x73) by (rewrite Emm in Sv; exact Sv). specialize (Ho Od m0 Pa Sv0).
    assert (Ep : m_props m = m_props m0) by (rewrite Emm; reflexivity). rewrite Ep in Lc.
    assert (Ic : incl (concat codes) l0).
    { clear - Lc Ho Bd. induction Lc as [|q cs qs css L1 L2 IH]; [intros x []|]. inversion Ho; subst. cbn [concat]. apply incl_app; [eapply listed_codes; eauto|auto]. }
    assert (Each : Forall (fun c => c = 0x0EF001 \/ In c (adds n (history (G b)))) (concat codes ++ [0x0EF001])).
    { apply Forall_app. split; [|constructor; [left; reflexivity|constructor]]. apply Forall_forall. intros x Ix. right. apply In0, Ic, Ix. }
    clear - Ob Each. induction Ob as [|x o xs os [<- _] F IH]; [constructor|]. inversion Each; subst. constructor; auto.
  Qed.
End S.

(* ------------------------------------------------------------------ *)
(** ** Cases *)

(** Process 0 is a controller, process 1, at 192.168.0.10, a node to which the
    application adds a device before it starts. *)
Definition v_play := mplay (U := unit) (P := true) (fun _ => ex_order) (fun _ => ex_os) (fun _ => tc_uuids) (fun _ => ex_db) (fun _ => tc_what) m_host.
Definition v_steps := gsteps (U := unit) (P := true) (fun _ => ex_order) (fun _ => ex_os) (fun _ => tc_uuids) (fun _ => ex_db) (fun _ => tc_what) m_host.
Definition v_begins (x0 x1 : client unit) : mesh (U := unit) :=
  gbegins (P := true) (fun _ => ex_order) (fun _ => ex_os) (fun _ => tc_ns) (fun _ => ex_cs) (fun i => match i with O => [x0] | _ => [x1] end).
Definition x_finds : client unit := Call (CStart (Some 0%nat) 0) (fun _ => Call (CSearch 0 0 0x0EF001) (fun _ => Call (CNodes 0) (fun _ => Finished))).
Definition x_offers (o : object) (k : client unit) : client unit := Call (CDeviceObject 0 0 o) (fun _ => Call (CStart (Some 0%nat) 0) (fun _ => k)).
(** A storage battery. Its own property 0xD6 is the energy it has given, in Wh. *)
Definition battery : object := the (object_new 0) (ProofsObject3.adds (P := true) (HO := ex_order) (object_from_code 0 0x027D01) [ex_prop 0xD6 Required Prohibited Optional]).
Definition c_energy : call unit := CSetProperty 0 0 0x027D01 0xD6 [0x00; 0x01; 0x30; 0x01].
(** The application lets others read it. *)
Definition c_accepts : call unit := CSetHandler 0 0 (fun u o _ _ => Ret (u, o, true)).
Definition x_battery : client unit := x_offers battery (Call c_accepts (fun _ => Call c_energy (fun _ => Finished))).
(** Process 0 looks for nodes, and then asks the battery for that energy. *)
Definition m_energy : message := msg_add_property (msg_set_esv (msg_set_deoj msg_new 0x027D01) EReadRequest) (PProp 0xD6 []).
Definition x_asks : client unit :=
  Call (CStart (Some 0%nat) 0) (fun _ => Call (CSearch 0 0 0x0EF001) (fun _ => Call (CNodes 0) (fun v =>
    match v with VNodes (r :: _) => Call (CCtrlSend 0 0 r m_energy) (fun _ => Call (CNodes 0) (fun _ => Finished)) | _ => Finished end))).

Definition calls (h : list (event unit)) : list (call unit) := flat_map (fun e => match e with ECall _ c => [c] | _ => [] end) h.
Lemma calls_in h t c : In (ECall t c) h -> In c (calls h).
Proof. intros I. apply in_flat_map. exists (ECall t c). split; [exact I|left; reflexivity]. Qed.
Lemma adds_calls n h : adds n h = flat_map (adds1 n) (calls h).
Proof. unfold adds, calls. induction h as [|e h IH]; [reflexivity|]. cbn [flat_map]. rewrite IH, flat_map_app. destruct e; cbn [flat_map app]; rewrite ?app_nil_r; reflexivity. Qed.
(** The last event is the return of the list of nodes, with this device. *)
Definition shows (h : list (event unit)) (a : sockaddr) (code : N) : bool :=
  match rev h with
  | EReturn 0 (CNodes 0) (VNodes l) :: _ => existsb (fun r => sockaddr_eqb (rn_addr r) a && existsb (fun o => object_code o =? code) (rn_objects r)) l
  | _ => false
  end.
Lemma shows_spec h a code : shows h a code = true ->
  exists h1 l r o, h = h1 ++ EReturn 0%nat (CNodes 0) (VNodes l) :: [] /\ In r l /\ rn_addr r = a /\ In o (rn_objects r) /\ object_code o = code.
Proof.
  unfold shows. intros E. destruct (rev h) as [|e t] eqn:R; [discriminate|]. destruct e as [|i c v|]; try discriminate. destruct i; [|discriminate].
  destruct c as [| | | | | | | | | | | | | | |k| | | |]; try discriminate; destruct k; try discriminate. destruct v as [| | | | |l|]; try discriminate.
  apply existsb_exists in E as (r & Ir & E). apply andb_true_iff in E as [Ea E]. apply existsb_exists in E as (o & Io & E).
  exists (rev t), l, r, o. split; [rewrite <- (rev_involutive h), R; reflexivity|]. split; [exact Ir|]. split; [apply addr_eqb_spec, Ea|]. split; [exact Io|apply N.eqb_eq, E].
Qed.
Lemma v_played (Q : mesh (U := unit) -> Prop) b l : match v_play b l with Some G => Q G | None => False end -> exists G, v_steps b G /\ Q G.
Proof. destruct (v_play b l) as [G|] eqn:E; [|intros []]. intros H. exists G. split; [eapply mplay_sound, E|exact H]. Qed.

(** The premises about the two processes at the beginning. *)
Lemma v_unused n : unused (P := true) (HO := ex_order) (tc_ns n).
Proof.
  split; [vm_compute; reflexivity|]. exists ex_np, ex_node0. split; [exact ex_np_like|]. split; [|split; [|split]; vm_compute; reflexivity].
  assert (Z : forallb (fun p => (length (p_data p) <=? 255)%nat) (object_properties ex_np) = true) by (vm_compute; reflexivity).
  intros p I. rewrite forallb_forall in Z. apply Nat.leb_le, Z, I.
Qed.
Lemma lamp_fair : fair (U := unit) (CDeviceObject 0 0 lamp).
Proof.
  split; [vm_compute; discriminate|]. split; [vm_compute; reflexivity|].
  assert (Z : forallb (fun p => (length (p_data p) <=? 255)%nat) (object_properties lamp) = true) by (vm_compute; reflexivity).
  intros p I. rewrite forallb_forall in Z. apply Nat.leb_le, Z, I.
Qed.

(** Process 1 adds a lamp and starts; process 0 starts, searches, gets the answer and
    returns the lamp and the node profile. All premises of the theorem are fulfilled. *)
Definition plan_lamp : list mmove :=
  mgos 1 [(0, 9); (0, 39); (2, 1)]%nat ++ mgos 0 [(0, 39); (1, 1); (2, 1); (0, 9)]%nat ++ [MGet 1 2 0 0 1 peer] ++ mgos 1 [(2, 30)]%nat ++
  [MGet 0 1 1 0 1 at_lamp] ++ mgos 0 [(1, 18); (0, 6)]%nat.
Definition lamp_calls : list (call unit) := [CDeviceObject 0 0 lamp; CStart (Some 0%nat) 0].
Example C119_case : exists G, v_steps (v_begins x_finds (x_offers lamp Finished)) G /\
  map glimpse (history (G 0%nat)) = [(0%nat, None); (0%nat, None); (0%nat, None); (0%nat, None); (1%nat, Some [(at_lamp, [])]);
    (0%nat, None); (0%nat, Some [(at_lamp, [0x029101; 0x0EF001])])] /\
  calls (history (G 1%nat)) = lamp_calls /\ shows (history (G 0%nat)) at_lamp 0x029101 = true.
Proof. apply (v_played (fun G => _) _ plan_lamp). vm_compute. repeat split. Qed.
Example C119_case_premises : standard_database (P := true) (HO := ex_order) (fun k => k) = Ret ex_db /\ (forall k, uuid_ok (new_uuid (Uuids := tc_uuids) k)) /\
  down tc_ns /\ (forall c, fst (ex_cs c) = []) /\ m_host (fst at_lamp) = Some 1%nat /\ (forall n, unused (P := true) (HO := ex_order) (tc_ns n)) /\
  forall h, calls h = lamp_calls -> calls_ok (P := true) (HO := ex_order) h /\ all_fair h /\ (forall n, (length (adds n h) <= 84)%nat) /\ adds 0 h = [0x029101].
Proof.
  split; [exact ex_db_standard|]. split; [exact ex_uuids_ok|]. split; [exact tc_down|]. split; [exact tc_empty|]. split; [reflexivity|]. split; [exact v_unused|].
  intros h E. split; [|split; [|split]].
  - intros t c I. apply calls_in in I. rewrite E in I. destruct I as [<-|[<-|[]]]; [exact lamp_built|exact Logic.I].
  - intros t c I. apply calls_in in I. rewrite E in I. destruct I as [<-|[<-|[]]]; [exact lamp_fair|exact Logic.I].
  - intros n. rewrite adds_calls, E. unfold lamp_calls. cbn [flat_map adds1]. destruct (Nat.eqb 0 n); cbn; lia.
  - rewrite adds_calls, E. vm_compute. reflexivity.
Qed.

(** Without the premise that a device has no property 0xD6 of its own the claim is
    false: a controller checks the service and the destination of a message, not
    its source (src/message.rs:184-196, src/controller_node.rs:129-148). So it takes the
    energy of a battery, 00 01 30 01, which it asked for itself, for an instance
    list. It then has an air conditioner 0x013001, which nobody ever added, and has
    lost the battery. *)
Definition plan_battery : list mmove :=
  mgos 1 [(0, 9); (0, 39); (0, 16); (2, 1)]%nat ++ mgos 0 [(0, 39); (1, 1); (2, 1); (0, 9)]%nat ++ [MGet 1 2 0 0 1 peer] ++ mgos 1 [(2, 30)]%nat ++
  [MGet 0 1 1 0 1 at_lamp] ++ mgos 0 [(1, 18); (0, 6); (0, 10)]%nat ++ mgos 1 [(2, 2)]%nat ++ [MGet 1 2 0 0 2 peer] ++ mgos 1 [(2, 22)]%nat ++
  mgos 0 [(1, 2)]%nat ++ [MGet 0 1 1 0 2 at_lamp] ++ mgos 0 [(1, 18); (0, 6)]%nat.
Definition battery_calls : list (call unit) := [CDeviceObject 0 0 battery; CStart (Some 0%nat) 0; c_accepts; c_energy].
Example C119_case_battery : exists G, v_steps (v_begins x_asks x_battery) G /\
  flat_map (fun e => match glimpse e with (0%nat, Some l) => [l] | _ => [] end) (history (G 0%nat)) = [[(at_lamp, [0x027D01; 0x0EF001])]; [(at_lamp, [0x013001; 0x0EF001])]] /\
  calls (history (G 1%nat)) = battery_calls /\ shows (history (G 0%nat)) at_lamp 0x013001 = true.
Proof. apply (v_played (fun G => _) _ plan_battery). vm_compute. repeat split. Qed.
Lemma battery_built : obj_built (P := true) (HO := ex_order) battery.
Proof.
  apply (adds_built [ex_prop 0xD6 Required Prohibited Optional] (object_from_code 0 0x027D01)); [repeat constructor| |].
  - constructor; [apply ex_prop_built; reflexivity|constructor].
  - vm_compute. reflexivity.
Qed.
Theorem C119_battery_refuted : exists x0 x1 G h1 l r o, v_steps (v_begins x0 x1) G /\
  standard_database (P := true) (HO := ex_order) (fun k => k) = Ret ex_db /\ (forall k, uuid_ok (new_uuid (Uuids := tc_uuids) k)) /\
  down tc_ns /\ (forall c, fst (ex_cs c) = []) /\ (forall n, unused (P := true) (HO := ex_order) (tc_ns n)) /\
  history (G 0%nat) = h1 ++ EReturn 0%nat (CNodes 0) (VNodes l) :: [] /\ In r l /\ m_host (fst (rn_addr r)) = Some 1%nat /\
  calls_ok (P := true) (HO := ex_order) (history (G 1%nat)) /\
  (forall t c, In (ECall t c) (history (G 1%nat)) -> fair c \/ exists d n b, c = CDeviceObject d n b /\ object_code b = 0x027D01) /\
  (forall n, (length (adds n (history (G 1%nat))) <= 84)%nat) /\
  In o (rn_objects r) /\ object_code o = 0x013001 /\ forall n, ~ In 0x013001 (adds n (history (G 1%nat))).
Proof.
  destruct C119_case_battery as (G & St & _ & Ec & Sh). destruct (shows_spec _ _ _ Sh) as (h1 & l & r & o & Eh & Ir & Ea & Io & Eo).
  exists x_asks, x_battery, G, h1, l, r, o. split; [exact St|]. pose proof C119_case_premises as (P1 & P2 & P3 & P4 & P5 & P6 & _).
  split; [exact P1|]. split; [exact P2|]. split; [exact P3|]. split; [exact P4|]. split; [exact P6|]. split; [exact Eh|]. split; [exact Ir|]. split; [rewrite Ea; exact P5|].
  assert (Aa : forall n, adds n (history (G 1%nat)) = if Nat.eqb 0 n then [0x027D01] else []).
  { intros n. rewrite adds_calls, Ec. unfold battery_calls, c_accepts, c_energy. cbn [flat_map adds1]. destruct (Nat.eqb 0 n); [vm_compute; reflexivity|reflexivity]. }
  split; [|split; [|split]].
  - intros t c I. apply calls_in in I. rewrite Ec in I. destruct I as [<-|[<-|[<-|[<-|[]]]]]; [exact battery_built|exact Logic.I| |].
    + intros u x e p u' o' b Ob E. inversion E; subst. exact Ob.
    + repeat constructor.
  - intros t c I. apply calls_in in I. rewrite Ec in I. destruct I as [<-|[<-|[<-|[<-|[]]]]].
    + right. exists 0%nat, 0%nat, battery. split; [reflexivity|vm_compute; reflexivity].
    + left. exact Logic.I.
    + left. intros u x e p u' o' b E. inversion E; subst. reflexivity.
    + left. split; [left; discriminate|cbn; unfold fits; cbn; lia].
  - intros n. rewrite Aa. destruct (Nat.eqb 0 n); cbn; lia.
  - split; [exact Io|]. split; [exact Eo|]. intros n. rewrite Aa. destruct (Nat.eqb 0 n); [intros [E|[]]; discriminate|intros []].
Qed.
Print Assumptions C119_added.
Print Assumptions C119_battery_refuted.
