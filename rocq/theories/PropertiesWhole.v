(** Messages that write several properties, and answers that carry several (C122). *)
From Verif Require Import Base HMap ModelCodec ModelMessages ModelObject ModelTransport ModelNode ModelController ModelDevice ModelThreads
  SpecWire SpecObject SpecNode SpecThreads ProofsCodec ProofsCodec2 ProofsObject ProofsNode ProofsNode2 ProofsNode3 PropertiesObject PropertiesTrans PropertiesNode PropertiesDevice
  ProofsThreads ProofsThreads2 PropertiesThreads PropertiesThreads4 ProofsThreads6 ExamplesNode ProofsClients ProofsLines SpecWait ProofsThreads5
  SpecShared ProofsShared ProofsShared2 ProofsShared3 PropertiesShared SpecMesh ProofsMesh ProofsMesh2 PropertiesMesh PropertiesMesh2 SpecWhole.
From Verif Require ModelLocks.

Section S.
  Context {U : Type} {P : Profile} (HO : nat -> HashOrder) (Os : nat -> OS) (Uu : nat -> Uuids) (db : nat -> list object) (what : nat -> observer -> obs)
    (host : ipaddr -> option nat).
  Notation gsteps := (gsteps (U := U) HO Os Uu db what host). Notation gbegins := (gbegins (U := U) HO Os).
  Implicit Types (G : mesh (U := U)).

  (** The properties are, point by point, some that have [Q]. *)
  Definition such (Q : values -> Prop) (h : option values) : Prop :=
    match h with Some s => exists s', Q s' /\ forall c, s c = s' c | None => True end.
  Lemma such_effect n oc Q (e : event U) s s1 : such Q (Some s) -> keeps n oc Q e -> possible e s -> (forall c, s1 c = effect n oc e s c) -> such Q (Some s1).
  Proof.
    intros (s' & Hq & Eq) [K _] Po E. exists (effect n oc e s'). split.
    - apply K; [exact Hq|]. destruct e as [| |t m]; cbn [possible] in *; try exact Logic.I. eapply Forall_impl; [|exact Po]. cbn beta. intros q Hs St. rewrite <- Eq. auto.
    - intros c. rewrite E. unfold effect. rewrite Eq. reflexivity.
  Qed.
  Lemma such_all n oc Q d0 d : (forall t, doing d0 t = Free) -> ssteps n oc d0 d -> such Q (contents d0) -> Forall (keeps (U := U) n oc Q) (past d) -> such Q (contents d).
  Proof.
    intros D0 St H0. induction St as [d|d d1 d2 St IH S1]; [auto|]. specialize (IH D0 H0).
    destruct S1 as [t1 cl X|t1 cl hh w l X D|t1 cl w X|t1 m X|t1 m hh l X R]; cbn [contents past]; intros F; try (apply Forall_app in F as [F _]; apply IH, F); specialize (IH F).
    - pose proof (in_past n oc d d1 t1 (ECall t1 cl) D0 St) as Ip. rewrite X in Ip. specialize (Ip eq_refl).
      assert (K := proj1 (Forall_forall _ _) F _ Ip).
      inversion D as [d' c' x' St'|d' c' St'|d' o Eo|o Eo|d' b' l' Fl|d'|d' b'|c' e v' l' Nc Sd Fl|c' v' Nc]; subst; try exact IH;
        destruct (contents d1) as [s|] eqn:Ec; cbn [option_map] in *; try exact Logic.I; try exact IH.
      + refine (such_effect n oc Q _ s _ IH K Logic.I _). intros c. unfold effect, write1, after. rewrite Nat.eqb_refl, N.eqb_refl. cbn [andb]. rewrite (N.eqb_sym c' c).
        destruct (N.eqb_spec c c') as [->|]; destruct (s _); reflexivity.
      + exists (data_in o). split; [|reflexivity]. apply K; reflexivity.
      + exists (data_in o). split; [|reflexivity]. apply K; reflexivity.
      + refine (such_effect n oc Q _ s _ IH K Logic.I _). intros c. unfold effect, write1, after. rewrite Nat.eqb_refl.
        destruct (N.eqb_spec c 0x88) as [->|N8]; [cbn; destruct (s 136); reflexivity|]. destruct (N.eqb_spec c 0x80) as [->|N0]; [destruct (s 128); reflexivity|]. destruct (s c); reflexivity.
      + refine (such_effect n oc Q _ s _ IH K Logic.I _). intros c. unfold effect, write1, after. rewrite Nat.eqb_refl. cbn [andb].
        destruct (N.eqb_spec c 0x80) as [->|N0]; [destruct (s 128); reflexivity|]. destruct (s c); reflexivity.
    - pose proof (in_past n oc d d1 t1 (EGot t1 m) D0 St) as Ip. rewrite X in Ip. specialize (Ip eq_refl).
      assert (K := proj1 (Forall_forall _ _) F _ Ip).
      destruct R as [| | |s l Ed Ec Fa _]; try exact IH. rewrite Ec in IH.
      refine (such_effect n oc Q _ s _ IH K Fa _). intros c. unfold effect, after. rewrite Ed, N.eqb_refl, writes_find. destruct (s c); reflexivity.
  Qed.

  (** ** C122: A message that writes several properties is seen whole *)

  (** Something which the device has from the beginning, and which every call and
      every message leaves true when taken as a whole, is true of what every answer
      to a Get says: however the threads of the device interleave, no answer shows
      a message half carried out. *)
  Theorem C122_whole : forall (Q : values -> Prop) ns cs xs G a b n oc t m, (forall i, down (ns i)) -> gsteps (gbegins ns cs xs) G ->
    calls_ok (HO := HO b) (history (G b)) -> (let '(u, x, w) := ns b n in reachable (HO := HO b) (O := Os b) u x w) -> Forall hands_off (n_handlers (snd (fst (ns b n)))) ->
    tame_calls n (history (G b)) -> oc <> 0x0EF001 -> line (ns b n) = [] ->
    (forall n' y, n' <> n -> In y (line (nodes (G b) n')) -> source_of (snd y) <> oc) ->
    (forall t k, In (ECall t k) (history (G b)) -> sends n k <> Some 0x72) -> small n oc (ns b n) (history (G b)) ->
    plain_reads host a oc (msg_tid m) (history (G b)) ->
    match view oc (ns b n) with Some s => Q s | None => True end -> Forall (keeps n oc Q) (history (G b)) ->
    In (EGot t m) (history (G a)) -> host (fst (msg_from m)) = Some b -> m_esv m = 0x72 -> msg_seoj m = oc -> exists s, Q s /\ quotes m s.
  Proof.
    intros Q ns cs xs G a b n oc t m Dn St K R Ho T Np L0 Ot Nc Sm Pl Q0 F I Hb Es So.
    destruct (answered HO Os Uu db what host ns cs xs G a b n oc t m Dn St K R Ho T Np L0 Ot Nc Sm I Hb Es So Pl) as (z & z1 & p & t1 & m1 & s & S1 & Ep & S2 & Ep1 & I1 & Ha & T1 & Ec & F2).
    assert (X : such Q (contents z1)).
    { apply (such_all n oc Q (fresh oc (ns b n)) z1 (fun _ => eq_refl) S2).
      - unfold fresh. cbn [contents]. unfold such. destruct (view oc (ns b n)) as [s0|]; [exists s0; auto|exact Logic.I].
      - rewrite <- Ep, Ep1 in F. apply Forall_app in F as [F _]. exact F. }
    rewrite Ec in X. destruct X as (s' & Hq & Eq). exists s'. split; [exact Hq|]. intros c y Iq Sc. rewrite <- Eq. clear - F2 Iq Sc.
    induction F2 as [|q q' qs qs' [Qc Qd] F2 IH]; [destruct Iq|]. destruct Iq as [->|Iq]; [|apply IH, Iq]. cbn [pp_code pp_data] in *. rewrite <- Qc in Qd.
    destruct Qd as [Qd|Qd]; [contradiction|exact Qd].
  Qed.

  (** Two properties: if the values that the device begins with are related, and each
      message and each call relates the values that the two have afterwards, then
      the values of the two in every answer are related. *)
  Theorem C122_pair : forall (R : list N -> list N -> Prop) c1 c2 x y ns cs xs G a b n oc t m, (forall i, down (ns i)) -> gsteps (gbegins ns cs xs) G ->
    calls_ok (HO := HO b) (history (G b)) -> (let '(u, x, w) := ns b n in reachable (HO := HO b) (O := Os b) u x w) -> Forall hands_off (n_handlers (snd (fst (ns b n)))) ->
    tame_calls n (history (G b)) -> oc <> 0x0EF001 -> stored c1 -> stored c2 -> line (ns b n) = [] ->
    (forall n' y, n' <> n -> In y (line (nodes (G b) n')) -> source_of (snd y) <> oc) ->
    (forall t k, In (ECall t k) (history (G b)) -> sends n k <> Some 0x72) -> small n oc (ns b n) (history (G b)) ->
    plain_reads host a oc (msg_tid m) (history (G b)) ->
    (forall s, view oc (ns b n) = Some s -> both R c1 c2 s) ->
    (forall e, In e (history (G b)) -> forall x y, R x y -> R (after n oc e c1 x) (after n oc e c2 y)) ->
    (forall t o, (exists d, In (ECall t (CDeviceObject d n o)) (history (G b))) \/ In (ECall t (CAddObject n o)) (history (G b)) -> object_code o = oc -> both R c1 c2 (data_in o)) ->
    In (EGot t m) (history (G a)) -> host (fst (msg_from m)) = Some b -> m_esv m = 0x72 -> msg_seoj m = oc ->
    In (PProp c1 x) (m_props m) -> In (PProp c2 y) (m_props m) -> R x y.
  Proof.
    intros R c1 c2 x y ns cs xs G a b n oc t m Dn St K Re Ho T Np S1 S2 L0 Ot Nc Sm Pl V F Ad I Hb Es So I1 I2.
    destruct (C122_whole (both R c1 c2) ns cs xs G a b n oc t m Dn St K Re Ho T Np L0 Ot Nc Sm Pl) as (s & Hs & Qt); try assumption.
    - destruct (view oc (ns b n)) as [s|]; [apply V; reflexivity|exact Logic.I].
    - apply Forall_forall. intros e Ie. split.
      + intros s Hs _ x' y'. unfold effect. intros E1 E2. destruct (s c1) as [x0|] eqn:X1; [|discriminate]. destruct (s c2) as [y0|] eqn:X2; [|discriminate].
        cbn [option_map] in E1, E2. injection E1 as <-. injection E2 as <-. apply (F e Ie), Hs; assumption.
      + destruct e as [t' []| |]; try exact Logic.I; intros -> Eo; apply (Ad t' o); eauto.
    - apply Hs; apply Qt; assumption.
  Qed.
End S.

(* ------------------------------------------------------------------ *)
(** ** Cases *)

(** Process 1 is the lamp, which may be on only at full brightness. Process 0 sends
    a write of which the lamp has one property and lacks the other, asks, sends a
    write that switches the lamp on at full brightness, and asks again. *)
Definition h_put (l : list pprop) : message := fold_left msg_add_property l (msg_set_esv (msg_set_deoj msg_new 0x029101) EWriteRequestResponseRequired).
Definition h_ask : message := fold_left msg_add_property [PProp 0x80 []; PProp 0xB0 []] (msg_set_esv (msg_set_deoj msg_new 0x029101) EReadRequest).
Definition x_wholes : client unit := Call (CStart None 0) (fun _ =>
  x_then (h_put [PProp 0x80 [0x31]; PProp 0xC7 [1]]) (x_then h_ask (x_then (h_put [PProp 0x80 [0x31]; PProp 0xB0 [0x64]]) (x_then h_ask Finished)))).
Definition x_two : client unit := Call (CProperty 0 0 0x029101 0xB0) (fun _ => Call (CProperty 0 0 0x029101 0x80) (fun _ => Finished)).
Definition h_xs (i : nat) : list (client unit) := match i with O => [x_wholes] | _ => [x_starts; x_two] end.
Definition h_begins : mesh (U := unit) := gbegins (P := true) (fun _ => ex_order) (fun _ => ex_os) (fun _ => ex_ns) (fun _ => ex_cs) h_xs.
Definition on_bright (s : values) : Prop := (s 0x80 = Some [0x31] -> s 0xB0 = Some [0x64]) /\ s 0xC7 = None.
Definition exchange (b k : nat) := mgos 0 [(0, 9)]%nat ++ mgos 1 [(3, b)]%nat ++ [MGet 1 3 0 0 k peer] ++ mgos 1 [(3, 24)]%nat ++ [MGet 0 2 1 0 k at_lamp] ++ mgos 0 [(2, 7); (0, 3); (2, 6)]%nat.
Definition plan_h := plan_w0 ++ exchange 0 1 ++ exchange 1 2 ++ mgos 1 [(1, 8)]%nat ++ exchange 1 3 ++ mgos 1 [(1, 8)]%nat ++ exchange 3 4.
Lemma h_played (Q : mesh (U := unit) -> Prop) b l : match m_play b l with Some G => Q G | None => False end -> exists G, m_steps b G /\ Q G.
Proof. destruct (m_play b l) as [G|] eqn:E; [|intros []]. intros H. exists G. split; [eapply mplay_sound, E|exact H]. Qed.
Definition h_wrong : message := Eval vm_compute in rcv_from [0x10; 0x81; 0; 2; 0; 0; 0; 0x02; 0x91; 0x01; 0x61; 2; 0x80; 1; 0x31; 0xC7; 1; 1] peer.
Definition h_right : message := Eval vm_compute in rcv_from [0x10; 0x81; 0; 4; 0; 0; 0; 0x02; 0x91; 0x01; 0x61; 2; 0x80; 1; 0x31; 0xB0; 1; 0x64] peer.
Definition h_asked (k : N) : message := rcv_from [0x10; 0x81; 0; k; 0; 0; 0; 0x02; 0x91; 0x01; 0x62; 2; 0x80; 0; 0xB0; 0] peer.
Definition h_answer (k : N) (l : list N) : message := rcv_from ([0x10; 0x81; 0; k; 0x02; 0x91; 0x01; 0; 0; 0; 0x72; 2; 0x80] ++ l) at_lamp.
Definition h_dark : message := Eval vm_compute in h_answer 3 [1; 0x30; 0xB0; 0].
Definition h_bright : message := Eval vm_compute in h_answer 5 [1; 0x31; 0xB0; 1; 0x64].
Definition h_read (c : N) : call unit := CProperty 0 0 0x029101 c.
Definition h_seen : list (event unit) := Eval vm_compute in
  before_set ++ [EGot 3 h_wrong; EGot 3 (h_asked 3); ECall 1 (h_read 0xB0); EReturn 1 (h_read 0xB0) (VData (Some [])); EGot 3 h_right; ECall 1 (h_read 0x80);
    EReturn 1 (h_read 0x80) (VData (Some [0x31])); EGot 3 (h_asked 5)].
Example C122_case : exists G, m_steps h_begins G /\ history (G 1%nat) = h_seen /\ In (EGot 2 h_dark) (history (G 0%nat)) /\ In (EGot 2 h_bright) (history (G 0%nat)) /\
  m_props h_dark = [PProp 0x80 [0x30]; PProp 0xB0 []] /\ m_props h_bright = [PProp 0x80 [0x31]; PProp 0xB0 [0x64]] /\ (forall n, line (nodes (G 1%nat) (S n)) = []).
Proof.
  apply (h_played (fun G => _) h_begins plan_h). vm_compute. repeat split.
  - do 9 right. left. reflexivity.
  - do 19 right. left. reflexivity.
Qed.
(** All premises of the theorems are fulfilled; the first write would break what is
    to be kept, were half of it carried out. *)
Lemma h_kept : Forall (keeps 0 0x029101 on_bright) h_seen.
Proof.
  assert (Id : forall (e : event unit) c x, (forall c x, after 0 0x029101 e c x = x) -> option_map (after 0 0x029101 e c) x = x).
  { intros e c [x|] H; cbn [option_map]; [rewrite H|]; reflexivity. }
  repeat apply Forall_cons; try apply Forall_nil; (split; [|exact Logic.I]); intros s [K C7] Po; unfold on_bright, effect; rewrite ?Id by reflexivity; try (split; [exact K|exact C7]).
  - split; [|rewrite C7; reflexivity]. cbn. destruct (s 128); cbn; discriminate.
  - exfalso. apply Forall_app in Po as [Po _]. inversion Po as [|q l _ Po2]. inversion Po2 as [|q' l' Po3 _]. apply Po3; [|exact C7]. intros [Z|[Z|Z]]; discriminate.
  - split; [|rewrite C7; reflexivity]. intros _. apply Forall_app in Po as [Po _]. inversion Po as [|q l _ Po2]. inversion Po2 as [|q' l' Po3 _].
    cbn in Po3 |- *. destruct (s 176); [reflexivity|]. exfalso. apply Po3; [|reflexivity]. intros [Z|[Z|Z]]; discriminate.
Qed.
Example C122_case_premises : down ex_ns /\ calls_ok (P := true) (HO := ex_order) h_seen /\
  (let '(u, x, w) := ex_ns 0 in reachable (P := true) (HO := ex_order) (O := ex_os) u x w) /\
  Forall hands_off (n_handlers (snd (fst (ex_ns 0)))) /\ tame_calls 0 h_seen /\ line (ex_ns 0) = [] /\
  (forall t k, In (ECall t k) h_seen -> sends 0 k <> Some 0x72) /\ small 0 0x029101 (ex_ns 0) h_seen /\
  plain_reads m_host 0 0x029101 3 h_seen /\ plain_reads m_host 0 0x029101 5 h_seen /\
  match view 0x029101 (ex_ns 0) with Some s => on_bright s | None => True end /\ Forall (keeps 0 0x029101 on_bright) h_seen /\
  m_esv h_bright = 0x72 /\ msg_seoj h_bright = 0x029101 /\ msg_tid h_bright = 5 /\ m_host (fst (msg_from h_bright)) = Some 1%nat.
Proof.
  pose proof C117_case_premises as (Dn & Up & _ & Re & Ho & _ & Sc & L0 & _ & Sm & Se & _). split; [exact Dn|]. split.
  { intros t c I. repeat (destruct I as [I|I]; [inversion I; subst; cbn; try exact Logic.I; repeat constructor; fail|]). destruct I. }
  split; [exact Re|]. split; [exact Ho|].
  split; [intros t c I; repeat (destruct I as [I|I]; [inversion I; subst; exact Logic.I|]); destruct I|]. split; [exact L0|].
  split; [intros t k I; repeat (destruct I as [I|I]; [inversion I; subst; discriminate|]); destruct I|]. split.
  { split; [exact (proj1 Sm)|]. intros t k c y I. repeat (destruct I as [I|I]; [inversion I; subst; cbn; try (intros []; fail)|]); [|destruct I].
    intros (_ & [[_ ->]|[_ ->]]); cbn; lia. }
  assert (St : forall c, c = 0x80 \/ c = 0xB0 \/ c = 0xC7 -> stored c) by (intros c [->|[->| ->]] [Z|[Z|Z]]; discriminate).
  split; [intros t m I; repeat (destruct I as [I|I]; [inversion I; subst; cbn; intros; repeat apply Forall_cons; try apply Forall_nil; apply St; cbn; auto|]); destruct I|].
  split; [intros t m I; repeat (destruct I as [I|I]; [inversion I; subst; cbn; intros; repeat apply Forall_cons; try apply Forall_nil; apply St; cbn; auto|]); destruct I|].
  split; [|split; [exact h_kept|vm_compute; auto]].
  assert (V : exists o, find_object (n_objects (snd (fst (ex_ns 0)))) 0x029101 = Some o /\ data_in o 0x80 <> Some [0x31] /\ data_in o 0xC7 = None).
  { eexists. split; [vm_compute; reflexivity|]. split; [vm_compute; discriminate|vm_compute; reflexivity]. }
  destruct V as (o & Eo & V1 & V2). unfold view. rewrite Eo. split; [contradiction|exact V2].
Qed.

(** The same without the first write, for [C122_pair]. *)
Definition x_pair : client unit := Call (CStart None 0) (fun _ => x_then (h_put [PProp 0x80 [0x31]; PProp 0xB0 [0x64]]) (x_then h_ask Finished)).
Definition p_begins : mesh (U := unit) := gbegins (P := true) (fun _ => ex_order) (fun _ => ex_os) (fun _ => ex_ns) (fun _ => ex_cs) (fun i => match i with O => [x_pair] | _ => [x_starts; x_two] end).
Definition p_right : message := Eval vm_compute in rcv_from [0x10; 0x81; 0; 2; 0; 0; 0; 0x02; 0x91; 0x01; 0x61; 2; 0x80; 1; 0x31; 0xB0; 1; 0x64] peer.
Definition p_asked : message := Eval vm_compute in h_asked 3.
Definition p_bright : message := Eval vm_compute in h_answer 3 [1; 0x31; 0xB0; 1; 0x64].
Definition full (x y : list N) : Prop := x = [0x31] -> y = [0x64].
Example C122_case_pair : exists G, m_steps p_begins G /\ history (G 1%nat) = before_set ++ [EGot 3 p_right; EGot 3 p_asked] /\ In (EGot 2 p_bright) (history (G 0%nat)) /\
  (forall s, view 0x029101 (ex_ns 0) = Some s -> both full 0x80 0xB0 s) /\
  (forall e, In e (history (G 1%nat)) -> forall x y, full x y -> full (after 0 0x029101 e 0x80 x) (after 0 0x029101 e 0xB0 y)).
Proof.
  assert (E : exists G, m_steps p_begins G /\ history (G 1%nat) = before_set ++ [EGot 3 p_right; EGot 3 p_asked] /\ In (EGot 2 p_bright) (history (G 0%nat))).
  { apply (h_played (fun G => _) p_begins (plan_w0 ++ exchange 0 1 ++ exchange 3 2)). vm_compute. split; [reflexivity|]. do 9 right. left. reflexivity. }
  destruct E as (G & St & Eh & I). exists G. split; [exact St|]. split; [exact Eh|]. split; [exact I|]. split.
  - pose proof C122_case_premises as (_ & _ & _ & _ & _ & _ & _ & _ & _ & _ & V & _). intros s Es. rewrite Es in V. destruct V as [V _]. intros x y E1 E2 ->. specialize (V E1). rewrite V in E2. injection E2 as <-. reflexivity.
  - rewrite Eh. intros e Ie x y F. repeat (destruct Ie as [<-|Ie]; [first [exact F|intros Z; first [reflexivity|discriminate Z]]|]). destruct Ie.
Qed.

(** The application of the device itself cannot read two properties at once: each
    call of property() is a moment of its own, and a message may be carried out
    between two of them. *)
Theorem C122_calls_refuted : ~ (forall G t x y h1 h2 h3, m_steps h_begins G -> Forall (keeps 0 0x029101 on_bright) (history (G 1%nat)) ->
  history (G 1%nat) = h1 ++ EReturn t (h_read 0xB0) (VData (Some y)) :: h2 ++ EReturn t (h_read 0x80) (VData (Some x)) :: h3 ->
  Forall (fun e => who e = t -> e = ECall t (h_read 0x80)) h2 -> exists s, on_bright s /\ s 0x80 = Some x /\ s 0xB0 = Some y).
Proof.
  intros H. destruct C122_case as (G & St & Eh & _).
  destruct (H G 1%nat [0x31] [] (before_set ++ [EGot 3 h_wrong; EGot 3 (h_asked 3); ECall 1 (h_read 0xB0)]) [EGot 3 h_right; ECall 1 (h_read 0x80)] [EGot 3 (h_asked 5)] St) as (s & [B _] & E1 & E2).
  - rewrite Eh. exact h_kept.
  - rewrite Eh. vm_compute. reflexivity.
  - repeat apply Forall_cons; try apply Forall_nil; [discriminate|reflexivity].
  - rewrite (B E1) in E2. discriminate.
Qed.
Print Assumptions C122_whole.
Print Assumptions C122_pair.
Print Assumptions C122_calls_refuted.
