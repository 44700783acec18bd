(** Reads across a network of processes (C117). *)
From Verif Require Import Base HMap ModelCodec ModelMessages ModelObject ModelTransport ModelNode ModelController ModelDevice ModelThreads
  SpecWire SpecObject SpecNode SpecThreads ProofsCodec ProofsCodec2 ProofsObject ProofsNode ProofsNode2 ProofsNode3 PropertiesObject PropertiesTrans PropertiesNode PropertiesDevice
  ProofsThreads ProofsThreads2 PropertiesThreads PropertiesThreads4 ProofsThreads6 ExamplesNode ProofsClients ProofsLines SpecWait ProofsThreads5
  SpecShared ProofsShared ProofsShared2 ProofsShared3 PropertiesShared SpecMesh ProofsMesh ProofsMesh2.
From Verif Require ModelLocks.

Section S.
  Context {U : Type} {P : Profile} (HO : nat -> HashOrder) (Os : nat -> OS) (Uu : nat -> Uuids) (db : nat -> list object) (what : nat -> observer -> obs)
    (host : ipaddr -> option nat).
  Notation gsteps := (gsteps (U := U) HO Os Uu db what host). Notation gbegins := (gbegins (U := U) HO Os).
  Implicit Types (G : mesh (U := U)).

  (** An answer which process [a] got from process [b]: when and what it answered,
      and what the device held then. *)
  Lemma answered ns cs xs G a b n oc t m : (forall i, down (ns i)) -> gsteps (gbegins ns cs xs) G ->
    calls_ok (HO := HO b) (history (G b)) -> (let '(u, x, w) := ns b n in reachable (HO := HO b) (O := Os b) u x w) -> Forall hands_off (n_handlers (snd (fst (ns b n)))) ->
    tame_calls n (history (G b)) -> oc <> 0x0EF001 -> line (ns b n) = [] ->
    (forall n' y, n' <> n -> In y (line (nodes (G b) n')) -> source_of (snd y) <> oc) ->
    (forall t k, In (ECall t k) (history (G b)) -> sends n k <> Some 0x72) -> small n oc (ns b n) (history (G b)) ->
    In (EGot t m) (history (G a)) -> host (fst (msg_from m)) = Some b -> m_esv m = 0x72 -> msg_seoj m = oc ->
    plain_reads host a oc (msg_tid m) (history (G b)) ->
    exists d d1 p t1 m1 s, ssteps n oc (fresh oc (ns b n)) d /\ past d = history (G b) /\ ssteps n oc (fresh oc (ns b n)) d1 /\ past d = past d1 ++ p /\
      In (EGot t1 m1) (past d1) /\ host (fst (msg_from m1)) = Some a /\ (msg_tid m1 = 0 \/ msg_tid m1 = msg_tid m) /\
      contents d1 = Some s /\ Forall2 (tells s) (m_props m1) (m_props m).
  Proof.
    intros Dn St K R Ho T Np L0 Ot Nc Sm I Hb Es So Pl.
    destruct (all_genuine HO Os Uu db what host ns cs xs G a t m St I) as [_ Ge]. destruct (Ge b Hb) as (data & m0 & (n' & to & Iy & To) & Od & Pa & Em). clear Ge.
    destruct (parsed_header data m0 Od Pa) as (f & rest & _ & _ & _ & Ht & Hs & Hv).
    assert (Sq : source_of data = oc) by (rewrite <- Hs, <- So, Em; reflexivity). assert (Ep0 : m_props m = m_props m0) by (rewrite Em; reflexivity).
    destruct (Nat.eq_dec n' n) as [->|Ne]; [|destruct (Ot n' _ Ne Iy Sq)].
    pose proof (gsteps_steps HO Os Uu db what host _ _ St b) as Sb. pose proof (of_app_all (HO := HO b) (Os := Os b) (Uu := Uu b) (db b) (what b) true (ns b) (cs b) (xs b) (G b) (Dn b) Sb) as O.
    destruct (lines (HO := HO b) (O := Os b) (Uu := Uu b) (db b) (what b) true (ns b) (cs b) (xs b) (G b) (Dn b) Sb) as (ab & A & Re & Li). pose proof (r_hist _ _ _ Re) as Eh.
    assert (K' := K). assert (T' := T). rewrite <- Eh in K', T', O.
    destruct (joined_all (db b) (what b) true n oc (ns b) (cs b) (length (xs b)) ab Np R Ho A K' T' O) as (d & S1 & Ep & _ & Wi & _).
    rewrite Eh in Ep. apply (Li n) in Iy. rewrite <- Wi in Iy.
    assert (Tm0 : msg_tid m = msg_tid m0) by (rewrite Em; reflexivity). assert (Es0 : m_esv m0 = 0x72) by (rewrite <- Es, Em; reflexivity). assert (So0 : msg_seoj m0 = oc) by (rewrite <- So, Em; reflexivity).
    rewrite Tm0 in Pl |- *. rewrite Ep0.
    destruct (told HO Os Uu db what host ns cs xs G a b n oc to data m0 (fresh oc (ns b n)) d [] St (ss_refl n oc _) S1) as (d1 & p & t1 & m1 & s & X);
      [rewrite app_nil_r; symmetry; exact Ep|exact Iy|unfold fresh; cbn; rewrite L0; intros []|exact Od|exact Pa|exact Es0|exact So0|exact To|exact Nc|exact Sm|exact Pl|].
    exists d, d1, p, t1, m1, s. split; [exact S1|]. split; [exact Ep|exact X].
  Qed.

  (** ** C117: Reads over the network are fresh *)

  (** In process [b] the call to set_property has returned true; process [a] has so
      far sent nothing with the TID [k], or without one. Then every answer with the
      TID [k] which [a] ever gets from [b] carries what was written, unless something
      that writes the same property was under way or has begun since. *)
  Theorem C117_fresh : forall ns cs xs G1 G2 a b n oc t d c x h1 h2 h3 h4 t' m k, (forall i, down (ns i)) -> gsteps (gbegins ns cs xs) G1 -> gsteps G1 G2 ->
    calls_ok (HO := HO b) (history (G2 b)) -> (let '(u, x, w) := ns b n in reachable (HO := HO b) (O := Os b) u x w) -> Forall hands_off (n_handlers (snd (fst (ns b n)))) ->
    tame_calls n (history (G2 b)) -> oc <> 0x0EF001 -> stored c -> line (ns b n) = [] ->
    (forall n' y, n' <> n -> In y (line (nodes (G2 b) n')) -> source_of (snd y) <> oc) ->
    (forall t k, In (ECall t k) (history (G2 b)) -> sends n k <> Some 0x72) -> small n oc (ns b n) (history (G2 b)) ->
    history (G1 b) = h1 ++ ECall t (CSetProperty d n oc c x) :: h2 ++ EReturn t (CSetProperty d n oc c x) (VBool true) :: h3 ->
    history (G2 b) = history (G1 b) ++ h4 -> settled n oc c h1 -> Forall (fun e => ~ changes n oc c e) (h2 ++ h3 ++ h4) ->
    (forall n' y, In y (line (nodes (G1 a) n')) -> tid_of (snd y) <> 0 /\ tid_of (snd y) <> k) -> plain_reads host a oc k (history (G2 b)) ->
    In (EGot t' m) (history (G2 a)) -> host (fst (msg_from m)) = Some b -> m_esv m = 0x72 -> msg_seoj m = oc -> msg_tid m = k ->
    forall q, In q (m_props m) -> pp_code q = c -> pp_data q = x.
  Proof.
    intros ns cs xs G1 G2 a b n oc t d c x h1 h2 h3 h4 t' m k Dn St1 St2 K R Ho T Np Sc L0 Ot Nc Sm E1 E2 Se F Nk Pl I Hb Es So Tk. rewrite <- Tk in Nk, Pl.
    pose proof (gsteps_trans HO Os Uu db what host _ _ _ St1 St2) as St.
    destruct (answered ns cs xs G2 a b n oc t' m Dn St K R Ho T Np L0 Ot Nc Sm I Hb Es So Pl) as (z & z1 & p & t1 & m1 & s & S1 & Ep & S2 & Ep1 & I1 & Ha & T1 & Ec & F2).
    assert (E : past z = h1 ++ ECall t (CSetProperty d n oc c x) :: h2 ++ EReturn t (CSetProperty d n oc c x) (VBool true) :: h3 ++ h4)
      by (rewrite Ep, E2, E1; repeat (rewrite <- ?app_assoc, <- ?app_comm_cons); reflexivity).
    apply (told_fresh s c x _ _ F2 Sc). assert (V : value (contents z1) c = Some x); [|rewrite Ec in V; exact V].
    apply (fresh_after n oc (fresh oc (ns b n)) z z1 p t d c x h1 h2 (h3 ++ h4) t1 m1 (fun _ => eq_refl) eq_refl S2 Ep1 Sc Se E F I1). intros J.
    assert (J1 : In (EGot t1 m1) (history (G1 b))).
    { rewrite E1. apply in_app_or in J as [J|J]; apply in_or_app; [left; exact J|right]. right. apply in_or_app. left. exact J. }
    destruct (all_genuine HO Os Uu db what host ns cs xs G1 b t1 m1 St1 J1) as [_ Ge]. destruct (Ge a Ha) as (data & m0 & (n' & to & Iy & _) & Od & Pa & Em).
    destruct (parsed_header data m0 Od Pa) as (f & rest & _ & _ & _ & Ht & _). assert (Tm : msg_tid m1 = tid_of data) by (rewrite Em; exact Ht).
    destruct (Nk n' _ Iy) as [Z1 Z2]. cbn [snd] in Z1, Z2. rewrite Tm in T1. destruct T1; contradiction.
  Qed.

  (** So the receiver of a post gets what was written, if nobody else sends such
      answers: in whatever thread, whenever it looks. *)
  Theorem C117_receiver : forall ns cs xs G1 G2 a b n oc t d c x h1 h2 h3 h4 t' n' ch m k, (forall i, down (ns i)) -> gsteps (gbegins ns cs xs) G1 -> gsteps G1 G2 ->
    calls_ok (HO := HO b) (history (G2 b)) -> (let '(u, x, w) := ns b n in reachable (HO := HO b) (O := Os b) u x w) -> Forall hands_off (n_handlers (snd (fst (ns b n)))) ->
    tame_calls n (history (G2 b)) -> oc <> 0x0EF001 -> stored c -> line (ns b n) = [] ->
    (forall n' y, n' <> n -> In y (line (nodes (G2 b) n')) -> source_of (snd y) <> oc) ->
    (forall t k, In (ECall t k) (history (G2 b)) -> sends n k <> Some 0x72) -> small n oc (ns b n) (history (G2 b)) ->
    history (G1 b) = h1 ++ ECall t (CSetProperty d n oc c x) :: h2 ++ EReturn t (CSetProperty d n oc c x) (VBool true) :: h3 ->
    history (G2 b) = history (G1 b) ++ h4 -> settled n oc c h1 -> Forall (fun e => ~ changes n oc c e) (h2 ++ h3 ++ h4) ->
    (forall n' y, In y (line (nodes (G1 a) n')) -> tid_of (snd y) <> 0 /\ tid_of (snd y) <> k) -> plain_reads host a oc k (history (G2 b)) ->
    unposted (ns a n') -> calls_ok (HO := HO a) (history (G2 a)) ->
    (forall t m, In (EGot t m) (history (G2 a)) -> m_esv m = 0x72 -> msg_seoj m = oc -> msg_tid m = k -> host (fst (msg_from m)) = Some b) ->
    In (EReturn t' (CWait n' ch) (VGot (Some m))) (history (G2 a)) -> m_esv m = 0x72 -> msg_seoj m = oc -> msg_tid m = k ->
    forall q, In q (m_props m) -> pp_code q = c -> pp_data q = x.
  Proof.
    intros ns cs xs G1 G2 a b n oc t d c x h1 h2 h3 h4 t' n' ch m k Dn St1 St2 K R Ho T Np Sc L0 Ot Nc Sm E1 E2 Se F Nk Pl Up Ka On I Es So Tk.
    pose proof (gsteps_trans HO Os Uu db what host _ _ _ St1 St2) as St. pose proof (gsteps_steps HO Os Uu db what host _ _ St a) as Sa.
    destruct (in_split _ _ I) as (g1 & g2 & Eg).
    destruct (C113_received (HO := HO a) (Os := Os a) (Uu := Uu a) (db a) (what a) true (ns a) (cs a) (xs a) (G2 a) n' g1 t' ch m g2 (Dn a) Up Sa Ka Eg) as (_ & t2 & m2 & I2 & Ct & Cs & _ & Ce & _ & Cp).
    assert (I2' : In (EGot t2 m2) (history (G2 a))) by (rewrite Eg; apply in_or_app; auto). rewrite Ce in Es. rewrite Cs in So. rewrite Ct in Tk.
    assert (Ep : m_props m = m_props m2) by (apply Cp; rewrite Ce, Es; intros [Z|[Z|Z]]; discriminate). rewrite Ep.
    exact (C117_fresh ns cs xs G1 G2 a b n oc t d c x h1 h2 h3 h4 t2 m2 k Dn St1 St2 K R Ho T Np Sc L0 Ot Nc Sm E1 E2 Se F Nk Pl I2' (On _ _ I2' Es So Tk) Es So Tk).
  Qed.

  (** Whatever [a] gets was in the device of [b] from the beginning, or was put there
      by a call that had begun there, or a message that had arrived. *)
  Theorem C117_origin : forall ns cs xs G a b n oc t m c y, (forall i, down (ns i)) -> gsteps (gbegins ns cs xs) G ->
    calls_ok (HO := HO b) (history (G b)) -> (let '(u, x, w) := ns b n in reachable (HO := HO b) (O := Os b) u x w) -> Forall hands_off (n_handlers (snd (fst (ns b n)))) ->
    tame_calls n (history (G b)) -> oc <> 0x0EF001 -> stored c -> line (ns b n) = [] ->
    (forall n' y, n' <> n -> In y (line (nodes (G b) n')) -> source_of (snd y) <> oc) ->
    (forall t k, In (ECall t k) (history (G b)) -> sends n k <> Some 0x72) -> small n oc (ns b n) (history (G b)) -> plain_reads host a oc (msg_tid m) (history (G b)) ->
    In (EGot t m) (history (G a)) -> host (fst (msg_from m)) = Some b -> m_esv m = 0x72 -> msg_seoj m = oc -> In (PProp c y) (m_props m) ->
    value (view oc (ns b n)) c = Some y \/ exists e, In e (history (G b)) /\ origin n oc c y e.
  Proof.
    intros ns cs xs G a b n oc t m c y Dn St K R Ho T Np Sc L0 Ot Nc Sm Pl I Hb Es So Iq.
    destruct (answered ns cs xs G a b n oc t m Dn St K R Ho T Np L0 Ot Nc Sm I Hb Es So Pl) as (z & z1 & p & t1 & m1 & s & S1 & Ep & S2 & Ep1 & I1 & Ha & T1 & Ec & F2).
    assert (V : s c = Some y).
    { clear - F2 Iq Sc. induction F2 as [|q q' qs qs' [Qc Qd] F2 IH]; [destruct Iq|]. destruct Iq as [->|Iq]; [|apply IH, Iq]. cbn [pp_code pp_data] in *. rewrite <- Qc in Qd.
      destruct Qd as [Qd|Qd]; [contradiction|exact Qd]. }
    destruct (value_origin n oc (fresh oc (ns b n)) z1 c y (fun _ => eq_refl) S2) as [X|(e & Ie & X)]; [rewrite Ec; exact V|left; exact X|right].
    exists e. split; [|exact X]. rewrite <- Ep, Ep1. apply in_or_app. auto.
  Qed.
End S.

(* ------------------------------------------------------------------ *)
(** ** Cases *)

Section Play.
  Context {U : Type} {P : Profile} (HO : nat -> HashOrder) (Os : nat -> OS) (Uu : nat -> Uuids) (db : nat -> list object) (what : nat -> observer -> obs)
    (host : ipaddr -> option nat).
  Notation mesh := (mesh (U := U)).
  (** A thread of a process goes on; the network brings datagram [k] of a node of
      another process to a receive thread. *)
  Inductive mmove := MGo (i t : nat) | MGet (i t j n k : nat) (from : sockaddr).
  Definition is_host (x : option nat) (i : nat) : bool := match x with Some j => Nat.eqb j i | None => false end.
  Definition not_group (x : ipaddr) : bool := match x with V4 v => v <? 0xE0000000 | _ => false end.
  Definition is_group (x : sockaddr) : bool := match x with (V4 v, p) => (v =? 0xE0001700) && (p =? 3610) | _ => false end.
  Lemma is_group_eq x : is_group x = true -> x = group.
  Proof. destruct x as [[v|v] p]; cbn; [|discriminate]. intros E. apply andb_true_iff in E as [E1 E2]. apply N.eqb_eq in E1 as ->, E2 as ->. reflexivity. Qed.
  Definition mmoves (G : mesh) (x : mmove) : option mesh :=
    match x with
    | MGo i t => option_map (replace G i) (next_step (HO := HO i) (Os := Os i) (Uu := Uu i) (db i) (what i) (G i) t)
    | MGet i t j n k from =>
        match nth_error (line (nodes (G j) n)) k with
        | Some (to, data) =>
            if is_host (host (fst from)) j && (is_host (host (fst to)) i || is_group to) && not_group (fst from) && forallb (fun b => b <? 256) data
            then option_map (replace G i) (arrives (G i) t data from) else None
        | None => None
        end
    end.
  Fixpoint mplay (G : mesh) (l : list mmove) : option mesh :=
    match l with [] => Some G | x :: r => match mmoves G x with Some G' => mplay G' r | None => None end end.
  Lemma mmoves_sound G x G' : mmoves G x = Some G' -> gstep HO Os Uu db what host G G'.
  Proof.
    destruct x as [i t|i t j n k from]; cbn [mmoves].
    - destruct (next_step _ _ _ _) as [s|] eqn:E; [|discriminate]. intros [= <-]. constructor.
      + eapply next_step_sound, E.
      + intros t' m Eh. exfalso. pose proof (next_step_sound (HO := HO i) (Os := Os i) (Uu := Uu i) (db i) (what i) false (G i) t s E) as St.
        assert (L : forall A (l : list A) x, l <> l ++ [x]) by (intros A l x Z; apply (f_equal (@length _)) in Z; rewrite app_length in Z; cbn in Z; lia).
        inversion St; subst s; cbn in Eh; try (eapply L; exact Eh); try discriminate; apply app_inj_tail in Eh as [_ Eh]; discriminate.
    - destruct (nth_error _ k) as [[to data]|] eqn:Nk; [|discriminate].
      destruct (is_host (host (fst from)) j && (is_host (host (fst to)) i || is_group to) && not_group (fst from) && forallb (fun b => b <? 256) data) eqn:C; [|discriminate].
      apply andb_true_iff in C as [C Oc]. apply andb_true_iff in C as [C Ng]. apply andb_true_iff in C as [Hj Hi].
      assert (Od : octets data) by (apply Forall_forall; intros y Y; rewrite forallb_forall in Oc; apply N.ltb_lt, Oc, Y).
      destruct (arrives (G i) t data from) as [s|] eqn:E; [|discriminate]. intros [= <-]. constructor; [eapply arrives_sound, E|].
      intros t' m Eh. unfold arrives in E. destruct (threads (G i) t) as [[]| | |]; try discriminate.
      destruct (msg_parse _ _) as [[[] m0]|] eqn:M; try discriminate. rewrite Oc in E. injection E as <-. cbn in Eh. apply app_inj_tail in Eh as [_ Eh]. injection Eh as <- <-.
      split; [change (msg_from (msg_set_from m0 from)) with from; intros Z; rewrite Z in Ng; discriminate|].
      change (msg_from (msg_set_from m0 from)) with from. intros i' Hi'. unfold is_host in Hj, Hi. rewrite Hi' in Hj. apply Nat.eqb_eq in Hj as ->.
      exists data, m0. split; [|auto]. exists n, to. split; [exact (nth_error_In _ _ Nk)|]. apply orb_true_iff in Hi as [Hi|Hi]; [left|right; apply is_group_eq, Hi]. destruct (host (fst to)) as [j'|]; [|discriminate]. apply Nat.eqb_eq in Hi as ->. reflexivity.
  Qed.
  Lemma mplay_sound l : forall G G', mplay G l = Some G' -> gsteps HO Os Uu db what host G G'.
  Proof.
    induction l as [|x r IH] using rev_ind; intros G G' E; [inversion E; constructor|].
    assert (S1 : exists G1, mplay G r = Some G1 /\ mmoves G1 x = Some G').
    { clear IH. revert G E. induction r as [|y r IH]; intros G E; cbn [mplay app] in *; [exists G; destruct (mmoves G x); [split; [reflexivity|congruence]|discriminate]|].
      destruct (mmoves G y) as [G1|]; [|discriminate]. apply IH, E. }
    destruct S1 as (G1 & E1 & E2). econstructor; [apply IH, E1|eapply mmoves_sound, E2].
  Qed.
End Play.

(** Process 1 is the lamp, at 192.168.0.10; process 0, at 192.168.0.20, is another
    one like it, which asks the lamp. *)
Definition at_lamp : sockaddr := (V4 0xC0A8000A, 3610).
Definition m_host (x : ipaddr) : option nat :=
  match x with V4 v => if v =? 0xC0A80014 then Some 0%nat else if v =? 0xC0A8000A then Some 1%nat else None | _ => None end.
Definition x_asker : client unit :=
  Call (CStart None 0) (fun _ => Call (CPost 0 at_lamp m_ask) (fun v => match v with VPosted ch _ => Call (CWait 0 ch) (fun _ => Finished) | _ => Finished end)).
Definition x_lamp : client unit := Call (CStart (Some 0%nat) 0) (fun _ => Call c_set (fun _ => Finished)).
Definition m_xs (i : nat) : list (client unit) := match i with O => [x_asker] | _ => [x_lamp; x_reads] end.
Definition m_begins : mesh (U := unit) := gbegins (P := true) (fun _ => ex_order) (fun _ => ex_os) (fun _ => ex_ns) (fun _ => ex_cs) m_xs.
Definition m_play := mplay (U := unit) (P := true) (fun _ => ex_order) (fun _ => ex_os) (fun _ => ex_uuids) (fun _ => []) (fun _ => ex_what) m_host.
Definition mgos (i : nat) (l : list (nat * nat)) : list mmove := flat_map (fun '(t, k) => repeat (MGo i t) k) l.
Definition plan_m1 := mgos 1 [(0, 39); (3, 1); (0, 9)]%nat ++ mgos 0 [(0, 37); (2, 1)]%nat.
Definition plan_m2 := mgos 0 [(0, 9)]%nat ++ [MGet 1 3 0 0 1 peer] ++ mgos 1 [(3, 22)]%nat ++ [MGet 0 2 1 0 1 at_lamp] ++ mgos 0 [(2, 7); (0, 3)]%nat.
Definition m_steps := gsteps (U := unit) (P := true) (fun _ => ex_order) (fun _ => ex_os) (fun _ => ex_uuids) (fun _ => []) (fun _ => ex_what) m_host.
Lemma m_played (Q : mesh (U := unit) -> mesh (U := unit) -> Prop) l1 l2 :
  match m_play m_begins l1 with Some G1 => match m_play G1 l2 with Some G2 => Q G1 G2 | None => False end | None => False end ->
  exists G1 G2, m_steps m_begins G1 /\ m_steps G1 G2 /\ Q G1 G2.
Proof.
  destruct (m_play m_begins l1) as [G1|] eqn:E1; [|intros []]. destruct (m_play G1 l2) as [G2|] eqn:E2; [|intros []]. intros H. exists G1, G2.
  split; [eapply mplay_sound, E1|]. split; [eapply mplay_sound, E2|exact H].
Qed.
Definition rcv_from (bs : list N) (from : sockaddr) : message := msg_set_from (snd (the (false, msg_new) (msg_parse msg_new bs))) from.
Definition m_request : message := Eval vm_compute in rcv_from [0x10; 0x81; 0; 2; 0; 0; 0; 0x02; 0x91; 0x01; 0x62; 1; 0x80; 0] peer.
Definition m_answer (x : N) : message := rcv_from [0x10; 0x81; 0; 2; 0x02; 0x91; 0x01; 0; 0; 0; 0x72; 1; 0x80; 1; x] at_lamp.
Definition m_announce : datagram := (group, [0x10; 0x81; 0; 1; 0x0E; 0xF0; 1; 0x0E; 0xF0; 1; 0x73; 1; 0xD5; 4; 1; 0x02; 0x91; 1]).
Definition m_got (h : list (event unit)) : list (nat * list pprop) :=
  flat_map (fun e => match e with EGot t m | EReturn t _ (VGot (Some m)) => [(t, m_props m)] | _ => [] end) h.
(** The lamp is written; then process 0 posts with the TID 2, the lamp gets the
    request and answers, process 0 gets the answer, and its thread 0 takes it from
    the receiver of the post. *)
Example C117_case : exists G1 G2, m_steps m_begins G1 /\ m_steps G1 G2 /\
  history (G1 1%nat) = before_set ++ ECall 0 c_set :: [] ++ EReturn 0 c_set (VBool true) :: [] /\
  history (G2 1%nat) = history (G1 1%nat) ++ [EGot 3 m_request] /\
  In (EGot 2 (m_answer 0x31)) (history (G2 0%nat)) /\ m_got (history (G2 0%nat)) = [(2%nat, [PProp 0x80 [0x31]]); (0%nat, [PProp 0x80 [0x31]])] /\
  (line (nodes (G1 0%nat) 0) = [m_announce] /\ forall n, line (nodes (G1 0%nat) (S n)) = []) /\ (forall n, line (nodes (G2 1%nat) (S n)) = []).
Proof.
  apply (m_played (fun G1 G2 => _) plan_m1 plan_m2). vm_compute. repeat split. do 4 right. left. reflexivity.
Qed.
(** All premises of the theorems are fulfilled. *)
Definition lamp_seen : list (event unit) := before_set ++ ECall 0 c_set :: EReturn 0 c_set (VBool true) :: [EGot 3 m_request].
Example C117_case_premises : down ex_ns /\ unposted (ex_ns 0) /\ calls_ok (P := true) (HO := ex_order) lamp_seen /\
  (let '(u, x, w) := ex_ns 0 in reachable (P := true) (HO := ex_order) (O := ex_os) u x w) /\
  Forall hands_off (n_handlers (snd (fst (ex_ns 0)))) /\ tame_calls 0 lamp_seen /\ stored 0x80 /\ line (ex_ns 0) = [] /\
  (forall t k, In (ECall t k) lamp_seen -> sends 0 k <> Some 0x72) /\ small 0 0x029101 (ex_ns 0) lamp_seen /\
  settled 0 0x029101 0x80 before_set /\ Forall (fun e => ~ changes 0 0x029101 0x80 e) ([] ++ [] ++ [EGot (U := unit) 3 m_request]) /\
  plain_reads m_host 0 0x029101 2 lamp_seen /\ (tid_of (snd m_announce) = 1 /\ m_host (fst (msg_from (m_answer 0x31))) = Some 1%nat) /\
  m_esv (m_answer 0x31) = 0x72 /\ msg_seoj (m_answer 0x31) = 0x029101 /\ msg_tid (m_answer 0x31) = 2.
Proof.
  pose proof C116_case_premises as (Dn & _ & Re & Ho & _ & Sc & Se & _). split; [exact Dn|]. split; [exact ex_unposted|]. split.
  { intros t c I. repeat (destruct I as [I|I]; [inversion I; subst; cbn; try exact Logic.I; repeat constructor; fail|]). destruct I. }
  split; [exact Re|]. split; [exact Ho|].
  split; [intros t c I; repeat (destruct I as [I|I]; [inversion I; subst; exact Logic.I|]); destruct I|]. split; [exact Sc|]. split; [vm_compute; reflexivity|].
  split; [intros t k I; repeat (destruct I as [I|I]; [inversion I; subst; discriminate|]); destruct I|]. split.
  { split.
    - assert (V : exists o, find_object (n_objects (snd (fst (ex_ns 0)))) 0x029101 = Some o /\ forallb (fun p => Nat.leb (length (p_data (snd p))) 255) (o_props o) = true).
      { eexists. split; [vm_compute; reflexivity|vm_compute; reflexivity]. }
      destruct V as (o & Eo & Sh). intros c y. unfold view. rewrite Eo. cbn [option_map value]. unfold data_in. destruct (_ || _); [discriminate|].
      destruct (object_find_property o c) as [q|] eqn:E; [|discriminate]. intros [= <-]. unfold object_find_property in E. clear Eo.
      revert Sh E. generalize (o_props o). intros l. induction l as [|[k v] r IH]; cbn [forallb hget snd]; [discriminate|]. intros Sh. apply andb_true_iff in Sh as [S1 S2].
      destruct (c =? k); [intros [= ->]; apply Nat.leb_le, S1|apply IH, S2].
    - intros t k c y I. repeat (destruct I as [I|I]; [inversion I; subst; cbn; try (intros []; fail)|]); [| |destruct I].
      + intros (_ & [[_ ->]|[_ ->]]); cbn; lia.
      + intros (_ & _ & _ & <-). cbn. lia. }
  split; [exact Se|]. split; [repeat constructor; intros [_ []]|]. split; [|vm_compute; auto].
  intros t m I. repeat (destruct I as [I|I]; [inversion I; subst; cbn; intros; repeat constructor; exact Sc|]). destruct I.
Qed.

(** The premise about TIDs is needed: process 0 has asked, and the lamp answered,
    before the lamp is written; the answer is late. *)
Definition plan_l1 := mgos 1 [(0, 39); (3, 1)]%nat ++ mgos 0 [(0, 37); (2, 1); (0, 9)]%nat ++ [MGet 1 3 0 0 1 peer] ++ mgos 1 [(3, 22); (0, 9)]%nat.
Definition plan_l2 := [MGet 0 2 1 0 1 at_lamp] ++ mgos 0 [(2, 7); (0, 3)]%nat.
Example C117_case_late : exists G1 G2, m_steps m_begins G1 /\ m_steps G1 G2 /\
  history (G1 1%nat) = (before_set ++ [EGot 3 m_request]) ++ ECall 0 c_set :: [] ++ EReturn 0 c_set (VBool true) :: [] /\ history (G2 1%nat) = history (G1 1%nat) /\
  m_got (history (G1 0%nat)) = [] /\ m_got (history (G2 0%nat)) = [(2%nat, [PProp 0x80 [0x30]]); (0%nat, [PProp 0x80 [0x30]])].
Proof. apply (m_played (fun G1 G2 => _) plan_l1 plan_l2). vm_compute. repeat split. Qed.
Print Assumptions C117_fresh.
Print Assumptions C117_receiver.
Print Assumptions C117_origin.
