(** C148: a property holds only data that the standard allows for it. *)
From Verif Require Import Base HMap ModelCodec ModelMessages DbTable ModelObject ModelTransport ModelNode
  SpecWire SpecObject SpecNode ProofsCodec ProofsObject ProofsNode ProofsNode2 ProofsNode3 ProofsNode4 ExamplesNode PropertiesNode ProofsObject2 ProofsObject3 PropertiesDb.

(** The data have the size of the property. A capacity of 0 stands for any size. The
    property maps are left out, their data are computed. *)
Definition right_size (p : prop) : Prop := p_cap p = 0 \/ N.of_nat (length (p_data p)) = p_cap p.
Definition not_larger (p : prop) : Prop := p_cap p = 0 \/ N.of_nat (length (p_data p)) <= p_cap p.
(** The data are one of the enumerated values, if there are any. *)
Definition value_of (d : list N) : N := fold_left (fun a x => a * 256 + x) d 0.
Definition right_value (p : prop) : Prop := p_enums p = [] \/ prop_find_enum p (value_of (p_data p)) <> None.
Definition every (Q : prop -> Prop) (o : object) : Prop := forall c p, object_find_property o c = Some p -> ~ map_code c -> Q p.
(** A request with the same codes and other data, none of them longer. *)
Definition reworded (m m' : message) : Prop :=
  m_esv m' = m_esv m /\ msg_deoj m' = msg_deoj m /\
  Forall2 (fun q q' => pp_code q' = pp_code q /\ (length (pp_data q') <= length (pp_data q))%nat) (m_props m) (m_props m').
(** A handler that says yes and does nothing. *)
Definition says_yes {U} (h : handler U) : Prop := forall u o e p, call_handler h u o e p = Ret (u, o, true).

Section S.
  Context {U : Type} {P : Profile} {HO : HashOrder} {Os : OS}.
  Lemma yes_asked (h : handler U) e ps : says_yes h -> forall u o a, ask_handler h u o e ps a = Ret (u, o, a).
  Proof. intro Y. induction ps as [|p r IH]; intros u o a; cbn [ask_handler]; [reflexivity|]. rewrite Y. cbn [obind negb]. apply IH. Qed.
  Lemma yes_all (hs : list (handler U)) e ps : Forall says_yes hs -> forall u o a, exists b, ask_handlers hs u o e ps a = Ret (u, o, b) /\ (a = true \/ hs <> [] -> b = true).
  Proof.
    induction 1 as [|h r Y F IH]; intros u o a; cbn [ask_handlers].
    - exists a. split; auto. intros [->|H]; congruence.
    - rewrite yes_asked by auto. cbn [obind]. destruct (IH u o true) as (b & E & T). exists b. split; auto.
  Qed.
  Lemma yes_received (hs : list (handler U)) u o m : Forall says_yes hs -> request_received hs u o m = Ret (u, o, true).
  Proof.
    intro F. unfold request_received. destruct hs as [|h r]; [reflexivity|]. cbn [length Nat.eqb].
    destruct (yes_all (h :: r) (msg_esv m) (m_props m) F u o false) as (b & E & T). rewrite E, T; auto. right. discriminate.
  Qed.

  (** Whatever write request a node carries out, it carries out every other one with the
      same codes and data which are not longer: shorter ones, empty ones, values that are
      not among the enumerated ones. The data are stored as they come. *)
  Theorem C148_any_refuted : forall seed (u : U) n m m' u1 n1 res o, received m -> received m' -> In (m_esv m) [0x60; 0x61] ->
    Forall says_yes (n_handlers n) -> addressed (n_objects n) (msg_deoj m) o -> reworded m m' ->
    node_message_received seed u n m = Ret (u1, n1, res) -> (forall r, res = Some r -> ~ error_service (m_esv r)) ->
    exists n2 res' o', node_message_received seed u n m' = Ret (u, n2, res') /\ (forall r, res' = Some r -> ~ error_service (m_esv r)) /\
      addressed (n_objects n2) (msg_deoj m) o' /\ forall c d, last_data c (m_props m') = Some d -> object_property_data o' c = Some d.
  Proof.
    intros seed u n m m' u1 n1 res o R R' Es Y A (Ee & Ed & F) E Ok.
    assert (Q : request_service (m_esv m)) by (unfold request_service; cbn in *; tauto).
    assert (Wp : writes_of m = m_props m) by (unfold writes_of; destruct Es as [<-|[<-|[]]]; reflexivity).
    assert (Wp' : writes_of m' = m_props m') by (unfold writes_of; rewrite Ee; destruct Es as [<-|[<-|[]]]; reflexivity).
    assert (Rp' : reads_of m' = []) by (unfold reads_of; rewrite Ee; destruct Es as [<-|[<-|[]]]; reflexivity).
    pose proof (received_rcvd m R) as Rc. pose proof (received_rcvd m' R') as Rc'. pose proof E as H. apply handled_spec in H.
    destruct (handled_success seed u n m u1 n1 res Rc H Q (ex_intro _ o A) Ok)
      as (pre & o0 & post & copy & copy' & Eo & Ec & Fp & Pm & Cl & V & En & Er).
    assert (Pm' : permitted o0 m').
    { destruct Pm as [Pw _]. split; [|rewrite Rp'; constructor]. rewrite Wp in Pw. rewrite Wp'. revert Pw. clear -F. induction F as [|q q' l l' [C L] F IH]; [constructor|].
      intro Pw. inversion Pw as [|? ? (p & Fq & Al & Sz) Pw']; subst. constructor; auto. exists p. rewrite C. split; auto. split; auto. destruct Sz; [auto|right; lia]. }
    assert (Q' : request_service (m_esv m')) by (rewrite Ee; auto).
    assert (X : exists n2 res', node_message_received seed u n m' = Ret (u, n2, res') /\ res' = object_message_received (answered o0 m' copy) m').
    { unfold node_message_received. rewrite (request_not_response _ Q' : esv_is_response (msg_esv m') = false), Ed, (addressed_find (n_objects n) _ o0) by (exists pre, post; auto).
      rewrite (proj1 (request_service_spec _) Q' : esv_is_request (msg_esv m') = true). cbn [negb]. rewrite (proj2 (request_valid_spec o0 m' Q') Pm'). cbn [negb].
      rewrite Cl. cbn [obind]. rewrite yes_received by auto. cbn [obind negb]. eexists. eexists. split; reflexivity. }
    destruct X as (n2 & res' & E' & Er').
    assert (Ok' : forall r, res' = Some r -> ~ error_service (m_esv r)).
    { intros r Hr. destruct (success_eq o0 (answered o0 m' copy) m' (rc_wf _ Rc') (rc_body _ Rc') Q' Pm' (answered_shape o0 m' copy)) as [[_ N]|(e & ps & ss & gs & S' & Z & _)]; [congruence|].
      assert (r = resp m' e ps ss gs) as -> by congruence. cbn [m_esv resp]. rewrite Ee in S'. destruct Es as [X|[X|[]]]; rewrite <- X in S'; inversion S'; subst. cbn. intuition discriminate. }
    assert (Ao : addressed (n_objects n) (msg_deoj m') o0) by (rewrite Ed; exists pre, post; auto).
    destruct (C40_write_visible seed u n m' u n2 res' o0 R') as (o' & A' & D'); auto. { rewrite Ee. cbn in *. tauto. }
    exists n2, res', o'. split; auto. split; auto. rewrite Ed in A'. split; auto. intros c d. rewrite <- Wp'. apply D'.
  Qed.

  (** What the network cannot do is to make the data longer than the property. *)
  Lemma recv_keeps (u : U) n w m u' n' w' : received m -> node_good n -> Forall hands_off (n_handlers n) ->
    node_observe w u n m = Ret (u', n', w') -> Forall (every not_larger) (n_objects n) ->
    Forall (every not_larger) (n_objects n') /\ n_handlers n' = n_handlers n.
  Proof.
    intros R G Hh E F. apply received_rcvd in R as [W L B].
    destruct (observe_spec w u n m u' n' w' W B E) as (n1 & w1 & t1 & n2 & res & t2 & _ & _ & _ & D & H & Rx).
    apply delivered_keeps in D as (D1 & D2 & _). apply reaction_keeps in Rx as (X1 & X2 & _). rewrite X1, X2.
    inversion H as [|o0 Q Ao V|o0 copy u1 copy' Q Ao V C1 Dd|pre o post copy u1 copy' Q Eo Ec Fp V C1 Dd Eu En Er]; subst; try (rewrite D1, D2; auto; fail).
    cbn [n_objects n_handlers n_with_objects]. split; [|exact D2]. rewrite D1 in Eo. rewrite D2 in Dd. apply request_received_hands_off in Dd; auto. subst copy'.
    destruct G as [G _]. rewrite Eo in G, F. apply Forall_app in G as [_ G]. inversion G as [|? ? Go _]; subst. apply Forall_app in F as [F1 F2]. inversion F2 as [|? ? Fo F3]; subst.
    apply Forall_app. split; auto. constructor; auto. intros c p Hp Nm.
    rewrite (answered_hands_off o m _ copy c Go C1) in Hp by (unfold map_code, is_map_code in *; lia).
    destruct (object_find_property o c) as [q|] eqn:Fq; [|discriminate]. cbn [option_map] in Hp. inversion Hp; subst p. specialize (Fo c q Fq Nm).
    destruct (last_data c (writes_of m)) as [d|] eqn:Ld; [|exact Fo]. cbn [set_last]. destruct V as [V _].
    pose proof (proj1 (Forall_forall _ _) V _ (last_data_in _ _ _ Ld)) as (q' & Fq' & _ & Sz). cbn [pp_code pp_data] in *. rewrite Fq in Fq'. inversion Fq'; subst q'.
    unfold not_larger. destruct q; exact Sz.
  Qed.
  Theorem C148_not_larger_partial : forall (u : U) n w ms u' n' w', reachable u n w -> Forall received ms -> Forall hands_off (n_handlers n) ->
    node_run (u, n, w) (map (OpRecv (U := U)) ms) = Ret (u', n', w') ->
    Forall (every not_larger) (n_objects n) -> Forall (every not_larger) (n_objects n').
  Proof.
    intros u n w ms u' n' w' Rc. apply reachable_good in Rc. revert u n w Rc. induction ms as [|m r IH]; intros u n w G F Hh E K; cbn [map node_run] in E.
    { inversion E; subst. exact K. }
    inversion F as [|? ? Rm Fr]; subst. destruct (node_step (u, n, w) (OpRecv m)) as [[[u1 n1] w1]|] eqn:E1; cbn [obind] in E; [|discriminate].
    pose proof (step_good u n w (OpRecv m) u1 n1 w1 Rm G E1) as G1. cbn [node_step] in E1.
    destruct (node_observe w u n m) as [[[u2 n2] w2]|] eqn:E2; cbn [obind] in E1; [|discriminate]. inversion E1; subst u2 n2 w2.
    destruct (recv_keeps u n w m u1 n1 w1 Rm G Hh E2 K) as [K1 H1]. apply (IH u1 n1 w1); auto. rewrite H1. exact Hh.
  Qed.
End S.

(** A new device: no data are too long, and all properties but the six mandatory ones that
    are not maps are empty, whatever size is listed for them. *)
Lemma super_caps c u : In c [0x80; 0x81; 0x82; 0x83; 0x88; 0x8A] -> uuid_ok u -> exists r, first_row (class_rows db_table 0) c = Some r /\
  forall d, default_of u c = Some d -> r_cap r = 0 \/ N.of_nat (length d) <= r_cap r.
Proof.
  intros I [Lu _].
  assert (X : match first_row (class_rows db_table 0) c with Some r => (r_cap r =? 0) || ((if c =? 0x83 then 17 else if c =? 0x82 then 4 else if c =? 0x8A then 3 else 1) <=? r_cap r) | None => false end = true).
  { repeat (destruct I as [<-|I]; [vm_compute; reflexivity|]). destruct I. }
  destruct (first_row (class_rows db_table 0) c) as [r|]; [|discriminate]. exists r. split; auto. apply orb_true_iff in X as [X|X]; [apply N.eqb_eq in X; auto|].
  intros d E. right. apply N.leb_le in X. eapply N.le_trans; [|exact X]. clear X. cbn [In] in I. do 16 (destruct u as [|? u]; [discriminate|]). destruct u; [|discriminate].
  repeat (destruct I as [<-|I]; [cbn [default_of N.eqb Pos.eqb] in *; inversion E; subst; cbn; lia|]). contradiction.
Qed.
Theorem C148_new_refuted : forall (P : Profile) (HO : HashOrder) seed db u1 u2 s code o,
  standard_database seed = Ret db -> uuid_ok u1 -> uuid_ok u2 -> device_object db u1 u2 s code = Ret o ->
  every not_larger o /\
  every (fun p => ~ In (p_code p) [0x80; 0x81; 0x82; 0x83; 0x88; 0x8A] -> p_data p = [] /\ (right_size p <-> p_cap p = 0)) o.
Proof.
  intros P HO seed db u1 u2 s code o E U1 U2 D. destruct (device_spec seed db u1 u2 s code E U1 U2) as (o' & D' & _ & _ & _ & G & _).
  rewrite D in D'. inversion D'; subst o'. clear D'.
  assert (X : forall c p, object_find_property o c = Some p -> ~ map_code c -> exists r, first_row (dev_rows db_table code) c = Some r /\ r_code r = c /\
    p = set_opt (default_of (dev_uuid db_table u1 u2 code c) c) (standard_property r)).
  { intros c p F N. rewrite G in F by (unfold map_code, is_map_code in *; lia). destruct (first_row _ c) as [r|] eqn:R; [|discriminate]. exists r. split; auto.
    pose proof (find_some _ _ R) as [_ Ek]. apply N.eqb_eq in Ek. split; auto. cbn [option_map] in F. congruence. }
  assert (Uu : forall c, uuid_ok (dev_uuid db_table u1 u2 code c)) by (intro c; unfold dev_uuid; destruct (has_row _ _); auto).
  split.
  - intros c p F N. destruct (X c p F N) as (r & R & _ & ->). pose proof (standard_property_fields r) as SF. cbv zeta in SF. destruct SF as (S1 & _ & _ & S4 & _).
    destruct (default_of (dev_uuid db_table u1 u2 code c) c) as [d|] eqn:Df; cbn [set_opt].
    + assert (I : In c [0x80; 0x81; 0x82; 0x83; 0x88; 0x8A]).
      { unfold default_of in Df. repeat match type of Df with (if ?a =? ?b then _ else _) = _ => destruct (N.eqb_spec a b); [subst; cbn; auto 10|] end. discriminate. }
      destruct (super_caps c _ I (Uu c)) as (r' & R' & Cp). unfold dev_rows in R. rewrite first_row_app, R' in R. inversion R; subst r'.
      unfold not_larger. change (p_cap (prop_set_data (standard_property r) d)) with (p_cap (standard_property r)). change (p_data (prop_set_data (standard_property r) d)) with d. rewrite S4. auto.
    + unfold not_larger. rewrite S1. right. cbn. lia.
  - intros c p F N I. destruct (X c p F N) as (r & R & Ek & ->). pose proof (standard_property_fields r) as SF. cbv zeta in SF. destruct SF as (S1 & _ & _ & S4 & _).
    pose proof (standard_property_code r) as Sc.
    assert (Z : default_of (dev_uuid db_table u1 u2 code c) c = None).
    { destruct (default_of (dev_uuid db_table u1 u2 code c) c) as [d|] eqn:Df; auto. exfalso. cbn [set_opt] in I. apply I.
      change (p_code (prop_set_data (standard_property r) d)) with (p_code (standard_property r)). rewrite Sc, Ek.
      unfold default_of in Df. repeat match type of Df with (if ?a =? ?b then _ else _) = _ => destruct (N.eqb_spec a b); [subst; cbn; auto 10|] end. discriminate. }
    rewrite Z. cbn [set_opt]. split; auto. unfold right_size. rewrite S1. cbn [length N.of_nat]. split; [intros [H|H]; auto|auto].
Qed.
Print Assumptions C148_any_refuted.
Print Assumptions C148_not_larger_partial.
Print Assumptions C148_new_refuted.

(** ** Cases *)
Section Cases.
  Local Existing Instance ex_order.
  Local Existing Instance ex_os.
  (** The operating status of the standard may be 0x30 or 0x31. The service of the answer to a
      write, and what the status is then: 0x77 and nothing are taken, two octets are not. *)
  Definition put (d : list N) : list N := to_lamp 7 0x61 ([1; 0x80; N.of_nat (length d)] ++ d).
  Definition put_results (ds : list (list N)) : option (list (option (list N * option (list N)))) :=
    match first_row (class_rows db_table 0) 0x80 with
    | Some r => let o := the (object_new 0) (adds (P := true) (object_from_code 0 0x029101) [standard_property r]) in
      let s := ex_state [OpAddObject o; OpAddHandler yes; OpStart] in
      Some (map (fun d => match node_observe (P := true) (snd s) tt (snd (fst s)) (ex_rcv (put d)) with
        | Ret (_, n, w) => Some (map service_of (map snd (sent (skipn (length (w_trace (snd s))) (w_trace w)))), data_in n 0x029101 0x80)
        | Panic => None
        end) ds)
    | None => None
    end.
  Example C148_case : put_results [[0x31]; [0x77]; []; [0x31; 0x31]] =
    Some [Some ([0x71], Some [0x31]); Some ([0x71], Some [0x77]); Some ([0x71], Some []); Some ([0x51], Some [0x30])].
  Proof. vm_compute. reflexivity. Qed.
End Cases.
