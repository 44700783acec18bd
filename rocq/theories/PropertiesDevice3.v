(** Property C88, the example lamp (examples/monolight), and cases for C81-C88. *)
From Verif Require Import Base HMap ModelCodec ModelMessages ModelObject ModelTransport ModelNode ModelDevice SpecWire SpecObject SpecNode SpecDevice
  ProofsCodec ProofsCodec2 PropertiesCodec ProofsObject ProofsObject2 ProofsObject3 PropertiesObject PropertiesDb
  ProofsNode ProofsNode2 ProofsNode3 ProofsNode4 ExamplesNode PropertiesNode ProofsDevice PropertiesTrans PropertiesProfile PropertiesTransport ProofsExchange ProofsHistory
  PropertiesDevice PropertiesDevice2.

(** The lamp's answer and its operating status agree. *)
Definition agrees (on : bool) (n : node bool) : Prop :=
  device_property (Device MONOLIGHT_CODE) n 0x80 = Some [if on then 0x30 else 0x31].
(** The status property holds one octet. *)
Definition one_octet (n : node bool) : Prop :=
  forall o p, addressed (n_objects n) MONOLIGHT_CODE o -> object_find_property o 0x80 = Some p -> p_cap p = 1.
(** Histories of the running lamp: requests to it carry at most one property and
    are not write-read requests; the application does not write its status. *)
Definition simple (op : node_op bool) : Prop :=
  match op with
  | OpRecv m => msg_deoj m = MONOLIGHT_CODE -> m_esv m <> 0x6E /\ (length (m_props m) <= 1)%nat
  | OpSetData oc c _ => oc <> MONOLIGHT_CODE \/ c <> 0x80
  | OpStart | OpStop | OpAddHandler _ => False
  | _ => True
  end.

Section L.
  Context {P : Profile} {HO : HashOrder} {Os : OS}.
  Notation ml := (monolight_handler MONOLIGHT_CODE).

  Lemma shape_find l l' oc o : Forall2 same_shape l l' -> find_object l oc = Some o ->
    exists o', find_object l' oc = Some o' /\ same_shape o o'.
  Proof.
    induction 1 as [|a b l l' S F IH]; cbn; [discriminate|].
    replace (object_code b) with (object_code a) by (apply object_code_codes; apply S).
    destruct (object_code a =? oc); auto. intro E. inversion E; subst. eauto.
  Qed.
  Lemma one_octet_step (u : bool) n w op u' n' w' : op_ok op -> ~ not_owned (n_objects n) MONOLIGHT_CODE -> one_octet n ->
    node_step (u, n, w) op = Ret (u', n', w') -> one_octet n'.
  Proof.
    intros K Ow C E. destruct (step_shapes u n w op u' n' w' K E) as [Sh _].
    destruct (addressed_dec (n_objects n) MONOLIGHT_CODE) as [X|(o & A)]; [contradiction|].
    assert (F1 : find_object (n_objects n ++ objects_added [op]) MONOLIGHT_CODE = Some o).
    { apply addressed_find in A. unfold objects_added. cbn [flat_map]. destruct op; rewrite ?app_nil_r; auto.
      apply find_object_app. exact A. }
    destruct (shape_find _ _ _ _ Sh F1) as (o1 & F2 & S). intros o2 p A2 Fp.
    apply addressed_find in A2. rewrite F2 in A2. inversion A2; subst o2.
    destruct S as (_ & _ & _ & S1 & S2). destruct (object_find_property o 0x80) as [q|] eqn:Fq.
    - destruct (S2 0x80 q p Fq Fp) as (_ & _ & _ & Ec & _). rewrite <- (C o q A Fq). symmetry. exact Ec.
    - apply S1 in Fq. congruence.
  Qed.

  (** Reading one octet as an integer. *)
  Lemma to_u32_1 (a : N) : octet a -> bytes_to_u32 [a] = Ret a.
  Proof.
    intro A. destruct (C11_int_codec_back P [a]) as (v & E & -> & _).
    - repeat constructor; auto.
    - cbn. lia.
    - rewrite E. reflexivity.
  Qed.
  Lemma ask_node (u : bool) e ps : forall o all u' o' b, ask_handler HNode u o e ps all = Ret (u', o', b) -> u' = u /\ o' = o.
  Proof.
    induction ps as [|q ps IH]; intros o all u' o' b E; cbn [ask_handler call_handler obind] in E; [inversion E; auto|].
    apply IH in E. exact E.
  Qed.
  Lemma ask_other (u : bool) e ps : forall o all u' o' b, object_code o <> MONOLIGHT_CODE ->
    ask_handler (HUser ml) u o e ps all = Ret (u', o', b) -> u' = u /\ o' = o.
  Proof.
    induction ps as [|q ps IH]; intros o all u' o' b Ne E; cbn [ask_handler call_handler] in E; [inversion E; auto|].
    unfold monolight_handler at 1 in E. replace (object_code o =? MONOLIGHT_CODE) with false in E by lia. cbn [negb obind] in E.
    apply IH in E; auto.
  Qed.
  Lemma ml_hands_off : hands_off (HUser ml).
  Proof.
    intros u o e q u' o' b E. unfold monolight_handler in E.
    destruct (negb _); [inversion E; auto|]. destruct e; try (inversion E; auto; fail);
      (destruct (pp_code q =? 0x80); [|inversion E; auto]); (destruct (bytes_to_u32 _) as [v|]; cbn [obind] in E; [|discriminate]);
      (destruct (v =? 0x30); [inversion E; auto|]); (destruct (v =? 0x31); inversion E; auto).
  Qed.
  (** One property: the lamp's verdict. *)
  Lemma ml_verdict (on : bool) copy m on' copy' acc : object_code copy = MONOLIGHT_CODE -> (length (m_props m) <= 1)%nat ->
    request_received [HNode; HUser ml] on copy m = Ret (on', copy', acc) ->
    (m_props m = [] /\ on' = on) \/
    (exists q, m_props m = [q] /\
      ((acc = false /\ on' = on) \/
       (acc = true /\ (msg_esv m = EWriteRequest \/ msg_esv m = EWriteReadRequest) /\ pp_code q = 0x80 /\
        bytes_to_u32 (pp_data q) = Ret (if on' then 0x30 else 0x31)))).
  Proof.
    intros Cc L E. unfold request_received in E. cbn [length Nat.eqb] in E.
    destruct (m_props m) as [|q [|? ?]] eqn:Ep; cbn [length] in L; [|right|lia].
    - left. split; auto. cbn in E. inversion E; auto.
    - exists q. split; auto. cbn [ask_handlers ask_handler call_handler obind] in E. unfold node_handler in E.
      rewrite Cc in E. cbn [negb N.eqb] in E. change (MONOLIGHT_CODE =? NODE_PROFILE_OBJECT_CODE) with false in E. cbn [negb] in E.
      unfold monolight_handler in E. rewrite Cc in E. rewrite N.eqb_refl in E. cbn [negb] in E.
      destruct (msg_esv m); cbn [obind negb] in E; try (left; inversion E; auto; fail);
        (destruct (N.eqb_spec (pp_code q) 0x80) as [C8|C8]; [|left; cbn [obind negb] in E; inversion E; auto]);
        (destruct (bytes_to_u32 (pp_data q)) as [v|]; cbn [obind] in E; [|discriminate]);
        (destruct (N.eqb_spec v 0x30) as [Hv|_]; [subst v; right; cbn [obind negb] in E; inversion E; auto 10|]);
        (destruct (N.eqb_spec v 0x31) as [Hv|_]; [subst v; right; cbn [obind negb] in E; inversion E; auto 10|]);
        left; cbn [obind negb] in E; inversion E; auto.
  Qed.
  Lemma esv_write m : msg_esv m = EWriteRequest -> m_esv m = 0x60.
  Proof.
    unfold msg_esv. intro E. destruct (N.eq_dec (m_esv m) 0x60) as [|Ne]; auto. exfalso. revert E.
    destruct (m_esv m) as [|p]; [discriminate|]. do 8 (destruct p as [p|p|]; try discriminate; try (intros _; apply Ne; reflexivity)).
  Qed.
  Lemma esv_write_read m : msg_esv m = EWriteReadRequest -> m_esv m = 0x6E.
  Proof.
    unfold msg_esv. intro E. destruct (N.eq_dec (m_esv m) 0x6E) as [|Ne]; auto. exfalso. revert E.
    destruct (m_esv m) as [|p]; [discriminate|]. do 8 (destruct p as [p|p|]; try discriminate; try (intros _; apply Ne; reflexivity)).
  Qed.
  Lemma recv_agrees seed on (n : node bool) m on' n' res : node_good n -> n_handlers n = [HNode; HUser ml] -> one_octet n ->
    received m -> simple (OpRecv m) -> agrees on n -> node_message_received seed on n m = Ret (on', n', res) -> agrees on' n'.
  Proof.
    intros G Hh Oo R Si A E. pose proof (received_rcvd m R) as Rc. 
    assert (Hf : Forall hands_off (n_handlers n)).
    { rewrite Hh. constructor; [exact I|constructor; [apply ml_hands_off|constructor]]. }
    destruct (N.eq_dec (msg_deoj m) MONOLIGHT_CODE) as [D|D].
    - specialize (Si D) as [N6 L]. apply handled_spec in E.
      inversion E as [N|o Q Ao V|o copy u1 copy' Q Ao V C1 D1|pre o post copy u1 copy' Q Eo Ec Fp V C1 D1 Eu En Er']; subst; auto.
      + rewrite Hh in D1. assert (Cc : object_code copy = MONOLIGHT_CODE).
        { rewrite <- D. destruct Ao as (x & y & _ & Ec & _). rewrite <- Ec. apply object_code_codes. eapply clone_codes; eauto. }
        destruct (ml_verdict on copy m on' copy' false Cc L D1) as [[_ ->]|(q & _ & [[_ ->]|(X & _)])]; auto; discriminate.
      + assert (Cc : object_code copy = MONOLIGHT_CODE).
        { rewrite <- D, <- Ec. apply object_code_codes. eapply clone_codes; eauto. }
        pose proof (request_received_hands_off _ _ _ _ _ _ _ Hf D1) as ->. rewrite Hh in D1.
        assert (Ao : addressed (n_objects n) MONOLIGHT_CODE o) by (rewrite <- D; exists pre, post; auto).
        assert (An : addressed (n_objects (n_with_objects n (pre ++ answered o m copy :: post))) MONOLIGHT_CODE (answered o m copy)).
        { rewrite <- D. cbn. eapply addressed_after; eauto. apply answered_shape. }
        assert (Go : obj_good o). { destruct G as [G _]. rewrite Eo in G. apply Forall_app in G as [_ G]. exact (Forall_inv G). }
        pose proof (answered_hands_off o m seed copy 0x80 Go C1 eq_refl) as W.
        unfold agrees, device_property in *. cbn [dv_code] in *. rewrite (device_data _ _ _ _ Ao) in A. rewrite (device_data _ _ _ _ An).
        unfold object_property_data in *. destruct (object_find_property o 0x80) as [p|] eqn:Fq; [|discriminate]. rewrite W. cbn [option_map].
        destruct (ml_verdict on copy m on' copy true Cc L D1) as [[Ep ->]|(q & Ep & [[X _]|(_ & Es & C8 & Eb)])]; [|discriminate|].
        * replace (writes_of m) with (@nil pprop); [exact A|]. unfold writes_of. rewrite Ep.
          replace (m_esv m =? 0x6E) with false by lia. destruct ((m_esv m =? 0x60) || (m_esv m =? 0x61)); reflexivity.
        * destruct Es as [Es|Es]; [|apply esv_write_read in Es; contradiction]. apply esv_write in Es.
          assert (Wr : writes_of m = [q]) by (unfold writes_of; rewrite Es, Ep; reflexivity).
          rewrite Wr. cbn [last_data]. rewrite C8. cbn [N.eqb Pos.eqb set_last prop_set_data p_data]. f_equal.
          destruct V as [V _]. rewrite Wr in V. apply Forall_inv in V as (p' & F' & _ & Cap). rewrite C8, Fq in F'. inversion F'; subst p'.
          rewrite (Oo o p Ao Fq) in Cap.
          assert (Oc : octets (pp_data q)).
          { pose proof (wf_props _ (rc_wf _ Rc)) as Wp. rewrite Ep in Wp. exact (proj2 (Forall_inv Wp)). }
          destruct (pp_data q) as [|a [|b r]]; cbn [length] in Cap; [|clear W|lia].
          -- vm_compute in Eb. destruct on'; discriminate.
          -- rewrite (to_u32_1 a (Forall_inv Oc)) in Eb. inversion Eb; reflexivity.
    - assert (Un : on' = on).
      { apply handled_spec in E.
        inversion E as [N|o Q Ao V|o copy u1 copy' Q Ao V C1 D1|pre o post copy u1 copy' Q Eo Ec Fp V C1 D1 Eu En Er']; subst; auto.
        all: assert (Cc : object_code copy <> MONOLIGHT_CODE) by
          (replace (object_code copy) with (msg_deoj m); [exact D|]; 
           first [destruct Ao as (x & y & _ & Ec & _)|idtac]; rewrite <- Ec; symmetry; apply object_code_codes; eapply clone_codes; eauto).
        all: rewrite Hh in D1; unfold request_received in D1; cbn [length Nat.eqb ask_handlers] in D1;
          destruct (ask_handler HNode on copy (msg_esv m) (m_props m) true) as [[[a1 a2] a3]|] eqn:E1; cbn [obind] in D1; [|discriminate];
          apply ask_node in E1 as [-> ->];
          destruct (ask_handler (HUser ml) on copy (msg_esv m) (m_props m) true) as [[[b1 b2] b3]|] eqn:E2; cbn [obind] in D1; [|discriminate];
          apply ask_other in E2 as [-> ->]; auto; inversion D1; auto. }
      subst on'. apply C47_isolation_partial in E as [->|(pre & o & post & o' & Eo & Ec & -> & S)]; auto.
      unfold agrees, device_property, device_node_property in *. cbn [dv_code n_objects n_with_objects] in *.
      rewrite (find_object_replace pre o o' post); [rewrite <- Eo; exact A|symmetry; apply object_code_codes; apply S|congruence].
  Qed.

  (** C88: the lamp follows the network, as far as it does. *)
  Theorem C88_follows_partial : forall ops on (n : node bool) w on' n' w', reachable on n w -> n_handlers n = [HNode; HUser ml] -> one_octet n ->
    agrees on n -> Forall op_ok ops -> Forall simple ops -> node_run (on, n, w) ops = Ret (on', n', w') -> agrees on' n'.
  Proof.
    intros ops on n w on' n' w' R. apply reachable_good in R. revert on n w R.
    induction ops as [|op ops IH]; intros on n w G Hh Oo A K Si E; cbn [node_run] in E; [inversion E; subst; exact A|].
    destruct (node_step (on, n, w) op) as [[[on1 n1] w1]|] eqn:E1; cbn [obind] in E; [|discriminate].
    pose proof (Forall_inv K) as K1. pose proof (Forall_inv Si) as S1.
    assert (Ow : ~ not_owned (n_objects n) MONOLIGHT_CODE).
    { intro X. unfold agrees, device_property in A. apply property_spec in A as (o & p & Ao & _). exact (addressed_not_owned _ _ _ Ao X). }
    assert (A1 : agrees on1 n1).
    { assert (Fr : elsewhere MONOLIGHT_CODE op -> ~ lifecycle op -> on1 = on -> agrees on1 n1).
      { intros El Nl ->. assert (Nn : MONOLIGHT_CODE <> 0x0EF001) by discriminate.
        destruct (frame_step on n w op on n1 w1 MONOLIGHT_CODE Nn Ow El E1) as [_ X]. unfold agrees, device_property in *.
        rewrite X by auto. exact A. }
      destruct op; cbn [simple] in S1; try contradiction.
      all: try (apply Fr; [exact Logic.I|intros [X|X]; discriminate|]; cbn [node_step] in E1).
      - destruct (node_add_object n o); cbn [obind] in E1; inversion E1; auto.
      - inversion E1; auto.
      - cbn [node_step] in E1. inversion E1; subst. unfold agrees, device_property in *. cbn [dv_code] in *.
        rewrite <- set_property_set_data. destruct (set_property_eq n obj prop d) as [_ V]. rewrite V. unfold shelve.
        destruct (N.eqb_spec MONOLIGHT_CODE obj) as [Eo|]; cbn [andb]; auto. destruct (N.eqb_spec 0x80 prop) as [Ek|]; auto. destruct S1 as [X|X]; contradiction X; auto.
      - destruct (node_send w n to m) as [[[b m1] n2] w2]. inversion E1; auto.
      - destruct (node_post w n to m) as [[[b m1] n2] w2]. inversion E1; auto.
      - destruct (node_notify w n m) as [[[b m1] n2] w2]. inversion E1; auto.
      - destruct (node_announce w n) as [[b n2] w2]. inversion E1; auto.
      - destruct (node_announce_property w n o p) as [[b n2] w2]. inversion E1; auto.
      - cbn [node_step] in E1. rewrite observe_eq in E1.
        destruct (deliver w n m) as [[n2 w2]|] eqn:E2; cbn [obind] in E1; [|discriminate].
        apply deliver_spec in E2 as (tr & _ & _ & D). apply delivered_keeps in D as (D1 & D2 & _).
        destruct (node_message_received _ on n2 m) as [[[u3 n3] res]|] eqn:E3; cbn [obind] in E1; [|discriminate].
        destruct (respond (tick w2) n3 m res) as [n4 w4] eqn:E4. cbn [obind] in E1. inversion E1; subst.
        apply respond_objects in E4.
        assert (A2 : agrees on1 n3).
        { refine (recv_agrees _ on n2 m on1 n3 res _ _ _ K1 S1 _ E3).
          - destruct G as [G1 G2]. split; [rewrite D1; exact G1|rewrite D2; exact G2].
          - rewrite D2. exact Hh.
          - intros o p. rewrite D1. apply Oo.
          - unfold agrees, device_property, device_node_property in *. rewrite D1. exact A. }
        unfold agrees, device_property, device_node_property in *. rewrite E4. exact A2. }
    apply (IH on1 n1 w1); auto.
    - exact (step_good on n w op on1 n1 w1 K1 G E1).
    - destruct (step_shapes on n w op on1 n1 w1 K1 E1) as [_ X]. rewrite X, Hh. destruct op; try reflexivity. destruct S1.
    - exact (one_octet_step on n w op on1 n1 w1 K1 Ow Oo E1).
    - exact (Forall_inv_tail K).
    - exact (Forall_inv_tail Si).
  Qed.
  (** Switching: a write without answer of 0x30 or 0x31 is carried out. *)
  Theorem C88_switch_partial : forall seed on (n : node bool) m o v, node_good n -> n_handlers n = [HNode; HUser ml] ->
    received m -> addressed (n_objects n) MONOLIGHT_CODE o -> msg_deoj m = MONOLIGHT_CODE -> m_esv m = 0x60 ->
    m_props m = [PProp 0x80 [if v : bool then 0x30 else 0x31]] -> permitted o m -> object_clone seed o <> Panic ->
    exists n', node_message_received seed on n m = Ret (v, n', None) /\ agrees v n'.
  Proof.
    intros seed on n m o v G Hh R A D Es Ep Pm Cl. destruct (object_clone seed o) as [copy|] eqn:C1; [clear Cl|contradiction Cl; reflexivity].
    pose proof (addressed_find _ _ _ A) as F. pose proof A as (pre & post & Eo & Ec & Fp).
    assert (Q : request_service (m_esv m)) by (rewrite Es; cbn; auto).
    assert (Cc : object_code copy = MONOLIGHT_CODE). { rewrite <- Ec. apply object_code_codes. eapply clone_codes; eauto. }
    assert (Em : msg_esv m = EWriteRequest) by (unfold msg_esv; rewrite Es; reflexivity).
    assert (Rr : request_received (n_handlers n) on copy m = Ret (v, copy, true)).
    { rewrite Hh. unfold request_received. cbn [length Nat.eqb]. rewrite Ep, Em. cbn [ask_handlers ask_handler call_handler obind].
      unfold node_handler. rewrite Cc. change (MONOLIGHT_CODE =? NODE_PROFILE_OBJECT_CODE) with false. cbn [negb].
      unfold monolight_handler. rewrite Cc, N.eqb_refl. cbn [negb pp_code pp_data N.eqb Pos.eqb].
      destruct v; rewrite to_u32_1 by (unfold octet; lia); reflexivity. }
    assert (E : exists n', node_message_received seed on n m = Ret (v, n', None)).
    { unfold node_message_received. rewrite D, F, Em. cbn [esv_is_response esv_is_request negb].
      rewrite (proj2 (request_valid_spec o m Q) Pm). cbn [negb]. rewrite C1. cbn [obind]. rewrite Rr. cbn [obind negb].
      eexists. f_equal. f_equal. unfold object_message_received. rewrite Em. reflexivity. }
    destruct E as (n' & E). exists n'. split; auto.
    destruct (C40_write_visible seed on n m v n' None o R) as (o' & A' & W); auto.
    - rewrite Es. cbn. auto.
    - rewrite D. exact A.
    - intros r X. discriminate.
    - unfold agrees, device_property. cbn [dv_code]. rewrite (device_data n' MONOLIGHT_CODE o' 0x80) by (rewrite <- D; exact A'). apply W.
      unfold writes_of. rewrite Es, Ep. reflexivity.
  Qed.
End L.
Print Assumptions C88_follows_partial.
Print Assumptions C88_switch_partial.

(* ------------------------------------------------------------------ *)
(** ** The lamp of the example, on a new node *)
Definition ex_db : list object := the [] (standard_database (P := true) (HO := ex_order) (fun k => k)).
Definition ml_nodes : node bool := the (Node manager_new [] 0 None [] []) (node_new (P := true) ex_np).
Definition ml_new : device * bool * node bool :=
  the (Device 0, true, ml_nodes) (monolight_new (P := true) (HO := ex_order) ex_db ex_u1 ex_u2 1 ml_nodes 7).
Definition ml_run (ops : list (node_op bool)) : outcome (bool * node bool * world) :=
  node_run (P := true) (HO := ex_order) (O := ex_os) (snd (fst ml_new), snd ml_new, w0) ops.
Definition ml_after (ops : list (node_op bool)) : option (bool * option (list N)) :=
  match ml_run ops with Ret (on, n, _) => Some (on, device_property (fst (fst ml_new)) n 0x80) | Panic => None end.
Definition ml_msg (e : N) (body : list N) : message := ex_rcv (to_lamp 5 e body).
Definition ml_answers (ops : list (node_op bool)) : list N :=
  match ml_run ops with Ret (_, _, w) => map (fun x => service_of (snd x)) (sent (w_trace w)) | Panic => [] end.

Lemma ex_db_eq : standard_database (P := true) (HO := ex_order) (fun k => k) = Ret ex_db.
Proof. unfold ex_db. destruct (database_spec (P := true) (HO := ex_order) (fun k => k)) as (db & E & _). rewrite E. reflexivity. Qed.
Definition ml_lamp : object := the (object_new 0) (device_object (P := true) (HO := ex_order) ex_db ex_u1 ex_u2 1 MONOLIGHT_CODE).
Lemma ml_lamp_built : obj_built (P := true) (HO := ex_order) ml_lamp.
Proof.
  destruct (device_spec (P := true) (HO := ex_order) (fun k => k) ex_db ex_u1 ex_u2 1 MONOLIGHT_CODE ex_db_eq ex_u1_ok ex_u2_ok) as (o & D & _).
  unfold ml_lamp. rewrite D. exact (device_built (P := true) (HO := ex_order) _ ex_db ex_u1 ex_u2 1 _ o ex_db_eq ex_u1_ok ex_u2_ok D).
Qed.
Definition ml_ops : list (node_op bool) :=
  [OpAddObserver (Observer 7 ObsNode); OpAddObserver (Observer 8 ObsDevice); OpAddObject ml_lamp;
   OpAddHandler (HUser (monolight_handler (P := true) MONOLIGHT_CODE))].
Lemma ml_typed : typed_handler (HUser (monolight_handler (P := true) MONOLIGHT_CODE)).
Proof. intros u o e p u' o' b H E. rewrite (ml_hands_off (P := true) u o e p u' o' b E). exact H. Qed.
Lemma ml_ops_ok : Forall (op_ok (P := true) (HO := ex_order)) ml_ops.
Proof.
  constructor; [exact I|]. constructor; [exact I|]. constructor; [exact ml_lamp_built|]. constructor; [exact ml_typed|constructor].
Qed.
Lemma ml_lamp_eq : device_object (P := true) (HO := ex_order) ex_db ex_u1 ex_u2 1 MONOLIGHT_CODE = Ret ml_lamp.
Proof.
  destruct (device_spec (P := true) (HO := ex_order) (fun k => k) ex_db ex_u1 ex_u2 1 MONOLIGHT_CODE ex_db_eq ex_u1_ok ex_u2_ok) as (o & D & _).
  unfold ml_lamp. rewrite D. reflexivity.
Qed.
Lemma ml_new_eq : exists os, node_add_object (P := true) (device_node_new ml_nodes 7) ml_lamp = Ret (n_with_objects (device_node_new ml_nodes 7) os) /\
  ml_new = (Device MONOLIGHT_CODE, false, node_add_handler (n_with_objects (device_node_new ml_nodes 7) os) (HUser (monolight_handler (P := true) MONOLIGHT_CODE))).
Proof.
  destruct (add_object_eq (P := true) (device_node_new ml_nodes 7) ml_lamp) as (os & E & _). exists os. split; [exact E|].
  unfold ml_new, monolight_new, device_new, device_init. rewrite ml_lamp_eq. cbn [obind]. rewrite E. reflexivity.
Qed.
Lemma ml_ops_run : node_run (P := true) (HO := ex_order) (O := ex_os) (false, ml_nodes, w0) ml_ops = Ret (snd (fst ml_new), snd ml_new, w0).
Proof.
  destruct ml_new_eq as (os & E & ->). unfold ml_ops. cbn [node_run node_step obind].
  change (node_add_observer (node_add_observer ml_nodes (Observer 7 ObsNode)) (Observer 8 ObsDevice)) with (device_node_new ml_nodes 7).
  rewrite E. reflexivity.
Qed.
Lemma ml_nodes_eq : node_new (P := true) ex_np = Ret ml_nodes.
Proof. vm_compute. reflexivity. Qed.
Lemma ml_reachable : reachable (P := true) (HO := ex_order) (O := ex_os) (snd (fst ml_new)) (snd ml_new) w0.
Proof.
  exists ex_np, ml_nodes, false, w0, ml_ops. split; [exact ex_np_built|]. split; [exact ml_nodes_eq|]. split; [exact ml_ops_ok|exact ml_ops_run].
Qed.
Lemma ml_handlers : n_handlers (snd ml_new) = [HNode; HUser (monolight_handler (P := true) MONOLIGHT_CODE)].
Proof.
  destruct ml_new_eq as (os & _ & ->). cbn [snd node_add_handler n_with_handlers n_handlers n_with_objects device_node_new node_add_observer n_with_observers].
  change (n_handlers ml_nodes) with [@HNode bool]. reflexivity.
Qed.
Lemma ml_agrees : agrees (snd (fst ml_new)) (snd ml_new).
Proof. vm_compute. reflexivity. Qed.
Lemma ml_cap : match find_object (n_objects (snd ml_new)) MONOLIGHT_CODE with
  | Some o => match object_find_property o 0x80 with Some p => p_cap p =? 1 | None => false end | None => false end = true.
Proof. vm_compute. reflexivity. Qed.
Lemma ml_one_octet : one_octet (snd ml_new).
Proof.
  intros o p A F. pose proof ml_cap as C. apply addressed_find in A. rewrite A, F in C. apply N.eqb_eq. exact C.
Qed.
Lemma ml_received e body : octets (e :: body) -> (match msg_parse msg_new (to_lamp 5 e body) with Ret (true, _) => true | _ => false end) = true ->
  received (ml_msg e body).
Proof.
  intros O H. apply ex_received; [|exact H]. unfold to_lamp. apply Forall_app. split; [|exact (Forall_inv_tail O)].
  do 10 (constructor; [unfold octet; vm_compute; reflexivity|]). constructor; [exact (Forall_inv O)|constructor].
Qed.
Ltac mlr := apply ml_received; [repeat constructor|vm_compute; reflexivity].

(** The lamp is switched on, refuses a read and stays on, is switched off. *)
Example C88_case : exists ops, Forall (op_ok (P := true) (HO := ex_order)) ops /\ Forall simple ops /\ length ops = 3%nat /\
  ml_after (firstn 1 ops) = Some (true, Some [0x30]) /\ ml_after (firstn 2 ops) = Some (true, Some [0x30]) /\
  ml_after ops = Some (false, Some [0x31]) /\
  reachable (P := true) (HO := ex_order) (O := ex_os) (snd (fst ml_new)) (snd ml_new) w0 /\
  n_handlers (snd ml_new) = [HNode; HUser (monolight_handler (P := true) MONOLIGHT_CODE)] /\
  one_octet (snd ml_new) /\ agrees (snd (fst ml_new)) (snd ml_new).
Proof.
  exists [OpRecv (ml_msg 0x60 [1; 0x80; 1; 0x30]); OpRecv (ml_msg 0x62 [1; 0x80; 0]); OpRecv (ml_msg 0x60 [1; 0x80; 1; 0x31])].
  split; [repeat (constructor; [cbn [op_ok]; mlr|]); constructor|].
  split; [repeat (constructor; [intros _; split; [vm_compute; discriminate|vm_compute; lia]|]); constructor|].
  split; [reflexivity|]. split; [vm_compute; reflexivity|]. split; [vm_compute; reflexivity|]. split; [vm_compute; reflexivity|].
  split; [exact ml_reachable|]. split; [exact ml_handlers|]. split; [exact ml_one_octet|exact ml_agrees].
Qed.
(** A write-read request changes the status but not the lamp: the handler is not asked. *)
Theorem C88_write_read_refuted : exists m, received m /\ msg_deoj m = MONOLIGHT_CODE /\ m_esv m = 0x6E /\
  ml_after [] = Some (false, Some [0x31]) /\ ml_after [OpRecv m] = Some (false, Some [0x30]) /\
  ml_answers [OpStart; OpRecv m] = [0x73; 0x7E].
Proof.
  exists (ml_msg 0x6E [1; 0x80; 1; 0x30; 0]). split; [mlr|]. repeat (split; [vm_compute; reflexivity|]). vm_compute. reflexivity.
Qed.
(** Starting the node sets the status "on", the lamp stays off. *)
Theorem C88_start_refuted : ml_after [] = Some (false, Some [0x31]) /\ ml_after [OpStart] = Some (false, Some [0x30]).
Proof. split; vm_compute; reflexivity. Qed.
(** A rejected request switches the lamp on, its status stays "off". *)
Theorem C88_rejected_refuted : exists m, received m /\ msg_deoj m = MONOLIGHT_CODE /\
  m_props m = [PProp 0x80 [0x30]; PProp 0x81 [0]] /\
  ml_after [OpRecv m] = Some (true, Some [0x31]) /\ ml_answers [OpStart; OpRecv m] = [0x73; 0x50].
Proof.
  exists (ml_msg 0x60 [2; 0x80; 1; 0x30; 0x81; 1; 0x00]). split; [mlr|]. repeat (split; [vm_compute; reflexivity|]). vm_compute. reflexivity.
Qed.
(** The confirmed write and the read are always refused. *)
Theorem C88_refused_refuted : exists m1 m2, received m1 /\ received m2 /\ m_esv m1 = 0x61 /\ m_esv m2 = 0x62 /\
  m_props m1 = [PProp 0x80 [0x31]] /\ m_props m2 = [PProp 0x80 []] /\
  ml_answers [OpStart; OpRecv m1; OpRecv m2] = [0x73; 0x51; 0x52].
Proof.
  exists (ml_msg 0x61 [1; 0x80; 1; 0x31]), (ml_msg 0x62 [1; 0x80; 0]). split; [mlr|]. split; [mlr|].
  repeat (split; [vm_compute; reflexivity|]). vm_compute. reflexivity.
Qed.
Print Assumptions C88_write_read_refuted.

(* ------------------------------------------------------------------ *)
(** ** Cases for C81 to C87 *)
Definition no_node : node bool := ml_nodes.
Definition ml_n : node bool := snd ml_new.
(** A second lamp on the same node. *)
Definition two_new : device * node bool :=
  the (Device 0, ml_n) (device_new (P := true) (HO := ex_order) ex_db ex_u1 ex_u2 2 ml_n 9 0x029102).
Definition results (ks : list device_call) : option (list result) :=
  match device_dos (P := true) (snd two_new) ks with Ret (l, _) => Some l | Panic => None end.
Example C81_case : results
  [Property 0x029101 0x81; SetInstallationLocation 0x029101 0x08; Property 0x029101 0x81; Property 0x029102 0x81;
   SetManufacturerCode 0x029102 0x00ABCDEF; Property 0x029102 0x8A; SetProperty 0x029101 0xC0 [1]; Property 0x029103 0x80;
   SetOperatingStatus 0x029103 true] =
  Some [Data (Some [0]); Done true; Data (Some [0x08]); Data (Some [0]); Done true; Data (Some [0xAB; 0xCD; 0xEF]);
    Done false; Data None; Done false].
Proof. vm_compute. reflexivity. Qed.

(** Set by the application, read from the network: an ordinary property of the
    example lamp, and a property map, which is computed anew. *)
Definition set_run (c : N) (x : list N) : option (bool * list (list N)) :=
  let n := ex_n (ex_ops [yes]) in let w := ex_w (ex_ops [yes]) in
  let '(ok, n1) := device_set_property (Device 0x029101) n c x in
  match node_observe (P := true) (HO := ex_order) (O := ex_os) w tt n1 (ex_rcv (to_lamp 5 0x62 [1; c; 0])) with
  | Ret (_, _, w') => Some (ok, map snd (sent (skipn (length (w_trace w)) (w_trace w')))) | Panic => None end.
Example C82_case : set_run 0xB0 [7; 8; 9] =
  Some (true, [[0x10; 0x81; 0; 5; 0x02; 0x91; 0x01; 0x05; 0xFF; 0x01; 0x72; 1; 0xB0; 3; 7; 8; 9]]).
Proof. vm_compute. reflexivity. Qed.
Theorem C82_map_refuted : reachable (P := true) (HO := ex_order) (O := ex_os) tt (ex_n (ex_ops [yes])) (ex_w (ex_ops [yes])) /\
  set_run 0x9E [1; 0x55] = Some (true, [[0x10; 0x81; 0; 5; 0x02; 0x91; 0x01; 0x05; 0xFF; 0x01; 0x72; 1; 0x9E; 4; 3; 0x80; 0xE0; 0xB0]]).
Proof. split; [reach|]. vm_compute. reflexivity. Qed.
Print Assumptions C82_map_refuted.

Definition two_get (n : node bool) : list (option (list N)) :=
  map (fun x => device_property (Device (fst x)) n (snd x))
    [(0x029101, 0x80); (0x029101, 0x88); (0x029101, 0x81); (0x029102, 0x80); (0x029102, 0x88); (0x029102, 0x81)].
Definition two_run (ops : list (node_op bool)) : option (list (option (list N))) :=
  match node_run (P := true) (HO := ex_order) (O := ex_os) (false, snd two_new, w0) ops with Ret (_, n, _) => Some (two_get n) | Panic => None end.
Example C83_case : fst two_new = Device 0x029102 /\
  two_get (snd two_new) = [Some [0x31]; Some [0x42]; Some [0]; Some [0x31]; Some [0x42]; Some [0]] /\
  device_property (fst two_new) (snd two_new) 0x82 = Some [0; 0; 0x50; 0].
Proof. split; [vm_compute; reflexivity|]. split; vm_compute; reflexivity. Qed.
Example C84_case : two_run [OpSetData 0x029102 0x81 [5]; OpRecv (ml_msg 0x60 [1; 0x80; 1; 0x30])] =
  Some [Some [0x30]; Some [0x42]; Some [0]; Some [0x31]; Some [0x42]; Some [5]].
Proof. vm_compute. reflexivity. Qed.
Example C85_case : two_run [OpStart; OpRecv (ml_msg 0x60 [1; 0x80; 1; 0x31])] =
    Some [Some [0x31]; Some [0x42]; Some [0]; Some [0x30]; Some [0x42]; Some [0]] /\
  two_run [OpStart; OpStop] = Some [Some [0x31]; Some [0x42]; Some [0]; Some [0x31]; Some [0x42]; Some [0]].
Proof. split; vm_compute; reflexivity. Qed.
Example C86_case : two_run [OpSetData 0x029101 0x88 [0x41]; OpSetData 0x029101 0x81 [5]; OpStart] =
  Some [Some [0x30]; Some [0x42]; Some [5]; Some [0x30]; Some [0x42]; Some [0]].
Proof. vm_compute. reflexivity. Qed.
Definition drop_view (n : node bool) : option (list (option (list N)) * list N * nat * nat) :=
  match device_drop n with
  | Ret n' => Some (two_get n', map object_code (n_objects n'), length (mg_ucast (n_mgr n)), length (mg_ucast (n_mgr n')))
  | Panic => None
  end.
Definition two_drop (ops : list (node_op bool)) : option (list (option (list N)) * list N * nat * nat) :=
  match node_run (P := true) (HO := ex_order) (O := ex_os) (false, snd two_new, w0) ops with Ret (_, n, _) => drop_view n | Panic => None end.
Example C87_case : two_drop [OpStart] = Some ([Some [0x31]; Some [0x42]; Some [0]; Some [0x31]; Some [0x42]; Some [0]],
  [0x0EF001; 0x029101; 0x029102], 1%nat, 0%nat).
Proof. vm_compute. reflexivity. Qed.
