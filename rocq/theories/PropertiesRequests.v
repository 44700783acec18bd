(** C97: what a controller asks for is what reaches the wire. *)
From Verif Require Import Base HMap ModelCodec ModelMessages ModelObject ModelTransport ModelNode ModelController
  SpecWire SpecObject SpecNode ProofsCodec ProofsCodec2 PropertiesCodec ProofsObject
  ProofsNode ProofsNode2 ExamplesNode PropertiesNode PropertiesTrans PropertiesTransport ProofsController SpecRemote PropertiesRemote.

(** The frame with another TID and the controller's own object as source. *)
Definition from_controller (f : frame) (t : N) : frame := Frame t 0x0EF001 (f_deoj f) (f_esv f) (f_body f).
(** The TID of a request: the one the application has set, or else the one after
    the last chosen. *)
Definition tid_for (f : frame) (last : N) : N := if f_tid f =? 0 then (last + 1) mod 65536 else f_tid f.

Lemma carried_limits m f : carries m f -> frame_ok f -> in_limits m.
Proof.
  intros (_ & _ & _ & _ & C) (_ & _ & _ & _ & B).
  assert (X : forall ps, wprops_ok (map to_wprop ps) -> list_in_limit ps).
  { intros ps [A L]. rewrite map_length in L. split; auto. apply Forall_forall. intros p I. apply (in_map to_wprop) in I.
    apply (proj1 (Forall_forall _ _) A) in I. destruct I as (_ & _ & I). exact I. }
  assert (Z : list_in_limit []) by (split; [cbn; lia|constructor]).
  destruct (f_body f) as [ps|ss gs]; cbn in B.
  - destruct C as (C1 & C2 & C3), B as (_ & B). subst ps. unfold in_limits. rewrite C2, C3. auto.
  - destruct C as (C1 & C2 & C3), B as (_ & B1 & B2). subst. unfold in_limits. rewrite C3. auto.
Qed.
Lemma carried_bytes m f : msg_wf m -> carries m f -> frame_ok f -> f_esv f <> 0x5E -> msg_bytes m = wire f.
Proof.
  intros W C F E. pose proof (carried_limits m f C F) as L. destruct C as (C1 & C2 & C3 & C4 & C5). rewrite msg_bytes_wire; auto; [|congruence].
  f_equal. unfold frame_of. rewrite C1, C2, C3, C4. destruct F as (_ & _ & _ & _ & B). destruct f as [t s d e [ps|ss gs]]; cbn [f_tid f_seoj f_deoj f_esv f_body] in *; cbn in B.
  - destruct B as [B _]. apply is_double_false in B. rewrite B. destruct C5 as (C5 & _). unfold wps. rewrite C5. reflexivity.
  - destruct B as [B _]. apply is_double_spec in B. rewrite B. destruct C5 as (C5 & C6 & _). unfold wps. rewrite C5, C6. reflexivity.
Qed.

Section Requests.
  Context {U : Type} {Os : OS}.

  Lemma request_wire (n : node U) m f n1 m1 : n_last_tid n < 65536 -> built m -> carries m f -> frame_ok f -> f_esv f <> 0x5E ->
    update_tid n (msg_set_seoj m NODE_PROFILE_OBJECT_CODE) = (n1, m1) ->
    msg_bytes m1 = wire (from_controller f (tid_for f (n_last_tid n))) /\ carries m1 (from_controller f (tid_for f (n_last_tid n))) /\
    n_last_tid n1 = (if f_tid f =? 0 then (n_last_tid n + 1) mod 65536 else n_last_tid n) /\ n_mgr n1 = n_mgr n.
  Proof.
    intros Bt Bm C F Ne A. pose proof (built_wf _ Bm) as W. pose proof (update_tid_keeps _ _ _ _ A) as (_ & _ & Km & _).
    assert (Ws : msg_wf (msg_set_seoj m 0x0EF001)) by (destruct W; constructor; auto; apply wf3_split).
    destruct C as (C1 & C2 & C3 & C4 & C5).
    assert (Et : msg_tid (msg_set_seoj m NODE_PROFILE_OBJECT_CODE) = f_tid f) by exact C1.
    assert (Cs : carries (msg_set_seoj m 0x0EF001) (from_controller f (f_tid f))).
    { split; [exact C1|]. split; [reflexivity|]. split; [exact C3|]. split; [exact C4|]. exact C5. }
    destruct F as (F1 & F2 & F3 & F4 & F5).
    assert (Fs : forall t, t < 65536 -> frame_ok (from_controller f t)).
    { intros t Ht. split; [exact Ht|]. split; [vm_compute; reflexivity|]. split; [exact F3|]. split; [exact F4|]. exact F5. }
    unfold tid_for. apply update_tid_spec in A as [(A & -> & ->)|(A & -> & ->)]; rewrite Et in A.
    - replace (f_tid f =? 0) with false by lia. split; [|split; [exact Cs|split; auto]]. apply carried_bytes; auto.
    - replace (f_tid f =? 0) with true by lia. rewrite next_mod by auto. cbn [n_last_tid n_with_tid].
      set (t := (n_last_tid n + 1) mod 65536). assert (Ht : t < 65536) by (subst t; lia). clearbody t.
      assert (Ct : carries (msg_set_tid (msg_set_seoj m NODE_PROFILE_OBJECT_CODE) t) (from_controller f t)).
      { split; [|exact (proj2 Cs)]. rewrite msg_tid_eq, msg_set_tid_eq. cbn [m_tid with_tid fst snd]. cbn [f_tid from_controller]. lia. }
      split; [|split; [exact Ct|split; auto]]. apply carried_bytes; auto. rewrite msg_set_tid_eq. destruct Ws. constructor; auto. split; cbn; lia.
  Qed.

  (** The message with the TID goes once to port 3610 of the node, when a socket takes it. *)
  Theorem C97_send : forall w (n : node U) r m f ok m' n' w', n_last_tid n < 65536 -> built m -> carries m f -> frame_ok f -> f_esv f <> 0x5E ->
    controller_send w n r m = (ok, m', n', w') ->
    exists tr, since w w' tr /\
      let x := ((fst (rn_addr r), 3610), wire (from_controller f (tid_for f (n_last_tid n)))) in
      Forall (eq x) (offered tr) /\ sent tr = (if ok then [x] else []) /\
      ((forall k, os_send k = true) -> can_send n -> ok = true) /\
      n_last_tid n' = (if f_tid f =? 0 then (n_last_tid n + 1) mod 65536 else n_last_tid n) /\ n_post n' = n_post n.
  Proof.
    intros w n r m f ok m' n' w' Bt Bm C F Ne E. unfold controller_send in E. pose proof E as E0. apply node_send_spec in E as (A & tr & S & _ & _ & Fo & Se).
    destruct (request_wire n m f n' m' Bt Bm C F Ne A) as (Eb & _ & El & Km). exists tr. split; auto. cbv zeta. rewrite <- Eb. change PORT with 3610 in *.
    split; auto. split; auto. split; [|split; auto; apply update_tid_keeps in A; tauto]. intros Al (s & I & Ns). eapply C68_send_possible; eauto.
  Qed.
  (** Posting does the same; afterwards the node waits for the response on a new channel. *)
  Theorem C97_post : forall w (n : node U) r m f c m' n' w', n_last_tid n < 65536 -> built m -> carries m f -> frame_ok f -> f_esv f <> 0x5E ->
    controller_post w n r m = (c, m', n', w') ->
    exists tr, since w w' tr /\
      let x := ((fst (rn_addr r), 3610), wire (from_controller f (tid_for f (n_last_tid n)))) in
      Forall (eq x) (offered tr) /\ (sent tr = [] \/ sent tr = [x]) /\
      ((forall k, os_send k = true) -> can_send n -> sent tr = [x]) /\
      n_last_tid n' = (if f_tid f =? 0 then (n_last_tid n + 1) mod 65536 else n_last_tid n) /\ n_post n' = Some c /\ w_chan w <= c < w_chan w'.
  Proof.
    intros w n r m f c m' n' w' Bt Bm C F Ne E. unfold controller_post in E. pose proof E as E0.
    apply node_post_spec in E as (-> & Ec & n1 & ok & tr & A & -> & S & _ & Fo & Se).
    destruct (request_wire n m f n1 m' Bt Bm C F Ne A) as (Eb & _ & El & Km). exists tr. split; auto. cbv zeta. rewrite <- Eb. change PORT with 3610 in *.
    split; auto. split; [destruct ok; auto|]. split; [|split; [exact El|split; [reflexivity|lia]]].
    intros Al Cs. rewrite Se. assert (ok = true) as ->; auto.
    unfold node_post in E0. rewrite A in E0. destruct (manager_send _ _ _ _) as [b w1] eqn:Ms. inversion E0; subst w1.
    assert (b = true). { eapply manager_send_ok; [exact Ms|exact Al|]. cbn [n_mgr n_with_post]. rewrite Km. exact Cs. }
    subst b. destruct ok; auto. exfalso. apply send_trace in Ms as (tr' & S' & _ & _ & _ & Se').
    assert (tr' = tr) as -> by (unfold since in *; cbn in S'; rewrite S in S'; apply app_inv_head in S'; auto). rewrite Se in Se'. discriminate.
  Qed.
  (** A search for an object asks the group for property 0xD6 of that object. *)
  Theorem C97_search : forall w (n : node U) code ok n' w', n_last_tid n < 65536 -> code < 2 ^ 24 ->
    controller_search_object w n code = (ok, n', w') ->
    exists tr k, since w w' tr /\
      let x := (group, wire (Frame ((n_last_tid n + 1) mod 65536) 0x0EF001 code 0x62 (Single [(0xD6, [])]))) in
      Forall (eq x) (offered tr) /\ sent tr = repeat x k /\ (ok = true -> k = length (mg_mcast (n_mgr n))) /\
      (ok = false -> (k < length (mg_mcast (n_mgr n)))%nat) /\ n_last_tid n' = (n_last_tid n + 1) mod 65536.
  Proof.
    intros w n code ok n' w' Bt Bc E. unfold controller_search_object in E. destruct (node_notify w n _) as [[[b m1] n1] w1] eqn:E1. inversion E; subst. clear E.
    apply node_notify_spec in E1 as (A & tr & k & S & _ & _ & Fo & Se & _ & K1 & K2). exists tr, k. split; auto. cbv zeta.
    apply update_tid_spec in A as [(A & _)|(_ & -> & ->)]; [exfalso; apply A; reflexivity|]. rewrite next_mod in * by auto.
    set (t := (n_last_tid n + 1) mod 65536) in *. assert (Ht : t < 65536) by (subst t; lia).
    assert (X : msg_bytes (msg_set_tid (search_request code) t) = wire (Frame t 0x0EF001 code 0x62 (Single [(0xD6, [])]))).
    { apply carried_bytes.
      - rewrite msg_set_tid_eq. constructor; cbn [m_ehd m_tid m_seoj m_deoj m_esv m_props m_set m_get with_tid search_request msg_set_deoj msg_set_seoj with_deoj with_seoj].
        + reflexivity.
        + split; cbn; lia.
        + apply wf3_split.
        + apply wf3_split.
        + vm_compute; reflexivity.
        + constructor; [|constructor]. split; [vm_compute; reflexivity|constructor].
        + constructor.
        + constructor.
      - split; [|split; [|split; [|split; [reflexivity|split; [reflexivity|split; reflexivity]]]]].
        + rewrite msg_tid_eq, msg_set_tid_eq. cbn [m_tid with_tid fst snd f_tid]. lia.
        + reflexivity.
        + unfold msg_deoj. rewrite msg_set_tid_eq. cbn [m_deoj with_tid search_request msg_set_deoj with_deoj f_deoj]. rewrite object_code_split. apply N.mod_small. exact Bc.
      - split; [exact Ht|]. split; [vm_compute; reflexivity|]. split; [exact Bc|]. split; [vm_compute; reflexivity|].
        split; [intros [H|[H|H]]; discriminate|]. split; [|cbn; lia]. constructor; [|constructor]. split; [vm_compute; reflexivity|split; [constructor|cbn; lia]].
      - discriminate. }
    rewrite X in *. split; auto.
  Qed.
End Requests.
(** SearchMessage::from_object_code (src/message.rs:25-37): a read of property
    0xD6 of the given object, from the node profile. *)
Theorem C97_search_from : forall code, code < 2 ^ 24 -> carries (search_message_from code) (Frame 0 0x0EF001 code 0x62 (Single [(0xD6, [])])).
Proof.
  intros code Bc. split; [reflexivity|]. split; [reflexivity|]. split; [|split; [reflexivity|split; [reflexivity|split; reflexivity]]].
  unfold msg_deoj. change (m_deoj (search_message_from code)) with (split_object_code code). rewrite object_code_split. apply N.mod_small. exact Bc.
Qed.
Print Assumptions C97_send.
Print Assumptions C97_post.
Print Assumptions C97_search.
Print Assumptions C97_search_from.

(** A write of 0x30 to the lamp at the peer, and a search for lamps. *)
Definition ex_write : message := msg_add_property (msg_set_esv (msg_set_deoj msg_new 0x029101) EWriteRequest) (PProp 0x80 [0x30]).
Example C97_case :
  built ex_write /\ carries ex_write (Frame 0 0 0x029101 0x60 (Single [(0x80, [0x30])])) /\
  (let '(ok, _, _, w') := controller_send (O := ex_os) (ex_w (ex_ops [])) (ex_n (ex_ops [])) (Remote peer []) ex_write in ok = true /\ length (w_trace w') = S (length (w_trace (ex_w (ex_ops []))))) /\
  (let '(ok, _, w') := controller_search_object (O := ex_os) (ex_w (ex_ops [])) (ex_n (ex_ops [])) 0x029101 in ok = true).
Proof.
  split; [|split; [|split]].
  - apply B_add; [|split; [vm_compute; reflexivity|repeat constructor]]. apply B_esv, B_deoj; [constructor|vm_compute; reflexivity].
  - vm_compute. auto 10.
  - vm_compute. auto.
  - vm_compute. auto.
Qed.
