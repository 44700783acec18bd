(** Responses on the wire, and single steps of node_observe. *)
From Verif Require Import Base HMap ModelCodec ModelMessages ModelObject ModelTransport ModelNode
  SpecWire SpecObject SpecNode ProofsCodec ProofsCodec2 PropertiesCodec ProofsObject ProofsObject2 ProofsObject3 ProofsNode ProofsNode2 ProofsNode3.

Lemma wire_eoj_code e : wf3 e -> wire_eoj (to_object_code e) = (let '(a, b, c) := e in [a; b; c]).
Proof.
  destruct e as [[a b] c]. intros (A & B & C). rewrite to_object_code_eq. unfold wire_eoj. f_equal; [lia|]. f_equal; [lia|]. f_equal. lia.
Qed.

(** A response after the TID was set. *)
Definition with_t (m : message) (t : N * N) (e : N) (ps ss gs : list pprop) : message :=
  Msg (0x10, 0x81) t (m_deoj m) (m_seoj m) e ps ss gs (V4 0, 0).
Definition body_bytes (e : N) (ps ss gs : list pprop) : list N :=
  if is_double e && negb (e =? 0x5E) then props_bytes ss ++ props_bytes gs else props_bytes ps.
Lemma with_t_bytes m t e ps ss gs : wf3 (m_seoj m) -> wf3 (m_deoj m) ->
  msg_bytes (with_t m t e ps ss gs) =
  [0x10; 0x81; fst t; snd t] ++ wire_eoj (msg_deoj m) ++ wire_eoj (msg_seoj m) ++ [e] ++ body_bytes e ps ss gs.
Proof.
  intros A B. rewrite msg_bytes_eq. unfold with_t, msg_deoj, msg_seoj. cbn [m_ehd m_tid m_seoj m_deoj m_esv m_set m_get m_props].
  rewrite !wire_eoj_code by auto. destruct (m_seoj m) as [[a b] c], (m_deoj m) as [[x y] z], t as [t0 t1]. reflexivity.
Qed.
Lemma with_t_service m t e ps ss gs : wf3 (m_seoj m) -> wf3 (m_deoj m) -> service_of (msg_bytes (with_t m t e ps ss gs)) = e.
Proof. intros A B. rewrite with_t_bytes by auto. reflexivity. Qed.
Lemma with_t_header m t e ps ss gs : wf3 (m_seoj m) -> wf3 (m_deoj m) ->
  let data := msg_bytes (with_t m t e ps ss gs) in
  firstn 4 data = [0x10; 0x81; fst t; snd t] /\ firstn 6 (skipn 4 data) = wire_eoj (msg_deoj m) ++ wire_eoj (msg_seoj m).
Proof. intros A B. cbv zeta. rewrite with_t_bytes by auto. split; reflexivity. Qed.

Lemma in_limits_props m : in_limits m -> list_in_limit (m_props m). Proof. intros (A & _). auto. Qed.
Lemma to_object_code_wf3 e : wf3 e -> to_object_code e < 16777216. Proof. apply to_object_code_lt. Qed.
Lemma with_t_wf m t e ps ss gs : msg_wf m -> wf2 t -> e < 256 -> Forall u8prop ps -> Forall u8prop ss -> Forall u8prop gs ->
  msg_wf (with_t m t e ps ss gs).
Proof. intros W A B C D E. destruct W. constructor; auto. Qed.
(** Frame on the wire of a response within the limits. *)
Lemma with_t_wire m t e ps : msg_wf m -> wf2 t -> e < 256 -> ~ two_lists e -> Forall u8prop ps -> list_in_limit ps ->
  msg_bytes (with_t m t e ps [] []) = wire (Frame (fst t * 256 + snd t) (msg_deoj m) (msg_seoj m) e (Single (map to_wprop ps))).
Proof.
  intros W A B C D E. rewrite msg_bytes_wire.
  - unfold frame_of. cbn [m_esv with_t m_props]. apply is_double_false in C. rewrite C. unfold msg_tid, msg_seoj, msg_deoj, wps.
    rewrite N.shiftl_mul_pow2. reflexivity.
  - apply with_t_wf; auto.
  - split; auto. split; cbn; (split; [cbn; lia|constructor]).
  - cbn. intro X. apply C. right. right. auto.
Qed.

Section N.
  Context {U : Type}.
  Lemma update_resp (n n' : node U) m e ps ss gs r' : msg_wf m -> update_tid n (resp m e ps ss gs) = (n', r') ->
    exists t, r' = with_t m t e ps ss gs /\ wf2 t /\ (msg_tid m <> 0 -> t = m_tid m).
  Proof.
    intros W H. apply update_tid_spec in H as [(A & _ & ->)|(A & _ & ->)].
    - exists (m_tid m). split; auto. split; auto. apply W.
    - rewrite msg_set_tid_eq. eexists. split; [reflexivity|]. split.
      + split; cbn; lia.
      + intro X. exfalso. apply X. exact A.
  Qed.

  Context {P : Profile} {HO : HashOrder} {O : OS}.
  (** Everything that is offered to the network while a message is handled is one
      response. *)
  Lemma observe_offered w (u : U) n m u' n' w' tr to data : rcvd m -> node_observe w u n m = Ret (u', n', w') -> since w w' tr ->
    In (to, data) (offered tr) ->
    exists e ps ss gs t n2, request_service (m_esv m) /\
      handled (os_seed (w_calls w)) u n m u' n2 (Some (resp m e ps ss gs)) /\ n_objects n' = n_objects n2 /\
      data = msg_bytes (with_t m t e ps ss gs) /\ wf2 t /\ (msg_tid m <> 0 -> t = m_tid m) /\ to = dest m e.
  Proof.
    intros [W L B] E S I. pose proof E as E0. apply observe_spec in E as (n1 & w1 & t1 & n2 & res & t2 & S' & _ & Dv & D & H & R); auto.
    pose proof (since_unique _ _ _ _ S S') as ->. rewrite offered_app in I.
    pose proof (delivered_keeps _ _ _ _ D) as (_ & _ & _ & _ & _ & X & _). rewrite X in I. cbn [app] in I.
    inversion R as [|r n'' r' tr k Ut _ F _ _]; subst; [contradiction|].
    destruct (handled_response _ _ _ _ _ _ _ H W B) as (Rq & _).
    pose proof (delivered_request _ _ _ _ Rq D) as [-> ->].
    assert (w1 = w) as ->.
    { unfold deliver in Dv. unfold is_last_message_response in Dv. pose proof Rq as Rq'. apply request_service_spec in Rq'.
      unfold msg_esv in Dv. rewrite Rq' in Dv. congruence. }
    assert (Y : exists e ps ss gs, r = resp m e ps ss gs).
    { inversion H as [|? ? ? ?|? ? ? ? ? ? ? ? ?|pre o post copy u1 copy' R1 Eo Ec Fp V C Dd Eu En Er]; subst.
      - destruct (failure_eq m W) as (e & _ & ->); auto. eauto 10.
      - destruct (failure_eq m W) as (e & _ & ->); auto. eauto 10.
      - destruct (success_eq o (answered o m copy') m W B R1 V (answered_shape o m copy')) as [[_ N]|(e & ps & ss & gs & _ & E & _)]; [congruence|].
        exists e, ps, ss, gs. congruence. }
    destruct Y as (e & ps & ss & gs & ->). apply (proj1 (Forall_forall _ _) F) in I. inversion I; subst.
    destruct (update_resp _ _ _ _ _ _ _ _ W Ut) as (t & -> & Wt & Ht).
    exists e, ps, ss, gs, t, n2. split; auto. split; auto. split; [apply update_tid_keeps in Ut; tauto|]. auto.
  Qed.

  (** A response is an error response exactly when the request was refused. *)
  Lemma handled_error seed (u : U) n m u' n' r : rcvd m -> handled seed u n m u' n' (Some r) -> error_service (m_esv r) ->
    n' = n /\ r = response_error_message m.
  Proof.
    intros [W L B] H E. inversion H as [|? ? ? ?|? ? ? ? ? ? ? ? ?|pre o post copy u1 copy' R1 Eo Ec Fp V C Dd Eu En Er]; subst; auto.
    exfalso. destruct (success_eq o (answered o m copy') m W B R1 V (answered_shape o m copy')) as [[_ N]|(e & ps & ss & gs & S & X & _)]; [congruence|].
    assert (r = resp m e ps ss gs) as -> by congruence. cbn in E.
    services R1; rewrite <- R1 in S; inversion S; subst; cbn in E; intuition discriminate.
  Qed.
  Lemma handled_success seed (u : U) n m u' n' res : rcvd m -> handled seed u n m u' n' res ->
    request_service (m_esv m) -> (exists o, addressed (n_objects n) (msg_deoj m) o) ->
    (forall r, res = Some r -> ~ error_service (m_esv r)) ->
    exists pre o post copy copy', n_objects n = pre ++ o :: post /\ object_code o = msg_deoj m /\
      Forall (fun x => object_code x <> msg_deoj m) pre /\ permitted o m /\ object_clone seed o = Ret copy /\
      verdict (n_handlers n) m u copy u' copy' true /\
      n' = n_with_objects n (pre ++ answered o m copy' :: post) /\ res = object_message_received (answered o m copy') m.
  Proof.
    intros [W L B] H Rq [o Ao] Ok.
    assert (Er : error_service (m_esv (response_error_message m))).
    { destruct (failure_eq m W Rq) as (e & E & ->). cbn. services Rq; rewrite <- Rq in E; inversion E; subst; cbn; auto 10. }
    inversion H as [N|? ? ? ?|? ? ? ? ? ? ? ? ?|pre o' post copy u1 copy' R1 Eo Ec Fp V C Dd Eu En E]; subst.
    - exfalso. destruct N as [N|N]; [|tauto]. eapply addressed_not_owned; eauto.
    - exfalso. eapply Ok; eauto.
    - exfalso. eapply Ok; eauto.
    - exists pre, o', post, copy, copy'. do 5 (split; [auto|]). split; [apply verdict_spec; auto|]. auto.
  Qed.
  Lemma addressed_after pre (o o' : object) post c : object_code o = c -> Forall (fun x => object_code x <> c) pre -> same_shape o o' ->
    addressed (pre ++ o' :: post) c o'.
  Proof.
    intros E F S. exists pre, post. split; auto. split; auto. rewrite <- E. symmetry. apply object_code_codes. apply S.
  Qed.

  (** Cloning of received messages. *)
  Lemma clone_rcvd m : rcvd m -> m_esv m <> 0x5E -> msg_clone m = Ret (msg_of_frame msg_new (frame_of m)).
  Proof.
    intros [W L B] H. unfold msg_clone. rewrite msg_bytes_wire by auto.
    rewrite <- (app_nil_r (wire _)). rewrite parse_wire by (apply frame_of_ok; auto). reflexivity.
  Qed.
  Lemma clone_rcvd_5E m : rcvd m -> m_esv m = 0x5E -> msg_clone m = Panic.
  Proof.
    intros [W L B] H. unfold msg_clone. rewrite msg_bytes_eq, H. cbn [andb negb N.eqb Pos.eqb is_double orb].
    destruct B as [B _]. rewrite B by (rewrite H; reflexivity).
    rewrite (wf_ehd _ W). destruct (m_tid m), (m_seoj m) as [[? ?] ?], (m_deoj m) as [[? ?] ?]. cbn [app].
    change (props_bytes []) with [0]. rewrite msg_parse_eq. reflexivity.
  Qed.
End N.
