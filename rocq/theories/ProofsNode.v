(** Lemmas about the node model. *)
From Verif Require Import Base HMap ModelCodec ModelMessages ModelObject ModelTransport ModelNode
  SpecWire SpecObject SpecNode ProofsCodec ProofsCodec2 PropertiesCodec ProofsObject ProofsObject2 ProofsObject3.

(* ------------------------------------------------------------------ *)
(** ** The object list *)
Lemma find_object_some os c o : find_object os c = Some o -> addressed os c o.
Proof.
  induction os as [|x r IH]; cbn [find_object]; [discriminate|].
  destruct (N.eqb_spec (object_code x) c) as [E|E].
  - intro H. inversion H; subst. exists [], r. auto.
  - intro H. destruct (IH H) as (pre & post & -> & Ho & F). exists (x :: pre), post. split; auto.
Qed.
Lemma find_object_none os c : find_object os c = None <-> not_owned os c.
Proof.
  unfold not_owned. induction os as [|x r IH]; cbn [find_object]; [split; auto|].
  destruct (N.eqb_spec (object_code x) c) as [E|E].
  - split; [discriminate|]. intro H. inversion H; tauto.
  - rewrite IH. split; intro H; [constructor; auto|inversion H; auto].
Qed.
Lemma addressed_find os c o : addressed os c o -> find_object os c = Some o.
Proof.
  intros (pre & post & -> & Ho & F). induction pre as [|x r IH]; cbn [app find_object].
  - rewrite Ho, N.eqb_refl. reflexivity.
  - inversion F; subst. destruct (N.eqb_spec (object_code x) (object_code o)); [congruence|]. auto.
Qed.
Lemma put_object_split pre o post c o' : object_code o = c -> Forall (fun x => object_code x <> c) pre ->
  put_object (pre ++ o :: post) c o' = pre ++ o' :: post.
Proof.
  intros Ho F. induction pre as [|x r IH]; cbn [app put_object].
  - rewrite Ho, N.eqb_refl. reflexivity.
  - inversion F; subst. destruct (N.eqb_spec (object_code x) (object_code o)); [congruence|]. rewrite IH; auto.
Qed.
Lemma addressed_unique os c a b : addressed os c a -> addressed os c b -> a = b.
Proof. intros A B. apply addressed_find in A, B. congruence. Qed.
Lemma addressed_not_owned os c o : addressed os c o -> not_owned os c -> False.
Proof. intros A B. apply addressed_find in A. apply find_object_none in B. congruence. Qed.
Lemma addressed_dec os c : not_owned os c \/ exists o, addressed os c o.
Proof.
  destruct (find_object os c) as [o|] eqn:E; [right; exists o; apply find_object_some; auto|left; apply find_object_none; auto].
Qed.
Lemma addressed_in os c o : addressed os c o -> In o os.
Proof. intros (pre & post & -> & _). apply in_elt. Qed.

(* ------------------------------------------------------------------ *)
(** ** A sequence of data assignments *)
Definition sets (o : object) (l : list pprop) : object :=
  fold_left (fun o q => fst (object_set_property_data o (pp_code q) (pp_data q))) l o.
Lemma write_props_sets o l : write_props o l = sets o l. Proof. reflexivity. Qed.
Lemma copy_back_sets ps : forall o, copy_back o ps = sets o (map pprop_of_prop ps).
Proof. unfold copy_back, sets. induction ps as [|p r IH]; intro o; cbn; auto. Qed.

Definition set_last (d : option (list N)) (p : prop) : prop := match d with Some x => prop_set_data p x | None => p end.
Lemma sets_find l : forall o c,
  object_find_property (sets o l) c = option_map (set_last (last_data c l)) (object_find_property o c).
Proof.
  induction l as [|q r IH]; intros o c; cbn [sets fold_left last_data].
  - destruct (object_find_property o c); reflexivity.
  - change (fold_left _ r ?x) with (sets x r). rewrite IH, set_data_find. rewrite (N.eqb_sym (pp_code q)).
    destruct (N.eqb_spec c (pp_code q)).
    + subst. destruct (object_find_property o (pp_code q)); cbn; auto. destruct (last_data _ r); reflexivity.
    + destruct (object_find_property o c); cbn; auto. destruct (last_data _ r); reflexivity.
Qed.
Lemma sets_meta l : forall o,
  o_codes (sets o l) = o_codes o /\ o_name (sets o l) = o_name o /\ o_class_name (sets o l) = o_class_name o /\
  hkeys (o_props (sets o l)) = hkeys (o_props o).
Proof.
  induction l as [|q r IH]; intro o; cbn [sets fold_left]; auto.
  change (fold_left _ r ?x) with (sets x r).
  destruct (IH (fst (object_set_property_data o (pp_code q) (pp_data q)))) as (A & B & C & D).
  destruct (set_data_meta o (pp_code q) (pp_data q)) as (A' & B' & C' & _ & D').
  rewrite A, B, C, D, A', B', C', D'. auto.
Qed.
Lemma object_code_codes a b : o_codes a = o_codes b -> object_code a = object_code b.
Proof. unfold object_code. intros ->. reflexivity. Qed.
Lemma sets_code l o : object_code (sets o l) = object_code o.
Proof. apply object_code_codes. apply sets_meta. Qed.
Lemma same_attributes_set_data p d : same_attributes p (prop_set_data p d).
Proof. repeat split. Qed.
Lemma sets_shape l o : same_shape o (sets o l).
Proof.
  destruct (sets_meta l o) as (A & B & C & D). split; auto. split; auto. split; auto. split.
  - intro c. rewrite sets_find. destruct (object_find_property o c); cbn; split; congruence.
  - intros c p q Hp. rewrite sets_find, Hp. cbn. intro E. inversion E; subst.
    destruct (last_data c l); cbn; [apply same_attributes_set_data|apply same_attributes_refl].
Qed.
Lemma same_shape_refl o : same_shape o o.
Proof. apply (sets_shape []). Qed.
Lemma same_shape_sym a b : same_shape a b -> same_shape b a.
Proof.
  intros (A & B & C & D & E). split; auto. split; auto. split; auto. split.
  - intro c. symmetry. apply D.
  - intros c p q Hp Hq. apply same_attributes_sym. eapply E; eauto.
Qed.
Lemma same_shape_trans a b c : same_shape a b -> same_shape b c -> same_shape a c.
Proof.
  intros (A & B & C & D & E) (A' & B' & C' & D' & E'). split; [congruence|]. split; [congruence|]. split; [congruence|]. split.
  - intro k. rewrite D. apply D'.
  - intros k p q Hp Hq. destruct (object_find_property b k) as [x|] eqn:X.
    + eapply same_attributes_trans; eauto.
    + apply D in X. congruence.
Qed.
Lemma last_data_none c l : last_data c l = None <-> ~ In c (map pp_code l).
Proof.
  induction l as [|q r IH]; cbn [last_data map In]; [tauto|].
  destruct (last_data c r) eqn:E.
  - split; [discriminate|]. intro H. exfalso. apply H. right. destruct (in_dec N.eq_dec c (map pp_code r)) as [I|I]; auto.
    apply IH in I. discriminate.
  - destruct (N.eqb_spec (pp_code q) c); [split; [discriminate|tauto]|]. tauto.
Qed.
Lemma last_data_in c l d : last_data c l = Some d -> In (PProp c d) l.
Proof.
  induction l as [|q r IH]; cbn [last_data]; [discriminate|]. destruct (last_data c r) eqn:E.
  - intro H. right. apply IH. congruence.
  - destruct (N.eqb_spec (pp_code q) c); [|discriminate]. intro H. left. destruct q. cbn in *. congruence.
Qed.
Lemma last_data_app c a b : last_data c (a ++ b) = match last_data c b with Some d => Some d | None => last_data c a end.
Proof.
  induction a as [|q r IH]; cbn [app last_data]; [destruct (last_data c b); auto|].
  rewrite IH. destruct (last_data c b); auto.
Qed.

(* ------------------------------------------------------------------ *)
(** ** Services and validity *)
Lemma request_service_spec v : request_service v <-> esv_is_request (esv_from_u8 v) = true.
Proof. unfold request_service. symmetry. apply (C10_esv_classes v). Qed.
Lemma request_not_response v : request_service v -> esv_is_response (esv_from_u8 v) = false.
Proof.
  intro H. destruct H as [<-|[<-|[<-|[<-|[<-|[<-|[]]]]]]]; reflexivity.
Qed.
Ltac services H := destruct H as [H|[H|[H|[H|[H|[H|[]]]]]]].

Lemma valid_writes o ps : is_valid_request o EWriteRequest ps = true <-> Forall (may_write o) ps.
Proof.
  induction ps as [|q r IH]; cbn [is_valid_request]; [split; auto|].
  split.
  - destruct (object_find_property o (pp_code q)) as [p|] eqn:E; [|discriminate].
    cbn [service_available size_fits]. unfold prop_is_writable, pp_size.
    destruct (rule_allowed (p_write p)) eqn:A; cbn [negb]; [|discriminate].
    destruct ((0 <? p_cap p) && (p_cap p <? N.of_nat (length (pp_data q)))) eqn:B; cbn [negb]; [discriminate|].
    intro H. constructor; [|tauto]. exists p. split; auto. split; [apply rule_allowed_spec; auto|lia].
  - intro F. inversion F as [|? ? (p & E & A & B) F']; subst. rewrite E. cbn [service_available size_fits].
    unfold prop_is_writable, pp_size. apply rule_allowed_spec in A. rewrite A. cbn [negb].
    destruct ((0 <? p_cap p) && (p_cap p <? N.of_nat (length (pp_data q)))) eqn:C; cbn [negb]; [lia|tauto].
Qed.
Lemma valid_writes2 o ps : is_valid_request o EWriteRequestResponseRequired ps = is_valid_request o EWriteRequest ps.
Proof.
  induction ps as [|q r IH]; cbn [is_valid_request]; auto. rewrite IH. reflexivity.
Qed.
Lemma valid_reads o ps e : In e [EReadRequest; ENotificationRequest; ENotificationResponseRequired] ->
  (is_valid_request o e ps = true <-> Forall (may_read o) ps).
Proof.
  intro He. induction ps as [|q r IH]; cbn [is_valid_request]; [split; auto|].
  assert (S : forall p, service_available p e = rule_allowed (p_read p)).
  { intro p. destruct He as [<-|[<-|[<-|[]]]]; cbn; unfold prop_is_readable; destruct (rule_allowed (p_read p)); reflexivity. }
  assert (Z : forall p, size_fits p e q = true).
  { intro p. destruct He as [<-|[<-|[<-|[]]]]; reflexivity. }
  split.
  - destruct (object_find_property o (pp_code q)) as [p|] eqn:E; [|discriminate].
    rewrite S, Z. cbn [negb]. destruct (rule_allowed (p_read p)) eqn:A; cbn [negb]; [|discriminate].
    intro H. constructor; [|tauto]. exists p. split; auto. apply rule_allowed_spec; auto.
  - intro F. inversion F as [|? ? (p & E & A) F']; subst. rewrite E, S, Z. apply rule_allowed_spec in A. rewrite A. cbn. tauto.
Qed.
Lemma if_negb (b : bool) : (if negb b then false else true) = b. Proof. destruct b; reflexivity. Qed.

(** Which lists a decoded message has. *)
Definition one_body (m : message) : Prop :=
  (is_double (m_esv m) = true -> m_props m = []) /\ (is_double (m_esv m) = false -> m_set m = [] /\ m_get m = []).

Lemma request_valid_spec o m : request_service (m_esv m) -> (request_valid o m = true <-> permitted o m).
Proof.
  intro R. unfold permitted, request_valid, writes_of, reads_of, msg_esv. services R; rewrite <- R; cbn [esv_from_u8 N.eqb Pos.eqb orb].
  1,2: change (esv_from_u8 _) with EWriteRequest || change (esv_from_u8 _) with EWriteRequestResponseRequired; cbn match; rewrite if_negb;
    try rewrite valid_writes2; rewrite valid_writes; split; [split; auto|tauto].
  - change (esv_from_u8 _) with EReadRequest. cbn match. rewrite if_negb, valid_reads by (cbn; auto). split; [split; auto|tauto].
  - change (esv_from_u8 _) with ENotificationRequest. cbn match. rewrite if_negb, valid_reads by (cbn; auto). split; [split; auto|tauto].
  - change (esv_from_u8 _) with EWriteReadRequest. cbn match.
    rewrite <- valid_writes, <- (valid_reads o (m_get m) EReadRequest) by (cbn; auto).
    destruct (is_valid_request o EWriteRequest _), (is_valid_request o EReadRequest _); cbn; intuition congruence.
  - change (esv_from_u8 _) with ENotificationResponseRequired. cbn match. rewrite if_negb, valid_reads by (cbn; auto). split; [split; auto|tauto].
Qed.

(* ------------------------------------------------------------------ *)
(** ** Received messages *)
Record rcvd (m : message) : Prop := {
  rc_wf : msg_wf m; rc_lim : in_limits m; rc_body : one_body m }.
Lemma received_rcvd m : received m -> rcvd m.
Proof.
  intros (bs & m0 & a & Ho & E & ->). destruct (parse_classify msg_new bs Ho) as [f rest F -> E'|? E'|? ? ? ? ? ? ? ? ? ? ? E']; try congruence.
  rewrite E in E'. inversion E'; subst m0. destruct (msg_of_frame_wf f F) as [W L].
  destruct F as (_ & _ & _ & _ & B).
  assert (O : one_body (msg_of_frame msg_new f)).
  { unfold one_body, msg_of_frame. destruct (f_body f) as [ps|ss gs]; cbn [wbody_ok] in B; cbn; destruct B as [B _].
    - apply is_double_false in B. rewrite B. split; [discriminate|auto].
    - apply is_double_spec in B. rewrite B. split; [auto|discriminate]. }
  constructor; auto. destruct W. constructor; auto.
Qed.

Definition resp (m : message) (e : N) (ps ss gs : list pprop) : message :=
  Msg (0x10, 0x81) (m_tid m) (m_deoj m) (m_seoj m) e ps ss gs (V4 0, 0).
Lemma fold_add_props l : forall m, fold_left msg_add_property l m = with_props m (m_props m ++ l).
Proof.
  induction l as [|p r IH]; intro m; cbn [fold_left]; [rewrite app_nil_r; destruct m; reflexivity|].
  rewrite IH. cbn. rewrite <- app_assoc. reflexivity.
Qed.
Lemma fold_add_set l : forall m, fold_left msg_add_property_set l m = with_set m (m_set m ++ l).
Proof.
  induction l as [|p r IH]; intro m; cbn [fold_left]; [rewrite app_nil_r; destruct m; reflexivity|].
  rewrite IH. cbn. rewrite <- app_assoc. reflexivity.
Qed.
Lemma fold_add_get l : forall m, fold_left msg_add_property_get l m = with_get m (m_get m ++ l).
Proof.
  induction l as [|p r IH]; intro m; cbn [fold_left]; [rewrite app_nil_r; destruct m; reflexivity|].
  rewrite IH. cbn. rewrite <- app_assoc. reflexivity.
Qed.
Lemma tid_split m : msg_wf m -> ((msg_tid m / 256) mod 256, msg_tid m mod 256) = m_tid m.
Proof.
  intros W. rewrite msg_tid_eq. destruct (wf_tid _ W) as [A B]. destruct (m_tid m) as [x y]; cbn [fst snd] in *. f_equal; lia.
Qed.
Lemma eoj_split e : wf3 e -> split_object_code (to_object_code e) = e.
Proof.
  destruct e as [[a b] c]. intros (A & B & C). rewrite split_object_code_eq, to_object_code_eq. f_equal; [f_equal|]; lia.
Qed.
Lemma response_message_eq m : msg_wf m -> response_message m = resp m (esv_to_u8 (response_esv (msg_esv m))) [] [] [].
Proof.
  intro W. unfold response_message. rewrite msg_set_tid_eq, tid_split by auto. unfold msg_set_esv, msg_set_seoj, msg_set_deoj, msg_deoj, msg_seoj.
  rewrite !eoj_split by apply W. reflexivity.
Qed.
Lemma error_message_eq m : msg_wf m -> request_service (m_esv m) ->
  response_error_message m =
  resp m (esv_to_u8 (error_esv (msg_esv m))) (if m_esv m =? 0x6E then m_set m ++ m_set m else m_props m) [] [].
Proof.
  intros W R. unfold response_error_message. rewrite msg_set_tid_eq, tid_split by auto. unfold msg_set_seoj, msg_set_deoj, msg_deoj, msg_seoj.
  rewrite !eoj_split by apply W. unfold msg_esv. services R; rewrite <- R; cbn match; cbn -[fold_left]; rewrite !fold_add_props; reflexivity.
Qed.

Lemma read_props_spec o ps l : read_props_of o ps = Some l <->
  Forall2 (fun q r => exists p, object_find_property o (pp_code q) = Some p /\ r = PProp (p_code p) (p_data p)) ps l.
Proof.
  revert l. induction ps as [|q r IH]; intro l; cbn [read_props_of].
  - split; [intro H; inversion H; constructor|intro H; inversion H; auto].
  - split.
    + destruct (object_find_property o (pp_code q)) as [p|] eqn:E; [|discriminate].
      destruct (read_props_of o r) as [l'|] eqn:E'; [|discriminate]. intro H. inversion H; subst.
      constructor; [eauto|]. apply IH. auto.
    + intro H. inversion H as [|? x ? l' (p & E & ->) F]; subst. rewrite E. apply IH in F. rewrite F. reflexivity.
Qed.
Lemma read_props_total o ps : Forall (fun q => object_find_property o (pp_code q) <> None) ps -> exists l, read_props_of o ps = Some l.
Proof.
  induction 1 as [|q r H F [l IH]]; cbn [read_props_of]; [eauto|]. destruct (object_find_property o (pp_code q)); [|congruence].
  rewrite IH. eauto.
Qed.
Definition data_of (o : object) (c : N) : list N := match object_property_data o c with Some d => d | None => [] end.
Definition held (o : object) (q : pprop) : pprop := PProp (pp_code q) (data_of o (pp_code q)).
Definition coded (o : object) : Prop := forall c p, object_find_property o c = Some p -> p_code p = c.
Lemma read_props_held o ps l : coded o -> read_props_of o ps = Some l -> l = map (held o) ps.
Proof.
  intros K H. apply read_props_spec in H. induction H as [|q r ps l (p & E & ->) F IH]; auto. cbn [map]. f_equal; auto.
  unfold held, data_of, object_property_data. rewrite E. f_equal. apply K; auto.
Qed.

(* ------------------------------------------------------------------ *)
(** ** What happens to a message *)
Section N.
  Context {U : Type} {P : Profile} {HO : HashOrder}.

  Definition answered (o : object) (m : message) (copy : object) : object := apply_writes (copy_back o (object_properties copy)) m.

  Inductive handled (seed : N) (u : U) (n : node U) (m : message) : U -> node U -> option message -> Prop :=
  | H_ignored : (not_owned (n_objects n) (msg_deoj m) \/ ~ request_service (m_esv m)) -> handled seed u n m u n None
  | H_invalid o : request_service (m_esv m) -> addressed (n_objects n) (msg_deoj m) o -> ~ permitted o m ->
      handled seed u n m u n (Some (response_error_message m))
  | H_rejected o copy u' copy' : request_service (m_esv m) -> addressed (n_objects n) (msg_deoj m) o -> permitted o m ->
      object_clone seed o = Ret copy -> request_received (n_handlers n) u copy m = Ret (u', copy', false) ->
      handled seed u n m u' n (Some (response_error_message m))
  | H_accepted pre o post copy u' copy' : request_service (m_esv m) -> 
      n_objects n = pre ++ o :: post -> object_code o = msg_deoj m -> Forall (fun x => object_code x <> msg_deoj m) pre ->
      permitted o m ->
      object_clone seed o = Ret copy -> request_received (n_handlers n) u copy m = Ret (u', copy', true) ->
      handled seed u n m u' (n_with_objects n (pre ++ answered o m copy' :: post)) (object_message_received (answered o m copy') m).

  Lemma handled_spec seed u n m u' n' res :
    node_message_received seed u n m = Ret (u', n', res) -> handled seed u n m u' n' res.
  Proof.
    unfold node_message_received. destruct (esv_is_response (msg_esv m)) eqn:E1.
    { intro H. inversion H; subst. apply H_ignored. right. intro R. apply request_not_response in R. unfold msg_esv in E1. congruence. }
    destruct (find_object (n_objects n) (msg_deoj m)) as [o|] eqn:E2.
    2:{ intro H. inversion H; subst. apply H_ignored. left. apply find_object_none; auto. }
    pose proof (find_object_some _ _ _ E2) as A.
    destruct (esv_is_request (msg_esv m)) eqn:E3; cbn [negb].
    2:{ intro H. inversion H; subst. apply H_ignored. right. rewrite request_service_spec. unfold msg_esv in E3. congruence. }
    assert (R : request_service (m_esv m)) by (apply request_service_spec; auto).
    destruct (request_valid o m) eqn:E4; cbn [negb].
    2:{ intro H. inversion H; subst. eapply H_invalid; eauto. rewrite <- request_valid_spec by auto. congruence. }
    apply request_valid_spec in E4; auto.
    destruct (object_clone seed o) as [copy|] eqn:E5; cbn [obind]; [|discriminate].
    destruct (request_received (n_handlers n) u copy m) as [[[u1 copy'] acc]|] eqn:E6; cbn [obind]; [|discriminate].
    destruct acc; cbn [negb].
    - intro H. destruct A as (pre & post & Eo & Ec & F).
      rewrite Eo in H. rewrite put_object_split in H by auto. inversion H; subst. eapply H_accepted; eauto.
    - intro H. inversion H; subst. eapply H_rejected; eauto.
  Qed.

  Lemma answered_sets o m c : exists l, answered o m c = sets o (l ++ writes_of m) /\ l = map pprop_of_prop (object_properties c).
  Proof.
    eexists; split; [|reflexivity]. unfold answered, apply_writes, writes_of. rewrite copy_back_sets.
    assert (X : forall a b, sets (sets o a) b = sets o (a ++ b)) by (intros a b; unfold sets; rewrite fold_left_app; reflexivity).
    unfold msg_esv. destruct (N.eqb_spec (m_esv m) 0x60) as [->|H1]; cbn [orb]; [rewrite <- X; reflexivity|].
    destruct (N.eqb_spec (m_esv m) 0x61) as [->|H2]; cbn [orb]; [rewrite <- X; reflexivity|].
    destruct (N.eqb_spec (m_esv m) 0x6E) as [->|H3]; [rewrite <- X; reflexivity|].
    rewrite app_nil_r.
    destruct (esv_from_u8_cases (m_esv m)) as [[E _]|(e & He & Ev & E)]; rewrite E; auto.
    destruct e; auto; cbn in Ev; congruence.
  Qed.
  Lemma answered_shape o m c : same_shape o (answered o m c).
  Proof. destruct (answered_sets o m c) as (l & -> & _). apply sets_shape. Qed.
  Lemma answered_written o m c k d p : last_data k (writes_of m) = Some d -> object_find_property o k = Some p ->
    object_find_property (answered o m c) k = Some (prop_set_data p d).
  Proof.
    intros H Hp. destruct (answered_sets o m c) as (l & -> & _). rewrite sets_find, last_data_app, H, Hp. reflexivity.
  Qed.

  (** The shape of the responses. *)
  Lemma success_eq o o' m : msg_wf m -> one_body m -> request_service (m_esv m) -> permitted o m -> same_shape o o' ->
    (m_esv m = 0x60 /\ object_message_received o' m = None) \/
    exists e ps ss gs, success_service (m_esv m) = Some e /\
      object_message_received o' m = Some (resp m e ps ss gs) /\
      (m_esv m = 0x61 \/ m_esv m = 0x74 -> ps = ack_props (m_props m) /\ ss = [] /\ gs = []) /\
      (m_esv m = 0x62 \/ m_esv m = 0x63 -> read_props_of o' (m_props m) = Some ps /\ ss = [] /\ gs = []) /\
      (m_esv m = 0x6E -> ps = [] /\ ss = ack_props (m_set m) /\ read_props_of o' (m_get m) = Some gs).
  Proof.
    intros W B R Pm Sh.
    assert (T : forall ps, Forall (may_read o) ps -> exists l, read_props_of o' ps = Some l).
    { intros ps F. apply read_props_total. eapply Forall_impl; [|exact F]. intros q (p & Hp & _) X. apply Sh in X. congruence. }
    destruct Pm as [_ Pr]. unfold reads_of in Pr. unfold object_message_received. rewrite response_message_eq by auto.
    unfold msg_esv. services R; rewrite <- R in *; cbn [N.eqb Pos.eqb orb] in Pr.
    - left. split; reflexivity.
    - right. exists 0x71, (ack_props (m_props m)), [], []. split; [reflexivity|]. split.
      + change (esv_from_u8 0x61) with EWriteRequestResponseRequired. cbn match. rewrite fold_add_props. reflexivity.
      + split; [auto|]. split; [intros [H|H]; discriminate H|discriminate].
    - right. destruct (T _ Pr) as [l E]. exists 0x72, l, [], []. split; [reflexivity|]. split.
      + change (esv_from_u8 0x62) with EReadRequest. cbn match. rewrite E, fold_add_props. reflexivity.
      + split; [intros [H|H]; discriminate H|]. split; [auto|discriminate].
    - right. destruct (T _ Pr) as [l E]. exists 0x73, l, [], []. split; [reflexivity|]. split.
      + change (esv_from_u8 0x63) with ENotificationRequest. cbn match. rewrite E, fold_add_props. reflexivity.
      + split; [intros [H|H]; discriminate H|]. split; [auto|discriminate].
    - right. destruct (T _ Pr) as [l E]. exists 0x7E, [], (ack_props (m_set m)), l. split; [reflexivity|]. split.
      + change (esv_from_u8 0x6E) with EWriteReadRequest. cbn match. rewrite E, fold_add_set, fold_add_get. reflexivity.
      + split; [intros [H|H]; discriminate H|]. split; [intros [H|H]; discriminate H|auto].
    - right. exists 0x7A, (ack_props (m_props m)), [], []. split; [reflexivity|]. split.
      + change (esv_from_u8 0x74) with ENotificationResponseRequired. cbn match. rewrite fold_add_props. reflexivity.
      + split; [auto|]. split; [intros [H|H]; discriminate H|discriminate].
  Qed.
  Lemma failure_eq m : msg_wf m -> request_service (m_esv m) ->
    exists e, failure_service (m_esv m) = Some e /\
      response_error_message m = resp m e (if m_esv m =? 0x6E then m_set m ++ m_set m else m_props m) [] [].
  Proof.
    intros W R. rewrite error_message_eq by auto. unfold msg_esv. services R; rewrite <- R; eexists; split; reflexivity.
  Qed.

  (** ** Handlers *)
  Lemma ask_handler_spec (h : handler U) e ps : forall u o all u' o' b,
    ask_handler h u o e ps all = Ret (u', o', b) <-> exists bs, asked h e u o ps bs u' o' /\ b = all && forallb id bs.
  Proof.
    induction ps as [|p r IH]; intros u o all u' o' b; cbn [ask_handler].
    - split.
      + intro H. inversion H; subst. exists []. split; [constructor|]. rewrite andb_true_r. reflexivity.
      + intros (bs & A & ->). inversion A; subst. rewrite andb_true_r. reflexivity.
    - split.
      + destruct (call_handler h u o e p) as [[[u1 o1] b1]|] eqn:E; cbn [obind]; [|discriminate].
        intro H. apply IH in H as (bs & A & ->). exists (b1 :: bs). split; [econstructor; eauto|].
        cbn [forallb]. unfold id at 2. destruct b1, all; reflexivity.
      + intros (bs & A & ->). inversion A as [|? ? ? u1 o1 b1 ? bs1 ? ? E A1]; subst. rewrite E. cbn [obind]. apply IH. exists bs1. split; [auto|].
        cbn [forallb]. unfold id at 1. destruct b1, all; reflexivity.
  Qed.
  Lemma ask_handlers_spec e ps (hs : list (handler U)) : forall u o acc u' o' b,
    ask_handlers hs u o e ps acc = Ret (u', o', b) <->
    exists bss, all_asked e ps hs u o bss u' o' /\ b = acc || existsb (forallb id) bss.
  Proof.
    induction hs as [|h r IH]; intros u o acc u' o' b; cbn [ask_handlers].
    - split.
      + intro H. inversion H; subst. exists []. split; [constructor|]. rewrite orb_false_r. reflexivity.
      + intros (bs & A & ->). inversion A; subst. rewrite orb_false_r. reflexivity.
    - split.
      + destruct (ask_handler h u o e ps true) as [[[u1 o1] b1]|] eqn:E; cbn [obind]; [|discriminate].
        apply ask_handler_spec in E as (bs & A & ->).
        intro H. apply IH in H as (bss & B & ->). exists (bs :: bss). split; [econstructor; eauto|].
        cbn [existsb andb]. destruct (forallb id bs), acc; reflexivity.
      + intros (bs & A & ->). inversion A as [|? ? ? ? bs0 u1 o1 bss1 ? ? A1 A2]; subst.
        assert (X : ask_handler h u o e ps true = Ret (u1, o1, forallb id bs0)) by (apply ask_handler_spec; eauto).
        rewrite X. cbn [obind]. apply IH. exists bss1. split; [auto|].
        cbn [existsb]. destruct (forallb id bs0), acc; reflexivity.
  Qed.
  Lemma forallb_id bs : forallb id bs = true <-> ~ In false bs.
  Proof.
    rewrite forallb_forall. unfold id. split.
    - intros H I. apply H in I. discriminate.
    - intros H [] I; auto; tauto.
  Qed.
  Lemma request_received_spec (hs : list (handler U)) u o m u' o' b : hs <> [] ->
    (request_received hs u o m = Ret (u', o', b) <->
     exists bss, all_asked (msg_esv m) (m_props m) hs u o bss u' o' /\
       (b = true <-> exists bs, In bs bss /\ ~ In false bs)).
  Proof.
    intro H. unfold request_received. destruct hs as [|h r]; [congruence|]. cbn [length Nat.eqb].
    rewrite ask_handlers_spec. cbn [orb]. split; intros (bss & A & B); exists bss; split; auto.
    - subst. rewrite existsb_exists. split; intros (bs & I & J); exists bs; split; auto; apply forallb_id; auto.
    - apply eq_iff_eq_true. rewrite B, existsb_exists. split; intros (bs & I & J); exists bs; split; auto; apply forallb_id; auto.
  Qed.
  Lemma verdict_spec (hs : list (handler U)) u o m u' o' b :
    request_received hs u o m = Ret (u', o', b) <-> verdict hs m u o u' o' b.
  Proof.
    unfold verdict. destruct hs as [|h r].
    - split.
      + intro H. inversion H; auto.
      + intros [(_ & -> & -> & ->)|[X _]]; [reflexivity|congruence].
    - rewrite request_received_spec by discriminate. split; [right; split; [discriminate|auto]|].
      intros [(X & _)|[_ H]]; [discriminate|auto].
  Qed.
  Lemma asked_hands_off (h : handler U) e u o ps bs u' o' : hands_off h -> asked h e u o ps bs u' o' -> o' = o.
  Proof.
    intros H. induction 1 as [|u o p u1 o1 b ps bs u2 o2 E A IH]; auto. rewrite IH.
    destruct h; cbn in E; [congruence|]. eapply H; eauto.
  Qed.
  Lemma all_asked_hands_off e ps (hs : list (handler U)) u o bss u' o' : Forall hands_off hs -> all_asked e ps hs u o bss u' o' -> o' = o.
  Proof.
    intros F. induction 1 as [|h hs u o bs u1 o1 bss u2 o2 A B IH]; auto. inversion F; subst.
    rewrite IH by auto. eapply asked_hands_off; eauto.
  Qed.
  Lemma request_received_hands_off (hs : list (handler U)) u o m u' o' b : Forall hands_off hs -> request_received hs u o m = Ret (u', o', b) -> o' = o.
  Proof.
    intros F H. destruct hs as [|h r].
    - inversion H; auto.
    - apply request_received_spec in H as (bss & A & _); [|discriminate]. eapply all_asked_hands_off; eauto.
  Qed.
  Lemma asked_typed (h : handler U) e u o ps bs u' o' : typed_handler h -> asked h e u o ps bs u' o' -> obj_octets o -> obj_octets o'.
  Proof.
    intros H. induction 1 as [|u o p u1 o1 b ps bs u2 o2 E A IH]; auto. intro O. apply IH.
    destruct h; cbn in E; [inversion E; subst; auto|]. eapply H; eauto.
  Qed.
  Lemma request_received_typed (hs : list (handler U)) u o m u' o' b : Forall typed_handler hs -> request_received hs u o m = Ret (u', o', b) ->
    obj_octets o -> obj_octets o'.
  Proof.
    intros F H. destruct hs as [|h r].
    - inversion H; subst; auto.
    - apply request_received_spec in H as (bss & A & _); [|discriminate].
      induction A as [|h' hs u o bs u1 o1 bss u2 o2 A B IH]; auto. inversion F; subst. intro O.
      apply IH; auto. eapply asked_typed; eauto.
  Qed.
End N.
