(** C134: what becomes of datagrams that arrive twice or in another order. *)
From Verif Require Import Base HMap ModelCodec ModelMessages DbTable ModelObject ModelTransport ModelNode
  SpecWire SpecObject SpecNode ProofsCodec ProofsCodec2 PropertiesCodec ProofsObject ProofsObject2 ProofsObject3
  PropertiesObject PropertiesDb ProofsDevice ProofsNode ProofsNode2 ProofsNode3 ProofsNode4 ExamplesNode PropertiesNode PropertiesTrans
  PropertiesProfile ProofsExchange ProofsHistory.

(** ** Vocabulary *)
(** The data which the object addressed by [oc] holds for property [c]. *)
Definition has_data {U} (n : node U) (oc c : N) (d : option (list N)) : Prop :=
  (not_owned (n_objects n) oc /\ d = None) \/ exists o, addressed (n_objects n) oc o /\ d = object_property_data o c.

Section V.
  Context {U : Type}.
  (** A handler that decides by the object it is asked about, the service, the
      property and its own state, and changes neither. *)
  Definition steady (h : handler U) : Prop :=
    match h with
    | HNode => True
    | HUser f => exists says, forall u o e p, f u o e p = Ret (u, o, says u (object_code o) e p)
    end.
  (** Without handlers everything is agreed to, otherwise one handler has to
      agree to all properties. *)
  Definition agreed (hs : list (handler U)) (u : U) (o : object) (m : message) : Prop :=
    hs = [] \/ exists h, In h hs /\ Forall (fun q => call_handler h u o (msg_esv m) q = Ret (u, o, true)) (m_props m).
  (** The request is carried out. *)
  Definition taken (n : node U) (u : U) (m : message) : Prop :=
    request_service (m_esv m) /\ exists o, addressed (n_objects n) (msg_deoj m) o /\ permitted o m /\ agreed (n_handlers n) u o m.
End V.

(** The data which the requests of a list write last to property [c] of the
    object [oc]; [acc] says which requests are carried out. *)
Fixpoint last_write (acc : message -> bool) (oc c : N) (ms : list message) : option (list N) :=
  match ms with
  | [] => None
  | m :: r => match last_write acc oc c r with
              | Some d => Some d
              | None => if acc m && (msg_deoj m =? oc) then last_data c (writes_of m) else None
              end
  end.
(** [m] writes a property which [m'] writes, or reads. *)
Definition same_target (m m' : message) : Prop := msg_deoj m = msg_deoj m' /\
  exists c, last_data c (writes_of m) <> None /\ last_data c (writes_of m') <> None.
Definition disturbs (m m' : message) : Prop := msg_deoj m = msg_deoj m' /\
  exists c, last_data c (writes_of m) <> None /\ In c (map pp_code (reads_of m')).

Section D.
  Context {U : Type} {P : Profile} {HO : HashOrder} {Os : OS}.

  (** ** Steady handlers *)
  Lemma steady_call (h : handler U) u o e p : steady h -> exists b, call_handler h u o e p = Ret (u, o, b).
  Proof. destruct h as [|f]; cbn [steady call_handler]; [eauto|]. intros (s & E). rewrite E. eauto. Qed.
  Lemma steady_call_shape (h : handler U) u o o' e p b : steady h -> same_shape o o' -> call_handler h u o e p = Ret (u, o, b) -> call_handler h u o' e p = Ret (u, o', b).
  Proof.
    intros S Sh. pose proof (object_code_codes o o' (proj1 Sh)) as C. destruct h as [|f]; cbn [steady call_handler] in *.
    - intro H. inversion H. unfold node_handler. rewrite <- C. destruct Sh as (_ & _ & _ & F & _).
      assert (X : match object_find_property o' (pp_code p) with None => false | Some _ => true end = match object_find_property o (pp_code p) with None => false | Some _ => true end).
      { specialize (F (pp_code p)). destruct (object_find_property o (pp_code p)), (object_find_property o' (pp_code p)); auto; destruct F as [F1 F2]; [specialize (F2 eq_refl)|specialize (F1 eq_refl)]; discriminate. }
      rewrite X. reflexivity.
    - destruct S as (s & E). rewrite !E, C. intro H. inversion H. reflexivity.
  Qed.
  Lemma steady_ask (h : handler U) u o e ps : steady h -> forall all, exists b, ask_handler h u o e ps all = Ret (u, o, b) /\
    (b = true <-> all = true /\ Forall (fun q => call_handler h u o e q = Ret (u, o, true)) ps).
  Proof.
    intro S. induction ps as [|p r IH]; intro all; cbn [ask_handler].
    - exists all. split; auto. split; [auto|tauto].
    - destruct (steady_call h u o e p S) as (b & B). rewrite B. cbn [obind].
      destruct (IH (if negb b then false else all)) as (b' & E & Q). exists b'. split; auto. rewrite Q. destruct b; cbn [negb].
      + split; [intros (A & F); split; auto|intros (A & F); inversion F; auto].
      + split; [intros (A & _); discriminate|]. intros (_ & F). inversion F; subst. congruence.
  Qed.
  Lemma steady_asks (hs : list (handler U)) u o e ps : Forall steady hs -> forall acc, exists b, ask_handlers hs u o e ps acc = Ret (u, o, b) /\
    (b = true <-> acc = true \/ exists h, In h hs /\ Forall (fun q => call_handler h u o e q = Ret (u, o, true)) ps).
  Proof.
    induction 1 as [|h r S F IH]; intro acc; cbn [ask_handlers].
    - exists acc. split; auto. split; [auto|]. intros [A|(h & [] & _)]; auto.
    - destruct (steady_ask h u o e ps S true) as (b & B & Q). rewrite B. cbn [obind].
      destruct (IH (if b then true else acc)) as (b' & E & Q'). exists b'. split; auto. rewrite Q'. destruct b.
      + split; [|auto]. intros _. right. exists h. split; [left; auto|]. apply Q. auto.
      + split.
        * intros [A|(k & I & A)]; [auto|right; exists k; split; [right|]; auto].
        * intros [A|(k & [<-|I] & A)]; [auto| |right; exists k; auto]. exfalso. assert (X : false = true) by (apply Q; auto). discriminate X.
  Qed.
  Lemma steady_received (hs : list (handler U)) u o m : Forall steady hs -> exists b, request_received hs u o m = Ret (u, o, b) /\ (b = true <-> agreed hs u o m).
  Proof.
    intro S. unfold request_received, agreed. destruct hs as [|h r]; cbn [length Nat.eqb]; [exists true; split; auto; tauto|].
    destruct (steady_asks (h :: r) u o (msg_esv m) (m_props m) S false) as (b & E & Q). exists b. split; auto. rewrite Q.
    split; [intros [X|X]; [discriminate|auto]|]. intros [X|X]; [discriminate|auto].
  Qed.
  Lemma agreed_shape (hs : list (handler U)) u o o' m : Forall steady hs -> same_shape o o' -> agreed hs u o m -> agreed hs u o' m.
  Proof.
    intros S Sh [A|(h & I & F)]; [left; auto|right]. exists h. split; auto. eapply Forall_impl; [|exact F].
    intros q. apply steady_call_shape; auto. exact (proj1 (Forall_forall _ _) S h I).
  Qed.
  Lemma permitted_shape o o' m : same_shape o o' -> permitted o m -> permitted o' m.
  Proof.
    intros (_ & _ & _ & F1 & F2) (Pw & Pr). split.
    - eapply Forall_impl; [|exact Pw]. intros q (p & Fp & A & C). destruct (object_find_property o' (pp_code q)) as [p'|] eqn:E; [|apply F1 in E; congruence].
      destruct (F2 _ _ _ Fp E) as (_ & _ & _ & Cp & _ & Wr & _). exists p'. rewrite <- Cp, <- Wr. auto.
    - eapply Forall_impl; [|exact Pr]. intros q (p & Fp & A). destruct (object_find_property o' (pp_code q)) as [p'|] eqn:E; [|apply F1 in E; congruence].
      destruct (F2 _ _ _ Fp E) as (_ & _ & _ & _ & Rd & _). exists p'. rewrite <- Rd. auto.
  Qed.
  Lemma shapes_addressed os os' c o : Forall2 same_shape os os' -> addressed os c o -> exists o', addressed os' c o' /\ same_shape o o'.
  Proof.
    intros F (pre & post & -> & E & N). apply Forall2_app_inv_l in F as (pre' & r' & F1 & F2 & ->). inversion F2 as [|a b l l' S F3]; subst.
    exists b. split; auto. exists pre', l'. split; auto. split; [symmetry; apply object_code_codes, S|].
    clear -F1 N. induction F1 as [|a b l l' S F IH]; constructor; inversion N; subst; auto. rewrite <- (object_code_codes a b (proj1 S)). auto.
  Qed.
  Lemma shapes_sym (os os' : list object) : Forall2 same_shape os os' -> Forall2 same_shape os' os.
  Proof. induction 1; constructor; auto. apply same_shape_sym; auto. Qed.
  Lemma taken_shape (n n' : node U) u m : Forall steady (n_handlers n) -> n_handlers n' = n_handlers n -> Forall2 same_shape (n_objects n) (n_objects n') ->
    taken n u m -> taken n' u m.
  Proof.
    intros S H F (R & o & A & Pm & Ag). split; auto. destruct (shapes_addressed _ _ _ _ F A) as (o' & A' & Sh). exists o'.
    split; auto. split; [eapply permitted_shape; eauto|]. rewrite H. eapply agreed_shape; eauto.
  Qed.
  Lemma has_fun (n : node U) oc c d d' : has_data n oc c d -> has_data n oc c d' -> d = d'.
  Proof.
    intros [(N & ->)|(o & A & ->)] [(N' & ->)|(o' & A' & ->)]; auto.
    - exfalso. eapply addressed_not_owned; eauto.
    - exfalso. eapply addressed_not_owned; eauto.
    - rewrite (addressed_unique _ _ _ _ A A'). auto.
  Qed.
  Lemma has_some (n : node U) oc c : exists d, has_data n oc c d.
  Proof. destruct (addressed_dec (n_objects n) oc) as [N|(o & A)]; [exists None; left; auto|eexists; right; eauto]. Qed.
  Lemma has_objects (n n' : node U) oc c d : n_objects n' = n_objects n -> has_data n oc c d -> has_data n' oc c d.
  Proof. unfold has_data. intros ->. auto. Qed.

  (** ** One message *)
  Definition still (n n' : node U) : Prop := n_handlers n' = n_handlers n /\ Forall2 same_shape (n_objects n) (n_objects n') /\ node_good n'.
  Lemma one_message seed u n m u' n' res : rcvd m -> node_good n -> Forall steady (n_handlers n) -> handled seed u n m u' n' res ->
    u' = u /\ still n n' /\ forall oc c, is_map_code c = false ->
      (forall d, taken n u m -> msg_deoj m = oc -> last_data c (writes_of m) = Some d -> has_data n' oc c (Some d)) /\
      (forall d, (~ taken n u m \/ msg_deoj m <> oc \/ last_data c (writes_of m) = None) -> has_data n oc c d -> has_data n' oc c d).
  Proof.
    intros R G S H. pose proof (handled_good _ _ _ _ _ _ _ (rc_wf _ R) G H) as G'.
    assert (Same : still n n) by (split; auto; split; auto; apply shapes_refl).
    assert (Good : forall o, addressed (n_objects n) (msg_deoj m) o -> obj_good o).
    { intros o A. destruct G as [Go _]. rewrite Forall_forall in Go. apply Go. eapply addressed_in; eauto. }
    inversion H as [N|o0 Q Ao V|o0 copy u1 copy' Q Ao V C1 D1|pre o0 post copy u1 copy' Q Eo Ec Fp V C1 D1 Eu En Er]; subst.
    - split; auto. split; auto. intros oc c Nm. split; [|auto]. intros d (Q & o & A & _) _ _. exfalso.
      destruct N as [N|N]; [eapply addressed_not_owned; eauto|auto].
    - split; auto. split; auto. intros oc c Nm. split; [|auto]. intros d (_ & o & A & Pm & _) _ _. exfalso.
      rewrite (addressed_unique _ _ _ _ A Ao) in Pm. auto.
    - match type of D1 with request_received ?hs ?v ?k _ = _ => destruct (steady_received hs v k m S) as (b & E & Ag) end. rewrite E in D1. inversion D1; subst.
      split; auto. split; auto. intros oc c Nm. split; [|auto]. intros d (_ & o & A & _ & X) _ _. exfalso.
      rewrite (addressed_unique _ _ _ _ A Ao) in X. assert (Y : false = true); [|discriminate Y].
      apply Ag. eapply agreed_shape; eauto. eapply clone_shape; eauto.
    - match type of D1 with request_received ?hs ?v ?k _ = _ => destruct (steady_received hs v k m S) as (b & E & Ag) end. rewrite E in D1. inversion D1; subst.
      assert (Ao : addressed (n_objects n) (msg_deoj m) o0) by (exists pre, post; auto).
      pose proof (Good o0 Ao) as Go. pose proof (clone_shape seed o0 copy' Go C1) as Cs.
      set (o1 := answered o0 m copy') in *. assert (Sh : same_shape o0 o1) by apply answered_shape.
      assert (Tk : taken n u' m). { split; auto. exists o0. split; auto. split; auto. eapply agreed_shape; [auto|apply same_shape_sym; exact Cs|]. apply Ag. auto. }
      assert (A1 : addressed (pre ++ o1 :: post) (msg_deoj m) o1) by (eapply addressed_after; eauto).
      assert (Fd : forall c, is_map_code c = false -> object_find_property o1 c = option_map (set_last (last_data c (writes_of m))) (object_find_property o0 c)).
      { intros c Nm. eapply answered_hands_off; eauto. }
      split; auto. split. { split; [auto|]. split; [cbn [n_objects n_with_objects]; rewrite Eo; apply shapes_one; auto|exact G']. }
      intros oc c Nm. specialize (Fd c Nm). split.
      + intros d _ <- L. right. exists o1. split; [exact A1|]. destruct V as [Pw _].
        destruct (proj1 (Forall_forall _ _) Pw _ (last_data_in _ _ _ L)) as (p & Fp' & _ & _). cbn [pp_code] in Fp'.
        unfold object_property_data. rewrite Fd, Fp', L. reflexivity.
      + intros d X St. destruct X as [X|X]; [contradiction|].
        destruct (N.eq_dec (msg_deoj m) oc) as [<-|Ne].
        * destruct X as [X|L]; [contradiction|]. right. exists o1. split; [exact A1|].
          destruct St as [(N0 & _)|(o & A & ->)]; [exfalso; exact (addressed_not_owned _ _ _ Ao N0)|]. rewrite (addressed_unique _ _ _ _ A Ao).
          unfold object_property_data. rewrite Fd, L. destruct (object_find_property o0 c) as [p|]; auto. 
        * destruct St as [(N0 & ->)|(o & A & ->)].
          -- left. split; auto. unfold not_owned in *. cbn [n_objects n_with_objects]. rewrite Eo in N0. apply Forall_app in N0 as [Na Nb]. apply Forall_app. split; auto.
             inversion Nb; subst. constructor; auto. rewrite <- (object_code_codes o0 o1 (proj1 Sh)). auto.
          -- right. exists o. split; auto. cbn [n_objects n_with_objects]. destruct A as (pre2 & post2 & E2 & Ec2 & F2). rewrite Eo in E2.
             clear -E2 Ec2 F2 Sh Ne Ec. revert pre E2. induction pre2 as [|x pre2 IH]; intros [|y pre] E2; cbn [app] in *.
             ++ inversion E2; subst. congruence.
             ++ inversion E2; subst. exists [], (pre ++ o1 :: post). split; auto.
             ++ inversion E2; subst. exists (o1 :: pre2), post2. split; auto. split; auto. inversion F2; subst. constructor; auto. rewrite <- (object_code_codes x o1 (proj1 Sh)). auto.
             ++ inversion E2; subst. inversion F2; subst. destruct (IH ltac:(auto) pre ltac:(auto)) as (a & b & Ea & Eb & Fa). eexists (_ :: a), b. rewrite Ea. split; [reflexivity|]. split; auto.
  Qed.

  (** ** Many messages *)
  Lemma still_trans (a b c : node U) : still a b -> still b c -> still a c.
  Proof. intros (A & B & _) (C & D & E). split; [congruence|]. split; auto. eapply shapes_trans; eauto. Qed.
  Lemma taken_still (n n' : node U) u m : Forall steady (n_handlers n) -> still n n' -> (taken n u m <-> taken n' u m).
  Proof.
    intros S (H & F & _). split; [apply taken_shape; auto|]. apply taken_shape; auto; [rewrite H; auto|]. apply shapes_sym; auto.
  Qed.
  Lemma one_receive u n w m u' n' w' : received m -> node_good n -> Forall steady (n_handlers n) -> node_observe w u n m = Ret (u', n', w') ->
    u' = u /\ still n n' /\ forall oc c, is_map_code c = false ->
      (forall d, taken n u m -> msg_deoj m = oc -> last_data c (writes_of m) = Some d -> has_data n' oc c (Some d)) /\
      (forall d, (~ taken n u m \/ msg_deoj m <> oc \/ last_data c (writes_of m) = None) -> has_data n oc c d -> has_data n' oc c d).
  Proof.
    intros Rm G S E. pose proof (received_rcvd _ Rm) as Rc.
    apply observe_spec in E as (n1 & w1 & t1 & n2 & res & t2 & _ & _ & _ & D & H & R); [|apply (rc_wf _ Rc)|apply (rc_body _ Rc)].
    apply delivered_keeps in D as (D1 & D2 & _). apply reaction_keeps in R as (R1 & R2 & _).
    assert (G1 : node_good n1) by (destruct G; split; [rewrite D1|rewrite D2]; auto).
    assert (S1 : Forall steady (n_handlers n1)) by (rewrite D2; auto).
    destruct (one_message _ _ _ _ _ _ _ Rc G1 S1 H) as (Eu & (K1 & K2 & K3) & W).
    assert (St1 : still n n1) by (split; [auto|split; [rewrite D1; apply shapes_refl|auto]]).
    split; auto. split. { split; [congruence|]. rewrite R1, <- D1. split; auto. destruct K3. split; [rewrite R1|rewrite R2]; auto. }
    intros oc c Nm. destruct (W oc c Nm) as [W1 W2]. split.
    - intros d T Ec L. eapply has_objects; [exact R1|]. apply W1; auto. apply (taken_still n n1); auto.
    - intros d X St. eapply has_objects; [exact R1|]. apply W2; [|eapply has_objects; eauto].
      destruct X as [X|X]; auto. left. intro T. apply X. apply (taken_still n n1); auto.
  Qed.
  Lemma many_receives ms : forall u n w u' n' w', Forall received ms -> node_good n -> Forall steady (n_handlers n) ->
    node_run (u, n, w) (map OpRecv ms) = Ret (u', n', w') -> u' = u /\ still n n' /\
    forall acc, (forall m, acc m = true <-> taken n u m) -> forall oc c d, is_map_code c = false -> has_data n oc c d ->
      has_data n' oc c (match last_write acc oc c ms with Some x => Some x | None => d end).
  Proof.
    induction ms as [|m r IH]; intros u n w u' n' w' F G S E; cbn [map node_run] in E.
    - inversion E; subst. split; auto. split; [split; auto; split; auto; apply shapes_refl|]. intros; auto.
    - inversion F as [|a b Fm Fr]; subst. cbn [node_step] in E. destruct (node_observe w u n m) as [[[u1 n1] w1]|] eqn:E1; cbn [obind] in E; [|discriminate].
      destruct (one_receive u n w m u1 n1 w1 Fm G S E1) as (-> & K & W). destruct (IH u n1 w1 u' n' w') as (-> & K' & W'); auto.
      { apply K. } { rewrite (proj1 K). auto. }
      split; auto. split; [eapply still_trans; eauto|]. intros acc A oc c d Nm St. cbn [last_write].
      assert (A1 : forall x, acc x = true <-> taken n1 u x) by (intro x; rewrite A; apply taken_still; auto).
      specialize (W' acc A1 oc c). destruct (W oc c Nm) as [W1 W2].
      destruct (last_write acc oc c r) as [x|] eqn:L.
      + destruct (has_some n1 oc c) as (d1 & S1). exact (W' d1 Nm S1).
      + apply W'; auto. destruct (acc m) eqn:Am; cbn [andb].
        * destruct (N.eqb_spec (msg_deoj m) oc) as [Ec|Ec]; [|apply W2; auto].
          destruct (last_data c (writes_of m)) as [x|] eqn:Ld; [apply W1; auto; apply A; auto|apply W2; auto].
        * apply W2; auto. left. intro T. apply A in T. congruence.
  Qed.
  Lemma not_map c : ~ map_code c -> is_map_code c = false.
  Proof. intro H. destruct (is_map_code c) eqn:E; auto. exfalso. apply H. unfold is_map_code in E. unfold map_code. lia. Qed.

  (** Whether a request is carried out can be decided. *)
  Theorem C134_decided u (n : node U) : Forall steady (n_handlers n) -> exists acc, forall m, acc m = true <-> taken n u m.
  Proof.
    intro S. exists (fun m => match find_object (n_objects n) (msg_deoj m) with
      | None => false
      | Some o => esv_is_request (esv_from_u8 (m_esv m)) && request_valid o m && match request_received (n_handlers n) u o m with Ret (_, _, b) => b | Panic => false end
      end). intro m. unfold taken. rewrite request_service_spec. destruct (find_object (n_objects n) (msg_deoj m)) as [o|] eqn:E.
    - apply find_object_some in E. destruct (steady_received (n_handlers n) u o m S) as (b & -> & Ag). rewrite !andb_true_iff. split.
      + intros [[A B] C]. split; auto. exists o. split; auto. split; [apply request_valid_spec; auto; apply request_service_spec; auto|tauto].
      + intros (A & o' & Ao & Pm & X). rewrite (addressed_unique _ _ _ _ Ao E) in *. rewrite <- Ag in X. rewrite request_valid_spec by (apply request_service_spec; auto). auto.
    - apply find_object_none in E. split; [discriminate|]. intros (_ & o & A & _). destruct (addressed_not_owned _ _ _ A E).
  Qed.

  (** Of the received messages, the last one that is carried out and writes the
      property determines its data. *)
  Theorem C134_last_writer u (n : node U) w ms u' n' w' acc oc c d :
    reachable u n w -> Forall steady (n_handlers n) -> Forall received ms -> (forall m, acc m = true <-> taken n u m) ->
    node_run (u, n, w) (map OpRecv ms) = Ret (u', n', w') -> ~ map_code c -> has_data n oc c d ->
    has_data n' oc c (match last_write acc oc c ms with Some x => Some x | None => d end).
  Proof.
    intros R S F A E Nm St. destruct (many_receives ms u n w u' n' w' F (reachable_good _ _ _ R) S E) as (_ & _ & W).
    apply W; auto. apply not_map; auto.
  Qed.

  (** Whether a request is carried out does not depend on the messages before. *)
  Theorem C134_stable u (n : node U) w ms u' n' w' m : reachable u n w -> Forall steady (n_handlers n) -> Forall received ms ->
    node_run (u, n, w) (map OpRecv ms) = Ret (u', n', w') -> (taken n u m <-> taken n' u' m).
  Proof.
    intros R S F E. destruct (many_receives ms u n w u' n' w' F (reachable_good _ _ _ R) S E) as (-> & K & _). apply taken_still; auto.
  Qed.

  (** ** Equal lists of writes *)
  Lemma last_write_app acc oc c a b : last_write acc oc c (a ++ b) = match last_write acc oc c b with Some d => Some d | None => last_write acc oc c a end.
  Proof. induction a as [|m r IH]; cbn [app last_write]; [destruct (last_write acc oc c b); auto|]. rewrite IH. destruct (last_write acc oc c b); auto. Qed.
  Definition writes1 acc oc c m := if acc m && (msg_deoj m =? oc) then last_data c (writes_of m) else None.
  Lemma last_write_cons acc oc c m r : last_write acc oc c (m :: r) = match last_write acc oc c r with Some d => Some d | None => writes1 acc oc c m end.
  Proof. reflexivity. Qed.
  Lemma apart acc oc c m m' : ~ same_target m m' \/ acc m' = false -> writes1 acc oc c m = None \/ writes1 acc oc c m' = None.
  Proof.
    intro N. unfold writes1. destruct (acc m); cbn [andb]; auto. destruct (acc m'); cbn [andb]; auto.
    destruct N as [N|]; [|discriminate]. destruct (N.eqb_spec (msg_deoj m) oc) as [E1|]; auto. destruct (N.eqb_spec (msg_deoj m') oc) as [E2|]; auto.
    destruct (last_data c (writes_of m)) eqn:L1; auto. destruct (last_data c (writes_of m')) eqn:L2; auto.
    exfalso. apply N. split; [congruence|]. exists c. rewrite L1, L2. split; discriminate.
  Qed.
  Lemma apart_all acc oc c m l : Forall (fun m' => ~ same_target m m' \/ acc m' = false) l -> writes1 acc oc c m = None \/ last_write acc oc c l = None.
  Proof.
    induction 1 as [|m' r N F IH]; [right; reflexivity|]. rewrite last_write_cons. destruct IH as [IH|IH]; auto. rewrite IH.
    apply apart; auto.
  Qed.
  Lemma last_write_twice acc oc c a m b l : Forall (fun m' => ~ same_target m m' \/ acc m' = false) b ->
    last_write acc oc c (a ++ m :: b ++ m :: l) = last_write acc oc c (a ++ m :: b ++ l).
  Proof.
    intro F. rewrite !last_write_app, !last_write_cons, !last_write_app, last_write_cons.
    destruct (last_write acc oc c l); auto. destruct (apart_all acc oc c m b F) as [X|X]; rewrite X; auto. destruct (writes1 acc oc c m); auto.
  Qed.
  Lemma last_write_swap acc oc c a m m' l : ~ same_target m m' -> last_write acc oc c (a ++ m :: m' :: l) = last_write acc oc c (a ++ m' :: m :: l).
  Proof.
    intro F. rewrite !last_write_app, !last_write_cons. destruct (last_write acc oc c l); auto.
    destruct (apart acc oc c m m' (or_introl F)) as [X|X]; rewrite X; auto. destruct (writes1 acc oc c m'); auto. destruct (writes1 acc oc c m); auto.
  Qed.
  Lemma equal_writes u (n : node U) w ms ms' u1 n1 w1 u2 n2 w2 acc :
    reachable u n w -> Forall steady (n_handlers n) -> Forall received ms -> Forall received ms' ->
    (forall m, acc m = true <-> taken n u m) -> (forall oc c, last_write acc oc c ms = last_write acc oc c ms') ->
    node_run (u, n, w) (map OpRecv ms) = Ret (u1, n1, w1) -> node_run (u, n, w) (map OpRecv ms') = Ret (u2, n2, w2) ->
    forall oc c d, ~ map_code c -> (has_data n1 oc c d <-> has_data n2 oc c d).
  Proof.
    intros R S F F' A L E E' oc c d Nm. destruct (has_some n oc c) as (d0 & S0).
    pose proof (C134_last_writer _ _ _ _ _ _ _ _ _ _ _ R S F A E Nm S0) as X.
    pose proof (C134_last_writer _ _ _ _ _ _ _ _ _ _ _ R S F' A E' Nm S0) as Y. rewrite L in X.
    split; intro H; [rewrite (has_fun _ _ _ _ _ H X)|rewrite (has_fun _ _ _ _ _ H Y)]; auto.
  Qed.

  (** A second copy of a datagram changes nothing if no request that is carried
      out in between writes a property which it writes. *)
  Theorem C134_duplicate u (n : node U) w a m b l u1 n1 w1 u2 n2 w2 :
    reachable u n w -> Forall steady (n_handlers n) -> Forall received (a ++ m :: b ++ l) ->
    Forall (fun m' => ~ same_target m m' \/ ~ taken n u m') b ->
    node_run (u, n, w) (map OpRecv (a ++ m :: b ++ m :: l)) = Ret (u1, n1, w1) ->
    node_run (u, n, w) (map OpRecv (a ++ m :: b ++ l)) = Ret (u2, n2, w2) ->
    forall oc c d, ~ map_code c -> (has_data n1 oc c d <-> has_data n2 oc c d).
  Proof.
    intros R S F N E E'. destruct (C134_decided u n S) as (acc & A).
    eapply (equal_writes u n w (a ++ m :: b ++ m :: l) (a ++ m :: b ++ l)); eauto.
    - apply Forall_app in F as [Fa F]. inversion F as [|x y Fm Fr]; subst. apply Forall_app in Fr as [Fb Fl].
      apply Forall_app. split; auto. constructor; auto. apply Forall_app. split; auto.
    - intros oc c. apply last_write_twice. eapply Forall_impl; [|exact N]. intros m' [X|X]; auto. right.
      destruct (acc m') eqn:Y; auto. exfalso. apply X, A, Y.
  Qed.

  (** Neighbours that write no common property may arrive in either order. *)
  Theorem C134_reorder u (n : node U) w a m m' l u1 n1 w1 u2 n2 w2 :
    reachable u n w -> Forall steady (n_handlers n) -> Forall received (a ++ m :: m' :: l) -> ~ same_target m m' ->
    node_run (u, n, w) (map OpRecv (a ++ m :: m' :: l)) = Ret (u1, n1, w1) ->
    node_run (u, n, w) (map OpRecv (a ++ m' :: m :: l)) = Ret (u2, n2, w2) ->
    forall oc c d, ~ map_code c -> (has_data n1 oc c d <-> has_data n2 oc c d).
  Proof.
    intros R S F N E E'. destruct (C134_decided u n S) as (acc & A).
    eapply (equal_writes u n w (a ++ m :: m' :: l) (a ++ m' :: m :: l)); eauto.
    - apply Forall_app in F as [Fa F]. inversion F as [|x y Fm Fr]; subst. inversion Fr; subst. apply Forall_app. split; auto.
    - intros oc c. apply last_write_swap; auto.
  Qed.

  (** ** Answers *)
  Lemma handled_answer seed u (n : node U) m u' n' res : rcvd m -> node_good n -> Forall steady (n_handlers n) -> handled seed u n m u' n' res ->
    ((not_owned (n_objects n) (msg_deoj m) \/ ~ request_service (m_esv m)) /\ res = None) \/
    (request_service (m_esv m) /\ (exists o, addressed (n_objects n) (msg_deoj m) o) /\ ~ taken n u m /\ res = Some (response_error_message m)) \/
    (taken n u m /\ exists o o1, addressed (n_objects n) (msg_deoj m) o /\ permitted o m /\ same_shape o o1 /\ obj_good o1 /\
      res = object_message_received o1 m /\
      forall c, ~ map_code c -> object_property_data o1 c =
        match object_property_data o c with None => None | Some d => match last_data c (writes_of m) with Some x => Some x | None => Some d end end).
  Proof.
    intros R G S H. pose proof (handled_good _ _ _ _ _ _ _ (rc_wf _ R) G H) as G'.
    assert (Good : forall o, addressed (n_objects n) (msg_deoj m) o -> obj_good o).
    { intros o A. destruct G as [Go _]. rewrite Forall_forall in Go. apply Go. eapply addressed_in; eauto. }
    inversion H as [N|o0 Q Ao V|o0 copy u1 copy' Q Ao V C1 D1|pre o0 post copy u1 copy' Q Eo Ec Fp V C1 D1 Eu En Er]; subst; auto.
    - right. left. split; auto. split; [eauto|]. split; auto. intros (_ & o & A & Pm & _). rewrite (addressed_unique _ _ _ _ A Ao) in Pm. auto.
    - match type of D1 with request_received ?hs ?v ?k _ = _ => destruct (steady_received hs v k m S) as (b & E & Ag) end. rewrite E in D1. inversion D1; subst.
      right. left. split; auto. split; [eauto|]. split; auto. intros (_ & o & A & _ & X).
      rewrite (addressed_unique _ _ _ _ A Ao) in X. assert (Y : false = true); [|discriminate Y].
      apply Ag. eapply agreed_shape; eauto. eapply clone_shape; eauto.
    - match type of D1 with request_received ?hs ?v ?k _ = _ => destruct (steady_received hs v k m S) as (b & E & Ag) end. rewrite E in D1. inversion D1; subst.
      assert (Ao : addressed (n_objects n) (msg_deoj m) o0) by (exists pre, post; auto).
      pose proof (Good o0 Ao) as Go. pose proof (clone_shape seed o0 copy' Go C1) as Cs.
      right. right. split. { split; auto. exists o0. split; auto. split; auto. eapply agreed_shape; [auto|apply same_shape_sym; exact Cs|]. apply Ag. auto. }
      exists o0, (answered o0 m copy'). split; auto. split; auto. split; [apply answered_shape|]. split.
      { destruct G' as [G' _]. cbn [n_objects n_with_objects] in G'. apply Forall_app in G' as [_ G']. inversion G'; auto. }
      split; auto. intros c Nm. unfold object_property_data. rewrite (answered_hands_off o0 m seed copy' c Go C1 (not_map c Nm)).
      destruct (object_find_property o0 c) as [p|]; cbn [option_map]; auto. destruct (last_data c (writes_of m)); reflexivity.
  Qed.
  (** A request to an object of the node that is not carried out is refused with the
      error that the specification names for its service; one that is carried out is not. *)
  Theorem C134_refused u (n : node U) w m seed u1 n1 r : reachable u n w -> Forall steady (n_handlers n) -> received m ->
    request_service (m_esv m) -> ~ not_owned (n_objects n) (msg_deoj m) -> node_message_received seed u n m = Ret (u1, n1, r) ->
    (~ taken n u m -> exists x, r = Some x /\ Some (m_esv x) = failure_service (m_esv m)) /\
    (taken n u m -> match r with None => m_esv m = 0x60 | Some x => Some (m_esv x) = success_service (m_esv m) end).
  Proof.
    intros R S Rm Q O E. pose proof (received_rcvd _ Rm) as Rc.
    destruct (handled_answer _ _ _ _ _ _ _ Rc (reachable_good _ _ _ R) S (handled_spec _ _ _ _ _ _ _ E)) as [([X|X] & _)|[(_ & _ & Nt & ->)|(T & o & o1 & Ao & Pm & Sh & Go & -> & _)]]; try contradiction.
    - split; [|contradiction]. intros _. destruct (failure_eq m (rc_wf _ Rc) Q) as (e & Fe & X). eexists. split; [reflexivity|]. rewrite X, Fe. reflexivity.
    - split; [contradiction|]. intros _. destruct (success_eq o o1 m (rc_wf _ Rc) (rc_body _ Rc) Q Pm Sh) as [[E60 ->]|(e & ps & ss & gs & Se & -> & _)]; auto.
  Qed.
  Lemma equal_reads o o' ps l l' : obj_good o -> obj_good o' -> Forall (fun q => object_property_data o (pp_code q) = object_property_data o' (pp_code q)) ps ->
    read_props_of o ps = Some l -> read_props_of o' ps = Some l' -> l = l'.
  Proof.
    intros G G' F E E'. apply read_props_held in E; [|apply obj_good_coded; auto]. apply read_props_held in E'; [|apply obj_good_coded; auto]. subst.
    apply map_ext_in. intros q I. unfold held, data_of. rewrite Forall_forall in F. rewrite (F q I). reflexivity.
  Qed.

  (** A repeated request gets the same answer if no request that is carried out in
      between writes a property which it reads. *)
  Theorem C134_answer u (n : node U) w ms u' n' w' m seed seed' u1 n1 r u2 n2 r' :
    reachable u n w -> Forall steady (n_handlers n) -> Forall received ms -> received m ->
    node_run (u, n, w) (map OpRecv ms) = Ret (u', n', w') ->
    Forall (fun m' => ~ disturbs m' m \/ ~ taken n u m') ms -> Forall (fun q => ~ map_code (pp_code q)) (reads_of m) ->
    node_message_received seed u n m = Ret (u1, n1, r) -> node_message_received seed' u' n' m = Ret (u2, n2, r') -> r = r'.
  Proof.
    intros R S F Rm E N Nm E1 E2. pose proof (reachable_good _ _ _ R) as G. destruct (many_receives ms u n w u' n' w' F G S E) as (-> & K & W).
    destruct (C134_decided u n S) as (acc & A). specialize (W acc A). pose proof (received_rcvd _ Rm) as Rc.
    assert (S' : Forall steady (n_handlers n')) by (rewrite (proj1 K); auto). pose proof K as (_ & Fs & G').
    destruct (handled_answer _ _ _ _ _ _ _ Rc G S (handled_spec _ _ _ _ _ _ _ E1)) as [(X & ->)|[(Q & (o & Ao) & Nt & ->)|(T & o & o1 & Ao & Pm & Sh & Go & Er & Ed)]];
    destruct (handled_answer _ _ _ _ _ _ _ Rc G' S' (handled_spec _ _ _ _ _ _ _ E2)) as [(X' & ->)|[(Q' & (o' & Ao') & Nt' & ->)|(T' & o' & o1' & Ao' & Pm' & Sh' & Go' & Er' & Ed')]]; auto.
    - exfalso. destruct X as [X|X]; auto. apply shapes_sym in Fs. destruct (shapes_addressed _ _ _ _ Fs Ao') as (o & A1 & _). eapply addressed_not_owned; eauto.
    - exfalso. destruct T' as (Q' & _). destruct X as [X|X]; auto. apply shapes_sym in Fs. destruct (shapes_addressed _ _ _ _ Fs Ao') as (o & A1 & _). eapply addressed_not_owned; eauto. 
    - exfalso. destruct X' as [X|X]; auto. destruct (shapes_addressed _ _ _ _ Fs Ao) as (o2 & A1 & _). eapply addressed_not_owned; eauto.
    - exfalso. apply Nt. apply (taken_still n n'); auto.
    - exfalso. destruct T as (Q' & _). destruct X' as [X|X]; auto. destruct (shapes_addressed _ _ _ _ Fs Ao) as (o2 & A1 & _). eapply addressed_not_owned; eauto.
    - exfalso. apply Nt'. apply (taken_still n n'); auto.
    - assert (D : Forall (fun q => object_property_data o1 (pp_code q) = object_property_data o1' (pp_code q)) (reads_of m)).
      { apply Forall_forall. intros q I. rewrite Forall_forall in Nm. specialize (Nm q I). rewrite Ed, Ed' by auto.
        assert (X : object_property_data o (pp_code q) = object_property_data o' (pp_code q)); [|rewrite X; auto].
        specialize (W (msg_deoj m) (pp_code q) _ (not_map _ Nm) (or_intror (ex_intro _ o (conj Ao eq_refl)))).
        assert (L : last_write acc (msg_deoj m) (pp_code q) ms = None).
        { clear -N A I. induction N as [|m' r [X|X] N IH]; [reflexivity| |]; rewrite last_write_cons, IH; unfold writes1.
          - destruct (acc m'); auto. cbn [andb]. destruct (N.eqb_spec (msg_deoj m') (msg_deoj m)) as [Ec|]; auto.
            destruct (last_data (pp_code q) (writes_of m')) eqn:L; auto. exfalso. apply X. split; auto. exists (pp_code q). split; [congruence|apply in_map; auto].
          - destruct (acc m') eqn:Y; auto. exfalso. apply X, A, Y. }
        rewrite L in W. eapply has_fun; [exact W|]. right. eauto. }
      subst r r'. destruct T as (Q & _). pose proof (rc_wf _ Rc) as Wm. pose proof (rc_body _ Rc) as B.
      destruct (success_eq o o1 m Wm B Q Pm Sh) as [[E60 ->]|(e & ps & ss & gs & Se & -> & K1 & K2 & K3)];
      destruct (success_eq o' o1' m Wm B Q Pm' Sh') as [[E60' ->]|(e' & ps' & ss' & gs' & Se' & -> & K1' & K2' & K3')]; auto.
      + rewrite E60 in Se'. discriminate.
      + rewrite E60' in Se. discriminate.
      + assert (e' = e) by congruence. subst e'. assert (X : ps = ps' /\ ss = ss' /\ gs = gs'); [|destruct X as (-> & -> & ->); auto].
        unfold request_service in Q. unfold reads_of in D. cbn [In] in Q.
        destruct Q as [Q|[Q|[Q|[Q|[Q|[Q|[]]]]]]]; rewrite <- Q in *; cbn [N.eqb Pos.eqb orb] in D; try discriminate Se.
        * destruct K1 as (-> & -> & ->), K1' as (-> & -> & ->); auto.
        * destruct K2 as (? & -> & ->), K2' as (? & -> & ->); auto. split; [eapply (equal_reads o1 o1'); eauto|auto].
        * destruct K2 as (? & -> & ->), K2' as (? & -> & ->); auto. split; [eapply (equal_reads o1 o1'); eauto|auto].
        * destruct K3 as (-> & -> & ?), K3' as (-> & -> & ?); auto. split; auto. split; auto. eapply (equal_reads o1 o1'); eauto.
        * destruct K1 as (-> & -> & ->), K1' as (-> & -> & ->); auto.
  Qed.
End D.

(** ** Cases *)
Section Cases.
  Local Existing Instance ex_order.
  Local Existing Instance ex_os.
  Definition dg_set (tid c v : N) : message := ex_rcv (to_lamp tid 0x61 [1; c; 1; v]).
  Definition dg_get (tid c : N) : message := ex_rcv (to_lamp tid 0x62 [1; c; 0]).
  Definition dg_after (ms : list message) : node unit := ex_n (ex_ops [yes] ++ map OpRecv ms).
  Definition dg_data (ms : list message) (c : N) : option (list N) := data_in (dg_after ms) 0x029101 c.
  Lemma dg_received tid c v : In tid [1; 2] -> In c [0x80; 0xB0] -> In v [0x30; 0x31] -> received (dg_set tid c v).
  Proof.
    intros [<-|[<-|[]]] [<-|[<-|[]]] [<-|[<-|[]]]; unfold dg_set; rcv.
  Qed.
  Lemma dg_get_received : received (dg_get 3 0x80).
  Proof. unfold dg_get. rcv. Qed.
  Lemma dg_reachable : reachable (P := true) tt (ex_n (ex_ops [yes])) (ex_w (ex_ops [yes])).
  Proof. reach. Qed.
  Lemma dg_handlers : n_handlers (ex_n (ex_ops [yes])) = [HNode; yes].
  Proof. vm_compute. reflexivity. Qed.
  Lemma dg_steady : Forall steady (n_handlers (ex_n (ex_ops [yes]))).
  Proof. rewrite dg_handlers. constructor; [exact Logic.I|]. constructor; [|constructor]. exists (fun _ _ _ _ => true). reflexivity. Qed.
  Lemma dg_taken tid c v : In tid [1; 2] -> In c [0x80; 0xB0] -> In v [0x30; 0x31] -> taken (ex_n (ex_ops [yes])) tt (dg_set tid c v).
  Proof.
    intros It Ic Iv. destruct (find_object (n_objects (ex_n (ex_ops [yes]))) 0x029101) as [o|] eqn:E; [|vm_compute in E; discriminate].
    assert (Q : request_service (m_esv (dg_set tid c v))).
    { destruct It as [<-|[<-|[]]], Ic as [<-|[<-|[]]], Iv as [<-|[<-|[]]]; right; left; vm_compute; reflexivity. }
    assert (D : msg_deoj (dg_set tid c v) = 0x029101).
    { destruct It as [<-|[<-|[]]], Ic as [<-|[<-|[]]], Iv as [<-|[<-|[]]]; vm_compute; reflexivity. }
    split; auto. exists o. rewrite D. split; [apply find_object_some; auto|]. split.
    - apply request_valid_spec; auto. assert (X : forall f : object -> bool, match find_object (n_objects (ex_n (ex_ops [yes]))) 0x029101 with Some o => f o | None => false end = true -> f o = true) by (intro f; rewrite E; auto).
      apply (X (fun o => request_valid o (dg_set tid c v))).
      destruct It as [<-|[<-|[]]], Ic as [<-|[<-|[]]], Iv as [<-|[<-|[]]]; vm_compute; reflexivity.
    - right. exists yes. rewrite dg_handlers. split; [right; left; reflexivity|]. apply Forall_forall. intros q _. reflexivity.
  Qed.
  Lemma dg_app a : forall b s, node_run (P := true) (U := unit) s (a ++ b) = obind (node_run (P := true) s a) (fun s => node_run (P := true) s b).
  Proof. induction a as [|op r IH]; intros b s; cbn [app node_run]; [reflexivity|]. destruct (node_step s op); cbn [obind]; auto. Qed.
  Lemma dg_runs a b : panics (ex_run a) = false -> panics (ex_run (a ++ b)) = false ->
    exists w', node_run (P := true) (tt, ex_n a, ex_w a) b = Ret (tt, ex_n (a ++ b), w').
  Proof.
    unfold ex_n, ex_w, ex_state, ex_run. rewrite dg_app. destruct (node_run (tt, ex_node0, w0) a) as [[[[] n] w]|]; [|discriminate].
    cbn [obind the fst snd]. destruct (node_run (tt, n, w) b) as [[[[] n'] w']|]; [|discriminate]. cbn [the fst snd]. eauto.
  Qed.
  Lemma dg_run ms : panics (ex_run (ex_ops [yes] ++ map OpRecv ms)) = false ->
    exists w', node_run (P := true) (tt, ex_n (ex_ops [yes]), ex_w (ex_ops [yes])) (map OpRecv ms) = Ret (tt, dg_after ms, w').
  Proof. unfold dg_after. apply dg_runs. vm_compute. reflexivity. Qed.
  Lemma dg_has ms c : has_data (dg_after ms) 0x029101 c (dg_data ms c).
  Proof.
    unfold has_data, dg_data, data_in. destruct (find_object (n_objects (dg_after ms)) 0x029101) as [o|] eqn:E.
    - right. exists o. split; auto. apply find_object_some; auto.
    - left. split; auto. apply find_object_none; auto.
  Qed.

  (** 0x80 := 0x31, 0xB0 := 0x30 and a second copy of the first: the copy is
      harmless, and so is the other order. *)
  Example C134_case_duplicate :
    let a := dg_set 1 0x80 0x31 in let b := dg_set 2 0xB0 0x30 in
    reachable (P := true) tt (ex_n (ex_ops [yes])) (ex_w (ex_ops [yes])) /\ Forall steady (n_handlers (ex_n (ex_ops [yes]))) /\ Forall received [a; b; a] /\
    taken (ex_n (ex_ops [yes])) tt a /\ taken (ex_n (ex_ops [yes])) tt b /\ ~ same_target a b /\
    map (dg_data []) [0x80; 0xB0] <> map (dg_data [a; b]) [0x80; 0xB0] /\
    map (dg_data [a; b; a]) [0x80; 0xB0] = [Some [0x31]; Some [0x30]] /\ map (dg_data [b; a]) [0x80; 0xB0] = [Some [0x31]; Some [0x30]].
  Proof.
    intros a b. split; [apply dg_reachable|]. split; [apply dg_steady|].
    assert (Ra : received a) by (apply dg_received; cbn; auto). assert (Rb : received b) by (apply dg_received; cbn; auto). split; [auto|].
    split; [apply dg_taken; cbn; auto|]. split; [apply dg_taken; cbn; auto|]. split.
    - intros (_ & c & A & B). assert (Wa : writes_of a = [PProp 0x80 [0x31]]) by (vm_compute; reflexivity).
      assert (Wb : writes_of b = [PProp 0xB0 [0x30]]) by (vm_compute; reflexivity). rewrite Wa in A. rewrite Wb in B.
      cbn [last_data pp_code] in A, B. destruct (N.eqb_spec 0x80 c); [|auto]. destruct (N.eqb_spec 0xB0 c); [|auto]. congruence.
    - split; [vm_compute; discriminate|]. split; vm_compute; reflexivity.
  Qed.
  (** The reading request is answered alike before and after the write of another
      property, and otherwise after a write of the property it reads. *)
  Definition dg_answer (ms : list message) : option (list N) :=
    match node_message_received (P := true) 1 tt (dg_after ms) (dg_get 3 0x80) with Ret (_, _, Some r) => Some (msg_bytes r) | _ => None end.
  Example C134_case_answer : dg_answer [] <> None /\ dg_answer [dg_set 1 0xB0 0x31] = dg_answer [] /\ dg_answer [dg_set 1 0x80 0x31] <> dg_answer [].
  Proof. split; [|split]; vm_compute; [discriminate|reflexivity|discriminate]. Qed.

  (** A copy that arrives after a newer write of the same property undoes that
      write: nothing tells a copy from a new request. *)
  Theorem C134_stale_refuted :
    ~ (forall u (n : node unit) w m m' u' n' w' c d, reachable (P := true) u n w -> Forall steady (n_handlers n) -> received m -> received m' ->
         taken n u m -> taken n u m' -> m_tid m' <> m_tid m -> ~ map_code c -> last_data c (writes_of m') = Some d ->
         node_run (P := true) (u, n, w) (map OpRecv [m; m'; m]) = Ret (u', n', w') -> has_data n' (msg_deoj m') c (Some d)).
  Proof.
    intro H. set (a := dg_set 1 0x80 0x30). set (b := dg_set 2 0x80 0x31).
    destruct (dg_run [a; b; a]) as (w' & E); [vm_compute; reflexivity|].
    assert (Ra : received a) by (apply dg_received; cbn; auto). assert (Rb : received b) by (apply dg_received; cbn; auto).
    assert (Ta : taken (ex_n (ex_ops [yes])) tt a) by (apply dg_taken; cbn; auto). assert (Tb : taken (ex_n (ex_ops [yes])) tt b) by (apply dg_taken; cbn; auto).
    specialize (H tt (ex_n (ex_ops [yes])) (ex_w (ex_ops [yes])) a b tt (dg_after [a; b; a]) w' 0x80 [0x31] dg_reachable dg_steady Ra Rb Ta Tb).
    assert (D : msg_deoj b = 0x029101) by (vm_compute; reflexivity). rewrite D in H.
    assert (X : has_data (dg_after [a; b; a]) 0x029101 0x80 (Some [0x31])).
    { apply H; [vm_compute; discriminate|intros [Z|[Z|Z]]; discriminate Z|vm_compute; reflexivity|exact E]. }
    pose proof (has_fun _ _ _ _ _ X (dg_has [a; b; a] 0x80)) as Y. assert (Z : dg_data [a; b; a] 0x80 = Some [0x30]) by (vm_compute; reflexivity).
    rewrite Z in Y. discriminate Y.
  Qed.
End Cases.
