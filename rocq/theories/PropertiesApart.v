(** C137: what is done to one object of a node does not show at another. *)
From Verif Require Import Base HMap ModelCodec ModelMessages DbTable ModelObject ModelTransport ModelNode ModelDevice
  SpecWire SpecObject SpecNode ProofsCodec ProofsCodec2 PropertiesCodec ProofsObject ProofsObject2 ProofsObject3
  PropertiesObject PropertiesDb ProofsDevice ProofsNode ProofsNode2 ProofsNode3 ProofsNode4 ExamplesNode PropertiesNode PropertiesDevice.

(** ** Vocabulary *)
(** What happens to a node: a message arrives (the copy handed to the handlers gets the
    hash seed [seed]), or the application writes or reads a property of a device. *)
Inductive step : Type :=
| Got (seed : N) (m : message)
| Sets (oc c : N) (d : list N)
| Asks (oc c : N).
(** The object concerned. *)
Definition concerns (s : step) : N := match s with Got _ m => msg_deoj m | Sets oc _ _ => oc | Asks oc _ => oc end.
(** What comes of it: the answer to the message, or the result of the call. *)
Inductive result : Type :=
| Answer (r : option message)
| Written (ok : bool)
| Data (d : option (list N)).

Section S.
  Context {U : Type} {P : Profile} {HO : HashOrder}.

  Definition take (u : U) (n : node U) (s : step) : outcome (U * node U * result) :=
    match s with
    | Got seed m => match node_message_received seed u n m with Ret (u', n', r) => Ret (u', n', Answer r) | Panic => Panic end
    | Sets oc c d => Ret (u, snd (device_node_set_property n oc c d), Written (fst (device_node_set_property n oc c d)))
    | Asks oc c => Ret (u, n, Data (device_node_property n oc c))
    end.
  (** All steps in turn, each with its result. *)
  Fixpoint history (u : U) (n : node U) (ss : list step) : outcome (U * node U * list (step * result)) :=
    match ss with
    | [] => Ret (u, n, [])
    | s :: rest => let! x := take u n s in
                   let '(u', n', r) := x in
                   let! y := history u' n' rest in
                   let '(u'', n'', rs) := y in Ret (u'', n'', (s, r) :: rs)
    end.
  (** The steps that concern the object [x]. *)
  Definition at_object (x : N) (ss : list step) : list step := filter (fun s => concerns s =? x) ss.
  Definition seen_at (x : N) (l : list (step * result)) : list (step * result) := filter (fun e => concerns (fst e) =? x) l.

  (** The handlers do not carry anything from the other objects to [x] themselves: there
      is a relation [R] between states of the handlers, equal as far as [x] is concerned,
      which calls for other objects keep, and with which calls for [x] act alike. No
      handler gives the object another code. *)
  Definition user_apart (x : N) (R : U -> U -> Prop) (f : user_handler) : Prop :=
    (forall u o e p u' o' b, f u o e p = Ret (u', o', b) -> object_code o' = object_code o) /\
    (forall u v o e p u' o' b, object_code o <> x -> R u v -> f u o e p = Ret (u', o', b) -> R u' v) /\
    (forall u v o e p u' o' b, object_code o = x -> R u v -> f u o e p = Ret (u', o', b) ->
       exists v', f v o e p = Ret (v', o', b) /\ R u' v').
  Definition apart (x : N) (R : U -> U -> Prop) (h : handler U) : Prop :=
    match h with HNode => True | HUser f => user_apart x R f end.

  (** The two nodes agree on the object [x] and have the same handlers. Whatever else
      they hold may differ. *)
  Definition agree (x : N) (n k : node U) : Prop :=
    find_object (n_objects n) x = find_object (n_objects k) x /\ n_handlers n = n_handlers k.

  (** ** Handlers *)
  Section Handlers.
    Context (x : N) (R : U -> U -> Prop).
    Lemma call_other h u v o e p u' o' b : apart x R h -> object_code o <> x -> R u v -> call_handler h u o e p = Ret (u', o', b) ->
      R u' v /\ object_code o' = object_code o.
    Proof.
      destruct h as [|f]; cbn [call_handler apart].
      - intros _ _ Ruv H. inversion H; subst. auto.
      - intros (A & B & _) Ne Ruv H. split; [exact (B _ _ _ _ _ _ _ _ Ne Ruv H)|exact (A _ _ _ _ _ _ _ H)].
    Qed.
    Lemma call_same h u v o e p u' o' b : apart x R h -> object_code o = x -> R u v -> call_handler h u o e p = Ret (u', o', b) ->
      exists v', call_handler h v o e p = Ret (v', o', b) /\ R u' v' /\ object_code o' = x.
    Proof.
      destruct h as [|f]; cbn [call_handler apart].
      - intros _ Ex Ruv H. inversion H; subst. exists v. auto.
      - intros (A & _ & C) Ex Ruv H. destruct (C _ _ _ _ _ _ _ _ Ex Ruv H) as (v' & Ev & Rv). exists v'. split; auto. split; auto. rewrite (A _ _ _ _ _ _ _ H). auto.
    Qed.
    Lemma ask_other h e ps : apart x R h -> forall u v o all u' o' b, object_code o <> x -> R u v -> ask_handler h u o e ps all = Ret (u', o', b) ->
      R u' v /\ object_code o' = object_code o.
    Proof.
      intro Ah. induction ps as [|p ps IH]; intros u v o all u' o' b Ne Ruv H; cbn [ask_handler] in H.
      - inversion H; subst. auto.
      - destruct (call_handler h u o e p) as [[[u1 o1] ok]|] eqn:E; cbn [obind] in H; [|discriminate].
        destruct (call_other _ _ _ _ _ _ _ _ _ Ah Ne Ruv E) as [R1 E1].
        destruct (IH _ v _ _ _ _ _ ltac:(rewrite E1; exact Ne) R1 H) as [R2 E2]. split; auto. congruence.
    Qed.
    Lemma ask_same h e ps : apart x R h -> forall u v o all u' o' b, object_code o = x -> R u v -> ask_handler h u o e ps all = Ret (u', o', b) ->
      exists v', ask_handler h v o e ps all = Ret (v', o', b) /\ R u' v' /\ object_code o' = x.
    Proof.
      intro Ah. induction ps as [|p ps IH]; intros u v o all u' o' b Ex Ruv H; cbn [ask_handler] in *.
      - inversion H; subst. exists v. auto.
      - destruct (call_handler h u o e p) as [[[u1 o1] ok]|] eqn:E; cbn [obind] in H; [|discriminate].
        destruct (call_same _ _ _ _ _ _ _ _ _ Ah Ex Ruv E) as (v1 & -> & R1 & E1). cbn [obind]. exact (IH _ v1 _ _ _ _ _ E1 R1 H).
    Qed.
    Lemma asks_other hs e ps : Forall (apart x R) hs -> forall u v o acc u' o' b, object_code o <> x -> R u v -> ask_handlers hs u o e ps acc = Ret (u', o', b) -> R u' v.
    Proof.
      induction 1 as [|h hs Ah F IH]; intros u v o acc u' o' b Ne Ruv H; cbn [ask_handlers] in H.
      - inversion H; subst. auto.
      - destruct (ask_handler h u o e ps true) as [[[u1 o1] ok]|] eqn:E; cbn [obind] in H; [|discriminate].
        destruct (ask_other _ _ _ Ah _ _ _ _ _ _ _ Ne Ruv E) as [R1 E1]. exact (IH _ v _ _ _ _ _ ltac:(rewrite E1; exact Ne) R1 H).
    Qed.
    Lemma asks_same hs e ps : Forall (apart x R) hs -> forall u v o acc u' o' b, object_code o = x -> R u v -> ask_handlers hs u o e ps acc = Ret (u', o', b) ->
      exists v', ask_handlers hs v o e ps acc = Ret (v', o', b) /\ R u' v'.
    Proof.
      induction 1 as [|h hs Ah F IH]; intros u v o acc u' o' b Ex Ruv H; cbn [ask_handlers] in *.
      - inversion H; subst. exists v. auto.
      - destruct (ask_handler h u o e ps true) as [[[u1 o1] ok]|] eqn:E; cbn [obind] in H; [|discriminate].
        destruct (ask_same _ _ _ Ah _ _ _ _ _ _ _ Ex Ruv E) as (v1 & -> & R1 & E1). cbn [obind]. exact (IH _ v1 _ _ _ _ _ E1 R1 H).
    Qed.
    Lemma request_other hs m u v o u' o' b : Forall (apart x R) hs -> object_code o <> x -> R u v -> request_received hs u o m = Ret (u', o', b) -> R u' v.
    Proof.
      unfold request_received. intros F Ne Ruv. destruct (Nat.eqb (length hs) 0); [intro H; inversion H; subst; auto|]. exact (asks_other _ _ _ F _ _ _ _ _ _ _ Ne Ruv).
    Qed.
    Lemma request_same hs m u v o u' o' b : Forall (apart x R) hs -> object_code o = x -> R u v -> request_received hs u o m = Ret (u', o', b) ->
      exists v', request_received hs v o m = Ret (v', o', b) /\ R u' v'.
    Proof.
      unfold request_received. intros F Ex Ruv. destruct (Nat.eqb (length hs) 0); [intro H; inversion H; subst; exists v; auto|]. exact (asks_same _ _ _ F _ _ _ _ _ _ _ Ex Ruv).
    Qed.
  End Handlers.

  (** ** Objects *)
  Lemma add_properties_codes ps : forall o o', add_properties o ps = Ret o' -> o_codes o' = o_codes o.
  Proof.
    induction ps as [|p ps IH]; intros o o' H; cbn [add_properties] in H; [inversion H; auto|].
    destruct (object_add_property o (prop_clone p)) as [o1|] eqn:E; cbn [obind] in H; [|discriminate].
    rewrite (IH _ _ H). exact (add_property_codes _ _ _ E).
  Qed.
  Lemma clone_code seed o o' : object_clone seed o = Ret o' -> object_code o' = object_code o.
  Proof. intro H. apply add_properties_codes in H. unfold object_code. rewrite H. reflexivity. Qed.
  Lemma answered_code o m c : object_code (answered o m c) = object_code o.
  Proof. destruct (answered_shape o m c) as (E & _). unfold object_code. rewrite E. reflexivity. Qed.
  Lemma found_code os c (o : object) : find_object os c = Some o -> object_code o = c.
  Proof.
    induction os as [|y os IH]; cbn; [discriminate|]. destruct (N.eqb_spec (object_code y) c); auto. intro H. inversion H; subst. auto.
  Qed.

  (** ** One step *)
  Lemma take_other x R u v n s u' n' r : Forall (apart x R) (n_handlers n) -> concerns s <> x -> R u v -> take u n s = Ret (u', n', r) ->
    R u' v /\ find_object (n_objects n') x = find_object (n_objects n) x /\ n_handlers n' = n_handlers n.
  Proof.
    intros F Ne Ruv. destruct s as [seed m|oc c d|oc c]; cbn [take concerns] in *.
    - unfold node_message_received. destruct (esv_is_response (msg_esv m)); [intro H; inversion H; subst; auto|].
      destruct (find_object (n_objects n) (msg_deoj m)) as [o|] eqn:Eo; [|intro H; inversion H; subst; auto].
      destruct (esv_is_request (msg_esv m)); cbn [negb]; [|intro H; inversion H; subst; auto].
      destruct (request_valid o m); cbn [negb]; [|intro H; inversion H; subst; auto].
      destruct (object_clone seed o) as [copy|] eqn:Ec; cbn [obind]; [|discriminate].
      destruct (request_received (n_handlers n) u copy m) as [[[u1 copy'] acc]|] eqn:Er; cbn [obind]; [|discriminate].
      pose proof (found_code _ _ _ Eo) as Co.
      assert (R1 : R u1 v).
      { refine (request_other x R _ _ _ _ _ _ _ _ F _ Ruv Er). rewrite (clone_code _ _ _ Ec), Co. exact Ne. }
      destruct acc; cbn [negb]; intro H; inversion H; subst; auto. split; auto. split; [|reflexivity]. cbn [n_objects n_with_objects].
      change (apply_writes (copy_back o (object_properties copy')) m) with (answered o m copy').
      rewrite (find_put _ _ _ _ x Eo) by (rewrite answered_code; auto). replace (x =? msg_deoj m) with false by lia. reflexivity.
    - intro H. inversion H; subst. split; auto. unfold device_node_set_property.
      destruct (find_object (n_objects n) oc) as [o|] eqn:Eo; [|auto]. destruct (object_find_property o c); [|auto]. cbn [snd]. split; [|reflexivity].
      cbn [n_objects n_with_objects]. rewrite (find_put _ _ _ _ x Eo) by exact (found_code _ _ _ Eo). replace (x =? oc) with false by lia. reflexivity.
    - intro H. inversion H; subst. auto.
  Qed.
  Lemma take_same x R u v n k s u' n' r : Forall (apart x R) (n_handlers n) -> agree x n k -> concerns s = x -> R u v -> take u n s = Ret (u', n', r) ->
    exists v' k', take v k s = Ret (v', k', r) /\ R u' v' /\ agree x n' k' /\ n_handlers n' = n_handlers n.
  Proof.
    intros F [Ag Ah] Ex Ruv. destruct s as [seed m|oc c d|oc c]; cbn [take concerns] in *.
    - unfold node_message_received. rewrite Ex, <- Ag, <- Ah. destruct (esv_is_response (msg_esv m)); [intro H; inversion H; subst; exists v, k; repeat split; auto|].
      destruct (find_object (n_objects n) x) as [o|] eqn:Eo; [|intro H; inversion H; subst; exists v, k; repeat split; auto; congruence].
      destruct (esv_is_request (msg_esv m)); cbn [negb]; [|intro H; inversion H; subst; exists v, k; repeat split; auto; congruence].
      destruct (request_valid o m); cbn [negb]; [|intro H; inversion H; subst; exists v, k; repeat split; auto; congruence].
      destruct (object_clone seed o) as [copy|] eqn:Ec; cbn [obind]; [|discriminate].
      destruct (request_received (n_handlers n) u copy m) as [[[u1 copy'] acc]|] eqn:Er; cbn [obind]; [|discriminate].
      pose proof (found_code _ _ _ Eo) as Co.
      destruct (request_same x R _ _ _ v _ _ _ _ F ltac:(rewrite (clone_code _ _ _ Ec); exact Co) Ruv Er) as (v1 & -> & R1). cbn [obind].
      destruct acc; cbn [negb]; intro H; inversion H; subst; eexists v1, _; (split; [reflexivity|]); (split; [auto|]); (split; [|reflexivity]).
      + split; [|exact Ah]. cbn [n_objects n_with_objects].
        change (apply_writes (copy_back o (object_properties copy')) m) with (answered o m copy').
        rewrite (find_put _ _ _ _ _ Eo), (find_put _ _ _ _ _ (eq_sym Ag)) by (rewrite answered_code; auto). rewrite N.eqb_refl. reflexivity.
      + split; congruence.
    - subst oc. intro H. inversion H; subst. exists v, (snd (device_node_set_property k x c d)).
      unfold device_node_set_property. rewrite <- Ag. destruct (find_object (n_objects n) x) as [o|] eqn:Eo; [|repeat split; auto; cbn; congruence].
      destruct (object_find_property o c) as [p|]; [|repeat split; auto; cbn; congruence]. cbn [fst snd]. split; auto. split; auto. split; [|reflexivity]. split; [|exact Ah].
      cbn [n_objects n_with_objects]. pose proof (found_code _ _ _ Eo) as Co.
      rewrite (find_put _ _ _ _ _ Eo), (find_put _ _ _ _ _ (eq_sym Ag)) by exact Co. rewrite N.eqb_refl. reflexivity.
    - subst oc. intro H. inversion H; subst. exists v, k. unfold device_node_property. rewrite <- Ag. repeat split; auto.
  Qed.

  (** ** The claim *)
  (** What an object shows, to the network and to the application, is what it would show
      if nothing had ever happened to the other objects, and had they held anything else. *)
  Theorem C137_apart : forall x R (u v : U) n k ss u' n' rs, Forall (apart x R) (n_handlers n) -> agree x n k -> R u v ->
    history u n ss = Ret (u', n', rs) ->
    exists v' k', history v k (at_object x ss) = Ret (v', k', seen_at x rs) /\ agree x n' k' /\ R u' v'.
  Proof.
    intros x R u v n k ss. revert u v n k. induction ss as [|s ss IH]; intros u v n k u' n' rs F Ag Ruv H; cbn [history at_object filter] in *.
    - inversion H; subst. exists v, k. auto.
    - destruct (take u n s) as [[[u1 n1] r]|] eqn:E; cbn [obind] in H; [|discriminate].
      destruct (history u1 n1 ss) as [[[u2 n2] rs']|] eqn:Eh; cbn [obind] in H; [|discriminate]. inversion H; subst.
      cbn [seen_at filter fst]. destruct (N.eqb_spec (concerns s) x) as [Ex|Ne].
      + destruct (take_same x R u v n k s u1 n1 r F Ag Ex Ruv E) as (v1 & k1 & Et & R1 & A1 & H1).
        destruct (IH u1 v1 n1 k1 u' n' rs' ltac:(rewrite H1; exact F) A1 R1 Eh) as (v' & k' & Ek & A2 & R2).
        exists v', k'. cbn [history]. rewrite Et. cbn [obind]. unfold at_object in Ek. rewrite Ek. cbn [obind]. auto.
      + destruct (take_other x R u v n s u1 n1 r F Ne Ruv E) as (R1 & A1 & H1).
        apply (IH u1 v n1 k u' n' rs' ltac:(rewrite H1; exact F)); auto. destruct Ag as [Ag Ah]. split; congruence.
  Qed.

  (** Two histories with the same steps for [x]: the same results, whatever else happens
      in the one and in the other. *)
  Theorem C137_same : forall x R (u v : U) n k ss ts u' n' rs v' k' qs, Forall (apart x R) (n_handlers n) -> agree x n k -> R u v -> R v v ->
    at_object x ss = at_object x ts -> history u n ss = Ret (u', n', rs) -> history v k ts = Ret (v', k', qs) ->
    seen_at x rs = seen_at x qs /\ agree x n' k'.
  Proof.
    intros x R u v n k ss ts u' n' rs v' k' qs F Ag Ruv Rvv E H1 H2.
    destruct (C137_apart x R u v n k ss u' n' rs F Ag Ruv H1) as (a & n1 & E1 & A1 & _).
    destruct Ag as [Ag Ah]. destruct (C137_apart x R v v k k ts v' k' qs ltac:(rewrite <- Ah; exact F) (conj eq_refl eq_refl) Rvv H2) as (b & n2 & E2 & A2 & _).
    rewrite E in E1. rewrite E2 in E1. inversion E1; subst. split; auto. destruct A1, A2. split; congruence.
  Qed.
End S.

(** ** Cases *)
Section Cases.
  Local Existing Instance ex_order.
  Definition lamp2 : object := object_set_code lamp 0x029102.
  (** Counts the requests for the first lamp in one number and all others in another,
      and accepts two requests for the first lamp. *)
  Definition two_counters : user_handler (U := N * N) := fun u o e p =>
    if object_code o =? 0x029101 then Ret ((fst u + 1, snd u), o, fst u <? 2) else Ret ((fst u, snd u + 1), o, true).
  (** One counter for all: two requests are accepted, whichever lamp they are for. *)
  Definition one_counter : user_handler (U := N * N) := fun u o e p => Ret ((fst u + 1, snd u), o, fst u <? 2).
  Definition lamps (f : user_handler (U := N * N)) (a b : object) : node (N * N) :=
    Node manager_new [ex_np; a; b] 0 None [HNode; HUser f] [].
  Definition lit : object := fst (object_set_property_data lamp2 0x80 [0x77]).

  Example C137_two_counters : Forall (apart 0x029101 (fun u v => fst u = fst v)) (n_handlers (lamps two_counters lamp lamp2)).
  Proof.
    constructor; [exact I|]. constructor; [|constructor]. unfold apart, user_apart, two_counters. split; [|split].
    - intros u o e p u' o' b. destruct (object_code o =? 0x029101); intro H; inversion H; subst; reflexivity.
    - intros u v o e p u' o' b Ne Ruv. destruct (N.eqb_spec (object_code o) 0x029101); [contradiction|]. intro H. inversion H; subst. exact Ruv.
    - intros u v o e p u' o' b Ex Ruv. rewrite Ex, N.eqb_refl. intro H. inversion H; subst. eexists. rewrite Ruv. split; reflexivity.
  Qed.
  Example C137_agree : agree 0x029101 (lamps two_counters lamp lamp2) (lamps two_counters lamp lit).
  Proof. split; vm_compute; reflexivity. Qed.

  (** Three reads and a write of the first lamp among requests and calls for the second. *)
  Definition read1 : message := ex_rcv (to_lamp 7 0x62 [1; 0x80; 0]).
  Definition write1 (d : N) : message := ex_rcv (to_lamp 8 0x61 [1; 0x80; 1; d]).
  Definition to2 (m : message) : message := Msg (m_ehd m) (m_tid m) (m_seoj m) (0x02, 0x91, 0x02) (m_esv m) (m_props m) (m_set m) (m_get m) (m_from m).
  Definition busy : list step :=
    [Got 1 (to2 (write1 0x31)); Got 2 (write1 0x31); Sets 0x029102 0x80 [0x55]; Got 3 (to2 read1); Got 4 read1; Asks 0x029102 0x80; Got 5 read1; Asks 0x029101 0x80].
  (** what the answers say about the first lamp *)
  Definition told (f : user_handler) (b : object) (ss : list step) : option (list (option (N * list (list N)) + option (list N))) :=
    match history (P := true) (0, 0) (lamps f lamp b) ss with
    | Ret (_, _, rs) => Some (map (fun e => match snd e with
        | Answer (Some m) => inl (Some (m_esv m, map pp_data (m_props m))) | Answer None => inl None
        | Written _ => inr None | Data d => inr d end) (seen_at 0x029101 rs))
    | Panic => None
    end.
  Example C137_case : told two_counters lamp2 busy = told two_counters lit (at_object 0x029101 busy) /\
    told two_counters lamp2 busy = Some [inl (Some (0x71, [[]])); inl (Some (0x72, [[0x31]])); inl (Some (0x52, [[]])); inr (Some [0x31])].
  Proof. split; vm_compute; reflexivity. Qed.
  (** Handlers that share what they know between the objects do carry it over: the read
      of the first lamp is refused because of the requests for the second. *)
  Example C137_shared : told one_counter lamp2 busy <> told one_counter lamp2 (at_object 0x029101 busy).
  Proof. vm_compute. discriminate. Qed.
End Cases.
