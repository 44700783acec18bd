(** What a history of calls and messages leaves unchanged: the shapes of the
    objects and the handlers. *)
From Verif Require Import Base HMap ModelCodec ModelMessages ModelObject ModelTransport ModelNode
  SpecWire SpecObject SpecNode ProofsCodec ProofsCodec2 PropertiesCodec ProofsObject ProofsObject2 ProofsObject3
  PropertiesObject PropertiesDb ProofsDevice ProofsNode ProofsNode2 ProofsNode3 ProofsNode4 PropertiesNode PropertiesTrans PropertiesProfile ProofsExchange.

Section S.
  Context {U : Type} {P : Profile} {HO : HashOrder} {Os : OS}.
  (** Objects and handlers added by a history. *)
  Definition objects_added (ops : list (node_op U)) : list object :=
    flat_map (fun op => match op with OpAddObject o => [o] | _ => [] end) ops.
  Definition handlers_added (ops : list (node_op U)) : list (handler U) :=
    flat_map (fun op => match op with OpAddHandler h => [h] | _ => [] end) ops.

  Lemma shapes_refl l : Forall2 same_shape l l.
  Proof. induction l; constructor; auto. apply same_shape_refl. Qed.
  Lemma shapes_trans l1 : forall l2 l3, Forall2 same_shape l1 l2 -> Forall2 same_shape l2 l3 -> Forall2 same_shape l1 l3.
  Proof.
    induction l1 as [|a l IH]; intros l2 l3 A B; inversion A; subst; inversion B; subst; constructor; [eapply same_shape_trans; eauto|eapply IH; eauto].
  Qed.
  Lemma shapes_map f l : (forall o, same_shape o (f o)) -> Forall2 same_shape l (map f l).
  Proof. intro H. induction l; constructor; auto. Qed.
  Lemma shapes_one pre o o' post : same_shape o o' -> Forall2 same_shape (pre ++ o :: post) (pre ++ o' :: post).
  Proof. intro H. apply Forall2_app; [apply shapes_refl|constructor; auto; apply shapes_refl]. Qed.

  Lemma set_byte_shapes (n : node U) c v : Forall2 same_shape (n_objects n) (n_objects (set_object_properties_byte n c v)).
  Proof. apply shapes_map. intro o. apply set_data_shape. Qed.
  Lemma step_shapes (u : U) n w op u' n' w' : op_ok op -> node_step (u, n, w) op = Ret (u', n', w') ->
    Forall2 same_shape (n_objects n ++ objects_added [op]) (n_objects n') /\ n_handlers n' = n_handlers n ++ handlers_added [op].
  Proof.
    intros K E.
    assert (Same : n_objects n' = n_objects n -> n_handlers n' = n_handlers n -> objects_added [op] = [] -> handlers_added [op] = [] ->
      Forall2 same_shape (n_objects n ++ objects_added [op]) (n_objects n') /\ n_handlers n' = n_handlers n ++ handlers_added [op]).
    { intros A B C D. rewrite A, B, C, D, !app_nil_r. split; auto. apply shapes_refl. }
    destruct op; cbn [node_step] in E; cbn [op_ok] in K.
    - destruct (node_add_object n o) as [n1|] eqn:E1; cbn [obind] in E; [|discriminate]. inversion E; subst.
      destruct (add_object_eq n o) as (os & E' & X). rewrite E1 in E'. inversion E'; subst. cbn [n_objects n_with_objects n_handlers handlers_added objects_added flat_map app].
      rewrite app_nil_r. split; auto. destruct X as [[_ ->]|(pre & np' & post & -> & E2 & E3 & ->)]; [apply shapes_refl|].
      apply shapes_one. apply sets_shape.
    - inversion E; subst. cbn. rewrite app_nil_r. split; auto. apply shapes_refl.
    - inversion E; subst. apply Same; auto.
    - inversion E; subst. unfold set_data in *. destruct (find_object (n_objects n) obj) as [o|] eqn:Ef; [|apply Same; auto].
      apply find_object_some in Ef as (pre & post & E1 & E2 & E3).
      rewrite E1, put_object_split by auto; cbn; rewrite !app_nil_r.
      split; auto. apply shapes_one. apply set_data_shape.
    - destruct (node_send w n to m) as [[[b m1] n1] w1] eqn:E1. inversion E; subst.
      apply node_send_spec in E1 as (A & _). apply update_tid_keeps in A as (A & B & _). auto.
    - destruct (node_post w n to m) as [[[b m1] n1] w1] eqn:E1. inversion E; subst.
      apply node_post_spec in E1 as (_ & _ & n2 & ok & tr & A & -> & _). apply update_tid_keeps in A as (A & B & _). auto.
    - destruct (node_notify w n m) as [[[b m1] n1] w1] eqn:E1. inversion E; subst.
      apply node_notify_spec in E1 as (A & _). apply update_tid_keeps in A as (A & B & _). auto.
    - destruct (node_announce w n) as [[b n1] w1] eqn:E1. inversion E; subst.
      apply announce_keeps in E1 as (A & B & _). auto.
    - unfold node_announce_property in E. destruct (node_notify w n _) as [[[b m1] n1] w1] eqn:E1. inversion E; subst.
      apply node_notify_spec in E1 as (A & _). apply update_tid_keeps in A as (A & B & _). auto.
    - destruct (node_start w n) as [[[b n1] w1]|] eqn:E1; cbn [obind] in E; [|discriminate]. inversion E; subst.
      apply node_start_spec in E1 as (ok1 & m1 & w2 & _ & _ & [(_ & _ & -> & _)|(_ & m2 & _ & A)]); [apply Same; auto|].
      apply announce_keeps in A as (A & B & _). cbn [objects_added handlers_added flat_map]. rewrite A, B, !app_nil_r. split; auto.
      eapply shapes_trans; [apply (set_byte_shapes n 0x80 0x30)|]. apply (set_byte_shapes (set_object_properties_byte n 0x80 0x30) 0x88 0x42).
    - destruct (node_stop n) as [[b n1]|] eqn:E1; cbn [obind] in E; [|discriminate]. inversion E; subst. unfold node_stop in E1.
      destruct (manager_stop _) as [x|]; cbn [obind] in E1; [|discriminate]. inversion E1; subst. cbn [snd objects_added handlers_added flat_map]. rewrite !app_nil_r.
      split; auto. apply (set_byte_shapes n 0x80 0x31).
    - destruct (node_observe w u n m) as [[[u1 n1] w1]|] eqn:E1; cbn [obind] in E; [|discriminate]. inversion E; subst.
      apply received_rcvd in K. pose proof K as [W L B]. apply observe_spec in E1 as (n2 & w2 & t1 & n3 & res & t2 & _ & _ & _ & D & H & R); auto.
      apply delivered_keeps in D as (D1 & D2 & _). apply reaction_keeps in R as (R1 & R2 & _).
      cbn [objects_added handlers_added flat_map]. rewrite R1, R2, !app_nil_r, <- D1, <- D2.
      inversion H as [|o0 Q Ao V|o0 copy u2 copy' Q Ao V C1 E2|pre o0 post copy u2 copy' Q Eo Ec Fp V C1 E2 Eu En Er']; subst; try (split; [apply shapes_refl|auto]; fail).
      cbn [n_objects n_with_objects n_handlers]. split; auto. rewrite Eo. apply shapes_one. apply answered_shape.
  Qed.
  Lemma run_shapes ops : forall (u : U) n w u' n' w', Forall op_ok ops -> node_run (u, n, w) ops = Ret (u', n', w') ->
    Forall2 same_shape (n_objects n ++ objects_added ops) (n_objects n') /\ n_handlers n' = n_handlers n ++ handlers_added ops.
  Proof.
    induction ops as [|op r IH]; intros u n w u' n' w' F E; cbn [node_run] in E.
    { inversion E; subst. cbn. rewrite !app_nil_r. split; auto. apply shapes_refl. }
    destruct (node_step (u, n, w) op) as [[[u1 n1] w1]|] eqn:E1; cbn [obind] in E; [|discriminate]. inversion F; subst.
    destruct (step_shapes u n w op u1 n1 w1 H1 E1) as [A B]. destruct (IH u1 n1 w1 u' n' w' H2 E) as [C D]. split.
    - change (op :: r) with ([op] ++ r). unfold objects_added. rewrite flat_map_app, app_assoc. 
      eapply shapes_trans; [apply Forall2_app; [exact A|apply shapes_refl]|exact C].
    - change (op :: r) with ([op] ++ r). unfold handlers_added. rewrite flat_map_app, app_assoc, D, B. reflexivity.
  Qed.
  Lemma new_shapes np (n : node U) : node_new np = Ret n -> Forall2 same_shape [np] (n_objects n) /\ n_handlers n = [HNode].
  Proof.
    unfold node_new. destruct (node_add_object _ np) as [n1|] eqn:E1; cbn [obind]; [|discriminate]. intro E. inversion E; subst.
    destruct (add_object_eq (U := U) {| n_mgr := manager_new; n_objects := []; n_last_tid := TID_MIN; n_post := None; n_handlers := []; n_observers := [] |} np) as (os & E' & X).
    rewrite E1 in E'. inversion E'; subst. cbn. split; auto. cbn [n_objects app] in X.
    destruct X as [[_ ->]|(pre & np' & post & -> & E2 & E3 & ->)]; [apply shapes_refl|]. apply shapes_one. apply sets_shape.
  Qed.
  Lemma history_shapes np n0 ops (u : U) w u' n' w' : node_new np = Ret n0 -> Forall op_ok ops -> node_run (u, n0, w) ops = Ret (u', n', w') ->
    Forall2 same_shape (np :: objects_added ops) (n_objects n') /\ n_handlers n' = HNode :: handlers_added ops.
  Proof.
    intros N F E. destruct (new_shapes np n0 N) as [A B]. destruct (run_shapes ops u n0 w u' n' w' F E) as [C D]. rewrite B in D. split; auto.
    eapply shapes_trans; [|exact C]. change (np :: objects_added ops) with ([np] ++ objects_added ops). apply Forall2_app; auto. apply shapes_refl.
  Qed.
  (** The standard property codes are 0x80 and above. *)
  Lemma std_shape a b : same_shape a b -> std_keys a -> std_keys b.
  Proof.
    intros (_ & _ & _ & S & _) K c p E. destruct (object_find_property a c) as [q|] eqn:Eq; [apply (K c q Eq)|].
    apply S in Eq. congruence.
  Qed.
  Lemma history_std np n0 ops (u : U) w u' n' w' : node_new np = Ret n0 -> Forall op_ok ops -> node_run (u, n0, w) ops = Ret (u', n', w') ->
    std_keys np -> Forall std_keys (objects_added ops) -> node_std n'.
  Proof.
    intros N F E A B. destruct (history_shapes np n0 ops u w u' n' w' N F E) as [C _]. unfold node_std.
    assert (K : Forall std_keys (np :: objects_added ops)) by (constructor; auto). clear - C K.
    induction C; inversion K; subst; constructor; auto. eapply std_shape; eauto.
  Qed.
  Lemma history_total np n0 ops (u : U) w u' n' w' : node_new np = Ret n0 -> Forall op_ok ops -> node_run (u, n0, w) ops = Ret (u', n', w') ->
    Forall total_handler (handlers_added ops) -> Forall total_handler (n_handlers n').
  Proof.
    intros N F E A. destruct (history_shapes np n0 ops u w u' n' w' N F E) as [_ C]. rewrite C. constructor; auto. intros x o e p. cbn. discriminate.
  Qed.
End S.
