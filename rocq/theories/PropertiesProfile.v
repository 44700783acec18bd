(** Properties of the node profile and of the startup announcement: C32 to C35. *)
From Verif Require Import Base HMap ModelCodec ModelMessages DbTable ModelObject ModelTransport ModelNode
  SpecWire SpecObject SpecNode ProofsCodec ProofsCodec2 PropertiesCodec ProofsObject ProofsObject2 ProofsObject3
  PropertiesObject PropertiesDb ProofsDevice ProofsNode ProofsNode2 ProofsNode3 ProofsNode4 ExamplesNode PropertiesNode PropertiesTrans.

(** ** Vocabulary *)
(** The instance list of devices with the given codes: their number and their codes. *)
Definition instance_list (codes : list N) : list N := N.of_nat (length codes) :: flat_map wire_eoj codes.
(** Class codes, without the instance. *)
Definition wire_class (c : N) : list N := [c / 65536; c / 256 mod 256].
(** The properties that describe the node. *)
Definition list_code (c : N) : Prop := In c [0xD3; 0xD4; 0xD5; 0xD6; 0xD7].

Section S.
  Context {U : Type} {P : Profile} {HO : HashOrder} {Os : OS}.
  (** The codes of the objects added by a history, in order. *)
  Definition added (ops : list (node_op U)) : list N :=
    flat_map (fun op => match op with OpAddObject o => [object_code o] | _ => [] end) ops.
  (** The application neither adds a second node profile nor overwrites these
      properties, itself or in a handler. *)
  Definition undisturbed (op : node_op U) : Prop :=
    match op with
    | OpAddObject o => object_code o <> 0x0EF001
    | OpAddHandler h => hands_off h
    | OpSetData oc c _ => oc <> 0x0EF001 \/ ~ list_code c
    | _ => True
    end.

  Lemma built_code o : obj_built o -> object_code o < 16777216.
  Proof.
    intro B. assert (W : wf3 (o_codes o)); [|destruct (o_codes o) as [[a b] c] eqn:E; cbn in W; rewrite (object_code_eq o a b c) by tauto; lia].
    induction B; try exact IHB; unfold object_set_code, object_set_class_group_code, object_set_class_code, object_set_instance_code.
    - cbn. lia.
    - cbn. unfold as_u8. lia.
    - destruct (o_codes o) as [[? ?] ?]; cbn in *; tauto.
    - destruct (o_codes o) as [[? ?] ?]; cbn in *; tauto.
    - destruct (o_codes o) as [[? ?] ?]; cbn in *; tauto.
    - apply add_property_codes in H0. rewrite H0. auto.
    - unfold object_set_property_data. destruct (object_find_property o c); auto.
  Qed.

  (** ** Invariant *)
  (** [rd]: the read access of the lists, which never changes. *)
  Section R.
  Variable rd : N -> rule.
  Definition profile_inv (n : node U) : Prop :=
    Forall hands_off (n_handlers n) /\
    exists np rest, n_objects n = np :: rest /\ object_code np = 0x0EF001 /\ Forall (fun x => object_code x <> 0x0EF001) rest /\
      forall c, list_code c -> exists p, object_find_property np c = Some p /\ p_code p = c /\ p_write p = Prohibited /\ p_read p = rd c /\
        last_data c (profile_data (map object_code (n_objects n))) = Some (p_data p).

  Lemma find_np np rest : object_code np = 0x0EF001 -> find_object (np :: rest) 0x0EF001 = Some np.
  Proof. intro H. apply addressed_find. exists [], rest. auto. Qed.
  (** Replacing data of the profile outside the lists. *)
  Lemma inv_replace (n n' : node U) np np' rest rest' : profile_inv n -> n_objects n = np :: rest -> n_objects n' = np' :: rest' ->
    n_handlers n' = n_handlers n -> same_shape np np' -> map object_code rest' = map object_code rest ->
    (forall c, list_code c -> object_find_property np' c = object_find_property np c) -> profile_inv n'.
  Proof.
    intros (H & np0 & rest0 & E & C & F & I) E0 E' Eh S M Q. rewrite E0 in E. inversion E; subst np0 rest0. split; [rewrite Eh; auto|].
    assert (Cc : object_code np' = object_code np) by (symmetry; apply object_code_codes, S).
    exists np', rest'. split; auto. split; [congruence|]. split.
    - apply (Forall_map object_code (fun c => c <> 0x0EF001)). rewrite M. apply Forall_map. exact F.
    - intros c L. destruct (I c L) as (p & Ep & Ec & W & Rd & D). exists p. rewrite Q by auto. split; auto. split; auto. split; auto. split; auto.
      rewrite E'. rewrite E0 in D. cbn [map] in *. rewrite M, Cc. auto.
  Qed.
  Lemma list_codes_last c codes : list_code c -> exists d, last_data c (profile_data codes) = Some d.
  Proof. intro L. unfold list_code in L. cbn in L. intuition (subst; eexists; reflexivity). Qed.
  Lemma last_profile codes : 
    last_data 0xD3 (profile_data codes) = Some [0; 0; as_u8 (N.of_nat (length codes) - 1)] /\
    last_data 0xD4 (profile_data codes) = Some [0; len_u8 codes] /\
    last_data 0xD5 (profile_data codes) = Some (as_u8 (N.of_nat (length codes) - 1) :: flat_map instance_entry codes) /\
    last_data 0xD6 (profile_data codes) = Some (as_u8 (N.of_nat (length codes) - 1) :: flat_map instance_entry codes) /\
    last_data 0xD7 (profile_data codes) = Some (len_u8 codes :: flat_map class_entry codes).
  Proof. repeat split. Qed.
  Lemma add_object_profile (n n' : node U) np rest o : n_objects n = np :: rest -> object_code np = 0x0EF001 ->
    node_add_object n o = Ret n' -> n' = n_with_objects n (sets np (profile_data (map object_code (n_objects n ++ [o]))) :: rest ++ [o]).
  Proof.
    intros E C A. destruct (add_object_eq n o) as (os & E' & X). rewrite A in E'. inversion E'; subst. f_equal.
    destruct X as [[X _]|(pre & np' & post & E1 & E2 & E3 & ->)].
    - rewrite E in X. inversion X; subst. contradiction.
    - rewrite E in E1 at 1. cbn [app] in E1. destruct pre as [|x pre].
      + inversion E1; subst. reflexivity.
      + inversion E1; subst. inversion E3; subst. contradiction.
  Qed.
  Lemma sets_list_data np codes c p : list_code c -> object_find_property np c = Some p -> p_write p = Prohibited -> p_read p = rd c -> p_code p = c ->
    exists q, object_find_property (sets np (profile_data codes)) c = Some q /\ p_code q = c /\ p_write q = Prohibited /\ p_read q = rd c /\
    last_data c (profile_data codes) = Some (p_data q).
  Proof.
    intros L E W Rd C. rewrite sets_find, E. destruct (list_codes_last c codes L) as (d & Ed). rewrite Ed.
    eexists. split; [reflexivity|]. auto.
  Qed.
  Lemma byte_keeps (o : object) c d k : list_code k -> ~ list_code c -> object_find_property (fst (object_set_property_data o c d)) k = object_find_property o k.
  Proof. intros L H. rewrite set_data_find. destruct (N.eqb_spec k c); [subst; contradiction|auto]. Qed.
  Lemma set_data_shape o c d : same_shape o (fst (object_set_property_data o c d)).
  Proof. apply (sets_shape [PProp c d] o). Qed.
  Lemma not_80 : ~ list_code 0x80. Proof. unfold list_code. cbn. intuition discriminate. Qed.
  Lemma not_88 : ~ list_code 0x88. Proof. unfold list_code. cbn. intuition discriminate. Qed.
  Lemma inv_set_byte (n : node U) c v : ~ list_code c -> profile_inv n -> profile_inv (set_object_properties_byte n c v).
  Proof.
    intros N I. pose proof I as (H & np & rest & E & _). eapply (inv_replace n _ np (fst (object_set_property_data np c [v])) rest (map (fun o => fst (object_set_property_data o c [v])) rest)); auto.
    - unfold set_object_properties_byte. cbn [n_objects n_with_objects]. rewrite E. cbn [map]. reflexivity.
    - apply set_data_shape.
    - rewrite map_map. apply map_ext. intro o. apply object_code_codes. symmetry. apply (set_data_shape o c [v]).
    - intros k L. apply byte_keeps; auto.
  Qed.
  Lemma inv_same (n n' : node U) : n_objects n' = n_objects n -> n_handlers n' = n_handlers n -> profile_inv n -> profile_inv n'.
  Proof. intros E H I. unfold profile_inv. rewrite E, H. exact I. Qed.

  Lemma handled_inv seed (u : U) n m u' n' res : rcvd m -> node_good n -> profile_inv n -> handled seed u n m u' n' res ->
    profile_inv n' /\ map object_code (n_objects n') = map object_code (n_objects n).
  Proof.
    intros R G I H. inversion H as [|o0 Q Ao V|o0 copy u1 copy' Q Ao V C1 D1|pre o0 post copy u1 copy' Q Eo Ec Fp V C1 D1 Eu En Er']; subst; auto.
    assert (Cd : object_code (answered o0 m copy') = object_code o0) by (symmetry; apply object_code_codes, answered_shape).
    split; [|cbn; rewrite Eo, !map_app; cbn [map]; rewrite Cd; auto].
    pose proof I as (Hh & np & rest & E & C & F & Li). apply request_received_hands_off in D1; auto. subst copy'.
    rewrite Eo in E. destruct pre as [|x pre]; cbn [app] in E; inversion E; subst.
    - eapply (inv_replace n _ np (answered np m copy) rest rest); auto; [apply answered_shape|].
      intros c L. destruct (Li c L) as (pc & Epc & _ & W & _).
      assert (Go : obj_good np). { destruct G as [G _]. rewrite Eo in G. inversion G; auto. }
      rewrite (answered_hands_off np m seed copy c Go C1) by (unfold list_code in L; cbn in L; intuition (subst; reflexivity)).
      destruct (last_data c (writes_of m)) as [d|] eqn:Ld; [|destruct (object_find_property np c); auto].
      exfalso. apply last_data_in in Ld. destruct V as [V _].
      apply (proj1 (Forall_forall _ _) V) in Ld. destruct Ld as (p & Ep & A & _). cbn [pp_code] in Ep. rewrite Epc in Ep. inversion Ep; subst. apply A, W.
    - eapply (inv_replace n _ np np (pre ++ o0 :: post) (pre ++ answered o0 m copy :: post)); auto.
      + apply same_shape_refl.
      + rewrite !map_app. cbn [map]. rewrite Cd. auto.
  Qed.

  Lemma inv_step (u : U) n w op u' n' w' : op_ok op -> undisturbed op -> node_good n -> profile_inv n ->
    node_step (u, n, w) op = Ret (u', n', w') ->
    profile_inv n' /\ map object_code (n_objects n') = map object_code (n_objects n) ++ added [op].
  Proof.
    intros K Un G I E.
    assert (Same : n_objects n' = n_objects n -> n_handlers n' = n_handlers n -> added [op] = [] ->
      profile_inv n' /\ map object_code (n_objects n') = map object_code (n_objects n) ++ added [op]).
    { intros A B C. split; [eapply inv_same; eauto|]. rewrite A, C, app_nil_r. auto. }
    destruct op; cbn [node_step] in E; cbn [op_ok] in K; cbn [undisturbed] in Un.
    - destruct (node_add_object n o) as [n1|] eqn:E1; cbn [obind] in E; [|discriminate]. inversion E; subst.
      pose proof I as (H & np & rest & Eo & C & F & Li). 
      rewrite (add_object_profile n n' np rest o Eo C E1). cbn [n_objects n_with_objects]. 
      assert (Cs : object_code (sets np (profile_data (map object_code (n_objects n ++ [o])))) = object_code np) by apply sets_code.
      split.
      + split; [auto|]. eexists. exists (rest ++ [o]). split; [reflexivity|]. split; [congruence|]. split; [apply Forall_app; auto|].
        intros c L. destruct (Li c L) as (pc & Epc & Ec & W & Rd & _). cbn [n_objects n_with_objects map]. rewrite Cs.
        replace (object_code np :: map object_code (rest ++ [o])) with (map object_code (n_objects n ++ [o])) by (rewrite Eo; reflexivity).
        apply (sets_list_data np _ c pc); auto.
      + cbn [map added flat_map app]. rewrite Cs, Eo, map_app. reflexivity.
    - inversion E; subst. split; [|cbn; rewrite app_nil_r; auto]. destruct I as (H & X). split; auto. cbn. apply Forall_app. auto.
    - inversion E; subst. apply Same; auto.
    - inversion E; subst. unfold set_data. destruct (find_object (n_objects n) obj) as [o|] eqn:Ef.
      2:{ split; auto. cbn. rewrite app_nil_r. auto. }
      pose proof I as (H & np & rest & Eo & C & F & Li). apply find_object_some in Ef as (pre & post & E1 & E2 & E3).
      assert (Co : object_code (fst (object_set_property_data o prop d)) = object_code o).
      { symmetry. apply object_code_codes. apply (set_data_shape o prop d). }
      rewrite E1, put_object_split by auto. cbn [n_objects n_with_objects]. split.
      2:{ cbn. rewrite !map_app. cbn [map]. rewrite Co, app_nil_r. auto. }
      rewrite Eo in E1. destruct pre as [|x pre]; cbn [app] in E1; inversion E1; subst.
      + eapply (inv_replace n _ o (fst (object_set_property_data o prop d)) post post); auto; [apply set_data_shape|].
        intros k L. destruct Un as [Un|Un]; [contradiction|]. apply byte_keeps; auto.
      + eapply (inv_replace n _ x x (pre ++ o :: post) (pre ++ fst (object_set_property_data o prop d) :: post)); auto; [apply same_shape_refl|].
        rewrite !map_app. cbn [map]. rewrite Co. auto.
    - destruct (node_send w n to m) as [[[b m1] n1] w1] eqn:E1. inversion E; subst.
      apply node_send_spec in E1 as (A & _). apply update_tid_keeps in A as (A & B & _). auto.
    - destruct (node_post w n to m) as [[[b m1] n1] w1] eqn:E1. inversion E; subst.
      apply node_post_spec in E1 as (_ & _ & n2 & ok & tr & A & -> & _). apply update_tid_keeps in A as (A & B & _). auto.
    - destruct (node_notify w n m) as [[[b m1] n1] w1] eqn:E1. inversion E; subst.
      apply node_notify_spec in E1 as (A & _). apply update_tid_keeps in A as (A & B & _). auto.
    - destruct (node_announce w n) as [[b n1] w1] eqn:E1. inversion E; subst.
      apply announce_keeps in E1 as (A & B & _). auto.
    - unfold node_announce_property in E. destruct (node_notify w n _) as [[[b m1] n1] w1] eqn:E1. inversion E; subst.
      apply node_notify_spec in E1 as (A & _). apply update_tid_keeps in A as (A & B & _). auto.
    - destruct (node_start w n) as [[[b n1] w1]|] eqn:E1; cbn [obind] in E; [|discriminate]. inversion E; subst.
      apply node_start_spec in E1 as (ok1 & m1 & w2 & _ & _ & [(_ & _ & -> & _)|(_ & m2 & _ & A)]); auto.
      apply announce_keeps in A as (A & B & _). cbn [added flat_map]. rewrite app_nil_r. split.
      + eapply inv_same; [exact A|exact B|]. eapply inv_same; [| |apply (inv_set_byte (set_object_properties_byte n 0x80 0x30) 0x88 0x42 not_88 (inv_set_byte n 0x80 0x30 not_80 I))]; reflexivity.
      + rewrite A. cbn [n_objects n_with_mgr set_object_properties_byte n_with_objects]. rewrite !map_map. apply map_ext. intro o. apply object_code_codes.
        transitivity (o_codes (fst (object_set_property_data o 0x80 [0x30]))); symmetry; apply set_data_shape.
    - destruct (node_stop n) as [[b n1]|] eqn:E1; cbn [obind] in E; [|discriminate]. inversion E; subst. unfold node_stop in E1.
      destruct (manager_stop _) as [x|]; cbn [obind] in E1; [|discriminate]. inversion E1; subst. cbn [snd added flat_map]. rewrite app_nil_r. split.
      + eapply inv_same; [| |apply (inv_set_byte n 0x80 0x31 not_80 I)]; reflexivity.
      + cbn [n_objects n_with_mgr set_object_properties_byte n_with_objects]. rewrite !map_map. apply map_ext. intro o. apply object_code_codes.
        symmetry. apply (set_data_shape o 0x80 [0x31]).
    - destruct (node_observe w u n m) as [[[u1 n1] w1]|] eqn:E1; cbn [obind] in E; [|discriminate]. inversion E; subst.
      apply received_rcvd in K. pose proof K as [W L B]. apply observe_spec in E1 as (n2 & w2 & t1 & n3 & res & t2 & _ & _ & _ & D & H & R); auto.
      apply delivered_keeps in D as (D1 & D2 & _). apply reaction_keeps in R as (R1 & R2 & _).
      apply handled_inv in H as [H1 H2]; auto; [|eapply objects_good_tid; eauto|eapply inv_same; eauto].
      split; [eapply inv_same; eauto|]. cbn. rewrite app_nil_r. congruence.
  Qed.
  Lemma inv_run ops : forall (u : U) n w u' n' w', Forall op_ok ops -> Forall undisturbed ops -> node_good n -> profile_inv n ->
    node_run (u, n, w) ops = Ret (u', n', w') ->
    profile_inv n' /\ map object_code (n_objects n') = map object_code (n_objects n) ++ added ops.
  Proof.
    induction ops as [|op r IH]; intros u n w u' n' w' F Un G I E; cbn [node_run] in E; [inversion E; subst; cbn; rewrite app_nil_r; auto|].
    destruct (node_step (u, n, w) op) as [[[u1 n1] w1]|] eqn:E1; cbn [obind] in E; [|discriminate]. inversion F; inversion Un; subst.
    destruct (inv_step u n w op u1 n1 w1 H1 H5 G I E1) as [I1 M1]. pose proof (step_good u n w op u1 n1 w1 H1 G E1) as G1.
    destruct (IH u1 n1 w1 u' n' w' H2 H6 G1 I1 E) as [I2 M2]. split; auto. rewrite M2, M1, <- app_assoc. f_equal.
    change (op :: r) with ([op] ++ r). unfold added. rewrite flat_map_app. auto.
  Qed.
  End R.
  (** A node profile whose lists cannot be written from outside, as in the standard
      database. *)
  Definition profile_like (np : object) : Prop :=
    obj_built np /\ object_code np = 0x0EF001 /\ forall c, list_code c -> object_has_property np c = true /\ ~ can_write np c.
  Lemma inv_new (np : object) (n : node U) : profile_like np -> node_new np = Ret n ->
    profile_inv (fun c => match object_find_property np c with Some p => p_read p | None => Prohibited end) n /\ map object_code (n_objects n) = [0x0EF001] /\ node_good n.
  Proof.
    intros (B & C & W) E. pose proof (node_new_good np n (obj_ok_good _ (obj_built_ok _ B)) E) as G. unfold node_new in E.
    destruct (node_add_object _ np) as [n1|] eqn:E1; cbn [obind] in E; [|discriminate]. inversion E; subst.
    destruct (add_object_eq (U := U) {| n_mgr := manager_new; n_objects := []; n_last_tid := TID_MIN; n_post := None; n_handlers := []; n_observers := [] |} np) as (os & E' & X).
    rewrite E1 in E'. inversion E'; subst. cbn [n_objects app] in X.
    destruct X as [[X _]|(pre & np' & post & F1 & F2 & F3 & ->)]; [inversion X; contradiction|].
    destruct pre as [|y pre]; [|cbn in F1; inversion F1; subst; destruct pre; discriminate]. cbn [app] in F1. inversion F1; subst np' post.
    cbn [app map n_objects n_with_objects]. set (s := sets np (profile_data [object_code np])) in *. 
    assert (Cs : object_code s = 0x0EF001) by (unfold s; rewrite sets_code; auto).
    split; [|split; [change ([object_code s] = [0x0EF001]); congruence|exact G]].
    - split; [cbn; repeat constructor|]. exists s, []. cbn [n_objects n_with_objects]. split; auto. split; auto. split; auto.
      intros c L. destruct (W c L) as [H1 H2]. unfold object_has_property in H1. destruct (object_find_property np c) as [pc|] eqn:Ep; [|discriminate].
      match goal with |- context [map object_code ?l] => replace (map object_code l) with [object_code np] by (change ([object_code np] = [object_code s]); congruence) end.
      apply (sets_list_data _ np _ c pc); auto.
      + destruct (p_write pc) eqn:Ew; auto; exfalso; apply H2; exists pc; split; auto; unfold allows; congruence.
      + apply (obj_good_coded np) in Ep; auto. apply obj_ok_good, obj_built_ok; auto.
  Qed.

  (** Reading the data. *)
  Lemma instance_entries codes : Forall (fun c => c < 16777216) codes ->
    flat_map instance_entry codes = flat_map wire_eoj (filter (fun c => negb (c =? 0x0EF001)) codes).
  Proof.
    induction 1 as [|c r L F IH]; auto. cbn [flat_map filter]. rewrite IH. unfold instance_entry at 1. unfold NODE_PROFILE_OBJECT_CODE.
    destruct (N.eqb_spec c 0x0EF001); cbn [negb]; auto. cbn [flat_map]. f_equal.
    transitivity ((fun e : N * N * N => [fst (fst e); snd (fst e); snd e]) (split_object_code c)); [reflexivity|].
    rewrite split_object_code_eq. unfold wire_eoj. cbn [fst snd]. replace ((c / 65536) mod 256) with (c / 65536) by lia. reflexivity.
  Qed.
  Lemma class_entries codes : Forall (fun c => c < 16777216) codes -> flat_map class_entry codes = flat_map wire_class codes.
  Proof.
    induction 1 as [|c r L F IH]; auto. cbn [flat_map]. rewrite IH. f_equal. unfold class_entry, wire_class.
    transitivity ((fun e : N * N * N => [fst (fst e); snd (fst e)]) (split_object_code c)); [reflexivity|].
    rewrite split_object_code_eq. cbn [fst snd]. replace ((c / 65536) mod 256) with (c / 65536) by lia. reflexivity.
  Qed.
  Lemma added_bound ops : Forall op_ok ops -> Forall (fun c => c < 16777216) (added ops).
  Proof.
    induction 1 as [|op r K F IH]; [constructor|]. destruct op; cbn; auto. constructor; auto. apply built_code. exact K.
  Qed.
  Lemma added_devices ops : Forall undisturbed ops -> filter (fun c => negb (c =? 0x0EF001)) (added ops) = added ops.
  Proof.
    induction 1 as [|op r K F IH]; auto. destruct op; cbn [added flat_map app filter]; auto. cbn [undisturbed] in K.
    apply N.eqb_neq in K. rewrite K. cbn [negb]. f_equal. exact IH.
  Qed.

  (** The data of the lists after a history. *)
  Lemma history_lists np n0 ops (u : U) w u' n' w' : profile_like np -> node_new np = Ret n0 ->
    Forall op_ok ops -> Forall undisturbed ops -> node_run (u, n0, w) ops = Ret (u', n', w') ->
    map object_code (n_objects n') = 0x0EF001 :: added ops /\
    exists o, addressed (n_objects n') 0x0EF001 o /\
      forall c, list_code c -> exists p, object_find_property o c = Some p /\ p_code p = c /\
        (forall q, object_find_property np c = Some q -> p_read p = p_read q) /\
        last_data c (profile_data (0x0EF001 :: added ops)) = Some (p_data p).
  Proof.
    intros L E F Un R. destruct (inv_new np n0 L E) as (I & M & G).
    destruct (inv_run _ ops u n0 w u' n' w' F Un G I R) as [I' M']. rewrite M in M'. cbn [app] in M'. split; auto.
    destruct I' as (_ & o & rest & Eo & C & _ & Li). exists o. split; [exists [], rest; auto|].
    intros c Lc. destruct (Li c Lc) as (p & Ep & Ec & _ & Rd & X). rewrite M' in X. exists p. split; auto. split; auto. split; auto. intros q Eq. rewrite Eq in Rd. auto.
  Qed.

  (** ** C32 *)
  (** After any history that leaves the lists alone, the node profile describes the
      devices added, in order. (The count octet limits the number to 255, the
      encoding of the property to 84: C33.) *)
  Theorem C32_instance_lists : forall np n0 ops (u : U) w u' n' w', profile_like np -> node_new np = Ret n0 ->
    Forall op_ok ops -> Forall undisturbed ops -> node_run (u, n0, w) ops = Ret (u', n', w') ->
    (length (added ops) <= 255)%nat ->
    map object_code (n_objects n') = 0x0EF001 :: added ops /\
    exists o, addressed (n_objects n') 0x0EF001 o /\ 
      object_property_data o 0xD3 = Some [0; 0; N.of_nat (length (added ops))] /\
      object_property_data o 0xD5 = Some (instance_list (added ops)) /\
      object_property_data o 0xD6 = Some (instance_list (added ops)).
  Proof.
    intros np n0 ops u w u' n' w' L E F Un R Len. destruct (history_lists np n0 ops u w u' n' w' L E F Un R) as (M & o & A & D).
    split; auto. exists o. split; auto. destruct (last_profile (0x0EF001 :: added ops)) as (L3 & _ & L5 & L6 & _).
    assert (K : as_u8 (N.of_nat (length (0x0EF001 :: added ops)) - 1) = N.of_nat (length (added ops))).
    { cbn [length]. unfold as_u8. lia. }
    rewrite K in *. assert (X : flat_map instance_entry (0x0EF001 :: added ops) = flat_map wire_eoj (added ops)).
    { rewrite instance_entries by (constructor; [lia|apply added_bound; auto]). cbn [filter N.eqb Pos.eqb negb]. rewrite added_devices by auto. auto. }
    rewrite X in *. unfold instance_list. 
    assert (Y : forall c d, list_code c -> last_data c (profile_data (0x0EF001 :: added ops)) = Some d -> object_property_data o c = Some d).
    { intros c d Lc Ed. destruct (D c Lc) as (p & Ep & _ & _ & Ed'). unfold object_property_data. rewrite Ep. congruence. }
    split; [|split]; apply Y; auto; unfold list_code; cbn; tauto.
  Qed.

  (** ** C33 *)
  (** Up to 84 devices the lists can be encoded and hold the right count. *)
  Lemma instance_list_length codes : length (instance_list codes) = (1 + 3 * length codes)%nat.
  Proof. unfold instance_list. cbn [length]. change (1 + 3 * length codes)%nat with (S (3 * length codes)). f_equal. induction codes as [|c r IH]; auto. cbn [flat_map length]. rewrite app_length, IH. cbn. lia. Qed.
  Lemma instance_list_octets codes : Forall (fun c => c < 16777216) codes -> (length codes <= 255)%nat -> octets (instance_list codes).
  Proof.
    intros F L. constructor; [unfold octet; lia|]. clear L. induction F as [|c r H F IH]; [constructor|]. cbn [flat_map]. apply octets_app. split; auto.
    unfold wire_eoj, octets, octet. repeat constructor; lia.
  Qed.
  Theorem C33_encodable_partial : forall np n0 ops (u : U) w u' n' w' c, profile_like np -> node_new np = Ret n0 ->
    Forall op_ok ops -> Forall undisturbed ops -> node_run (u, n0, w) ops = Ret (u', n', w') ->
    (length (added ops) <= 84)%nat -> c = 0xD5 \/ c = 0xD6 ->
    exists o d, addressed (n_objects n') 0x0EF001 o /\ object_property_data o c = Some d /\
      wprop_ok (c, d) /\ nth 0 d 0 = N.of_nat (length (added ops)) /\ length d = (1 + 3 * length (added ops))%nat.
  Proof.
    intros np n0 ops u w u' n' w' c L E F Un R Len Hc.
    destruct (C32_instance_lists np n0 ops u w u' n' w' L E F Un R) as (_ & o & A & _ & D5 & D6); [lia|].
    exists o, (instance_list (added ops)). split; auto. split; [destruct Hc; subst; auto|]. rewrite instance_list_length. split; [|split; auto].
    split; [destruct Hc; subst; cbn; lia|]. cbn [fst snd]. rewrite instance_list_length. split; [|lia].
    apply instance_list_octets; [apply added_bound; auto|lia].
  Qed.
  (** With more than 84 devices the data is longer than a property can be, and
      with more than 255 the count octet is wrong. *)
  Lemma big_list np n0 ops (u : U) w u' n' w' : profile_like np -> node_new np = Ret n0 ->
    Forall op_ok ops -> Forall undisturbed ops -> node_run (u, n0, w) ops = Ret (u', n', w') ->
    exists o, addressed (n_objects n') 0x0EF001 o /\
      forall c, c = 0xD5 \/ c = 0xD6 -> object_property_data o c = Some (N.of_nat (length (added ops)) mod 256 :: flat_map wire_eoj (added ops)).
  Proof.
    intros L E F Un R. destruct (history_lists np n0 ops u w u' n' w' L E F Un R) as (M & o & A & D).
    exists o. split; auto. destruct (last_profile (0x0EF001 :: added ops)) as (L3 & _ & L5 & L6 & _).
    assert (K : as_u8 (N.of_nat (length (0x0EF001 :: added ops)) - 1) = N.of_nat (length (added ops)) mod 256).
    { cbn [length]. unfold as_u8. f_equal. lia. }
    rewrite K in *. assert (X : flat_map instance_entry (0x0EF001 :: added ops) = flat_map wire_eoj (added ops)).
    { rewrite instance_entries by (constructor; [lia|apply added_bound; auto]). cbn [filter N.eqb Pos.eqb negb]. rewrite added_devices by auto. auto. }
    rewrite X in *.
    assert (Y : forall c d, list_code c -> last_data c (profile_data (0x0EF001 :: added ops)) = Some d -> object_property_data o c = Some d).
    { intros c d Lc Ed. destruct (D c Lc) as (p & Ep & _ & _ & Ed'). unfold object_property_data. rewrite Ep. congruence. }
    intros c [->| ->]; apply Y; auto; unfold list_code; cbn; tauto.
  Qed.
  Theorem C33_too_long_refuted : forall np n0 ops (u : U) w u' n' w' c, profile_like np -> node_new np = Ret n0 ->
    Forall op_ok ops -> Forall undisturbed ops -> node_run (u, n0, w) ops = Ret (u', n', w') ->
    (85 <= length (added ops))%nat -> c = 0xD5 \/ c = 0xD6 ->
    exists o d, addressed (n_objects n') 0x0EF001 o /\ object_property_data o c = Some d /\ (255 < length d)%nat /\
      ((256 <= length (added ops))%nat -> nth 0 d 0 <> N.of_nat (length (added ops))).
  Proof.
    intros np n0 ops u w u' n' w' c L E F Un R Len Hc. destruct (big_list np n0 ops u w u' n' w' L E F Un R) as (o & A & D).
    eexists. eexists. split; [exact A|]. split; [apply D; auto|]. split.
    - cbn [length]. pose proof (instance_list_length (added ops)) as X. unfold instance_list in X. cbn [length] in X. lia.
    - intro H. cbn [nth]. lia.
  Qed.

  (** ** C34 *)
  (** The class lists hold the class of every object, in the order of addition,
      the node profile included and repetitions not removed. *)
  Theorem C34_every_class_partial : forall np n0 ops (u : U) w u' n' w', profile_like np -> node_new np = Ret n0 ->
    Forall op_ok ops -> Forall undisturbed ops -> node_run (u, n0, w) ops = Ret (u', n', w') -> (length (added ops) <= 254)%nat ->
    exists o, addressed (n_objects n') 0x0EF001 o /\
      object_property_data o 0xD4 = Some [0; N.of_nat (1 + length (added ops))] /\
      object_property_data o 0xD7 = Some (N.of_nat (1 + length (added ops)) :: flat_map wire_class (0x0EF001 :: added ops)).
  Proof.
    intros np n0 ops u w u' n' w' L E F Un R Len. destruct (history_lists np n0 ops u w u' n' w' L E F Un R) as (M & o & A & D).
    exists o. split; auto. destruct (last_profile (0x0EF001 :: added ops)) as (_ & L4 & _ & _ & L7).
    assert (Kc : len_u8 (0x0EF001 :: added ops) = N.of_nat (1 + length (added ops))).
    { unfold len_u8, as_u8. cbn [length]. lia. }
    rewrite Kc in *. rewrite class_entries in L7 by (constructor; [lia|apply added_bound; auto]).
    assert (Y : forall c d, list_code c -> last_data c (profile_data (0x0EF001 :: added ops)) = Some d -> object_property_data o c = Some d).
    { intros c d Lc Ed. destruct (D c Lc) as (p & Ep & _ & _ & Ed'). unfold object_property_data. rewrite Ep. congruence. }
    split; apply Y; auto; unfold list_code; cbn; tauto.
  Qed.

  (** ** C35 *)
  Lemma notify_all m l : forall w w', mcast_notify w l m = (true, w') -> exists tr, since w w' tr /\ offered tr = sent tr.
  Proof.
    induction l as [|s r IH]; intros w w'; cbn [mcast_notify].
    - intro H. inversion H; subst. exists []. split; [apply since_refl|reflexivity].
    - unfold mcast_server_notify, socket_send_to. destruct (sk_sock (sv_socket s)) as [a|]; [|cbn; discriminate].
      destruct (os_send (w_calls w)) eqn:E; cbn [negb]; [|discriminate]. intro H. apply IH in H as (t & S & X).
      eexists. split; [eapply since_trans; [apply since_log|exact S]|]. cbn. rewrite X. auto.
  Qed.
  Lemma announce_frame (o : object) (p : prop) t : object_code o = 0x0EF001 -> p_code p = 0xD5 -> octets (p_data p) -> (length (p_data p) <= 255)%nat -> t < 65536 ->
    msg_bytes (msg_set_tid (announce_message o p) t) = wire (Frame t 0x0EF001 0x0EF001 0x73 (Single [(0xD5, p_data p)])).
  Proof.
    intros C E Hd Ln Ht. unfold announce_message, pprop_of_prop. rewrite C, E.
    rewrite msg_bytes_wire.
    - unfold frame_of. rewrite set_tid_tid by auto. reflexivity.
    - apply built_wf. repeat (first [apply B_tid; [|auto]|apply B_add|apply B_seoj|apply B_deoj|apply B_esv|apply B_new]); try (unfold NODE_PROFILE_OBJECT_CODE; lia).
      split; cbn; auto. unfold octet. lia.
    - unfold in_limits, list_in_limit. cbn. split; [split; [lia|constructor; [unfold prop_in_limit; cbn; lia|constructor]]|].
      split; (split; [lia|constructor]).
    - discriminate.
  Qed.
  Theorem C35_startup : forall np n0 ops (u : U) w u' n w1 n' w', profile_like np -> node_new np = Ret n0 ->
    Forall op_ok ops -> Forall undisturbed ops -> node_run (u, n0, w) ops = Ret (u', n, w1) -> (length (added ops) <= 84)%nat ->
    node_start w1 n = Ret (true, n', w') ->
    exists tr t, since w1 w' tr /\ t < 65536 /\ offered tr = sent tr /\
      sent tr = repeat (group, wire (Frame t 0x0EF001 0x0EF001 0x73 (Single [(0xD5, instance_list (added ops))])))
                       (length (mg_mcast (n_mgr n'))).
  Proof.
    intros np n0 ops u w u' n w1 n' w' L E F Un R Len St.
    assert (Tn : n_last_tid n < 65536).
    { apply (reachable_tid u' n w1). destruct L as (B & _). exists np, n0, u, w, ops. auto. }
    destruct (inv_new np n0 L E) as (I0 & M0 & G0).
    destruct (inv_run _ ops u n0 w u' n w1 F Un G0 I0 R) as [I M]. rewrite M0 in M. cbn [app] in M.
    apply node_start_spec in St as (ok1 & m1 & w2 & (Qc & t1 & S1 & D1 & O1) & _ & [(_ & X & _)|(_ & m2 & _ & A)]); [discriminate|].
    set (n2 := n_with_mgr _ m2) in A.
    match type of I with profile_inv ?r _ => set (rd := r) in * end. assert (I2 : profile_inv rd n2).
    { eapply inv_same; [| |apply (inv_set_byte rd (set_object_properties_byte n 0x80 0x30) 0x88 0x42 not_88 (inv_set_byte rd n 0x80 0x30 not_80 I))]; reflexivity. }
    assert (M2 : map object_code (n_objects n2) = 0x0EF001 :: added ops).
    { rewrite <- M. unfold n2. cbn [n_objects n_with_mgr set_object_properties_byte n_with_objects]. rewrite !map_map. apply map_ext. intro o. apply object_code_codes.
      transitivity (o_codes (fst (object_set_property_data o 0x80 [0x30]))); symmetry; apply set_data_shape. }
    assert (T2 : n_last_tid n2 = n_last_tid n) by reflexivity.
    clearbody n2. destruct I2 as (_ & o & rest & Eo & C & _ & Li). destruct (Li 0xD5) as (p & Ep & Ec & _ & _ & Ld); [unfold list_code; cbn; tauto|].
    assert (Ed : p_data p = instance_list (added ops)).
    { rewrite M2 in Ld. destruct (last_profile (0x0EF001 :: added ops)) as (_ & _ & L5 & _). rewrite Ld in L5.
      rewrite instance_entries in L5 by (constructor; [lia|apply added_bound; auto]). cbn [filter N.eqb Pos.eqb negb] in L5. rewrite added_devices in L5 by auto.
      assert (K : as_u8 (N.of_nat (length (0x0EF001 :: added ops)) - 1) = N.of_nat (length (added ops))) by (cbn [length]; unfold as_u8; lia).
      rewrite K in L5. unfold instance_list. congruence. }
    unfold node_announce in A. unfold NODE_PROFILE_OBJECT_CODE, NP_INSTANCE_LIST_NOTIFICATION in A.
    rewrite Eo, find_np, Ep in A by auto. destruct (node_notify w2 n2 (announce_message o p)) as [[[ok m'] n3] w3] eqn:En. inversion A; subst ok n3 w3.
    pose proof En as En0. apply node_notify_spec in En as (Ut & t2 & k & S2 & _ & _ & _ & Se & _ & K & _). specialize (K eq_refl).
    unfold node_notify in En0. rewrite Ut in En0. destruct (manager_notify w2 (n_mgr n') m') as [b w4] eqn:Em. inversion En0; subst b w4.
    apply notify_all in Em as (t3 & S3 & Oe). rewrite (since_unique _ _ _ _ S3 S2) in Oe.
    pose proof (update_tid_keeps _ _ _ _ Ut) as (_ & _ & Mg & _).
    apply update_tid_spec in Ut as [(Z & _)|(_ & _ & ->)]; [exfalso; apply Z; reflexivity|].
    exists (t1 ++ t2), (next (n_last_tid n2)). split; [eapply since_trans; eauto|].
    assert (Tl : next (n_last_tid n2) < 65536) by (rewrite T2, next_mod by auto; lia). split; auto.
    assert (S0 : sent t1 = []).
    { clear - O1. induction t1 as [|e r IH]; auto. destruct e; cbn in *; auto. discriminate. }
    rewrite offered_app, sent_app, O1, S0. cbn [app]. split; auto. rewrite Se, K, Mg. f_equal. f_equal.
    rewrite announce_frame; auto; rewrite Ed; auto.
    - apply instance_list_octets; [apply added_bound; auto|lia].
    - rewrite instance_list_length. lia.
  Qed.
End S.
Print Assumptions C32_instance_lists.
Print Assumptions C33_encodable_partial.
Print Assumptions C33_too_long_refuted.
Print Assumptions C34_every_class_partial.
Print Assumptions C35_startup.

(** ** Cases *)
Lemma list_code_of c : In c [0xD3; 0xD4; 0xD5; 0xD6; 0xD7] -> list_code c. Proof. auto. Qed.
Lemma ex_np_like : profile_like (P := true) (HO := ex_order) ex_np.
Proof.
  split; [apply ex_np_built|]. split; [vm_compute; reflexivity|]. intros c L. unfold list_code in L. 
  assert (X : exists p, object_find_property ex_np c = Some p /\ p_write p = Prohibited).
  { cbn in L. intuition (subst; eexists; split; vm_compute; reflexivity). }
  destruct X as (p & Ep & W). split; [unfold object_has_property; rewrite Ep; auto|]. intros (q & Eq & A). rewrite Ep in Eq. inversion Eq; subst. auto.
Qed.
(** The node profile of the standard database is one. *)
Theorem standard_profile_like : forall (P : Profile) (HO : HashOrder) seed db u1 u2 s, standard_database seed = Ret db -> uuid_ok u1 -> uuid_ok u2 ->
  exists o, device_object db u1 u2 s 0x0EF001 = Ret o /\ profile_like o.
Proof.
  intros P HO seed db u1 u2 s E U1 U2. destruct (profile_object seed db u1 u2 s E U1 U2) as (o & D & B & C & F). exists o. split; auto. split; auto. split; auto.
  intros c L. destruct (F c L) as (A1 & _ & A2). auto.
Qed.
Definition lamps (k : nat) : list (node_op unit) := repeat (OpAddObject (object_from_code 0 0x029101)) k.
Lemma lamps_ok k : Forall (op_ok (P := true) (HO := ex_order)) (lamps k) /\ Forall undisturbed (lamps k).
Proof.
  split; apply Forall_forall; intros op I; apply repeat_spec in I; subst; cbn.
  - constructor. constructor.
  - vm_compute. discriminate.
Qed.
Example C32_case : let ops := ex_ops [] ++ [OpAddObject (object_from_code 0 0x013001)] in
  Forall (op_ok (P := true) (HO := ex_order)) ops /\ Forall undisturbed ops /\ added ops = [0x029101; 0x013001] /\
  data_in (ex_n ops) 0x0EF001 0xD6 = Some [2; 0x02; 0x91; 0x01; 0x01; 0x30; 0x01] /\ data_in (ex_n ops) 0x0EF001 0xD3 = Some [0; 0; 2].
Proof.
  cbv zeta. split; [apply Forall_app; split; [apply ex_ops_ok; constructor|repeat constructor]|].
  split; [apply Forall_app; split; repeat constructor; vm_compute; discriminate|]. split; [vm_compute; reflexivity|]. split; vm_compute; reflexivity.
Qed.
(** 85 devices: what a receiver decodes from the announcement is an empty list. *)
Example C33_case : let ops := lamps 85 ++ [OpStart] in
  Forall (op_ok (P := true) (HO := ex_order)) ops /\ Forall undisturbed ops /\ length (added ops) = 85%nat /\
  exists data m, sent (w_trace (ex_w ops)) = [(group, data)] /\ msg_parse msg_new data = Ret (true, m) /\ m_props m = [PProp 0xD5 []].
Proof.
  cbv zeta. destruct (lamps_ok 85) as [A B]. split; [apply Forall_app; split; auto; repeat constructor|].
  split; [apply Forall_app; split; auto; repeat constructor|]. split; [vm_compute; reflexivity|].
  eexists. eexists. split; [vm_compute; reflexivity|]. split; vm_compute; reflexivity.
Qed.
(** C34: two lamps: the class is listed twice, and the node profile is listed. *)
Theorem C34_repeated_refuted : Forall (op_ok (P := true) (HO := ex_order)) (lamps 2) /\ Forall undisturbed (lamps 2) /\ panics (ex_run (lamps 2)) = false /\
  data_in (ex_n (lamps 2)) 0x0EF001 0xD7 = Some [3; 0x0E; 0xF0; 0x02; 0x91; 0x02; 0x91] /\
  data_in (ex_n (lamps 2)) 0x0EF001 0xD4 = Some [0; 3].
Proof. destruct (lamps_ok 2) as [A B]. split; [exact A|]. split; [exact B|]. split; [vm_compute; reflexivity|]. split; vm_compute; reflexivity. Qed.
Print Assumptions C34_repeated_refuted.
(** C34: a lamp and an air conditioner: two classes and, unlike the standard's
    list, the node profile's. *)
Example C34_case : let ops := ex_ops [] ++ [OpAddObject (object_from_code 0 0x013001)] in
  data_in (ex_n ops) 0x0EF001 0xD7 = Some [3; 0x0E; 0xF0; 0x02; 0x91; 0x01; 0x30] /\ data_in (ex_n ops) 0x0EF001 0xD4 = Some [0; 3].
Proof. cbv zeta. split; vm_compute; reflexivity. Qed.
Example C35_case : exists w' n', node_start (O := ex_os) (ex_w (lamps 2)) (ex_n (lamps 2)) = Ret (true, n', w') /\ length (mg_mcast (n_mgr n')) = 1%nat /\
  sent (w_trace w') = [(group, [0x10; 0x81; 0; 1; 0x0E; 0xF0; 1; 0x0E; 0xF0; 1; 0x73; 1; 0xD5; 7; 2; 2; 0x91; 1; 2; 0x91; 1])].
Proof. eexists. eexists. split; [vm_compute; reflexivity|]. split; vm_compute; reflexivity. Qed.
