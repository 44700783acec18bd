(** Identification numbers (property 0x83): C131. *)
From Verif Require Import Base HMap ModelCodec ModelMessages DbTable ModelObject ModelTransport ModelNode ModelDevice ModelVariants
  SpecWire SpecObject SpecNode ProofsCodec ProofsCodec2 PropertiesCodec ProofsObject ProofsObject2 ProofsObject3
  PropertiesObject PropertiesDb ProofsDevice ProofsNode ProofsNode2 ProofsNode3 ProofsNode4 ExamplesNode PropertiesNode PropertiesTrans PropertiesDevice PropertiesDevice3.

(** ** Vocabulary *)
(** What an object shows as its identification number. *)
Definition shows_id (o : object) (id : list N) : Prop := object_property_data o 0x83 = Some id.
(** The 13 octets of a UUID that go into an identification number differ. *)
Definition apart (u v : list N) : Prop := skipn 3 u <> skipn 3 v.
(** The operation does not write property [c] of object [oc] and adds no handler
    that changes objects on its own. *)
Definition spares {U} (oc c : N) (op : node_op U) : Prop :=
  match op with
  | OpSetData oc' c' _ => ~ (oc' = oc /\ c' = c)
  | OpRecv m => msg_deoj m = oc -> ~ In c (map pp_code (writes_of m))
  | OpAddHandler h => hands_off h
  | _ => True
  end.
(** The properties which the library writes on its own: the operating and fault
    status, the instance and class lists of the node profile, the property maps. *)
Definition kept_by_library (c : N) : Prop := In c [0x80; 0x88; 0x9D; 0x9E; 0x9F; 0xD3; 0xD4; 0xD5; 0xD6; 0xD7].

(* ------------------------------------------------------------------ *)
(** ** New objects *)
Theorem C131_distinct : forall (P : Profile) (HO : HashOrder) seed db u1 u2 s code o v1 v2 s' code' o' i i',
  standard_database seed = Ret db -> uuid_ok u1 -> uuid_ok u2 -> uuid_ok v1 -> uuid_ok v2 ->
  device_object db u1 u2 s code = Ret o -> device_object db v1 v2 s' code' = Ret o' ->
  apart u1 v1 -> apart u1 v2 -> apart u2 v1 -> apart u2 v2 ->
  shows_id o i -> shows_id o' i' -> i <> i' /\ length i = 17%nat /\ firstn 4 i = [0xFE; 0xFF; 0xFF; 0xFF].
Proof.
  intros P HO seed db u1 u2 s code o v1 v2 s' code' o' i i' E U1 U2 V1 V2 D D' A1 A2 A3 A4 I I'.
  destruct (C30_defaults P HO seed db u1 u2 s code o E U1 U2 D) as (_ & _ & _ & _ & _ & u & Hu & X).
  destruct (C30_defaults P HO seed db v1 v2 s' code' o' E V1 V2 D') as (_ & _ & _ & _ & _ & v & Hv & X').
  unfold shows_id in *. rewrite I in X. rewrite I' in X'. assert (Ei : i = [0xFE; 0xFF; 0xFF; 0xFF] ++ rev (skipn 3 u)) by congruence. assert (Ei' : i' = [0xFE; 0xFF; 0xFF; 0xFF] ++ rev (skipn 3 v)) by congruence.
  clear X X' I I'. subst i i'.
  assert (A : apart u v) by (destruct Hu as [->| ->], Hv as [->| ->]; auto).
  assert (L : length u = 16%nat) by (destruct Hu as [->| ->]; [apply U1|apply U2]).
  split; [|split; [|reflexivity]].
  - intro H. apply A. apply app_inv_head in H. rewrite <- (rev_involutive (skipn 3 u)), H, rev_involutive. reflexivity.
  - rewrite app_length, rev_length, skipn_length, L. reflexivity.
Qed.

(** Every object can be asked for its number, and the rules of every object let
    anybody write it: the super class, of which the first entry counts, makes it
    writable. *)
Lemma super_id : forall code, exists f, first_row (dev_rows db_table code) 0x83 = Some f /\ r_get f = "optional"%string /\ r_set f = "optional"%string.
Proof.
  intro code. unfold dev_rows.
  assert (X : first_row (class_rows db_table 0) 0x83 = Some (DbRow 0x83 "Identification number" "raw" 0 "optional" "optional" "optional" [])) by (vm_compute; reflexivity).
  exists (DbRow 0x83 "Identification number" "raw" 0 "optional" "optional" "optional" []). split; [|auto].
  revert X. generalize (class_rows db_table 0). intros l X. unfold first_row in *. induction l as [|r l IH]; [discriminate|]. cbn in *.
  destruct (r_code r =? 0x83); auto.
Qed.
Theorem C131_writable_refuted : forall (P : Profile) (HO : HashOrder) seed db u1 u2 s code o,
  standard_database seed = Ret db -> uuid_ok u1 -> uuid_ok u2 -> device_object db u1 u2 s code = Ret o ->
  can_read o 0x83 /\ can_write o 0x83.
Proof.
  intros P HO seed db u1 u2 s code o E U1 U2 D. destruct (super_id code) as (f & F & G & S).
  destruct (device_access seed db u1 u2 s code o 0x83 E U1 U2 D f F) as (A & B & _). rewrite G in A. rewrite S in B.
  split; [apply A|apply B]; reflexivity.
Qed.

(* ------------------------------------------------------------------ *)
(** ** Builds without the feature "std" *)
(** The octets of which OID::new makes the same number. *)
Definition fixed_uuid : list N := [0; 0; 0; 1; 0; 0; 0; 0; 0; 0; 0; 0; 0; 0; 0; 0].
Lemma fixed_ok : uuid_ok fixed_uuid.
Proof. split; [reflexivity|repeat constructor]. Qed.
Lemma oid_no_std {P : Profile} code : oid_new_no_std code = oid_new code fixed_uuid.
Proof. unfold oid_new_no_std, oid_new. destruct (bytes_from_u32 code 3); reflexivity. Qed.
Lemma default_no_std {P : Profile} o c : set_standard_default_no_std o c = set_standard_default fixed_uuid o c.
Proof. unfold set_standard_default_no_std, set_standard_default. rewrite oid_no_std. reflexivity. Qed.
Lemma loop_no_std {P : Profile} {HO : HashOrder} ps : forall o, add_standard_loop_no_std o ps = add_standard_loop fixed_uuid o ps.
Proof.
  induction ps as [|[k p] r IH]; intro o; cbn [add_standard_loop_no_std add_standard_loop]; auto.
  destruct (object_add_property o (prop_clone p)) as [o1|]; cbn [obind]; auto. rewrite default_no_std.
  destruct (set_standard_default fixed_uuid o1 k) as [o2|]; cbn [obind]; auto.
Qed.
(** Such a build makes the objects which another build makes if Uuid::new_v4 returns
    these octets: what the other theorems say about all UUIDs holds for it too. *)
Theorem C131_no_std_same : forall (P : Profile) (HO : HashOrder) db s code, device_object_no_std db s code = device_object db fixed_uuid fixed_uuid s code.
Proof.
  intros P HO db s code. unfold device_object_no_std, device_object, with_standard_properties, object_add_standard_properties_no_std, object_add_standard_properties.
  destruct (db_find_object db (N.land SUPER_OBJECT_CODE 0xFFFF00)) as [std|]; cbn [obind].
  - rewrite loop_no_std. destruct (add_standard_loop fixed_uuid _ (o_props std)) as [x|]; cbn [obind fst]; auto.
    destruct (db_find_object db (N.land code 0xFFFF00)) as [c|]; auto. rewrite loop_no_std. reflexivity.
  - cbn [fst]. destruct (db_find_object db (N.land code 0xFFFF00)) as [c|]; auto. rewrite loop_no_std. reflexivity.
Qed.
(** add_standard_properties itself, with its result. *)
Theorem C131_no_std_add : forall (P : Profile) (HO : HashOrder) db o code,
  object_add_standard_properties_no_std db o code = object_add_standard_properties db fixed_uuid o code.
Proof.
  intros P HO db o code. unfold object_add_standard_properties_no_std, object_add_standard_properties.
  destruct (db_find_object db (N.land code 0xFFFF00)) as [std|]; auto. rewrite loop_no_std. reflexivity.
Qed.
(** All objects of all nodes have one number. *)
Theorem C131_no_std_refuted : forall (P : Profile) (HO : HashOrder) seed db s code o,
  standard_database seed = Ret db -> device_object_no_std db s code = Ret o ->
  shows_id o [0xFE; 0xFF; 0xFF; 0xFF; 0; 0; 0; 0; 0; 0; 0; 0; 0; 0; 0; 0; 1].
Proof.
  intros P HO seed db s code o E D. rewrite C131_no_std_same in D.
  destruct (C30_defaults P HO seed db fixed_uuid fixed_uuid s code o E fixed_ok fixed_ok D) as (_ & _ & _ & _ & _ & u & [->| ->] & X); exact X.
Qed.

(* ------------------------------------------------------------------ *)
(** ** Later *)
Lemma find_split pre (o : object) post oc : object_code o = oc -> Forall (fun x => object_code x <> oc) pre -> find_object (pre ++ o :: post) oc = Some o.
Proof.
  intros E F. induction F as [|x pre Nx F IH]; cbn.
  - rewrite E, N.eqb_refl. reflexivity.
  - destruct (N.eqb_spec (object_code x) oc); [contradiction|]. exact IH.
Qed.
Section S.
  Context {P : Profile} {HO : HashOrder} {O : OS} {U : Type}.

  Lemma profile_data_codes codes q : In q (profile_data codes) -> In (pp_code q) [0xD3; 0xD4; 0xD5; 0xD6; 0xD7].
  Proof. unfold profile_data. cbn. intros H. repeat (destruct H as [<-|H]; [cbn; auto 10|]). destruct H. Qed.
  Lemma last_data_none c l : ~ In c (map pp_code l) -> last_data c l = None.
  Proof. destruct (last_data c l) as [d|] eqn:E; auto. intro N. apply last_data_in in E. apply (in_map pp_code) in E. contradiction. Qed.
  Lemma add_object_property (n n' : node U) o oc c : ~ kept_by_library c -> owned n oc -> node_add_object n o = Ret n' ->
    owned n' oc /\ device_node_property n' oc c = device_node_property n oc c.
  Proof.
    intros K Ow E. destruct (N.eq_dec oc 0x0EF001) as [->|Ne].
    - rewrite owned_find in *. destruct Ow as (x & F). destruct (add_object_eq n o) as (os & E' & C). rewrite E in E'. inversion E'; subst n'.
      cbn [n_objects n_with_objects]. pose proof (find_object_app _ o _ _ F) as F'.
      destruct C as [[N _]|(pre & np & post & E1 & E2 & E3 & ->)].
      { apply find_object_none in N. unfold NODE_PROFILE_OBJECT_CODE in N. rewrite F' in N. discriminate. }
      assert (np = x) as ->. { rewrite E1 in F'. rewrite find_split in F'; auto. congruence. }
      assert (G : find_object (pre ++ sets x (profile_data (map object_code (n_objects n ++ [o]))) :: post) 0x0EF001 = Some (sets x (profile_data (map object_code (n_objects n ++ [o]))))).
      { apply find_split; auto. rewrite sets_code. exact E2. }
      split; [eauto|]. unfold device_node_property. cbn [n_objects n_with_objects]. rewrite G, F, sets_find, last_data_none.
      + destruct (object_find_property x c); reflexivity.
      + intro I. apply in_map_iff in I as (q & <- & I). apply profile_data_codes in I. apply K. unfold kept_by_library. cbn in *. intuition.
    - pose proof (add_object_find n n' o oc Ne Ow E) as F. rewrite !owned_find in *. unfold device_node_property. rewrite F. auto.
  Qed.

  Lemma observe_property w (u : U) n m u' n' w' oc c : node_good n -> Forall hands_off (n_handlers n) -> received m ->
    (msg_deoj m = oc -> ~ In c (map pp_code (writes_of m))) -> is_map_code c = false -> owned n oc -> node_observe w u n m = Ret (u', n', w') ->
    owned n' oc /\ device_node_property n' oc c = device_node_property n oc c /\ n_handlers n' = n_handlers n.
  Proof.
    intros [G _] Hh R Sp Nm Ow E.
    destruct (observe_parts w u n m u' n' w' R E) as (t1 & t2 & n1 & n2 & res & _ & _ & D & (s & H) & X & _).
    pose proof (delivered_keeps _ _ _ _ D) as (D1 & D2 & _). pose proof (reaction_keeps _ _ _ _ _ X) as (X1 & X2 & _).
    rewrite !owned_find in *. unfold device_node_property. rewrite X1, X2. clear X D E X1 X2. rewrite <- D1, <- D2 in *. clear D1 D2 n.
    inversion H as [|? ? ? ?|? ? ? ? ? ? ? ? ?|pre o post copy u1 copy' Q Eo Ec Fp V C1 D1 Eu En Er]; subst; auto.
    cbn [n_objects n_with_objects n_handlers]. apply request_received_hands_off in D1; auto. subst copy'.
    assert (Go : obj_good o) by (rewrite Eo in G; apply Forall_app in G as [_ G]; inversion G; auto).
    assert (Co : object_code (answered o m copy) = object_code o) by (destruct (answered_sets o m copy) as (l & -> & _); apply sets_code).
    rewrite Eo in *. destruct (N.eq_dec (object_code o) oc) as [Eoc|Noc].
    - assert (F1 : find_object (pre ++ o :: post) oc = Some o) by (apply find_split; auto; rewrite <- Eoc, Ec; exact Fp).
      assert (F2 : find_object (pre ++ answered o m copy :: post) oc = Some (answered o m copy)) by (apply find_split; [congruence|rewrite <- Eoc, Ec; exact Fp]).
      rewrite F1, F2. split; [eauto|]. split; auto. rewrite (answered_hands_off o m s copy c Go C1 Nm), last_data_none by (apply Sp; congruence).
      destruct (object_find_property o c); reflexivity.
    - rewrite (find_object_replace pre o _ post oc Co Noc). auto.
  Qed.

  Lemma spare_step (u : U) n w op u' n' w' oc c : ~ kept_by_library c -> node_good n -> Forall hands_off (n_handlers n) -> op_ok op -> spares oc c op -> owned n oc ->
    node_step (u, n, w) op = Ret (u', n', w') ->
    owned n' oc /\ device_node_property n' oc c = device_node_property n oc c /\ Forall hands_off (n_handlers n').
  Proof.
    intros K G Hh Ko Sp Ow E.
    assert (Same : n_objects n' = n_objects n -> n_handlers n' = n_handlers n -> owned n' oc /\ device_node_property n' oc c = device_node_property n oc c /\ Forall hands_off (n_handlers n')).
    { intros X Y. unfold owned, device_node_property. rewrite X, Y. auto. }
    assert (N80 : (c =? 0x80) = false) by (apply N.eqb_neq; intros ->; apply K; cbn; auto).
    assert (N88 : (c =? 0x88) = false) by (apply N.eqb_neq; intros ->; apply K; cbn; auto 10).
    destruct op; cbn [node_step] in E; cbn [spares op_ok] in Sp, Ko.
    - destruct (node_add_object n o) as [n1|] eqn:E1; cbn [obind] in E; [|discriminate]. inversion E; subst.
      destruct (add_object_property n n' o oc c K Ow E1) as [A B]. split; auto. split; auto.
      destruct (add_object_eq n o) as (os & E' & _). rewrite E1 in E'. inversion E'; subst. exact Hh.
    - inversion E; subst. unfold owned, device_node_property in *. cbn. split; auto. split; auto. apply Forall_app. auto.
    - inversion E; subst. apply Same; reflexivity.
    - inversion E; subst. unfold set_data. destruct (find_object (n_objects n) obj) as [o|] eqn:F; [|auto].
      rewrite !owned_find in *. unfold device_node_property. cbn [n_objects n_with_objects n_handlers].
      assert (Y : forall oc', find_object (put_object (n_objects n) obj (fst (object_set_property_data o prop d))) oc' =
        if oc' =? obj then Some (fst (object_set_property_data o prop d)) else find_object (n_objects n) oc').
      { intro oc'. eapply find_put; [exact F|]. rewrite set_code_same. apply find_object_some in F as (? & ? & _ & H & _). exact H. }
      rewrite Y. destruct (N.eqb_spec oc obj) as [->|Ne]; [|auto]. split; [eauto|]. split; auto. rewrite F, set_data_find.
      destruct (N.eqb_spec c prop) as [->|]; [exfalso; apply Sp; auto|reflexivity].
    - destruct (node_send w n to m) as [[[b m1] n1] w1] eqn:E1. inversion E; subst.
      apply node_send_spec in E1 as (A & _). apply update_tid_keeps in A as (A & B & _). apply Same; auto.
    - destruct (node_post w n to m) as [[[b m1] n1] w1] eqn:E1. inversion E; subst.
      apply node_post_spec in E1 as (_ & _ & n2 & ok & tr & A & -> & _). apply update_tid_keeps in A as (A & B & _). apply Same; auto.
    - destruct (node_notify w n m) as [[[b m1] n1] w1] eqn:E1. inversion E; subst.
      apply node_notify_spec in E1 as (A & _). apply update_tid_keeps in A as (A & B & _). apply Same; auto.
    - destruct (node_announce w n) as [[b n1] w1] eqn:E1. inversion E; subst.
      apply announce_keeps in E1 as (A & B & _). apply Same; auto.
    - unfold node_announce_property in E. destruct (node_notify w n _) as [[[b m1] n1] w1] eqn:E1. inversion E; subst.
      apply node_notify_spec in E1 as (A & _). apply update_tid_keeps in A as (A & B & _). apply Same; auto.
    - destruct (node_start w n) as [[[b n1] w1]|] eqn:E1; cbn [obind] in E; [|discriminate]. inversion E; subst.
      pose proof (start_property w n b n' w' oc c E1) as Y.
      apply node_start_spec in E1 as (ok1 & m1 & w2 & _ & _ & [(_ & _ & -> & _)|(_ & m2 & _ & A)]); [apply Same; reflexivity|].
      apply announce_keeps in A as (A & B & _). split; [|split].
      + unfold owned in *. rewrite A. cbn [n_objects n_with_mgr set_object_properties_byte n_with_objects].
        unfold not_owned in *. intro F. apply Ow. rewrite !Forall_map in F. eapply Forall_impl; [|exact F].
        intros o X. cbn beta in X. rewrite !set_code_same in X. exact X.
      + destruct Y as [Y|Y]; auto. rewrite Y, N80, N88. destruct (device_node_property n oc c); reflexivity.
      + rewrite B. exact Hh.
    - destruct (node_stop n) as [[b n1]|] eqn:E1; cbn [obind] in E; [|discriminate]. inversion E; subst. cbn [snd].
      pose proof (stop_property n b _ oc c E1) as Y. rewrite N80 in Y.
      unfold node_stop in E1. destruct (manager_stop _) as [x|]; cbn [obind] in E1; [|discriminate]. inversion E1; subst.
      split; [|split; [rewrite Y; destruct (device_node_property n oc c); reflexivity|exact Hh]].
      unfold owned, not_owned in *. cbn [n_objects n_with_mgr set_object_properties_byte n_with_objects].
      intro F. apply Ow. rewrite Forall_map in F. eapply Forall_impl; [|exact F]. intros o X. cbn beta in X. rewrite set_code_same in X. exact X.
    - destruct (node_observe w u n m) as [[[u1 n1] w1]|] eqn:E1; cbn [obind] in E; [|discriminate]. inversion E; subst.
      destruct (observe_property w u n m u' n' w' oc c G Hh Ko Sp) as (A & B & C); auto.
      { destruct (is_map_code c) eqn:Y; auto. exfalso. apply K. unfold is_map_code in Y. unfold kept_by_library. cbn. lia. }
      rewrite C. auto.
  Qed.

  (** Data that the library does not write on its own, such as the identification
      number of a device or of the node itself, are there for as long as the
      application and the requests do not write them: starts, stops, added devices
      and any other message change nothing. *)
  Theorem C131_kept : forall ops (u : U) n w u' n' w' oc c x, reachable u n w -> Forall hands_off (n_handlers n) ->
    Forall op_ok ops -> Forall (spares oc c) ops -> ~ kept_by_library c -> device_property (Device oc) n c = Some x ->
    node_run (u, n, w) ops = Ret (u', n', w') -> device_property (Device oc) n' c = Some x.
  Proof.
    intros ops u n w u' n' w' oc c x R Hh Ko Sp K D E. apply reachable_good in R. unfold device_property in *. cbn [dv_code] in *.
    assert (Ow : owned n oc). { apply owned_find. unfold device_node_property in D. destruct (find_object (n_objects n) oc); [eauto|discriminate]. }
    revert u n w R Hh Ow D E. induction ops as [|op ops IH]; intros u n w R Hh Ow D E; cbn [node_run] in E.
    { inversion E; subst. exact D. }
    destruct (node_step (u, n, w) op) as [[[u1 n1] w1]|] eqn:E1; cbn [obind] in E; [|discriminate].
    destruct (spare_step u n w op u1 n1 w1 oc c K R Hh (Forall_inv Ko) (Forall_inv Sp) Ow E1) as (A & B & C).
    apply (IH (Forall_inv_tail Ko) (Forall_inv_tail Sp) u1 n1 w1); auto; [|congruence].
    eapply step_good; eauto. exact (Forall_inv Ko).
  Qed.
End S.

(* ------------------------------------------------------------------ *)
(** ** A number taken over *)
Section Examples.
Local Existing Instance ex_order.
Local Existing Instance ex_os.
Local Instance prof : Profile := true.

(** A lamp of the standard on a node whose handler accepts what it is asked, and a
    second lamp. A request of anybody gives the first the number of the second. *)
Definition v_uuid : list N := map N.of_nat (seq 51 16).
Lemma v_uuid_ok : uuid_ok v_uuid.
Proof. split; [reflexivity|repeat constructor]. Qed.
Definition second_id : list N := [0xFE; 0xFF; 0xFF; 0xFF] ++ rev (skipn 3 v_uuid).
Definition id_ops : list (node_op unit) := [OpAddObject ml_lamp; OpAddHandler yes; OpStart].
Definition taking : message := ex_rcv (to_lamp 7 0x61 ([1; 0x83; 17] ++ second_id)).
Definition id_n : node unit := ex_n id_ops.
Definition id_w : world := ex_w id_ops.
Definition id_n' : node unit := ex_n (id_ops ++ [OpRecv taking]).
Definition id_w' : world := ex_w (id_ops ++ [OpRecv taking]).
Lemma id_ops_ok : Forall (op_ok (P := true) (HO := ex_order)) id_ops.
Proof. constructor; [exact ml_lamp_built|]. constructor; [exact yes_typed|]. constructor; [exact Logic.I|constructor]. Qed.
Lemma id_reachable : reachable tt id_n id_w.
Proof. apply ex_reachable; [exact id_ops_ok|vm_compute; reflexivity]. Qed.
Lemma second_lamp : exists o, device_object ex_db v_uuid v_uuid 2 MONOLIGHT_CODE = Ret o /\ shows_id o second_id.
Proof.
  destruct (device_spec (P := true) (HO := ex_order) (fun k => k) ex_db v_uuid v_uuid 2 MONOLIGHT_CODE ex_db_eq v_uuid_ok v_uuid_ok) as (o & D & _).
  exists o. split; [exact D|]. unfold shows_id.
  destruct (C30_defaults true ex_order (fun k => k) ex_db v_uuid v_uuid 2 MONOLIGHT_CODE o ex_db_eq v_uuid_ok v_uuid_ok D) as (_ & _ & _ & _ & _ & u & [->| ->] & X); exact X.
Qed.

Theorem C131_taken_refuted : exists (u : unit) n w m n' w' id id' o2, reachable u n w /\ Forall hands_off (n_handlers n) /\ received m /\
  device_property (Device MONOLIGHT_CODE) n 0x83 = Some id /\
  device_object ex_db v_uuid v_uuid 2 MONOLIGHT_CODE = Ret o2 /\ shows_id o2 id' /\ id <> id' /\
  node_step (u, n, w) (OpRecv m) = Ret (u, n', w') /\ device_property (Device MONOLIGHT_CODE) n' 0x83 = Some id'.
Proof.
  destruct second_lamp as (o2 & D2 & S2).
  exists tt, id_n, id_w, taking, id_n', id_w', ([0xFE; 0xFF; 0xFF; 0xFF] ++ rev (skipn 3 ex_u1)), second_id, o2.
  split; [exact id_reachable|]. split.
  { assert (X : n_handlers id_n = [HNode; yes]) by (vm_compute; reflexivity). rewrite X. constructor; [exact Logic.I|]. constructor; [exact yes_hands_off|constructor]. }
  split; [unfold taking; apply ex_received; [vm_compute; repeat constructor|vm_compute; reflexivity]|].
  split; [vm_compute; reflexivity|]. split; [exact D2|]. split; [exact S2|]. split; [vm_compute; discriminate|]. split; vm_compute; reflexivity.
Qed.

(** The number survives a stop, a start, a second device and a request that writes
    another property, with the same handler. *)
Definition id_more : list (node_op unit) := [OpStop; OpAddObject lamp; OpStart; OpRecv (ex_rcv (to_lamp 7 0x61 [1; 0x81; 1; 0x08])); OpSetData MONOLIGHT_CODE 0x82 [0; 0; 0x51; 0]].
Example C131_case :
  Forall (spares MONOLIGHT_CODE 0x83) id_more /\ ~ kept_by_library 0x83 /\
  (exists x, device_property (Device MONOLIGHT_CODE) id_n 0x83 = Some x /\ length x = 17%nat /\
    device_property (Device MONOLIGHT_CODE) (ex_n (id_ops ++ id_more)) 0x83 = Some x) /\
  device_property (Device MONOLIGHT_CODE) id_n 0x81 = Some [0] /\ device_property (Device MONOLIGHT_CODE) (ex_n (id_ops ++ id_more)) 0x81 = Some [8].
Proof.
  split.
  { constructor; [exact Logic.I|]. constructor; [exact Logic.I|]. constructor; [exact Logic.I|]. constructor; [|constructor; [|constructor]].
    - cbn [spares]. intros _ X. vm_compute in X. destruct X as [X|[]]. discriminate.
    - cbn [spares]. intros [_ X]. discriminate. }
  split. { intro X. unfold kept_by_library in X. cbn in X. repeat (destruct X as [X|X]; [discriminate|]). destruct X. }
  split; [|split; vm_compute; reflexivity].
  exists ([0xFE; 0xFF; 0xFF; 0xFF] ++ rev (skipn 3 ex_u1)). split; [vm_compute; reflexivity|]. split; vm_compute; reflexivity.
Qed.
(** Two lamps with different UUIDs. *)
Example C131_apart : apart ex_u1 v_uuid /\ apart ex_u2 v_uuid.
Proof. split; vm_compute; discriminate. Qed.
End Examples.

Print Assumptions C131_distinct.
Print Assumptions C131_writable_refuted.
Print Assumptions C131_no_std_same.
Print Assumptions C131_no_std_add.
Print Assumptions C131_no_std_refuted.
Print Assumptions C131_kept.
Print Assumptions C131_taken_refuted.
