(** Invariants of node histories. *)
From Verif Require Import Base HMap ModelCodec ModelMessages ModelObject ModelTransport ModelNode
  SpecWire SpecObject SpecNode ProofsCodec ProofsCodec2 PropertiesCodec ProofsObject ProofsObject2 ProofsObject3 ProofsNode ProofsNode2.

Section N.
  Context {U : Type} {P : Profile} {HO : HashOrder}.

  (* ---------------------------------------------------------------- *)
  (** ** The node profile *)
  Lemma set_int_if_present_eq o c v size : object_set_int_if_present o c v size =
    match object_find_property o c with
    | None => Ret o
    | Some _ => let! buf := bytes_from_u32 v size in Ret (fst (object_set_property_data o c buf))
    end.
  Proof.
    unfold object_set_int_if_present, object_set_property_data, prop_set_int_data.
    destruct (object_find_property o c); auto. destruct (bytes_from_u32 v size); reflexivity.
  Qed.
  Lemma u8_in_3 v : v < 256 -> bytes_from_u32 v 3 = Ret [0; 0; v].
  Proof.
    intro H. unfold bytes_from_u32. cbn [bytes_from_u32_loop]. rewrite !shr_byte by lia. cbn [obind N.of_nat].
    rewrite !land_ff. unfold as_u8. repeat f_equal; change (256 ^ 0) with 1; change (256 ^ 1) with 256; change (256 ^ 2) with 65536; lia.
  Qed.
  Lemma u8_in_2 v : v < 256 -> bytes_from_u32 v 2 = Ret [0; v].
  Proof.
    intro H. unfold bytes_from_u32. cbn [bytes_from_u32_loop]. rewrite !shr_byte by lia. cbn [obind N.of_nat].
    rewrite !land_ff. unfold as_u8. repeat f_equal; change (256 ^ 0) with 1; change (256 ^ 1) with 256; lia.
  Qed.
  Lemma set_data_absent o c d : object_find_property o c = None -> fst (object_set_property_data o c d) = o.
  Proof. unfold object_set_property_data. intros ->. reflexivity. Qed.
  Lemma set_int_as_data o c v size buf : bytes_from_u32 v size = Ret buf ->
    object_set_int_if_present o c v size = Ret (fst (object_set_property_data o c buf)).
  Proof.
    intro E. rewrite set_int_if_present_eq. destruct (object_find_property o c) eqn:F; [rewrite E; reflexivity|].
    rewrite set_data_absent by auto. reflexivity.
  Qed.
  Definition profile_data (codes : list N) : list pprop :=
    let cnt := len_u8 codes in let k := as_u8 (N.of_nat (length codes) - 1) in
    [PProp 0xD3 [0; 0; k]; PProp 0xD4 [0; cnt];
     PProp 0xD6 (k :: flat_map instance_entry codes); PProp 0xD5 (k :: flat_map instance_entry codes);
     PProp 0xD7 (cnt :: flat_map class_entry codes)].
  Lemma as_u8_lt x : as_u8 x < 256. Proof. unfold as_u8. lia. Qed.
  Lemma np_update_eq o codes : codes <> [] -> node_profile_update o codes = Ret (sets o (profile_data codes)).
  Proof.
    intro H. unfold node_profile_update, sub_w, len_u8. destruct (N.leb_spec 1 (N.of_nat (length codes))) as [L|L].
    2:{ destruct codes; [congruence|cbn in L; lia]. }
    cbn [obind]. rewrite (set_int_as_data _ _ _ 3 _ (u8_in_3 _ (as_u8_lt _))). cbn [obind].
    rewrite (set_int_as_data _ _ _ 2 _ (u8_in_2 _ (as_u8_lt _))). reflexivity.
  Qed.
  Lemma octets_flat_map {A} (f : A -> list N) l : (forall x, octets (f x)) -> octets (flat_map f l).
  Proof. intro H. induction l; cbn; [constructor|]. apply octets_app; auto. Qed.
  Lemma profile_data_octets codes : Forall (fun q => octets (pp_data q)) (profile_data codes).
  Proof.
    assert (I : octets (flat_map instance_entry codes)).
    { apply octets_flat_map. intro c. unfold instance_entry. destruct (_ =? _); repeat constructor; apply as_u8_lt. }
    assert (C : octets (flat_map class_entry codes)).
    { apply octets_flat_map. intro c. unfold class_entry. repeat constructor; apply as_u8_lt. }
    unfold profile_data, len_u8. repeat (constructor; cbn [pp_data]); auto; unfold octet; try apply as_u8_lt; lia.
  Qed.
  Lemma codes_snoc (os : list object) o : map object_code (os ++ [o]) <> [].
  Proof. rewrite map_app. cbn. intro H. apply app_eq_nil in H as [_ H]. discriminate. Qed.
  (** The node after add_object. *)
  Lemma add_object_eq (n : node U) o : exists os, node_add_object n o = Ret (n_with_objects n os) /\
    ((not_owned (n_objects n ++ [o]) NODE_PROFILE_OBJECT_CODE /\ os = n_objects n ++ [o]) \/
     exists pre np post, n_objects n ++ [o] = pre ++ np :: post /\ object_code np = NODE_PROFILE_OBJECT_CODE /\
       Forall (fun x => object_code x <> NODE_PROFILE_OBJECT_CODE) pre /\
       os = pre ++ sets np (profile_data (map object_code (n_objects n ++ [o]))) :: post).
  Proof.
    unfold node_add_object, update_node_profile. cbn [n_objects n_with_objects].
    destruct (find_object (n_objects n ++ [o]) NODE_PROFILE_OBJECT_CODE) as [np|] eqn:E.
    - apply find_object_some in E as (pre & post & E1 & E2 & E3).
      rewrite np_update_eq by apply codes_snoc. cbn [obind]. eexists. split; [reflexivity|].
      right. exists pre, np, post. split; auto. split; auto. split; auto.
      change (n_objects (n_with_objects n ?x)) with x. rewrite E1 at 1. rewrite put_object_split; auto.
    - eexists. split; [reflexivity|]. left. split; auto. apply find_object_none; auto.
  Qed.
  Lemma add_object_good (n n' : node U) o : obj_good o -> node_good n -> node_add_object n o = Ret n' -> node_good n'.
  Proof.
    intros Go [G1 G2] E. destruct (add_object_eq n o) as (os & E' & C). rewrite E in E'. inversion E'; subst n'.
    assert (G : Forall obj_good (n_objects n ++ [o])) by (apply Forall_app; auto).
    split; auto. cbn. destruct C as [[_ ->]|(pre & np & post & E1 & E2 & E3 & ->)]; auto.
    rewrite E1 in G. apply Forall_app in G as [A B]. inversion B; subst. apply Forall_app. split; auto. constructor; auto.
    apply good_sets; auto. apply profile_data_octets.
  Qed.
  Lemma node_new_good (np : object) (n : node U) : obj_good np -> node_new np = Ret n -> node_good n.
  Proof.
    intros G. unfold node_new. destruct (node_add_object _ np) as [n1|] eqn:E; cbn [obind]; [|discriminate].
    intro H. inversion H; subst. apply add_object_good in E; auto; [|split; constructor].
    destruct E as [A B]. split; auto. cbn. apply Forall_app. split; auto. constructor; [exact I|constructor].
  Qed.

  Context {O : OS}.
  (* ---------------------------------------------------------------- *)
  (** ** Steps *)
  Lemma set_byte_good (n : node U) c v : v < 256 -> node_good n -> node_good (set_object_properties_byte n c v).
  Proof.
    intros H [A B]. split; auto. cbn. apply Forall_map. eapply Forall_impl; [|exact A]. intros o G. apply good_set_data; auto.
    repeat constructor. auto.
  Qed.
  Lemma set_data_good (n : node U) oc c d : octets d -> node_good n -> node_good (set_data n oc c d).
  Proof.
    intros H [A B]. unfold set_data. destruct (find_object (n_objects n) oc) as [o|] eqn:E; [|split; auto].
    apply find_object_some in E as (pre & post & E1 & E2 & E3). rewrite E1. rewrite put_object_split by auto.
    split; auto. cbn. rewrite E1 in A. apply Forall_app in A as [A1 A2]. inversion A2; subst. apply Forall_app. split; auto.
    constructor; auto. apply good_set_data; auto.
  Qed.
  Lemma announce_keeps w (n : node U) ok n' w' : node_announce w n = (ok, n', w') ->
    n_objects n' = n_objects n /\ n_handlers n' = n_handlers n /\ n_post n' = n_post n /\ n_mgr n' = n_mgr n /\
    exists tr, since w w' tr /\ w_chan w' = w_chan w /\ deliveries tr = [].
  Proof.
    unfold node_announce. assert (Z : exists tr, since w w tr /\ w_chan w = w_chan w /\ deliveries tr = []).
    { exists []. split; [apply since_refl|auto]. }
    destruct (find_object _ _) as [o|]; [|intro H; inversion H; subst; auto].
    destruct (object_find_property o _) as [p|]; [|intro H; inversion H; subst; auto].
    destruct (node_notify w n _) as [[[b m1] n1] w1] eqn:E. intro H. inversion H; subst.
    apply node_notify_spec in E as (A & tr & k & B & C & D & _). apply update_tid_keeps in A as (X1 & X2 & X3 & X4 & X5).
    split; auto. split; auto. split; auto. split; auto. exists tr. auto.
  Qed.

  (** Start without the announcement. *)
  Definition quiet_trace (w w' : world) : Prop := w_chan w' = w_chan w /\ exists tr, since w w' tr /\ deliveries tr = [] /\ offered tr = [].
  Lemma quiet_refl w : quiet_trace w w. Proof. split; auto. exists []. split; [apply since_refl|auto]. Qed.
  Lemma quiet_trans a b c : quiet_trace a b -> quiet_trace b c -> quiet_trace a c.
  Proof.
    intros [A (t & B & C & D)] [A' (s & B' & C' & D')]. split; [congruence|]. exists (t ++ s).
    split; [eapply since_trans; eauto|]. rewrite deliveries_app, offered_app, C, C', D, D'. auto.
  Qed.
  Lemma bind_loop_quiet n : forall w a ok w', bind_loop n w a = (ok, w') -> quiet_trace w w'.
  Proof.
    induction n as [|n IH]; intros w a ok w'; cbn [bind_loop]; [intro H; inversion H; subst; apply quiet_refl|].
    set (b := os_bind (w_calls w)). assert (Q : quiet_trace w (log w (EvBind a b))).
    { split; auto. exists [EvBind a b]. split; [apply since_log|auto]. }
    destruct b; [intro H; inversion H; subst; auto|]. intro H. eapply quiet_trans; eauto.
  Qed.
  Lemma socket_bind_quiet w s a ok s' w' : socket_bind w s a = (ok, s', w') -> quiet_trace w w'.
  Proof.
    unfold socket_bind. destruct (bind_loop _ w a) as [b w1] eqn:E. apply bind_loop_quiet in E.
    destruct b; cbn [negb]; intro H; inversion H; subst; auto.
  Qed.
  Lemma ucast_bind_quiet w s a ok s' w' : ucast_server_bind w s a = (ok, s', w') -> quiet_trace w w'.
  Proof.
    unfold ucast_server_bind. destruct a; [|intro H; inversion H; subst; apply quiet_refl].
    destruct (socket_bind w _ _) as [[b k] w1] eqn:E. intro H. inversion H; subst. eapply socket_bind_quiet; eauto.
  Qed.
  Lemma mcast_bind_quiet w s a ok s' w' : mcast_server_bind w s a = (ok, s', w') -> quiet_trace w w'.
  Proof.
    unfold mcast_server_bind. destruct (socket_bind w _ _) as [[b k] w1] eqn:E. apply socket_bind_quiet in E.
    destruct b; cbn [negb]; [|intro H; inversion H; subst; auto].
    unfold socket_join. destruct (sk_sock k); [|intro H; inversion H; subst; auto].
    intro H. inversion H; subst. eapply quiet_trans; [exact E|]. split; auto. eexists. split; [apply since_log|auto].
  Qed.
  Lemma servers_start_quiet bind : (forall w s a ok s' w', bind w s a = (ok, s', w') -> quiet_trace w w') ->
    forall ifs w l l' w', servers_start bind w ifs l = (l', w') -> quiet_trace w w'.
  Proof.
    intros Hb. induction ifs as [|i r IH]; intros w l l' w'; cbn [servers_start]; [intro H; inversion H; subst; apply quiet_refl|].
    destruct (bind w server_new i) as [[b s] w1] eqn:E. apply Hb in E. destruct b; cbn [negb server_start];
      intro H; (eapply quiet_trans; [exact E|]); eapply IH; eauto.
  Qed.
  Lemma tick_quiet w : quiet_trace w (tick w).
  Proof. split; auto. exists []. split; [apply since_tick|auto]. Qed.
  Lemma ucast_start_quiet w l ok l' w' : ucast_start w l = (ok, l', w') -> quiet_trace w w'.
  Proof.
    unfold ucast_start. destruct (servers_running l); [intro H; inversion H; subst; apply quiet_refl|].
    cbn [get_all_interfaces]. destruct (servers_start ucast_server_bind (tick w) _ l) as [l1 w1] eqn:E.
    intro H. inversion H; subst. eapply quiet_trans; [apply tick_quiet|]. eapply servers_start_quiet; [|exact E].
    intros. eapply ucast_bind_quiet; eauto.
  Qed.
  Lemma mcast_start_quiet w l ok l' w' : mcast_start w l = (ok, l', w') -> quiet_trace w w'.
  Proof.
    unfold mcast_start. destruct (servers_running l); [intro H; inversion H; subst; apply quiet_refl|].
    cbn [get_all_interfaces]. destruct (servers_start mcast_server_bind (tick w) _ l) as [l1 w1] eqn:E.
    intro H. inversion H; subst. eapply quiet_trans; [apply tick_quiet|]. eapply servers_start_quiet; [|exact E].
    intros. eapply mcast_bind_quiet; eauto.
  Qed.
  Lemma manager_start_quiet w m ok m' w' : manager_start w m = Ret (ok, m', w') -> quiet_trace w w'.
  Proof.
    unfold manager_start. destruct (manager_running m); [intro H; inversion H; subst; apply quiet_refl|].
    destruct (mcast_start w (mg_mcast m)) as [[b c] w1] eqn:E. apply mcast_start_quiet in E.
    destruct b; cbn [negb].
    - cbn [mg_ucast mg_mcast]. destruct (ucast_start w1 (mg_ucast m)) as [[b' u] w2] eqn:E'. apply ucast_start_quiet in E'.
      destruct b'; cbn [negb].
      + intro H. inversion H; subst. exact (quiet_trans _ _ _ E E').
      + destruct (manager_stop _) as [x|]; cbn [obind]; [|discriminate]. intro H. inversion H; subst. exact (quiet_trans _ _ _ E E').
    - destruct (manager_stop _) as [x|]; cbn [obind]; [|discriminate]. intro H. inversion H; subst. auto.
  Qed.
  (** What node_start does: transport, then status, observers and announcement. *)
  Lemma node_start_spec w (n : node U) ok n' w' : node_start w n = Ret (ok, n', w') ->
    exists ok1 m1 w1, quiet_trace w w1 /\
      (manager_running (n_mgr n) = true /\ ok1 = true /\ m1 = n_mgr n /\ w1 = w \/
       manager_running (n_mgr n) = false /\ manager_start w (n_mgr n) = Ret (ok1, m1, w1)) /\
      ((ok1 = false /\ ok = false /\ n' = n_with_mgr n m1 /\ w' = w1) \/
       (ok1 = true /\ exists m2, manager_add_observers m1 (n_observers n) = Ret m2 /\
          node_announce w1 (n_with_mgr (set_object_properties_byte (set_object_properties_byte n 0x80 0x30) 0x88 0x42) m2) = (ok, n', w'))).
  Proof.
    unfold node_start.
    assert (X : forall ok1 m1 w1, (let n := n_with_mgr n m1 in
      if negb ok1 then Ret (false, n, w1)
      else
        let n := set_object_properties_byte n 0x80 0x30 in
        let n := set_object_properties_byte n 0x88 0x42 in
        let! m := manager_add_observers (n_mgr n) (n_observers n) in
        let n := n_with_mgr n m in
        let '(ok, n, w) := node_announce w1 n in
        if negb ok then Ret (false, n, w) else Ret (true, n, w)) = Ret (ok, n', w') ->
      ((ok1 = false /\ ok = false /\ n' = n_with_mgr n m1 /\ w' = w1) \/
       (ok1 = true /\ exists m2, manager_add_observers m1 (n_observers n) = Ret m2 /\
          node_announce w1 (n_with_mgr (set_object_properties_byte (set_object_properties_byte n 0x80 0x30) 0x88 0x42) m2) = (ok, n', w')))).
    { intros ok1 m1 w1. cbv zeta. destruct ok1; cbn [negb].
      - right. split; auto. cbn [n_mgr n_observers set_object_properties_byte n_with_mgr n_with_objects] in H.
        destruct (manager_add_observers m1 (n_observers n)) as [m2|]; cbn [obind] in H; [|discriminate].
        exists m2. split; auto. match type of H with context [node_announce w1 ?x] => set (y := x) in H end.
        change (n_with_mgr _ m2) with y. destruct (node_announce w1 y) as [[b n2] w2]. destruct b; cbn in H; congruence.
      - left. inversion H; auto. }
    destruct (manager_running (n_mgr n)) eqn:R; cbn [negb obind].
    - intro H. apply (X true (n_mgr n) w) in H. exists true, (n_mgr n), w. split; [apply quiet_refl|]. split; auto.
    - destruct (manager_start w (n_mgr n)) as [[[ok1 m1] w1]|] eqn:E; cbn [obind]; [|discriminate]. intro H. apply (X ok1 m1 w1) in H.
      exists ok1, m1, w1. split; [eapply manager_start_quiet; eauto|]. split; auto.
  Qed.

  Lemma step_good (u : U) n w op u' n' w' : op_ok op -> node_good n -> node_step (u, n, w) op = Ret (u', n', w') -> node_good n'.
  Proof.
    intros K G E. destruct op; cbn [node_step] in E; cbn [op_ok] in K.
    - destruct (node_add_object n o) as [n1|] eqn:E1; cbn [obind] in E; [|discriminate]. inversion E; subst.
      eapply add_object_good; [|exact G|exact E1]. apply obj_ok_good, obj_built_ok; auto.
    - inversion E; subst. destruct G as [A B]. split; auto. cbn. apply Forall_app; auto.
    - inversion E; subst. destruct G as [A B]. split; auto.
    - inversion E; subst. apply set_data_good; auto.
    - destruct (node_send w n to m) as [[[b m1] n1] w1] eqn:E1. inversion E; subst.
      apply node_send_spec in E1 as (A & _). apply update_tid_keeps in A as (A & B & _). eapply objects_good_tid; eauto.
    - destruct (node_post w n to m) as [[[b m1] n1] w1] eqn:E1. inversion E; subst.
      apply node_post_spec in E1 as (_ & _ & n2 & ok & tr & A & -> & _). apply update_tid_keeps in A as (A & B & _). eapply objects_good_tid; eauto.
    - destruct (node_notify w n m) as [[[b m1] n1] w1] eqn:E1. inversion E; subst.
      apply node_notify_spec in E1 as (A & _). apply update_tid_keeps in A as (A & B & _). eapply objects_good_tid; eauto.
    - destruct (node_announce w n) as [[b n1] w1] eqn:E1. inversion E; subst.
      apply announce_keeps in E1 as (A & B & _). eapply objects_good_tid; eauto.
    - unfold node_announce_property in E. destruct (node_notify w n _) as [[[b m1] n1] w1] eqn:E1. inversion E; subst.
      apply node_notify_spec in E1 as (A & _). apply update_tid_keeps in A as (A & B & _). eapply objects_good_tid; eauto.
    - destruct (node_start w n) as [[[b n1] w1]|] eqn:E1; cbn [obind] in E; [|discriminate]. inversion E; subst.
      apply node_start_spec in E1 as (ok1 & m1 & w2 & _ & _ & [(_ & _ & -> & _)|(_ & m2 & _ & A)]); auto.
      apply announce_keeps in A as (A & B & _). eapply objects_good_tid; eauto. 
      change (node_good (set_object_properties_byte (set_object_properties_byte n 0x80 0x30) 0x88 0x42)).
      apply set_byte_good; [lia|]. apply set_byte_good; [lia|]. auto.
    - destruct (node_stop n) as [[b n1]|] eqn:E1; cbn [obind] in E; [|discriminate]. inversion E; subst. unfold node_stop in E1.
      destruct (manager_stop _) as [x|]; cbn [obind] in E1; [|discriminate]. inversion E1; subst. cbn [snd].
      change (node_good (set_object_properties_byte n 0x80 0x31)). apply set_byte_good; [lia|]. auto.
    - destruct (node_observe w u n m) as [[[u1 n1] w1]|] eqn:E1; cbn [obind] in E; [|discriminate]. inversion E; subst.
      apply received_rcvd in K as [W L B]. apply observe_spec in E1 as (n2 & w2 & t1 & n3 & res & t2 & _ & _ & _ & D & H & R); auto.
      apply delivered_keeps in D as (D1 & D2 & _). apply reaction_keeps in R as (R1 & R2 & _).
      eapply objects_good_tid; [exact R1|exact R2|]. eapply handled_good; [exact W| |exact H]. eapply objects_good_tid; eauto.
  Qed.
  Lemma run_good ops : forall (u : U) n w u' n' w', Forall op_ok ops -> node_good n -> node_run (u, n, w) ops = Ret (u', n', w') -> node_good n'.
  Proof.
    induction ops as [|op r IH]; intros u n w u' n' w' F G E; cbn [node_run] in E; [inversion E; subst; auto|].
    destruct (node_step (u, n, w) op) as [[[u1 n1] w1]|] eqn:E1; cbn [obind] in E; [|discriminate]. inversion F; subst.
    apply (IH u1 n1 w1 u' n' w'); auto. exact (step_good u n w op u1 n1 w1 H1 G E1).
  Qed.
  Lemma reachable_good u (n : node U) w : reachable u n w -> node_good n.
  Proof.
    intros (np & n0 & u0 & w0 & ops & B & E & F & R). apply (run_good ops u0 n0 w0 u n w); auto. apply (node_new_good np); auto.
    apply obj_ok_good, obj_built_ok; auto.
  Qed.
End N.
