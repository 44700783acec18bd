(** Properties of the controller: C59 to C64. *)
From Verif Require Import Base HMap ModelCodec ModelMessages DbTable ModelObject ModelTransport ModelNode ModelController ModelHost
  SpecWire SpecObject SpecNode ProofsCodec ProofsCodec2 PropertiesCodec ProofsObject ProofsObject2 ProofsObject3
  PropertiesObject PropertiesDb ProofsDevice ProofsNode ProofsNode2 ProofsNode3 ProofsNode4 ExamplesNode PropertiesNode PropertiesTrans
  PropertiesProfile ProofsExchange ProofsController ProofsHistory.

Section S.
  Context {P : Profile} {HO : HashOrder} {Os : OS} {Uu : Uuids}.

  (** A controller with the entries [rs] hears messages. *)
  Fixpoint hears (db : list object) (w : world) (rs : list remote_node) (ms : list message) : outcome (list remote_node * world) :=
    match ms with
    | [] => Ret (rs, w)
    | m :: r => let! x := controller_observe db w rs m in hears db (snd x) (fst x) r
    end.
  Lemma hears_nodup db ms : forall w rs rs' w', hears db w rs ms = Ret (rs', w') -> NoDup (map rn_addr rs) -> NoDup (map rn_addr rs').
  Proof.
    induction ms as [|m r IH]; intros w rs rs' w' E N; cbn [hears] in E; [inversion E; subst; auto|].
    destruct (controller_observe db w rs m) as [[rs1 w1]|] eqn:E1; cbn [obind] in E; [|discriminate].
    eapply IH; eauto. eapply controller_observe_nodup; eauto.
  Qed.
  Lemma hears_app db a b : forall w rs, hears db w rs (a ++ b) = (let! x := hears db w rs a in hears db (snd x) (fst x) b).
  Proof.
    induction a as [|m r IH]; intros w rs; cbn [app hears obind fst snd]; auto.
    destruct (controller_observe db w rs m) as [[rs1 w1]|]; cbn [obind]; auto.
  Qed.
  Lemma received_u8 m : received m -> Forall u8prop (m_props m).
  Proof. intro R. apply received_rcvd in R as [[]]. auto. Qed.

  (** ** C59 *)
  Lemma notify_remotes U db free l m : forall i (h : host U) w b h' w', notify_observers db free i h w l m = (b, h', w') ->
    NoDup (map rn_addr (h_remotes h)) -> NoDup (map rn_addr (h_remotes h')).
  Proof.
    induction l as [|o r IH]; intros i h w b h' w' E N; cbn [notify_observers] in E; [inversion E; subst; auto|].
    destruct (existsb _ _); [inversion E; subst; auto|].
    destruct (observer_received db (free i) (h_called h o m) w o m) as [[bad h1] w1] eqn:E1.
    assert (N1 : NoDup (map rn_addr (h_remotes h1))).
    { unfold observer_received in E1. destruct (ob_kind o); try (inversion E1; subst; exact N).
      - destruct (h_poisoned (h_called h o m) || negb (free i)); [inversion E1; subst; auto|].
        destruct (node_observe w _ _ m) as [[[u1 n1] w2]|]; inversion E1; subst; auto.
      - destruct (h_cpoisoned (h_called h o m) || negb (free i)); [inversion E1; subst; auto|].
        destruct (controller_observe db w (h_remotes (h_called h o m)) m) as [[r1 w2]|] eqn:E2; inversion E1; subst; auto.
        cbn. eapply controller_observe_nodup; [exact E2|]. exact N. }
    destruct bad; [inversion E; subst; auto|]. eapply IH; eauto.
  Qed.
  Lemma step_remotes U db (h : host U) w op h' w' : host_step db (h, w) op = Ret (h', w') ->
    NoDup (map rn_addr (h_remotes h)) -> NoDup (map rn_addr (h_remotes h')).
  Proof.
    intros E N. destruct op; cbn [host_step] in E.
    - destruct (h_poisoned h); [discriminate|]. destruct (node_step _ op) as [[[u1 n1] w1]|]; cbn [obind] in E; [|discriminate]. inversion E; subst; auto.
    - destruct (h_cpoisoned h); [discriminate|]. destruct (h_poisoned h); [discriminate|].
      destruct (controller_search_object _ _ _) as [[? ?] ?]. inversion E; subst; auto.
    - destruct (h_cpoisoned h); [inversion E; subst; auto|]. destruct (h_poisoned h); [discriminate|].
      destruct (controller_send _ _ _ _) as [[[? ?] ?] ?]. inversion E; subst; auto.
    - destruct (h_cpoisoned h); [discriminate|]. destruct (h_poisoned h); [discriminate|].
      destruct (controller_post _ _ _ _) as [[[? ?] ?] ?]. inversion E; subst; auto.
    - destruct (h_cpoisoned h); [discriminate|]. destruct (controller_nodes _ _) as [x|]; cbn [obind] in E; [|discriminate]. inversion E; subst; auto.
    - destruct (h_cpoisoned h); [discriminate|]. destruct (h_poisoned h); [discriminate|]. unfold controller_start in E.
      destruct (node_start _ _) as [[[? ?] ?]|]; cbn [obind] in E; [|discriminate]. inversion E; subst; auto.
    - destruct (h_cpoisoned h); [discriminate|]. destruct (h_poisoned h); [discriminate|]. unfold controller_stop in E.
      destruct (node_stop _) as [[? ?]|]; cbn [obind] in E; [|discriminate]. inversion E; subst; auto.
    - inversion E as [E1]. clear E. unfold receive in E1. destruct (h_server h i) as [s|]; [|inversion E1; subst; auto].
      destruct (sv_thread s); try (inversion E1; subst; auto; fail). destruct (sv_stop s); [inversion E1; subst; auto|].
      destruct (msg_parse _ _) as [[[] m]|]; try (inversion E1; subst; auto; fail). destruct (sv_poisoned s); [inversion E1; subst; auto|].
      destruct (notify_observers db free 0 h w (sv_observers s) (msg_set_from m from)) as [[bad h1] w1] eqn:E2.
      apply notify_remotes in E2; auto. destruct bad; inversion E1; subst; auto.
    - inversion E; subst. unfold receive_error. destruct (h_server h i) as [s|]; auto. destruct (sv_thread s); auto.
  Qed.
  (** In every execution of a process, no two entries have the same address and
      port. *)
  Theorem C59_one_per_socket_partial : forall U db (u : U) n w ops h w', host_run db (host_new u n, w) ops = Ret (h, w') ->
    NoDup (map rn_addr (h_remotes h)).
  Proof.
    intros U db u n w ops. assert (N : NoDup (map rn_addr (h_remotes (host_new u n)))) by constructor. revert N.
    generalize (host_new u n) as h0. revert w. induction ops as [|op r IH]; intros w h0 N h w' E; cbn [host_run] in E; [inversion E; subst; auto|].
    destruct (host_step db (h0, w) op) as [[h1 w1]|] eqn:E1; cbn [obind] in E; [|discriminate]. eapply IH; [|exact E]. eapply step_remotes; eauto.
  Qed.

  Section DB.
  Variables (seed : N -> N) (db : list object).
  Hypothesis Db : standard_database seed = Ret db.
  Hypothesis Uo : forall k, uuid_ok (new_uuid k).

  (** The entry of an address after a message. *)
  Lemma after_message ms m w rs w1 : hears db w [] ms = Ret (rs, w1) -> received m -> for_profile m ->
    exists css rs' w' r, Forall2 listed (m_props m) css /\ controller_observe db w1 rs m = Ret (rs', w') /\
      In r rs' /\ rn_addr r = msg_from m /\ (forall x, In x rs' -> rn_addr x = msg_from m -> x = r) /\
      (forall x, rn_addr x <> msg_from m -> In x rs' <-> In x rs) /\
      map object_code (rn_objects r) = concat css ++ [0x0EF001] /\ Forall2 (standard_object db) (concat css ++ [0x0EF001]) (rn_objects r).
  Proof.
    intros H R F. destruct (controller_entry seed db Db Uo w1 rs m (received_u8 m R) F) as (css & r & w' & L & A & B & C & E).
    assert (N : NoDup (map rn_addr rs)) by (eapply hears_nodup; [exact H|constructor]).
    exists css, (replace_remote rs r), w', r. split; auto. split; auto. unfold replace_remote. split; [apply in_or_app; right; left; auto|].
    split; auto. split; [|split; [|split; auto]].
    - intros x I Ex. apply in_app_or in I as [I|[I|[]]]; auto. apply remove_spec in I as [_ I]; auto. congruence.
    - intros x Ne. rewrite in_app_iff. cbn [In]. rewrite remove_spec by auto. rewrite A. intuition congruence.
  Qed.

  (** Two nodes behind one address, or one node that uses two ports, get two
      entries with the same IP address. *)
  Theorem C59_same_ip_refuted : forall ms w rs w1 m1 m2, hears db w [] ms = Ret (rs, w1) ->
    received m1 -> for_profile m1 -> received m2 -> for_profile m2 ->
    fst (msg_from m1) = fst (msg_from m2) -> snd (msg_from m1) <> snd (msg_from m2) ->
    exists rs' w' a b, hears db w [] (ms ++ [m1; m2]) = Ret (rs', w') /\ In a rs' /\ In b rs' /\ a <> b /\
      fst (rn_addr a) = fst (rn_addr b).
  Proof.
    intros ms w rs w1 m1 m2 H R1 F1 R2 F2 Ip Po.
    destruct (after_message ms m1 w rs w1 H R1 F1) as (_ & rs1 & w2 & r1 & _ & E1 & I1 & A1 & _).
    assert (H1 : hears db w [] (ms ++ [m1]) = Ret (rs1, w2)). { rewrite hears_app, H. cbn [obind fst snd hears]. rewrite E1. reflexivity. }
    destruct (after_message _ m2 w rs1 w2 H1 R2 F2) as (_ & rs2 & w3 & r2 & _ & E2 & I2 & A2 & _ & K & _).
    exists rs2, w3, r1, r2. split.
    - change [m1; m2] with ([m1] ++ [m2]). rewrite app_assoc, hears_app, H1. cbn [obind fst snd hears]. rewrite E2. reflexivity.
    - split; [apply K; auto; congruence|]. split; auto. split; [intros ->|]; congruence.
  Qed.

  (** ** C60 *)
  (** After any history, a node profile message with one instance list gives its
      sender an entry with exactly the listed objects and the node profile, all with
      their standard properties; other entries do not change. *)
  Theorem C60_latest_list : forall ms w rs w1 m qs1 codes qs2, hears db w [] ms = Ret (rs, w1) ->
    received m -> for_profile m -> m_props m = qs1 ++ PProp 0xD6 (instance_list codes) :: qs2 ->
    Forall (fun q => pp_code q <> 0xD6) (qs1 ++ qs2) -> Forall (fun c => c < 2 ^ 24) codes ->
    exists rs' w' r, controller_observe db w1 rs m = Ret (rs', w') /\
      In r rs' /\ rn_addr r = msg_from m /\ (forall x, In x rs' -> rn_addr x = msg_from m -> x = r) /\
      (forall x, rn_addr x <> msg_from m -> In x rs' <-> In x rs) /\
      map object_code (rn_objects r) = codes ++ [0x0EF001] /\ Forall2 (standard_object db) (codes ++ [0x0EF001]) (rn_objects r).
  Proof.
    intros ms w rs w1 m qs1 codes qs2 H R F Ep Nq Fc.
    destruct (after_message ms m w rs w1 H R F) as (css & rs' & w' & r & L & X). 
    assert (concat css = codes) as <-; [|exists rs', w', r; exact X]. rewrite Ep in L.
    apply Forall2_app_inv_l in L as (c1 & c2 & L1 & L2 & ->). inversion L2 as [|? c ? c3 Lc L3]; subst.
    apply Forall_app in Nq as [N1 N2].
    assert (Z : forall qs cs, Forall (fun q => pp_code q <> 0xD6) qs -> Forall2 listed qs cs -> concat cs = []).
    { clear. intros qs cs N L. induction L as [|q c qs cs H L IH]; auto. inversion N; subst. cbn. rewrite IH by auto. rewrite app_nil_r.
      inversion H; subst; cbn in *; congruence. }
    rewrite concat_app. cbn [concat]. rewrite (Z qs1 c1 N1 L1), (Z qs2 c3 N2 L3), app_nil_r. cbn [app].
    assert (Lc' : listed (PProp 0xD6 (instance_list codes)) codes).
    { unfold instance_list. replace (flat_map wire_eoj codes) with (flat_map wire_eoj codes ++ []) by apply app_nil_r.
      apply L_codes; [|cbn; lia|exact Fc].
      rewrite app_nil_r. pose proof (instance_list_length codes) as K. unfold instance_list in K. cbn [length] in K. lia. }
    symmetry. eapply listed_unique; eauto.
  Qed.

  (** ** C61 *)
  (** Every 0x72 or 0x73 for the node profile without an instance list, such as the
      startup announcement (C35) or the response to any read request of the
      controller (whose requests carry 0x0EF001 as source), removes everything known
      about the sender. *)
  Theorem C61_forgets_refuted : forall ms w rs w1 m, hears db w [] ms = Ret (rs, w1) ->
    received m -> for_profile m -> Forall (fun q => pp_code q <> 0xD6) (m_props m) ->
    exists rs' w' r, controller_observe db w1 rs m = Ret (rs', w') /\ In r rs' /\ rn_addr r = msg_from m /\
      (forall x, In x rs' -> rn_addr x = msg_from m -> x = r) /\ map object_code (rn_objects r) = [0x0EF001].
  Proof.
    intros ms w rs w1 m H R F Nq. destruct (after_message ms m w rs w1 H R F) as (css & rs' & w' & r & L & E & I & A & U & _ & C & _).
    exists rs', w', r. assert (Z : concat css = []).
    { clear - L Nq. induction L as [|q c qs cs H L IH]; auto. inversion Nq; subst. cbn. rewrite IH by auto. rewrite app_nil_r. inversion H; subst; cbn in *; congruence. }
    rewrite Z in C. auto.
  Qed.
  (** All other messages, and messages from other addresses, remove nothing. *)
  Theorem C61_others_kept_partial : forall ms w rs w1 m r, hears db w [] ms = Ret (rs, w1) -> received m -> In r rs ->
    (~ for_profile m \/ rn_addr r <> msg_from m) ->
    exists rs' w', controller_observe db w1 rs m = Ret (rs', w') /\ In r rs'.
  Proof.
    intros ms w rs w1 m r H R I C.
    assert (D : for_profile m \/ ~ for_profile m).
    { destruct (is_node_profile_message m) eqn:E; [left; apply for_profile_spec; auto|right; intro X; apply for_profile_spec in X; congruence]. }
    destruct D as [D|D].
    - destruct C as [C|C]; [contradiction|]. destruct (after_message ms m w rs w1 H R D) as (_ & rs' & w' & _ & _ & E & _ & _ & _ & K & _).
      exists rs', w'. split; auto. apply K; auto.
    - rewrite (controller_ignores db w1 rs m D). eauto.
  Qed.

  (** ** C63 *)
  (** An instance list with more codes than its count says is accepted, with all of
      the codes. *)
  Theorem C63_excess_refuted : forall ms w rs w1 m k codes rest, hears db w [] ms = Ret (rs, w1) ->
    received m -> for_profile m -> m_props m = [PProp 0xD6 (k :: flat_map wire_eoj codes ++ rest)] ->
    Forall (fun c => c < 2 ^ 24) codes -> (length rest < 3)%nat -> (N.to_nat k < length codes)%nat ->
    exists rs' w' r, controller_observe db w1 rs m = Ret (rs', w') /\ In r rs' /\ rn_addr r = msg_from m /\
      map object_code (rn_objects r) = codes ++ [0x0EF001].
  Proof.
    intros ms w rs w1 m k codes rest H R F Ep Fc Lr Lk.
    destruct (after_message ms m w rs w1 H R F) as (css & rs' & w' & r & L & E & I & A & _ & _ & C & _).
    exists rs', w', r. split; auto. split; auto. split; auto. rewrite C. f_equal. rewrite Ep in L. inversion L as [|? c ? c2 Lc L2]; subst. inversion L2; subst.
    cbn. rewrite app_nil_r. eapply listed_unique; [exact Lc|]. apply L_codes; auto. rewrite app_length.
    pose proof (instance_list_length codes) as K. unfold instance_list in K. cbn [length] in K. lia.
  Qed.
  (** An instance list with fewer codes than its count says adds no object. *)
  Theorem C63_short_partial : forall ms w rs w1 m k d, hears db w [] ms = Ret (rs, w1) ->
    received m -> for_profile m -> m_props m = [PProp 0xD6 (k :: d)] -> N.of_nat (length d) < 3 * k ->
    exists rs' w' r, controller_observe db w1 rs m = Ret (rs', w') /\ In r rs' /\ rn_addr r = msg_from m /\
      map object_code (rn_objects r) = [0x0EF001].
  Proof.
    intros ms w rs w1 m k d H R F Ep Lk.
    destruct (after_message ms m w rs w1 H R F) as (css & rs' & w' & r & L & E & I & A & _ & _ & C & _).
    exists rs', w', r. split; auto. split; auto. split; auto. rewrite C. rewrite Ep in L. inversion L as [|? c ? c2 Lc L2]; subst. inversion L2; subst.
    cbn. rewrite app_nil_r. rewrite (listed_unique _ _ [] Lc); auto. apply L_short. lia.
  Qed.

  (** ** C64 *)
  (** A search by any controller is a 14 octet request for property 0xD6 of the
      node profile, sent to the group. *)
  Lemma search_frame V w (n : node V) ok n' w' tr dst d : controller_search_all w n = (ok, n', w') -> since w w' tr -> In (dst, d) (offered tr) ->
    dst = group /\ exists t, t < 65536 /\ d = wire (Frame t 0x0EF001 0x0EF001 0x62 (Single [(0xD6, [])])).
  Proof.
    unfold controller_search_all, controller_search_object. destruct (node_notify w n _) as [[[b m1] n1] w1] eqn:E. intro H. inversion H; subst. clear H.
    intros S I. apply node_notify_spec in E as (A & tr' & k & S' & _ & _ & Fo & _).
    assert (tr' = tr) as ->. { unfold since in *. rewrite S' in S. apply app_inv_head in S. auto. }
    apply (proj1 (Forall_forall _ _) Fo) in I. inversion I; subst. split; auto.
    assert (X : exists t, wf2 t /\ m1 = with_tid (search_request NODE_PROFILE_OBJECT_CODE) t).
    { apply update_tid_spec in A as [(A & _)|(_ & _ & ->)]; [exfalso; apply A; reflexivity|]. rewrite msg_set_tid_eq. eexists. split; [|reflexivity]. split; cbn; lia. }
    destruct X as ([t0 t1] & [W0 W1] & ->). cbn [fst snd] in *. exists (t0 * 256 + t1). split; [lia|].
    rewrite msg_bytes_wire.
    - unfold frame_of. rewrite msg_tid_eq. reflexivity.
    - constructor; cbn; repeat split; try (cbn; lia); repeat constructor; cbn; lia.
    - repeat split; cbn; try lia; repeat constructor; unfold prop_in_limit; cbn; lia.
    - cbn. discriminate.
  Qed.

  Theorem C64_discovery : forall V (nc : node V) wc okc nc' wc' trc dst d,
    (* a controller searches *)
    controller_search_all wc nc = (okc, nc', wc') -> since wc wc' trc -> In (dst, d) (offered trc) ->
    (* a device node with at most 84 devices, after any history *)
    forall U np (n0 : node U) ops u w u1 n w1, profile_like np -> can_read np 0xD6 -> std_keys np -> node_new np = Ret n0 ->
    Forall op_ok ops -> Forall undisturbed ops -> Forall std_keys (objects_added ops) -> Forall total_handler (handlers_added ops) ->
    (length (added ops) <= 84)%nat -> node_run (u, n0, w) ops = Ret (u1, n, w1) ->
    dst = group /\
    forall a1, (* the address from which the node receives the request *)
    exists m u2 n2 w2 tr d', msg_parse msg_new (firstn MAX_PACKET_SIZE d) = Ret (true, m) /\
      node_observe w1 u1 n (msg_set_from m a1) = Ret (u2, n2, w2) /\ since w1 w2 tr /\
      (* the node sends the answer to the IP address of the controller *)
      Forall (eq ((fst a1, 3610), d')) (offered tr) /\
      ((forall k, os_send k = true) -> (exists s, In s (mg_ucast (n_mgr n)) /\ sk_sock (sv_socket s) <> None) -> sent tr = [((fst a1, 3610), d')]) /\
      forall a2, (* the address from which the controller receives the answer *)
      exists m', msg_parse msg_new (firstn MAX_PACKET_SIZE d') = Ret (true, m') /\
      forall ms w3 rs w4, hears db w3 [] ms = Ret (rs, w4) ->
      exists rs' w5 r, controller_observe db w4 rs (msg_set_from m' a2) = Ret (rs', w5) /\
        In r rs' /\ rn_addr r = a2 /\ (forall x, In x rs' -> rn_addr x = a2 -> x = r) /\
        (forall x, rn_addr x <> a2 -> In x rs' <-> In x rs) /\
        map object_code (rn_objects r) = added ops ++ [0x0EF001] /\
        Permutation (map object_code (rn_objects r)) (map object_code (n_objects n)).
  Proof.
    intros V nc wc okc nc' wc' trc dst d Es Sc Id U np n0 ops u w u1 n w1 L Rd Sn N F Un Fs Ft Len Run.
    destruct (search_frame V wc nc okc nc' wc' trc dst d Es Sc Id) as (-> & t & Ht & ->). split; auto. intro a1.
    set (f := Frame t 0x0EF001 0x0EF001 0x62 (Single [(0xD6, [])])).
    assert (Fk : frame_ok f). { repeat split; cbn; try lia; repeat constructor; cbn; try lia. intros [X|[X|X]]; discriminate. }
    assert (Pd : msg_parse msg_new (wire f) = Ret (true, msg_of_frame msg_new f)).
    { rewrite <- (app_nil_r (wire f)). apply parse_wire. auto. }
    assert (Fd : firstn MAX_PACKET_SIZE (wire f) = wire f) by reflexivity.
    rewrite Fd. set (m := msg_of_frame msg_new f) in *.
    assert (Rm : received (msg_set_from m a1)).
    { exists (wire f), m, a1. split; auto. unfold f, wire, octets. cbn [f_tid f_seoj f_deoj f_esv f_body wire_body app wire_eoj wire_props map concat wire_prop length fst snd].
      repeat constructor; unfold octet; cbn; lia. }
    pose proof (received_rcvd _ Rm) as Rc.
    destruct (msg_of_frame_wf f Fk) as [Wm _].
    pose proof (carries_msg_of_frame f Fk) as (C1 & C2 & C3 & C4 & C5 & C6 & C7). fold m in C1, C2, C3, C4, C5, C6, C7. cbn [f_tid f_seoj f_deoj f_esv f_body f] in C1, C2, C3, C4, C5.
    assert (Mp : m_props m = [PProp 0xD6 []]). { reflexivity. }
    assert (G : node_good n). { apply (run_good ops u n0 w u1 n w1); auto. apply (inv_new np n0 L N). }
    destruct (history_shapes np n0 ops u w u1 n w1 N F Run) as [_ Hh].
    destruct (history_lists np n0 ops u w u1 n w1 L N F Un Run) as (Codes & o & Ao & Li).
    destruct (Li 0xD6) as (p6 & Ep6 & Ec6 & Rd6 & Dt6); [unfold list_code; cbn; tauto|].
    destruct (C32_instance_lists np n0 ops u w u1 n w1 L N F Un Run) as (_ & o' & Ao' & _ & _ & D6); [lia|].
    rewrite (addressed_unique _ _ _ _ Ao' Ao) in D6. clear o' Ao'.
    assert (Op : p_data p6 = instance_list (added ops)). { unfold object_property_data in D6. rewrite Ep6 in D6. congruence. }
    assert (Ho : Forall hands_off (n_handlers n)).
    { rewrite Hh. constructor; [exact I|]. clear - Un. unfold handlers_added. induction Un as [|op r K Un IH]; [constructor|]. destruct op; cbn [flat_map app]; auto. }
    destruct (observe_total w1 u1 n (msg_set_from m a1) Rc G) as (u2 & n2 & w2 & Ob).
    { apply (history_std np n0 ops u w u1 n w1); auto. }
    { apply (history_total np n0 ops u w u1 n w1); auto. }
    { change (m_esv (msg_set_from m a1)) with (m_esv m). rewrite C4. discriminate. }
    assert (Pm : permitted o (msg_set_from m a1)).
    { split; [constructor|]. change (Forall (may_read o) (m_props m)). rewrite Mp. repeat constructor.
      destruct Rd as (q & Eq & Aq). exists p6. cbn [pp_code]. split; auto. rewrite (Rd6 q Eq). auto. }
    assert (Ac : accepted_by (n_handlers n) o (msg_set_from m a1)).
    { right. exists HNode. split; [rewrite Hh; left; auto|]. intros sd copy Ec x p x' copy' b Ip Ch.
      change (In p (m_props m)) in Ip. rewrite Mp in Ip. destruct Ip as [<-|[]]. cbn [call_handler] in Ch. injection Ch as _ _ Ch. rewrite <- Ch. clear Ch.
      assert (Go : obj_good o). { destruct G as [G _]. destruct Ao as (pre & post & E & _). rewrite E in G. apply Forall_app in G as [_ G]. inversion G; auto. }
      pose proof (clone_shape sd o copy Go Ec) as Sh. unfold node_handler.
      assert (Cc : object_code copy = 0x0EF001). { rewrite <- (object_code_codes o copy); [destruct Ao as (? & ? & _ & X & _); auto|apply Sh]. }
      unfold NODE_PROFILE_OBJECT_CODE. rewrite Cc. cbn [negb N.eqb Pos.eqb]. change (msg_esv (msg_set_from m a1)) with EReadRequest. cbn [pp_code].
      destruct (object_find_property copy 0xD6) eqn:Z; [reflexivity|]. exfalso. apply (proj1 (proj2 (proj2 (proj2 Sh)))) in Z. congruence. }
    assert (Em : m_esv (msg_set_from m a1) = 0x62) by exact C4.
    destruct (reply w1 u1 n (msg_set_from m a1) u2 n2 w2 o Rc G Ho (or_intror Em)) as
      (pre & post & o' & ps & t' & tr & ok & Eo & _ & _ & Sh & Go' & Fp & Eps & Wt & _ & S & _ & Fo & Se & Ok & _); auto.
    assert (Ps : ps = [PProp 0xD6 (instance_list (added ops))]).
    { rewrite Eps, Em. change (m_props (msg_set_from m a1)) with (m_props m). rewrite Mp. cbn [N.eqb Pos.eqb map]. f_equal. unfold held. cbn [pp_code].
      pose proof (Fp 0xD6 eq_refl) as X. rewrite Ep6 in X. cbn in X. unfold data_of, object_property_data. rewrite X. cbn. rewrite Op. reflexivity. }
    clear Eps. change (msg_from (msg_set_from m a1)) with a1 in *. rewrite Em in Fo, Se. set (d' := msg_bytes (with_t (msg_set_from m a1) t' (0x62 + 16) ps [] [])) in *.
    exists m, u2, n2, w2, tr, d'. split; auto. split; auto. split; auto. split; auto.
    split. { intros A1 A2. rewrite Se. rewrite Ok by auto. reflexivity. }
    intro a2.
    assert (Bd : Forall (fun c => c < 16777216) (added ops)) by (apply added_bound; auto).
    assert (Ol : octets (instance_list (added ops))) by (apply instance_list_octets; [auto|lia]).
    assert (Ll : (length (instance_list (added ops)) <= 253)%nat) by (rewrite instance_list_length; lia).
    set (f' := Frame (fst t' * 256 + snd t') 0x0EF001 0x0EF001 0x72 (Single [(0xD6, instance_list (added ops))])).
    assert (Ed' : d' = wire f').
    { unfold d', f'. rewrite with_t_wire.
      - change (msg_deoj (msg_set_from m a1)) with (msg_deoj m). change (msg_seoj (msg_set_from m a1)) with (msg_seoj m). rewrite C2, C3, Ps. reflexivity.
      - apply Rc.
      - exact Wt.
      - reflexivity.
      - intros [X|[X|X]]; discriminate.
      - rewrite Ps. constructor; [|constructor]. split; [reflexivity|exact Ol].
      - rewrite Ps. split; [cbn; lia|]. constructor; [|constructor]. unfold prop_in_limit. cbn [pp_data]. lia. }
    assert (Fk' : frame_ok f').
    { unfold f', frame_ok. cbn [f_tid f_seoj f_deoj f_esv f_body wbody_ok]. destruct Wt as [W0 W1]. split; [lia|]. split; [lia|]. split; [lia|]. split; [lia|].
      split; [intros [X|[X|X]]; discriminate|]. split; [|cbn; lia]. constructor; [|constructor]. split; [reflexivity|]. split; [exact Ol|cbn [snd]; lia]. }
    assert (Pd' : msg_parse msg_new d' = Ret (true, msg_of_frame msg_new f')).
    { rewrite Ed', <- (app_nil_r (wire f')). apply parse_wire. auto. }
    assert (Ew : wire f' = [0x10; 0x81; (fst t' * 256 + snd t') / 256; (fst t' * 256 + snd t') mod 256; 0x0E; 0xF0; 0x01; 0x0E; 0xF0; 0x01; 0x72; 1; 0xD6;
      N.of_nat (length (instance_list (added ops)))] ++ instance_list (added ops)).
    { transitivity ([0x10; 0x81; (fst t' * 256 + snd t') / 256; (fst t' * 256 + snd t') mod 256; 0x0E; 0xF0; 0x01; 0x0E; 0xF0; 0x01; 0x72; 1; 0xD6;
      N.of_nat (length (instance_list (added ops)))] ++ instance_list (added ops) ++ []); [reflexivity|]. rewrite app_nil_r. reflexivity. }
    assert (Fd' : firstn MAX_PACKET_SIZE d' = d').
    { apply firstn_all2. rewrite Ed', Ew. cbn [app length]. change MAX_PACKET_SIZE with (300 + 724)%nat. lia. }
    exists (msg_of_frame msg_new f'). rewrite Fd'. split; auto. intros ms w3 rs w4 H.
    pose proof (carries_msg_of_frame f' Fk') as (D1 & D2 & D3 & D4 & _). 
    destruct (C60_latest_list ms w3 rs w4 (msg_set_from (msg_of_frame msg_new f') a2) [] (added ops) [] H) as (rs' & w5 & r & E & I1 & A & U1 & K & M & _).
    - exists d', (msg_of_frame msg_new f'), a2. split; [|auto]. rewrite Ed', Ew. apply octets_app. split; [|exact Ol].
      destruct Wt as [W0 W1]. unfold octets, octet. repeat (apply Forall_cons; [try lia|]); try apply Forall_nil.
    - split; left; [exact D4|exact D3].
    - reflexivity.
    - constructor.
    - exact Bd.
    - exists rs', w5, r. split; auto. split; auto. split; auto. split; auto. split; auto. split; auto.
      rewrite M, Codes. apply Permutation_sym. apply (Permutation_cons_append (added ops) 0x0EF001).
  Qed.
  End DB.

  (** ** C62 *)
  (** stop never changes the list of entries. *)
  Theorem C62_stop_refuted : forall U db (h : host U) w h' w', host_step db (h, w) HCtrlStop = Ret (h', w') -> h_remotes h' = h_remotes h.
  Proof.
    intros U db h w h' w' E. cbn [host_step] in E. destruct (h_cpoisoned h); [discriminate|]. destruct (h_poisoned h); [discriminate|].
    unfold controller_stop in E. destruct (node_stop _) as [[? ?]|]; cbn [obind] in E; [|discriminate]. inversion E; subst; auto.
  Qed.
End S.
Print Assumptions C59_one_per_socket_partial.
Print Assumptions C59_same_ip_refuted.
Print Assumptions C60_latest_list.
Print Assumptions C61_forgets_refuted.
Print Assumptions C61_others_kept_partial.
Print Assumptions C62_stop_refuted.
Print Assumptions C63_excess_refuted.
Print Assumptions C63_short_partial.
Print Assumptions C64_discovery.

(** ** Concrete cases *)
Definition ex_db : list object := the [] (standard_database (P := true) (HO := ex_order) (fun k => k)).
Definition ex_uuids : Uuids := {| new_uuid := fun k => repeat (k mod 256) 16 |}.
(** A controller that was started and received datagrams. *)
Definition ex_host : host unit := host_new tt ex_node0.
Definition ex_hops (ds : list (list N * sockaddr)) : list (host_op unit) :=
  HApi (OpAddObserver (Observer 7 ObsController)) :: HCtrlStart :: map (fun x => HRecv (Uni 0) (fst x) (snd x) (fun _ => true)) ds.
Definition ex_entries (ops : list (host_op unit)) : option (list (sockaddr * list N)) :=
  match host_run (P := true) (HO := ex_order) (O := ex_os) (Uu := ex_uuids) ex_db (ex_host, w0) ops with
  | Ret (h, _) => Some (map (fun r => (rn_addr r, map object_code (rn_objects r))) (h_remotes h))
  | Panic => None
  end.
Definition list_datagram (count : N) (codes : list N) : list N :=
  [0x10; 0x81; 0; 1; 0x0E; 0xF0; 1; 0x0E; 0xF0; 1; 0x72; 1; 0xD6; N.of_nat (1 + 3 * length codes); count] ++ flat_map wire_eoj codes.
(** The lamp 0x029101 answers a read of its property 0x80. *)
Definition lamp_answer : list N := [0x10; 0x81; 0; 2; 0x02; 0x91; 1; 0x0E; 0xF0; 1; 0x72; 1; 0x80; 1; 0x30].
Definition node_a : sockaddr := (V4 0xC0A80014, 3610).
Definition node_b : sockaddr := (V4 0xC0A80015, 3610).

Lemma ex_db_standard : standard_database (P := true) (HO := ex_order) (fun k => k) = Ret ex_db.
Proof. vm_compute. reflexivity. Qed.
Lemma ex_uuids_ok : forall k, uuid_ok (new_uuid (Uuids := ex_uuids) k).
Proof.
  intro k. cbn [new_uuid ex_uuids]. generalize (k mod 256) (N.mod_lt k 256). intros x H. split; [reflexivity|].
  apply Forall_forall. intros y I. apply repeat_spec in I. subst. unfold octet. lia.
Qed.

Example C59_case : ex_entries (ex_hops [(list_datagram 1 [0x029101], node_a); (list_datagram 1 [0x013001], (fst node_a, 50000))]) =
  Some [(node_a, [0x029101; 0x0EF001]); ((fst node_a, 50000), [0x013001; 0x0EF001])].
Proof. vm_compute. reflexivity. Qed.
Example C60_case : ex_entries (ex_hops [(list_datagram 1 [0x029101], node_a); (list_datagram 1 [0x013001], node_b);
    (list_datagram 2 [0x029101; 0x029102], node_a)]) =
  Some [(node_b, [0x013001; 0x0EF001]); (node_a, [0x029101; 0x029102; 0x0EF001])].
Proof. vm_compute. reflexivity. Qed.
Example C61_case : ex_entries (ex_hops [(list_datagram 1 [0x029101], node_a); (lamp_answer, node_a)]) = Some [(node_a, [0x0EF001])].
Proof. vm_compute. reflexivity. Qed.
Example C62_case : ex_entries (ex_hops [(list_datagram 1 [0x029101], node_a)] ++ [HCtrlStop]) = Some [(node_a, [0x029101; 0x0EF001])].
Proof. vm_compute. reflexivity. Qed.
Example C63_case :
  ex_entries (ex_hops [(list_datagram 1 [0x029101; 0x029102], node_a)]) = Some [(node_a, [0x029101; 0x029102; 0x0EF001])] /\
  ex_entries (ex_hops [(list_datagram 3 [0x029101; 0x029102], node_a)]) = Some [(node_a, [0x0EF001])].
Proof. vm_compute. auto. Qed.

(** Two processes: the controller searches, the node with the lamp answers, the
    controller receives the answer. *)
Definition ex_discovery : option (list (sockaddr * list N)) :=
  match host_run (P := true) (HO := ex_order) (O := ex_os) (Uu := ex_uuids) ex_db (ex_host, w0) (ex_hops []) with
  | Panic => None
  | Ret (c, wc) =>
    let '(_, _, wc') := controller_search_all (O := ex_os) wc (h_node c) in
    match skipn (length (w_trace wc)) (w_trace wc'), ex_run (OpAddObject lamp :: [OpStart]) with
    | EvSend _ _ d _ :: _, Ret (u, n, wn) =>
      match msg_parse msg_new d with
      | Ret (true, m) =>
        match node_observe (P := true) (HO := ex_order) (O := ex_os) wn u n (msg_set_from m node_b) with
        | Ret (_, _, wn') =>
          match skipn (length (w_trace wn)) (w_trace wn') with
          | [EvSend _ to d' true] => if sockaddr_eqb to node_b then ex_entries (ex_hops [(d', node_a)]) else None
          | _ => None
          end
        | Panic => None
        end
      | _ => None
      end
    | _, _ => None
    end
  end.
Example C64_case : ex_discovery = Some [(node_a, [0x029101; 0x0EF001])].
Proof. vm_compute. reflexivity. Qed.
(** The assumptions of C64 on the node profile hold for the one of every node of
    the library; [device_built] and C28 give those on devices. *)
Theorem C64_standard_profile : forall (P : Profile) (HO : HashOrder) seed db u1 u2 s, standard_database seed = Ret db -> uuid_ok u1 -> uuid_ok u2 ->
  exists np, node_profile_object db u1 u2 s = Ret np /\ profile_like np /\ can_read np 0xD6 /\ std_keys np.
Proof.
  intros P HO seed db u1 u2 s E U1 U2. destruct (profile_object seed db u1 u2 s E U1 U2) as (o & D & B & C & F). exists o. split; auto. split; [|split].
  - split; auto. split; auto. intros c L. destruct (F c L) as (A1 & _ & A2). auto.
  - apply (F 0xD6). cbn. tauto.
  - destruct (device_spec seed db u1 u2 s 0x0EF001 E U1 U2) as (o' & D' & _ & K & _). rewrite D in D'. inversion D'; subst. auto.
Qed.
Print Assumptions C64_standard_profile.
