(** C98: on a network that delivers, a search finds every node. *)
From Verif Require Import Base HMap ModelCodec ModelMessages ModelObject ModelTransport ModelNode ModelController ModelHost ModelNetwork
  SpecWire SpecObject SpecNode SpecHost SpecRemote ProofsCodec ProofsCodec2 PropertiesCodec ProofsObject ProofsObject2 ProofsObject3
  PropertiesObject PropertiesDb ProofsDevice ProofsNode ProofsNode2 ProofsNode3 ProofsNode4 ExamplesNode PropertiesNode PropertiesTrans PropertiesProfile ProofsExchange
  ProofsController ProofsHistory PropertiesController ProofsHost ProofsHost2 PropertiesHost PropertiesFrames PropertiesNetwork.

(** ** Vocabulary *)
(** The frame of a search, and the frame of its answer by a node with the devices
    [cs]. *)
Definition asking (t : N) : frame := Frame t 0x0EF001 0x0EF001 0x62 (Single [(0xD6, [])]).
Definition listing (t : N) (cs : list N) : frame := Frame t 0x0EF001 0x0EF001 0x72 (Single [(0xD6, instance_list cs)]).

Section H.
  Context {U : Type}.
  (** The calls on the node. *)
  Definition api (ops : list (host_op U)) : list (node_op U) := flat_map (fun op => match op with HApi op => [op] | _ => [] end) ops.
  (** A receive thread that is in its loop and has the node among its observers. *)
  Definition serves (kind : obs_kind) (s : server) : Prop :=
    sv_thread s = TRunning /\ sv_stop s = false /\ exists o, In o (sv_observers s) /\ ob_kind o = kind.
  (** A process with a running node that has the devices [cs]. *)
  Record running {P : Profile} {HO : HashOrder} {Os : OS} {Uu : Uuids} (db : list object) (cs : list N) (h : host U) (w : world) : Prop := {
    rn_lived : exists np n0 u w0 ops, profile_like np /\ can_read np 0xD6 /\ (forall c p, object_find_property np c = Some p -> 0x80 <= c) /\
      node_new np = Ret n0 /\ Forall hop_ok ops /\ Forall undisturbed (api ops) /\ added (api ops) = cs /\
      host_run db (host_new u n0, w0) ops = Ret (h, w);
    rn_few : (length cs <= 84)%nat;
    rn_up : mg_ucast (n_mgr (h_node h)) <> [] /\ mg_mcast (n_mgr (h_node h)) <> [];
    rn_serves : Forall (serves ObsNode) (all_servers (n_mgr (h_node h))) }.
End H.

(** A network that loses nothing. Datagrams carry the number of the process that
    sent them. *)
Section V.
  Context {U : Type}.
  Variable machines : nat -> machine.
  Variable addr : nat -> sockaddr. (* the address under which others see a process *)
  Definition flight : Type := list (nat * packet).
  Inductive carried (p : packet) : list (host U * world) -> list reception -> list (host U * world) -> flight -> Prop :=
  | carried_nil hs : carried p hs [] hs []
  | carried_cons hs r h w h' w' tr rs hs' new :
      nth_error hs (rc_host r) = Some (h, w) -> takes machines (rc_host r) r h w p = (h', w') -> since w w' tr ->
      carried p (set_nth hs (rc_host r) (h', w')) rs hs' new ->
      carried p hs (r :: rs) hs' (map (pair (rc_host r)) (packets tr) ++ new).
  Definition listens (hs : list (host U * world)) (k : nat) (r : reception) : Prop :=
    rc_host r = k /\ exists h w s, nth_error hs k = Some (h, w) /\ h_server h (rc_server r) = Some s.
  (** A datagram of process [j] reaches, in any order and possibly more than once,
      at least every process that it is for; receivers see the address of [j], and
      nobody else uses their nodes and controllers at the time. *)
  Inductive delivery : list (host U * world) * flight -> list (host U * world) * flight -> Prop :=
  | Delivery hs pre j p post rs hs' new :
      Forall (fun r => rc_from r = addr j /\ forall i, rc_free r i = true) rs ->
      (forall k, (k < length hs)%nat -> pk_to p = group \/ fst (pk_to p) = fst (addr k) -> exists r, In r rs /\ listens hs k r) ->
      carried p hs rs hs' new ->
      delivery (hs, pre ++ (j, p) :: post) (hs', pre ++ post ++ new).
  Inductive deliveries_made : list (host U * world) * flight -> nat -> list (host U * world) * flight -> Prop :=
  | made_none s : deliveries_made s 0 s
  | made_one s s1 n s2 : delivery s s1 -> deliveries_made s1 n s2 -> deliveries_made s (S n) s2.
End V.

(** ** One process *)
Section One.
  Context {U : Type} {P : Profile} {HO : HashOrder} {Os : OS} {Uu : Uuids}.
  Variables (seed : N -> N) (db : list object).
  Hypothesis Db : standard_database seed = Ret db.
  Hypothesis Uo : forall k, uuid_ok (new_uuid k).

  Section R.
  Variable rd : N -> rule.
  Definition sited (cs : list N) (n : node U) : Prop :=
    profile_inv rd n /\ map object_code (n_objects n) = 0x0EF001 :: cs /\ In HNode (n_handlers n).
  Lemma sited_step cs (u : U) n w op u' n' w' : op_ok op -> undisturbed op -> node_good n -> sited cs n ->
    node_step (u, n, w) op = Ret (u', n', w') -> sited (cs ++ added [op]) n'.
  Proof.
    intros K Un G (I & M & H) E. destruct (inv_step rd u n w op u' n' w' K Un G I E) as [I' M']. destruct (step_shapes u n w op u' n' w' K E) as [_ Sh].
    split; auto. split; [rewrite M', M; reflexivity|]. rewrite Sh. apply in_app_iff. auto.
  Qed.
  Lemma sited_same cs (n n' : node U) : n_objects n' = n_objects n -> n_handlers n' = n_handlers n -> sited cs n -> sited cs n'.
  Proof. intros A B (I & M & H). split; [eapply inv_same; eauto|]. rewrite A, B. auto. Qed.
  Lemma sited_observe cs w (u : U) n m u' n' w' : received m -> node_good n -> sited cs n -> node_observe w u n m = Ret (u', n', w') -> sited cs n'.
  Proof.
    intros R G S E. rewrite <- (app_nil_r cs). apply (sited_step cs u n w (OpRecv m) u' n' w' R Logic.I G S). cbn [node_step]. rewrite E. reflexivity.
  Qed.
  Lemma sited_notify cs free m l : received m -> m_esv m <> 0x5E -> forall i (h : host U) w bad h' w', healthy h -> sited cs (h_node h) ->
    notify_observers db free i h w l m = (bad, h', w') -> sited cs (h_node h').
  Proof.
    intros R Ne. induction l as [|o r IH]; intros i h w bad h' w' Hh S E; cbn [notify_observers] in E; [inversion E; subst; auto|].
    rewrite (hh_wpoisoned h Hh) in E. cbn [existsb] in E.
    assert (Hc : healthy (h_called h o m)) by (destruct Hh; constructor; auto).
    destruct (received_healthy seed db Db Uo (free i) (h_called h o m) w o m Hc R Ne) as (h1 & w1 & E1 & H1 & _). rewrite E1 in E.
    eapply IH; [exact H1| |exact E]. clear E IH. unfold observer_received in E1. destruct (ob_kind o).
    - destruct (_ || _); [inversion E1; subst; exact S|]. destruct (node_observe w _ _ m) as [[[u1 n1] w2]|] eqn:Eo; inversion E1; subst. cbn [h_node h_with_node h_called].
      eapply sited_observe; [exact R| |exact S|exact Eo]. exact (hn_good _ (hh_node _ Hh)).
    - inversion E1; subst; exact S.
    - destruct (_ || _); [inversion E1; subst; exact S|]. destruct (controller_observe _ _ _ _) as [[r1 w2]|]; inversion E1; subst; exact S.
    - inversion E1; subst; exact S.
  Qed.
  Lemma sited_receive cs free (h : host U) w i d a : safe d -> healthy h -> sited cs (h_node h) -> sited cs (h_node (fst (receive db free h w i d a))).
  Proof.
    intros Sd Hh S. unfold receive. destruct (h_server h i) as [s|] eqn:Es; [|exact S]. destruct (sv_thread s); try exact S. destruct (sv_stop s); [exact S|].
    rewrite max_packet. destruct Sd as [Od Hf He]. destruct (parse_seen d Od) as [(f & Hd & ->)|[(_ & m & ->)|(X & _)]]; [|exact S|contradiction].
    destruct (sv_poisoned s); [exact S|]. destruct (held_received d f a Od Hd) as [R C].
    destruct (notify_observers db free 0 h w (sv_observers s) _) as [[bad h1] w1] eqn:En.
    apply (sited_notify cs) in En; auto.
    - destruct bad; exact En.
    - destruct C as (_ & _ & _ & -> & _). auto.
  Qed.
  Lemma sited_host_step cs (h : host U) w op h' w' : hop_ok op -> Forall undisturbed (api [op]) -> healthy h -> sited cs (h_node h) ->
    host_step db (h, w) op = Ret (h', w') -> sited (cs ++ added (api [op])) (h_node h').
  Proof.
    intros K Un Hh S E. assert (Z : api [op] = [] -> sited cs (h_node h') -> sited (cs ++ added (api [op])) (h_node h')) by (intros -> X; rewrite app_nil_r; exact X).
    pose proof (hn_good _ (hh_node _ Hh)) as G.
    destruct op; cbn [host_step] in E; try (apply Z; [reflexivity|]; clear Z).
    - destruct (h_poisoned h); [discriminate|]. destruct (node_step (h_user h, h_node h, w) op) as [[[u1 n1] w1]|] eqn:E1; cbn [obind] in E; [|discriminate].
      inversion E; subst. cbn [h_node h_with_node api flat_map app]. eapply sited_step; [| |exact G|exact S|exact E1].
      + destruct op; try contradiction; destruct K; auto.
      + exact (Forall_inv Un).
    - destruct (h_cpoisoned h); [discriminate|]. destruct (h_poisoned h); [discriminate|]. unfold controller_search_object in E.
      destruct (node_notify w (h_node h) _) as [[[b m1] n1] w1] eqn:E1. inversion E; subst. apply node_notify_spec in E1 as (A & _).
      apply update_tid_keeps in A as (A & B & _). eapply sited_same; eauto.
    - destruct (h_cpoisoned h); [inversion E; subst; auto|]. destruct (h_poisoned h); [discriminate|]. unfold controller_send in E.
      destruct (node_send w (h_node h) _ _) as [[[b m1] n1] w1] eqn:E1. inversion E; subst. apply node_send_spec in E1 as (A & _).
      apply update_tid_keeps in A as (A & B & _). eapply sited_same; eauto.
    - destruct (h_cpoisoned h); [discriminate|]. destruct (h_poisoned h); [discriminate|]. unfold controller_post in E.
      destruct (node_post w (h_node h) _ _) as [[[b m1] n1] w1] eqn:E1. inversion E; subst. apply node_post_spec in E1 as (_ & _ & n2 & ok & tr & A & -> & _).
      apply update_tid_keeps in A as (A & B & _). eapply sited_same; [| |exact S]; cbn; auto.
    - destruct (h_cpoisoned h); [discriminate|]. destruct (controller_nodes _ _) as [x|]; cbn [obind] in E; [|discriminate]. inversion E; subst; auto.
    - destruct (h_cpoisoned h); [discriminate|]. destruct (h_poisoned h); [discriminate|]. unfold controller_start in E.
      destruct (node_start w (h_node h)) as [[[ok n1] w1]|] eqn:E1; cbn [obind] in E; [|discriminate]. inversion E; subst. cbn [h_node h_with_node h_with_remotes].
      rewrite <- (app_nil_r cs). apply (sited_step cs (h_user h) (h_node h) w OpStart (h_user h) n1 w' Logic.I Logic.I G S). cbn [node_step]. rewrite E1. reflexivity.
    - destruct (h_cpoisoned h); [discriminate|]. destruct (h_poisoned h); [discriminate|]. unfold controller_stop in E.
      destruct (node_stop (h_node h)) as [[ok n1]|] eqn:E1; cbn [obind fst snd] in E; [|discriminate]. inversion E; subst. cbn [h_node h_with_node h_with_remotes].
      rewrite <- (app_nil_r cs). apply (sited_step cs (h_user h) (h_node h) w' OpStop (h_user h) n1 w' Logic.I Logic.I G S). cbn [node_step]. rewrite E1. reflexivity.
    - inversion E as [E1]. pose proof (sited_receive cs free h w i data from K Hh S) as X. rewrite E1 in X. exact X.
    - inversion E; subst. unfold receive_error. destruct (h_server h i) as [s|]; auto. destruct (sv_thread s); auto.
  Qed.
  Lemma sited_run ops : forall cs (h : host U) w h' w', Forall hop_ok ops -> Forall undisturbed (api ops) -> healthy h -> sited cs (h_node h) ->
    host_run db (h, w) ops = Ret (h', w') -> sited (cs ++ added (api ops)) (h_node h').
  Proof.
    induction ops as [|op r IH]; intros cs h w h' w' F Un Hh S E; cbn [host_run] in E; [inversion E; subst; cbn; rewrite app_nil_r; auto|].
    destruct (hstep_healthy seed db Db Uo h w op (Forall_inv F) Hh) as (h1 & w1 & E1 & H1). rewrite E1 in E. cbn [obind] in E.
    change (op :: r) with ([op] ++ r) in *. unfold api in Un |- *. rewrite flat_map_app in Un |- *. apply Forall_app in Un as [U1 U2].
    unfold added. rewrite flat_map_app, app_assoc. eapply IH; [exact (Forall_inv_tail F)|exact U2|exact H1| |exact E].
    eapply sited_host_step; [exact (Forall_inv F)|exact U1|exact Hh|exact S|exact E1].
  Qed.

  (** What is known of a running process. *)
  Record ready (cs : list N) (h : host U) : Prop := {
    rd_healthy : healthy h; rd_sited : sited cs (h_node h);
    rd_few : (length cs <= 84)%nat; rd_codes : Forall (fun c => c < 16777216) cs; rd_devices : filter (fun c => negb (c =? 0x0EF001)) cs = cs;
    rd_up : mg_ucast (n_mgr (h_node h)) <> [] /\ Forall bound (mg_ucast (n_mgr (h_node h)));
    rd_serves : Forall (serves ObsNode) (all_servers (n_mgr (h_node h)));
    rd_nodup : NoDup (map rn_addr (h_remotes h)) }.
  Hypothesis Rd : allows (rd 0xD6).

  Lemma asking_ok t : t < 65536 -> frame_ok (asking t).
  Proof. intro Ht. repeat split; cbn; try lia; repeat constructor; cbn; try lia. intros [X|[X|X]]; discriminate. Qed.
  Lemma listing_wire t cs : wire (listing t cs) = [0x10; 0x81; t / 256; t mod 256; 0x0E; 0xF0; 0x01; 0x0E; 0xF0; 0x01; 0x72; 1; 0xD6;
      N.of_nat (length (instance_list cs))] ++ instance_list cs.
  Proof.
    transitivity ([0x10; 0x81; t / 256; t mod 256; 0x0E; 0xF0; 0x01; 0x0E; 0xF0; 0x01; 0x72; 1; 0xD6;
      N.of_nat (length (instance_list cs))] ++ instance_list cs ++ []); [reflexivity|]. rewrite app_nil_r. reflexivity.
  Qed.
  Lemma listing_ok t cs : t < 65536 -> (length cs <= 84)%nat -> Forall (fun c => c < 16777216) cs -> frame_ok (listing t cs).
  Proof.
    intros Ht Len Bd. unfold listing, frame_ok. cbn [f_tid f_seoj f_deoj f_esv f_body wbody_ok]. split; [lia|]. split; [lia|]. split; [lia|]. split; [lia|].
    split; [intros [X|[X|X]]; discriminate|]. split; [|cbn; lia]. constructor; [|constructor]. split; [reflexivity|].
    split; [apply instance_list_octets; [exact Bd|lia]|cbn [snd]; rewrite instance_list_length; lia].
  Qed.
  Lemma listing_short t cs : (length cs <= 84)%nat -> (length (wire (listing t cs)) <= N.to_nat 1024)%nat.
  Proof. intro Len. rewrite listing_wire, app_length, instance_list_length. cbn [length]. change (N.to_nat 1024) with (300 + 724)%nat. lia. Qed.
  Lemma asking_short t : (length (wire (asking t)) <= N.to_nat 1024)%nat.
  Proof. unfold asking, wire. cbn. change (N.to_nat 1024) with (300 + 724)%nat. lia. Qed.

  (** A node that is asked answers with its list. *)
  Lemma node_lists cs w (u : U) n a t : t < 65536 -> healthy_node n -> sited cs n -> (length cs <= 84)%nat -> Forall (fun c => c < 16777216) cs ->
    filter (fun c => negb (c =? 0x0EF001)) cs = cs -> can_send n ->
    exists u' n' w' tr t' (ok : bool), node_observe w u n (msg_set_from (msg_of_frame msg_new (asking t)) a) = Ret (u', n', w') /\ since w w' tr /\ t' < 65536 /\
      sent tr = (if ok then [((fst a, 3610), wire (listing t' cs))] else []) /\ ((forall k, os_send k = true) -> ok = true).
  Proof.
    intros Ht [G Sn Tt Fm] ((Ho & np & rest & Eo & Co & _ & Li) & Mc & Hn) Len Bd Dv Cs.
    pose proof (asking_ok t Ht) as Fk. set (m := msg_of_frame msg_new (asking t)).
    assert (Rm : received (msg_set_from m a)).
    { exists (wire (asking t)), m, a. split; [apply wire_octets; auto|]. split; [|reflexivity]. rewrite <- (app_nil_r (wire _)). apply parse_wire. auto. }
    pose proof (received_rcvd _ Rm) as Rc.
    pose proof (carries_msg_of_frame (asking t) Fk) as (C1 & C2 & C3 & C4 & C5 & C6 & C7). fold m in C1, C2, C3, C4, C5, C6, C7. cbn [f_tid f_seoj f_deoj f_esv f_body asking] in C1, C2, C3, C4, C5.
    assert (Mp : m_props m = [PProp 0xD6 []]) by reflexivity.
    destruct (Li 0xD6) as (p6 & Ep6 & Ec6 & _ & Rd6 & Dt6); [unfold list_code; cbn; tauto|].
    assert (Ao : addressed (n_objects n) 0x0EF001 np) by (exists [], rest; split; auto).
    assert (Op : p_data p6 = instance_list cs).
    { rewrite Mc in Dt6. destruct (last_profile (0x0EF001 :: cs)) as (_ & _ & _ & L6 & _).
      change (last_data 0xD6 (profile_data (0x0EF001 :: cs)) = Some (as_u8 (N.of_nat (length (0x0EF001 :: cs)) - 1) :: flat_map instance_entry (0x0EF001 :: cs))) in L6.
      rewrite L6 in Dt6. rewrite instance_entries in Dt6 by (constructor; [lia|exact Bd]). cbn [filter N.eqb Pos.eqb negb] in Dt6. rewrite Dv in Dt6.
      assert (K : as_u8 (N.of_nat (length (0x0EF001 :: cs)) - 1) = N.of_nat (length cs)) by (cbn [length]; unfold as_u8; lia).
      rewrite K in Dt6. unfold instance_list. congruence. }
    destruct (observe_total w u n (msg_set_from m a) Rc G Sn Tt) as (u2 & n2 & w2 & Ob).
    { change (m_esv (msg_set_from m a)) with (m_esv m). rewrite C4. discriminate. }
    assert (Pm : permitted np (msg_set_from m a)).
    { split; [constructor|]. change (Forall (may_read np) (m_props m)). rewrite Mp. repeat constructor. exists p6. cbn [pp_code]. split; auto. rewrite Rd6. exact Rd. }
    assert (Ac : accepted_by (n_handlers n) np (msg_set_from m a)).
    { right. exists HNode. split; auto. intros sd copy Ec x p x' copy' b Ip Ch.
      change (In p (m_props m)) in Ip. rewrite Mp in Ip. destruct Ip as [<-|[]]. cbn [call_handler] in Ch. injection Ch as _ _ Ch. rewrite <- Ch. clear Ch.
      assert (Go : obj_good np). { destruct G as [G _]. rewrite Eo in G. inversion G; auto. }
      pose proof (clone_shape sd np copy Go Ec) as Sh. unfold node_handler.
      assert (Cc : object_code copy = 0x0EF001). { rewrite <- (object_code_codes np copy); [auto|apply Sh]. }
      unfold NODE_PROFILE_OBJECT_CODE. rewrite Cc. cbn [negb N.eqb Pos.eqb]. change (msg_esv (msg_set_from m a)) with EReadRequest. cbn [pp_code].
      destruct (object_find_property copy 0xD6) eqn:Z; [reflexivity|]. exfalso. apply (proj1 (proj2 (proj2 (proj2 Sh)))) in Z. congruence. }
    assert (Em : m_esv (msg_set_from m a) = 0x62) by exact C4.
    assert (Dm : msg_deoj (msg_set_from m a) = 0x0EF001) by exact C3.
    destruct (reply w u n (msg_set_from m a) u2 n2 w2 np Rc G Ho (or_intror Em)) as
      (pre & post & o' & ps & t' & tr & ok & _ & _ & _ & Sh & Go' & Fp & Eps & Wt & _ & S & _ & Fo & Se & Ok & _); auto.
    assert (Ps : ps = [PProp 0xD6 (instance_list cs)]).
    { rewrite Eps, Em. change (m_props (msg_set_from m a)) with (m_props m). rewrite Mp. cbn [N.eqb Pos.eqb map]. f_equal. unfold held. cbn [pp_code].
      pose proof (Fp 0xD6 eq_refl) as X. rewrite Ep6 in X. cbn in X. unfold data_of, object_property_data. rewrite X. cbn. rewrite Op. reflexivity. }
    clear Eps. change (msg_from (msg_set_from m a)) with a in *. rewrite Em in Fo, Se.
    exists u2, n2, w2, tr, (fst t' * 256 + snd t'), ok. split; auto. split; auto. split; [destruct Wt; lia|]. split; [|intro Al; exact (Ok Al Cs)]. rewrite Se. destruct ok; [|reflexivity]. f_equal. f_equal.
    rewrite with_t_wire.
    - change (msg_deoj (msg_set_from m a)) with (msg_deoj m). change (msg_seoj (msg_set_from m a)) with (msg_seoj m). rewrite C2, C3, Ps. reflexivity.
    - apply Rc.
    - exact Wt.
    - reflexivity.
    - intros [X|[X|X]]; discriminate.
    - rewrite Ps. constructor; [|constructor]. split; [reflexivity|]. apply instance_list_octets; [exact Bd|lia].
    - rewrite Ps. split; [cbn; lia|]. constructor; [|constructor]. unfold prop_in_limit. cbn [pp_data]. rewrite instance_list_length. lia.
  Qed.

  Definition answers (a : sockaddr) (cs : list N) (x : sockaddr * list N) : Prop :=
    fst x = (fst a, 3610) /\ exists t, t < 65536 /\ snd x = wire (listing t cs).
  Lemma parts_same (h h' : host U) cs : ready cs h -> healthy h' -> sited cs (h_node h') -> n_mgr (h_node h') = n_mgr (h_node h) ->
    NoDup (map rn_addr (h_remotes h')) -> ready cs h'.
  Proof. intros [A B C D E F G H] A' B' M N'. constructor; auto; rewrite M; auto. Qed.
  Lemma ready_sends cs (h : host U) : ready cs h -> can_send (h_node h).
  Proof. intros [_ _ _ _ _ [A B] _ _]. unfold can_send. destruct (mg_ucast _) as [|s r]; [contradiction|]. exists s. split; [left; auto|]. exact (Forall_inv B). Qed.

  Lemma notify_lists cs free a t l : t < 65536 -> forall i (h : host U) w, ready cs h ->
    exists h' w' tr, notify_observers db free i h w l (msg_set_from (msg_of_frame msg_new (asking t)) a) = (false, h', w') /\ ready cs h' /\
      n_mgr (h_node h') = n_mgr (h_node h) /\ h_remotes h' = h_remotes h /\ since w w' tr /\ Forall (answers a cs) (sent tr) /\
      ((forall k, os_send k = true) -> (forall k, free k = true) -> (exists o, In o l /\ ob_kind o = ObsNode) -> sent tr <> []).
  Proof.
    intros Ht. set (m := msg_set_from (msg_of_frame msg_new (asking t)) a).
    assert (Rm : received m).
    { exists (wire (asking t)), (msg_of_frame msg_new (asking t)), a. pose proof (asking_ok t Ht). split; [apply wire_octets; auto|]. split; [|reflexivity]. rewrite <- (app_nil_r (wire _)). apply parse_wire. auto. }
    assert (Ne : m_esv m <> 0x5E) by (vm_compute; discriminate).
    induction l as [|o r IH]; intros i h w Rh; cbn [notify_observers].
    { exists h, w, []. split; auto. split; auto. split; auto. split; auto. split; [apply since_refl|]. split; [constructor|]. intros _ _ (o & [] & _). }
    pose proof (rd_healthy _ _ Rh) as Hh. rewrite (hh_wpoisoned h Hh). cbn [existsb].
    assert (Hc : healthy (h_called h o m)) by (destruct Hh; constructor; auto).
    destruct (received_healthy seed db Db Uo (free i) (h_called h o m) w o m Hc Rm Ne) as (h1 & w1 & E & H1 & _ & M1 & _). rewrite E.
    assert (T : ready cs h1 /\ h_remotes h1 = h_remotes h /\ exists tr, since w w1 tr /\ Forall (answers a cs) (sent tr) /\ (ob_kind o = ObsNode -> (forall k, os_send k = true) -> free i = true -> sent tr <> [])).
    { assert (Idle : (false, h_called h o m, w) = (false, h1, w1) -> (ob_kind o = ObsNode -> free i = false) -> ready cs h1 /\ h_remotes h1 = h_remotes h /\ exists tr, since w w1 tr /\ Forall (answers a cs) (sent tr) /\ (ob_kind o = ObsNode -> (forall k, os_send k = true) -> free i = true -> sent tr <> [])).
      { intros X Nf. inversion X; subst. split; [eapply parts_same; [exact Rh|exact H1|exact (rd_sited _ _ Rh)|reflexivity|exact (rd_nodup _ _ Rh)]|]. split; [reflexivity|].
        exists []. split; [apply since_refl|]. split; [constructor|]. intros Y _ Z. rewrite (Nf Y) in Z. discriminate. }
      unfold observer_received in E. destruct (ob_kind o) eqn:Ko.
      - rewrite (hh_poisoned _ Hc) in E. cbn [orb] in E. destruct (free i) eqn:Fi; cbn [negb] in E; [|apply Idle; auto].
        destruct (node_lists cs w (h_user (h_called h o m)) (h_node (h_called h o m)) a t Ht (hh_node _ Hh) (rd_sited _ _ Rh) (rd_few _ _ Rh) (rd_codes _ _ Rh) (rd_devices _ _ Rh) (ready_sends _ _ Rh))
          as (u' & n' & w' & tr & t' & ok & Eo & S & Lt & Se & Ok).
        fold m in Eo. rewrite Eo in E. inversion E; subst. split.
        + eapply parts_same; [exact Rh|exact H1| |exact M1|exact (rd_nodup _ _ Rh)]. cbn [h_node h_with_node]. eapply sited_observe; [exact Rm|exact (hn_good _ (hh_node _ Hh))|exact (rd_sited _ _ Rh)|exact Eo].
        + split; [reflexivity|]. exists tr. split; auto. rewrite Se. split; [|intros _ Al _; rewrite (Ok Al); discriminate]. destruct ok; [|constructor]. constructor; [|constructor]. split; [reflexivity|]. eauto.
      - inversion E; subst. split; [eapply parts_same; [exact Rh|exact H1|exact (rd_sited _ _ Rh)|reflexivity|exact (rd_nodup _ _ Rh)]|]. split; [reflexivity|].
        exists []. split; [apply since_refl|]. split; [constructor|discriminate].
      - rewrite (hh_cpoisoned _ Hc) in E. cbn [orb] in E. destruct (free i); cbn [negb] in E; [|apply Idle; [exact E|discriminate]]. rewrite controller_ignores in E.
        + inversion E; subst. split; [eapply parts_same; [exact Rh|exact H1|exact (rd_sited _ _ Rh)|reflexivity|exact (rd_nodup _ _ Rh)]|]. split; [reflexivity|].
          exists []. split; [apply since_refl|]. split; [constructor|discriminate].
        + intros [[X|X] _]; vm_compute in X; discriminate.
      - inversion E; subst. split; [eapply parts_same; [exact Rh|exact H1|exact (rd_sited _ _ Rh)|reflexivity|exact (rd_nodup _ _ Rh)]|]. split; [reflexivity|].
        exists []. split; [apply since_refl|]. split; [constructor|discriminate]. }
    destruct T as (R1 & Q1 & tr1 & T1 & T2 & T3).
    destruct (IH (S i) h1 w1 R1) as (h2 & w2 & tr2 & E2 & R2 & M2 & Q2 & S2 & A2 & N2). exists h2, w2, (tr1 ++ tr2). split; auto. split; auto.
    split; [rewrite M2, M1; reflexivity|]. split; [congruence|]. split; [eapply since_trans; eauto|]. rewrite sent_app. split; [apply Forall_app; auto|].
    intros Al Fr (o' & [<-|I] & Ko) X; apply app_eq_nil in X as [X1 X2]; [apply T3; auto|apply N2; eauto].
  Qed.
  (** A receive thread that gets a search. *)
  Lemma receive_search cs free (h : host U) w i a t s : t < 65536 -> ready cs h -> h_server h i = Some s ->
    exists h' w' tr, receive db free h w i (wire (asking t)) a = (h', w') /\ ready cs h' /\
      n_mgr (h_node h') = n_mgr (h_node h) /\ h_remotes h' = h_remotes h /\ since w w' tr /\ Forall (answers a cs) (sent tr) /\ ((forall k, os_send k = true) -> (forall k, free k = true) -> sent tr <> []).
  Proof.
    intros Ht Rh Es.
    assert (Sv : serves ObsNode s).
    { pose proof (rd_serves _ _ Rh) as X. rewrite Forall_forall in X. apply X. unfold all_servers. apply in_app_iff. unfold h_server in Es. destruct i; cbn in Es; apply nth_error_In in Es; auto. }
    destruct Sv as (T & St & Ob). unfold receive. rewrite Es, T, St, max_packet.
    pose proof (wire_holds _ (asking_ok t Ht) (asking_short t)) as (_ & rest & Eq). rewrite Eq, parse_wire by (apply asking_ok; exact Ht).
    pose proof (fine_at _ _ _ (hn_fine _ (hh_node _ (rd_healthy _ _ Rh))) Es) as [-> _].
    destruct (notify_lists cs free a t (sv_observers s) Ht 0%nat h w Rh) as (h' & w' & tr & E & X1 & X2 & X3 & X4 & X5 & X6). rewrite E.
    exists h', w', tr. auto 10.
  Qed.
  Lemma receive_none free (h : host U) w i d a : h_server h i = None -> receive db free h w i d a = (h, w).
  Proof. intro E. unfold receive. rewrite E. reflexivity. Qed.

  (** The entries of a controller. *)
  Definition entry (a : sockaddr) (cs : list N) (rs : list remote_node) : Prop :=
    exists r, In r rs /\ rn_addr r = a /\ map object_code (rn_objects r) = cs ++ [0x0EF001].
  Definition others_same (a : sockaddr) (rs rs' : list remote_node) : Prop := forall x, rn_addr x <> a -> In x rs' <-> In x rs.

  Lemma controller_lists cs w rs a t : t < 65536 -> (length cs <= 84)%nat -> Forall (fun c => c < 16777216) cs -> NoDup (map rn_addr rs) ->
    exists rs' w', controller_observe db w rs (msg_set_from (msg_of_frame msg_new (listing t cs)) a) = Ret (rs', w') /\ entry a cs rs' /\ others_same a rs rs' /\
      NoDup (map rn_addr rs').
  Proof.
    intros Ht Len Bd Nd. pose proof (listing_ok t cs Ht Len Bd) as Fk. set (m := msg_set_from (msg_of_frame msg_new (listing t cs)) a).
    assert (Rm : received m).
    { exists (wire (listing t cs)), (msg_of_frame msg_new (listing t cs)), a. split; [apply wire_octets; auto|]. split; [|reflexivity]. rewrite <- (app_nil_r (wire _)). apply parse_wire. auto. }
    assert (Fp : for_profile m).
    { pose proof (carries_msg_of_frame (listing t cs) Fk) as (_ & _ & C3 & C4 & _). split; left; [exact C4|exact C3]. }
    destruct (controller_entry seed db Db Uo w rs m (received_u8 m Rm) Fp) as (css & r & w' & L & A & B & C & E).
    exists (replace_remote rs r), w'. split; auto.
    assert (Lc : css = [cs]).
    { change (m_props m) with [PProp 0xD6 (instance_list cs)] in L. inversion L as [|? c ? c2 Lc L2]; subst. inversion L2; subst. f_equal.
      symmetry. eapply listed_unique; [|exact Lc]. unfold instance_list. replace (flat_map wire_eoj cs) with (flat_map wire_eoj cs ++ []) by apply app_nil_r.
      apply L_codes; [|cbn; lia|exact Bd]. rewrite app_nil_r. pose proof (instance_list_length cs) as K. unfold instance_list in K. cbn [length] in K. lia. }
    subst css. cbn [concat] in C. rewrite app_nil_r in C. unfold replace_remote. split; [|split].
    - exists r. split; [apply in_or_app; right; left; auto|]. split; auto.
    - intros x Ne. rewrite in_app_iff, remove_spec by auto. cbn [In]. rewrite A. change (msg_from m) with a. split; [intros [[X _]|[X|[]]]; auto; subst; exfalso; apply Ne; exact A|auto].
    - eapply controller_observe_nodup; [exact E|exact Nd].
  Qed.
  Lemma others_refl a rs : others_same a rs rs. Proof. intros x _. tauto. Qed.
  Lemma others_trans a r1 r2 r3 : others_same a r1 r2 -> others_same a r2 r3 -> others_same a r1 r3.
  Proof. intros A B x Ne. rewrite (B x Ne). apply A. exact Ne. Qed.

  Lemma notify_entry cs cs' free a t l : t < 65536 -> (length cs' <= 84)%nat -> Forall (fun c => c < 16777216) cs' -> forall i (h : host U) w, ready cs h ->
    exists h' w' tr, notify_observers db free i h w l (msg_set_from (msg_of_frame msg_new (listing t cs')) a) = (false, h', w') /\ ready cs h' /\
      n_mgr (h_node h') = n_mgr (h_node h) /\ since w w' tr /\ packets tr = [] /\ others_same a (h_remotes h) (h_remotes h') /\
      (entry a cs' (h_remotes h') \/ h_remotes h' = h_remotes h) /\
      (entry a cs' (h_remotes h) \/ (forall k, free k = true) /\ (exists o, In o l /\ ob_kind o = ObsController) -> entry a cs' (h_remotes h')).
  Proof.
    intros Ht Len Bd. pose proof (listing_ok t cs' Ht Len Bd) as Fk. set (m := msg_set_from (msg_of_frame msg_new (listing t cs')) a).
    assert (Rm : received m).
    { exists (wire (listing t cs')), (msg_of_frame msg_new (listing t cs')), a. split; [apply wire_octets; auto|]. split; [|reflexivity]. rewrite <- (app_nil_r (wire _)). apply parse_wire. auto. }
    assert (Em : m_esv m = 0x72) by (pose proof (carries_msg_of_frame (listing t cs') Fk) as (_ & _ & _ & C4 & _); exact C4).
    assert (Ne : m_esv m <> 0x5E) by (rewrite Em; discriminate).
    induction l as [|o r IH]; intros i h w Rh; cbn [notify_observers].
    { exists h, w, []. split; auto. split; auto. split; auto. split; [apply since_refl|]. split; auto. split; [apply others_refl|]. split; auto. intros [X|(_ & o & [] & _)]; auto. }
    pose proof (rd_healthy _ _ Rh) as Hh. rewrite (hh_wpoisoned h Hh). cbn [existsb].
    assert (Hc : healthy (h_called h o m)) by (destruct Hh; constructor; auto).
    destruct (received_healthy seed db Db Uo (free i) (h_called h o m) w o m Hc Rm Ne) as (h1 & w1 & E & H1 & _ & M1 & _). rewrite E.
    assert (T : ready cs h1 /\ others_same a (h_remotes h) (h_remotes h1) /\ (exists tr, since w w1 tr /\ packets tr = []) /\
      (entry a cs' (h_remotes h1) \/ h_remotes h1 = h_remotes h) /\ (entry a cs' (h_remotes h) \/ free i = true /\ ob_kind o = ObsController -> entry a cs' (h_remotes h1))).
    { assert (Idle : (false, h_called h o m, w) = (false, h1, w1) -> (ob_kind o = ObsController -> free i = false) -> ready cs h1 /\ others_same a (h_remotes h) (h_remotes h1) /\ (exists tr, since w w1 tr /\ packets tr = []) /\
        (entry a cs' (h_remotes h1) \/ h_remotes h1 = h_remotes h) /\ (entry a cs' (h_remotes h) \/ free i = true /\ ob_kind o = ObsController -> entry a cs' (h_remotes h1))).
      { intros X Nk. inversion X; subst. split; [eapply parts_same; [exact Rh|exact H1|exact (rd_sited _ _ Rh)|reflexivity|exact (rd_nodup _ _ Rh)]|].
        split; [apply others_refl|]. split; [exists []; split; [apply since_refl|reflexivity]|]. split; [right; reflexivity|]. intros [Y|[Y Z]]; [exact Y|rewrite (Nk Z) in Y; discriminate]. }
      unfold observer_received in E. destruct (ob_kind o) eqn:Ko; try (apply Idle; [exact E|discriminate]).
      - rewrite (hh_poisoned _ Hc) in E. cbn [orb] in E. destruct (free i) eqn:Fi; cbn [negb] in E; [|apply Idle; [exact E|discriminate]].
        destruct (node_observe w (h_user (h_called h o m)) (h_node (h_called h o m)) m) as [[[u1 n1] w2]|] eqn:Eo; inversion E; subst.
        pose proof (hn_good _ (hh_node _ Hh)) as G.
        destruct (observe_packets w _ _ m u1 n1 w1 Rm G Eo) as (_ & _ & tr & S & _ & Z & _). split.
        + eapply parts_same; [exact Rh|exact H1| |exact M1|exact (rd_nodup _ _ Rh)]. cbn [h_node h_with_node]. eapply sited_observe; [exact Rm|exact G|exact (rd_sited _ _ Rh)|exact Eo].
        + split; [apply others_refl|]. split; [|split; [right; reflexivity|intros [Y|[_ Y]]; [exact Y|discriminate]]]. exists tr. split; auto. apply Z. rewrite Em. unfold request_service. cbn. intuition discriminate.
      - rewrite (hh_cpoisoned _ Hc) in E. cbn [orb] in E. destruct (free i) eqn:Fi; cbn [negb] in E; [|apply Idle; [exact E|auto]].
        destruct (controller_lists cs' w (h_remotes (h_called h o m)) a t Ht Len Bd (rd_nodup _ _ Rh)) as (rs' & w' & Ec & En & Ot & Nd). fold m in Ec. rewrite Ec in E. inversion E; subst.
        split; [eapply parts_same; [exact Rh|exact H1|exact (rd_sited _ _ Rh)|reflexivity|exact Nd]|]. split; [exact Ot|]. split; [|split; [left; exact En|intros _; exact En]].
        exists []. split; [|reflexivity]. apply controller_silent in Ec. unfold since. rewrite Ec, app_nil_r. reflexivity. }
    destruct T as (R1 & O1 & (tr1 & T1 & Z1) & D1 & N1).
    destruct (IH (S i) h1 w1 R1) as (h2 & w2 & tr2 & E2 & R2 & M2 & S2 & Z2 & O2 & D2 & N2). exists h2, w2, (tr1 ++ tr2). split; auto. split; auto.
    split; [rewrite M2, M1; reflexivity|]. split; [eapply since_trans; eauto|]. rewrite packets_app, Z1, Z2. split; auto. split; [eapply others_trans; eauto|]. split.
    { destruct D2 as [X|X]; [auto|]. rewrite X. exact D1. }
    intros [X|(Fr & o' & [<-|I] & Ko)]; apply N2; eauto 6.
  Qed.
  (** A receive thread that gets an answer. *)
  Lemma receive_answer cs cs' free (h : host U) w i a t s : t < 65536 -> (length cs' <= 84)%nat -> Forall (fun c => c < 16777216) cs' ->
    ready cs h -> h_server h i = Some s ->
    exists h' w' tr, receive db free h w i (wire (listing t cs')) a = (h', w') /\ ready cs h' /\
      n_mgr (h_node h') = n_mgr (h_node h) /\ since w w' tr /\ packets tr = [] /\ others_same a (h_remotes h) (h_remotes h') /\
      (entry a cs' (h_remotes h') \/ h_remotes h' = h_remotes h) /\
      (entry a cs' (h_remotes h) \/ (forall k, free k = true) /\ serves ObsController s -> entry a cs' (h_remotes h')).
  Proof.
    intros Ht Len Bd Rh Es.
    assert (Sv : serves ObsNode s).
    { pose proof (rd_serves _ _ Rh) as X. rewrite Forall_forall in X. apply X. unfold all_servers. apply in_app_iff. unfold h_server in Es. destruct i; cbn in Es; apply nth_error_In in Es; auto. }
    destruct Sv as (T & St & Ob). unfold receive. rewrite Es, T, St, max_packet.
    pose proof (listing_ok t cs' Ht Len Bd) as Fk.
    pose proof (wire_holds _ Fk (listing_short t cs' Len)) as (_ & rest & Eq). rewrite Eq, parse_wire by exact Fk.
    pose proof (fine_at _ _ _ (hn_fine _ (hh_node _ (rd_healthy _ _ Rh))) Es) as [-> _].
    destruct (notify_entry cs cs' free a t (sv_observers s) Ht Len Bd 0%nat h w Rh) as (h' & w' & tr & E & X1 & X2 & X3 & X4 & X5 & X6 & X7). rewrite E.
    exists h', w', tr. split; auto. split; auto. split; auto. split; auto. split; auto. split; auto. split; auto. intros [X|(Fr & _ & _ & X)]; auto.
  Qed.
  End R.
End One.

(** ** The network *)
Section Net.
  Context {U : Type}.
  Variable machines : nat -> machine.
  Variable addr : nat -> sockaddr.
  Variable total : nat.              (* number of processes *)
  Variable c : nat.                  (* the process of the controller *)
  Variable cs : nat -> list N.       (* their devices *)
  Variable rd : nat -> N -> rule.
  Variable mg : nat -> manager.      (* their servers *)
  Hypothesis Std : forall k, exists seed, standard_database (P := mc_profile (machines k)) (HO := mc_order (machines k)) seed = Ret (mc_db (machines k)).
  Hypothesis Uo : forall k j, uuid_ok (new_uuid (Uuids := mc_uuids (machines k)) j).
  Hypothesis Rd : forall k, (k < total)%nat -> allows (rd k 0xD6).
  Hypothesis Few : forall k, (k < total)%nat -> (length (cs k) <= 84)%nat /\ Forall (fun c => c < 16777216) (cs k).
  Hypothesis Apart : forall j k, (j < total)%nat -> (k < total)%nat -> addr j = addr k -> j = k.
  Hypothesis Ctrl : Forall (serves ObsController) (all_servers (mg c)).
  Hypothesis Cin : (c < total)%nat.

  Definition at_rest (k : nat) (h : host U) : Prop := ready (P := mc_profile (machines k)) (rd k) (cs k) h /\ n_mgr (h_node h) = mg k.
  Definition sound (hs : list (host U * world)) : Prop := length hs = total /\ forall k h w, nth_error hs k = Some (h, w) -> at_rest k h.
  Definition entries (hs : list (host U * world)) : list remote_node := match nth_error hs c with Some (h, _) => h_remotes h | None => [] end.

  Lemma sound_set hs k h w : sound hs -> (k < total)%nat -> at_rest k h -> sound (set_nth hs k (h, w)).
  Proof.
    intros [L S] K A. split; [rewrite set_nth_length; exact L|]. intros j h1 w1 E. rewrite nth_set_nth in E. destruct (Nat.eqb_spec j k) as [->|]; [|eapply S; eauto].
    destruct (Nat.ltb k (length hs)); [|discriminate]. inversion E; subst. exact A.
  Qed.
  Lemma sound_at hs k : sound hs -> (k < total)%nat -> exists h w, nth_error hs k = Some (h, w) /\ at_rest k h.
  Proof.
    intros [L S] K. clear - L S K. destruct (nth_error hs k) as [[h w]|] eqn:E; [|apply nth_error_None in E; lia]. exists h, w. split; auto. eapply S; eauto.
  Qed.
  Lemma entries_set hs k h w : (k < length hs)%nat -> entries (set_nth hs k (h, w)) = if Nat.eqb c k then h_remotes h else entries hs.
  Proof.
    intro K. clear - K. unfold entries. rewrite nth_set_nth. destruct (Nat.eqb_spec c k) as [->|]; auto. destruct (Nat.ltb_spec k (length hs)); [auto|lia].
  Qed.
  Lemma sent_packets (Q : sockaddr * list N -> Prop) tr : Forall Q (sent tr) -> Forall (fun p => Q (pk_to p, pk_data p)) (packets tr).
  Proof. rewrite <- packets_sent. intro F. exact (proj1 (Forall_map (fun p => (pk_to p, pk_data p)) Q (packets tr)) F). Qed.

  Lemma reaches_host (hs : list (host U * world)) r h w : sound hs -> nth_error hs (rc_host r) = Some (h, w) -> (rc_host r < total)%nat.
  Proof. intros [L _] E. rewrite <- L. apply nth_error_Some. congruence. Qed.

  (** The search arrives. *)
  Lemma carried_search p a t : t < 65536 -> pk_data p = wire (asking t) -> forall hs rs hs' new, carried machines p hs rs hs' new -> sound hs ->
    Forall (fun r => rc_from r = a) rs ->
    sound hs' /\ entries hs' = entries hs /\
    Forall (fun x => (fst x < total)%nat /\ answers a (cs (fst x)) (pk_to (snd x), pk_data (snd x))) new /\
    ((forall k j, os_send (OS := mc_os (machines k)) j = true) -> forall k, (k < total)%nat -> (exists r, In r rs /\ (forall i, rc_free r i = true) /\ rc_host r = k /\ server_at (mg k) (rc_server r) <> None) -> exists q, In (k, q) new).
  Proof.
    intros Ht Ep hs rs hs' new C. induction C as [hs|hs r h w h' w' tr rs hs' new E T S C IH]; intros So F.
    { split; auto. split; auto. split; [constructor|]. intros _ k _ (r & [] & _). }
    pose proof (reaches_host hs r h w So E) as Kr. pose proof (Forall_inv F) as Fa. cbn beta in Fa. destruct (proj2 So _ _ _ E) as [Rh Mg].
    unfold takes in T. rewrite Ep, Fa in T.
    assert (X : at_rest (rc_host r) h' /\ h_remotes h' = h_remotes h /\ Forall (answers a (cs (rc_host r))) (sent tr) /\
      (server_at (mg (rc_host r)) (rc_server r) <> None -> (forall j, os_send (OS := mc_os (machines (rc_host r))) j = true) -> (forall i, rc_free r i = true) -> sent tr <> [])).
    { destruct (Std (rc_host r)) as (seed & Db).
      destruct (h_server h (rc_server r)) as [s|] eqn:Es.
      - destruct (receive_search (P := mc_profile (machines (rc_host r))) (HO := mc_order (machines (rc_host r))) (Os := mc_os (machines (rc_host r))) (Uu := mc_uuids (machines (rc_host r)))
          seed _ Db (Uo (rc_host r)) (rd (rc_host r)) (Rd _ Kr) (cs (rc_host r)) (rc_free r) h w (rc_server r) a t s Ht Rh Es)
          as (h1 & w1 & tr1 & E1 & R1 & M1 & Q1 & S1 & A1 & N1).
        rewrite E1 in T. inversion T; subst h1 w1. pose proof (since_unique _ _ _ _ S S1) as <-.
        split; [split; [exact R1|rewrite M1; exact Mg]|]. auto.
      - rewrite (receive_none (P := mc_profile (machines (rc_host r))) (HO := mc_order (machines (rc_host r))) (Os := mc_os (machines (rc_host r))) (Uu := mc_uuids (machines (rc_host r)))) in T by exact Es.
        inversion T; subst h' w'. pose proof (since_unique _ _ _ _ S (since_refl w)) as ->. split; [split; auto|]. split; auto. split; [constructor|].
        intro X. exfalso. apply X. rewrite <- Mg. exact Es. }
    destruct X as (A1 & Q1 & An & Nn).
    destruct IH as (I1 & I2 & I3 & I4); [apply sound_set; auto|exact (Forall_inv_tail F)|].
    split; auto. split.
    { rewrite I2, entries_set by (destruct So as [-> _]; exact Kr). destruct (Nat.eqb_spec c (rc_host r)) as [Ec|]; auto. unfold entries. rewrite Ec, E. exact Q1. }
    split.
    { apply Forall_app. split; auto. apply Forall_map. apply sent_packets in An. eapply Forall_impl; [|exact An]. cbn. auto. }
    intros Al k Kk (r0 & [<-|I] & Ff & Hk & Sv).
    - subst k. specialize (Nn Sv (Al _) Ff). destruct (packets tr) as [|q l] eqn:Eq.
      + exfalso. apply Nn. rewrite <- packets_sent, Eq. reflexivity.
      + exists q. left. reflexivity.
    - destruct (I4 Al k Kk) as (q & Iq); [exists r0; auto|]. exists q. apply in_app_iff. auto.
  Qed.

  (** An answer arrives. *)
  Lemma carried_answer p j t : (j < total)%nat -> t < 65536 -> pk_data p = wire (listing t (cs j)) -> forall hs rs hs' new, carried machines p hs rs hs' new -> sound hs ->
    Forall (fun r => rc_from r = addr j) rs ->
    sound hs' /\ new = [] /\ others_same (addr j) (entries hs) (entries hs') /\
    (entry (addr j) (cs j) (entries hs') \/ entries hs' = entries hs) /\
    (entry (addr j) (cs j) (entries hs) \/ (exists r, In r rs /\ (forall i, rc_free r i = true) /\ rc_host r = c /\ server_at (mg c) (rc_server r) <> None) -> entry (addr j) (cs j) (entries hs')).
  Proof.
    intros Kj Ht Ep hs rs hs' new C. induction C as [hs|hs r h w h' w' tr rs hs' new E T S C IH]; intros So F.
    { split; auto. split; auto. split; [apply others_refl|]. split; auto. intros [X|(r & [] & _)]; auto. }
    pose proof (reaches_host hs r h w So E) as Kr. pose proof (Forall_inv F) as Fa. cbn beta in Fa. destruct (proj2 So _ _ _ E) as [Rh Mg].
    unfold takes in T. rewrite Ep, Fa in T. destruct (Few j Kj) as [Len Bd].
    assert (X : at_rest (rc_host r) h' /\ packets tr = [] /\ others_same (addr j) (h_remotes h) (h_remotes h') /\
      (entry (addr j) (cs j) (h_remotes h') \/ h_remotes h' = h_remotes h) /\
      (entry (addr j) (cs j) (h_remotes h) \/ ((forall i, rc_free r i = true) /\ rc_host r = c /\ server_at (mg c) (rc_server r) <> None) -> entry (addr j) (cs j) (h_remotes h'))).
    { destruct (Std (rc_host r)) as (seed & Db).
      destruct (h_server h (rc_server r)) as [s|] eqn:Es.
      - destruct (receive_answer (P := mc_profile (machines (rc_host r))) (HO := mc_order (machines (rc_host r))) (Os := mc_os (machines (rc_host r))) (Uu := mc_uuids (machines (rc_host r)))
          seed _ Db (Uo (rc_host r)) (rd (rc_host r)) (cs (rc_host r)) (cs j) (rc_free r) h w (rc_server r) (addr j) t s Ht Len Bd Rh Es)
          as (h1 & w1 & tr1 & E1 & R1 & M1 & S1 & Z1 & O1 & D1 & N1).
        rewrite E1 in T. inversion T; subst h1 w1. pose proof (since_unique _ _ _ _ S S1) as <-.
        split; [split; [exact R1|rewrite M1; exact Mg]|]. split; auto. split; auto. split; auto. intros [X|(Ff & X & Y)]; apply N1; auto. right. split; [exact Ff|].
        rewrite Forall_forall in Ctrl. apply Ctrl. unfold h_server in Es. rewrite Mg, X in Es. unfold all_servers. apply in_app_iff.
        destruct (rc_server r); cbn in Es; apply nth_error_In in Es; auto.
      - rewrite (receive_none (P := mc_profile (machines (rc_host r))) (HO := mc_order (machines (rc_host r))) (Os := mc_os (machines (rc_host r))) (Uu := mc_uuids (machines (rc_host r)))) in T by exact Es.
        inversion T; subst h' w'. pose proof (since_unique _ _ _ _ S (since_refl w)) as ->. split; [split; auto|]. split; auto. split; [apply others_refl|]. split; auto.
        intros [X|(_ & X & Y)]; auto. exfalso. apply Y. rewrite <- X, <- Mg. exact Es. }
    destruct X as (A1 & Z1 & O1 & D1 & N1).
    destruct IH as (I1 & I2 & I3 & I5 & I4); [apply sound_set; auto|exact (Forall_inv_tail F)|].
    rewrite entries_set in I3, I4, I5 by (destruct So as [-> _]; exact Kr).
    split; auto. split; [rewrite Z1, I2; reflexivity|].
    assert (En : c = rc_host r -> entries hs = h_remotes h) by (intro Ec; unfold entries; rewrite Ec, E; reflexivity).
    split.
    - destruct (Nat.eqb_spec c (rc_host r)) as [Ec|]; auto. rewrite (En Ec). eapply others_trans; eauto.
    - split.
      { destruct I5 as [X|X]; [auto|]. rewrite X. destruct (Nat.eqb_spec c (rc_host r)) as [Ec|]; [|auto]. rewrite (En Ec). exact D1. }
      intros X. apply I4. destruct (Nat.eqb_spec c (rc_host r)) as [Ec|Nc].
      + destruct X as [X|(r0 & [<-|I0] & Hr)]; [left; apply N1; rewrite <- (En Ec); auto|left; apply N1; auto|right; eauto].
      + destruct X as [X|(r0 & [<-|I0] & Ff & Hr & Sr)]; [auto|exfalso; apply Nc; auto|right; eauto].
  Qed.

  (** The invariant. *)
  Definition is_search (x : nat * packet) : Prop := fst x = c /\ pk_to (snd x) = group /\ exists t, t < 65536 /\ pk_data (snd x) = wire (asking t).
  Definition is_answer (x : nat * packet) : Prop := (fst x < total)%nat /\ answers (addr c) (cs (fst x)) (pk_to (snd x), pk_data (snd x)).
  Record searching (rs0 : list remote_node) (s : list (host U * world) * flight) : Prop := {
    se_sound : sound (fst s);
    se_flight : Forall (fun x => is_search x \/ is_answer x) (snd s);
    se_found : forall k, (k < total)%nat -> (exists x, In x (snd s) /\ (is_search x \/ is_answer x /\ fst x = k)) \/ entry (addr k) (cs k) (entries (fst s));
    se_others : forall x, (forall k, (k < total)%nat -> rn_addr x <> addr k) -> In x (entries (fst s)) <-> In x rs0 }.
  Hypothesis Al : forall k j, os_send (OS := mc_os (machines k)) j = true.
  Lemma delivery_searching rs0 s s' : delivery machines addr s s' -> searching rs0 s -> searching rs0 s'.
  Proof.
    intros D [So Fl Fo Ot]. inversion D as [hs pre j p post rs hs' new Fr Re C]; subst. cbn [fst snd] in *.
    assert (Fa : Forall (fun r => rc_from r = addr j) rs) by (eapply Forall_impl; [|exact Fr]; cbn; tauto).
    assert (Ff : forall r, In r rs -> forall i, rc_free r i = true) by (intros r Ir; exact (proj2 (proj1 (Forall_forall _ _) Fr r Ir))).
    assert (Lh : length hs = total) by apply So. rewrite Lh in Re.
    pose proof (proj1 (Forall_forall _ _) Fl (j, p)) as Kp. specialize (Kp ltac:(apply in_app_iff; right; left; reflexivity)).
    assert (Fl' : Forall (fun x => is_search x \/ is_answer x) (pre ++ post)).
    { apply Forall_app in Fl as [F1 F2]. apply Forall_app. split; auto. exact (Forall_inv_tail F2). }
    assert (Ls : forall k r, (k < total)%nat -> listens hs k r -> rc_host r = k /\ server_at (mg k) (rc_server r) <> None).
    { intros k r Kk (Hk & h & w & s & E & Es). split; auto. destruct (proj2 So _ _ _ E) as [_ <-]. unfold h_server in Es. congruence. }
    assert (Cases : forall y, In y (pre ++ (j, p) :: post) -> y = (j, p) \/ In y (pre ++ post ++ new)).
    { intros y I. rewrite !in_app_iff in *. cbn [In] in I. intuition. }
    destruct Kp as [(Jc & Gp & t & Ht & Ed)|(Kj & At & t & Ht & Ed)]; cbn [fst snd] in *.
    - subst j. destruct (carried_search p (addr c) t Ht Ed _ _ _ _ C So Fa) as (S1 & En & Fn & Al1). constructor; cbn [fst snd]; auto.
      + rewrite app_assoc. apply Forall_app. split; auto. eapply Forall_impl; [|exact Fn]. intros x X. right. exact X.
      + intros k Kk. left. destruct (Re k Kk (or_introl Gp)) as (r & Ir & Lr). destruct (Ls k r Kk Lr) as [H1 H2].
        destruct (Al1 Al k Kk) as (q & Iq); [exists r; split; auto|]. exists (k, q). split; [rewrite !in_app_iff; auto|]. right. split; [|reflexivity].
        rewrite Forall_forall in Fn. exact (Fn _ Iq).
      + intros x Nx. rewrite En. apply Ot. exact Nx.
    - destruct (carried_answer p j t Kj Ht Ed _ _ _ _ C So Fa) as (S1 & En & Oth & _ & Ent). subst new. rewrite app_nil_r in *. constructor; cbn [fst snd]; auto.
      + intros k Kk. destruct (Fo k Kk) as [(x & Ix & Kx)|X].
        * destruct (Cases x Ix) as [->|Ix']; [|left; eauto]. destruct Kx as [(_ & _ & t' & _ & Ed')|[_ Jk]]; cbn [fst snd] in *.
          -- exfalso. rewrite Ed in Ed'. apply (f_equal (fun l => nth 10 l 0)) in Ed'. rewrite listing_wire in Ed'. cbn in Ed'. discriminate.
          -- subst k. right. apply Ent. right. destruct (Re c Cin) as (r & Ir & Lr); [right; rewrite At; reflexivity|]. destruct (Ls c r Cin Lr) as [H1 H2]. exists r. split; auto.
        * right. destruct (Nat.eq_dec k j) as [->|Nk]; [apply Ent; auto|]. destruct X as (r & Ir & Ar & Cr). exists r. split; [|auto]. apply Oth; auto.
          rewrite Ar. intro X. apply Nk. apply Apart; auto.
      + intros x Nx. rewrite (Oth x) by (apply Nx; exact Kj). apply Ot. exact Nx.
  Qed.
  Lemma run_searching rs0 s n s' : deliveries_made machines addr s n s' -> searching rs0 s -> searching rs0 s'.
  Proof. intro D. induction D; auto. intro S. apply IHD. eapply delivery_searching; eauto. Qed.

  (** A delivery is always possible, and the network comes to rest. *)
  Hypothesis Up : forall k, (k < total)%nat -> server_at (mg k) (Multi 0) <> None.
  Lemma carried_possible j p : is_search (j, p) \/ is_answer (j, p) -> forall rs hs, sound hs ->
    Forall (fun r => (rc_host r < total)%nat /\ rc_from r = addr j /\ forall i, rc_free r i = true) rs -> exists hs' new, carried machines p hs rs hs' new.
  Proof.
    intro Kp. induction rs as [|r rs IH]; intros hs So F; [exists hs, []; constructor|].
    pose proof (Forall_inv F) as (Kr & Fa & Ff). cbn beta in Fa. destruct (sound_at hs (rc_host r) So Kr) as (h & w & E & Rh & Mg).
    destruct (takes machines (rc_host r) r h w p) as [h' w'] eqn:T.
    assert (X : exists tr, since w w' tr).
    { unfold takes in T. destruct (Std (rc_host r)) as (seed & Db). destruct (h_server h (rc_server r)) as [s|] eqn:Es.
      - destruct Kp as [(_ & _ & t & Ht & Ed)|(Kj & _ & t & Ht & Ed)]; cbn [fst snd] in *; rewrite Ed in T.
        + destruct (receive_search (P := mc_profile (machines (rc_host r))) (HO := mc_order (machines (rc_host r))) (Os := mc_os (machines (rc_host r))) (Uu := mc_uuids (machines (rc_host r)))
            seed _ Db (Uo (rc_host r)) (rd (rc_host r)) (Rd _ Kr) (cs (rc_host r)) (rc_free r) h w (rc_server r) (rc_from r) t s Ht Rh Es)
            as (h1 & w1 & tr1 & E1 & _ & _ & _ & S1 & _). rewrite E1 in T. inversion T; subst. eauto.
        + destruct (Few j Kj) as [Len Bd].
          destruct (receive_answer (P := mc_profile (machines (rc_host r))) (HO := mc_order (machines (rc_host r))) (Os := mc_os (machines (rc_host r))) (Uu := mc_uuids (machines (rc_host r)))
            seed _ Db (Uo (rc_host r)) (rd (rc_host r)) (cs (rc_host r)) (cs j) (rc_free r) h w (rc_server r) (rc_from r) t s Ht Len Bd Rh Es)
            as (h1 & w1 & tr1 & E1 & _ & _ & S1 & _). rewrite E1 in T. inversion T; subst. eauto.
      - rewrite (receive_none (P := mc_profile (machines (rc_host r))) (HO := mc_order (machines (rc_host r))) (Os := mc_os (machines (rc_host r))) (Uu := mc_uuids (machines (rc_host r)))) in T by exact Es.
        inversion T; subst. exists []. apply since_refl. }
    destruct X as (tr & S).
    assert (So' : sound (set_nth hs (rc_host r) (h', w'))).
    { assert (C1 : carried machines p hs [r] (set_nth hs (rc_host r) (h', w')) (map (pair (rc_host r)) (packets tr) ++ [])) by (econstructor; eauto; constructor).
      assert (F1 : Forall (fun r => rc_from r = addr j) [r]) by (constructor; [auto|constructor]).
      destruct Kp as [(Jc & _ & t & Ht & Ed)|(Kj & _ & t & Ht & Ed)]; cbn [fst snd] in *.
      - destruct (carried_search p (addr j) t Ht Ed _ _ _ _ C1 So F1) as (X & _). exact X.
      - destruct (carried_answer p j t Kj Ht Ed _ _ _ _ C1 So F1) as (X & _). exact X. }
    destruct (IH _ So' (Forall_inv_tail F)) as (hs' & new & C). eexists. eexists. econstructor; eauto.
  Qed.
  Lemma delivery_possible rs0 hs x fl : searching rs0 (hs, x :: fl) -> exists hs' new, delivery machines addr (hs, x :: fl) (hs', fl ++ new) /\
    (is_answer x -> new = []) /\ Forall is_answer new.
  Proof.
    intros [So Fl _ _]. cbn [fst snd] in *. destruct x as [j p]. pose proof (Forall_inv Fl) as Kp.
    set (rs := map (fun k => Reception k (Multi 0) (addr j) (fun _ => true)) (seq 0 total)).
    assert (F : Forall (fun r => (rc_host r < total)%nat /\ rc_from r = addr j /\ forall i, rc_free r i = true) rs).
    { apply Forall_map, Forall_forall. intros k Ik. apply in_seq in Ik. cbn. split; [lia|]. auto. }
    assert (F1 : Forall (fun r => rc_from r = addr j /\ forall i, rc_free r i = true) rs) by (eapply Forall_impl; [|exact F]; intros r0 (_ & X); exact X).
    destruct (carried_possible j p Kp rs hs So F) as (hs' & new & C). exists hs', new. split; [|split].
    - apply (Delivery machines addr hs [] j p fl rs hs' new); auto. intros k Kk _. rewrite (proj1 So) in Kk. exists (Reception k (Multi 0) (addr j) (fun _ => true)).
      split; [apply in_map_iff; exists k; split; auto; apply in_seq; lia|]. split; [reflexivity|]. destruct (sound_at hs k So Kk) as (h & w & E & _ & Mg).
      destruct (h_server h (Multi 0)) as [s|] eqn:Es; [exists h, w, s; auto|]. exfalso. apply (Up k Kk). rewrite <- Mg. exact Es.
    - apply (Forall_impl (fun r => rc_from r = addr j)) in F1; [|cbn; tauto]. intros (Kj & At & t & Ht & Ed). cbn [fst snd] in *. destruct (carried_answer p j t Kj Ht Ed _ _ _ _ C So F1) as (_ & X & _). exact X.
    - apply (Forall_impl (fun r => rc_from r = addr j)) in F1; [|cbn; tauto]. destruct Kp as [(Jc & _ & t & Ht & Ed)|(Kj & _ & t & Ht & Ed)]; cbn [fst snd] in *.
      + destruct (carried_search p (addr j) t Ht Ed _ _ _ _ C So F1) as (_ & _ & X & _). rewrite Jc in X. exact X.
      + destruct (carried_answer p j t Kj Ht Ed _ _ _ _ C So F1) as (_ & -> & _). constructor.
  Qed.
  Definition searches (fl : flight) : nat := length (filter (fun x => is_req (pk_data (snd x))) fl).
  Lemma searches_app a b : searches (a ++ b) = (searches a + searches b)%nat.
  Proof. unfold searches. rewrite filter_app, app_length. reflexivity. Qed.
  Lemma asking_req t : is_req (wire (asking t)) = true.
  Proof. apply is_req_spec. unfold service_of, request_service. cbn. auto. Qed.
  Lemma listing_req t l : is_req (wire (listing t l)) = false.
  Proof. reflexivity. Qed.
  Lemma answers_none fl : Forall is_answer fl -> searches fl = 0%nat.
  Proof.
    unfold searches. induction 1 as [|x r (_ & _ & t & _ & Ed) F IH]; auto. cbn [filter]. cbn [snd] in Ed. rewrite Ed, listing_req. exact IH.
  Qed.
  Lemma rest_possible rs0 : forall a b hs fl, (searches fl <= a)%nat -> (length fl <= b)%nat -> searching rs0 (hs, fl) ->
    exists n hs', deliveries_made machines addr (hs, fl) n (hs', []).
  Proof.
    induction a as [|a IHa]; induction b as [|b IHb]; intros hs fl La Lb S;
      try (destruct fl as [|x fl]; [exists 0%nat, hs; constructor|cbn in Lb; lia]).
    - destruct fl as [|x fl]; [exists 0%nat, hs; constructor|]. cbn [length] in Lb.
      destruct (delivery_possible rs0 hs x fl S) as (hs' & new & D & An & _).
      assert (Kx : is_answer x).
      { pose proof (Forall_inv (se_flight _ _ S)) as [(_ & _ & t & _ & Ed)|K]; auto. exfalso. unfold searches in La. cbn [filter] in La. rewrite Ed, asking_req in La. cbn in La. lia. }
      rewrite (An Kx), app_nil_r in D. destruct (IHb hs' fl) as (n & hs2 & R); [|lia| |].
      + change (x :: fl) with ([x] ++ fl) in La. rewrite searches_app in La. lia.
      + eapply delivery_searching; eauto.
      + exists (Datatypes.S n), hs2. econstructor; eauto.
    - destruct fl as [|x fl]; [exists 0%nat, hs; constructor|]. cbn [length] in Lb.
      destruct (delivery_possible rs0 hs x fl S) as (hs' & new & D & An & Fn). pose proof (delivery_searching rs0 _ _ D S) as S'.
      change (x :: fl) with ([x] ++ fl) in La. rewrite searches_app in La.
      pose proof (Forall_inv (se_flight _ _ S)) as [Kx|Kx].
      + destruct (IHa (length (fl ++ new)) hs' (fl ++ new)) as (n & hs2 & R); [|lia|exact S'|].
        * rewrite searches_app, (answers_none new Fn). destruct Kx as (_ & _ & t & _ & Ed). unfold searches at 1 in La. cbn [filter] in La. rewrite Ed, asking_req in La. cbn in La. lia.
        * exists (Datatypes.S n), hs2. econstructor; eauto.
      + rewrite (An Kx), app_nil_r in D, S'. destruct (IHb hs' fl) as (n & hs2 & R); [lia|lia|exact S'|].
        exists (Datatypes.S n), hs2. econstructor; eauto.
  Qed.
End Net.

Section Main.
  Context {U : Type}.
  Variable machines : nat -> machine.
  Variable addr : nat -> sockaddr.
  Definition running_on (k : nat) (cs : list N) (h : host U) (w : world) : Prop :=
    running (P := mc_profile (machines k)) (HO := mc_order (machines k)) (Os := mc_os (machines k)) (Uu := mc_uuids (machines k)) (mc_db (machines k)) cs h w.
  Definition searches_all (k : nat) (h : host U) (w : world) : outcome (host U * world) :=
    host_step (P := mc_profile (machines k)) (HO := mc_order (machines k)) (O := mc_os (machines k)) (Uu := mc_uuids (machines k)) (mc_db (machines k)) (h, w) (HSearch 0x0EF001).

  Lemma running_ready k cs (h : host U) w : (exists seed, standard_database (P := mc_profile (machines k)) (HO := mc_order (machines k)) seed = Ret (mc_db (machines k))) ->
    (forall j, uuid_ok (new_uuid (Uuids := mc_uuids (machines k)) j)) -> running_on k cs h w ->
    exists rd, allows (rd 0xD6) /\ ready (P := mc_profile (machines k)) rd cs h.
  Proof.
    intros (seed & Db) Uo [(np & n0 & u & w0 & ops & Lk & (q & Eq & Aq) & Nk & Nn & Fo & Un & Ad & Run) Few [U1 U2] Sv].
    set (P := mc_profile (machines k)) in *. set (HO := mc_order (machines k)) in *. set (Os := mc_os (machines k)) in *. set (Uu := mc_uuids (machines k)) in *. set (db := mc_db (machines k)) in *.
    assert (Hi : history (P := P) (HO := HO) (Os := Os) (Uu := Uu) db np n0 u w0 ops h w) by (constructor; auto; split; auto; apply Lk).
    pose proof (history_healthy (P := P) (HO := HO) (Os := Os) (Uu := Uu) seed db Db Uo _ _ _ _ _ _ _ Hi) as Hh.
    destruct (history_servers (P := P) (HO := HO) (Os := Os) (Uu := Uu) seed db Db Uo _ _ _ _ _ _ _ Hi) as (Up & _ & _).
    exists (fun c => match object_find_property np c with Some p => p_read p | None => Prohibited end). rewrite Eq. split; [exact Aq|].
    destruct (inv_new (P := P) (HO := HO) np n0 Lk Nn) as (I & M & G).
    assert (S0 : sited (U := U) (fun c => match object_find_property np c with Some p => p_read p | None => Prohibited end) [] (h_node (host_new u n0))).
    { split; [exact I|]. split; [exact M|]. cbn [h_node host_new].
      destruct (history_shapes (P := P) (HO := HO) (Os := Os) np n0 [] u w0 u n0 w0 Nn (Forall_nil _) eq_refl) as [_ ->]. left. reflexivity. }
    assert (H0 : healthy (P := P) (host_new u n0)) by (eapply (new_healthy (P := P) (HO := HO)); [apply Lk|exact Nk|exact Nn]).
    pose proof (sited_run (P := P) (HO := HO) (Os := Os) (Uu := Uu) seed db Db Uo _ ops [] _ _ _ _ Fo Un H0 S0 Run) as S1. cbn [app] in S1. rewrite Ad in S1.
    assert (Ok : Forall (op_ok (P := P) (HO := HO)) (api ops)).
    { clear - Fo. induction Fo as [|op r K F IH]; [constructor|]. unfold api in *. cbn [flat_map]. apply Forall_app. split; auto.
      destruct op as [op0| | | | | | | |]; try (apply Forall_nil). apply Forall_cons; [|apply Forall_nil]. destruct op0; try contradiction; destruct K; auto. }
    constructor; auto.
    - rewrite <- Ad. apply (added_bound (P := P) (HO := HO)). exact Ok.
    - rewrite <- Ad. apply added_devices. exact Un.
    - destruct Up as [[X _]|(X & Y & _)]; [contradiction|auto].
    - eapply (C59_one_per_socket_partial (P := P) (HO := HO) (Os := Os) (Uu := Uu)). exact Run.
  Qed.

  (** ** C98 *)
  (** Processes with running nodes on a network that delivers: when the search of
      one of them has come to rest, its controller has for every process one
      entry, with the devices of that process in order and its node profile;
      entries for other addresses are as before. And the network can come to
      rest. *)
  Theorem C98_all_found_partial : forall hs c cs h w h1 w1 tr,
    (* every machine has the standard database, and a working network *)
    (forall k, exists seed, standard_database (P := mc_profile (machines k)) (HO := mc_order (machines k)) seed = Ret (mc_db (machines k))) ->
    (forall k j, uuid_ok (new_uuid (Uuids := mc_uuids (machines k)) j)) ->
    (forall k j, os_send (OS := mc_os (machines k)) j = true) ->
    (forall j k, (j < length hs)%nat -> (k < length hs)%nat -> addr j = addr k -> j = k) ->
    (forall k h w, nth_error hs k = Some (h, w) -> running_on k (cs k) h w) ->
    (* a process with a controller searches *)
    nth_error hs c = Some (h, w) -> Forall (serves ObsController) (all_servers (n_mgr (h_node h))) ->
    searches_all c h w = Ret (h1, w1) -> fst (fst (controller_search_all (O := mc_os (machines c)) w (h_node h))) = true -> since w w1 tr ->
    (exists n hs', deliveries_made machines addr (set_nth hs c (h1, w1), map (pair c) (packets tr)) n (hs', [])) /\
    forall n hs', deliveries_made machines addr (set_nth hs c (h1, w1), map (pair c) (packets tr)) n (hs', []) ->
      exists h' w', nth_error hs' c = Some (h', w') /\
        (forall k, (k < length hs)%nat -> exists r, In r (h_remotes h') /\ rn_addr r = addr k /\ map object_code (rn_objects r) = cs k ++ [0x0EF001] /\
          forall x, In x (h_remotes h') -> rn_addr x = addr k -> x = r) /\
        forall x, (forall k, (k < length hs)%nat -> rn_addr x <> addr k) -> In x (h_remotes h') <-> In x (h_remotes h).
  Proof.
    intros hs c cs h w h1 w1 tr Std Uo Al Ap Rn Ec Ct Se Ok Sn.
    assert (Kc : (c < length hs)%nat) by (apply nth_error_Some; congruence).
    (* the rules and servers of the processes *)
    assert (Ch : exists rd : nat -> N -> rule, forall k h w, nth_error hs k = Some (h, w) -> allows (rd k 0xD6) /\ ready (P := mc_profile (machines k)) (rd k) (cs k) h).
    { assert (X : forall m, (m <= length hs)%nat -> exists rd : nat -> N -> rule, forall k h w, (k < m)%nat -> nth_error hs k = Some (h, w) -> allows (rd k 0xD6) /\ ready (P := mc_profile (machines k)) (rd k) (cs k) h).
      { induction m as [|m IH]; intro Lm; [exists (fun _ _ => Prohibited); lia|]. destruct IH as (rd & IH); [lia|].
        destruct (nth_error hs m) as [[hm wm]|] eqn:Em; [|apply nth_error_None in Em; lia].
        destruct (running_ready m (cs m) hm wm (Std m) (Uo m) (Rn _ _ _ Em)) as (rm & Am & Rm).
        exists (fun k => if Nat.eqb k m then rm else rd k). intros k h0 w0 Kk E0. destruct (Nat.eqb_spec k m) as [->|Nk].
        - rewrite Em in E0. inversion E0; subst. auto.
        - apply (IH k h0 w0); [lia|auto]. }
      destruct (X (length hs) (le_n _)) as (rd & Y). exists rd. intros k h0 w0 E0. apply (Y k h0 w0); auto. apply nth_error_Some. congruence. }
    destruct Ch as (rd & Ch).
    set (mg := fun k => match nth_error hs k with Some (h, _) => n_mgr (h_node h) | None => manager_new end).
    assert (Mg : forall k h w, nth_error hs k = Some (h, w) -> mg k = n_mgr (h_node h)) by (intros k h0 w0 E0; unfold mg; rewrite E0; reflexivity).
    assert (At : forall k, (k < length hs)%nat -> exists h w, nth_error hs k = Some (h, w)) by (intros k Kk; destruct (nth_error hs k) as [[? ?]|] eqn:E0; [eauto|apply nth_error_None in E0; lia]).
    (* the search *)
    pose proof (Ch c h w Ec) as [Rc Rh]. pose proof (rd_healthy _ _ _ Rh) as Hh.
    unfold searches_all in Se. pose proof Se as Se0. cbn [host_step] in Se. rewrite (hh_cpoisoned _ Hh), (hh_poisoned _ Hh) in Se.
    unfold controller_search_all in Ok. destruct (controller_search_object w (h_node h) 0x0EF001) as [[ok n1] w2] eqn:Eso.
    change NODE_PROFILE_OBJECT_CODE with 0x0EF001 in Ok. rewrite Eso in Ok. cbn [fst] in Ok. subst ok. inversion Se; subst h1 w2. clear Se.
    assert (Pk : Forall (fun x => is_search c x) (map (pair c) (packets tr)) /\ packets tr <> []).
    { split.
      - apply Forall_map, Forall_forall. intros p Ip. apply packets_offered in Ip.
        destruct (search_frame (Os := mc_os (machines c)) (Uu := mc_uuids (machines c)) (Uo c) U w (h_node h) true n1 w1 tr _ _ Eso Sn Ip) as (Gp & t & Ht & Ed). split; [reflexivity|]. split; [exact Gp|]. exists t. split; [exact Ht|exact Ed].
      - unfold controller_search_object in Eso. destruct (node_notify (O := mc_os (machines c)) w (h_node h) (search_request 0x0EF001)) as [[[b m1] n2] w2] eqn:E1. inversion Eso; subst b n2 w2.
        apply node_notify_spec in E1 as (_ & tr' & kk & S' & _ & _ & _ & Sk & _ & Ko & _). rewrite (since_unique _ _ _ _ Sn S'). intro Z.
        rewrite <- packets_sent, Z, (Ko eq_refl) in Sk. destruct (rn_up _ _ _ _ (Rn _ _ _ Ec)) as [_ X]. destruct (mg_mcast (n_mgr (h_node h))); [contradiction|discriminate]. }
    destruct Pk as [Pk Pn].
    assert (Kn : n_objects n1 = n_objects (h_node h) /\ n_handlers n1 = n_handlers (h_node h) /\ n_mgr n1 = n_mgr (h_node h)).
    { unfold controller_search_object in Eso. destruct (node_notify (O := mc_os (machines c)) w (h_node h) (search_request 0x0EF001)) as [[[b m1] n2] w2] eqn:E1. inversion Eso; subst b n2 w2.
      apply node_notify_spec in E1 as (A & _). apply update_tid_keeps in A as (A & B & M & _). auto. }
    destruct Kn as (Ko & Kh & Km).
    assert (R1 : ready (P := mc_profile (machines c)) (rd c) (cs c) (h_with_node h (h_user h) n1)).
    { eapply parts_same; [exact Rh| |eapply sited_same; [exact Ko|exact Kh|exact (rd_sited _ _ _ Rh)]|exact Km|exact (rd_nodup _ _ _ Rh)].
      destruct Hh as [N0 A B C D]. constructor; auto. refine (healthy_same (h_node h) n1 Ko Kh _ N0). rewrite Km. exact (hn_fine _ N0). }
    assert (Sea : searching machines addr (length hs) c cs rd mg (h_remotes h) (set_nth hs c (h_with_node h (h_user h) n1, w1), map (pair c) (packets tr))).
    { constructor; cbn [fst snd].
      - split; [apply set_nth_length|]. intros k h0 w0 E0. rewrite nth_set_nth in E0. destruct (Nat.eqb_spec k c) as [->|Nk].
        + destruct (Nat.ltb c (length hs)); [|discriminate]. inversion E0; subst. split; [exact R1|]. rewrite (Mg _ _ _ Ec). exact Km.
        + split; [exact (proj2 (Ch k h0 w0 E0))|]. rewrite (Mg _ _ _ E0). reflexivity.
      - eapply Forall_impl; [|exact Pk]. auto.
      - intros k Kk. left. destruct (packets tr) as [|p l]; [contradiction|]. exists (c, p). split; [left; reflexivity|]. left. exact (Forall_inv Pk).
      - intros x _. rewrite entries_set by exact Kc. rewrite Nat.eqb_refl. reflexivity. }
    assert (Rd : forall k, (k < length hs)%nat -> allows (rd k 0xD6)).
    { intros k Kk. destruct (At k Kk) as (h0 & w0 & E0). exact (proj1 (Ch k h0 w0 E0)). }
    assert (Few : forall k, (k < length hs)%nat -> (length (cs k) <= 84)%nat /\ Forall (fun c => c < 16777216) (cs k)).
    { intros k Kk. destruct (At k Kk) as (h0 & w0 & E0). pose proof (proj2 (Ch k h0 w0 E0)) as R0. split; [exact (rd_few _ _ _ R0)|exact (rd_codes _ _ _ R0)]. }
    assert (Ct' : Forall (serves ObsController) (all_servers (mg c))) by (rewrite (Mg _ _ _ Ec); exact Ct).
    assert (Up : forall k, (k < length hs)%nat -> server_at (mg k) (Multi 0) <> None).
    { intros k Kk. destruct (At k Kk) as (h0 & w0 & E0). rewrite (Mg _ _ _ E0). cbn [server_at]. destruct (rn_up _ _ _ _ (Rn _ _ _ E0)) as [_ X]. destruct (mg_mcast _); [contradiction|discriminate]. }
    split.
    - destruct (rest_possible machines addr (length hs) c cs rd mg Std Uo Rd Few Ap Ct' Kc Al Up (h_remotes h) _ _ _ _ (le_n _) (le_n _) Sea) as (n & hs' & R). eauto.
    - intros n hs' R. pose proof (run_searching machines addr (length hs) c cs rd mg Std Uo Rd Few Ap Ct' Kc Al (h_remotes h) _ _ _ R Sea) as [So _ Fo Ot]. cbn [fst snd] in *.
      destruct (sound_at machines (length hs) cs rd mg hs' c So Kc) as (h' & w' & E' & R' & _). exists h', w'. split; auto.
      assert (En : entries c hs' = h_remotes h') by (unfold entries; rewrite E'; reflexivity). rewrite En in *. split; [|exact Ot].
      intros k Kk. destruct (Fo k Kk) as [(x & [] & _)|(r & Ir & Ar & Cr)]. exists r. split; auto. split; auto. split; auto. intros x Ix Ax.
      pose proof (rd_nodup _ _ _ R') as Nd. clear - Ir Ix Ar Ax Nd. rewrite <- Ar in Ax. clear Ar. revert Nd Ir Ix Ax. induction (h_remotes h') as [|y l IH]; intros Nd Ir Ix Ax; [destruct Ir|].
      cbn [map] in Nd. inversion Nd as [|? ? Ni Nd']; subst. destruct Ir as [<-|Ir], Ix as [<-|Ix]; auto; exfalso; apply Ni; [rewrite <- Ax|rewrite Ax]; apply in_map; auto.
  Qed.
End Main.
Print Assumptions C98_all_found_partial.

(** ** A concrete case *)
(** Process 0 has a controller and no device, process 1 has the lamp. *)
Definition ctl_ops : list (host_op unit) :=
  [HApi (OpAddObserver (Observer 1 ObsNode)); HApi (OpAddObserver (Observer 7 ObsController)); HCtrlStart].
Definition ex_addr (k : nat) : sockaddr := (V4 (0xC0A8000A + N.of_nat k), 3610).
Definition ex_deliver (s : list (host unit * world) * flight) (ks : list (nat * server_id)) : list (host unit * world) * flight :=
  match snd s with
  | [] => s
  | (j, p) :: post =>
    let '(hs, new) := fold_left (fun x r =>
      match nth_error (fst x) (fst r) with
      | Some (h, w) =>
        let hw := takes (fun _ => ex_machine) (fst r) (Reception (fst r) (snd r) (ex_addr j) (fun _ => true)) h w p in
        (set_nth (fst x) (fst r) hw, snd x ++ map (pair (fst r)) (packets (skipn (length (w_trace w)) (w_trace (snd hw)))))
      | None => x
      end) ks (fst s, []) in
    (hs, post ++ new)
  end.
Definition ex_found : option (list (sockaddr * list N) * nat) :=
  match dev_state ctl_ops, dev_state dev_ops with
  | (c, wc), d =>
    match searches_all (fun _ => ex_machine) 0 c wc with
    | Ret (c1, wc1) =>
      let s0 := ([(c1, wc1); d], map (pair 0%nat) (packets (skipn (length (w_trace wc)) (w_trace wc1)))) in
      let s1 := ex_deliver s0 [(1, Multi 0); (0, Multi 0)]%nat in
      let s3 := ex_deliver (ex_deliver s1 [(0, Uni 0)]%nat) [(0, Uni 0)]%nat in
      match fst s3 with
      | (c3, _) :: _ => Some (map (fun r => (rn_addr r, map object_code (rn_objects r))) (h_remotes c3), length (snd s3))
      | [] => None
      end
    | Panic => None
    end
  end.
Lemma ex_running ops cs : Forall (hop_ok (P := true) (HO := ex_order)) ops -> Forall undisturbed (api ops) -> added (api ops) = cs -> (length cs <= 84)%nat ->
  match dev_run ops with
  | Ret (h, _) => negb (Nat.eqb (length (mg_ucast (n_mgr (h_node h)))) 0) && negb (Nat.eqb (length (mg_mcast (n_mgr (h_node h)))) 0) &&
      forallb (fun s => match sv_thread s with TRunning => true | _ => false end && negb (sv_stop s) && existsb (fun o => match ob_kind o with ObsNode => true | _ => false end) (sv_observers s)) (all_servers (n_mgr (h_node h)))
  | Panic => false end = true ->
  running_on (fun _ => ex_machine) 0 cs (fst (dev_state ops)) (snd (dev_state ops)).
Proof.
  intros Fo Un Ad Le H. destruct (dev_run ops) as [[h w]|] eqn:E; [|discriminate]. unfold dev_state. rewrite E. cbn [the fst snd].
  apply andb_true_iff in H as [H H3]. apply andb_true_iff in H as [H1 H2]. constructor.
  - exists ex_np, ex_node0, tt, w0, ops. split; [exact ex_np_like|]. split.
    + eexists. split; [vm_compute; reflexivity|]. vm_compute. discriminate.
    + split; [exact ex_np_codes|]. split; [vm_compute; reflexivity|]. auto.
  - exact Le.
  - split; intro Z; rewrite Z in *; discriminate.
  - apply Forall_forall. intros s Is. rewrite forallb_forall in H3. apply H3 in Is. apply andb_true_iff in Is as [Is X]. apply andb_true_iff in Is as [X1 X2].
    split; [destruct (sv_thread s); auto; discriminate|]. split; [destruct (sv_stop s); auto; discriminate|].
    apply existsb_exists in X as (o & Io & X). exists o. split; auto. destruct (ob_kind o); auto; discriminate.
Qed.
Example C98_case : running_on (fun _ => ex_machine) 0 [] (fst (dev_state ctl_ops)) (snd (dev_state ctl_ops)) /\
  running_on (fun _ => ex_machine) 1 [0x029101] (fst (dev_state dev_ops)) (snd (dev_state dev_ops)) /\
  ex_found = Some ([(ex_addr 1, [0x029101; 0x0EF001]); (ex_addr 0, [0x0EF001])], 0%nat).
Proof.
  split; [|split].
  - apply ex_running; [|repeat constructor|reflexivity|cbn; lia|vm_compute; reflexivity].
    constructor; [split; exact Logic.I|]. constructor; [split; exact Logic.I|]. constructor; [exact Logic.I|]. constructor.
  - apply (ex_running dev_ops); [exact dev_ok| |vm_compute; reflexivity|cbn; lia|vm_compute; reflexivity].
    unfold api, dev_ops. cbn [flat_map app]. constructor; [exact Logic.I|]. constructor; [exact Logic.I|].
    constructor; [vm_compute; discriminate|]. constructor; [apply yes_hands_off|]. constructor; [exact Logic.I|constructor].
  - vm_compute. reflexivity.
Qed.
