(** What the network makes of the memory of a process: C129. *)
From Verif Require Import Base HMap ModelCodec ModelMessages DbTable ModelObject ModelTransport ModelNode ModelController ModelHost
  SpecWire SpecObject SpecNode SpecHost ProofsCodec ProofsCodec2 PropertiesCodec ProofsObject ProofsObject2 ProofsObject3
  PropertiesObject PropertiesDb ProofsDevice ProofsNode ProofsNode2 ProofsNode3 ProofsNode4 ExamplesNode PropertiesNode PropertiesTrans
  PropertiesProfile ProofsExchange ProofsController ProofsHistory PropertiesController PropertiesFrames.

(** ** Vocabulary *)
(** Datagrams of any content from anybody, and receive errors. *)
Definition traffic {U} (op : host_op U) : Prop :=
  match op with HRecv _ d _ _ => octets d | HRecvError _ => True | _ => False end.
(** Where they come from. *)
Definition sources {U} (ops : list (host_op U)) : list sockaddr :=
  flat_map (fun op => match op with HRecv _ _ a _ => [a] | _ => [] end) ops.
(** An object with the same properties. *)
Definition same_properties (o o' : object) : Prop := o_codes o' = o_codes o /\ map fst (o_props o') = map fst (o_props o).
(** A node with the same objects, handlers, observers and servers; of these only
    data, the transaction ID and the state of threads may differ. *)
Record as_large {U} (n n' : node U) : Prop := {
  al_objects : Forall2 same_properties (n_objects n) (n_objects n');
  al_handlers : n_handlers n' = n_handlers n;
  al_observers : n_observers n' = n_observers n;
  al_ucast : map sv_observers (mg_ucast (n_mgr n')) = map sv_observers (mg_ucast (n_mgr n));
  al_mcast : map sv_observers (mg_mcast (n_mgr n')) = map sv_observers (mg_mcast (n_mgr n)) }.
(** The entries of a controller: old ones, or of an address that has spoken, with
    at most 336 objects and the node profile. *)
Definition entries_from (as_ : list sockaddr) (rs rs' : list remote_node) : Prop :=
  forall r, In r rs' -> In r rs \/ (In (rn_addr r) as_ /\ (length (rn_objects r) <= 337)%nat).

(* ------------------------------------------------------------------ *)
(** ** Sizes of messages *)
Definition weight (ps : list wprop) : nat := fold_right (fun p k => 2 + length (snd p) + k)%nat 0%nat ps.
Lemma wire_props_length ps : length (wire_props ps) = S (weight ps).
Proof.
  unfold wire_props. cbn [length]. f_equal. induction ps as [|[c d] r IH]; [reflexivity|]. cbn [map concat]. rewrite app_length, IH.
  unfold wire_prop. cbn [fst snd length weight fold_right]. fold (weight r). lia.
Qed.
Lemma single_length f ps : f_body f = Single ps -> length (wire f) = (12 + weight ps)%nat.
Proof. intro E. unfold wire. rewrite E. cbn [wire_body]. rewrite !app_length. cbn [length]. rewrite wire_props_length. unfold wire_eoj. cbn [length]. lia. Qed.
Lemma listed_length q cs : listed q cs -> (3 * length cs <= length (pp_data q))%nat.
Proof.
  intro L. inversion L as [q0 N| |k d H|k codes rest H1 H2 H3]; subst; cbn [pp_data length]; try lia. rewrite app_length.
  assert (X : forall codes, length (flat_map wire_eoj codes) = (3 * length codes)%nat) by (clear; intro codes; induction codes as [|c l IH]; cbn [flat_map]; auto; rewrite app_length, IH; cbn; lia).
  rewrite X. lia.
Qed.
Lemma listed_weight ps css : Forall2 listed ps css -> (3 * length (concat css) + 2 * length ps <= weight (map to_wprop ps))%nat.
Proof.
  induction 1 as [|q c ps css L F IH]; [cbn; lia|]. apply listed_length in L. cbn [concat map length weight fold_right to_wprop snd]. fold (weight (map to_wprop ps)).
  rewrite app_length. lia.
Qed.
Lemma parsed_weight bs m : octets bs -> msg_parse msg_new bs = Ret (true, m) -> (12 + weight (map to_wprop (m_props m)) <= length bs)%nat.
Proof.
  intros Ho E. destruct (C04_decoded_content bs m Ho E) as (f & rest & _ & -> & (_ & _ & _ & _ & C) & _). rewrite app_length.
  destruct (f_body f) as [ps|ss gs] eqn:B.
  - destruct C as (-> & _). rewrite (single_length f ps B). lia.
  - destruct C as (_ & _ & ->). unfold wire. rewrite B. cbn [wire_body]. rewrite !app_length, !wire_props_length. cbn. lia.
Qed.
Lemma octets_firstn k (l : list N) : octets l -> octets (firstn k l).
Proof. intro H. apply Forall_forall. intros x I. unfold octets in H. rewrite Forall_forall in H. apply H. rewrite <- (firstn_skipn k l). apply in_or_app. auto. Qed.

(* ------------------------------------------------------------------ *)
(** ** Parts *)
Lemma hput_keys {V} (m : list (N * V)) k v : map fst (hput m k v) = map fst m.
Proof. induction m as [|[k' v'] r IH]; cbn; auto. destruct (k =? k'); cbn; auto. rewrite IH. auto. Qed.
Lemma set_same o c d : same_properties o (fst (object_set_property_data o c d)).
Proof. unfold object_set_property_data. destruct (object_find_property o c); split; cbn; auto. apply hput_keys. Qed.
Lemma same_refl o : same_properties o o.
Proof. split; auto. Qed.
Lemma same_trans a b c : same_properties a b -> same_properties b c -> same_properties a c.
Proof. intros [A1 A2] [B1 B2]. split; congruence. Qed.
Lemma sets_same l : forall o, same_properties o (sets o l).
Proof.
  induction l as [|q r IH]; intro o; [apply same_refl|]. eapply same_trans; [apply (set_same o (pp_code q) (pp_data q))|]. apply (IH _).
Qed.
Lemma same_list l : Forall2 same_properties l l.
Proof. induction l; constructor; auto. apply same_refl. Qed.
Lemma same_lists a : forall b c, Forall2 same_properties a b -> Forall2 same_properties b c -> Forall2 same_properties a c.
Proof. induction a as [|x a IH]; intros b c A B; inversion A; subst; inversion B; subst; constructor; [eapply same_trans; eauto|eapply IH; eauto]. Qed.
Lemma large_refl {U} (n : node U) : as_large n n.
Proof. constructor; auto. apply same_list. Qed.
Lemma large_trans {U} (a b c : node U) : as_large a b -> as_large b c -> as_large a c.
Proof. intros [A1 A2 A3 A4 A5] [B1 B2 B3 B4 B5]. constructor; try congruence. eapply same_lists; eauto. Qed.
Lemma set_nth_map {A B} (f : A -> B) l : forall k x y, nth_error l k = Some x -> f y = f x -> map f (set_nth l k y) = map f l.
Proof. induction l as [|a l IH]; intros [|k] x y E F; cbn in *; try discriminate; [inversion E; subst; rewrite F; auto|]. rewrite (IH k x y); auto. Qed.
Lemma entries_refl rs : entries_from [] rs rs.
Proof. intros r I. auto. Qed.
Lemma entries_trans a b r1 r2 r3 : entries_from a r1 r2 -> entries_from b r2 r3 -> entries_from (a ++ b) r1 r3.
Proof.
  intros A B r I. destruct (B r I) as [J|[J K]]; [destruct (A r J) as [K|[K L]]; auto|]; right; split; auto; apply in_or_app; auto.
Qed.
Lemma entries_more a b rs rs' : incl a b -> entries_from a rs rs' -> entries_from b rs rs'.
Proof. intros H A r I. destruct (A r I) as [J|[J K]]; auto. Qed.

Section S.
  Context {P : Profile} {HO : HashOrder} {Os : OS} {Uu : Uuids} {U : Type}.
  Implicit Types (h : host U) (n : node U).

  Lemma observe_large w (u : U) n m u' n' w' : received m -> node_observe w u n m = Ret (u', n', w') ->
    as_large n n' /\ n_mgr n' = n_mgr n /\ (small n -> small n').
  Proof.
    intros R E. pose proof (received_rcvd m R) as Rc.
    destruct (observe_parts w u n m u' n' w' R E) as (t1 & t2 & n1 & n2 & res & _ & _ & D & (s & H) & X & _).
    apply delivered_keeps in D as (D1 & D2 & D3 & _ & D5 & _). apply reaction_keeps in X as (X1 & X2 & X3 & _ & X5).
    assert (Y : Forall2 same_properties (n_objects n1) (n_objects n2) /\ n_handlers n2 = n_handlers n1 /\ n_mgr n2 = n_mgr n1 /\ n_observers n2 = n_observers n1).
    { inversion H as [|? ? ? ?|? ? ? ? ? ? ? ? ?|pre o post copy u1 copy' R1 Eo Ec Fp V C Dd Eu En Er]; subst; try (split; [apply same_list|auto]; fail).
      cbn. split; auto. rewrite Eo. apply Forall2_app; [apply same_list|]. constructor; [|apply same_list].
      destruct (answered_sets o m copy') as (l & -> & _). apply sets_same. }
    destruct Y as (Y1 & Y2 & Y3 & Y4).
    split; [|split].
    - constructor; congruence.
    - congruence.
    - intro S. apply (small_same n2 n'); auto. apply (handled_small s u n1 m u' n2 res Rc); auto. apply (small_same n n1); auto.
  Qed.

  Lemma add_standard_length db os : forall w os' w', add_standard_all db w os = Ret (os', w') -> length os' = length os.
  Proof.
    induction os as [|o r IH]; intros w os' w' E; cbn [add_standard_all] in E; [inversion E; auto|].
    destruct (with_standard_properties _ _ _ _ _) as [o'|]; cbn [obind] in E; [|discriminate].
    destruct (add_standard_all db _ r) as [[x w1]|] eqn:E1; cbn [obind fst snd] in E; [|discriminate]. inversion E; subst. cbn. f_equal. eapply IH; eauto.
  Qed.
  Lemma remove_incl l r x : In x (remove_remote l r) -> In x l.
  Proof. induction l as [|y t IH]; cbn; auto. destruct (negb _); cbn; tauto. Qed.
  Lemma observe_entries db w rs bs m0 a rs' w' : octets bs -> (length bs <= 1024)%nat -> msg_parse msg_new bs = Ret (true, m0) ->
    controller_observe db w rs (msg_set_from m0 a) = Ret (rs', w') -> entries_from [a] rs rs'.
  Proof.
    intros Ho L E. set (m := msg_set_from m0 a).
    assert (R : received m) by (exists bs, m0, a; auto). pose proof (received_u8 m R) as U8.
    assert (W : (weight (map to_wprop (m_props m)) <= 1012)%nat). { change (m_props m) with (m_props m0). pose proof (parsed_weight bs m0 Ho E). lia. }
    assert (F : msg_from m = a) by reflexivity. clearbody m.
    unfold controller_observe. destruct (is_node_profile_message m) eqn:Np; cbn [negb].
    2:{ intro H. inversion H; subst. intros r I. auto. }
    unfold remote_from_message. rewrite Np. cbn [negb]. destruct (profile_codes_spec (m_props m) U8) as (css & Ec & Lc). rewrite Ec. cbn [obind].
    destruct (remote_add_codes w _ (concat css)) as [r w1] eqn:E1. apply remote_add_codes_spec in E1 as (A & os & B & C). cbn [rn_addr rn_objects] in A, B.
    cbn [obind]. destruct (add_standard_all db w1 (rn_objects r)) as [[os' w2]|] eqn:E2; cbn [obind]; [|discriminate].
    destruct (node_profile_object _ _ _ _) as [np|]; cbn [obind]; [|discriminate]. intro H. inversion H; subst rs' w'. clear H.
    intros x I. unfold replace_remote in I. apply in_app_or in I as [I|[<-|[]]]; [left; eapply remove_incl; eauto|right].
    cbn [rn_addr rn_objects remote_add_object]. split; [left; congruence|]. rewrite app_length. cbn [length].
    apply add_standard_length in E2. rewrite E2, B. cbn [app]. apply Forall2_length' in C. rewrite <- C.
    apply listed_weight in Lc. destruct (m_props m) as [|q l]; cbn [length] in Lc; [|lia].
    cbn [map weight fold_right] in Lc. lia.
  Qed.

  (** What a step changes. *)
  Record grown (as_ : list sockaddr) h h' : Prop := {
    gr_node : as_large (h_node h) (h_node h');
    gr_small : small (h_node h) -> small (h_node h');
    gr_entries : entries_from as_ (h_remotes h) (h_remotes h') }.
  Lemma grown_refl h : grown [] h h.
  Proof. constructor; auto; [apply large_refl|apply entries_refl]. Qed.
  Lemma grown_trans a b h1 h2 h3 : grown a h1 h2 -> grown b h2 h3 -> grown (a ++ b) h1 h3.
  Proof. intros [A1 A2 A3] [B1 B2 B3]. constructor; auto; [eapply large_trans; eauto|eapply entries_trans; eauto]. Qed.
  Lemma grown_more a b h h' : incl a b -> grown a h h' -> grown b h h'.
  Proof. intros H [A B C]. constructor; auto. eapply entries_more; eauto. Qed.
  Lemma nil_more a h h' : grown [] h h' -> grown a h h'.
  Proof. apply grown_more. intros x []. Qed.
  Lemma one_twice (a : sockaddr) : incl ([a] ++ [a]) [a].
  Proof. intros x [<-|[<-|[]]]; left; auto. Qed.

  Lemma set_server_grown h i s s' : h_server h i = Some s -> sv_observers s' = sv_observers s -> grown [] h (h_set_server h i s').
  Proof.
    intros E F. constructor; [|intro S; apply (small_same (h_node h)); auto|apply entries_refl].
    unfold h_server, server_at in E. constructor; auto; [apply same_list| |]; destruct i; cbn; auto; eapply set_nth_map; eauto.
  Qed.
  Lemma notify_grown db free l bs m0 a : octets bs -> (length bs <= 1024)%nat -> msg_parse msg_new bs = Ret (true, m0) ->
    forall i h w b h' w', notify_observers db free i h w l (msg_set_from m0 a) = (b, h', w') ->
    grown [a] h h' /\ n_mgr (h_node h') = n_mgr (h_node h).
  Proof.
    intros Ho L E. assert (R : received (msg_set_from m0 a)) by (exists bs, m0, a; auto).
    induction l as [|o r IH]; intros i h w b h' w' N; cbn [notify_observers] in N.
    { inversion N; subst. split; auto. apply nil_more, grown_refl. }
    destruct (existsb _ _). { inversion N; subst. split; auto. apply nil_more, grown_refl. }
    destruct (observer_received db (free i) (h_called h o (msg_set_from m0 a)) w o (msg_set_from m0 a)) as [[bad h1] w1] eqn:E1.
    assert (X : grown [a] h h1 /\ n_mgr (h_node h1) = n_mgr (h_node h)).
    { assert (Same : forall h2, h_node h2 = h_node h -> h_remotes h2 = h_remotes h -> grown [a] h h2 /\ n_mgr (h_node h2) = n_mgr (h_node h)).
      { intros h2 A B. split; [|congruence]. apply nil_more. constructor; rewrite ?A, ?B; auto; [apply large_refl|apply entries_refl]. }
      unfold observer_received in E1. destruct (ob_kind o); try (inversion E1; subst; apply Same; reflexivity).
      - destruct (_ || _); [inversion E1; subst; apply Same; reflexivity|].
        destruct (node_observe w _ _ _) as [[[u2 n2] w2]|] eqn:E2; inversion E1; subst; [|apply Same; reflexivity].
        apply observe_large in E2 as (A & B & C); auto. split; auto. constructor; auto. apply (entries_more []); [intros x []|apply entries_refl].
      - destruct (_ || _); [inversion E1; subst; apply Same; reflexivity|].
        destruct (controller_observe db w _ _) as [[r2 w2]|] eqn:E2; inversion E1; subst; [|apply Same; reflexivity].
        split; auto. apply (observe_entries db w _ bs m0 a r2 w1 Ho L E) in E2. constructor; auto. apply large_refl. }
    destruct X as [X1 X2]. destruct bad.
    - inversion N; subst. split; auto. destruct X1. constructor; auto.
    - apply IH in N as [N1 N2]. split; [|congruence]. apply (grown_more ([a] ++ [a])); [apply one_twice|]. eapply grown_trans; eauto.
  Qed.
  Lemma step_grown db h w op h' w' : traffic op -> host_step db (h, w) op = Ret (h', w') -> grown (sources [op]) h h'.
  Proof.
    intros T E. destruct op; cbn [traffic] in T; try contradiction; cbn [host_step] in E; inversion E as [E1]; clear E; cbn [sources flat_map app].
    - unfold receive in E1. destruct (h_server h i) as [s|] eqn:Es; [|inversion E1; subst; apply nil_more, grown_refl].
      destruct (sv_thread s); try (inversion E1; subst; apply nil_more, grown_refl; fail).
      destruct (sv_stop s); [inversion E1; subst; apply nil_more; apply (set_server_grown h i s); auto|].
      destruct (msg_parse msg_new (firstn MAX_PACKET_SIZE data)) as [[[] m]|] eqn:Ep;
        [|inversion E1; subst; apply nil_more, grown_refl|inversion E1; subst; apply nil_more; apply (set_server_grown h i s); auto].
      destruct (sv_poisoned s); [inversion E1; subst; apply nil_more; apply (set_server_grown h i s); auto|].
      destruct (notify_observers db free 0 h w (sv_observers s) (msg_set_from m from)) as [[bad h1] w1] eqn:En.
      apply (notify_grown db free _ (firstn MAX_PACKET_SIZE data) m from) in En as [N1 N2];
        [|apply octets_firstn; auto|rewrite firstn_length; unfold MAX_PACKET_SIZE; lia|auto].
      destruct bad; inversion E1; subst; auto.
      apply (grown_more ([from] ++ [])); [intros x H; exact H|]. eapply grown_trans; [exact N1|]. apply (set_server_grown h1 i s); auto.
      unfold h_server. rewrite N2. exact Es.
    - unfold receive_error. destruct (h_server h i) as [s|] eqn:Es; [|apply grown_refl].
      destruct (sv_thread s); try apply grown_refl. apply (set_server_grown h i s); auto.
  Qed.
  Lemma run_grown db ops : forall h w, Forall traffic ops -> exists h' w', host_run db (h, w) ops = Ret (h', w') /\ grown (sources ops) h h'.
  Proof.
    induction ops as [|op r IH]; intros h w F; cbn [host_run]; [exists h, w; split; auto; apply grown_refl|]. inversion F as [|? ? T F']; subst.
    destruct (host_step db (h, w) op) as [[h1 w1]|] eqn:E; [|destruct op; cbn in T; try contradiction; cbn in E; discriminate].
    cbn [obind]. destruct (IH h1 w1 F') as (h' & w' & E' & G). exists h', w'. split; auto.
    change (sources (op :: r)) with (sources ([op] ++ r)). unfold sources. rewrite flat_map_app. eapply grown_trans; [|exact G]. exact (step_grown db h w op h1 w1 T E).
  Qed.

  (** ** C129 *)
  (** Whatever is received, from any state: the node has as many objects,
      properties, handlers, observers and servers as before. *)
  Theorem C129_node : forall db h w ops, Forall traffic ops ->
    exists h' w', host_run db (h, w) ops = Ret (h', w') /\ as_large (h_node h) (h_node h').
  Proof. intros db h w ops F. destruct (run_grown db ops h w F) as (h' & w' & E & G). exists h', w'. split; auto. apply G. Qed.
  (** The data of its properties stay within 255 octets, unless a handler of the
      application makes them longer. *)
  Theorem C129_data : forall db h w ops h' w', Forall traffic ops -> host_run db (h, w) ops = Ret (h', w') ->
    Forall short (n_objects (h_node h)) -> Forall short_handler (n_handlers (h_node h)) -> Forall short (n_objects (h_node h')).
  Proof.
    intros db h w ops h' w' F E A B. destruct (run_grown db ops h w F) as (h1 & w1 & E1 & G). rewrite E in E1. inversion E1; subst.
    apply G. constructor; auto.
  Qed.
  Lemma run_nodup db ops : forall h w h' w', host_run db (h, w) ops = Ret (h', w') -> NoDup (map rn_addr (h_remotes h)) -> NoDup (map rn_addr (h_remotes h')).
  Proof.
    induction ops as [|op r IH]; intros h w h' w' E N; cbn [host_run] in E; [inversion E; subst; auto|].
    destruct (host_step db (h, w) op) as [[h1 w1]|] eqn:E1; cbn [obind] in E; [|discriminate]. eapply IH; [exact E|]. eapply step_remotes; eauto.
  Qed.
  (** A controller has at most one entry more for each address and port that has
      spoken; an entry has at most 337 objects. *)
  Theorem C129_controller : forall db h w ops h' w' as_, Forall traffic ops -> host_run db (h, w) ops = Ret (h', w') ->
    NoDup (map rn_addr (h_remotes h)) -> incl (sources ops) as_ ->
    (length (h_remotes h') <= length (h_remotes h) + length as_)%nat /\ entries_from (sources ops) (h_remotes h) (h_remotes h').
  Proof.
    intros db h w ops h' w' as_ F E N I. destruct (run_grown db ops h w F) as (h1 & w1 & E1 & G). rewrite E in E1. inversion E1; subst. clear E1.
    split; [|apply G]. pose proof (run_nodup db ops h w h1 w1 E N) as N'. rewrite <- (map_length rn_addr (h_remotes h1)), <- (map_length rn_addr (h_remotes h)), <- app_length.
    apply NoDup_incl_length; auto. intros a Ha. apply in_map_iff in Ha as (r & <- & Hr). apply in_or_app.
    destruct (gr_entries _ _ _ G r Hr) as [J|[J _]]; [left; apply in_map; auto|right; apply I; auto].
  Qed.

  (** ** One machine can fill the list of a controller *)
  (** A receive thread that works and calls the observer of a controller. *)
  Definition listens h (i : server_id) : Prop :=
    h_cpoisoned h = false /\ exists s o, h_server h i = Some s /\ sv_thread s = TRunning /\ sv_stop s = false /\ sv_poisoned s = false /\
      sv_observers s = [o] /\ ob_kind o = ObsController /\ existsb (N.eqb (ob_id o)) (h_wpoisoned h) = false.
  (** The shortest datagram: a node profile tells nothing about itself. *)
  Definition hello : list N := [0x10; 0x81; 0; 1; 0x0E; 0xF0; 1; 0x0E; 0xF0; 1; 0x73; 0].
  Definition hellos (i : server_id) (as_ : list sockaddr) : list (host_op U) := map (fun a => HRecv i hello a (fun _ => true)) as_.
  Lemma hellos_traffic i as_ : Forall traffic (hellos i as_).
  Proof.
    unfold hellos. apply Forall_map. apply Forall_forall. intros a _. cbn [traffic]. unfold hello, octets, octet.
    repeat (constructor; [lia|]). constructor.
  Qed.
  Lemma remove_absent l r : ~ In (rn_addr r) (map rn_addr l) -> remove_remote l r = l.
  Proof.
    induction l as [|y t IH]; cbn; auto. intro N. destruct (remote_eqb y r) eqn:E; cbn [negb].
    - apply remote_eqb_spec in E. exfalso. auto.
    - rewrite IH; auto.
  Qed.
  Lemma hello_step seed db i h w a : standard_database seed = Ret db -> (forall k, uuid_ok (new_uuid k)) -> listens h i -> ~ In a (map rn_addr (h_remotes h)) ->
    exists r h1 w1, host_step db (h, w) (HRecv i hello a (fun _ => true)) = Ret (h1, w1) /\ listens h1 i /\
      h_remotes h1 = h_remotes h ++ [r] /\ rn_addr r = a.
  Proof.
    intros Db Uo (Cp & s & o & Es & Et & Est & Esp & Eo & Ek & Ew) Na. cbn [host_step]. unfold receive. rewrite Es, Et, Est, Esp, Eo.
    assert (Ep : exists m, msg_parse msg_new (firstn MAX_PACKET_SIZE hello) = Ret (true, m) /\ is_node_profile_message m = true /\ m_props m = []) by (eexists; split; [vm_compute; reflexivity|split; vm_compute; reflexivity]).
    destruct Ep as (m & Ep & Np & Mp). rewrite Ep. cbn [notify_observers]. rewrite Ew. unfold observer_received. rewrite Ek. cbn [h_called h_cpoisoned h_remotes h_wpoisoned]. rewrite Cp. cbn [orb negb].
    destruct (controller_entry seed db Db Uo w (h_remotes h) (msg_set_from m a)) as (css & r & w' & _ & A & _ & _ & E).
    { cbn. rewrite Mp. constructor. }
    { apply for_profile_spec. exact Np. }
    cbn [msg_from msg_set_from] in A. rewrite E. cbn [obind]. unfold replace_remote. rewrite remove_absent by (rewrite A; exact Na).
    exists r. eexists. eexists. split; [reflexivity|]. split; [|split; [reflexivity|exact A]].
    split; [exact Cp|]. exists s, o. split; [exact Es|]. repeat (split; [assumption|]). exact Ew.
  Qed.
  (** As many entries as there are different ports in datagrams of 12 octets: nothing
      but the number of ports bounds what one machine can do. *)
  Theorem C129_one_machine_refuted : forall seed db i h w as_, standard_database seed = Ret db -> (forall k, uuid_ok (new_uuid k)) ->
    listens h i -> NoDup as_ -> (forall a, In a as_ -> ~ In a (map rn_addr (h_remotes h))) ->
    exists h' w', host_run db (h, w) (hellos i as_) = Ret (h', w') /\
      map rn_addr (h_remotes h') = map rn_addr (h_remotes h) ++ as_.
  Proof.
    intros seed db i h w as_ Db Uo. revert h w. induction as_ as [|a r IH]; intros h w L N D.
    { exists h, w. split; auto. cbn. rewrite app_nil_r. auto. }
    inversion N as [|? ? Na Nr]; subst. destruct (hello_step seed db i h w a Db Uo L) as (x & h1 & w1 & E & L1 & R & A); [apply D; left; auto|].
    destruct (IH h1 w1 L1 Nr) as (h' & w' & E' & R').
    { intros b Hb. rewrite R, map_app. intro I. apply in_app_or in I as [I|[I|[]]]; [apply (D b); [right|]; auto|]. cbn in I. congruence. }
    exists h', w'. split.
    - change (hellos i (a :: r)) with (HRecv (U := U) i hello a (fun _ => true) :: hellos i r). cbn [host_run]. rewrite E. cbn [obind]. exact E'.
    - rewrite R', R, map_app, <- app_assoc. cbn. rewrite A. auto.
  Qed.
End S.
Print Assumptions C129_node.
Print Assumptions C129_data.
Print Assumptions C129_controller.
Print Assumptions C129_one_machine_refuted.

(** A controller that runs, and three ports of one machine. *)
Definition port (p : N) : sockaddr := (V4 0xC0A80014, p).
Example C129_case : ex_entries (ex_hops (map (fun p => (hello, port p)) [50000; 50001; 50002; 50000])) =
  Some [(port 50001, [0x0EF001]); (port 50002, [0x0EF001]); (port 50000, [0x0EF001])].
Proof. vm_compute. reflexivity. Qed.
Example C129_listens : match host_run (P := true) (HO := ex_order) (O := ex_os) (Uu := ex_uuids) ex_db (ex_host, w0) (ex_hops []) with
  | Ret (h, _) => match h_server h (Uni 0) with
                  | Some s => negb (h_cpoisoned h) && negb (sv_stop s) && negb (sv_poisoned s) &&
                      match sv_thread s, sv_observers s with TRunning, [Observer 7 ObsController] => true | _, _ => false end
                  | None => false
                  end
  | Panic => false
  end = true.
Proof. vm_compute. reflexivity. Qed.
