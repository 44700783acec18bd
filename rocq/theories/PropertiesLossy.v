(** C150: on a network that loses, repeats and reorders datagrams, searches leave
    no wrong entry. *)
From Verif Require Import Base HMap ModelCodec ModelMessages ModelObject ModelTransport ModelNode ModelController ModelHost ModelNetwork
  SpecWire SpecObject SpecNode SpecHost SpecRemote ProofsCodec ProofsCodec2 PropertiesCodec ProofsObject ProofsObject2 ProofsObject3
  PropertiesObject PropertiesDb ProofsDevice ProofsNode ProofsNode2 ProofsNode3 ProofsNode4 ExamplesNode PropertiesNode PropertiesTrans PropertiesProfile ProofsExchange
  ProofsController ProofsHistory PropertiesController ProofsHost ProofsHost2 PropertiesHost PropertiesFrames PropertiesNetwork PropertiesDiscovery PropertiesDiscovery2.

(** ** Vocabulary *)
(** A datagram under way reaches any receptions at all, none included; after that
    any of the datagrams may be lost, stay to arrive again, and change places.
    Receivers see the address of the sender; other threads may use their nodes and
    controllers at the time. And any process may search, at any time; set the data
    of its properties, but not those of its node profile that say what it has; add
    handlers that leave these alone; and look at the nodes that it knows.
    Meanwhile datagrams with any contents (that make no receive thread panic, C03) arrive
    from strangers. What they are answered goes to the strangers; datagrams that are
    answered to the group are left out (0x63 and 0x74, C49). *)
Section V.
  Context {U : Type}.
  Definition small_work {P : Profile} {HO : HashOrder} (op : host_op U) : Prop :=
    match op with HApi (OpSetData _ _ _) | HApi (OpAddHandler _) | HNodes => hop_ok op /\ Forall undisturbed (api [op]) | _ => False end.
  Variable machines : nat -> machine.
  Variable addr : nat -> sockaddr.
  Variable strangers : sockaddr -> Prop.
  Inductive lossy : list (host U * world) * flight -> list (host U * world) * flight -> Prop :=
  | Lossy hs f j p rs hs' new f' :
      In (j, p) f -> Forall (fun r => rc_from r = addr j) rs ->
      carried machines p hs rs hs' new -> incl f' (f ++ new) -> lossy (hs, f) (hs', f')
  | Searches hs f j h w h1 w1 tr :
      nth_error hs j = Some (h, w) -> searches_all machines j h w = Ret (h1, w1) -> since w w1 tr ->
      lossy (hs, f) (set_nth hs j (h1, w1), f ++ map (pair j) (packets tr))
  | Works hs f j op h w h1 w1 tr :
      nth_error hs j = Some (h, w) -> small_work (P := mc_profile (machines j)) (HO := mc_order (machines j)) op ->
      host_step (P := mc_profile (machines j)) (HO := mc_order (machines j)) (O := mc_os (machines j)) (Uu := mc_uuids (machines j)) (mc_db (machines j)) (h, w) op = Ret (h1, w1) ->
      since w w1 tr -> lossy (hs, f) (set_nth hs j (h1, w1), f ++ map (pair j) (packets tr))
  | Strange hs f j h w r p h1 w1 tr :
      nth_error hs j = Some (h, w) -> strangers (rc_from r) -> safe (pk_data p) ->
      takes machines j r h w p = (h1, w1) -> since w w1 tr -> Forall (fun q => pk_to q <> group) (packets tr) ->
      lossy (hs, f) (set_nth hs j (h1, w1), f).
  Inductive lossy_run : list (host U * world) * flight -> list (host U * world) * flight -> Prop :=
  | lossy_none s : lossy_run s s
  | lossy_more s s1 s2 : lossy s s1 -> lossy_run s1 s2 -> lossy_run s s2.
End V.
(** The entries [rs] for the address [a]: exactly one, with the devices [cs] and
    the node profile; or those of [rs0]. *)
Definition exactly_right (a : sockaddr) (cs : list N) (rs : list remote_node) : Prop :=
  exists r, In r rs /\ rn_addr r = a /\ map object_code (rn_objects r) = cs ++ [0x0EF001] /\ forall x, In x rs -> rn_addr x = a -> x = r.
Definition as_before (a : sockaddr) (rs0 rs : list remote_node) : Prop := forall x, rn_addr x = a -> In x rs <-> In x rs0.

(** ** The invariant *)
Section Net.
  Context {U : Type}.
  Variable machines : nat -> machine.
  Variable addr : nat -> sockaddr.
  Variable strangers : sockaddr -> Prop.
  Variable total c : nat.
  Variable cs : nat -> list N.
  Variable rd : nat -> N -> rule.
  Variable mg : nat -> manager.
  Hypothesis Std : forall k, exists seed, standard_database (P := mc_profile (machines k)) (HO := mc_order (machines k)) seed = Ret (mc_db (machines k)).
  Hypothesis Uo : forall k j, uuid_ok (new_uuid (Uuids := mc_uuids (machines k)) j).
  Hypothesis Rd : forall k, (k < total)%nat -> allows (rd k 0xD6).
  Hypothesis Few : forall k, (k < total)%nat -> (length (cs k) <= 84)%nat /\ Forall (fun c => c < 16777216) (cs k).
  Hypothesis Apart : forall j k, (j < total)%nat -> (k < total)%nat -> addr j = addr k -> j = k.
  Hypothesis Ctrl : Forall (serves ObsController) (all_servers (mg c)).
  Hypothesis Cin : (c < total)%nat.
  Hypothesis Far : forall a k, strangers a -> (k < total)%nat -> fst a <> fst (addr k).

  (** What is under way: searches and answers of the processes. *)
  Definition on_the_way (x : nat * packet) : Prop := (fst x < total)%nat /\
    ((pk_to (snd x) = group /\ exists t, t < 65536 /\ pk_data (snd x) = wire (asking t)) \/
     exists t, t < 65536 /\ pk_data (snd x) = wire (listing t (cs (fst x)))).
  Record losing (rs0 : list remote_node) (s : list (host U * world) * flight) : Prop := {
    ls_sound : sound machines total cs rd mg (fst s);
    ls_flight : Forall on_the_way (snd s);
    ls_known : forall k, (k < total)%nat -> entry (addr k) (cs k) (entries c (fst s)) \/ as_before (addr k) rs0 (entries c (fst s));
    ls_others : forall x, (forall k, (k < total)%nat -> rn_addr x <> addr k) -> ~ strangers (rn_addr x) -> In x (entries c (fst s)) <-> In x rs0 }.
  (** A process at rest searches. *)
  Lemma searches_rest j h w h1 w1 tr : at_rest machines cs rd mg j h -> searches_all (U := U) machines j h w = Ret (h1, w1) -> since w w1 tr ->
    at_rest machines cs rd mg j h1 /\ h_remotes h1 = h_remotes h /\
    Forall (fun p => pk_to p = group /\ exists t, t < 65536 /\ pk_data p = wire (asking t)) (packets tr).
  Proof.
    intros [Rh Mg] Se Sn. pose proof (rd_healthy _ _ _ Rh) as Hh.
    unfold searches_all in Se. cbn [host_step] in Se. rewrite (hh_cpoisoned _ Hh), (hh_poisoned _ Hh) in Se.
    destruct (controller_search_object w (h_node h) 0x0EF001) as [[ok n1] w2] eqn:Eso. inversion Se; subst h1 w2. clear Se.
    assert (Kn : n_objects n1 = n_objects (h_node h) /\ n_handlers n1 = n_handlers (h_node h) /\ n_mgr n1 = n_mgr (h_node h)).
    { unfold controller_search_object in Eso. destruct (node_notify (O := mc_os (machines j)) w (h_node h) (search_request 0x0EF001)) as [[[b m1] n2] w2] eqn:E1. inversion Eso; subst b n2 w2.
      apply node_notify_spec in E1 as (A & _). apply update_tid_keeps in A as (A & B & M & _). auto. }
    destruct Kn as (Ko & Kh & Km). split; [|split; [reflexivity|]].
    - split; [|exact (eq_trans Km Mg)].
      eapply parts_same; [exact Rh| |eapply sited_same; [exact Ko|exact Kh|exact (rd_sited _ _ _ Rh)]|exact Km|exact (rd_nodup _ _ _ Rh)].
      destruct Hh as [N0 A B C D]. constructor; auto. refine (healthy_same (h_node h) n1 Ko Kh _ N0). rewrite Km. exact (hn_fine _ N0).
    - apply Forall_forall. intros p Ip. apply packets_offered in Ip.
      exact (search_frame (Os := mc_os (machines j)) (Uu := mc_uuids (machines j)) (Uo j) U w (h_node h) ok n1 w1 tr _ _ Eso Sn Ip).
  Qed.
  (** It does something else. *)
  Lemma clone_trace (P : Profile) (HO : HashOrder) (O : OS) l : forall w x w', clone_objects w l = Ret (x, w') -> w_trace w' = w_trace w.
  Proof.
    induction l as [|o l IH]; intros w x w' E; cbn [clone_objects] in E; [inversion E; reflexivity|].
    destruct (object_clone _ o) as [o1|]; cbn [obind] in E; [|discriminate]. destruct (clone_objects _ l) as [[l1 w1]|] eqn:E1; cbn [obind fst snd] in E; [|discriminate].
    inversion E; subst. apply IH in E1. exact E1.
  Qed.
  Lemma nodes_trace (P : Profile) (HO : HashOrder) (O : OS) l : forall w x w', controller_nodes w l = Ret (x, w') -> w_trace w' = w_trace w.
  Proof.
    induction l as [|r l IH]; intros w x w' E; cbn [controller_nodes] in E; [inversion E; reflexivity|]. unfold remote_clone in E.
    destruct (clone_objects w (rn_objects r)) as [[os w1]|] eqn:E1; cbn [obind fst snd] in E; [|discriminate].
    destruct (controller_nodes w1 l) as [[l1 w2]|] eqn:E2; cbn [obind fst snd] in E; [|discriminate]. inversion E; subst.
    rewrite (IH _ _ _ E2). exact (clone_trace _ _ _ _ _ _ _ E1).
  Qed.
  Lemma works_rest j op h w h1 w1 tr : at_rest machines cs rd mg j h -> small_work (P := mc_profile (machines j)) (HO := mc_order (machines j)) op ->
    host_step (P := mc_profile (machines j)) (HO := mc_order (machines j)) (O := mc_os (machines j)) (Uu := mc_uuids (machines j)) (mc_db (machines j)) (h, w) op = Ret (h1, w1) ->
    since w w1 tr -> at_rest (U := U) machines cs rd mg j h1 /\ h_remotes h1 = h_remotes h /\ packets tr = [].
  Proof.
    intros [Rh Mg] Sw E Sn. pose proof (rd_healthy _ _ _ Rh) as Hh. destruct (Std j) as (seed & Db).
    assert (K : hop_ok (P := mc_profile (machines j)) (HO := mc_order (machines j)) op /\ Forall undisturbed (api [op]) /\ added (api [op]) = []).
    { destruct op as [[]| | | | | | | |]; cbn [small_work] in Sw; try contradiction; destruct Sw as [K Un]; auto. }
    destruct K as (K & Un & Ad).
    destruct (hstep_healthy (Os := mc_os (machines j)) (Uu := mc_uuids (machines j)) seed _ Db (Uo j) h w op K Hh) as (h2 & w2 & E2 & H2). rewrite E in E2. inversion E2; subst h2 w2. clear E2.
    pose proof (sited_host_step (Os := mc_os (machines j)) (Uu := mc_uuids (machines j)) seed _ Db (Uo j) (rd j) (cs j) h w op h1 w1 K Un Hh (rd_sited _ _ _ Rh) E) as S1. rewrite Ad, app_nil_r in S1.
    assert (Q : h_remotes h1 = h_remotes h /\ n_mgr (h_node h1) = n_mgr (h_node h) /\ w_trace w1 = w_trace w).
    { destruct op as [[]| | | | | | | |]; cbn [small_work] in Sw; try contradiction; cbn [host_step node_step] in E.
      - rewrite (hh_poisoned _ Hh) in E. cbn [obind] in E. inversion E; subst. auto.
      - rewrite (hh_poisoned _ Hh) in E. cbn [obind] in E. inversion E; subst. cbn [h_node h_with_node h_remotes]. split; [reflexivity|]. split; [|reflexivity].
        unfold set_data. destruct (find_object _ _); reflexivity.
      - rewrite (hh_cpoisoned _ Hh) in E. destruct (controller_nodes (P := mc_profile (machines j)) (HO := mc_order (machines j)) (O := mc_os (machines j)) w (h_remotes h)) as [[x w2]|] eqn:E1; cbn [obind] in E; [|discriminate].
        inversion E; subst. split; [reflexivity|]. split; [reflexivity|]. exact (nodes_trace _ _ _ _ _ _ _ E1). }
    destruct Q as (Qr & Qm & Qt). split; [|split; [exact Qr|]].
    - split; [|exact (eq_trans Qm Mg)]. eapply parts_same; [exact Rh|exact H2|exact S1|exact Qm|]. rewrite Qr. exact (rd_nodup _ _ _ Rh).
    - unfold since in Sn. rewrite Qt in Sn. rewrite <- (app_nil_r (w_trace w)) in Sn at 1. apply app_inv_head in Sn. subst tr. reflexivity.
  Qed.
  (** A datagram of a stranger changes no entry but that of the stranger. *)
  Lemma observe_others (P : Profile) (HO : HashOrder) (O : OS) (Uu : Uuids) seed db w rs m rs' w' : standard_database seed = Ret db -> (forall j, uuid_ok (new_uuid j)) ->
    received m -> NoDup (map rn_addr rs) -> controller_observe db w rs m = Ret (rs', w') -> others_same (msg_from m) rs rs'.
  Proof.
    intros Db U0 R Nd E. destruct (is_node_profile_message m) eqn:Ep.
    - apply for_profile_spec in Ep. destruct (controller_entry seed db Db U0 w rs m (received_u8 m R) Ep) as (css & r & w1 & _ & A & _ & _ & Ec). rewrite Ec in E. inversion E; subst.
      intros x Ne. unfold replace_remote. rewrite in_app_iff, remove_spec by auto. cbn [In]. rewrite A. split; [intros [[X _]|[X|[]]]; auto; subst; contradiction|auto].
    - unfold controller_observe in E. rewrite Ep in E. inversion E; subst. apply others_refl.
  Qed.
  Lemma notify_others (P : Profile) (HO : HashOrder) (O : OS) (Uu : Uuids) seed db free m l : standard_database seed = Ret db -> (forall j, uuid_ok (new_uuid j)) ->
    received m -> m_esv m <> 0x5E -> forall i (h : host U) w bad h' w', healthy h -> NoDup (map rn_addr (h_remotes h)) ->
    notify_observers db free i h w l m = (bad, h', w') -> NoDup (map rn_addr (h_remotes h')) /\ others_same (msg_from m) (h_remotes h) (h_remotes h').
  Proof.
    intros Db U0 R Ne. induction l as [|o r IH]; intros i h w bad h' w' Hh Nd E; cbn [notify_observers] in E; [inversion E; subst; split; [auto|apply others_refl]|].
    rewrite (hh_wpoisoned h Hh) in E. cbn [existsb] in E.
    assert (Hc : healthy (h_called h o m)) by (destruct Hh; constructor; auto).
    destruct (received_healthy seed db Db U0 (free i) (h_called h o m) w o m Hc R Ne) as (h1 & w1 & E1 & H1 & _). rewrite E1 in E.
    assert (T : NoDup (map rn_addr (h_remotes h1)) /\ others_same (msg_from m) (h_remotes h) (h_remotes h1)).
    { clear E IH. unfold observer_received in E1. destruct (ob_kind o).
      - destruct (_ || _); [inversion E1; subst; split; [exact Nd|apply others_refl]|]. destruct (node_observe w _ _ m) as [[[u1 n1] w2]|]; inversion E1; subst. split; [exact Nd|apply others_refl].
      - inversion E1; subst. split; [exact Nd|apply others_refl].
      - destruct (_ || _); [inversion E1; subst; split; [exact Nd|apply others_refl]|]. destruct (controller_observe db w _ m) as [[r1 w2]|] eqn:Eo; inversion E1; subst. cbn [h_remotes h_with_remotes h_called] in *.
        split; [eapply controller_observe_nodup; [exact Eo|exact Nd]|exact (observe_others _ _ _ _ seed db w _ m _ _ Db U0 R Nd Eo)].
      - inversion E1; subst. split; [exact Nd|apply others_refl]. }
    destruct T as [N1 O1]. destruct (IH _ _ _ _ _ _ H1 N1 E) as [N2 O2]. split; [exact N2|eapply others_trans; [exact O1|exact O2]].
  Qed.
  Lemma strange_rest j r p h w h1 w1 : at_rest machines cs rd mg j h -> safe (pk_data p) -> takes (U := U) machines j r h w p = (h1, w1) ->
    at_rest machines cs rd mg j h1 /\ others_same (rc_from r) (h_remotes h) (h_remotes h1).
  Proof.
    intros [Rh Mg] Sd E. pose proof (rd_healthy _ _ _ Rh) as Hh. destruct (Std j) as (seed & Db). unfold takes in E.
    pose proof (sited_receive (Os := mc_os (machines j)) (Uu := mc_uuids (machines j)) seed _ Db (Uo j) (rd j) (cs j) (rc_free r) h w (rc_server r) (pk_data p) (rc_from r) Sd Hh (rd_sited _ _ _ Rh)) as S1.
    pose proof (receive_any_healthy (Os := mc_os (machines j)) (Uu := mc_uuids (machines j)) seed _ Db (Uo j) (rc_free r) h w (rc_server r) (pk_data p) (rc_from r) Hh Sd) as H1.
    rewrite E in S1, H1. cbn [fst] in S1, H1.
    assert (Q : n_mgr (h_node h1) = n_mgr (h_node h) /\ NoDup (map rn_addr (h_remotes h1)) /\ others_same (rc_from r) (h_remotes h) (h_remotes h1)).
    { pose proof (rd_nodup _ _ _ Rh) as Nd. destruct (h_server h (rc_server r)) as [s|] eqn:Es.
      2:{ unfold receive in E. rewrite Es in E. inversion E; subst. split; [reflexivity|]. split; [exact Nd|apply others_refl]. }
      assert (Rs : receiving h (rc_server r) s).
      { assert (Is : In s (all_servers (n_mgr (h_node h)))).
        { unfold h_server in Es. unfold all_servers. apply in_app_iff. destruct (rc_server r); apply nth_error_In in Es; auto. }
        destruct (proj1 (Forall_forall _ _) (rd_serves _ _ _ Rh) s Is) as (A & B & _). split; auto. }
      destruct (receive_healthy (Os := mc_os (machines j)) (Uu := mc_uuids (machines j)) seed _ Db (Uo j) (rc_free r) h w (rc_server r) (pk_data p) (rc_from r) s Hh Rs Sd) as (h2 & w2 & l & E2 & _ & _ & _ & (M & _) & _).
      rewrite E in E2. inversion E2; subst h2 w2. split; [exact M|]. destruct Rs as (_ & T & St). unfold receive in E. rewrite Es, T, St, max_packet in E. destruct Sd as [Od Hf He].
      destruct (parse_seen (pk_data p) Od) as [(fr & Hd & Ef)|[(_ & m & Ef)|(X & _)]]; [| |contradiction]; rewrite Ef in E.
      2:{ inversion E; subst. split; [exact Nd|apply others_refl]. }
      destruct (sv_poisoned s); [inversion E; subst; split; [exact Nd|apply others_refl]|]. destruct (held_received (pk_data p) fr (rc_from r) Od Hd) as [R C].
      destruct (notify_observers _ _ 0 h w (sv_observers s) _) as [[bad h3] w3] eqn:En.
      assert (N5 : m_esv (msg_set_from (msg_of_frame msg_new fr) (rc_from r)) <> 0x5E) by (destruct C as (_ & _ & _ & -> & _); auto).
      destruct (notify_others _ _ _ _ seed _ _ _ _ Db (Uo j) R N5 _ _ _ _ _ _ Hh Nd En) as [N3 O3].
      destruct bad; inversion E; subst; split; auto. }
    destruct Q as (Qm & Qn & Qo). split; [|exact Qo]. split; [|exact (eq_trans Qm Mg)]. eapply parts_same; [exact Rh|exact H1|exact S1|exact Qm|exact Qn].
  Qed.
  Lemma step_losing rs0 s s' : lossy machines addr strangers s s' -> losing rs0 s -> losing rs0 s' /\
    (forall k, (k < total)%nat -> entry (addr k) (cs k) (entries c (fst s)) -> entry (addr k) (cs k) (entries c (fst s'))).
  Proof.
    intros D [So Fl Kn Ot]. inversion D as [hs f j p rs hs' new f' Ij Fr C Inc|hs f j h w h1 w1 tr E Se Sn|hs f j op h w h1 w1 tr E Sw Es Sn|hs f j h w r p h1 w1 tr E Sg Sf Ta _ _]; subst; cbn [fst snd] in *.
    2:{ assert (Kj : (j < total)%nat) by (destruct So as [<- _]; apply nth_error_Some; congruence).
        assert (Lj : (j < length hs)%nat) by (destruct So as [-> _]; exact Kj).
        destruct (searches_rest j h w h1 w1 tr (proj2 So _ _ _ E) Se Sn) as (R1 & Q1 & P1).
        assert (En : entries c (set_nth hs j (h1, w1)) = entries c hs).
        { rewrite entries_set by exact Lj. destruct (Nat.eqb_spec c j) as [->|]; [|reflexivity]. unfold entries. rewrite E. exact Q1. }
        split; [|rewrite En; auto]. constructor; cbn [fst snd]; [apply (sound_set machines addr total c cs rd mg Rd Few Apart Cin); auto| |rewrite En; exact Kn|rewrite En; exact Ot].
        apply Forall_app. split; [exact Fl|]. apply Forall_map. eapply Forall_impl; [|exact P1]. intros p X. split; [exact Kj|]. left. exact X. }
    2:{ assert (Kj : (j < total)%nat) by (destruct So as [<- _]; apply nth_error_Some; congruence).
        assert (Lj : (j < length hs)%nat) by (destruct So as [-> _]; exact Kj).
        destruct (works_rest j op h w h1 w1 tr (proj2 So _ _ _ E) Sw Es Sn) as (R1 & Q1 & P1).
        assert (En : entries c (set_nth hs j (h1, w1)) = entries c hs).
        { rewrite entries_set by exact Lj. destruct (Nat.eqb_spec c j) as [->|]; [|reflexivity]. unfold entries. rewrite E. exact Q1. }
        rewrite P1. cbn [map]. rewrite app_nil_r.
        split; [|rewrite En; auto]. constructor; cbn [fst snd]; [apply (sound_set machines addr total c cs rd mg Rd Few Apart Cin); auto|exact Fl|rewrite En; exact Kn|rewrite En; exact Ot]. }
    2:{ assert (Kj : (j < total)%nat) by (destruct So as [<- _]; apply nth_error_Some; congruence).
        assert (Lj : (j < length hs)%nat) by (destruct So as [-> _]; exact Kj).
        destruct (strange_rest j r p h w h1 w1 (proj2 So _ _ _ E) Sf Ta) as (R1 & Q1).
        assert (En : others_same (rc_from r) (entries c hs) (entries c (set_nth hs j (h1, w1)))).
        { rewrite entries_set by exact Lj. destruct (Nat.eqb_spec c j) as [->|]; [|apply others_refl]. unfold entries. rewrite E. exact Q1. }
        assert (Nf : forall k, (k < total)%nat -> addr k <> rc_from r) by (intros k Kk X; apply (Far _ k Sg Kk); rewrite X; reflexivity).
        assert (Ke : forall k, (k < total)%nat -> entry (addr k) (cs k) (entries c hs) -> entry (addr k) (cs k) (entries c (set_nth hs j (h1, w1)))).
        { intros k Kk (x & Ix & Ax & Cx). exists x. split; [|auto]. apply En; [rewrite Ax; auto|exact Ix]. }
        split; [|exact Ke]. constructor; cbn [fst snd]; [apply (sound_set machines addr total c cs rd mg Rd Few Apart Cin); auto|exact Fl| |].
        - intros k Kk. destruct (Kn k Kk) as [X|X]; [left; auto|]. right. intros x Ax. rewrite (En x) by (rewrite Ax; auto). apply X. exact Ax.
        - intros x Nx Ns. rewrite (En x) by (intro X; apply Ns; rewrite X; exact Sg). apply Ot; auto. }
    destruct (proj1 (Forall_forall _ _) Fl (j, p) Ij) as [Kj [(Gp & t & Ht & Ed)|(t & Ht & Ed)]]; cbn [fst snd] in *.
    - destruct (carried_search machines addr total c cs rd mg Std Uo Rd Few Apart Cin p (addr j) t Ht Ed _ _ _ _ C So Fr) as (S1 & En & Fn & _). split.
      + constructor; cbn [fst snd]; auto.
        * apply Forall_forall. intros x Ix. apply Inc, in_app_iff in Ix as [Ix|Ix]; [exact (proj1 (Forall_forall _ _) Fl x Ix)|].
          destruct (proj1 (Forall_forall _ _) Fn x Ix) as (Kx & _ & t' & X). split; [exact Kx|]. right. exists t'. exact X.
        * rewrite En. exact Kn.
        * rewrite En. exact Ot.
      + rewrite En. auto.
    - destruct (carried_answer machines addr total c cs rd mg Std Uo Rd Few Apart Ctrl Cin p j t Kj Ht Ed _ _ _ _ C So Fr) as (S1 & En & Oth & Dec & Ent). subst new. rewrite app_nil_r in Inc.
      assert (Stay : forall k, (k < total)%nat -> entry (addr k) (cs k) (entries c hs) -> entry (addr k) (cs k) (entries c hs')).
      { intros k Kk X. destruct (Nat.eq_dec k j) as [->|Nk]; [apply Ent; auto|]. destruct X as (r & Ir & Ar & Cr). exists r. split; [|auto]. apply Oth; auto.
        rewrite Ar. intro X. apply Nk. apply Apart; auto. }
      split; [|exact Stay]. constructor; cbn [fst snd]; auto.
      + apply Forall_forall. intros x Ix. exact (proj1 (Forall_forall _ _) Fl x (Inc x Ix)).
      + intros k Kk. destruct (Kn k Kk) as [X|X]; [left; auto|]. destruct (Nat.eq_dec k j) as [->|Nk].
        * destruct Dec as [Y|Y]; [left; exact Y|]. right. rewrite Y. exact X.
        * right. intros x Ax. rewrite (Oth x); [apply X; exact Ax|]. rewrite Ax. intro Y. apply Nk. apply Apart; auto.
      + intros x Nx Ns. rewrite (Oth x) by (apply Nx; exact Kj). apply Ot; auto.
  Qed.
  Lemma run_losing rs0 s s' : lossy_run machines addr strangers s s' -> losing rs0 s -> losing rs0 s' /\
    (forall k, (k < total)%nat -> entry (addr k) (cs k) (entries c (fst s)) -> entry (addr k) (cs k) (entries c (fst s'))).
  Proof.
    intro R. induction R as [s|s s1 s2 D R IH]; intro L; [auto|]. destruct (step_losing _ _ _ D L) as [L1 K1]. destruct (IH L1) as [L2 K2]. auto.
  Qed.
  (** An answer that reaches a socket of the controller's process. *)
  Lemma arrives rs0 hs f k p rs hs' new : losing rs0 (hs, f) -> In (k, p) f -> pk_to p <> group -> Forall (fun r => rc_from r = addr k) rs ->
    carried machines p hs rs hs' new -> (exists r, In r rs /\ (forall i, rc_free r i = true) /\ listens hs c r) -> (k < total)%nat /\ entry (addr k) (cs k) (entries c hs').
  Proof.
    intros [So Fl _ _] Ik Nk Fr C (r & Ir & Ff & Hr & h & w & s & E & Es). cbn [fst snd] in *.
    destruct (proj1 (Forall_forall _ _) Fl (k, p) Ik) as [Kk [(G & _)|(t & Ht & Ed)]]; cbn [fst snd] in *; [contradiction|]. split; [exact Kk|].
    apply (carried_answer machines addr total c cs rd mg Std Uo Rd Few Apart Ctrl Cin p k t Kk Ht Ed _ _ _ _ C So Fr). right. exists r. split; [exact Ir|]. split; [exact Ff|]. split; [exact Hr|].
    destruct (proj2 So _ _ _ E) as [_ M]. unfold h_server in Es. rewrite M in Es. congruence.
  Qed.
  Lemma losing_right rs0 s k : losing rs0 s -> entry (addr k) (cs k) (entries c (fst s)) -> exactly_right (addr k) (cs k) (entries c (fst s)).
  Proof.
    intros [So _ _ _] (r & Ir & Ar & Cr). exists r. split; auto. split; auto. split; auto. intros x Ix Ax.
    destruct (sound_at machines total cs rd mg (fst s) c So Cin) as (h' & w' & E' & R' & _). unfold entries in *. rewrite E' in *.
    pose proof (rd_nodup _ _ _ R') as Nd. clear - Ir Ix Ar Ax Nd. rewrite <- Ar in Ax. clear Ar. revert Nd Ir Ix Ax. induction (h_remotes h') as [|y l IH]; intros Nd Ir Ix Ax; [destruct Ir|].
    cbn [map] in Nd. inversion Nd as [|? ? Ni Nd']; subst. destruct Ir as [<-|Ir], Ix as [<-|Ix]; auto; exfalso; apply Ni; [rewrite <- Ax|rewrite Ax]; apply in_map; auto.
  Qed.
End Net.

(** ** C150 *)
Section Main.
  Context {U : Type}.
  Variable machines : nat -> machine.
  Variable addr : nat -> sockaddr.
  Variable strangers : sockaddr -> Prop.
  (** The situation of C98: processes with running nodes, of which process [c] has
      a controller; but sending may fail. *)
  Record network_up (hs : list (host U * world)) (c : nat) (cs : nat -> list N) (h : host U) (w : world) : Prop := {
    nu_std : forall k, exists seed, standard_database (P := mc_profile (machines k)) (HO := mc_order (machines k)) seed = Ret (mc_db (machines k));
    nu_uuids : forall k j, uuid_ok (new_uuid (Uuids := mc_uuids (machines k)) j);
    nu_apart : forall j k, (j < length hs)%nat -> (k < length hs)%nat -> addr j = addr k -> j = k;
    nu_running : forall k h w, nth_error hs k = Some (h, w) -> running_on machines k (cs k) h w;
    nu_at : nth_error hs c = Some (h, w);
    nu_controls : Forall (serves ObsController) (all_servers (n_mgr (h_node h)));
    nu_strangers : forall a k, strangers a -> (k < length hs)%nat -> fst a <> fst (addr k) }.
  Lemma up_losing : forall hs c cs h w, network_up hs c cs h w -> exists rd mg,
    (forall k, (k < length hs)%nat -> allows (rd k 0xD6)) /\
    (forall k, (k < length hs)%nat -> (length (cs k) <= 84)%nat /\ Forall (fun c => c < 16777216) (cs k)) /\
    Forall (serves ObsController) (all_servers (mg c)) /\ (c < length hs)%nat /\
    (forall k h w, nth_error hs k = Some (h, w) -> mg k = n_mgr (h_node h)) /\
    losing machines addr strangers (length hs) c cs rd mg (h_remotes h) (hs, []).
  Proof.
    intros hs c cs h w [Std Uo Ap Rn Ec Ct _].
    assert (Kc : (c < length hs)%nat) by (apply nth_error_Some; congruence).
    (* the rules and servers of the processes *)
    assert (Ch : exists rd : nat -> N -> rule, forall k h w, nth_error hs k = Some (h, w) -> allows (rd k 0xD6) /\ ready (P := mc_profile (machines k)) (rd k) (cs k) h).
    { assert (X : forall m, (m <= length hs)%nat -> exists rd : nat -> N -> rule, forall k h w, (k < m)%nat -> nth_error hs k = Some (h, w) -> allows (rd k 0xD6) /\ ready (P := mc_profile (machines k)) (rd k) (cs k) h).
      { induction m as [|m IH]; intro Lm; [exists (fun _ _ => Prohibited); lia|]. destruct IH as (rd & IH); [lia|].
        destruct (nth_error hs m) as [[hm wm]|] eqn:Em; [|apply nth_error_None in Em; lia].
        destruct (running_ready machines m (cs m) hm wm (Std m) (Uo m) (Rn _ _ _ Em)) as (rm & Am & Rm).
        exists (fun k => if Nat.eqb k m then rm else rd k). intros k h0 w0 Kk E0. destruct (Nat.eqb_spec k m) as [->|Nk].
        - rewrite Em in E0. inversion E0; subst. auto.
        - apply (IH k h0 w0); [lia|auto]. }
      destruct (X (length hs) (le_n _)) as (rd & Y). exists rd. intros k h0 w0 E0. apply (Y k h0 w0); auto. apply nth_error_Some. congruence. }
    destruct Ch as (rd & Ch).
    set (mg := fun k => match nth_error hs k with Some (h, _) => n_mgr (h_node h) | None => manager_new end).
    assert (Mg : forall k h w, nth_error hs k = Some (h, w) -> mg k = n_mgr (h_node h)) by (intros k h0 w0 E0; unfold mg; rewrite E0; reflexivity).
    assert (At : forall k, (k < length hs)%nat -> exists h w, nth_error hs k = Some (h, w)) by (intros k Kk; destruct (nth_error hs k) as [[? ?]|] eqn:E0; [eauto|apply nth_error_None in E0; lia]).
    assert (Rd : forall k, (k < length hs)%nat -> allows (rd k 0xD6)).
    { intros k Kk. destruct (At k Kk) as (h0 & w0 & E0). exact (proj1 (Ch k h0 w0 E0)). }
    assert (Few : forall k, (k < length hs)%nat -> (length (cs k) <= 84)%nat /\ Forall (fun c => c < 16777216) (cs k)).
    { intros k Kk. destruct (At k Kk) as (h0 & w0 & E0). pose proof (proj2 (Ch k h0 w0 E0)) as R0. split; [exact (rd_few _ _ _ R0)|exact (rd_codes _ _ _ R0)]. }
    assert (Ct' : Forall (serves ObsController) (all_servers (mg c))) by (rewrite (Mg _ _ _ Ec); exact Ct).
    exists rd, mg. split; [exact Rd|]. split; [exact Few|]. split; [exact Ct'|]. split; [exact Kc|]. split; [exact Mg|].
    assert (En : entries c hs = h_remotes h) by (unfold entries; rewrite Ec; reflexivity).
    constructor; cbn [fst snd].
    - split; [reflexivity|]. intros k h0 w0 E0. split; [exact (proj2 (Ch k h0 w0 E0))|]. rewrite (Mg _ _ _ E0). reflexivity.
    - constructor.
    - intros k Kk. right. intros x _. rewrite En. reflexivity.
    - intros x _ _. rewrite En. reflexivity.
  Qed.

  (** Whatever the network does and whoever searches how often, at any time each
      process has in the controller the one right entry, or what it had before; entries for other addresses are
      as before. *)
  Theorem C150_never_wrong_partial : forall hs c cs h w hs' f, network_up hs c cs h w ->
    lossy_run machines addr strangers (hs, []) (hs', f) ->
    exists h' w', nth_error hs' c = Some (h', w') /\
      (forall k, (k < length hs)%nat -> exactly_right (addr k) (cs k) (h_remotes h') \/ as_before (addr k) (h_remotes h) (h_remotes h')) /\
      forall x, (forall k, (k < length hs)%nat -> rn_addr x <> addr k) -> ~ strangers (rn_addr x) -> In x (h_remotes h') <-> In x (h_remotes h).
  Proof.
    intros hs c cs h w hs' f Sm R. destruct (up_losing _ _ _ _ _ Sm) as (rd & mg & Rd & Few & Ct & Kc & Mg & L). destruct Sm as [Std Uo Ap _ _ _ Far].
    destruct (run_losing machines addr strangers (length hs) c cs rd mg Std Uo Rd Few Ap Ct Kc Far _ _ _ R L) as [L' _].
    destruct (sound_at machines (length hs) cs rd mg hs' c (ls_sound _ _ _ _ _ _ _ _ _ _ L') Kc) as (h' & w' & E' & _). exists h', w'. split; [exact E'|].
    assert (En : entries c hs' = h_remotes h') by (unfold entries; rewrite E'; reflexivity). split.
    - intros k Kk. destruct (ls_known _ _ _ _ _ _ _ _ _ _ L' k Kk) as [X|X].
      + left. pose proof (losing_right machines addr strangers (length hs) c cs rd mg Kc _ _ k L' X) as Y. cbn [fst] in Y. rewrite En in Y. exact Y.
      + right. cbn [fst] in X. rewrite En in X. exact X.
    - intros x Nx Ns. rewrite <- En. exact (ls_others _ _ _ _ _ _ _ _ _ _ L' x Nx Ns).
  Qed.
  (** One answer of a process that reaches one socket of the controller's process
      when nobody else uses its node and controller is enough: from then on the
      process has the one right entry, whatever is lost, repeated or late. *)
  Theorem C150_one_is_enough_partial : forall hs c cs h w hs1 f1 k p rs hs2 new f2 hs' f, network_up hs c cs h w ->
    lossy_run machines addr strangers (hs, []) (hs1, f1) ->
    In (k, p) f1 -> pk_to p <> group -> Forall (fun r => rc_from r = addr k) rs ->
    carried machines p hs1 rs hs2 new -> (exists r, In r rs /\ (forall i, rc_free r i = true) /\ listens hs1 c r) -> incl f2 (f1 ++ new) ->
    lossy_run machines addr strangers (hs2, f2) (hs', f) ->
    exists h' w', nth_error hs' c = Some (h', w') /\ exactly_right (addr k) (cs k) (h_remotes h').
  Proof.
    intros hs c cs h w hs1 f1 k p rs hs2 new f2 hs' f Sm R1 Ik Nk Fr C Li Inc R2. destruct (up_losing _ _ _ _ _ Sm) as (rd & mg & Rd & Few & Ct & Kc & Mg & L). destruct Sm as [Std Uo Ap _ _ _ Far].
    destruct (run_losing machines addr strangers (length hs) c cs rd mg Std Uo Rd Few Ap Ct Kc Far _ _ _ R1 L) as [L1 _].
    destruct (arrives machines addr strangers (length hs) c cs rd mg Std Uo Rd Few Ap Ct Kc _ _ _ _ _ _ _ _ L1 Ik Nk Fr C Li) as [Kk E2].
    assert (St : lossy machines addr strangers (hs1, f1) (hs2, f2)) by (econstructor; eauto).
    destruct (step_losing machines addr strangers (length hs) c cs rd mg Std Uo Rd Few Ap Ct Kc Far _ _ _ St L1) as [L2 _].
    destruct (run_losing machines addr strangers (length hs) c cs rd mg Std Uo Rd Few Ap Ct Kc Far _ _ _ R2 L2) as [L' Stay].
    destruct (sound_at machines (length hs) cs rd mg hs' c (ls_sound _ _ _ _ _ _ _ _ _ _ L') Kc) as (h' & w' & E' & _). exists h', w'. split; [exact E'|].
    pose proof (losing_right machines addr strangers (length hs) c cs rd mg Kc _ _ k L' (Stay k Kk E2)) as Y. cbn [fst] in Y. unfold entries in Y. rewrite E' in Y. exact Y.
  Qed.
  (** Meanwhile no process stops serving: all of them are there, their locks are not
      poisoned, and they have the objects and the sockets that they had. *)
  Theorem C150_all_serve_partial : forall hs c cs h w hs' f, network_up hs c cs h w -> lossy_run machines addr strangers (hs, []) (hs', f) ->
    length hs' = length hs /\ forall k h0 w0, nth_error hs k = Some (h0, w0) -> exists h' w', nth_error hs' k = Some (h', w') /\
      h_poisoned h' = false /\ h_cpoisoned h' = false /\ n_mgr (h_node h') = n_mgr (h_node h0) /\
      map object_code (n_objects (h_node h')) = 0x0EF001 :: cs k.
  Proof.
    intros hs c cs h w hs' f Sm R. destruct (up_losing _ _ _ _ _ Sm) as (rd & mg & Rd & Few & Ct & Kc & Mg & L). destruct Sm as [Std Uo Ap _ _ _ Far].
    destruct (run_losing machines addr strangers (length hs) c cs rd mg Std Uo Rd Few Ap Ct Kc Far _ _ _ R L) as [L' _].
    pose proof (ls_sound _ _ _ _ _ _ _ _ _ _ L') as So. cbn [fst] in So. split; [apply So|]. intros k h0 w0 E0.
    assert (Kk : (k < length hs)%nat) by (apply nth_error_Some; congruence).
    destruct (sound_at machines (length hs) cs rd mg hs' k So Kk) as (h' & w' & E' & R' & M'). exists h', w'. split; [exact E'|].
    pose proof (rd_healthy _ _ _ R') as Hh. split; [exact (hh_poisoned _ Hh)|]. split; [exact (hh_cpoisoned _ Hh)|].
    split; [rewrite M'; exact (Mg _ _ _ E0)|]. destruct (rd_sited _ _ _ R') as (_ & X & _). exact X.
  Qed.
End Main.
Print Assumptions C150_all_serve_partial.
Print Assumptions C150_never_wrong_partial.
Print Assumptions C150_one_is_enough_partial.

(** ** A concrete case *)
(** The network of the case of C98. The search reaches the process of the lamp and
    not the controller's own process; one answer arrives twice, and the rest is
    lost. The controller then has one entry for the lamp, and none for its own
    process. *)
Definition ex_strangers (a : sockaddr) : Prop := fst a = V4 0xC0A800FE.
Definition lossy_take (s : list (host unit * world) * flight) (ks : list (nat * server_id)) : option (list (host unit * world) * flight) :=
  match snd s with
  | (j, p) :: post => option_map (fun y => (fst y, post ++ snd y)) (carry (fun _ => ex_machine) ex_addr p j (fst s) ks)
  | [] => None
  end.
Lemma lossy_take_sound s ks s' : lossy_take s ks = Some s' -> lossy (fun _ => ex_machine) ex_addr ex_strangers s s'.
Proof.
  destruct s as [hs [|[j p] post]]; cbn [lossy_take fst snd]; [discriminate|]. destruct (carry _ ex_addr p j hs ks) as [[hs' new]|] eqn:E; [|discriminate].
  intro X. injection X as <-. econstructor; [left; reflexivity| |exact (carry_sound _ _ _ _ _ _ _ _ E)|].
  - apply Forall_map, Forall_forall. intros x _. reflexivity.
  - intros y I. right. exact I.
Qed.
Definition lossy_start : list (host unit * world) * flight := ([many_c1; dev_state dev_ops], map (pair 0%nat) (packets many_tr)).
Fixpoint lossy_all (s : list (host unit * world) * flight) (l : list (list (nat * server_id))) : option (list (host unit * world) * flight) :=
  match l with [] => Some s | ks :: r => match lossy_take s ks with Some s1 => lossy_all s1 r | None => None end end.
Lemma lossy_all_sound (Q : list (host unit * world) * flight -> Prop) l : forall s, match lossy_all s l with Some s' => Q s' | None => False end ->
  exists s', lossy_run (fun _ => ex_machine) ex_addr ex_strangers s s' /\ Q s'.
Proof.
  induction l as [|ks l IH]; intros s X; cbn [lossy_all] in X; [exists s; split; [apply lossy_none|exact X]|].
  destruct (lossy_take s ks) as [s1|] eqn:E; [|contradiction]. destruct (IH s1 X) as (s' & R & Y). exists s'. split; [|exact Y].
  eapply lossy_more; [exact (lossy_take_sound _ _ _ E)|exact R].
Qed.
Definition shown (s : list (host unit * world) * flight) : option (list (sockaddr * list N)) :=
  option_map (fun hw => map (fun r => (rn_addr r, map object_code (rn_objects r))) (h_remotes (fst hw))) (nth_error (fst s) 0).
Lemma lossy_shown : exists s', lossy_run (fun _ => ex_machine) ex_addr ex_strangers lossy_start s' /\ shown s' = Some [(ex_addr 1, [0x029101; 0x0EF001])].
Proof. apply (lossy_all_sound (fun s' => shown s' = Some [(ex_addr 1, [0x029101; 0x0EF001])]) [[(1, Multi 0)]; [(0, Uni 0); (0, Uni 0)]]%nat). vm_compute. reflexivity. Qed.
Definition lossy_cs (k : nat) : list N := match k with 1%nat => [0x029101] | _ => [] end.
Lemma lossy_running k h w : nth_error [many_c; dev_state dev_ops] k = Some (h, w) -> running_on (fun _ => ex_machine) k (lossy_cs k) h w.
Proof. intro E. destruct C98_case as (R0 & R1 & _). destruct (of_two _ _ _ _ _ E) as [(-> & -> & ->)|(-> & -> & ->)]; [exact R0|exact R1]. Qed.
Lemma lossy_search : lossy (fun _ => ex_machine) ex_addr ex_strangers ([many_c; dev_state dev_ops], []) lossy_start.
Proof.
  replace lossy_start with (set_nth [many_c; dev_state dev_ops] 0 (fst many_c1, snd many_c1), [] ++ map (pair 0%nat) (packets many_tr)) by (cbn [set_nth app]; rewrite <- surjective_pairing; reflexivity).
  apply (Searches _ _ _ _ _ 0%nat (fst many_c) (snd many_c)); [cbn [nth_error]; apply f_equal, surjective_pairing|exact many_c1_eq|].
  apply trace_since_spec. vm_compute. reflexivity.
Qed.
Example C150_case : network_up (fun _ => ex_machine) ex_addr ex_strangers [many_c; dev_state dev_ops] 0 lossy_cs (fst many_c) (snd many_c) /\
  exists s', lossy_run (fun _ => ex_machine) ex_addr ex_strangers ([many_c; dev_state dev_ops], []) s' /\ shown s' = Some [(ex_addr 1, [0x029101; 0x0EF001])].
Proof.
  split.
  - constructor.
    + intros _; exists (fun k => k); exact ex_db_standard.
    + intros _; exact ex_uuids_ok.
    + change (length [many_c; dev_state dev_ops]) with 2%nat. intros j k Lj Lk E. destruct j as [|[|j]], k as [|[|k]]; try lia; vm_compute in E; discriminate.
    + intros k h w E. exact (lossy_running k h w E).
    + cbn [nth_error]. apply f_equal, surjective_pairing.
    + assert (X : forallb (fun s => match sv_thread s with TRunning => true | _ => false end && negb (sv_stop s) && existsb (fun o => match ob_kind o with ObsController => true | _ => false end) (sv_observers s)) (all_servers (n_mgr (h_node (fst many_c)))) = true) by (vm_compute; reflexivity).
      apply Forall_forall. intros s Is. rewrite forallb_forall in X. apply X in Is. apply andb_true_iff in Is as [Is X3]. apply andb_true_iff in Is as [X1 X2].
      split; [destruct (sv_thread s); auto; discriminate|]. split; [destruct (sv_stop s); auto; discriminate|].
      apply existsb_exists in X3 as (o & Io & X3). exists o. split; auto. destruct (ob_kind o); auto; discriminate.
    + change (length [many_c; dev_state dev_ops]) with 2%nat. intros a k -> Lk X. destruct k as [|[|k]]; [vm_compute in X; discriminate|vm_compute in X; discriminate|lia].
  - destruct lossy_shown as (s' & R & X). exists s'. split; [|exact X]. eapply lossy_more; [exact lossy_search|exact R].
Qed.
(** Meanwhile the process of the lamp may switch it off; it may not overwrite the
    list of its devices. *)
Example C150_case_work : small_work (U := unit) (P := mc_profile ex_machine) (HO := mc_order ex_machine) (HApi (OpSetData 0x029101 0x80 [0x31])) /\
  ~ small_work (U := unit) (P := mc_profile ex_machine) (HO := mc_order ex_machine) (HApi (OpSetData 0x0EF001 0xD6 [0])).
Proof.
  split.
  - cbn [small_work]. split; [split; [repeat constructor|exact Logic.I]|]. constructor; [|constructor]. left. discriminate.
  - cbn [small_work]. intros [_ X]. apply Forall_inv in X. destruct X as [X|X]; [apply X; reflexivity|]. apply X. unfold list_code. cbn [In]. tauto.
Qed.
(** A stranger that tells of a device of its own gets an entry. *)
Definition strange_reception : reception := Reception 0 (Uni 0) (V4 0xC0A800FE, 3610) (fun _ => true).
Definition strange_packet : packet := Packet (V4 0xC0A800FE, 3610) (V4 0xC0A8000A, 3610) (wire (listing 1 [0x013001])).
Definition strange_taken : host unit * world := takes (fun _ => ex_machine) 0 strange_reception (fst many_c) (snd many_c) strange_packet.
Lemma strange_step {U} machines addr (strangers : sockaddr -> Prop) (c : host U * world) hs f r p s : strangers (rc_from r) -> safe (pk_data p) ->
  takes machines 0 r (fst c) (snd c) p = s -> trace_since (snd c) (snd s) = Some [] -> lossy machines addr strangers (c :: hs, f) (s :: hs, f).
Proof.
  intros A B C D. destruct c as [h w], s as [h1 w1]. exact (Strange machines addr strangers ((h, w) :: hs) f 0%nat h w r p h1 w1 [] eq_refl A B C (trace_since_spec _ _ _ D) (Forall_nil _)).
Qed.
Lemma strange_eq : takes (fun _ => ex_machine) 0 strange_reception (fst many_c) (snd many_c) strange_packet = strange_taken.
Proof. unfold strange_taken. reflexivity. Qed.
Lemma strange_since : trace_since (snd many_c) (snd strange_taken) = Some [].
Proof. vm_compute. reflexivity. Qed.
Lemma strange_safe : safe (pk_data strange_packet).
Proof.
  apply wire_safe; [|apply (listing_short (Uu := mc_uuids ex_machine) ex_uuids_ok); cbn [length]; lia|discriminate].
  apply (listing_ok (Uu := mc_uuids ex_machine) ex_uuids_ok); [lia|cbn [length]; lia|repeat constructor].
Qed.
Lemma strange_entry : map (fun r => (rn_addr r, map object_code (rn_objects r))) (h_remotes (fst strange_taken)) = [((V4 0xC0A800FE, 3610), [0x013001; 0x0EF001])].
Proof. vm_compute. reflexivity. Qed.
Example C150_case_stranger : lossy (fun _ => ex_machine) ex_addr ex_strangers ([many_c; dev_state dev_ops], []) ([strange_taken; dev_state dev_ops], []) /\
  map (fun r => (rn_addr r, map object_code (rn_objects r))) (h_remotes (fst strange_taken)) = [((V4 0xC0A800FE, 3610), [0x013001; 0x0EF001])].
Proof. split; [|exact strange_entry]. exact (strange_step (fun _ => ex_machine) ex_addr ex_strangers many_c [dev_state dev_ops] [] strange_reception strange_packet strange_taken eq_refl strange_safe strange_eq strange_since). Qed.
