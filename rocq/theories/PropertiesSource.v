(** C139: the address a datagram leaves from. *)
From Verif Require Import Base HMap ModelCodec ModelMessages ModelObject ModelTransport ModelNode ModelController ModelHost ModelNetwork
  SpecWire SpecObject SpecNode SpecHost ProofsCodec ProofsCodec2 PropertiesCodec ProofsObject ProofsObject2 ProofsObject3
  PropertiesObject ProofsNode ProofsNode2 ProofsNode3 ProofsNode4 ExamplesNode PropertiesNode PropertiesTransport ProofsHistory ProofsController PropertiesController ProofsHost ProofsHost2 PropertiesHost PropertiesFrames PropertiesNetwork PropertiesInterfaces.

(* ------------------------------------------------------------------ *)
(** ** What is claimed *)

(** The calls of send_to among the calls into the operating system. *)
Definition is_send (e : event) : bool := match e with EvSend _ _ _ _ => true | _ => false end.
Definition sends (tr : list event) : list event := filter is_send tr.
(** The addresses to which the unicast sockets of a node are bound, in the order
    in which the interfaces were listed. *)
Definition bound (m : manager) : list sockaddr :=
  flat_map (fun s => match sk_sock (sv_socket s) with Some a => [a] | None => [] end) (mg_ucast m).
(** One datagram is offered to the sockets in that order until one takes it. *)
Definition refused (to : sockaddr) (d : list N) (l : sockaddr) : event := EvSend l to d false.
Definition in_turn (ls : list sockaddr) (to : sockaddr) (d : list N) (ok : bool) (tr : list event) : Prop :=
  if ok then exists pre l post, ls = pre ++ l :: post /\ tr = map (refused to d) pre ++ [EvSend l to d true]
  else tr = map (refused to d) ls.
(** Where datagrams come from: those for the group from the wildcard address, the
    others from an address of an interface; both from port 3610. *)
Definition proper_source {O : OS} (e : event) : Prop :=
  match e with
  | EvSend l to _ _ => (to = group /\ l = (V4 0, 3610)) \/ (exists a k, usable (os_interfaces k) a /\ l = (a, 3610))
  | _ => True
  end.
(** What is sent to one address for a datagram that came to the socket [l] leaves
    from that socket. *)
Definition answers_from (l : sockaddr) (e : event) : Prop :=
  match e with
  | EvSend l' to _ _ => to <> group -> l' = l
  | _ => True
  end.

(* ------------------------------------------------------------------ *)
(** ** Proofs *)
Section S.
  Context {U : Type} {P : Profile} {HO : HashOrder} {Os : OS} {Uu : Uuids}.
  Variable db : list object.

  Lemma offered_sends tr : offered tr = [] -> sends tr = [].
  Proof. induction tr as [|[] r IH]; cbn; auto. discriminate. Qed.
  Lemma sends_app a b : sends (a ++ b) = sends a ++ sends b.
  Proof. apply filter_app. Qed.

  (** The loop of the unicast manager. *)
  Lemma loop_in_turn to m l : forall w ok w', ucast_send w l to m = (ok, w') -> exists tr, since w w' tr /\
    in_turn (flat_map (fun s => match sk_sock (sv_socket s) with Some a => [a] | None => [] end) l) to (msg_bytes m) ok tr /\
    ((exists k, os_send k = false) \/ (length tr <= 1)%nat /\ Forall (fun e => e = EvSend (hd (V4 0, 0) (flat_map (fun s => match sk_sock (sv_socket s) with Some a => [a] | None => [] end) l)) to (msg_bytes m) true) tr).
  Proof.
    induction l as [|s r IH]; intros w ok w'; cbn [ucast_send flat_map].
    - intro H. inversion H; subst. exists []. split; [apply since_refl|]. split; [reflexivity|]. right. split; [cbn; lia|constructor].
    - unfold ucast_server_send, socket_send_to. destruct (sk_sock (sv_socket s)) as [a|] eqn:Es; cbn [app hd].
      + destruct (os_send (w_calls w)) eqn:Eo.
        * intro H. inversion H; subst. eexists. split; [apply since_log|]. split.
          -- exists [], a. eexists. split; reflexivity.
          -- right. split; [cbn; lia|]. repeat constructor.
        * intro H. apply IH in H as (tr & T & I & _). eexists. split; [eapply since_trans; [apply since_log|exact T]|]. split; [|left; eauto].
          cbn [app]. destruct ok; cbn [in_turn] in *.
          -- destruct I as (pre & x & post & -> & ->). exists (a :: pre), x, post. split; reflexivity.
          -- subst. reflexivity.
      + intro H. apply IH in H as (tr & T & I & K). exists tr. auto.
  Qed.

  (** What one send call of a node leaves on the line, and through which socket. *)
  Definition from_socket (m : manager) (e : event) : Prop :=
    match e with
    | EvSend l to _ _ => (to = group /\ exists s, In s (mg_mcast m) /\ sk_sock (sv_socket s) = Some l) \/
                         (In l (bound m) /\ ((exists k, os_send k = false) \/ l = hd (V4 0, 0) (bound m)))
    | _ => True
    end.
  Definition new_events_ok (m : manager) (w w' : world) : Prop := exists tr, since w w' tr /\ Forall (from_socket m) tr.
  Lemma none_ok m w w' : w_trace w' = w_trace w -> new_events_ok m w w'.
  Proof. intro E. exists []. split; [unfold since; rewrite app_nil_r; exact E|constructor]. Qed.
  Lemma ok_trans m a b c : new_events_ok m a b -> new_events_ok m b c -> new_events_ok m a c.
  Proof. intros (t & A & B) (s & C & D). exists (t ++ s). split; [eapply since_trans; eauto|apply Forall_app; auto]. Qed.
  Lemma unsent_ok m tr : offered tr = [] -> Forall (from_socket m) tr.
  Proof. induction tr as [|[] r IH]; cbn; intro H; try discriminate; constructor; cbn; auto. Qed.
  Lemma quiet_ok m w w' : quiet_trace w w' -> new_events_ok m w w'.
  Proof. intros (_ & tr & A & _ & B). exists tr. split; auto. apply unsent_ok. exact B. Qed.
  Lemma in_turn_ok m to d ok tr : in_turn (bound m) to d ok tr ->
    ((exists k, os_send k = false) \/ (length tr <= 1)%nat /\ Forall (fun e => e = EvSend (hd (V4 0, 0) (bound m)) to d true) tr) -> Forall (from_socket m) tr.
  Proof.
    intros I K. assert (A : Forall (fun e => exists l b, e = EvSend l to d b /\ In l (bound m)) tr).
    { destruct ok; cbn [in_turn] in I.
      - destruct I as (pre & l & post & -> & ->). apply Forall_app. split.
        + apply Forall_forall. intros e Ie. apply in_map_iff in Ie as (x & <- & Ix). exists x, false. split; [reflexivity|apply in_app_iff; auto].
        + constructor; [|constructor]. exists l, true. split; [reflexivity|apply in_app_iff; right; left; reflexivity].
      - subst. apply Forall_forall. intros e Ie. apply in_map_iff in Ie as (x & <- & Ix). exists x, false. auto. }
    apply Forall_forall. intros e Ie. rewrite Forall_forall in A. destruct (A e Ie) as (l & b & -> & Il). cbn. right. split; auto.
    destruct K as [K|[_ K]]; auto. rewrite Forall_forall in K. specialize (K _ Ie). inversion K. auto.
  Qed.
  Lemma manager_send_ok m w to x ok w' : manager_send w m to x = (ok, w') -> new_events_ok m w w'.
  Proof. unfold manager_send. intro E. apply loop_in_turn in E as (tr & A & B & C). exists tr. split; auto. eapply in_turn_ok; eauto. Qed.
  Lemma mcast_ok m x : forall l, incl l (mg_mcast m) -> forall w ok w', mcast_notify w l x = (ok, w') -> new_events_ok m w w'.
  Proof.
    induction l as [|s r IH]; intros I w ok w'; cbn [mcast_notify]; [intro H; inversion H; apply none_ok; auto|].
    unfold mcast_server_notify, socket_send_to. destruct (sk_sock (sv_socket s)) as [a|] eqn:Es.
    - assert (H1 : new_events_ok m w (log w (EvSend a (MULTICAST_V4_ADDRESS, PORT) (msg_bytes x) (os_send (w_calls w))))).
      { eexists. split; [apply since_log|]. constructor; [|constructor]. cbn. left. split; [reflexivity|]. exists s. split; auto. apply I. left. reflexivity. }
      destruct (os_send (w_calls w)); cbn [negb]; intro H; [|inversion H; subst; exact H1].
      eapply ok_trans; [exact H1|]. eapply IH; [|exact H]. intros y Iy. apply I. right. exact Iy.
    - cbn [negb]. intro H. inversion H. apply none_ok. auto.
  Qed.
  Lemma node_send_ok w (n : node U) to x ok x' n' w' : node_send w n to x = (ok, x', n', w') -> new_events_ok (n_mgr n) w w' /\ n_mgr n' = n_mgr n.
  Proof.
    unfold node_send. destruct (update_tid n x) as [n1 x1] eqn:E0. apply update_tid_keeps in E0 as (_ & _ & M & _).
    destruct (manager_send w (n_mgr n1) to x1) as [b w1] eqn:E. intro H. inversion H; subst. rewrite <- M. split; auto. eapply manager_send_ok; eauto.
  Qed.
  Lemma node_post_ok w (n : node U) to x c x' n' w' : node_post w n to x = (c, x', n', w') -> new_events_ok (n_mgr n) w w' /\ n_mgr n' = n_mgr n.
  Proof.
    unfold node_post. destruct (update_tid n x) as [n1 x1] eqn:E0. apply update_tid_keeps in E0 as (_ & _ & M & _). cbn [n_mgr n_with_post].
    destruct (manager_send _ (n_mgr n1) to x1) as [b w1] eqn:E. intro H. inversion H; subst. cbn [n_mgr n_with_post]. rewrite <- M. split; auto.
    apply manager_send_ok in E as (tr & A & B). exists tr. auto.
  Qed.
  Lemma node_notify_ok w (n : node U) x ok x' n' w' : node_notify w n x = (ok, x', n', w') -> new_events_ok (n_mgr n) w w' /\ n_mgr n' = n_mgr n.
  Proof.
    unfold node_notify. destruct (update_tid n x) as [n1 x1] eqn:E0. apply update_tid_keeps in E0 as (_ & _ & M & _).
    destruct (manager_notify w (n_mgr n1) x1) as [b w1] eqn:E. intro H. inversion H; subst. rewrite <- M. split; auto. eapply mcast_ok; [apply incl_refl|exact E].
  Qed.
  Lemma announce_ok w (n : node U) ok n' w' : node_announce w n = (ok, n', w') -> new_events_ok (n_mgr n) w w'.
  Proof.
    unfold node_announce. destruct (find_object _ _) as [o|]; [|intro H; inversion H; apply none_ok; auto].
    destruct (object_find_property _ _) as [p|]; [|intro H; inversion H; apply none_ok; auto].
    destruct (node_notify w n _) as [[[b m1] n1] w1] eqn:E. intro H. inversion H; subst. eapply node_notify_ok; eauto.
  Qed.
  Lemma respond_ok w (n : node U) req res n' w' : respond w n req res = (n', w') -> new_events_ok (n_mgr n) w w' /\ n_mgr n' = n_mgr n.
  Proof.
    unfold respond. destruct res as [r|]; [|intro H; inversion H; subst; split; auto; apply none_ok; auto].
    destruct (esv_is_response _); [|intro H; inversion H; subst; split; auto; apply none_ok; auto]. destruct (esv_is_unicast_response _).
    - destruct (node_send w n _ r) as [[[b m1] n1] w1] eqn:E. intro H. inversion H; subst. eapply node_send_ok; eauto.
    - destruct (node_notify w n r) as [[[b m1] n1] w1] eqn:E. intro H. inversion H; subst. eapply node_notify_ok; eauto.
  Qed.
  Lemma observe_ok w (u : U) n m u' n' w' : received m -> node_good n -> node_observe w u n m = Ret (u', n', w') -> new_events_ok (n_mgr n) w w'.
  Proof.
    intros R G E. destruct (observe_packets _ _ _ _ _ _ _ R G E) as (_ & M & _). rewrite observe_eq in E.
    destruct (deliver w n m) as [[n1 w1]|] eqn:E1; cbn [obind] in E; [|discriminate].
    destruct (node_message_received _ u n1 m) as [[[u2 n2] res]|]; cbn [obind] in E; [|discriminate].
    destruct (respond (tick w1) n2 m res) as [n3 w3] eqn:E3. inversion E; subst.
    apply respond_ok in E3 as [(t3 & S3 & F3) M3]. rewrite <- M3, M in F3.
    apply deliver_spec in E1 as (t1 & S1 & _ & D). apply delivered_keeps in D as (_ & _ & _ & _ & _ & D & _).
    exists (t1 ++ t3). split; [eapply since_trans; [exact S1|exact S3]|]. apply Forall_app. split; auto. apply unsent_ok. exact D.
  Qed.
  Lemma observer_ok free (h : host U) w o m bad h' w' : received m -> node_good (h_node h) -> observer_received db free h w o m = (bad, h', w') ->
    new_events_ok (n_mgr (h_node h)) w w'.
  Proof.
    intros R G E. unfold observer_received in E. destruct (ob_kind o).
    - destruct (_ || _); [inversion E; subst; apply none_ok; auto|].
      destruct (node_observe w (h_user h) (h_node h) m) as [[[u1 n1] w1]|] eqn:E1; inversion E; subst; [|apply none_ok; auto]. eapply observe_ok; eauto.
    - inversion E; subst; apply none_ok; auto.
    - destruct (_ || _); [inversion E; subst; apply none_ok; auto|].
      destruct (controller_observe db w (h_remotes h) m) as [[r1 w1]|] eqn:E1; inversion E; subst; [|apply none_ok; auto].
      apply none_ok. eapply controller_silent; eauto.
    - inversion E; subst; apply none_ok; auto.
  Qed.
  Lemma notify_ok free m l : received m -> forall i (h : host U) w bad h' w', node_good (h_node h) -> notify_observers db free i h w l m = (bad, h', w') ->
    new_events_ok (n_mgr (h_node h)) w w'.
  Proof.
    intro R. induction l as [|o r IH]; intros i h w bad h' w' G E; cbn [notify_observers] in E; [inversion E; subst; apply none_ok; auto|].
    destruct (existsb _ _); [inversion E; subst; apply none_ok; auto|].
    destruct (observer_received db (free i) (h_called h o m) w o m) as [[b h1] w1] eqn:E1.
    pose proof E1 as E2. apply observer_ok in E2; auto. change (h_node (h_called h o m)) with (h_node h) in E2.
    apply observer_sends in E1 as (A & B & _); auto. change (h_node (h_called h o m)) with (h_node h) in B.
    destruct b; [inversion E; subst; exact E2|]. apply IH in E; auto. rewrite B in E. eapply ok_trans; eauto.
  Qed.
  Lemma receive_ok free (h : host U) w i d a h' w' : octets d -> node_good (h_node h) -> receive db free h w i d a = (h', w') -> new_events_ok (n_mgr (h_node h)) w w'.
  Proof.
    intros Od G E. unfold receive in E. destruct (h_server h i) as [s|]; [|inversion E; subst; apply none_ok; auto].
    destruct (sv_thread s); try (inversion E; subst; apply none_ok; auto; fail).
    destruct (sv_stop s). { inversion E; subst. apply none_ok; auto. }
    destruct (msg_parse msg_new (firstn MAX_PACKET_SIZE d)) as [[[|] m]|] eqn:Ep.
    - assert (Rm : received (msg_set_from m a)) by (exists (firstn MAX_PACKET_SIZE d), m, a; split; [rewrite max_packet; apply seen_octets; auto|auto]).
      destruct (sv_poisoned s). { inversion E; subst. apply none_ok; auto. }
      destruct (notify_observers db free 0 h w (sv_observers s) (msg_set_from m a)) as [[bad h1] w1] eqn:En.
      apply notify_ok in En; auto. destruct bad; inversion E; subst; auto.
    - inversion E; subst; apply none_ok; auto.
    - inversion E; subst. apply none_ok; auto.
  Qed.

  (** *** Every step *)
  Lemma socks_proper m e : socks m -> from_socket m e -> proper_source e.
  Proof.
    intros [A B]. destruct e as [| |l to d b|]; cbn; auto. intros [(-> & s & I & E)|(I & _)].
    - left. split; auto. rewrite Forall_forall in B. destruct (B s I) as (x & k & _ & K). rewrite K in E. cbn in E. congruence.
    - right. unfold bound in I. apply in_flat_map in I as (s & Is & I). rewrite Forall_forall in A. destruct (A s Is) as (x & k & Hu & K). rewrite K in I. cbn in I.
      destruct I as [<-|[]]. eauto.
  Qed.
  Definition all_proper (w w' : world) : Prop := exists tr, since w w' tr /\ Forall proper_source tr.
  Lemma ok_proper m w w' : socks m -> new_events_ok m w w' -> all_proper w w'.
  Proof. intros S (tr & A & B). exists tr. split; auto. eapply Forall_impl; [|exact B]. intros e. apply socks_proper. exact S. Qed.
  Lemma proper_trans a b c : all_proper a b -> all_proper b c -> all_proper a c.
  Proof. intros (t & A & B) (s & C & D). exists (t ++ s). split; [eapply since_trans; eauto|apply Forall_app; auto]. Qed.
  Lemma proper_none w w' : w_trace w' = w_trace w -> all_proper w w'.
  Proof. intro E. exists []. split; [unfold since; rewrite app_nil_r; exact E|constructor]. Qed.
  Lemma start_proper w (n : node U) ok n' w' : node_start w n = Ret (ok, n', w') -> socks (n_mgr n) -> all_proper w w'.
  Proof.
    intros E S. apply node_start_spec in E as (ok1 & m1 & w1 & Q & M & A).
    assert (S1 : socks m1) by (destruct M as [(_ & _ & -> & _)|(_ & M)]; [auto|eapply manager_start_socks; eauto]).
    assert (P1 : all_proper w w1) by (eapply ok_proper; [exact S1|apply quiet_ok; exact Q]).
    destruct A as [(_ & _ & _ & ->)|(_ & m2 & Ob & An)]; [exact P1|]. eapply proper_trans; [exact P1|].
    apply announce_ok in An. eapply ok_proper; [|exact An]. cbn. eapply manager_observers_socks; eauto.
  Qed.
  Lemma clone_trace l : forall w l' w', clone_objects w l = Ret (l', w') -> w_trace w' = w_trace w.
  Proof.
    induction l as [|o r IH]; intros w l' w'; cbn [clone_objects]; [intro H; inversion H; auto|].
    destruct (object_clone _ o) as [o'|]; cbn [obind]; [|discriminate]. destruct (clone_objects (tick w) r) as [[r' w1]|] eqn:E; cbn [obind fst snd]; [|discriminate].
    intro H. inversion H; subst. apply IH in E. exact E.
  Qed.
  Lemma nodes_trace l : forall w l' w', controller_nodes w l = Ret (l', w') -> w_trace w' = w_trace w.
  Proof.
    induction l as [|o r IH]; intros w l' w'; cbn [controller_nodes]; [intro H; inversion H; auto|]. unfold remote_clone.
    destruct (clone_objects w (rn_objects o)) as [[o' w1]|] eqn:E1; cbn [obind fst snd]; [|discriminate].
    destruct (controller_nodes w1 r) as [[r' w2]|] eqn:E; cbn [obind fst snd]; [|discriminate]. intro H. inversion H; subst. apply IH in E. apply clone_trace in E1. congruence.
  Qed.
  Lemma step_proper (h : host U) w op h' w' : typed_op op -> node_good (h_node h) -> host_step db (h, w) op = Ret (h', w') -> socks (n_mgr (h_node h)) -> all_proper w w'.
  Proof.
    intros K G E S. destruct op; cbn [host_step] in E; cbn [typed_op] in K.
    - destruct (h_poisoned h); [discriminate|]. destruct (node_step (h_user h, h_node h, w) op) as [[[u1 n1] w1]|] eqn:E1; cbn [obind] in E; [|discriminate].
      inversion E; subst. clear E. destruct op; cbn [node_step] in E1.
      + destruct (add_object_eq (h_node h) o) as (os & E2 & _). rewrite E2 in E1. inversion E1; subst. apply proper_none; auto.
      + inversion E1; subst. apply proper_none; auto.
      + inversion E1; subst. apply proper_none; auto.
      + inversion E1; subst. apply proper_none; auto.
      + destruct (node_send w (h_node h) to m) as [[[b m1] n2] w2] eqn:E2. inversion E1; subst. eapply ok_proper; [exact S|]. eapply node_send_ok; eauto.
      + destruct (node_post w (h_node h) to m) as [[[b m1] n2] w2] eqn:E2. inversion E1; subst. eapply ok_proper; [exact S|]. eapply node_post_ok; eauto.
      + destruct (node_notify w (h_node h) m) as [[[b m1] n2] w2] eqn:E2. inversion E1; subst. eapply ok_proper; [exact S|]. eapply node_notify_ok; eauto.
      + destruct (node_announce w (h_node h)) as [[b n2] w2] eqn:E2. inversion E1; subst. eapply ok_proper; [exact S|]. eapply announce_ok; eauto.
      + destruct (node_announce_property w (h_node h) o p) as [[b n2] w2] eqn:E2. inversion E1; subst. unfold node_announce_property in E2.
        destruct (node_notify w (h_node h) _) as [[[b' m1] n3] w3] eqn:E3. inversion E2; subst. eapply ok_proper; [exact S|]. eapply node_notify_ok; eauto.
      + destruct (node_start w (h_node h)) as [[[ok n2] w2]|] eqn:E2; cbn [obind] in E1; [|discriminate]. inversion E1; subst. eapply start_proper; eauto.
      + destruct (node_stop (h_node h)) as [[ok n2]|]; cbn [obind snd] in E1; [|discriminate]. inversion E1; subst. apply proper_none; auto.
      + destruct (node_observe w (h_user h) (h_node h) m) as [[[u2 n2] w2]|] eqn:E2; cbn [obind] in E1; [|discriminate]. inversion E1; subst.
        eapply ok_proper; [exact S|]. eapply observe_ok; eauto.
    - destruct (h_cpoisoned h); [discriminate|]. destruct (h_poisoned h); [discriminate|]. unfold controller_search_object in E.
      destruct (node_notify w (h_node h) _) as [[[b m1] n1] w1] eqn:E1. inversion E; subst. eapply ok_proper; [exact S|]. eapply node_notify_ok; eauto.
    - destruct (h_cpoisoned h); [inversion E; subst; apply proper_none; auto|]. destruct (h_poisoned h); [discriminate|]. unfold controller_send in E.
      destruct (node_send w (h_node h) _ _) as [[[b m1] n1] w1] eqn:E1. inversion E; subst. eapply ok_proper; [exact S|]. eapply node_send_ok; eauto.
    - destruct (h_cpoisoned h); [discriminate|]. destruct (h_poisoned h); [discriminate|]. unfold controller_post in E.
      destruct (node_post w (h_node h) _ _) as [[[b m1] n1] w1] eqn:E1. inversion E; subst. eapply ok_proper; [exact S|]. eapply node_post_ok; eauto.
    - destruct (h_cpoisoned h); [discriminate|]. destruct (controller_nodes _ _) as [[x w1]|] eqn:E1; cbn [obind] in E; [|discriminate]. inversion E; subst. apply proper_none. eapply nodes_trace; eauto.
    - destruct (h_cpoisoned h); [discriminate|]. destruct (h_poisoned h); [discriminate|]. unfold controller_start in E.
      destruct (node_start w (h_node h)) as [[[ok n1] w1]|] eqn:E1; cbn [obind] in E; [|discriminate]. inversion E; subst. eapply start_proper; eauto.
    - destruct (h_cpoisoned h); [discriminate|]. destruct (h_poisoned h); [discriminate|]. unfold controller_stop in E.
      destruct (node_stop (h_node h)) as [[ok n1]|]; cbn [obind fst snd] in E; [|discriminate]. inversion E; subst. apply proper_none; auto.
    - inversion E as [E1]. eapply ok_proper; [exact S|]. eapply receive_ok; eauto.
    - inversion E; subst. apply proper_none; auto.
  Qed.
  Lemma run_proper ops : forall (h : host U) w h' w', Forall typed_op ops -> node_good (h_node h) -> host_run db (h, w) ops = Ret (h', w') -> socks (n_mgr (h_node h)) -> all_proper w w'.
  Proof.
    induction ops as [|op r IH]; intros h w h' w' F G E S; cbn [host_run] in E; [inversion E; subst; apply proper_none; auto|].
    destruct (host_step db (h, w) op) as [[h1 w1]|] eqn:E1; cbn [obind] in E; [|discriminate]. eapply proper_trans; [exact (step_proper _ _ _ _ _ (Forall_inv F) G E1 S)|].
    eapply IH; [exact (Forall_inv_tail F)| |exact E|]; [exact (typed_good _ _ _ _ _ _ (Forall_inv F) G E1)|exact (host_step_socks _ _ _ _ _ _ (Forall_inv F) G E1 S)].
  Qed.

  (** ** C139 *)
  (** After any calls and datagrams, every datagram was offered from port 3610: those
      that a multicast socket sends go to the group and leave from the wildcard
      address, all others leave from an address of an interface of the host. *)
  Theorem C139_source np n0 u w ops (h : host U) w' : obj_built np -> node_new np = Ret n0 -> Forall typed_op ops -> host_run db (host_new u n0, w) ops = Ret (h, w') ->
    exists tr, since w w' tr /\ Forall proper_source tr.
  Proof.
    intros Np N F E.
    assert (G0 : node_good (h_node (host_new u n0))) by (apply (node_new_good np n0); [exact (obj_ok_good np (obj_built_ok np Np))|exact N]).
    eapply run_proper; [exact F|exact G0|exact E|]. cbn. rewrite (new_mgr _ _ N). apply idle_socks. split; reflexivity.
  Qed.
  (** send_message and post_message offer the datagram to the unicast sockets in the
      order of the interfaces, whatever its destination, until one takes it. *)
  Theorem C139_send w (n : node U) to m ok m' n' w' : node_send w n to m = (ok, m', n', w') ->
    exists tr, since w w' tr /\ in_turn (bound (n_mgr n)) to (msg_bytes m') ok tr.
  Proof.
    unfold node_send. destruct (update_tid n m) as [n1 m1] eqn:E0. apply update_tid_keeps in E0 as (_ & _ & M & _).
    destruct (manager_send w (n_mgr n1) to m1) as [b w1] eqn:E. intro H. inversion H; subst. rewrite <- M. unfold manager_send in E. apply loop_in_turn in E as (tr & A & B & _). eauto.
  Qed.
  Theorem C139_post w (n : node U) to m c m' n' w' : node_post w n to m = (c, m', n', w') ->
    exists ok tr, since w w' tr /\ in_turn (bound (n_mgr n)) to (msg_bytes m') ok tr.
  Proof.
    unfold node_post. destruct (update_tid n m) as [n1 m1] eqn:E0. apply update_tid_keeps in E0 as (_ & _ & M & _). cbn [n_mgr n_with_post].
    destruct (manager_send _ (n_mgr n1) to m1) as [b w1] eqn:E. intro H. inversion H; subst. cbn [n_mgr n_with_post] in *. rewrite <- M.
    unfold manager_send in E. apply loop_in_turn in E as (tr & A & B & _). exists b, tr. auto.
  Qed.
  (** The same datagram is offered to the group once for each multicast socket, by
      calls that do not differ: nothing in them says through which interface. *)
  Theorem C139_group w (n : node U) m m' n' w' : socks (n_mgr n) -> node_notify w n m = (true, m', n', w') ->
    since w w' (repeat (EvSend (V4 0, 3610) group (msg_bytes m') true) (length (mg_mcast (n_mgr n)))).
  Proof.
    intros [_ B]. unfold node_notify. destruct (update_tid n m) as [n1 m1] eqn:E0. apply update_tid_keeps in E0 as (_ & _ & M & _).
    destruct (manager_notify w (n_mgr n1) m1) as [b w1] eqn:E. intro H. inversion H; subst. rewrite <- M. unfold manager_notify in E. rewrite <- M in B. clear H M.
    revert w E. induction (mg_mcast (n_mgr n')) as [|s r IH]; intros w E; cbn [mcast_notify length repeat] in *.
    - inversion E; subst. apply since_refl.
    - destruct (Forall_inv B) as (a & k & _ & K). unfold mcast_server_notify, socket_send_to in E. rewrite K in E. cbn [sk_sock] in E.
      destruct (os_send (w_calls w)); cbn [negb] in E; [|inversion E].
      apply IH in E; [|exact (Forall_inv_tail B)]. exact (since_trans _ _ _ _ _ (since_log _ _) E).
  Qed.
  Theorem C139_group_reached np n0 u w ops (h : host U) w' m m' n' w2 : obj_built np -> node_new np = Ret n0 -> Forall typed_op ops -> host_run db (host_new u n0, w) ops = Ret (h, w') ->
    node_notify w' (h_node h) m = (true, m', n', w2) ->
    since w' w2 (repeat (EvSend (V4 0, 3610) group (msg_bytes m') true) (length (mg_mcast (n_mgr (h_node h))))).
  Proof.
    intros Np N F E E2.
    assert (G0 : node_good (h_node (host_new u n0))) by (apply (node_new_good np n0); [exact (obj_ok_good np (obj_built_ok np Np))|exact N]).
    eapply C139_group; [|exact E2]. eapply host_run_socks; [exact F|exact G0|exact E|]. cbn. rewrite (new_mgr _ _ N). apply idle_socks. split; reflexivity.
  Qed.
  (** An answer leaves from the address that was asked, if the host has no other
      address, or if it is the first one and the system takes what it is given. *)
  Theorem C139_asked_partial np n0 u w ops (h : host U) w' k s l free d from h2 w2 :
    obj_built np -> node_new np = Ret n0 -> Forall typed_op ops -> host_run db (host_new u n0, w) ops = Ret (h, w') -> octets d ->
    nth_error (mg_ucast (n_mgr (h_node h))) k = Some s -> sk_sock (sv_socket s) = Some l ->
    bound (n_mgr (h_node h)) = [l] \/ (k = 0%nat /\ forall i, os_send i = true) ->
    receive db free h w' (Uni k) d from = (h2, w2) -> exists tr, since w' w2 tr /\ Forall (answers_from l) tr.
  Proof.
    intros Np N F E Od Ek El H R.
    assert (G0 : node_good (h_node (host_new u n0))) by (apply (node_new_good np n0); [exact (obj_ok_good np (obj_built_ok np Np))|exact N]).
    assert (G : node_good (h_node h)) by (eapply run_typed_good; eauto).
    destruct (receive_ok _ _ _ _ _ _ _ _ Od G R) as (tr & T & A). exists tr. split; auto. eapply Forall_impl; [|exact A].
    intros [| |l' to data ok|]; cbn; auto. intros [(-> & _)|(I & J)] Nt; [contradiction|]. destruct H as [H|(-> & H)].
    - rewrite H in I. destruct I as [<-|[]]. reflexivity.
    - destruct J as [(i & J)|J]; [rewrite H in J; discriminate|]. subst l'. destruct (mg_ucast (n_mgr (h_node h))) as [|s0 r] eqn:Em; [discriminate|]. inversion Ek; subst s0.
      unfold bound. rewrite Em. cbn [flat_map]. rewrite El. reflexivity.
  Qed.
End S.

(* ------------------------------------------------------------------ *)
(** ** Cases *)

(** The node of the examples on a host with the addresses 192.168.0.10 and 10.0.0.1,
    started; then a node 192.168.0.20 asks the lamp for its state at one of them. *)
Definition both_ways : OS := two_os (fun _ => true) (fun _ => true).
Definition begin_ops : list (host_op unit) :=
  [HApi (OpAddObject lamp); HApi (OpAddHandler yes); HApi (OpAddObserver (Observer 1 ObsNode)); HApi OpStart].
Definition ask_lamp : list N := to_lamp 7 0x62 [1; 0x80; 0].
Definition begun : host unit * world :=
  the (host_new tt ex_node0, w0) (host_run (P := true) (HO := ex_order) (O := both_ways) (Uu := ex_uuids) [] (host_new tt ex_node0, w0) begin_ops).
Definition ask (k : nat) : host unit * world :=
  receive (P := true) (HO := ex_order) (O := both_ways) (Uu := ex_uuids) [] (fun _ => true) (fst begun) (snd begun) (Uni k) ask_lamp peer.
Lemma ask_pair k : receive (P := true) (HO := ex_order) (O := both_ways) (Uu := ex_uuids) [] (fun _ => true) (fst begun) (snd begun) (Uni k) ask_lamp peer = (fst (ask k), snd (ask k)).
Proof. unfold ask. generalize begun. intro b. apply surjective_pairing. Qed.
Definition answer_lamp : list N := [0x10; 0x81; 0; 7; 0x02; 0x91; 1; 0x05; 0xFF; 1; 0x72; 1; 0x80; 1; 0x30].
Lemma begin_ops_ok : Forall (typed_op (P := true) (HO := ex_order)) begin_ops.
Proof.
  apply Forall_cons; [exact lamp_built|]. apply Forall_cons; [exact yes_typed|]. apply Forall_cons; [exact I|]. apply Forall_cons; [exact I|]. apply Forall_nil.
Qed.

Example C139_case : bound (n_mgr (h_node (fst begun))) = [(V4 0xC0A8000A, 3610); (V4 0x0A000001, 3610)] /\
  since (snd begun) (snd (ask 0)) [EvSend (V4 0xC0A8000A, 3610) peer answer_lamp true] /\
  length (sends (w_trace (snd begun))) = 2%nat /\ Forall (fun e => exists d, e = EvSend (V4 0, 3610) group d true) (sends (w_trace (snd begun))).
Proof.
  split; [vm_compute; reflexivity|]. split; [vm_compute; reflexivity|]. split; [vm_compute; reflexivity|].
  match goal with |- Forall _ ?x => let y := eval vm_compute in x in change x with y end. repeat constructor; eexists; reflexivity.
Qed.
(** A socket that refuses: the other one is used. *)
Example C139_second : let Os := two_os (fun _ => true) (fun k => negb (k =? 0)) in
  exists m' n' w', node_send w0 (two_node Os) peer search_message = (true, m', n', w') /\
  in_turn [(V4 0xC0A8000A, 3610); (V4 0x0A000001, 3610)] peer (msg_bytes m') true (w_trace w') /\ bound (n_mgr n') = [(V4 0xC0A8000A, 3610); (V4 0x0A000001, 3610)].
Proof.
  cbv zeta. do 3 eexists. split; [vm_compute; reflexivity|]. split; [|vm_compute; reflexivity]. exists [(V4 0xC0A8000A, 3610)], (V4 0x0A000001, 3610), []. split; vm_compute; reflexivity.
Qed.
(** Asked at 10.0.0.1, the node answers from 192.168.0.10. *)
Theorem C139_asked_refuted : exists (O : OS) np n0 (u : unit) w ops h w' k s l free d from h2 w2 l' data,
  obj_built (P := true) (HO := ex_order) np /\ node_new (P := true) np = Ret n0 /\ Forall (typed_op (P := true) (HO := ex_order)) ops /\
  host_run (P := true) (HO := ex_order) (O := O) (Uu := ex_uuids) [] (host_new u n0, w) ops = Ret (h, w') /\ octets d /\
  nth_error (mg_ucast (n_mgr (h_node h))) k = Some s /\ sk_sock (sv_socket s) = Some l /\ (forall i, os_send i = true) /\
  receive (P := true) (HO := ex_order) (O := O) (Uu := ex_uuids) [] free h w' (Uni k) d from = (h2, w2) /\
  since w' w2 [EvSend l' from data true] /\ from <> group /\ l' <> l.
Proof.
  exists both_ways, ex_np, ex_node0, tt, w0, begin_ops, (fst begun), (snd begun), 1%nat.
  eexists _, (V4 0x0A000001, 3610), (fun _ => true), ask_lamp, peer, (fst (ask 1)), (snd (ask 1)), (V4 0xC0A8000A, 3610), answer_lamp.
  split; [exact ex_np_built|]. split; [vm_compute; reflexivity|]. split; [exact begin_ops_ok|]. split; [vm_compute; reflexivity|].
  split; [repeat constructor|]. split; [vm_compute; reflexivity|]. split; [vm_compute; reflexivity|]. split; [intro i; reflexivity|].
  split; [exact (ask_pair 1)|]. split; [vm_compute; reflexivity|]. split; discriminate.
Qed.

Print Assumptions C139_source.
Print Assumptions C139_send.
Print Assumptions C139_post.
Print Assumptions C139_group.
Print Assumptions C139_group_reached.
Print Assumptions C139_asked_partial.
Print Assumptions C139_asked_refuted.
