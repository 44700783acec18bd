(** The datagrams of a node while somebody is in it: whatever has been given to
    the sockets belongs to a call or reaction which takes effect. *)
From Verif Require Import Base HMap ModelCodec ModelMessages ModelObject ModelTransport ModelNode ModelController ModelDevice ModelThreads
  SpecNode SpecThreads ProofsObject ProofsNode ProofsNode2 ProofsNode3 ProofsLetters ProofsThreads SpecShared.
From Verif Require ModelLocks.

Section S.
  Context {U : Type} {P : Profile} {HO : HashOrder} {O : OS}.
  Notation nstate := (nstate U).

  (** From here on the body sends and does not panic. *)
  Inductive sending : nbody U -> Prop :=
  | sn_done v : sending (Done v)
  | sn_stmt f : (forall d, f d <> Panic) -> (forall d d' b, f d = Ret (d', b) -> exists l, line d' = line d ++ l) ->
      (forall d d' b, f d = Ret (d', b) -> sending b) -> sending (Stmt f).
  (** Datagrams are sent last. *)
  Inductive orderly : nbody U -> Prop :=
  | od_sends b : sending b -> orderly b
  | od_stmt f : (forall d d' b, f d = Ret (d', b) -> line d' = line d) -> (forall d d' b, f d = Ret (d', b) -> orderly b) -> orderly (Stmt f)
  | od_act x b : orderly b -> orderly (Act x b).

  Lemma sending_runs b : sending b -> forall d, exists d' v l, exec b d = Ret (d', v) /\ line d' = line d ++ l.
  Proof.
    induction 1 as [v|f Np L _ IH]; intros d; cbn [exec].
    - exists d, v, []. rewrite app_nil_r. auto.
    - destruct (f d) as [[d1 b]|] eqn:E; [|destruct (Np d E)]. destruct (L _ _ _ E) as (l & El). destruct (IH _ _ _ E d1) as (d' & v & l' & X & El').
      exists d', v, (l ++ l'). split; [exact X|]. rewrite El', El, app_assoc. reflexivity.
  Qed.
  Lemma orderly_exec b : orderly b -> forall d d' v, exec b d = Ret (d', v) -> exists l, line d' = line d ++ l.
  Proof.
    induction 1 as [b S|f L _ IH|x b _ IH]; intros d d' v E; [|cbn [exec] in E; destruct (f d) as [[d1 b]|] eqn:F; [|discriminate]|].
    - destruct (sending_runs b S d) as (d1 & v1 & l & X & El). rewrite E in X. inversion X; subst. exists l. exact El.
    - destruct (IH _ _ _ F _ _ _ E) as (l & El). exists l. rewrite El. f_equal. eapply L, F.
    - cbn [exec] in E. eapply IH, E.
  Qed.
  Lemma orderly_step f d d' b : orderly (Stmt f) -> f d = Ret (d', b) -> orderly b /\ (exists l, line d' = line d ++ l) /\ (exec b d' = Panic -> line d' = line d).
  Proof.
    intros Or E. inversion Or as [b0 S|f0 L K|]; subst.
    - inversion S as [|f0 Np L K]; subst. split; [apply od_sends; eapply K, E|]. split; [eapply L, E|].
      intros X. destruct (sending_runs b (K _ _ _ E) d') as (d1 & v & l & Y & _). congruence.
    - split; [eapply K, E|]. rewrite (L _ _ _ E). split; [exists []; rewrite app_nil_r; reflexivity|auto].
  Qed.
  Lemma orderly_act x b : orderly (Act x b) -> orderly b.
  Proof. intros Or. inversion Or as [b0 S|f0 L K|]; subst; [inversion S|assumption]. Qed.

  (** ** The bodies *)

  Lemma od_stmt' (f : nstate -> outcome (nstate * nbody U)) : (forall d d' b, f d = Ret (d', b) -> line d' = line d /\ orderly b) -> orderly (Stmt f).
  Proof. intros H. apply od_stmt; intros d d' b E; apply (H d d' b E). Qed.
  Lemma quiet_line (u u' : U) n n' w w' : quiet_trace w w' -> line (u', n', w') = line (u, n, w).
  Proof. intros (_ & tr & S & _ & D). unfold line. cbn [snd]. rewrite S, offered_app, D, app_nil_r. reflexivity. Qed.
  Lemma since_line (u u' : U) n n' w w' tr : since w w' tr -> exists l, line (u', n', w') = line (u, n, w) ++ l.
  Proof. intros S. exists (offered tr). unfold line. cbn [snd]. rewrite S, offered_app. reflexivity. Qed.

  Ltac one := let u := fresh "u" in let n := fresh "n" in let w := fresh "w" in let s' := fresh "s'" in let b' := fresh "b'" in
    apply od_stmt'; intros [[u n] w] s' b' H; cbv beta iota in H; injection H as <- <-; split; [reflexivity|].
  Ltac over := apply od_sends, sn_done.
  Lemma orderly_tid m (k : message -> nbody U) : (forall m, orderly (k m)) -> orderly (tid_body m k).
  Proof. intros K. unfold tid_body. destruct (msg_has_tid m); [apply K|]. one. one. apply K. Qed.
  Lemma orderly_send to m (k : bool -> message -> nbody U) : (forall b m, sending (k b m)) -> orderly (send_body to m k).
  Proof.
    intros K. apply orderly_tid. intros m'. apply od_sends, sn_stmt; intros [[u n] w]; [destruct (manager_send w _ to m'); discriminate| |];
      intros d' b' H; destruct (manager_send w _ to m') as [ok w'] eqn:E; injection H as <- <-; [|apply K].
    apply send_trace in E as (tr & S & _). eapply since_line, S.
  Qed.
  Lemma orderly_notify m (k : bool -> message -> nbody U) : (forall b m, sending (k b m)) -> orderly (notify_body m k).
  Proof.
    intros K. apply orderly_tid. intros m'. apply od_sends, sn_stmt; intros [[u n] w]; [destruct (manager_notify w _ m'); discriminate| |];
      intros d' b' H; destruct (manager_notify w _ m') as [ok w'] eqn:E; injection H as <- <-; [|apply K].
    apply notify_trace in E as (tr & j & S & _). eapply since_line, S.
  Qed.
  Lemma orderly_post to m : orderly (post_body (U := U) to m).
  Proof.
    apply orderly_tid. intros m'. one. one. apply od_sends, sn_stmt; intros [[u2 n2] w2]; [destruct (manager_send w2 _ to m'); discriminate| |];
      intros d' b' H; destruct (manager_send w2 _ to m') as [ok w'] eqn:E; injection H as <- <-; [|apply sn_done].
    apply send_trace in E as (tr & S & _). eapply since_line, S.
  Qed.
  Lemma orderly_announce : orderly (announce_body (U := U)).
  Proof.
    one. destruct (find_object (n_objects n) _) as [o|]; [|over].
    destruct (object_find_property o _) as [p|]; [|over]. apply orderly_notify. intros; apply sn_done.
  Qed.
  Lemma orderly_add_object o : orderly (add_object_body (U := U) o).
  Proof.
    one. one. apply od_stmt'. intros [[u2 n2] w2] s' b' H. destruct (find_object (n_objects n2) _) as [np|]; [|injection H as <- <-; split; [reflexivity|over]].
    destruct (node_profile_update np _) as [np'|]; [|discriminate]. injection H as <- <-. split; [reflexivity|over].
  Qed.
  Lemma orderly_add_handler h : orderly (add_handler_body (U := U) h).
  Proof. one. over. Qed.
  Lemma orderly_add_observer o : orderly (add_observer_body (U := U) o).
  Proof. one. over. Qed.
  Lemma orderly_running : orderly (running_body (U := U)).
  Proof. one. over. Qed.
  Lemma orderly_set_property oc c data : orderly (set_property_body (U := U) oc c data).
  Proof.
    one. destruct (find_object (n_objects n) oc) as [o|]; [|over]. one.
    destruct (object_find_property o c) as [p|]; [|over]. one. over.
  Qed.
  Lemma orderly_property oc c : orderly (property_body (U := U) oc c).
  Proof.
    one. destruct (find_object (n_objects n) oc) as [o|]; [|over]. one.
    destruct (object_find_property o c) as [p|]; over.
  Qed.
  Lemma orderly_ask h e ps : forall o all (k : object -> bool -> nbody U), (forall o b, orderly (k o b)) -> orderly (ask_body h o e ps all k).
  Proof.
    induction ps as [|p r IH]; intros o all k K; [apply K|]. cbn [ask_body]. apply od_stmt'. intros [[u n] w] s' b' H.
    destruct (call_handler h u o e p) as [[[u' o'] ok]|]; [|discriminate]. injection H as <- <-. split; [reflexivity|apply IH, K].
  Qed.
  Lemma orderly_ask_all e ps hs : forall o acc (k : object -> bool -> nbody U), (forall o b, orderly (k o b)) -> orderly (ask_all_body hs o e ps acc k).
  Proof.
    induction hs as [|h r IH]; intros o acc k K; [apply K|]. cbn [ask_all_body]. apply orderly_ask. intros o' b. apply IH, K.
  Qed.
  Lemma orderly_each code xs (k : nbody U) : orderly k -> orderly (each xs (assign code) k).
  Proof.
    intros K. induction xs as [|x r IH]; [exact K|]. cbn [each]. apply od_stmt'. intros [[u n] w] s' b H. injection H as <- <-.
    split; [|exact IH]. unfold assign. destruct (find_object (n_objects n) code); reflexivity.
  Qed.
  Lemma orderly_received req (k : option message -> nbody U) : (forall r, orderly (k r)) -> orderly (received_body req k).
  Proof.
    intros K. assert (D : forall c b, orderly (decided_body req k c b)).
    { intros c b. unfold decided_body. destruct (negb b); [apply K|]. apply orderly_each, orderly_each. one.
      destruct (find_object (n_objects n) _); apply K. }
    unfold received_body. destruct (esv_is_response (msg_esv req)); [apply K|]. one.
    destruct (find_object (n_objects n) (msg_deoj req)) as [o|]; [|apply K].
    destruct (negb (esv_is_request (msg_esv req))); [apply K|].
    destruct (negb (request_valid o req)); [apply K|]. apply od_stmt'. intros [[u2 n2] w2] s' b' H.
    destruct (object_clone _ o) as [copy|]; [|discriminate]. injection H as <- <-. split; [reflexivity|].
    destruct (Nat.eqb (length (n_handlers n2)) 0); [apply D|]. apply orderly_ask_all, D.
  Qed.
  Lemma orderly_up k ifs (next : nbody U) : orderly next -> orderly (up_body k ifs next).
  Proof.
    intros K. induction ifs as [|i r IH]; [exact K|]. cbn [up_body]. apply od_stmt'. intros [[u n] w] s' b' H.
    destruct (server_bind k w server_new i) as [[ok sv] w1] eqn:E. injection H as <- <-. split.
    - apply quiet_line. destruct k; [eapply ucast_bind_quiet|eapply mcast_bind_quiet]; exact E.
    - destruct (negb ok); [exact IH|]. apply od_act. one. exact IH.
  Qed.
  Lemma orderly_servers_start k (next : bool -> nbody U) : (forall b, orderly (next b)) -> orderly (servers_start_body k next).
  Proof.
    intros K. unfold servers_start_body. one. destruct (servers_running (servers k n)); [apply K|].
    apply od_stmt'. intros [[u2 n2] w2] s' b' H. destruct (get_all_interfaces w2) as [ifs w3] eqn:E. injection H as <- <-. split.
    - unfold get_all_interfaces in E. inversion E; subst. apply quiet_line, tick_quiet.
    - apply orderly_up. one. apply K.
  Qed.
  Lemma orderly_servers_stop k (next : bool -> nbody U) : (forall b, orderly (next b)) -> orderly (servers_stop_body k next).
  Proof.
    intros K. apply od_act, od_stmt'. intros [[u n] w] s' b' H. destruct (servers_stop (servers k n) true) as [x|]; [|discriminate].
    cbn [obind] in H. injection H as <- <-. split; [reflexivity|apply K].
  Qed.
  Lemma orderly_manager_stop (next : bool -> nbody U) : (forall b, orderly (next b)) -> orderly (manager_stop_body next).
  Proof. intros K. apply orderly_servers_stop. intros b. apply orderly_servers_stop. intros b'. apply K. Qed.
  Lemma orderly_manager_start (next : bool -> nbody U) : (forall b, orderly (next b)) -> orderly (manager_start_body next).
  Proof.
    intros K. unfold manager_start_body. one. destruct (manager_running (n_mgr n)); [apply K|].
    apply orderly_servers_start. intros [|]; cbn [negb]; [|apply orderly_manager_stop; intros; apply K].
    apply orderly_servers_start. intros [|]; cbn [negb]; [apply K|apply orderly_manager_stop; intros; apply K].
  Qed.
  Lemma orderly_observers l (next : nbody U) : orderly next -> orderly (observers_body l next).
  Proof.
    assert (S : forall k o (b : nbody U), orderly b -> orderly (servers_observer_body k o b)).
    { intros k o b K. apply od_act, od_stmt'. intros [[u n] w] s' b' H. destruct (servers_add_observer (servers k n) o) as [x|]; [|discriminate].
      cbn [obind] in H. injection H as <- <-. split; [reflexivity|exact K]. }
    intros K. induction l as [|o r IH]; [exact K|]. cbn [observers_body]. apply S, S, IH.
  Qed.
  Lemma orderly_started ok : orderly (started_body (U := U) ok).
  Proof. unfold started_body. destruct (negb ok); [over|]. one. one. one. apply orderly_observers, orderly_announce. Qed.
  Lemma orderly_start : orderly (start_body (U := U)).
  Proof. unfold start_body. one. destruct (negb (manager_running (n_mgr n))); [apply orderly_manager_start; intros|]; apply orderly_started. Qed.
  Lemma orderly_stop : orderly (stop_body (U := U)).
  Proof. unfold stop_body. one. apply orderly_manager_stop. intros; over. Qed.
  Lemma orderly_observe req : orderly (observe_body (U := U) req).
  Proof.
    unfold observe_body. fold (mute_respond (U := U) req).
    assert (R : orderly (received_body req (mute_respond (U := U) req))).
    { apply orderly_received. intros [res|]; unfold mute_respond; apply od_stmt'; intros [[u n] w] s' b' H; injection H as <- <-.
      - split; [apply quiet_line, tick_quiet|]. destruct (esv_is_response (msg_esv res)); [|over].
        destruct (esv_is_unicast_response (msg_esv res)); [apply orderly_send|apply orderly_notify]; intros; apply sn_done.
      - split; [apply quiet_line, tick_quiet|over]. }
    set (after := received_body req (mute_respond req)) in *. clearbody after.
    one. destruct (is_last_message_response n req); [|exact R].
    apply od_stmt'. intros [[u2 n2] w2] s' b' H; destruct (msg_clone req) as [m|]; try discriminate; injection H as <- <-. split.
    - destruct (n_post n2) as [ch|]; [|reflexivity]. unfold line. cbn [snd log w_trace]. rewrite offered_app. cbn. apply app_nil_r.
    - one. exact R.
  Qed.
End S.

Section Lines.
  Context {U : Type} {P : Profile} {HO : HashOrder} {O : OS} {Uu : Uuids} (db : list object) (what : observer -> obs) (net : bool).
  Notation rel := (rel (U := U) db). Notation sane := (sane (U := U)).
  Implicit Types (s : process U) (a : state U).

  (** ** The specification only adds datagrams *)

  Lemma effect_body (c : call U) n f : effect_of c = AtNode n f -> exists b, orderly b /\ forall x, exec b x = f x.
  Proof.
    intros E. destruct c; cbn [effect_of] in E; inversion E; subst; clear E.
    - eexists; split; [apply orderly_set_property|intros [[u x] w]; apply exec_set_property].
    - eexists; split; [apply orderly_property|intros [[u x] w]; apply exec_property].
    - eexists; split; [apply orderly_add_handler|intros [[u x] w]; reflexivity].
    - eexists; split; [apply orderly_add_object|intros [[u x] w]; apply exec_add_object].
    - eexists; split; [apply orderly_add_object|intros [[u x] w]; apply exec_add_object].
    - eexists; split; [apply orderly_add_handler|intros [[u x] w]; reflexivity].
    - eexists; split; [apply orderly_add_observer|intros [[u x] w]; reflexivity].
    - eexists; split; [apply (orderly_send to m (fun b m => Done (VSent b m))); intros; apply sn_done|].
      intros [[u x] w]. rewrite exec_send. destruct (node_send w x to m) as [[[ok m'] x'] w']. reflexivity.
    - eexists; split; [apply orderly_post|intros [[u x] w]; apply exec_post].
    - eexists; split; [apply (orderly_notify m (fun b m => Done (VSent b m))); intros; apply sn_done|].
      intros [[u x] w]. rewrite exec_notify. destruct (node_notify w x m) as [[[ok m'] x'] w']. reflexivity.
    - eexists; split; [apply orderly_announce|intros [[u x] w]; apply exec_announce].
    - eexists; split; [apply (orderly_notify (search_request code) (fun b _ => Done (VBool b))); intros; apply sn_done|].
      intros [[u x] w]. rewrite exec_notify. unfold controller_search_object. destruct (node_notify w x (search_request code)) as [[[ok m'] x'] w']. reflexivity.
    - eexists; split; [apply (orderly_send (fst (rn_addr r), PORT) (msg_set_seoj m NODE_PROFILE_OBJECT_CODE) (fun b m => Done (VSent b m))); intros; apply sn_done|].
      intros [[u x] w]. rewrite exec_send. unfold controller_send. destruct (node_send w x _ _) as [[[ok m'] x'] w']. reflexivity.
    - eexists; split; [eapply orderly_post|intros [[u x] w]; unfold controller_post; apply exec_post].
    - eexists; split; [apply orderly_add_observer|intros [[u x] w]; reflexivity].
    - eexists; split; [apply orderly_start|intros [[u x] w]; apply (proj1 (start_spec u x w))].
    - eexists; split; [apply orderly_stop|intros [[u x] w]; apply (proj1 (stop_spec u x w))].
    - eexists; split; [apply orderly_running|intros [[u x] w]; reflexivity].
  Qed.
  Lemma line_node a a' n d n' : a_nodes a' = upd (a_nodes a) n d -> (exists l, line d = line (a_nodes a n) ++ l) ->
    exists l, line (a_nodes a' n') = line (a_nodes a n') ++ l.
  Proof. intros E L. rewrite E. unfold upd. destruct (Nat.eqb_spec n' n) as [->|]; [exact L|exists []; rewrite app_nil_r; reflexivity]. Qed.
  Lemma line_astep a a' n : astep db what net a a' -> exists l, line (a_nodes a' n) = line (a_nodes a n) ++ l.
  Proof.
    intros St. destruct St; try (exists []; rewrite app_nil_r; reflexivity).
    - match goal with Ef : effect_of _ = AtNode _ _ |- _ => destruct (effect_body _ _ _ Ef) as (b & Ob & Eb) end.
      eapply line_node; [reflexivity|]. eapply orderly_exec; [exact Ob|]. rewrite Eb. eassumption.
    - eapply line_node; [reflexivity|]. match goal with Eo : observed ?m ?x = Ret ?d |- _ => assert (X : exec (observe_body m) x = Ret (d, VUnit)) end.
      { destruct (a_nodes a n0) as [[u x] w]. rewrite exec_observe. match goal with Eo : observed _ _ = Ret _ |- _ => unfold observed in Eo; rewrite Eo end. reflexivity. }
      eapply orderly_exec; [apply orderly_observe|exact X].
  Qed.
  Lemma line_asteps a a' n : asteps db what net a a' -> exists l, line (a_nodes a' n) = line (a_nodes a n) ++ l.
  Proof.
    induction 1 as [a|a a1 a2 _ (l & E) St]; [exists []; rewrite app_nil_r; reflexivity|].
    destruct (line_astep _ _ n St) as (l' & E'). exists (l ++ l'). rewrite E', E, app_assoc. reflexivity.
  Qed.

  (** ** Every program sends last *)

  Inductive tidy : prog U -> Prop :=
  | ti_halt : tidy Halt
  | ti_enter c p : tidy p -> tidy (Enter c p)
  | ti_leave c v p : tidy p -> tidy (Leave c v p)
  | ti_lock l p : tidy p -> tidy (Lock l p)
  | ti_unlock l p : tidy p -> tidy (Unlock l p)
  | ti_attempt l y q : tidy y -> tidy q -> tidy (Attempt l y q)
  | ti_on_node n b k : orderly b -> (forall v, tidy (k v)) -> tidy (OnNode n b k)
  | ti_on_ctrl c b k : (forall v, tidy (k v)) -> tidy (OnCtrl c b k)
  | ti_try_node n b p : orderly b -> tidy p -> tidy (TryNode n b p)
  | ti_try_ctrl c b p : tidy p -> tidy (TryCtrl c b p)
  | ti_await n ch k : (forall v, tidy (k v)) -> tidy (Await n ch k)
  | ti_again : tidy Again
  | ti_recv : tidy Recv
  | ti_deliver m : tidy (Deliver m)
  | ti_over : tidy Over.
  Definition neat (x : thread U) : Prop :=
    match x with Out p => tidy p | InNode _ b k => orderly b /\ forall v, tidy (k v) | InCtrl _ _ k => forall v, tidy (k v) | Dead => True end.

  Lemma prog_of_tidy c k : (forall v, tidy (k v)) -> tidy (prog_of c k).
  Proof.
    intros K. destruct c; try (match goal with d : option nat |- _ => destruct d end); cbn [prog_of]; unfold through;
      repeat first [apply ti_attempt|apply ti_lock|apply ti_on_node; [|intros v]|apply ti_on_ctrl; intros v|apply ti_await; intros v|apply ti_unlock|apply K];
      first [apply orderly_set_property|apply orderly_property|apply orderly_add_handler|apply orderly_add_observer|apply orderly_add_object|apply orderly_post
        |apply orderly_announce|apply orderly_start|apply orderly_stop|apply orderly_running|apply orderly_send; intros; apply sn_done|apply orderly_notify; intros; apply sn_done].
  Qed.
  Lemma client_tidy x : tidy (client_prog x).
  Proof. induction x as [|c k IH]; cbn [client_prog]; [constructor|]. apply ti_enter, prog_of_tidy. intros v. apply ti_leave, IH. Qed.
  Lemma deliver_tidy t (os : list obs) m : tidy (deliver_prog db t os m).
  Proof.
    unfold deliver_prog. induction os as [|[w n|w c|w] r IH]; cbn [notify_prog];
      repeat first [apply ti_lock|apply ti_unlock|apply ti_try_node; [apply orderly_observe|]|apply ti_try_ctrl|exact IH|constructor].
  Qed.

  (** ** Nothing is on the wire that the specification does not know *)

  Definition lined s a : Prop := forall n, incl (line (nodes s n)) (line (a_nodes a n)).
  Lemma neat_goes s t x t' : (forall t, neat (threads s t)) -> neat x -> neat (threads (goes s t x) t').
  Proof. intros N X. cbn. unfold upd. destruct (Nat.eqb_spec t' t); auto. Qed.
  Lemma neat_dies s t t' : (forall t, neat (threads s t)) -> neat (threads (dies s t) t').
  Proof. intros N. cbn. unfold upd. destruct (Nat.eqb_spec t' t); cbn; auto. Qed.
  Lemma neat_step s s' : (forall t, neat (threads s t)) -> step db what net s s' -> forall t, neat (threads s' t).
  Proof.
    intros N Hs t'.
    inversion Hs as [t c p T|t c v p T|t l p T Ow Po|t l p T Ow Po|t l p T Ow|t l y q T Ow Po|t l y q T Ex
      |t n b k T Ow Po|t n b k T Ow Po|t c b k T Ow Po|t c b k T Ow Po|t n b p T Ow Po|t n b p T Ex|t c b p T Ow Po|t c b p T Ex
      |t n f k d b T E|t n f k T E|t n v k T|t c f k d b T E|t c f k T E|t c v k T|t n ch k m T Nm|t n ch k T
      |t n k' b k T|t n k' j o b k t1 T Nt Ow Po|t n k' j o b k t1 T Nt Ow Po|t n k' j o b k T Nt
      |t n k' j b k t1 T Nt Fl|t n k' j b k t1 T Nt Fl T'|t n k' j b k t1 T Nt Fl T'|t n k' j b k T Nt
      |t T Fl|t T Fl|t T|t T Ne|t data from m T Ne Oc Pa|t data T Ne Oc Pa|t m T Ow Po|t m T Ow Po]; subst s';
      try (apply neat_dies; exact N); pose proof (N t) as Nt'; rewrite T in Nt'; cbn [neat] in Nt'; try exact (N t');
      try (match goal with |- neat (threads (logs ?z _) _) => change (neat (threads z t')) end);
      try (apply neat_goes; [exact N|]; cbn [neat]; first [exact Nt'|inversion Nt'; subst; solve [auto]|solve [constructor]]).
    - apply neat_goes; [exact N|]. destruct Nt' as [Ob K]. cbn [neat]. split; [eapply orderly_step; eassumption|exact K].
    - apply neat_goes; [exact N|]. apply Nt'.
    - intros. apply neat_goes; [intros t2; apply neat_goes; [exact N|constructor]|]. destruct Nt' as [Ob K]. cbn [neat]. split; [eapply orderly_act, Ob|exact K].
    - apply neat_goes; [exact N|]. destruct Nt' as [Ob K]. cbn [neat]. split; [apply od_act, (orderly_act _ _ Ob)|exact K].
    - apply neat_goes; [exact N|]. destruct Nt' as [Ob K]. cbn [neat]. split; [apply (orderly_act _ _ Ob)|exact K].
    - apply neat_goes; [exact N|]. destruct Nt' as [Ob K]. cbn [neat]. split; [apply od_act, (orderly_act _ _ Ob)|exact K].
    - apply neat_goes; [exact N|]. destruct Nt' as [Ob K]. cbn [neat]. split; [apply (orderly_act _ _ Ob)|exact K].
    - apply neat_goes; [exact N|]. apply deliver_tidy.
  Qed.

  Lemma nodes_step s s' : step db what net s s' -> (forall n, nodes s' n = nodes s n) \/
    exists t n f k d b, threads s t = InNode n (Stmt f) k /\ f (nodes s n) = Ret (d, b) /\ s' = goes (with_node s n d) t (InNode n b k).
  Proof. intros Hs. inversion Hs; subst s'; try (left; intros; reflexivity). right. do 6 eexists. eauto. Qed.
  Lemma lined_step s a s' : rel s a -> sane s -> (forall t, neat (threads s t)) -> lined s a -> step db what net s s' ->
    exists a', (a' = a \/ astep db what net a a') /\ rel s' a' /\ lined s' a'.
  Proof.
    intros R Sa N L Hs. destruct (simulate db what net _ _ _ R Sa Hs) as (a' & A & R'). exists a'. split; [exact A|]. split; [exact R'|].
    assert (M : forall n, incl (line (a_nodes a n)) (line (a_nodes a' n))).
    { intros n. destruct A as [->|A]; [apply incl_refl|]. destruct (line_astep _ _ n A) as (l & ->). apply incl_appl, incl_refl. }
    destruct (nodes_step _ _ Hs) as [E|(t & n & f & k & d & b & T & E & ->)]; intros n'.
    - rewrite E. eapply incl_tran; [apply L|apply M].
    - pose proof (N t) as Nt. rewrite T in Nt. destruct Nt as [Ob _]. destruct (orderly_step _ _ _ _ Ob E) as (Ob' & _ & Pa).
      cbn [nodes goes with_node]. unfold upd at 1. destruct (Nat.eqb_spec n' n) as [->|]; [|eapply incl_tran; [apply L|apply M]].
      destruct (r_thr _ _ _ R' t) as (H & _ & _ & F). unfold tfits in F. cbn [threads goes] in F. unfold upd at 1 in F. rewrite Nat.eqb_refl in F.
      destruct F as (H' & _ & _ & _ & F). cbn [nodes goes with_node] in F. unfold upd in F. rewrite Nat.eqb_refl in F.
      destruct (exec b d) as [[d' v]|] eqn:X.
      + destruct F as (-> & _). destruct (orderly_exec _ Ob' _ _ _ X) as (l & ->). apply incl_appl, incl_refl.
      + rewrite (Pa eq_refl). eapply incl_tran; [apply L|apply M].
  Qed.
  Theorem lines ns cs xs s : down ns -> steps db what net (begins ns cs xs) s ->
    exists a, asteps db what net (a_begins ns cs (length xs)) a /\ rel s a /\ lined s a.
  Proof.
    intros D S.
    assert (X : sane s /\ (forall t, neat (threads s t)) /\ exists a, asteps db what net (a_begins ns cs (length xs)) a /\ rel s a /\ lined s a); [|apply X].
    remember (begins ns cs xs) as s0 eqn:E. induction S as [s|s s1 s2 S IH St].
    - subst s. split; [apply sane_begins|]. split; [intros t; apply client_tidy|]. exists (a_begins ns cs (length xs)). split; [constructor|]. split; [apply rel_begins, D|].
      intros n. apply incl_refl.
    - destruct (IH E) as (Sa & N & a & A & R & L). split; [eapply sane_step; eauto|]. split; [eapply neat_step; eauto|].
      destruct (lined_step _ _ _ R Sa N L St) as (a' & [->|Y] & R' & L').
      + exists a. auto.
      + exists a'. split; [econstructor; eauto|auto].
  Qed.

  (** The same twice: the second state is reached from the first. *)
  Theorem lines_twice ns cs xs s s' : down ns -> steps db what net (begins ns cs xs) s -> steps db what net s s' ->
    exists a a', asteps db what net (a_begins ns cs (length xs)) a /\ asteps db what net a a' /\ rel s a /\ lined s a /\ rel s' a' /\ lined s' a'.
  Proof.
    intros D S S'.
    assert (X : sane s /\ (forall t, neat (threads s t)) /\ exists a, asteps db what net (a_begins ns cs (length xs)) a /\ rel s a /\ lined s a).
    { clear S'. remember (begins ns cs xs) as s0 eqn:E. induction S as [s|s s1 s2 S IH St].
      - subst s. split; [apply sane_begins|]. split; [intros t; apply client_tidy|]. exists (a_begins ns cs (length xs)). split; [constructor|]. split; [apply rel_begins, D|].
        intros n. apply incl_refl.
      - destruct (IH E) as (Sa & N & a & A & R & L). split; [eapply sane_step; eauto|]. split; [eapply neat_step; eauto|].
        destruct (lined_step _ _ _ R Sa N L St) as (a' & [->|Y] & R' & L').
        + exists a. auto.
        + exists a'. split; [econstructor; eauto|auto]. }
    destruct X as (Sa & N & a & A & R & L).
    assert (Y : sane s' /\ (forall t, neat (threads s' t)) /\ exists a', asteps db what net a a' /\ rel s' a' /\ lined s' a').
    { clear S. induction S' as [s|s s1 s2 S IH St]; [split; [exact Sa|]; split; [exact N|]; exists a; split; [constructor|split; [exact R|exact L]]|].
      destruct (IH Sa N R L) as (Sa1 & N1 & a1 & A1 & R1 & L1). split; [eapply sane_step; eauto|]. split; [eapply neat_step; eauto|].
      destruct (lined_step _ _ _ R1 Sa1 N1 L1 St) as (a' & [->|Y] & R' & L').
      + exists a1. auto.
      + exists a'. split; [econstructor; eauto|auto]. }
    destruct Y as (_ & _ & a' & Y). exists a, a'. tauto.
  Qed.

  (** What has been given to the sockets stays. *)
  Lemma line_step s s' n : (forall t, neat (threads s t)) -> step db what net s s' -> exists l, line (nodes s' n) = line (nodes s n) ++ l.
  Proof.
    intros N Hs. destruct (nodes_step _ _ Hs) as [E|(t & n' & f & k & d & b & T & E & ->)]; [rewrite E; exists []; rewrite app_nil_r; reflexivity|].
    pose proof (N t) as Nt. rewrite T in Nt. destruct Nt as [Ob _]. destruct (orderly_step _ _ _ _ Ob E) as (_ & M & _).
    cbn [nodes goes with_node]. unfold upd. destruct (Nat.eqb_spec n n') as [->|]; [exact M|exists []; rewrite app_nil_r; reflexivity].
  Qed.
End Lines.
