(** What the function bodies of the thread model put into channels. *)
From Verif Require Import Base HMap ModelCodec ModelMessages ModelObject ModelTransport ModelNode ModelController ModelDevice
  ModelThreads SpecNode ProofsObject ProofsNode ProofsNode2 ProofsNode3.

Section S.
  Context {U : Type} {P : Profile} {HO : HashOrder} {O : OS}.
  Notation nstate := (nstate U).

  Definition letters (d : nstate) : list (N * message) := deliveries (w_trace (snd d)).

  (** The messages in the channels when the statements have run, or panicked. *)
  Fixpoint mail (b : nbody U) (d : nstate) : list (N * message) :=
    match b with
    | Done _ => letters d
    | Stmt f => match f d with Ret (d', b') => mail b' d' | Panic => letters d end
    | Act _ b => mail b d
    end.
  (** Nothing is added. *)
  Inductive mute : nbody U -> Prop :=
  | mu_done v : mute (Done v)
  | mu_stmt f : (forall d d' b, f d = Ret (d', b) -> letters d' = letters d) ->
      (forall d d' b, f d = Ret (d', b) -> mute b) -> mute (Stmt f)
  | mu_act x b : mute b -> mute (Act x b).
  (** Nothing is taken away, and nothing is added after a word to other threads. *)
  Inductive growing : nbody U -> Prop :=
  | g_done v : growing (Done v)
  | g_stmt f : (forall d d' b, f d = Ret (d', b) -> exists l, letters d' = letters d ++ l) ->
      (forall d d' b, f d = Ret (d', b) -> growing b) -> growing (Stmt f)
  | g_act x b : mute b -> growing (Act x b).

  Lemma mute_growing b : mute b -> growing b.
  Proof.
    induction 1 as [v|f L _ IH|x b M _]; [apply g_done| |apply g_act, M].
    apply g_stmt; [|exact IH]. intros d d' b E. exists []. rewrite app_nil_r. eapply L, E.
  Qed.
  Lemma mute_mail b : mute b -> forall d, mail b d = letters d.
  Proof.
    induction 1 as [v|f L _ IH|x b _ IH]; intros d; cbn [mail]; [reflexivity| |apply IH].
    destruct (f d) as [[d' b']|] eqn:E; [|reflexivity]. rewrite (IH _ _ _ E). eapply L, E.
  Qed.
  Lemma growing_mail b : growing b -> forall d, exists l, mail b d = letters d ++ l.
  Proof.
    induction 1 as [v|f L _ IH|x b M]; intros d; cbn [mail].
    - exists []. rewrite app_nil_r. reflexivity.
    - destruct (f d) as [[d' b']|] eqn:E; [|exists []; rewrite app_nil_r; reflexivity].
      destruct (L _ _ _ E) as (l & El). destruct (IH _ _ _ E d') as (l' & ->). exists (l ++ l'). rewrite El, app_assoc. reflexivity.
    - exists []. rewrite app_nil_r. apply mute_mail, M.
  Qed.

  (** ** The bodies *)

  Lemma mu_stmt' (f : nstate -> outcome (nstate * nbody U)) :
    (forall d d' b, f d = Ret (d', b) -> letters d' = letters d /\ mute b) -> mute (Stmt f).
  Proof. intros H. apply mu_stmt; intros d d' b E; apply (H d d' b E). Qed.
  Lemma quiet_letters (u u' : U) n n' w w' : quiet_trace w w' -> letters (u', n', w') = letters (u, n, w).
  Proof. intros (_ & tr & S & D & _). unfold letters. cbn [snd]. rewrite S, deliveries_app, D, app_nil_r. reflexivity. Qed.
  Lemma since_letters (u u' : U) n n' w w' tr : since w w' tr -> deliveries tr = [] -> letters (u', n', w') = letters (u, n, w).
  Proof. intros S D. unfold letters. cbn [snd]. rewrite S, deliveries_app, D, app_nil_r. reflexivity. Qed.

  Ltac one := let u := fresh "u" in let n := fresh "n" in let w := fresh "w" in let s' := fresh "s'" in let b' := fresh "b'" in
    apply mu_stmt'; intros [[u n] w] s' b' H; cbv beta iota in H; injection H as <- <-; split; [reflexivity|].
  Lemma mute_tid m (k : message -> nbody U) : (forall m, mute (k m)) -> mute (tid_body m k).
  Proof. intros K. unfold tid_body. destruct (msg_has_tid m); [apply K|]. one. one. apply K. Qed.
  Lemma mute_send to m (k : bool -> message -> nbody U) : (forall b m, mute (k b m)) -> mute (send_body to m k).
  Proof.
    intros K. apply mute_tid. intros m'. apply mu_stmt'. intros [[u n] w] s' b' H. destruct (manager_send w _ to m') as [ok w'] eqn:E.
    injection H as <- <-. apply send_trace in E as (tr & S & _ & D & _). split; [eapply since_letters; eauto|apply K].
  Qed.
  Lemma mute_notify m (k : bool -> message -> nbody U) : (forall b m, mute (k b m)) -> mute (notify_body m k).
  Proof.
    intros K. apply mute_tid. intros m'. apply mu_stmt'. intros [[u n] w] s' b' H. destruct (manager_notify w _ m') as [ok w'] eqn:E.
    injection H as <- <-. apply notify_trace in E as (tr & j & S & _ & D & _). split; [eapply since_letters; eauto|apply K].
  Qed.
  Lemma mute_post to m : mute (post_body (U := U) to m).
  Proof.
    apply mute_tid. intros m'. one. one. apply mu_stmt'. intros [[u2 n2] w2] s' b' H. destruct (manager_send w2 _ to m') as [ok w'] eqn:E.
    injection H as <- <-. apply send_trace in E as (tr & S & _ & D & _). split; [eapply since_letters; eauto|apply mu_done].
  Qed.
  Lemma mute_announce : mute (announce_body (U := U)).
  Proof.
    one. destruct (find_object (n_objects n) _) as [o|]; [|apply mu_done].
    destruct (object_find_property o _) as [p|]; [|apply mu_done]. apply mute_notify. intros; apply mu_done.
  Qed.
  Lemma mute_add_object o : mute (add_object_body (U := U) o).
  Proof.
    one. one. apply mu_stmt'. intros [[u2 n2] w2] s' b' H. destruct (find_object (n_objects n2) _) as [np|]; [|injection H as <- <-; split; [reflexivity|apply mu_done]].
    destruct (node_profile_update np _) as [np'|]; [|discriminate]. injection H as <- <-. split; [reflexivity|apply mu_done].
  Qed.
  Lemma mute_add_handler h : mute (add_handler_body (U := U) h).
  Proof. one. apply mu_done. Qed.
  Lemma mute_add_observer o : mute (add_observer_body (U := U) o).
  Proof. one. apply mu_done. Qed.
  Lemma mute_running : mute (running_body (U := U)).
  Proof. one. apply mu_done. Qed.
  Lemma mute_set_property oc c data : mute (set_property_body (U := U) oc c data).
  Proof.
    one. destruct (find_object (n_objects n) oc) as [o|]; [|apply mu_done]. one.
    destruct (object_find_property o c) as [p|]; [|apply mu_done]. one. apply mu_done.
  Qed.
  Lemma mute_property oc c : mute (property_body (U := U) oc c).
  Proof.
    one. destruct (find_object (n_objects n) oc) as [o|]; [|apply mu_done]. one.
    destruct (object_find_property o c) as [p|]; apply mu_done.
  Qed.
  Lemma mute_ask h e ps : forall o all (k : object -> bool -> nbody U), (forall o b, mute (k o b)) -> mute (ask_body h o e ps all k).
  Proof.
    induction ps as [|p r IH]; intros o all k K; [apply K|]. cbn [ask_body]. apply mu_stmt'. intros [[u n] w] s' b' H.
    destruct (call_handler h u o e p) as [[[u' o'] ok]|]; [|discriminate]. injection H as <- <-. split; [reflexivity|apply IH, K].
  Qed.
  Lemma mute_ask_all e ps hs : forall o acc (k : object -> bool -> nbody U), (forall o b, mute (k o b)) -> mute (ask_all_body hs o e ps acc k).
  Proof.
    induction hs as [|h r IH]; intros o acc k K; [apply K|]. cbn [ask_all_body]. apply mute_ask. intros o' b. apply IH, K.
  Qed.
  Lemma mute_each code xs (k : nbody U) : mute k -> mute (each xs (assign code) k).
  Proof.
    intros K. induction xs as [|x r IH]; [exact K|]. cbn [each]. apply mu_stmt'. intros [[u n] w] s' b H. injection H as <- <-.
    split; [|exact IH]. destruct (find_object (n_objects n) code); reflexivity.
  Qed.
  Lemma mute_received req (k : option message -> nbody U) : (forall r, mute (k r)) -> mute (received_body req k).
  Proof.
    intros K. assert (D : forall c b, mute (decided_body req k c b)).
    { intros c b. unfold decided_body. destruct (negb b); [apply K|]. apply mute_each, mute_each. one.
      destruct (find_object (n_objects n) _); apply K. }
    unfold received_body. destruct (esv_is_response (msg_esv req)); [apply K|]. one.
    destruct (find_object (n_objects n) (msg_deoj req)) as [o|]; [|apply K].
    destruct (negb (esv_is_request (msg_esv req))); [apply K|].
    destruct (negb (request_valid o req)); [apply K|]. apply mu_stmt'. intros [[u2 n2] w2] s' b' H.
    destruct (object_clone _ o) as [copy|]; [|discriminate]. injection H as <- <-. split; [reflexivity|].
    destruct (Nat.eqb (length (n_handlers n2)) 0); [apply D|]. apply mute_ask_all, D.
  Qed.

  Lemma mute_up k ifs (next : nbody U) : mute next -> mute (up_body k ifs next).
  Proof.
    intros K. induction ifs as [|i r IH]; [exact K|]. cbn [up_body]. apply mu_stmt'. intros [[u n] w] s' b' H.
    destruct (server_bind k w server_new i) as [[ok sv] w1] eqn:E. injection H as <- <-. split.
    - apply quiet_letters. destruct k; [eapply ucast_bind_quiet|eapply mcast_bind_quiet]; exact E.
    - destruct (negb ok); [exact IH|]. apply mu_act. one. exact IH.
  Qed.
  Lemma mute_servers_start k (next : bool -> nbody U) : (forall b, mute (next b)) -> mute (servers_start_body k next).
  Proof.
    intros K. unfold servers_start_body. one. destruct (servers_running (servers k n)); [apply K|].
    apply mu_stmt'. intros [[u2 n2] w2] s' b' H. destruct (get_all_interfaces w2) as [ifs w3] eqn:E. injection H as <- <-. split.
    - unfold get_all_interfaces in E. inversion E; subst. apply quiet_letters, tick_quiet.
    - apply mute_up. one. apply K.
  Qed.
  Lemma mute_servers_stop k (next : bool -> nbody U) : (forall b, mute (next b)) -> mute (servers_stop_body k next).
  Proof.
    intros K. apply mu_act, mu_stmt'. intros [[u n] w] s' b' H. destruct (servers_stop (servers k n) true) as [x|]; [|discriminate].
    cbn [obind] in H. injection H as <- <-. split; [reflexivity|apply K].
  Qed.
  Lemma mute_manager_stop (next : bool -> nbody U) : (forall b, mute (next b)) -> mute (manager_stop_body next).
  Proof. intros K. apply mute_servers_stop. intros b. apply mute_servers_stop. intros b'. apply K. Qed.
  Lemma mute_manager_start (next : bool -> nbody U) : (forall b, mute (next b)) -> mute (manager_start_body next).
  Proof.
    intros K. unfold manager_start_body. one. destruct (manager_running (n_mgr n)); [apply K|].
    apply mute_servers_start. intros [|]; cbn [negb]; [|apply mute_manager_stop; intros; apply K].
    apply mute_servers_start. intros [|]; cbn [negb]; [apply K|apply mute_manager_stop; intros; apply K].
  Qed.
  Lemma mute_observers l (next : nbody U) : mute next -> mute (observers_body l next).
  Proof.
    assert (S : forall k o (b : nbody U), mute b -> mute (servers_observer_body k o b)).
    { intros k o b K. apply mu_act, mu_stmt'. intros [[u n] w] s' b' H. destruct (servers_add_observer (servers k n) o) as [x|]; [|discriminate].
      cbn [obind] in H. injection H as <- <-. split; [reflexivity|exact K]. }
    intros K. induction l as [|o r IH]; [exact K|]. cbn [observers_body]. apply S, S, IH.
  Qed.
  Lemma mute_started ok : mute (started_body (U := U) ok).
  Proof. unfold started_body. destruct (negb ok); [apply mu_done|]. one. one. one. apply mute_observers, mute_announce. Qed.
  Lemma mute_start : mute (start_body (U := U)).
  Proof. unfold start_body. one. destruct (negb (manager_running (n_mgr n))); [apply mute_manager_start; intros|]; apply mute_started. Qed.
  Lemma mute_stop : mute (stop_body (U := U)).
  Proof. unfold stop_body. one. apply mute_manager_stop. intros; apply mu_done. Qed.

  (** A node gives a message to its receiver at most once, when it gets one. *)
  Definition mute_respond (req : message) (res : option message) : nbody U :=
    Stmt (fun '(u, n, w) => Ret (u, n, tick w,
        match res with
        | None => Done VUnit
        | Some res =>
          if esv_is_response (msg_esv res) then
            if esv_is_unicast_response (msg_esv res)
            then send_body (fst (msg_from req), PORT) res (fun _ _ => Done VUnit)
            else notify_body res (fun _ _ => Done VUnit)
          else Done VUnit
        end)).
  Lemma mute_after req : mute (received_body req (mute_respond req)).
  Proof.
    apply mute_received. intros [res|]; unfold mute_respond; apply mu_stmt'; intros [[u n] w] s' b' H; injection H as <- <-.
    - split; [apply quiet_letters, tick_quiet|]. destruct (esv_is_response (msg_esv res)); [|apply mu_done].
      destruct (esv_is_unicast_response (msg_esv res)); [apply mute_send|apply mute_notify]; intros; apply mu_done.
    - split; [apply quiet_letters, tick_quiet|apply mu_done].
  Qed.
  Lemma growing_observe req : growing (observe_body (U := U) req).
  Proof.
    unfold observe_body. fold (mute_respond req). pose proof (mute_after req) as R. set (after := received_body req (mute_respond req)) in *. clearbody after.
    apply g_stmt; intros [[u n] w] s' b' H; injection H as <- <-; [exists []; rewrite app_nil_r; reflexivity|].
    destruct (is_last_message_response n req); [|apply mute_growing, R].
    apply g_stmt; intros [[u2 n2] w2] s' b' H; destruct (msg_clone req) as [m|]; try discriminate; injection H as <- <-.
    - destruct (n_post n2) as [ch|]; [|exists []; rewrite app_nil_r; reflexivity].
      exists [(ch, m)]. unfold letters. cbn [snd log w_trace]. rewrite deliveries_app. reflexivity.
    - apply mute_growing. one. exact R.
  Qed.
End S.
