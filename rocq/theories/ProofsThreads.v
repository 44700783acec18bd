(** Every execution of the threads is one in which calls and reactions take
    effect at one instant. *)
From Verif Require Import Base HMap ModelCodec ModelMessages ModelObject ModelTransport ModelNode ModelController ModelDevice
  ModelThreads SpecNode SpecThreads ProofsObject ProofsNode ProofsNode2 ProofsNode3 ProofsHost ProofsLetters.
From Verif Require ModelLocks.

(** Running all statements without interruption. *)
Fixpoint exec {S A R} (b : body S A R) (s : S) : outcome (S * R) :=
  match b with
  | Done r => Ret (s, r)
  | Stmt f => match f s with
              | Ret (s', b') => exec b' s'
              | Panic => Panic
              end
  | Act _ b => exec b s
  end.
Lemma body_ind' {S A R} (Q : body S A R -> Prop) : (forall r, Q (Done r)) ->
  (forall f, (forall s s' b, f s = Ret (s', b) -> Q b) -> Q (Stmt f)) -> (forall x b, Q b -> Q (Act x b)) -> forall b, Q b.
Proof.
  intros D T X. fix IH 1. intros [r|f|x b]; [apply D| |apply X, IH].
  apply T. intros s s' b. destruct (f s) as [[s1 b1]|]; [|discriminate]. intros [= <- <-]. apply IH.
Qed.
(** What these statements have to do with other threads. *)
Fixpoint trail {S A R} (b : body S A R) (s : S) : list A :=
  match b with
  | Done _ => []
  | Stmt f => match f s with
              | Ret (s', b') => trail b' s'
              | Panic => []
              end
  | Act x b => x :: trail b s
  end.
(** Nothing. *)
Inductive plain {S A R} : body S A R -> Prop :=
| p_done r : plain (Done r)
| p_stmt f : (forall s s' b, f s = Ret (s', b) -> plain b) -> plain (Stmt f).
Lemma plain_trail {S A R} (b : body S A R) : plain b -> forall s, trail b s = [].
Proof.
  induction 1 as [r|f _ IH]; intros s; [reflexivity|]. cbn. destruct (f s) as [[s' b']|] eqn:E; [|reflexivity]. eapply IH, E.
Qed.

Lemma exec_each {S A R X} (xs : list X) (f : X -> S -> S) (k : body S A R) s :
  exec (each xs f k) s = exec k (fold_left (fun s x => f x s) xs s).
Proof. revert s; induction xs as [|x r IH]; intros s; [reflexivity|]. cbn. apply IH. Qed.
Lemma plain_each {S A R X} (xs : list X) (f : X -> S -> S) (k : body S A R) : plain k -> plain (each xs f k).
Proof. intros K. induction xs as [|x r IH]; [exact K|]. cbn. apply p_stmt. intros s s' b [= _ <-]. exact IH. Qed.

Section Bodies.
  Context {U : Type} {P : Profile} {HO : HashOrder} {O : OS}.
  Notation nstate := (nstate U).

  Lemma exec_tid (m : message) (k : message -> nbody U) u n w :
    exec (tid_body m k) (u, n, w) = let '(n', m') := update_tid n m in exec (k m') (u, n', w).
  Proof. unfold tid_body, update_tid, next_tid. destruct (msg_has_tid m); reflexivity. Qed.

  Lemma exec_send to m (k : bool -> message -> nbody U) u n w :
    exec (send_body to m k) (u, n, w) = let '(ok, m', n', w') := node_send w n to m in exec (k ok m') (u, n', w').
  Proof.
    unfold send_body, node_send. rewrite exec_tid. destruct (update_tid n m) as [n' m'].
    cbn. destruct (manager_send w (n_mgr n') to m') as [ok w']. reflexivity.
  Qed.

  Lemma exec_notify m (k : bool -> message -> nbody U) u n w :
    exec (notify_body m k) (u, n, w) = let '(ok, m', n', w') := node_notify w n m in exec (k ok m') (u, n', w').
  Proof.
    unfold notify_body, node_notify. rewrite exec_tid. destruct (update_tid n m) as [n' m'].
    cbn. destruct (manager_notify w (n_mgr n') m') as [ok w']. reflexivity.
  Qed.

  Lemma exec_post to m u (n : node U) w :
    exec (post_body to m) (u, n, w) = let '(ch, m', n', w') := node_post w n to m in Ret (u, n', w', VPosted ch m').
  Proof.
    unfold post_body, node_post. rewrite exec_tid. destruct (update_tid n m) as [n' m']. cbn.
    destruct (manager_send _ (n_mgr n') to m') as [ok w']. reflexivity.
  Qed.

  Lemma exec_announce u (n : node U) w :
    exec announce_body (u, n, w) = let '(ok, n', w') := node_announce w n in Ret (u, n', w', VBool ok).
  Proof.
    unfold announce_body, node_announce. cbn [exec].
    destruct (find_object (n_objects n) NODE_PROFILE_OBJECT_CODE) as [o|]; [|reflexivity].
    destruct (object_find_property o NP_INSTANCE_LIST_NOTIFICATION) as [p|]; [|reflexivity].
    rewrite exec_notify. destruct (node_notify w n (announce_message o p)) as [[[ok m'] n'] w']. reflexivity.
  Qed.

  Lemma exec_add_object o u (n : node U) w :
    exec (add_object_body o) (u, n, w) = let! n' := node_add_object n o in Ret (u, n', w, VBool true).
  Proof.
    unfold add_object_body, node_add_object, update_node_profile. cbn [exec n_objects n_with_objects].
    destruct (find_object (n_objects n ++ [o]) NODE_PROFILE_OBJECT_CODE) as [np|]; [|reflexivity].
    destruct (node_profile_update np _) as [np'|]; reflexivity.
  Qed.

  Lemma exec_set_property oc c data u (n : node U) w :
    exec (set_property_body oc c data) (u, n, w)
    = let '(ok, n') := device_node_set_property n oc c data in Ret (u, n', w, VBool ok).
  Proof.
    unfold set_property_body, device_node_set_property. cbn [exec].
    destruct (find_object (n_objects n) oc) as [o|]; [|reflexivity]. cbn [exec].
    destruct (object_find_property o c) as [p|]; reflexivity.
  Qed.

  Lemma exec_property oc c u (n : node U) w :
    exec (property_body oc c) (u, n, w) = Ret (u, n, w, VData (device_node_property n oc c)).
  Proof.
    unfold property_body, device_node_property. cbn [exec].
    destruct (find_object (n_objects n) oc) as [o|]; [|reflexivity]. cbn [exec].
    destruct (object_find_property o c) as [p|]; reflexivity.
  Qed.

  Lemma exec_ask h e ps : forall o all (k : object -> bool -> nbody U) u n w,
    exec (ask_body h o e ps all k) (u, n, w)
    = let! x := ask_handler h u o e ps all in let '(u', o', b) := x in exec (k o' b) (u', n, w).
  Proof.
    induction ps as [|p r IH]; intros o all k u n w; [reflexivity|]. cbn [ask_body exec ask_handler].
    destruct (call_handler h u o e p) as [[[u' o'] ok]|]; [|reflexivity]. cbn [obind]. apply IH.
  Qed.

  Lemma exec_ask_all e ps : forall hs o acc (k : object -> bool -> nbody U) u n w,
    exec (ask_all_body hs o e ps acc k) (u, n, w)
    = let! x := ask_handlers hs u o e ps acc in let '(u', o', b) := x in exec (k o' b) (u', n, w).
  Proof.
    induction hs as [|h r IH]; intros o acc k u n w; [reflexivity|]. cbn [ask_all_body ask_handlers].
    rewrite exec_ask. destruct (ask_handler h u o e ps true) as [[[u' o'] all]|]; [|reflexivity]. cbn [obind]. apply IH.
  Qed.

  Lemma find_put os code (o o' : object) : find_object os code = Some o -> object_code o' = code ->
    find_object (put_object os code o') code = Some o'.
  Proof.
    intros F C. induction os as [|x r IH]; [discriminate|]. cbn in *.
    destruct (object_code x =? code) eqn:E; cbn; [rewrite C, N.eqb_refl; reflexivity|]. rewrite E. auto.
  Qed.
  Lemma put_put os code (o1 o2 : object) : object_code o1 = code ->
    put_object (put_object os code o1) code o2 = put_object os code o2.
  Proof.
    intros C. induction os as [|x r IH]; [reflexivity|]. cbn.
    destruct (object_code x =? code) eqn:E; cbn; [rewrite C, N.eqb_refl; reflexivity|]. rewrite E, IH. reflexivity.
  Qed.
  Lemma set_data_code o c d : object_code (fst (object_set_property_data o c d)) = object_code o.
  Proof. unfold object_set_property_data. destruct (object_find_property o c); reflexivity. Qed.

  Lemma put_same os code (o : object) : find_object os code = Some o -> put_object os code o = os.
  Proof.
    intros F. induction os as [|x r IH]; [reflexivity|]. cbn in *.
    destruct (object_code x =? code); [congruence|]. rewrite IH; auto.
  Qed.
  Lemma n_with_objects_same (n : node U) : n_with_objects n (n_objects n) = n.
  Proof. destruct n; reflexivity. Qed.

  (** Assignments one after another through find_object_mut. *)
  Lemma assign_all code xs : forall u (n : node U) w o, find_object (n_objects n) code = Some o -> object_code o = code ->
    fold_left (fun s x => assign code x s) xs (u, n, w)
    = (u, n_with_objects n (put_object (n_objects n) code
          (fold_left (fun o x => fst (object_set_property_data o (fst x) (snd x))) xs o)), w).
  Proof.
    induction xs as [|x r IH]; intros u n w o F C.
    - cbn. rewrite (put_same _ _ _ F), n_with_objects_same. reflexivity.
    - cbn [fold_left assign]. rewrite F.
      rewrite (IH u _ w (fst (object_set_property_data o (fst x) (snd x)))).
      + cbn [n_objects n_with_objects]. rewrite put_put by (rewrite set_data_code; exact C). reflexivity.
      + cbn [n_objects n_with_objects]. eapply find_put; [exact F|rewrite set_data_code; exact C].
      + rewrite set_data_code; exact C.
  Qed.
  Lemma folded_code xs : forall o,
    object_code (fold_left (fun o x => fst (object_set_property_data o (fst x) (snd x))) xs o) = object_code o.
  Proof. induction xs as [|x r IH]; intros o; [reflexivity|]. cbn [fold_left]. rewrite IH. apply set_data_code. Qed.
  Lemma fold_map {X Y Z} (f : Z -> Y -> Z) (g : X -> Y) l : forall z, fold_left f (map g l) z = fold_left (fun z x => f z (g x)) l z.
  Proof. induction l as [|x r IH]; intros z; [reflexivity|]. cbn. apply IH. Qed.
  Lemma find_code os code (o : object) : find_object os code = Some o -> object_code o = code.
  Proof.
    induction os as [|x r IH]; [discriminate|]. cbn. destruct (N.eqb_spec (object_code x) code); [congruence|auto].
  Qed.

  Lemma exec_received req (k : option message -> nbody U) u n w :
    exec (received_body req k) (u, n, w)
    = let! y := node_message_received (os_seed (w_calls w)) u n req in let '(u', n', res) := y in exec (k res) (u', n', w).
  Proof.
    unfold received_body, node_message_received. destruct (esv_is_response (msg_esv req)); [reflexivity|].
    cbn [exec]. destruct (find_object (n_objects n) (msg_deoj req)) as [o|] eqn:F; [|reflexivity].
    destruct (negb (esv_is_request (msg_esv req))); [reflexivity|].
    destruct (negb (request_valid o req)); [reflexivity|]. cbn [exec].
    destruct (object_clone (os_seed (w_calls w)) o) as [copy|]; [|reflexivity]. cbn [obind].
    unfold request_received.
    assert (Dec : forall u' c b, exec (decided_body req k c b) (u', n, w)
      = let '(u'', n', res) := (if negb b then (u', n, Some (response_error_message req))
         else let o := apply_writes (copy_back o (object_properties c)) req in
              (u', n_with_objects n (put_object (n_objects n) (msg_deoj req) o), object_message_received o req)) in
        exec (k res) (u'', n', w)).
    { intros u' c b. unfold decided_body. destruct (negb b); [reflexivity|].
      rewrite !exec_each.
      pose proof (find_code _ _ _ F) as C.
      rewrite (assign_all _ _ u' n w o F C).
      set (o1 := fold_left _ _ o).
      assert (C1 : object_code o1 = msg_deoj req) by (unfold o1; rewrite folded_code; exact C).
      rewrite (assign_all _ _ u' _ w o1); [|cbn [n_objects n_with_objects]; eapply find_put; [exact F|exact C1]|exact C1].
      set (o2 := fold_left _ _ o1).
      assert (C2 : object_code o2 = msg_deoj req) by (unfold o2; rewrite folded_code; exact C1).
      cbn [n_objects n_with_objects]. rewrite put_put by exact C1. cbn [exec n_objects n_with_objects].
      rewrite (find_put _ _ o o2 F C2).
      assert (E : o2 = apply_writes (copy_back o (object_properties c)) req).
      { unfold o2, o1, apply_writes, copy_back, write_props, to_write. rewrite !fold_map. cbn [fst snd].
        destruct (msg_esv req); reflexivity. }
      rewrite <- E. reflexivity. }
    destruct (Nat.eqb (length (n_handlers n)) 0).
    - rewrite Dec. cbn [obind negb]. reflexivity.
    - rewrite exec_ask_all.
      destruct (ask_handlers (n_handlers n) u copy (msg_esv req) (m_props req) false) as [[[u' c] b]|]; [|reflexivity].
      cbn [obind]. rewrite Dec. destruct (negb b); reflexivity.
  Qed.

  Lemma exec_observe req u (n : node U) w :
    exec (observe_body req) (u, n, w) = let! d := node_observe w u n req in Ret (d, VUnit).
  Proof.
    unfold observe_body, node_observe. cbn [exec].
    match goal with |- context [received_body req ?r] => set (respond := r) end.
    assert (Rs : forall u n w, exec (received_body req respond) (u, n, w)
      = let! d := (let! y := node_message_received (os_seed (w_calls w)) u n req in
         let w := tick w in
         let '(u, n, res) := y in
         match res with
         | None => Ret (u, n, w)
         | Some res =>
           if esv_is_response (msg_esv res) then
             if esv_is_unicast_response (msg_esv res) then
               let '(_, _, n, w) := node_send w n (fst (msg_from req), PORT) res in Ret (u, n, w)
             else
               let '(_, _, n, w) := node_notify w n res in Ret (u, n, w)
           else Ret (u, n, w)
         end) in Ret (d, VUnit)).
    { clear u n w. intros u n w. rewrite exec_received.
      destruct (node_message_received (os_seed (w_calls w)) u n req) as [[[u' n'] res]|]; [|reflexivity]. cbn [obind].
      unfold respond. cbn [exec]. destruct res as [res|]; [|reflexivity].
      destruct (esv_is_response (msg_esv res)); [|reflexivity].
      destruct (esv_is_unicast_response (msg_esv res)).
      - rewrite exec_send. destruct (node_send (tick w) n' _ res) as [[[ok m'] n''] w'']. reflexivity.
      - rewrite exec_notify. destruct (node_notify (tick w) n' res) as [[[ok m'] n''] w'']. reflexivity. }
    destruct (is_last_message_response n req).
    - cbn [exec]. destruct (msg_clone req) as [m|]; [|reflexivity]. cbn [obind exec]. rewrite Rs.
      unfold send_post_response. reflexivity.
    - rewrite Rs. reflexivity.
  Qed.

  Lemma exec_cobserve {Uu : Uuids} db m l w :
    exec (cobserve_body db m) (l, w) = let! d := controller_observe db w l m in Ret (d, VUnit).
  Proof.
    unfold cobserve_body, controller_observe. destruct (negb (is_node_profile_message m)); [reflexivity|]. cbn [exec].
    destruct (remote_from_message w m) as [[r w1]|]; [|reflexivity]. cbn [obind exec].
    destruct (add_standard_all db w1 (rn_objects r)) as [[os w2]|]; [|reflexivity]. cbn [obind exec].
    destruct (node_profile_object db _ _ _) as [np|]; reflexivity.
  Qed.

  Lemma exec_clones rest : forall acc l w,
    exec (clones_body rest acc) (l, w) = let! x := controller_nodes w rest in Ret (l, snd x, VNodes (rev acc ++ fst x)).
  Proof.
    induction rest as [|r t IH]; intros acc l w; [cbn; rewrite app_nil_r; reflexivity|]. cbn [clones_body exec controller_nodes].
    destruct (remote_clone w r) as [[r' w']|]; [|reflexivity]. cbn [obind fst snd]. rewrite IH.
    destruct (controller_nodes w' t) as [[t' w'']|]; [|reflexivity]. cbn [obind fst snd rev]. rewrite <- app_assoc. reflexivity.
  Qed.
  Lemma exec_nodes l w : exec nodes_body (l, w) = let! x := controller_nodes w l in Ret (l, snd x, VNodes (fst x)).
  Proof. unfold nodes_body. cbn [exec]. rewrite exec_clones. reflexivity. Qed.

  (** ** Bodies which leave other threads alone *)

  Ltac one := let u := fresh "u" in let n := fresh "n" in let w := fresh "w" in let s' := fresh "s'" in let b' := fresh "b'" in
    apply p_stmt; intros [[u n] w] s' b' H; cbv beta iota in H; injection H as _ <-; clear s'.
  Lemma plain_tid m (k : message -> nbody U) : (forall m, plain (k m)) -> plain (tid_body m k).
  Proof. intros K. unfold tid_body. destruct (msg_has_tid m); [apply K|]. one. one. apply K. Qed.
  Lemma plain_send to m (k : bool -> message -> nbody U) : (forall b m, plain (k b m)) -> plain (send_body to m k).
  Proof.
    intros K. apply plain_tid. intros m'. apply p_stmt. intros [[u n] w] s' b' H. destruct (manager_send w _ to m') as [ok w'].
    injection H as _ <-. apply K.
  Qed.
  Lemma plain_notify m (k : bool -> message -> nbody U) : (forall b m, plain (k b m)) -> plain (notify_body m k).
  Proof.
    intros K. apply plain_tid. intros m'. apply p_stmt. intros [[u n] w] s' b' H. destruct (manager_notify w _ m') as [ok w'].
    injection H as _ <-. apply K.
  Qed.
  Lemma plain_post to m : plain (post_body (U := U) to m).
  Proof.
    apply plain_tid. intros m'. one. one. apply p_stmt. intros [[u2 n2] w2] s' b' H. destruct (manager_send w2 _ to m') as [ok w'].
    injection H as _ <-. apply p_done.
  Qed.
  Lemma plain_announce : plain (announce_body (U := U)).
  Proof.
    one. destruct (find_object (n_objects n) _) as [o|]; [|apply p_done].
    destruct (object_find_property o _) as [p|]; [|apply p_done]. apply plain_notify. intros; apply p_done.
  Qed.
  Lemma plain_add_object o : plain (add_object_body (U := U) o).
  Proof.
    one. one. apply p_stmt. intros [[u2 n2] w2] s' b' H. destruct (find_object (n_objects n2) _) as [np|]; [|injection H as _ <-; apply p_done].
    destruct (node_profile_update np _) as [np'|]; [|discriminate]. injection H as _ <-. apply p_done.
  Qed.
  Lemma plain_add_handler h : plain (add_handler_body (U := U) h).
  Proof. one. apply p_done. Qed.
  Lemma plain_add_observer o : plain (add_observer_body (U := U) o).
  Proof. one. apply p_done. Qed.
  Lemma plain_running : plain (running_body (U := U)).
  Proof. one. apply p_done. Qed.
  Lemma plain_set_property oc c data : plain (set_property_body (U := U) oc c data).
  Proof.
    one. destruct (find_object (n_objects n) oc) as [o|]; [|apply p_done]. one.
    destruct (object_find_property o c) as [p|]; [|apply p_done]. one. apply p_done.
  Qed.
  Lemma plain_property oc c : plain (property_body (U := U) oc c).
  Proof.
    one. destruct (find_object (n_objects n) oc) as [o|]; [|apply p_done]. one.
    destruct (object_find_property o c) as [p|]; apply p_done.
  Qed.
  Lemma plain_ask h e ps : forall o all (k : object -> bool -> nbody U), (forall o b, plain (k o b)) -> plain (ask_body h o e ps all k).
  Proof.
    induction ps as [|p r IH]; intros o all k K; [apply K|]. cbn [ask_body]. apply p_stmt. intros [[u n] w] s' b' H.
    destruct (call_handler h u o e p) as [[[u' o'] ok]|]; [|discriminate]. injection H as _ <-. apply IH, K.
  Qed.
  Lemma plain_ask_all e ps hs : forall o acc (k : object -> bool -> nbody U), (forall o b, plain (k o b)) -> plain (ask_all_body hs o e ps acc k).
  Proof.
    induction hs as [|h r IH]; intros o acc k K; [apply K|]. cbn [ask_all_body]. apply plain_ask. intros o' b. apply IH, K.
  Qed.
  Lemma plain_received req (k : option message -> nbody U) : (forall r, plain (k r)) -> plain (received_body req k).
  Proof.
    intros K. assert (D : forall c b, plain (decided_body req k c b)).
    { intros c b. unfold decided_body. destruct (negb b); [apply K|]. apply plain_each, plain_each. one.
      destruct (find_object (n_objects n) _); apply K. }
    unfold received_body. destruct (esv_is_response (msg_esv req)); [apply K|]. one.
    destruct (find_object (n_objects n) (msg_deoj req)) as [o|]; [|apply K].
    destruct (negb (esv_is_request (msg_esv req))); [apply K|].
    destruct (negb (request_valid o req)); [apply K|]. apply p_stmt. intros [[u2 n2] w2] s' b' H.
    destruct (object_clone _ o) as [copy|]; [|discriminate]. injection H as _ <-.
    destruct (Nat.eqb (length (n_handlers n2)) 0); [apply D|]. apply plain_ask_all, D.
  Qed.
  Lemma plain_observe req : plain (observe_body (U := U) req).
  Proof.
    unfold observe_body. match goal with |- context [received_body req ?r] => set (respond := r) end.
    assert (R : plain (received_body req respond)).
    { apply plain_received. intros [res|]; unfold respond; one; [|apply p_done].
      destruct (esv_is_response (msg_esv res)); [|apply p_done].
      destruct (esv_is_unicast_response (msg_esv res)); [apply plain_send|apply plain_notify]; intros; apply p_done. }
    clearbody respond. one. destruct (is_last_message_response n req); [|exact R].
    apply p_stmt. intros [[u2 n2] w2] s' b' H. destruct (msg_clone req) as [m|]; [|discriminate]. injection H as _ <-. one. exact R.
  Qed.

  (** ** start and stop *)

  Definition kstart (k : kind) : world -> list server -> bool * list server * world := match k with Ucast => ucast_start | Mcast => mcast_start end.
  Lemma servers_set k (n : node U) l : servers k (set_servers k n l) = l.
  Proof. destruct k; reflexivity. Qed.
  Lemma set_set k (n : node U) l l' : set_servers k (set_servers k n l) l' = set_servers k n l'.
  Proof. destruct k; reflexivity. Qed.
  Lemma set_servers_same k (n : node U) : set_servers k n (servers k n) = n.
  Proof. unfold set_servers, servers, n_with_mgr. destruct n as [[x y] b c d e f]; destruct k; reflexivity. Qed.

  Lemma servers_start_grows bind ifs : forall w l l' w', servers_start bind w ifs l = (l', w') -> (length l <= length l')%nat.
  Proof.
    induction ifs as [|i r IH]; intros w l l' w' H; cbn [servers_start] in H; [injection H as <- _; lia|].
    destruct (bind w server_new i) as [[ok s] w1]. destruct ok; cbn [negb server_start] in H; [|eapply IH, H].
    apply IH in H. rewrite app_length in H. cbn in H. lia.
  Qed.

  Lemma up_spec k ifs (next : nbody U) : forall u n w,
    exec (up_body k ifs next) (u, n, w)
      = (let '(l, w') := servers_start (server_bind k) w ifs (servers k n) in exec next (u, set_servers k n l, w')) /\
    trail (up_body k ifs next) (u, n, w)
      = (let '(l, w') := servers_start (server_bind k) w ifs (servers k n) in
         repeat (Spawn k) (length l - length (servers k n)) ++ trail next (u, set_servers k n l, w')).
  Proof.
    induction ifs as [|i r IH]; intros u n w; cbn [up_body servers_start].
    - rewrite set_servers_same, Nat.sub_diag. split; reflexivity.
    - cbn [exec trail]. destruct (server_bind k w server_new i) as [[ok sv] w1]. destruct ok; cbn [negb]; [|apply IH].
      cbn [server_start snd negb exec trail]. destruct (IH u (set_servers k n (servers k n ++ [sv_with_thread sv TRunning])) w1) as [E T].
      rewrite servers_set in E, T. destruct (servers_start _ w1 r _) as [l w2] eqn:Es. rewrite set_set in E, T.
      split; [exact E|]. rewrite T. apply servers_start_grows in Es. rewrite app_length in *. cbn [length] in *.
      replace (length l - length (servers k n))%nat with (S (length l - (length (servers k n) + 1))) by lia. reflexivity.
  Qed.

  Lemma servers_start_spec k (next : bool -> nbody U) u n w :
    exec (servers_start_body k next) (u, n, w)
      = (let '(ok, l, w') := kstart k w (servers k n) in exec (next ok) (u, set_servers k n l, w')) /\
    trail (servers_start_body k next) (u, n, w)
      = (let '(ok, l, w') := kstart k w (servers k n) in
         repeat (Spawn k) (length l - length (servers k n)) ++ trail (next ok) (u, set_servers k n l, w')).
  Proof.
    assert (K : kstart k w (servers k n) = if servers_running (servers k n) then (true, servers k n, w)
      else let '(ifs, w) := get_all_interfaces w in let '(l, w) := servers_start (server_bind k) w ifs (servers k n) in (negb (Nat.eqb (length l) 0), l, w))
      by (destruct k; reflexivity).
    rewrite K. unfold servers_start_body. cbn [exec trail]. destruct (servers_running (servers k n)).
    - rewrite set_servers_same, Nat.sub_diag. split; reflexivity.
    - cbn [exec trail]. destruct (get_all_interfaces w) as [ifs w1].
      match goal with |- context [up_body k ifs ?b] => set (next' := b) end.
      destruct (up_spec k ifs next' u n w1) as [E T]. rewrite E, T. destruct (servers_start _ w1 ifs _) as [l w2].
      unfold next'. cbn [exec trail]. rewrite servers_set. split; reflexivity.
  Qed.

  Lemma exec_manager_stop (next : bool -> nbody U) u n w :
    exec (manager_stop_body next) (u, n, w) = let! x := manager_stop (n_mgr n) in exec (next (fst x)) (u, n_with_mgr n (snd x), w).
  Proof.
    unfold manager_stop_body, servers_stop_body, manager_stop. cbn [exec servers].
    destruct (servers_stop (mg_ucast (n_mgr n)) true) as [x|]; [|reflexivity]. cbn [obind exec servers set_servers n_mgr n_with_mgr mg_mcast mg_ucast].
    destruct (servers_stop (mg_mcast (n_mgr n)) true) as [y|]; reflexivity.
  Qed.
  Lemma trail_manager_stop (next : bool -> nbody U) u n w : fine_mgr (n_mgr n) -> (forall b, plain (next b)) ->
    trail (manager_stop_body next) (u, n, w) = endings.
  Proof.
    intros [F1 F2] K. unfold manager_stop_body, servers_stop_body, endings. cbn [trail servers].
    destruct (stop_total _ F1 true) as (b1 & ->). cbn [obind trail servers set_servers n_mgr n_with_mgr mg_mcast mg_ucast].
    destruct (stop_total _ F2 true) as (b2 & ->). cbn [obind]. rewrite plain_trail by apply K. reflexivity.
  Qed.

  Lemma exec_manager_start (next : bool -> nbody U) u n w :
    exec (manager_start_body next) (u, n, w)
    = let! x := manager_start w (n_mgr n) in let '(ok, m, w') := x in exec (next ok) (u, n_with_mgr n m, w').
  Proof.
    unfold manager_start_body, manager_start. cbn [exec]. destruct (manager_running (n_mgr n)).
    { cbn [obind]. destruct n; reflexivity. }
    rewrite (proj1 (servers_start_spec Mcast _ u n w)). cbn [kstart servers]. destruct (mcast_start w (mg_mcast (n_mgr n))) as [[ok1 c] w1].
    destruct ok1; cbn [negb].
    - rewrite (proj1 (servers_start_spec Ucast _ u _ w1)). cbn [kstart servers set_servers n_mgr n_with_mgr mg_ucast mg_mcast].
      destruct (ucast_start w1 (mg_ucast (n_mgr n))) as [[ok2 l] w2]. destruct ok2; cbn [negb]; [reflexivity|].
      rewrite exec_manager_stop. cbn [set_servers n_mgr n_with_mgr mg_ucast mg_mcast].
      destruct (manager_stop _) as [x|]; reflexivity.
    - rewrite exec_manager_stop. cbn [set_servers n_mgr n_with_mgr mg_ucast mg_mcast].
      destruct (manager_stop _) as [x|]; reflexivity.
  Qed.

  Lemma exec_observers l (next : nbody U) : forall u n w,
    exec (observers_body l next) (u, n, w) = let! m := manager_add_observers (n_mgr n) l in exec next (u, n_with_mgr n m, w).
  Proof.
    induction l as [|o r IH]; intros u n w; cbn [observers_body manager_add_observers]; [destruct n; reflexivity|].
    unfold servers_observer_body, manager_add_observer. cbn [exec servers].
    destruct (servers_add_observer (mg_ucast (n_mgr n)) o) as [x|]; [|reflexivity]. cbn [obind exec servers set_servers n_mgr n_with_mgr mg_ucast mg_mcast].
    destruct (servers_add_observer (mg_mcast (n_mgr n)) o) as [y|]; [|reflexivity]. cbn [obind]. rewrite IH. reflexivity.
  Qed.
  Lemma trail_observers l (next : nbody U) : plain next -> forall u n w, fine_mgr (n_mgr n) ->
    trail (observers_body l next) (u, n, w) = flat_map (fun o => [Register Ucast 0 o; Register Mcast 0 o]) l.
  Proof.
    intros K. induction l as [|o r IH]; intros u n w F; cbn [observers_body flat_map]; [apply plain_trail, K|].
    unfold servers_observer_body. cbn [trail servers]. pose proof F as [F1 F2].
    rewrite (add_observer_total o _ F1). cbn [obind trail servers set_servers n_mgr n_with_mgr mg_ucast mg_mcast].
    rewrite (add_observer_total o _ F2). cbn [obind]. rewrite IH; [reflexivity|]. apply (fine_with [o] _ F).
  Qed.

  Definition calm (d : nstate) : Prop := fine_mgr (n_mgr (snd (fst d))).

  Lemma start_spec u n w :
    exec start_body (u, n, w) = (let! r := node_start w n in let '(ok, n', w') := r in Ret (u, n', w', VBool ok)) /\
    (fine_mgr (n_mgr n) -> forall d, trail start_body (u, n, w) = acts_of (CStart (U := U) d 0) (u, n, w)).
  Proof.
    unfold start_body. set (go := started_body).
    assert (G : forall ok u n w, exec (go ok) (u, n, w) =
      (let! r := (if negb ok then Ret (false, n, w)
        else
          let n := set_object_properties_byte n 0x80 0x30 in
          let n := set_object_properties_byte n 0x88 0x42 in
          let! m := manager_add_observers (n_mgr n) (n_observers n) in
          let n := n_with_mgr n m in
          let '(ok, n, w) := node_announce w n in
          if negb ok then Ret (false, n, w) else Ret (true, n, w)) in
        let '(ok, n', w') := r in Ret (u, n', w', VBool ok))).
    { clear. intros ok u n w. unfold go, started_body. destruct ok; cbn [negb]; [|reflexivity]. cbn [exec].
      rewrite exec_observers. destruct (manager_add_observers _ _) as [m|]; [|reflexivity]. cbn [obind].
      rewrite exec_announce. destruct (node_announce w _) as [[[|] n'] w']; reflexivity. }
    assert (T : forall u n w, fine_mgr (n_mgr n) -> trail (go true) (u, n, w) = registrations n).
    { clear. intros u n w F. unfold go, started_body. cbn [negb trail]. rewrite trail_observers; [reflexivity|apply plain_announce|exact F]. }
    assert (N : plain (go false)) by apply p_done.
    clearbody go. cbn [exec trail]. unfold node_start, acts_of.
    destruct (manager_running (n_mgr n)) eqn:Rn; cbn [negb].
    { rewrite G. cbn [obind]. split; [destruct n; reflexivity|]. intros F _. apply T, F. }
    split.
    - rewrite exec_manager_start. destruct (manager_start w (n_mgr n)) as [[[ok m] w1]|]; [|reflexivity]. cbn [obind].
      rewrite G. destruct ok; reflexivity.
    - intros F _. unfold manager_start_body. cbn [trail]. rewrite Rn.
      rewrite (proj2 (servers_start_spec Mcast _ u n w)). cbn [kstart servers]. destruct (mcast_start w (mg_mcast (n_mgr n))) as [[ok1 c] w1] eqn:E1.
      apply (start_list _ _ _ _ _ _ fresh_m) in E1. f_equal.
      assert (Fc : Forall fine c). { destruct E1 as [(_ & -> & _)|(_ & X & _)]; [apply F|]. eapply Forall_impl; [|exact X]. apply fresh_fine. }
      destruct ok1; cbn [negb].
      + rewrite (proj2 (servers_start_spec Ucast _ u _ w1)). cbn [kstart servers set_servers n_mgr n_with_mgr mg_ucast mg_mcast].
        destruct (ucast_start w1 (mg_ucast (n_mgr n))) as [[ok2 l] w2] eqn:E2. apply (start_list _ _ _ _ _ _ fresh_u) in E2. f_equal.
        assert (Fu : Forall fine l). { destruct E2 as [(_ & -> & _)|(_ & X & _)]; [apply F|]. eapply Forall_impl; [|exact X]. apply fresh_fine. }
        destruct ok2; cbn [negb].
        * rewrite T; [reflexivity|]. split; assumption.
        * apply trail_manager_stop; [split; assumption|]. intros _; exact N.
      + apply trail_manager_stop; [split; [apply F|assumption]|]. intros _; exact N.
  Qed.

  Lemma stop_spec u n w :
    exec stop_body (u, n, w) = (let! r := node_stop n in Ret (u, snd r, w, VBool (fst r))) /\
    (fine_mgr (n_mgr n) -> trail (stop_body (U := U)) (u, n, w) = endings).
  Proof.
    unfold stop_body, node_stop. cbn [exec trail]. split.
    - rewrite exec_manager_stop. destruct (manager_stop _) as [x|]; reflexivity.
    - intros F. apply trail_manager_stop; [exact F|]. intros b. apply p_done.
  Qed.

  Lemma start_calm u n w : fine_mgr (n_mgr n) -> exec (start_body (U := U)) (u, n, w) <> Panic.
  Proof.
    intros F. rewrite (proj1 (start_spec u n w)). destruct (start_total w n F) as (ok & n' & w' & E & _). rewrite E. discriminate.
  Qed.
  Lemma stop_calm u n w : fine_mgr (n_mgr n) -> exec (stop_body (U := U)) (u, n, w) <> Panic.
  Proof.
    intros F. rewrite (proj1 (stop_spec u n w)). destruct (stop_node_total n F) as (ok & n' & E & _). rewrite E. discriminate.
  Qed.

  (** All calls and the observers leave calm data. *)
  Lemma calm_effect (c : call U) n f d d' v : effect_of c = AtNode n f -> calm d -> f d = Ret (d', v) -> calm d'.
  Proof.
    unfold calm. intros E C X. destruct d as [[u x] w]. cbn [fst snd] in C.
    destruct c; cbn [effect_of] in E; inversion E; subst; clear E; cbv beta iota in X.
    - unfold device_node_set_property in X. destruct (find_object _ _) as [o|]; [|inversion X; subst; exact C].
      destruct (object_find_property o code) as [p|]; inversion X; subst; exact C.
    - inversion X; subst. exact C.
    - inversion X; subst. exact C.
    - destruct (add_object_eq x o) as (os & Eo & _). rewrite Eo in X. cbn [obind] in X. inversion X; subst. exact C.
    - destruct (add_object_eq x o) as (os & Eo & _). rewrite Eo in X. cbn [obind] in X. inversion X; subst. exact C.
    - inversion X; subst. exact C.
    - inversion X; subst. exact C.
    - destruct (node_send w x to m) as [[[ok m'] x'] w'] eqn:Y. inversion X; subst. cbn [fst snd].
      apply node_send_spec in Y as (A & _). apply update_tid_keeps in A as (_ & _ & A & _). rewrite A. exact C.
    - destruct (node_post w x to m) as [[[ch m'] x'] w'] eqn:Y. inversion X; subst. cbn [fst snd].
      apply node_post_spec in Y as (_ & _ & n2 & ok & tr & A & -> & _). apply update_tid_keeps in A as (_ & _ & A & _). cbn. rewrite A. exact C.
    - destruct (node_notify w x m) as [[[ok m'] x'] w'] eqn:Y. inversion X; subst. cbn [fst snd].
      apply node_notify_spec in Y as (A & _). apply update_tid_keeps in A as (_ & _ & A & _). rewrite A. exact C.
    - destruct (node_announce w x) as [[ok x'] w'] eqn:Y. inversion X; subst. cbn [fst snd].
      apply announce_mgr in Y as (A & _). rewrite A. exact C.
    - unfold controller_search_object in X. destruct (node_notify w x (search_request code)) as [[[ok m'] x'] w'] eqn:Y. inversion X; subst. cbn [fst snd].
      apply node_notify_spec in Y as (A & _). apply update_tid_keeps in A as (_ & _ & A & _). rewrite A. exact C.
    - unfold controller_send in X. destruct (node_send w x _ _) as [[[ok m'] x'] w'] eqn:Y. inversion X; subst. cbn [fst snd].
      apply node_send_spec in Y as (A & _). apply update_tid_keeps in A as (_ & _ & A & _). rewrite A. exact C.
    - unfold controller_post in X. destruct (node_post w x _ _) as [[[ch m'] x'] w'] eqn:Y. inversion X; subst. cbn [fst snd].
      apply node_post_spec in Y as (_ & _ & n2 & ok & tr & A & -> & _). apply update_tid_keeps in A as (_ & _ & A & _). cbn. rewrite A. exact C.
    - inversion X; subst. exact C.
    - destruct (start_total w x C) as (ok & x' & w' & Y & F & _). rewrite Y in X. cbn [obind] in X. inversion X; subst. exact F.
    - destruct (stop_node_total x C) as (ok & x' & Y & F). rewrite Y in X. cbn [obind fst snd] in X. inversion X; subst. exact F.
    - inversion X; subst. exact C.
  Qed.
  Lemma received_mgr seed u (n : node U) req u' n' r : node_message_received seed u n req = Ret (u', n', r) -> n_mgr n' = n_mgr n /\ n_observers n' = n_observers n.
  Proof.
    unfold node_message_received. destruct (esv_is_response _); [intros H; inversion H; auto|].
    destruct (find_object _ _) as [o|]; [|intros H; inversion H; auto].
    destruct (esv_is_request _); cbn [negb]; [|intros H; inversion H; auto].
    destruct (request_valid o req); cbn [negb]; [|intros H; inversion H; auto].
    destruct (object_clone seed o) as [copy|]; cbn [obind]; [|discriminate].
    destruct (request_received _ _ _ _) as [[[u1 copy'] ok]|]; cbn [obind]; [|discriminate].
    destruct ok; cbn [negb]; intros H; inversion H; subst; auto.
  Qed.
  Lemma observed_mgr m u (n : node U) w u' n' w' : observed m (u, n, w) = Ret (u', n', w') -> n_mgr n' = n_mgr n /\ n_observers n' = n_observers n.
  Proof.
    unfold observed, node_observe.
    set (x := if is_last_message_response n m then _ else _).
    assert (X : forall n1 w1, x = Ret (n1, w1) -> n_mgr n1 = n_mgr n /\ n_observers n1 = n_observers n).
    { intros n1 w1. unfold x. destruct (is_last_message_response n m); [|intros H; inversion H; auto].
      destruct (msg_clone m) as [m'|]; cbn [obind]; [|discriminate]. unfold send_post_response. intros H; inversion H; subst; auto. }
    destruct x as [[n1 w1]|]; cbn [obind]; [|discriminate]. destruct (X n1 w1 eq_refl) as [<- <-]. clear X.
    destruct (node_message_received _ u n1 m) as [[[u2 n2] r]|] eqn:Y; cbn [obind]; [|discriminate]. apply received_mgr in Y as [<- <-].
    destruct r as [res|]; [|intros H; inversion H; auto].
    destruct (esv_is_response _); [|intros H; inversion H; auto].
    destruct (esv_is_unicast_response _).
    - destruct (node_send _ n2 _ res) as [[[ok m'] n3] w3] eqn:Z. intros H; inversion H; subst.
      apply node_send_spec in Z as (A & _). apply update_tid_keeps in A as (_ & _ & A & _ & B). auto.
    - destruct (node_notify _ n2 res) as [[[ok m'] n3] w3] eqn:Z. intros H; inversion H; subst.
      apply node_notify_spec in Z as (A & _). apply update_tid_keeps in A as (_ & _ & A & _ & B). auto.
  Qed.
  Lemma calm_observed m d d' : observed (U := U) m d = Ret d' -> calm d -> calm d'.
  Proof.
    destruct d as [[u n] w], d' as [[u' n'] w']. intros E C. apply observed_mgr in E as [A _]. unfold calm in *. cbn [fst snd] in *. rewrite A. exact C.
  Qed.

  (** ** Channels *)

  Lemma mail_done b : forall (d d' : nstate) v, exec b d = Ret (d', v) -> mail b d = letters d'.
  Proof.
    induction b as [v|f IH|x b IH] using body_ind'; intros d d' v'; cbn [exec mail]; [intros [= -> _]; reflexivity| |apply IH].
    destruct (f d) as [[d1 b1]|] eqn:E; [|discriminate]. intros X. eapply IH; [exact E|exact X].
  Qed.
  (** A reaction which panics has not delivered anything. *)
  Lemma mail_observe req (d : nstate) : exec (observe_body req) d = Panic -> mail (observe_body req) d = letters d.
  Proof.
    destruct d as [[u n] w]. unfold observe_body. fold (mute_respond (U := U) req). pose proof (mute_after (U := U) req) as R.
    cbn [exec mail]. destruct (is_last_message_response n req) eqn:L; [|intros _; rewrite (mute_mail _ R); reflexivity].
    cbn [exec mail]. destruct (msg_clone req) as [m|]; [|reflexivity]. cbn [obind exec mail].
    unfold is_last_message_response in L. destruct (esv_is_request (msg_esv req)) eqn:Q; [discriminate|].
    unfold received_body. destruct (esv_is_response (msg_esv req)); [discriminate|]. cbn [exec].
    destruct (find_object _ (msg_deoj req)) as [o|]; [|discriminate]. rewrite Q. discriminate.
  Qed.
  Lemma messages_given ch (d : nstate) : messages_in ch (w_trace (snd d)) = given ch d.
  Proof.
    unfold given. destruct d as [y w]. cbn [snd]. generalize (w_trace w). clear. induction l as [|e r IH]; [reflexivity|].
    destruct e; cbn [messages_in deliveries filter map fst snd]; try exact IH. destruct (c =? ch); cbn [map snd]; rewrite IH; reflexivity.
  Qed.
  Lemma given_more ch (d d' : nstate) l j m : letters d' = letters d ++ l -> nth_error (given ch d) j = Some m -> nth_error (given ch d') j = Some m.
  Proof.
    unfold given, letters. intros -> X. rewrite filter_app, map_app, nth_error_app1; [exact X|]. apply nth_error_Some. congruence.
  Qed.
End Bodies.

(* ------------------------------------------------------------------ *)
(** ** What a thread still has to do fits what it is doing *)

Section Fits.
  Context {U : Type} {P : Profile} {HO : HashOrder} {O : OS} {Uu : Uuids} (db : list object).
  Notation Dev := ModelLocks.Dev. Notation LNode := ModelLocks.Node.

  Definition data_lock (l : ModelLocks.lock) : Prop := match l with ModelLocks.Dev _ | ModelLocks.Node _ => True | _ => False end.
  Definition is_node (l : ModelLocks.lock) : Prop := match l with ModelLocks.Node _ => True | _ => False end.
  (** The order in which a thread takes mutexes. *)
  Definition rank (l : ModelLocks.lock) : nat :=
    match l with ModelLocks.Dev _ => 0 | ModelLocks.Node _ => 1 | ModelLocks.Wrap _ => 3 | _ => 2 end.

  (** [H]: the mutexes held, the last one first. *)
  Inductive fits : list ModelLocks.lock -> status U -> prog U -> Prop :=
  | f_halt : fits [] Idle Halt
  | f_enter c p : fits [] (Pending c) p -> fits [] Idle (Enter c p)
  | f_leave c v p : fits [] Idle p -> fits [] (Answered c v []) (Leave c v p)
  | f_lock H c l p : ~ In l H -> ~ is_node l -> incl (l :: H) (locks_of c) -> fits (l :: H) (Pending c) p -> fits H (Pending c) (Lock l p)
  | f_unlock_call H c v l p : fits H (Answered c v []) p -> fits (l :: H) (Answered c v []) (Unlock l p)
  | f_attempt c l y q v : refusal c = Some v -> In l (locks_of c) -> fits [] (Pending c) y -> fits [] (Answered c v []) q ->
      fits [] (Pending c) (Attempt l y q)
  | f_on_node H c n f b k : effect_of c = AtNode n f -> (forall d, exec b d = f d) -> mute b ->
      (forall d, calm d -> trail b d = acts_of c d /\ (exec b d = Panic -> trail b d = [])) ->
      incl (LNode n :: H) (locks_of c) -> incl (locks_of c) (LNode n :: H) ->
      (forall v, fits H (Answered c v []) (k v)) -> fits H (Pending c) (OnNode n b k)
  | f_on_ctrl H c x f b k : effect_of c = AtCtrl x f -> (forall d, exec b d = f d) -> ~ In (Dev x) H ->
      incl (Dev x :: H) (locks_of c) -> incl (locks_of c) (Dev x :: H) ->
      (forall v, fits H (Answered c v []) (k v)) -> fits H (Pending c) (OnCtrl x b k)
  | f_guard H m r w p : Forall (fun l => ~ data_lock l) H -> Forall (fun x => (rank x < rank (ModelLocks.Wrap w))%nat) H ->
      fits (ModelLocks.Wrap w :: H) (Busy m r) p -> fits H (Busy m r) (Lock (ModelLocks.Wrap w) p)
  | f_unguard H m r l p : fits H (Busy m r) p -> fits (l :: H) (Busy m r) (Unlock l p)
  | f_ready m l : fits [l] (Busy m []) (Unlock l Again)
  | f_try_node H m r n b p : (forall d, exec b d = let! d' := observed m d in Ret (d', VUnit)) -> plain b ->
      growing b -> (forall d, exec b d = Panic -> mail b d = letters d) ->
      Forall (fun l => ~ data_lock l) H ->
      fits H (Busy m r) p -> fits H (Busy m (ReactNode n :: r)) (TryNode n b p)
  | f_try_ctrl H m r c b p : (forall d, exec b d = let! d' := controller_observe db (snd d) (fst d) m in Ret (d', VUnit)) ->
      Forall (fun l => ~ data_lock l) H ->
      fits H (Busy m r) p -> fits H (Busy m (ReactCtrl c :: r)) (TryCtrl c b p)
  | f_again : fits [] Listening Again
  | f_recv : fits [] Listening Recv
  | f_deliver m : fits [] (Got m) (Deliver m)
  | f_over : fits [] Ended Over
  | f_await n ch k : (forall v, fits [] (Answered (CWait n ch) v []) (k v)) -> fits [] (Pending (CWait n ch)) (Await n ch k).

  Lemma fits_held H st p : fits H st p -> H <> [] -> active st.
  Proof. intros F N. destruct F; try (exfalso; apply N; reflexivity); exact Logic.I. Qed.
  Lemma fits_not_gone H p : ~ fits H Gone p.
  Proof. intros F. remember Gone as st. destruct F; discriminate. Qed.

  Lemma through_fits c d n f b k :
    effect_of c = AtNode n f -> (forall x, exec b x = f x) -> mute b -> (forall x, calm x -> trail b x = acts_of c x /\ (exec b x = Panic -> trail b x = [])) ->
    locks_of c = [Dev d; LNode n] ->
    (forall v, fits [] (Answered c v []) (k v)) -> fits [] (Pending c) (through d n b k).
  Proof.
    intros E X Mu A L K. unfold through. apply f_lock; [intros []|intros []|rewrite L; intros x [<-|[]]; left; reflexivity|].
    eapply f_on_node; [exact E|exact X|exact Mu|exact A| | |].
    - rewrite L. intros x [<-|[<-|[]]]; [right; left; reflexivity|left; reflexivity].
    - rewrite L. intros x [<-|[<-|[]]]; [right; left; reflexivity|left; reflexivity].
    - intros v. apply f_unlock_call, K.
  Qed.
  Lemma direct_fits c n f b k :
    effect_of c = AtNode n f -> (forall x, exec b x = f x) -> mute b -> (forall x, calm x -> trail b x = acts_of c x /\ (exec b x = Panic -> trail b x = [])) ->
    locks_of c = [LNode n] ->
    (forall v, fits [] (Answered c v []) (k v)) -> fits [] (Pending c) (OnNode n b k).
  Proof.
    intros E X Mu A L K. eapply f_on_node; [exact E|exact X|exact Mu|exact A| | |exact K]; rewrite L; apply incl_refl.
  Qed.
  Lemma plain_acts c (b : nbody U) : plain b -> (forall x, acts_of c x = []) ->
    forall x : nstate U, calm x -> trail b x = acts_of c x /\ (exec b x = Panic -> trail b x = []).
  Proof. intros Pl A x _. rewrite A, (plain_trail _ Pl). auto. Qed.
  Lemma start_acts d n : forall x : nstate U, calm x -> trail start_body x = acts_of (CStart d n) x /\ (exec start_body x = Panic -> trail start_body x = []).
  Proof.
    intros [[u x] w] C. split; [apply (proj2 (start_spec u x w) C d)|]. intros E. destruct (start_calm u x w C E).
  Qed.
  Lemma stop_acts d n : forall x : nstate U, calm x -> trail stop_body x = acts_of (CStop d n) x /\ (exec stop_body x = Panic -> trail stop_body x = []).
  Proof.
    intros [[u x] w] C. split; [apply (proj2 (stop_spec u x w) C)|]. intros E. destruct (stop_calm u x w C E).
  Qed.

  Lemma prog_of_fits c k : (forall v, fits [] (Answered c v []) (k v)) -> fits [] (Pending c) (prog_of c k).
  Proof.
    intros K. destruct c; cbn [prog_of];
      try (eapply through_fits; [reflexivity| | |apply plain_acts; [|intros [[u x] w]; reflexivity]|reflexivity|exact K]);
      try (eapply direct_fits; [reflexivity| | |apply plain_acts; [|intros [[u x] w]; reflexivity]|reflexivity|exact K]).
    - intros [[u x] w]. apply exec_set_property.
    - apply mute_set_property.
    - apply plain_set_property.
    - intros [[u x] w]. apply exec_property.
    - apply mute_property.
    - apply plain_property.
    - intros [[u x] w]. reflexivity.
    - apply mute_add_handler.
    - apply plain_add_handler.
    - intros [[u x] w]. apply exec_add_object.
    - apply mute_add_object.
    - apply plain_add_object.
    - intros [[u x] w]. apply exec_add_object.
    - apply mute_add_object.
    - apply plain_add_object.
    - intros [[u x] w]. reflexivity.
    - apply mute_add_handler.
    - apply plain_add_handler.
    - intros [[u x] w]. reflexivity.
    - apply mute_add_observer.
    - apply plain_add_observer.
    - intros [[u x] w]. rewrite exec_send. destruct (node_send w x to m) as [[[ok m'] x'] w']. reflexivity.
    - apply mute_send. intros; apply mu_done.
    - apply plain_send. intros; apply p_done.
    - intros [[u x] w]. apply exec_post.
    - apply mute_post.
    - apply plain_post.
    - intros [[u x] w]. rewrite exec_notify. destruct (node_notify w x m) as [[[ok m'] x'] w']. reflexivity.
    - apply mute_notify. intros; apply mu_done.
    - apply plain_notify. intros; apply p_done.
    - intros [[u x] w]. apply exec_announce.
    - apply mute_announce.
    - apply plain_announce.
    - intros [[u x] w]. rewrite exec_notify. unfold controller_search_object.
      destruct (node_notify w x (search_request code)) as [[[ok m'] x'] w']. reflexivity.
    - apply mute_notify. intros; apply mu_done.
    - apply plain_notify. intros; apply p_done.
    - eapply f_attempt; [reflexivity|left; reflexivity| |apply K].
      eapply through_fits; [reflexivity| | |apply plain_acts; [|intros [[u x] w]; reflexivity]|reflexivity|exact K].
      + intros [[u x] w]. rewrite exec_send. unfold controller_send.
        destruct (node_send w x _ _) as [[[ok m'] x'] w']. reflexivity.
      + apply mute_send. intros; apply mu_done.
      + apply plain_send. intros; apply p_done.
    - intros [[u x] w]. unfold controller_post. apply exec_post.
    - apply mute_post.
    - apply plain_post.
    - intros [[u x] w]. reflexivity.
    - apply mute_add_observer.
    - apply plain_add_observer.
    - eapply f_on_ctrl; [reflexivity| |intros []|apply incl_refl|apply incl_refl|exact K].
      intros [l w]. apply exec_nodes.
    - destruct d as [d|]; [eapply through_fits|eapply direct_fits]; try reflexivity; try exact K; try apply start_acts; try apply mute_start;
        intros [[u x] w]; apply (proj1 (start_spec u x w)).
    - destruct d as [d|]; [eapply through_fits|eapply direct_fits]; try reflexivity; try exact K; try apply stop_acts; try apply mute_stop;
        intros [[u x] w]; apply (proj1 (stop_spec u x w)).
    - intros [[u x] w]. reflexivity.
    - apply mute_running.
    - apply plain_running.
    - apply f_await. exact K.
  Qed.

  Lemma client_fits x : fits [] Idle (client_prog x).
  Proof.
    induction x as [|c k IH]; cbn [client_prog]; [constructor|].
    apply f_enter, prog_of_fits. intros v. apply f_leave, IH.
  Qed.

  Lemma notify_fits m p H l : Forall (fun l => ~ data_lock l) H -> (forall w, ~ In (ModelLocks.Wrap w) H) ->
    fits H (Busy m []) p -> fits H (Busy m (reactions l)) (notify_prog db l m p).
  Proof.
    intros D W F.
    assert (K : forall w, Forall (fun x => (rank x < rank (ModelLocks.Wrap w))%nat) H).
    { intros w. apply Forall_forall. intros x X. rewrite Forall_forall in D. pose proof (D x X) as Nx.
      destruct x; cbn in *; try (exfalso; apply Nx; exact Logic.I); first [lia|exfalso; eapply W, X]. }
    induction l as [|[w n|w c|w] r IH]; cbn [notify_prog reactions]; [exact F| | |].
    - apply f_guard; [exact D|apply K|]. apply f_try_node.
      + intros [[u x] w']. rewrite exec_observe. reflexivity.
      + apply plain_observe.
      + apply growing_observe.
      + apply mail_observe.
      + constructor; [intros []|exact D].
      + apply f_unguard, IH.
    - apply f_guard; [exact D|apply K|]. apply f_try_ctrl.
      + intros [l w']. rewrite exec_cobserve. reflexivity.
      + constructor; [intros []|exact D].
      + apply f_unguard, IH.
    - apply f_guard; [exact D|apply K|]. apply f_unguard, IH.
  Qed.
  Lemma deliver_fits t l m : fits [ModelLocks.Notif t] (Busy m (reactions l)) (deliver_prog db t l m).
  Proof.
    unfold deliver_prog. apply notify_fits.
    - constructor; [intros []|constructor].
    - intros w [E|[]]; discriminate.
    - apply f_ready.
  Qed.

  (** What start and stop still have to do with other threads, and the status
      when they have done it. *)
  Definition todo (st : status U) : list act := match st with Answered _ _ r => r | _ => [] end.
  Definition ready (st : status U) : status U := match st with Answered c v _ => Answered c v [] | _ => st end.
  Lemma ready_same st : todo st = [] -> ready st = st.
  Proof. destruct st; cbn; try reflexivity. intros ->. reflexivity. Qed.
  (** A call which has taken effect on [n] holds what it needs. *)
  Definition placed (n : nat) (H : list ModelLocks.lock) (st : status U) : Prop :=
    match st with
    | Answered c _ _ => (exists f, effect_of c = AtNode n f) /\ incl H (locks_of c) /\ incl (locks_of c) H
    | _ => True
    end.
End Fits.

(* ------------------------------------------------------------------ *)
(** ** The simulation *)

Section Simulation.
  Context {U : Type} {P : Profile} {HO : HashOrder} {O : OS} {Uu : Uuids} (db : list object) (what : observer -> obs) (net : bool).
  Notation Dev := ModelLocks.Dev. Notation LNode := ModelLocks.Node.
  Notation fits := (fits (U := U) db). Notation next := ModelThreads.next.
  Implicit Types (s : process U) (a : state U).

  (** Thread [t] holds [H] and will get, from the statements left, what the
      state of the specification says already. *)
  Definition tfits s a (t : nat) (H : list ModelLocks.lock) : Prop :=
    match threads s t with
    | Out p => Forall (fun l => ~ is_node l) H /\ fits H (a_status a t) p
    | InNode n b k => exists H', H = LNode n :: H' /\ Forall (fun l => ~ is_node l) H' /\
        (growing b /\ mail b (nodes s n) = letters (a_nodes a n)) /\
        match exec b (nodes s n) with
        | Ret (d, v) => a_nodes a n = d /\ active (a_status a t) /\ fits H' (ready (a_status a t)) (k v) /\
            todo (a_status a t) = trail b (nodes s n) /\ placed n H (a_status a t)
        | Panic => a_status a t = Gone /\ trail b (nodes s n) = []
        end
    | InCtrl c b k => exists H', H = Dev c :: H' /\ Forall (fun l => ~ is_node l) H' /\
        match exec b (ctrls s c) with
        | Ret (d, v) => a_ctrls a c = d /\ active (a_status a t) /\ fits H' (a_status a t) (k v)
        | Panic => a_status a t = Gone
        end
    | Dead => H = [] /\ a_status a t = Gone
    end.

  (** The statements left will panic. *)
  Definition doomed s (t : nat) : Prop :=
    (exists n b k, threads s t = InNode n b k /\ exec b (nodes s n) = Panic) \/
    (exists c b k, threads s t = InCtrl c b k /\ exec b (ctrls s c) = Panic).

  Record rel s a : Prop := {
    r_hist : a_history a = history s;
    r_thr : forall t, exists H, NoDup H /\ (forall l, owner s l = Some t <-> In l H) /\ tfits s a t H;
    r_clean : forall l t, owner s l = Some t -> poisoned s l = false;
    r_nodes : forall n, (forall t b k, threads s t <> InNode n b k) -> poisoned s (LNode n) = false -> a_nodes a n = nodes s n;
    r_ctrls : forall c, (forall t b k, threads s t <> InCtrl c b k) -> poisoned s (Dev c) = false -> a_ctrls a c = ctrls s c;
    r_bad1 : forall l, data_lock l -> poisoned s l = true -> a_bad a l = true;
    r_bad2 : forall l, data_lock l -> a_bad a l = true -> poisoned s l = true \/ exists t, owner s l = Some t /\ doomed s t;
    r_bad3 : forall l t, data_lock l -> owner s l = Some t -> doomed s t -> a_bad a l = true;
    r_gone : forall l, poisoned s l = true -> exists t, a_status a t = Gone;
    r_life : a_life a = life s;
    r_calm : forall n, calm (a_nodes a n);
    r_reads : a_reads a = reads s;
    r_mail : forall n, (forall t b k, threads s t <> InNode n b k) -> letters (nodes s n) = letters (a_nodes a n) }.

  Lemma inside_node s a t n b k : rel s a -> threads s t = InNode n b k -> owner s (LNode n) = Some t.
  Proof.
    intros R T. destruct (r_thr _ _ R t) as (H & _ & Ow & F). unfold tfits in F. rewrite T in F.
    destruct F as (H' & -> & _). apply Ow. left; reflexivity.
  Qed.
  Lemma inside_ctrl s a t c b k : rel s a -> threads s t = InCtrl c b k -> owner s (Dev c) = Some t.
  Proof.
    intros R T. destruct (r_thr _ _ R t) as (H & _ & Ow & F). unfold tfits in F. rewrite T in F.
    destruct F as (H' & -> & _). apply Ow. left; reflexivity.
  Qed.
  Lemma free_node s a n : rel s a -> owner s (LNode n) = None -> forall t b k, threads s t <> InNode n b k.
  Proof. intros R F t b k T. rewrite (inside_node _ _ _ _ _ _ R T) in F. discriminate. Qed.
  Lemma free_ctrl s a c : rel s a -> owner s (Dev c) = None -> forall t b k, threads s t <> InCtrl c b k.
  Proof. intros R F t b k T. rewrite (inside_ctrl _ _ _ _ _ _ R T) in F. discriminate. Qed.

  (** A thread which owns a mutex is in the middle of something. *)
  Lemma owner_active s a l t : rel s a -> owner s l = Some t -> active (a_status a t) \/ doomed s t.
  Proof.
    intros R Ow. destruct (r_thr _ _ R t) as (H & _ & Ho & F). apply Ho in Ow. unfold tfits in F.
    destruct (threads s t) as [p|n b k|c b k|] eqn:T.
    - left. destruct F as [_ F]. eapply fits_held; [exact F|]. intros ->; destruct Ow.
    - destruct F as (H' & -> & _ & F). destruct (exec b (nodes s n)) as [[d v]|] eqn:E; [left; tauto|].
      right. left. exists n, b, k. auto.
    - destruct F as (H' & -> & _ & F). destruct (exec b (ctrls s c)) as [[d v]|] eqn:E; [left; tauto|].
      right. right. exists c, b, k. auto.
    - destruct F as [-> _]. destruct Ow.
  Qed.

  (** A mutex that is taken or poisoned excuses from waiting for it. *)
  Lemma excuse s a l t : rel s a -> data_lock l -> (forall t', owner s l = Some t' -> t' <> t) ->
    owner s l <> None \/ poisoned s l = true -> others_active a t \/ a_bad a l = true.
  Proof.
    intros R D Ne [Ow|Po]; [|right; apply (r_bad1 _ _ R); auto].
    destruct (owner s l) as [t'|] eqn:E; [|congruence].
    destruct (owner_active _ _ _ _ R E) as [A|A].
    - left. exists t'. split; [apply Ne; reflexivity|exact A].
    - right. eapply (r_bad3 _ _ R); eauto.
  Qed.

  (** The other threads do not notice. *)
  Lemma other s a s' a' t' H : tfits s a t' H ->
    threads s' t' = threads s t' -> a_status a' t' = a_status a t' ->
    (forall n b k, threads s t' = InNode n b k -> nodes s' n = nodes s n /\ a_nodes a' n = a_nodes a n) ->
    (forall c b k, threads s t' = InCtrl c b k -> ctrls s' c = ctrls s c /\ a_ctrls a' c = a_ctrls a c) ->
    tfits s' a' t' H.
  Proof.
    unfold tfits. intros F Et Es En Ec. rewrite Et, Es. destruct (threads s t') as [p|n b k|c b k|]; auto.
    - destruct (En n b k eq_refl) as [-> ->]. exact F.
    - destruct (Ec c b k eq_refl) as [-> ->]. exact F.
  Qed.

  Lemma upd_same {A} (f : nat -> A) k v : upd f k v k = v.
  Proof. unfold upd. rewrite Nat.eqb_refl. reflexivity. Qed.
  Lemma upd_other {A} (f : nat -> A) k v x : x <> k -> upd f k v x = f x.
  Proof. intros N. unfold upd. destruct (Nat.eqb_spec x k); [contradiction|reflexivity]. Qed.
  Lemma put_eq {A} (f : nat -> A) k v : put f k v k = v.
  Proof. unfold put. rewrite Nat.eqb_refl. reflexivity. Qed.
  Lemma put_other {A} (f : nat -> A) k v x : x <> k -> put f k v x = f x.
  Proof. intros N. unfold put. destruct (Nat.eqb_spec x k); [contradiction|reflexivity]. Qed.
  Lemma so_same f l v : set_owner f l v l = v.
  Proof. unfold set_owner. destruct (ModelLocks.lock_eq_dec l l); [reflexivity|contradiction]. Qed.
  Lemma so_other f l v x : x <> l -> set_owner f l v x = f x.
  Proof. intros N. unfold set_owner. destruct (ModelLocks.lock_eq_dec x l); [contradiction|reflexivity]. Qed.

  (** Steps of thread [t] outside of the critical sections: the data, the
      poison and the other threads stay. *)
  Lemma rel_outside s a s' a' t p :
    rel s a -> (exists q, threads s t = Out q) -> threads s' t = Out p ->
    (forall t', t' <> t -> threads s' t' = threads s t' /\ a_status a' t' = a_status a t') ->
    a_history a' = history s' -> a_reads a' = reads s' ->
    nodes s' = nodes s -> ctrls s' = ctrls s -> poisoned s' = poisoned s ->
    a_nodes a' = a_nodes a -> a_ctrls a' = a_ctrls a -> a_bad a' = a_bad a -> life s' = life s -> a_life a' = a_life a ->
    (forall l t', t' <> t -> owner s' l = Some t' <-> owner s l = Some t') ->
    (exists H, NoDup H /\ (forall l, owner s' l = Some t <-> In l H) /\ Forall (fun l => ~ is_node l) H /\ fits H (a_status a' t) p) ->
    (forall l, owner s' l = Some t -> poisoned s l = false) ->
    rel s' a'.
  Proof.
    intros R (q & Tq) Tp Ot Hi Hr En Ec Ep An Ac Ab Li Al Ow (H & ND & Ho & Hn & F) Cl.
    assert (D : forall t', doomed s' t' <-> doomed s t').
    { intros t'. destruct (Nat.eq_dec t' t) as [->|Ne].
      - split; intros [(n & b & k & T & _)|(n & b & k & T & _)]; rewrite T in *; discriminate.
      - unfold doomed. rewrite En, Ec. destruct (Ot t' Ne) as [-> _]. reflexivity. }
    constructor.
    - exact Hi.
    - intros t'. destruct (Nat.eq_dec t' t) as [->|Ne].
      + exists H. split; [exact ND|]. split; [exact Ho|]. unfold tfits. rewrite Tp. auto.
      + destruct (r_thr _ _ R t') as (H' & ND' & Ho' & F'). exists H'. split; [exact ND'|].
        split; [intros l; rewrite (Ow l t' Ne); apply Ho'|].
        destruct (Ot t' Ne) as [E1 E2].
        eapply other; [exact F'|exact E1|exact E2| |]; intros; rewrite ?En, ?Ec, ?An, ?Ac; auto.
    - intros l t'. rewrite Ep. destruct (Nat.eq_dec t' t) as [->|Ne]; [apply Cl|].
      rewrite (Ow l t' Ne). apply (r_clean _ _ R).
    - intros n Hno. rewrite Ep, An, En. apply (r_nodes _ _ R). intros t' b k T.
      destruct (Nat.eq_dec t' t) as [->|Ne]; [congruence|]. apply (Hno t' b k). destruct (Ot t' Ne) as [-> _]; exact T.
    - intros n Hno. rewrite Ep, Ac, Ec. apply (r_ctrls _ _ R). intros t' b k T.
      destruct (Nat.eq_dec t' t) as [->|Ne]; [congruence|]. apply (Hno t' b k). destruct (Ot t' Ne) as [-> _]; exact T.
    - intros l. rewrite Ep, Ab. apply (r_bad1 _ _ R).
    - intros l Dl. rewrite Ep, Ab. intros B. destruct (r_bad2 _ _ R l Dl B) as [B'|(t' & O' & D')]; [auto|].
      right. exists t'. split; [|apply D; exact D']. apply Ow; [|exact O'].
      intros ->. destruct D' as [(n & b & k & T & _)|(n & b & k & T & _)]; congruence.
    - intros l t' Dl O' D'. rewrite Ab. apply D in D'. apply (r_bad3 _ _ R l t' Dl); [|exact D']. apply Ow; [|exact O'].
      intros ->. destruct D' as [(n & b & k & T & _)|(n & b & k & T & _)]; congruence.
    - intros l. rewrite Ep. intros B. destruct (r_gone _ _ R l B) as (t' & G). exists t'.
      destruct (Nat.eq_dec t' t) as [->|Ne]; [|destruct (Ot t' Ne) as [_ ->]; exact G].
      exfalso. destruct (r_thr _ _ R t) as (H' & _ & _ & F'). unfold tfits in F'. rewrite Tq in F'.
      destruct F' as [_ F']. rewrite G in F'. eapply fits_not_gone, F'.
    - rewrite Al, Li. apply (r_life _ _ R).
    - rewrite An. apply (r_calm _ _ R).
    - exact Hr.
    - intros n Hno. rewrite An, En. apply (r_mail _ _ R). intros t' b k T.
      destruct (Nat.eq_dec t' t) as [->|Ne]; [congruence|]. apply (Hno t' b k). destruct (Ot t' Ne) as [-> _]; exact T.
  Qed.
  (** ** Critical sections *)

  (** Thread [t] enters a critical section on a node; all its statements count
      as run. *)
  Lemma rel_enter_node s a a' t n b k q H d v :
    rel s a -> threads s t = Out q -> NoDup H -> (forall l, owner s l = Some t <-> In l H) -> Forall (fun l => ~ is_node l) H ->
    owner s (LNode n) = None -> poisoned s (LNode n) = false -> exec b (nodes s n) = Ret (d, v) ->
    a_history a' = a_history a -> (forall t', t' <> t -> a_status a' t' = a_status a t') ->
    a_nodes a' = put (a_nodes a) n d -> a_ctrls a' = a_ctrls a -> a_bad a' = a_bad a -> a_life a' = a_life a -> a_reads a' = a_reads a ->
    growing b -> calm d -> active (a_status a' t) -> fits H (ready (a_status a' t)) (k v) -> todo (a_status a' t) = trail b (nodes s n) ->
    placed n (LNode n :: H) (a_status a' t) ->
    rel (goes (takes s (LNode n) t) t (InNode n b k)) a'.
  Proof.
    intros R Tq ND Ho Hn Ow Po E Hi Ot An Ac Ab Al Ar Gb Cd Act F Td Pl.
    set (s' := goes _ _ _).
    assert (Ts : threads s' t = InNode n b k) by apply upd_same.
    assert (To : forall t', t' <> t -> threads s' t' = threads s t') by (intros; apply upd_other; assumption).
    assert (Oo : forall l t', t' <> t -> owner s' l = Some t' <-> owner s l = Some t').
    { intros l t' Ne. cbn. unfold set_owner. destruct (ModelLocks.lock_eq_dec l (LNode n)) as [->|]; [|reflexivity].
      rewrite Ow. split; [intros [= X]; congruence|discriminate]. }
    assert (Om : forall l, owner s' l = Some t <-> In l (LNode n :: H)).
    { intros l. cbn. unfold set_owner. destruct (ModelLocks.lock_eq_dec l (LNode n)) as [->|Nl]; [tauto|].
      rewrite Ho. split; [tauto|intros [X|X]; [congruence|exact X]]. }
    assert (Nin : ~ In (LNode n) H) by (intros X; apply Ho in X; congruence).
    assert (Nd : ~ doomed s' t).
    { intros [(n' & b' & k' & T & X)|(n' & b' & k' & T & X)]; rewrite Ts in T; [inversion T; subst n' b' k'; cbn in X; congruence|discriminate]. }
    assert (D : forall t', t' <> t -> doomed s' t' <-> doomed s t').
    { intros t' Ne. unfold doomed. rewrite (To t' Ne). reflexivity. }
    constructor.
    - rewrite Hi. apply (r_hist _ _ R).
    - intros t'. destruct (Nat.eq_dec t' t) as [->|Ne].
      + exists (LNode n :: H). split; [constructor; assumption|]. split; [exact Om|].
        unfold tfits. rewrite Ts. exists H. split; [reflexivity|]. split; [exact Hn|].
        change (nodes s' n) with (nodes s n). rewrite E, An, put_eq, (mail_done _ _ _ _ E). auto 10.
      + destruct (r_thr _ _ R t') as (H' & ND' & Ho' & F'). exists H'. split; [exact ND'|].
        split; [intros l; rewrite (Oo l t' Ne); apply Ho'|].
        eapply other; [exact F'|apply To, Ne|apply Ot, Ne| |].
        * intros n' b' k' T. split; [reflexivity|]. rewrite An. rewrite put_other; [reflexivity|]. intros ->. apply (inside_node _ _ _ _ _ _ R) in T. congruence.
        * intros n' b' k' T. split; [reflexivity|]. rewrite Ac. reflexivity.
    - intros l t'. destruct (Nat.eq_dec t' t) as [->|Ne].
      + rewrite Om. intros [<-|X]; [exact Po|]. apply (r_clean _ _ R l t), Ho, X.
      + rewrite (Oo l t' Ne). apply (r_clean _ _ R).
    - intros n' Hno Po'. assert (X : n' <> n) by (intros ->; apply (Hno t b k), Ts). rewrite An, put_other by exact X.
      apply (r_nodes _ _ R); [|exact Po']. intros t' b' k' T'. destruct (Nat.eq_dec t' t) as [->|Ne]; [congruence|]. apply (Hno t' b' k'). rewrite (To t' Ne); exact T'.
    - intros n' Hno Po'. rewrite Ac. apply (r_ctrls _ _ R); [|exact Po']. intros t' b' k' T'. destruct (Nat.eq_dec t' t) as [->|Ne]; [congruence|]. apply (Hno t' b' k'). rewrite (To t' Ne); exact T'.
    - intros l. rewrite Ab. apply (r_bad1 _ _ R).
    - intros l Dl. rewrite Ab. intros B. destruct (r_bad2 _ _ R l Dl B) as [B'|(t' & O' & D')]; [auto|].
      assert (Ne : t' <> t) by (intros ->; destruct D' as [(n' & b' & k' & T & _)|(n' & b' & k' & T & _)]; congruence).
      right. exists t'. split; [apply Oo; assumption|apply D; assumption].
    - intros l t' Dl O' D'. rewrite Ab. assert (Ne : t' <> t) by (intros ->; contradiction).
      apply (r_bad3 _ _ R l t' Dl); [apply Oo; assumption|apply D; assumption].
    - intros l B. destruct (r_gone _ _ R l B) as (t' & G). exists t'.
      rewrite Ot; [exact G|]. intros ->. destruct (r_thr _ _ R t) as (H' & _ & _ & F'). unfold tfits in F'. rewrite Tq in F'.
      destruct F' as [_ F']. rewrite G in F'. eapply fits_not_gone, F'.
    - rewrite Al. apply (r_life _ _ R).
    - intros n'. rewrite An. destruct (Nat.eq_dec n' n) as [->|X]; [rewrite put_eq; exact Cd|]. rewrite put_other by exact X. apply (r_calm _ _ R).
    - rewrite Ar. apply (r_reads _ _ R).
    - intros n' Hno. assert (X : n' <> n) by (intros ->; apply (Hno t b k), Ts). rewrite An, put_other by exact X.
      apply (r_mail _ _ R). intros t' b' k' T'. destruct (Nat.eq_dec t' t) as [->|Ne]; [congruence|]. apply (Hno t' b' k'). rewrite (To t' Ne); exact T'.
  Qed.

  (** ... and will panic in it. *)
  Lemma rel_doomed_node s a a' t n b k q H L :
    rel s a -> threads s t = Out q -> NoDup H -> (forall l, owner s l = Some t <-> In l H) -> Forall (fun l => ~ is_node l) H ->
    owner s (LNode n) = None -> poisoned s (LNode n) = false -> exec b (nodes s n) = Panic -> trail b (nodes s n) = [] ->
    growing b -> mail b (nodes s n) = letters (nodes s n) -> incl L (LNode n :: H) -> (forall l, data_lock l -> In l (LNode n :: H) -> In l L) ->
    a' = a_poison (a_set a t Gone) L ->
    rel (goes (takes s (LNode n) t) t (InNode n b k)) a'.
  Proof.
    intros R Tq ND Ho Hn Ow Po E Tr Gb Mb L1 L2 ->.
    set (s' := goes _ _ _). set (a' := a_poison _ _).
    assert (Ts : threads s' t = InNode n b k) by apply upd_same.
    assert (To : forall t', t' <> t -> threads s' t' = threads s t') by (intros; apply upd_other; assumption).
    assert (Ot : forall t', t' <> t -> a_status a' t' = a_status a t') by (intros; apply put_other; assumption).
    assert (Og : a_status a' t = Gone) by apply put_eq.
    assert (Oo : forall l t', t' <> t -> owner s' l = Some t' <-> owner s l = Some t').
    { intros l t' Ne. cbn. unfold set_owner. destruct (ModelLocks.lock_eq_dec l (LNode n)) as [->|]; [|reflexivity].
      rewrite Ow. split; [intros [= X]; congruence|discriminate]. }
    assert (Om : forall l, owner s' l = Some t <-> In l (LNode n :: H)).
    { intros l. cbn. unfold set_owner. destruct (ModelLocks.lock_eq_dec l (LNode n)) as [->|Nl]; [tauto|].
      rewrite Ho. split; [tauto|intros [X|X]; [congruence|exact X]]. }
    assert (Nin : ~ In (LNode n) H) by (intros X; apply Ho in X; congruence).
    assert (Nd : doomed s' t) by (left; exists n, b, k; split; [exact Ts|exact E]).
    assert (D : forall t', t' <> t -> doomed s' t' <-> doomed s t').
    { intros t' Ne. unfold doomed. rewrite (To t' Ne). reflexivity. }
    assert (Bd : forall l, a_bad a' l = true <-> a_bad a l = true \/ In l L).
    { intros l. cbn. destruct (in_dec ModelLocks.lock_eq_dec l L); rewrite ?orb_true_r, ?orb_false_r; tauto. }
    constructor.
    - apply (r_hist _ _ R).
    - intros t'. destruct (Nat.eq_dec t' t) as [->|Ne].
      + exists (LNode n :: H). split; [constructor; assumption|]. split; [exact Om|].
        unfold tfits. rewrite Ts. exists H. split; [reflexivity|]. split; [exact Hn|].
        change (nodes s' n) with (nodes s n). rewrite E. split; [|auto]. split; [exact Gb|]. rewrite Mb.
        apply (r_mail _ _ R). eapply free_node; eauto.
      + destruct (r_thr _ _ R t') as (H' & ND' & Ho' & F'). exists H'. split; [exact ND'|].
        split; [intros l; rewrite (Oo l t' Ne); apply Ho'|].
        eapply other; [exact F'|apply To, Ne|apply Ot, Ne| |]; intros n' b' k' T; split; reflexivity.
    - intros l t'. destruct (Nat.eq_dec t' t) as [->|Ne].
      + rewrite Om. intros [<-|X]; [exact Po|]. apply (r_clean _ _ R l t), Ho, X.
      + rewrite (Oo l t' Ne). apply (r_clean _ _ R).
    - intros n' Hno Po'. apply (r_nodes _ _ R); [|exact Po'].
      intros t' b' k' T. destruct (Nat.eq_dec t' t) as [->|Ne]; [congruence|]. apply (Hno t' b' k'). rewrite (To t' Ne); exact T.
    - intros n' Hno Po'. apply (r_ctrls _ _ R); [|exact Po'].
      intros t' b' k' T. destruct (Nat.eq_dec t' t) as [->|Ne]; [congruence|]. apply (Hno t' b' k'). rewrite (To t' Ne); exact T.
    - intros l Dl B. apply Bd. left. apply (r_bad1 _ _ R); assumption.
    - intros l Dl B. apply Bd in B. destruct B as [B|B].
      + destruct (r_bad2 _ _ R l Dl B) as [B'|(t' & O' & D')]; [auto|].
        assert (Ne : t' <> t) by (intros ->; destruct D' as [(n' & b' & k' & T & _)|(n' & b' & k' & T & _)]; congruence).
        right. exists t'. split; [apply Oo; assumption|apply D; assumption].
      + right. exists t. split; [apply Om, L1, B|exact Nd].
    - intros l t' Dl O' D'. apply Bd. destruct (Nat.eq_dec t' t) as [->|Ne].
      + right. apply L2; [exact Dl|apply Om, O'].
      + left. apply (r_bad3 _ _ R l t' Dl); [apply Oo; assumption|apply D; assumption].
    - intros l B. exists t. exact Og.
    - apply (r_life _ _ R).
    - apply (r_calm _ _ R).
    - apply (r_reads _ _ R).
    - intros n' Hno. apply (r_mail _ _ R). intros t' b' k' T'. destruct (Nat.eq_dec t' t) as [->|Ne]; [congruence|]. apply (Hno t' b' k'). rewrite (To t' Ne); exact T'.
  Qed.

  (** One statement of a critical section. *)
  Lemma rel_stmt_node s a t n f k d b :
    rel s a -> threads s t = InNode n (Stmt f) k -> f (nodes s n) = Ret (d, b) ->
    rel (goes (with_node s n d) t (InNode n b k)) a.
  Proof.
    intros R T E. set (s' := goes _ _ _).
    assert (Own : owner s (LNode n) = Some t) by (eapply inside_node; eauto).
    assert (Ts : threads s' t = InNode n b k) by apply upd_same.
    assert (To : forall t', t' <> t -> threads s' t' = threads s t') by (intros; apply upd_other; assumption).
    assert (Es : nodes s' n = d) by apply upd_same.
    assert (Ex : exec (Stmt f) (nodes s n) = exec b (nodes s' n)) by (rewrite Es; cbn [exec]; rewrite E; reflexivity).
    assert (Et : trail (Stmt f) (nodes s n) = trail b (nodes s' n)) by (rewrite Es; cbn [trail]; rewrite E; reflexivity).
    assert (Un : forall t' n' b' k', t' <> t -> threads s t' = InNode n' b' k' -> n' <> n).
    { intros t' n' b' k' Ne T' ->. apply (inside_node _ _ _ _ _ _ R) in T'. congruence. }
    assert (D : forall t', doomed s' t' <-> doomed s t').
    { intros t'. destruct (Nat.eq_dec t' t) as [->|Ne].
      - unfold doomed. rewrite Ts, T. split; (intros [(n' & b' & k' & X & Y)|(n' & b' & k' & X & Y)]; [left; inversion X; subst n' b' k'; eexists n, _, k; (split; [reflexivity|]); (rewrite Ex in * || rewrite <- Ex); assumption|discriminate]).
      - unfold doomed. rewrite (To t' Ne). split; (intros [(n' & b' & k' & X & Y)|(n' & b' & k' & X & Y)];
          [left|right]; exists n', b', k'; (split; [exact X|])).
        + assert (Z : n' <> n) by (eapply Un; eauto); cbn in *; rewrite upd_other in * by exact Z; exact Y.
        + exact Y.
        + assert (Z : n' <> n) by (eapply Un; eauto); cbn in *; rewrite upd_other in * by exact Z; exact Y.
        + exact Y. }
    constructor.
    - apply (r_hist _ _ R).
    - intros t'. destruct (r_thr _ _ R t') as (H' & ND' & Ho' & F'). exists H'. split; [exact ND'|]. split; [exact Ho'|].
      destruct (Nat.eq_dec t' t) as [->|Ne].
      + unfold tfits in *. rewrite Ts. rewrite T in F'. destruct F' as (H2 & EH & Hn & (Gb & Mb) & F'). exists H2. split; [exact EH|]. split; [exact Hn|]. split.
        * assert (G2 : growing b) by (inversion Gb as [|f' _ G2|]; eapply G2, E). split; [exact G2|]. rewrite Es. rewrite <- Mb. cbn [mail]. rewrite E. reflexivity.
        * rewrite <- Ex, <- Et. exact F'.
      + eapply other; [exact F'|apply To, Ne|reflexivity| |]; intros n' b' k' T'; (split; [|reflexivity]).
        * assert (Z : n' <> n) by (eapply Un; eauto); apply upd_other, Z.
        * reflexivity.
    - intros l t'. apply (r_clean _ _ R).
    - intros n' Hno Po'. assert (Z : n' <> n) by (intros ->; apply (Hno t b k), Ts). cbn. rewrite upd_other by exact Z. apply (r_nodes _ _ R); [|exact Po']. intros t' b' k' T'. destruct (Nat.eq_dec t' t) as [->|Ne]; [congruence|]. apply (Hno t' b' k'). rewrite (To t' Ne); exact T'.
    - intros n' Hno Po'. apply (r_ctrls _ _ R); [|exact Po']. intros t' b' k' T'. destruct (Nat.eq_dec t' t) as [->|Ne]; [congruence|]. apply (Hno t' b' k'). rewrite (To t' Ne); exact T'.
    - intros l. apply (r_bad1 _ _ R).
    - intros l Dl B. destruct (r_bad2 _ _ R l Dl B) as [B'|(t' & O' & D')]; [auto|]. right. exists t'. split; [exact O'|apply D, D'].
    - intros l t' Dl O' D'. apply (r_bad3 _ _ R l t' Dl O'). apply D, D'.
    - intros l B. apply (r_gone _ _ R l B).
    - apply (r_life _ _ R).
    - apply (r_calm _ _ R).
    - apply (r_reads _ _ R).
    - intros n' Hno. assert (Z : n' <> n) by (intros ->; apply (Hno t b k), Ts). cbn. rewrite upd_other by exact Z. apply (r_mail _ _ R). intros t' b' k' T'. destruct (Nat.eq_dec t' t) as [->|Ne]; [congruence|]. apply (Hno t' b' k'). rewrite (To t' Ne); exact T'.
  Qed.

  (** The end of a critical section. *)
  Lemma rel_done_node s a t n v k :
    rel s a -> threads s t = InNode n (Done v) k -> rel (goes (frees s (LNode n)) t (Out (k v))) a.
  Proof.
    intros R T. set (s' := goes _ _ _).
    assert (Own : owner s (LNode n) = Some t) by (eapply inside_node; eauto).
    assert (Ts : threads s' t = Out (k v)) by apply upd_same.
    assert (To : forall t', t' <> t -> threads s' t' = threads s t') by (intros; apply upd_other; assumption).
    destruct (r_thr _ _ R t) as (H & ND & Ho & F). unfold tfits in F. rewrite T in F.
    destruct F as (H' & -> & Hn & _ & F). cbn [exec] in F. destruct F as (An & Act & F & Td & _). cbn [trail] in Td. rewrite (ready_same _ Td) in F.
    inversion ND as [|x y Nin ND']; subst x y.
    assert (Oo : forall l t', t' <> t -> owner s' l = Some t' <-> owner s l = Some t').
    { intros l t' Ne. cbn. unfold set_owner. destruct (ModelLocks.lock_eq_dec l (LNode n)) as [->|]; [|reflexivity].
      rewrite Own. split; [discriminate|intros [= X]; congruence]. }
    assert (Om : forall l, owner s' l = Some t <-> In l H').
    { intros l. cbn. unfold set_owner. destruct (ModelLocks.lock_eq_dec l (LNode n)) as [->|Nl].
      - split; [discriminate|contradiction].
      - rewrite Ho. split; [intros [X|X]; [congruence|exact X]|right; assumption]. }
    assert (D : forall t', doomed s' t' <-> doomed s t').
    { intros t'. destruct (Nat.eq_dec t' t) as [->|Ne].
      - split; [intros [(n' & b' & k' & X & Y)|(n' & b' & k' & X & Y)]; congruence|].
        intros [(n' & b' & k' & X & Y)|(n' & b' & k' & X & Y)]; rewrite T in X; [inversion X; subst n' b' k'; cbn in Y; discriminate|discriminate].
      - unfold doomed. rewrite (To t' Ne). reflexivity. }
    assert (Ndt : ~ doomed s t).
    { intros X. apply D in X. destruct X as [(n' & b' & k' & X & Y)|(n' & b' & k' & X & Y)]; congruence. }
    constructor.
    - apply (r_hist _ _ R).
    - intros t'. destruct (Nat.eq_dec t' t) as [->|Ne].
      + exists H'. split; [exact ND'|]. split; [exact Om|]. unfold tfits. rewrite Ts. auto.
      + destruct (r_thr _ _ R t') as (H2 & ND2 & Ho2 & F2). exists H2. split; [exact ND2|].
        split; [intros l; rewrite (Oo l t' Ne); apply Ho2|].
        eapply other; [exact F2|apply To, Ne|reflexivity| |]; intros; split; reflexivity.
    - intros l t'. destruct (Nat.eq_dec t' t) as [->|Ne].
      + rewrite Om. intros X. apply (r_clean _ _ R l t), Ho. right; exact X.
      + rewrite (Oo l t' Ne). apply (r_clean _ _ R).
    - intros n' Hno Po'. destruct (Nat.eq_dec n' n) as [->|Z]; [exact An|]. apply (r_nodes _ _ R); [|exact Po']. intros t' b' k' T'. destruct (Nat.eq_dec t' t) as [->|Ne]; [congruence|]. apply (Hno t' b' k'). rewrite (To t' Ne); exact T'.
    - intros n' Hno Po'. apply (r_ctrls _ _ R); [|exact Po']. intros t' b' k' T'. destruct (Nat.eq_dec t' t) as [->|Ne]; [congruence|]. apply (Hno t' b' k'). rewrite (To t' Ne); exact T'.
    - intros l. apply (r_bad1 _ _ R).
    - intros l Dl B. destruct (r_bad2 _ _ R l Dl B) as [B'|(t' & O' & D')]; [auto|].
      assert (Ne : t' <> t) by (intros ->; contradiction).
      right. exists t'. split; [apply Oo; assumption|apply D, D'].
    - intros l t' Dl O' D'. apply D in D'. assert (Ne : t' <> t) by (intros ->; contradiction).
      apply (r_bad3 _ _ R l t' Dl); [apply Oo; assumption|exact D'].
    - intros l B. apply (r_gone _ _ R l B).
    - apply (r_life _ _ R).
    - apply (r_calm _ _ R).
    - apply (r_reads _ _ R).
    - intros n' Hno. destruct (Nat.eq_dec n' n) as [->|Z]; [cbn; rewrite An; reflexivity|]. apply (r_mail _ _ R). intros t' b' k' T'. destruct (Nat.eq_dec t' t) as [->|Ne]; [congruence|]. apply (Hno t' b' k'). rewrite (To t' Ne); exact T'.
  Qed.

  (** Thread [t] enters a critical section on a ctrl; all its statements count
      as run. *)
  Lemma rel_enter_ctrl s a a' t n b k q H d v :
    rel s a -> threads s t = Out q -> NoDup H -> (forall l, owner s l = Some t <-> In l H) -> Forall (fun l => ~ is_node l) H ->
    owner s (Dev n) = None -> poisoned s (Dev n) = false -> exec b (ctrls s n) = Ret (d, v) ->
    a_history a' = a_history a -> (forall t', t' <> t -> a_status a' t' = a_status a t') ->
    a_ctrls a' = put (a_ctrls a) n d -> a_nodes a' = a_nodes a -> a_bad a' = a_bad a -> a_life a' = a_life a -> a_reads a' = a_reads a ->
    active (a_status a' t) -> fits H (a_status a' t) (k v) ->
    rel (goes (takes s (Dev n) t) t (InCtrl n b k)) a'.
  Proof.
    intros R Tq ND Ho Hn Ow Po E Hi Ot An Ac Ab Al Ar Act F.
    set (s' := goes _ _ _).
    assert (Ts : threads s' t = InCtrl n b k) by apply upd_same.
    assert (To : forall t', t' <> t -> threads s' t' = threads s t') by (intros; apply upd_other; assumption).
    assert (Oo : forall l t', t' <> t -> owner s' l = Some t' <-> owner s l = Some t').
    { intros l t' Ne. cbn. unfold set_owner. destruct (ModelLocks.lock_eq_dec l (Dev n)) as [->|]; [|reflexivity].
      rewrite Ow. split; [intros [= X]; congruence|discriminate]. }
    assert (Om : forall l, owner s' l = Some t <-> In l (Dev n :: H)).
    { intros l. cbn. unfold set_owner. destruct (ModelLocks.lock_eq_dec l (Dev n)) as [->|Nl]; [tauto|].
      rewrite Ho. split; [tauto|intros [X|X]; [congruence|exact X]]. }
    assert (Nin : ~ In (Dev n) H) by (intros X; apply Ho in X; congruence).
    assert (Nd : ~ doomed s' t).
    { intros [(n' & b' & k' & T & X)|(n' & b' & k' & T & X)]; rewrite Ts in T; [discriminate|inversion T; subst n' b' k'; cbn in X; congruence]. }
    assert (D : forall t', t' <> t -> doomed s' t' <-> doomed s t').
    { intros t' Ne. unfold doomed. rewrite (To t' Ne). reflexivity. }
    constructor.
    - rewrite Hi. apply (r_hist _ _ R).
    - intros t'. destruct (Nat.eq_dec t' t) as [->|Ne].
      + exists (Dev n :: H). split; [constructor; assumption|]. split; [exact Om|].
        unfold tfits. rewrite Ts. exists H. split; [reflexivity|]. split; [exact Hn|].
        change (ctrls s' n) with (ctrls s n). rewrite E, An, put_eq. auto.
      + destruct (r_thr _ _ R t') as (H' & ND' & Ho' & F'). exists H'. split; [exact ND'|].
        split; [intros l; rewrite (Oo l t' Ne); apply Ho'|].
        eapply other; [exact F'|apply To, Ne|apply Ot, Ne| |].
        * intros n' b' k' T. split; [reflexivity|]. rewrite Ac. reflexivity.
        * intros n' b' k' T. split; [reflexivity|]. rewrite An. rewrite put_other; [reflexivity|]. intros ->. apply (inside_ctrl _ _ _ _ _ _ R) in T. congruence.
    - intros l t'. destruct (Nat.eq_dec t' t) as [->|Ne].
      + rewrite Om. intros [<-|X]; [exact Po|]. apply (r_clean _ _ R l t), Ho, X.
      + rewrite (Oo l t' Ne). apply (r_clean _ _ R).
    - intros n' Hno Po'. rewrite Ac. apply (r_nodes _ _ R); [|exact Po']. intros t' b' k' T'. destruct (Nat.eq_dec t' t) as [->|Ne]; [congruence|]. apply (Hno t' b' k'). rewrite (To t' Ne); exact T'.
    - intros n' Hno Po'. assert (X : n' <> n) by (intros ->; apply (Hno t b k), Ts). rewrite An, put_other by exact X.
      apply (r_ctrls _ _ R); [|exact Po']. intros t' b' k' T'. destruct (Nat.eq_dec t' t) as [->|Ne]; [congruence|]. apply (Hno t' b' k'). rewrite (To t' Ne); exact T'.
    - intros l. rewrite Ab. apply (r_bad1 _ _ R).
    - intros l Dl. rewrite Ab. intros B. destruct (r_bad2 _ _ R l Dl B) as [B'|(t' & O' & D')]; [auto|].
      assert (Ne : t' <> t) by (intros ->; destruct D' as [(n' & b' & k' & T & _)|(n' & b' & k' & T & _)]; congruence).
      right. exists t'. split; [apply Oo; assumption|apply D; assumption].
    - intros l t' Dl O' D'. rewrite Ab. assert (Ne : t' <> t) by (intros ->; contradiction).
      apply (r_bad3 _ _ R l t' Dl); [apply Oo; assumption|apply D; assumption].
    - intros l B. destruct (r_gone _ _ R l B) as (t' & G). exists t'.
      rewrite Ot; [exact G|]. intros ->. destruct (r_thr _ _ R t) as (H' & _ & _ & F'). unfold tfits in F'. rewrite Tq in F'.
      destruct F' as [_ F']. rewrite G in F'. eapply fits_not_gone, F'.
    - rewrite Al. apply (r_life _ _ R).
    - rewrite Ac. apply (r_calm _ _ R).
    - rewrite Ar. apply (r_reads _ _ R).
    - intros n' Hno. rewrite Ac. apply (r_mail _ _ R). intros t' b' k' T'. destruct (Nat.eq_dec t' t) as [->|Ne]; [congruence|]. apply (Hno t' b' k'). rewrite (To t' Ne); exact T'.
  Qed.

  (** ... and will panic in it. *)
  Lemma rel_doomed_ctrl s a a' t n b k q H L :
    rel s a -> threads s t = Out q -> NoDup H -> (forall l, owner s l = Some t <-> In l H) -> Forall (fun l => ~ is_node l) H ->
    owner s (Dev n) = None -> poisoned s (Dev n) = false -> exec b (ctrls s n) = Panic ->
    incl L (Dev n :: H) -> (forall l, data_lock l -> In l (Dev n :: H) -> In l L) ->
    a' = a_poison (a_set a t Gone) L ->
    rel (goes (takes s (Dev n) t) t (InCtrl n b k)) a'.
  Proof.
    intros R Tq ND Ho Hn Ow Po E L1 L2 ->.
    set (s' := goes _ _ _). set (a' := a_poison _ _).
    assert (Ts : threads s' t = InCtrl n b k) by apply upd_same.
    assert (To : forall t', t' <> t -> threads s' t' = threads s t') by (intros; apply upd_other; assumption).
    assert (Ot : forall t', t' <> t -> a_status a' t' = a_status a t') by (intros; apply put_other; assumption).
    assert (Og : a_status a' t = Gone) by apply put_eq.
    assert (Oo : forall l t', t' <> t -> owner s' l = Some t' <-> owner s l = Some t').
    { intros l t' Ne. cbn. unfold set_owner. destruct (ModelLocks.lock_eq_dec l (Dev n)) as [->|]; [|reflexivity].
      rewrite Ow. split; [intros [= X]; congruence|discriminate]. }
    assert (Om : forall l, owner s' l = Some t <-> In l (Dev n :: H)).
    { intros l. cbn. unfold set_owner. destruct (ModelLocks.lock_eq_dec l (Dev n)) as [->|Nl]; [tauto|].
      rewrite Ho. split; [tauto|intros [X|X]; [congruence|exact X]]. }
    assert (Nin : ~ In (Dev n) H) by (intros X; apply Ho in X; congruence).
    assert (Nd : doomed s' t) by (right; exists n, b, k; split; [exact Ts|exact E]).
    assert (D : forall t', t' <> t -> doomed s' t' <-> doomed s t').
    { intros t' Ne. unfold doomed. rewrite (To t' Ne). reflexivity. }
    assert (Bd : forall l, a_bad a' l = true <-> a_bad a l = true \/ In l L).
    { intros l. cbn. destruct (in_dec ModelLocks.lock_eq_dec l L); rewrite ?orb_true_r, ?orb_false_r; tauto. }
    constructor.
    - apply (r_hist _ _ R).
    - intros t'. destruct (Nat.eq_dec t' t) as [->|Ne].
      + exists (Dev n :: H). split; [constructor; assumption|]. split; [exact Om|].
        unfold tfits. rewrite Ts. exists H. split; [reflexivity|]. split; [exact Hn|].
        change (ctrls s' n) with (ctrls s n). rewrite E. exact Og.
      + destruct (r_thr _ _ R t') as (H' & ND' & Ho' & F'). exists H'. split; [exact ND'|].
        split; [intros l; rewrite (Oo l t' Ne); apply Ho'|].
        eapply other; [exact F'|apply To, Ne|apply Ot, Ne| |]; intros n' b' k' T; split; reflexivity.
    - intros l t'. destruct (Nat.eq_dec t' t) as [->|Ne].
      + rewrite Om. intros [<-|X]; [exact Po|]. apply (r_clean _ _ R l t), Ho, X.
      + rewrite (Oo l t' Ne). apply (r_clean _ _ R).
    - intros n' Hno Po'. apply (r_nodes _ _ R); [|exact Po'].
      intros t' b' k' T. destruct (Nat.eq_dec t' t) as [->|Ne]; [congruence|]. apply (Hno t' b' k'). rewrite (To t' Ne); exact T.
    - intros n' Hno Po'. apply (r_ctrls _ _ R); [|exact Po'].
      intros t' b' k' T. destruct (Nat.eq_dec t' t) as [->|Ne]; [congruence|]. apply (Hno t' b' k'). rewrite (To t' Ne); exact T.
    - intros l Dl B. apply Bd. left. apply (r_bad1 _ _ R); assumption.
    - intros l Dl B. apply Bd in B. destruct B as [B|B].
      + destruct (r_bad2 _ _ R l Dl B) as [B'|(t' & O' & D')]; [auto|].
        assert (Ne : t' <> t) by (intros ->; destruct D' as [(n' & b' & k' & T & _)|(n' & b' & k' & T & _)]; congruence).
        right. exists t'. split; [apply Oo; assumption|apply D; assumption].
      + right. exists t. split; [apply Om, L1, B|exact Nd].
    - intros l t' Dl O' D'. apply Bd. destruct (Nat.eq_dec t' t) as [->|Ne].
      + right. apply L2; [exact Dl|apply Om, O'].
      + left. apply (r_bad3 _ _ R l t' Dl); [apply Oo; assumption|apply D; assumption].
    - intros l B. exists t. exact Og.
    - apply (r_life _ _ R).
    - apply (r_calm _ _ R).
    - apply (r_reads _ _ R).
    - intros n' Hno. apply (r_mail _ _ R). intros t' b' k' T'. destruct (Nat.eq_dec t' t) as [->|Ne]; [congruence|]. apply (Hno t' b' k'). rewrite (To t' Ne); exact T'.
  Qed.

  (** One statement of a critical section. *)
  Lemma rel_stmt_ctrl s a t n f k d b :
    rel s a -> threads s t = InCtrl n (Stmt f) k -> f (ctrls s n) = Ret (d, b) ->
    rel (goes (with_ctrl s n d) t (InCtrl n b k)) a.
  Proof.
    intros R T E. set (s' := goes _ _ _).
    assert (Own : owner s (Dev n) = Some t) by (eapply inside_ctrl; eauto).
    assert (Ts : threads s' t = InCtrl n b k) by apply upd_same.
    assert (To : forall t', t' <> t -> threads s' t' = threads s t') by (intros; apply upd_other; assumption).
    assert (Es : ctrls s' n = d) by apply upd_same.
    assert (Ex : exec (Stmt f) (ctrls s n) = exec b (ctrls s' n)) by (rewrite Es; cbn [exec]; rewrite E; reflexivity).
    assert (Un : forall t' n' b' k', t' <> t -> threads s t' = InCtrl n' b' k' -> n' <> n).
    { intros t' n' b' k' Ne T' ->. apply (inside_ctrl _ _ _ _ _ _ R) in T'. congruence. }
    assert (D : forall t', doomed s' t' <-> doomed s t').
    { intros t'. destruct (Nat.eq_dec t' t) as [->|Ne].
      - unfold doomed. rewrite Ts, T. split; (intros [(n' & b' & k' & X & Y)|(n' & b' & k' & X & Y)]; [discriminate|right; inversion X; subst n' b' k'; eexists n, _, k; (split; [reflexivity|]); (rewrite Ex in * || rewrite <- Ex); assumption]).
      - unfold doomed. rewrite (To t' Ne). split; (intros [(n' & b' & k' & X & Y)|(n' & b' & k' & X & Y)];
          [left|right]; exists n', b', k'; (split; [exact X|])).
        + exact Y.
        + assert (Z : n' <> n) by (eapply Un; eauto); cbn in *; rewrite upd_other in * by exact Z; exact Y.
        + exact Y.
        + assert (Z : n' <> n) by (eapply Un; eauto); cbn in *; rewrite upd_other in * by exact Z; exact Y. }
    constructor.
    - apply (r_hist _ _ R).
    - intros t'. destruct (r_thr _ _ R t') as (H' & ND' & Ho' & F'). exists H'. split; [exact ND'|]. split; [exact Ho'|].
      destruct (Nat.eq_dec t' t) as [->|Ne].
      + unfold tfits in *. rewrite Ts. rewrite T in F'. rewrite <- Ex. exact F'.
      + eapply other; [exact F'|apply To, Ne|reflexivity| |]; intros n' b' k' T'; (split; [|reflexivity]).
        * reflexivity.
        * assert (Z : n' <> n) by (eapply Un; eauto); apply upd_other, Z.
    - intros l t'. apply (r_clean _ _ R).
    - intros n' Hno Po'. apply (r_nodes _ _ R); [|exact Po']. intros t' b' k' T'. destruct (Nat.eq_dec t' t) as [->|Ne]; [congruence|]. apply (Hno t' b' k'). rewrite (To t' Ne); exact T'.
    - intros n' Hno Po'. assert (Z : n' <> n) by (intros ->; apply (Hno t b k), Ts). cbn. rewrite upd_other by exact Z. apply (r_ctrls _ _ R); [|exact Po']. intros t' b' k' T'. destruct (Nat.eq_dec t' t) as [->|Ne]; [congruence|]. apply (Hno t' b' k'). rewrite (To t' Ne); exact T'.
    - intros l. apply (r_bad1 _ _ R).
    - intros l Dl B. destruct (r_bad2 _ _ R l Dl B) as [B'|(t' & O' & D')]; [auto|]. right. exists t'. split; [exact O'|apply D, D'].
    - intros l t' Dl O' D'. apply (r_bad3 _ _ R l t' Dl O'). apply D, D'.
    - intros l B. apply (r_gone _ _ R l B).
    - apply (r_life _ _ R).
    - apply (r_calm _ _ R).
    - apply (r_reads _ _ R).
    - intros n' Hno. apply (r_mail _ _ R). intros t' b' k' T'. destruct (Nat.eq_dec t' t) as [->|Ne]; [congruence|]. apply (Hno t' b' k'). rewrite (To t' Ne); exact T'.
  Qed.

  (** The end of a critical section. *)
  Lemma rel_done_ctrl s a t n v k :
    rel s a -> threads s t = InCtrl n (Done v) k -> rel (goes (frees s (Dev n)) t (Out (k v))) a.
  Proof.
    intros R T. set (s' := goes _ _ _).
    assert (Own : owner s (Dev n) = Some t) by (eapply inside_ctrl; eauto).
    assert (Ts : threads s' t = Out (k v)) by apply upd_same.
    assert (To : forall t', t' <> t -> threads s' t' = threads s t') by (intros; apply upd_other; assumption).
    destruct (r_thr _ _ R t) as (H & ND & Ho & F). unfold tfits in F. rewrite T in F.
    destruct F as (H' & -> & Hn & F). cbn [exec] in F. destruct F as (An & Act & F).
    inversion ND as [|x y Nin ND']; subst x y.
    assert (Oo : forall l t', t' <> t -> owner s' l = Some t' <-> owner s l = Some t').
    { intros l t' Ne. cbn. unfold set_owner. destruct (ModelLocks.lock_eq_dec l (Dev n)) as [->|]; [|reflexivity].
      rewrite Own. split; [discriminate|intros [= X]; congruence]. }
    assert (Om : forall l, owner s' l = Some t <-> In l H').
    { intros l. cbn. unfold set_owner. destruct (ModelLocks.lock_eq_dec l (Dev n)) as [->|Nl].
      - split; [discriminate|contradiction].
      - rewrite Ho. split; [intros [X|X]; [congruence|exact X]|right; assumption]. }
    assert (D : forall t', doomed s' t' <-> doomed s t').
    { intros t'. destruct (Nat.eq_dec t' t) as [->|Ne].
      - split; [intros [(n' & b' & k' & X & Y)|(n' & b' & k' & X & Y)]; congruence|].
        intros [(n' & b' & k' & X & Y)|(n' & b' & k' & X & Y)]; rewrite T in X; [discriminate|inversion X; subst n' b' k'; cbn in Y; discriminate].
      - unfold doomed. rewrite (To t' Ne). reflexivity. }
    assert (Ndt : ~ doomed s t).
    { intros X. apply D in X. destruct X as [(n' & b' & k' & X & Y)|(n' & b' & k' & X & Y)]; congruence. }
    constructor.
    - apply (r_hist _ _ R).
    - intros t'. destruct (Nat.eq_dec t' t) as [->|Ne].
      + exists H'. split; [exact ND'|]. split; [exact Om|]. unfold tfits. rewrite Ts. auto.
      + destruct (r_thr _ _ R t') as (H2 & ND2 & Ho2 & F2). exists H2. split; [exact ND2|].
        split; [intros l; rewrite (Oo l t' Ne); apply Ho2|].
        eapply other; [exact F2|apply To, Ne|reflexivity| |]; intros; split; reflexivity.
    - intros l t'. destruct (Nat.eq_dec t' t) as [->|Ne].
      + rewrite Om. intros X. apply (r_clean _ _ R l t), Ho. right; exact X.
      + rewrite (Oo l t' Ne). apply (r_clean _ _ R).
    - intros n' Hno Po'. apply (r_nodes _ _ R); [|exact Po']. intros t' b' k' T'. destruct (Nat.eq_dec t' t) as [->|Ne]; [congruence|]. apply (Hno t' b' k'). rewrite (To t' Ne); exact T'.
    - intros n' Hno Po'. destruct (Nat.eq_dec n' n) as [->|Z]; [exact An|]. apply (r_ctrls _ _ R); [|exact Po']. intros t' b' k' T'. destruct (Nat.eq_dec t' t) as [->|Ne]; [congruence|]. apply (Hno t' b' k'). rewrite (To t' Ne); exact T'.
    - intros l. apply (r_bad1 _ _ R).
    - intros l Dl B. destruct (r_bad2 _ _ R l Dl B) as [B'|(t' & O' & D')]; [auto|].
      assert (Ne : t' <> t) by (intros ->; contradiction).
      right. exists t'. split; [apply Oo; assumption|apply D, D'].
    - intros l t' Dl O' D'. apply D in D'. assert (Ne : t' <> t) by (intros ->; contradiction).
      apply (r_bad3 _ _ R l t' Dl); [apply Oo; assumption|exact D'].
    - intros l B. apply (r_gone _ _ R l B).
    - apply (r_life _ _ R).
    - apply (r_calm _ _ R).
    - apply (r_reads _ _ R).
    - intros n' Hno. apply (r_mail _ _ R). intros t' b' k' T'. destruct (Nat.eq_dec t' t) as [->|Ne]; [congruence|]. apply (Hno t' b' k'). rewrite (To t' Ne); exact T'.
  Qed.
  (** ** Panics *)

  (** The end of a thread. *)
  Lemma rel_dies s a a' t H :
    rel s a -> (forall l, owner s l = Some t <-> In l H) ->
    a_history a' = a_history a -> a_nodes a' = a_nodes a -> a_ctrls a' = a_ctrls a -> a_life a' = a_life a -> a_reads a' = a_reads a ->
    (forall n b k, threads s t = InNode n b k -> mail b (nodes s n) = letters (nodes s n)) ->
    (forall t', t' <> t -> a_status a' t' = a_status a t') -> a_status a' t = Gone ->
    (forall l, data_lock l -> a_bad a' l = true <-> a_bad a l = true \/ In l H) ->
    rel (dies s t) a'.
  Proof.
    intros R Ho Hi An Ac Al Ar Mt Ot Og Bd. set (s' := dies s t).
    assert (Ts : threads s' t = Dead) by apply upd_same.
    assert (To : forall t', t' <> t -> threads s' t' = threads s t') by (intros; apply upd_other; assumption).
    assert (Mi : forall l, mine s t l = true <-> In l H).
    { intros l. rewrite <- Ho. unfold mine. destruct (owner s l) as [x|]; [|split; discriminate].
      rewrite Nat.eqb_eq. split; [intros ->; reflexivity|intros [= ->]; reflexivity]. }
    assert (Oo : forall l t', owner s' l = Some t' <-> t' <> t /\ owner s l = Some t').
    { intros l t'. cbn. unfold mine. destruct (owner s l) as [x|]; [|split; [discriminate|intros [_ X]; discriminate]].
      destruct (Nat.eqb_spec x t) as [->|Ne].
      - split; [discriminate|]. intros [X [= Y]]. congruence.
      - split; [intros [= <-]; auto|tauto]. }
    assert (Pp : forall l, poisoned s' l = true <-> poisoned s l = true \/ In l H).
    { intros l. cbn. rewrite orb_true_iff, Mi. reflexivity. }
    assert (Pf : forall l, poisoned s' l = false -> poisoned s l = false /\ ~ In l H).
    { intros l X. split.
      - destruct (poisoned s l) eqn:E; [|reflexivity]. assert (Y : poisoned s' l = true) by (apply Pp; auto). congruence.
      - intros Y. assert (Z : poisoned s' l = true) by (apply Pp; auto). congruence. }
    assert (D : forall t', t' <> t -> doomed s' t' <-> doomed s t').
    { intros t' Ne. unfold doomed. rewrite (To t' Ne). reflexivity. }
    assert (Nd : ~ doomed s' t) by (intros [(n & b & k & X & _)|(n & b & k & X & _)]; congruence).
    constructor.
    - rewrite Hi. apply (r_hist _ _ R).
    - intros t'. destruct (Nat.eq_dec t' t) as [->|Ne].
      + exists []. split; [constructor|]. split; [intros l; rewrite Oo; split; [tauto|intros []]|].
        unfold tfits. rewrite Ts. auto.
      + destruct (r_thr _ _ R t') as (H2 & ND2 & Ho2 & F2). exists H2. split; [exact ND2|].
        split; [intros l; rewrite Oo, Ho2; tauto|].
        eapply other; [exact F2|apply To, Ne|apply Ot, Ne| |]; intros; rewrite ?An, ?Ac; split; reflexivity.
    - intros l t' X. apply Oo in X. destruct X as [Ne X]. destruct (poisoned s' l) eqn:Y; [|reflexivity].
      apply Pp in Y. destruct Y as [Y|Y].
      + rewrite (r_clean _ _ R l t' X) in Y. discriminate.
      + apply Ho in Y. congruence.
    - intros n Hno Po'. apply Pf in Po'. destruct Po' as [P1 P2]. rewrite An. apply (r_nodes _ _ R); [|exact P1].
      intros t' b' k' T'. destruct (Nat.eq_dec t' t) as [->|Ne].
      + apply P2, Ho. eapply inside_node; eauto.
      + apply (Hno t' b' k'). rewrite (To t' Ne); exact T'.
    - intros n Hno Po'. apply Pf in Po'. destruct Po' as [P1 P2]. rewrite Ac. apply (r_ctrls _ _ R); [|exact P1].
      intros t' b' k' T'. destruct (Nat.eq_dec t' t) as [->|Ne].
      + apply P2, Ho. eapply inside_ctrl; eauto.
      + apply (Hno t' b' k'). rewrite (To t' Ne); exact T'.
    - intros l Dl X. apply Bd; [exact Dl|]. apply Pp in X. destruct X as [X|X]; [left; apply (r_bad1 _ _ R); assumption|auto].
    - intros l Dl X. apply Bd in X; [|exact Dl]. destruct X as [X|X]; [|left; apply Pp; auto].
      destruct (r_bad2 _ _ R l Dl X) as [Y|(t' & O' & D')]; [left; apply Pp; auto|].
      destruct (Nat.eq_dec t' t) as [->|Ne]; [left; apply Pp; right; apply Ho, O'|].
      right. exists t'. split; [apply Oo; auto|apply D; assumption].
    - intros l t' Dl O' D'. apply Oo in O'. destruct O' as [Ne O']. apply Bd; [exact Dl|]. left.
      apply (r_bad3 _ _ R l t' Dl O'). apply D; assumption.
    - intros l _. exists t. exact Og.
    - rewrite Al. apply (r_life _ _ R).
    - rewrite An. apply (r_calm _ _ R).
    - rewrite Ar. apply (r_reads _ _ R).
    - intros n Hno. rewrite An. change (nodes s' n) with (nodes s n). destruct (threads s t) as [q|n' b k|c b k|] eqn:T.
      2: { destruct (Nat.eq_dec n' n) as [->|Ne].
        - rewrite <- (Mt n b k eq_refl). destruct (r_thr _ _ R t) as (H2 & _ & _ & F). unfold tfits in F. rewrite T in F.
          destruct F as (_ & _ & _ & (_ & F) & _). exact F.
        - apply (r_mail _ _ R). intros t' b' k' T'. destruct (Nat.eq_dec t' t) as [->|Nt]; [congruence|]. apply (Hno t' b' k'). rewrite (To t' Nt). exact T'. }
      all: apply (r_mail _ _ R); intros t' b' k' T'; destruct (Nat.eq_dec t' t) as [->|Nt]; [congruence|]; apply (Hno t' b' k'); rewrite (To t' Nt); exact T'.
  Qed.

  (** The mutexes poisoned by [a_poison]. *)
  Lemma poison_bad a t L l : a_bad (a_poison (a_set a t Gone) L) l = true <-> a_bad a l = true \/ In l L.
  Proof. cbn. destruct (in_dec ModelLocks.lock_eq_dec l L); rewrite ?orb_true_r, ?orb_false_r; tauto. Qed.

  Definition stays s s' t := forall t', t' <> t -> threads s' t' = threads s t'.

  Lemma out_fits s a t p : rel s a -> threads s t = Out p ->
    exists H, NoDup H /\ (forall l, owner s l = Some t <-> In l H) /\ Forall (fun l => ~ is_node l) H /\ fits H (a_status a t) p.
  Proof.
    intros R T. destruct (r_thr _ _ R t) as (H & ND & Ho & F). unfold tfits in F. rewrite T in F. exists H. tauto.
  Qed.

  Lemma clean_bad s a t l q : rel s a -> data_lock l -> threads s t = Out q -> owner s l = Some t -> a_bad a l = false.
  Proof.
    intros R D T Ow. destruct (a_bad a l) eqn:B; [|reflexivity].
    destruct (r_bad2 _ _ R l D B) as [X|(t' & O' & D')].
    - rewrite (r_clean _ _ R l t Ow) in X. discriminate.
    - assert (t' = t) by congruence. subst t'. destruct D' as [(n & b & k & X & _)|(n & b & k & X & _)]; congruence.
  Qed.
  Lemma free_bad s a l : rel s a -> data_lock l -> owner s l = None -> poisoned s l = false -> a_bad a l = false.
  Proof.
    intros R D Ow Po. destruct (a_bad a l) eqn:B; [|reflexivity].
    destruct (r_bad2 _ _ R l D B) as [X|(t' & O' & D')]; congruence.
  Qed.
  Lemma locks_data (c : call U) l : In l (locks_of c) -> data_lock l.
  Proof.
    destruct c; try (destruct d); cbn; intros X; repeat (destruct X as [<-|X]; [exact Logic.I|]); destruct X.
  Qed.
  (** ** Each step *)

  Ltac outside R t := eapply (rel_outside _ _ _ _ t); [exact R|eauto| apply upd_same | | | reflexivity .. | | |].

  (** Threads other than [t] after [goes]. *)
  Lemma goes_stays s t x : forall t', t' <> t -> threads (goes s t x) t' = threads s t'.
  Proof. intros t' Ne. apply upd_other, Ne. Qed.

  (** A step of thread [t] outside of the critical sections that changes
      neither the owner of a mutex nor the data. *)
  Lemma rel_moves s a t q p st (e : list (event U)) :
    rel s a -> threads s t = Out q ->
    (forall H, fits H (a_status a t) q -> fits H st p) ->
    rel (Process (owner s) (poisoned s) (nodes s) (ctrls s) (upd (threads s) t (Out p)) (life s) (flags s) (history s ++ e) (reads s))
        (State (a_bad a) (a_nodes a) (a_ctrls a) (put (a_status a) t st) (a_life a) (a_history a ++ e) (a_reads a)).
  Proof.
    intros R T F. destruct (out_fits _ _ _ _ R T) as (H & ND & Ho & Hn & X).
    eapply (rel_outside _ _ _ _ t p R); cbn; try reflexivity.
    - eauto.
    - apply upd_same.
    - intros t' Ne. split; [apply upd_other, Ne|apply put_other, Ne].
    - rewrite (r_hist _ _ R). reflexivity.
    - apply (r_reads _ _ R).
    - exists H. rewrite put_eq. auto.
    - intros l Ow. apply (r_clean _ _ R l t Ow).
  Qed.
  (** ... without anything to be seen. *)
  Lemma rel_silent s a t q p st :
    rel s a -> threads s t = Out q -> (forall H, fits H (a_status a t) q -> fits H st p) ->
    rel (goes s t (Out p)) (a_set a t st).
  Proof.
    intros R T F. pose proof (rel_moves _ _ _ _ _ _ [] R T F) as X. rewrite !app_nil_r in X. exact X.
  Qed.
  Lemma set_status_same a t : forall t', a_status (a_set a t (a_status a t)) t' = a_status a t'.
  Proof. intros t'. cbn. unfold put. destruct (Nat.eqb_spec t' t) as [->|]; reflexivity. Qed.
  (** The relation looks at the status of the threads only one by one. *)
  Lemma rel_status s a a' : rel s a -> a_bad a' = a_bad a -> a_nodes a' = a_nodes a -> a_ctrls a' = a_ctrls a -> a_history a' = a_history a -> a_life a' = a_life a -> a_reads a' = a_reads a ->
    (forall t, a_status a' t = a_status a t) -> rel s a'.
  Proof.
    intros R Eb En Ec Eh El Er Es. destruct R as [R1 R2 R3 R4 R5 R6 R7 R8 R9 R10 R11 R12 R13]. constructor; rewrite ?Eb, ?En, ?Ec, ?Eh, ?El, ?Er; auto.
    - intros t. destruct (R2 t) as (H & ND & Ho & F). exists H. split; [exact ND|]. split; [exact Ho|].
      unfold tfits in *. rewrite Es, En, Ec. exact F.
    - intros l B. destruct (R9 l B) as (t & G). exists t. rewrite Es. exact G.
  Qed.
  Lemma rel_quiet s a t q p :
    rel s a -> threads s t = Out q -> (forall H, fits H (a_status a t) q -> fits H (a_status a t) p) ->
    rel (goes s t (Out p)) a.
  Proof.
    intros R T F. eapply rel_status; [eapply (rel_silent _ _ _ _ _ _ R T F)|reflexivity ..|].
    intros t'. symmetry. apply set_status_same.
  Qed.

  (** What start and stop do with other threads. *)
  Lemma rel_act s a t n x b b' k c v L :
    rel s a -> threads s t = InNode n (Act x b) k -> a_status a t = Answered c v (trail (Act x b) (nodes s n)) ->
    (forall d, exec b' d = exec b d) -> (forall d, mail b' d = mail b d) -> (growing (Act x b) -> growing b') ->
    rel (goes (with_life s L) t (InNode n b' k)) (a_lives (a_set a t (Answered c v (trail b' (nodes s n)))) L).
  Proof.
    intros R T St E Em Eg. set (s' := goes _ _ _). set (a' := a_lives _ _).
    assert (Ts : threads s' t = InNode n b' k) by apply upd_same.
    assert (To : forall t', t' <> t -> threads s' t' = threads s t') by (intros; apply upd_other; assumption).
    assert (Ss : a_status a' t = Answered c v (trail b' (nodes s n))) by apply put_eq.
    assert (So : forall t', t' <> t -> a_status a' t' = a_status a t') by (intros; apply put_other; assumption).
    assert (D : forall t', doomed s' t' <-> doomed s t').
    { intros t'. destruct (Nat.eq_dec t' t) as [->|Ne].
      - unfold doomed. rewrite Ts, T. split; (intros [(n' & b1 & k' & X & Y)|(n' & b1 & k' & X & Y)];
          [left; inversion X; subst n' b1 k'; eexists n, _, k; (split; [reflexivity|])|discriminate]).
        + cbn in *. rewrite <- E. exact Y.
        + cbn in *. rewrite E. exact Y.
      - unfold doomed. rewrite (To t' Ne). reflexivity. }
    destruct R as [R1 R2 R3 R4 R5 R6 R7 R8 R9 R10 R11 R12 R13]. constructor.
    - exact R1.
    - intros t'. destruct (R2 t') as (H & ND & Ho & F). exists H. split; [exact ND|]. split; [exact Ho|].
      destruct (Nat.eq_dec t' t) as [->|Ne].
      + unfold tfits in *. rewrite Ts, Ss. rewrite T, St in F. destruct F as (H' & EH & Hn & (Gb & Mb) & F). exists H'. split; [exact EH|]. split; [exact Hn|].
        change (nodes s' n) with (nodes s n). split; [split; [apply Eg, Gb|rewrite Em; exact Mb]|]. rewrite E. cbn [exec] in F. destruct (exec b (nodes s n)) as [[d w]|].
        * destruct F as (F1 & F2 & F3 & F4 & F5). split; [exact F1|]. split; [exact Logic.I|]. split; [exact F3|]. split; [reflexivity|exact F5].
        * destruct F as [F _]. discriminate.
      + eapply other; [exact F|apply To, Ne|apply So, Ne| |]; intros; split; reflexivity.
    - exact R3.
    - intros n' Hno Po. apply R4; [|exact Po]. intros t' b1 k' T'. destruct (Nat.eq_dec t' t) as [->|Ne].
      + rewrite T in T'. inversion T'; subst n' b1 k'. apply (Hno t b' k), Ts.
      + apply (Hno t' b1 k'). rewrite (To t' Ne). exact T'.
    - intros n' Hno Po. apply R5; [|exact Po]. intros t' b1 k' T'. destruct (Nat.eq_dec t' t) as [->|Ne]; [congruence|].
      apply (Hno t' b1 k'). rewrite (To t' Ne). exact T'.
    - exact R6.
    - intros l Dl B. destruct (R7 l Dl B) as [B'|(t' & O' & D')]; [auto|]. right. exists t'. split; [exact O'|apply D, D'].
    - intros l t' Dl O' D'. apply (R8 l t' Dl O'). apply D, D'.
    - intros l B. destruct (R9 l B) as (t' & G). exists t'. rewrite So; [exact G|]. intros ->. rewrite St in G. discriminate.
    - reflexivity.
    - exact R11.
    - exact R12.
    - intros n' Hno. apply R13. intros t' b1 k' T'. destruct (Nat.eq_dec t' t) as [->|Ne].
      + rewrite T in T'. inversion T'; subst n' b1 k'. apply (Hno t b' k), Ts.
      + apply (Hno t' b1 k'). rewrite (To t' Ne). exact T'.
  Qed.
  Lemma rel_flag s a t : rel s a -> rel (with_flag s t) a.
  Proof. intros []. constructor; assumption. Qed.

  Lemma act_growing x (b : nbody U) : growing (Act x b) -> growing b.
  Proof. intros G. inversion G; subst. apply mute_growing. assumption. Qed.
  Lemma act_act x y (b : nbody U) : growing (Act x b) -> growing (Act y b).
  Proof. intros G. inversion G; subst. apply g_act. assumption. Qed.
  Lemma act_mail s a t n x b k : rel s a -> threads s t = InNode n (Act x b) k -> mail (Act x b) (nodes s n) = letters (nodes s n).
  Proof.
    intros R T. destruct (r_thr _ _ R t) as (H & ND & Ho & F). unfold tfits in F. rewrite T in F. destruct F as (H' & EH & Hn & (G & _) & F).
    inversion G; subst. cbn [mail]. apply mute_mail. assumption.
  Qed.
  (** What a receiver has to give is something the node has put there. *)
  Lemma mail_given s a n : rel s a -> exists l, letters (a_nodes a n) = letters (nodes s n) ++ l.
  Proof.
    intros R. destruct (owner s (LNode n)) as [t|] eqn:Ow.
    - destruct (r_thr _ _ R t) as (H & ND & Ho & F). unfold tfits in F. destruct (threads s t) as [q|n' b k|c b k|] eqn:T.
      + destruct F as [Hn _]. exfalso. rewrite Forall_forall in Hn. apply (Hn (LNode n)); [apply Ho, Ow|exact Logic.I].
      + destruct F as (H' & EH & Hn & (G & M) & _). destruct (Nat.eq_dec n' n) as [->|Ne].
        * rewrite <- M. apply growing_mail, G.
        * exfalso. apply Ho in Ow. rewrite EH in Ow. destruct Ow as [Ow|Ow]; [congruence|]. rewrite Forall_forall in Hn. apply (Hn _ Ow). exact Logic.I.
      + exists []. rewrite app_nil_r. symmetry. apply (r_mail _ _ R). intros t' b' k' T'. pose proof (inside_node _ _ _ _ _ _ R T'). congruence.
      + exists []. rewrite app_nil_r. symmetry. apply (r_mail _ _ R). intros t' b' k' T'. pose proof (inside_node _ _ _ _ _ _ R T'). congruence.
    - exists []. rewrite app_nil_r. symmetry. apply (r_mail _ _ R). eapply free_node; eauto.
  Qed.

  (** A thread which is about to do something with other threads. *)
  Lemma act_fits s a t n x b k : rel s a -> threads s t = InNode n (Act x b) k ->
    exists H c v f, (forall l, owner s l = Some t <-> In l H) /\ a_status a t = Answered c v (x :: trail b (nodes s n)) /\
      effect_of c = AtNode n f /\ incl H (locks_of c) /\ incl (locks_of c) H.
  Proof.
    intros R T. destruct (r_thr _ _ R t) as (H & ND & Ho & F). unfold tfits in F. rewrite T in F. destruct F as (H' & EH & Hn & _ & F).
    exists H. cbn [trail] in F. destruct (exec (Act x b) (nodes s n)) as [[d w]|]; [|destruct F as [_ F]; discriminate].
    destruct F as (_ & _ & _ & F4 & F5). destruct (a_status a t) as [|c|c v r| | | | |]; try discriminate F4. cbn in F4. subst r.
    destruct F5 as ((f & Ef) & I1 & I2). exists c, v, f. auto.
  Qed.
  Lemma dead_gone s a t : rel s a -> threads s t = Dead -> a_status a t = Gone.
  Proof. intros R T. destruct (r_thr _ _ R t) as (H & ND & Ho & F). unfold tfits in F. rewrite T in F. apply F. Qed.

  (** *** What the threads keep to among themselves *)
  Record sane s : Prop := {
    s_fresh : forall t, (next (life s) <= t)%nat -> threads s t = Out Halt;
    s_own : forall x t, owner s (ModelLocks.Notif x) = Some t -> x = t;
    s_dead : forall x, poisoned s (ModelLocks.Notif x) = true -> threads s x = Dead }.

  Lemma sane_begins ns cs xs : sane (begins ns cs xs).
  Proof.
    constructor; cbn; try discriminate. intros t Le. rewrite nth_overflow by exact Le. reflexivity.
  Qed.
  Lemma sane_goes s t x : sane s -> threads s t <> Dead -> threads s t <> Out Halt -> sane (goes s t x).
  Proof.
    intros [F Ow D] N1 N2. constructor; cbn.
    - intros t' Le. rewrite upd_other; [apply F, Le|]. intros ->. apply N2, F, Le.
    - exact Ow.
    - intros y Py. rewrite upd_other; [apply D, Py|]. intros ->. apply N1, D, Py.
  Qed.
  Lemma sane_takes s l t : sane s -> (forall x, l = ModelLocks.Notif x -> x = t) -> sane (takes s l t).
  Proof.
    intros [F Ow D] N. constructor; cbn; auto. intros x t'. unfold set_owner.
    destruct (ModelLocks.lock_eq_dec (ModelLocks.Notif x) l) as [E|]; [|apply Ow]. intros [= <-]. apply N. auto.
  Qed.
  Lemma sane_frees s l : sane s -> sane (frees s l).
  Proof.
    intros [F Ow D]. constructor; cbn; auto. intros x t'. unfold set_owner.
    destruct (ModelLocks.lock_eq_dec (ModelLocks.Notif x) l) as [E|]; [discriminate|apply Ow].
  Qed.
  Lemma sane_dies s t : sane s -> threads s t <> Out Halt -> sane (dies s t).
  Proof.
    intros [F Ow D] N. constructor; cbn.
    - intros t' Le. rewrite upd_other; [apply F, Le|]. intros ->. apply N, F, Le.
    - intros x t'. destruct (mine s t _); [discriminate|apply Ow].
    - intros x X. apply orb_prop in X. destruct (Nat.eq_dec x t) as [->|Ne]; [apply upd_same|]. rewrite upd_other by exact Ne.
      destruct X as [X|X]; [apply D, X|]. unfold mine in X. destruct (owner s (ModelLocks.Notif x)) as [t'|] eqn:E; [|discriminate].
      apply Nat.eqb_eq in X. subst t'. apply Ow in E. contradiction.
  Qed.
  Lemma sane_same s s' : sane s -> (forall t, threads s' t = threads s t) -> owner s' = owner s -> poisoned s' = poisoned s -> next (life s') = next (life s) -> sane s'.
  Proof.
    intros [F Ow D] E1 E2 E3 E4. constructor; rewrite ?E2, ?E3, ?E4; auto.
    - intros t Le. rewrite E1. auto.
    - intros x X. rewrite E1. auto.
  Qed.
  Lemma lock_fits s a t l p : rel s a -> threads s t = Out (Lock l p) -> forall x, l <> ModelLocks.Notif x.
  Proof.
    intros R T x ->. destruct (out_fits _ _ _ _ R T) as (H & ND & Ho & Hn & F).
    inversion F as [| | |H' c l' p' N1 N2 In1 F' E1 E2 E3| | | | | | | | | | | | | |]; subst.
    assert (X : data_lock (ModelLocks.Notif x)) by (eapply locks_data, In1; left; reflexivity). exact X.
  Qed.
  Lemma sane_step s a s' : rel s a -> sane s -> step db what net s s' -> sane s'.
  Proof.
    intros R Sa S.
    assert (G : forall t x y, threads s t = y -> y <> Dead -> y <> Out Halt -> sane (goes s t x)) by (intros t x y <-; apply sane_goes, Sa).
    assert (K : forall t y, threads s t = y -> y <> Out Halt -> sane (dies s t)) by (intros t y <-; apply sane_dies, Sa).
    inversion S; subst s';
      try (eapply G; [eassumption|discriminate|discriminate]);
      try (eapply K; [eassumption|discriminate]);
      try (match goal with T : threads s ?t = ?y |- sane (logs (goes s ?t ?x) _) =>
        apply (sane_same (goes s t x)); [apply (G t x y T); discriminate|reflexivity ..] end);
      try (match goal with T : threads s ?t = ?y |- sane (goes (frees s ?l) ?t _) =>
        apply sane_goes; [apply sane_frees, Sa|cbn; congruence|cbn; congruence] end);
      try (match goal with T : threads s ?t = ?y |- sane (goes (with_node s _ _) ?t _) =>
        apply sane_goes; [eapply sane_same; [exact Sa|reflexivity ..]|cbn; congruence|cbn; congruence] end);
      try (match goal with T : threads s ?t = ?y |- sane (goes (with_read s _ _) ?t _) =>
        apply sane_goes; [eapply sane_same; [exact Sa|reflexivity ..]|cbn; congruence|cbn; congruence] end);
      try (match goal with T : threads s ?t = ?y |- sane (goes (with_ctrl s _ _) ?t _) =>
        apply sane_goes; [eapply sane_same; [exact Sa|reflexivity ..]|cbn; congruence|cbn; congruence] end);
      try (match goal with T : threads s ?t = Out (Lock ?l ?p) |- _ =>
      apply sane_goes; [apply sane_takes; [exact Sa|intros x E; destruct (lock_fits _ _ _ _ _ R T x E)]|cbn; congruence|cbn; congruence] end);
      try (match goal with T : threads s ?t = _ |- sane (goes (takes s _ ?t) ?t _) =>
      apply sane_goes; [apply sane_takes; [exact Sa|intros x E; congruence]|cbn; congruence|cbn; congruence] end);
      try (match goal with T : threads s ?t = _ |- sane (goes (with_life s (register _ _ _)) ?t _) =>
      apply sane_goes; [eapply sane_same; [exact Sa|reflexivity ..]|cbn; congruence|cbn; congruence] end);
      try (match goal with T : threads s ?t = _ |- sane (goes (with_life s (set_srvs _ _ _ _)) ?t _) =>
      apply sane_goes; [eapply sane_same; [exact Sa|reflexivity ..]|cbn; congruence|cbn; congruence] end);
      try (eapply sane_same; [exact Sa|reflexivity ..]).
    (* spawn *)
    match goal with T : threads s ?t = InNode _ _ _ |- _ => rename T into Ht; rename t into tt end.
    destruct Sa as [F Ow D].
    assert (Nt : tt <> next (life s)) by (intros E; rewrite (F tt) in Ht; [discriminate|lia]).
    constructor; cbn.
    - intros t' Le. unfold upd. destruct (Nat.eqb_spec t' tt) as [->|]; [rewrite (F tt) in Ht; [discriminate|lia]|].
      destruct (Nat.eqb_spec t' (next (life s))); [lia|]. apply F. lia.
    - exact Ow.
    - intros y Py. apply D in Py. unfold upd. destruct (Nat.eqb_spec y tt) as [->|]; [congruence|].
      destruct (Nat.eqb_spec y (next (life s))) as [->|]; [rewrite F in Py; [discriminate|lia]|]. exact Py.
  Qed.

  Theorem simulate s a s' : rel s a -> sane s -> step db what net s s' -> exists a', (a' = a \/ astep db what net a a') /\ rel s' a'.
  Proof.
    intros R Sa Hs. inversion Hs as [t c p T|t c v p T|t l p T Ow Po|t l p T Ow Po|t l p T Ow|t l y q T Ow Po|t l y q T Ex
      |t n b k T Ow Po|t n b k T Ow Po|t c b k T Ow Po|t c b k T Ow Po|t n b p T Ow Po|t n b p T Ex|t c b p T Ow Po|t c b p T Ex
      |t n f k d b T E|t n f k T E|t n v k T|t c f k d b T E|t c f k T E|t c v k T|t n ch k m T X|t n ch k T
      |t n k' b k T|t n k' j o b k t' T Nt Ow Po|t n k' j o b k t' T Nt Ow Po|t n k' j o b k T Nt
      |t n k' j b k t' T Nt Fl|t n k' j b k t' T Nt Fl T'|t n k' j b k t' T Nt Fl T'|t n k' j b k T Nt
      |t T Fl|t T Fl|t T|t T Ne|t data from m T Ne Oc Pa|t data T Ne Oc Pa|t m T Ow Po|t m T Ow Po]; subst s'.
    - (* enter *)
      destruct (out_fits _ _ _ _ R T) as (H & ND & Ho & Hn & F). inversion F as [|c' p' F' E1 E2 E3| | | | | | | | | | | | | | | |]; subst.
      exists (a_seen (a_set a t (Pending c)) (ECall t c)). split; [right; constructor; congruence|].
      eapply (rel_moves _ _ _ _ _ (Pending c) [ECall t c] R T). intros H X. rewrite <- E2 in X. inversion X; subst; assumption.
    - (* leave *)
      destruct (out_fits _ _ _ _ R T) as (H & ND & Ho & Hn & F). inversion F as [| |c' v' p' F' E1 E2 E3| | | | | | | | | | | | | | |]; subst.
      exists (a_seen (a_set a t Idle) (EReturn t c v)). split; [right; constructor; congruence|].
      eapply (rel_moves _ _ _ _ _ Idle [EReturn t c v] R T). intros H X. rewrite <- E2 in X. inversion X; subst; assumption.
    - (* lock *)
      exists a. split; [left; reflexivity|].
      destruct (out_fits _ _ _ _ R T) as (H & ND & Ho & Hn & F).
      assert (X : ~ In l H /\ ~ is_node l /\ fits (l :: H) (a_status a t) p).
      { inversion F as [| | |H' c l' p' N1 N2 In1 F' E1 E2 E3| | | | |H' m r w p' Nd Nr F' E1 E2 E3| | | | | | | | |]; subst.
        - auto.
        - split; [|split; [intros []|exact F']]. intros X. rewrite Forall_forall in Nr. apply Nr in X. lia. }
      destruct X as (Nl & Nn & F').
      eapply (rel_outside _ _ _ _ t p R); try reflexivity.
      + eauto.
      + apply upd_same.
      + intros t' Ne. split; [apply (upd_other _ _ _ _ Ne)|reflexivity].
      + apply (r_hist _ _ R).
      + apply (r_reads _ _ R).
      + intros l' t' Ne. cbn. unfold set_owner. destruct (ModelLocks.lock_eq_dec l' l) as [->|]; [|reflexivity].
        rewrite Ow. split; [intros [= Y]; congruence|discriminate].
      + exists (l :: H). split; [constructor; assumption|]. split; [|split; [constructor; assumption|exact F']].
        intros l'. cbn. unfold set_owner. destruct (ModelLocks.lock_eq_dec l' l) as [->|Nl']; [tauto|].
        rewrite Ho. split; [tauto|intros [Y|Y]; [congruence|exact Y]].
      + intros l'. cbn. unfold set_owner. destruct (ModelLocks.lock_eq_dec l' l) as [->|Nl']; [intros _; exact Po|].
        apply (r_clean _ _ R).
    - (* lock, poisoned *)
      destruct (out_fits _ _ _ _ R T) as (H & ND & Ho & Hn & F).
      inversion F as [| | |H' c l' p' N1 N2 In1 F' E1 E2 E3| | | | |H' m r w p' Nd Nr F' E1 E2 E3| | | | | | | | |]; subst.
      + exists (a_poison (a_set a t Gone) H). split.
        * right. eapply a_call_panics; [eauto|intros x X; apply In1; right; exact X|].
          right. right. exists l. split; [apply In1; left; reflexivity|].
          apply (r_bad1 _ _ R); [eapply locks_data, In1; left; reflexivity|exact Po].
        * eapply (rel_dies _ _ _ _ H R Ho); try reflexivity.
          -- intros n1 b1 k1 T1; congruence.
          -- intros t' Ne. apply put_other, Ne.
          -- apply put_eq.
          -- intros x _. apply poison_bad.
      + destruct (r_gone _ _ R _ Po) as (t' & G).
        exists (a_set a t Gone). split; [right; eapply a_after_panic; eauto|].
        eapply (rel_dies _ _ _ _ H R Ho); try reflexivity.
        * intros n1 b1 k1 T1; congruence.
        * intros t2 Ne. apply put_other, Ne.
        * apply put_eq.
        * intros x Dx. cbn. split; [auto|]. intros [X|X]; [exact X|]. exfalso.
          rewrite Forall_forall in Nd. eapply Nd; eauto.
    - (* unlock *)
      destruct (out_fits _ _ _ _ R T) as (H & ND & Ho & Hn & F).
      assert (Rl : forall a' H', H = l :: H' -> a_history a' = a_history a -> a_nodes a' = a_nodes a -> a_ctrls a' = a_ctrls a -> a_bad a' = a_bad a -> a_life a' = a_life a -> a_reads a' = a_reads a ->
        (forall t', t' <> t -> a_status a' t' = a_status a t') -> fits H' (a_status a' t) p ->
        rel (goes (frees s l) t (Out p)) a').
      { intros a' H' -> Eh En Ec Eb El Er Es F'. inversion ND as [|x y Nin ND']; subst x y. inversion Hn as [|x y Hn1 Hn2]; subst x y.
        eapply (rel_outside _ _ _ _ t p R); try reflexivity; try assumption.
        - eauto.
        - apply upd_same.
        - intros t' Ne. split; [apply (upd_other _ _ _ _ Ne)|apply Es, Ne].
        - rewrite Eh. apply (r_hist _ _ R).
        - rewrite Er. apply (r_reads _ _ R).
        - intros l' t' Ne. cbn. unfold set_owner. destruct (ModelLocks.lock_eq_dec l' l) as [->|]; [|reflexivity].
          rewrite Ow. split; [discriminate|intros [= Y]; congruence].
        - exists H'. split; [exact ND'|]. split; [|split; [exact Hn2|exact F']].
          intros l'. cbn. unfold set_owner. destruct (ModelLocks.lock_eq_dec l' l) as [->|Nl'].
          + split; [discriminate|contradiction].
          + rewrite Ho. split; [intros [Y|Y]; [congruence|exact Y]|right; assumption].
        - intros l'. cbn. unfold set_owner. destruct (ModelLocks.lock_eq_dec l' l) as [->|Nl']; [discriminate|].
          apply (r_clean _ _ R). }
      inversion F as [| | | |H' c v l' p' F' E1 E2 E3| | | | |H' m r l' p' F' E1 E2 E3|m l' E1 E2 E3| | | | | | |]; subst.
      + exists a. split; [left; reflexivity|]. eapply Rl; auto. rewrite <- E2. exact F'.
      + exists a. split; [left; reflexivity|]. eapply Rl; auto. rewrite <- E2. exact F'.
      + exists (a_set a t Listening). split; [right; eapply a_ready; eauto|]. eapply Rl; auto.
        * intros t' Ne. apply put_other, Ne.
        * cbn. rewrite put_eq. constructor.
    - (* attempt *)
      exists a. split; [left; reflexivity|]. eapply (rel_quiet _ _ _ _ _ R T). intros H F. inversion F; subst; congruence.
    - (* attempt fails *)
      destruct (out_fits _ _ _ _ R T) as (H & ND & Ho & Hn & F).
      inversion F as [| | | | |c l' y' q' v Rf In1 F1 F2 E1 E2 E3| | | | | | | | | | | |]; subst.
      exists (a_set a t (Answered c v [])). split.
      + right. eapply a_refused; [eauto|exact Rf|].
        destruct (excuse _ _ l t R) as [X|X]; [eapply locks_data, In1| |exact Ex|left; exact X|right; exists l; auto].
        intros t' Y ->. apply Ho in Y. destruct Y.
      + eapply (rel_silent _ _ _ _ _ _ R T). intros H X. rewrite <- E2 in X. inversion X; subst. congruence.
    - (* a call enters a node *)
      destruct (out_fits _ _ _ _ R T) as (H & ND & Ho & Hn & F).
      inversion F as [| | | | | |H' c n' f b' k' Ef Eb Mu Et In1 In2 F' E1 E2 E3| | | | | | | | | | |]; subst.
      assert (En : a_nodes a n = nodes s n) by (apply (r_nodes _ _ R); [eapply free_node; eauto|exact Po]).
      destruct (exec b (nodes s n)) as [[d v]|] eqn:X.
      + exists (a_node (a_set a t (Answered c v (acts_of c (a_nodes a n)))) n d). split.
        * right. eapply a_at_node; [eauto|exact Ef| |rewrite En, <- Eb; exact X].
          intros l Il. destruct (In2 l Il) as [<-|Y]; [eapply free_bad; eauto; exact Logic.I|].
          eapply clean_bad; [exact R|eapply locks_data, Il|exact T|apply Ho, Y].
        * eapply (rel_enter_node _ _ _ _ _ _ _ _ _ _ _ R T ND Ho Hn Ow Po X); try reflexivity; cbn.
          -- intros t' Ne. apply put_other, Ne.
          -- apply mute_growing, Mu.
          -- eapply (calm_effect c n f (nodes s n)); [exact Ef|rewrite <- En; apply (r_calm _ _ R)|rewrite <- Eb; exact X].
          -- rewrite put_eq. exact Logic.I.
          -- rewrite put_eq. apply F'.
          -- rewrite put_eq. cbn. rewrite En. symmetry. apply Et. rewrite <- En. apply (r_calm _ _ R).
          -- rewrite put_eq. cbn. split; [exists f; exact Ef|]. auto.
      + exists (a_poison (a_set a t Gone) (LNode n :: H)). split.
        * right. eapply a_call_panics; [eauto|exact In1|]. left. exists n, f. split; [exact Ef|]. rewrite En, <- Eb. exact X.
        * eapply (rel_doomed_node _ _ _ _ _ _ _ _ _ _ R T ND Ho Hn Ow Po X); [|apply mute_growing, Mu|apply mute_mail, Mu|apply incl_refl|auto|reflexivity].
          apply Et; [rewrite <- En; apply (r_calm _ _ R)|exact X].
    - (* a call meets a poisoned node *)
      destruct (out_fits _ _ _ _ R T) as (H & ND & Ho & Hn & F).
      inversion F as [| | | | | |H' c n' f b' k' Ef Eb Mu Et In1 In2 F' E1 E2 E3| | | | | | | | | | |]; subst.
      exists (a_poison (a_set a t Gone) H). split.
      + right. eapply a_call_panics; [eauto|intros x X; apply In1; right; exact X|].
        right. right. exists (LNode n). split; [apply In1; left; reflexivity|]. apply (r_bad1 _ _ R); [exact Logic.I|exact Po].
      + eapply (rel_dies _ _ _ _ H R Ho); try reflexivity.
        * intros n1 b1 k1 T1; congruence.
        * intros t' Ne. apply put_other, Ne.
        * apply put_eq.
        * intros x _. apply poison_bad.
    - (* a call enters a controller *)
      destruct (out_fits _ _ _ _ R T) as (H & ND & Ho & Hn & F).
      inversion F as [| | | | | | |H' c' n' f b' k' Ef Eb Nin In1 In2 F' E1 E2 E3| | | | | | | | | |]; subst.
      assert (En : a_ctrls a c = ctrls s c) by (apply (r_ctrls _ _ R); [eapply free_ctrl; eauto|exact Po]).
      destruct (exec b (ctrls s c)) as [[d v]|] eqn:X.
      + exists (a_ctrl (a_set a t (Answered c' v [])) c d). split.
        * right. eapply a_at_ctrl; [eauto|exact Ef| |rewrite En, <- Eb; exact X].
          intros l Il. destruct (In2 l Il) as [<-|Y]; [eapply free_bad; eauto; exact Logic.I|].
          eapply clean_bad; [exact R|eapply locks_data, Il|exact T|apply Ho, Y].
        * eapply (rel_enter_ctrl _ _ _ _ _ _ _ _ _ _ _ R T ND Ho Hn Ow Po X); try reflexivity; cbn.
          -- intros t' Ne. apply put_other, Ne.
          -- rewrite put_eq. exact Logic.I.
          -- rewrite put_eq. apply F'.
      + exists (a_poison (a_set a t Gone) (Dev c :: H)). split.
        * right. eapply a_call_panics; [eauto|exact In1|]. right. left. exists c, f. split; [exact Ef|]. rewrite En, <- Eb. exact X.
        * eapply (rel_doomed_ctrl _ _ _ _ _ _ _ _ _ _ R T ND Ho Hn Ow Po X); [apply incl_refl| |reflexivity]. auto.
    - (* a call meets a poisoned controller *)
      destruct (out_fits _ _ _ _ R T) as (H & ND & Ho & Hn & F).
      inversion F as [| | | | | | |H' c' n' f b' k' Ef Eb Nin In1 In2 F' E1 E2 E3| | | | | | | | | |]; subst.
      exists (a_poison (a_set a t Gone) H). split.
      + right. eapply a_call_panics; [eauto|intros x X; apply In1; right; exact X|].
        right. right. exists (Dev c). split; [apply In1; left; reflexivity|]. apply (r_bad1 _ _ R); [exact Logic.I|exact Po].
      + eapply (rel_dies _ _ _ _ H R Ho); try reflexivity.
        * intros n1 b1 k1 T1; congruence.
        * intros t' Ne. apply put_other, Ne.
        * apply put_eq.
        * intros x _. apply poison_bad.
    - (* the observer of a node *)
      destruct (out_fits _ _ _ _ R T) as (H & ND & Ho & Hn & F).
      inversion F as [| | | | | | | | | | |H' m r n' b' p' Eb Pl Gr Mp Nd F' E1 E2 E3| | | | | |]; subst.
      assert (En : a_nodes a n = nodes s n) by (apply (r_nodes _ _ R); [eapply free_node; eauto|exact Po]).
      destruct (observed m (nodes s n)) as [d|] eqn:X.
      + exists (a_node (a_set a t (Busy m r)) n d). split.
        * right. eapply a_react_node; [eauto|eapply free_bad; eauto; exact Logic.I|rewrite En; exact X].
        * eapply (rel_enter_node _ _ _ _ _ _ _ _ _ d VUnit R T ND Ho Hn Ow Po); try reflexivity; cbn.
          -- rewrite Eb, X. reflexivity.
          -- intros t' Ne. apply put_other, Ne.
          -- exact Gr.
          -- eapply calm_observed; [exact X|]. rewrite <- En. apply (r_calm _ _ R).
          -- rewrite put_eq. exact Logic.I.
          -- rewrite put_eq. exact F'.
          -- rewrite put_eq, (plain_trail _ Pl). reflexivity.
          -- rewrite put_eq. exact Logic.I.
      + exists (a_poison (a_set a t Gone) [LNode n]). split.
        * right. eapply a_node_panics; [eauto|rewrite En; exact X].
        * eapply (rel_doomed_node _ _ _ _ _ _ _ _ _ [LNode n] R T ND Ho Hn Ow Po); try reflexivity.
          -- rewrite Eb, X. reflexivity.
          -- apply (plain_trail _ Pl).
          -- exact Gr.
          -- apply Mp. rewrite Eb, X. reflexivity.
          -- intros x [<-|[]]; left; reflexivity.
          -- intros x Dx [<-|Ix]; [left; reflexivity|]. rewrite Forall_forall in Nd. exfalso. eapply Nd; eauto.
    - (* ... finds it taken *)
      destruct (out_fits _ _ _ _ R T) as (H & ND & Ho & Hn & F).
      inversion F as [| | | | | | | | | | |H' m r n' b' p' Eb Pl Gr Mp Nd F' E1 E2 E3| | | | | |]; subst.
      exists (a_set a t (Busy m r)). split.
      + right. eapply a_missed_node; [eauto|]. eapply excuse; [exact R|exact Logic.I| |exact Ex].
        intros t' Y ->. apply Ho in Y. rewrite Forall_forall in Nd. apply (Nd _ Y). exact Logic.I.
      + eapply (rel_silent _ _ _ _ _ _ R T). intros H' X. rewrite <- E2 in X. inversion X; subst. assumption.
    - (* the observer of a controller *)
      destruct (out_fits _ _ _ _ R T) as (H & ND & Ho & Hn & F).
      inversion F as [| | | | | | | | | | | |H' m r n' b' p' Eb Nd F' E1 E2 E3 | | | | |]; subst.
      assert (En : a_ctrls a c = ctrls s c) by (apply (r_ctrls _ _ R); [eapply free_ctrl; eauto|exact Po]).
      destruct (controller_observe db (snd (ctrls s c)) (fst (ctrls s c)) m) as [[d w]|] eqn:X.
      + exists (a_ctrl (a_set a t (Busy m r)) c (d, w)). split.
        * right. eapply a_react_ctrl; [eauto|eapply free_bad; eauto; exact Logic.I|rewrite En; exact X].
        * eapply (rel_enter_ctrl _ _ _ _ _ _ _ _ _ (d, w) VUnit R T ND Ho Hn Ow Po); try reflexivity; cbn.
          -- rewrite Eb, X. reflexivity.
          -- intros t' Ne. apply put_other, Ne.
          -- rewrite put_eq. exact Logic.I.
          -- rewrite put_eq. exact F'.
      + exists (a_poison (a_set a t Gone) [Dev c]). split.
        * right. eapply a_ctrl_panics; [eauto|rewrite En; exact X].
        * eapply (rel_doomed_ctrl _ _ _ _ _ _ _ _ _ [Dev c] R T ND Ho Hn Ow Po); try reflexivity.
          -- rewrite Eb, X. reflexivity.
          -- intros x [<-|[]]; left; reflexivity.
          -- intros x Dx [<-|Ix]; [left; reflexivity|]. rewrite Forall_forall in Nd. exfalso. eapply Nd; eauto.
    - (* ... finds it taken *)
      destruct (out_fits _ _ _ _ R T) as (H & ND & Ho & Hn & F).
      inversion F as [| | | | | | | | | | | |H' m r n' b' p' Eb Nd F' E1 E2 E3 | | | | |]; subst.
      exists (a_set a t (Busy m r)). split.
      + right. eapply a_missed_ctrl; [eauto|]. eapply excuse; [exact R|exact Logic.I| |exact Ex].
        intros t' Y ->. apply Ho in Y. rewrite Forall_forall in Nd. apply (Nd _ Y). exact Logic.I.
      + eapply (rel_silent _ _ _ _ _ _ R T). intros H' X. rewrite <- E2 in X. inversion X; subst. assumption.
    - exists a. split; [left; reflexivity|]. eapply rel_stmt_node; eauto.
    - (* a panic in a node *)
      exists a. split; [left; reflexivity|].
      assert (D : doomed s t) by (left; exists n, (Stmt f), k; split; [exact T|cbn; rewrite E; reflexivity]).
      destruct (r_thr _ _ R t) as (H & ND & Ho & F).
      eapply (rel_dies _ _ _ _ H R Ho); try reflexivity.
      + intros n1 b1 k1 T1. rewrite T in T1. inversion T1; subst n1 b1 k1. cbn [mail]. rewrite E. reflexivity.
      + unfold tfits in F. rewrite T in F. destruct F as (H' & _ & _ & _ & F). cbn in F. rewrite E in F. apply F.
      + intros x Dx. split; [auto|]. intros [X|X]; [exact X|]. eapply (r_bad3 _ _ R); eauto. apply Ho, X.
    - exists a. split; [left; reflexivity|]. apply rel_done_node; assumption.
    - exists a. split; [left; reflexivity|]. eapply rel_stmt_ctrl; eauto.
    - (* a panic in a controller *)
      exists a. split; [left; reflexivity|].
      assert (D : doomed s t) by (right; exists c, (Stmt f), k; split; [exact T|cbn; rewrite E; reflexivity]).
      destruct (r_thr _ _ R t) as (H & ND & Ho & F).
      eapply (rel_dies _ _ _ _ H R Ho); try reflexivity.
      + intros n1 b1 k1 T1; congruence.
      + unfold tfits in F. rewrite T in F. destruct F as (H' & _ & _ & F). cbn in F. rewrite E in F. exact F.
      + intros x Dx. split; [auto|]. intros [X|X]; [exact X|]. eapply (r_bad3 _ _ R); eauto. apply Ho, X.
    - exists a. split; [left; reflexivity|]. apply rel_done_ctrl; assumption.
    - (* a receiver gives a message *)
      destruct (out_fits _ _ _ _ R T) as (H & ND & Ho & Hn & F).
      inversion F as [| | | | | | | | | | | | | | | | |n' ch' k' F' E1 E2 E3]; subst.
      exists (a_read (a_set a t (Answered (CWait n ch) (VGot (Some m)) [])) n ch). split.
      + right. apply a_got; [congruence|]. rewrite (r_reads _ _ R). destruct (mail_given _ _ n R) as (l & El).
        eapply given_more; [exact El|]. rewrite <- messages_given. exact X.
      + eapply (rel_outside _ _ _ _ t _ R); try reflexivity.
        * eauto.
        * apply upd_same.
        * intros t' Ne. split; [apply (upd_other _ _ _ _ Ne)|apply put_other, Ne].
        * apply (r_hist _ _ R).
        * cbn. rewrite (r_reads _ _ R). reflexivity.
        * exists []. split; [constructor|]. split; [exact Ho|]. split; [constructor|]. cbn. rewrite put_eq. apply F'.
        * intros l' Ow. apply (r_clean _ _ R l' t Ow).
    - (* ... or nothing *)
      destruct (out_fits _ _ _ _ R T) as (H & ND & Ho & Hn & F).
      inversion F as [| | | | | | | | | | | | | | | | |n' ch' k' F' E1 E2 E3]; subst.
      exists (a_set a t (Answered (CWait n ch) (VGot None) [])). split; [right; apply a_waited; congruence|].
      eapply (rel_silent _ _ _ _ _ _ R T). intros H X. rewrite <- E2 in X. inversion X; subst. auto.
    - (* start spawns a thread *)
      destruct (act_fits _ _ _ _ _ _ _ R T) as (H & c & v & f & Ho & St & Ef & _).
      assert (Z : threads s (next (life s)) = Out Halt) by (apply (s_fresh _ Sa); lia).
      assert (Nz : t <> next (life s)) by congruence.
      assert (Az : a_status a (next (life s)) = Idle).
      { destruct (out_fits _ _ _ _ R Z) as (H' & _ & _ & _ & F). inversion F; subst; reflexivity. }
      exists (a_lives (a_set (a_set a (next (a_life a)) Listening) t (Answered c v (trail b (nodes s n)))) (spawn (a_life a) n k')).
      split; [right; eapply a_spawn; [exact St|exact Ef]|]. rewrite (r_life _ _ R).
      assert (R1 : rel (goes s (next (life s)) (Out Again)) (a_set a (next (life s)) Listening)).
      { eapply (rel_silent _ _ _ _ _ _ R Z). intros H' F. inversion F; subst. constructor. }
      eapply (rel_act _ _ t n _ _ b k c v (spawn (life s) n k') R1).
      + cbn. rewrite upd_other by exact Nz. exact T.
      + cbn. rewrite put_other by exact Nz. exact St.
      + reflexivity.
      + reflexivity.
      + intros Gr. inversion Gr; subst. apply mute_growing. assumption.
    - (* start registers an observer *)
      destruct (act_fits _ _ _ _ _ _ _ R T) as (H & c & v & f & Ho & St & Ef & _).
      exists (a_lives (a_set a t (Answered c v (Register k' (S j) o :: trail b (nodes s n)))) (register (a_life a) t' o)).
      split; [right; eapply a_register; [exact St|exact Ef|rewrite (r_life _ _ R); exact Nt]|]. rewrite (r_life _ _ R).
      exact (rel_act _ _ t n _ b (Act (Register k' (S j) o) b) k c v (register (life s) t' o) R T St (fun _ => eq_refl) (fun _ => eq_refl) (act_act _ _ _)).
    - (* ... of a thread that has panicked *)
      destruct (act_fits _ _ _ _ _ _ _ R T) as (H & c & v & f & Ho & St & Ef & I1 & I2).
      exists (a_poison (a_set a t Gone) (locks_of c)). split.
      + right. eapply a_register_panics; [exact St|exact Ef|rewrite (r_life _ _ R); exact Nt|].
        apply (dead_gone _ _ _ R). apply (s_dead _ Sa), Po.
      + eapply (rel_dies _ _ _ _ H R Ho); try reflexivity.
        * intros n1 b1 k1 T1. rewrite T in T1. inversion T1; subst n1 b1 k1. apply (act_mail _ _ _ _ _ _ _ R T).
        * intros t2 Ne. apply put_other, Ne.
        * apply put_eq.
        * intros x _. rewrite poison_bad. split; (intros [X|X]; [left; exact X|right; auto]).
    - (* ... has registered it with all servers *)
      destruct (act_fits _ _ _ _ _ _ _ R T) as (H & c & v & f & Ho & St & Ef & _).
      exists (a_set a t (Answered c v (trail b (nodes s n)))).
      split; [right; eapply a_registered; [exact St|exact Ef|rewrite (r_life _ _ R); exact Nt]|].
      pose proof (rel_act _ _ t n _ b b k c v (life s) R T St (fun _ => eq_refl) (fun _ => eq_refl) (act_growing _ _)) as X.
      rewrite <- (r_life _ _ R) in X at 2. destruct s, a; exact X.
    - exists a. split; [left; reflexivity|]. apply rel_flag, R.
    - (* stop joins a thread *)
      destruct (act_fits _ _ _ _ _ _ _ R T) as (H & c & v & f & Ho & St & Ef & _).
      exists (a_set a t (Answered c v (Stop k' (S j) :: trail b (nodes s n)))).
      split.
      + right; eapply a_join; [exact St|exact Ef|rewrite (r_life _ _ R); exact Nt|].
        destruct (out_fits _ _ _ _ R T') as (H' & _ & _ & _ & F). inversion F; subst; reflexivity.
      + pose proof (rel_act _ _ t n _ b (Act (Stop k' (S j)) b) k c v (life s) R T St (fun _ => eq_refl) (fun _ => eq_refl) (act_act _ _ _)) as X.
        rewrite <- (r_life _ _ R) in X at 2. destruct s, a; exact X.
    - (* ... that has panicked *)
      destruct (act_fits _ _ _ _ _ _ _ R T) as (H & c & v & f & Ho & St & Ef & I1 & I2).
      exists (a_poison (a_set a t Gone) (locks_of c)). split.
      + right. eapply a_join_panics; [exact St|exact Ef|rewrite (r_life _ _ R); exact Nt|].
        apply (dead_gone _ _ _ R T').
      + eapply (rel_dies _ _ _ _ H R Ho); try reflexivity.
        * intros n1 b1 k1 T1. rewrite T in T1. inversion T1; subst n1 b1 k1. apply (act_mail _ _ _ _ _ _ _ R T).
        * intros t2 Ne. apply put_other, Ne.
        * apply put_eq.
        * intros x _. rewrite poison_bad. split; (intros [X|X]; [left; exact X|right; auto]).
    - (* ... has joined all *)
      destruct (act_fits _ _ _ _ _ _ _ R T) as (H & c & v & f & Ho & St & Ef & _).
      exists (a_lives (a_set a t (Answered c v (trail b (nodes s n)))) (set_srvs (a_life a) n k' [])).
      split; [right; eapply a_stopped; [exact St|exact Ef|rewrite (r_life _ _ R); exact Nt]|]. rewrite (r_life _ _ R).
      exact (rel_act _ _ t n _ b b k c v (set_srvs (life s) n k' []) R T St (fun _ => eq_refl) (fun _ => eq_refl) (act_growing _ _)).
    - exists a. split; [left; reflexivity|]. eapply (rel_quiet _ _ _ _ _ R T). intros H F. inversion F; subst; constructor.
    - destruct (out_fits _ _ _ _ R T) as (H & ND & Ho & Hn & F).
      exists (a_set a t Ended). split; [right; apply a_ends; inversion F; subst; reflexivity|].
      eapply (rel_silent _ _ _ _ _ _ R T). intros H' X. inversion X; subst. constructor.
    - exists a. split; [left; reflexivity|]. eapply (rel_quiet _ _ _ _ _ R T). intros H F. inversion F; subst; constructor.
    - destruct (out_fits _ _ _ _ R T) as (H & ND & Ho & Hn & F).
      exists (a_set a t Ended). split; [right; apply a_ends; inversion F; subst; reflexivity|].
      eapply (rel_silent _ _ _ _ _ _ R T). intros H' X. inversion X; subst. constructor.
    - (* a datagram *)
      destruct (out_fits _ _ _ _ R T) as (H & ND & Ho & Hn & F).
      exists (a_seen (a_set a t (Got (msg_set_from m from))) (EGot t (msg_set_from m from))).
      split; [right; eapply a_datagram; eauto; inversion F; subst; reflexivity|].
      eapply (rel_moves _ _ _ _ _ (Got (msg_set_from m from)) [EGot t (msg_set_from m from)] R T). intros H' X. inversion X; subst. constructor.
    - (* a datagram on which the decoder panics *)
      destruct (out_fits _ _ _ _ R T) as (H & ND & Ho & Hn & F).
      assert (E : a_status a t = Listening /\ H = []) by (inversion F; subst; auto). destruct E as [St ->].
      exists (a_set a t Gone). split; [right; eapply a_decoder_panics; eauto|].
      eapply (rel_dies _ _ _ _ [] R Ho); try reflexivity.
      + intros n1 b1 k1 T1; congruence.
      + intros t' Nt. apply put_other, Nt.
      + apply put_eq.
      + intros x _. cbn. tauto.
    - (* the delivery begins *)
      destruct (out_fits _ _ _ _ R T) as (H & ND & Ho & Hn & F).
      assert (E : a_status a t = Got m /\ H = []) by (inversion F; subst; auto). destruct E as [St ->].
      exists (a_set a t (Busy m (reactions (map what (regs (a_life a) t))))). split; [right; apply a_deliver, St|].
      eapply (rel_outside _ _ _ _ t _ R); try reflexivity.
      + eauto.
      + apply upd_same.
      + intros t' Ne. split; [apply (upd_other _ _ _ _ Ne)|apply put_other, Ne].
      + apply (r_hist _ _ R).
      + apply (r_reads _ _ R).
      + intros l' t' Ne. cbn. unfold set_owner. destruct (ModelLocks.lock_eq_dec l' (ModelLocks.Notif t)) as [->|]; [|reflexivity].
        rewrite Ow. split; [intros [= Y]; congruence|discriminate].
      + exists [ModelLocks.Notif t]. split; [constructor; [intros []|constructor]|]. split; [|split; [constructor; [intros []|constructor]|]].
        * intros l'. cbn. unfold set_owner. destruct (ModelLocks.lock_eq_dec l' (ModelLocks.Notif t)) as [->|Nl']; [tauto|].
          rewrite Ho. split; [intros []|intros [Y|[]]; congruence].
        * cbn. rewrite put_eq, (r_life _ _ R). apply deliver_fits.
      + intros l'. cbn. unfold set_owner. destruct (ModelLocks.lock_eq_dec l' (ModelLocks.Notif t)) as [->|Nl']; [intros _; exact Po|].
        apply (r_clean _ _ R).
    - (* nobody else poisons the mutex of its notifier *)
      exfalso. rewrite (s_dead _ Sa t Po) in T. discriminate.
  Qed.

  (** No node has been started. *)
  Definition down (ns : nat -> nstate U) : Prop := forall n, n_mgr (snd (fst (ns n))) = manager_new.

  Lemma rel_begins ns cs xs : down ns -> rel (begins ns cs xs) (a_begins ns cs (length xs)).
  Proof.
    intros D. constructor; cbn; auto; try discriminate.
    - intros t. exists []. split; [constructor|]. split; [intros l; split; [discriminate|intros []]|].
      unfold tfits. cbn. split; [constructor|apply client_fits].
    - intros n. unfold calm. rewrite D. split; constructor.
  Qed.

  Theorem simulates ns cs xs s : down ns -> steps db what net (begins ns cs xs) s ->
    sane s /\ exists a, asteps db what net (a_begins ns cs (length xs)) a /\ rel s a.
  Proof.
    intros D S. remember (begins ns cs xs) as s0 eqn:E. induction S as [s|s s1 s2 S IH St].
    - subst s. split; [apply sane_begins|]. exists (a_begins ns cs (length xs)). split; [constructor|apply rel_begins, D].
    - destruct (IH E) as (Sa & a & A & R). split; [eapply sane_step; eauto|].
      destruct (simulate _ _ _ R Sa St) as (a' & [->|X] & R').
      + exists a. auto.
      + exists a'. split; [econstructor; eauto|exact R'].
  Qed.
End Simulation.
