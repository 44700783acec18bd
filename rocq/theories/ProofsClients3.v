(** The tools from beginning to end. *)
From Verif Require Import Base HMap ModelCodec ModelMessages ModelObject ModelTransport ModelNode ModelController ModelDevice ModelThreads ModelTools ModelClients
  SpecWire SpecNode SpecThreads SpecWait SpecClients PropertiesTools PropertiesDevice ProofsThreads ProofsThreads2 ProofsThreads5 PropertiesThreads ProofsClients ModelClients SpecClients ProofsClients2.

Section S.
  Context {U : Type} {P : Profile} (t c n : nat).
  Implicit Types (h : list (event U)).

  Lemma kinds_app h h' : kinds (h ++ h') -> kinds h /\ kinds h'.
  Proof. intros K. split; intros i x v I; apply (K i x v), in_or_app; auto. Qed.
  Lemma dropped_done h : kinds h -> calls_made t (dropped c n) h Finished -> exists b, h = stopping t c n b.
  Proof.
    intros K M. inversion M as [|? ? v h1 ? M1]; subst. destruct (K t (CStop (Some c) n) v) as (b & ->); [right; left; reflexivity|].
    inversion M1; subst. exists b. reflexivity.
  Qed.
  Lemma stopped_done h : kinds h -> calls_made t (stopped c n) h Finished -> exists b b', h = stopping t c n b ++ stopping t c n b'.
  Proof.
    intros K M. inversion M as [|? ? v h1 ? M1]; subst. destruct (K t (CStop (Some c) n) v) as (b & ->); [right; left; reflexivity|].
    apply dropped_done in M1 as (b' & ->); [|apply kinds_cons in K; apply kinds_cons in K; exact K]. exists b, b'. reflexivity.
  Qed.
  Lemma opening_done k h : kinds h -> calls_made t (searching c n k) h Finished -> exists b b' h', h = opening t c n b b' ++ h' /\ calls_made t k h' Finished.
  Proof.
    intros K M. inversion M as [|? ? v h1 ? M1]; subst. destruct (K t (CStart (Some c) n) v) as (b & ->); [right; left; reflexivity|].
    inversion M1 as [|? ? v h2 ? M2]; subst. destruct (K t (CSearch c n NODE_PROFILE_OBJECT_CODE) v) as (b' & ->); [right; right; right; left; reflexivity|].
    exists b, b', h2. split; [reflexivity|exact M2].
  Qed.
  Lemma nodes_done k h : kinds h -> calls_made t (with_nodes c k) h Finished -> exists l h', h = look t c l ++ h' /\ calls_made t (k l) h' Finished.
  Proof.
    intros K M. inversion M as [|? ? v h1 ? M1]; subst. destruct (K t (CNodes c) v) as (l & ->); [right; left; reflexivity|].
    exists l, h1. split; [reflexivity|exact M1].
  Qed.

  (** uechosearch *)
  Lemma search_done all h : kinds h -> calls_made t (search_body c n all) h Finished ->
    exists b1 b2 l es h1 h2, h = opening t c n b1 b2 ++ look t c l ++ h1 ++ h2 /\ conversation t c n es h1 /\
      ((map told es = map request (flat_map (questions all) l) /\ (exists k acts, search_loop all (got es) 0 0 l = Ret (k, acts) /\ posted acts = map told es) /\
        exists b b', h2 = stopping t c n b ++ stopping t c n b') \/
       (map told es = firstn (length es) (map request (flat_map (questions all) l)) /\ search_loop all (got es) 0 0 l = Panic /\ exists b, h2 = stopping t c n b)).
  Proof.
    intros K M. apply opening_done in M as (b1 & b2 & h0 & -> & M); [|exact K]. apply kinds_app in K as [_ K].
    apply nodes_done in M as (l & h3 & -> & M); [|exact K]. apply kinds_app in K as [_ K].
    pose proof (leads_search (U := U) t c n all l (stopped c n) (stopped c n) [] (leads_nil t c n _)) as Ld. rewrite app_nil_r in Ld.
    destruct (Ld _ _ K M) as (es & A). apply asked_runs in A as (h1 & h2 & -> & C & X). apply kinds_app in K as [_ K].
    exists b1, b2, l, es, h1, h2. split; [reflexivity|]. split; [exact C|]. rewrite <- search_requests. pose proof (search_loops (got es) all l 0 0) as Lp.
    destruct X as [[[X1 X2] Y]|[[[X1 (i & q & X2 & X3 & X4)] Y]|(Y & _)]]; [left|right|destruct (Y eq_refl)].
    - split; [exact X1|]. split; [|apply stopped_done; assumption]. destruct (search_loop all (got es) 0 0 l) as [[k acts]|].
      + destruct Lp as (_ & Lp & _). exists k, acts. split; [reflexivity|]. congruence.
      + destruct Lp as (i & q & E & F). specialize (X2 i q E). cbn in F. congruence.
    - split; [exact X1|]. split; [|apply dropped_done; assumption]. destruct (search_loop all (got es) 0 0 l) as [[k acts]|]; [|reflexivity].
      destruct Lp as (_ & _ & Lp). specialize (Lp i q X3). cbn in Lp. congruence.
  Qed.

  (** uechobench: its answers never panic. *)
  Lemma answer_ret a : is_ret (answer_data a) = true.
  Proof.
    unfold answer_data. destruct a as [m|]; [|reflexivity]. destruct (Nat.ltb 0 (msg_opc m)) eqn:E; [|reflexivity].
    unfold msg_property, msg_opc in *. destruct (m_props m) as [|p r]; [discriminate|]. reflexivity.
  Qed.
  Lemma read_rets all r oc ps q a : In q (read_queries all r oc ps) -> snd q a = true.
  Proof.
    induction ps as [|p l IH]; cbn; [tauto|]. destruct (negb all && _); [exact IH|]. intros [<-|I]; [apply answer_ret|auto].
  Qed.
  Lemma bench_rets all nodes q a : In q (bench_queries all nodes) -> snd q a = true.
  Proof.
    unfold bench_queries, object_queries. intros I. apply in_flat_map in I as (r & _ & I). apply in_flat_map in I as (o & _ & I). eapply read_rets; eauto.
  Qed.
  Definition round_done (all : bool) (x : list remote_node * list exchange) : Prop :=
    map told (snd x) = map request (flat_map (object_questions all) (fst x)) /\
    exists k acts, bench_loop all (got (snd x)) 0 0 (fst x) = Ret (k, acts) /\ posted acts = map told (snd x).
  Lemma rounds_done all count h : kinds h -> calls_made t (rounds_client c n all count (stopped c n)) h Finished ->
    exists rs h1 b b', h = h1 ++ stopping t c n b ++ stopping t c n b' /\ rounds t c n rs h1 /\ length rs = count /\ Forall (round_done all) rs.
  Proof.
    revert h. induction count as [|i IH]; intros h K M; cbn [rounds_client] in M.
    - apply stopped_done in M as (b & b' & ->); [|exact K]. exists [], [], b, b'. split; [reflexivity|]. split; [constructor|]. split; [reflexivity|constructor].
    - apply nodes_done in M as (l & h3 & -> & M); [|exact K]. apply kinds_app in K as [_ K].
      pose proof (leads_bench (U := U) t c n all l (rounds_client c n all i (stopped c n)) (rounds_client c n all i (stopped c n)) [] (leads_nil t c n _)) as Ld. rewrite app_nil_r in Ld.
      destruct (Ld _ _ K M) as (es & A). apply asked_runs in A as (h1 & h2 & -> & C & X). apply kinds_app in K as [_ K].
      destruct X as [[[X1 X2] Y]|[[[X1 (j & q & X2 & X3 & X4)] Y]|(Y & _)]]; [| |destruct (Y eq_refl)].
      + destruct (IH h2 K Y) as (rs & h4 & b & b' & -> & R & Le & F). exists ((l, es) :: rs), (look t c l ++ h1 ++ h4), b, b'.
        split; [repeat rewrite <- app_assoc; reflexivity|]. split; [constructor; assumption|]. split; [cbn; congruence|]. constructor; [|exact F].
        split; cbn [fst snd]; [rewrite <- bench_requests; exact X1|]. pose proof (bench_loops (got es) all l 0 0) as Lp.
        destruct (bench_loop all (got es) 0 0 l) as [[k acts]|].
        * destruct Lp as (_ & Lp & _). exists k, acts. split; [reflexivity|]. congruence.
        * destruct Lp as (j & q & E & G). specialize (X2 j q E). cbn in G. congruence.
      + exfalso. apply nth_error_In in X3. rewrite (bench_rets _ _ _ _ X3) in X4. discriminate.
  Qed.

  (** uechopost *)
  Definition first_at (ip : ipaddr) (l : list remote_node) (r : remote_node) : Prop :=
    exists l1 l2, l = l1 ++ r :: l2 /\ fst (rn_addr r) = ip /\ Forall (fun x => fst (rn_addr x) <> ip) l1.
  Lemma ip_eqb a b : ipaddr_eqb a b = true <-> a = b.
  Proof. destruct a, b; cbn; split; try discriminate; try (intros E; apply N.eqb_eq in E; congruence); intros E; inversion E; apply N.eqb_refl. Qed.
  Definition post_done a l h : Prop :=
    (exists r ok m', first_at (pa_addr a) l r /\ (msg_esv (post_message a) = EWriteRequest \/ msg_esv (post_message a) = ENotificationRequest) /\
       h = [ECall t (CCtrlSend c n r (post_message a)); EReturn t (CCtrlSend c n r (post_message a)) (VSent ok m')]) \/
    (exists r e, first_at (pa_addr a) l r /\ (msg_esv (post_message a) = EWriteRequestResponseRequired \/ msg_esv (post_message a) = EReadRequest \/ msg_esv (post_message a) = EWriteReadRequest) /\
       told e = (r, post_message a) /\ conversation t c n [e] h) \/
    (h = [] /\ (Forall (fun x => fst (rn_addr x) <> pa_addr a) l \/
       ~ In (msg_esv (post_message a)) [EWriteRequest; ENotificationRequest; EWriteRequestResponseRequired; EReadRequest; EWriteReadRequest])).
  Lemma ask_stopped r m h : kinds h -> calls_made t (ask c n r m (fun _ => stopped c n)) h Finished ->
    exists e h1 h2, h = h1 ++ h2 /\ told e = (r, m) /\ conversation t c n [e] h1 /\ calls_made t (stopped c n) h2 Finished.
  Proof.
    intros K M. destruct (leads_ask (U := U) t c n r m (fun _ => true) [] (stopped c n) (fun _ => stopped c n) (fun _ => leads_nil t c n _) h Finished K M) as (es & A).
    apply asked_runs in A as (h1 & h2 & -> & C & [[[X1 _] Y]|[[[_ (i & q & _ & X & X')] _]|(Y & _)]]); [|destruct i as [|[|i]]; inversion X; subst; discriminate|destruct (Y eq_refl)].
    destruct es as [|e [|? ?]]; try discriminate X1. assert (T : told e = (r, m)) by (cbn [map fst] in X1; congruence). exists e, h1, h2. auto.
  Qed.
  Lemma posts_done l a h : kinds h -> calls_made t (post_client c n l a) h Finished ->
    exists h1 b b', h = h1 ++ stopping t c n b ++ stopping t c n b' /\ post_done a l h1.
  Proof.
    intros K. induction l as [|r l IH]; cbn [post_client]; intros M.
    - apply stopped_done in M as (b & b' & ->); [|exact K]. exists [], b, b'. split; [reflexivity|]. right. right. split; [reflexivity|left; constructor].
    - destruct (ipaddr_eqb (fst (rn_addr r)) (pa_addr a)) eqn:E; cbn [negb] in M.
      + apply ip_eqb in E. assert (F : first_at (pa_addr a) (r :: l) r) by (exists [], l; auto).
        destruct (msg_esv (post_message a)) eqn:Ee;
          try (apply stopped_done in M as (b & b' & ->); [|exact K]; exists [], b, b'; split; [reflexivity|]; right; right; split; [reflexivity|]; right; rewrite Ee; cbn; intuition discriminate);
          try (apply ask_stopped in M as (e & h1 & h2 & -> & T & C & M); [|exact K]; apply kinds_app in K as [_ K]; apply stopped_done in M as (b & b' & ->); [|exact K];
               exists h1, b, b'; split; [reflexivity|]; right; left; exists r, e; split; [exact F|]; split; [auto|]; split; [exact T|exact C]).
        all: inversion M as [|? ? v h1 ? M1]; subst; destruct (K t (CCtrlSend c n r (post_message a)) v) as (ok & m' & ->); [right; left; reflexivity|];
          apply kinds_cons, kinds_cons in K; apply stopped_done in M1 as (b & b' & ->); [|exact K];
          eexists [_; _], b, b'; split; [reflexivity|]; left; exists r, ok, m'; split; [exact F|]; split; [auto|reflexivity].
      + destruct (IH M) as (h1 & b & b' & -> & D). exists h1, b, b'. split; [reflexivity|].
        assert (Ne : fst (rn_addr r) <> pa_addr a) by (intros X; apply ip_eqb in X; congruence).
        assert (Fi : forall x, first_at (pa_addr a) l x -> first_at (pa_addr a) (r :: l) x).
        { intros x (l1 & l2 & -> & F1 & F2). exists (r :: l1), l2. split; [reflexivity|]. split; [exact F1|constructor; auto]. }
        destruct D as [(x & ok & m' & D & X)|[(x & e & D & X)|(D & [X|X])]]; [left; exists x, ok, m'; auto|right; left; exists x, e; auto|right; right|right; right]; (split; [exact D|]); auto.
  Qed.
End S.
