(** C115: the command-line tools, run by threads, in all executions. *)
From Verif Require Import Base HMap ModelCodec ModelMessages DbTable ModelObject ModelTransport ModelNode ModelController ModelDevice ModelThreads ModelTools
  SpecWire SpecObject SpecNode SpecThreads SpecWait SpecFound ProofsCodec ProofsCodec2 PropertiesProfile PropertiesDb ProofsDevice ProofsController PropertiesController
  PropertiesTools PropertiesDevice ProofsThreads ProofsThreads2 PropertiesThreads PropertiesThreads4 ProofsFound PropertiesFound ExamplesNode
  ModelClients SpecClients ProofsClients ProofsClients2 ProofsClients3 ProofsClients4.

(** The exchange is a read of the one property of the object of the node. *)
Definition asking (q : remote_node * N * N) (x : exchange) : Prop :=
  x_to x = fst (fst q) /\ msg_seoj (x_sent x) = 0x0EF001 /\ msg_deoj (x_sent x) = snd (fst q) /\ m_esv (x_sent x) = 0x62 /\ m_props (x_sent x) = [PProp (snd q) []].
(** So is a request. *)
Definition asks_for (q : remote_node * N * N) (x : remote_node * message) : Prop :=
  fst x = fst (fst q) /\ msg_deoj (snd x) = snd (fst q) /\ m_esv (snd x) = 0x62 /\ m_props (snd x) = [PProp (snd q) []].

Section S.
  Context {U : Type} {P : Profile} {HO : HashOrder} {Os : OS} {Uu : Uuids}.

  (** The events of a thread are the calls of its program, one after another: each
      call returns before the next one is made, and only the last one may be open. *)
  Theorem C115_order : forall db what net (ns : nat -> nstate U) cs xs s t x, down ns -> steps db what net (begins ns cs xs) s -> nth_error xs t = Some x ->
    exists h y, calls_made t x h y /\
      (events_of t (history s) = h \/ exists c k, y = Call c k /\ events_of t (history s) = h ++ [ECall t c]) /\
      (threads s t = Out Halt -> events_of t (history s) = h /\ y = Finished).
  Proof.
    intros db what net ns cs xs s t x Dn St Nx. destruct (thread_events db what net _ _ _ _ _ _ Dn St Nx) as (h & y & M & _ & X).
    exists h, y. split; [exact M|]. destruct X as [[X T]|(c & k & X & Y & T)]; (split; [eauto|]); intros H; [|contradiction].
    split; [exact X|]. rewrite H in T. destruct y; [reflexivity|discriminate].
  Qed.

  Section Std.
    Variables (seed : N -> N) (db : list object).
    Hypothesis Db : standard_database seed = Ret db.
    Hypothesis Uo : forall k, uuid_ok (new_uuid k).

    Lemma conversation_passed t c n es (h : list (event U)) : kinds h -> conversation t c n es h -> Forall (fun x => passed (x_asked x) (x_sent x)) es.
    Proof.
      intros K C. induction C as [|r m ch m' a l h C IH]; constructor; [|apply IH; do 4 apply kinds_cons in K; exact K].
      destruct (K t (CCtrlPost c n r m) (VPosted ch m')) as (ch' & m2 & E & X); [right; left; reflexivity|]. inversion E; subst. exact X.
    Qed.
    Lemma asking_request q x : snd (fst q) < 2 ^ 24 -> told x = request q -> passed (x_asked x) (x_sent x) -> asking q x.
    Proof.
      intros B E (P1 & P2 & P3 & P4). destruct q as [[r oc] cd]. inversion E as [[E1 E2]]. rewrite E2 in *. cbn [fst snd] in *. unfold asking. cbn [fst snd].
      split; [first [exact E1|reflexivity]|]. split; [exact P1|]. split; [|split; [exact P3|exact P4]]. rewrite P2. unfold read_message, msg_deoj.
      cbn [m_deoj msg_add_property with_props msg_set_deoj with_deoj]. rewrite object_code_split. apply N.mod_small. exact B.
    Qed.
    Lemma asking_requests qs es : Forall (fun q : remote_node * N * N => snd (fst q) < 2 ^ 24) qs -> map told es = map request qs -> Forall (fun x => passed (x_asked x) (x_sent x)) es -> Forall2 asking qs es.
    Proof.
      revert es. induction qs as [|q qs IH]; intros [|x es] B E F; try discriminate; inversion B; inversion F; subst; constructor.
      - apply asking_request; [assumption| |assumption]. exact (f_equal (hd (told x)) E).
      - apply IH; [assumption| |assumption]. exact (f_equal (@tl _) E).
    Qed.
    Lemma questions_bound all l : nodes_ok l -> Forall (fun q : remote_node * N * N => snd (fst q) < 2 ^ 24) (flat_map (questions all) l).
    Proof.
      intros N. apply Forall_forall. intros q I. apply in_flat_map in I as (r & Ir & [<-|I]); [reflexivity|].
      unfold object_questions in I. apply in_flat_map in I as (o & Io & I). apply in_map_iff in I as (cd & <- & _). cbn.
      unfold nodes_ok in N. rewrite Forall_forall in N. specialize (N r Ir). rewrite Forall_forall in N. apply N, Io.
    Qed.
    Lemma object_questions_bound all l : nodes_ok l -> Forall (fun q : remote_node * N * N => snd (fst q) < 2 ^ 24) (flat_map (object_questions all) l).
    Proof.
      intros N. pose proof (questions_bound all l N) as B. rewrite Forall_forall in *. intros q I. apply B. apply in_flat_map in I as (r & Ir & I).
      apply in_flat_map. exists r. split; [exact Ir|]. right. exact I.
    Qed.
    Lemma good_ok l : nodes_good l -> nodes_ok l.
    Proof. intros G. eapply Forall_impl; [|exact G]. intros r R. eapply Forall_impl; [|exact R]. intros o [X _]. exact X. Qed.
    Lemma told_firstn (qs : list (remote_node * N * N)) es : map told es = firstn (length es) (map request qs) -> map told es = map request (firstn (length es) qs).
    Proof. intros ->. rewrite firstn_map. reflexivity. Qed.
    Lemma Forall_first {A} (Q : A -> Prop) k l : Forall Q l -> Forall Q (firstn k l).
    Proof. intros F. rewrite <- (firstn_skipn k l) in F. apply Forall_app in F. apply F. Qed.
    (** When uechosearch has come to its end, it has started the controller,
        searched, asked for the nodes, asked every node for everything once, one
        question after the answer to the one before, shown what the receivers gave
        out, and stopped the controller, which its destructor did again. The only
        other way is that it has panicked at an answer of more than four octets. *)
    Theorem C115_search : forall what net (ns : nat -> nstate U) cs xs s t c n args all, down ns -> (forall c, fst (cs c) = []) -> unposted (ns n) ->
      steps db what net (begins ns cs xs) s -> calls_ok (history s) ->
      nth_error xs t = Some (uechosearch c n args) -> search_args false args = Some all -> threads s t = Out Halt ->
      exists b1 b2 l es h1 h2, events_of t (history s) = opening t c n b1 b2 ++ look t c l ++ h1 ++ h2 /\ conversation t c n es h1 /\
        ((Forall2 asking (flat_map (questions all) l) es /\
          (exists k acts, search_loop all (got es) 0 0 l = Ret (k, acts) /\ posted acts = map told es /\
             forall i x y, nth_error es i = Some x -> nth_error (exchanges acts) i = Some y -> tells (x_got x) y) /\
          exists b b', h2 = stopping t c n b ++ stopping t c n b') \/
         (Forall2 asking (firstn (length es) (flat_map (questions all) l)) es /\
          overflow_checks = true /\ (exists x m p ps, In x es /\ x_got x = Some m /\ m_props m = p :: ps /\ (4 < length (pp_data p))%nat) /\
          exists b, h2 = stopping t c n b)).
    Proof.
      intros what net ns cs xs s t c n args all Dn Em Up St Ok Nx Ea Th.
      destruct (finished_events db what net _ _ _ _ _ _ Dn St Nx Th) as [K M]. unfold uechosearch in M. rewrite Ea in M.
      destruct (search_done t c n all _ K M) as (b1 & b2 & l & es & h1 & h2 & E & C & X). exists b1, b2, l, es, h1, h2. split; [exact E|]. split; [exact C|].
      assert (Sub : forall e, In e (opening t c n b1 b2 ++ look t c l ++ h1 ++ h2) -> In e (history s)) by (intros e I; rewrite <- E in I; eapply in_events; eauto).
      assert (Gl : nodes_good l).
      { apply (lists_good db what net seed ns cs xs s t (CNodes c) l Db Uo Dn Em St). apply Sub. apply in_or_app. right. right. left. reflexivity. }
      assert (Ga : answers_ok (got es)).
      { intros k m Gk. destruct (conversation_got _ _ _ _ _ _ _ C Gk) as (ch & I). apply (answers_good db what net ns cs xs s n t ch m Dn Up St Ok). apply Sub.
        apply in_or_app. right. apply in_or_app. right. apply in_or_app. auto. }
      assert (Pa : Forall (fun x => passed (x_asked x) (x_sent x)) es).
      { eapply conversation_passed; [|exact C]. rewrite E in K. apply kinds_app in K as [_ K]. apply kinds_app in K as [_ K]. apply kinds_app in K as [K _]. exact K. }
      pose proof (good_ok _ Gl) as Go. pose proof (questions_bound all l Go) as Qb. pose proof (search_loop_good (got es) Ga P all l Go 0 0) as Sg.
      destruct X as [(X1 & (k & acts & X2 & X3) & X4)|(X1 & X2 & X3)]; [left|right].
      - split; [apply asking_requests; assumption|]. split; [|exact X4]. exists k, acts. split; [exact X2|]. split; [exact X3|]. rewrite X2 in Sg.
        intros i x y Ex Ey. apply (g_tells _ _ _ _ _ Sg) in Ey. replace (x_got x) with (got es (0 + i)); [exact Ey|].
        unfold got. cbn. erewrite nth_error_nth; [reflexivity|]. rewrite nth_error_map, Ex. reflexivity.
      - split; [apply asking_requests; [apply Forall_first, Qb|apply told_firstn, X1|exact Pa]|]. rewrite X2 in Sg. destruct Sg as (j & m & p & ps & S1 & S2 & S3 & S4).
        split; [exact S3|]. split; [|exact X3]. unfold got in S1. destruct (nth_error (map x_got es) j) as [o|] eqn:En.
        + rewrite (nth_error_nth _ _ None En) in S1. subst o. apply nth_error_In in En. apply in_map_iff in En as (x & Ex & Ix). exists x, m, p, ps. auto.
        + rewrite nth_overflow in S1; [discriminate|]. apply nth_error_None. exact En.
    Qed.

    (** uechobench asks for the properties in every round, and never panics. *)
    Theorem C115_bench : forall {T : Texts} what net (ns : nat -> nstate U) cs xs s t c n args all count, down ns -> (forall c, fst (cs c) = []) -> unposted (ns n) ->
      steps db what net (begins ns cs xs) s -> calls_ok (history s) ->
      nth_error xs t = Some (uechobench c n args) -> bench_args false 1 args = Ret (Some (all, count)) -> threads s t = Out Halt ->
      exists b1 b2 rs h1 b b', events_of t (history s) = opening t c n b1 b2 ++ h1 ++ stopping t c n b ++ stopping t c n b' /\ rounds t c n rs h1 /\
        length rs = Z.to_nat count /\
        Forall (fun r => Forall2 asking (flat_map (object_questions all) (fst r)) (snd r) /\
          exists k acts, bench_loop all (got (snd r)) 0 0 (fst r) = Ret (k, acts) /\ posted acts = map told (snd r) /\
            forall i x y, nth_error (snd r) i = Some x -> nth_error (exchanges acts) i = Some y -> tells (x_got x) y) rs.
    Proof.
      intros T what net ns cs xs s t c n args all count Dn Em Up St Ok Nx Ea Th.
      destruct (finished_events db what net _ _ _ _ _ _ Dn St Nx Th) as [K M]. unfold uechobench in M. rewrite Ea in M.
      destruct (opening_done t c n _ _ K M) as (b1 & b2 & h' & E & M'). assert (K' : kinds h') by (rewrite E in K; apply kinds_app in K; apply K).
      destruct (rounds_done t c n all _ _ K' M') as (rs & h1 & b & b' & -> & R & L & F). exists b1, b2, rs, h1, b, b'. split; [exact E|]. split; [exact R|]. split; [exact L|].
      assert (Sub : forall e, In e h1 -> In e (history s)).
      { intros e I. apply (in_events t). rewrite E. apply in_or_app. right. apply in_or_app. auto. }
      apply kinds_app in K' as [K' _]. clear - R F K' Sub Db Uo Dn Em St Up Ok. induction R as [|l es h k h2 C R IH]; [constructor|]. inversion F as [|? ? [F1 (i & acts & F2 & F3)] F']; subst.
      cbn [fst snd] in *. apply kinds_app in K' as [_ K']. apply kinds_app in K' as [K1 K2]. constructor; [|apply IH; auto; intros e I; apply Sub, in_or_app; right; apply in_or_app; auto].
      cbn [fst snd]. assert (Gl : nodes_good l).
      { apply (lists_good db what net seed ns cs xs s t (CNodes c) l Db Uo Dn Em St). apply Sub. right. left. reflexivity. }
      assert (Ga : answers_ok (got es)).
      { intros j m Gk. destruct (conversation_got _ _ _ _ _ _ _ C Gk) as (ch & I). apply (answers_good db what net ns cs xs s n t ch m Dn Up St Ok). apply Sub.
        apply in_or_app. right. apply in_or_app. auto. }
      pose proof (good_ok _ Gl) as Go. split; [apply asking_requests; [apply object_questions_bound, Go|exact F1|exact (conversation_passed _ _ _ _ _ K1 C)]|].
      exists i, acts. split; [exact F2|]. split; [exact F3|]. destruct (bench_loop_good (got es) Ga all l Go 0 0) as (k' & acts' & E' & G). rewrite F2 in E'. inversion E'; subst.
      intros j x y Ex Ey. apply (g_tells _ _ _ _ _ G) in Ey. replace (x_got x) with (got es (0 + j)); [exact Ey|].
      unfold got. cbn. erewrite nth_error_nth; [reflexivity|]. rewrite nth_error_map, Ex. reflexivity.
    Qed.

    (** uechopost sends the message of its command line to the first node with the
        address, if there is one, waits for the answer if the service asks for one,
        and sends nothing otherwise. *)
    Definition carries_command (m : message) (obj e : N) (ps : list wprop) : Prop :=
      msg_deoj m = obj /\ m_esv m = e /\ m_props m = map (fun x : wprop => PProp (fst x) (snd x)) ps.
    Theorem C115_post : forall {T : Texts} what net (ns : nat -> nstate U) cs xs s t c n args ip obj e ps, down ns ->
      steps db what net (begins ns cs xs) s -> nth_error xs t = Some (uechopost c n args) ->
      command args ip obj e ps -> esv_known e -> obj < 2 ^ 24 -> threads s t = Out Halt ->
      exists b1 b2 l h1 b b', events_of t (history s) = opening t c n b1 b2 ++ look t c l ++ h1 ++ stopping t c n b ++ stopping t c n b' /\
        ((exists r m ok m', PropertiesTools.first_at l ip r /\ In e [0x60; 0x63] /\ carries_command m obj e ps /\
            h1 = [ECall t (CCtrlSend c n r m); EReturn t (CCtrlSend c n r m) (VSent ok m')]) \/
         (exists r x, PropertiesTools.first_at l ip r /\ In e [0x61; 0x62; 0x6E] /\ x_to x = r /\ msg_seoj (x_sent x) = 0x0EF001 /\ carries_command (x_sent x) obj e ps /\
            conversation t c n [x] h1) \/
         (h1 = [] /\ (Forall (fun x => fst (rn_addr x) <> ip) l \/ ~ In e [0x60; 0x61; 0x62; 0x63; 0x6E]))).
    Proof.
      intros T what net ns cs xs s t c n args ip obj e ps Dn St Nx Cm Ke Bo Th.
      destruct (finished_events db what net _ _ _ _ _ _ Dn St Nx Th) as [K M]. destruct (command_args args ip obj e ps Cm Ke) as (a & Ea & Ei & Epm).
      rewrite (known_code _ Ke) in Epm. unfold uechopost in M. rewrite Ea in M. unfold post_body in M.
      destruct (opening_done t c n _ _ K M) as (b1 & b2 & h' & E & M'). assert (K' : kinds h') by (rewrite E in K; apply kinds_app in K; apply K).
      destruct (nodes_done t c _ _ K' M') as (l & h2 & -> & M2). apply kinds_app in K' as [_ K'].
      destruct (posts_done t c n l a h2 K' M2) as (h1 & b & b' & -> & D). exists b1, b2, l, h1, b, b'. split; [exact E|].
      assert (Cy : carries_command (post_message a) obj e ps).
      { rewrite Epm. split; [|split; reflexivity]. unfold msg_deoj. cbn [m_deoj]. rewrite object_code_split. apply N.mod_small. exact Bo. }
      assert (Es : msg_esv (post_message a) = esv_from_u8 e) by (rewrite Epm; reflexivity). rewrite <- Ei.
      assert (Code : forall v, esv_from_u8 e = v -> e = esv_to_u8 v) by (intros v <-; symmetry; apply known_code, Ke).
      destruct D as [(r & ok & m' & F & V & ->)|[(r & x & F & V & Tx & C)|(-> & X)]].
      - left. exists r, (post_message a), ok, m'. split; [exact F|]. split; [|split; [exact Cy|reflexivity]]. rewrite Es in V.
        destruct V as [V|V]; apply Code in V; rewrite V; cbn; auto.
      - right. left. exists r, x. split; [exact F|]. split; [rewrite Es in V; destruct V as [V|[V|V]]; apply Code in V; rewrite V; cbn; auto|].
        apply kinds_app in K' as [K' _]. pose proof (conversation_passed _ _ _ _ _ K' C) as Pa. inversion Pa as [|? ? (P1 & P2 & P3 & P4) _]; subst. inversion Tx as [[Tx1 Tx2]].
        split; [reflexivity|]. split; [exact P1|]. split; [|exact C]. rewrite <- Tx2 in Cy. destruct Cy as (C1 & C2 & C3). unfold carries_command. rewrite P2, P3, P4. auto.
      - right. right. split; [reflexivity|]. destruct X as [X|X]; [left; exact X|right]. intros I. apply X. rewrite Es. clear - I. cbn in I.
        destruct I as [<-|[<-|[<-|[<-|[<-|[]]]]]]; cbn; auto 10.
    Qed.


    (** At any time, uechosearch has asked only for what it is to ask for, and in this
        order; and before it has a list of nodes, for nothing. *)
    Lemma firstn_next {A} (l : list A) : forall k x, nth_error l k = Some x -> firstn (S k) l = firstn k l ++ [x].
    Proof. induction l as [|y l IH]; intros [|k] x E; try discriminate; cbn in E |- *; [inversion E; reflexivity|]. f_equal. apply IH, E. Qed.
    Definition is_post (y : client U) : bool := match y with Call (CCtrlPost _ _ _ _) _ => true | _ => false end.
    Lemma dropped_requests t c n h y : calls_made t (dropped c n) h y -> requests h = [] /\ is_post y = false.
    Proof. intros Q. unfold dropped in Q. inversion Q as [|? ? v h1 ? Q1]; subst; [auto|]. inversion Q1; subst. auto. Qed.
    Lemma stopped_requests t c n h y : calls_made t (stopped c n) h y -> requests h = [] /\ is_post y = false.
    Proof. intros Q. unfold stopped in Q. inversion Q as [|? ? v h1 ? Q1]; subst; [auto|]. apply dropped_requests in Q1. exact Q1. Qed.
    Lemma search_running t c n all h y : kinds h -> calls_made t (search_body c n all) h y ->
      (requests h = [] /\ is_post y = false) \/
      exists l k, In (EReturn t (CNodes c) (VNodes l)) h /\ requests h = firstn k (map request (flat_map (questions all) l)) /\
        forall c' n' r m k', y = Call (CCtrlPost c' n' r m) k' -> requests h ++ [(r, m)] = firstn (S k) (map request (flat_map (questions all) l)).
    Proof.
      intros K M. unfold search_body, searching in M. inversion M as [|? ? v h1 ? M1]; subst; [auto|]. inversion M1 as [|? ? v' h2 ? M2]; subst; [auto|].
      unfold with_nodes in M2. inversion M2 as [|? ? v'' h3 ? M3]; subst; [auto|]. destruct (K t (CNodes c) v'') as (l & ->); [do 5 right; left; reflexivity|].
      right. exists l. cbn [requests]. do 6 apply kinds_cons in K.
      pose proof (leads_search (U := U) t c n all l (stopped c n) (stopped c n) [] (leads_nil t c n _)) as Ld. rewrite app_nil_r in Ld.
      destruct (Ld _ _ K M3) as (es & A). apply asked_runs in A as (g1 & g2 & -> & C & X). rewrite <- search_requests.
      assert (Rc : forall h', requests (g1 ++ h') = map told es ++ requests h').
      { intros h'. clear - C. induction C as [|r m ch m' a l h C IH]; cbn; [reflexivity|]. rewrite IH. reflexivity. }
      rewrite Rc. clear Rc.
      destruct X as [[[X1 _] Y]|[[[X1 _] Y]|(_ & X1 & r & m & X2 & Y)]].
      - apply stopped_requests in Y as [-> Y]. rewrite app_nil_r. exists (length es). split; [do 5 right; left; reflexivity|].
        split; [rewrite X1, firstn_all2; [reflexivity|rewrite <- X1, map_length; lia]|]. intros c' n' r m k' ->. discriminate.
      - apply dropped_requests in Y as [-> Y]. rewrite app_nil_r. exists (length es). split; [do 5 right; left; reflexivity|].
        split; [exact X1|]. intros c' n' r m k' ->. discriminate.
      - pose proof (firstn_next _ _ _ X2) as Nx. rewrite X1. destruct Y as [[-> (k0 & ->)]|(ch & m' & k0 & -> & ->)].
        + exists (length es). split; [do 5 right; left; reflexivity|]. cbn [requests]. rewrite app_nil_r. split; [reflexivity|]. intros c' n' r' m' k' E. inversion E; subst. symmetry. exact Nx.
        + exists (S (length es)). split; [do 5 right; left; reflexivity|]. split; [symmetry; exact Nx|]. discriminate.
    Qed.
    Lemma requests_app (h h' : list (event U)) : requests (h ++ h') = requests h ++ requests h'.
    Proof. induction h as [|[t c|t c v|t m] h IH]; cbn; auto. destruct c; cbn; rewrite ?IH; auto. Qed.
    Lemma asks_requests qs : Forall (fun q : remote_node * N * N => snd (fst q) < 2 ^ 24) qs -> Forall2 asks_for qs (map request qs).
    Proof.
      induction 1 as [|[[r oc] cd] qs B _ IH]; constructor; [|exact IH]. unfold asks_for, request. cbn [fst snd] in *. split; [reflexivity|]. split; [|split; reflexivity].
      unfold read_message, msg_deoj. cbn [m_deoj msg_add_property with_props msg_set_deoj with_deoj]. rewrite object_code_split. apply N.mod_small. exact B.
    Qed.
    Theorem C115_search_asks : forall what net (ns : nat -> nstate U) cs xs s t c n args all, down ns -> (forall c, fst (cs c) = []) ->
      steps db what net (begins ns cs xs) s -> nth_error xs t = Some (uechosearch c n args) -> search_args false args = Some all ->
      requests (events_of t (history s)) = [] \/
      exists l k, In (EReturn t (CNodes c) (VNodes l)) (history s) /\ Forall2 asks_for (firstn k (flat_map (questions all) l)) (requests (events_of t (history s))).
    Proof.
      intros what net ns cs xs s t c n args all Dn Em St Nx Ea.
      destruct (thread_events db what net _ _ _ _ _ _ Dn St Nx) as (h & y & M & K & X). unfold uechosearch in M. rewrite Ea in M.
      assert (Fin : forall l k, In (EReturn t (CNodes c) (VNodes l)) (events_of t (history s)) -> requests (events_of t (history s)) = firstn k (map request (flat_map (questions all) l)) ->
        exists l k, In (EReturn t (CNodes c) (VNodes l)) (history s) /\ Forall2 asks_for (firstn k (flat_map (questions all) l)) (requests (events_of t (history s)))).
      { intros l k I ->. exists l, k. apply in_events in I. split; [exact I|]. rewrite firstn_map. apply asks_requests, Forall_first, questions_bound, good_ok.
        exact (lists_good db what net seed ns cs xs s t (CNodes c) l Db Uo Dn Em St I). }
      destruct (search_running t c n all h y K M) as [[R Y]|(l & k & I & R & Y)].
      - left. destruct X as [[-> _]|(c' & k' & -> & -> & _)]; [exact R|]. rewrite requests_app, R. destruct c'; try reflexivity. discriminate.
      - right. destruct X as [[X _]|(c' & k' & -> & X & _)].
        + apply (Fin l k); rewrite X; assumption.
        + destruct (is_post (Call c' k')) eqn:Ip.
          * destruct c'; try discriminate. apply (Fin l (S k)); rewrite X; [apply in_or_app; auto|]. rewrite requests_app. apply (Y _ _ _ _ _ eq_refl).
          * apply (Fin l k); rewrite X; [apply in_or_app; auto|]. rewrite requests_app. destruct c'; try discriminate; cbn; rewrite app_nil_r; exact R.
    Qed.

    (** ** A tool which is the only thread of its process *)
    Lemma built_read oc cd : oc < 2 ^ 32 -> cd < 256 -> built (read_message oc cd).
    Proof. intros A B. apply B_add; [apply B_deoj; [apply B_esv, B_new|exact A]|]. split; [exact B|constructor]. Qed.
    Section Sound.
      Variables (c n : nat).
      Notation sound x := (only call_ok good_answer x).
      Notation calm x := (only (fun k => disturbs n k = false) (fun _ => True) x).
      Lemma stopped_sound : sound (stopped (U := U) c n).
      Proof. cbn. auto. Qed.
      Lemma stopped_calm : calm (stopped (U := U) c n).
      Proof. cbn. auto. Qed.
      Lemma ask_sound r m k : built m -> (forall a, sound (k a)) -> sound (ask (U := U) c n r m k).
      Proof. intros B K. split; [exact B|]. intros [] _; cbn; auto. split; [exact Logic.I|]. intros [] _; cbn; auto. Qed.
      Lemma ask_calm r m k : msg_tid m = 0 -> (forall a, calm (k a)) -> calm (ask (U := U) c n r m k).
      Proof. intros B K. split; [cbn; rewrite B; cbn; apply andb_false_r|]. intros [] _; cbn; auto. split; [reflexivity|]. intros [] _; cbn; auto. Qed.
      Lemma unless_sound {A} (x : outcome A) k : sound k -> sound (unless_panic (U := U) c n x k).
      Proof. destruct x; cbn; auto. Qed.
      Lemma unless_calm {A} (x : outcome A) k : calm k -> calm (unless_panic (U := U) c n x k).
      Proof. destruct x; cbn; auto. Qed.
      Lemma read_sound all r oc ps k : oc < 2 ^ 32 -> Forall (fun p => p_code p < 256) ps -> sound k -> sound (read_client (U := U) c n all r oc ps k).
      Proof.
        intros B F K. induction F as [|p l Hp F IH]; cbn [read_client]; [exact K|]. destruct (negb all && _); [exact IH|].
        apply ask_sound; [apply built_read; assumption|]. intros a. apply unless_sound, IH.
      Qed.
      Lemma read_calm all r oc ps k : calm k -> calm (read_client (U := U) c n all r oc ps k).
      Proof.
        intros K. induction ps as [|p l IH]; cbn [read_client]; [exact K|]. destruct (negb all && _); [exact IH|].
        apply ask_calm; [reflexivity|]. intros a. apply unless_calm, IH.
      Qed.
      Lemma object_sound all r os k : Forall (fun o => object_code o < 2 ^ 24 /\ Forall (fun p => p_code p < 256) (object_properties o)) os -> sound k -> sound (object_client (U := U) c n all r os k).
      Proof. intros F K. induction F as [|o l [Ho Hp] F IH]; cbn [object_client]; [exact K|]. apply read_sound; [lia|exact Hp|exact IH]. Qed.
      Lemma object_calm all r os k : calm k -> calm (object_client (U := U) c n all r os k).
      Proof. intros K. induction os as [|o l IH]; cbn [object_client]; [exact K|]. apply read_calm, IH. Qed.
      Lemma search_sound all l : nodes_good l -> sound (search_client (U := U) c n all l (stopped c n)).
      Proof.
        intros F. induction F as [|r l Hr F IH]; cbn [search_client]; [apply stopped_sound|]. apply ask_sound; [apply built_read; reflexivity|].
        intros a. apply unless_sound. apply object_sound; assumption.
      Qed.
      Lemma search_calm all l : calm (search_client (U := U) c n all l (stopped c n)).
      Proof.
        induction l as [|r l IH]; cbn [search_client]; [apply stopped_calm|]. apply ask_calm; [reflexivity|].
        intros a. apply unless_calm. apply object_calm; assumption.
      Qed.
      Lemma bench_sound all l k : nodes_good l -> sound k -> sound (bench_client (U := U) c n all l k).
      Proof. intros F K. induction F as [|r l Hr F IH]; cbn [bench_client]; [exact K|]. apply object_sound; assumption. Qed.
      Lemma bench_calm all l k : calm k -> calm (bench_client (U := U) c n all l k).
      Proof. intros K. induction l as [|r l IH]; cbn [bench_client]; [exact K|]. apply object_calm; assumption. Qed.
      Lemma rounds_sound all i : sound (rounds_client (U := U) c n all i (stopped c n)).
      Proof. induction i as [|i IH]; cbn [rounds_client]; [apply stopped_sound|]. split; [exact Logic.I|]. intros [] G; cbn; auto. apply bench_sound; assumption. Qed.
      Lemma rounds_calm all i : calm (rounds_client (U := U) c n all i (stopped c n)).
      Proof. induction i as [|i IH]; cbn [rounds_client]; [apply stopped_calm|]. split; [reflexivity|]. intros [] G; cbn; auto. apply bench_calm; assumption. Qed.
      Lemma post_sound l a : built (post_message a) -> sound (post_client (U := U) c n l a).
      Proof.
        intros B. induction l as [|r l IH]; cbn [post_client]; [apply stopped_sound|]. destruct (negb _); [exact IH|].
        destruct (msg_esv (post_message a)); try apply stopped_sound; try (apply ask_sound; [exact B|intros _; apply stopped_sound]); (split; [exact B|intros v _; apply stopped_sound]).
      Qed.
      Lemma post_steady l a : msg_tid (post_message a) = 0 -> steady n (post_client (U := U) c n l a).
      Proof.
        intros B. induction l as [|r l IH]; cbn [post_client]; [apply steady_calm, stopped_calm|]. destruct (negb _); [exact IH|].
        destruct (msg_esv (post_message a)); try apply steady_calm, stopped_calm; try (apply steady_calm, ask_calm; [exact B|intros _; apply stopped_calm]);
          (cbn; auto).
      Qed.
      Lemma searching_sound k : sound k -> sound (searching (U := U) c n k).
      Proof. intros K. split; [exact Logic.I|]. intros v _. split; [reflexivity|]. intros v' _. exact K. Qed.
      Lemma searching_steady k : steady n k -> steady n (searching (U := U) c n k).
      Proof. intros K. cbn. auto. Qed.
      Lemma nodes_sound k : (forall l, nodes_good l -> sound (k l)) -> sound (with_nodes (U := U) c k).
      Proof. intros K. split; [exact Logic.I|]. intros [] G; cbn; auto. Qed.
      Lemma nodes_steady k : (forall l, steady n (k l)) -> steady n (with_nodes (U := U) c k).
      Proof. intros K. cbn. intros []; cbn; auto. Qed.
    End Sound.

    (** Every answer that the tool gets has the TID of the request that it has posted
        last, if the requests of others have TIDs. *)
    Definition own_answers (n : nat) (h : list (event U)) : Prop :=
      forall t c ch m t' x, posts n c = true -> In (EReturn t c (VPosted ch m)) h -> In (EReturn t' (CWait n ch) (VGot (Some x))) h -> msg_tid x = msg_tid m.
    Lemma own_tid what net (ns : nat -> nstate U) cs x s n : down ns -> (forall c, fst (cs c) = []) -> unposted (ns n) -> last_tid (ns n) < 65536 ->
      only call_ok good_answer x -> steady n x -> steps db what net (begins ns cs [x]) s -> requests_numbered (history s) -> own_answers n (history s).
    Proof.
      intros Dn Em Up Lt So Sy St Rn t c ch m t' a Pc I1 I2.
      refine (C113_own_tid_partial db what net ns cs [x] s n t c ch m t' a Dn Up Lt St _ _ Rn Pc I1 I2).
      - exact (alone_ok db what net seed ns cs x s Db Uo Dn Em St So).
      - exact (alone_undisturbed db what net n ns cs x s Dn St Sy).
    Qed.
    Lemma uechosearch_sound c n args : only call_ok good_answer (uechosearch (U := U) c n args).
    Proof.
      unfold uechosearch. destruct (search_args _ _); cbn [only steady]; auto. apply searching_sound, nodes_sound. intros l G. apply search_sound, G.
    Qed.
    Theorem C115_search_tid : forall what net (ns : nat -> nstate U) cs c n args s, down ns -> (forall c, fst (cs c) = []) -> unposted (ns n) -> last_tid (ns n) < 65536 ->
      steps db what net (begins ns cs [uechosearch c n args]) s -> requests_numbered (history s) -> own_answers n (history s).
    Proof.
      intros what net ns cs c n args s Dn Em Up Lt St. apply (own_tid what net ns cs (uechosearch c n args) s n Dn Em Up Lt); [apply uechosearch_sound| |exact St].
      unfold uechosearch. destruct (search_args _ _); cbn [only steady]; auto.
      apply searching_steady, nodes_steady. intros l. apply steady_calm, search_calm.
    Qed.
    Theorem C115_bench_tid : forall {T : Texts} what net (ns : nat -> nstate U) cs c n args s, down ns -> (forall c, fst (cs c) = []) -> unposted (ns n) -> last_tid (ns n) < 65536 ->
      steps db what net (begins ns cs [uechobench c n args]) s -> requests_numbered (history s) -> own_answers n (history s).
    Proof.
      intros T what net ns cs c n args s Dn Em Up Lt St. apply (own_tid what net ns cs (uechobench c n args) s n Dn Em Up Lt); [| |exact St]; unfold uechobench; destruct (bench_args _ _ _) as [[[all i]|]|]; cbn [only steady]; auto.
      - apply searching_sound, rounds_sound.
      - apply searching_steady, steady_calm, rounds_calm.
    Qed.
    Lemma built_props ps : Forall (fun x : wprop => fst x < 256 /\ octets (snd x)) ps -> forall m, built m -> built (with_props m (m_props m ++ map (fun x : wprop => PProp (fst x) (snd x)) ps)).
    Proof.
      induction 1 as [|[cd d] ps [A B] F IH]; intros m Bm; cbn [map app].
      - rewrite app_nil_r. destruct m. exact Bm.
      - specialize (IH (msg_add_property m (PProp cd d))). cbn [m_props msg_add_property with_props] in IH. rewrite <- app_assoc in IH. apply IH. apply B_add; [exact Bm|]. split; assumption.
    Qed.
    Theorem C115_post_tid : forall {T : Texts} what net (ns : nat -> nstate U) cs c n args ip obj e ps s, down ns -> (forall c, fst (cs c) = []) -> unposted (ns n) -> last_tid (ns n) < 65536 ->
      command args ip obj e ps -> esv_known e -> obj < 2 ^ 24 -> wprops_ok ps ->
      steps db what net (begins ns cs [uechopost c n args]) s -> requests_numbered (history s) -> own_answers n (history s).
    Proof.
      intros T what net ns cs c n args ip obj e ps s Dn Em Up Lt Cm Ke Bo [Wp _] St. destruct (command_args args ip obj e ps Cm Ke) as (a & Ea & _ & Epm).
      apply (own_tid what net ns cs (uechopost c n args) s n Dn Em Up Lt); [| |exact St]; unfold uechopost; rewrite Ea.
      - assert (Wpo : forall x : wprop, wprop_ok x -> fst x < 256 /\ octets (snd x)) by (intros x X; destruct X as (X1 & X2 & X3); split; assumption).
        apply searching_sound, nodes_sound. intros l _. apply post_sound. rewrite Epm.
        apply (built_props ps (Forall_impl _ Wpo Wp) (msg_set_deoj (msg_set_esv msg_new (esv_from_u8 e)) obj)). apply B_deoj; [apply B_esv, B_new|lia].
      - apply searching_steady, nodes_steady. intros l. apply post_steady. rewrite Epm. reflexivity.
    Qed.
  End Std.
End S.

(* ------------------------------------------------------------------ *)
(** ** Cases *)

(** What matters of the events of a tool. *)
Inductive sight :=
| SCall (t : nat) | SReturn (t : nat)
| SPost (t : nat) (ch : N) (to : sockaddr) (oc code tid : N)
| SGot (t : nat) (ch : N) (tid : N) (data : list N) | SNothing (t : nat)
| SNodes (t : nat) (l : list (sockaddr * list N))
| SArrives (t : nat) (tid esv : N) (from : sockaddr).
Definition sight_of (e : event unit) : sight :=
  match e with
  | ECall t _ => SCall t
  | EReturn t (CCtrlPost _ _ r _) (VPosted ch m) =>
      SPost t ch (rn_addr r) (msg_deoj m) (match m_props m with p :: _ => pp_code p | [] => 0 end) (msg_tid m)
  | EReturn t (CWait _ ch) (VGot (Some m)) => SGot t ch (msg_tid m) (flat_map pp_data (m_props m))
  | EReturn t (CWait _ _) (VGot None) => SNothing t
  | EReturn t (CNodes _) (VNodes l) => SNodes t (map codes_of l)
  | EReturn t _ _ => SReturn t
  | EGot t m => SArrives t (msg_tid m) (m_esv m) (msg_from m)
  end.

(** uechosearch finds a node which lists nothing but its node profile, asks for the
    manufacturer and gets 0x00000B with the TID 3, from another node; the questions
    for the properties that are mandatory get no answer. Then it stops. *)
Definition x_search : client unit := uechosearch (P := true) 0 0 (map txt ["uechosearch"%string]).
Definition maker_answer (tid : N) : list N := [0x10; 0x81; 0; tid; 0x0E; 0xF0; 1; 0x0E; 0xF0; 1; 0x72; 1; 0x8A; 3; 0; 0; 0x0B].
Definition plan_search := gos [(0, 39); (2, 1)]%nat ++ [Get 2 (list_datagram 0 []) node_a] ++ gos [(2, 20); (0, 27)]%nat ++ [Get 2 (maker_answer 3) node_b] ++
  gos [(2, 18); (0, 175); (2, 2); (0, 4); (1, 1); (0, 17)]%nat.
Definition unanswered (i : N) (code : N) : list sight := [SCall 0; SPost 0 i node_a 0x0EF001 code (3 + i); SCall 0; SNothing 0].
Definition sights_search : list sight :=
  [SCall 0; SReturn 0; SArrives 2 1 0x72 node_a; SCall 0; SReturn 0; SCall 0; SNodes 0 [(node_a, [0x0EF001])];
   SCall 0; SPost 0 0 node_a 0x0EF001 0x8A 3; SCall 0; SArrives 2 3 0x72 node_b; SGot 0 0 3 [0; 0; 0x0B]] ++
  unanswered 1 0xD3 ++ unanswered 2 0x80 ++ unanswered 3 0x88 ++ unanswered 4 0x9F ++ unanswered 5 0xD6 ++ unanswered 6 0x81 ++
  unanswered 7 0x9D ++ unanswered 8 0x9E ++ unanswered 9 0x8A ++ unanswered 10 0x82 ++ unanswered 11 0xD4 ++ unanswered 12 0xD7 ++
  [SCall 0; SReturn 0; SCall 0; SReturn 0].
Definition halted (x : thread unit) : bool := match x with Out Halt => true | _ => false end.
Lemma seen_search : exists s, tc_execution [x_search] s /\ (halted (threads s 0), map sight_of (history s)) = (true, sights_search).
Proof. apply (tc_played (fun s => (halted (threads s 0), map sight_of (history s))) [x_search] plan_search). vm_compute. reflexivity. Qed.

Lemma sight_post e t ch to oc code tid : sight_of e = SPost t ch to oc code tid ->
  exists c n r m m', e = EReturn t (CCtrlPost c n r m) (VPosted ch m') /\ rn_addr r = to /\ msg_tid m' = tid.
Proof. destruct e as [|? [] []|]; cbn; try discriminate; try (destruct m; discriminate); intros E; inversion E; subst; eauto 10. Qed.
Lemma sight_got e t ch tid d : sight_of e = SGot t ch tid d -> exists n m, e = EReturn t (CWait n ch) (VGot (Some m)) /\ msg_tid m = tid.
Proof. destruct e as [|? [] []|]; cbn; try discriminate; destruct m; try discriminate; intros E; inversion E; subst; eauto 10. Qed.
Lemma sight_arrives (h : list (event unit)) t m : In (EGot t m) h -> In (SArrives t (msg_tid m) (m_esv m) (msg_from m)) (map sight_of h).
Proof. intros I. apply (in_map sight_of) in I. exact I. Qed.
Ltac of_sights E I := rewrite E in I; unfold sights_search in I; cbn [app unanswered] in I;
  repeat (destruct I as [I|I]; [try discriminate I|]); [..|try destruct I].

(** This execution fulfills the premises of the theorems. *)
Example C115_case : exists s, tc_execution [x_search] s /\
  standard_database (P := true) (HO := ex_order) (fun k => k) = Ret ex_db /\ (forall k, uuid_ok (new_uuid (Uuids := tc_uuids) k)) /\
  down tc_ns /\ (forall c, fst (ex_cs c) = []) /\ unposted (tc_ns 0) /\ last_tid (tc_ns 0) < 65536 /\
  calls_ok (P := true) (HO := ex_order) (history s) /\ requests_numbered (history s) /\
  search_args false (map txt ["uechosearch"%string]) = Some false /\ threads s 0 = Out Halt /\ map sight_of (history s) = sights_search.
Proof.
  destruct seen_search as (s & X & E). injection E as Eh E. exists s. split; [exact X|]. split; [exact ex_db_standard|]. split; [exact ex_uuids_ok|].
  split; [exact tc_down|]. split; [exact tc_empty|]. split; [vm_compute; split; reflexivity|]. split; [vm_compute; reflexivity|].
  split; [refine (alone_ok ex_db tc_what true (fun k => k) tc_ns ex_cs x_search s ex_db_standard ex_uuids_ok tc_down tc_empty X _); apply uechosearch_sound|].
  split.
  { intros t m I R. apply sight_arrives in I. of_sights E I; inversion I as [[A B C D]]; discriminate. }
  split; [reflexivity|]. split; [|exact E]. destruct (threads s 0) as [[]| | |]; try discriminate. reflexivity.
Qed.

(** The full statement would be that the answers come from the node that was asked.
    It is false: only the TID decides. *)
Theorem C115_sender_refuted : exists s c n r m ch m' x, tc_execution [x_search] s /\ requests_numbered (history s) /\
  In (EReturn 0 (CCtrlPost c n r m) (VPosted ch m')) (history s) /\ (exists n', In (EReturn 0 (CWait n' ch) (VGot (Some x))) (history s)) /\ msg_tid x = msg_tid m' /\
  (exists t y, In (EGot t y) (history s) /\ msg_tid y = msg_tid x) /\
  forall t y, In (EGot t y) (history s) -> msg_tid y = msg_tid x -> msg_from y <> rn_addr r.
Proof.
  destruct C115_case as (s & X & _ & _ & _ & _ & _ & _ & _ & Rn & _ & _ & E).
  assert (I1 : In (SPost 0 0 node_a 0x0EF001 0x8A 3) (map sight_of (history s))) by (rewrite E; do 8 right; left; reflexivity).
  assert (I2 : In (SGot 0 0 3 [0; 0; 0x0B]) (map sight_of (history s))) by (rewrite E; do 11 right; left; reflexivity).
  assert (I3 : In (SArrives 2 3 0x72 node_b) (map sight_of (history s))) by (rewrite E; do 10 right; left; reflexivity).
  apply in_map_iff in I1 as (e1 & S1 & I1). apply in_map_iff in I2 as (e2 & S2 & I2). apply in_map_iff in I3 as (e3 & S3 & I3).
  apply sight_post in S1 as (c & n & r & m & m' & -> & Er & Et). apply sight_got in S2 as (n' & x & -> & Ex).
  destruct e3 as [|? [] []|t3 y3]; cbn in S3; try discriminate; try (destruct m0; discriminate). inversion S3; subst.
  exists s, c, n, r, m, 0, m', x. split; [exact X|]. split; [exact Rn|]. split; [exact I1|]. split; [eauto|]. split; [congruence|].
  split; [exists 2%nat, y3; split; [exact I3|congruence]|].
  intros t y I Ty. apply sight_arrives in I. rewrite Ty, Ex in I. rewrite Er. of_sights E I. injection I as A C D. rewrite <- D. discriminate.
Qed.
Print Assumptions C115_order.
Print Assumptions C115_search.
Print Assumptions C115_search_asks.
Print Assumptions C115_bench.
Print Assumptions C115_post.
Print Assumptions C115_search_tid.
Print Assumptions C115_bench_tid.
Print Assumptions C115_post_tid.
Print Assumptions C115_sender_refuted.
