(** What the threads of the command-line tools do. *)
From Verif Require Import Base HMap ModelCodec ModelMessages ModelObject ModelTransport ModelNode ModelController ModelDevice ModelThreads ModelTools ModelClients
  SpecNode SpecThreads SpecClients PropertiesTools ProofsThreads ProofsClients.

(** A request, and whether the program looks at an answer without a panic. *)
Notation query := (remote_node * message * (option message -> bool))%type.
Definition is_ret {A} (x : outcome A) : bool := match x with Ret _ => true | Panic => false end.
Fixpoint read_queries (all : bool) (r : remote_node) (oc : N) (ps : list prop) : list query :=
  match ps with
  | [] => []
  | p :: l => if negb all && negb (prop_is_read_required p) then read_queries all r oc l
              else (r, read_message oc (p_code p), fun a => is_ret (answer_data a)) :: read_queries all r oc l
  end.
Definition object_queries all r os : list query := flat_map (fun o => read_queries all r (object_code o) (object_properties o)) os.
Definition search_queries {P : Profile} all nodes : list query :=
  flat_map (fun r => (r, read_message 0x0EF001 0x8A, fun a => is_ret (maker_name a)) :: object_queries all r (rn_objects r)) nodes.
Definition bench_queries all nodes : list query := flat_map (fun r => object_queries all r (rn_objects r)) nodes.

(** ** The loops *)
Fixpoint posted (l : list act) : list (remote_node * message) :=
  match l with [] => [] | APost r m :: t => (r, m) :: posted t | APrint _ :: t => posted t end.
Lemma posted_app a b : posted (a ++ b) = posted a ++ posted b.
Proof. induction a as [|[r m|l] a IH]; cbn; rewrite ?IH; reflexivity. Qed.

Section Loops.
  Variable ans : nat -> option message.
  Definition loops (qs : list query) (k : nat) (x : outcome (nat * list act)) : Prop :=
    match x with
    | Ret (k', acts) => k' = (k + length qs)%nat /\ posted acts = map fst qs /\ forall i q, nth_error qs i = Some q -> snd q (ans (k + i)) = true
    | Panic => exists i q, nth_error qs i = Some q /\ snd q (ans (k + i)) = false
    end.
  Lemma loops_nil k : loops [] k (Ret (k, [])).
  Proof. cbn. split; [lia|]. split; [reflexivity|]. intros [|i] q; discriminate. Qed.
  Lemma loops_print qs k x l : loops qs k x -> loops qs k (let! y := x in Ret (fst y, APrint l :: snd y)).
  Proof. destruct x as [[k' acts]|]; cbn; auto. Qed.
  Lemma loops_app qs1 qs2 k x y : loops qs1 k x -> (forall k', loops qs2 k' (y k')) ->
    loops (qs1 ++ qs2) k (let! a := x in let! b := y (fst a) in Ret (fst b, snd a ++ snd b)).
  Proof.
    intros A B. destruct x as [[k1 a1]|]; cbn [obind fst snd].
    - destruct A as (-> & A2 & A3). specialize (B (k + length qs1)%nat). destruct (y _) as [[k2 a2]|]; cbn [obind fst snd loops] in *.
      + destruct B as (-> & B2 & B3). rewrite app_length, posted_app, map_app, A2, B2. split; [lia|]. split; [reflexivity|]. intros i q E.
        destruct (Nat.lt_ge_cases i (length qs1)) as [L|L]; [rewrite nth_error_app1 in E by auto; auto|]. rewrite nth_error_app2 in E by auto. apply B3 in E.
        replace (k + i)%nat with (k + length qs1 + (i - length qs1))%nat by lia. exact E.
      + destruct B as (i & q & E & X). exists (length qs1 + i)%nat, q. split; [rewrite nth_error_app2 by lia; replace (length qs1 + i - length qs1)%nat with i by lia; exact E|].
        replace (k + (length qs1 + i))%nat with (k + length qs1 + i)%nat by lia. exact X.
    - destruct A as (i & q & E & X). exists i, q. split; [|exact X]. rewrite nth_error_app1; [exact E|]. apply nth_error_Some. congruence.
  Qed.
  Lemma loops_one {A} r m (f : option message -> outcome A) pr qs k y : (forall k', loops qs k' (y k')) ->
    loops ((r, m, fun a => is_ret (f a)) :: qs) k (let! d := f (ans k) in let! x := y (S k) in Ret (fst x, APost r m :: APrint (pr d) :: snd x)).
  Proof.
    intros B. destruct (f (ans k)) as [d|] eqn:E; cbn [obind].
    - specialize (B (S k)). destruct (y (S k)) as [[k2 a2]|]; cbn [obind fst snd loops] in *.
      + destruct B as (-> & B2 & B3). cbn. split; [lia|]. split; [congruence|]. intros [|i] q X; cbn in X.
        * inversion X; subst. cbn. rewrite Nat.add_0_r, E. reflexivity.
        * apply B3 in X. replace (k + S i)%nat with (S k + i)%nat by lia. exact X.
      + destruct B as (i & q & X & Y). exists (S i), q. split; [exact X|]. replace (k + S i)%nat with (S k + i)%nat by lia. exact Y.
    - cbn. exists 0%nat. eexists. split; [reflexivity|]. cbn. rewrite Nat.add_0_r, E. reflexivity.
  Qed.
  Lemma loops_eq qs k x y : loops qs k x -> x = y -> loops qs k y.
  Proof. congruence. Qed.

  Lemma read_loops all r oc ps : forall k, loops (read_queries all r oc ps) k (read_loop all ans k r oc ps).
  Proof.
    induction ps as [|p l IH]; intros k; cbn [read_queries read_loop]; [apply loops_nil|]. destruct (negb all && _); [apply IH|].
    exact (loops_one r (read_message oc (p_code p)) answer_data (fun d => LProp (p_code p) (p_name p) d) _ k (fun k' => read_loop all ans k' r oc l) IH).
  Qed.
  Lemma object_loops all r os : forall j k, loops (object_queries all r os) k (object_loop all ans k j r os).
  Proof.
    induction os as [|o l IH]; intros j k; cbn [object_queries flat_map object_loop]; [apply loops_nil|].
    pose proof (loops_print _ _ _ (LObject j (object_code o) (o_class_name o)) (loops_app _ _ k _ (fun k' => object_loop all ans k' (S j) r l) (read_loops all r (object_code o) (object_properties o) k) (IH (S j)))) as X.
    eapply loops_eq; [exact X|]. destruct (read_loop _ _ _ _ _ _) as [[k1 a1]|]; cbn [obind fst snd]; [|reflexivity].
    destruct (object_loop _ _ _ _ _ _) as [[k2 a2]|]; reflexivity.
  Qed.
  Lemma search_loops {P : Profile} all nodes : forall i k, loops (search_queries all nodes) k (search_loop all ans k i nodes).
  Proof.
    induction nodes as [|r l IH]; intros i k; cbn [search_queries flat_map search_loop]; [apply loops_nil|].
    pose proof (loops_one r (read_message 0x0EF001 0x8A) (@maker_name P) (fun name => LNode i (rn_addr r) name) (object_queries all r (rn_objects r) ++ search_queries all l) k
      (fun k' => let! x := object_loop all ans k' 0 r (rn_objects r) in let! y := search_loop all ans (fst x) (S i) l in Ret (fst y, snd x ++ snd y))) as X.
    eapply loops_eq; [apply X; intros k'; apply (loops_app _ _ k' _ (fun k0 => search_loop all ans k0 (S i) l)); [apply object_loops|apply IH]|].
    destruct (maker_name (ans k)) as [name|]; cbn [obind]; [|reflexivity]. destruct (object_loop _ _ _ _ _ _) as [[k1 a1]|]; cbn [obind fst snd]; [|reflexivity].
    destruct (search_loop _ _ _ _ _) as [[k2 a2]|]; reflexivity.
  Qed.
  Lemma bench_loops all nodes : forall i k, loops (bench_queries all nodes) k (bench_loop all ans k i nodes).
  Proof.
    induction nodes as [|r l IH]; intros i k; cbn [bench_queries flat_map bench_loop]; [apply loops_nil|].
    pose proof (loops_print _ _ _ (LNode i (rn_addr r) ""%string) (loops_app _ _ k _ (fun k' => bench_loop all ans k' (S i) l) (object_loops all r (rn_objects r) 0 k) (IH (S i)))) as X.
    eapply loops_eq; [exact X|]. destruct (object_loop _ _ _ _ _ _) as [[k1 a1]|]; cbn [obind fst snd]; [|reflexivity].
    destruct (bench_loop _ _ _ _ _) as [[k2 a2]|]; reflexivity.
  Qed.
End Loops.

(** ** The requests *)
Definition request (q : remote_node * N * N) : remote_node * message := (fst (fst q), read_message (snd (fst q)) (snd q)).
Lemma read_requests all r oc ps :
  map fst (read_queries all r oc ps) = map (fun c => (r, read_message oc c)) (map p_code (filter (fun p => all || match p_read p with Required => true | _ => false end) ps)).
Proof.
  induction ps as [|p l IH]; cbn [read_queries filter map]; [reflexivity|]. unfold prop_is_read_required.
  destruct all, (p_read p); cbn; rewrite IH; reflexivity.
Qed.
Lemma object_requests all r os :
  map fst (object_queries all r os) = map request (flat_map (fun o => map (fun c => (r, object_code o, c)) (wanted all o)) os).
Proof.
  induction os as [|o l IH]; [reflexivity|]. change (object_queries all r (o :: l)) with (read_queries all r (object_code o) (object_properties o) ++ object_queries all r l).
  cbn [flat_map]. rewrite !map_app, IH, read_requests. f_equal.
  unfold wanted. rewrite !map_map. apply map_ext. reflexivity.
Qed.
Lemma bench_requests all nodes : map fst (bench_queries all nodes) = map request (flat_map (object_questions all) nodes).
Proof.
  induction nodes as [|r l IH]; [reflexivity|]. change (bench_queries all (r :: l)) with (object_queries all r (rn_objects r) ++ bench_queries all l).
  cbn [flat_map]. rewrite !map_app, IH, object_requests. reflexivity.
Qed.
Lemma search_requests {P : Profile} all nodes : map fst (search_queries all nodes) = map request (flat_map (questions all) nodes).
Proof.
  induction nodes as [|r l IH]; [reflexivity|].
  change (search_queries all (r :: l)) with (((r, read_message 0x0EF001 0x8A, fun a => is_ret (maker_name a)) :: object_queries all r (rn_objects r)) ++ search_queries all l).
  cbn [flat_map]. rewrite !map_app, IH. f_equal. cbn [map fst questions]. f_equal. apply object_requests.
Qed.

(** ** The threads *)
Section S.
  Context {U : Type} (t c n : nat).
  Implicit Types (h : list (event U)).
  Definition kinds (h : list (event U)) : Prop := forall i x v, In (EReturn i x v) h -> kind_of_answer x v.
  Lemma kinds_cons e h : kinds (e :: h) -> kinds h.
  Proof. intros K i x v I. apply (K i x v). right. exact I. Qed.

  Definition exch r m ch m' a : list (event U) :=
    [ECall t (CCtrlPost c n r m); EReturn t (CCtrlPost c n r m) (VPosted ch m'); ECall t (CWait n ch); EReturn t (CWait n ch) (VGot a)].
  Inductive asked (k : client U) : list query -> list exchange -> list (event U) -> client U -> Prop :=
  | as_nil h y : calls_made t k h y -> asked k [] [] h y
  | as_before r m ok qs k0 : asked k ((r, m, ok) :: qs) [] [] (Call (CCtrlPost c n r m) k0)
  | as_posted r m ok qs ch m' k0 : asked k ((r, m, ok) :: qs) [] [ECall t (CCtrlPost c n r m); EReturn t (CCtrlPost c n r m) (VPosted ch m')] (Call (CWait n ch) k0)
  | as_bad r m (ok : option message -> bool) qs ch m' a h y : ok a = false -> calls_made t (dropped c n) h y -> asked k ((r, m, ok) :: qs) [Exchange r m m' a] (exch r m ch m' a ++ h) y
  | as_good r m (ok : option message -> bool) qs ch m' a es h y : ok a = true -> asked k qs es h y -> asked k ((r, m, ok) :: qs) (Exchange r m m' a :: es) (exch r m ch m' a ++ h) y.

  Definition leads (x k : client U) (qs : list query) : Prop := forall h y, kinds h -> calls_made t x h y -> exists es, asked k qs es h y.
  Lemma leads_nil k : leads k k [].
  Proof. intros h y _ M. exists []. constructor. exact M. Qed.
  Lemma leads_ask r m (ok : option message -> bool) qs k K : (forall a, if ok a then leads (K a) k qs else K a = dropped c n) ->
    leads (ask c n r m K) k ((r, m, ok) :: qs).
  Proof.
    intros X h y Kn M. unfold ask in M. inversion M as [|? ? v h1 ? M1]; subst; [exists []; constructor|].
    destruct (Kn t (CCtrlPost c n r m) v) as (ch & m' & -> & _); [right; left; reflexivity|].
    inversion M1 as [|? ? v h2 ? M2]; subst; [exists []; constructor|].
    destruct (Kn t (CWait n ch) v) as (a & ->); [right; right; right; left; reflexivity|].
    specialize (X a). destruct (ok a) eqn:E.
    - destruct (X h2 y) as (es & A); [do 4 apply kinds_cons in Kn; exact Kn|exact M2|]. eexists. exact (as_good k r m ok qs ch m' a es h2 y E A).
    - rewrite X in M2. eexists. exact (as_bad k r m ok qs ch m' a h2 y E M2).
  Qed.
  Lemma leads_unless {A} (f : option message -> outcome A) r m qs x k : leads x k qs ->
    leads (ask c n r m (fun a => unless_panic c n (f a) x)) k ((r, m, fun a => is_ret (f a)) :: qs).
  Proof. intros X. apply leads_ask. intros a. destruct (f a); cbn; auto. Qed.
  Lemma leads_read all r oc ps x k qs : leads x k qs -> leads (read_client c n all r oc ps x) k (read_queries all r oc ps ++ qs).
  Proof.
    intros X. induction ps as [|p l IH]; cbn [read_client read_queries app]; [exact X|]. destruct (negb all && _); [exact IH|].
    exact (leads_unless answer_data r _ _ _ _ IH).
  Qed.
  Lemma leads_object all r os x k qs : leads x k qs -> leads (object_client c n all r os x) k (object_queries all r os ++ qs).
  Proof.
    intros X. induction os as [|o l IH]; cbn [object_client object_queries flat_map app]; [exact X|]. rewrite <- app_assoc. apply leads_read. exact IH.
  Qed.
  Lemma leads_search {P : Profile} all nodes x k qs : leads x k qs -> leads (search_client c n all nodes x) k (search_queries all nodes ++ qs).
  Proof.
    intros X. induction nodes as [|r l IH]; cbn [search_client search_queries flat_map app]; [exact X|]. rewrite <- app_assoc.
    apply (leads_unless maker_name). apply leads_object. exact IH.
  Qed.
  Lemma leads_bench all nodes x k qs : leads x k qs -> leads (bench_client c n all nodes x) k (bench_queries all nodes ++ qs).
  Proof.
    intros X. induction nodes as [|r l IH]; cbn [bench_client bench_queries flat_map app]; [exact X|]. rewrite <- app_assoc. apply leads_object. exact IH.
  Qed.

  (** How a conversation goes. *)
  Definition told (e : exchange) : remote_node * message := (x_to e, x_asked e).
  Definition got (es : list exchange) (i : nat) : option message := nth i (map x_got es) None.
  Definition all_well (qs : list query) (es : list exchange) : Prop :=
    map told es = map fst qs /\ forall i q, nth_error qs i = Some q -> snd q (got es i) = true.
  Definition gone_wrong (qs : list query) (es : list exchange) : Prop :=
    map told es = firstn (length es) (map fst qs) /\ exists i q, S i = length es /\ nth_error qs i = Some q /\ snd q (got es i) = false.
  Lemma asked_runs k qs es h y : asked k qs es h y -> exists h1 h2, h = h1 ++ h2 /\ conversation t c n es h1 /\
    ((all_well qs es /\ calls_made t k h2 y) \/
     (gone_wrong qs es /\ calls_made t (dropped c n) h2 y) \/
     (y <> Finished /\ map told es = firstn (length es) (map fst qs) /\ exists r m, nth_error (map fst qs) (length es) = Some (r, m) /\
        ((h2 = [] /\ exists k0, y = Call (CCtrlPost c n r m) k0) \/
         exists ch m' k0, h2 = [ECall t (CCtrlPost c n r m); EReturn t (CCtrlPost c n r m) (VPosted ch m')] /\ y = Call (CWait n ch) k0))).
  Proof.
    induction 1 as [h y M|r m ok qs k0|r m ok qs ch m' k0|r m ok qs ch m' a h y E M|r m ok qs ch m' a es h y E A IH].
    - exists [], h. split; [reflexivity|]. split; [constructor|]. left. split; [|exact M]. split; [reflexivity|]. intros [|i] q; discriminate.
    - exists [], []. split; [reflexivity|]. split; [constructor|]. right. right. split; [discriminate|]. split; [reflexivity|]. exists r, m. split; [reflexivity|]. left. eauto.
    - eexists [], _. split; [reflexivity|]. split; [constructor|]. right. right. split; [discriminate|]. split; [reflexivity|]. exists r, m. split; [reflexivity|]. right. eauto.
    - eexists (exch r m ch m' a), h. split; [reflexivity|]. split; [repeat constructor|]. right. left. split; [|exact M]. split; [reflexivity|]. exists 0%nat. eexists. split; [reflexivity|]. split; [reflexivity|]. exact E.
    - destruct IH as (h1 & h2 & -> & C & X). exists (exch r m ch m' a ++ h1), h2. split; [rewrite app_assoc; reflexivity|]. split; [constructor; exact C|].
      destruct X as [[[X1 X2] Y]|[[[X1 (i & q & X2 & X3 & X4)] Y]|(Y & X1 & X2)]].
      + left. split; [|exact Y]. split; [cbn; f_equal; exact X1|]. intros [|i] q X; cbn in X; [inversion X; subst; exact E|]. exact (X2 i q X).
      + right. left. split; [|exact Y]. split; [cbn; f_equal; exact X1|]. exists (S i), q. split; [cbn; congruence|]. split; [exact X3|exact X4].
      + right. right. split; [exact Y|]. split; [cbn; f_equal; exact X1|]. exact X2.
  Qed.
End S.
