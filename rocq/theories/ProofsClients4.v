(** The tools in all executions. *)
From Verif Require Import Base HMap ModelCodec ModelMessages DbTable ModelObject ModelTransport ModelNode ModelController ModelDevice ModelThreads ModelTools
  SpecWire SpecObject SpecNode SpecThreads SpecWait SpecFound ProofsCodec2 ProofsObject ProofsObject2 ProofsObject3 PropertiesDb ProofsController PropertiesController ProofsHost
  PropertiesTools PropertiesDevice ProofsThreads ProofsThreads2 ProofsThreads5 PropertiesThreads ProofsThreads6 PropertiesThreads4 ProofsFound ProofsClients ModelClients SpecClients ProofsClients2 ProofsClients3.

(** All calls of the program are [A], if all answers are [G]. *)
Fixpoint only {U} (A : call U -> Prop) (G : answer -> Prop) (x : client U) : Prop :=
  match x with Finished => True | Call c k => A c /\ forall v, G v -> only A G (k v) end.
(** After the first post nothing disturbs the TIDs of the node. *)
Fixpoint steady {U} (n : nat) (x : client U) : Prop :=
  match x with
  | Finished => True
  | Call c k => if posts n c then disturbs n c = false /\ forall v, only (fun c => disturbs n c = false) (fun _ => True) (k v) else forall v, steady n (k v)
  end.
Lemma steady_unposting {U} n (x : client U) : only (fun c => posts n c = false) (fun _ => True) x -> steady n x.
Proof. induction x as [|c k IH]; cbn; [auto|]. intros [-> X]. intros v. apply IH, X, Logic.I. Qed.
Lemma steady_calm {U} n (x : client U) : only (fun c => disturbs n c = false) (fun _ => True) x -> steady n x.
Proof. induction x as [|c k IH]; cbn; [auto|]. intros [D X]. destruct (posts n c); [split; [exact D|intros v; apply X, Logic.I]|]. intros v. apply IH, X, Logic.I. Qed.

Section S.
  Context {U : Type} {P : Profile} {HO : HashOrder} {Os : OS} {Uu : Uuids} (db : list object) (what : observer -> obs) (net : bool).

  (** ** Where a thread is *)
  Lemma thread_events ns cs xs (s : process U) t x : down ns -> steps db what net (begins ns cs xs) s -> nth_error xs t = Some x ->
    exists h y, calls_made t x h y /\ kinds h /\
      ((events_of t (history s) = h /\ threads s t = Out (client_prog y)) \/
       (exists c' k, y = Call c' k /\ events_of t (history s) = h ++ [ECall t c'] /\ threads s t <> Out Halt)).
  Proof.
    intros Dn St Nx. destruct (stand_all db what net _ _ _ _ St) as [_ Sd]. assert (L : (t < length xs)%nat) by (apply nth_error_Some; congruence).
    specialize (Sd t L). rewrite (nth_error_nth _ _ Finished Nx) in Sd.
    assert (K : kinds (events_of t (history s))).
    { intros i c v I. unfold events_of in I. apply filter_In in I as [I _]. destruct (C106_in_turn db _ _ _ _ _ _ Dn St) as (a & A & H & _).
      rewrite <- H in I. exact (proj2 (kinds_all db what net _ _ _ _ A) _ _ _ I). }
    destruct Sd as [y M T|h0 c k M E Ins].
    - exists (events_of t (history s)), y. auto.
    - exists h0, (Call c k). split; [exact M|]. split; [rewrite E in K; apply kinds_app in K; apply K|]. right. exists c, k. split; [reflexivity|]. split; [exact E|].
      intros X. rewrite X in Ins. cbn in Ins. inversion Ins.
  Qed.
  Lemma finished_events ns cs xs (s : process U) t x : down ns -> steps db what net (begins ns cs xs) s -> nth_error xs t = Some x -> threads s t = Out Halt ->
    kinds (events_of t (history s)) /\ calls_made t x (events_of t (history s)) Finished.
  Proof.
    intros Dn St Nx Th. destruct (thread_events _ _ _ _ _ _ Dn St Nx) as (h & y & M & K & [[-> T]|(c' & k & _ & _ & T)]); [|contradiction].
    split; [exact K|]. rewrite Th in T. destruct y; [exact M|discriminate].
  Qed.

  (** ** What the answers are like *)
  Definition nodes_good (l : list remote_node) : Prop :=
    Forall (fun r => Forall (fun o => object_code o < 2 ^ 24 /\ Forall (fun p => p_code p < 256) (object_properties o)) (rn_objects r)) l.
  Definition good_answer (v : answer) : Prop := match v with VNodes l => nodes_good l | _ => True end.
  Lemma listed_bound q cs : listed q cs -> Forall (fun c => c < 16777216) cs.
  Proof. destruct 1; auto. Qed.
  Lemma entry_good (h : list (event U)) l : Forall (entry db h) l -> nodes_good l.
  Proof.
    intros F. eapply Forall_impl; [|exact F]. intros r [Ok (t & m & _ & _ & codes & L & _ & Ob)]. unfold remote_ok in Ok.
    assert (Bc : Forall (fun c => c < 16777216) (concat codes ++ [0x0EF001])).
    { apply Forall_app. split; [|repeat constructor]. clear - L. induction L as [|q c qs cs H L IH]; cbn; [constructor|]. apply Forall_app. split; [eapply listed_bound; eauto|exact IH]. }
    revert Ob Bc Ok. generalize (concat codes ++ [0x0EF001]) (rn_objects r). intros cs os Ob. induction Ob as [|c o cs os [E _] Ob IH]; intros Bc Ok; [constructor|].
    inversion Bc; inversion Ok as [|? ? [[W _ _] _] Ok']; subst. constructor; [|auto]. split; [assumption|].
    apply Forall_forall. intros p I. unfold object_properties, hvalues in I. apply in_map_iff in I as ([k v] & <- & I). apply (ow_keyed _ W) in I as [I1 I2]. cbn. lia.
  Qed.
  Lemma lists_good seed ns cs xs (s : process U) t c l : standard_database seed = Ret db -> (forall k, uuid_ok (new_uuid k)) -> down ns -> (forall c, fst (cs c) = []) ->
    steps db what net (begins ns cs xs) s -> In (EReturn t c (VNodes l)) (history s) -> nodes_good l.
  Proof.
    intros Db Uo Dn Em St I. destruct (C106_in_turn db _ _ _ _ _ _ Dn St) as (a & A & H & _). apply in_split in I as (h1 & h2 & E). rewrite <- H in E.
    destruct (fi_past _ _ (finds_all seed db what net Db Uo _ _ _ a Em A) _ _ _ _ _ E) as [F _]. eapply entry_good; eauto.
  Qed.
  Lemma answers_good ns cs xs (s : process U) n t ch m : down ns -> unposted (ns n) -> steps db what net (begins ns cs xs) s -> calls_ok (history s) ->
    In (EReturn t (CWait n ch) (VGot (Some m))) (history s) -> Forall u8prop (m_props m).
  Proof.
    intros Dn Up St K I. destruct (C106_in_turn db _ _ _ _ _ _ Dn St) as (a & A & H & _). apply in_split in I as (h1 & h2 & E).
    rewrite <- H in K, E. pose proof (mailed_all db what net n _ _ _ a Up A K) as Ml. apply (ml_ret _ _ Ml _ _ _ E eq_refl).
  Qed.
  Lemma in_events t e (h : list (event U)) : In e (events_of t h) -> In e h.
  Proof. unfold events_of. intros I. apply filter_In in I. apply I. Qed.
  Lemma conversation_got t c n es (h : list (event U)) k m : conversation t c n es h -> got es k = Some m -> exists ch, In (EReturn t (CWait n ch) (VGot (Some m))) h.
  Proof.
    intros C. revert k. induction C as [|r q ch q' a l h C IH]; intros [|k] E; try discriminate.
    - cbn in E. subst. exists ch. do 3 right. left. reflexivity.
    - destruct (IH k E) as (ch' & I). exists ch'. do 4 right. exact I.
  Qed.

  (** ** A tool on its own *)
  Lemma only_made A (G : answer -> Prop) t (x : client U) h y : only A G x -> calls_made t x h y -> (forall c v, In (EReturn t c v) h -> G v) ->
    (forall i c, In (ECall i c) h -> A c) /\ only A G y.
  Proof.
    intros X M. induction M as [x|c k v h y M IH]; intros Hg; [split; [intros i c []|exact X]|]. destruct X as [X1 X2].
    destruct IH as [Y Z]; [apply X2, (Hg c v); right; left; reflexivity|intros c' v' I; apply (Hg c' v'); right; right; exact I|].
    split; [|exact Z]. intros i c' [E|[E|I]]; [inversion E; subst; exact X1|discriminate|eauto].
  Qed.
  Lemma made_split t (x : client U) h y : calls_made t x h y -> forall g1 c g2, h = g1 ++ ECall t c :: g2 -> exists k, calls_made t x g1 (Call c k).
  Proof.
    induction 1 as [x|c k v h y M IH]; intros g1 c' g2 E; [destruct g1; discriminate|]. destruct g1 as [|e g1]; [inversion E; subst; exists k; constructor|].
    destruct g1 as [|e' g1]; [inversion E|]. inversion E; subst. destruct (IH _ _ _ eq_refl) as (k' & X). exists k'. constructor. exact X.
  Qed.
  Lemma made_closed t (x : client U) h y i : calls_made t x h y -> open_call i None h = None.
  Proof. induction 1 as [|c k v h y M IH]; cbn; [reflexivity|]. destruct (Nat.eqb t i); exact IH. Qed.
  Lemma open_events i (h : list (event U)) : forall o, open_call i o h = open_call i o (events_of i h).
  Proof.
    induction h as [|[t c|t c v|t m] h IH]; intros o; cbn; [reflexivity| | |]; destruct (Nat.eqb_spec t i) as [->|Ne]; cbn; rewrite ?Nat.eqb_refl; rewrite ?IH; try reflexivity.
  Qed.
  Lemma steady_made n t (x : client U) h y : steady n x -> calls_made t x h y -> steady n y /\
    ((forall i c, In (ECall i c) h -> posts n c = false) \/ only (fun c => disturbs n c = false) (fun _ => True) y).
  Proof.
    intros X M. induction M as [x|c k v h y M IH]; [split; [exact X|left; intros i c []]|]. cbn in X. destruct (posts n c) eqn:Pc.
    - destruct X as [_ X]. destruct (only_made _ _ _ _ _ _ (X v) M (fun _ _ _ => Logic.I)) as [_ Y]. split; [apply steady_calm, Y|]. right. exact Y.
    - destruct (IH (X v)) as [Y Z]. split; [exact Y|]. destruct Z as [Z|Z]; [left|right; exact Z]. intros i c' [E|[E|I]]; [inversion E; subst; exact Pc|discriminate|eauto].
  Qed.
  Lemma events_other t t' (c : call U) h : t' <> t -> events_of t' (ECall t c :: h) = events_of t' h.
  Proof. intros Ne. unfold events_of. cbn. destruct (Nat.eqb_spec t t'); [congruence|reflexivity]. Qed.
  Lemma no_calls_closed i (h : list (event U)) : (forall c, ~ In (ECall i c) h) -> open_call i None h = None.
  Proof.
    induction h as [|[t c|t c v|t m] h IH]; intros N; cbn; [reflexivity| | |].
    - destruct (Nat.eqb_spec t i) as [->|]; [destruct (N c); left; reflexivity|]. apply IH. intros c' I. apply (N c'). right. exact I.
    - destruct (Nat.eqb_spec t i); apply IH; intros c' I; apply (N c'); right; exact I.
    - apply IH. intros c' I. apply (N c'). right. exact I.
  Qed.

  Lemma alone ns cs (x : client U) s : down ns -> steps db what net (begins ns cs [x]) s ->
    (forall e, In e (history s) -> match e with ECall i _ | EReturn i _ _ => i = 0%nat | EGot _ _ => True end) /\
    exists h y, calls_made 0 x h y /\ kinds h /\ (events_of 0 (history s) = h \/ exists c k, y = Call c k /\ events_of 0 (history s) = h ++ [ECall 0%nat c]).
  Proof.
    intros Dn St. split.
    - intros e I. pose proof (of_app_all db what net _ _ _ _ Dn St e I) as X. destruct e; cbn in X; lia || auto.
    - destruct (thread_events _ _ _ _ 0%nat x Dn St eq_refl) as (h & y & M & K & X). exists h, y. split; [exact M|]. split; [exact K|].
      destruct X as [[X _]|(c & k & X & Y & _)]; [left; exact X|right; eauto].
  Qed.
  (** Every call in the history of a thread on its own comes after complete calls. *)
  Lemma alone_call ns cs (x : client U) s h1 t c h2 : down ns -> steps db what net (begins ns cs [x]) s -> history s = h1 ++ ECall t c :: h2 ->
    exists k, calls_made 0 x (events_of 0 h1) (Call c k).
  Proof.
    intros Dn St E. destruct (alone _ _ _ _ Dn St) as (Z & h & y & M & _ & X).
    assert (t = 0%nat) as -> by (apply (Z (ECall t c)); rewrite E; apply in_or_app; right; left; reflexivity).
    rewrite E, events_app in X. change (events_of 0 (ECall 0%nat c :: h2)) with (ECall 0%nat c :: events_of 0 h2) in X.
    destruct X as [X|(c' & k & -> & X)]; [eapply made_split; eauto|].
    destruct (events_of 0 h2) as [|e r] eqn:Er using rev_ind.
    - apply app_inj_tail in X as [<- X]. inversion X; subst. eauto.
    - clear IHr. rewrite app_comm_cons, app_assoc in X. apply app_inj_tail in X as [<- _]. eapply made_split; eauto.
  Qed.
  Lemma in_zero e (h : list (event U)) : In e h -> who e = 0%nat -> In e (events_of 0 h).
  Proof. intros I W. unfold events_of. apply filter_In. split; [exact I|]. apply Nat.eqb_eq. exact W. Qed.
  Lemma alone_undisturbed n ns cs (x : client U) s : down ns -> steps db what net (begins ns cs [x]) s -> steady n x -> undisturbed n (history s).
  Proof.
    intros Dn St Sx h1 t c h2 E. destruct (alone_call _ _ _ _ _ _ _ _ Dn St E) as (k & M). destruct (alone _ _ _ _ Dn St) as (Z & _).
    assert (Zero : forall i c', In (ECall i c') h1 -> i = 0%nat).
    { intros i c' I. apply (Z (ECall i c')). rewrite E. apply in_or_app. auto. }
    destruct (steady_made n _ _ _ _ Sx M) as [Sy Pr]. split.
    - intros Pc. split; [cbn in Sy; rewrite Pc in Sy; apply Sy|]. intros t' c' O. exfalso. destruct t' as [|t'].
      + rewrite open_events, (made_closed _ _ _ _ _ M) in O. discriminate.
      + rewrite no_calls_closed in O; [discriminate|]. intros c0 I. apply Zero in I. discriminate.
    - intros D t' c' I. pose proof (Zero _ _ I) as ->. destruct Pr as [Pr|Pr]; [eapply Pr, in_zero; [exact I|reflexivity]|]. destruct Pr as [Pr _]. congruence.
  Qed.
  Lemma alone_ok seed ns cs (x : client U) s : standard_database seed = Ret db -> (forall k, uuid_ok (new_uuid k)) -> down ns -> (forall c, fst (cs c) = []) ->
    steps db what net (begins ns cs [x]) s -> only call_ok good_answer x -> calls_ok (history s).
  Proof.
    intros Db Uo Dn Em St Ox t c I. destruct (alone _ _ _ _ Dn St) as (Z & _). pose proof (Z _ I) as Zt. cbn in Zt. subst t.
    apply in_split in I as (h1 & h2 & E). destruct (alone_call _ _ _ _ _ _ _ _ Dn St E) as (k & M).
    destruct (only_made _ _ _ _ _ _ Ox M) as [_ [Y _]]; [|exact Y]. intros c' v I. destruct v; cbn; auto.
    eapply lists_good; eauto. rewrite E. apply in_or_app. left. eapply in_events; eauto.
  Qed.
End S.
