(** The order of the calls of one thread, and the kinds of their answers. *)
From Verif Require Import Base HMap ModelCodec ModelMessages ModelObject ModelTransport ModelNode ModelController ModelDevice ModelThreads
  SpecNode SpecThreads SpecClients ProofsThreads ProofsThreads2 ProofsThreads5.
From Verif Require ModelLocks.

Section S.
  Context {U : Type} {P : Profile} {HO : HashOrder} {Os : OS} {Uu : Uuids} (db : list object) (what : observer -> obs) (net : bool).
  Implicit Types (s : process U).

  (** The program leads to [q]. *)
  Inductive within (q : answer -> prog U) : prog U -> Prop :=
  | wi_end v : within q (q v)
  | wi_lock l p : within q p -> within q (Lock l p)
  | wi_unlock l p : within q p -> within q (Unlock l p)
  | wi_attempt l y z : within q y -> within q z -> within q (Attempt l y z)
  | wi_on_node n b k : (forall v, within q (k v)) -> within q (OnNode n b k)
  | wi_on_ctrl c b k : (forall v, within q (k v)) -> within q (OnCtrl c b k)
  | wi_await n ch k : (forall v, within q (k v)) -> within q (Await n ch k).
  Definition inside (q : answer -> prog U) (x : thread U) : Prop :=
    match x with
    | Out p => within q p
    | InNode _ _ k | InCtrl _ _ k => forall v, within q (k v)
    | Dead => True
    end.
  Lemma prog_within c (k : answer -> prog U) : within k (prog_of c k).
  Proof. destruct c as [| | | | | | | | | | | | | | | |[]|[]| |]; cbn; repeat first [constructor; fail|constructor; intros]. Qed.

  Lemma made_app t x h y h' z : calls_made (U := U) t x h y -> calls_made t y h' z -> calls_made t x (h ++ h') z.
  Proof. induction 1; cbn; [auto|]. intros Y. constructor. auto. Qed.
  Lemma events_app t (h h' : list (event U)) : events_of t (h ++ h') = events_of t h ++ events_of t h'.
  Proof. apply filter_app. Qed.

  (** Where the thread [t] with the program [x] is after the events [h]. *)
  Inductive stands (t : nat) (x : client U) (h : list (event U)) (th : thread U) : Prop :=
  | sd_between y : calls_made t x h y -> th = Out (client_prog y) -> stands t x h th
  | sd_calling h0 c k : calls_made t x h0 (Call c k) -> h = h0 ++ [ECall t c] -> inside (fun v => Leave c v (client_prog (k v))) th -> stands t x h th.

  Lemma stands_inside t x h th th' : stands t x h th -> (forall y, th <> Out (client_prog y)) ->
    (forall c k, inside (fun v => Leave c v (client_prog (k v))) th -> inside (fun v => Leave c v (client_prog (k v))) th') ->
    stands t x h th'.
  Proof. intros [y M E|h0 c k M E In] N X; [destruct (N y E)|]. eapply sd_calling; eauto. Qed.

  Definition all_stand (xs : list (client U)) s : Prop :=
    (length xs <= next (life s))%nat /\ forall t, (t < length xs)%nat -> stands t (nth t xs Finished) (events_of t (history s)) (threads s t).

  Lemma not_client (p : prog U) : match p with Halt | Enter _ _ => False | _ => True end -> forall y, Out p <> Out (client_prog y).
  Proof. intros X [|c k] E; inversion E; subst; exact X. Qed.

  Lemma stand_step xs s s' : all_stand xs s -> step db what net s s' -> all_stand xs s'.
  Proof.
    intros [Le A] Hs. split.
    { destruct Hs; cbn; lia. }
    intros t Lt. specialize (A t Lt). unfold events_of in *.
    assert (Ng : (t =? next (life s))%nat = false) by (apply Nat.eqb_neq; lia).
    inversion Hs as [t0 c p T|t0 c v p T|t0 l p T Ow Po|t0 l p T Ow Po|t0 l p T Ow|t0 l y q T Ow Po|t0 l y q T Ex
      |t0 n b k T Ow Po|t0 n b k T Ow Po|t0 c b k T Ow Po|t0 c b k T Ow Po|t0 n b p T Ow Po|t0 n b p T Ex|t0 c b p T Ow Po|t0 c b p T Ex
      |t0 n f k d b T E|t0 n f k T E|t0 n v k T|t0 c f k d b T E|t0 c f k T E|t0 c v k T|t0 n ch k m T Nm|t0 n ch k T
      |t0 n k' b k T|t0 n k' j o b k t' T Nt Ow Po|t0 n k' j o b k t' T Nt Ow Po|t0 n k' j o b k T Nt
      |t0 n k' j b k t' T Nt Fl|t0 n k' j b k t' T Nt Fl T'|t0 n k' j b k t' T Nt Fl T'|t0 n k' j b k T Nt
      |t0 T Fl|t0 T Fl|t0 T|t0 T Ne|t0 data from m T Ne Oc Pa|t0 data T Ne Oc Pa|t0 m T Ow Po|t0 m T Ow Po]; subst s';
      (destruct (Nat.eq_dec t t0) as [<-|Ne0];
       [|assert (Nq : (t =? t0)%nat = false) by (apply Nat.eqb_neq; exact Ne0); assert (Nr : (t0 =? t)%nat = false) by (apply Nat.eqb_neq; congruence);
         cbn; unfold upd; rewrite ?filter_app; cbn; rewrite ?Nq, ?Nr, ?Ng, ?app_nil_r; exact A]);
      cbn; unfold upd; rewrite ?Nat.eqb_refl, ?filter_app, ?Ng; cbn; rewrite ?Nat.eqb_refl; rewrite ?T in A.
    - destruct A as [y M E|h0 c' k M E In]; [|cbn in In; inversion In].
      destruct y as [|c' k]; cbn in E; inversion E; subst. eapply sd_calling; [exact M|reflexivity|]. cbn. apply prog_within.
    - destruct A as [y M E|h0 c' k M E In]; [destruct y; discriminate|]. cbn in In. inversion In; subst. rewrite E, <- app_assoc. cbn.
      eapply sd_between; [|reflexivity]. eapply made_app; [exact M|]. constructor. constructor.
    - apply (stands_inside _ _ _ _ _ A); [apply not_client; exact Logic.I|]. intros c k X. inversion X; assumption.
    - apply (stands_inside _ _ _ _ _ A); [apply not_client; exact Logic.I|]. intros c k X. exact Logic.I.
    - apply (stands_inside _ _ _ _ _ A); [apply not_client; exact Logic.I|]. intros c k X. inversion X; assumption.
    - apply (stands_inside _ _ _ _ _ A); [apply not_client; exact Logic.I|]. intros c k X. inversion X; assumption.
    - apply (stands_inside _ _ _ _ _ A); [apply not_client; exact Logic.I|]. intros c k X. inversion X; assumption.
    - apply (stands_inside _ _ _ _ _ A); [apply not_client; exact Logic.I|]. intros c k0 X. inversion X; assumption.
    - apply (stands_inside _ _ _ _ _ A); [apply not_client; exact Logic.I|]. intros c k0 X. exact Logic.I.
    - apply (stands_inside _ _ _ _ _ A); [apply not_client; exact Logic.I|]. intros c0 k0 X. inversion X; assumption.
    - apply (stands_inside _ _ _ _ _ A); [apply not_client; exact Logic.I|]. intros c0 k0 X. exact Logic.I.
    - apply (stands_inside _ _ _ _ _ A); [apply not_client; exact Logic.I|]. intros c k X. inversion X.
    - apply (stands_inside _ _ _ _ _ A); [apply not_client; exact Logic.I|]. intros c k X. inversion X.
    - apply (stands_inside _ _ _ _ _ A); [apply not_client; exact Logic.I|]. intros c0 k X. inversion X.
    - apply (stands_inside _ _ _ _ _ A); [apply not_client; exact Logic.I|]. intros c0 k X. inversion X.
    - apply (stands_inside _ _ _ _ _ A); [discriminate|]. intros c k0 X. exact X.
    - apply (stands_inside _ _ _ _ _ A); [discriminate|]. intros c k0 X. exact Logic.I.
    - apply (stands_inside _ _ _ _ _ A); [discriminate|]. intros c k0 X. exact (X v).
    - apply (stands_inside _ _ _ _ _ A); [discriminate|]. intros c0 k0 X. exact X.
    - apply (stands_inside _ _ _ _ _ A); [discriminate|]. intros c0 k0 X. exact Logic.I.
    - apply (stands_inside _ _ _ _ _ A); [discriminate|]. intros c0 k0 X. exact (X v).
    - apply (stands_inside _ _ _ _ _ A); [apply not_client; exact Logic.I|]. intros c k0 X. cbn in *. inversion X as [| | | | | |? ? ? Y]. apply Y.
    - apply (stands_inside _ _ _ _ _ A); [apply not_client; exact Logic.I|]. intros c k0 X. cbn in *. inversion X as [| | | | | |? ? ? Y]. apply Y.
    - apply (stands_inside _ _ _ _ _ A); [discriminate|]. intros c k0 X. exact X.
    - apply (stands_inside _ _ _ _ _ A); [discriminate|]. intros c k0 X. exact X.
    - apply (stands_inside _ _ _ _ _ A); [discriminate|]. intros c k0 X. exact Logic.I.
    - apply (stands_inside _ _ _ _ _ A); [discriminate|]. intros c k0 X. exact X.
    - rewrite T. exact A.
    - apply (stands_inside _ _ _ _ _ A); [discriminate|]. intros c k0 X. exact X.
    - apply (stands_inside _ _ _ _ _ A); [discriminate|]. intros c k0 X. exact Logic.I.
    - apply (stands_inside _ _ _ _ _ A); [discriminate|]. intros c k0 X. exact X.
    - apply (stands_inside _ _ _ _ _ A); [apply not_client; exact Logic.I|]. intros c k0 X. inversion X.
    - apply (stands_inside _ _ _ _ _ A); [apply not_client; exact Logic.I|]. intros c k0 X. inversion X.
    - apply (stands_inside _ _ _ _ _ A); [apply not_client; exact Logic.I|]. intros c k0 X. inversion X.
    - apply (stands_inside _ _ _ _ _ A); [apply not_client; exact Logic.I|]. intros c k0 X. inversion X.
    - destruct A as [y M E|h0 c' k M E In]; [destruct y; discriminate|inversion In].
    - destruct A as [y M E|h0 c' k M E In]; [destruct y; discriminate|inversion In].
    - destruct A as [y M E|h0 c' k M E In]; [destruct y; discriminate|inversion In].
    - destruct A as [y M E|h0 c' k M E In]; [destruct y; discriminate|inversion In].
  Qed.
  Lemma stand_all ns cs xs s : steps db what net (begins ns cs xs) s -> all_stand xs s.
  Proof.
    intros St. remember (begins ns cs xs) as s0 eqn:E. induction St as [s|s s1 s2 St IH S1]; [|eapply stand_step; eauto]. subst.
    split; [cbn; lia|]. intros t Lt. eapply sd_between; [constructor|reflexivity].
  Qed.

  (** Receive threads make no calls. *)
  Definition of_app (base : nat) (h : list (event U)) : Prop :=
    forall e, In e h -> match e with ECall t _ | EReturn t _ _ => (t < base)%nat | EGot _ _ => True end.
  Lemma of_app_all ns cs xs s : down ns -> steps db what net (begins ns cs xs) s -> of_app (length xs) (history s).
  Proof.
    intros D St.
    assert (X : ok db (length xs) s /\ leads_all (length xs) s /\ of_app (length xs) (history s)); [|apply X].
    remember (begins ns cs xs) as s0 eqn:E. induction St as [s|s s1 s2 St IH S1].
    - subst. split; [apply (ok_begins db what _ net ns cs xs _ eq_refl D); constructor|]. split; [intros t L; cbn in L; lia|intros e []].
    - destruct (IH E) as (K & L & A). split; [eapply ok_step; eauto|]. split; [eapply leads_step; eauto|].
      assert (Out : forall t p, threads s1 t = Out p -> match p with Enter _ _ | Leave _ _ _ => True | _ => False end -> (t < length xs)%nat).
      { intros t p T X. destruct (Nat.lt_ge_cases t (length xs)) as [Y|Y]; [exact Y|]. exfalso.
        destruct (Nat.lt_ge_cases t (next (life s1))) as [Z|Z].
        - specialize (L t (conj Y Z)). rewrite T in L. destruct L as [L|L]; [inversion L; subst; exact X|destruct p; contradiction].
        - rewrite (s_fresh _ (proj1 (proj2 K)) t Z) in T. inversion T; subst. exact X. }
      destruct S1; try exact A; cbn; intros e I; (apply in_app_or in I as [I|[<-|[]]]; [exact (A e I)|]); try exact Logic.I; eapply Out; eauto; exact Logic.I.
  Qed.

  (** ** Kinds of answers *)
  Definition kinds_told (a : state U) : Prop :=
    (forall t c v r, a_status a t = Answered c v r -> kind_of_answer c v) /\ forall t c v, In (EReturn t c v) (a_history a) -> kind_of_answer c v.
  Lemma passed_tid (n n' : node U) m m' : update_tid n (msg_set_seoj m NODE_PROFILE_OBJECT_CODE) = (n', m') -> passed m m'.
  Proof.
    unfold update_tid. destruct (msg_has_tid _); [intros E; inversion E; subst; repeat split|].
    destruct (next_tid n) as [n1 t]. intros E. inversion E; subst. repeat split.
  Qed.
  Lemma effect_kind c n f (d d' : nstate U) v : effect_of c = AtNode n f -> f d = Ret (d', v) -> kind_of_answer c v.
  Proof.
    intros Ef Hf. destruct d as [[u x] w].
    assert (Post : forall i r m, c = CCtrlPost i n r m -> kind_of_answer c v).
    { intros i r m ->. cbn in Ef |- *. inversion Ef; subst; clear Ef. unfold controller_post, node_post in Hf.
      destruct (update_tid x _) as [x1 m1] eqn:E. apply passed_tid in E. destruct (manager_send _ _ _ _) as [ok w1]. inversion Hf; subst. eauto. }
    destruct c; cbn in Ef |- *; inversion Ef; subst; clear Ef; try (eapply Post; reflexivity); clear Post;
      unfold obind in Hf; repeat match type of Hf with context [match ?e with _ => _ end] => destruct e end; try discriminate; inversion Hf; subst; eauto.
  Qed.
  Lemma kinds_step a a' : kinds_told a -> astep db what net a a' -> kinds_told a'.
  Proof.
    intros [A B] St.
    assert (Put : forall t x, match x with Answered c v _ => kind_of_answer c v | _ => True end ->
      forall t' c v r, put (a_status a) t x t' = Answered c v r -> kind_of_answer c v).
    { intros t x X t' c v r. unfold put. destruct (Nat.eqb t' t); [intros ->; exact X|apply A]. }
    assert (New : forall e, match e with EReturn _ c v => kind_of_answer c v | _ => True end ->
      forall t c v, In (EReturn t c v) (a_history a ++ [e]) -> kind_of_answer c v).
    { intros e X t c v I. apply in_app_or in I as [I|[->|[]]]; [eapply B, I|exact X]. }
    destruct St as [t c T|t c n f d v T Ef Lk X|t c x f d v T Ef Lk X|t n ch m T Nm|t n ch T|t c v T Rf Ex|t c v T
      |t c v n f k' r T|t c v n f k' j o r t' T|t c v n f k' j o r T|t c v n f k' j r t' T|t c v n f k' j r T
      |t data from m T Nt Oc Pa|t m T|t T|t m n r d T Bd Ob|t m c r d w T Bd Ob|t m n r T|t m c r T|t m T
      |t c L T|t m n r T|t m c r T|t data T|t m r t' T|t c v n f k' j o r t' T|t c v n f k' j r t' T];
      split; cbn; try exact B; try (apply Put; try exact Logic.I; try (eapply A; eauto; fail)); try (apply New; try exact Logic.I; try (eapply A; eauto; fail)); cbn; eauto.
    - eapply effect_kind; eauto.
    - destruct c; cbn in Ef |- *; inversion Ef; subst. match type of X with context [a_ctrls a ?y] => destruct (a_ctrls a y) as [l w] end. destruct (controller_nodes w l) as [y|]; [|discriminate].
      cbn in X. inversion X; subst. eauto.
    - destruct c; cbn in Rf; try discriminate. inversion Rf; subst. cbn. eauto.
    - intros t' c0 v0 r0. unfold put at 1. destruct (Nat.eqb t' t); [intros X; inversion X; subst; eapply A; eauto|]. apply Put. exact Logic.I.
  Qed.
  Lemma kinds_all ns cs k a : asteps db what net (a_begins ns cs k) a -> kinds_told a.
  Proof.
    intros A. remember (a_begins ns cs k) as a0 eqn:E. induction A as [a|a a1 a2 A IH St]; [|eapply kinds_step; eauto]. subst. split; [discriminate|intros ? ? ? []].
  Qed.
End S.
