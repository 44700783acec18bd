(** C113: what the receiver of a post gives out, in all executions. *)
From Verif Require Import Base HMap ModelCodec ModelMessages ModelObject ModelTransport ModelNode ModelController ModelDevice ModelThreads
  SpecWire SpecObject SpecNode SpecThreads SpecWait ProofsCodec ProofsObject ProofsNode ProofsNode2 ProofsNode3 ProofsLetters
  PropertiesObject PropertiesTrans PropertiesDevice ProofsThreads ProofsThreads2 PropertiesThreads ProofsThreads6 ExamplesNode.
From Verif Require ModelLocks.

Section S.
  Context {U : Type} {P : Profile} {HO : HashOrder} {Os : OS} {Uu : Uuids} (db : list object).

  (** A message that a receiver gives out has arrived before at one of the sockets,
      and is not a request. *)
  Theorem C113_received : forall what net (ns : nat -> nstate U) cs xs s n h1 t ch m h2, down ns -> unposted (ns n) ->
    steps db what net (begins ns cs xs) s -> calls_ok (history s) ->
    history s = h1 ++ EReturn t (CWait n ch) (VGot (Some m)) :: h2 ->
    ~ request_service (m_esv m) /\ exists t' m', In (EGot t' m') h1 /\ same_content m m'.
  Proof.
    intros what net ns cs xs s n h1 t ch m h2 Dn Up St K E. destruct (C106_in_turn db _ _ _ _ _ _ Dn St) as (a & A & H & _).
    rewrite <- H in K, E. pose proof (mailed_all db what net n _ _ _ a Up A K) as Ml.
    destruct (ml_ret _ _ Ml _ _ _ E eq_refl) as (X & _ & Y). auto.
  Qed.

  (** However many threads wait, however often: a receiver gives out at most one
      message. *)
  Theorem C113_once : forall what net (ns : nat -> nstate U) cs xs s n ch, down ns -> unposted (ns n) ->
    steps db what net (begins ns cs xs) s -> calls_ok (history s) -> (length (gots n ch (history s)) <= 1)%nat.
  Proof.
    intros what net ns cs xs s n ch Dn Up St K. destruct (C106_in_turn db _ _ _ _ _ _ Dn St) as (a & A & H & _).
    rewrite <- H in K |- *. exact (on_len _ _ _ (once_all db what net n ch _ _ _ a Up A K)).
  Qed.

  (** No two posts on a node get the same receiver. *)
  Theorem C113_channels : forall what net (ns : nat -> nstate U) cs xs s n, down ns -> unposted (ns n) ->
    steps db what net (begins ns cs xs) s -> calls_ok (history s) -> NoDup (channels n (history s)).
  Proof.
    intros what net ns cs xs s n Dn Up St K. destruct (C106_in_turn db _ _ _ _ _ _ Dn St) as (a & A & H & _).
    rewrite <- H in K |- *. exact (se_nodup _ _ (separate_all db what net n _ _ _ a Up A K)).
  Qed.

  (** The full statement: the message which the receiver of a post gives out has the
      TID of the message which was posted. It holds as long as no other call and no
      request chooses a TID of the node. *)
  Theorem C113_own_tid_partial : forall what net (ns : nat -> nstate U) cs xs s n t c ch m t' x, down ns -> unposted (ns n) -> last_tid (ns n) < 65536 ->
    steps db what net (begins ns cs xs) s -> calls_ok (history s) -> undisturbed n (history s) -> requests_numbered (history s) ->
    posts n c = true -> In (EReturn t c (VPosted ch m)) (history s) -> In (EReturn t' (CWait n ch) (VGot (Some x))) (history s) ->
    msg_tid x = msg_tid m.
  Proof.
    intros what net ns cs xs s n t c ch m t' x Dn Up Bd St K Ud Rn Pn I1 I2. destruct (C106_in_turn db _ _ _ _ _ _ Dn St) as (a & A & H & _).
    rewrite <- H in K, Ud, Rn, I1, I2. destruct (matched_all db what net n _ _ _ a Up Bd A K Ud Rn) as (T & [_ _ M3 M4 _ M6 _ _]).
    destruct (M3 _ _ _ _ Pn I1) as [_ ->]. exact (M4 _ _ (M6 _ _ _ I2)).
  Qed.
End S.

(* ------------------------------------------------------------------ *)
(** ** Cases *)

Notation ex_execution xs s :=
  (steps (P := true) (HO := ex_order) (O := ex_os) (Uu := ex_uuids) [] ex_what true (begins (P := true) (HO := ex_order) (O := ex_os) ex_ns ex_cs xs) s).
Lemma played {A} (f : process unit -> A) xs l y : option_map f (ex_play xs l) = Some y -> exists s, ex_execution xs s /\ f s = y.
Proof. intros E. destruct (ex_play xs l) as [s|] eqn:X; [|discriminate]. inversion E. exists s. split; [eapply ex_steps, X|reflexivity]. Qed.
Example ex_unposted : unposted (ex_ns 0).
Proof. vm_compute. split; reflexivity. Qed.

Definition m_ask : message := msg_add_property (msg_set_esv (msg_set_deoj msg_new 0x029101) EReadRequest) (PProp 0x80 []).
Lemma m_ask_built : built m_ask.
Proof. apply B_add, conj; [apply B_esv, B_deoj; [apply B_new|reflexivity]|reflexivity|constructor]. Qed.
Definition reply (tid : N) : list N := to_lamp tid 0x72 [1; 0x80; 1; 0x31].
(** Starts the device, posts, and waits twice. *)
Definition x_posts : client unit :=
  Call (CStart (Some 0%nat) 0) (fun _ => Call (CPost 0 peer m_ask) (fun v => match v with
    | VPosted ch _ => Call (CWait 0 ch) (fun _ => Call (CWait 0 ch) (fun _ => Finished)) | _ => Finished end)).
(** What can be seen of a history: who, and TIDs. *)
Inductive glance := Calls | Arrives (tid : N) | Posted (tid : N) | Gets (tid : N) | GetsNothing | Returns.
Definition short (e : event unit) : nat * glance :=
  match e with
  | ECall t _ => (t, Calls) | EGot t m => (t, Arrives (msg_tid m))
  | EReturn t _ (VPosted ch m) => (t, Posted (msg_tid m))
  | EReturn t _ (VGot (Some m)) => (t, Gets (msg_tid m)) | EReturn t _ (VGot None) => (t, GetsNothing)
  | EReturn t _ _ => (t, Returns)
  end.
Definition shortly xs l := option_map (fun s => map short (history s)) (ex_play xs l).
Definition hist xs l : list (event unit) := match option_map (@history unit) (ex_play xs l) with Some h => h | None => [] end.

(** Thread 0 posts with the TID 2 and waits; the answer arrives, the receive thread
    2 passes it on, the first wait gets it and the second one nothing. *)
Definition plan_post := gos [(0, 39); (2, 1); (0, 10)]%nat ++ [Get 2 (reply 2) peer] ++ gos [(2, 7); (0, 5)]%nat.
Example C113_case : shortly [x_posts] plan_post =
  Some [(0, Calls); (0, Returns); (0, Calls); (0, Posted 2); (0, Calls); (2, Arrives 2); (0, Gets 2); (0, Calls); (0, GetsNothing)]%nat.
Proof. vm_compute. reflexivity. Qed.
Definition seen_post : list (event unit) := Eval vm_compute in hist [x_posts] plan_post.
(** This history fulfills all premises of the theorems. *)
Ltac calls_typed := intros ? ? I;
  repeat (destruct I as [I|I]; [try discriminate I; inversion I; subst; first [exact Logic.I|exact m_ask_built]|]); destruct I.
Ltac numbered := intros ? ? I _; repeat (destruct I as [I|I]; [try discriminate I; inversion I; subst; vm_compute; discriminate|]); destruct I.
Example C113_case_premises : down ex_ns /\ unposted (ex_ns 0) /\ last_tid (ex_ns 0) < 65536 /\
  (exists s, ex_execution [x_posts] s /\ history s = seen_post) /\
  calls_ok (P := true) (HO := ex_order) seen_post /\ undisturbed 0 seen_post /\ requests_numbered seen_post.
Proof.
  split; [exact ex_down|]. split; [exact ex_unposted|]. split; [vm_compute; reflexivity|].
  split; [apply (played (@history unit) [x_posts] plan_post); vm_compute; reflexivity|].
  unfold seen_post. split; [calls_typed|]. split; [|numbered].
  intros h1 t c h2 E.
  assert (Small : (length h1 < 9)%nat) by (apply (f_equal (@length _)) in E; rewrite app_length in E; cbn in E; lia).
  do 9 (destruct h1 as [|? h1]; [inversion E; subst; clear E; (split;
    [intros X; cbn in X; try discriminate X; clear X; (split; [reflexivity|]; intros t' c' X; cbn in X; try (destruct t'; cbn in X); discriminate X)
    |intros X; cbn in X; try discriminate X; clear X; intros t' c' X; repeat (destruct X as [X|X]; [discriminate X|]); destruct X])
    |injection E as <- E]).
  cbn in Small. lia.
Qed.

(** Another thread sends in between. The answer to its message goes to the receiver
    of the post. *)
Definition x_asks : client unit := Call (CSend 0 peer m_ask) (fun _ => Finished).
Definition plan_other := gos [(0, 40); (3, 1); (0, 9); (1, 6)]%nat ++ [Get 3 (reply 3) peer] ++ gos [(3, 7); (0, 2)]%nat.
Definition seen_other : list (event unit) := Eval vm_compute in hist [x_posts; x_asks] plan_other.
Example C113_case_other : shortly [x_posts; x_asks] plan_other =
  Some [(0, Calls); (0, Returns); (0, Calls); (0, Posted 2); (0, Calls); (1, Calls); (3, Arrives 3); (0, Gets 3)]%nat.
Proof. vm_compute. reflexivity. Qed.
Theorem C113_own_tid_refuted : exists xs s, down ex_ns /\ unposted (ex_ns 0) /\ ex_execution xs s /\
  calls_ok (P := true) (HO := ex_order) (history s) /\ requests_numbered (history s) /\
  exists t c ch m t' x, posts 0 c = true /\ msg_tid m <> 0 /\ In (EReturn t c (VPosted ch m)) (history s) /\
    In (EReturn t' (CWait 0 ch) (VGot (Some x))) (history s) /\ msg_tid x <> msg_tid m.
Proof.
  exists [x_posts; x_asks]. destruct (played (@history unit) [x_posts; x_asks] plan_other seen_other) as (s & X & E); [vm_compute; reflexivity|].
  exists s. split; [exact ex_down|]. split; [exact ex_unposted|]. split; [exact X|]. rewrite E. clear X E. unfold seen_other.
  split; [calls_typed|]. split; [numbered|].
  eexists 0%nat, (CPost 0 _ _), 0, _, 0%nat, _. split; [reflexivity|]. split; [|split; [right; right; right; left; reflexivity|split; [do 7 right; left; reflexivity|]]]; vm_compute; discriminate.
Qed.

(** A message with the TID 2 arrives; its receive thread has not passed it on when
    thread 0 posts. *)
Definition plan_early := gos [(0, 39); (2, 1)]%nat ++ [Get 2 (reply 2) peer] ++ gos [(0, 10); (2, 7); (0, 2)]%nat.
Definition seen_early : list (event unit) := Eval vm_compute in hist [x_posts] plan_early.
Example C113_case_early : shortly [x_posts] plan_early =
  Some [(0, Calls); (0, Returns); (2, Arrives 2); (0, Calls); (0, Posted 2); (0, Calls); (0, Gets 2)]%nat.
Proof. vm_compute. reflexivity. Qed.
(** So what a receiver gives out need not have arrived after its post was called,
    even when nothing disturbs the TIDs of the node. *)
Theorem C113_after_post_refuted : exists xs s, down ex_ns /\ unposted (ex_ns 0) /\ ex_execution xs s /\
  calls_ok (P := true) (HO := ex_order) (history s) /\
  exists h1 t c h2 ch m t' x, history s = h1 ++ ECall t c :: h2 /\ posts 0 c = true /\ In (EReturn t c (VPosted ch m)) h2 /\
    In (EReturn t' (CWait 0 ch) (VGot (Some x))) h2 /\ forall t'' m', ~ In (EGot t'' m') h2.
Proof.
  exists [x_posts]. destruct (played (@history unit) [x_posts] plan_early seen_early) as (s & X & E); [vm_compute; reflexivity|].
  exists s. split; [exact ex_down|]. split; [exact ex_unposted|]. split; [exact X|]. rewrite E. clear X E. unfold seen_early.
  split; [calls_typed|].
  eexists [_; _; _], 0%nat, (CPost 0 _ _), _, 0, _, 0%nat, _. split; [reflexivity|]. split; [reflexivity|]. split; [left; reflexivity|].
  split; [do 2 right; left; reflexivity|]. intros t m I. repeat (destruct I as [I|I]; [discriminate I|]). destruct I.
Qed.

Print Assumptions C113_received.
Print Assumptions C113_once.
Print Assumptions C113_channels.
Print Assumptions C113_own_tid_partial.
Print Assumptions C113_own_tid_refuted.
Print Assumptions C113_after_post_refuted.
