(** C138: what a controller knows of a node comes from that node alone. *)
From Verif Require Import Base HMap ModelCodec ModelMessages DbTable ModelObject ModelTransport ModelNode ModelController ModelHost
  SpecWire SpecObject SpecNode ProofsCodec ProofsCodec2 PropertiesCodec ProofsObject ProofsObject2 ProofsObject3
  PropertiesObject PropertiesDb ProofsDevice ProofsNode ProofsNode2 ProofsNode3 ProofsNode4 ExamplesNode PropertiesNode PropertiesTrans
  PropertiesProfile ProofsExchange ProofsController ProofsHistory PropertiesController PropertiesHeard.

(** ** Vocabulary *)
(** The elements of a list with a property, in their order. *)
Inductive those {A} (Q : A -> Prop) : list A -> list A -> Prop :=
| those_nil : those Q [] []
| those_in x l r : Q x -> those Q l r -> those Q (x :: l) (x :: r)
| those_out x l r : ~ Q x -> those Q l r -> those Q (x :: l) r.
(** [m] is taken by a controller for a list of the objects of the node at [a]. *)
Definition tells_of (a : sockaddr) (m : message) : Prop := for_profile m /\ msg_from m = a.

Definition tells_b (a : sockaddr) (m : message) : bool := is_node_profile_message m && sockaddr_eqb (msg_from m) a.
Lemma tells_spec a m : tells_b a m = true <-> tells_of a m.
Proof.
  unfold tells_b, tells_of. rewrite andb_true_iff, <- for_profile_spec. rewrite addr_eqb_spec. reflexivity.
Qed.
Lemma those_filter a ms l : those (tells_of a) ms l -> l = filter (tells_b a) ms.
Proof.
  induction 1 as [|x l r Q H IH|x l r Q H IH]; cbn [filter]; auto.
  - apply tells_spec in Q. rewrite Q. congruence.
  - destruct (tells_b a x) eqn:E; auto. exfalso. apply Q, tells_spec, E.
Qed.
Lemma over_tells m ms : over m ms = existsb (tells_b (msg_from m)) ms.
Proof. reflexivity. Qed.
Lemma over_filter a m ms : msg_from m = a -> over m (filter (tells_b a) ms) = over m ms.
Proof.
  intros <-. rewrite !over_tells. induction ms as [|x ms IH]; cbn [filter existsb]; auto.
  destruct (tells_b (msg_from m) x) eqn:E; cbn [existsb]; rewrite ?E; auto.
Qed.
Lemma lat_filter a ms : lat (filter (tells_b a) ms) = filter (fun m => sockaddr_eqb (msg_from m) a) (lat ms).
Proof.
  induction ms as [|m ms IH]; cbn [filter lat]; auto. unfold tells_b at 1. destruct (is_node_profile_message m) eqn:E; cbn [andb]; auto.
  destruct (sockaddr_eqb (msg_from m) a) eqn:S.
  - apply addr_eqb_spec in S. cbn [lat]. rewrite E, (over_filter a m ms S). cbn [andb]. destruct (over m ms); cbn [negb filter]; auto.
    assert (S' : sockaddr_eqb (msg_from m) a = true) by (apply addr_eqb_spec; auto). rewrite S'. congruence.
  - destruct (over m ms); cbn [negb filter]; auto. rewrite S. auto.
Qed.
Lemma shows_in a l s : Forall2 shows l s -> forall codes, In (a, codes) s <-> exists m, In m (filter (fun m => sockaddr_eqb (msg_from m) a) l) /\ shows m (a, codes).
Proof.
  induction 1 as [|m e l s H F IH]; intro codes; cbn [filter].
  - split; [intros []|intros (m & [] & _)].
  - assert (Hf : fst e = msg_from m) by (destruct H as (? & _ & ->); reflexivity). split.
    + intros [->|I].
      * cbn in Hf. subst a. assert (S : sockaddr_eqb (msg_from m) (msg_from m) = true) by (apply addr_eqb_spec; auto). rewrite S. exists m. split; [left; auto|auto].
      * apply IH in I as (m' & I & S). exists m'. split; auto. destruct (sockaddr_eqb (msg_from m) a); [right; auto|auto].
    + intros (m' & I & S). destruct (sockaddr_eqb (msg_from m) a).
      * destruct I as [->|I]; [left; eapply shows_fun; eauto|]. right. apply IH. eauto.
      * right. apply IH. eauto.
Qed.

Section S.
  Context {P : Profile} {HO : HashOrder} {Os : OS} {Uu : Uuids}.
  Variables (seed : N -> N) (db : list object).
  Hypothesis Db : standard_database seed = Ret db.
  Hypothesis Uo : forall k, uuid_ok (new_uuid k).

  (** Two controllers which heard the same lists from the node at [a], in the same order,
      know the same of it, whatever else the one and the other heard, lost, heard twice
      or in another order. *)
  Theorem C138_own_messages : forall a ms ms' l w w2 rs w' rs' w2', Forall received ms -> Forall received ms' ->
    those (tells_of a) ms l -> those (tells_of a) ms' l ->
    hears db w [] ms = Ret (rs, w') -> hears db w2 [] ms' = Ret (rs', w2') ->
    forall codes, In (a, codes) (shown rs) <-> In (a, codes) (shown rs').
  Proof.
    intros a ms ms' l w w2 rs w' rs' w2' F F' T T' E E' codes.
    destruct (heard seed db Db Uo ms w F) as (rs1 & w1 & H & S & _). destruct (heard seed db Db Uo ms' w2 F') as (rs2 & w3 & H' & S' & _).
    rewrite E in H. rewrite E' in H'. inversion H; inversion H'; subst.
    rewrite (shows_in a _ _ S), (shows_in a _ _ S'). rewrite <- !lat_filter. apply those_filter in T, T'. rewrite <- T, <- T'. reflexivity.
  Qed.
  (** So nobody at another address can add, change or remove what is known of [a]: if a
      controller hears any further messages, none of them from [a], its entry stays. *)
  Theorem C138_no_forgery : forall a ms more w rs w' rs' w2', Forall received (ms ++ more) -> Forall (fun m => msg_from m <> a) more ->
    hears db w [] ms = Ret (rs, w') -> hears db w' rs more = Ret (rs', w2') ->
    forall codes, In (a, codes) (shown rs) <-> In (a, codes) (shown rs').
  Proof.
    intros a ms more w rs w' rs' w2' F N E E'.
    assert (E2 : hears db w [] (ms ++ more) = Ret (rs', w2')) by (rewrite hears_app, E; exact E').
    assert (X : forall l, those (tells_of a) l (filter (tells_b a) l)).
    { induction l as [|m l IH]; cbn [filter]; [constructor|]. destruct (tells_b a m) eqn:T; constructor; auto; [apply tells_spec; auto|]. rewrite <- tells_spec. congruence. }
    assert (Y : filter (tells_b a) (ms ++ more) = filter (tells_b a) ms).
    { rewrite filter_app. replace (filter (tells_b a) more) with (@nil message); [apply app_nil_r|]. symmetry. clear -N. induction N as [|m l Nm N IH]; cbn [filter]; auto.
      destruct (tells_b a m) eqn:T; auto. exfalso. apply tells_spec in T. destruct T. contradiction. }
    eapply (C138_own_messages a ms (ms ++ more) (filter (tells_b a) ms)); eauto.
    - apply Forall_app in F as [F _]. exact F.
    - rewrite <- Y. apply X.
  Qed.
  (** A network that loses messages costs nothing as long as the last list of a node
      arrives: the controller then knows what it would know had nothing been lost. *)
  Theorem C138_lost : forall a m ms ms' w w2 rs w' rs' w2', Forall received (ms ++ [m]) -> Forall received (ms' ++ [m]) -> tells_of a m ->
    hears db w [] (ms ++ [m]) = Ret (rs, w') -> hears db w2 [] (ms' ++ [m]) = Ret (rs', w2') ->
    forall codes, In (a, codes) (shown rs) <-> In (a, codes) (shown rs').
  Proof.
    intros a m ms ms' w w2 rs w' rs' w2' F F' [Fp Fm] E E' codes.
    destruct (heard seed db Db Uo _ w F) as (rs1 & w1 & H & S & _). destruct (heard seed db Db Uo _ w2 F') as (rs2 & w3 & H' & S' & _).
    rewrite E in H. rewrite E' in H'. inversion H; inversion H'; subst.
    rewrite (shows_in (msg_from m) _ _ S), (shows_in (msg_from m) _ _ S').
    assert (X : forall l, filter (fun x => sockaddr_eqb (msg_from x) (msg_from m)) (lat (l ++ [m])) = [m]).
    { intro l. assert (Sm : sockaddr_eqb (msg_from m) (msg_from m) = true) by (apply addr_eqb_spec; auto). apply for_profile_spec in Fp.
      rewrite lat_app, filter_app. cbn [lat over existsb]. rewrite Fp. cbn [andb negb filter]. rewrite Sm.
      replace (filter _ (filter _ (lat l))) with (@nil message); auto. generalize (lat l). clear -Fp. intro k. induction k as [|x k IH]; cbn [filter]; auto.
      destruct (sockaddr_eqb (msg_from m) (msg_from x)) eqn:Ex; cbn [orb negb filter]; auto.
      destruct (sockaddr_eqb (msg_from x) (msg_from m)) eqn:Ey; auto. apply addr_eqb_spec in Ey. rewrite Ey in Ex. assert (Sm : sockaddr_eqb (msg_from m) (msg_from m) = true) by (apply addr_eqb_spec; auto). congruence. }
    rewrite !X. reflexivity.
  Qed.
End S.

(** ** Cases *)
(** Node b floods the controller with lists, in between and after; a's entry is the one of
      the quiet network. *)
Example C138_case :
  ex_hears [told [0x029101] node_a] = Some [(node_a, [0x029101; 0x0EF001])] /\
  ex_hears [told [] node_b; told [0x029101] node_a; told [0x013001] node_b; told [0x029101] node_b; told [0x013001] node_b] =
    Some [(node_a, [0x029101; 0x0EF001]); (node_b, [0x013001; 0x0EF001])].
Proof. split; vm_compute; reflexivity. Qed.
Example C138_case_told : those (tells_of node_a) [told [0x029101] node_a; told [0x013001] node_b] [told [0x029101] node_a] /\
  those (tells_of node_a) [told [0x013001] node_b; told [0x029101] node_a; told [0x029101] node_b] [told [0x029101] node_a].
Proof.
  assert (A : tells_of node_a (told [0x029101] node_a)) by (split; [apply C135_case_messages; cbn; auto|vm_compute; reflexivity]).
  assert (B : forall c, ~ tells_of node_a (told [c] node_b)) by (intros c [_ H]; cbn in H; discriminate).
  split.
  - apply those_in; [exact A|]. apply those_out; [apply B|constructor].
  - apply those_out; [apply B|]. apply those_in; [exact A|]. apply those_out; [apply B|constructor].
Qed.
