(** C135: what becomes of answers and announcements that reach a controller twice or
    in another order. *)
From Coq Require Import Permutation.
From Verif Require Import Base HMap ModelCodec ModelMessages DbTable ModelObject ModelTransport ModelNode ModelController ModelHost
  SpecWire SpecObject SpecNode ProofsCodec ProofsCodec2 PropertiesCodec ProofsObject ProofsObject2 ProofsObject3
  PropertiesObject PropertiesDb ProofsDevice ProofsNode ProofsNode2 ProofsNode3 ProofsNode4 ExamplesNode PropertiesNode PropertiesTrans
  PropertiesProfile ProofsExchange ProofsController ProofsHistory PropertiesController.

(** ** Vocabulary *)
(** The messages of a list which the controller takes for a list of objects and
    which no later one of the same sender replaces, in the order of arrival. *)
Inductive latest : list message -> list message -> Prop :=
| latest_nil : latest [] []
| latest_other m ms l : ~ for_profile m -> latest ms l -> latest (m :: ms) l
| latest_replaced m m' ms l : In m' ms -> for_profile m' -> msg_from m' = msg_from m -> latest ms l -> latest (m :: ms) l
| latest_kept m ms l : for_profile m -> (forall m', In m' ms -> for_profile m' -> msg_from m' <> msg_from m) -> latest ms l -> latest (m :: ms) (m :: l).
(** The entry [r] shows what [m] tells: its sender, the objects it lists, and a node
    profile. *)
Definition shows (m : message) (e : sockaddr * list N) : Prop :=
  exists css, Forall2 listed (m_props m) css /\ e = (msg_from m, concat css ++ [0x0EF001]).
(** What an application sees of the entries. *)
Definition shown (rs : list remote_node) : list (sockaddr * list N) := map (fun r => (rn_addr r, map object_code (rn_objects r))) rs.

(** ** Computing the latest messages *)
Definition over (m : message) (ms : list message) : bool := existsb (fun x => is_node_profile_message x && sockaddr_eqb (msg_from x) (msg_from m)) ms.
Fixpoint lat (ms : list message) : list message :=
  match ms with
  | [] => []
  | m :: r => if is_node_profile_message m && negb (over m r) then m :: lat r else lat r
  end.
Lemma over_spec m ms : over m ms = true <-> exists x, In x ms /\ for_profile x /\ msg_from x = msg_from m.
Proof.
  unfold over. rewrite existsb_exists. split; intros (x & I & H).
  - apply andb_true_iff in H as [A B]. exists x. split; auto. split; [apply for_profile_spec; auto|apply addr_eqb_spec; auto].
  - destruct H as [A B]. exists x. split; auto. apply for_profile_spec in A. rewrite A, B. apply addr_eqb_spec. auto.
Qed.
Lemma lat_latest ms : latest ms (lat ms).
Proof.
  induction ms as [|m r IH]; cbn [lat]; [constructor|]. destruct (is_node_profile_message m) eqn:E; cbn [andb].
  - destruct (over m r) eqn:O; cbn [negb].
    + apply over_spec in O as (x & I & F & Ex). eapply latest_replaced; eauto.
    + apply latest_kept; auto; [apply for_profile_spec; auto|]. intros x I F Ex. assert (X : over m r = true) by (apply over_spec; eauto). congruence.
  - apply latest_other; auto. intro F. apply for_profile_spec in F. congruence.
Qed.
Lemma latest_lat ms l : latest ms l -> l = lat ms.
Proof.
  induction 1 as [|m ms l N H IH|m m' ms l I F E H IH|m ms l F N H IH]; cbn [lat]; auto.
  - destruct (is_node_profile_message m) eqn:E; auto. exfalso. apply N, for_profile_spec, E.
  - assert (X : over m ms = true) by (apply over_spec; eauto). rewrite X. cbn [negb]. rewrite andb_false_r. auto.
  - apply for_profile_spec in F. rewrite F. destruct (over m ms) eqn:O; cbn [negb andb]; [|congruence].
    apply over_spec in O as (x & I & Fx & Ex). exfalso. eapply N; eauto.
Qed.
Lemma over_app m a b : over m (a ++ b) = over m a || over m b.
Proof. apply existsb_app. Qed.
Lemma lat_app a b : lat (a ++ b) = filter (fun m => negb (over m b)) (lat a) ++ lat b.
Proof.
  induction a as [|m r IH]; cbn [app lat]; auto. rewrite over_app. destruct (is_node_profile_message m); cbn [andb]; auto.
  destruct (over m r); cbn [orb negb]; auto. cbn [filter]. destruct (over m b); cbn [negb]; auto. cbn [app]. f_equal. auto.
Qed.
Lemma lat_in x ms : In x (lat ms) -> In x ms /\ is_node_profile_message x = true.
Proof.
  induction ms as [|m r IH]; cbn [lat]; [intros []|]. destruct (is_node_profile_message m) eqn:E; cbn [andb].
  - destruct (over m r); cbn [negb]; [intro I; apply IH in I as [A B]; split; auto; right; auto|].
    intros [<-|I]; [split; auto; left; auto|]. apply IH in I as [A B]. split; auto. right. auto.
  - intro I. apply IH in I as [A B]. split; auto. right. auto.
Qed.
(** A function on the prefix depends on who is overridden only. *)
Lemma lat_prefix a b b' : (forall x, over x b = over x b') -> Permutation (lat b) (lat b') -> Permutation (lat (a ++ b)) (lat (a ++ b')).
Proof.
  intros O Pm. rewrite !lat_app. apply Permutation_app; auto. rewrite (filter_ext _ (fun m => negb (over m b'))); [apply Permutation_refl|].
  intro x. rewrite O. auto.
Qed.
Lemma lat_twice m b l : Forall (fun x => ~ for_profile x \/ msg_from x <> msg_from m) b -> Permutation (lat (m :: b ++ m :: l)) (lat (m :: b ++ l)).
Proof.
  intro F. assert (Ob : over m b = false).
  { destruct (over m b) eqn:O; auto. apply over_spec in O as (x & I & Fx & Ex). rewrite Forall_forall in F. destruct (F x I); contradiction. }
  cbn [lat]. rewrite !over_app, Ob, !orb_false_l. destruct (is_node_profile_message m) eqn:E; cbn [andb].
  - assert (O1 : over m (m :: l) = true). { apply over_spec. exists m. split; [left; auto|]. split; auto. apply for_profile_spec; auto. }
    rewrite O1. cbn [negb]. rewrite !lat_app. cbn [lat]. rewrite E. cbn [andb].
    assert (Ef : filter (fun x => negb (over x (m :: l))) (lat b) = filter (fun x => negb (over x l)) (lat b)).
    { apply filter_ext_in. intros x I. f_equal. cbn [over existsb]. rewrite E. cbn [andb]. destruct (sockaddr_eqb (msg_from m) (msg_from x)) eqn:S; auto.
      exfalso. apply addr_eqb_spec in S. apply lat_in in I as [I Px]. apply for_profile_spec in Px. rewrite Forall_forall in F. destruct (F x I); congruence. }
    rewrite Ef. destruct (over m l); cbn [negb]; [apply Permutation_refl|]. symmetry. apply Permutation_middle.
  - rewrite !lat_app. cbn [lat]. rewrite E. cbn [andb]. rewrite (filter_ext _ (fun x => negb (over x l))); [apply Permutation_refl|].
    intro x. cbn [over existsb]. rewrite E. reflexivity.
Qed.
Lemma lat_swap m m' l : ~ for_profile m \/ ~ for_profile m' \/ msg_from m <> msg_from m' -> Permutation (lat (m :: m' :: l)) (lat (m' :: m :: l)).
Proof.
  intro H. cbn [lat over existsb]. fold (over m l). fold (over m' l).
  destruct (is_node_profile_message m) eqn:E; destruct (is_node_profile_message m') eqn:E'; cbn [andb orb]; try apply Permutation_refl.
  assert (S : sockaddr_eqb (msg_from m') (msg_from m) = false /\ sockaddr_eqb (msg_from m) (msg_from m') = false).
  { apply for_profile_spec in E, E'. destruct H as [H|[H|H]]; try contradiction.
    split; [destruct (sockaddr_eqb (msg_from m') (msg_from m)) eqn:S|destruct (sockaddr_eqb (msg_from m) (msg_from m')) eqn:S]; auto; apply addr_eqb_spec in S; congruence. }
  destruct S as [-> ->]. cbn [orb]. destruct (over m l), (over m' l); cbn [negb]; try apply Permutation_refl. apply perm_swap.
Qed.

Lemma shows_fun m e e' : shows m e -> shows m e' -> e = e'.
Proof.
  intros (c & L & ->) (c' & L' & ->). assert (X : c = c'); [|rewrite X; auto]. revert c' L'. induction L as [|q x qs cs H L IH]; intros c' L'; inversion L'; subst; auto.
  f_equal; auto. eapply listed_unique; eauto.
Qed.
Lemma shows_all l s s' : Forall2 shows l s -> Forall2 shows l s' -> s = s'.
Proof. intro F. revert s'. induction F; intros s' F'; inversion F'; subst; auto. f_equal; auto. eapply shows_fun; eauto. Qed.
Lemma shows_perm l l' s s' : Permutation l l' -> Forall2 shows l s -> Forall2 shows l' s' -> Permutation s s'.
Proof. intros Pm F F'. destruct (Permutation_Forall2 Pm F) as (s2 & P2 & F2). rewrite (shows_all _ _ _ F' F2). auto. Qed.

(** The first equal entry is the only one. *)
Lemma remove_all rs r : NoDup (map rn_addr rs) -> remove_remote rs r = filter (fun x => negb (remote_eqb x r)) rs.
Proof.
  induction rs as [|x t IH]; cbn [map remove_remote filter]; auto. intro N. inversion N as [|a b Nx Nt]; subst. destruct (remote_eqb x r) eqn:E; cbn [negb].
  - symmetry. clear -E Nx. unfold remote_eqb in *. apply addr_eqb_spec in E. induction t as [|y t IH]; cbn [filter]; auto.
    destruct (sockaddr_eqb (rn_addr y) (rn_addr r)) eqn:S; cbn [negb].
    + apply addr_eqb_spec in S. exfalso. apply Nx. left. congruence.
    + f_equal. apply IH. intro I. apply Nx. right. auto.
  - f_equal. auto.
Qed.

Section S.
  Context {P : Profile} {HO : HashOrder} {Os : OS} {Uu : Uuids}.
  Variables (seed : N -> N) (db : list object).
  Hypothesis Db : standard_database seed = Ret db.
  Hypothesis Uo : forall k, uuid_ok (new_uuid k).

  Lemma heard ms w : Forall received ms -> exists rs w', hears db w [] ms = Ret (rs, w') /\ Forall2 shows (lat ms) (shown rs) /\
    Forall (fun r => Forall2 (standard_object db) (map object_code (rn_objects r)) (rn_objects r)) rs.
  Proof.
    induction ms as [|m ms IH] using rev_ind; intro F; [exists [], w; cbn; auto|].
    apply Forall_app in F as [F Fm]. inversion Fm as [|? ? Rm _]; subst. destruct (IH F) as (rs & w1 & H & S & St).
    assert (N : NoDup (map rn_addr rs)) by (eapply hears_nodup; [exact H|constructor]).
    rewrite hears_app, H. cbn [obind fst snd hears]. rewrite lat_app. destruct (is_node_profile_message m) eqn:E.
    - assert (Fp : for_profile m) by (apply for_profile_spec; auto).
      destruct (controller_entry seed db Db Uo w1 rs m (received_u8 m Rm) Fp) as (css & r & w' & L & A & B & C & Eo). rewrite Eo. cbn [obind].
      exists (replace_remote rs r), w'. split; [reflexivity|]. unfold replace_remote. rewrite (remove_all rs r N). split.
      + unfold shown. rewrite map_app. apply Forall2_app.
        * clear -S A E. unfold shown in S. remember (lat ms) as l eqn:El. clear El ms.
          revert rs S. induction l as [|x l IH]; intros rs S; destruct rs as [|y rs]; inversion S as [|? ? ? ? Sx Sl]; subst; cbn [filter map]; auto.
          destruct Sx as (cs & Lx & Ex). inversion Ex as [[Ea Ec]].
          assert (Ov : over x [m] = sockaddr_eqb (msg_from m) (rn_addr y)) by (cbn [over existsb]; rewrite E, Ea, orb_false_r; reflexivity).
          assert (Re : remote_eqb y r = sockaddr_eqb (rn_addr y) (msg_from m)) by (unfold remote_eqb; rewrite A; reflexivity). rewrite Ov, Re.
          assert (Sy : sockaddr_eqb (msg_from m) (rn_addr y) = sockaddr_eqb (rn_addr y) (msg_from m)).
          { destruct (sockaddr_eqb (msg_from m) (rn_addr y)) eqn:S1; destruct (sockaddr_eqb (rn_addr y) (msg_from m)) eqn:S2; auto.
            - apply addr_eqb_spec in S1. rewrite S1 in S2. assert (X : sockaddr_eqb (rn_addr y) (rn_addr y) = true) by (apply addr_eqb_spec; auto). congruence.
            - apply addr_eqb_spec in S2. rewrite S2 in S1. assert (X : sockaddr_eqb (msg_from m) (msg_from m) = true) by (apply addr_eqb_spec; auto). congruence. }
          rewrite Sy. destruct (sockaddr_eqb (rn_addr y) (msg_from m)); cbn [negb]; [apply IH; auto|].
          cbn [map]. constructor; [exists cs; split; auto; congruence|apply IH; auto].
        * cbn [lat over existsb map]. rewrite E. cbn [andb negb]. constructor; [|constructor]. exists css. split; auto. rewrite A, C. reflexivity.
      + apply Forall_app. split; [|constructor; [rewrite C; auto|constructor]]. apply Forall_forall. intros x I. apply filter_In in I as [I _]. rewrite Forall_forall in St. auto.
    - assert (Nf : ~ for_profile m) by (intro X; apply for_profile_spec in X; congruence). rewrite (controller_ignores db w1 rs m Nf). cbn [obind].
      exists rs, w1. split; [reflexivity|]. split; auto. cbn [lat]. rewrite E. cbn [andb]. rewrite app_nil_r.
      rewrite (filter_ext _ (fun _ => true)); [|intro x; cbn [over existsb]; rewrite E; reflexivity].
      assert (X : forall l : list message, filter (fun _ => true) l = l) by (induction l; cbn; congruence). rewrite X. auto.
  Qed.

  (** The entries are those of the latest messages of every sender, in the order in
      which these arrived. *)
  Theorem C135_entries : forall ms w, Forall received ms -> exists rs w' l, hears db w [] ms = Ret (rs, w') /\ latest ms l /\ Forall2 shows l (shown rs) /\
    Forall (fun r => Forall2 (standard_object db) (map object_code (rn_objects r)) (rn_objects r)) rs.
  Proof. intros ms w F. destruct (heard ms w F) as (rs & w' & H & S & St). exists rs, w', (lat ms). split; auto. split; [apply lat_latest|auto]. Qed.

  Lemma same_shown ms ms' w w2 rs w' rs' w2' : Forall received ms -> Forall received ms' -> Permutation (lat ms) (lat ms') ->
    hears db w [] ms = Ret (rs, w') -> hears db w2 [] ms' = Ret (rs', w2') -> Permutation (shown rs) (shown rs').
  Proof.
    intros F F' Pm E E'. destruct (heard ms w F) as (rs1 & w1 & H & S & _). destruct (heard ms' w2 F') as (rs2 & w3 & H' & S' & _).
    rewrite E in H. rewrite E' in H'. inversion H; inversion H'; subst. eapply shows_perm; eauto.
  Qed.

  (** A second copy changes the order of the entries at most, if nothing of the same
      sender came in between. *)
  Theorem C135_duplicate : forall a m b l w w2 rs w' rs' w2', Forall received (a ++ m :: b ++ l) ->
    Forall (fun x => ~ for_profile x \/ msg_from x <> msg_from m) b ->
    hears db w [] (a ++ m :: b ++ m :: l) = Ret (rs, w') -> hears db w2 [] (a ++ m :: b ++ l) = Ret (rs', w2') -> Permutation (shown rs) (shown rs').
  Proof.
    intros a m b l w w2 rs w' rs' w2' F N E E'. eapply (same_shown (a ++ m :: b ++ m :: l) (a ++ m :: b ++ l)); eauto.
    - apply Forall_app in F as [Fa F]. inversion F as [|x y Fm Fr]; subst. apply Forall_app in Fr as [Fb Fl].
      apply Forall_app. split; auto. constructor; auto. apply Forall_app. split; auto.
    - apply lat_prefix; [|apply lat_twice; auto]. intro x. cbn [over existsb]. fold (over x (b ++ m :: l)). fold (over x (b ++ l)). rewrite !over_app. cbn [over existsb]. fold (over x l).
      destruct (is_node_profile_message m && sockaddr_eqb (msg_from m) (msg_from x)); cbn [orb]; auto.
  Qed.
  (** Neighbours of different senders, or of which one is no list of objects, may
      arrive in either order. *)
  Theorem C135_reorder : forall a m m' l w w2 rs w' rs' w2', Forall received (a ++ m :: m' :: l) ->
    ~ for_profile m \/ ~ for_profile m' \/ msg_from m <> msg_from m' ->
    hears db w [] (a ++ m :: m' :: l) = Ret (rs, w') -> hears db w2 [] (a ++ m' :: m :: l) = Ret (rs', w2') -> Permutation (shown rs) (shown rs').
  Proof.
    intros a m m' l w w2 rs w' rs' w2' F N E E'. eapply (same_shown (a ++ m :: m' :: l) (a ++ m' :: m :: l)); eauto.
    - apply Forall_app in F as [Fa F]. inversion F as [|x y Fm Fr]; subst. inversion Fr; subst. apply Forall_app. split; auto.
    - apply lat_prefix; [|apply lat_swap; auto]. intro x. cbn [over existsb]. rewrite !orb_assoc. f_equal. apply orb_comm.
  Qed.

  (** It is not true that a copy never undoes a newer list: whatever the newer message
      says, the late copy is believed. *)
  Theorem C135_stale_refuted : forall m m' w, received m -> received m' -> for_profile m -> for_profile m' -> msg_from m' = msg_from m ->
    exists rs w' e, hears db w [] [m; m'; m] = Ret (rs, w') /\ shown rs = [e] /\ shows m e.
  Proof.
    intros m m' w R R' F F' Ef. destruct (heard [m; m'; m] w ltac:(auto)) as (rs & w' & H & S & _). exists rs, w'.
    apply for_profile_spec in F, F'. assert (A : sockaddr_eqb (msg_from m) (msg_from m) = true) by (apply addr_eqb_spec; auto).
    cbn [lat over existsb] in S. rewrite F, F', Ef, A in S. cbn [andb orb negb] in S. inversion S as [|? e ? s Se Sl Em Es]; subst. inversion Sl; subst. exists e. split; auto.
  Qed.
  (** Nor does a copy leave the order of the entries alone. *)
  Theorem C135_order_refuted : forall m m' w, received m -> received m' -> for_profile m -> for_profile m' -> msg_from m' <> msg_from m ->
    exists rs w' rs2 w2 e e', hears db w [] [m; m'] = Ret (rs, w') /\ hears db w [] [m; m'; m] = Ret (rs2, w2) /\
      e <> e' /\ shown rs = [e; e'] /\ shown rs2 = [e'; e].
  Proof.
    intros m m' w R R' F F' Ef. destruct (heard [m; m'] w ltac:(auto)) as (rs & w' & H & S & _). destruct (heard [m; m'; m] w ltac:(auto)) as (rs2 & w2 & H2 & S2 & _).
    apply for_profile_spec in F, F'. assert (A : sockaddr_eqb (msg_from m) (msg_from m) = true) by (apply addr_eqb_spec; auto).
    assert (B : sockaddr_eqb (msg_from m') (msg_from m) = false) by (destruct (sockaddr_eqb (msg_from m') (msg_from m)) eqn:X; auto; apply addr_eqb_spec in X; contradiction).
    assert (C : sockaddr_eqb (msg_from m) (msg_from m') = false) by (destruct (sockaddr_eqb (msg_from m) (msg_from m')) eqn:X; auto; apply addr_eqb_spec in X; congruence).
    cbn [lat over existsb] in S, S2. rewrite F, F' in S, S2. cbn [andb] in S, S2. rewrite A, B, C in *. cbn [andb orb negb] in S, S2.
    inversion S as [|? e ? s Se Sl Em Es]; subst. inversion Sl as [|? e' ? s' Se' Sl' Em Es']; subst. inversion Sl'; subst.
    inversion S2 as [|? e2 ? s2 Se2 Sl2 Em Es2]; subst. inversion Sl2 as [|? e3 ? s3 Se3 Sl3 Em Es3]; subst. inversion Sl3; subst.
    exists rs, w', rs2, w2, e, e'. split; auto. split; auto. split.
    - destruct Se as (? & _ & ->), Se' as (? & _ & ->). congruence.
    - rewrite (shows_fun _ _ _ Se2 Se'), (shows_fun _ _ _ Se3 Se) in *. split; auto.
  Qed.
End S.

(** ** Cases *)
Definition told (codes : list N) (a : sockaddr) : message := msg_set_from (snd (the (false, msg_new) (msg_parse msg_new (list_datagram (N.of_nat (length codes)) codes)))) a.
Definition ex_hears (ms : list message) : option (list (sockaddr * list N)) :=
  match hears (P := true) (HO := ex_order) (Os := ex_os) (Uu := ex_uuids) ex_db w0 [] ms with Ret (rs, _) => Some (shown rs) | Panic => None end.
Example C135_case_messages : forall c a, In c [0x029101; 0x013001] -> In a [node_a; node_b] -> received (told [c] a) /\ for_profile (told [c] a).
Proof.
  intros c a Ic Ia. split.
  - unfold told. exists (list_datagram 1 [c]). destruct (msg_parse msg_new (list_datagram 1 [c])) as [[[] m]|] eqn:E.
    2,3: exfalso; destruct Ic as [<-|[<-|[]]]; vm_compute in E; discriminate.
    exists m, a. split; [destruct Ic as [<-|[<-|[]]]; repeat constructor|]. split; auto. change (N.of_nat (length [c])) with 1. rewrite E. reflexivity.
  - destruct Ic as [<-|[<-|[]]], Ia as [<-|[<-|[]]]; (split; [left|left]; vm_compute; reflexivity).
Qed.
Example C135_case :
  ex_hears [told [0x029101] node_a; told [0x013001] node_b] = Some [(node_a, [0x029101; 0x0EF001]); (node_b, [0x013001; 0x0EF001])] /\
  ex_hears [told [0x029101] node_a; told [0x013001] node_b; told [0x029101] node_a] = Some [(node_b, [0x013001; 0x0EF001]); (node_a, [0x029101; 0x0EF001])] /\
  ex_hears [told [0x029101] node_a; told [0x013001] node_a; told [0x029101] node_a] = Some [(node_a, [0x029101; 0x0EF001])].
Proof. split; [|split]; vm_compute; reflexivity. Qed.
