(** C100: what is stopped and released when the application lets go of it. *)
From Verif Require Import Base ModelHost ModelOwner PropertiesNetwork.
Local Open Scope nat_scope.

(** ** Vocabulary *)
Definition is_node (h : heap) (n : nat) : Prop := exists s b l, at_ h n = Some (Cell s (KNode b) l).
(** [i] is held by the node [n], for example as a request handler. *)
Definition held_by_node (h : heap) (n i : nat) : Prop := exists s b l, at_ h n = Some (Cell s (KNode b) l) /\ In (HArc i) l.
Definition live (h : heap) (i : nat) : Prop := at_ h i <> None.
Definition history_of (s : store) : Prop := exists ops ev, own_run nothing ops s ev.

(** ** Counting *)
Definition b2n (b : bool) : nat := if b then 1 else 0.
Fixpoint occ (i : nat) (l : list hold) : nat := match l with [] => 0 | x :: r => b2n (Nat.eqb (target x) i) + occ i r end.
Definition holds_of (o : option cell) : list hold := match o with Some c => c_holds c | None => [] end.
Definition strong_of (o : option cell) : nat := match o with Some c => c_strong c | None => 0 end.
Definition held (h : heap) : list hold := flat_map holds_of h.
Definition strong (h : heap) (i : nat) : nat := strong_of (at_ h i).
Fixpoint total (h : heap) : nat := match h with [] => 0 | o :: r => strong_of o + total r end.

Lemma occ_app i a b : occ i (a ++ b) = occ i a + occ i b.
Proof. induction a as [|x r IH]; cbn [occ app]; lia. Qed.
Lemma occ_in i l x : In x l -> target x = i -> 1 <= occ i l.
Proof.
  induction l as [|y r IH]; intros I E; [destruct I|]. cbn [occ]. destruct I as [->|I].
  - rewrite E, Nat.eqb_refl. cbn [b2n]. lia.
  - specialize (IH I E). lia.
Qed.
Lemma occ_without i x l : In x l -> occ i l = b2n (Nat.eqb (target x) i) + occ i (without x l).
Proof.
  induction l as [|y r IH]; intro I; [destruct I|]. cbn [occ without]. destruct (hold_eqb y x) eqn:E.
  - assert (target y = target x) as -> by (destruct x, y; cbn in *; try discriminate; apply Nat.eqb_eq; auto). lia.
  - destruct I as [->|I]; [destruct x; cbn in E; rewrite Nat.eqb_refl in E; discriminate|]. cbn [occ]. rewrite (IH I). lia.
Qed.
Lemma in_without x y l : In x (without y l) -> In x l.
Proof. induction l as [|z r IH]; cbn [without]; auto. destruct (hold_eqb z y); cbn; tauto. Qed.
Lemma at_set h : forall i v j, at_ (set_nth h i v) j = (if Nat.eqb j i then (if Nat.ltb i (length h) then v else None) else at_ h j).
Proof.
  intros i v j. unfold at_. rewrite nth_set_nth. destruct (Nat.eqb_spec j i) as [->|]; auto. destruct (Nat.ltb i (length h)); auto. destruct v; auto.
Qed.
Lemma at_lt h i c : at_ h i = Some c -> i < length h.
Proof. unfold at_. destruct (nth_error h i) as [[x|]|] eqn:E; try discriminate. intro. apply nth_error_Some. congruence. Qed.
Lemma at_set_live h i c v j : at_ h i = Some c -> at_ (set_nth h i v) j = (if Nat.eqb j i then v else at_ h j).
Proof. intro E. rewrite at_set. apply at_lt in E. apply Nat.ltb_lt in E. rewrite E. destruct (Nat.eqb j i); auto. Qed.
Lemma occ_set h : forall i v j, i < length h -> occ j (held (set_nth h i v)) + occ j (holds_of (at_ h i)) = occ j (held h) + occ j (holds_of v).
Proof.
  induction h as [|o r IH]; intros i v j L; cbn [length] in L; [lia|]. destruct i as [|i]; cbn [set_nth held flat_map]; rewrite !occ_app.
  - unfold at_. cbn [nth_error]. destruct o; cbn [holds_of occ]; lia.
  - specialize (IH i v j ltac:(lia)). unfold at_ in *. cbn [nth_error]. unfold held in IH. lia.
Qed.
Lemma total_set h : forall i v, i < length h -> total (set_nth h i v) + strong_of (at_ h i) = total h + strong_of v.
Proof.
  induction h as [|o r IH]; intros i v L; cbn [length] in L; [lia|]. destruct i as [|i]; cbn [set_nth total].
  - unfold at_. cbn [nth_error]. destruct o; cbn [strong_of]; lia.
  - specialize (IH i v ltac:(lia)). unfold at_ in *. cbn [nth_error]. lia.
Qed.
Lemma held_at h i c x : at_ h i = Some c -> In x (c_holds c) -> In x (held h).
Proof.
  unfold at_. intros E I. destruct (nth_error h i) as [[c0|]|] eqn:N; try discriminate. inversion E; subst. apply nth_error_In in N.
  apply in_flat_map. exists (Some c). auto.
Qed.
Lemma held_from h x : In x (held h) -> exists i c, at_ h i = Some c /\ In x (c_holds c).
Proof.
  intro I. apply in_flat_map in I as ([c|] & N & I); [|destruct I]. apply In_nth_error in N as (i & N). exists i, c. split; auto. unfold at_. rewrite N. reflexivity.
Qed.
Lemma occ_at h i c x : at_ h i = Some c -> In x (c_holds c) -> 1 <= occ (target x) (held h).
Proof. intros E I. eapply occ_in; [eapply held_at; eauto|reflexivity]. Qed.
Lemma at_app h cs i : at_ (h ++ cs) i = if Nat.ltb i (length h) then at_ h i else at_ cs (i - length h).
Proof.
  unfold at_. destruct (Nat.ltb_spec i (length h)) as [L|L]; [rewrite nth_error_app1 by auto|rewrite nth_error_app2 by auto]; reflexivity.
Qed.
Lemma held_app h cs : held (h ++ cs) = held h ++ held cs.
Proof. unfold held. apply flat_map_app. Qed.

(** ** The state of the store *)
Definition sub_kind (k : kind) : Prop := k = KDevNode \/ k = KCtrlNode.
Definition hold_ok (h : heap) (x : hold) : Prop :=
  match x with
  | HArc _ => True
  | HDevice d => exists s l, at_ h d = Some (Cell s KDevNode l)
  | HController c => exists s l, at_ h c = Some (Cell s KCtrlNode l)
  end.
Record owned (h : heap) (pend : list hold) : Prop := {
  ow_count : forall i, strong h i = occ i (held h ++ pend);
  ow_node : forall n s b l, at_ h n = Some (Cell s (KNode b) l) -> exists w s', In (HArc w) l /\ at_ h w = Some (Cell s' KRef [HArc n]);
  ow_sub : forall d s k l, at_ h d = Some (Cell s k l) -> sub_kind k -> exists n, l = [HArc n] /\ is_node h n;
  ow_holds : forall x, In x (held h ++ pend) -> hold_ok h x }.

(** Steps that only add. *)
Definition keeps_cell (h' : heap) (i : nat) (k : kind) (l : list hold) : Prop :=
  match k with
  | KNode _ => exists s b l2, at_ h' i = Some (Cell s (KNode b) (l ++ l2))
  | KUser => exists s l', at_ h' i = Some (Cell s KUser l')
  | _ => exists s, at_ h' i = Some (Cell s k l)
  end.
Definition keeps (h h' : heap) : Prop := forall i s k l, at_ h i = Some (Cell s k l) -> keeps_cell h' i k l.
Lemma keeps_refl h : keeps h h.
Proof. intros i s k l E. destruct k; cbn; eauto. exists s, running, []. rewrite app_nil_r. auto. Qed.
Lemma keeps_trans a b c : keeps a b -> keeps b c -> keeps a c.
Proof.
  intros A B i s k l E. apply A in E. destruct k; cbn in *.
  - destruct E as (s1 & b1 & l1 & E). apply B in E as (s2 & b2 & l2 & E). exists s2, b2, (l1 ++ l2). rewrite app_assoc. auto.
  - destruct E as (s1 & E). apply B in E. auto.
  - destruct E as (s1 & E). apply B in E. auto.
  - destruct E as (s1 & E). apply B in E. auto.
  - destruct E as (s1 & l1 & E). apply B in E. auto.
Qed.
Lemma keeps_is_node h h' n : keeps h h' -> is_node h n -> is_node h' n.
Proof. intros K (s & b & l & E). apply K in E as (s' & b' & l2 & E). exists s', b', (l ++ l2). auto. Qed.
Lemma keeps_holds h h' x : keeps h h' -> hold_ok h x -> hold_ok h' x.
Proof.
  intros K. destruct x; cbn; auto; intros (s & l & E); apply K in E as (s' & E); eauto.
Qed.
(** A step that only adds keeps the invariant if counts and new cells are right. *)
Lemma owned_grow h p h' p' : owned h p -> keeps h h' -> (forall i, strong h' i = occ i (held h' ++ p')) ->
  (forall i s k l, at_ h' i = Some (Cell s k l) -> at_ h i = None \/ exists s0 k0 l0, at_ h i = Some (Cell s0 k0 l0) /\ (forall b, k = KNode b -> exists b0, k0 = KNode b0) /\ (sub_kind k -> k0 = k /\ l = l0)) ->
  (forall i s k l, at_ h' i = Some (Cell s k l) -> at_ h i = None ->
     (forall b, k = KNode b -> exists w s', In (HArc w) l /\ at_ h' w = Some (Cell s' KRef [HArc i])) /\ (sub_kind k -> exists n, l = [HArc n] /\ is_node h' n)) ->
  (forall x, In x (held h' ++ p') -> In x (held h ++ p) \/ hold_ok h' x) -> owned h' p'.
Proof.
  intros [C N S H] K C' O F X. constructor; auto.
  - intros n s b l E. destruct (O _ _ _ _ E) as [Z|(s0 & k0 & l0 & E0 & Kn & _)].
    + destruct (F _ _ _ _ E Z) as [G _]. eapply G; reflexivity.
    + destruct (Kn b eq_refl) as (b0 & ->). destruct (N _ _ _ _ E0) as (w & s' & I & W). apply K in E0 as (s2 & b2 & l2 & E2). rewrite E in E2. inversion E2; subst.
      apply K in W as (s3 & W). exists w, s3. split; auto. apply in_app_iff. auto.
  - intros d s k l E Sk. destruct (O _ _ _ _ E) as [Z|(s0 & k0 & l0 & E0 & _ & Ks)].
    + destruct (F _ _ _ _ E Z) as [_ G]. auto.
    + destruct (Ks Sk) as [-> ->]. destruct (S _ _ _ _ E0 Sk) as (n & -> & In_). exists n. split; auto. eapply keeps_is_node; eauto.
  - intros x I. destruct (X x I) as [I0|Y]; auto. eapply keeps_holds; eauto.
Qed.

(** ** Dropping *)
Lemma node_at_spec h i n : node_at h i = Some n -> (n = i /\ is_node h i) \/ exists s k l, at_ h i = Some (Cell s k (HArc n :: l)) /\ sub_kind k.
Proof.
  unfold node_at, sub_kind. destruct (at_ h i) as [[s k l]|] eqn:E; [|discriminate]. destruct k; try discriminate.
  - intro X. inversion X; subst. left. split; auto. exists s, running, l. auto.
  - destruct l as [|[m|m|m] l]; try discriminate. intro X. inversion X; subst. right. exists s, KDevNode, l. auto.
  - destruct l as [|[m|m|m] l]; try discriminate. intro X. inversion X; subst. right. exists s, KCtrlNode, l. auto.
Qed.
Lemma node_at_node h p i n : owned h p -> node_at h i = Some n -> is_node h n.
Proof.
  intros O E. apply node_at_spec in E as [(-> & X)|(s & k & l & E & Sk)]; auto. destruct (ow_sub _ _ O _ _ _ _ E Sk) as (m & El & M). inversion El; subst. auto.
Qed.
Lemma set_running_at h n b i : at_ (set_running h n b) i = if Nat.eqb i n then match at_ h n with Some (Cell s (KNode _) l) => Some (Cell s (KNode b) l) | x => x end else at_ h i.
Proof.
  unfold set_running. destruct (at_ h n) as [[s k l]|] eqn:E; [destruct k|]; try (destruct (Nat.eqb_spec i n) as [->|]; auto; fail).
  rewrite (at_set_live _ _ _ _ _ E). reflexivity.
Qed.
Lemma set_running_length h n b : length (set_running h n b) = length h.
Proof. unfold set_running. destruct (at_ h n) as [[s k l]|]; auto. destruct k; auto. apply set_nth_length. Qed.
Lemma set_running_strong h n b i : strong (set_running h n b) i = strong h i.
Proof. unfold strong. rewrite set_running_at. destruct (Nat.eqb_spec i n) as [->|]; auto. destruct (at_ h n) as [[s k l]|]; auto. destruct k; reflexivity. Qed.
Lemma set_running_occ h n b i : occ i (held (set_running h n b)) = occ i (held h).
Proof.
  unfold set_running. destruct (at_ h n) as [[s k l]|] eqn:E; auto. destruct k; auto.
  pose proof (occ_set h n (Some (Cell s (KNode b) l)) i (at_lt _ _ _ E)) as X. rewrite E in X. cbn [holds_of c_holds] in X. lia.
Qed.
Lemma set_running_held h n b x : In x (held (set_running h n b)) -> In x (held h).
Proof.
  intro I. apply held_from in I as (i & c & E & I). rewrite set_running_at in E. destruct (Nat.eqb_spec i n) as [->|].
  - destruct (at_ h n) as [[s k l]|] eqn:En; [|discriminate]. destruct k; inversion E; subst; eapply held_at; eauto.
  - eapply held_at; eauto.
Qed.
Lemma set_running_keeps h n b : keeps h (set_running h n b).
Proof.
  intros i s k l E. assert (X := set_running_at h n b i). destruct (Nat.eqb_spec i n) as [->|].
  - rewrite E in X. destruct k; cbn; eauto. exists s, b, []. rewrite app_nil_r. auto.
  - rewrite E in X. destruct k; cbn; eauto. exists s, running, []. rewrite app_nil_r. auto.
Qed.
Lemma set_running_total h n b : total (set_running h n b) = total h.
Proof.
  unfold set_running. destruct (at_ h n) as [[s k l]|] eqn:E; auto. destruct k; auto.
  pose proof (total_set h n (Some (Cell s (KNode b) l)) (at_lt _ _ _ E)) as X. rewrite E in X. cbn [strong_of c_strong] in X. lia.
Qed.
Lemma set_running_owned h n b p : owned h p -> owned (set_running h n b) p.
Proof.
  intro O. apply (owned_grow h p); auto using set_running_keeps.
  - intro i. rewrite set_running_strong, occ_app, set_running_occ, <- occ_app. apply (ow_count _ _ O).
  - intros i s k l E. rewrite set_running_at in E. right. destruct (Nat.eqb_spec i n) as [->|].
    + destruct (at_ h n) as [[s0 k0 l0]|] eqn:En; [|discriminate]. exists s0, k0, l0. split; auto. destruct k0; inversion E; subst; (split; [eauto|auto]); intros [Z|Z]; discriminate.
    + exists s, k, l. split; auto. split; eauto.
  - intros i s k l E Z. exfalso. rewrite set_running_at in E. destruct (Nat.eqb_spec i n) as [->|]; [rewrite Z in E|]; congruence.
  - intros x I. left. apply in_app_iff in I as [I|I]; apply in_app_iff; auto. left. eapply set_running_held; eauto.
Qed.
Lemma set_running_runs h n b m : is_node h n -> runs (set_running h n b) m = if Nat.eqb m n then b else runs h m.
Proof.
  intros (s & b0 & l & E). unfold runs. rewrite set_running_at. destruct (Nat.eqb m n); auto. rewrite E. reflexivity.
Qed.

(** A pointer less. *)
Lemma dec_owned h i s k l p : at_ h i = Some (Cell (S (S s)) k l) -> owned h (HArc i :: p) -> owned (set_nth h i (Some (Cell (S s) k l))) p.
Proof.
  intros E O. assert (Ocs : forall j, occ j (held (set_nth h i (Some (Cell (S s) k l)))) = occ j (held h)).
  { intro j. pose proof (occ_set h i (Some (Cell (S s) k l)) j (at_lt _ _ _ E)) as X. rewrite E in X. cbn [holds_of c_holds] in X. lia. }
  assert (Kp : keeps h (set_nth h i (Some (Cell (S s) k l)))).
  { intros j s0 k0 l0 E0. pose proof (at_set_live h i _ (Some (Cell (S s) k l)) j E) as A. destruct (Nat.eqb_spec j i) as [->|].
    - rewrite E in E0. inversion E0; subst. destruct k0; cbn; eauto. exists (S s), running, []. rewrite app_nil_r. auto.
    - rewrite E0 in A. destruct k0; cbn; eauto. exists s0, running, []. rewrite app_nil_r. auto. }
  apply (owned_grow h (HArc i :: p)); auto.
  - intro j. pose proof (ow_count _ _ O j) as C. rewrite occ_app, Ocs. rewrite occ_app in C. cbn [occ target] in C. unfold strong in *. rewrite (at_set_live _ _ _ _ _ E).
    destruct (Nat.eq_dec j i) as [Ej|Nj].
    + subst j. rewrite Nat.eqb_refl in *. rewrite E in C. cbn [strong_of c_strong b2n] in *. lia.
    + apply Nat.eqb_neq in Nj. rewrite Nj. rewrite Nat.eqb_sym, Nj in C. cbn [b2n] in C. lia.
  - intros j s0 k0 l0 E0. rewrite (at_set_live _ _ _ _ _ E) in E0. right. destruct (Nat.eqb_spec j i) as [->|]; [inversion E0; subst|]; do 3 eexists; (split; [eauto|]; split; eauto).
  - intros j s0 k0 l0 E0 Z. exfalso. rewrite (at_set_live _ _ _ _ _ E) in E0. destruct (Nat.eqb_spec j i) as [->|]; congruence.
  - intros x I. left. apply in_app_iff in I as [I|I]; apply in_app_iff; [left|right; right; auto]. apply held_from in I as (j & c & E0 & I). rewrite (at_set_live _ _ _ _ _ E) in E0.
    destruct (Nat.eqb_spec j i) as [->|]; [inversion E0; subst; eapply held_at; [exact E|exact I]|eapply held_at; eauto].
Qed.
(** The last pointer. *)
Lemma last_not_held h i k l p n : at_ h i = Some (Cell 1 k l) -> owned h (HArc i :: p) -> ~ held_by_node h n i.
Proof.
  intros E O (s & b & l0 & En & I). pose proof (ow_count _ _ O i) as C. rewrite occ_app in C. cbn [occ target] in C. rewrite Nat.eqb_refl in C. unfold strong in C. rewrite E in C.
  cbn [strong_of c_strong b2n] in C. pose proof (occ_at h n _ (HArc i) En I) as X. cbn [target] in X. lia.
Qed.
Lemma last_not_node h i k l p : at_ h i = Some (Cell 1 k l) -> owned h (HArc i :: p) -> ~ is_node h i.
Proof.
  intros E O (s & b & l0 & En). destruct (ow_node _ _ O _ _ _ _ En) as (w & s' & _ & W). pose proof (ow_count _ _ O i) as C. rewrite occ_app in C. cbn [occ target] in C.
  rewrite Nat.eqb_refl in C. unfold strong in C. rewrite E in C. cbn [strong_of c_strong b2n] in C. pose proof (occ_at h w _ (HArc i) W (or_introl eq_refl)) as X. cbn [target] in X. lia.
Qed.
Lemma free_owned h i k l p : at_ h i = Some (Cell 1 k l) -> owned h (HArc i :: p) -> owned (set_nth h i None) (l ++ p).
Proof.
  intros E O. assert (A : forall j, at_ (set_nth h i None) j = if Nat.eqb j i then None else at_ h j) by (intro j; apply (at_set_live _ _ _ _ _ E)).
  assert (Nn : forall n, is_node h n -> is_node (set_nth h i None) n).
  { intros n Hn. assert (n <> i) by (intros ->; eapply last_not_node; eauto). destruct Hn as (s & b & l0 & En). exists s, b, l0. rewrite A. destruct (Nat.eqb_spec n i); [contradiction|auto]. }
  assert (C1 : forall j, occ j (held (set_nth h i None)) + occ j l = occ j (held h)).
  { intro j. pose proof (occ_set h i None j (at_lt _ _ _ E)) as X. rewrite E in X. cbn [holds_of c_holds occ] in X. lia. }
  assert (Z0 : occ i (held h ++ p) = 0).
  { pose proof (ow_count _ _ O i) as C. unfold strong in C. rewrite E in C. rewrite occ_app in *. cbn [occ target strong_of c_strong] in C. rewrite Nat.eqb_refl in C. cbn [b2n] in C. lia. }
  constructor.
  - intro j. pose proof (ow_count _ _ O j) as C. rewrite !occ_app in *. cbn [occ target] in C. specialize (C1 j). unfold strong in *. rewrite A. destruct (Nat.eqb_spec j i) as [->|Nj].
    + rewrite Nat.eqb_refl in C. cbn [strong_of]. lia.
    + replace (Nat.eqb i j) with false in C by (symmetry; apply Nat.eqb_neq; auto). cbn [b2n] in C. lia.
  - intros n s b l0 En. rewrite A in En. destruct (Nat.eqb_spec n i) as [->|Nn0]; [discriminate|]. destruct (ow_node _ _ O _ _ _ _ En) as (w & s' & I & W). exists w, s'. split; auto.
    rewrite A. destruct (Nat.eqb_spec w i) as [->|]; auto. exfalso. eapply (last_not_held h i k l p n); eauto. exists s, b, l0. auto.
  - intros d s k0 l0 Ed Sk. rewrite A in Ed. destruct (Nat.eqb_spec d i) as [Ed0|Nd]; [discriminate|]. destruct (ow_sub _ _ O _ _ _ _ Ed Sk) as (n & -> & Hn). exists n. auto.
  - assert (Hx : forall x, In x (held h ++ p) -> hold_ok (set_nth h i None) x).
    { intros x I. assert (target x <> i) by (intro T; pose proof (occ_in i _ x I T); lia).
      assert (Y : hold_ok h x) by (apply (ow_holds _ _ O); apply in_app_iff in I as [I|I]; apply in_app_iff; cbn; auto).
      destruct x; cbn in *; auto; destruct Y as (s & l0 & Y); exists s, l0; rewrite A; apply Nat.eqb_neq in H; rewrite H; exact Y. }
    intros x I. apply Hx. apply in_app_iff. apply in_app_iff in I as [I|I].
    + left. apply held_from in I as (j & c & Ej & I). rewrite A in Ej. destruct (Nat.eqb_spec j i); [discriminate|]. eapply held_at; eauto.
    + apply in_app_iff in I as [I|I]; auto. left. eapply held_at; [exact E|exact I].
Qed.

(** What survives a drop. *)
Record survives (h h' : heap) (ev : list drop_event) : Prop := {
  sv_nodes : forall n, is_node h n -> is_node h' n;
  sv_held : forall n i, held_by_node h n i -> held_by_node h' n i;
  sv_runs : forall n, is_node h n -> runs h' n = true <-> runs h n = true /\ ~ In (EvStop n) ev;
  sv_user : forall u s l, at_ h u = Some (Cell s KUser l) -> ~ In (EvUserDrop u) ev -> exists s', at_ h' u = Some (Cell s' KUser l);
  sv_none : forall n, ~ In (EvNodeDrop n) ev;
  sv_dead : forall i, at_ h i = None -> at_ h' i = None;
  sv_gone : forall u, In (EvUserDrop u) ev -> u < length h' /\ at_ h' u = None;
  sv_len : length h' = length h }.

Lemma survives_trans a b c e1 e2 : survives a b e1 -> survives b c e2 -> survives a c (e1 ++ e2).
Proof.
  intros [A1 A2 A3 A4 A5 A6 A7 A8] [B1 B2 B3 B4 B5 B6 B7 B8]. constructor.
  - auto.
  - auto.
  - intros n H. rewrite (B3 n (A1 n H)), (A3 n H), in_app_iff. tauto.
  - intros u s l E N. destruct (A4 u s l E) as (s' & E'); [rewrite in_app_iff in N; tauto|]. eapply B4; eauto. rewrite in_app_iff in N. tauto.
  - intros n I. apply in_app_iff in I as [I|I]; [eapply A5|eapply B5]; eauto.
  - auto.
  - intros u I. apply in_app_iff in I as [I|I]; auto. destruct (A7 u I) as [L Z]. split; [congruence|auto].
  - congruence.
Qed.
Lemma survives_refl h : survives h h [].
Proof. constructor; auto; [intros n _; cbn; tauto|eauto|intros u []]. Qed.
Lemma held_live h p n i : owned h p -> held_by_node h n i -> live h i.
Proof.
  intros O (s & b & l & E & I) Z. pose proof (ow_count _ _ O i) as C. unfold strong in C. rewrite Z, occ_app in C. cbn [strong_of] in C.
  pose proof (occ_at h n _ (HArc i) E I) as X. cbn [target] in X. lia.
Qed.
Lemma owned_open h x p : owned h (x :: p) -> owned h (HArc (target x) :: p).
Proof.
  intros [O1 O2 O3 O4]. constructor; auto; [intro i; rewrite O1, !occ_app; reflexivity|].
  intros y I. apply in_app_iff in I as [I|[<-|I]]; [apply O4, in_app_iff; auto|exact Logic.I|apply O4, in_app_iff; cbn; auto].
Qed.
Lemma release_owned h todo h' ev : release h todo h' ev -> forall rest, owned h (todo ++ rest) -> owned h' rest /\ survives h h' ev.
Proof.
  induction 1 as [h|h i r s k l h' ev E R IH|h i r k l h' ev E R IH|h d r n h' ev E R IH|h d r n h' ev E R IH]; intros rest O; cbn [app] in O.
  - split; auto. apply survives_refl.
  - pose proof (dec_owned _ _ _ _ _ _ E O) as O1. destruct (IH rest O1) as [O2 Sv]. split; auto. change ev with ([] ++ ev). eapply survives_trans; [|exact Sv].
    assert (A : forall j, at_ (set_nth h i (Some (Cell (S s) k l))) j = if Nat.eqb j i then Some (Cell (S s) k l) else at_ h j) by (intro j; apply (at_set_live _ _ _ _ _ E)).
    constructor.
    + intros n (s0 & b & l0 & En). unfold is_node. rewrite A. destruct (Nat.eqb_spec n i) as [->|]; eauto. rewrite E in En. inversion En; subst. eauto.
    + intros n j (s0 & b & l0 & En & I). unfold held_by_node. rewrite A. destruct (Nat.eqb_spec n i) as [->|]; eauto. rewrite E in En. inversion En; subst. eauto.
    + intros n _. unfold runs. rewrite A. destruct (Nat.eqb_spec n i) as [->|]; [rewrite E|]; cbn; tauto.
    + intros u s0 l0 Eu _. rewrite A. destruct (Nat.eqb_spec u i) as [->|]; eauto. rewrite E in Eu. inversion Eu; subst. eauto.
    + auto.
    + intros j Z. rewrite A. destruct (Nat.eqb_spec j i) as [->|]; congruence.
    + intros u [].
    + apply set_nth_length.
  - pose proof (free_owned _ _ _ _ _ E O) as O1. rewrite app_assoc in O1. destruct (IH rest O1) as [O2 Sv]. split; auto. eapply survives_trans; [|exact Sv].
    assert (A : forall j, at_ (set_nth h i None) j = if Nat.eqb j i then None else at_ h j) by (intro j; apply (at_set_live _ _ _ _ _ E)).
    assert (Nn : ~ is_node h i) by (eapply last_not_node; eauto).
    assert (B : forall n, is_node h n -> at_ (set_nth h i None) n = at_ h n) by (intros n Hn; rewrite A; destruct (Nat.eqb_spec n i) as [->|]; [contradiction|auto]).
    assert (Nk : forall b, k <> KNode b) by (intros b ->; apply Nn; exists 1, b, l; exact E).
    constructor.
    + intros n Hn. unfold is_node. rewrite (B n Hn). exact Hn.
    + intros n j (s0 & b & l0 & En & I). unfold held_by_node. rewrite B by (exists s0, b, l0; exact En). eauto.
    + intros n Hn. unfold runs. rewrite (B n Hn). assert (~ In (EvStop n) (on_free i k)) by (destruct k; cbn; intuition discriminate). tauto.
    + intros u s0 l0 Eu Nu. exists s0. rewrite A. destruct (Nat.eqb_spec u i) as [->|]; auto. exfalso. rewrite E in Eu. inversion Eu; subst. apply Nu. cbn. auto.
    + intros n I. destruct k; cbn in I; try tauto; [eapply Nk; reflexivity|destruct I as [I|[]]; discriminate].
    + intros j Z. rewrite A. destruct (Nat.eqb_spec j i) as [->|]; congruence.
    + intros u I. rewrite set_nth_length, A. destruct (Nat.eqb_spec u i) as [->|]; [split; auto; eapply at_lt; eauto|]. exfalso. destruct k; cbn in I; try tauto; destruct I as [I|[]]; inversion I. congruence.
    + apply set_nth_length.
  - assert (Hn : is_node h n) by (eapply node_at_node; eauto).
    assert (O1 : owned (set_running h n false) (HArc d :: r ++ rest)).
    { apply set_running_owned. refine (owned_open _ _ _ O). }
    destruct (IH rest O1) as [O2 Sv]. split; auto. change (EvStop n :: ev) with ([EvStop n] ++ ev). eapply survives_trans; [|exact Sv]. clear Sv IH R O1 O2. constructor.
    + intros m Hm. eapply keeps_is_node; [apply set_running_keeps|exact Hm].
    + intros m j (s0 & b & l0 & Em & I). apply (set_running_keeps h n false) in Em as (s1 & b1 & l2 & Em). exists s1, b1, (l0 ++ l2). split; auto. apply in_app_iff. auto.
    + intros m _. rewrite set_running_runs by exact Hn. cbn. destruct (Nat.eqb_spec m n) as [->|]; [intuition discriminate|]. intuition congruence.
    + intros u s0 l0 Eu _. exists s0. rewrite set_running_at. destruct (Nat.eqb_spec u n) as [->|]; auto. rewrite Eu. reflexivity.
    + intros m [I|[]]. discriminate.
    + intros j Z. rewrite set_running_at. destruct (Nat.eqb_spec j n) as [->|]; [rewrite Z|]; auto.
    + intros u [I|[]]. discriminate.
    + apply set_running_length.
  - assert (Hn : is_node h n) by (eapply node_at_node; eauto).
    assert (O1 : owned (set_running h n false) (HArc d :: r ++ rest)).
    { apply set_running_owned. refine (owned_open _ _ _ O). }
    destruct (IH rest O1) as [O2 Sv]. split; auto. change (EvStop n :: ev) with ([EvStop n] ++ ev). eapply survives_trans; [|exact Sv]. clear Sv IH R O1 O2. constructor.
    + intros m Hm. eapply keeps_is_node; [apply set_running_keeps|exact Hm].
    + intros m j (s0 & b & l0 & Em & I). apply (set_running_keeps h n false) in Em as (s1 & b1 & l2 & Em). exists s1, b1, (l0 ++ l2). split; auto. apply in_app_iff. auto.
    + intros m _. rewrite set_running_runs by exact Hn. cbn. destruct (Nat.eqb_spec m n) as [->|]; [intuition discriminate|]. intuition congruence.
    + intros u s0 l0 Eu _. exists s0. rewrite set_running_at. destruct (Nat.eqb_spec u n) as [->|]; auto. rewrite Eu. reflexivity.
    + intros m [I|[]]. discriminate.
    + intros j Z. rewrite set_running_at. destruct (Nat.eqb_spec j n) as [->|]; [rewrite Z|]; auto.
    + intros u [I|[]]. discriminate.
    + apply set_running_length.
Qed.

(** Every drop comes to an end. *)
Lemma sub_node h p d s k l : owned h p -> at_ h d = Some (Cell s k l) -> sub_kind k -> exists n, node_at h d = Some n.
Proof.
  intros O E Sk. destruct (ow_sub _ _ O _ _ _ _ E Sk) as (n & -> & _). exists n. unfold node_at. rewrite E. destruct Sk as [->| ->]; reflexivity.
Qed.
Lemma release_total m : forall h todo rest, total h <= m -> owned h (todo ++ rest) -> exists h' ev, release h todo h' ev.
Proof.
  induction m as [m IH] using (well_founded_induction Wf_nat.lt_wf). intros h todo rest L O.
  assert (Arc : forall h i r, total h <= m -> owned h (HArc i :: r ++ rest) -> exists h' ev, release h (HArc i :: r) h' ev).
  { clear h todo L O. intros h i r L O. pose proof (ow_count _ _ O i) as C. rewrite occ_app in C. cbn [occ target] in C. rewrite Nat.eqb_refl in C. cbn [b2n] in C. unfold strong in C.
    destruct (at_ h i) as [[s k l]|] eqn:E; cbn [strong_of c_strong] in C; [|lia].
    assert (T : forall v, strong_of v < s -> total (set_nth h i v) < m).
    { intros v Lv. pose proof (total_set h i v (at_lt _ _ _ E)) as X. rewrite E in X. cbn [strong_of c_strong] in X. lia. }
    destruct s as [|[|s]]; [lia| |].
    - pose proof (free_owned _ _ _ _ _ E O) as O1. rewrite app_assoc in O1. destruct (IH _ (T None ltac:(cbn; lia)) _ _ _ (le_n _) O1) as (h' & ev & R).
      exists h', (on_free i k ++ ev). eapply rel_last; eauto.
    - pose proof (dec_owned _ _ _ _ _ _ E O) as O1. destruct (IH _ (T (Some (Cell (S s) k l)) ltac:(cbn; lia)) _ _ _ (le_n _) O1) as (h' & ev & R).
      exists h', ev. eapply rel_more; eauto. }
  destruct todo as [|x r]; [exists h, []; constructor|]. cbn [app] in O.
  assert (Hx : hold_ok h x) by (apply (ow_holds _ _ O), in_app_iff; cbn; auto).
  assert (O1 : forall n, owned (set_running h n false) (HArc (target x) :: r ++ rest)).
  { intro n. apply set_running_owned, owned_open, O. }
  destruct x as [i|d|d]; cbn [target] in O1.
  - apply Arc; auto.
  - destruct Hx as (s & l & E). destruct (sub_node _ _ _ _ _ _ O E (or_introl eq_refl)) as (n & En).
    destruct (Arc (set_running h n false) d r) as (h' & ev & R); [rewrite set_running_total; exact L|apply O1|]. exists h', (EvStop n :: ev). eapply rel_device; eauto.
  - destruct Hx as (s & l & E). destruct (sub_node _ _ _ _ _ _ O E (or_intror eq_refl)) as (n & En).
    destruct (Arc (set_running h n false) d r) as (h' & ev & R); [rewrite set_running_total; exact L|apply O1|]. exists h', (EvStop n :: ev). eapply rel_controller; eauto.
Qed.

(** ** One operation *)
Lemma owned_vars h p p' : owned h p -> (forall i, occ i p' = occ i p) -> (forall x, In x p' -> In x p) -> owned h p'.
Proof.
  intros [O1 O2 O3 O4] C I. constructor; auto.
  - intro i. rewrite O1, !occ_app, C. reflexivity.
  - intros x X. apply O4. apply in_app_iff in X as [X|X]; apply in_app_iff; auto.
Qed.
Lemma owned_out h p x : owned h p -> In x p -> owned h (x :: without x p).
Proof.
  intros O I. apply (owned_vars h p); auto.
  - intro i. cbn [occ]. rewrite (occ_without i x p I). reflexivity.
  - intros y [<-|Y]; auto. eapply in_without; eauto.
Qed.
Lemma owned_close h x p : hold_ok h x -> owned h (HArc (target x) :: p) -> owned h (x :: p).
Proof.
  intros X [O1 O2 O3 O4]. constructor; auto; [intro i; rewrite O1, !occ_app; reflexivity|].
  intros y I. apply in_app_iff in I as [I|[<-|I]]; [apply O4, in_app_iff; auto|exact X|apply O4, in_app_iff; cbn; auto].
Qed.

Lemma inc_at h i c j : at_ h i = Some c -> at_ (inc h i) j = if Nat.eqb j i then Some (Cell (S (c_strong c)) (c_kind c) (c_holds c)) else at_ h j.
Proof. intro E. unfold inc. rewrite E. destruct c as [s k l]. apply (at_set_live _ _ _ _ _ E). Qed.
Lemma inc_length h i : length (inc h i) = length h.
Proof. unfold inc. destruct (at_ h i) as [[s k l]|]; auto. apply set_nth_length. Qed.
Lemma inc_keeps h i : keeps h (inc h i).
Proof.
  intros j s k l E. destruct (at_ h i) as [c|] eqn:Ei.
  - assert (A := inc_at h i c j Ei). destruct (Nat.eqb_spec j i) as [->|].
    + rewrite E in Ei. inversion Ei; subst. cbn in A. destruct k; cbn; eauto. eexists _, _, []. rewrite app_nil_r. eauto.
    + rewrite E in A. destruct k; cbn; eauto. eexists _, _, []. rewrite app_nil_r. eauto.
  - unfold inc. rewrite Ei. eapply keeps_refl; eauto.
Qed.
Lemma inc_owned h p i : owned h p -> live h i -> owned (inc h i) (HArc i :: p).
Proof.
  intros O L. destruct (at_ h i) as [c|] eqn:E; [|contradiction]. assert (A := fun j => inc_at h i c j E). apply (owned_grow h p); auto using inc_keeps.
  - intro j. pose proof (ow_count _ _ O j) as C. rewrite occ_app in *. cbn [occ target]. unfold strong in *. rewrite A.
    assert (X : occ j (held (inc h i)) = occ j (held h)).
    { unfold inc. rewrite E. destruct c as [s k l]. pose proof (occ_set h i (Some (Cell (S s) k l)) j (at_lt _ _ _ E)) as X. rewrite E in X. cbn [holds_of c_holds] in X. lia. }
    rewrite X. destruct (Nat.eq_dec j i) as [Ej|Nj].
    + subst j. rewrite Nat.eqb_refl. rewrite E in C. cbn [strong_of c_strong b2n] in *. lia.
    + assert (Nat.eqb j i = false /\ Nat.eqb i j = false) as [-> ->] by (split; apply Nat.eqb_neq; auto). cbn [b2n]. lia.
  - intros j s0 k0 l0 E0. rewrite A in E0. right. destruct (Nat.eqb_spec j i) as [->|].
    + destruct c as [s k l]. cbn in E0. inversion E0; subst. exists s, k0, l0. split; [exact E|]. split; eauto.
    + exists s0, k0, l0. split; [exact E0|]. split; eauto.
  - intros j s0 k0 l0 E0 Z. exfalso. rewrite A in E0. destruct (Nat.eqb_spec j i) as [->|]; congruence.
  - intros x I. apply in_app_iff in I as [I|[<-|I]]; [|right; exact Logic.I|left; apply in_app_iff; auto]. left. apply in_app_iff. left. apply held_from in I as (j & c0 & E0 & I). rewrite A in E0.
    destruct (Nat.eqb_spec j i) as [->|]; [inversion E0; subst; eapply held_at; [exact E|exact I]|eapply held_at; eauto].
Qed.
Lemma give_at h i c x j : at_ h i = Some c -> at_ (give h i x) j = if Nat.eqb j i then Some (Cell (c_strong c) (c_kind c) (c_holds c ++ [x])) else at_ h j.
Proof. intro E. unfold give. rewrite E. destruct c as [s k l]. apply (at_set_live _ _ _ _ _ E). Qed.
Lemma give_length h i x : length (give h i x) = length h.
Proof. unfold give. destruct (at_ h i) as [[s k l]|]; auto. apply set_nth_length. Qed.
Definition grows (k : kind) : Prop := k = KUser \/ exists b, k = KNode b.
Lemma give_keeps h i c x : at_ h i = Some c -> grows (c_kind c) -> keeps h (give h i x).
Proof.
  intros Ei G j s k l E. assert (A := give_at h i c x j Ei). destruct (Nat.eqb_spec j i) as [->|].
  - rewrite E in Ei. inversion Ei; subst. cbn in A, G. destruct G as [->|(b & ->)]; cbn; eauto.
  - rewrite E in A. destruct k; cbn; eauto. eexists _, _, []. rewrite app_nil_r. eauto.
Qed.
Lemma give_owned h p i c x : at_ h i = Some c -> grows (c_kind c) -> owned h (x :: p) -> owned (give h i x) p.
Proof.
  intros E G O. assert (A := fun j => give_at h i c x j E). apply (owned_grow h (x :: p)); auto; [eapply give_keeps; eauto|..].
  - intro j. pose proof (ow_count _ _ O j) as C. rewrite occ_app in *. cbn [occ] in C. unfold strong in *. rewrite A.
    assert (X : occ j (held (give h i x)) = occ j (held h) + b2n (Nat.eqb (target x) j)).
    { unfold give. rewrite E. destruct c as [s k l]. pose proof (occ_set h i (Some (Cell s k (l ++ [x]))) j (at_lt _ _ _ E)) as X. rewrite E in X. cbn [holds_of c_holds] in X. rewrite occ_app in X. cbn [occ] in X. lia. }
    rewrite X. destruct (Nat.eq_dec j i) as [Ej|Nj].
    + subst j. rewrite Nat.eqb_refl. rewrite E in C. cbn [strong_of c_strong] in *. lia.
    + apply Nat.eqb_neq in Nj as ->. lia.
  - intros j s0 k0 l0 E0. rewrite A in E0. right. destruct (Nat.eqb_spec j i) as [->|].
    + destruct c as [s k l]. cbn in E0, G. inversion E0; subst. exists s0, k0, l. split; [exact E|]. split; eauto. destruct G as [->|(b & ->)]; intros [Z|Z]; discriminate.
    + exists s0, k0, l0. split; [exact E0|]. split; eauto.
  - intros j s0 k0 l0 E0 Z. exfalso. rewrite A in E0. destruct (Nat.eqb_spec j i) as [->|]; congruence.
  - intros y I. left. apply in_app_iff in I as [I|I]; apply in_app_iff; [|cbn; auto]. apply held_from in I as (j & c0 & E0 & I). rewrite A in E0.
    destruct (Nat.eqb_spec j i) as [->|].
    + inversion E0; subst. cbn in I. apply in_app_iff in I as [I|[<-|[]]]; [left; eapply held_at; [exact E|exact I]|cbn; auto].
    + left. eapply held_at; eauto.
Qed.
Lemma take_owned h p u s l x : at_ h u = Some (Cell s KUser l) -> In x l -> owned h p -> owned (set_nth h u (Some (Cell s KUser (without x l)))) (x :: p).
Proof.
  intros E Ix O. assert (A := fun j => at_set_live h u _ (Some (Cell s KUser (without x l))) j E).
  assert (Kp : keeps h (set_nth h u (Some (Cell s KUser (without x l))))).
  { intros j s0 k0 l0 E0. pose proof (A j) as Aj. destruct (Nat.eq_dec j u) as [Ej|Nj].
    - subst j. rewrite Nat.eqb_refl in Aj. rewrite E in E0. inversion E0; subst. cbn. eauto.
    - apply Nat.eqb_neq in Nj. rewrite Nj, E0 in Aj. destruct k0; cbn; eauto. eexists _, _, []. rewrite app_nil_r. eauto. }
  apply (owned_grow h p); auto.
  - intro j. pose proof (ow_count _ _ O j) as C. rewrite occ_app in *. cbn [occ]. unfold strong in *. rewrite A.
    pose proof (occ_set h u (Some (Cell s KUser (without x l))) j (at_lt _ _ _ E)) as X. rewrite E in X. cbn [holds_of c_holds] in X. rewrite (occ_without j x l Ix) in X.
    destruct (Nat.eq_dec j u) as [Ej|Nj].
    + subst j. rewrite Nat.eqb_refl. rewrite E in C. cbn [strong_of c_strong] in *. lia.
    + apply Nat.eqb_neq in Nj as ->. lia.
  - intros j s0 k0 l0 E0. rewrite A in E0. right. destruct (Nat.eqb_spec j u) as [->|].
    + inversion E0; subst. exists s0, KUser, l. split; [exact E|]. split; eauto. intros [Z|Z]; discriminate.
    + exists s0, k0, l0. split; [exact E0|]. split; eauto.
  - intros j s0 k0 l0 E0 Z. exfalso. rewrite A in E0. destruct (Nat.eqb_spec j u) as [->|]; congruence.
  - intros y I. left. apply in_app_iff. apply in_app_iff in I as [I|[<-|I]]; auto.
    + left. apply held_from in I as (j & c0 & E0 & I). rewrite A in E0. destruct (Nat.eqb_spec j u) as [->|]; [|eapply held_at; eauto].
      inversion E0; subst. cbn in I. eapply held_at; [exact E|]. cbn. eapply in_without; eauto.
    + left. eapply held_at; [exact E|exact Ix].
Qed.
Lemma app_keeps h cs : keeps h (h ++ cs).
Proof.
  intros i s k l E. assert (X : at_ (h ++ cs) i = Some (Cell s k l)) by (rewrite at_app; pose proof (at_lt _ _ _ E) as L; apply Nat.ltb_lt in L as ->; exact E).
  destruct k; cbn; eauto. eexists _, _, []. rewrite app_nil_r. eauto.
Qed.
Lemma target_live h p x : owned h p -> In x (held h ++ p) -> target x < length h.
Proof.
  intros O I. pose proof (ow_count _ _ O (target x)) as C. pose proof (occ_in _ _ _ I eq_refl) as X. unfold strong in C. destruct (at_ h (target x)) as [c|] eqn:E; [eapply at_lt; eauto|cbn in C; lia].
Qed.
Lemma occ_beyond h p i : owned h p -> length h <= i -> occ i (held h ++ p) = 0.
Proof.
  intros O L. rewrite <- (ow_count _ _ O). unfold strong, at_. replace (nth_error h i) with (@None (option cell)) by (symmetry; apply nth_error_None; auto). reflexivity.
Qed.
(** A new cell that takes what it holds from the variables. *)
Lemma alloc_owned h p k l : (forall b, k <> KNode b) -> (sub_kind k -> exists n, l = [HArc n] /\ is_node h n) -> owned h (l ++ p) ->
  owned (h ++ [Some (Cell 1 k l)]) (HArc (length h) :: p).
Proof.
  intros Nk Sk O. apply (owned_grow h (l ++ p)); auto using app_keeps.
  - intro j. pose proof (ow_count _ _ O j) as C. unfold strong in *. rewrite at_app, held_app. cbn [held flat_map holds_of c_holds]. rewrite !occ_app in *. cbn [occ target].
    destruct (Nat.ltb_spec j (length h)) as [L|L].
    + replace (Nat.eqb (length h) j) with false by (symmetry; apply Nat.eqb_neq; lia). cbn [b2n occ]. lia.
    + pose proof (occ_beyond h _ j O L) as Z. rewrite !occ_app in Z. destruct (Nat.eq_dec (length h) j) as [Ej|Nj].
      * subst j. rewrite Nat.eqb_refl, Nat.sub_diag. cbn [at_ nth_error strong_of c_strong b2n occ]. lia.
      * apply Nat.eqb_neq in Nj as Nj'. rewrite Nj'. destruct (j - length h) as [|m] eqn:D; [lia|]. unfold at_. cbn [nth_error]. destruct m; cbn; lia.
  - intros i s k0 l0 E. rewrite at_app in E. destruct (Nat.ltb_spec i (length h)) as [L|L].
    + right. exists s, k0, l0. split; auto. split; eauto.
    + left. unfold at_. replace (nth_error h i) with (@None (option cell)) by (symmetry; apply nth_error_None; auto). reflexivity.
  - intros i s k0 l0 E Z. rewrite at_app in E. destruct (Nat.ltb_spec i (length h)) as [L|L]; [congruence|]. destruct (i - length h) as [|m] eqn:D.
    + cbn in E. inversion E; subst. split; [intros b ->; exfalso; eapply Nk; reflexivity|]. intro S0. destruct (Sk S0) as (n & -> & Hn). exists n. split; auto. eapply keeps_is_node; [apply app_keeps|exact Hn].
    + unfold at_ in E. cbn in E. destruct m; discriminate.
  - intros x I. rewrite held_app in I. cbn [held flat_map holds_of c_holds] in I. rewrite app_nil_r in I. rewrite !in_app_iff in *. cbn in I. destruct I as [[I|I]|[<-|I]]; auto. right. exact Logic.I.
Qed.
Lemma new_node_owned h p n h' : new_node h = (n, h') -> owned h p -> owned h' (HArc n :: p) /\ keeps h h' /\ n = length h /\ is_node h' n.
Proof.
  unfold new_node. intros X O. inversion X; subst. clear X. assert (K := app_keeps h [Some (Cell 2 (KNode false) [HArc (S (length h))]); Some (Cell 1 KRef [HArc (length h)])]).
  assert (N0 : forall i, length h <= i -> at_ h i = None) by (intros i L; unfold at_; replace (nth_error h i) with (@None (option cell)) by (symmetry; apply nth_error_None; auto); reflexivity).
  assert (A0 : at_ (h ++ [Some (Cell 2 (KNode false) [HArc (S (length h))]); Some (Cell 1 KRef [HArc (length h)])]) (length h) = Some (Cell 2 (KNode false) [HArc (S (length h))])).
  { rewrite at_app. destruct (Nat.ltb_spec (length h) (length h)); [lia|]. rewrite Nat.sub_diag. reflexivity. }
  assert (A1 : at_ (h ++ [Some (Cell 2 (KNode false) [HArc (S (length h))]); Some (Cell 1 KRef [HArc (length h)])]) (S (length h)) = Some (Cell 1 KRef [HArc (length h)])).
  { rewrite at_app. destruct (Nat.ltb_spec (S (length h)) (length h)); [lia|]. replace (S (length h) - length h) with 1 by lia. reflexivity. }
  split; [|split; [exact K|split; [reflexivity|eexists _, _, _; exact A0]]]. apply (owned_grow h p); auto.
  - intro j. pose proof (ow_count _ _ O j) as C. unfold strong in *. rewrite held_app. cbn [held flat_map holds_of c_holds app]. rewrite !occ_app in *. cbn [occ target].
    destruct (Nat.lt_trichotomy j (length h)) as [L|[L|L]].
    + rewrite at_app. assert (L' := L). apply Nat.ltb_lt in L' as ->. replace (Nat.eqb (length h) j) with false by (symmetry; apply Nat.eqb_neq; lia). replace (Nat.eqb (S (length h)) j) with false by (symmetry; apply Nat.eqb_neq; lia). cbn [b2n]. lia.
    + subst j. rewrite A0. pose proof (occ_beyond h _ _ O (le_n (length h))) as Z. rewrite occ_app in Z. rewrite Nat.eqb_refl. replace (Nat.eqb (S (length h)) (length h)) with false by (symmetry; apply Nat.eqb_neq; lia). cbn [b2n strong_of c_strong]. lia.
    + pose proof (occ_beyond h _ j O ltac:(lia)) as Z. rewrite occ_app in Z. replace (Nat.eqb (length h) j) with false by (symmetry; apply Nat.eqb_neq; lia). destruct (Nat.eq_dec j (S (length h))) as [->|Nj].
      * rewrite A1, Nat.eqb_refl. cbn [b2n strong_of c_strong]. lia.
      * replace (Nat.eqb (S (length h)) j) with false by (symmetry; apply Nat.eqb_neq; lia). rewrite at_app. destruct (Nat.ltb_spec j (length h)); [lia|].
        destruct (j - length h) as [|[|m]] eqn:D; try lia. unfold at_. cbn [nth_error]. destruct m; cbn; lia.
  - intros i s k0 l0 E. rewrite at_app in E. destruct (Nat.ltb_spec i (length h)) as [L|L]; [|left; auto]. right. exists s, k0, l0. split; auto. split; eauto.
  - intros i s k0 l0 E Z. assert (L : length h <= i) by (rewrite at_app in E; destruct (Nat.ltb_spec i (length h)); [congruence|auto]).
    destruct (Nat.eq_dec i (length h)) as [->|N]; [|destruct (Nat.eq_dec i (S (length h))) as [->|N']].
    + rewrite A0 in E. inversion E; subst. split; [|intros [Y|Y]; discriminate]. intros b _. exists (S (length h)), 1. split; [cbn; auto|exact A1].
    + rewrite A1 in E. inversion E; subst. split; [intros b Y; discriminate|intros [Y|Y]; discriminate].
    + exfalso. rewrite at_app in E. destruct (Nat.ltb_spec i (length h)); [lia|]. destruct (i - length h) as [|[|m]] eqn:D; try lia. unfold at_ in E. cbn in E. destruct m; discriminate.
  - intros x I. rewrite held_app in I. cbn [held flat_map holds_of c_holds app] in I. rewrite !in_app_iff in *. cbn in I. destruct I as [[I|[<-|[<-|[]]]]|[<-|I]]; auto; right; exact Logic.I.
Qed.

Lemma set_nth_app {A} (l m : list A) : forall i x, i < length l -> set_nth (l ++ m) i x = set_nth l i x ++ m.
Proof. induction l as [|y r IH]; intros i x L; cbn [length] in L; [lia|]. destruct i as [|i]; cbn [app set_nth]; auto. rewrite IH by lia. reflexivity. Qed.
Lemma set_nth_last {A} (l m : list A) y x : set_nth (l ++ y :: m) (length l) x = l ++ x :: m.
Proof. induction l as [|z r IH]; cbn [length app set_nth]; auto. rewrite IH. reflexivity. Qed.
Lemma at_last h c cs : at_ (h ++ Some c :: cs) (length h) = Some c.
Proof. rewrite at_app. destruct (Nat.ltb_spec (length h) (length h)); [lia|]. rewrite Nat.sub_diag. reflexivity. Qed.
Lemma inc_app h cs i : i < length h -> inc (h ++ cs) i = inc h i ++ cs.
Proof. intro L. unfold inc. rewrite at_app. assert (L' := L). apply Nat.ltb_lt in L' as ->. destruct (at_ h i) as [[s k l]|]; auto. apply set_nth_app. exact L. Qed.
Lemma inc_last h s k l cs : inc (h ++ Some (Cell s k l) :: cs) (length h) = h ++ Some (Cell (S s) k l) :: cs.
Proof. unfold inc. rewrite at_last. apply set_nth_last. Qed.
Lemma is_node_keep h h' n : keeps h h' -> is_node h n -> exists s b l, at_ h' n = Some (Cell s (KNode b) l).
Proof. intros K H. exact (keeps_is_node h h' n K H). Qed.

Lemma with_node_owned k h n d h' p : with_node k h n = (d, h') -> sub_kind k -> is_node h n -> owned h (HArc n :: p) ->
  owned h' (HArc d :: p) /\ keeps h h' /\ d = length h /\ node_at h' d = Some n /\ exists s, at_ h' d = Some (Cell s k [HArc n]).
Proof.
  intros W Sk Hn O. assert (Ln : n < length h) by (destruct Hn as (s & b & l & E); eapply at_lt; eauto). unfold with_node in W. injection W as Wd Wh. symmetry in Wd. subst d.
  assert (Lv : live h n) by (destruct Hn as (s & b & l & E); unfold live; congruence).
  set (h1 := inc h n) in *. assert (O1 : owned h1 (HArc n :: HArc n :: p)) by (apply inc_owned; auto).
  assert (K1 : keeps h h1) by apply inc_keeps. assert (L1 : length h1 = length h) by apply inc_length. assert (N1 : is_node h1 n) by (eapply keeps_is_node; eauto).
  set (h2 := h1 ++ [Some (Cell 1 k [HArc n])]).
  assert (O2 : owned h2 (HArc (length h) :: HArc n :: p)).
  { rewrite <- L1. apply (alloc_owned h1 (HArc n :: p) k [HArc n]); [intros b ->; destruct Sk; discriminate|eauto|exact O1]. }
  assert (K2 : keeps h1 h2) by apply app_keeps.
  assert (A2 : at_ h2 (length h) = Some (Cell 1 k [HArc n])) by (unfold h2; rewrite <- L1; apply at_last).
  set (h3 := inc h2 (length h)). assert (O3 : owned h3 (HArc (length h) :: HArc (length h) :: HArc n :: p)) by (apply inc_owned; auto; unfold live; congruence).
  assert (K3 : keeps h2 h3) by apply inc_keeps.
  assert (E3 : h3 = h1 ++ [Some (Cell 2 k [HArc n])]) by (unfold h3, h2; rewrite <- L1; apply inc_last).
  assert (L3 : length h3 = S (length h)) by (rewrite E3, app_length; cbn; lia).
  set (h4 := h3 ++ [Some (Cell 1 KRef [HArc n])]).
  assert (O4 : owned h4 (HArc (S (length h)) :: HArc (length h) :: HArc (length h) :: p)).
  { rewrite <- L3. apply (alloc_owned h3 (HArc (length h) :: HArc (length h) :: p) KRef [HArc n]); [discriminate|intros [Z|Z]; discriminate|].
    apply (owned_vars h3 (HArc (length h) :: HArc (length h) :: HArc n :: p)); auto; [intro i; rewrite !occ_app; cbn [occ]; lia|cbn; tauto]. }
  assert (K4 : keeps h3 h4) by apply app_keeps. assert (L4 : length h4 = S (S (length h))) by (unfold h4; rewrite app_length; cbn; lia).
  set (h5 := h4 ++ [Some (Cell 1 KRef [HArc (length h)])]).
  assert (O5 : owned h5 (HArc (S (S (length h))) :: HArc (S (length h)) :: HArc (length h) :: p)).
  { rewrite <- L4. apply (alloc_owned h4 (HArc (S (length h)) :: HArc (length h) :: p) KRef [HArc (length h)]); [discriminate|intros [Z|Z]; discriminate|].
    apply (owned_vars h4 (HArc (S (length h)) :: HArc (length h) :: HArc (length h) :: p)); auto; [intro i; rewrite !occ_app; cbn [occ]; lia|cbn; tauto]. }
  assert (K5 : keeps h4 h5) by apply app_keeps.
  assert (E5 : inc (h ++ [Some (Cell 2 k [HArc n]); Some (Cell 1 KRef [HArc n]); Some (Cell 1 KRef [HArc (length h)])]) n = h5).
  { rewrite inc_app by exact Ln. unfold h5, h4. rewrite E3. rewrite <- !app_assoc. reflexivity. }
  rewrite E5 in Wh. clear E5.
  assert (K05 : keeps h h5) by (eapply keeps_trans; [exact K1|]; eapply keeps_trans; [exact K2|]; eapply keeps_trans; [exact K3|]; eapply keeps_trans; [exact K4|exact K5]).
  assert (N5 : is_node h5 n) by (eapply keeps_is_node; eauto). destruct N5 as (s5 & b5 & l5 & A5).
  assert (K6 : keeps h5 (give h5 n (HArc (S (length h))))) by (eapply give_keeps; [exact A5|right; eexists; reflexivity]).
  assert (O6 : owned (give h5 n (HArc (S (length h)))) (HArc (S (S (length h))) :: HArc (length h) :: p)).
  { eapply give_owned; [exact A5|right; eexists; reflexivity|]. apply (owned_vars h5 (HArc (S (S (length h))) :: HArc (S (length h)) :: HArc (length h) :: p)); auto; [intro i; cbn [occ]; lia|cbn; tauto]. }
  set (h6 := give h5 n (HArc (S (length h)))) in *. assert (N6 : is_node h6 n) by (eapply keeps_is_node; [exact K6|exists s5, b5, l5; exact A5]). destruct N6 as (s6 & b6 & l6 & A6).
  assert (K7 : keeps h6 h') by (subst h'; eapply give_keeps; [exact A6|right; eexists; reflexivity]).
  assert (O7 : owned h' (HArc (length h) :: p)) by (subst h'; eapply give_owned; [exact A6|right; eexists; reflexivity|exact O6]).
  assert (K37 : keeps h3 h') by (eapply keeps_trans; [exact K4|]; eapply keeps_trans; [exact K5|]; eapply keeps_trans; [exact K6|exact K7]).
  assert (A3 : at_ h3 (length h) = Some (Cell 2 k [HArc n])) by (rewrite E3, <- L1; apply at_last).
  apply K37 in A3. assert (A7 : exists s, at_ h' (length h) = Some (Cell s k [HArc n])) by (destruct Sk as [->| ->]; exact A3).
  split; [exact O7|]. split; [eapply keeps_trans; [exact K05|]; eapply keeps_trans; [exact K6|exact K7]|]. split; [reflexivity|]. split; [|exact A7].
  destruct A7 as (s & A7). unfold node_at. rewrite A7. destruct Sk as [->| ->]; reflexivity.
Qed.

(** What no operation takes away. *)
Record lasts (h h' : heap) (ev : list drop_event) : Prop := {
  la_node : forall n, is_node h n -> is_node h' n;
  la_held : forall n i, held_by_node h n i -> held_by_node h' n i;
  la_none : forall n, ~ In (EvNodeDrop n) ev;
  la_dead : forall i, i < length h -> at_ h i = None -> at_ h' i = None;
  la_gone : forall u, In (EvUserDrop u) ev -> u < length h' /\ at_ h' u = None;
  la_len : length h <= length h' }.
Lemma keeps_held h h' n i : keeps h h' -> held_by_node h n i -> held_by_node h' n i.
Proof. intros K (s & b & l & E & I). apply K in E as (s' & b' & l2 & E). exists s', b', (l ++ l2). split; auto. apply in_app_iff. auto. Qed.
Lemma lasts_keeps h h' : keeps h h' -> length h <= length h' -> (forall i, i < length h -> at_ h i = None -> at_ h' i = None) -> lasts h h' [].
Proof. intros K L D. constructor; auto; [intros n; apply keeps_is_node; auto|intros n i; apply keeps_held; auto|intros u []]. Qed.
Lemma lasts_refl h : lasts h h [].
Proof. apply lasts_keeps; auto using keeps_refl. Qed.
Lemma lasts_trans a b c e1 e2 : lasts a b e1 -> lasts b c e2 -> lasts a c (e1 ++ e2).
Proof.
  intros [A1 A2 A3 A4 A5 A6] [B1 B2 B3 B4 B5 B6]. constructor; auto; [| | |lia].
  - intros n I. apply in_app_iff in I as [I|I]; [eapply A3|eapply B3]; eauto.
  - intros i L Z. apply B4; auto. lia.
  - intros u I. apply in_app_iff in I as [I|I]; auto. destruct (A5 u I) as [L Z]. split; [lia|auto].
Qed.
Lemma inc_dead h i j : at_ h j = None -> at_ (inc h i) j = None.
Proof.
  intro Z. destruct (at_ h i) as [c|] eqn:E; [|unfold inc; rewrite E; exact Z]. rewrite (inc_at _ _ _ _ E). destruct (Nat.eqb_spec j i) as [->|]; congruence.
Qed.
Lemma give_dead h i x j : at_ h j = None -> at_ (give h i x) j = None.
Proof.
  intro Z. destruct (at_ h i) as [c|] eqn:E; [|unfold give; rewrite E; exact Z]. rewrite (give_at _ _ _ _ _ E). destruct (Nat.eqb_spec j i) as [->|]; congruence.
Qed.
Lemma app_dead h cs j : j < length h -> at_ h j = None -> at_ (h ++ cs) j = None.
Proof. intros L Z. rewrite at_app. apply Nat.ltb_lt in L as ->. exact Z. Qed.
Lemma new_node_lasts h n h' : new_node h = (n, h') -> lasts h h' [].
Proof. unfold new_node. intro X. inversion X; subst. apply lasts_keeps; [apply app_keeps|rewrite app_length; lia|intros; apply app_dead; auto]. Qed.
Lemma with_node_lasts k h n d h' : with_node k h n = (d, h') -> keeps h h' -> lasts h h' [].
Proof.
  intros W K. apply lasts_keeps; auto.
  - unfold with_node in W. injection W as _ <-. rewrite !give_length, inc_length, app_length. lia.
  - intros i L Z. unfold with_node in W. injection W as _ <-. apply give_dead, give_dead, inc_dead, app_dead; auto.
Qed.
Lemma survives_lasts h h' ev : survives h h' ev -> lasts h h' ev.
Proof. intros [A1 A2 A3 A4 A5 A6 A7 A8]. constructor; auto. lia. Qed.
Lemma reaches_in h v x : reaches (Store h v) x -> In x (held h ++ v).
Proof. intros [I|(u & c & l & E & I)]; apply in_app_iff; auto. left. eapply held_at; [exact E|exact I]. Qed.
Lemma in_live h p x : owned h p -> In x (held h ++ p) -> live h (target x).
Proof.
  intros O I Z. pose proof (ow_count _ _ O (target x)) as C. pose proof (occ_in _ _ _ I eq_refl). unfold strong in C. rewrite Z in C. cbn in C. lia.
Qed.
Lemma node_grows h n : is_node h n -> exists c, at_ h n = Some c /\ grows (c_kind c).
Proof. intros (s & b & l & E). eexists. split; [exact E|right; eexists; reflexivity]. Qed.
Lemma register_owned h v n u : owned h v -> is_node h n -> live h u -> owned (give (inc h u) n (HArc u)) v /\ lasts h (give (inc h u) n (HArc u)) [].
Proof.
  intros O Hn L. assert (K := inc_keeps h u). assert (N1 : is_node (inc h u) n) by (eapply keeps_is_node; eauto). destruct (node_grows _ _ N1) as (c & E & G). split.
  - eapply give_owned; [exact E|exact G|apply inc_owned; auto].
  - apply lasts_keeps; [eapply keeps_trans; [exact K|eapply give_keeps; eauto]|rewrite give_length, inc_length; lia|intros; apply give_dead, inc_dead; auto].
Qed.
Lemma running_lasts h n b : lasts h (set_running h n b) [].
Proof.
  apply lasts_keeps; [apply set_running_keeps|rewrite set_running_length; lia|]. intros i _ Z. rewrite set_running_at. destruct (Nat.eqb_spec i n) as [->|]; [rewrite Z|]; auto.
Qed.
Lemma step_owned s op s' ev : own_step s op s' ev -> owned (st_heap s) (st_vars s) -> owned (st_heap s') (st_vars s') /\ lasts (st_heap s) (st_heap s') ev.
Proof.
  destruct 1 as [h v n h' N|h v n h1 d h' N W|h v n d h' I N W|h v n h1 c h' N W|h v n c h' I N W|h v|h v u s l x I E|h v u s l x E I|h v i R|h v d n R N|h v x u n R1 R2 N|h v x u n R1 R2 N|h v x n R N|h v x n R N|h v x h' ev I R];
    cbn [st_heap st_vars]; intro O.
  - destruct (new_node_owned _ _ _ _ N O) as (O' & K & _). split; auto. eapply new_node_lasts; eauto.
  - destruct (new_node_owned _ _ _ _ N O) as (O1 & K1 & _ & Hn). destruct (with_node_owned _ _ _ _ _ _ W (or_introl eq_refl) Hn O1) as (O2 & K2 & _ & _ & (s & E)).
    split; [apply owned_close; [cbn; eauto|exact O2]|]. change (@nil drop_event) with (@nil drop_event ++ []). eapply lasts_trans; [eapply new_node_lasts; eauto|eapply with_node_lasts; eauto].
  - apply node_at_node with (p := v) in N as Hn; auto. destruct (with_node_owned _ _ _ _ _ _ W (or_introl eq_refl) Hn (owned_out _ _ _ O I)) as (O2 & K2 & _ & _ & (s & E)).
    split; [apply owned_close; [cbn; eauto|exact O2]|eapply with_node_lasts; eauto].
  - destruct (new_node_owned _ _ _ _ N O) as (O1 & K1 & _ & Hn). destruct (with_node_owned _ _ _ _ _ _ W (or_intror eq_refl) Hn O1) as (O2 & K2 & _ & _ & (s & E)).
    split; [apply owned_close; [cbn; eauto|exact O2]|]. change (@nil drop_event) with (@nil drop_event ++ []). eapply lasts_trans; [eapply new_node_lasts; eauto|eapply with_node_lasts; eauto].
  - apply node_at_node with (p := v) in N as Hn; auto. destruct (with_node_owned _ _ _ _ _ _ W (or_intror eq_refl) Hn (owned_out _ _ _ O I)) as (O2 & K2 & _ & _ & (s & E)).
    split; [apply owned_close; [cbn; eauto|exact O2]|eapply with_node_lasts; eauto].
  - split; [apply (alloc_owned h v KUser []); [discriminate|intros [Z|Z]; discriminate|exact O]|]. apply lasts_keeps; [apply app_keeps|rewrite app_length; lia|intros; apply app_dead; auto].
  - split; [eapply give_owned; [exact E|left; reflexivity|apply owned_out; auto]|]. apply lasts_keeps; [eapply give_keeps; [exact E|left; reflexivity]|rewrite give_length; lia|intros; apply give_dead; auto].
  - split; [apply take_owned; auto|]. apply lasts_keeps; [|rewrite set_nth_length; lia|].
    + intros j s0 k0 l0 E0. pose proof (at_set_live h u _ (Some (Cell s KUser (without x l))) j E) as Aj. destruct (Nat.eq_dec j u) as [Ej|Nj].
      * subst j. rewrite Nat.eqb_refl in Aj. rewrite E in E0. inversion E0; subst. cbn. eauto.
      * apply Nat.eqb_neq in Nj. rewrite Nj, E0 in Aj. destruct k0; cbn; eauto. eexists _, _, []. rewrite app_nil_r. eauto.
    + intros i _ Z. rewrite (at_set_live _ _ _ _ _ E). destruct (Nat.eqb_spec i u) as [->|]; congruence.
  - apply reaches_in in R. apply (in_live _ _ _ O) in R. split; [apply inc_owned; auto|]. apply lasts_keeps; [apply inc_keeps|rewrite inc_length; lia|intros; apply inc_dead; auto].
  - apply node_at_node with (p := v) in N as Hn; auto. split; [apply inc_owned; auto; destruct Hn as (s & b & l & E); unfold live; congruence|]. apply lasts_keeps; [apply inc_keeps|rewrite inc_length; lia|intros; apply inc_dead; auto].
  - apply node_at_node with (p := v) in N as Hn; auto. apply reaches_in in R2. apply (in_live _ _ _ O) in R2. apply register_owned; auto.
  - apply node_at_node with (p := v) in N as Hn; auto. apply reaches_in in R2. apply (in_live _ _ _ O) in R2. apply register_owned; auto.
  - split; [apply set_running_owned; auto|apply running_lasts].
  - split; [apply set_running_owned; auto|apply running_lasts].
  - destruct (release_owned _ _ _ _ R (without x v)) as [O' Sv]; [exact (owned_out _ _ _ O I)|]. split; auto. apply survives_lasts. exact Sv.
Qed.
Lemma run_owned s ops s' ev : own_run s ops s' ev -> owned (st_heap s) (st_vars s) -> owned (st_heap s') (st_vars s') /\ lasts (st_heap s) (st_heap s') ev.
Proof.
  induction 1 as [s|s op s1 ev ops s2 ev' St R IH]; intro O; [split; auto using lasts_refl|]. destruct (step_owned _ _ _ _ St O) as [O1 L1]. destruct (IH O1) as [O2 L2]. split; auto. eapply lasts_trans; eauto.
Qed.
Lemma nothing_owned : owned (st_heap nothing) (st_vars nothing).
Proof.
  assert (A : forall i, at_ [] i = None) by (intros [|i]; reflexivity). constructor; cbn.
  - intro i. unfold strong. rewrite A. reflexivity.
  - intros n s b l E. rewrite A in E. discriminate.
  - intros d s k l E. rewrite A in E. discriminate.
  - intros x [].
Qed.
Lemma history_owned s : history_of s -> owned (st_heap s) (st_vars s).
Proof. intros (ops & ev & R). exact (proj1 (run_owned _ _ _ _ R nothing_owned)). Qed.

(** ** What a drop stops *)
Definition device_of (h : heap) (x : hold) (n : nat) : Prop :=
  match x with HArc _ => False | _ => node_at h (target x) = Some n end.
Lemma owns_node h p x n : owned h p -> In x (held h ++ p) -> device_of h x n -> exists s k, at_ h (target x) = Some (Cell s k [HArc n]) /\ sub_kind k.
Proof.
  intros O I D. pose proof (ow_holds _ _ O x I) as X. destruct x as [i|d|d]; [destruct D| |]; cbn in *; destruct X as (s & l & E).
  - destruct (ow_sub _ _ O _ _ _ _ E (or_introl eq_refl)) as (m & -> & _). unfold node_at in D. rewrite E in D. inversion D; subst. exists s, KDevNode. split; [exact E|left; reflexivity].
  - destruct (ow_sub _ _ O _ _ _ _ E (or_intror eq_refl)) as (m & -> & _). unfold node_at in D. rewrite E in D. inversion D; subst. exists s, KCtrlNode. split; [exact E|right; reflexivity].
Qed.
Lemma device_of_keep h h' x n s k : at_ h (target x) = Some (Cell s k [HArc n]) -> sub_kind k -> (exists s', at_ h' (target x) = Some (Cell s' k [HArc n])) -> device_of h x n -> device_of h' x n.
Proof. intros E Sk (s' & E') D. destruct x; [exact D| |]; cbn in *; unfold node_at; rewrite E'; destruct Sk as [->| ->]; reflexivity. Qed.

Lemma release_stops h todo h' ev : release h todo h' ev -> forall rest x n, owned h (todo ++ rest) -> In x todo -> device_of h x n -> In (EvStop n) ev.
Proof.
  induction 1 as [h|h i r s k l h' ev E R IH|h i r k l h' ev E R IH|h d r m h' ev E R IH|h d r m h' ev E R IH]; intros rest x n O I D; cbn [app] in O.
  - destruct I.
  - destruct I as [<-|I]; [destruct D|]. eapply IH; [eapply dec_owned; eauto|exact I|].
    destruct (owns_node _ _ x n O) as (s0 & k0 & E0 & Sk); auto; [rewrite in_app_iff; cbn; rewrite in_app_iff; auto|]. eapply device_of_keep; eauto. rewrite (at_set_live _ _ _ _ _ E).
    destruct (Nat.eqb_spec (target x) i) as [T|]; eauto. rewrite T, E in E0. inversion E0; subst. eauto.
  - destruct I as [<-|I]; [destruct D|]. apply in_app_iff. right. eapply (IH rest); [rewrite <- app_assoc; eapply free_owned; eauto|apply in_app_iff; right; exact I|].
    destruct (owns_node _ _ x n O) as (s0 & k0 & E0 & Sk); auto; [rewrite in_app_iff; cbn; rewrite in_app_iff; auto|]. eapply device_of_keep; eauto. rewrite (at_set_live _ _ _ _ _ E).
    destruct (Nat.eqb_spec (target x) i) as [T|]; eauto. exfalso. pose proof (ow_count _ _ O i) as C. unfold strong in C. rewrite E in C. rewrite !occ_app in C. cbn [occ target strong_of c_strong] in C.
    rewrite Nat.eqb_refl, occ_app in C. cbn [b2n] in C. pose proof (occ_in i r x I T). lia.
  - destruct I as [<-|I]; [cbn in D; rewrite E in D; inversion D; subst; cbn; auto|]. right. eapply (IH rest); [apply set_running_owned; exact (owned_open _ _ _ O)|right; exact I|].
    destruct (owns_node _ _ x n O) as (s0 & k0 & E0 & Sk); auto; [rewrite in_app_iff; cbn; rewrite in_app_iff; auto|]. eapply device_of_keep; eauto. rewrite set_running_at.
    destruct (Nat.eqb_spec (target x) m) as [T|]; eauto. rewrite <- T, E0. destruct Sk as [->| ->]; eauto.
  - destruct I as [<-|I]; [cbn in D; rewrite E in D; inversion D; subst; cbn; auto|]. right. eapply (IH rest); [apply set_running_owned; exact (owned_open _ _ _ O)|right; exact I|].
    destruct (owns_node _ _ x n O) as (s0 & k0 & E0 & Sk); auto; [rewrite in_app_iff; cbn; rewrite in_app_iff; auto|]. eapply device_of_keep; eauto. rewrite set_running_at.
    destruct (Nat.eqb_spec (target x) m) as [T|]; eauto. rewrite <- T, E0. destruct Sk as [->| ->]; eauto.
Qed.
Lemma release_user h todo h' ev : release h todo h' ev -> forall rest u s l x n, owned h (todo ++ rest) -> In (EvUserDrop u) ev -> at_ h u = Some (Cell s KUser l) -> In x l -> device_of h x n -> In (EvStop n) ev.
Proof.
  induction 1 as [h|h i r s k l h' ev E R IH|h i r k l h' ev E R IH|h d r m h' ev E R IH|h d r m h' ev E R IH]; intros rest u s0 l0 x n O I Eu Ix D; cbn [app] in O.
  - destruct I.
  - pose proof (owns_node _ _ x n O ltac:(apply in_app_iff; left; eapply held_at; [exact Eu|exact Ix]) D) as (s1 & k1 & E1 & Sk).
    assert (Eu' : exists s2, at_ (set_nth h i (Some (Cell (S s) k l))) u = Some (Cell s2 KUser l0)).
    { rewrite (at_set_live _ _ _ _ _ E). destruct (Nat.eqb_spec u i) as [->|]; eauto. rewrite E in Eu. inversion Eu; subst. eauto. }
    destruct Eu' as (s2 & Eu'). eapply (IH rest); [eapply dec_owned; eauto|exact I|exact Eu'|exact Ix|]. eapply device_of_keep; eauto. rewrite (at_set_live _ _ _ _ _ E).
    destruct (Nat.eqb_spec (target x) i) as [T|]; eauto. rewrite T, E in E1. inversion E1; subst. eauto.
  - pose proof (owns_node _ _ x n O ltac:(apply in_app_iff; left; eapply held_at; [exact Eu|exact Ix]) D) as (s1 & k1 & E1 & Sk).
    assert (O1 := free_owned _ _ _ _ _ E O). rewrite app_assoc in O1.
    assert (D' : device_of (set_nth h i None) x n).
    { eapply device_of_keep; eauto. rewrite (at_set_live _ _ _ _ _ E). destruct (Nat.eqb_spec (target x) i) as [T|]; eauto. exfalso.
      pose proof (ow_count _ _ O i) as C. unfold strong in C. rewrite E in C. rewrite !occ_app in C. cbn [occ target strong_of c_strong] in C.
      rewrite Nat.eqb_refl, occ_app in C. cbn [b2n] in C. pose proof (occ_at h u _ x Eu Ix) as X. rewrite T in X. lia. }
    apply in_app_iff. right. destruct (Nat.eq_dec u i) as [->|Nu].
    + rewrite E in Eu. inversion Eu; subst. eapply release_stops; [exact R|exact O1| |exact D']. apply in_app_iff. auto.
    + apply (IH rest u s0 l0 x n); [exact O1| | |exact Ix|exact D'].
      * apply in_app_iff in I as [I|I]; auto. exfalso. destruct k; cbn in I; try tauto; destruct I as [I|[]]; inversion I; congruence.
      * rewrite (at_set_live _ _ _ _ _ E). apply Nat.eqb_neq in Nu as ->. exact Eu.
  - destruct I as [I|I]; [discriminate|]. right.
    pose proof (owns_node _ _ x n O ltac:(apply in_app_iff; left; eapply held_at; [exact Eu|exact Ix]) D) as (s1 & k1 & E1 & Sk).
    eapply (IH rest); [apply set_running_owned; exact (owned_open _ _ _ O)|exact I| |exact Ix|].
    + rewrite set_running_at. destruct (Nat.eqb_spec u m) as [->|]; [rewrite Eu; reflexivity|exact Eu].
    + eapply device_of_keep; eauto. rewrite set_running_at. destruct (Nat.eqb_spec (target x) m) as [T|]; eauto. rewrite <- T, E1. destruct Sk as [->| ->]; eauto.
  - destruct I as [I|I]; [discriminate|]. right.
    pose proof (owns_node _ _ x n O ltac:(apply in_app_iff; left; eapply held_at; [exact Eu|exact Ix]) D) as (s1 & k1 & E1 & Sk).
    eapply (IH rest); [apply set_running_owned; exact (owned_open _ _ _ O)|exact I| |exact Ix|].
    + rewrite set_running_at. destruct (Nat.eqb_spec u m) as [->|]; [rewrite Eu; reflexivity|exact Eu].
    + eapply device_of_keep; eauto. rewrite set_running_at. destruct (Nat.eqb_spec (target x) m) as [T|]; eauto. rewrite <- T, E1. destruct Sk as [->| ->]; eauto.
Qed.
Lemma stop_stays h x v h' ev n : owned h v -> In x v -> release h [x] h' ev -> is_node h n -> In (EvStop n) ev -> runs h' n = false.
Proof.
  intros O I R Hn Is. destruct (release_owned _ _ _ _ R (without x v)) as [_ Sv]; [exact (owned_out _ _ _ O I)|]. destruct (runs h' n) eqn:E; auto. apply (sv_runs _ _ _ Sv n Hn) in E. tauto.
Qed.

(** ** C100 *)
(** Drop for Node (src/node.rs:495-499) never runs, and a node that was made stays
    for ever, whether or not the application can still reach it. *)
Theorem C100_node_never s ops s' ev n : history_of s -> own_run s ops s' ev ->
  ~ In (EvNodeDrop n) ev /\ (is_node (st_heap s) n -> is_node (st_heap s') n).
Proof. intros H R. destruct (run_owned _ _ _ _ R (history_owned _ H)) as [_ L]. split; [apply (la_none _ _ _ L)|apply (la_node _ _ _ L)]. Qed.
(** Letting go of a pointer to a node stops no node. *)
Theorem C100_node_drop s n s' ev : history_of s -> is_node (st_heap s) n -> own_step s (ODrop (HArc n)) s' ev ->
  ev = [] /\ forall m, runs (st_heap s') m = runs (st_heap s) m.
Proof.
  intros H Hn St. apply history_owned in H. inversion St as [| | | | | | | | | | | | | |h v x h' ev' I R]; subst. cbn [st_heap st_vars] in *.
  inversion R as [|h0 i r s0 k l h1 ev1 E R'|h0 i r k l h1 ev1 E R'| |]; subst.
  - inversion R'; subst. split; auto. intro m. unfold runs. rewrite (at_set_live _ _ _ _ _ E). destruct (Nat.eqb_spec m n) as [->|]; auto. rewrite E. reflexivity.
  - exfalso. eapply last_not_node; [exact E|exact (owned_out _ _ _ H I)|exact Hn].
Qed.
(** What is registered with a node stays for ever, and letting go of a pointer to
    it stops nothing. *)
Theorem C100_registered_never s ops s' ev n u : history_of s -> held_by_node (st_heap s) n u -> own_run s ops s' ev ->
  live (st_heap s') u /\ ~ In (EvUserDrop u) ev.
Proof.
  intros H Hu R. destruct (run_owned _ _ _ _ R (history_owned _ H)) as [O L]. assert (V : live (st_heap s') u) by (eapply held_live; [exact O|apply (la_held _ _ _ L); exact Hu]).
  split; auto. intro I. apply (la_gone _ _ _ L) in I as [_ Z]. contradiction.
Qed.
Theorem C100_registered_drop s n u s' ev : history_of s -> held_by_node (st_heap s) n u -> own_step s (ODrop (HArc u)) s' ev ->
  ev = [] /\ forall m, runs (st_heap s') m = runs (st_heap s) m.
Proof.
  intros H Hu St. apply history_owned in H. inversion St as [| | | | | | | | | | | | | |h v x h' ev' I R]; subst. cbn [st_heap st_vars] in *.
  inversion R as [|h0 i r s0 k l h1 ev1 E R'|h0 i r k l h1 ev1 E R'| |]; subst.
  - inversion R'; subst. split; auto. intro m. unfold runs. rewrite (at_set_live _ _ _ _ _ E). destruct (Nat.eqb_spec m u) as [->|]; auto. rewrite E. reflexivity.
  - exfalso. eapply last_not_held; [exact E|exact (owned_out _ _ _ H I)|exact Hu].
Qed.
(** Letting go of a Device or Controller itself stops its node; so does letting
    go of the last pointer to a value that owns it. *)
Theorem C100_device_partial s x n s' ev : history_of s -> device_of (st_heap s) x n -> own_step s (ODrop x) s' ev ->
  In (EvStop n) ev /\ runs (st_heap s') n = false.
Proof.
  intros H D St. apply history_owned in H. inversion St as [| | | | | | | | | | | | | |h v y h' ev' I R]; subst. cbn [st_heap st_vars] in *.
  assert (Is : In (EvStop n) ev) by (eapply release_stops; [exact R|exact (owned_out _ _ _ H I)|left; reflexivity|exact D]). split; auto.
  eapply stop_stays; [exact H|exact I|exact R| |exact Is]. destruct x; [destruct D| |]; eapply node_at_node; eauto.
Qed.
Theorem C100_value_partial s x u c l d n s' ev : history_of s -> at_ (st_heap s) u = Some (Cell c KUser l) -> In d l -> device_of (st_heap s) d n ->
  own_step s (ODrop x) s' ev -> (In (EvUserDrop u) ev \/ x = HArc u /\ c = 1) -> In (EvStop n) ev /\ runs (st_heap s') n = false.
Proof.
  intros H E Id D St F. apply history_owned in H. inversion St as [| | | | | | | | | | | | | |h v y h' ev' I R]; subst. cbn [st_heap st_vars] in *.
  assert (Iu : In (EvUserDrop u) ev).
  { destruct F as [F|[-> ->]]; auto. inversion R as [|h0 i r s0 k l0 h1 ev1 E0 R'|h0 i r k l0 h1 ev1 E0 R'| |]; subst; rewrite E in E0; inversion E0; subst. cbn. auto. }
  assert (Is : In (EvStop n) ev) by (eapply release_user; [exact R|exact (owned_out _ _ _ H I)|exact Iu|exact E|exact Id|exact D]). split; auto.
  eapply stop_stays; [exact H|exact I|exact R| |exact Is]. destruct d; [destruct D| |]; eapply node_at_node; eauto.
Qed.
(** Nodes of other devices are not stopped: only what [ev] says. *)
Theorem C100_others s x n s' ev : history_of s -> own_step s (ODrop x) s' ev -> is_node (st_heap s) n -> ~ In (EvStop n) ev -> runs (st_heap s') n = runs (st_heap s) n.
Proof.
  intros H St Hn N. apply history_owned in H. inversion St as [| | | | | | | | | | | | | |h v y h' ev' I R]; subst. cbn [st_heap st_vars] in *.
  destruct (release_owned _ _ _ _ R (without x v)) as [_ Sv]; [exact (owned_out _ _ _ H I)|]. pose proof (sv_runs _ _ _ Sv n Hn) as B. destruct (runs h n), (runs h' n); auto; [apply B; auto|symmetry; apply B; auto].
Qed.
(** Every drop returns. *)
Theorem C100_drop_returns s x : history_of s -> In x (st_vars s) -> exists s' ev, own_step s (ODrop x) s' ev.
Proof.
  intros H I. apply history_owned in H. destruct s as [h v]. cbn [st_heap st_vars] in *. destruct (release_total (total h) h [x] (without x v) (le_n _) (owned_out _ _ _ H I)) as (h' & ev & R).
  exists (Store h' (without x v)), ev. constructor; auto.
Qed.

(** *** Cases *)
(** A node, started, and let go of: no variable is left, and the node runs on. *)
Definition ex_lost : store := Store [Some (Cell 1 (KNode true) [HArc 1]); Some (Cell 1 KRef [HArc 0])] [].
(** The value of the documentation (src/device.rs:109-116): a struct with a
    Device, registered as request handler of that device, started, let go of. *)
Definition ex_mine : store :=
  Store [Some (Cell 3 (KNode true) [HArc 1; HArc 3; HArc 4; HArc 5]); Some (Cell 1 KRef [HArc 0]); Some (Cell 2 KDevNode [HArc 0]);
         Some (Cell 1 KRef [HArc 0]); Some (Cell 1 KRef [HArc 2]); Some (Cell 2 KUser [HDevice 2])] [HArc 5].
Ltac own_go := eapply own_more; [first [eapply own_node; reflexivity|eapply own_device; reflexivity|eapply own_controller; reflexivity|eapply own_user]|].
Definition ex_running : store := Store [Some (Cell 2 (KNode true) [HArc 1]); Some (Cell 1 KRef [HArc 0])] [HArc 0].
Example C100_case_node : own_run nothing [ONode; OStart (HArc 0)] ex_running [] /\ own_step ex_running (ODrop (HArc 0)) ex_lost [] /\ runs (st_heap ex_lost) 0 = true.
Proof.
  split; [|split; [|reflexivity]].
  - change (@nil drop_event) with (@nil drop_event ++ ([] ++ [])). own_go. eapply own_more; [eapply own_start; [left; left; reflexivity|reflexivity]|]. apply own_done.
  - apply (own_drop (st_heap ex_running) [HArc 0]); [left; reflexivity|]. eapply rel_more; [reflexivity|]. apply rel_nil.
Qed.
Definition ex_mine_ops : list own_op := [ODevice; OUser; OPut 5 (HDevice 2); OHandler (HDevice 2) 5; OStart (HDevice 2)].
Example C100_case_mine : own_run nothing ex_mine_ops ex_mine [] /\ runs (st_heap ex_mine) 0 = true.
Proof.
  split; [|reflexivity]. change (@nil drop_event) with (@nil drop_event ++ ([] ++ ([] ++ ([] ++ ([] ++ []))))). own_go. own_go.
  eapply own_more; [eapply own_put; [right; left; reflexivity|reflexivity]|].
  eapply own_more; [eapply own_handler; [right; exists 5; eexists _, _; split; [reflexivity|left; reflexivity]|left; left; reflexivity|reflexivity]|].
  eapply own_more; [eapply own_start; [right; exists 5; eexists _, _; split; [reflexivity|left; reflexivity]|reflexivity]|]. apply own_done.
Qed.
(** A Device in a variable, started and let go of: stopped, though its node stays. *)
Definition ex_stopped : store :=
  Store [Some (Cell 3 (KNode false) [HArc 1; HArc 3; HArc 4]); Some (Cell 1 KRef [HArc 0]); Some (Cell 1 KDevNode [HArc 0]); Some (Cell 1 KRef [HArc 0]); Some (Cell 1 KRef [HArc 2])] [].
Example C100_case_device : own_run nothing [ODevice; OStart (HDevice 2); ODrop (HDevice 2)] ex_stopped [EvStop 0].
Proof.
  change [EvStop 0] with (@nil drop_event ++ ([] ++ ([EvStop 0] ++ []))). own_go.
  eapply own_more; [eapply own_start; [left; left; reflexivity|reflexivity]|].
  eapply own_more; [eapply own_drop; [left; reflexivity|]; eapply rel_device; [reflexivity|]; eapply rel_more; [reflexivity|]; apply rel_nil|]. apply own_done.
Qed.

(** "Letting go of the last handle of a running node stops it", and "... of the
    last handle of a value that owns a running device stops the device": false. *)
Theorem C100_node_refuted :
  ~ (forall s n s' ev, history_of s -> st_vars s = [HArc n] -> own_step s (ODrop (HArc n)) s' ev -> runs (st_heap s') n = false).
Proof.
  intro H. destruct C100_case_node as (R & St & E). rewrite (H ex_running 0 ex_lost [] (ex_intro _ _ (ex_intro _ _ R)) eq_refl St) in E. discriminate.
Qed.
Theorem C100_registered_refuted :
  ~ (forall s u c l d n s' ev, history_of s -> st_vars s = [HArc u] -> at_ (st_heap s) u = Some (Cell c KUser l) -> In d l -> device_of (st_heap s) d n ->
       own_step s (ODrop (HArc u)) s' ev -> runs (st_heap s') n = false).
Proof.
  intro H. destruct C100_case_mine as [R E]. assert (Hi : history_of ex_mine) by (exists ex_mine_ops, []; exact R).
  assert (Hu : held_by_node (st_heap ex_mine) 0 5) by (eexists _, _, _; split; [reflexivity|]; right; right; right; left; reflexivity).
  destruct (C100_drop_returns ex_mine (HArc 5) Hi) as (s' & ev & St); [left; reflexivity|]. destruct (C100_registered_drop _ _ _ _ _ Hi Hu St) as [_ Rn].
  specialize (H ex_mine 5 2 [HDevice 2] (HDevice 2) 0 s' ev Hi eq_refl eq_refl (or_introl eq_refl) eq_refl St). rewrite Rn, E in H. discriminate.
Qed.

Print Assumptions C100_node_never.
Print Assumptions C100_node_drop.
Print Assumptions C100_node_refuted.
Print Assumptions C100_registered_never.
Print Assumptions C100_registered_drop.
Print Assumptions C100_registered_refuted.
Print Assumptions C100_device_partial.
Print Assumptions C100_value_partial.
Print Assumptions C100_others.
Print Assumptions C100_drop_returns.
