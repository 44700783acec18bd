(** The receive threads which belong to a node are the threads of its servers. *)
From Verif Require Import Base HMap ModelCodec ModelMessages ModelObject ModelTransport ModelNode ModelController ModelDevice
  ModelThreads SpecThreads ProofsObject ProofsNode ProofsNode2 ProofsNode3 ProofsHost ProofsThreads.
From Verif Require ModelLocks.

(** ** Lists of observers, one for every server of a list *)

Definition shelf : Type := list (list observer) * list (list observer).
Definition sel (k : kind) (L : shelf) : list (list observer) := match k with Ucast => fst L | Mcast => snd L end.
Definition at_kind (k : kind) (f : list (list observer) -> list (list observer)) (L : shelf) : shelf :=
  match k with Ucast => (f (fst L), snd L) | Mcast => (fst L, f (snd L)) end.

(** The observer [o] is added from index [j] on. *)
Definition grow (j : nat) (o : observer) (l : list (list observer)) : list (list observer) :=
  firstn j l ++ map (fun x => x ++ [o]) (skipn j l).
Definition perform (x : act) : shelf -> shelf :=
  match x with
  | Spawn k => at_kind k (fun l => l ++ [[]])
  | Register k j o => at_kind k (grow j o)
  | Stop k _ => at_kind k (fun _ => [])
  end.
Fixpoint final (xs : list act) (L : shelf) : shelf := match xs with [] => L | x :: r => final r (perform x L) end.

Lemma final_app xs ys : forall L, final (xs ++ ys) L = final ys (final xs L).
Proof. induction xs as [|x r IH]; intros L; cbn [app final]; auto. Qed.
Lemma final_spawn k n : forall L, final (repeat (Spawn k) n) L = at_kind k (fun l => l ++ repeat [] n) L.
Proof.
  induction n as [|n IH]; intros [lu lm]; cbn [repeat final].
  - destruct k; cbn; rewrite app_nil_r; reflexivity.
  - rewrite IH. destruct k; cbn; rewrite <- app_assoc; reflexivity.
Qed.
Lemma final_registrations l : forall lu lm,
  final (flat_map (fun o => [Register Ucast 0 o; Register Mcast 0 o]) l) (lu, lm) = (map (fun x => x ++ l) lu, map (fun x => x ++ l) lm).
Proof.
  induction l as [|o r IH]; intros lu lm; cbn [flat_map app final perform at_kind fst snd grow firstn skipn].
  - f_equal; symmetry; rewrite <- map_id; apply map_ext; intros x; apply app_nil_r.
  - rewrite IH, !map_map. f_equal; apply map_ext; intros x; rewrite <- app_assoc; reflexivity.
Qed.
Lemma final_endings L : final endings L = ([], []).
Proof. destruct L; reflexivity. Qed.

Lemma grow_none j o l : nth_error l j = None -> grow j o l = l.
Proof.
  intros E. apply nth_error_None in E. unfold grow. rewrite firstn_all2, skipn_all2 by exact E. apply app_nil_r.
Qed.
Fixpoint bump (j : nat) (o : observer) (l : list (list observer)) : list (list observer) :=
  match l, j with [], _ => [] | x :: r, 0%nat => (x ++ [o]) :: r | x :: r, S j => x :: bump j o r end.
Lemma grow_step o : forall j l, (j < length l)%nat -> grow (S j) o (bump j o l) = grow j o l.
Proof.
  unfold grow. induction j as [|j IH]; intros [|x r] L; cbn [length] in L; try lia; cbn [bump firstn skipn app map]; [reflexivity|].
  cbn [firstn skipn app] in IH. f_equal. rewrite IH by lia. reflexivity.
Qed.
Lemma bump_map (f : nat -> list observer) t o : forall (ts : list nat) j, NoDup ts -> nth_error ts j = Some t ->
  map (upd f t (f t ++ [o])) ts = bump j o (map f ts).
Proof.
  induction ts as [|x r IH]; intros [|j] N E; cbn [nth_error] in E; try discriminate; inversion N as [|? ? N1 N2]; subst; cbn [map bump].
  - inversion E; subst. rewrite upd_same. f_equal. apply map_ext_in. intros y Y. apply upd_other. intros ->. contradiction.
  - rewrite (IH j) by assumption. f_equal. apply upd_other. intros ->. apply N1, nth_error_In with j, E.
Qed.

Section Shelves.
  Context {U : Type}.
  (** What the servers of a node, and its receive threads, have registered. *)
  Definition node_lists (d : nstate U) : shelf := (map sv_observers (mg_ucast (n_mgr (snd (fst d)))), map sv_observers (mg_mcast (n_mgr (snd (fst d))))).
  Definition life_lists (x : receivers) (n : nat) : shelf := (map (regs x) (srvs x n Ucast), map (regs x) (srvs x n Mcast)).

  Lemma lists_with obs (m : manager) :
    (map sv_observers (map (with_observers obs) (mg_ucast m)), map sv_observers (map (with_observers obs) (mg_mcast m)))
    = (map (fun x => x ++ obs) (map sv_observers (mg_ucast m)), map (fun x => x ++ obs) (map sv_observers (mg_mcast m))).
  Proof. rewrite !map_map. reflexivity. Qed.
  Lemma fresh_lists l : Forall fresh_server l -> map sv_observers l = repeat [] (length l).
  Proof. induction 1 as [|s r (_ & _ & _ & E) _ IH]; cbn; [reflexivity|]. rewrite E, IH. reflexivity. Qed.

  Lemma start_lists {O : OS} u (x : node U) w ok x' w' dd m : fine_mgr (n_mgr x) -> node_start w x = Ret (ok, x', w') ->
    final (acts_of (CStart (U := U) dd m) (u, x, w)) (node_lists (u, x, w)) = node_lists (u, x', w').
  Proof.
    intros F. unfold node_start.
    set (go := fun (ok : bool) (n : node U) (w : world) => if negb ok then Ret (false, n, w)
        else
          let n := set_object_properties_byte n 0x80 0x30 in
          let n := set_object_properties_byte n 0x88 0x42 in
          let! m := manager_add_observers (n_mgr n) (n_observers n) in
          let n := n_with_mgr n m in
          let '(ok, n, w) := node_announce w n in
          if negb ok then Ret (false, n, w) else Ret (true, n, w)).
    assert (G : forall (y : node U) w ok y' w', fine_mgr (n_mgr y) -> go true y w = Ret (ok, y', w') ->
      node_lists (u, y', w') = final (flat_map (fun o => [Register Ucast 0 o; Register Mcast 0 o]) (n_observers y)) (node_lists (u, y, w))).
    { clear. intros y w ok y' w' F. unfold go. cbn [negb]. cbv zeta.
      change (n_mgr (set_object_properties_byte (set_object_properties_byte y 0x80 0x30) 0x88 0x42)) with (n_mgr y).
      change (n_observers (set_object_properties_byte (set_object_properties_byte y 0x80 0x30) 0x88 0x42)) with (n_observers y).
      rewrite (add_observers_total _ _ F). cbn [obind]. destruct (node_announce w _) as [[ok1 n1] w1] eqn:E.
      apply announce_mgr in E as (A & _). cbn [n_mgr n_with_mgr] in A.
      intros X. assert (n1 = y') as -> by (destruct ok1; inversion X; reflexivity).
      unfold node_lists. cbn [fst snd]. rewrite A. cbn [mg_ucast mg_mcast]. rewrite final_registrations. apply lists_with. }
    assert (G0 : forall (y : node U) w, go false y w = Ret (false, y, w)) by reflexivity.
    change (
      (let! r := (if negb (manager_running (n_mgr x)) then manager_start w (n_mgr x) else Ret (true, n_mgr x, w)) in
       let '(ok0, m, w0) := r in go ok0 (n_with_mgr x m) w0) = Ret (ok, x', w') ->
      final (acts_of (CStart (U := U) dd m) (u, x, w)) (node_lists (u, x, w)) = node_lists (u, x', w')).
    clearbody go. unfold acts_of. destruct (manager_running (n_mgr x)) eqn:Rn; cbn [negb obind].
    { intros X. apply G in X; [|exact F]. rewrite X. reflexivity. }
    unfold manager_start. rewrite Rn. destruct (mcast_start w (mg_mcast (n_mgr x))) as [[ok1 c] w1] eqn:E1.
    apply (start_list _ _ _ _ _ _ fresh_m) in E1.
    assert (Fc : Forall fine c). { destruct E1 as [(_ & -> & _)|(_ & X & _)]; [apply F|]. eapply Forall_impl; [|exact X]. apply fresh_fine. }
    assert (Lc : map sv_observers c = map sv_observers (mg_mcast (n_mgr x)) ++ repeat [] (length c - length (mg_mcast (n_mgr x)))).
    { destruct E1 as [(_ & -> & _)|(E0 & X & _)]; [rewrite Nat.sub_diag; cbn; rewrite app_nil_r; reflexivity|].
      rewrite E0. cbn [length map app]. rewrite Nat.sub_0_r. apply fresh_lists, X. }
    rewrite final_app, final_spawn.
    destruct ok1; cbn [negb].
    2:{ destruct (manager_stop_total (Manager (mg_ucast (n_mgr x)) c)) as (b & Eb); [split; [apply F|exact Fc]|]. rewrite Eb. cbn [obind snd].
        rewrite G0. intros X. inversion X; subst. rewrite final_endings. reflexivity. }
    cbv zeta. cbn [mg_ucast mg_mcast]. destruct (ucast_start w1 (mg_ucast (n_mgr x))) as [[ok2 l] w2] eqn:E2. apply (start_list _ _ _ _ _ _ fresh_u) in E2.
    assert (Fl : Forall fine l). { destruct E2 as [(_ & -> & _)|(_ & X & _)]; [apply F|]. eapply Forall_impl; [|exact X]. apply fresh_fine. }
    assert (Ll : map sv_observers l = map sv_observers (mg_ucast (n_mgr x)) ++ repeat [] (length l - length (mg_ucast (n_mgr x)))).
    { destruct E2 as [(_ & -> & _)|(E0 & X & _)]; [rewrite Nat.sub_diag; cbn; rewrite app_nil_r; reflexivity|].
      rewrite E0. cbn [length map app]. rewrite Nat.sub_0_r. apply fresh_lists, X. }
    rewrite final_app, final_spawn.
    destruct ok2; cbn [negb].
    2:{ destruct (manager_stop_total (Manager l c)) as (b & Eb); [split; [exact Fl|exact Fc]|]. rewrite Eb. cbn [obind snd].
        rewrite G0. intros X. inversion X; subst. rewrite final_endings. reflexivity. }
    cbn [obind]. intros X. apply G in X; [|split; assumption]. rewrite X. unfold node_lists. cbn [fst snd n_mgr n_with_mgr mg_ucast mg_mcast at_kind].
    rewrite Lc, Ll. reflexivity.
  Qed.

  (** The acts of a call do to the lists what the call does to the servers. *)
  Lemma effect_lists {P : Profile} {HO : HashOrder} {O : OS} {Uu : Uuids} (c : call U) n f d d' v :
    effect_of c = AtNode n f -> calm d -> f d = Ret (d', v) -> final (acts_of c d) (node_lists d) = node_lists d'.
  Proof.
    unfold calm. intros E C X. destruct d as [[u x] w]. cbn [fst snd] in C.
    destruct c; cbn [effect_of] in E; inversion E; subst; clear E; cbv beta iota in X;
      try (cbn [acts_of final]; unfold node_lists; cbn [fst snd]).
    - unfold device_node_set_property in X. destruct (find_object _ _) as [o|]; [|inversion X; subst; reflexivity].
      destruct (object_find_property o code) as [p|]; inversion X; subst; reflexivity.
    - inversion X; subst. reflexivity.
    - inversion X; subst. reflexivity.
    - destruct (add_object_eq x o) as (os & Eo & _). rewrite Eo in X. cbn [obind] in X. inversion X; subst. reflexivity.
    - destruct (add_object_eq x o) as (os & Eo & _). rewrite Eo in X. cbn [obind] in X. inversion X; subst. reflexivity.
    - inversion X; subst. reflexivity.
    - inversion X; subst. reflexivity.
    - destruct (node_send w x to m) as [[[ok m'] x'] w'] eqn:Y. inversion X; subst. cbn [fst snd].
      apply node_send_spec in Y as (A & _). apply update_tid_keeps in A as (_ & _ & A & _). rewrite A. reflexivity.
    - destruct (node_post w x to m) as [[[ch m'] x'] w'] eqn:Y. inversion X; subst. cbn [fst snd].
      apply node_post_spec in Y as (_ & _ & n2 & ok & tr & A & -> & _). apply update_tid_keeps in A as (_ & _ & A & _). cbn. rewrite A. reflexivity.
    - destruct (node_notify w x m) as [[[ok m'] x'] w'] eqn:Y. inversion X; subst. cbn [fst snd].
      apply node_notify_spec in Y as (A & _). apply update_tid_keeps in A as (_ & _ & A & _). rewrite A. reflexivity.
    - destruct (node_announce w x) as [[ok x'] w'] eqn:Y. inversion X; subst. cbn [fst snd].
      apply announce_mgr in Y as (A & _). rewrite A. reflexivity.
    - unfold controller_search_object in X. destruct (node_notify w x (search_request code)) as [[[ok m'] x'] w'] eqn:Y. inversion X; subst. cbn [fst snd].
      apply node_notify_spec in Y as (A & _). apply update_tid_keeps in A as (_ & _ & A & _). rewrite A. reflexivity.
    - unfold controller_send in X. destruct (node_send w x _ _) as [[[ok m'] x'] w'] eqn:Y. inversion X; subst. cbn [fst snd].
      apply node_send_spec in Y as (A & _). apply update_tid_keeps in A as (_ & _ & A & _). rewrite A. reflexivity.
    - unfold controller_post in X. destruct (node_post w x _ _) as [[[ch m'] x'] w'] eqn:Y. inversion X; subst. cbn [fst snd].
      apply node_post_spec in Y as (_ & _ & n2 & ok & tr & A & -> & _). apply update_tid_keeps in A as (_ & _ & A & _). cbn. rewrite A. reflexivity.
    - inversion X; subst. reflexivity.
    - destruct (node_start w x) as [[[ok x'] w']|] eqn:Y; [|discriminate]. cbn [obind] in X. inversion X; subst. exact (start_lists u x w ok x' w' d n C Y).
    - unfold node_stop in X. cbn [n_mgr set_object_properties_byte n_with_objects] in X. destruct (manager_stop_total _ C) as (b & Eb).
      rewrite Eb in X. cbn [obind fst snd] in X. inversion X; subst. reflexivity.
    - inversion X; subst. reflexivity.
  Qed.
End Shelves.

(** ** The threads of the servers *)

Record distinct (x : receivers) : Prop := {
  d_below : forall n k t, In t (srvs x n k) -> (t < ModelThreads.next x)%nat;
  d_nodup : forall n k, NoDup (srvs x n k);
  d_apart : forall n k n' k' t, In t (srvs x n k) -> In t (srvs x n' k') -> n' = n /\ k' = k }.

Lemma kind_eqb_spec a b : reflect (a = b) (kind_eqb a b).
Proof. destruct a, b; constructor; congruence. Qed.
Lemma set_srvs_at x n k l n' k' : srvs (set_srvs x n k l) n' k' = if Nat.eqb n' n && kind_eqb k' k then l else srvs x n' k'.
Proof. reflexivity. Qed.
Lemma spawn_srvs x n k n' k' : srvs (spawn x n k) n' k' = if Nat.eqb n' n && kind_eqb k' k then srvs x n k ++ [ModelThreads.next x] else srvs x n' k'.
Proof. reflexivity. Qed.

Lemma nodup_snoc {A} (l : list A) x : NoDup l -> ~ In x l -> NoDup (l ++ [x]).
Proof.
  induction 1 as [|y r N ND IH]; intros H; cbn; [constructor; [intros []|constructor]|].
  constructor; [|apply IH; intros X; apply H; right; exact X].
  intros X. apply in_app_iff in X as [X|[X|[]]]; [contradiction|]. apply H. left. symmetry; exact X.
Qed.

Lemma distinct_spawn x n k : distinct x -> distinct (spawn x n k).
Proof.
  intros [B ND A]. assert (I0 : forall n' k' t, In t (srvs (spawn x n k) n' k') -> In t (srvs x n' k') \/ t = ModelThreads.next x /\ n' = n /\ k' = k).
  { intros n' k' t. rewrite spawn_srvs. destruct (Nat.eqb_spec n' n) as [->|]; cbn [andb]; [|auto].
    destruct (kind_eqb_spec k' k) as [->|]; [|auto]. intros X. apply in_app_iff in X as [X|[X|[]]]; auto. }
  constructor.
  - intros n' k' t X. cbn. apply I0 in X as [X|(-> & _)]; [apply B in X; lia|lia].
  - intros n' k'. rewrite spawn_srvs. destruct (_ && _); [|apply ND]. apply nodup_snoc; [apply ND|]. intros X. apply B in X. lia.
  - intros n1 k1 n2 k2 t X Y. apply I0 in X. apply I0 in Y. destruct X as [X|(-> & -> & ->)], Y as [Y|(E & -> & ->)]; auto.
    + eapply A; eauto.
    + subst. apply B in X. lia.
    + apply B in Y. lia.
Qed.
Lemma distinct_register x t o : distinct x -> distinct (register x t o).
Proof. intros [B ND A]. constructor; assumption. Qed.
Lemma distinct_clear x n k : distinct x -> distinct (set_srvs x n k []).
Proof.
  intros [B ND A]. assert (I0 : forall n' k' t, In t (srvs (set_srvs x n k []) n' k') -> In t (srvs x n' k')).
  { intros n' k' t. rewrite set_srvs_at. destruct (_ && _); [intros []|auto]. }
  constructor.
  - intros n' k' t X. apply I0 in X. apply (B _ _ _ X).
  - intros n' k'. rewrite set_srvs_at. destruct (_ && _); [constructor|apply ND].
  - intros n1 k1 n2 k2 t X Y. apply I0 in X. apply I0 in Y. eapply A; eauto.
Qed.

Lemma lists_spawn x n k : distinct x -> life_lists (spawn x n k) n = at_kind k (fun l => l ++ [[]]) (life_lists x n).
Proof.
  intros D. unfold life_lists. rewrite !spawn_srvs, Nat.eqb_refl. cbn [andb].
  assert (M : forall n' k', map (regs (spawn x n k)) (srvs x n' k') = map (regs x) (srvs x n' k')).
  { intros n' k'. apply map_ext_in. intros t X. cbn. apply upd_other. apply (d_below _ D) in X. lia. }
  assert (N0 : regs (spawn x n k) (ModelThreads.next x) = []) by (cbn; apply upd_same).
  destruct k; cbn [kind_eqb at_kind fst snd]; rewrite ?map_app, !M; cbn [map]; rewrite N0; reflexivity.
Qed.
Lemma lists_spawn_other x n k n' : distinct x -> n' <> n -> life_lists (spawn x n k) n' = life_lists x n'.
Proof.
  intros D Ne. unfold life_lists. rewrite !spawn_srvs. destruct (Nat.eqb_spec n' n); [contradiction|]. cbn [andb].
  f_equal; apply map_ext_in; intros t X; cbn; apply upd_other; apply (d_below _ D) in X; lia.
Qed.
Lemma lists_register x n k j t o : distinct x -> nth_error (srvs x n k) j = Some t ->
  life_lists (register x t o) n = at_kind k (bump j o) (life_lists x n).
Proof.
  intros D E. assert (Ot : forall k', k' <> k -> map (regs (register x t o)) (srvs x n k') = map (regs x) (srvs x n k')).
  { intros k' Ne. apply map_ext_in. intros t' X. cbn. apply upd_other. intros ->. apply Ne. eapply (d_apart _ D); [|exact X]. eapply nth_error_In, E. }
  assert (Sm : map (regs (register x t o)) (srvs x n k) = bump j o (map (regs x) (srvs x n k))) by (apply bump_map; [apply (d_nodup _ D)|exact E]).
  unfold life_lists. cbn [srvs register]. destruct k; cbn [at_kind fst snd]; f_equal; try exact Sm; apply Ot; discriminate.
Qed.
Lemma lists_register_other x n k j t o n' : distinct x -> nth_error (srvs x n k) j = Some t -> n' <> n ->
  life_lists (register x t o) n' = life_lists x n'.
Proof.
  intros D E Ne. unfold life_lists. cbn [srvs register].
  f_equal; apply map_ext_in; intros t' X; cbn; apply upd_other; intros ->; apply Ne; eapply (d_apart _ D); [|exact X| |exact X]; eapply nth_error_In, E.
Qed.
Lemma lists_clear x n k : life_lists (set_srvs x n k []) n = at_kind k (fun _ => []) (life_lists x n).
Proof. unfold life_lists. rewrite !set_srvs_at, Nat.eqb_refl. destruct k; reflexivity. Qed.
Lemma lists_clear_other x n k n' : n' <> n -> life_lists (set_srvs x n k []) n' = life_lists x n'.
Proof. intros Ne. unfold life_lists. rewrite !set_srvs_at. destruct (Nat.eqb_spec n' n); [contradiction|]. reflexivity. Qed.
Lemma sel_life x n k : sel k (life_lists x n) = map (regs x) (srvs x n k).
Proof. destruct k; reflexivity. Qed.

Section Books.
  Context {U : Type} {P : Profile} {HO : HashOrder} {O : OS} {Uu : Uuids} (db : list object) (what : observer -> obs) (net : bool) (base : nat).
  Notation Dev := ModelLocks.Dev. Notation LNode := ModelLocks.Node. Notation next := ModelThreads.next.
  Notation rel := (rel (U := U) db). Notation sane := (sane (U := U)).
  Implicit Types (s : process U) (a : state U) (t : nat).

  (** All threads of the servers stop has reached have ended; later acts begin
      with the first server. *)
  Definition unstopped (x : act) : Prop := match x with Stop _ j => j = 0%nat | _ => True end.
  Definition over s t : Prop := threads s t = Out Over.
  Definition joined s (n : nat) (xs : list act) : Prop :=
    match xs with
    | [] => True
    | x :: r => Forall unstopped r /\
        match x with Stop k j => forall i t, (i < j)%nat -> nth_error (srvs (life s) n k) i = Some t -> over s t | _ => True end
    end.
  Lemma joined_all s n xs : Forall unstopped xs -> joined s n xs.
  Proof. intros F. destruct F as [|x r X F]; cbn; [trivial|]. split; [exact F|]. destruct x; auto. cbn in X. subst. intros i t L. lia. Qed.

  Record books s : Prop := {
    b_dist : distinct (life s);
    b_in : forall n t b k d' v, poisoned s (LNode n) = false -> threads s t = InNode n b k -> exec b (nodes s n) = Ret (d', v) ->
      final (trail b (nodes s n)) (life_lists (life s) n) = node_lists d';
    b_out : forall n, poisoned s (LNode n) = false -> (forall t b k, threads s t <> InNode n b k) -> life_lists (life s) n = node_lists (nodes s n);
    b_join : forall n t b k, threads s t = InNode n b k -> joined s n (trail b (nodes s n));
    b_gone : forall t, (base <= t)%nat -> (t < next (life s))%nat -> (exists n k, In t (srvs (life s) n k)) \/ over s t }.

  (** Steps outside of the nodes. *)
  Lemma books_same s s' : books s -> life s' = life s -> nodes s' = nodes s ->
    (forall n, poisoned s' (LNode n) = false -> poisoned s (LNode n) = false) ->
    (forall t n b k, threads s' t = InNode n b k -> threads s t = InNode n b k) ->
    (forall t n b k, threads s t = InNode n b k -> threads s' t = InNode n b k \/ poisoned s' (LNode n) = true) ->
    (forall t, over s t -> over s' t) -> books s'.
  Proof.
    intros B El En Ep T1 T2 Ov. constructor; rewrite ?El.
    - apply (b_dist _ B).
    - intros n t b k d' v Po T. rewrite En. apply (b_in _ B n t b k d' v (Ep _ Po)), T1, T.
    - intros n Po Hn. rewrite En. apply (b_out _ B); [apply Ep, Po|]. intros t b k T. destruct (T2 t n b k T) as [X|X]; [apply (Hn _ _ _ X)|congruence].
    - intros n t b k T. rewrite En. apply T1 in T. apply (b_join _ B) in T. unfold joined in *. destruct (trail b (nodes s n)) as [|x r]; [trivial|].
      destruct T as [F X]. split; [exact F|]. destruct x; auto. rewrite El. intros i t' L E. apply Ov. eapply X; eauto.
    - intros t L1 L2. destruct (b_gone _ B t L1 L2) as [X|X]; auto.
  Qed.

  Lemma books_goes s s1 t p q : books s -> threads s1 = threads s -> life s1 = life s -> nodes s1 = nodes s -> poisoned s1 = poisoned s ->
    (forall n b k, threads s t <> InNode n b k) -> threads s t = q -> q <> Out Over -> (forall n b k, p <> InNode n b k) -> books (goes s1 t p).
  Proof.
    intros B E1 E2 E3 E4 Nn Tq No Np. apply (books_same s); auto; cbn; rewrite ?E4; auto.
    - intros t' n b k. rewrite E1. unfold upd. destruct (Nat.eqb_spec t' t) as [->|]; [intros X; destruct (Np _ _ _ X)|auto].
    - intros t' n b k T. left. rewrite E1. unfold upd. destruct (Nat.eqb_spec t' t) as [->|]; [destruct (Nn _ _ _ T)|auto].
    - intros t' X. unfold over in *. cbn. rewrite E1. unfold upd. destruct (Nat.eqb_spec t' t) as [->|]; [congruence|auto].
  Qed.
  Lemma books_log s e : books s -> books (logs s e).
  Proof. intros B. apply (books_same s); auto. Qed.

  Lemma books_dies s a t q : rel s a -> books s -> threads s t = q -> q <> Out Over -> books (dies s t).
  Proof.
    intros R B Tq No. apply (books_same s); auto; cbn.
    - intros n X. apply orb_false_iff in X. tauto.
    - intros t' n b k. unfold upd. destruct (Nat.eqb_spec t' t) as [->|]; [discriminate|auto].
    - intros t' n b k T. unfold upd. destruct (Nat.eqb_spec t' t) as [->|]; [right|auto].
      apply (inside_node _ _ _ _ _ _ _ R) in T. unfold mine. rewrite T, Nat.eqb_refl. apply orb_true_r.
    - intros t' X. unfold over in *. cbn. unfold upd. destruct (Nat.eqb_spec t' t) as [->|]; [congruence|auto].
  Qed.

  (** A thread enters a node. *)
  Lemma books_enter s a t n b k q : rel s a -> books s -> threads s t = Out q -> q <> Over ->
    owner s (LNode n) = None -> poisoned s (LNode n) = false ->
    (forall d' v, exec b (nodes s n) = Ret (d', v) -> final (trail b (nodes s n)) (node_lists (nodes s n)) = node_lists d') ->
    Forall unstopped (trail b (nodes s n)) ->
    books (goes (takes s (LNode n) t) t (InNode n b k)).
  Proof.
    intros R B Tq No Ow Po Fi Un. pose proof (free_node _ _ _ _ R Ow) as Hn. set (s' := goes _ _ _).
    assert (Ov : forall t', over s t' -> over s' t').
    { intros t' X. unfold over in *. cbn. unfold upd. destruct (Nat.eqb_spec t' t) as [->|]; [congruence|auto]. }
    constructor; cbn [life nodes poisoned].
    - apply (b_dist _ B).
    - intros n' t' b' k' d' v Po' T E. cbn in T. unfold upd in T. destruct (Nat.eqb_spec t' t) as [->|].
      + inversion T; subst n' b' k'. cbn in *. rewrite (b_out _ B n Po Hn). apply (Fi _ _ E).
      + eapply (b_in _ B); eauto.
    - intros n' Po' H. apply (b_out _ B); [exact Po'|]. intros t' b' k' T. apply (H t' b' k'). cbn. unfold upd.
      destruct (Nat.eqb_spec t' t) as [->|]; [congruence|exact T].
    - intros n' t' b' k' T. cbn in T. unfold upd in T. destruct (Nat.eqb_spec t' t) as [->|].
      + inversion T; subst n' b' k'. apply joined_all, Un.
      + apply (b_join _ B) in T. unfold joined in *. cbn [life nodes]. change (nodes s' n') with (nodes s n').
        destruct (trail b' (nodes s n')) as [|x r]; [trivial|]. destruct T as [F X]. split; [exact F|]. destruct x; auto. intros i t'' L E. apply Ov. eapply X; eauto.
    - intros t' L1 L2. destruct (b_gone _ B t' L1 L2) as [X|X]; auto.
  Qed.

  (** A thread goes on in a node. *)
  Lemma books_inside s a s' t n b0 b k : rel s a -> books s -> threads s t = InNode n b0 k ->
    threads s' t = InNode n b k \/ (exists v, b = Done v /\ threads s' t = Out (k v)) ->
    (forall t', t' <> t -> threads s' t' = threads s t' \/ (forall n' b' k', threads s t' <> InNode n' b' k') /\ (forall n' b' k', threads s' t' <> InNode n' b' k') /\ ~ over s t') ->
    poisoned s' = poisoned s -> (forall n', n' <> n -> nodes s' n' = nodes s n') ->
    distinct (life s') -> (forall n', n' <> n -> life_lists (life s') n' = life_lists (life s) n') ->
    (forall n' k', n' <> n -> srvs (life s') n' k' = srvs (life s) n' k') ->
    (poisoned s (LNode n) = false -> forall d' v, exec b (nodes s' n) = Ret (d', v) ->
       (forall d' v, exec b0 (nodes s n) = Ret (d', v) -> final (trail b0 (nodes s n)) (life_lists (life s) n) = node_lists d') ->
       final (trail b (nodes s' n)) (life_lists (life s') n) = node_lists d') ->
    (joined s n (trail b0 (nodes s n)) -> (forall t', over s t' -> over s' t') -> joined s' n (trail b (nodes s' n))) ->
    (forall t' n1 k1, In t' (srvs (life s) n1 k1) -> joined s n (trail b0 (nodes s n)) -> (exists n k, In t' (srvs (life s') n k)) \/ over s t') ->
    (forall t', (t' < next (life s'))%nat -> (t' < next (life s))%nat \/ exists n k, In t' (srvs (life s') n k)) ->
    books s'.
  Proof.
    intros R B T Ts To Ep En D Lo So Fi Jo G1 G2.
    assert (Ov : forall t', over s t' -> over s' t').
    { intros t' X. unfold over in *. destruct (Nat.eq_dec t' t) as [->|Ne]; [congruence|]. destruct (To t' Ne) as [->|(_ & _ & Y)]; [exact X|]. contradiction. }
    assert (Lk : forall t' n' b' k', t' <> t -> threads s' t' = InNode n' b' k' -> threads s t' = InNode n' b' k' /\ n' <> n).
    { intros t' n' b' k' Ne X. destruct (To t' Ne) as [E|(_ & Y & _)]; [|destruct (Y _ _ _ X)]. rewrite E in X. split; [exact X|].
      intros ->. apply (inside_node _ _ _ _ _ _ _ R) in X. apply (inside_node _ _ _ _ _ _ _ R) in T. congruence. }
    constructor.
    - exact D.
    - intros n' t' b' k' d' v Po X E. rewrite Ep in Po. destruct (Nat.eq_dec t' t) as [->|Ne].
      + destruct Ts as [Ts|(v0 & _ & Ts)]; [|congruence]. rewrite Ts in X. inversion X; subst n' b' k'. apply (Fi Po d' v E). intros d1 v1. apply (b_in _ B n t b0 k d1 v1 Po T).
      + destruct (Lk _ _ _ _ Ne X) as [X' Nn]. rewrite En in * by exact Nn. rewrite Lo by exact Nn. eapply (b_in _ B); eauto.
    - intros n' Po H. rewrite Ep in Po. destruct (Nat.eq_dec n' n) as [->|Nn].
      + destruct Ts as [Ts|(v0 & -> & Ts)]; [destruct (H _ _ _ Ts)|]. apply (Fi Po (nodes s' n) v0); [reflexivity|]. intros d1 v1. apply (b_in _ B n t b0 k d1 v1 Po T).
      + rewrite Lo, En by exact Nn. apply (b_out _ B); [exact Po|]. intros t' b' k' X. destruct (Nat.eq_dec t' t) as [->|Ne]; [congruence|].
        destruct (To t' Ne) as [E|(Y & _)]; [apply (H t' b' k'); rewrite E; exact X|apply (Y _ _ _ X)].
    - intros n' t' b' k' X. destruct (Nat.eq_dec t' t) as [->|Ne].
      + destruct Ts as [Ts|(v0 & _ & Ts)]; [|congruence]. rewrite Ts in X. inversion X; subst n' b' k'. apply Jo; [apply (b_join _ B) with (1 := T)|exact Ov].
      + destruct (Lk _ _ _ _ Ne X) as [X' Nn]. rewrite En by exact Nn. apply (b_join _ B) in X'. unfold joined in *.
        destruct (trail b' (nodes s n')) as [|x r]; [trivial|]. destruct X' as [F Y]. split; [exact F|]. destruct x; auto. rewrite So by exact Nn.
        intros i t'' L E. apply Ov. eapply Y; eauto.
    - intros t' L1 L2. destruct (G2 t' L2) as [L3|X]; [|auto]. destruct (b_gone _ B t' L1 L3) as [(n1 & k1 & Y)|Y]; auto.
      destruct (G1 _ _ _ Y (b_join _ B _ _ _ _ T)); auto.
  Qed.

  Lemma deliver_not_over t l m : deliver_prog (U := U) db t l m <> Over.
  Proof. unfold deliver_prog. destruct l as [|x r]; cbn; [discriminate|]. destruct x; discriminate. Qed.

  Lemma acts_unstopped (c : call U) d : Forall unstopped (acts_of c d).
  Proof.
    assert (E : Forall unstopped endings) by (repeat constructor).
    assert (Rg : forall x : node U, Forall unstopped (registrations x)).
    { intros x. unfold registrations. apply Forall_forall. intros y Y. apply in_flat_map in Y as (o & _ & [<-|[<-|[]]]); exact Logic.I. }
    assert (Sp : forall k n, Forall unstopped (repeat (Spawn k) n)).
    { intros k n. apply Forall_forall. intros y Y. apply repeat_spec in Y. subst. exact Logic.I. }
    destruct d as [[u x] w], c; cbn [acts_of]; try apply Forall_nil; [|exact E].
    destruct (manager_running _); [apply Rg|]. destruct (mcast_start _ _) as [[ok l] w1]. apply Forall_app. split; [apply Sp|].
    destruct ok; cbn [negb]; [|exact E]. destruct (ucast_start _ _) as [[ok l'] w2]. apply Forall_app. split; [apply Sp|].
    destruct ok; [apply Rg|exact E].
  Qed.

  Theorem books_step s a s' : rel s a -> sane s -> books s -> step db what net s s' -> books s'.
  Proof.
    intros R Sa B St.
    assert (Th : forall t (x : thread U), (forall t', t' <> t -> upd (threads s) t x t' = threads s t' \/
      (forall n' b' k', threads s t' <> InNode n' b' k') /\ (forall n' b' k', upd (threads s) t x t' <> InNode n' b' k') /\ ~ over s t')).
    { intros t x t' Ne. left. apply upd_other, Ne. }
    destruct St;
      try (match goal with T : threads s ?t = ?q |- books (dies s ?t) => apply (books_dies s a t q R B T); discriminate end);
      try (match goal with T : threads s ?t = Out ?q |- books (goes ?s1 ?t _) =>
        apply (books_goes s s1 t _ (Out q) B); try reflexivity; try exact T; try discriminate; intros; congruence end);
      try (match goal with T : threads s ?t = Out ?q |- books (logs (goes ?s1 ?t _) _) =>
        apply books_log; apply (books_goes s s1 t _ (Out q) B); try reflexivity; try exact T; try discriminate; intros; congruence end);
      try (match goal with T : threads s ?t = InCtrl ?c ?b ?q |- books (goes ?s1 ?t _) =>
        apply (books_goes s s1 t _ (InCtrl c b q) B); try reflexivity; try exact T; try discriminate; intros; congruence end).

    - (* a call enters the node *)
      match goal with X : threads s t = _, Y : owner s _ = None, Z : poisoned s _ = false |- _ => rename X into T, Y into Ow, Z into Po end.
      assert (Cm : calm (nodes s n)) by (rewrite <- (r_nodes _ _ _ R n (free_node _ _ _ _ R Ow) Po); apply (r_calm _ _ _ R)).
      destruct (out_fits db _ _ _ _ R T) as (Hl & _ & _ & _ & F). inversion F; subst.
      match goal with C : forall d, calm d -> _ /\ _ |- _ => destruct (C _ Cm) as [Tr _] end.
      match goal with X : effect_of c = _, Y : forall d, exec _ d = _ |- _ => rename X into Ef, Y into Ex end.
      apply (books_enter s a t n b k _ R B T); [discriminate|exact Ow|exact Po| |rewrite Tr; apply acts_unstopped].
      intros d' v E. rewrite Tr. rewrite Ex in E. apply (effect_lists c n f _ _ v Ef Cm E).
    - (* a reaction enters the node *)
      match goal with X : threads s t = _, Y : owner s _ = None, Z : poisoned s _ = false |- _ => rename X into T, Y into Ow, Z into Po end.
      destruct (out_fits db _ _ _ _ R T) as (Hl & _ & _ & _ & F). inversion F; subst.
      match goal with X : plain b, Y : forall d, exec _ d = _ |- _ => rename X into Pl, Y into Ex end.
      assert (Tr : trail b (nodes s n) = []) by apply plain_trail, Pl.
      apply (books_enter s a t n b _ _ R B T); [discriminate|exact Ow|exact Po| |rewrite Tr; constructor].
      intros d' v E. rewrite Tr. cbn [final]. rewrite Ex in E. destruct (nodes s n) as [[u x] w].
      destruct (observed m (u, x, w)) as [[[u1 x1] w1]|] eqn:Y; [|discriminate]. cbn [obind] in E. inversion E; subst.
      apply observed_mgr in Y as (Y & _). unfold node_lists. cbn [fst snd]. rewrite Y. reflexivity.
    - (* a statement *)
      match goal with X : threads s t = _, Y : f _ = _ |- _ => rename X into T, Y into E end.
      apply (books_inside s a _ t n (Stmt f) b k R B T); cbn [threads goes with_node poisoned nodes life]; auto.
      + left. apply upd_same.
      + intros n' Ne. apply upd_other, Ne.
      + apply (b_dist _ B).
      + rewrite upd_same. cbn [exec trail]. rewrite E. intros _ d' v Ex H. apply (H _ _ Ex).
      + rewrite upd_same. cbn [trail]. rewrite E. unfold joined. intros J Ov. destruct (trail b d) as [|x r]; [trivial|]. destruct J as [F X]. split; [exact F|].
        destruct x; auto. intros i t' L Y. apply Ov. eapply X; eauto.
      + intros t' n1 k1 X _. left. eauto.
    - (* the end *)
      match goal with X : threads s t = _ |- _ => rename X into T end.
      apply (books_inside s a _ t n (Done v) (Done v) k R B T); cbn [threads goes frees poisoned nodes life]; auto.
      + right. exists v. split; [reflexivity|apply upd_same].
      + apply (b_dist _ B).
      + intros _ d' v' E H. apply (H _ _ E).
      + intros t' n1 k1 X _. left. eauto.
    - (* spawn *)
      match goal with X : threads s t = _ |- _ => rename X into T end.
      assert (Nt : threads s (next (life s)) = Out Halt) by (apply (s_fresh _ Sa); lia).
      apply (books_inside s a _ t n (Act (Spawn k') b) b k R B T); cbn [threads goes with_life poisoned nodes life]; auto.
      + left. apply upd_same.
      + intros t' Ne. destruct (Nat.eq_dec t' (next (life s))) as [->|Nx].
        * right. rewrite upd_other by exact Ne. rewrite upd_same, Nt. unfold over. rewrite Nt. repeat split; discriminate.
        * left. rewrite upd_other by exact Ne. apply upd_other, Nx.
      + apply distinct_spawn, (b_dist _ B).
      + intros n' Ne. apply lists_spawn_other; [apply (b_dist _ B)|exact Ne].
      + intros n' k2 Ne. rewrite spawn_srvs. destruct (Nat.eqb_spec n' n); [contradiction|reflexivity].
      + intros _ d' v E H. cbn [exec trail final perform] in H. rewrite lists_spawn by apply (b_dist _ B). apply (H _ _ E).
      + cbn [trail]. intros [F _] _. apply joined_all, F.
      + intros t' n1 k1 X _. left. exists n1, k1. rewrite spawn_srvs. destruct (Nat.eqb_spec n1 n) as [->|]; cbn [andb]; [|exact X].
        destruct (kind_eqb_spec k1 k') as [->|]; [|exact X]. apply in_app_iff. left; exact X.
      + cbn. intros t' L. destruct (Nat.eq_dec t' (next (life s))) as [->|Nx]; [|left; lia]. right. exists n, k'.
        rewrite Nat.eqb_refl. destruct (kind_eqb_spec k' k'); [|contradiction]. cbn [andb]. apply in_app_iff. right; left; reflexivity.
    - (* register *)
      match goal with X : threads s t = _, Y : nth_error _ _ = _ |- _ => rename X into T, Y into Nj end.
      apply (books_inside s a _ t n (Act (Register k' j o) b) (Act (Register k' (S j) o) b) k R B T); cbn [threads goes with_life poisoned nodes life]; auto.
      + left. apply upd_same.
      + apply distinct_register, (b_dist _ B).
      + intros n' Ne. eapply lists_register_other; [apply (b_dist _ B)|exact Nj|exact Ne].
      + intros _ d' v E H. cbn [exec trail final perform] in *. rewrite (lists_register _ _ _ _ _ _ (b_dist _ B) Nj).
        rewrite <- (H _ _ E). f_equal.
        assert (L : (j < length (sel k' (life_lists (life s) n)))%nat) by (rewrite sel_life, map_length; apply nth_error_Some; congruence).
        destruct k'; cbn [at_kind fst snd sel] in *; f_equal; apply grow_step, L.
      + intros t1 n1 k1 X _. left. eauto.
    - (* all registered *)
      match goal with X : threads s t = _, Y : nth_error _ _ = _ |- _ => rename X into T, Y into Nj end.
      apply (books_inside s a _ t n (Act (Register k' j o) b) b k R B T); cbn [threads goes with_life poisoned nodes life]; auto.
      + left. apply upd_same.
      + apply (b_dist _ B).
      + intros _ d' v E H. cbn [exec trail final perform] in H. rewrite <- (H _ _ E). f_equal.
        assert (L : nth_error (sel k' (life_lists (life s) n)) j = None).
        { rewrite sel_life. apply nth_error_None. rewrite map_length. apply nth_error_None, Nj. }
        destruct k', (life_lists (life s) n) as [lu lm]; cbn [at_kind fst snd sel] in *; rewrite (grow_none _ _ _ L); reflexivity.
      + cbn [trail]. intros [F _] _. apply joined_all, F.
      + intros t1 n1 k1 X _. left. eauto.
    - (* the stop flag *)
      apply (books_same s); auto.
    - (* join *)
      match goal with X : threads s t = InNode _ _ _, Y : nth_error _ _ = _, Z : threads s t' = _ |- _ => rename X into T, Y into Nj, Z into V end.
      apply (books_inside s a _ t n (Act (Stop k' j) b) (Act (Stop k' (S j)) b) k R B T); cbn [threads goes with_life poisoned nodes life]; auto.
      + left. apply upd_same.
      + apply (b_dist _ B).
      + intros _ d' v E H. apply (H _ _ E).
      + cbn [trail]. intros [F X] Ov. split; [exact F|]. cbn [life]. intros i t1 L E. apply Ov. destruct (Nat.eq_dec i j) as [->|Ni].
        * assert (t1 = t') as -> by (cbn [life goes] in E; congruence). exact V.
        * apply (X i t1); [lia|exact E].
      + intros t1 n1 k1 X _. left. eauto.
    - (* the servers are dropped *)
      match goal with X : threads s t = InNode _ _ _, Y : nth_error _ _ = _ |- _ => rename X into T, Y into Nj end.
      apply (books_inside s a _ t n (Act (Stop k' j) b) b k R B T); cbn [threads goes with_life poisoned nodes life]; auto.
      + left. apply upd_same.
      + apply distinct_clear, (b_dist _ B).
      + intros n' Ne. apply lists_clear_other, Ne.
      + intros n' k2 Ne. rewrite set_srvs_at. destruct (Nat.eqb_spec n' n); [contradiction|reflexivity].
      + intros _ d' v E H. cbn [exec trail final perform] in H. rewrite lists_clear. apply (H _ _ E).
      + cbn [trail]. intros [F _] _. apply joined_all, F.
      + intros t1 n1 k1 X. cbn [trail]. intros [_ J]. destruct (Nat.eq_dec n1 n) as [->|Nn].
        * destruct (kind_eqb_spec k1 k') as [->|Nk].
          -- right. apply In_nth_error in X as (i & X). apply (J i t1); [|exact X]. apply nth_error_None in Nj.
             assert (i < length (srvs (life s) n k'))%nat by (apply nth_error_Some; congruence). lia.
          -- left. exists n, k1. rewrite set_srvs_at. destruct (kind_eqb_spec k1 k'); [contradiction|]. rewrite andb_false_r. exact X.
        * left. exists n1, k1. rewrite set_srvs_at. destruct (Nat.eqb_spec n1 n); [contradiction|]. exact X.
  Qed.


  (** Receive threads told to end are those of a node which a thread is stopping. *)
  Definition stopping s n (k : kind) : Prop := exists t j b q, threads s t = InNode n (Act (Stop k j) b) q.
  Record told s : Prop := {
    f_below : forall t, flags s t = true -> (t < next (life s))%nat;
    f_stops : forall n k t, In t (srvs (life s) n k) -> flags s t = true -> poisoned s (LNode n) = true \/ stopping s n k }.

  Lemma told_same s s' : told s -> life s' = life s -> flags s' = flags s ->
    (forall n, poisoned s (LNode n) = true -> poisoned s' (LNode n) = true) ->
    (forall n k, stopping s n k -> poisoned s' (LNode n) = true \/ stopping s' n k) -> told s'.
  Proof.
    intros F El Ef Ep Es. constructor; rewrite El, Ef; [apply (f_below _ F)|].
    intros n k t X Y. destruct (f_stops _ F n k t X Y) as [Z|Z]; auto.
  Qed.
  Lemma told_goes s s1 t x q : told s -> threads s1 = threads s -> life s1 = life s -> flags s1 = flags s -> poisoned s1 = poisoned s ->
    threads s t = q -> (forall n k j b p, q <> InNode n (Act (Stop k j) b) p) -> told (goes s1 t x).
  Proof.
    intros F Et El Ef Ep Tq Nq. apply (told_same s); cbn; auto; rewrite ?Ep; auto.
    intros n k (t' & j & b & p & X). right. exists t', j, b, p. cbn. rewrite Et. unfold upd. destruct (Nat.eqb_spec t' t) as [->|]; [|exact X].
    destruct (Nq n k j b p). congruence.
  Qed.
  Lemma told_log s e : told s -> told (logs s e).
  Proof. intros F. apply (told_same s); cbn; auto. Qed.
  Lemma told_dies s a t : rel s a -> told s -> told (dies s t).
  Proof.
    intros R F. apply (told_same s); cbn; auto.
    - intros n ->. reflexivity.
    - intros n k (t' & j & b & p & X). destruct (Nat.eq_dec t' t) as [->|Ne].
      + left. apply (inside_node _ _ _ _ _ _ _ R) in X. unfold mine. rewrite X, Nat.eqb_refl. apply orb_true_r.
      + right. exists t', j, b, p. cbn. rewrite upd_other by exact Ne. exact X.
  Qed.

  Theorem told_step s a s' : rel s a -> sane s -> books s -> told s -> step db what net s s' -> told s'.
  Proof.
    intros R Sa B F St.
    destruct St;
      try (apply (told_dies s a _ R F));
      try (match goal with T : threads s ?t = ?q |- told (goes ?s1 ?t _) =>
        apply (told_goes s s1 t _ q F); try reflexivity; try exact T; intros; congruence end);
      try (match goal with T : threads s ?t = ?q |- told (logs (goes ?s1 ?t _) _) =>
        apply told_log; apply (told_goes s s1 t _ q F); try reflexivity; try exact T; intros; congruence end).
    - (* spawn *)
      match goal with X : threads s t = _ |- _ => rename X into T end.
      assert (Nt : threads s (next (life s)) = Out Halt) by (apply (s_fresh _ Sa); lia).
      constructor; cbn [life flags goes with_life].
      + intros t' X. apply (f_below _ F) in X. cbn. lia.
      + intros n1 k1 t' X Y. assert (X' : In t' (srvs (life s) n1 k1)).
        { rewrite spawn_srvs in X. destruct (Nat.eqb_spec n1 n) as [->|]; cbn [andb] in X; [|exact X]. destruct (kind_eqb_spec k1 k') as [->|]; [|exact X].
          apply in_app_iff in X as [X|[X|[]]]; [exact X|]. subst t'. apply (f_below _ F) in Y. lia. }
        destruct (f_stops _ F _ _ _ X' Y) as [Z|(t1 & j1 & b1 & q1 & Z)]; [left; exact Z|right]. exists t1, j1, b1, q1. cbn.
        rewrite upd_other by congruence. rewrite upd_other by congruence. exact Z.
    - (* register *)
      match goal with X : threads s t = _ |- _ => rename X into T end.
      constructor; cbn [life flags goes with_life]; [apply (f_below _ F)|].
      intros n1 k1 t1 X Y. destruct (f_stops _ F n1 k1 t1 X Y) as [Z|(t2 & j1 & b1 & q1 & Z)]; [left; exact Z|right]. exists t2, j1, b1, q1. cbn.
      rewrite upd_other by congruence. exact Z.
    - (* the stop flag *)
      match goal with X : threads s t = _, Y : nth_error _ _ = _ |- _ => rename X into T, Y into Nj end.
      constructor; cbn [life flags with_flag].
      + intros t1. unfold upd. destruct (Nat.eqb_spec t1 t') as [->|]; [|apply (f_below _ F)]. intros _. eapply (d_below _ (b_dist _ B)), nth_error_In, Nj.
      + intros n1 k1 t1 X. unfold upd. destruct (Nat.eqb_spec t1 t') as [->|].
        * intros _. right. destruct (d_apart _ (b_dist _ B) n k' n1 k1 t' (nth_error_In _ _ Nj) X) as [-> ->]. exists t, j, b, k. exact T.
        * intros Y. apply (f_stops _ F _ _ _ X Y).
    - (* join *)
      match goal with X : threads s t = InNode _ _ _ |- _ => rename X into T end.
      apply (told_same s); cbn; auto. intros n1 k1 (t1 & j1 & b1 & q1 & Z). right. destruct (Nat.eq_dec t1 t) as [->|Ne].
      + rewrite T in Z. inversion Z; subst. exists t, (S j1), b1, q1. cbn. apply upd_same.
      + exists t1, j1, b1, q1. cbn. rewrite upd_other by exact Ne. exact Z.
    - (* the servers are dropped *)
      match goal with X : threads s t = InNode _ _ _ |- _ => rename X into T end.
      constructor; cbn [life flags goes with_life]; [apply (f_below _ F)|].
      intros n1 k1 t1 X Y. rewrite set_srvs_at in X. destruct (Nat.eqb n1 n && kind_eqb k1 k') eqn:E; [destruct X|].
      destruct (f_stops _ F n1 k1 t1 X Y) as [Z|(t2 & j1 & b1 & q1 & Z)]; [left; exact Z|right]. exists t2, j1, b1, q1. cbn.
      destruct (Nat.eq_dec t2 t) as [->|Ne]; [|rewrite upd_other by exact Ne; exact Z].
      rewrite T in Z. inversion Z; subst. rewrite Nat.eqb_refl in E. destruct (kind_eqb_spec k1 k1); [discriminate|contradiction].
  Qed.
End Books.

Section Reachable.
  Context {U : Type} {P : Profile} {HO : HashOrder} {O : OS} {Uu : Uuids} (db : list object) (what : observer -> obs) (net : bool).

  Lemma books_begins ns cs (xs : list (client U)) : down ns -> books (length xs) (begins ns cs xs).
  Proof.
    intros D. constructor; cbn.
    - constructor; cbn; [intros n k t []|constructor|intros n k n' k' t []].
    - discriminate.
    - intros n _ _. unfold node_lists, life_lists. rewrite D. reflexivity.
    - discriminate.
    - lia.
  Qed.
  Lemma told_begins ns cs (xs : list (client U)) : told (begins ns cs xs).
  Proof. constructor; cbn; [discriminate|intros n k t []]. Qed.
  Theorem books_reached ns cs xs (s : process U) : down ns -> steps db what net (begins ns cs xs) s -> books (length xs) s /\ told s.
  Proof.
    intros D St. remember (begins ns cs xs) as s0 eqn:E0. induction St as [s|s s1 s2 St IH S1]; [subst; split; [apply books_begins, D|apply told_begins]|]. subst s.
    destruct (simulates db what net ns cs xs s1 D St) as (Sa & a & _ & R). destruct (IH eq_refl) as [B F].
    split; [apply (books_step db what net (length xs) s1 a s2 R Sa B S1)|apply (told_step db what net (length xs) s1 a s2 R Sa B F S1)].
  Qed.
End Reachable.
