(** Every thread takes the mutexes in order of the tiers. This follows
    ProofsLocks.v, whose order is the one of a single tier. *)

From Coq Require Import List Arith Lia Bool Wellfounded.
From Verif Require Import ModelLocks SpecLocks SpecTiers.
Import ListNotations.

Inductive res :=
| Mutex (l : lock)
| End (t : nat).

Definition class (r : res) : nat :=
  match r with
  | Mutex (App _) => 0
  | Mutex (Dev _) => 1
  | Mutex (Node _) => 2
  | End _ => 3
  | Mutex (Notif _) => 4
  | Mutex (Wrap _) => 5
  | Mutex (Own _) => 6
  | Mutex (Usr _) => 7
  end.

Definition index (r : res) : nat :=
  match r with
  | Mutex (App a) => a
  | Mutex (Usr h) => h
  | _ => 0
  end.

Section Tiers.
  Variables tn td th : nat -> nat.

  (** The tier of a resource, plus one; [hm] tells the node of a server. *)
  Definition level (hm : nat -> nat) (r : res) : nat :=
    match r with
    | Mutex (App _) => 0
    | Mutex (Dev d) => S (td d)
    | Mutex (Node n) => S (tn n)
    | End t => S (tn (hm t))
    | Mutex (Notif t) => S (tn (hm t))
    | Mutex (Wrap w) => S (td (Nat.div2 w))
    | Mutex (Own n) => S (tn n)
    | Mutex (Usr h) => S (th h)
    end.

  Definition less (hm : nat -> nat) (a b : res) : Prop :=
    level hm a < level hm b
    \/ (level hm a = level hm b /\ (class a < class b \/ (class a = class b /\ index a < index b))).

  Lemma less_trans hm a b c : less hm a b -> less hm b c -> less hm a c.
  Proof. unfold less; lia. Qed.

  Lemma less_irrefl hm a : ~ less hm a a.
  Proof. unfold less; lia. Qed.

  Definition below hm (held : list res) (r : res) : Prop := Forall (fun x => less hm x r) held.

  Definition under hm (held : list res) (L k : nat) : Prop :=
    Forall (fun x => level hm x < L \/ (level hm x = L /\ class x < k)) held.

  Lemma under_below hm held L k r : under hm held L k -> level hm r = L -> class r = k -> below hm held r.
  Proof. intros H E F. eapply Forall_impl; [|exact H]. intros x Hx. cbn in Hx. unfold less. lia. Qed.

  Lemma under_le hm held L k L' k' : under hm held L k -> L < L' \/ (L = L' /\ k <= k') -> under hm held L' k'.
  Proof. intros H E. eapply Forall_impl; [|exact H]. intros x Hx. cbn in Hx |- *. lia. Qed.

  Lemma under_cons hm x held L k : level hm x < L \/ (level hm x = L /\ class x < k) -> under hm held L k -> under hm (x :: held) L k.
  Proof. intros A B. constructor; assumption. Qed.

  (** The threads which a resource is about are servers. *)
  Definition known (R : nat -> Prop) (r : res) : Prop :=
    match r with Mutex (Notif t) | End t => R t | _ => True end.

  (** An observer or handler of a node of this level. *)
  Definition obs_ok (L : nat) (o : observer) : Prop :=
    match o with
    | ObsNode w n => S (td (Nat.div2 w)) = L /\ S (tn n) = L
    | ObsCtrl w _ | ObsDev w => S (td (Nat.div2 w)) = L
    | ObsUser h => L <= S (th h)
    end.
  Definition hand_ok (L : nat) (h : handler) : Prop :=
    match h with HNode n => S (tn n) = L | HUser h => L <= S (th h) end.

  Inductive safe (R : nat -> Prop) (hm : nat -> nat) (base : list res) : list res -> list op -> Prop :=
  | safe_nil : safe R hm base base []
  | safe_acq l held p :
      known R (Mutex l) -> below hm held (Mutex l) -> safe R hm base (Mutex l :: held) p -> safe R hm base held (Acq l :: p)
  | safe_rel l held p : safe R hm base held p -> safe R hm base (Mutex l :: held) (Rel l :: p)
  | safe_try l ys held p : known R (Mutex l) ->
      safe R hm base (Mutex l :: held) (ys ++ p) -> safe R hm base held p -> safe R hm base held (Try l ys :: p)
  | safe_addobs n o held p : obs_ok (S (tn n)) o -> safe R hm base held p -> safe R hm base held (AddObs n o :: p)
  | safe_addhandler n h held p : hand_ok (S (tn n)) h -> safe R hm base held p -> safe R hm base held (AddHandler n h :: p)
  | safe_start n held p : In (Mutex (Node n)) held -> under hm held (S (tn n)) 3 -> safe R hm base held p -> safe R hm base held (Start n :: p)
  | safe_spawn n held p : In (Mutex (Node n)) held -> safe R hm base held p -> safe R hm base held (Spawn n :: p)
  | safe_register n held p : In (Mutex (Node n)) held -> under hm held (S (tn n)) 4 -> safe R hm base held p -> safe R hm base held (Register n :: p)
  | safe_push t o held p : R t -> obs_ok (S (tn (hm t))) o -> safe R hm base held p -> safe R hm base held (Push t o :: p)
  | safe_stopall n held p : In (Mutex (Node n)) held -> under hm held (S (tn n)) 3 -> safe R hm base held p -> safe R hm base held (StopAll n :: p)
  | safe_stopserver t held p : R t -> below hm held (End t) -> safe R hm base held p -> safe R hm base held (StopServer t :: p)
  | safe_clear n held p : In (Mutex (Node n)) held -> safe R hm base held p -> safe R hm base held (Clear n :: p)
  | safe_notify t held p : R t -> under hm held (S (tn (hm t))) 5 -> safe R hm base held p -> safe R hm base held (Notify t :: p)
  | safe_handle n held p : under hm held (S (tn n)) 6 -> safe R hm base held p -> safe R hm base held (Handle n :: p).

  Lemma level_known (R : nat -> Prop) hm hm' r : (forall t, R t -> hm' t = hm t) -> known R r -> level hm' r = level hm r.
  Proof. intros H K. destruct r as [[]|]; cbn in *; try reflexivity; rewrite (H _ K); reflexivity. Qed.

  Lemma safe_mono (R R' : nat -> Prop) hm hm' base held p :
    (forall t, R t -> R' t) -> (forall t, R t -> hm' t = hm t) -> Forall (known R) held ->
    safe R hm base held p -> safe R' hm' base held p.
  Proof.
    intros H Hm K S.
    assert (Kn : forall r, known R r -> known R' r) by (intros [[]|] X; cbn in *; auto).
    assert (B : forall held r, Forall (known R) held -> known R r -> below hm held r -> below hm' held r).
    { intros hd r Kh Kr Bl. unfold below in *. rewrite Forall_forall in *. intros x Hx. unfold less.
      rewrite (level_known R hm hm' x Hm (Kh x Hx)), (level_known R hm hm' r Hm Kr). exact (Bl x Hx). }
    assert (Un : forall held L k, Forall (known R) held -> under hm held L k -> under hm' held L k).
    { intros hd L k Kh Bl. unfold under in *. rewrite Forall_forall in *. intros x Hx.
      rewrite (level_known R hm hm' x Hm (Kh x Hx)). exact (Bl x Hx). }
    revert K. induction S as [|l held p Kl Bl Sf IH|l held p Sf IH|l ys held p Kl Sf IH Sf2 IH2|n o held p Ok Sf IH|n h held p Ok Sf IH
      |n held p Hn Hu Sf IH|n held p Hn Sf IH|n held p Hn Hu Sf IH|t o held p Rt Ok Sf IH|n held p Hn Hu Sf IH|t held p Rt Bl Sf IH|n held p Hn Sf IH
      |t held p Rt Hu Sf IH|n held p Hu Sf IH]; intro K.
    - constructor.
    - constructor; [apply Kn; exact Kl|apply B; assumption|]. apply IH. constructor; assumption.
    - constructor. apply IH. inversion K; assumption.
    - constructor; [apply Kn; exact Kl| |auto]. apply IH. constructor; assumption.
    - constructor; auto.
    - constructor; auto.
    - constructor; auto.
    - constructor; auto.
    - constructor; auto.
    - constructor; [auto| |auto]. rewrite (Hm t Rt). exact Ok.
    - constructor; auto.
    - constructor; [auto| |auto]. apply B; assumption.
    - constructor; auto.
    - constructor; [auto| |auto]. rewrite (Hm t Rt). auto.
    - constructor; auto.
  Qed.

  Definition usr (U : list nat) : list res := map (fun h => Mutex (Usr h)) U.

  Definition inner (n : nat) (b : list op) : Prop :=
    forall R hm base held q, In (Mutex (Node n)) held -> under hm held (S (tn n)) 3 -> safe R hm base held q -> safe R hm base held (b ++ q).

  Lemma node_call_safe R hm base n b held q :
    inner n b -> under hm held (S (tn n)) 2 -> safe R hm base held q -> safe R hm base held (node_call n b ++ q).
  Proof.
    intros I Hu Hq. unfold node_call. cbn. rewrite <- app_assoc. apply safe_acq.
    - exact Logic.I.
    - eapply under_below; [exact Hu|reflexivity|reflexivity].
    - apply I.
      + left. reflexivity.
      + apply under_cons; [cbn; lia|]. eapply under_le; [exact Hu|lia].
      + cbn. apply safe_rel. exact Hq.
  Qed.

  Lemma dev_call_safe R hm base d n b held q : td d = tn n ->
    inner n b -> under hm held (S (td d)) 1 -> safe R hm base held q -> safe R hm base held (dev_call d n b ++ q).
  Proof.
    intros E I Hu Hq. unfold dev_call. cbn [app]. rewrite <- app_assoc. apply safe_acq.
    - exact Logic.I.
    - eapply under_below; [exact Hu|reflexivity|reflexivity].
    - apply node_call_safe; [exact I| |].
      + apply under_cons; [cbn; lia|]. eapply under_le; [exact Hu|lia].
      + cbn. apply safe_rel. exact Hq.
  Qed.

  Lemma inner_nil n : inner n [].
  Proof. intros R hm base held q Hn Hu Hq. exact Hq. Qed.

  Lemma inner_addobs n o : obs_ok (S (tn n)) o -> inner n [AddObs n o].
  Proof. intros Ok R hm base held q Hn Hu Hq. cbn. apply safe_addobs; assumption. Qed.

  Lemma inner_addhandler n h : hand_ok (S (tn n)) h -> inner n [AddHandler n h].
  Proof. intros Ok R hm base held q Hn Hu Hq. cbn. apply safe_addhandler; assumption. Qed.

  Lemma inner_start n : inner n [Start n].
  Proof. intros R hm base held q Hn Hu Hq. cbn. apply safe_start; assumption. Qed.

  Lemma inner_stop n : inner n [StopAll n].
  Proof. intros R hm base held q Hn Hu Hq. cbn. apply safe_stopall; assumption. Qed.

  Lemma div2_even d : Nat.div2 (2 * d) = d.
  Proof. exact (Nat.div2_double d). Qed.
  Lemma div2_odd d : Nat.div2 (2 * d + 1) = d.
  Proof. rewrite Nat.add_1_r. exact (Nat.div2_succ_double d). Qed.

  Lemma call_safe R hm base c held q : call_ok tn td th c ->
    under hm held (S (tier_of tn td c)) 1 -> safe R hm base held q -> safe R hm base held (ops_of c ++ q).
  Proof.
    intros Ok Hu Hq.
    assert (H2 : under hm held (S (tier_of tn td c)) 2) by (eapply under_le; [exact Hu|lia]).
    assert (Hd : forall d, tier_of tn td c = td d -> safe R hm base held ([Acq (Dev d); Rel (Dev d)] ++ q)).
    { intros d E. cbn. apply safe_acq; [exact Logic.I|eapply under_below; [exact Hu|rewrite E; reflexivity|reflexivity]|].
      apply safe_rel. exact Hq. }
    assert (Hn : forall n b, tier_of tn td c = tn n -> inner n b -> safe R hm base held (node_call n b ++ q)).
    { intros n b E I. apply node_call_safe; [exact I|rewrite <- E; exact H2|exact Hq]. }
    assert (Hc : forall d n b, tier_of tn td c = td d -> td d = tn n -> inner n b -> safe R hm base held (dev_call d n b ++ q)).
    { intros d n b E E' I. apply dev_call_safe; [exact E'|exact I|rewrite <- E; exact Hu|exact Hq]. }
    destruct c; cbn [ops_of call_ok tier_of] in *;
      try (apply Hd; reflexivity);
      try (apply Hn; [reflexivity|first [apply inner_nil|apply inner_start|apply inner_stop|apply inner_addhandler; cbn; lia|apply inner_addobs; cbn; lia]]);
      try (apply Hc; [reflexivity|tauto|first [apply inner_nil|apply inner_start|apply inner_stop|apply inner_addhandler; cbn; lia|apply inner_addobs; cbn; lia]]).
    - rewrite <- app_assoc. apply node_call_safe; [apply inner_nil|exact H2|]. apply Hn; [reflexivity|]. apply inner_addhandler. reflexivity.
    - rewrite <- !app_assoc. apply node_call_safe; [apply inner_addobs; cbn [obs_ok]; rewrite div2_even; lia|rewrite <- Ok; exact H2|].
      apply dev_call_safe; [exact Ok|apply inner_addobs; cbn [obs_ok]; rewrite div2_odd; lia|exact Hu|]. apply Hc; [reflexivity|exact Ok|apply inner_nil].
    - rewrite <- !app_assoc. apply node_call_safe; [apply inner_addobs; cbn [obs_ok]; rewrite div2_even; lia|rewrite <- Ok; exact H2|].
      apply Hc; [reflexivity|exact Ok|]. apply inner_addobs. cbn [obs_ok]. rewrite div2_odd. lia.
    - cbn [app]. apply safe_try; [exact Logic.I| |exact Hq]. cbn [app]. apply safe_rel. apply Hc; [reflexivity|exact Ok|apply inner_nil].
  Qed.

  Lemma polite_safe R hm base U p :
    polite tn td th U p ->
    forall held q, (forall x, In x U -> under hm held (S (th x)) 7) -> safe R hm base held q -> safe R hm base (usr U ++ held) (p ++ q).
  Proof.
    induction 1 as [|h U p Ne HU Hp IH|h U p Hp IH|c U p Ne Ok HU Hp IH]; intros held q Hu Hq; cbn.
    - exact Hq.
    - destruct U as [|x U]; [contradiction|].
      apply safe_acq; [exact Logic.I| |].
      + apply Forall_app. split.
        * unfold usr. rewrite Forall_map. eapply Forall_impl; [|exact HU]. intros y Hy. unfold before in Hy. unfold less. cbn [level class index]. lia.
        * apply (under_below hm held (S (th h)) 7); [|reflexivity|reflexivity].
          pose proof (Hu x (or_introl eq_refl)) as Hx. inversion HU as [|? ? Hb ?]; subst. eapply under_le; [exact Hx|]. unfold before in Hb. lia.
      + apply IH; [|exact Hq]. intros y [<-|Hy]; [|apply Hu; exact Hy].
        pose proof (Hu x (or_introl eq_refl)) as Hx. inversion HU as [|? ? Hb ?]; subst. eapply under_le; [exact Hx|]. unfold before in Hb. lia.
    - apply safe_rel. apply IH; [|exact Hq]. intros y Hy. apply Hu. right. exact Hy.
    - destruct U as [|x U]; [contradiction|]. rewrite <- app_assoc. apply call_safe; [exact Ok| |apply IH; assumption].
      apply Forall_app. split.
      + unfold usr. rewrite Forall_map. eapply Forall_impl; [|exact HU]. intros y Hy. cbn beta in Hy. left. cbn [level]. lia.
      + pose proof (Hu x (or_introl eq_refl)) as Hx. inversion HU as [|? ? Hb ?]; subst. eapply under_le; [exact Hx|]. lia.
  Qed.

  Definition apps (A : list nat) : list res := map (fun a => Mutex (App a)) A.

  Lemma apps_under hm A L k : under hm (apps A) (S L) k.
  Proof. unfold apps, under. rewrite Forall_map. apply Forall_forall. intros; cbn; lia. Qed.

  Lemma tiered_safe R hm A U p : tiered tn td th A U p -> safe R hm [] (usr U ++ apps A) p.
  Proof.
    induction 1 as [|A c U p Ok HU D IH|a A p Ha D IH|a A p D IH|h A U p Hh D IH|h A U p D IH].
    - apply safe_nil.
    - apply call_safe; [exact Ok| |exact IH]. apply Forall_app. split; [|apply apps_under].
      unfold usr. rewrite Forall_map. eapply Forall_impl; [|exact HU]. intros y Hy. cbn beta in Hy. left. cbn [level]. lia.
    - cbn. apply safe_acq; [exact Logic.I| |exact IH].
      unfold below, apps. rewrite Forall_map. eapply Forall_impl; [|exact Ha].
      intros x Hx. cbn beta in Hx. unfold less. cbn. lia.
    - cbn. apply safe_rel. exact IH.
    - apply safe_acq; [exact Logic.I| |exact IH]. apply Forall_app. split.
      + unfold usr. rewrite Forall_map. eapply Forall_impl; [|exact Hh]. intros y Hy. unfold before in Hy. unfold less. cbn [level class index]. lia.
      + eapply (under_below hm _ (S (th h)) 7); [apply apps_under|reflexivity|reflexivity].
    - cbn. apply safe_rel. exact IH.
  Qed.

Section Code.
  Variable code : nat -> list op -> Prop.
  Hypothesis Mo : upward tn td th code.

  Lemma user_safe R hm base h b held q :
    code h b -> under hm held (S (th h)) 7 -> safe R hm base held q ->
    safe R hm base held ((Acq (Usr h) :: b ++ [Rel (Usr h)]) ++ q).
  Proof.
    intros C Hu Hq. cbn. apply safe_acq; [exact Logic.I| |].
    - eapply under_below; [exact Hu|reflexivity|reflexivity].
    - refine (polite_safe R hm base [h] _ (Mo h b C) held q _ Hq). intros x [<-|[]]. exact Hu.
  Qed.

  Lemma asked_safe R hm base L h l held q : hand_ok L h ->
    asked code h l -> under hm held L 6 -> safe R hm base held q -> safe R hm base held (l ++ q).
  Proof.
    intros Ok A Hu Hq. destruct A as [n|h b C]; cbn in Ok.
    - cbn. apply safe_acq; [exact Logic.I|eapply under_below; [exact Hu|exact Ok|reflexivity]|].
      apply safe_rel. exact Hq.
    - apply user_safe; [exact C| |exact Hq]. eapply under_le; [exact Hu|lia].
  Qed.

  Lemma handling_safe R hm base L hs k ps held q : Forall (hand_ok L) hs ->
    handling code hs k ps -> under hm held L 6 -> safe R hm base held q ->
    safe R hm base held (concat ps ++ q).
  Proof.
    unfold handling. intros Ok F Hu Hq.
    assert (Ok' : Forall (hand_ok L) (flat_map (fun h => repeat h k) hs)).
    { rewrite Forall_forall in *. intros x Hx. apply in_flat_map in Hx as (y & Hy & Hx). apply repeat_spec in Hx. subst x. auto. }
    revert Ok' F. generalize (flat_map (fun h => repeat h k) hs) as l.
    intros l Ok' F. induction F as [|h p l ps A F IH]; cbn; [exact Hq|]. inversion Ok'; subst.
    rewrite <- app_assoc. eapply asked_safe; [eassumption|exact A|exact Hu|auto].
  Qed.

  Lemma notified_safe R hm base L o l held q : obs_ok L o ->
    notified code o l -> under hm held L 5 -> safe R hm base held q -> safe R hm base held (l ++ q).
  Proof.
    intros Ok A Hu Hq.
    assert (B : forall w, S (td (Nat.div2 w)) = L -> below hm held (Mutex (Wrap w)))
      by (intros w E; eapply under_below; [exact Hu|exact E|reflexivity]).
    destruct A as [w n|w c|w|h b C]; cbn [obs_ok] in Ok.
    - destruct Ok as [Ow On]. cbn. apply safe_acq; [exact Logic.I|apply B; exact Ow|].
      apply safe_try; [exact Logic.I| |].
      + cbn. apply safe_handle.
        * rewrite On. apply under_cons; [cbn; lia|]. apply under_cons; [cbn; lia|]. eapply under_le; [exact Hu|lia].
        * apply safe_rel. apply safe_rel. exact Hq.
      + apply safe_rel. exact Hq.
    - cbn. apply safe_acq; [exact Logic.I|apply B; exact Ok|].
      apply safe_try; [exact Logic.I| |].
      + cbn. apply safe_rel. apply safe_rel. exact Hq.
      + apply safe_rel. exact Hq.
    - cbn. apply safe_acq; [exact Logic.I|apply B; exact Ok|]. apply safe_rel. exact Hq.
    - apply user_safe; [exact C| |exact Hq]. eapply under_le; [exact Hu|lia].
  Qed.

  Lemma notifying_safe R hm base L os ps held q : Forall (obs_ok L) os ->
    Forall2 (notified code) os ps -> under hm held L 5 -> safe R hm base held q ->
    safe R hm base held (concat ps ++ q).
  Proof.
    intros Ok F Hu Hq. induction F as [|o p os ps A F IH]; cbn; [exact Hq|]. inversion Ok; subst.
    rewrite <- app_assoc. eapply notified_safe; [eassumption|exact A|exact Hu|auto].
  Qed.

  Lemma pushing_safe (R : nat -> Prop) hm base n o ts held q : Forall (fun t => R t /\ hm t = n) ts -> obs_ok (S (tn n)) o ->
    under hm held (S (tn n)) 4 -> safe R hm base held q ->
    safe R hm base held (flat_map (fun t => [Acq (Notif t); Push t o; Rel (Notif t)]) ts ++ q).
  Proof.
    intros Ft Ok Hu Hq. induction Ft as [|t ts [Rt Ht] Ft IH]; cbn; [exact Hq|].
    apply safe_acq; [exact Rt|eapply under_below; [exact Hu|cbn [level]; rewrite Ht; reflexivity|reflexivity]|].
    apply safe_push; [exact Rt|rewrite Ht; exact Ok|]. apply safe_rel. exact IH.
  Qed.

  Lemma registering_safe (R : nat -> Prop) hm base n os ts held q : Forall (fun t => R t /\ hm t = n) ts -> Forall (obs_ok (S (tn n))) os ->
    under hm held (S (tn n)) 4 -> safe R hm base held q -> safe R hm base held (registering os ts ++ q).
  Proof.
    intros Ft Ok Hu Hq. unfold registering. induction Ok as [|o os Oo Ok IH]; cbn; [exact Hq|].
    rewrite <- app_assoc. apply (pushing_safe R hm base n); assumption.
  Qed.

  Lemma stopping_safe (R : nat -> Prop) hm base n ts held q :
    Forall (fun t => R t /\ hm t = n) ts -> In (Mutex (Node n)) held -> under hm held (S (tn n)) 3 -> safe R hm base held q ->
    safe R hm base held (stopping n ts ++ q).
  Proof.
    intros F Hn Hu Hq. unfold stopping. rewrite <- app_assoc.
    induction F as [|t ts [Ht Hm] F IH]; cbn.
    - apply safe_clear; assumption.
    - apply safe_stopserver; [exact Ht| |exact IH]. eapply under_below; [exact Hu|cbn [level]; rewrite Hm; reflexivity|reflexivity].
  Qed.

  Lemma spawning_safe R hm base n k held q :
    In (Mutex (Node n)) held -> safe R hm base held q -> safe R hm base held (repeat (Spawn n) k ++ q).
  Proof.
    intros Hn Hq. induction k as [|k IH]; cbn; [exact Hq|]. apply safe_spawn; assumption.
  Qed.

  (** ** The invariant *)

  Definition holds (s : process) (t : nat) (r : res) : Prop :=
    match r with
    | Mutex l => owner s l = Some t
    | End u => u = t /\ t < next s /\ receive s t = true /\ ended s t = false
    end.

  Definition base (s : process) (t : nat) : list res :=
    if receive s t && negb (ended s t) then [End t] else [].

  Definition serving (s : process) (t : nat) : Prop := t < next s /\ receive s t = true.

  Definition ordered (s : process) (t : nat) : Prop :=
    exists held, NoDup held /\ Forall (known (serving s)) held /\ (forall r, holds s t r <-> In r held)
                 /\ safe (serving s) (home s) (base s t) held (todo s t).

  (** The lists of observers, handlers and servers. *)
  Record lists (s : process) : Prop := {
    ls_servers : forall n, Forall (fun t => serving s t /\ home s t = n) (servers s n);
    ls_observers : forall n, Forall (obs_ok (S (tn n))) (observers s n);
    ls_handlers : forall n, Forall (hand_ok (S (tn n))) (handlers s n);
    ls_registered : forall t, serving s t -> Forall (obs_ok (S (tn (home s t)))) (registered s t) }.

  Record inv (s : process) : Prop := {
    inv_ordered : forall t, ordered s t;
    inv_fresh : forall t, next s <= t ->
      todo s t = [] /\ receive s t = false /\ forall l, owner s l <> Some t;
    inv_app : forall t, receive s t = false -> ended s t = false;
    inv_quiet : forall t, ended s t = true -> todo s t = [];
    inv_lists : lists s
  }.

  Lemma upd_same {A} (f : nat -> A) k v : upd f k v k = v.
  Proof. unfold upd. rewrite Nat.eqb_refl. reflexivity. Qed.

  Lemma upd_other {A} (f : nat -> A) k v x : x <> k -> upd f k v x = f x.
  Proof. intros H. unfold upd. apply Nat.eqb_neq in H. rewrite H. reflexivity. Qed.

  Lemma upd_lock_same f k v : upd_lock f k v k = v.
  Proof. unfold upd_lock. destruct (lock_eq_dec k k); [reflexivity|contradiction]. Qed.

  Lemma upd_lock_other f k v x : x <> k -> upd_lock f k v x = f x.
  Proof. intros H. unfold upd_lock. destruct (lock_eq_dec x k); [contradiction|reflexivity]. Qed.

  Lemma busy_known s t : inv s -> todo s t <> [] -> t < next s.
  Proof.
    intros I H. destruct (le_lt_dec (next s) t) as [L|L]; [|exact L].
    destruct (inv_fresh s I t L) as [E _]. contradiction.
  Qed.

  Lemma busy_alive s t : inv s -> todo s t <> [] -> ended s t = false.
  Proof.
    intros I H. destruct (ended s t) eqn:E; [|reflexivity].
    contradiction (H (inv_quiet s I t E)).
  Qed.

  (** Only [todo] of one thread changes, and nothing the invariant looks at. *)
  Lemma inv_todo s s' t p :
    inv s -> t < next s ->
    owner s' = owner s -> receive s' = receive s -> ended s' = ended s -> next s' = next s -> home s' = home s ->
    todo s' = upd (todo s) t p ->
    (p <> [] -> ended s t = false) ->
    lists s' ->
    (forall held, safe (serving s) (home s) (base s t) held (todo s t) -> safe (serving s) (home s) (base s t) held p) ->
    inv s'.
  Proof.
    intros I Lt Eo Er Ee En Eh Et Ea Hv Hs.
    assert (Hh : forall u r, holds s' u r <-> holds s u r).
    { intros u r. destruct r; cbn; rewrite ?Eo, ?Er, ?Ee, ?En; reflexivity. }
    assert (Hb : forall u, base s' u = base s u) by (intro u; unfold base; rewrite Er, Ee; reflexivity).
    assert (Hr : forall u, serving s u -> serving s' u)
      by (intro u; unfold serving; rewrite En, Er; tauto).
    constructor.
    - intro u. destruct (inv_ordered s I u) as (held & Nd & Kn & H & Sf).
      exists held. split; [exact Nd|]. split; [|split; [intro r; rewrite Hh; apply H|]].
      { eapply Forall_impl; [|exact Kn]. intros [[]|] X; cbn in *; auto. }
      rewrite Eh. apply (safe_mono (serving s) _ (home s)); [exact Hr|reflexivity|exact Kn|].
      rewrite Hb, Et. destruct (Nat.eq_dec u t) as [->|Hne].
      + rewrite upd_same. apply Hs. exact Sf.
      + rewrite upd_other by exact Hne. exact Sf.
    - intros u Hu. rewrite En in Hu. destruct (inv_fresh s I u Hu) as (A & B & C).
      rewrite Et, Er, Eo. rewrite upd_other by lia. auto.
    - intros u Hu. rewrite Er in Hu. rewrite Ee. exact (inv_app s I u Hu).
    - intros u Hu. rewrite Ee in Hu. rewrite Et. destruct (Nat.eq_dec u t) as [->|Hne].
      + rewrite upd_same. destruct p as [|o p]; [reflexivity|].
        exfalso. assert (ended s t = false) by (apply Ea; discriminate). congruence.
      + rewrite upd_other by exact Hne. exact (inv_quiet s I u Hu).
    - exact Hv.
  Qed.

  (** A thread takes a mutex which is free. *)
  Lemma inv_take s t l p :
    inv s -> todo s t <> [] -> owner s l = None ->
    (forall held, safe (serving s) (home s) (base s t) held (todo s t) -> known (serving s) (Mutex l) /\ safe (serving s) (home s) (base s t) (Mutex l :: held) p) ->
    inv (with_todo (with_owner s l (Some t)) t p).
  Proof.
    intros I Nt Ho Hs. pose proof (busy_known s t I Nt) as Lt. pose proof (busy_alive s t I Nt) as Al.
    constructor.
    - intro u. destruct (inv_ordered s I u) as (held & Nd & Kn & H & Sf).
      destruct (Nat.eq_dec u t) as [->|Hne].
      + exists (Mutex l :: held). split; [|split; [constructor; [apply (Hs held Sf)|exact Kn]|split]].
        * constructor; [|exact Nd]. intro Hin. apply H in Hin. cbn in Hin. congruence.
        * intros [m|v].
          -- cbn. destruct (lock_eq_dec m l) as [->|Hm].
             ++ rewrite upd_lock_same. tauto.
             ++ rewrite upd_lock_other by exact Hm. specialize (H (Mutex m)). cbn in H. rewrite H.
                split; [tauto|]. intros [E|E]; [congruence|exact E].
          -- specialize (H (End v)). cbn in *. rewrite H.
             split; [tauto|]. intros [E|E]; [congruence|exact E].
        * cbn. rewrite upd_same. change (base _ t) with (base s t). apply (Hs held Sf).
      + exists held. split; [exact Nd|]. split; [exact Kn|]. split.
        * intros [m|v].
          -- cbn. destruct (lock_eq_dec m l) as [->|Hm].
             ++ rewrite upd_lock_same. specialize (H (Mutex l)). cbn in H. rewrite <- H.
                split; congruence.
             ++ rewrite upd_lock_other by exact Hm. exact (H (Mutex m)).
          -- exact (H (End v)).
        * cbn. rewrite upd_other by exact Hne. exact Sf.
    - cbn. intros u Hu. destruct (inv_fresh s I u Hu) as (A & B & C).
      rewrite upd_other by lia. split; [exact A|]. split; [exact B|].
      intro m. destruct (lock_eq_dec m l) as [->|Hm].
      + rewrite upd_lock_same. intro E. injection E as E. lia.
      + rewrite upd_lock_other by exact Hm. apply C.
    - exact (inv_app s I).
    - cbn. intros u Hu. destruct (Nat.eq_dec u t) as [->|Hne]; [congruence|].
      rewrite upd_other by exact Hne. exact (inv_quiet s I u Hu).
    - destruct (inv_lists s I) as [L1 L2 L3 L4]. constructor; assumption.
  Qed.

  Lemma inv_drop s t l p :
    inv s -> todo s t = Rel l :: p -> owner s l = Some t ->
    inv (with_todo (with_owner s l None) t p).
  Proof.
    intros I Nt Ho. assert (Nn : todo s t <> []) by (rewrite Nt; discriminate).
    pose proof (busy_known s t I Nn) as Lt. pose proof (busy_alive s t I Nn) as Al.
    constructor.
    - intro u. destruct (inv_ordered s I u) as (held & Nd & Kn & H & Sf).
      destruct (Nat.eq_dec u t) as [->|Hne].
      + rewrite Nt in Sf. inversion Sf as [| |l' held' p' Sf' | | | | | | | | | | | |]; subst.
        inversion Nd as [|x y Hx Nd']; subst.
        exists held'. split; [exact Nd'|]. split; [inversion Kn; assumption|]. split.
        * intros [m|v].
          -- cbn. destruct (lock_eq_dec m l) as [->|Hm].
             ++ rewrite upd_lock_same. split; [discriminate|]. intro E. contradiction.
             ++ rewrite upd_lock_other by exact Hm. specialize (H (Mutex m)). cbn in H. rewrite H.
                split; [|tauto]. intros [E|E]; [congruence|exact E].
          -- specialize (H (End v)). cbn in *. rewrite H.
             split; [|tauto]. intros [E|E]; [congruence|exact E].
        * cbn. rewrite upd_same. exact Sf'.
      + exists held. split; [exact Nd|]. split; [exact Kn|]. split.
        * intros [m|v].
          -- cbn. destruct (lock_eq_dec m l) as [->|Hm].
             ++ rewrite upd_lock_same. specialize (H (Mutex l)). cbn in H. rewrite <- H.
                split; congruence.
             ++ rewrite upd_lock_other by exact Hm. exact (H (Mutex m)).
          -- exact (H (End v)).
        * cbn. rewrite upd_other by exact Hne. exact Sf.
    - cbn. intros u Hu. destruct (inv_fresh s I u Hu) as (A & B & C).
      rewrite upd_other by lia. split; [exact A|]. split; [exact B|].
      intro m. destruct (lock_eq_dec m l) as [->|Hm].
      + rewrite upd_lock_same. discriminate.
      + rewrite upd_lock_other by exact Hm. apply C.
    - exact (inv_app s I).
    - cbn. intros u Hu. destruct (Nat.eq_dec u t) as [->|Hne]; [congruence|].
      rewrite upd_other by exact Hne. exact (inv_quiet s I u Hu).
    - destruct (inv_lists s I) as [L1 L2 L3 L4]. constructor; assumption.
  Qed.

  (** A receive thread ends. *)
  Lemma inv_end s t :
    inv s -> t < next s -> receive s t = true -> ended s t = false -> todo s t = [] ->
    inv (with_ended s t).
  Proof.
    intros I Lt Er Ee Et. constructor.
    - intro u. destruct (inv_ordered s I u) as (held & Nd & Kn & H & Sf).
      destruct (Nat.eq_dec u t) as [->|Hne].
      + rewrite Et in Sf. inversion Sf as [E| | | | | | | | | | | | | |]; subst.
        unfold base in H. rewrite Er, Ee in H. cbn in H.
        exists []. split; [constructor|]. split; [constructor|]. split.
        * intros [m|v].
          -- specialize (H (Mutex m)). cbn in *. rewrite H. split; [|tauto].
             intros [E|E]; [discriminate E|exact E].
          -- cbn. rewrite upd_same. split; [|tauto]. intros (_ & _ & _ & E). discriminate E.
        * unfold base. cbn. rewrite upd_same, Er, Et. cbn. apply safe_nil.
      + exists held. split; [exact Nd|]. split; [exact Kn|]. split.
        * intros [m|v]; [exact (H (Mutex m))|]. specialize (H (End v)). cbn in *.
          rewrite upd_other by exact Hne. exact H.
        * unfold base in *. cbn. rewrite upd_other by exact Hne. exact Sf.
    - exact (inv_fresh s I).
    - cbn. intros u Hu. destruct (Nat.eq_dec u t) as [->|Hne]; [congruence|].
      rewrite upd_other by exact Hne. exact (inv_app s I u Hu).
    - cbn. intros u Hu. destruct (Nat.eq_dec u t) as [->|Hne]; [exact Et|].
      rewrite upd_other in Hu by exact Hne. exact (inv_quiet s I u Hu).
    - destruct (inv_lists s I) as [L1 L2 L3 L4]. constructor; assumption.
  Qed.

  Lemma inv_spawned s n : inv s -> inv (spawned s n).
  Proof.
    intros I. destruct (inv_fresh s I (next s) (le_n _)) as (F1 & F2 & F3).
    assert (Hr : forall u, serving s u -> serving (spawned s n) u).
    { intros u [A B]. split; cbn; [lia|]. rewrite upd_other by lia. exact B. }
    assert (Hm : forall u, serving s u -> home (spawned s n) u = home s u).
    { intros u [A B]. cbn. rewrite upd_other by lia. reflexivity. }
    assert (Kk : forall r, known (serving s) r -> known (serving (spawned s n)) r) by (intros [[]|] X; cbn [known] in *; auto).
    constructor.
    - intro u. destruct (inv_ordered s I u) as (held & Nd & Kn & H & Sf).
      destruct (Nat.eq_dec u (next s)) as [->|Hne].
      + exists [End (next s)]. split; [repeat constructor; tauto|]. split; [|split].
        * constructor; [|constructor]. cbn [known]. split; cbn; [lia|]. apply upd_same.
        * intros [m|v].
          -- cbn. split; [intro E; contradiction (F3 m E)|]. intros [E|E]; [discriminate E|contradiction].
          -- cbn. rewrite !upd_same. split.
             ++ intros (-> & _). left. reflexivity.
             ++ intros [E|E]; [|contradiction]. injection E as <-. repeat split; lia.
        * unfold base. cbn. rewrite !upd_same. cbn. apply safe_nil.
      + exists held. split; [exact Nd|]. split; [eapply Forall_impl; [exact Kk|exact Kn]|]. split.
        * intros [m|v]; [exact (H (Mutex m))|]. specialize (H (End v)). cbn in *.
          rewrite !upd_other by exact Hne. rewrite <- H. split.
          -- intros (A & B & C & D). repeat split; try assumption. lia.
          -- intros (A & B & C & D). repeat split; try assumption. lia.
        * unfold base in *. cbn [receive ended todo spawned]. rewrite !upd_other by exact Hne.
          exact (safe_mono _ _ _ _ _ _ _ Hr Hm Kn Sf).
    - cbn. intros u Hu. destruct (inv_fresh s I u ltac:(lia)) as (A & B & C).
      rewrite !upd_other by lia. auto.
    - cbn. intros u Hu. destruct (Nat.eq_dec u (next s)) as [->|Hne].
      + rewrite upd_same. reflexivity.
      + rewrite upd_other by exact Hne. rewrite upd_other in Hu by exact Hne.
        exact (inv_app s I u Hu).
    - cbn. intros u Hu. destruct (Nat.eq_dec u (next s)) as [->|Hne].
      + rewrite upd_same. reflexivity.
      + rewrite upd_other by exact Hne. rewrite upd_other in Hu by exact Hne.
        exact (inv_quiet s I u Hu).
    - destruct (inv_lists s I) as [L1 L2 L3 L4]. constructor; [|exact L2|exact L3|].
      + assert (X : forall m, Forall (fun t => serving (spawned s n) t /\ home (spawned s n) t = m) (servers s m)).
        { intro m. eapply Forall_impl; [|exact (L1 m)]. intros t [A B]. split; [apply Hr; exact A|]. rewrite Hm by exact A. exact B. }
        intro m. cbn [servers spawned]. unfold upd at 1. destruct (Nat.eqb_spec m n) as [->|_]; [|apply X].
        apply Forall_app. split; [apply X|]. constructor; [|constructor]. split; [split; cbn; [lia|apply upd_same]|]. cbn. apply upd_same.
      + intros t St. cbn [registered spawned]. destruct (Nat.eq_dec t (next s)) as [->|Hne].
        * rewrite upd_same. constructor.
        * assert (St' : serving s t).
          { destruct St as [A B]. cbn in A, B. rewrite upd_other in B by exact Hne. split; [lia|exact B]. }
          rewrite upd_other by exact Hne. rewrite Hm by exact St'. apply L4. exact St'.
  Qed.

  Ltac same I Nt :=
    match goal with
    | |- inv (with_todo ?s0 ?t ?p) =>
        eapply (inv_todo _ _ t p I);
        [ eapply busy_known; [exact I|rewrite Nt; discriminate]
        | reflexivity | reflexivity | reflexivity | reflexivity | reflexivity | reflexivity
        | intros _; eapply busy_alive; [exact I|rewrite Nt; discriminate]
        | try (destruct (inv_lists _ I); constructor; assumption)
        | intros held Sf; rewrite Nt in Sf; inversion Sf; subst ]
    end.

  Lemma upd_forall {A} (Q : nat -> A -> Prop) (f : nat -> A) k v : (forall n, Q n (f n)) -> Q k v -> forall n, Q n (upd f k v n).
  Proof. intros H H' n. unfold upd. destruct (Nat.eqb_spec n k) as [->|]; auto. Qed.

  Lemma runs_inv t s s' : inv s -> runs code t s s' -> inv s'.
  Proof.
    intros I R. destruct R as
      [l p Nt Ho|l p Nt Ho|l ys p Nt Ho|l ys p Nt Ho|n o p Nt|n h p Nt|n p Nt Hs|n k p Nt Hs Hk
      |n k p Nt Hs|n p Nt|n p Nt|u o p Nt|n p Nt|u p Nt Hf|u p Nt Hf He|n p Nt|u ps p Nt Hn
      |n k ps p Nt Hh|Lt Er Ee Et Ef];
      try (destruct (inv_ordered s I t) as (held0 & _ & _ & _ & Sf0); rewrite Nt in Sf0);
      destruct (inv_lists s I) as [L1 L2 L3 L4].
    - apply inv_take; [exact I|rewrite Nt; discriminate|exact Ho|].
      intros held Sf. rewrite Nt in Sf. inversion Sf; subst. split; assumption.
    - apply inv_drop; assumption.
    - apply inv_take; [exact I|rewrite Nt; discriminate|exact Ho|].
      intros held Sf. rewrite Nt in Sf. inversion Sf; subst. split; assumption.
    - same I Nt. assumption.
    - same I Nt; [|assumption]. inversion Sf0; subst. constructor; try assumption. cbn.
      apply (upd_forall (fun n l => Forall (obs_ok (S (tn n))) l)); [exact L2|]. apply Forall_app. split; [apply L2|]. constructor; [assumption|constructor].
    - same I Nt; [|assumption]. inversion Sf0; subst. constructor; try assumption. cbn.
      apply (upd_forall (fun n l => Forall (hand_ok (S (tn n))) l)); [exact L3|]. apply Forall_app. split; [apply L3|]. constructor; [assumption|constructor].
    - same I Nt. apply safe_register; [assumption|eapply under_le; [eassumption|lia]|assumption].
    - same I Nt. apply spawning_safe; [assumption|].
      apply safe_register; [assumption|eapply under_le; [eassumption|lia]|assumption].
    - same I Nt. apply spawning_safe; [assumption|]. apply safe_stopall; assumption.
    - pose proof (inv_spawned s n I) as I'.
      assert (Nn : todo s t <> []) by (rewrite Nt; discriminate).
      pose proof (busy_known s t I Nn) as Lt.
      assert (Nt' : todo (spawned s n) t = Spawn n :: p) by (cbn; rewrite upd_other by lia; exact Nt).
      eapply (inv_todo _ _ t p I');
        [ eapply busy_known; [exact I'|rewrite Nt'; discriminate]
        | reflexivity | reflexivity | reflexivity | reflexivity | reflexivity | reflexivity
        | intros _; eapply busy_alive; [exact I'|rewrite Nt'; discriminate]
        | destruct (inv_lists _ I'); constructor; assumption
        | intros held Sf; rewrite Nt' in Sf; inversion Sf; subst; assumption ].
    - same I Nt. eapply registering_safe; [apply L1|apply L2|assumption|assumption].
    - same I Nt; [|assumption]. inversion Sf0; subst. constructor; try assumption. cbn [registered with_todo with_registered home].
      intros v Sv. change (serving s v) in Sv. unfold upd. destruct (Nat.eqb_spec v u) as [->|]; [|apply L4; exact Sv].
      apply Forall_app. split; [apply L4; exact Sv|]. constructor; [assumption|constructor].
    - same I Nt. eapply stopping_safe; [apply L1|assumption|assumption|assumption].
    - destruct I as [I1 I2 I3 I4 I5]. constructor; try assumption. destruct I5; constructor; assumption.
    - same I Nt. assumption.
    - same I Nt; [|assumption]. constructor; try assumption. cbn.
      apply (upd_forall (fun n l => Forall (fun t => serving s t /\ home s t = n) l)); [exact L1|constructor].
    - same I Nt. eapply notifying_safe; [|eassumption|eassumption|assumption]. apply L4. assumption.
    - same I Nt. eapply handling_safe; [apply L3|eassumption|eassumption|assumption].
    - apply inv_end; assumption.
  Qed.

  Lemma network_inv t s s' : inv s -> network t s s' -> inv s'.
  Proof.
    intros I [Lt Er Ee Et|Lt Er Ee Et].
    - eapply (inv_todo _ _ t _ I); [exact Lt|reflexivity|reflexivity|reflexivity|reflexivity|reflexivity|reflexivity| | |].
      + intros _. exact Ee.
      + destruct (inv_lists s I); constructor; assumption.
      + intros held Sf. rewrite Et in Sf. inversion Sf; subst.
        unfold base. rewrite Er, Ee. cbn. apply safe_acq; [split; assumption| |].
        * apply Forall_cons; [unfold less; cbn; lia|constructor].
        * apply safe_notify; [split; assumption| |apply safe_rel; apply safe_nil].
          apply under_cons; [cbn; lia|]. apply under_cons; [cbn; lia|constructor].
    - apply inv_end; assumption.
  Qed.

  Lemma steps_inv s s' : inv s -> steps code s s' -> inv s'.
  Proof.
    intros I H. induction H as [s|t s s1 s2 R H IH|t s s1 s2 R H IH]; [exact I| |].
    - apply IH. exact (runs_inv t s s1 I R).
    - apply IH. exact (network_inv t s s1 I R).
  Qed.

  Lemma boot_inv ps : Forall (tiered tn td th [] []) ps -> inv (boot ps).
  Proof.
    intros F. constructor.
    - intro t. exists []. split; [constructor|]. split; [constructor|]. split.
      + intros [l|u]; cbn; [split; [discriminate|tauto]|].
        split; [|tauto]. intros (_ & _ & E & _). discriminate E.
      + cbn. destruct (nth_in_or_default t ps []) as [Hin| ->].
        * rewrite Forall_forall in F. exact (tiered_safe _ _ [] [] _ (F _ Hin)).
        * apply safe_nil.
    - cbn. intros t Lt. rewrite nth_overflow by exact Lt. repeat split. discriminate.
    - reflexivity.
    - cbn. discriminate.
    - constructor; intros; constructor.
  Qed.

  (** ** No deadlock *)

  (** What thread [t] waits for. *)
  Definition wanted (s : process) (t : nat) : option res :=
    match todo s t with
    | Acq l :: _ => Some (Mutex l)
    | StopServer u :: _ => Some (End u)
    | _ => None
    end.

  Lemma waits_wanted s t u :
    inv s -> waits s t u -> exists r, wanted s t = Some r /\ holds s u r.
  Proof.
    intros I [(l & p & E & Ho)|(p & E & Hf & He)]; unfold wanted; rewrite E.
    - exists (Mutex l). split; [reflexivity|exact Ho].
    - exists (End u). split; [reflexivity|]. cbn. split; [reflexivity|].
      destruct (inv_ordered s I t) as (held & _ & _ & _ & Sf). rewrite E in Sf.
      inversion Sf as [| | | | | | | | | | |u' held' p' [A B] Hu Sf' | | |]; subst. auto.
  Qed.

  (** A thread holds only what is below what it waits for. *)
  Lemma wanted_above s t r r' :
    inv s -> wanted s t = Some r -> holds s t r' -> less (home s) r' r.
  Proof.
    intros I W Hh. destruct (inv_ordered s I t) as (held & _ & _ & H & Sf).
    apply H in Hh. unfold wanted in W. destruct (todo s t) as [|o p]; [discriminate W|].
    destruct o; try discriminate W; injection W as <-.
    - inversion Sf; subst. unfold below in *.
      match goal with H : Forall _ held |- _ => rewrite Forall_forall in H; exact (H _ Hh) end.
    - inversion Sf; subst. unfold below in *.
      match goal with H : Forall _ held |- _ => rewrite Forall_forall in H; exact (H _ Hh) end.
  Qed.

  Definition wants (s : process) (t u : nat) : Prop :=
    exists a b, wanted s t = Some a /\ wanted s u = Some b /\ less (home s) a b.

  Lemma wants_trans s t u v : wants s t u -> wants s u v -> wants s t v.
  Proof.
    intros (a & b & A & B & L) (b' & c & B' & C & L'). exists a, c.
    split; [exact A|]. split; [exact C|]. apply (less_trans _ a b c); [exact L|].
    rewrite B in B'. injection B' as <-. exact L'.
  Qed.

  Lemma wants_irrefl s t : ~ wants s t t.
  Proof.
    intros (a & b & A & B & L). rewrite A in B. injection B as <-. exact (less_irrefl _ a L).
  Qed.

  Lemma no_deadlock s S : inv s -> ~ deadlock s S.
  Proof.
    intros I [[t0 H0] H].
    assert (Next : forall t, S t -> exists u, S u /\ wants s t u).
    { intros t Ht. destruct (H t Ht) as (_ & u & Hu & W). exists u. split; [exact Hu|].
      destruct (H u Hu) as (_ & v & Hv & W').
      destruct (waits_wanted s t u I W) as (a & Wa & Ha).
      destruct (waits_wanted s u v I W') as (b & Wb & _).
      exists a, b. split; [exact Wa|]. split; [exact Wb|].
      exact (wanted_above s u b a I Wb Ha). }
    assert (Chain : forall m, exists t l, length l = m /\ S t /\ Forall S l /\ NoDup (t :: l)
                                          /\ Forall (fun x => wants s x t) l).
    { induction m as [|m (t & l & Len & Ht & Hl & Nd & W)].
      - exists t0, []. repeat split; auto; constructor; auto. constructor.
      - destruct (Next t Ht) as (u & Hu & Wu).
        assert (W' : Forall (fun x => wants s x u) (t :: l)).
        { constructor; [exact Wu|]. eapply Forall_impl; [|exact W].
          intros x Hx. exact (wants_trans s x t u Hx Wu). }
        exists u, (t :: l). split; [cbn; lia|]. split; [exact Hu|].
        split; [constructor; assumption|]. split; [|exact W'].
        constructor; [|exact Nd]. intro Hin. rewrite Forall_forall in W'.
        exact (wants_irrefl s u (W' u Hin)). }
    destruct (Chain (next s)) as (t & l & Len & Ht & Hl & Nd & _).
    assert (Inc : incl (t :: l) (seq 0 (next s))).
    { intros x Hx. apply in_seq. split; [lia|]. cbn. apply (H x).
      destruct Hx as [<-|Hx]; [exact Ht|]. rewrite Forall_forall in Hl. exact (Hl x Hx). }
    pose proof (NoDup_incl_length Nd Inc) as L. rewrite seq_length in L. cbn in L. lia.
  Qed.

  (** ** Threads which can go on *)

  Definition stuck (s : process) : Prop := forall t s', ~ runs code t s s'.

  (** The code of the application has a run, whenever it is called. *)
  Hypothesis Some_code : forall h, exists b, code h b.

  Lemma asked_some h : exists l, asked code h l.
  Proof.
    destruct h as [n|h]; [eexists; constructor|].
    destruct (Some_code h) as (b & B). eexists. constructor. exact B.
  Qed.

  Lemma notified_some o : exists l, notified code o l.
  Proof.
    destruct o as [w n|w c|w|h]; try (eexists; constructor; fail).
    destruct (Some_code h) as (b & B). eexists. constructor. exact B.
  Qed.

  Lemma notified_all os : exists ps, Forall2 (notified code) os ps.
  Proof.
    induction os as [|o os (ps & IH)]; [exists []; constructor|].
    destruct (notified_some o) as (l & L). exists (l :: ps). constructor; assumption.
  Qed.

  (** A thread which cannot run is done, or polls its socket, or waits. *)
  Lemma stuck_waits s t :
    inv s -> stuck s -> todo s t <> [] -> exists u, u < next s /\ todo s u <> [] /\ waits s t u.
  Proof.
    intros I St Nt. destruct (todo s t) as [|o p] eqn:E; [contradiction|].
    assert (Hw : exists u, waits s t u).
    { destruct o.
      - destruct (owner s l) as [u|] eqn:Ho.
        + exists u. left. exists l, p. auto.
        + exfalso. eapply St. eapply run_acq; eassumption.
      - destruct (inv_ordered s I t) as (held & _ & _ & H & Sf). rewrite E in Sf.
        inversion Sf as [| |l' held' p' Sf' | | | | | | | | | | | |]; subst.
        exfalso. eapply St. eapply run_rel; [eassumption|].
        exact (proj2 (H (Mutex l)) (or_introl eq_refl)).
      - exfalso. destruct (owner s l) as [u|] eqn:Ho.
        + eapply St. eapply run_try_no; [eassumption|]. rewrite Ho. discriminate.
        + eapply St. eapply run_try_yes; eassumption.
      - exfalso. eapply St. eapply run_add_observer; eassumption.
      - exfalso. eapply St. eapply run_add_handler; eassumption.
      - exfalso. destruct (servers s n) as [|x l] eqn:Hs.
        + eapply St. eapply (run_start_fails code t s n 0); eassumption.
        + eapply St. eapply run_start_again; [eassumption|]. rewrite Hs. discriminate.
      - exfalso. eapply St. eapply run_spawn; eassumption.
      - exfalso. eapply St. eapply run_register; eassumption.
      - exfalso. eapply St. eapply run_push; eassumption.
      - exfalso. eapply St. eapply run_stop; eassumption.
      - destruct (flag s t0) eqn:Hf.
        + destruct (ended s t0) eqn:He.
          * exfalso. eapply St. eapply run_join; eassumption.
          * exists t0. right. exists p. auto.
        + exfalso. eapply St. eapply run_signal; eassumption.
      - exfalso. eapply St. eapply run_clear; eassumption.
      - exfalso. destruct (notified_all (registered s t0)) as (ps & F).
        eapply St. eapply run_notify; eassumption.
      - exfalso. eapply St. eapply (run_handle code t s n 0 []); [eassumption|].
        unfold handling. induction (handlers s n) as [|h hs IH]; [constructor|exact IH]. }
    destruct Hw as (u & W). exists u.
    destruct (waits_wanted s t u I W) as (r & Wr & Hr).
    assert (Lu : u < next s).
    { destruct r as [l|v].
      - destruct (le_lt_dec (next s) u) as [L|L]; [|exact L].
        destruct (inv_fresh s I u L) as (_ & _ & F). contradiction (F l Hr).
      - cbn in Hr. tauto. }
    split; [exact Lu|]. split; [|exact W].
    intro Eu. destruct (inv_ordered s I u) as (held & _ & _ & H & Sf).
    rewrite Eu in Sf. inversion Sf; subst. apply H in Hr. unfold base in Hr.
    destruct (receive s u) eqn:Er; cbn in Hr; [|contradiction].
    destruct (ended s u) eqn:Ee; cbn in Hr; [contradiction|].
    destruct Hr as [<-|Hr]; [|contradiction].
    destruct W as [(l & q & W & _)|(q & W & Hf & _)].
    - unfold wanted in Wr. rewrite W in Wr. discriminate Wr.
    - eapply St. eapply run_exit; eassumption.
  Qed.

  Lemma stuck_finished s t : inv s -> stuck s -> todo s t = [].
  Proof.
    intros I St. destruct (todo s t) as [|o p] eqn:E; [reflexivity|]. exfalso.
    apply (no_deadlock s (fun u => todo s u <> []) I). split.
    - exists t. rewrite E. discriminate.
    - intros u Hu. split; [exact (busy_known s u I Hu)|].
      destruct (stuck_waits s u I St Hu) as (v & _ & Hv & W). exists v. auto.
  Qed.

  (** ** Without new datagrams everything comes to rest *)

  Fixpoint weight (i : nat) (o : op) : nat :=
    match o with
    | Try _ ys =>
        (if Nat.eqb i 0 then 1 else 0)
        + (fix sum (l : list op) := match l with [] => 0 | x :: l => weight i x + sum l end) ys
    | Start _ => if Nat.eqb i 2 then 1 else 0
    | Handle _ => if Nat.eqb i 3 then 1 else 0
    | Spawn _ | Register _ | StopAll _ => if Nat.eqb i 1 then 1 else 0
    | Notify _ => if Nat.eqb i 4 then 1 else 0
    | _ => if Nat.eqb i 0 then 1 else 0
    end.

  Fixpoint weights (i : nat) (p : list op) : nat :=
    match p with [] => 0 | x :: p => weight i x + weights i p end.

  Lemma weights_app i p q : weights i (p ++ q) = weights i p + weights i q.
  Proof. induction p as [|o p IH]; cbn; [reflexivity|]. rewrite IH. lia. Qed.

  Lemma weight_try i l ys :
    weight i (Try l ys) = (if Nat.eqb i 0 then 1 else 0) + weights i ys.
  Proof. cbn [weight]. f_equal. induction ys as [|y ys IH]; [reflexivity|]. cbn [weights]. rewrite <- IH. reflexivity. Qed.

  (** The part of a thread, with its flags for the lowest level. *)
  Definition load (s : process) (i t : nat) : nat :=
    weights i (todo s t)
    + (if Nat.eqb i 0 then (if ended s t then 0 else 1) + (if flag s t then 0 else 1) else 0).

  Fixpoint sum_to (n : nat) (f : nat -> nat) : nat :=
    match n with 0 => 0 | S n => f n + sum_to n f end.

  Definition total (s : process) (i : nat) : nat := sum_to (next s) (load s i).

  Lemma sum_to_ext n f g : (forall t, t < n -> f t = g t) -> sum_to n f = sum_to n g.
  Proof.
    induction n as [|n IH]; intros H; cbn; [reflexivity|].
    rewrite (H n) by lia. rewrite IH; [reflexivity|]. intros; apply H; lia.
  Qed.

  Lemma sum_to_one n f g t :
    t < n -> (forall u, u < n -> u <> t -> f u = g u) ->
    sum_to n f + g t = sum_to n g + f t.
  Proof.
    induction n as [|n IH]; intros L H; [lia|]. cbn.
    destruct (Nat.eq_dec t n) as [->|Hne].
    - rewrite (sum_to_ext n f g); [lia|]. intros u Hu. apply H; lia.
    - rewrite (H n) by lia. specialize (IH ltac:(lia)). specialize (IH ltac:(intros; apply H; lia)).
      lia.
  Qed.

  (** Lexicographic comparison of the five totals. *)
  Definition lexi (f g : nat -> nat) : Prop :=
    f 4 < g 4
    \/ (f 4 = g 4
        /\ (f 3 < g 3
            \/ (f 3 = g 3
                /\ (f 2 < g 2
                    \/ (f 2 = g 2
                        /\ (f 1 < g 1
                            \/ (f 1 = g 1 /\ f 0 < g 0))))))).
  Definition smaller (s' s : process) : Prop := lexi (total s') (total s).
  Definition lighter (p' p : list op) : Prop := lexi (fun i => weights i p') (fun i => weights i p).

  Lemma total_todo s s' t p i :
    t < next s -> todo s' = upd (todo s) t p -> ended s' = ended s -> flag s' = flag s ->
    next s' = next s ->
    total s' i + weights i (todo s t) = total s i + weights i p.
  Proof.
    intros Lt Et Ee Ef En. unfold total. rewrite En.
    pose proof (sum_to_one (next s) (load s' i) (load s i) t Lt) as H.
    specialize (H ltac:(intros u _ Hu; unfold load; rewrite Et, Ee, Ef, upd_other by exact Hu; reflexivity)).
    unfold load in H at 2 4. rewrite Et, Ee, Ef, upd_same in H. lia.
  Qed.

  Lemma smaller_todo s s' t p :
    t < next s -> todo s' = upd (todo s) t p -> ended s' = ended s -> flag s' = flag s ->
    next s' = next s -> lighter p (todo s t) -> smaller s' s.
  Proof.
    intros Lt Et Ee Ef En L. unfold smaller, lighter, lexi in *.
    pose proof (total_todo s s' t p 4 Lt Et Ee Ef En).
    pose proof (total_todo s s' t p 3 Lt Et Ee Ef En).
    pose proof (total_todo s s' t p 2 Lt Et Ee Ef En).
    pose proof (total_todo s s' t p 1 Lt Et Ee Ef En).
    pose proof (total_todo s s' t p 0 Lt Et Ee Ef En).
    lia.
  Qed.

  Lemma call_weights c i : 2 < i -> weights i (ops_of c) = 0.
  Proof. intros Hi. destruct i as [|[|[|i]]]; [lia|lia|lia|]. destruct c; reflexivity. Qed.

  Lemma polite_weights U p i : polite tn td th U p -> 2 < i -> weights i p = 0.
  Proof.
    intros N Hi. induction N as [|h U p Ne HU Hp IH|h U p Hp IH|c U p Ne Ok HU Hp IH]; [reflexivity| | |].
    - destruct i; [lia|exact IH].
    - destruct i; [lia|exact IH].
    - rewrite weights_app, IH, call_weights by exact Hi. reflexivity.
  Qed.

  Lemma user_weights h b i :
    code h b -> 2 < i -> weights i (Acq (Usr h) :: b ++ [Rel (Usr h)]) = 0.
  Proof.
    intros C Hi. change (weights i ([Acq (Usr h)] ++ (b ++ [Rel (Usr h)])) = 0).
    rewrite weights_app. rewrite (polite_weights _ _ i (Mo h b C) Hi).
    destruct i; [lia|reflexivity].
  Qed.

  Lemma handling_weights hs k ps i : handling code hs k ps -> 2 < i -> weights i (concat ps) = 0.
  Proof.
    unfold handling. generalize (flat_map (fun h => repeat h k) hs) as l.
    intros l F Hi. induction F as [|h p l ps A F IH]; cbn; [reflexivity|].
    rewrite weights_app, IH. destruct A as [n|h b C].
    - destruct i; [lia|reflexivity].
    - rewrite (user_weights h b i C Hi). reflexivity.
  Qed.

  Lemma notifying_weights os ps : Forall2 (notified code) os ps -> weights 4 (concat ps) = 0.
  Proof.
    intros F. induction F as [|o p os ps A F IH]; cbn; [reflexivity|].
    rewrite weights_app, IH. destruct A as [w n|w c|w|h b C]; try reflexivity.
    rewrite (user_weights h b 4 C ltac:(lia)). reflexivity.
  Qed.

  Lemma registering_weights os ts i : 0 < i -> weights i (registering os ts) = 0.
  Proof.
    intros Hi. destruct i as [|i]; [lia|]. unfold registering.
    induction os as [|o os IH]; cbn; [reflexivity|]. rewrite weights_app, IH.
    clear IH. induction ts as [|t ts IH]; cbn; [reflexivity|exact IH].
  Qed.

  Lemma stopping_weights n ts i : 0 < i -> weights i (stopping n ts) = 0.
  Proof.
    intros Hi. destruct i as [|i]; [lia|]. unfold stopping. rewrite weights_app. cbn.
    induction ts as [|t ts IH]; cbn; [reflexivity|exact IH].
  Qed.

  Lemma spawning_weights n k i : 1 < i -> weights i (repeat (Spawn n) k) = 0.
  Proof.
    intros Hi. destruct i as [|[|i]]; [lia|lia|]. induction k as [|k IH]; cbn; [reflexivity|exact IH].
  Qed.

  Lemma smaller_flag s u : u < next s -> flag s u = false -> smaller (with_flag s u) s.
  Proof.
    intros Lu Hf.
    assert (E : forall i, 0 < i -> total (with_flag s u) i = total s i).
    { intros i Hi. destruct i; [lia|reflexivity]. }
    do 4 (right; split; [apply E; lia|]).
    unfold total. change (next (with_flag s u)) with (next s).
    pose proof (sum_to_one (next s) (load (with_flag s u) 0) (load s 0) u Lu) as H.
    specialize (H ltac:(intros v _ Hv; unfold load; cbn; rewrite upd_other by exact Hv; reflexivity)).
    unfold load in H at 2 4. cbn in H. rewrite upd_same, Hf in H. lia.
  Qed.

  Lemma smaller_end s t :
    t < next s -> ended s t = false -> smaller (with_ended s t) s.
  Proof.
    intros Lu Hf.
    assert (E : forall i, 0 < i -> total (with_ended s t) i = total s i).
    { intros i Hi. destruct i; [lia|reflexivity]. }
    do 4 (right; split; [apply E; lia|]).
    unfold total. change (next (with_ended s t)) with (next s).
    pose proof (sum_to_one (next s) (load (with_ended s t) 0) (load s 0) t Lu) as H.
    specialize (H ltac:(intros v _ Hv; unfold load; cbn; rewrite upd_other by exact Hv; reflexivity)).
    unfold load in H at 2 4. cbn in H. rewrite upd_same, Hf in H. lia.
  Qed.

  Lemma smaller_spawn s t n p :
    t < next s -> todo s t = Spawn n :: p -> smaller (with_todo (spawned s n) t p) s.
  Proof.
    intros Lt Nt.
    assert (E : forall i, 0 < i -> total (with_todo (spawned s n) t p) i + weight i (Spawn n) = total s i).
    { intros i Hi. unfold total. cbn [next with_todo spawned sum_to].
      assert (L0 : load (with_todo (spawned s n) t p) i (next s) = 0).
      { unfold load. cbn [todo with_todo spawned ended flag].
        rewrite upd_other by lia. rewrite !upd_same. destruct i; [lia|reflexivity]. }
      rewrite L0.
      pose proof (sum_to_one (next s) (load (with_todo (spawned s n) t p) i) (load s i) t Lt) as H.
      specialize (H ltac:(intros v Lv Hv; unfold load; cbn [todo with_todo spawned ended flag];
        rewrite !upd_other by lia; reflexivity)).
      unfold load in H at 2 4. cbn [todo with_todo spawned ended flag] in H.
      rewrite upd_same, Nt in H. destruct i as [|i]; [lia|]. cbn [weights Nat.eqb] in H.
      lia. }
    pose proof (E 4 ltac:(lia)) as E4. pose proof (E 3 ltac:(lia)) as E3. pose proof (E 2 ltac:(lia)) as E2.
    pose proof (E 1 ltac:(lia)) as E1. cbn [weight Nat.eqb] in *. unfold smaller, lexi. lia.
  Qed.

  Ltac light Nt :=
    eapply smaller_todo; [eassumption|reflexivity|reflexivity|reflexivity|reflexivity|];
    rewrite Nt; unfold lighter, lexi; rewrite ?weights_app; cbn [weights];
    rewrite ?weight_try; cbn [weight Nat.eqb].

  Lemma runs_smaller t s s' : inv s -> runs code t s s' -> smaller s' s.
  Proof.
    intros I R.
    assert (Kn : todo s t <> [] -> t < next s) by (apply busy_known; exact I).
    destruct R as
      [l p Nt Ho|l p Nt Ho|l ys p Nt Ho|l ys p Nt Ho|n o p Nt|n h p Nt|n p Nt Hs|n k p Nt Hs Hk
      |n k p Nt Hs|n p Nt|n p Nt|u o p Nt|n p Nt|u p Nt Hf|u p Nt Hf He|n p Nt|u ps p Nt Hn
      |n k ps p Nt Hh|Lt Er Ee Et Ef];
      try (assert (Lt : t < next s) by (apply Kn; rewrite Nt; discriminate)).
    - light Nt. lia.
    - light Nt. lia.
    - light Nt. lia.
    - light Nt. lia.
    - light Nt. lia.
    - light Nt. lia.
    - light Nt. lia.
    - light Nt. rewrite (spawning_weights n k 4), (spawning_weights n k 3), (spawning_weights n k 2) by lia. lia.
    - light Nt. rewrite (spawning_weights n k 4), (spawning_weights n k 3), (spawning_weights n k 2) by lia. lia.
    - apply (smaller_spawn s t n p); assumption.
    - light Nt. rewrite !registering_weights by lia. lia.
    - light Nt. lia.
    - light Nt. rewrite !stopping_weights by lia. lia.
    - apply smaller_flag; [|exact Hf].
      destruct (inv_ordered s I t) as (held & _ & _ & _ & Sf). rewrite Nt in Sf.
      inversion Sf as [| | | | | | | | | | |u' held' p' [A B] Hu Sf' | | |]; subst. exact A.
    - light Nt. lia.
    - light Nt. lia.
    - light Nt. rewrite (notifying_weights _ _ Hn). lia.
    - light Nt. rewrite !(handling_weights _ _ _ _ Hh) by lia. lia.
    - apply smaller_end; assumption.
  Qed.

  Definition quiet_step (s' s : process) : Prop := exists t, runs code t s s'.

  Lemma quiet_acc s : inv s -> Acc quiet_step s.
  Proof.
    remember (total s 4) as z eqn:Ez. revert s Ez.
    induction z as [z IHz] using lt_wf_ind. intros s Ez.
    remember (total s 3) as a eqn:Ea. revert s Ez Ea.
    induction a as [a IHa] using lt_wf_ind. intros s Ez Ea.
    remember (total s 2) as b eqn:Eb. revert s Ez Ea Eb.
    induction b as [b IHb] using lt_wf_ind. intros s Ez Ea Eb.
    remember (total s 1) as c eqn:Ec. revert s Ez Ea Eb Ec.
    induction c as [c IHc] using lt_wf_ind. intros s Ez Ea Eb Ec.
    remember (total s 0) as d eqn:Ed. revert s Ez Ea Eb Ec Ed.
    induction d as [d IHd] using lt_wf_ind. intros s Ez Ea Eb Ec Ed I.
    constructor. intros s' [t R]. pose proof (runs_inv t s s' I R) as I'.
    pose proof (runs_smaller t s s' I R) as [L|[E4 [L|[E3 [L|[E2 [L|[E1 L]]]]]]]].
    - exact (IHz (total s' 4) ltac:(lia) s' eq_refl I').
    - exact (IHa (total s' 3) ltac:(lia) s' ltac:(lia) eq_refl I').
    - exact (IHb (total s' 2) ltac:(lia) s' ltac:(lia) ltac:(lia) eq_refl I').
    - exact (IHc (total s' 1) ltac:(lia) s' ltac:(lia) ltac:(lia) ltac:(lia) eq_refl I').
    - exact (IHd (total s' 0) ltac:(lia) s' ltac:(lia) ltac:(lia) ltac:(lia) ltac:(lia) eq_refl I').
  Qed.

  (** ** Progress *)

  Lemma waits_busy s t u : waits s t u -> todo s t <> [].
  Proof. intros [(l & p & E & _)|(p & E & _)]; rewrite E; discriminate. Qed.

  Lemma run_or_wait s t :
    inv s -> (exists s', runs code t s s') \/ todo s t = [] \/ exists u, waits s t u.
  Proof.
    intros I. destruct (todo s t) as [|o p] eqn:E; [right; left; reflexivity|].
    destruct o.
    - destruct (owner s l) as [u|] eqn:Ho.
      + right; right. exists u. left. exists l, p. auto.
      + left. eexists. eapply run_acq; eassumption.
    - destruct (inv_ordered s I t) as (held & _ & _ & H & Sf). rewrite E in Sf.
      inversion Sf as [| |l' held' p' Sf' | | | | | | | | | | | |]; subst.
      left. eexists. eapply run_rel; [eassumption|].
      exact (proj2 (H (Mutex l)) (or_introl eq_refl)).
    - left. destruct (owner s l) as [u|] eqn:Ho.
      + eexists. eapply run_try_no; [eassumption|]. rewrite Ho. discriminate.
      + eexists. eapply run_try_yes; eassumption.
    - left. eexists. eapply run_add_observer; eassumption.
    - left. eexists. eapply run_add_handler; eassumption.
    - left. destruct (servers s n) as [|x l] eqn:Hs.
      + eexists. eapply (run_start_fails code t s n 0); eassumption.
      + eexists. eapply run_start_again; [eassumption|]. rewrite Hs. discriminate.
    - left. eexists. eapply run_spawn; eassumption.
    - left. eexists. eapply run_register; eassumption.
    - left. eexists. eapply run_push; eassumption.
    - left. eexists. eapply run_stop; eassumption.
    - destruct (flag s t0) eqn:Hf.
      + destruct (ended s t0) eqn:He.
        * left. eexists. eapply run_join; eassumption.
        * right; right. exists t0. right. exists p. auto.
      + left. eexists. eapply run_signal; eassumption.
    - left. eexists. eapply run_clear; eassumption.
    - left. destruct (notified_all (registered s t0)) as (ps & F).
      eexists. eapply run_notify; eassumption.
    - left. eexists. eapply (run_handle code t s n 0 []); [eassumption|].
      unfold handling. induction (handlers s n) as [|h hs IH]; [constructor|exact IH].
  Qed.

  (** A receive thread which waits for nothing but its flag. *)
  Definition leaving (s : process) (t : nat) : bool :=
    receive s t && negb (ended s t) && flag s t
    && match todo s t with [] => true | _ => false end.

  Lemma progress s : inv s -> (exists t s', runs code t s s') \/ forall t, todo s t = [].
  Proof.
    intros I.
    assert (Search : forall k, (exists t s', runs code t s s')
      \/ forall t, t < k -> t < next s ->
                   (todo s t = [] /\ leaving s t = false) \/ exists u, waits s t u).
    { induction k as [|k [IH|IH]]; [right; lia|left; exact IH|].
      destruct (le_lt_dec (next s) k) as [Lk|Lk].
      { right. intros t Ht Hn. apply IH; lia. }
      destruct (run_or_wait s k I) as [(s' & R)|[E|W]].
      - left. exists k, s'. exact R.
      - destruct (leaving s k) eqn:Le.
        + left. unfold leaving in Le. rewrite !andb_true_iff in Le.
          destruct Le as [[[A B] C] _]. apply negb_true_iff in B.
          exists k. eexists. eapply run_exit; eassumption.
        + right. intros t Ht Hn. destruct (Nat.eq_dec t k) as [->|Hne]; [left; auto|].
          apply IH; lia.
      - right. intros t Ht Hn. destruct (Nat.eq_dec t k) as [->|Hne]; [right; exact W|].
        apply IH; lia. }
    destruct (Search (next s)) as [R|H]; [left; exact R|]. right.
    intro t. destruct (todo s t) as [|o p] eqn:E; [reflexivity|]. exfalso.
    apply (no_deadlock s (fun u => todo s u <> []) I). split.
    - exists t. rewrite E. discriminate.
    - intros u Hu. pose proof (busy_known s u I Hu) as Lu. split; [exact Lu|].
      destruct (H u Lu Lu) as [[E' _]|(v & W)]; [contradiction|].
      exists v. split; [|exact W]. intro Ev.
      destruct (waits_wanted s u v I W) as (r & Wr & Hr).
      destruct (inv_ordered s I v) as (held & _ & _ & Hh & Sf).
      assert (Lv : v < next s).
      { destruct r as [l|x]; [|cbn in Hr; tauto].
        destruct (le_lt_dec (next s) v) as [L|L]; [|exact L].
        destruct (inv_fresh s I v L) as (_ & _ & F). contradiction (F l Hr). }
      rewrite Ev in Sf. inversion Sf; subst. apply Hh in Hr. unfold base in Hr.
      destruct (receive s v) eqn:Er; cbn in Hr; [|contradiction].
      destruct (ended s v) eqn:Ee; cbn in Hr; [contradiction|].
      destruct Hr as [<-|Hr]; [|contradiction].
      destruct W as [(l & q & W & _)|(q & W & Hf & _)].
      + unfold wanted in Wr. rewrite W in Wr. discriminate Wr.
      + destruct (H v Lv Lv) as [[_ Le]|(w & W')].
        * unfold leaving in Le. rewrite Er, Ee, Hf, Ev in Le. discriminate Le.
        * exact (waits_busy s v w W' Ev).
  Qed.

  Lemma completes s :
    inv s -> exists s', steps code s s' /\ forall t, todo s' t = [].
  Proof.
    intros I. pose proof (quiet_acc s I) as A. revert I.
    induction A as [s _ IH]. intros I.
    destruct (progress s I) as [(t & s1 & R)|H].
    - destruct (IH s1 (ex_intro _ t R) (runs_inv t s s1 I R)) as (s2 & St & H).
      exists s2. split; [|exact H]. eapply steps_run; eassumption.
    - exists s. split; [constructor|exact H].
  Qed.

  Lemma no_endless s : inv s ->
    ~ exists f : nat -> process, f 0 = s /\ forall k, exists t, runs code t (f k) (f (S k)).
  Proof.
    intros I. pose proof (quiet_acc s I) as A. clear I.
    induction A as [s _ IH]. intros (f & E & H).
    destruct (H 0) as (t & R). rewrite E in R.
    apply (IH (f 1)); [exists t; exact R|].
    exists (fun k => f (S k)). split; [reflexivity|]. intro k. apply H.
  Qed.

  (** ** The receive threads of a node which is stopped *)

  Fixpoint plain_op (o : op) : Prop :=
    match o with
    | Try _ ys =>
        (fix all (l : list op) := match l with [] => True | x :: l => plain_op x /\ all l end) ys
    | StopServer _ | Clear _ => False
    | _ => True
    end.

  Definition plain (p : list op) : Prop := Forall plain_op p.

  Lemma plain_try l ys : plain_op (Try l ys) <-> plain ys.
  Proof.
    cbn [plain_op]. induction ys as [|y ys IH].
    - split; intros _; [constructor|exact Logic.I].
    - rewrite IH. split.
      + intros [A B]. constructor; assumption.
      + intros H. inversion H; subst. split; assumption.
  Qed.

  Lemma plain_app p q : plain p -> plain q -> plain (p ++ q).
  Proof. intros. apply Forall_app. split; assumption. Qed.

  Lemma call_plain c : plain (ops_of c).
  Proof. destruct c; repeat constructor. Qed.

  Lemma polite_plain U p : polite tn td th U p -> plain p.
  Proof.
    induction 1 as [|h U p Ne HU Hp IH|h U p Hp IH|c U p Ne Ok HU Hp IH]; [constructor| | |].
    - constructor; [exact Logic.I|exact IH].
    - constructor; [exact Logic.I|exact IH].
    - apply plain_app; [apply call_plain|exact IH].
  Qed.

  Lemma user_plain h b : code h b -> plain (Acq (Usr h) :: b ++ [Rel (Usr h)]).
  Proof. intros C. constructor; [exact Logic.I|]. exact (polite_plain _ _ (Mo h b C)). Qed.

  Lemma concat_plain {A} (P : A -> list op -> Prop) l ps :
    (forall x p, P x p -> plain p) -> Forall2 P l ps -> plain (concat ps).
  Proof.
    intros H F. induction F as [|x p l ps Hx F IH]; cbn; [constructor|].
    apply plain_app; [exact (H x p Hx)|exact IH].
  Qed.

  Lemma asked_plain h p : asked code h p -> plain p.
  Proof. intros [n|h' b C]; [repeat constructor|exact (user_plain h' b C)]. Qed.

  Lemma notified_plain o p : notified code o p -> plain p.
  Proof.
    intros [w n|w c|w|h b C]; [repeat constructor|repeat constructor|repeat constructor|].
    exact (user_plain h b C).
  Qed.

  Lemma registering_plain os ts : plain (registering os ts).
  Proof.
    unfold registering. induction os as [|o os IH]; cbn; [constructor|].
    apply plain_app; [|exact IH]. clear IH.
    induction ts as [|t ts IH]; cbn; [constructor|]. repeat (constructor; [exact Logic.I|]). exact IH.
  Qed.

  Lemma spawning_plain n k : plain (repeat (Spawn n) k).
  Proof. induction k; cbn; constructor; [exact Logic.I|assumption]. Qed.

  Lemma tiered_plain A U p : tiered tn td th A U p -> plain p.
  Proof.
    induction 1; [constructor|apply plain_app; [apply call_plain|assumption]|..];
      (constructor; [exact Logic.I|assumption]).
  Qed.

  (** The shape of a thread which stops servers: those of the node which have
      not ended are still to be joined. *)
  Definition shape (s : process) (p : list op) : Prop :=
    plain p
    \/ exists ts n q, p = map StopServer ts ++ Clear n :: q /\ plain q
         /\ forall u, In u (servers s n) -> ended s u = true \/ In u ts.

  Record tidy (s : process) : Prop := {
    td_inv : inv s;
    td_shape : forall t, shape s (todo s t);
    td_home : forall u, u < next s -> receive s u = true -> ended s u = false ->
                        In u (servers s (home s u))
  }.

  Lemma shape_plain s o p : shape s (o :: p) -> plain_op o -> plain p.
  Proof.
    intros [H|(ts & n & q & E & Hq & _)] Ho; [inversion H; assumption|].
    destruct ts as [|u ts]; cbn in E; injection E as -> ->; contradiction.
  Qed.

  (** The thread which is about to clear the list holds the node. *)
  Lemma clear_owner s t ts n q :
    inv s -> todo s t = map StopServer ts ++ Clear n :: q -> owner s (Node n) = Some t.
  Proof.
    intros I E. destruct (inv_ordered s I t) as (held & _ & _ & H & Sf). rewrite E in Sf.
    apply (H (Mutex (Node n))). clear -Sf. induction ts as [|u ts IH]; cbn in Sf; inversion Sf; subst; auto.
  Qed.

  Lemma spawn_owner s t n p : inv s -> todo s t = Spawn n :: p -> owner s (Node n) = Some t.
  Proof.
    intros I E. destruct (inv_ordered s I t) as (held & _ & _ & H & Sf). rewrite E in Sf.
    apply (H (Mutex (Node n))). inversion Sf; subst; assumption.
  Qed.

  (** Nothing changes in the lists of servers, and threads only end. *)
  Lemma shape_same s s' p :
    servers s' = servers s -> (forall u, ended s u = true -> ended s' u = true) ->
    shape s p -> shape s' p.
  Proof.
    intros Es Ee [H|(ts & n & q & E & Hq & Hu)]; [left; exact H|].
    right. exists ts, n, q. split; [exact E|]. split; [exact Hq|].
    intros u Hin. rewrite Es in Hin. destruct (Hu u Hin) as [A|A]; auto.
  Qed.

  Lemma tidy_todo s s' t p :
    tidy s -> inv s' ->
    servers s' = servers s -> receive s' = receive s -> ended s' = ended s -> next s' = next s ->
    home s' = home s -> todo s' = upd (todo s) t p -> shape s p -> tidy s'.
  Proof.
    intros T I Es Er Ee En Eh Et Hp. constructor.
    - exact I.
    - intro u. apply (shape_same s); [exact Es|rewrite Ee; auto|].
      rewrite Et. destruct (Nat.eq_dec u t) as [->|Hne].
      + rewrite upd_same. exact Hp.
      + rewrite upd_other by exact Hne. apply td_shape. exact T.
    - intros u. rewrite En, Er, Ee, Eh, Es. apply (td_home s T).
  Qed.

  Lemma runs_tidy t s s' : tidy s -> runs code t s s' -> tidy s'.
  Proof.
    intros T R. pose proof (td_inv s T) as I0. pose proof (runs_inv t s s' I0 R) as I'.
    pose proof (td_shape s T t) as Sh.
    assert (Kn : todo s t <> [] -> t < next s) by (apply busy_known; exact I0).
    destruct R as
      [l p Nt Ho|l p Nt Ho|l ys p Nt Ho|l ys p Nt Ho|n o p Nt|n h p Nt|n p Nt Hs|n k p Nt Hs Hk
      |n k p Nt Hs|n p Nt|n p Nt|u o p Nt|n p Nt|u p Nt Hf|u p Nt Hf He|n p Nt|u ps p Nt Hn
      |n k ps p Nt Hh|Lt Er Ee Et Ef];
      try rewrite Nt in Sh;
      try (pose proof (shape_plain s _ _ Sh Logic.I) as Pl);
      try (eapply tidy_todo; [exact T|exact I'|reflexivity|reflexivity|reflexivity|reflexivity
                             |reflexivity|reflexivity|try (left; exact Pl)]).
    - left. destruct Sh as [Sh|(ts & n & q & E & _)].
      + inversion Sh as [|x y Hx Hy]; subst. apply plain_app; [|exact Hy].
        apply (plain_try l ys). exact Hx.
      + destruct ts; discriminate E.
    - left. destruct Sh as [Sh|(ts & n & q & E & _)].
      + inversion Sh; assumption.
      + destruct ts; discriminate E.
    - left. constructor; [exact Logic.I|exact Pl].
    - left. apply plain_app; [apply spawning_plain|]. constructor; [exact Logic.I|exact Pl].
    - left. apply plain_app; [apply spawning_plain|]. constructor; [exact Logic.I|exact Pl].
    - (* spawn *)
      assert (Lt : t < next s) by (apply Kn; rewrite Nt; discriminate).
      pose proof (spawn_owner s t n p I0 Nt) as Ow.
      constructor; [exact I'| |].
      + intro v. cbn [todo with_todo spawned]. destruct (Nat.eq_dec v t) as [->|Hvt].
        * rewrite upd_same. left. exact Pl.
        * rewrite upd_other by exact Hvt. destruct (Nat.eq_dec v (next s)) as [->|Hvn].
          { rewrite upd_same. left. constructor. }
          rewrite upd_other by exact Hvn.
          destruct (td_shape s T v) as [Hv|(ts & m & q & E & Hq & Hu)]; [left; exact Hv|].
          right. exists ts, m, q. split; [exact E|]. split; [exact Hq|].
          assert (Hmn : m <> n).
          { intros ->. pose proof (clear_owner s v ts n q I0 E). congruence. }
          cbn [servers ended with_todo spawned]. rewrite upd_other by exact Hmn.
          intros u Hin. destruct (Hu u Hin) as [A|A]; [left|right; exact A].
          pose proof (ls_servers s (inv_lists s I0) m) as F. rewrite Forall_forall in F.
          destruct (F u Hin) as [[Lu _] _]. rewrite upd_other by lia. exact A.
      + cbn [next receive ended servers home with_todo spawned]. intros v Lv.
        destruct (Nat.eq_dec v (next s)) as [->|Hvn].
        * intros _ _. rewrite !upd_same. apply in_or_app. right. left. reflexivity.
        * rewrite !(upd_other _ (next s)) by exact Hvn. intros Rv Ev.
          pose proof (td_home s T v ltac:(lia) Rv Ev) as Hin.
          unfold upd. destruct (Nat.eqb (home s v) n) eqn:E; [|exact Hin].
          apply Nat.eqb_eq in E. rewrite E in Hin. apply in_or_app. left. exact Hin.
    - left. apply plain_app; [apply registering_plain|exact Pl].
    - (* stop *)
      right. exists (servers s n), n, p. split; [|split].
      + unfold stopping. rewrite <- app_assoc. reflexivity.
      + exact Pl.
      + intros u Hu. right. exact Hu.
    - (* signal *)
      constructor; [exact I'| |exact (td_home s T)].
      intro v. exact (shape_same s (with_flag s u) (todo s v) eq_refl (fun _ H => H) (td_shape s T v)).
    - (* join *)
      destruct Sh as [Sh|(ts & n & q & E & Hq & Hu)].
      { inversion Sh as [|x y Hx Hy]; subst. contradiction. }
      destruct ts as [|x ts]; cbn in E; [discriminate E|]. injection E as -> ->.
      right. exists ts, n, q. split; [reflexivity|]. split; [exact Hq|].
      intros v Hv. destruct (Hu v Hv) as [A|[<-|A]]; [left; exact A|left; exact He|right; exact A].
    - (* clear *)
      destruct Sh as [Sh|(ts & m & q & E & Hq & Hu)].
      { inversion Sh as [|x y Hx Hy]; subst. contradiction. }
      destruct ts as [|x ts]; cbn in E; [|discriminate E]. injection E as -> ->.
      pose proof (clear_owner s t [] m q I0 Nt) as Ow.
      constructor; [exact I'| |].
      + intro v. cbn [todo with_todo with_servers]. destruct (Nat.eq_dec v t) as [->|Hvt].
        { rewrite upd_same. left. exact Hq. }
        rewrite upd_other by exact Hvt.
        destruct (td_shape s T v) as [Hv|(ts & k & r & E & Hr & Hk)]; [left; exact Hv|].
        right. exists ts, k, r. split; [exact E|]. split; [exact Hr|].
        cbn [servers ended with_todo with_servers]. unfold upd.
        destruct (Nat.eqb k m); [contradiction|]. exact Hk.
      + cbn [next receive ended servers home with_todo with_servers]. intros v Lv Rv Ev.
        pose proof (td_home s T v Lv Rv Ev) as Hin. unfold upd.
        destruct (Nat.eqb (home s v) m) eqn:Em; [|exact Hin].
        apply Nat.eqb_eq in Em. rewrite Em in Hin.
        destruct (Hu v Hin) as [A|A]; [congruence|contradiction].
    - left. apply plain_app; [|exact Pl]. exact (concat_plain _ _ _ notified_plain Hn).
    - left. apply plain_app; [|exact Pl]. exact (concat_plain _ _ _ asked_plain Hh).
    - (* exit *)
      constructor; [exact I'| |].
      + intro v. apply (shape_same s); [reflexivity| |exact (td_shape s T v)].
        intros x Hx. cbn. unfold upd. destruct (Nat.eqb x t); [reflexivity|exact Hx].
      + cbn. intros v Lv Rv Ev. apply (td_home s T v Lv Rv).
        unfold upd in Ev. destruct (Nat.eqb v t); [discriminate Ev|exact Ev].
  Qed.

  Lemma network_tidy t s s' : tidy s -> network t s s' -> tidy s'.
  Proof.
    intros T R. pose proof (network_inv t s s' (td_inv s T) R) as I'.
    destruct R as [Lt Er Ee Et|Lt Er Ee Et].
    - eapply tidy_todo; [exact T|exact I'|reflexivity|reflexivity|reflexivity|reflexivity
                        |reflexivity|reflexivity|].
      left. repeat constructor.
    - constructor; [exact I'| |].
      + intro v. apply (shape_same s); [reflexivity| |exact (td_shape s T v)].
        intros x Hx. cbn. unfold upd. destruct (Nat.eqb x t); [reflexivity|exact Hx].
      + cbn. intros v Lv Rv Ev. apply (td_home s T v Lv Rv).
        unfold upd in Ev. destruct (Nat.eqb v t); [discriminate Ev|exact Ev].
  Qed.

  Lemma steps_tidy s s' : tidy s -> steps code s s' -> tidy s'.
  Proof.
    intros T H. induction H as [s|t s s1 s2 R H IH|t s s1 s2 R H IH]; [exact T| |].
    - apply IH. exact (runs_tidy t s s1 T R).
    - apply IH. exact (network_tidy t s s1 T R).
  Qed.

  Lemma boot_tidy ps : Forall (tiered tn td th [] []) ps -> tidy (boot ps).
  Proof.
    intros F. constructor.
    - exact (boot_inv ps F).
    - intro t. left. cbn. destruct (nth_in_or_default t ps []) as [Hin| ->]; [|constructor].
      rewrite Forall_forall in F. exact (tiered_plain _ _ _ (F _ Hin)).
    - cbn. discriminate.
  Qed.
End Code.
End Tiers.
