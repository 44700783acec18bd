(** The shared device: what is read was written, and what was written is read. *)
From Verif Require Import Base HMap ModelCodec ModelMessages ModelObject ModelTransport ModelNode ModelController ModelDevice ModelThreads
  SpecWire SpecObject SpecNode ProofsCodec ProofsCodec2 ProofsNode SpecShared ProofsShared.

Section S.
  Context {U : Type} (n : nat) (oc : N).
  Implicit Types (d : shared U).

  Definition not_of (t : nat) (e : event U) : Prop := who e <> t.
  (** The last event of a thread. *)
  Definition last_event (t : nat) (e : event U) (h : list (event U)) : Prop := who e = t /\ exists h1 h2, h = h1 ++ e :: h2 /\ Forall (not_of t) h2.
  Definition told_past (t : nat) (x : activity U) (h : list (event U)) : Prop :=
    match x with Free => True | Calls c | Returns c _ => last_event t (ECall t c) h | Has m => last_event t (EGot t m) h end.
  Lemma last_now t e h : who e = t -> last_event t e (h ++ [e]).
  Proof. intros W. split; [exact W|]. exists h, []. split; [reflexivity|constructor]. Qed.
  Lemma last_later t e h e' : last_event t e h -> who e' <> t -> last_event t e (h ++ [e']).
  Proof.
    intros (W & h1 & h2 & -> & F) X. split; [exact W|]. exists h1, (h2 ++ [e']). split; [rewrite <- app_assoc; reflexivity|]. apply Forall_app. split; [exact F|]. repeat constructor. exact X.
  Qed.
  Lemma told_later t x h e' : told_past t x h -> who e' <> t -> told_past t x (h ++ [e']).
  Proof. destruct x; cbn; auto using last_later. Qed.
  Lemma last_unique t (h1 h2 k1 k2 : list (event U)) e e' : h1 ++ e :: h2 = k1 ++ e' :: k2 -> who e = t -> who e' = t -> Forall (not_of t) h2 -> Forall (not_of t) k2 ->
    h1 = k1 /\ e = e' /\ h2 = k2.
  Proof.
    revert k1. induction h1 as [|y h1 IH]; intros [|z k1] E W W' F F'; cbn in E.
    - inversion E; subst. auto.
    - inversion E; subst. exfalso. apply Forall_app in F as [_ F]. inversion F as [|? ? X _]; subst. exact (X W').
    - inversion E; subst. exfalso. apply Forall_app in F' as [_ F']. inversion F' as [|? ? X _]; subst. exact (X eq_refl).
    - inversion E; subst. destruct (IH _ H1 eq_refl W' F F') as (-> & -> & ->). auto.
  Qed.

  Lemma doing_past d0 d : (forall t, doing d0 t = Free) -> ssteps n oc d0 d -> forall t, told_past t (doing d t) (past d).
  Proof.
    intros D0 St. induction St as [d|d d1 d2 St IH S1]; intros t; [rewrite D0; exact Logic.I|]. specialize (IH D0).
    destruct S1 as [t1 c X|t1 c h v l X D|t1 c v X|t1 m X|t1 m h l X R]; cbn [doing past]; try (unfold now; destruct (Nat.eqb_spec t t1) as [->|Ne]).
    - apply last_now. reflexivity.
    - apply told_later; [apply IH|cbn; auto].
    - specialize (IH t1). rewrite X in IH. exact IH.
    - apply IH.
    - exact Logic.I.
    - apply told_later; [apply IH|cbn; auto].
    - apply last_now. reflexivity.
    - apply told_later; [apply IH|cbn; auto].
    - apply IH.
    - apply IH.
  Qed.
  Lemma past_grows d d' : ssteps n oc d d' -> exists l, past d' = past d ++ l.
  Proof.
    intros St. induction St as [d|d d1 d2 St (l & IH) S1]; [exists []; rewrite app_nil_r; reflexivity|].
    destruct S1; cbn [past]; rewrite ?IH; try (exists l; reflexivity); eexists; rewrite <- app_assoc; reflexivity.
  Qed.
  Lemma steps_more d d' d'' : ssteps n oc d d' -> ssteps n oc d' d'' -> ssteps n oc d d''.
  Proof. intros A B. induction B as [b|b b1 b2 B IH S1]; [exact A|]. exact (ss_step n oc _ _ _ (IH A) S1). Qed.

  (** ** What is not written stays *)
  Lemma write1_other c c' y (s : values) x : c' <> c -> s c = Some x -> write1 c' y s c = Some x.
  Proof. intros Ne E. unfold write1. replace (c =? c') with false by lia. exact E. Qed.
  Lemma does_keeps c x t h (cl : call U) h' v l : does n oc h cl h' v l -> ~ changes n oc c (ECall t cl) -> value h c = Some x -> value h' c = Some x.
  Proof.
    intros D Nc E. destruct D; cbn [changes] in Nc; try exact E; destruct h as [s|]; cbn [value option_map] in *; try discriminate; try exact E.
    - apply write1_other; [|exact E]. intros ->. apply Nc. auto.
    - apply write1_other; [intros X; apply Nc; auto|]. apply write1_other; [intros X; apply Nc; auto|exact E].
    - apply write1_other; [|exact E]. intros X. apply Nc. auto.
  Qed.
  Lemma reacts_keeps c x t h m h' l : reacts oc h m h' l -> ~ changes n oc c (EGot (U := U) t m) -> value h c = Some x -> value h' c = Some x.
  Proof.
    intros R Nc E. destruct R as [|  | |s l Ed -> _ _]; try exact E. cbn [value] in *. rewrite writes_find, E. f_equal.
    destruct (last_data c (writes_of m)) as [y|] eqn:L; [|reflexivity]. exfalso. apply Nc. cbn. split; [exact Ed|].
    apply last_data_in in L. apply (in_map pp_code) in L. exact L.
  Qed.

  (** ** Freshness *)
  Section Fresh.
    Context (t : nat) (dv : nat) (c : N) (x : list N) (h1 : list (event U)) (Se : settled n oc c h1) (Sc : stored c).
    Let setc : call U := CSetProperty dv n oc c x.
    Definition quiet (y : activity U) : Prop :=
      match y with Free => True | Calls cl | Returns cl _ => ~ changes n oc c (ECall t cl) | Has m => ~ changes n oc c (EGot (U := U) t m) end.
    Definition phase d (h : list (event U)) : Prop :=
      (doing d t = Calls setc /\ forall v, ~ In (EReturn t setc v) h) \/
      (exists v, doing d t = Returns setc v /\ (v = VBool true -> value (contents d) c = Some x) /\ forall v, ~ In (EReturn t setc v) h) \/
      (quiet (doing d t) /\ (In (EReturn t setc (VBool true)) h -> value (contents d) c = Some x)).
    Lemma quiet_at_end d0 d t1 : (forall t, doing d0 t = Free) -> ssteps n oc d0 d -> past d = h1 -> quiet (doing d t1).
    Proof.
      intros D0 St Ep. pose proof (doing_past d0 d D0 St t1) as K. destruct (doing d t1) as [|cl|cl v|m] eqn:E; cbn in *; auto; intros Ch;
        destruct K as (_ & a & b & Eh & F); rewrite Ep in Eh; (destruct (Se a _ b Eh Ch) as (e' & I & W)); cbn in W; rewrite Forall_forall in F; apply (F e' I); exact W.
    Qed.
    Lemma changes_who cl t1 t2 : changes n oc c (ECall (U := U) t1 cl) -> changes n oc c (ECall (U := U) t2 cl). Proof. auto. Qed.
    Lemma snoc_eq (p h : list (event U)) e : p ++ [e] = h1 ++ ECall t setc :: h -> (h = [] /\ p = h1 /\ e = ECall t setc) \/ exists h', h = h' ++ [e] /\ p = h1 ++ ECall t setc :: h'.
    Proof.
      destruct h as [|y r] using rev_ind; intros E.
      - left. change (h1 ++ [ECall t setc]) with (h1 ++ [ECall t setc]) in E. apply app_inj_tail in E as [-> ->]. auto.
      - clear IHr. right. exists r. rewrite app_comm_cons, app_assoc in E. apply app_inj_tail in E as [-> ->]. auto.
    Qed.
    Lemma fresh_inv d0 d : (forall t, doing d0 t = Free) -> past d0 = [] -> ssteps n oc d0 d -> forall h, past d = h1 ++ ECall t setc :: h -> Forall (fun e => ~ changes n oc c e) h ->
      (forall t1, t1 <> t -> quiet (doing d t1)) /\ phase d h.
    Proof.
      intros D0 H0 St. induction St as [d|d d1 d2 St IH S1]; intros h E F.
      { exfalso. rewrite H0 in E. destruct h1; discriminate. }
      specialize (IH D0 H0). destruct S1 as [t1 cl X|t1 cl hh v l X D|t1 cl v X|t1 m X|t1 m hh l X R]; cbn [doing past contents] in *.
      - apply snoc_eq in E as [(-> & E & Ee)|(h' & -> & E)].
        + inversion Ee; subst t1 cl. split; [intros t1 Ne; unfold now; destruct (Nat.eqb_spec t1 t); [contradiction|]; apply (quiet_at_end _ _ _ D0 St E)|].
          left. cbn [doing]. split; [unfold now; rewrite Nat.eqb_refl; reflexivity|intros v []].
        + apply Forall_app in F as [F Fe]. inversion Fe as [|? ? Nc _]; subst. destruct (IH h' E F) as [Q Ph]. split.
          * intros t2 Ne. unfold now. destruct (Nat.eqb_spec t2 t1); [exact Nc|apply Q, Ne].
          * unfold phase in *. cbn [doing contents]. unfold now. destruct (Nat.eqb_spec t t1) as [<-|Ne].
            -- right. right. split; [exact Nc|]. intros I. apply in_app_or in I as [I|[I|[]]]; [|discriminate I].
               destruct Ph as [[Y _]|[(v & Y & _)|[_ Y]]]; [congruence|congruence|exact (Y I)].
            -- destruct Ph as [[Y N]|[(v & Y & V & N)|[Y V]]].
               ++ left. split; [exact Y|]. intros v I. apply in_app_or in I as [I|[I|[]]]; [exact (N v I)|discriminate I].
               ++ right. left. exists v. split; [exact Y|]. split; [exact V|]. intros v' I. apply in_app_or in I as [I|[I|[]]]; [exact (N v' I)|discriminate I].
               ++ right. right. split; [exact Y|]. intros I. apply in_app_or in I as [I|[I|[]]]; [exact (V I)|discriminate I].
      - destruct (IH h E F) as [Q Ph]. split.
        + intros t2 Ne. unfold now. destruct (Nat.eqb_spec t2 t1) as [->|]; [|apply Q, Ne]. specialize (Q t1 Ne). rewrite X in Q. exact Q.
        + unfold phase in *. cbn [doing contents]. unfold now. destruct (Nat.eqb_spec t t1) as [<-|Ne].
          * destruct Ph as [[Y N]|[(v' & Y & V & N)|[Y V]]].
            -- right. left. exists v. rewrite X in Y. inversion Y; subst cl. split; [reflexivity|]. split; [|exact N]. intros ->.
               inversion D as [d' c' x' St'|d' c' St'|d' o Eo|o Eo|d' b l' Fl|d'|d' b|c' e v' l' Nc Sd Fl|c' v' Nc]; subst.
               ++ destruct (contents d1) as [s|]; cbn [value option_map] in *; [|discriminate]. unfold write1. rewrite N.eqb_refl. destruct (s c); [reflexivity|discriminate].
               ++ discriminate Sd.
               ++ exfalso. apply Nc. cbn. auto.
            -- congruence.
            -- right. right. rewrite X in Y. split; [exact Y|]. intros I. eapply does_keeps; [exact D|exact Y|exact (V I)].
          * assert (Nc : ~ changes n oc c (ECall t cl)) by (specialize (Q t1 (not_eq_sym Ne)); rewrite X in Q; exact Q).
            destruct Ph as [[Y N]|[(v' & Y & V & N)|[Y V]]].
            -- left. auto.
            -- right. left. exists v'. split; [exact Y|]. split; [|exact N]. intros Z. eapply does_keeps; [exact D|exact Nc|exact (V Z)].
            -- right. right. split; [exact Y|]. intros I. eapply does_keeps; [exact D|exact Nc|exact (V I)].
      - apply snoc_eq in E as [(-> & E & Ee)|(h' & -> & E)]; [discriminate Ee|]. apply Forall_app in F as [F Fe]. destruct (IH h' E F) as [Q Ph]. split.
        + intros t2 Ne. unfold now. destruct (Nat.eqb_spec t2 t1); [exact Logic.I|apply Q, Ne].
        + unfold phase in *. cbn [doing contents]. unfold now. destruct (Nat.eqb_spec t t1) as [<-|Ne].
          * right. right. split; [exact Logic.I|]. intros I. destruct Ph as [[Y N]|[(v' & Y & V & N)|[Y V]]].
            -- congruence.
            -- rewrite X in Y. inversion Y; subst cl v'. apply in_app_or in I as [I|[I|[]]]; [exfalso; exact (N _ I)|]. inversion I; subst. apply V. reflexivity.
            -- apply in_app_or in I as [I|[I|[]]]; [exact (V I)|]. inversion I; subst. rewrite X in Y. exfalso. apply Y. cbn. auto.
          * assert (Ni : forall v', In (EReturn t setc v') (h' ++ [EReturn t1 cl v]) -> In (EReturn t setc v') h').
            { intros v' I. apply in_app_or in I as [I|[I|[]]]; [exact I|]. inversion I; subst. contradiction. }
            destruct Ph as [[Y N]|[(v' & Y & V & N)|[Y V]]].
            -- left. split; [exact Y|]. intros v' I. exact (N v' (Ni v' I)).
            -- right. left. exists v'. split; [exact Y|]. split; [exact V|]. intros v2 I. exact (N v2 (Ni v2 I)).
            -- right. right. split; [exact Y|]. intros I. exact (V (Ni _ I)).
      - apply snoc_eq in E as [(-> & E & Ee)|(h' & -> & E)]; [discriminate Ee|]. apply Forall_app in F as [F Fe]. inversion Fe as [|? ? Nc _]; subst. destruct (IH h' E F) as [Q Ph]. split.
        + intros t2 Ne. unfold now. destruct (Nat.eqb_spec t2 t1); [exact Nc|apply Q, Ne].
        + assert (Ni : forall v', In (EReturn t setc v') (h' ++ [EGot t1 m]) -> In (EReturn t setc v') h').
          { intros v' I. apply in_app_or in I as [I|[I|[]]]; [exact I|discriminate I]. }
          unfold phase in *. cbn [doing contents]. unfold now. destruct (Nat.eqb_spec t t1) as [<-|Ne].
          * right. right. split; [exact Nc|]. intros I. destruct Ph as [[Y N]|[(v' & Y & V & N)|[Y V]]]; [destruct X as [X|[? X]]; congruence|destruct X as [X|[? X]]; congruence|exact (V (Ni _ I))].
          * destruct Ph as [[Y N]|[(v' & Y & V & N)|[Y V]]].
            -- left. split; [exact Y|]. intros v' I. exact (N v' (Ni v' I)).
            -- right. left. exists v'. split; [exact Y|]. split; [exact V|]. intros v2 I. exact (N v2 (Ni v2 I)).
            -- right. right. split; [exact Y|]. intros I. exact (V (Ni _ I)).
      - destruct (IH h E F) as [Q Ph]. split; [exact Q|].
        assert (Nc : doing d1 t = Has m \/ t1 <> t -> ~ changes n oc c (EGot (U := U) t m)).
        { intros _. destruct (Nat.eq_dec t1 t) as [->|Ne]; [|specialize (Q t1 Ne); rewrite X in Q; exact Q].
          destruct Ph as [[Y N]|[(v' & Y & V & N)|[Y V]]]; try congruence. rewrite X in Y. exact Y. }
        assert (Nc' : ~ changes n oc c (EGot (U := U) t m)) by (apply Nc; destruct (Nat.eq_dec t1 t) as [->|]; auto).
        unfold phase in *. cbn [doing contents].
        destruct Ph as [[Y N]|[(v' & Y & V & N)|[Y V]]].
        + left. auto.
        + right. left. exists v'. split; [exact Y|]. split; [|exact N]. intros Z. eapply reacts_keeps; [exact R|exact Nc'|exact (V Z)].
        + right. right. split; [exact Y|]. intros I. eapply reacts_keeps; [exact R|exact Nc'|exact (V I)].
    Qed.
  End Fresh.

  (** The value, once the write has returned. *)
  Lemma fresh_value d0 d t dv c x h1 h : (forall t, doing d0 t = Free) -> past d0 = [] -> ssteps n oc d0 d -> stored c -> settled n oc c h1 ->
    past d = h1 ++ ECall t (CSetProperty dv n oc c x) :: h -> Forall (fun e => ~ changes n oc c e) h -> In (EReturn t (CSetProperty dv n oc c x) (VBool true)) h ->
    value (contents d) c = Some x.
  Proof.
    intros D0 H0 St Sc Se E F I. destruct (fresh_inv t dv c x h1 Se Sc d0 d D0 H0 St h E F) as [_ [[_ N]|[(v & _ & _ & N)|[_ V]]]].
    - exfalso. exact (N _ I).
    - exfalso. exact (N _ I).
    - exact (V I).
  Qed.

  (** ** The moment of a read *)
  Definition moment d0 t dv c v (a : list (event U)) : Prop :=
    exists d1 l, ssteps n oc d0 d1 /\ doing d1 t = Calls (CProperty dv n oc c) /\ v = VData (value (contents d1) c) /\ a = past d1 ++ l /\ Forall (not_of t) l.
  Lemma moment_later d0 t dv c v a e : moment d0 t dv c v a -> who e <> t -> moment d0 t dv c v (a ++ [e]).
  Proof.
    intros (d1 & l & A & B & C & -> & F) X. exists d1, (l ++ [e]). rewrite <- app_assoc. repeat (split; [assumption|]). split; [reflexivity|]. apply Forall_app. split; [exact F|]. repeat constructor. exact X.
  Qed.
  Lemma read_moment d0 d : (forall t, doing d0 t = Free) -> past d0 = [] -> ssteps n oc d0 d -> forall t dv c v, stored c ->
    (doing d t = Returns (CProperty dv n oc c) v -> moment d0 t dv c v (past d)) /\
    (forall a b, past d = a ++ EReturn t (CProperty dv n oc c) v :: b -> moment d0 t dv c v a).
  Proof.
    intros D0 H0 St. induction St as [d|d d1 d2 St IH S1]; intros t dv c v Sc.
    { split; [rewrite D0; discriminate|]. intros a b E. rewrite H0 in E. destruct a; discriminate. }
    specialize (IH D0 H0 t dv c). destruct S1 as [t1 cl X|t1 cl hh w l X D|t1 cl w X|t1 m X|t1 m hh l X R]; cbn [doing past] in *.
    - split.
      + unfold now. destruct (Nat.eqb_spec t t1) as [->|Ne]; [discriminate|]. intros Y. apply moment_later; [apply IH; auto|cbn; auto].
      + intros a b E. destruct b as [|y b] using rev_ind; [apply app_inj_tail in E as [_ E]; discriminate|]. clear IHb.
        rewrite app_comm_cons, app_assoc in E. apply app_inj_tail in E as [E _]. destruct (IH v Sc) as [_ M]. exact (M a b E).
    - split; [|apply IH, Sc]. unfold now. destruct (Nat.eqb_spec t t1) as [->|Ne]; [|apply IH, Sc]. intros Y. inversion Y; subst cl w.
      exists d1, []. split; [exact St|]. split; [exact X|]. split; [|split; [rewrite app_nil_r; reflexivity|constructor]].
      inversion D as [d' c' x' St'|d' c' St'|d' o Eo|o Eo|d' b' l' Fl|d'|d' b'|c' e v' l' Nc Sd Fl|c' v' Nc]; subst; try reflexivity; [discriminate Sd|].
      exfalso. apply Nc. cbn. auto.
    - split.
      + unfold now. destruct (Nat.eqb_spec t t1) as [->|Ne]; [discriminate|]. intros Y. apply moment_later; [apply IH; auto|cbn; auto].
      + intros a b E. destruct b as [|y b] using rev_ind.
        * apply app_inj_tail in E as [E Ee]. inversion Ee; subst. apply IH; assumption.
        * clear IHb. rewrite app_comm_cons, app_assoc in E. apply app_inj_tail in E as [E _]. destruct (IH v Sc) as [_ M]. exact (M a b E).
    - split.
      + unfold now. destruct (Nat.eqb_spec t t1) as [->|Ne]; [discriminate|]. intros Y. apply moment_later; [apply IH; auto|cbn; auto].
      + intros a b E. destruct b as [|y b] using rev_ind; [apply app_inj_tail in E as [_ E]; discriminate|]. clear IHb.
        rewrite app_comm_cons, app_assoc in E. apply app_inj_tail in E as [E _]. destruct (IH v Sc) as [_ M]. exact (M a b E).
    - apply IH, Sc.
  Qed.

  (** A read that begins after the write has returned. *)
  Lemma fresh_read d0 d t dv c x t' dv' v h1 h2 h3 h4 h5 : (forall t, doing d0 t = Free) -> past d0 = [] -> ssteps n oc d0 d -> stored c -> settled n oc c h1 ->
    past d = h1 ++ ECall t (CSetProperty dv n oc c x) :: h2 ++ EReturn t (CSetProperty dv n oc c x) (VBool true) :: h3 ++
      ECall t' (CProperty dv' n oc c) :: h4 ++ EReturn t' (CProperty dv' n oc c) v :: h5 ->
    Forall (fun e => ~ changes n oc c e) (h2 ++ h3 ++ h4) -> Forall (fun e => who e <> t') h4 -> v = VData (Some x).
  Proof.
    intros D0 H0 St Sc Se E F Ft. apply Forall_app in F as [F2 F34]. apply Forall_app in F34 as [F3 F4].
    destruct (read_moment d0 d D0 H0 St t' dv' c v Sc) as [_ M].
    specialize (M (h1 ++ ECall t (CSetProperty dv n oc c x) :: h2 ++ EReturn t (CSetProperty dv n oc c x) (VBool true) :: h3 ++ ECall t' (CProperty dv' n oc c) :: h4) h5).
    destruct M as (d1 & l & S1 & Dn & -> & Ea & Fl).
    { rewrite E. repeat (rewrite <- ?app_assoc, <- ?app_comm_cons). reflexivity. }
    pose proof (doing_past d0 d1 D0 S1 t') as K. rewrite Dn in K. destruct K as (_ & p & q & Ep & Fq).
    assert (X : h1 ++ ECall t (CSetProperty dv n oc c x) :: h2 ++ EReturn t (CSetProperty dv n oc c x) (VBool true) :: h3 = p /\ h4 = q ++ l).
    { rewrite Ep, <- app_assoc, <- app_comm_cons in Ea.
      replace (h1 ++ ECall t (CSetProperty dv n oc c x) :: h2 ++ EReturn t (CSetProperty dv n oc c x) (VBool true) :: h3 ++ ECall t' (CProperty dv' n oc c) :: h4)
        with ((h1 ++ ECall t (CSetProperty dv n oc c x) :: h2 ++ EReturn t (CSetProperty dv n oc c x) (VBool true) :: h3) ++ ECall t' (CProperty dv' n oc c) :: h4) in Ea
        by (repeat (rewrite <- ?app_assoc, <- ?app_comm_cons); reflexivity).
      destruct (last_unique t' _ _ _ _ _ _ Ea eq_refl eq_refl) as (A & _ & B); [exact Ft| |auto]. apply Forall_app. auto. }
    destruct X as [<- ->]. f_equal. apply Forall_app in F4 as [F4 _].
    apply (fresh_value d0 d1 t dv c x h1 (h2 ++ EReturn t (CSetProperty dv n oc c x) (VBool true) :: h3 ++ ECall t' (CProperty dv' n oc c) :: q) D0 H0 S1 Sc Se).
    - rewrite Ep. repeat (rewrite <- ?app_assoc, <- ?app_comm_cons). reflexivity.
    - apply Forall_app. split; [exact F2|]. constructor; [intros []|]. apply Forall_app. split; [exact F3|]. constructor; [intros []|exact F4].
    - apply in_or_app. right. left. reflexivity.
  Qed.

  (** ** Where data come from *)
  Lemma in_past d0 d t e : (forall t, doing d0 t = Free) -> ssteps n oc d0 d -> match doing d t with Free => False | Calls c | Returns c _ => e = ECall t c | Has m => e = EGot t m end -> In e (past d).
  Proof.
    intros D0 St X. pose proof (doing_past d0 d D0 St t) as K. destruct (doing d t); cbn in K; try contradiction; subst e;
      destruct K as (_ & p & q & -> & _); apply in_or_app; right; left; reflexivity.
  Qed.
  Lemma write1_find c y (s : values) k z : write1 c y s k = Some z -> s k = Some z \/ (k = c /\ z = y).
  Proof. unfold write1. destruct (N.eqb_spec k c) as [->|]; [|auto]. destruct (s c); [|discriminate]. intros E. inversion E. auto. Qed.
  Lemma value_origin d0 d c y : (forall t, doing d0 t = Free) -> ssteps n oc d0 d -> value (contents d) c = Some y ->
    value (contents d0) c = Some y \/ exists e, In e (past d) /\ origin n oc c y e.
  Proof.
    intros D0 St. induction St as [d|d d1 d2 St IH S1]; [auto|]. specialize (IH D0).
    assert (Old : value (contents d1) c = Some y -> forall l, value (contents d) c = Some y \/ exists e, In e (past d1 ++ l) /\ origin n oc c y e).
    { intros V l. destruct (IH V) as [A|(e & I & A)]; [auto|]. right. exists e. split; [apply in_or_app; auto|exact A]. }
    destruct S1 as [t1 cl X|t1 cl hh w l X D|t1 cl w X|t1 m X|t1 m hh l X R]; cbn [contents past]; try (intros V; apply Old, V).
    - intros V. pose proof (in_past d d1 t1 (ECall t1 cl) D0 St) as Ip. rewrite X in Ip. specialize (Ip eq_refl).
      assert (New : origin n oc c y (ECall t1 cl) -> value (contents d) c = Some y \/ exists e, In e (past d1) /\ origin n oc c y e) by (intros O; right; eauto).
      inversion D as [d' c' x' St'|d' c' St'|d' o Eo|o Eo|d' b' l' Fl|d'|d' b'|c' e v' l' Nc Sd Fl|c' v' Nc]; subst; try (apply IH, V);
        destruct (contents d1) as [s|] eqn:Ec; cbn [value option_map] in V; try discriminate; try (apply IH, V).
      + apply write1_find in V as [V|[-> ->]]; [apply IH, V|]. apply New. cbn. auto.
      + apply New. cbn. auto.
      + apply New. cbn. auto.
      + apply write1_find in V as [V|[-> ->]]; [apply write1_find in V as [V|[-> ->]]; [apply IH, V|]|]; apply New; cbn; auto.
      + apply write1_find in V as [V|[-> ->]]; [apply IH, V|]. apply New. cbn. auto.
    - intros V. pose proof (in_past d d1 t1 (EGot t1 m) D0 St) as Ip. rewrite X in Ip. specialize (Ip eq_refl).
      destruct R as [| | |s l Ed Ec _ _]; try (apply IH, V). cbn [value] in V. rewrite writes_find in V. rewrite Ec in IH. cbn [value] in IH.
      destruct (s c) as [z|] eqn:Es; [|discriminate]. destruct (last_data c (writes_of m)) as [w|] eqn:L.
      + inversion V; subst w. right. exists (EGot t1 m). split; [exact Ip|]. cbn. split; [exact Ed|]. apply last_data_in, L.
      + inversion V; subst z. apply IH. reflexivity.
  Qed.

  (** ** Where datagrams come from *)
  Lemma wire_moment d0 d x : ssteps n oc d0 d -> In x (wires d) ->
    In x (wires d0) \/ exists d1 p, ssteps n oc d0 d1 /\ past d = past d1 ++ p /\
      ((exists t cl h v l, doing d1 t = Calls cl /\ does n oc (contents d1) cl h v l /\ In x l) \/
       (exists t m h l, doing d1 t = Has m /\ reacts oc (contents d1) m h l /\ In x l)).
  Proof.
    intros St. induction St as [d|d d1 d2 St IH S1]; [auto|].
    assert (Old : In x (wires d1) -> forall q, past d2 = past d1 ++ q -> In x (wires d) \/ exists d3 p, ssteps n oc d d3 /\ past d2 = past d3 ++ p /\
      ((exists t cl h v l, doing d3 t = Calls cl /\ does n oc (contents d3) cl h v l /\ In x l) \/
       (exists t m h l, doing d3 t = Has m /\ reacts oc (contents d3) m h l /\ In x l))).
    { intros I q Eq. destruct (IH I) as [A|(d3 & p & A & B & C)]; [auto|]. right. exists d3, (p ++ q). split; [exact A|]. split; [rewrite Eq, B, app_assoc; reflexivity|exact C]. }
    destruct S1 as [t1 cl X|t1 cl hh w l X D|t1 cl w X|t1 m X|t1 m hh l X R]; cbn [wires past] in *.
    - intros I. eapply Old; [exact I|reflexivity].
    - intros I. apply in_app_or in I as [I|I]; [apply (Old I []); rewrite app_nil_r; reflexivity|]. right. exists d1, []. split; [exact St|]. split; [rewrite app_nil_r; reflexivity|].
      left. exists t1, cl, hh, w, l. auto.
    - intros I. eapply Old; [exact I|reflexivity].
    - intros I. eapply Old; [exact I|reflexivity].
    - intros I. apply in_app_or in I as [I|I]; [apply (Old I []); rewrite app_nil_r; reflexivity|]. right. exists d1, []. split; [exact St|]. split; [rewrite app_nil_r; reflexivity|].
      right. exists t1, m, hh, l. auto.
  Qed.

  (** ** Answers after a write *)
  Lemma tid_sent r : tid_of (msg_bytes r) = msg_tid r.
  Proof. rewrite msg_bytes_eq, msg_tid_eq. unfold tid_of. destruct (m_ehd r), (m_tid r), (m_seoj r) as [[? ?] ?], (m_deoj r) as [[? ?] ?]. reflexivity. Qed.
  Lemma source_sent r : source_of (msg_bytes r) = msg_seoj r.
  Proof. rewrite msg_bytes_eq. unfold source_of, msg_seoj. destruct (m_ehd r), (m_tid r), (m_seoj r) as [[? ?] ?], (m_deoj r) as [[? ?] ?]. rewrite to_object_code_eq. reflexivity. Qed.
  (** A Get_Res was an answer to a request, and told what the device held at a
      moment after the request had been received. *)
  Lemma read_answer_from d00 d0 d y : (forall t, doing d00 t = Free) -> ssteps n oc d00 d0 -> ssteps n oc d0 d ->
    In y (wires d) -> ~ In y (wires d0) -> service_of (snd y) = 0x72 -> source_of (snd y) = oc ->
    (forall t' cl, In (ECall t' cl) (past d) -> sends n cl <> Some 0x72) ->
    exists d1 p t1 m r s, ssteps n oc d0 d1 /\ past d = past d1 ++ p /\ In (EGot t1 m) (past d1) /\ msg_deoj m = oc /\ m_esv m = 0x62 /\
      (msg_tid m = 0 \/ msg_tid m = tid_of (snd y)) /\ fst (msg_from m) = fst (fst y) /\
      snd y = msg_bytes r /\ m_esv r = 0x72 /\ contents d1 = Some s /\ Forall2 (tells s) (m_props m) (m_props r).
  Proof.
    intros D0 St0 St I N Sv So Nc.
    destruct (wire_moment d0 d y St I) as [X|(d1 & p & S1 & Ep & W)]; [contradiction|].
    destruct W as [(t1 & cl & h & v & l & Dc & Dl & Iy)|(t1 & m & h & l & Dm & R & Iy)].
    - exfalso. assert (Ic : In (ECall t1 cl) (past d1)) by (apply (in_past d00 d1 t1 _ D0 (steps_more _ _ _ St0 S1)); rewrite Dc; reflexivity).
      inversion Dl as [d' c' x' St'|d' c' St'|d' o Eo|o Eo|d' b' l' Fl|d'|d' b'|c' e v' l' Nc' Sd Fl|c' v' Nc']; subst; try destruct Iy.
      + rewrite Forall_forall in Fl. specialize (Fl y Iy). rewrite Sv in Fl. discriminate.
      + rewrite Forall_forall in Fl. specialize (Fl y Iy). rewrite Sv in Fl. subst e. apply (Nc t1 cl); [|exact Sd]. rewrite Ep. apply in_or_app. auto.
    - assert (Im : In (EGot t1 m) (past d1)) by (apply (in_past d00 d1 t1 _ D0 (steps_more _ _ _ St0 S1)); rewrite Dm; reflexivity).
      assert (Tm : forall e ps ss gs, says m e ps ss gs (snd y) -> msg_tid m = 0 \/ msg_tid m = tid_of (snd y)).
      { intros e ps ss gs (r & Ey & _ & _ & _ & _ & _ & _ & Q). rewrite Ey, tid_sent. destruct (N.eq_dec (msg_tid m) 0) as [|Z]; [auto|]. right. rewrite (Q Z). reflexivity. }
      assert (Sm : forall e ps ss gs, says m e ps ss gs (snd y) -> msg_deoj m = oc /\ e = 0x72).
      { intros e ps ss gs (r & Ey & Es & Q & _). rewrite Ey, source_sent in So. rewrite Ey, service_sent in Sv. split; congruence. }
      inversion R as [l' Nd Fl Eh El|Eh El|e l' Ed Fs Fl Eh El|s l' Ed Ec Fs Fl Eh El]; clear So; [| | |clear R].
      + exfalso. rewrite <- El, Forall_forall in *. destruct (Fl y Iy) as (e & ps & ss & gs & Y). apply Nd, (Sm _ _ _ _ Y).
      + rewrite <- El in Iy. destruct Iy.
      + exfalso. rewrite Forall_forall in Fl. destruct (Fl y Iy) as (ps & Y). destruct (Sm _ _ _ _ Y) as [_ Z]. rewrite Z in Fs. unfold failure_service in Fs.
        repeat match goal with H : (if ?b then _ else _) = _ |- _ => destruct b; [discriminate|] end. discriminate.
      + rewrite Forall_forall in Fl. destruct (Fl y Iy) as (e & ps & ss & gs & Su & Y & Ds & _ & Rd & _). destruct (Sm _ _ _ _ Y) as [_ Z]. rewrite Z in Su, Ds, Y. clear e Z.
        assert (E62 : m_esv m = 0x62).
        { unfold success_service in Su. destruct (N.eqb_spec (m_esv m) 0x61); [discriminate|]. destruct (N.eqb_spec (m_esv m) 0x62) as [->|]; [reflexivity|].
          repeat match goal with H : (if ?b then _ else _) = _ |- _ => destruct b; [discriminate|] end. discriminate. }
        destruct (Rd (or_introl E62)) as (F0 & _ & _).
        assert (W0 : writes_of m = []) by (unfold writes_of; rewrite E62; reflexivity). rewrite W0 in F0. cbn [writes] in F0.
        pose proof (Tm _ _ _ _ Y) as Ty. destruct Y as (r & Ey & Es & _ & _ & Eps & _). exists d1, p, t1, m, r, s. split; [exact S1|]. split; [exact Ep|]. split; [exact Im|].
        split; [exact Ed|]. split; [exact E62|]. split; [exact Ty|]. split; [rewrite Ds; reflexivity|]. split; [exact Ey|]. split; [exact Es|]. split; [exact Ec|].
        rewrite Eps. exact F0.
  Qed.
  Lemma read_answer d0 d y : (forall t, doing d0 t = Free) -> ssteps n oc d0 d ->
    In y (wires d) -> ~ In y (wires d0) -> service_of (snd y) = 0x72 -> source_of (snd y) = oc ->
    (forall t' cl, In (ECall t' cl) (past d) -> sends n cl <> Some 0x72) ->
    exists d1 p t1 m r s, ssteps n oc d0 d1 /\ past d = past d1 ++ p /\ In (EGot t1 m) (past d1) /\ msg_deoj m = oc /\ m_esv m = 0x62 /\
      (msg_tid m = 0 \/ msg_tid m = tid_of (snd y)) /\ fst (msg_from m) = fst (fst y) /\
      snd y = msg_bytes r /\ m_esv r = 0x72 /\ contents d1 = Some s /\ Forall2 (tells s) (m_props m) (m_props r).
  Proof. intros D0 St. exact (read_answer_from d0 d0 d y D0 (ss_refl n oc d0) St). Qed.
  Lemma told_fresh s c x qs ps : Forall2 (tells s) qs ps -> stored c -> s c = Some x -> forall a, In a ps -> pp_code a = c -> pp_data a = x.
  Proof.
    intros F0 Sc V a Ia Ca. induction F0 as [|q a' qs as' [Qc Qd] F0 IH]; [destruct Ia|]. destruct Ia as [->|Ia]; [|apply IH, Ia].
    rewrite <- Qc, Ca in Qd. destruct Qd as [Qd|Qd]; [contradiction|]. congruence.
  Qed.
  Lemma fresh_after d0 d d1 p t dv c x h1 h2 h3 t1 m : (forall t, doing d0 t = Free) -> past d0 = [] -> ssteps n oc d0 d1 -> past d = past d1 ++ p -> stored c -> settled n oc c h1 ->
    past d = h1 ++ ECall t (CSetProperty dv n oc c x) :: h2 ++ EReturn t (CSetProperty dv n oc c x) (VBool true) :: h3 ->
    Forall (fun e => ~ changes n oc c e) (h2 ++ h3) -> In (EGot t1 m) (past d1) -> ~ In (EGot t1 m) (h1 ++ h2) -> value (contents d1) c = Some x.
  Proof.
    intros D0 H0 S1 Ep Sc Se E F Im Nm. apply Forall_app in F as [F2 F3].
    assert (Eq : past d = (h1 ++ ECall t (CSetProperty dv n oc c x) :: h2 ++ [EReturn t (CSetProperty dv n oc c x) (VBool true)]) ++ h3)
      by (rewrite E; repeat (rewrite <- ?app_assoc, <- ?app_comm_cons); reflexivity).
    rewrite Eq in Ep. apply app_eq_app in Ep as (l0 & [[A B]|[A B]]).
    - exfalso. apply Nm.
      assert (Ib : In (EGot t1 m) (past d1 ++ l0)) by (apply in_or_app; auto). rewrite <- A in Ib. apply in_or_app. destruct (in_app_or _ _ _ Ib) as [Ic|[Ic|Ic]]; [left; exact Ic|discriminate|].
      destruct (in_app_or _ _ _ Ic) as [Ie|[Ie|[]]]; [right; exact Ie|discriminate].
    - apply (fresh_value d0 d1 t dv c x h1 (h2 ++ EReturn t (CSetProperty dv n oc c x) (VBool true) :: l0) D0 H0 S1 Sc Se).
      + rewrite A. repeat (rewrite <- ?app_assoc, <- ?app_comm_cons). reflexivity.
      + rewrite B in F3. apply Forall_app in F3 as [F3 _]. apply Forall_app. split; [exact F2|]. constructor; [intros []|exact F3].
      + apply in_or_app. right. left. reflexivity.
  Qed.
  Lemma fresh_answer d0 d t dv c x h1 h2 h3 y k : (forall t, doing d0 t = Free) -> past d0 = [] -> ssteps n oc d0 d -> stored c -> settled n oc c h1 ->
    past d = h1 ++ ECall t (CSetProperty dv n oc c x) :: h2 ++ EReturn t (CSetProperty dv n oc c x) (VBool true) :: h3 ->
    Forall (fun e => ~ changes n oc c e) (h2 ++ h3) ->
    In y (wires d) -> ~ In y (wires d0) -> service_of (snd y) = 0x72 -> source_of (snd y) = oc -> tid_of (snd y) = k ->
    (forall t' cl, In (ECall t' cl) (past d) -> sends n cl <> Some 0x72) ->
    (forall t' m, In (EGot t' m) (h1 ++ h2) -> fst (msg_from m) = fst (fst y) -> msg_tid m <> 0 /\ msg_tid m <> k) ->
    exists r, snd y = msg_bytes r /\ m_esv r = 0x72 /\ forall a, In a (m_props r) -> pp_code a = c -> pp_data a = x.
  Proof.
    intros D0 H0 St Sc Se E F I N Sv So Ti Nc Nm.
    destruct (read_answer d0 d y D0 St I N Sv So Nc) as (d1 & p & t1 & m & r & s & S1 & Ep & Im & _ & _ & Tm & Fm & Ey & Er & Ec & F0).
    exists r. split; [exact Ey|]. split; [exact Er|]. apply (told_fresh s c x _ _ F0 Sc).
    assert (V : value (contents d1) c = Some x); [|rewrite Ec in V; exact V].
    apply (fresh_after d0 d d1 p t dv c x h1 h2 h3 t1 m D0 H0 S1 Ep Sc Se E F Im). intros Ia. destruct (Nm _ _ Ia Fm) as [Z1 Z2]. rewrite Ti in Tm. destruct Tm; contradiction.
  Qed.
End S.
