(** The shared device: a write request that was answered is read. *)
From Verif Require Import Base HMap ModelCodec ModelMessages ModelObject ModelTransport ModelNode ModelController ModelDevice ModelThreads
  SpecWire SpecObject SpecNode ProofsCodec ProofsCodec2 ProofsNode SpecShared ProofsShared ProofsShared3 SpecMesh.

Section S.
  Context {U : Type} (n : nat) (oc : N).
  Implicit Types (d : shared U).

  (** ** The answer to a write request *)
  Lemma wire_after d0 d x : ssteps n oc d0 d -> In x (wires d) ->
    In x (wires d0) \/ exists d1 d2, ssteps n oc d0 d1 /\ ssteps n oc d0 d2 /\ ssteps n oc d2 d /\ past d2 = past d1 /\
      ((exists t cl v l, doing d1 t = Calls cl /\ does n oc (contents d1) cl (contents d2) v l /\ In x l) \/
       (exists t m l, doing d1 t = Has m /\ reacts oc (contents d1) m (contents d2) l /\ In x l)).
  Proof.
    intros St. induction St as [d|d d1 d2 St IH S1]; [auto|]. intros I.
    assert (Old : In x (wires d1) -> In x (wires d) \/ exists d3 d4, ssteps n oc d d3 /\ ssteps n oc d d4 /\ ssteps n oc d4 d2 /\ past d4 = past d3 /\
      ((exists t cl v l, doing d3 t = Calls cl /\ does n oc (contents d3) cl (contents d4) v l /\ In x l) \/
       (exists t m l, doing d3 t = Has m /\ reacts oc (contents d3) m (contents d4) l /\ In x l))).
    { intros J. destruct (IH J) as [A|(d3 & d4 & A & B & C & D)]; [auto|]. right. exists d3, d4. split; [exact A|]. split; [exact B|]. split; [|exact D].
      exact (ss_step n oc _ _ _ C S1). }
    pose proof (ss_step n oc _ _ _ St S1) as S2.
    destruct S1 as [t1 cl X|t1 cl hh w l X D|t1 cl w X|t1 m X|t1 m hh l X R]; cbn [wires] in I; try (exact (Old I)).
    - apply in_app_or in I as [I|I]; [exact (Old I)|]. right. eexists d1, _. split; [exact St|]. split; [exact S2|]. split; [apply ss_refl|]. split; [reflexivity|].
      left. exists t1, cl, w, l. auto.
    - apply in_app_or in I as [I|I]; [exact (Old I)|]. right. eexists d1, _. split; [exact St|]. split; [exact S2|]. split; [apply ss_refl|]. split; [reflexivity|].
      right. exists t1, m, l. auto.
  Qed.
  Lemma write_answer d0 d y : (forall t, doing d0 t = Free) -> ssteps n oc d0 d ->
    In y (wires d) -> ~ In y (wires d0) -> write_answered (service_of (snd y)) -> source_of (snd y) = oc ->
    (forall t' cl e, In (ECall t' cl) (past d) -> write_answered e -> sends n cl <> Some e) ->
    exists d1 t1 m, ssteps n oc d0 d1 /\ ssteps n oc d1 d /\ In (EGot t1 m) (past d1) /\ msg_deoj m = oc /\ (m_esv m = 0x61 \/ m_esv m = 0x6E) /\
      (msg_tid m = 0 \/ msg_tid m = tid_of (snd y)) /\ fst (msg_from m) = fst (fst y) /\
      forall c x, stored c -> last_data c (writes_of m) = Some x -> value (contents d1) c = Some x.
  Proof.
    intros D0 St I N Sv So Nc.
    destruct (wire_after d0 d y St I) as [X|(d1 & d2 & S1 & S2 & S3 & Ep & W)]; [contradiction|].
    destruct (past_grows n oc d2 d S3) as (p & Ep2).
    destruct W as [(t1 & cl & v & l & Dc & Dl & Iy)|(t1 & m & l & Dm & R & Iy)].
    - exfalso. assert (Ic : In (ECall t1 cl) (past d)).
      { rewrite Ep2, Ep. apply in_or_app. left. apply (in_past n oc d0 d1 t1 _ D0 S1). rewrite Dc. reflexivity. }
      inversion Dl as [d' c' x' St'|d' c' St'|d' o Eo|o Eo|d' b' l' Fl|d'|d' b'|c' e v' l' Nc' Sd Fl|c' v' Nc']; subst; try destruct Iy.
      + rewrite Forall_forall in Fl. specialize (Fl y Iy). rewrite Fl in Sv. destruct Sv; discriminate.
      + rewrite Forall_forall in Fl. specialize (Fl y Iy). rewrite Fl in Sv. exact (Nc t1 cl e Ic Sv Sd).
    - assert (Im : In (EGot t1 m) (past d2)) by (rewrite Ep; apply (in_past n oc d0 d1 t1 _ D0 S1); rewrite Dm; reflexivity).
      assert (Tm : forall e ps ss gs, says m e ps ss gs (snd y) -> msg_tid m = 0 \/ msg_tid m = tid_of (snd y)).
      { intros e ps ss gs (r & Ey & _ & _ & _ & _ & _ & _ & Q). rewrite Ey, tid_sent. destruct (N.eq_dec (msg_tid m) 0) as [|Z]; [auto|]. right. rewrite (Q Z). reflexivity. }
      assert (Sm : forall e ps ss gs, says m e ps ss gs (snd y) -> msg_deoj m = oc /\ write_answered e).
      { intros e ps ss gs (r & Ey & Es & Q & _). rewrite Ey, source_sent in So. rewrite Ey, service_sent in Sv. split; congruence. }
      inversion R as [l' Nd Fl Eh El|Eh El|e l' Ed Fs Fl Eh El|s l' Ed Ec Fs Fl Eh El]; clear So; [| | |clear R].
      + exfalso. rewrite <- El, Forall_forall in *. destruct (Fl y Iy) as (e & ps & ss & gs & Y). apply Nd, (Sm _ _ _ _ Y).
      + rewrite <- El in Iy. destruct Iy.
      + exfalso. rewrite Forall_forall in Fl. destruct (Fl y Iy) as (ps & Y). destruct (Sm _ _ _ _ Y) as [_ [Z|Z]]; rewrite Z in Fs; unfold failure_service in Fs;
        repeat match goal with H : (if ?b then _ else _) = _ |- _ => destruct b; [discriminate|] end; discriminate.
      + rewrite Forall_forall in Fl. destruct (Fl y Iy) as (e & ps & ss & gs & Su & Y & Ds & _). destruct (Sm _ _ _ _ Y) as [_ Z].
        assert (E : m_esv m = 0x61 \/ m_esv m = 0x6E).
        { unfold success_service in Su. destruct (N.eqb_spec (m_esv m) 0x61); [auto|]. destruct (N.eqb_spec (m_esv m) 0x6E); [auto|].
          exfalso. repeat match goal with H : (if ?b then _ else _) = _ |- _ => destruct b; [injection Su as <-; destruct Z; discriminate|] end. discriminate. }
        pose proof (Tm _ _ _ _ Y) as Ty. exists d2, t1, m. split; [exact S2|]. split; [exact S3|]. split; [exact Im|]. split; [exact Ed|]. split; [exact E|]. split; [exact Ty|].
        split; [rewrite Ds; destruct Z as [->| ->]; reflexivity|]. intros c x Sc La. rewrite <- Eh. cbn [value]. rewrite writes_find, La.
        rewrite Forall_forall in Fs. pose proof (last_data_in c _ x La) as Iw. specialize (Fs _ (in_or_app _ _ _ (or_introl Iw)) Sc). cbn [pp_code] in Fs.
        destruct (s c); [reflexivity|contradiction].
  Qed.

  (** ** What is written again stays *)
  (** The event does not write [c], or it is a message that writes [x]. *)
  Definition rewrites (c : N) (x : list N) (e : event U) : Prop :=
    changes n oc c e -> match e with EGot _ m => last_data c (writes_of m) = Some x | _ => False end.
  Definition calm (c : N) (x : list N) (t : nat) (y : activity U) : Prop :=
    match y with Free => True | Calls cl | Returns cl _ => rewrites c x (ECall t cl) | Has m => rewrites c x (EGot t m) end.
  Lemma calm_all d0 d c x h h' : (forall t, doing d0 t = Free) -> ssteps n oc d0 d -> settled n oc c h -> past d = h ++ h' -> Forall (rewrites c x) h' ->
    forall t, calm c x t (doing d t).
  Proof.
    intros D0 St Se Ep F t. pose proof (doing_past n oc d0 d D0 St t) as K.
    assert (X : forall e, last_event t e (past d) -> rewrites c x e).
    { intros e (We & a & b & E & Fb). rewrite Ep in E. apply app_eq_app in E as (l & [[-> E]|[-> ->]]).
      - destruct l as [|e' l]; cbn [app] in E.
        + rewrite <- E in F. inversion F; subst. assumption.
        + injection E as <- ->. intros Ch. exfalso. destruct (Se a e l eq_refl Ch) as (e' & I & W). rewrite Forall_forall in Fb.
          apply (Fb e'); [apply in_or_app; auto|congruence].
      - apply Forall_app in F as [_ F]. inversion F; subst. assumption. }
    destruct (doing d t); cbn in *; auto.
  Qed.
  Lemma kept d0 d d' c x h h' : (forall t, doing d0 t = Free) -> ssteps n oc d0 d -> ssteps n oc d d' -> stored c -> settled n oc c h ->
    (exists h1, past d = h ++ h1) -> past d' = h ++ h' -> Forall (rewrites c x) h' -> value (contents d) c = Some x -> value (contents d') c = Some x.
  Proof.
    intros D0 S0 St Sc Se (h1 & Ed). revert h'. induction St as [d|d d1 d2 St IH S1]; intros h' Ep F V; [exact V|].
    assert (S01 : ssteps n oc d0 d1) by (eapply steps_more; eauto).
    destruct (past_grows n oc d d1 St) as (l1 & E1). rewrite Ed, <- app_assoc in E1.
    destruct (past_grows n oc d1 d2) as (l2 & E2); [econstructor; [constructor|exact S1]|].
    assert (F1 : Forall (rewrites c x) (h1 ++ l1)).
    { rewrite E2, E1, <- app_assoc in Ep. apply app_inv_head in Ep. rewrite <- Ep in F. apply Forall_app in F as [F _]. exact F. }
    specialize (IH S0 Ed (h1 ++ l1) E1 F1 V). pose proof (calm_all d0 d1 c x h (h1 ++ l1) D0 S01 Se E1 F1) as C.
    destruct S1 as [t1 cl X|t1 cl hh w l X D|t1 cl w X|t1 m X|t1 m hh l X R]; cbn [contents]; try exact IH.
    - specialize (C t1). rewrite X in C. cbn [calm] in C. apply (does_keeps n oc c x t1 _ _ _ _ _ D); [|exact IH]. exact C.
    - specialize (C t1). rewrite X in C. cbn [calm] in C. destruct R as [| | |s l Ed' Ec Fs Fl]; try exact IH. rewrite Ec in IH. cbn [value] in *. rewrite writes_find, IH.
      destruct (last_data c (writes_of m)) as [z|] eqn:La; [|reflexivity]. f_equal. unfold rewrites in C. cbn in C. rewrite La in C.
      assert (Y : Some z = Some x); [|congruence]. apply C. split; [exact Ed'|]. apply last_data_in in La. apply (in_map pp_code) in La. exact La.
  Qed.

  (** ** Reads that begin later *)
  Lemma read_later d1 d : ssteps n oc d1 d -> forall t dv c v, stored c ->
    (doing d t = Returns (CProperty dv n oc c) v -> forall q, past d = past d1 ++ q -> ~ Forall (not_of t) q -> exists d2, ssteps n oc d1 d2 /\ ssteps n oc d2 d /\ v = VData (value (contents d2) c)) /\
    (forall a b, past d = past d1 ++ a ++ EReturn t (CProperty dv n oc c) v :: b -> ~ Forall (not_of t) a -> exists d2, ssteps n oc d1 d2 /\ ssteps n oc d2 d /\ v = VData (value (contents d2) c)).
  Proof.
    intros St. induction St as [d|d d1 d2 St IH S1]; intros t dv c v Sc.
    { split.
      - intros _ q E N. exfalso. apply N. rewrite <- (app_nil_r (past d)) in E at 1. apply app_inv_head in E as <-. constructor.
      - intros a b E. exfalso. rewrite <- (app_nil_r (past d)) in E at 1. apply app_inv_head in E. destruct a; discriminate. }
    specialize (IH t dv c). destruct (past_grows n oc d d1 St) as (l1 & El).
    assert (Mo : forall v, (exists d3, ssteps n oc d d3 /\ ssteps n oc d3 d1 /\ v = VData (value (contents d3) c)) -> exists d3, ssteps n oc d d3 /\ ssteps n oc d3 d2 /\ v = VData (value (contents d3) c)).
    { intros w (d3 & A & B & C). exists d3. split; [exact A|]. split; [exact (ss_step n oc _ _ _ B S1)|exact C]. }
    assert (S12 : ssteps n oc d1 d2) by (econstructor; [constructor|exact S1]).
    assert (Bk : forall e a b, past d1 ++ [e] = past d ++ a ++ EReturn t (CProperty dv n oc c) v :: b -> ~ Forall (not_of t) a ->
      (e = EReturn t (CProperty dv n oc c) v /\ past d1 = past d ++ a /\ b = []) \/ exists d3, ssteps n oc d d3 /\ ssteps n oc d3 d1 /\ v = VData (value (contents d3) c)).
    { intros e a b E N. destruct b as [|y b] using rev_ind.
      - left. rewrite app_assoc in E. apply app_inj_tail in E as [E ->]. auto.
      - clear IHb. right. rewrite app_comm_cons, !app_assoc in E. apply app_inj_tail in E as [E _]. rewrite <- app_assoc in E. destruct (IH v Sc) as [_ M]. exact (M a b E N). }
    destruct S1 as [t1 cl X|t1 cl hh w l X D|t1 cl w X|t1 m X|t1 m hh l X R]; cbn [doing past] in *.
    - split.
      + unfold now. destruct (Nat.eqb_spec t t1) as [->|Ne]; [discriminate|]. intros Y q E N. apply Mo. rewrite El, <- app_assoc in E. apply app_inv_head in E as <-.
        destruct (IH v Sc) as [M _]. apply (M Y l1 El). intros F. apply N, Forall_app. split; [exact F|]. constructor; [intros Z; apply Ne; symmetry; exact Z|constructor].
      + intros a b E N. destruct (Bk _ a b E N) as [[Z _]|Z]; [discriminate|apply Mo, Z].
    - split.
      + unfold now. destruct (Nat.eqb_spec t t1) as [->|Ne]; [|intros Y q E N; destruct (IH v Sc) as [M _]; exact (Mo v (M Y q E N))].
        intros Y q E N. inversion Y; subst cl w. exists d1. split; [exact St|]. split; [exact S12|].
        inversion D as [d' c' x' St'|d' c' St'|d' o Eo|o Eo|d' b' l' Fl|d'|d' b'|c' e v' l' Nc Sd Fl|c' v' Nc]; subst; try reflexivity; [discriminate Sd|].
        exfalso. apply Nc. cbn. auto.
      + intros a b E N. destruct (IH v Sc) as [_ M]. exact (Mo v (M a b E N)).
    - split.
      + unfold now. destruct (Nat.eqb_spec t t1) as [->|Ne]; [discriminate|]. intros Y q E N. apply Mo. rewrite El, <- app_assoc in E. apply app_inv_head in E as <-.
        destruct (IH v Sc) as [M _]. apply (M Y l1 El). intros F. apply N, Forall_app. split; [exact F|]. constructor; [intros Z; apply Ne; symmetry; exact Z|constructor].
      + intros a b E N. destruct (Bk _ a b E N) as [(Z & E1 & _)|Z]; [|apply Mo, Z]. inversion Z; subst t1 cl w. destruct (IH v Sc) as [M _]. exact (Mo v (M X a E1 N)).
    - split.
      + unfold now. destruct (Nat.eqb_spec t t1) as [->|Ne]; [discriminate|]. intros Y q E N. apply Mo. rewrite El, <- app_assoc in E. apply app_inv_head in E as <-.
        destruct (IH v Sc) as [M _]. apply (M Y l1 El). intros F. apply N, Forall_app. split; [exact F|]. constructor; [intros Z; apply Ne; symmetry; exact Z|constructor].
      + intros a b E N. destruct (Bk _ a b E N) as [[Z _]|Z]; [discriminate|apply Mo, Z].
    - split.
      + intros Y q E N. destruct (IH v Sc) as [M _]. exact (Mo v (M Y q E N)).
      + intros a b E N. destruct (IH v Sc) as [_ M]. exact (Mo v (M a b E N)).
  Qed.
End S.
