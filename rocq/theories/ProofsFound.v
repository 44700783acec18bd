(** The entries of controllers, in all executions. *)
From Verif Require Import Base HMap ModelCodec ModelMessages DbTable ModelObject ModelTransport ModelNode ModelController ModelDevice ModelThreads
  SpecWire SpecObject SpecNode SpecThreads SpecFound ProofsCodec ProofsObject ProofsObject2 ProofsObject3 PropertiesObject PropertiesDb ProofsDevice ProofsNode
  ProofsController PropertiesController ProofsHost ProofsThreads ProofsThreads2 ProofsThreads5.
From Verif Require ModelLocks.

Section S.
  Context {U : Type} {P : Profile} {HO : HashOrder} {Os : OS} {Uu : Uuids} (seed : N -> N) (db : list object) (what : observer -> obs) (net : bool).
  Hypothesis Db : standard_database seed = Ret db.
  Hypothesis Uo : forall k, uuid_ok (new_uuid k).
  Implicit Types (a : state U).

  Lemma copy_refl o : copy_of o o.
  Proof.
    repeat (split; [reflexivity|]). intros c. destruct (object_find_property o c); cbn; auto. split; [apply same_attributes_refl|auto].
  Qed.
  Lemma copy_clone sd o o' : obj_ok o -> object_clone sd o = Ret o' -> obj_ok o' /\ copy_of o o'.
  Proof.
    intros W E. destruct (clone_spec sd o o' W E) as (W' & C1 & C2 & C3 & D & G). split; [exact W'|].
    split; [unfold object_code; rewrite C1; reflexivity|]. split; [exact C2|]. split; [exact C3|]. intros c. specialize (G c). specialize (D c).
    unfold same_property, strip in *. destruct (object_find_property o c) as [p|], (object_find_property o' c) as [q|]; cbn in G; try discriminate; auto.
    split; [apply same_strip; congruence|]. intros M. assert (X : is_map_code c = false).
    { unfold is_map in M. unfold is_map_code. destruct (N.eqb_spec c 0x9D), (N.eqb_spec c 0x9E), (N.eqb_spec c 0x9F); tauto. }
    specialize (D X). congruence.
  Qed.
  Lemma copy_trans x b c : copy_of x b -> copy_of b c -> copy_of x c.
  Proof.
    intros (A1 & A2 & A3 & A4) (B1 & B2 & B3 & B4). split; [congruence|]. split; [congruence|]. split; [congruence|]. intros k.
    specialize (A4 k). specialize (B4 k). unfold same_property in *.
    destruct (object_find_property x k), (object_find_property b k), (object_find_property c k); try tauto.
    destruct A4 as [A4 A5], B4 as [B4 B5]. split; [apply same_strip; apply same_strip in A4, B4; congruence|]. intros M. rewrite A5, B5 by auto. reflexivity.
  Qed.

  (** An entry of a controller. *)
  Definition entry (h : list (event U)) (r : remote_node) : Prop := remote_ok r /\ found db h r.
  Lemma found_mono h e r : found db h r -> found (U := U) db (h ++ [e]) r.
  Proof. intros (t & m & I & X). exists t, m. split; [apply in_or_app; auto|exact X]. Qed.
  Lemma clone_objects_copy os : forall w os' w', Forall (fun o => obj_ok o /\ std_keys o) os -> clone_objects w os = Ret (os', w') -> Forall2 copy_of os os'.
  Proof.
    induction os as [|o r IH]; intros w os' w' F E; cbn [clone_objects] in E; [inversion E; constructor|]. inversion F as [|? ? [Wo So] Fr]; subst.
    destruct (object_clone _ o) as [o'|] eqn:Eo; cbn [obind] in E; [|discriminate].
    destruct (clone_objects (tick w) r) as [[r' w1]|] eqn:Er; cbn [obind] in E; [|discriminate]. inversion E; subst. constructor; [|eapply IH; eauto].
    apply (copy_clone _ _ _ Wo Eo).
  Qed.
  Lemma told_clone m r os' : told_by db m r -> Forall2 copy_of (rn_objects r) os' -> told_by db m (Remote (rn_addr r) os').
  Proof.
    intros (codes & L & A & F) C. exists codes. split; [exact L|]. split; [exact A|]. cbn. clear L A. revert os' C.
    induction F as [|c o cs os [Co (o0 & S0 & C0)] F IH]; intros os' C; inversion C; subst; constructor; [|auto].
    split; [destruct H1 as [H1 _]; congruence|]. exists o0. split; [exact S0|]. eapply copy_trans; eauto.
  Qed.
  Lemma clone_objects_ok os : forall w os' w', Forall (fun o => obj_ok o /\ std_keys o) os -> clone_objects w os = Ret (os', w') ->
    Forall (fun o => obj_ok o /\ std_keys o) os'.
  Proof.
    induction os as [|o r IH]; intros w os' w' F E; cbn [clone_objects] in E; [inversion E; constructor|]. inversion F as [|? ? [Wo So] Fr]; subst.
    destruct (object_clone _ o) as [o'|] eqn:Eo; cbn [obind] in E; [|discriminate].
    destruct (clone_objects (tick w) r) as [[r' w1]|] eqn:Er; cbn [obind] in E; [|discriminate]. inversion E; subst. constructor; [|eapply IH; eauto].
    destruct (copy_clone _ _ _ Wo Eo) as [Wo' (_ & _ & _ & C)]. split; [exact Wo'|]. intros c p X. specialize (C c). rewrite X in C.
    destruct (object_find_property o c) as [q|] eqn:Eq; [|destruct C]. exact (So c q Eq).
  Qed.
  Lemma nodes_found h l : forall w l' w', Forall (entry h) l -> controller_nodes w l = Ret (l', w') ->
    Forall (entry h) l' /\ map rn_addr l' = map rn_addr l.
  Proof.
    induction l as [|r t IH]; intros w l' w' F E; cbn [controller_nodes] in E; [inversion E; split; [constructor|reflexivity]|].
    inversion F as [|? ? [Ro Fo] Ft]; subst. unfold remote_clone in E. destruct (clone_objects w (rn_objects r)) as [[os' w1]|] eqn:Ec; cbn [obind fst snd] in E; [|discriminate].
    destruct (controller_nodes w1 t) as [[t' w2]|] eqn:Et; cbn [obind fst snd] in E; [|discriminate]. inversion E; subst.
    destruct (IH _ _ _ Ft Et) as [X Y]. cbn. split; [|congruence]. constructor; [|exact X]. split; [eapply clone_objects_ok; eauto|].
    destruct Fo as (i & m & I & Fp & T). exists i, m. split; [exact I|]. split; [exact Fp|]. eapply told_clone; [exact T|]. eapply clone_objects_copy; eauto.
  Qed.
  Lemma listed_small q cs : u8prop q -> listed q cs -> Forall (fun c => c < 16777216) cs.
  Proof. intros _ L. inversion L; subst; auto. Qed.
  Lemma entry_observed h t m w rs rs' w' : In (EGot t m) h -> received m -> Forall (entry h) rs -> controller_observe db w rs m = Ret (rs', w') -> Forall (entry h) rs'.
  Proof.
    intros I R F E. destruct (is_node_profile_message m) eqn:Ep.
    - apply for_profile_spec in Ep. pose proof (received_u8 m R) as Up.
      destruct (controller_entry seed db Db Uo w rs m Up Ep) as (css & r & w1 & L & A & S0 & C & Ec). rewrite Ec in E. inversion E; subst.
      unfold replace_remote. apply Forall_app. split.
      + apply Forall_forall. intros x Ix. apply remove_in in Ix. eapply Forall_forall in F; eauto.
      + constructor; [|constructor]. split.
        * apply Forall_forall. intros o Io. assert (X : exists c, standard_object db c o). { clear - S0 Io. induction S0; [destruct Io|]. destruct Io as [<-|Io]; eauto. }
          destruct X as (c & X). eapply standard_ok; eauto.
        * exists t, m. split; [exact I|]. split; [exact Ep|]. exists css. split; [exact L|]. split; [exact A|].
          clear - S0 C. revert C. generalize (rn_objects r), S0. generalize (concat css ++ [0x0EF001]). intros l os F. induction F as [|c o cs os H F IH]; intros C; constructor.
          -- cbn in C. inversion C; subst. split; [reflexivity|]. exists o. split; [exact H|apply copy_refl].
          -- apply IH. cbn in C. inversion C; auto.
    - unfold controller_observe in E. rewrite Ep in E. cbn in E. inversion E; subst. exact F.
  Qed.

  (** ** All executions *)
  Definition list_of (v : answer) (l : list remote_node) : Prop := v = VNodes l.
  Record finds a : Prop := {
    fi_at_hand : forall t m, a_status a t = Got m \/ (exists r, a_status a t = Busy m r) -> In (EGot t m) (a_history a) /\ received m;
    fi_entries : forall c, Forall (entry (a_history a)) (fst (a_ctrls a c));
    fi_nodup : forall c, NoDup (map rn_addr (fst (a_ctrls a c)));
    fi_answer : forall t c l r, a_status a t = Answered c (VNodes l) r -> Forall (entry (a_history a)) l /\ NoDup (map rn_addr l);
    fi_past : forall h1 t c l h2, a_history a = h1 ++ EReturn t c (VNodes l) :: h2 -> Forall (entry h1) l /\ NoDup (map rn_addr l) }.

  Lemma effect_no_nodes c n f (d d' : nstate U) l : effect_of c = AtNode n f -> f d <> Ret (d', VNodes l).
  Proof.
    intros Ef Hf. destruct d as [[u x] w]. destruct c; cbn in Ef |- *; inversion Ef; subst; clear Ef;
      unfold obind in Hf; repeat match type of Hf with context [match ?e with _ => _ end] => destruct e end; discriminate.
  Qed.
  Lemma split_last {A} (h : list A) e h1 x h2 : h ++ [e] = h1 ++ x :: h2 -> (h2 = [] /\ h1 = h /\ x = e) \/ exists h3, h2 = h3 ++ [e] /\ h = h1 ++ x :: h3.
  Proof.
    intros E. destruct h2 as [|y r] using rev_ind.
    - left. apply app_inj_tail in E as [-> ->]. auto.
    - right. clear IHr. rewrite app_comm_cons, app_assoc in E. apply app_inj_tail in E as [-> ->]. eauto.
  Qed.

  Lemma finds_step a a' : finds a -> astep db what net a a' -> finds a'.
  Proof.
    intros [Ah En Nd An Pa] St.
    assert (Hand : forall t x, match x with Got m => In (EGot t m) (a_history a) /\ received m | Busy m _ => In (EGot t m) (a_history a) /\ received m | _ => True end ->
      forall t' m, put (a_status a) t x t' = Got m \/ (exists r, put (a_status a) t x t' = Busy m r) -> In (EGot t' m) (a_history a) /\ received m).
    { intros t x X t' m. unfold put. destruct (Nat.eqb_spec t' t) as [->|Ne]; [|apply Ah]. intros [->|[r ->]]; exact X. }
    assert (Answer : forall t x, match x with Answered _ (VNodes l) _ => Forall (entry (a_history a)) l /\ NoDup (map rn_addr l) | _ => True end ->
      forall t' c l r, put (a_status a) t x t' = Answered c (VNodes l) r -> Forall (entry (a_history a)) l /\ NoDup (map rn_addr l)).
    { intros t x X t' c l r. unfold put. destruct (Nat.eqb_spec t' t) as [->|Ne]; [|apply An]. intros ->. exact X. }
    assert (Same : forall t x, match x with Got m => In (EGot t m) (a_history a) /\ received m | Busy m _ => In (EGot t m) (a_history a) /\ received m
                               | Answered _ (VNodes l) _ => Forall (entry (a_history a)) l /\ NoDup (map rn_addr l) | _ => True end ->
       finds (a_set a t x)).
    { intros t x X. constructor; cbn; auto; [apply Hand|apply Answer]; destruct x; auto. }
    assert (MonoE : forall e l, Forall (entry (a_history a)) l -> Forall (entry (a_history a ++ [e])) l).
    { intros e l F. eapply Forall_impl; [|exact F]. intros r [R0 R1]. split; [exact R0|apply found_mono, R1]. }
    assert (MonoF : forall e l, Forall (entry (a_history a)) l -> Forall (entry (a_history a ++ [e])) l).
    { intros e l F. eapply Forall_impl; [|exact F]. intros r [R0 R1]. split; [exact R0|apply found_mono, R1]. }
    assert (Life : forall b x, finds b -> finds (a_lives b x)) by (intros b x []; constructor; cbn; auto).
    assert (Poison : forall b x, finds b -> finds (a_poison b x)) by (intros b x []; constructor; cbn; auto).
    assert (Node : forall b n d, finds b -> finds (a_node b n d)) by (intros b n d []; constructor; cbn; auto).
    assert (Acts : forall t c v r r', a_status a t = Answered c v r -> finds (a_set a t (Answered c v r'))).
    { intros t c v r r' T. apply Same. destruct v; auto. eapply An; eauto. }
    destruct St as [t c T|t c n f d v T Ef Lk X|t c x f d v T Ef Lk X|t n ch m T Nm|t n ch T|t c v T Rf Ex|t c v T
      |t c v n f k' r T|t c v n f k' j o r t' T|t c v n f k' j o r T|t c v n f k' j r t' T|t c v n f k' j r T
      |t data from m T Nt Oc Ps|t m T|t T|t m n r d T Bd Ob|t m c r d w T Bd Ob|t m n r T|t m c r T|t m T
      |t c L T|t m n r T|t m c r T|t data T|t m r t' T|t c v n f k' j o r t' T|t c v n f k' j r t' T].
    - constructor; cbn; auto.
      + intros t' m X. apply (Hand t (Pending c) Logic.I) in X as [X Y]. split; [apply in_or_app; auto|exact Y].
      + intros t' c' l r X. apply (Answer t (Pending c) Logic.I) in X as [X Y]. auto.
      + intros h1 t' c' l h2 E. apply split_last in E as [(_ & _ & E)|(h3 & _ & E)]; [discriminate|]. eapply Pa; eauto.
    - apply Node, Same. destruct v; auto. exfalso. eapply effect_no_nodes; eauto.
    - assert (X' : exists l w, a_ctrls a x = (l, w) /\ exists y w', controller_nodes w l = Ret (y, w') /\ d = (l, w') /\ v = VNodes y).
      { destruct c; cbn in Ef; inversion Ef; subst. destruct (a_ctrls a x) as [l w]. exists l, w. split; [reflexivity|].
        destruct (controller_nodes w l) as [[y w']|] eqn:Ey; [|discriminate]. cbn in X. inversion X; subst. exists y, w'. auto. }
      destruct X' as (l & w & El & y & w' & Ey & -> & ->).
      pose proof (En x) as Enx. pose proof (Nd x) as Ndx. rewrite El in Enx, Ndx. cbn [fst] in Enx, Ndx. destruct (nodes_found _ _ _ _ _ Enx Ey) as [F1 F2].
      destruct (Same t (Answered c (VNodes y) [])) as [G1 G2 G3 G4 G5]. { split; [exact F1|]. rewrite F2. exact Ndx. }
      constructor; cbn; auto; intros c'; unfold put; destruct (Nat.eqb_spec c' x) as [->|]; cbn; auto.
    - assert (Y : finds (a_set a t (Answered (CWait n ch) (VGot (Some m)) []))) by (apply Same; exact Logic.I). destruct Y; constructor; cbn; auto.
    - apply Same. exact Logic.I.
    - apply Same. destruct c; cbn in Rf; try discriminate. inversion Rf; subst. exact Logic.I.
    - constructor; cbn; auto.
      + intros t' m X. apply (Hand t Idle Logic.I) in X as [X Y]. split; [apply in_or_app; auto|exact Y].
      + intros t' c' l r X. apply (Answer t Idle Logic.I) in X as [X Y]. auto.
      + intros h1 t' c' l h2 E. apply split_last in E as [(_ & -> & E)|(h3 & _ & E)]; [|eapply Pa; eauto]. inversion E; subst. eapply An; eauto.
    - apply Life. constructor; cbn; auto.
      + intros t' m X. unfold put at 1 3 in X. destruct (Nat.eqb t' t); [destruct X as [X|[? X]]; discriminate|]. exact (Hand _ Listening Logic.I _ _ X).
      + intros t' c' l r'. unfold put at 1. destruct (Nat.eqb_spec t' t); [intros X; inversion X; subst; eapply An; eauto|]. apply Answer. exact Logic.I.
    - apply Life. eapply Acts; eauto.
    - eapply Acts; eauto.
    - eapply Acts; eauto.
    - apply Life. eapply Acts; eauto.
    - assert (R : received (msg_set_from m from)).
      { exists (firstn MAX_PACKET_SIZE data), m, from. split; [|split; [exact Ps|reflexivity]]. unfold octets in Oc. rewrite <- (firstn_skipn MAX_PACKET_SIZE data) in Oc. apply Forall_app in Oc. apply Oc. }
      constructor; cbn; auto.
      + intros t' m' X. revert X. unfold put. destruct (Nat.eqb_spec t' t) as [->|]; intros X.
        * destruct X as [X|[? X]]; inversion X; subst. split; [apply in_or_app; right; left; reflexivity|exact R].
        * apply Ah in X as [X Y]. split; [apply in_or_app; auto|exact Y].
      + intros t' c' l r X. apply (Answer t (Got (msg_set_from m from)) Logic.I) in X as [X Y]. auto.
      + intros h1 t' c' l h2 E. apply split_last in E as [(_ & _ & E)|(h3 & _ & E)]; [discriminate|]. eapply Pa; eauto.
    - apply Same. apply Ah. auto.
    - apply Same. exact Logic.I.
    - apply Node, Same. apply Ah. eauto.
    - destruct (Ah t m (or_intror (ex_intro _ _ T))) as [Ig Rm]. destruct (Same t (Busy m r)) as [G1 G2 G3 G4 G5]; [apply Ah; eauto|].
      constructor; cbn; auto; intros c'; unfold put; destruct (Nat.eqb_spec c' c) as [->|]; cbn; auto.
      + eapply entry_observed; [exact Ig|exact Rm|apply En|exact Ob].
      + eapply controller_observe_nodup; [exact Ob|]. apply Nd.
    - apply Same. apply Ah. eauto.
    - apply Same. apply Ah. eauto.
    - apply Same. exact Logic.I.
    - apply Poison, Same. exact Logic.I.
    - apply Poison, Same. exact Logic.I.
    - apply Poison, Same. exact Logic.I.
    - apply Same. exact Logic.I.
    - apply Same. exact Logic.I.
    - apply Poison, Same. exact Logic.I.
    - apply Poison, Same. exact Logic.I.
  Qed.
  Lemma finds_all ns cs k a : (forall c, fst (cs c) = []) -> asteps db what net (a_begins ns cs k) a -> finds a.
  Proof.
    intros Em A. remember (a_begins ns cs k) as a0 eqn:E. induction A as [a|a a1 a2 A IH St]; [|eapply finds_step; eauto]. subst.
    constructor; cbn.
    - intros t m [X|[r X]]; discriminate.
    - intros c. rewrite Em. constructor.
    - intros c. rewrite Em. constructor.
    - discriminate.
    - intros h1 t c l h2 X. destruct h1; discriminate.
  Qed.

  (** ** No address is forgotten *)
  Definition addrs (l : list remote_node) := map rn_addr l.
  Record keeps a : Prop := {
    ke_past : forall t c l, In (EReturn t (CNodes c) (VNodes l)) (a_history a) -> incl (addrs l) (addrs (fst (a_ctrls a c)));
    ke_answer : forall t c l r, a_status a t = Answered (CNodes c) (VNodes l) r -> incl (addrs l) (addrs (fst (a_ctrls a c)));
    ke_since : forall t c l r, a_status a t = Answered (CNodes c) (VNodes l) r -> forall h1 x h2 t' l',
      a_history a = h1 ++ ECall t x :: h2 -> In (EReturn t' (CNodes c) (VNodes l')) h1 -> incl (addrs l') (addrs l);
    ke_final : forall h1 t c l h2, a_history a = h1 ++ EReturn t (CNodes c) (VNodes l) :: h2 -> forall g1 x g2 t' l',
      h1 = g1 ++ ECall t x :: g2 -> In (EReturn t' (CNodes c) (VNodes l')) g1 -> incl (addrs l') (addrs l) }.

  Lemma addrs_remove l (r : remote_node) x : In x (addrs l) -> x <> rn_addr r -> In x (addrs (remove_remote l r)).
  Proof.
    unfold addrs. induction l as [|y t IH]; cbn; [auto|]. intros [<-|I] N; destruct (remote_eqb y r) eqn:E; cbn; auto.
    exfalso. unfold remote_eqb in E. apply addr_eqb_spec in E. congruence.
  Qed.
  Lemma addrs_observed w rs m rs' w' : controller_observe db w rs m = Ret (rs', w') -> incl (addrs rs) (addrs rs').
  Proof.
    unfold controller_observe. destruct (is_node_profile_message m); cbn [negb]; [|intro H; inversion H; subst; intros x Ix; exact Ix].
    destruct (remote_from_message w m) as [[r w1]|]; cbn [obind]; [|discriminate].
    destruct (add_standard_all db w1 (rn_objects r)) as [[os w2]|]; cbn [obind]; [|discriminate].
    destruct (node_profile_object _ _ _ _) as [np|]; cbn [obind]; [|discriminate]. intros H. inversion H; subst. clear H.
    intros x Ix. unfold replace_remote, addrs. rewrite map_app, in_app_iff. cbn.
    destruct (sockaddr_eqb x (rn_addr r)) eqn:E; [apply addr_eqb_spec in E; subst; auto|].
    left. apply addrs_remove; [exact Ix|]. cbn. intros X. apply addr_eqb_spec in X. rewrite X in E. discriminate.
  Qed.
  Lemma addrs_nodes l : forall w l' w', controller_nodes w l = Ret (l', w') -> addrs l' = addrs l.
  Proof.
    induction l as [|r t IH]; intros w l' w' E; cbn [controller_nodes] in E; [inversion E; reflexivity|].
    unfold remote_clone in E. destruct (clone_objects w (rn_objects r)) as [[os' w1]|]; cbn [obind fst snd] in E; [|discriminate].
    destruct (controller_nodes w1 t) as [[t' w2]|] eqn:Et; cbn [obind fst snd] in E; [|discriminate]. inversion E; subst. cbn. f_equal. eapply IH; eauto.
  Qed.

  Lemma keeps_step a a' : keeps a -> astep db what net a a' -> keeps a'.
  Proof.
    intros [Pa An Si Fi] St.
    assert (Same : forall t x, match x with Answered (CNodes c) (VNodes l) _ => exists r, a_status a t = Answered (CNodes c) (VNodes l) r | _ => True end -> keeps (a_set a t x)).
    { intros t x X. assert (Y : forall t' c l r, put (a_status a) t x t' = Answered (CNodes c) (VNodes l) r -> exists r', a_status a t' = Answered (CNodes c) (VNodes l) r').
      { intros t' c l r. unfold put. destruct (Nat.eqb_spec t' t) as [->|]; [|eauto]. intros ->. exact X. }
      constructor; cbn; auto; intros t' c l r E; apply Y in E as [r' E]; [eapply An; eauto|eapply Si; eauto]. }
    assert (Life : forall b x, keeps b -> keeps (a_lives b x)) by (intros b x []; constructor; cbn; auto).
    assert (Poison : forall b x, keeps b -> keeps (a_poison b x)) by (intros b x []; constructor; cbn; auto).
    assert (Node : forall b n d, keeps b -> keeps (a_node b n d)) by (intros b n d []; constructor; cbn; auto).
    assert (Acts : forall t c v r r', a_status a t = Answered c v r -> keeps (a_set a t (Answered c v r'))).
    { intros t c v r r' T. apply Same. destruct c; auto. destruct v; auto. eauto. }
    assert (Seen : forall b e, keeps b -> match e with
        | ECall t _ => (forall c v r, a_status b t <> Answered c v r)
        | EReturn t (CNodes c) (VNodes l) => incl (addrs l) (addrs (fst (a_ctrls b c))) /\ forall h1 x h2 t' l',
             a_history b = h1 ++ ECall t x :: h2 -> In (EReturn t' (CNodes c) (VNodes l')) h1 -> incl (addrs l') (addrs l)
        | _ => True end -> keeps (a_seen b e)).
    { intros b e [Pb Ab Sb Fb] X. constructor; cbn.
      - intros t c l I. apply in_app_or in I as [I|[->|[]]]; [eapply Pb; eauto|apply X].
      - exact Ab.
      - intros t c l r T h1 x h2 t' l' E I. apply split_last in E as [(_ & -> & <-)|(h3 & -> & E)]; [destruct (X _ _ _ T)|].
        eapply Sb; eauto.
      - intros h1 t c l h2 E g1 x g2 t' l' Eg I. apply split_last in E as [(-> & -> & <-)|(h3 & -> & E)]; [|eapply Fb; eauto].
        eapply X; eauto. }
    destruct St as [t c T|t c n f d v T Ef Lk X|t c x f d v T Ef Lk X|t n ch m T Nm|t n ch T|t c v T Rf Ex|t c v T
      |t c v n f k' r T|t c v n f k' j o r t' T|t c v n f k' j o r T|t c v n f k' j r t' T|t c v n f k' j r T
      |t data from m T Nt Oc Ps|t m T|t T|t m n r d T Bd Ob|t m c r d w T Bd Ob|t m n r T|t m c r T|t m T
      |t c L T|t m n r T|t m c r T|t data T|t m r t' T|t c v n f k' j o r t' T|t c v n f k' j r t' T].
    - apply Seen; [apply Same; exact Logic.I|]. cbn. unfold put. rewrite Nat.eqb_refl. discriminate.
    - apply Node, Same. destruct c; try exact Logic.I. discriminate.
    - assert (X' : c = CNodes x /\ exists l w, a_ctrls a x = (l, w) /\ exists y w', controller_nodes w l = Ret (y, w') /\ d = (l, w') /\ v = VNodes y).
      { destruct c; cbn in Ef; inversion Ef; subst. destruct (a_ctrls a x) as [l w]. split; [reflexivity|]. exists l, w. split; [reflexivity|].
        destruct (controller_nodes w l) as [[y w']|] eqn:Ey; [|discriminate]. cbn in X. inversion X; subst. exists y, w'. auto. }
      destruct X' as (-> & l & w & El & y & w' & Ey & -> & ->). pose proof (addrs_nodes _ _ _ _ Ey) as Ea.
      assert (Fst : forall c, fst (put (a_ctrls a) x (l, w') c) = fst (a_ctrls a c)).
      { intros c. unfold put. destruct (Nat.eqb_spec c x) as [->|]; [rewrite El|]; reflexivity. }
      constructor; cbn; try exact Fi; try (intros t' c; rewrite Fst; apply Pa).
      + intros t' c l0 r E. rewrite Fst. unfold put in E. destruct (Nat.eqb t' t); [|eapply An; eauto]. inversion E; subst. rewrite El, Ea. intros z Iz. exact Iz.
      + intros t' c l0 r E h1 x0 h2 t1 l1 Eh I. unfold put in E. destruct (Nat.eqb t' t); [|eapply Si; eauto]. inversion E; subst.
        rewrite Ea. specialize (Pa t1 c l1). rewrite El in Pa. apply Pa. rewrite Eh. apply in_or_app. auto.
    - assert (Y : keeps (a_set a t (Answered (CWait n ch) (VGot (Some m)) []))) by (apply Same; exact Logic.I). destruct Y; constructor; cbn; auto.
    - apply Same. exact Logic.I.
    - apply Same. destruct c; cbn in Rf; try discriminate. exact Logic.I.
    - apply Seen; [apply Same; exact Logic.I|]. destruct c; try exact Logic.I. destruct v; try exact Logic.I. cbn. split; [eapply An; eauto|]. eapply Si; eauto.
    - apply Life. assert (Y : forall t' c0 l r', put (put (a_status a) (next (a_life a)) Listening) t (Answered c v r) t' = Answered (CNodes c0) (VNodes l) r' -> exists r1, a_status a t' = Answered (CNodes c0) (VNodes l) r1).
      { intros t' c0 l r'. unfold put. destruct (Nat.eqb_spec t' t) as [->|]; [intros E; inversion E; subst; eauto|]. destruct (Nat.eqb t' _); [discriminate|eauto]. }
      constructor; cbn; auto; intros t' c0 l r' E; apply Y in E as [r1 E]; [eapply An; eauto|eapply Si; eauto].
    - apply Life. eapply Acts; eauto.
    - eapply Acts; eauto.
    - eapply Acts; eauto.
    - apply Life. eapply Acts; eauto.
    - apply Seen; [apply Same; exact Logic.I|exact Logic.I].
    - apply Same. exact Logic.I.
    - apply Same. exact Logic.I.
    - apply Node, Same. exact Logic.I.
    - assert (Inc : forall c', incl (addrs (fst (a_ctrls a c'))) (addrs (fst (put (a_ctrls a) c (d, w) c')))).
      { intros c'. unfold put. destruct (Nat.eqb_spec c' c) as [->|]; [cbn; eapply addrs_observed; eauto|intros z Iz; exact Iz]. }
      destruct (Same t (Busy m r) Logic.I) as [G1 G2 G3 G4]. constructor; cbn; auto.
      + intros t' c' l I. eapply incl_tran; [eapply Pa; eauto|apply Inc].
      + intros t' c' l r' E. eapply incl_tran; [eapply G2; eauto|apply Inc].
    - apply Same. exact Logic.I.
    - apply Same. exact Logic.I.
    - apply Same. exact Logic.I.
    - apply Poison, Same. exact Logic.I.
    - apply Poison, Same. exact Logic.I.
    - apply Poison, Same. exact Logic.I.
    - apply Same. exact Logic.I.
    - apply Same. exact Logic.I.
    - apply Poison, Same. exact Logic.I.
    - apply Poison, Same. exact Logic.I.
  Qed.
  Lemma keeps_all ns cs k a : asteps db what net (a_begins ns cs k) a -> keeps a.
  Proof.
    intros A. remember (a_begins ns cs k) as a0 eqn:E. induction A as [a|a a1 a2 A IH St]; [|eapply keeps_step; eauto]. subst.
    constructor; cbn.
    - intros t c l [].
    - discriminate.
    - discriminate.
    - intros h1 t c l h2 X. destruct h1; discriminate.
  Qed.
End S.
