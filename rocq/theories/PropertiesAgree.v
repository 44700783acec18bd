(** C145: two controllers on one network know the same nodes. *)
From Coq Require Import Permutation.
From Verif Require Import Base HMap ModelCodec ModelMessages DbTable ModelObject ModelTransport ModelNode ModelController ModelHost
  SpecWire SpecObject SpecNode ProofsCodec ProofsCodec2 PropertiesCodec ProofsObject ProofsObject2 ProofsObject3
  PropertiesObject PropertiesDb ProofsDevice ProofsNode ProofsNode2 ProofsNode3 ProofsNode4 ExamplesNode PropertiesNode PropertiesTrans
  PropertiesProfile ProofsExchange ProofsController ProofsHistory PropertiesController PropertiesHost PropertiesHeard.

(** [m] is the last message of its sender that is an answer to a read, or a notification,
    for the node profile. *)
Definition last_word (ms : list message) (m : message) : Prop :=
  for_profile m /\ exists pre post, ms = pre ++ m :: post /\ forall x, In x post -> for_profile x -> msg_from x <> msg_from m.
(** What the last messages of all senders say: who they are from, and what they carry. *)
Definition last_said (ms : list message) (a : sockaddr) (ps : list pprop) : Prop := exists m, last_word ms m /\ msg_from m = a /\ m_props m = ps.

Lemma lat_last ms m : In m (lat ms) <-> last_word ms m.
Proof.
  induction ms as [|x r IH]; cbn [lat].
  - split; [intros []|]. intros (_ & pre & post & E & _). destruct pre; discriminate.
  - assert (G : last_word r m -> last_word (x :: r) m). { intros (F & pre & post & -> & N). split; auto. exists (x :: pre), post. auto. }
    destruct (is_node_profile_message x && negb (over x r)) eqn:E.
    + apply andb_true_iff in E as [Ep Eo]. apply for_profile_spec in Ep. apply negb_true_iff in Eo.
      assert (No : forall y, In y r -> for_profile y -> msg_from y <> msg_from x). { intros y I F Ey. assert (X : over x r = true) by (apply over_spec; eauto). congruence. }
      split.
      * intros [<-|I]; [|apply G, IH, I]. split; auto. exists [], r. auto.
      * intros (F & pre & post & Ex & N). destruct pre as [|y pre]; inversion Ex; subst; [left; auto|]. right. apply IH. split; auto. exists pre, post. auto.
    + split; [intro I; apply G, IH, I|]. intros (F & pre & post & Ex & N). destruct pre as [|y pre]; inversion Ex; subst.
      * exfalso. apply for_profile_spec in F. rewrite F in E. cbn [andb] in E. apply negb_false_iff in E. apply over_spec in E as (y & I & Fy & Ey). eapply N; eauto.
      * apply IH. split; auto. exists pre, post. auto.
Qed.
Lemma lat_senders ms : NoDup (map msg_from (lat ms)).
Proof.
  induction ms as [|x r IH]; cbn [lat]; [constructor|]. destruct (is_node_profile_message x && negb (over x r)) eqn:E; auto. cbn [map]. constructor; auto.
  intro I. apply in_map_iff in I as (y & Ey & Iy). apply lat_in in Iy as [Iy Py]. apply andb_true_iff in E as [_ E]. apply negb_true_iff in E.
  assert (X : over x r = true) by (apply over_spec; exists y; split; auto; split; auto; apply for_profile_spec; auto). congruence.
Qed.
Lemma shows_senders l s : Forall2 shows l s -> map fst s = map msg_from l.
Proof. induction 1 as [|m e l s (c & _ & ->) F IH]; cbn; congruence. Qed.
Lemma shows_in l s e : Forall2 shows l s -> (In e s <-> exists m, In m l /\ shows m e).
Proof.
  intro F. induction F as [|m x l s H F IH]; cbn [In]; [split; [intros []|intros (m & [] & _)]|]. rewrite IH. split.
  - intros [<-|(y & I & S)]; eauto.
  - intros (y & [<-|I] & S); [left; eapply shows_fun; eauto|right; eauto].
Qed.
Lemma shows_said m m' e : shows m e -> msg_from m' = msg_from m -> m_props m' = m_props m -> shows m' e.
Proof. intros (c & L & ->) A B. exists c. rewrite A, B. auto. Qed.

Section S.
  Context {P : Profile} {HO : HashOrder} {Os : OS} {Uu : Uuids} (seed : N -> N) (db : list object) (seed' : N -> N) (db' : list object).
  Hypothesis Db : standard_database seed = Ret db.
  Hypothesis Db' : standard_database seed' = Ret db'.
  Hypothesis Uo : forall k, uuid_ok (new_uuid k).

  (** Two controllers to whom every sender said the same last know the same nodes with the
      same objects, whatever was said before, in whatever order the senders came, and
      whatever other messages arrived. *)
  Theorem C145_agree_partial : forall ms ms' w w' rs w1 rs' w1', Forall received ms -> Forall received ms' ->
    (forall a ps, last_said ms a ps <-> last_said ms' a ps) ->
    hears db w [] ms = Ret (rs, w1) -> hears db' w' [] ms' = Ret (rs', w1') -> Permutation (shown rs) (shown rs').
  Proof.
    intros ms ms' w w' rs w1 rs' w1' F F' Same E E'.
    destruct (heard seed db Db Uo ms w F) as (r0 & x0 & H & S & _). rewrite E in H. inversion H; subst r0 x0.
    destruct (heard seed' db' Db' Uo ms' w' F') as (r0 & x0 & H' & S' & _). rewrite E' in H'. inversion H'; subst r0 x0.
    assert (Nd : forall l s, Forall2 shows l s -> NoDup (map msg_from l) -> NoDup s).
    { intros l s Fs N. rewrite <- (shows_senders _ _ Fs) in N. eapply NoDup_map_inv; eauto. }
    apply NoDup_Permutation; [apply (Nd _ _ S), lat_senders|apply (Nd _ _ S'), lat_senders|].
    intro e. rewrite (shows_in _ _ e S), (shows_in _ _ e S'). split; intros (m & I & Sh); apply lat_last in I.
    - destruct (proj1 (Same (msg_from m) (m_props m))) as (m' & L & A & B); [exists m; auto|]. exists m'. split; [apply lat_last; auto|]. eapply shows_said; eauto.
    - destruct (proj2 (Same (msg_from m) (m_props m))) as (m' & L & A & B); [exists m; auto|]. exists m'. split; [apply lat_last; auto|]. eapply shows_said; eauto.
  Qed.

  (** What all controllers hear of a node is the announcement of its start. A controller
      that has heard it, whatever it has heard before, knows the node without any of its
      devices. *)
  Theorem C145_announced_refuted : forall U np (n0 : node U) ops u w u' n w1 n' w' tr, profile_like np -> node_new np = Ret n0 ->
    Forall op_ok ops -> Forall undisturbed ops -> node_run (u, n0, w) ops = Ret (u', n, w1) -> (length (added ops) <= 84)%nat ->
    Forall (fun c => c < 2 ^ 24) (added ops) ->
    node_start w1 n = Ret (true, n', w') -> since w1 w' tr ->
    forall dst d, In (dst, d) (offered tr) -> dst = group /\ exists m, msg_parse msg_new (firstn MAX_PACKET_SIZE d) = Ret (true, m) /\
    forall a ms w2 rs w3, Forall received ms -> hears db w2 [] (ms ++ [msg_set_from m a]) = Ret (rs, w3) -> In (a, [0x0EF001]) (shown rs) /\
      forall l, In (a, l) (shown rs) -> l = [0x0EF001].
  Proof.
    intros U np n0 ops u w u' n w1 n' w' tr L N F Un R Len Sm St Sw dst d I.
    destruct (C35_startup np n0 ops u w u' n w1 n' w' L N F Un R Len St) as (tr0 & t & S0 & Ht & Eo & Es).
    rewrite (since_unique _ _ _ _ Sw S0), Eo, Es in I. apply repeat_spec in I. inversion I; subst dst d. split; auto.
    set (f := Frame t 0x0EF001 0x0EF001 0x73 (Single [(0xD5, instance_list (added ops))])).
    assert (Ls : (length (instance_list (added ops)) <= 253)%nat /\ octets (instance_list (added ops))).
    { unfold instance_list. split.
      - cbn [length]. assert (X : forall l, length (flat_map wire_eoj l) = (3 * length l)%nat) by (induction l as [|c l IH]; cbn [flat_map]; rewrite ?app_length; cbn [length wire_eoj]; lia). rewrite X. lia.
      - constructor; [unfold octet; lia|]. clear -Sm. induction Sm as [|c l Hc F IH]; cbn [flat_map]; [constructor|]. apply Forall_app. split; auto.
        unfold wire_eoj. repeat (constructor; [unfold octet; lia|]). constructor. }
    destruct Ls as [Ls Lo].
    assert (Fk : frame_ok f).
    { split; [exact Ht|]. split; [cbn; lia|]. split; [cbn; lia|]. split; [cbn; lia|]. split; [intros [X|[X|X]]; discriminate|]. split; [|cbn; lia].
      constructor; [|constructor]. split; [reflexivity|]. split; [exact Lo|]. cbn [snd]. lia. }
    assert (Pd : msg_parse msg_new (wire f) = Ret (true, msg_of_frame msg_new f)). { rewrite <- (app_nil_r (wire f)). apply parse_wire. auto. }
    assert (Lw : (length (wire f) <= MAX_PACKET_SIZE)%nat).
    { unfold f, wire, wire_eoj, wire_body, wire_props, wire_prop. cbn [f_tid f_seoj f_deoj f_esv f_body map concat app length fst snd]. rewrite ?app_nil_r. unfold MAX_PACKET_SIZE. lia. }
    rewrite firstn_all2 by exact Lw. exists (msg_of_frame msg_new f). split; [exact Pd|]. intros a ms w2 rs w3 Fm H.
    set (m := msg_set_from (msg_of_frame msg_new f) a) in *.
    assert (Rm : received m). { exists (wire f), (msg_of_frame msg_new f), a. split; [|split; [exact Pd|reflexivity]]. apply wire_octets. exact Fk. }
    destruct (heard seed db Db Uo (ms ++ [m]) w2) as (rs0 & w0 & H0 & S & _); [apply Forall_app; auto|]. rewrite H in H0. inversion H0; subst rs0 w0.
    assert (Fp : for_profile m). { destruct (carries_msg_of_frame f Fk) as (_ & _ & C3 & C4 & _). split; [right; exact C4|left; exact C3]. }
    assert (Fr : msg_from m = a) by reflexivity.
    assert (Sh : shows m (a, [0x0EF001])). { exists [[]]. split; [|reflexivity]. constructor; [|constructor]. apply L_other. cbn. discriminate. }
    assert (Lm : In m (lat (ms ++ [m]))). { apply lat_last. split; auto. exists ms, []. split; [reflexivity|intros x []]. }
    split; [apply (shows_in _ _ _ S); eauto|]. intros l Il. apply (shows_in _ _ _ S) in Il as (x & Ix & Sx).
    assert (x = m); [|subst x; pose proof (shows_fun _ _ _ Sx Sh) as Q; inversion Q; auto].
    assert (msg_from x = a) by (destruct Sx as (c & _ & Q); inversion Q; auto).
    apply lat_last in Ix as (Fx & pre & post & Ex & Nx).
    destruct (rev post) as [|y post'] eqn:Ep.
    - assert (post = []) by (rewrite <- (rev_involutive post), Ep; reflexivity). subst post. apply app_inj_tail in Ex as [_ Ex]. auto.
    - assert (post = rev post' ++ [y]) by (rewrite <- (rev_involutive post), Ep; reflexivity). subst post.
      rewrite app_comm_cons, app_assoc in Ex. apply app_inj_tail in Ex as [_ Ex]. subst y. exfalso. apply (Nx m); [apply in_or_app; right; left; auto|auto|congruence].
  Qed.
End S.
Print Assumptions C145_agree_partial.
Print Assumptions C145_announced_refuted.

(** ** Cases *)
Section Cases.
  Local Existing Instance ex_order.
  Local Existing Instance ex_os.
  Local Existing Instance ex_uuids.
  Definition house_ops : list (node_op unit) := [OpAddObject lamp; OpAddHandler yes].
  Definition started_ops : list (node_op unit) := house_ops ++ [OpStart].
  (** What the node sends when it starts, and when it is searched from [a]. *)
  Definition at_start : list (sockaddr * list N) := sent (skipn (length (w_trace (ex_w house_ops))) (w_trace (ex_w started_ops))).
  Definition when_searched (a : sockaddr) : list (sockaddr * list N) :=
    match node_observe (P := true) (ex_w started_ops) tt (ex_n started_ops)
            (msg_set_from (ex_rcv (wire (Frame 7 0x0EF001 0x0EF001 0x62 (Single [(0xD6, [])])))) a) with
    | Ret (_, _, w) => sent (skipn (length (w_trace (ex_w started_ops))) (w_trace w))
    | Panic => []
    end.
  (** What a controller at [a] knows when it has heard what was sent to it or to all. *)
  Definition hears_at (a : ipaddr) (l : list (sockaddr * list N)) : list (list N) :=
    map snd (filter (fun x => sockaddr_eqb (fst x) group || sockaddr_eqb (fst x) (a, 3610)) l).
  Definition knows (a : ipaddr) (l : list (sockaddr * list N)) : option (list (sockaddr * list N)) :=
    match hears (P := true) ex_db w0 [] (map ex_rcv (hears_at a l)) with Ret (rs, _) => Some (shown rs) | Panic => None end.
  Definition asker : ipaddr := V4 0xC0A80032.
  Definition listener : ipaddr := V4 0xC0A80033.
  (** Both controllers are there when the node starts, and know it without its lamp; the
      first searches, and knows the lamp; the other does not. *)
  Theorem C145_search_refuted : knows asker at_start = Some [(peer, [0x0EF001])] /\ knows listener at_start = Some [(peer, [0x0EF001])] /\
    map fst (when_searched (asker, 3610)) = [(asker, 3610)] /\
    knows asker (at_start ++ when_searched (asker, 3610)) = Some [(peer, [0x029101; 0x0EF001])] /\
    knows listener (at_start ++ when_searched (asker, 3610)) = Some [(peer, [0x0EF001])].
  Proof. split; [vm_compute; reflexivity|]. split; [vm_compute; reflexivity|]. split; [vm_compute; reflexivity|]. split; vm_compute; reflexivity. Qed.
  (** When both search they agree. *)
  Example C145_case : knows listener (at_start ++ when_searched (asker, 3610) ++ when_searched (listener, 3610)) = Some [(peer, [0x029101; 0x0EF001])].
  Proof. vm_compute. reflexivity. Qed.
  (** The same last words in another order: the same nodes in another order. *)
  Definition told (a : ipaddr) (codes : list N) : message := msg_set_from (ex_rcv (wire (Frame 7 0x0EF001 0x0EF001 0x72 (Single [(0xD6, instance_list codes)])))) (a, 3610).
  Definition knows_of (ms : list message) : option (list (sockaddr * list N)) :=
    match hears (P := true) ex_db w0 [] ms with Ret (rs, _) => Some (shown rs) | Panic => None end.
  Example C145_order_case : knows_of [told asker [0x029101]; told listener [0x013001]] = Some [((asker, 3610), [0x029101; 0x0EF001]); ((listener, 3610), [0x013001; 0x0EF001])] /\
    knows_of [told asker []; told listener [0x013001]; told asker [0x029101]] = Some [((listener, 3610), [0x013001; 0x0EF001]); ((asker, 3610), [0x029101; 0x0EF001])].
  Proof. split; vm_compute; reflexivity. Qed.
End Cases.
Print Assumptions C145_search_refuted.
