(** The controller's list of remote nodes. *)
From Verif Require Import Base HMap ModelCodec ModelMessages DbTable ModelObject ModelTransport ModelNode ModelController ModelHost
  SpecWire SpecObject SpecNode ProofsCodec ProofsCodec2 PropertiesCodec ProofsObject ProofsObject2 ProofsObject3
  PropertiesObject PropertiesDb ProofsDevice ProofsNode ProofsNode2.

(** ** Vocabulary *)
(** A message that the controller takes for a node profile message: 0x72 or 0x73 to
    a node profile object. *)
Definition for_profile (m : message) : Prop :=
  (m_esv m = 0x72 \/ m_esv m = 0x73) /\ (msg_deoj m = 0x0EF001 \/ msg_deoj m = 0x0EF002).
(** The codes that the controller takes from a property. *)
Inductive listed : pprop -> list N -> Prop :=
| L_other q : pp_code q <> 0xD6 -> listed q []
| L_empty : listed (PProp 0xD6 []) []
| L_short k d : (length d < 3 * N.to_nat k)%nat -> listed (PProp 0xD6 (k :: d)) []
| L_codes k codes rest : (3 * N.to_nat k <= length (flat_map wire_eoj codes ++ rest))%nat -> (length rest < 3)%nat ->
    Forall (fun c => c < 16777216) codes -> listed (PProp 0xD6 (k :: flat_map wire_eoj codes ++ rest)) codes.

Lemma esv_is v e : esv_eqb (esv_from_u8 v) e = true -> e <> EUnknown -> v = esv_to_u8 e.
Proof.
  intros E N. destruct (esv_from_u8_cases v) as [[X _]|(x & Hx & Ev & X)]; rewrite X in E.
  - destruct e; cbn in E; try discriminate; contradiction.
  - subst v. destruct x, e; cbn in E; try discriminate; reflexivity.
Qed.
Lemma for_profile_spec m : is_node_profile_message m = true <-> for_profile m.
Proof.
  unfold is_node_profile_message, for_profile, msg_esv, NODE_PROFILE_OBJECT_CODE, NODE_PROFILE_OBJECT_READ_ONLY. split.
  - destruct (esv_eqb (esv_from_u8 (m_esv m)) ENotification) eqn:E1; cbn [negb andb].
    + apply esv_is in E1; [|discriminate]. destruct (N.eqb_spec (msg_deoj m) 0x0EF001); cbn [negb andb]; auto.
      destruct (N.eqb_spec (msg_deoj m) 0x0EF002); cbn [negb andb]; auto. discriminate.
    + destruct (esv_eqb (esv_from_u8 (m_esv m)) EReadResponse) eqn:E2; cbn [negb andb]; [|discriminate].
      apply esv_is in E2; [|discriminate]. destruct (N.eqb_spec (msg_deoj m) 0x0EF001); cbn [negb andb]; auto.
      destruct (N.eqb_spec (msg_deoj m) 0x0EF002); cbn [negb andb]; auto. discriminate.
  - intros [[-> | ->] [-> | ->]]; reflexivity.
Qed.

Section S.
  Context {P : Profile} {HO : HashOrder} {Os : OS} {Uu : Uuids}.

  Lemma to_u32_3 a b c : octet a -> octet b -> octet c -> bytes_to_u32 [a; b; c] = Ret (a * 65536 + b * 256 + c).
  Proof.
    intros A B C. destruct (C11_int_codec_back P [a; b; c]) as (v & E & -> & _).
    - repeat constructor; auto.
    - cbn. lia.
    - rewrite E. f_equal. unfold be_value. cbn. lia.
  Qed.
  Lemma instance_codes_spec d : octets d -> exists codes rest, d = flat_map wire_eoj codes ++ rest /\ (length rest < 3)%nat /\
    Forall (fun c => c < 16777216) codes /\ instance_codes d = Ret codes.
  Proof.
    remember (length d) as k eqn:Ek. revert d Ek. induction k as [k IH] using (well_founded_induction lt_wf). intros d Ek Hd.
    destruct d as [|a [|b [|c r]]].
    1-3: eexists []; eexists; split; [reflexivity|]; split; [cbn; lia|]; split; [constructor|reflexivity].
    inversion Hd as [|? ? Ha Hd1]; inversion Hd1 as [|? ? Hb Hd2]; inversion Hd2 as [|? ? Hc Hr]; subst.
    destruct (IH (length r)) with (d := r) as (codes & rest & E & L & F & I); auto; [cbn; lia|].
    exists (a * 65536 + b * 256 + c :: codes), rest. unfold octet in *. split; [|split; [auto|split; [constructor; [lia|auto]|]]].
    - cbn [flat_map]. unfold wire_eoj at 1. rewrite <- app_assoc, <- E. cbn [app]. f_equal; [lia|]. f_equal; [lia|]. f_equal. lia.
    - cbn [instance_codes]. rewrite to_u32_3 by (unfold octet; auto). cbn [obind]. rewrite I. reflexivity.
  Qed.
  (** The codes found are those of the specification, which is unambiguous. *)
  Lemma codes_unique c1 : forall r1 c2 r2, flat_map wire_eoj c1 ++ r1 = flat_map wire_eoj c2 ++ r2 -> (length r1 < 3)%nat -> (length r2 < 3)%nat ->
    Forall (fun c => c < 16777216) c1 -> Forall (fun c => c < 16777216) c2 -> c1 = c2.
  Proof.
    induction c1 as [|x c1 IH]; intros r1 [|y c2] r2 E L1 L2 F1 F2; auto.
    - cbn in E. subst r1. cbn in L1. lia.
    - cbn in E. subst r2. cbn in L2. lia.
    - cbn [flat_map] in E. unfold wire_eoj at 1 3 in E. rewrite <- !app_assoc in E. cbn [app] in E. inversion E as [[A B C D]].
      inversion F1; inversion F2; subst. f_equal; [lia|]. exact (IH r1 c2 r2 D L1 L2 H2 H6).
  Qed.
  Lemma listed_unique q a b : listed q a -> listed q b -> a = b.
  Proof.
    intros H K. inversion H; subst; inversion K; subst; cbn in *; try congruence; try lia.
    eapply codes_unique; eauto.
  Qed.
  Lemma profile_codes_spec ps : Forall u8prop ps -> exists css, node_profile_codes ps = Ret (concat css) /\ Forall2 listed ps css.
  Proof.
    induction 1 as [|[c d] r [Hc Hd] F (css & E & L)]; [exists []; split; [reflexivity|constructor]|]. cbn [node_profile_codes pp_code pp_data].
    unfold NP_INSTANCE_LIST_S. destruct (N.eqb_spec c 0xD6) as [->|Ne]; cbn [negb].
    2:{ exists ([] :: css). split; auto. constructor; auto. apply L_other. auto. }
    destruct d as [|k d]; [exists ([] :: css); split; auto; constructor; auto; apply L_empty|].
    destruct (Nat.ltb_spec (S (length d)) (N.to_nat k * 3 + 1)) as [S|S].
    - exists ([] :: css). split; auto. constructor; auto. apply L_short. lia.
    - assert (Hd' : octets d) by (inversion Hd; auto). destruct (instance_codes_spec d) as (codes & rest & Ed & Lr & Fc & I); auto.
      rewrite I, E. cbn [obind]. exists (codes :: css). split; auto. constructor; auto. rewrite Ed. apply L_codes; auto. rewrite <- Ed. lia.
  Qed.

  Lemma remote_add_codes_spec codes : forall w r r' w', remote_add_codes w r codes = (r', w') ->
    rn_addr r' = rn_addr r /\ exists os, rn_objects r' = rn_objects r ++ os /\ Forall2 (fun c o => exists s, o = object_from_code s c) codes os.
  Proof.
    induction codes as [|c l IH]; intros w r r' w' E; cbn [remote_add_codes] in E.
    - inversion E; subst. split; auto. exists []. rewrite app_nil_r. auto.
    - apply IH in E as (A & os & B & C). split; auto. eexists. split; [rewrite B; cbn; rewrite <- app_assoc; reflexivity|].
      constructor; eauto.
  Qed.
  Lemma from_code_code s c : c < 16777216 -> object_code (object_from_code s c) = c.
  Proof.
    intro H. unfold object_from_code. destruct (C15_object_code (object_new s) c) as (A & _); [change (2 ^ 32) with 4294967296; lia|]. rewrite A.
    change (2 ^ 24) with 16777216. lia.
  Qed.

  Variables (seed : N -> N) (db : list object).
  Hypothesis Db : standard_database seed = Ret db.
  Hypothesis Uo : forall k, uuid_ok (new_uuid k).
  (** A new object of the given class with all standard properties. *)
  Definition standard_object (c : N) (o : object) : Prop := exists u1 u2 s, uuid_ok u1 /\ uuid_ok u2 /\ device_object db u1 u2 s c = Ret o.
  Lemma standard_code c o : c < 16777216 -> standard_object c o -> object_code o = c.
  Proof.
    intros H (u1 & u2 & s & A & B & D). destruct (device_spec seed db u1 u2 s c Db A B) as (o' & D' & _ & _ & C & _). rewrite D in D'. inversion D'; subst o'.
    rewrite (object_code_codes _ _ C). apply (from_code_code s c H).
  Qed.
  Lemma add_standard_all_spec codes : forall os w, Forall2 (fun c o => exists s, o = object_from_code s c) codes os -> Forall (fun c => c < 16777216) codes ->
    exists os' w', add_standard_all db w os = Ret (os', w') /\ Forall2 standard_object codes os'.
  Proof.
    induction codes as [|c l IH]; intros os w F B; inversion F as [|? o ? r (s & ->) F' E1 E2]; subst; inversion B; subst; cbn [add_standard_all].
    - eauto.
    - rewrite from_code_code by auto. destruct (device_spec seed db (new_uuid (w_calls w)) (new_uuid (w_calls w + 1)) s c Db (Uo _) (Uo _)) as (o & D & _).
      change (object_from_code s c) with (object_set_code (object_new s) c). unfold device_object in D. rewrite D. cbn [obind].
      destruct (IH r (tick (tick w))) as (os' & w' & E & F2); auto. rewrite E. cbn [obind fst snd]. eexists. eexists. split; [reflexivity|].
      constructor; auto. exists (new_uuid (w_calls w)), (new_uuid (w_calls w + 1)), s. split; auto.
  Qed.

  Lemma addr_eqb_spec a b : sockaddr_eqb a b = true <-> a = b.
  Proof.
    unfold sockaddr_eqb. destruct a as [[x|x] p], b as [[y|y] q]; cbn [fst snd ipaddr_eqb andb];
      rewrite ?andb_true_iff, ?N.eqb_eq; split; try congruence; try tauto; try (intros [-> ->]; auto); try (intro H; inversion H; auto).
  Qed.
  Lemma remote_eqb_spec a b : remote_eqb a b = true <-> rn_addr a = rn_addr b.
  Proof. apply addr_eqb_spec. Qed.
  (** Without duplicates, replacing forgets exactly the entry of that address. *)
  Lemma remove_spec r l : NoDup (map rn_addr l) -> forall x, In x (remove_remote l r) <-> In x l /\ rn_addr x <> rn_addr r.
  Proof.
    induction l as [|y t IH]; intros N x; cbn [remove_remote]; [cbn; tauto|]. inversion N as [|? ? H1 H2]; subst.
    destruct (remote_eqb y r) eqn:E; cbn [negb].
    - apply remote_eqb_spec in E. cbn [In]. split.
      + intro I. split; auto. intro X. apply H1. rewrite E, <- X. apply in_map. auto.
      + intros [[->|I] X]; [contradiction|auto].
    - cbn [In]. rewrite IH by auto. split; [|tauto]. intros [->|[I X]]; [|auto]. split; auto. intro X. apply remote_eqb_spec in X. congruence.
  Qed.
  Lemma remove_addrs r l : incl (map rn_addr (remove_remote l r)) (map rn_addr l).
  Proof.
    induction l as [|y t IH]; cbn [remove_remote]; [apply incl_refl|]. destruct (remote_eqb y r); cbn [negb map]; [apply incl_tl, incl_refl|].
    intros a [<-|I]; [left; auto|right; auto].
  Qed.
  Lemma remove_nodup r l : NoDup (map rn_addr l) -> NoDup (map rn_addr (remove_remote l r)).
  Proof.
    induction l as [|y t IH]; intro N; cbn [remove_remote]; [constructor|]. inversion N as [|? ? H1 H2]; subst.
    destruct (remote_eqb y r); cbn [negb map]; auto. constructor; auto. intro X. apply H1. apply (remove_addrs r). auto.
  Qed.
  Lemma replace_nodup r l : NoDup (map rn_addr l) -> NoDup (map rn_addr (replace_remote l r)).
  Proof.
    intro N. unfold replace_remote. rewrite map_app. cbn [map].
    assert (X : forall (a : sockaddr) l, NoDup l -> ~ In a l -> NoDup (l ++ [a])).
    { clear. intros a l N I. induction N as [|x r H N IH]; cbn [app]; [repeat constructor; auto|]. constructor.
      - rewrite in_app_iff. cbn. intros [Y|[Y|[]]]; [auto|subst; apply I; left; auto].
      - apply IH. intro Y. apply I. right. auto. }
    apply X; [apply remove_nodup; auto|]. intro I. apply in_map_iff in I as (x & Ex & I). apply remove_spec in I as [_ I]; auto.
  Qed.

  (** What a controller does with a message that it takes for a node profile
      message. *)
  Lemma controller_entry w remotes m : Forall u8prop (m_props m) -> for_profile m ->
    exists css r w', Forall2 listed (m_props m) css /\ rn_addr r = msg_from m /\
      Forall2 standard_object (concat css ++ [0x0EF001]) (rn_objects r) /\
      map object_code (rn_objects r) = concat css ++ [0x0EF001] /\
      controller_observe db w remotes m = Ret (replace_remote remotes r, w').
  Proof.
    intros Hp Hf. apply for_profile_spec in Hf. unfold controller_observe, remote_from_message. rewrite Hf. cbn [negb].
    destruct (profile_codes_spec (m_props m) Hp) as (css & E & L). rewrite E. cbn [obind].
    destruct (remote_add_codes w {| rn_addr := msg_from m; rn_objects := [] |} (concat css)) as [r w1] eqn:E1.
    apply remote_add_codes_spec in E1 as (A & os & B & C). cbn in A, B.
    assert (Bd : Forall (fun c => c < 16777216) (concat css)).
    { clear - L. induction L as [|q cs ps css H L IH]; cbn; auto. apply Forall_app. split; auto. inversion H; subst; auto. }
    rewrite B. destruct (add_standard_all_spec (concat css) os w1 C Bd) as (os' & w2 & E2 & F). rewrite E2. cbn [obind].
    unfold node_profile_object, NODE_PROFILE_OBJECT_CODE.
    destruct (device_spec seed db (new_uuid (w_calls w2)) (new_uuid (w_calls w2 + 1)) (os_seed (w_calls w2)) 0x0EF001 Db (Uo _) (Uo _)) as (np & D & _).
    rewrite D. cbn [obind]. exists css. eexists. eexists. split; [exact L|]. split; [|split; [|split; [|reflexivity]]].
    - exact A.
    - cbn. apply Forall2_app; auto. constructor; [|constructor]. exists (new_uuid (w_calls w2)), (new_uuid (w_calls w2 + 1)), (os_seed (w_calls w2)). auto.
    - cbn. rewrite map_app. cbn [map]. f_equal.
      + clear - F Bd Db. induction F as [|c o l r H F IH]; auto. inversion Bd; subst. cbn. f_equal; auto. eapply standard_code; eauto.
      + f_equal. apply (standard_code 0x0EF001); [lia|]. exists (new_uuid (w_calls w2)), (new_uuid (w_calls w2 + 1)), (os_seed (w_calls w2)). auto.
  Qed.
  Lemma controller_ignores w remotes m : ~ for_profile m -> controller_observe db w remotes m = Ret (remotes, w).
  Proof.
    intro H. unfold controller_observe. destruct (is_node_profile_message m) eqn:E; [|reflexivity]. exfalso. apply H, for_profile_spec. auto.
  Qed.
End S.
Lemma controller_observe_nodup {P : Profile} {HO : HashOrder} {Os : OS} {Uu : Uuids} db w remotes m remotes' w' : controller_observe db w remotes m = Ret (remotes', w') ->
  NoDup (map rn_addr remotes) -> NoDup (map rn_addr remotes').
Proof.
  unfold controller_observe. destruct (is_node_profile_message m); cbn [negb]; [|intro H; inversion H; auto].
  destruct (remote_from_message w m) as [[r w1]|]; cbn [obind]; [|discriminate].
  destruct (add_standard_all db w1 (rn_objects r)) as [[os w2]|]; cbn [obind]; [|discriminate].
  destruct (node_profile_object _ _ _ _) as [np|]; cbn [obind]; [|discriminate]. intros H N. inversion H; subst. apply replace_nodup; auto.
Qed.
