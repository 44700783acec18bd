(** C98 is false of nodes with many devices. *)
From Verif Require Import Base HMap ModelCodec ModelMessages ModelObject ModelTransport ModelNode ModelController ModelHost ModelNetwork
  SpecWire SpecObject SpecNode SpecHost SpecRemote ProofsCodec ProofsCodec2 PropertiesCodec ProofsObject ProofsObject2 ProofsObject3
  PropertiesObject PropertiesDb ProofsDevice ProofsNode ProofsNode2 ProofsNode3 ProofsNode4 ExamplesNode PropertiesNode PropertiesTrans PropertiesProfile ProofsExchange
  ProofsController ProofsHistory PropertiesController ProofsHost ProofsHost2 PropertiesHost PropertiesFrames PropertiesNetwork PropertiesDiscovery.

(** ** Deliveries that are computed *)
Definition event_dec : forall a b : event, {a = b} + {a <> b}.
Proof. repeat decide equality. Defined.
Definition sockaddr_dec : forall a b : sockaddr, {a = b} + {a <> b}.
Proof. repeat decide equality. Defined.
Definition ip_dec : forall a b : ipaddr, {a = b} + {a <> b}.
Proof. repeat decide equality. Defined.
Definition trace_since (w w' : world) : option (list event) :=
  let tr := skipn (length (w_trace w)) (w_trace w') in if list_eq_dec event_dec (w_trace w') (w_trace w ++ tr) then Some tr else None.
Lemma trace_since_spec w w' tr : trace_since w w' = Some tr -> since w w' tr.
Proof. unfold trace_since. destruct (list_eq_dec _ _ _) as [E|]; [|discriminate]. intros [= <-]. exact E. Qed.

Section C.
  Context {U : Type} (machines : nat -> machine) (addr : nat -> sockaddr).
  Definition taken (j : nat) (x : nat * server_id) : reception := Reception (fst x) (snd x) (addr j) (fun _ => true).
  Fixpoint carry (p : packet) (j : nat) (hs : list (host U * world)) (ks : list (nat * server_id)) : option (list (host U * world) * flight) :=
    match ks with
    | [] => Some (hs, [])
    | x :: r =>
      match nth_error hs (fst x) with
      | Some (h, w) =>
        let '(h', w') := takes machines (fst x) (taken j x) h w p in
        match trace_since w w' with
        | Some tr => option_map (fun y => (fst y, map (pair (fst x)) (packets tr) ++ snd y)) (carry p j (set_nth hs (fst x) (h', w')) r)
        | None => None
        end
      | None => None
      end
    end.
  Lemma carry_sound p j ks : forall hs hs' new, carry p j hs ks = Some (hs', new) -> carried machines p hs (map (taken j) ks) hs' new.
  Proof.
    induction ks as [|x r IH]; intros hs hs' new E; cbn [carry map] in *; [injection E as <- <-; constructor|].
    destruct (nth_error hs (fst x)) as [[h w]|] eqn:En; [|discriminate]. destruct (takes machines (fst x) (taken j x) h w p) as [h' w'] eqn:Et.
    destruct (trace_since w w') as [tr|] eqn:Es; [|discriminate]. destruct (carry p j _ r) as [[hs1 new1]|] eqn:Ec; [|discriminate]. injection E as <- <-.
    eapply (carried_cons machines p hs (taken j x)); [exact En|exact Et|exact (trace_since_spec _ _ _ Es)|]. apply IH, Ec.
  Qed.
  Definition heard (hs : list (host U * world)) (k : nat) (x : nat * server_id) : bool :=
    Nat.eqb (fst x) k && match nth_error hs k with Some (h, _) => match h_server h (snd x) with Some _ => true | None => false end | None => false end.
  Definition meant (p : packet) (k : nat) : bool :=
    (if sockaddr_dec (pk_to p) group then true else false) || (if ip_dec (fst (pk_to p)) (fst (addr k)) then true else false).
  Definition deliver (s : list (host U * world) * flight) (ks : list (nat * server_id)) : option (list (host U * world) * flight) :=
    match snd s with
    | [] => None
    | (j, p) :: post =>
      if forallb (fun k => implb (meant p k) (existsb (heard (fst s) k) ks)) (seq 0 (length (fst s)))
      then option_map (fun y => (fst y, post ++ snd y)) (carry p j (fst s) ks) else None
    end.
  Lemma deliver_sound s ks s' : deliver s ks = Some s' -> delivery machines addr s s'.
  Proof.
    unfold deliver. destruct s as [hs fl]. cbn [fst snd]. destruct fl as [|[j p] post]; [discriminate|]. destruct (forallb _ _) eqn:F; [|discriminate].
    destruct (carry p j hs ks) as [[hs' new]|] eqn:Ec; [|discriminate]. intros [= <-]. cbn [fst snd].
    apply (Delivery machines addr hs [] j p post (map (taken j) ks) hs' new).
    - apply Forall_forall. intros r Ir. apply in_map_iff in Ir as (x & <- & _). split; reflexivity.
    - intros k Lk M. rewrite forallb_forall in F. specialize (F k). assert (Ik : In k (seq 0 (length hs))) by (apply in_seq; lia). specialize (F Ik).
      assert (Mk : meant p k = true).
      { unfold meant. destruct M as [M|M]; [destruct (sockaddr_dec (pk_to p) group); [reflexivity|contradiction]|].
        destruct (ip_dec (fst (pk_to p)) (fst (addr k))); [apply orb_true_r|contradiction]. }
      rewrite Mk in F. cbn [implb] in F. apply existsb_exists in F as (x & Ix & F). apply andb_true_iff in F as [F1 F2]. apply Nat.eqb_eq in F1.
      exists (taken j x). split; [apply in_map, Ix|]. split; [exact F1|]. destruct (nth_error hs k) as [[h w]|] eqn:En; [|discriminate].
      cbn [taken rc_server]. destruct (h_server h (snd x)) as [s|] eqn:Eh; [|discriminate]. exists h, w, s. auto.
    - exact (carry_sound p j ks hs hs' new Ec).
  Qed.
  Fixpoint deliver_all (s : list (host U * world) * flight) (l : list (list (nat * server_id))) : option (list (host U * world) * flight) :=
    match l with [] => Some s | ks :: r => match deliver s ks with Some s' => deliver_all s' r | None => None end end.
  Lemma deliver_all_sound l : forall s s', deliver_all s l = Some s' -> deliveries_made machines addr s (length l) s'.
  Proof.
    induction l as [|ks r IH]; intros s s' E; cbn [deliver_all length] in *; [injection E as <-; constructor|].
    destruct (deliver s ks) as [s1|] eqn:E1; [|discriminate]. econstructor; [exact (deliver_sound _ _ _ E1)|exact (IH _ _ E)].
  Qed.
  Lemma delivered (Q : list (host U * world) -> Prop) s l : match deliver_all s l with Some (hs, []) => Q hs | _ => False end ->
    exists n hs, deliveries_made machines addr s n (hs, []) /\ Q hs.
  Proof.
    destruct (deliver_all s l) as [[hs [|x fl]]|] eqn:E; [|intros []|intros []]. intros H. exists (length l), hs. split; [exact (deliver_all_sound _ _ _ E)|exact H].
  Qed.
End C.

(** ** C98, refuted for 85 devices *)
(** A process with 85 lamps. *)
Definition many_codes : list N := map (fun k => 0x029101 + N.of_nat k) (seq 0 85).
Definition many_ops : list (host_op unit) :=
  HApi (OpAddObserver (Observer 1 ObsNode)) :: map (fun c => HApi (OpAddObject (object_from_code 0 c))) many_codes ++ [HApi OpStart].
Definition many_plan : list (list (nat * server_id)) := [[(1, Multi 0); (0, Multi 0)]; [(0, Uni 0)]; [(0, Uni 0)]]%nat.
(** What C98 asks of a process, but for the number of devices. *)
Definition running_any (m : machine) (cs : list N) (h : host unit) (w : world) : Prop :=
  (exists np n0 u w0 ops, profile_like (P := mc_profile m) (HO := mc_order m) np /\ can_read np 0xD6 /\ (forall c p, object_find_property np c = Some p -> 0x80 <= c) /\
     node_new (P := mc_profile m) np = Ret n0 /\ Forall (hop_ok (P := mc_profile m) (HO := mc_order m)) ops /\ Forall undisturbed (api ops) /\
     added (api ops) = cs /\ host_run (P := mc_profile m) (HO := mc_order m) (O := mc_os m) (Uu := mc_uuids m) (mc_db m) (host_new u n0, w0) ops = Ret (h, w)) /\
  (mg_ucast (n_mgr (h_node h)) <> [] /\ mg_mcast (n_mgr (h_node h)) <> []) /\ Forall (serves ObsNode) (all_servers (n_mgr (h_node h))).
Lemma running_few machines k cs h w : running_on machines k cs h w <-> running_any (machines k) cs h w /\ (length cs <= 84)%nat.
Proof.
  split.
  - intros [A B C D]. split; [|exact B]. split; [exact A|]. split; [exact C|exact D].
  - intros [(A & C & D) B]. constructor; [exact A|exact B|exact C|exact D].
Qed.
Lemma ex_running_any ops cs : Forall (hop_ok (P := true) (HO := ex_order)) ops -> Forall undisturbed (api ops) -> added (api ops) = cs ->
  match dev_run ops with
  | Ret (h, _) => negb (Nat.eqb (length (mg_ucast (n_mgr (h_node h)))) 0) && negb (Nat.eqb (length (mg_mcast (n_mgr (h_node h)))) 0) &&
      forallb (fun s => match sv_thread s with TRunning => true | _ => false end && negb (sv_stop s) && existsb (fun o => match ob_kind o with ObsNode => true | _ => false end) (sv_observers s)) (all_servers (n_mgr (h_node h)))
  | Panic => false end = true ->
  running_any ex_machine cs (fst (dev_state ops)) (snd (dev_state ops)).
Proof.
  intros Fo Un Ad H. destruct (dev_run ops) as [[h w]|] eqn:E; [|discriminate]. unfold dev_state. rewrite E. cbn [the fst snd].
  apply andb_true_iff in H as [H H3]. apply andb_true_iff in H as [H1 H2]. split; [|split].
  - exists ex_np, ex_node0, tt, w0, ops. split; [exact ex_np_like|]. split.
    + eexists. split; [vm_compute; reflexivity|]. vm_compute. discriminate.
    + split; [exact ex_np_codes|]. split; [vm_compute; reflexivity|]. auto.
  - split; intro Z; rewrite Z in *; discriminate.
  - apply Forall_forall. intros s Is. rewrite forallb_forall in H3. apply H3 in Is. apply andb_true_iff in Is as [Is X]. apply andb_true_iff in Is as [X1 X2].
    split; [destruct (sv_thread s); auto; discriminate|]. split; [destruct (sv_stop s); auto; discriminate|].
    apply existsb_exists in X as (o & Io & X). exists o. split; auto. destruct (ob_kind o); auto; discriminate.
Qed.

Lemma many_ok : Forall (hop_ok (P := true) (HO := ex_order)) many_ops /\ Forall undisturbed (api many_ops).
Proof.
  split.
  - unfold many_ops. constructor; [split; exact Logic.I|]. apply Forall_app. split; [|constructor; [split; exact Logic.I|constructor]].
    apply Forall_map, Forall_forall. intros c _. split; [unfold object_from_code; apply OB_code, OB_new|]. apply codes_check. vm_compute. reflexivity.
  - assert (A : api many_ops = OpAddObserver (Observer 1 ObsNode) :: map (fun c => OpAddObject (object_from_code 0 c)) many_codes ++ [OpStart]) by reflexivity.
    rewrite A. constructor; [exact Logic.I|]. apply Forall_app. split; [|constructor; [exact Logic.I|constructor]].
    apply Forall_map, Forall_forall. intros c Ic. unfold many_codes in Ic. apply in_map_iff in Ic as (k & <- & Ik). apply in_seq in Ik. cbn [undisturbed].
    rewrite from_code_code by lia. lia.
Qed.

(** The controller at first and after the search, and what the search sends. *)
Definition many_c : host unit * world := dev_state ctl_ops.
Definition many_c1 : host unit * world := the many_c (searches_all (fun _ => ex_machine) 0 (fst many_c) (snd many_c)).
Definition many_tr : list event := skipn (length (w_trace (snd many_c))) (w_trace (snd many_c1)).
Definition many_cs (k : nat) : list N := match k with 1%nat => many_codes | _ => [] end.
Definition finds_none (hs : list (host unit * world)) : bool :=
  match hs with
  | (h, _) :: _ =>
    existsb (fun r => if sockaddr_dec (rn_addr r) (ex_addr 1) then true else false) (h_remotes h) &&
    forallb (fun r => if sockaddr_dec (rn_addr r) (ex_addr 1) then if list_eq_dec N.eq_dec (map object_code (rn_objects r)) [0x0EF001] then true else false else true) (h_remotes h)
  | [] => false
  end.
Lemma finds_none_spec hs : finds_none hs = true -> exists h' w', nth_error hs 0 = Some (h', w') /\
  (exists r, In r (h_remotes h') /\ rn_addr r = ex_addr 1) /\
  forall r, In r (h_remotes h') -> rn_addr r = ex_addr 1 -> map object_code (rn_objects r) = [0x0EF001].
Proof.
  unfold finds_none. destruct hs as [|[h w] hs]; [discriminate|]. intro H. apply andb_true_iff in H as [H1 H2]. exists h, w. split; [reflexivity|]. split.
  - apply existsb_exists in H1 as (r & Ir & H1). exists r. split; [exact Ir|]. destruct (sockaddr_dec (rn_addr r) (ex_addr 1)); [assumption|discriminate].
  - intros r Ir E. rewrite forallb_forall in H2. specialize (H2 r Ir). destruct (sockaddr_dec (rn_addr r) (ex_addr 1)); [|contradiction].
    destruct (list_eq_dec N.eq_dec (map object_code (rn_objects r)) [0x0EF001]) as [X|]; [exact X|discriminate].
Qed.
Lemma many_run : exists n hs',
  deliveries_made (fun _ => ex_machine) ex_addr ([many_c1; dev_state many_ops], map (pair 0%nat) (packets many_tr)) n (hs', []) /\ finds_none hs' = true.
Proof. apply (delivered _ _ (fun hs => finds_none hs = true) _ many_plan). vm_compute. reflexivity. Qed.
Lemma ret_the {A B} (d : A * B) x : (match x with Ret _ => true | Panic => false end) = true -> x = Ret (fst (the d x), snd (the d x)).
Proof. destruct x as [[a b]|]; [reflexivity|discriminate]. Qed.
Lemma many_c1_eq : searches_all (fun _ => ex_machine) 0 (fst many_c) (snd many_c) = Ret (fst many_c1, snd many_c1).
Proof. unfold many_c1. apply ret_the. vm_compute. reflexivity. Qed.
Lemma of_two {A B} (a b : A * B) k x y : nth_error [a; b] k = Some (x, y) -> k = 0%nat /\ x = fst a /\ y = snd a \/ k = 1%nat /\ x = fst b /\ y = snd b.
Proof. destruct k as [|[|[|k]]]; cbn; intro E; [injection E as ->; auto|injection E as ->; auto|discriminate|destruct k; discriminate]. Qed.

(** With more than 84 devices in a process, the rest of what C98 asks for does
    not do: the search comes to rest, and the entry of the process shows none of
    its 85 devices. *)
Theorem C98_many_devices_refuted : exists machines addr (hs : list (host unit * world)) cs h w h1 w1 tr n hs',
  ((forall k, exists seed, standard_database (P := mc_profile (machines k)) (HO := mc_order (machines k)) seed = Ret (mc_db (machines k))) /\
   (forall k j, uuid_ok (new_uuid (Uuids := mc_uuids (machines k)) j)) /\
   (forall k j, os_send (OS := mc_os (machines k)) j = true) /\
   (forall j k, (j < length hs)%nat -> (k < length hs)%nat -> addr j = addr k -> j = k) /\
   (forall k h w, nth_error hs k = Some (h, w) -> running_any (machines k) (cs k) h w) /\
   nth_error hs 0 = Some (h, w) /\ Forall (serves ObsController) (all_servers (n_mgr (h_node h))) /\
   searches_all machines 0 h w = Ret (h1, w1) /\ fst (fst (controller_search_all (O := mc_os (machines 0%nat)) w (h_node h))) = true /\ since w w1 tr) /\
  deliveries_made machines addr (set_nth hs 0 (h1, w1), map (pair 0%nat) (packets tr)) n (hs', []) /\
  length hs = 2%nat /\ length (cs 1%nat) = 85%nat /\ NoDup (cs 1%nat) /\
  exists h' w', nth_error hs' 0 = Some (h', w') /\
    (exists r, In r (h_remotes h') /\ rn_addr r = addr 1%nat) /\
    forall r, In r (h_remotes h') -> rn_addr r = addr 1%nat -> map object_code (rn_objects r) = [0x0EF001].
Proof.
  destruct many_run as (n & hs' & Dm & Fn).
  exists (fun _ => ex_machine), ex_addr, [many_c; dev_state many_ops], many_cs, (fst many_c), (snd many_c), (fst many_c1), (snd many_c1), many_tr, n, hs'.
  split; [|split; [|split; [reflexivity|split; [reflexivity|split; [|exact (finds_none_spec _ Fn)]]]]].
  - split; [intros _; exists (fun k => k); exact ex_db_standard|]. split; [intros _; exact ex_uuids_ok|]. split; [reflexivity|]. split; [|split; [|split; [|split; [|split; [|split]]]]].
    + change (length [many_c; dev_state many_ops]) with 2%nat. intros j k Lj Lk E. destruct j as [|[|j]], k as [|[|k]]; try lia; vm_compute in E; discriminate.
    + intros k h w E. destruct many_ok as [Mo Mu]. destruct (of_two _ _ _ _ _ E) as [(-> & -> & ->)|(-> & -> & ->)].
      * apply (ex_running_any ctl_ops); [|repeat constructor|reflexivity|vm_compute; reflexivity].
        constructor; [split; exact Logic.I|]. constructor; [split; exact Logic.I|]. constructor; [exact Logic.I|]. constructor.
      * apply (ex_running_any many_ops); [exact Mo|exact Mu|vm_compute; reflexivity|vm_compute; reflexivity].
    + cbn [nth_error]. apply f_equal, surjective_pairing.
    + assert (X : forallb (fun s => match sv_thread s with TRunning => true | _ => false end && negb (sv_stop s) && existsb (fun o => match ob_kind o with ObsController => true | _ => false end) (sv_observers s)) (all_servers (n_mgr (h_node (fst many_c)))) = true) by (vm_compute; reflexivity).
      apply Forall_forall. intros s Is. rewrite forallb_forall in X. apply X in Is. apply andb_true_iff in Is as [Is X3]. apply andb_true_iff in Is as [X1 X2].
      split; [destruct (sv_thread s); auto; discriminate|]. split; [destruct (sv_stop s); auto; discriminate|].
      apply existsb_exists in X3 as (o & Io & X3). exists o. split; auto. destruct (ob_kind o); auto; discriminate.
    + exact many_c1_eq.
    + vm_compute. reflexivity.
    + apply trace_since_spec. vm_compute. reflexivity.
  - cbn [set_nth]. rewrite <- surjective_pairing. exact Dm.
  - unfold many_cs, many_codes. apply FinFun.Injective_map_NoDup; [intros a b; lia|apply seq_NoDup].
Qed.
Print Assumptions C98_many_devices_refuted.
