(** C141: does a controller list its own node? *)
From Verif Require Import Base HMap ModelCodec ModelMessages ModelObject ModelTransport ModelNode ModelController ModelHost ModelNetwork
  SpecWire SpecObject SpecNode SpecHost SpecRemote ProofsCodec ProofsCodec2 PropertiesCodec ProofsObject ProofsObject2 ProofsObject3
  PropertiesObject PropertiesDb ProofsDevice ProofsNode ProofsNode2 ProofsNode3 ProofsNode4 ExamplesNode PropertiesNode PropertiesTrans PropertiesProfile ProofsExchange
  ProofsController ProofsHistory PropertiesController ProofsHost ProofsHost2 PropertiesHost PropertiesFrames PropertiesNetwork PropertiesGrowth PropertiesDiscovery.

(** ** Vocabulary *)
(** The datagrams among the events of a process consist of octets, and none of them
    comes from one of the addresses [own]. *)
Definition from_others {U} (own : list sockaddr) (op : host_op U) : Prop :=
  match op with HRecv _ d a _ => octets d /\ ~ In a own | _ => True end.

Section S.
  Context {U : Type} {P : Profile} {HO : HashOrder} {Os : OS} {Uu : Uuids}.

  Lemma others_step db own (h : host U) w op h' w' : from_others own op -> host_step db (h, w) op = Ret (h', w') ->
    forall r, In r (h_remotes h') -> In r (h_remotes h) \/ ~ In (rn_addr r) own.
  Proof.
    intros F E r I. destruct op as [op|code|rn m|rn m| | | |i d a free|i].
    8:{ destruct F as [Od Na]. assert (T : Forall (traffic (U := U)) [HRecv i d a free]) by (constructor; [exact Od|constructor]).
        destruct (run_grown db _ h w T) as (h1 & w1 & E1 & G). cbn [host_run] in E1. rewrite E in E1. cbn [obind host_run] in E1. inversion E1; subst.
        destruct (gr_entries _ _ _ G r I) as [X|[[<-|[]] _]]; auto. }
    all: left; revert I; cbn [host_step] in E.
    - destruct (h_poisoned h); [discriminate|]. destruct (node_step _ op) as [[[u1 n1] w1]|]; cbn [obind] in E; [|discriminate]. inversion E; subst; auto.
    - destruct (h_cpoisoned h); [discriminate|]. destruct (h_poisoned h); [discriminate|].
      destruct (controller_search_object _ _ _) as [[? ?] ?]. inversion E; subst; auto.
    - destruct (h_cpoisoned h); [inversion E; subst; auto|]. destruct (h_poisoned h); [discriminate|].
      destruct (controller_send _ _ _ _) as [[[? ?] ?] ?]. inversion E; subst; auto.
    - destruct (h_cpoisoned h); [discriminate|]. destruct (h_poisoned h); [discriminate|].
      destruct (controller_post _ _ _ _) as [[[? ?] ?] ?]. inversion E; subst; auto.
    - destruct (h_cpoisoned h); [discriminate|]. destruct (controller_nodes _ _) as [x|]; cbn [obind] in E; [|discriminate]. inversion E; subst; auto.
    - destruct (h_cpoisoned h); [discriminate|]. destruct (h_poisoned h); [discriminate|]. unfold controller_start in E.
      destruct (node_start _ _) as [[[? ?] ?]|]; cbn [obind] in E; [|discriminate]. inversion E; subst; auto.
    - destruct (h_cpoisoned h); [discriminate|]. destruct (h_poisoned h); [discriminate|]. unfold controller_stop in E.
      destruct (node_stop _) as [[? ?]|]; cbn [obind] in E; [|discriminate]. inversion E; subst; auto.
    - inversion E; subst. unfold receive_error. destruct (h_server h i) as [s|]; auto. destruct (sv_thread s); auto.
  Qed.

  (** ** C141 *)
  (** A process that hears nothing from its own addresses: its controller has no
      entry for them, after any calls and datagrams. *)
  Theorem C141_others_partial : forall db own (u : U) n w ops h w', Forall (from_others own) ops -> host_run db (host_new u n, w) ops = Ret (h, w') ->
    forall r, In r (h_remotes h) -> ~ In (rn_addr r) own.
  Proof.
    intros db own u n w ops h w' F. assert (N : forall r, In r (h_remotes (host_new u n)) -> ~ In (rn_addr r) own) by (intros r []).
    revert N. generalize (host_new u n) as h0. revert w. induction F as [|op l K F IH]; intros w h0 N E; cbn [host_run] in E; [inversion E; subst; auto|].
    destruct (host_step db (h0, w) op) as [[h1 w1]|] eqn:E1; cbn [obind] in E; [|discriminate]. apply (IH w1 h1); auto.
    intros r Ir. destruct (others_step db own h0 w op h1 w1 K E1 r Ir) as [X|X]; auto.
  Qed.
End S.

Section N.
  Context {U : Type}.
  Variable machines : nat -> machine.
  Variable addr : nat -> sockaddr.
  (** A datagram for the group also reaches the process that sent it, as long as the
      system is not told otherwise (IP_MULTICAST_LOOP, which the code does not touch).
      Then whatever the network, after a search the controller has an entry for the address of its own
      process, with its own devices. *)
  Theorem C141_itself_refuted : forall (hs : list (host U * world)) c cs h w h1 w1 tr,
    (forall k, exists seed, standard_database (P := mc_profile (machines k)) (HO := mc_order (machines k)) seed = Ret (mc_db (machines k))) ->
    (forall k j, uuid_ok (new_uuid (Uuids := mc_uuids (machines k)) j)) ->
    (forall k j, os_send (OS := mc_os (machines k)) j = true) ->
    (forall j k, (j < length hs)%nat -> (k < length hs)%nat -> addr j = addr k -> j = k) ->
    (forall k h w, nth_error hs k = Some (h, w) -> running_on machines k (cs k) h w) ->
    nth_error hs c = Some (h, w) -> Forall (serves ObsController) (all_servers (n_mgr (h_node h))) ->
    searches_all machines c h w = Ret (h1, w1) -> fst (fst (controller_search_all (O := mc_os (machines c)) w (h_node h))) = true -> since w w1 tr ->
    (exists n hs', deliveries_made machines addr (set_nth hs c (h1, w1), map (pair c) (packets tr)) n (hs', [])) /\
    forall n hs', deliveries_made machines addr (set_nth hs c (h1, w1), map (pair c) (packets tr)) n (hs', []) ->
      exists h' w' r, nth_error hs' c = Some (h', w') /\ In r (h_remotes h') /\ rn_addr r = addr c /\ map object_code (rn_objects r) = cs c ++ [0x0EF001].
  Proof.
    intros hs c cs h w h1 w1 tr A1 A2 A3 A4 A5 A6 A7 A8 A9 A10.
    destruct (C98_all_found_partial machines addr hs c cs h w h1 w1 tr A1 A2 A3 A4 A5 A6 A7 A8 A9 A10) as [X Y]. split; auto.
    intros n hs' D. destruct (Y n hs' D) as (h' & w' & E & F & _). assert (L : (c < length hs)%nat) by (apply nth_error_Some; congruence).
    destruct (F c L) as (r & I & B & C & _). exists h', w', r. auto.
  Qed.
End N.
Print Assumptions C141_others_partial.
Print Assumptions C141_itself_refuted.

(* ------------------------------------------------------------------ *)
(** ** Cases *)
(** The start of a controller alone does it: its announcement comes back. *)
Definition own_hello : list N := match sent (w_trace (snd (dev_state ctl_ops))) with (_, d) :: _ => d | [] => [] end.
Definition listed_by (ops : list (host_op unit)) : option (list (sockaddr * list N)) :=
  match dev_run ops with Ret (h, _) => Some (map (fun r => (rn_addr r, map object_code (rn_objects r))) (h_remotes h)) | Panic => None end.
Example C141_case : own_hello <> [] /\ listed_by (ctl_ops ++ [HRecv (Multi 0) own_hello (ex_addr 0) (fun _ => true)]) = Some [(ex_addr 0, [0x0EF001])].
Proof. split; [vm_compute; discriminate|vm_compute; reflexivity]. Qed.
(** The same datagram from another host. *)
Example C141_other_case : let ops := ctl_ops ++ [HRecv (Multi 0) own_hello (ex_addr 1) (fun _ => true)] in
  Forall (from_others [ex_addr 0]) ops /\ listed_by ops = Some [(ex_addr 1, [0x0EF001])].
Proof.
  cbv zeta. split; [|vm_compute; reflexivity]. apply Forall_app. split; [repeat (constructor; [exact Logic.I|]); constructor|].
  constructor; [|constructor]. split; [|intros [X|[]]; vm_compute in X; discriminate].
  assert (X : forallb (fun x => x <? 256) own_hello = true) by (vm_compute; reflexivity). apply Forall_forall. intros x I. rewrite forallb_forall in X. specialize (X x I). unfold octet. lia.
Qed.
