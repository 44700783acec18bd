(** Concrete nodes, handlers, messages and an operating system for the examples
    and refutations. *)
From Verif Require Import Base HMap ModelCodec ModelMessages ModelObject ModelTransport ModelNode
  SpecWire SpecObject SpecNode ProofsCodec ProofsCodec2 PropertiesCodec ProofsObject ProofsObject2 ProofsObject3
  PropertiesObject ProofsNode.

Definition the {A} (d : A) (x : outcome A) : A := match x with Ret a => a | Panic => d end.

(** One interface 192.168.0.10/24; every call succeeds; hash seeds alternate. *)
Definition ex_os : OS := {|
  os_interfaces := fun _ => [Iface true true false [(V4 0x7F000001, 8)]; Iface true false false [(V4 0xC0A8000A, 24)]];
  os_bind := fun _ => true; os_join := fun _ => true; os_send := fun _ => true; os_seed := fun k => k + 1 |}.
Definition w0 : world := World 0 [] 0.

(** A node profile with the properties that the node maintains, and a lamp. *)
Definition np_props : list prop :=
  map (fun c => ex_prop c Required Prohibited Optional) [0x9D; 0x9E; 0x9F; 0x80; 0xD3; 0xD4; 0xD5; 0xD6; 0xD7].
Definition ex_np : object := the (object_new 0) (adds (P := true) (HO := ex_order) (object_from_code 0 0x0EF001) np_props).
Definition lamp : object := the (object_new 0) (ex_lamp 0).
Lemma ex_np_built : obj_built (P := true) (HO := ex_order) ex_np.
Proof.
  apply (adds_built np_props (object_from_code 0 0x0EF001)); [repeat constructor| |].
  - apply Forall_forall. intros p I. apply in_map_iff in I as (c & <- & I). apply ex_prop_built.
    cbn in I. intuition (subst; reflexivity).
  - vm_compute. reflexivity.
Qed.
Lemma lamp_built : obj_built (P := true) (HO := ex_order) lamp.
Proof. apply (ex_lamp_built 0). vm_compute. reflexivity. Qed.

(** Handlers. *)
Definition yes {U} : handler U := HUser (fun u o e p => Ret (u, o, true)).
Definition no {U} : handler U := HUser (fun u o e p => Ret (u, o, false)).
(** accepts the given property only *)
Definition only {U} (c : N) : handler U := HUser (fun u o e p => Ret (u, o, pp_code p =? c)).
(** accepts everything and writes 0x42 to property [c] of the object it is given *)
Definition meddle {U} (c : N) : handler U := HUser (fun u o e p => Ret (u, fst (object_set_property_data o c [0x42]), true)).

Lemma yes_typed {U} : typed_handler (U := U) yes.
Proof. intros u o e p u' o' b H E. inversion E; subst. auto. Qed.
Lemma no_typed {U} : typed_handler (U := U) no.
Proof. intros u o e p u' o' b H E. inversion E; subst. auto. Qed.
Lemma only_typed {U} c : typed_handler (U := U) (only c).
Proof. intros u o e p u' o' b H E. inversion E; subst. auto. Qed.
Lemma meddle_typed {U} c : typed_handler (U := U) (meddle c).
Proof.
  intros u o e p u' o' b H E. inversion E; subst. intros q I. unfold object_set_property_data in I.
  destruct (object_find_property o c) as [p0|] eqn:F; [|auto]. cbn in I.
  assert (X : In p0 (object_properties o)) by (apply hget_in in F; apply (in_map snd) in F; exact F).
  unfold object_properties, hvalues in I. apply in_map_iff in I as ([k v] & Ev & I). cbn in Ev. subst v.
  apply hput_in in I as [I|[-> ->]].
  - apply H. apply (in_map snd) in I. exact I.
  - apply H in X as [X1 X2]. split; auto. repeat constructor.
Qed.
Lemma yes_hands_off {U} : hands_off (U := U) yes.
Proof. intros u o e p u' o' b E. inversion E; auto. Qed.

(** The node with the lamp and the given handlers, before and after start. *)
Definition ex_ops (hs : list (handler unit)) : list (node_op unit) := OpAddObject lamp :: map OpAddHandler hs ++ [OpStart].
Definition ex_node0 : node unit := the (Node manager_new [] 0 None [] []) (node_new (P := true) ex_np).
Definition ex_run (ops : list (node_op unit)) : outcome (unit * node unit * world) :=
  node_run (P := true) (HO := ex_order) (O := ex_os) (tt, ex_node0, w0) ops.
Definition ex_state (ops : list (node_op unit)) : unit * node unit * world := the (tt, ex_node0, w0) (ex_run ops).
Definition ex_n ops : node unit := snd (fst (ex_state ops)).
Definition ex_w ops : world := snd (ex_state ops).
Definition panics {A} (x : outcome A) : bool := match x with Ret _ => false | Panic => true end.

Lemma ex_reachable ops : Forall (op_ok (P := true) (HO := ex_order)) ops -> panics (ex_run ops) = false ->
  reachable (P := true) (HO := ex_order) (O := ex_os) tt (ex_n ops) (ex_w ops).
Proof.
  intros F H. exists ex_np, ex_node0, tt, w0, ops. split; [apply ex_np_built|]. split; [vm_compute; reflexivity|]. split; auto.
  unfold ex_n, ex_w, ex_state. unfold ex_run in *. destruct (node_run _ _) as [[[[] n] w]|]; [reflexivity|discriminate].
Qed.
Lemma ex_ops_ok hs : Forall typed_handler hs -> Forall (op_ok (P := true) (HO := ex_order)) (ex_ops hs).
Proof.
  intro F. constructor; [apply lamp_built|]. apply Forall_app. split; [|repeat constructor].
  apply Forall_map. exact F.
Qed.

(** Messages as received from 192.168.0.20. *)
Definition peer : sockaddr := (V4 0xC0A80014, 3610).
Definition ex_rcv (bs : list N) : message := msg_set_from (snd (the (false, msg_new) (msg_parse msg_new bs))) peer.
Lemma ex_received bs : octets bs -> (match msg_parse msg_new bs with Ret (true, _) => true | _ => false end) = true -> received (ex_rcv bs).
Proof.
  intros Ho H. unfold ex_rcv. destruct (msg_parse msg_new bs) as [[b m]|] eqn:E; [|discriminate]. destruct b; [|discriminate].
  exists bs, m, peer. auto.
Qed.
(** From the controller 0x05FF01 to the lamp 0x029101. *)
Definition to_lamp (tid e : N) (body : list N) : list N :=
  [0x10; 0x81; tid / 256; tid mod 256; 0x05; 0xFF; 0x01; 0x02; 0x91; 0x01; e] ++ body.
Ltac rcv := apply ex_received; [repeat constructor|vm_compute; reflexivity].
Ltac typed := repeat (constructor; [first [apply yes_typed|apply no_typed|apply only_typed|apply meddle_typed]|]); constructor.
Ltac reach := apply ex_reachable; [first [apply ex_ops_ok; typed | idtac]|vm_compute; reflexivity].

(** The example node with user handlers [hs], and what it does with a datagram. *)
Definition ex_observe (hs : list (handler unit)) (bs : list N) : outcome (unit * node unit * world) :=
  node_observe (P := true) (HO := ex_order) (O := ex_os) (ex_w (ex_ops hs)) tt (ex_n (ex_ops hs)) (ex_rcv bs).
Definition ex_receive (hs : list (handler unit)) (bs : list N) : outcome (unit * node unit * option message) :=
  node_message_received (P := true) (HO := ex_order) (os_seed (OS := ex_os) (w_calls (ex_w (ex_ops hs)))) tt (ex_n (ex_ops hs)) (ex_rcv bs).
(** node after, trace since *)
Definition ex_after (hs : list (handler unit)) (bs : list N) : node unit :=
  snd (fst (the (tt, ex_node0, w0) (ex_observe hs bs))).
Definition ex_world (hs : list (handler unit)) (bs : list N) : world := snd (the (tt, ex_node0, w0) (ex_observe hs bs)).
Definition ex_trace (hs : list (handler unit)) (bs : list N) : list event :=
  skipn (length (w_trace (ex_w (ex_ops hs)))) (w_trace (ex_world hs bs)).
Definition ex_answer (hs : list (handler unit)) (bs : list N) : option message := snd (the (tt, ex_node0, None) (ex_receive hs bs)).
Definition data_in {U} (n : node U) (oc c : N) : option (list N) :=
  match find_object (n_objects n) oc with Some o => object_property_data o c | None => None end.
