(** C146: a request to instance 0 of a class is a request to every object of the class. *)
From Verif Require Import Base HMap ModelCodec ModelMessages DbTable ModelObject ModelTransport ModelNode
  SpecWire SpecObject SpecNode ProofsCodec ProofsObject ProofsNode ProofsNode2 ProofsNode3 ProofsNode4 ExamplesNode PropertiesNode.

(** ECHONET Lite: a DEOJ whose third octet is zero stands for all instances of the class. *)
Definition all_instances (x : N) : Prop := x mod 256 = 0.
Definition of_class (x : N) (o : object) : Prop := object_code o / 256 = x / 256.

Section S.
  Context {U : Type} {P : Profile} {HO : HashOrder} {Os : OS}.
  (** Whatever service, properties and sender the request has, and however many objects of
      the class the node has: it does nothing and sends nothing, unless an object was
      added whose own instance number is 0. *)
  Theorem C146_nobody_refuted : forall w (u : U) n m, received m -> all_instances (msg_deoj m) ->
    Forall (fun o => object_code o mod 256 <> 0) (n_objects n) -> m_esv m <> 0x5E ->
    exists n' w' tr, node_observe w u n m = Ret (u, n', w') /\ n_objects n' = n_objects n /\ since w w' tr /\ offered tr = [].
  Proof.
    intros w u n m R A F Ne.
    assert (No : not_owned (n_objects n) (msg_deoj m)).
    { eapply Forall_impl; [|exact F]. cbn. intros o Ho E. apply Ho. rewrite E. exact A. }
    pose proof (C36_no_reply w u n m R (or_introl No)) as X. destruct (node_observe w u n m) as [[[u' n'] w']|].
    - destruct X as (-> & En & tr & S & O). exists n', w', tr. auto.
    - exfalso. apply Ne. apply X.
  Qed.
  (** Where there is an object whose own instance number is 0 it alone is asked, as any
      other object is: there is one answer at most, and the other objects of its class are
      left as they are. *)
  Theorem C146_zero_refuted : forall seed (u : U) n m u' n' res o, node_message_received seed u n m = Ret (u', n', res) ->
    all_instances (msg_deoj m) -> In o (n_objects n) -> of_class (msg_deoj m) o -> object_code o mod 256 <> 0 -> In o (n_objects n').
  Proof.
    intros seed u n m u' n' res o E A I C Z. destruct (C47_isolation_partial seed u n m u' n' res E) as [->|(pre & x & post & x' & En & Ex & -> & _)]; auto.
    cbn [n_objects n_with_objects]. rewrite En in I. apply in_app_or in I as [I|[<-|I]].
    - apply in_or_app. auto.
    - exfalso. apply Z. rewrite Ex. exact A.
    - apply in_or_app. right. right. auto.
  Qed.
End S.
Print Assumptions C146_nobody_refuted.
Print Assumptions C146_zero_refuted.

(** ** Cases *)
Section Cases.
  Local Existing Instance ex_order.
  Local Existing Instance ex_os.
  Definition lamp_at (i : N) : object := object_set_code lamp (0x029100 + i).
  Definition street (l : list N) : list (node_op unit) := map (fun i => OpAddObject (lamp_at i)) l ++ [OpAddHandler yes; OpStart].
  Definition off (x : N) : frame := Frame 7 0x05FF01 x 0x61 (Single [(0x80, [0x31])]).
  (** The node with lamps of these instance numbers is told to switch [x] off: what it
      sends, and the status of every lamp. *)
  Definition told_off (l : list N) (x : N) : option (list (list N) * list (option (list N))) :=
    match node_observe (P := true) (ex_w (street l)) tt (ex_n (street l)) (ex_rcv (wire (off x))) with
    | Ret (_, n, w) => Some (map snd (sent (skipn (length (w_trace (ex_w (street l)))) (w_trace w))),
        map (fun i => match find_object (n_objects n) (0x029100 + i) with Some o => object_property_data o 0x80 | None => None end) l)
    | Panic => None
    end.
  Definition done_by (x : N) : list N := wire (Frame 7 x 0x05FF01 0x71 (Single [(0x80, [])])).
  (** Two lamps: both stay on. One by one they go off. *)
  Example C146_case : told_off [1; 2] 0x029100 = Some ([], [Some [0x30]; Some [0x30]]) /\
    told_off [1; 2] 0x029101 = Some ([done_by 0x029101], [Some [0x31]; Some [0x30]]) /\
    told_off [1; 2] 0x029102 = Some ([done_by 0x029102], [Some [0x30]; Some [0x31]]).
  Proof. split; [vm_compute; reflexivity|]. split; vm_compute; reflexivity. Qed.
  (** A lamp with the instance number 0 beside one with the number 1. *)
  Example C146_zero_case : told_off [0; 1] 0x029100 = Some ([done_by 0x029100], [Some [0x31]; Some [0x30]]).
  Proof. vm_compute. reflexivity. Qed.
End Cases.
