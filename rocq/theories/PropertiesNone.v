(** C151: a request without properties is not answered, and asks for nothing. *)
From Verif Require Import Base HMap ModelCodec ModelMessages DbTable ModelObject ModelTransport ModelNode
  SpecWire SpecObject SpecNode ProofsCodec ProofsCodec2 ProofsObject ProofsNode ProofsNode2 ProofsNode3 ProofsNode4 ExamplesNode PropertiesNode ProofsObject2 PropertiesSizes.

(** The number of processed properties (OPC) of an ECHONET Lite request counts the
    properties that it is about; a request about no property asks for nothing. *)
Definition asks_for_nothing (m : message) : Prop := In (m_esv m) [0x60; 0x61; 0x62; 0x63; 0x74] /\ m_props m = [].

Section S.
  Context {U : Type} {P : Profile} {HO : HashOrder} {Os : OS}.
  Lemma nothing_asked (hs : list (handler U)) u o e : forall a, exists b, ask_handlers hs u o e [] a = Ret (u, o, b) /\ (a = true \/ hs <> [] -> b = true).
  Proof.
    induction hs as [|h r IH]; intro a; cbn [ask_handlers ask_handler obind].
    - exists a. split; [reflexivity|]. intros [X|X]; [exact X|contradiction].
    - destruct (IH true) as (b & E & B). exists b. split; [exact E|]. auto.
  Qed.
  Lemma nothing_received (hs : list (handler U)) u o m : m_props m = [] -> request_received hs u o m = Ret (u, o, true).
  Proof.
    intro Z. unfold request_received. rewrite Z. destruct hs as [|h r]; [reflexivity|]. cbn [length Nat.eqb].
    destruct (nothing_asked (h :: r) u o (msg_esv m) false) as (b & -> & B). rewrite B by (right; discriminate). reflexivity.
  Qed.
  Lemma nothing_permitted o m : asks_for_nothing m -> permitted o m.
  Proof.
    intros [Es Z]. unfold permitted, writes_of, reads_of. rewrite Z. cbn [In] in Es.
    repeat (destruct Es as [Es|Es]; [rewrite <- Es; cbn; split; constructor|]). destruct Es.
  Qed.

  (** Such a request to an object of the node is answered as carried out, with no
      properties, unless its service has no answer; and no handler is asked, whatever
      it would have said. *)
  Theorem C151_answered_refuted : forall seed (u : U) n m o u' n' res, received m -> asks_for_nothing m -> addressed (n_objects n) (msg_deoj m) o ->
    node_message_received seed u n m = Ret (u', n', res) ->
    u' = u /\ match res with
    | None => m_esv m = 0x60
    | Some r => success_service (m_esv m) = Some (m_esv r) /\ m_props r = [] /\ msg_seoj r = msg_deoj m /\ msg_deoj r = msg_seoj m
    end.
  Proof.
    intros seed u n m o u' n' res R Nm A E. apply received_rcvd in R. apply handled_spec in E. pose proof (nothing_permitted o m Nm) as Pm. destruct Nm as [Es Z].
    assert (Q : request_service (m_esv m)) by (cbn in *; tauto).
    inversion E as [[N|N]|o0 _ Ao V|o0 copy u1 copy' _ Ao V C1 D1|pre o0 post copy u1 copy' _ Eo Ec Fp V C1 D1 Eu En Er']; subst.
    - exfalso. destruct A as (pre & post & Eo & Ec & _). rewrite Eo in N. apply Forall_app in N as [_ N]. inversion N; subst. congruence.
    - contradiction.
    - exfalso. apply V. rewrite (addressed_unique _ _ _ _ Ao A). exact Pm.
    - rewrite nothing_received in D1 by auto. discriminate.
    - rewrite nothing_received in D1 by auto. inversion D1; subst u' copy'. split; [reflexivity|].
      destruct (success_eq o0 (answered o0 m copy) m (rc_wf _ R) (rc_body _ R) Q V (answered_shape o0 m copy)) as [[N X]|(e & ps & ss & gs & S' & X & Wr & Rd & _)]; rewrite X; [exact N|].
      split; [exact S'|]. cbn [m_props resp].
      assert (Zp : ps = []).
      { cbn [In] in Es. destruct Es as [Es|[Es|[Es|[Es|[Es|[]]]]]].
        - rewrite <- Es in S'. discriminate.
        - destruct (Wr (or_introl (eq_sym Es))) as (-> & _). rewrite Z. reflexivity.
        - destruct (Rd (or_introl (eq_sym Es))) as (Y & _). rewrite Z in Y. cbn in Y. inversion Y. reflexivity.
        - destruct (Rd (or_intror (eq_sym Es))) as (Y & _). rewrite Z in Y. cbn in Y. inversion Y. reflexivity.
        - destruct (Wr (or_intror (eq_sym Es))) as (-> & _). rewrite Z. reflexivity. }
      split; [exact Zp|]. split; reflexivity.
  Qed.
  (** It changes no data of the node, property maps aside. *)
  Theorem C151_changes_nothing_partial : forall w seed (u : U) n m u' n' res, reachable u n w -> received m -> asks_for_nothing m ->
    node_message_received seed u n m = Ret (u', n', res) ->
    u' = u /\ n_handlers n' = n_handlers n /\
    Forall2 (fun o o' => object_code o' = object_code o /\ forall c, ~ map_code c -> object_find_property o' c = object_find_property o c) (n_objects n) (n_objects n').
  Proof.
    intros w seed u n m u' n' res Rc R Nm E. apply received_rcvd in R. apply reachable_good in Rc. apply handled_spec in E.
    assert (Same : forall l, Forall2 (fun o o' => object_code o' = object_code o /\ forall c, ~ map_code c -> object_find_property o' c = object_find_property o c) l l)
      by (induction l; constructor; auto).
    inversion E as [N|o0 _ Ao V|o0 copy u1 copy' _ Ao V C1 D1|pre o0 post copy u1 copy' _ Eo Ec Fp V C1 D1 Eu En Er']; subst; auto.
    - rewrite nothing_received in D1 by apply Nm. discriminate.
    - rewrite nothing_received in D1 by apply Nm. inversion D1; subst u' copy'. split; [reflexivity|]. split; [reflexivity|].
      cbn [n_objects n_with_objects]. rewrite Eo. apply Forall2_app; [apply Same|]. constructor; [|apply Same].
      assert (Go : obj_good o0). { destruct Rc as [G _]. rewrite Eo in G. apply Forall_app in G as [_ G]. inversion G; auto. }
      split; [pose proof (answered_shape o0 m copy) as (X & _); unfold object_code; rewrite X; reflexivity|]. intros c Nc.
      rewrite (answered_hands_off o0 m seed copy c Go C1) by (unfold map_code, is_map_code in *; lia).
      assert (Wn : writes_of m = []).
      { destruct Nm as [Es Z]. unfold writes_of. rewrite Z. cbn [In] in Es. repeat (destruct Es as [Es|Es]; [rewrite <- Es; reflexivity|]). destruct Es. }
      rewrite Wn. destruct (object_find_property o0 c); reflexivity.
  Qed.
End S.
Print Assumptions C151_answered_refuted.
Print Assumptions C151_changes_nothing_partial.

(** ** Cases *)
Section Cases.
  Local Existing Instance ex_order.
  Local Existing Instance ex_os.
  (** The lamp is asked for nothing, with a handler that takes everything and one that
      takes nothing. *)
  Example C151_case : sent (ex_trace [yes] (to_lamp 7 0x62 [0])) = [(peer, wire (Frame 7 0x029101 0x05FF01 0x72 (Single [])))] /\
    sent (ex_trace [no] (to_lamp 7 0x61 [0])) = [(peer, wire (Frame 7 0x029101 0x05FF01 0x71 (Single [])))] /\
    sent (ex_trace [yes] (to_lamp 7 0x60 [0])) = [].
  Proof. repeat split; vm_compute; reflexivity. Qed.
End Cases.
