(** What calls and messages do to one device. *)
From Verif Require Import Base HMap ModelCodec ModelMessages ModelObject ModelTransport ModelNode ModelController ModelDevice ModelThreads
  SpecWire SpecObject SpecNode SpecDevice SpecThreads ProofsCodec ProofsCodec2 ProofsObject ProofsObject2 ProofsNode ProofsNode2 ProofsNode3 ProofsNode4
  PropertiesNode ProofsDevice PropertiesDevice PropertiesThreads SpecShared.

Lemma service_sent m : service_of (msg_bytes m) = m_esv m.
Proof. rewrite msg_bytes_eq. destruct (m_ehd m), (m_tid m), (m_seoj m) as [[? ?] ?], (m_deoj m) as [[? ?] ?]. reflexivity. Qed.
Lemma update_tid_esv {U} (n : node U) m n' m' : update_tid n m = (n', m') -> m_esv m' = m_esv m.
Proof. intros E. apply update_tid_spec in E as [(_ & _ & ->)|(_ & _ & ->)]; reflexivity. Qed.
Lemma map_code_dec c : {map_code c} + {~ map_code c}.
Proof. unfold map_code. destruct (N.eq_dec c 0x9D); [left; auto|]. destruct (N.eq_dec c 0x9E); [left; auto|]. destruct (N.eq_dec c 0x9F); [left; auto|]. right. intuition. Qed.

Section S.
  Context {U : Type} {P : Profile} {HO : HashOrder} {Os : OS}.
  Context (n : nat) (oc : N).

  Local Notation shows := (SpecShared.shows (U := U) oc).
  Lemma shows_view x : shows (view oc x) x.
  Proof. unfold shows, view. destruct (find_object _ oc); cbn; auto. Qed.
  Lemma shows_same h (x x' : nstate U) : find_object (n_objects (snd (fst x'))) oc = find_object (n_objects (snd (fst x))) oc -> shows h x -> shows h x'.
  Proof. unfold shows. intros ->. auto. Qed.

  Lemma data_in_map o c : map_code c -> data_in o c = None.
  Proof. intros [->|[->| ->]]; reflexivity. Qed.
  Lemma data_in_stored o c : stored c -> data_in o c = option_map p_data (object_find_property o c).
  Proof. intros X. unfold data_in, stored, map_code in *. replace ((c =? 0x9D) || (c =? 0x9E) || (c =? 0x9F)) with false by lia. reflexivity. Qed.
  Lemma writes_find ps : forall s c, writes ps s c = match s c with Some y => Some (match last_data c ps with Some d => d | None => y end) | None => None end.
  Proof.
    induction ps as [|q r IH]; intros s c; cbn [writes last_data]; [destruct (s c); reflexivity|].
    rewrite IH. unfold write1. rewrite (N.eqb_sym c). destruct (N.eqb_spec (pp_code q) c) as [<-|Ne].
    - destruct (s (pp_code q)); [|reflexivity]. destruct (last_data (pp_code q) r); reflexivity.
    - destruct (s c); [|reflexivity]. destruct (last_data c r); reflexivity.
  Qed.
  (** Data set in an object. *)
  Lemma data_set o c d c' : data_in (fst (object_set_property_data o c d)) c' = write1 c d (data_in o) c'.
  Proof.
    unfold write1. destruct (map_code_dec c') as [M|M].
    - rewrite (data_in_map _ _ M). destruct (N.eqb_spec c' c) as [<-|]; [rewrite (data_in_map _ _ M)|rewrite (data_in_map _ _ M)]; reflexivity.
    - rewrite !data_in_stored by exact M. rewrite set_data_find. destruct (N.eqb_spec c' c) as [->|]; rewrite data_in_stored by exact M; [|reflexivity]. destruct (object_find_property o c); reflexivity.
  Qed.
  Lemma write1_ext c d (s s' : values) : (forall k, s k = s' k) -> forall k, write1 c d s k = write1 c d s' k.
  Proof. intros E k. unfold write1. rewrite !E. reflexivity. Qed.

  Lemma add_find (x x' : node U) o : oc <> 0x0EF001 -> node_add_object x o = Ret x' ->
    find_object (n_objects x') oc = match find_object (n_objects x) oc with Some y => Some y | None => if object_code o =? oc then Some o else None end.
  Proof.
    intros Ne E. destruct (add_object_eq x o) as (os & E' & C). rewrite E in E'. inversion E'; subst x'. cbn [n_objects n_with_objects].
    assert (A : find_object (n_objects x ++ [o]) oc = match find_object (n_objects x) oc with Some y => Some y | None => if object_code o =? oc then Some o else None end).
    { clear. induction (n_objects x) as [|y l IH]; cbn; [reflexivity|]. destruct (object_code y =? oc); auto. }
    destruct C as [[_ ->]|(pre & np & post & E1 & E2 & E3 & ->)]; [exact A|].
    rewrite (find_object_replace pre np); [rewrite <- E1; exact A|apply sets_code|rewrite E2; intro X; apply Ne; symmetry; exact X].
  Qed.

  Lemma offered_line (w w' : world) tr : since w w' tr -> offered (w_trace w') = offered (w_trace w) ++ offered tr.
  Proof. unfold since. intros ->. apply offered_app. Qed.

  (** What a call does. *)
  Definition moved (h : option values) (x : nstate U) (c : call U) (x' : nstate U) (v : answer) : Prop :=
    exists h' l, does n oc h c h' v l /\ shows h' x' /\ line x' = line x ++ l.
  Lemma moved_other h x c x' v : ~ concerns n oc c -> shows h x' -> line x' = line x -> moved h x c x' v.
  Proof. intros C S L. exists h, []. split; [apply do_other, C|]. split; [exact S|]. rewrite app_nil_r. exact L. Qed.
  Lemma moved_send h (u u' : U) x w c x' w' v e tr : ~ concerns n oc c -> sends n c = Some e -> shows h (u, x, w) -> n_objects x' = n_objects x ->
    since w w' tr -> Forall (fun y => service_of (snd y) = e) (offered tr) -> moved h (u, x, w) c (u', x', w') v.
  Proof.
    intros C Se Sh Ob Sn F. exists h, (offered tr). split; [eapply do_send; eauto|].
    split; [eapply shows_same; [|exact Sh]; cbn; rewrite Ob; reflexivity|]. apply offered_line, Sn.
  Qed.
  Lemma sent_service (to : sockaddr) (data : list N) e l : service_of data = e -> Forall (eq (to, data)) l -> Forall (fun y => service_of (snd y) = e) l.
  Proof. intros <- F. eapply Forall_impl; [|exact F]. intros y <-. reflexivity. Qed.
  Lemma announce_sends w (x x' : node U) ok w' : node_announce w x = (ok, x', w') ->
    exists tr, since w w' tr /\ Forall (fun y => service_of (snd y) = 0x73) (offered tr).
  Proof.
    unfold node_announce. destruct (find_object _ _) as [o|]; [|intro H; inversion H; subst; exists []; split; [apply since_refl|constructor]].
    destruct (object_find_property o _) as [p|]; [|intro H; inversion H; subst; exists []; split; [apply since_refl|constructor]].
    destruct (node_notify w x _) as [[[b m1] n1] w1] eqn:E. intro H. inversion H; subst.
    apply node_notify_spec in E as (A & tr & k & B & C & D & F & _). exists tr. split; [exact B|]. eapply sent_service; [|exact F].
    rewrite service_sent, (update_tid_esv _ _ _ _ A). reflexivity.
  Qed.

  Lemma call_device c f (x x' : nstate U) v h : oc <> 0x0EF001 -> effect_of c = AtNode n f -> f x = Ret (x', v) -> shows h x -> moved h x c x' v.
  Proof.
    intros Np Ef X Sh. destruct x as [[u x] w]. destruct c as [d n' oc' code data|d n' oc' code|d n' g|d n' o|n' o|n' g|n' o|n' to m|n' to m|n' m|n'|c n' code|c n' r m|c n' r m|c n' o|c|d n'|d n'|n'|n' ch];
      cbn [effect_of] in Ef; inversion Ef; subst; clear Ef; cbv beta iota in X.
    - (* set *)
      destruct (device_node_set_property x oc' code data) as [ok x1] eqn:Y. inversion X; subst. clear X.
      destruct (N.eq_dec oc' oc) as [->|No].
      + destruct (map_code_dec code) as [M|M].
        { apply moved_other; [intros (_ & _ & Q); exact (Q M)| |reflexivity]. unfold shows in *. cbn [fst snd] in *. unfold device_node_set_property in Y.
          destruct (find_object (n_objects x) oc) as [o|] eqn:F.
          - destruct (object_find_property o code) as [p|] eqn:G; inversion Y; subst; [|rewrite F; exact Sh]. cbn [n_objects n_with_objects].
            assert (Co : object_code o = oc) by (apply find_object_some in F as (? & ? & _ & H & _); exact H).
            erewrite find_put; [|exact F|exact Co]. rewrite N.eqb_refl. destruct h as [s|]; [|exact Sh]. intros c. rewrite Sh.
            destruct (map_code_dec c) as [M'|M']; [rewrite !data_in_map by exact M'; reflexivity|]. rewrite !data_in_stored by exact M'.
            unfold object_find_property. cbn [o_props obj_with_props]. rewrite hget_hput. destruct (N.eqb_spec c code) as [->|]; [contradiction|reflexivity].
          - inversion Y; subst. rewrite F. exact Sh. }
        exists (option_map (write1 code data) h), []. unfold shows in Sh. cbn [fst snd] in Sh. unfold device_node_set_property in Y.
        destruct (find_object (n_objects x) oc) as [o|] eqn:F, h as [s|]; try contradiction.
        * destruct (object_find_property o code) as [p|] eqn:G; inversion Y; subst; clear Y.
          -- assert (Sc : s code = Some (p_data p)) by (rewrite Sh, data_in_stored, G by exact M; reflexivity).
             split; [replace true with (match value (Some s) code with Some _ => true | None => false end) by (cbn; rewrite Sc; reflexivity); apply do_set, M|].
             split; [|rewrite app_nil_r; reflexivity]. unfold shows. cbn [fst snd option_map n_objects n_with_objects].
             assert (Co : object_code o = oc) by (apply find_object_some in F as (? & ? & _ & H & _); exact H).
             erewrite find_put; [|exact F|exact Co]. rewrite N.eqb_refl. intros c. unfold write1. rewrite Sc.
             destruct (map_code_dec c) as [M'|M'].
             { rewrite (data_in_map _ _ M'). destruct (N.eqb_spec c code) as [->|]; [contradiction|]. rewrite Sh. apply data_in_map, M'. }
             rewrite data_in_stored by exact M'. unfold object_find_property. cbn [o_props obj_with_props]. rewrite hget_hput.
             destruct (N.eqb_spec c code) as [->|]; [unfold object_find_property in G; rewrite G; reflexivity|]. rewrite Sh, data_in_stored by exact M'. reflexivity.
          -- assert (Sc : s code = None) by (rewrite Sh, data_in_stored, G by exact M; reflexivity).
             split; [replace false with (match value (Some s) code with Some _ => true | None => false end) by (cbn; rewrite Sc; reflexivity); apply do_set, M|].
             split; [|rewrite app_nil_r; reflexivity]. unfold shows. cbn [fst snd option_map]. rewrite F. intros c. unfold write1. rewrite Sc.
             destruct (N.eqb_spec c code) as [->|]; [rewrite <- Sh; auto|apply Sh].
        * inversion Y; subst. split; [apply (do_set n oc None d code data M)|]. split; [|rewrite app_nil_r; reflexivity]. unfold shows. cbn [fst snd]. rewrite F. exact Logic.I.
      + apply moved_other; [intros (_ & Q & _); exact (No Q)| |reflexivity]. eapply shows_same; [|exact Sh]. cbn [fst snd]. unfold device_node_set_property in Y.
        destruct (find_object (n_objects x) oc') as [o|] eqn:F; [|inversion Y; reflexivity]. destruct (object_find_property o code) as [p|]; inversion Y; subst; [|reflexivity].
        cbn [n_objects n_with_objects]. erewrite find_put; [|exact F|apply find_object_some in F as (? & ? & _ & H & _); exact H].
        destruct (N.eqb_spec oc oc'); [subst; contradiction|reflexivity].
    - (* get *)
      inversion X; subst. clear X. destruct (N.eq_dec oc' oc) as [->|No]; [destruct (map_code_dec code) as [M|M]|].
      + apply moved_other; [intros (_ & _ & Q); exact (Q M)|exact Sh|reflexivity].
      + exists h, []. split; [|split; [exact Sh|rewrite app_nil_r; reflexivity]].
        replace (device_node_property x oc code) with (value h code); [apply do_get, M|]. unfold shows in Sh. cbn [fst snd] in Sh. unfold device_node_property, value.
        destruct (find_object (n_objects x) oc) as [o|], h as [s|]; try contradiction; [|reflexivity]. rewrite Sh, data_in_stored by exact M.
        destruct (object_find_property o code); reflexivity.
      + apply moved_other; [intros (_ & Q & _); exact (No Q)|exact Sh|reflexivity].
    - inversion X; subst. apply moved_other; [intros []|exact Sh|reflexivity].
    - destruct (node_add_object x o) as [x1|] eqn:E; cbn [obind] in X; [|discriminate]. inversion X; subst. clear X. apply (add_find _ _ _ Np) in E.
      destruct (N.eq_dec (object_code o) oc) as [Eo|No].
      + exists (match h with Some s => Some s | None => Some (data_in o) end), []. split; [apply do_device, Eo|]. split; [|rewrite app_nil_r; reflexivity].
        unfold shows in *. cbn [fst snd] in *. rewrite E. replace (object_code o =? oc) with true by lia.
        destruct (find_object (n_objects x) oc), h; try contradiction; [exact Sh|reflexivity].
      + apply moved_other; [intros (_ & Q); exact (No Q)| |reflexivity]. eapply shows_same; [|exact Sh]. cbn [fst snd]. rewrite E.
        replace (object_code o =? oc) with false by lia. destruct (find_object (n_objects x) oc); reflexivity.
    - destruct (node_add_object x o) as [x1|] eqn:E; cbn [obind] in X; [|discriminate]. inversion X; subst. clear X. apply (add_find _ _ _ Np) in E.
      destruct (N.eq_dec (object_code o) oc) as [Eo|No].
      + exists (match h with Some s => Some s | None => Some (data_in o) end), []. split; [apply do_add, Eo|]. split; [|rewrite app_nil_r; reflexivity].
        unfold shows in *. cbn [fst snd] in *. rewrite E. replace (object_code o =? oc) with true by lia.
        destruct (find_object (n_objects x) oc), h; try contradiction; [exact Sh|reflexivity].
      + apply moved_other; [intros (_ & Q); exact (No Q)| |reflexivity]. eapply shows_same; [|exact Sh]. cbn [fst snd]. rewrite E.
        replace (object_code o =? oc) with false by lia. destruct (find_object (n_objects x) oc); reflexivity.
    - inversion X; subst. apply moved_other; [intros []|exact Sh|reflexivity].
    - inversion X; subst. apply moved_other; [intros []|exact Sh|reflexivity].
    - destruct (node_send w x to m) as [[[ok m1] x1] w1] eqn:E. inversion X; subst. apply node_send_spec in E as (A & tr & B & _ & _ & F & _).
      eapply moved_send; [intros []|cbn; rewrite Nat.eqb_refl; reflexivity|exact Sh|apply (update_tid_keeps _ _ _ _ A)|exact B|].
      eapply sent_service; [|exact F]. rewrite service_sent. apply (update_tid_esv _ _ _ _ A).
    - destruct (node_post w x to m) as [[[ok m1] x1] w1] eqn:E. inversion X; subst. apply node_post_spec in E as (_ & _ & n1 & ok' & tr & A & -> & B & _ & F & _).
      eapply moved_send; [intros []|cbn; rewrite Nat.eqb_refl; reflexivity|exact Sh|apply (update_tid_keeps _ _ _ _ A)|exact B|].
      eapply sent_service; [|exact F]. rewrite service_sent. apply (update_tid_esv _ _ _ _ A).
    - destruct (node_notify w x m) as [[[ok m1] x1] w1] eqn:E. inversion X; subst. apply node_notify_spec in E as (A & tr & k & B & _ & _ & F & _).
      eapply moved_send; [intros []|cbn; rewrite Nat.eqb_refl; reflexivity|exact Sh|apply (update_tid_keeps _ _ _ _ A)|exact B|].
      eapply sent_service; [|exact F]. rewrite service_sent. apply (update_tid_esv _ _ _ _ A).
    - destruct (node_announce w x) as [[ok x1] w1] eqn:E. inversion X; subst. destruct (announce_sends _ _ _ _ _ E) as (tr & B & F). apply announce_keeps in E as (A & _).
      eapply moved_send; [intros []|cbn; rewrite Nat.eqb_refl; reflexivity|exact Sh|exact A|exact B|exact F].
    - destruct (controller_search_object w x code) as [[ok x1] w1] eqn:E. inversion X; subst. unfold controller_search_object in E.
      destruct (node_notify w x (search_request code)) as [[[ok2 m2] x2] w2] eqn:E2. inversion E; subst. apply node_notify_spec in E2 as (A & tr & k & B & _ & _ & F & _).
      eapply moved_send; [intros []|cbn; rewrite Nat.eqb_refl; reflexivity|exact Sh|apply (update_tid_keeps _ _ _ _ A)|exact B|].
      eapply sent_service; [|exact F]. rewrite service_sent. apply (update_tid_esv _ _ _ _ A).
    - destruct (controller_send w x r m) as [[[ok m1] x1] w1] eqn:E. inversion X; subst. apply node_send_spec in E as (A & tr & B & _ & _ & F & _).
      eapply moved_send; [intros []|cbn; rewrite Nat.eqb_refl; reflexivity|exact Sh|apply (update_tid_keeps _ _ _ _ A)|exact B|].
      eapply sent_service; [|exact F]. rewrite service_sent. apply (update_tid_esv _ _ _ _ A).
    - destruct (controller_post w x r m) as [[[ok m1] x1] w1] eqn:E. inversion X; subst. apply node_post_spec in E as (_ & _ & n1 & ok' & tr & A & -> & B & _ & F & _).
      eapply moved_send; [intros []|cbn; rewrite Nat.eqb_refl; reflexivity|exact Sh|apply (update_tid_keeps _ _ _ _ A)|exact B|].
      eapply sent_service; [|exact F]. rewrite service_sent. apply (update_tid_esv _ _ _ _ A).
    - inversion X; subst. apply moved_other; [intros []|exact Sh|reflexivity].
    - (* start *)
      destruct (node_start w x) as [[[ok x1] w1]|] eqn:E; cbn [obind] in X; [|discriminate]. inversion X; subst. clear X.
      apply node_start_spec in E as (ok1 & m1 & w2 & (_ & tq & Q1 & _ & Q2) & _ & [(_ & -> & -> & ->)|(_ & m2 & _ & A)]).
      + exists h, []. split; [apply do_start_failed|]. split; [exact Sh|]. unfold line. cbn [snd]. rewrite (offered_line _ _ _ Q1), Q2. reflexivity.
      + destruct (announce_sends _ _ _ _ _ A) as (tr & B & F). apply announce_keeps in A as (A & _).
        exists (option_map (fun s => write1 0x88 [0x42] (write1 0x80 [0x30] s)) h), (offered tr). split; [apply do_start, F|]. split.
        * unfold shows in *. cbn [fst snd] in *. rewrite A. cbn [n_objects n_with_mgr]. unfold set_object_properties_byte. cbn [n_objects n_with_objects].
          rewrite !find_object_map by (intros; apply set_code_same).
          destruct (find_object (n_objects x) oc) as [o|], h as [s|]; try contradiction; [|exact Logic.I]. cbn [option_map]. intros c.
          rewrite data_set. apply write1_ext. intros k. rewrite data_set. apply write1_ext. exact Sh.
        * unfold line. cbn [snd]. rewrite (offered_line _ _ _ B), (offered_line _ _ _ Q1), Q2, app_nil_r. reflexivity.
    - (* stop *)
      unfold node_stop in X. destruct (manager_stop _) as [y|]; cbn [obind] in X; [|discriminate]. inversion X; subst. clear X.
      exists (option_map (write1 0x80 [0x31]) h), []. split; [apply do_stop|]. split; [|rewrite app_nil_r; reflexivity].
      unfold shows in *. cbn [fst snd] in *. cbn [n_objects n_with_mgr]. unfold set_object_properties_byte. cbn [n_objects n_with_objects].
      rewrite !find_object_map by (intros; apply set_code_same).
      destruct (find_object (n_objects x) oc) as [o|], h as [s|]; try contradiction; [|exact Logic.I]. cbn [option_map]. intros c.
      rewrite data_set. apply write1_ext. exact Sh.
    - inversion X; subst. apply moved_other; [intros []|exact Sh|reflexivity].
  Qed.

  (** What a message does. *)
  Lemma says_with m t e ps ss gs : (msg_tid m <> 0 -> t = m_tid m) -> says m e ps ss gs (msg_bytes (with_t m t e ps ss gs)).
  Proof. intros T. exists (with_t m t e ps ss gs). repeat (split; [reflexivity|]). intros X. unfold msg_tid at 1. cbn [m_tid with_t]. rewrite (T X). reflexivity. Qed.
  Lemma reaction_says m (x x' : node U) r tr e ps ss gs : msg_wf m -> r = resp m e ps ss gs -> ProofsNode2.reaction m x (Some r) x' tr ->
    n_objects x' = n_objects x /\ n_handlers x' = n_handlers x /\
    Forall (fun y => says m e ps ss gs (snd y) /\ fst y = dest m e) (offered tr).
  Proof.
    intros W -> R. inversion R as [|r0 n'' r' tr0 k Ut _ F _ _]; subst. destruct (update_resp _ _ _ _ _ _ _ _ W Ut) as (t & -> & _ & Ht).
    split; [apply (update_tid_keeps _ _ _ _ Ut)|]. split; [apply (update_tid_keeps _ _ _ _ Ut)|]. eapply Forall_impl; [|exact F]. intros y <-. split; [apply says_with, Ht|reflexivity].
  Qed.
  Lemma reaction_none m (x x' : node U) tr : ProofsNode2.reaction m x None x' tr -> x' = x /\ tr = [].
  Proof. intros R. inversion R; auto. Qed.
  Lemma acknowledged l : Forall2 acknowledges l (ack_props l).
  Proof. unfold ack_props. induction l; cbn; constructor; auto. reflexivity. Qed.
  Lemma told_by_object o s l : (forall c, s c = data_in o c) -> Forall (fun q => object_find_property o (pp_code q) <> None) l -> Forall2 (tells s) l (map (held o) l).
  Proof.
    intros Sh F. induction F as [|q l Fq F IH]; cbn [map]; constructor; [|exact IH]. split; [reflexivity|].
    destruct (map_code_dec (pp_code q)) as [M|M]; [left; exact M|]. right. rewrite Sh, data_in_stored by exact M. unfold held, data_of, object_property_data. cbn [pp_data].
    destruct (object_find_property o (pp_code q)); [reflexivity|contradiction].
  Qed.

  Lemma observe_device m (x x' : nstate U) h : received m -> node_good (snd (fst x)) -> Forall hands_off (n_handlers (snd (fst x))) ->
    observed m x = Ret x' -> shows h x ->
    n_handlers (snd (fst x')) = n_handlers (snd (fst x)) /\
    exists h' l, reacts oc h m h' l /\ shows h' x' /\ line x' = line x ++ l.
  Proof.
    intros Rc G Ho Ob Sh. pose proof (received_rcvd _ Rc) as [W Lm B]. destruct x as [[u x] w], x' as [[u' x'] w']. cbn [fst snd observed] in *.
    apply observe_spec in Ob as (n1 & w1 & t1 & n2 & res & t2 & Sn & _ & _ & D & H & R); [|exact W|exact B].
    pose proof (delivered_keeps _ _ _ _ D) as (D1 & D2 & _ & _ & _ & D6 & _).
    assert (Ln : line (u', x', w') = line (u, x, w) ++ offered t2).
    { unfold line. cbn [snd]. rewrite (offered_line _ _ _ Sn), offered_app, D6. reflexivity. }
    assert (G1 : node_good n1) by (destruct G as [GA GB]; split; [rewrite D1; exact GA|rewrite D2; exact GB]).
    assert (Sh1 : shows h (u, n1, w)) by (eapply shows_same; [|exact Sh]; cbn [fst snd]; rewrite D1; reflexivity).
    pose proof (handled_good _ _ _ _ _ _ _ W G1 H) as G2.
    rewrite Ln. inversion H as [I|o Rq A Np|o copy u1 copy' Rq A Pm Cl V|pre o post copy u1 copy' Rq Eo Ec Fp Pm Cl V]; subst; clear H.
    - apply reaction_none in R as [-> ->]. split; [exact D2|]. exists h, []. split; [apply re_ignored|]. split; [exact Sh1|reflexivity].
    - destruct (failure_eq m W Rq) as (e & Fe & Er). pose proof (reaction_says _ _ _ _ _ _ _ _ _ W Er R) as (R1 & R2 & R3). split; [rewrite R2; exact D2|].
      exists h, (offered t2). split; [|split; [eapply shows_same; [|exact Sh1]; cbn [fst snd]; rewrite R1; reflexivity|reflexivity]].
      destruct (N.eq_dec (msg_deoj m) oc) as [Ed|Ed].
      + eapply re_refused; [exact Ed|exact Fe|]. eapply Forall_impl; [|exact R3]. intros y [Y _]. eexists. exact Y.
      + apply re_other; [exact Ed|]. eapply Forall_impl; [|exact R3]. intros y [Y _]. do 4 eexists. exact Y.
    - destruct (failure_eq m W Rq) as (e & Fe & Er). pose proof (reaction_says _ _ _ _ _ _ _ _ _ W Er R) as (R1 & R2 & R3). split; [rewrite R2; exact D2|].
      exists h, (offered t2). split; [|split; [eapply shows_same; [|exact Sh1]; cbn [fst snd]; rewrite R1; reflexivity|reflexivity]].
      destruct (N.eq_dec (msg_deoj m) oc) as [Ed|Ed].
      + eapply re_refused; [exact Ed|exact Fe|]. eapply Forall_impl; [|exact R3]. intros y [Y _]. eexists. exact Y.
      + apply re_other; [exact Ed|]. eapply Forall_impl; [|exact R3]. intros y [Y _]. do 4 eexists. exact Y.
    - assert (Hh : Forall hands_off (n_handlers n1)) by (rewrite D2; exact Ho). apply request_received_hands_off in V; [|exact Hh]. subst copy'.
      assert (Go : obj_good o). { destruct G1 as [GA _]. rewrite Eo in GA. apply Forall_app in GA as [_ GA]. inversion GA; assumption. }
      assert (Sp : same_shape o (answered o m copy)) by apply answered_shape. set (o' := answered o m copy) in *.
      assert (Go' : obj_good o').
      { destruct G2 as [GA _]. cbn in GA. apply Forall_app in GA as [_ GA]. inversion GA; assumption. }
      assert (Fn : forall c, ~ map_code c -> object_find_property o' c = option_map (set_last (last_data c (writes_of m))) (object_find_property o c)).
      { intros c Nm. eapply answered_hands_off; eauto. unfold is_map_code, map_code in *. lia. }
      assert (Co : object_code o' = msg_deoj m) by (rewrite <- Ec; symmetry; apply object_code_codes, Sp).
      assert (K : n_objects x' = pre ++ o' :: post /\ n_handlers x' = n_handlers n1 /\
        ((m_esv m = 0x60 /\ offered t2 = []) \/
         exists e ps ss gs, success_service (m_esv m) = Some e /\ Forall (fun y => says m e ps ss gs (snd y) /\ fst y = dest m e) (offered t2) /\
           (m_esv m = 0x61 \/ m_esv m = 0x74 -> ps = ack_props (m_props m) /\ ss = [] /\ gs = []) /\
           (m_esv m = 0x62 \/ m_esv m = 0x63 -> read_props_of o' (m_props m) = Some ps /\ ss = [] /\ gs = []) /\
           (m_esv m = 0x6E -> ps = [] /\ ss = ack_props (m_set m) /\ read_props_of o' (m_get m) = Some gs))).
      { destruct (success_eq o o' m W B Rq Pm Sp) as [[E60 Er]|(e & ps & ss & gs & Se & Er & K)]; rewrite Er in R.
        - apply reaction_none in R as [-> ->]. split; [reflexivity|]. split; [reflexivity|]. left. auto.
        - pose proof (reaction_says _ _ _ _ _ _ _ _ _ W eq_refl R) as (R1 & R2 & R3). split; [rewrite R1; reflexivity|]. split; [rewrite R2; reflexivity|].
          right. exists e, ps, ss, gs. auto. }
      destruct K as (K1 & K2 & K3). split; [rewrite K2; exact D2|].
      destruct (N.eq_dec (msg_deoj m) oc) as [Ed|Ed].
      + assert (Fo : find_object (n_objects n1) oc = Some o) by (apply addressed_find; exists pre, post; rewrite <- Ed; auto).
        assert (Fo' : find_object (n_objects x') oc = Some o') by (rewrite K1; apply addressed_find; exists pre, post; rewrite <- Ed; auto).
        unfold shows in Sh1. cbn [fst snd] in Sh1. rewrite Fo in Sh1. destruct h as [s|]; [|contradiction].
        assert (Sh' : forall c, writes (writes_of m) s c = data_in o' c).
        { intros c. rewrite writes_find, Sh1. destruct (map_code_dec c) as [M|M]; [rewrite !data_in_map by exact M; reflexivity|].
          rewrite !data_in_stored, Fn by exact M. destruct (object_find_property o c) as [p|]; [|reflexivity]. cbn. destruct (last_data c (writes_of m)); reflexivity. }
        exists (Some (writes (writes_of m) s)), (offered t2). split; [|split; [unfold shows; cbn [fst snd]; rewrite Fo'; exact Sh'|reflexivity]].
        destruct Pm as [Pw Pr].
        apply re_done; [exact Ed|reflexivity| |].
        * apply Forall_app. split.
          -- eapply Forall_impl; [|exact Pw]. intros q (p & Fq & _) St. rewrite Sh1, data_in_stored, Fq by exact St. discriminate.
          -- eapply Forall_impl; [|exact Pr]. intros q (p & Fq & _) St. rewrite Sh1, data_in_stored, Fq by exact St. discriminate.
        * destruct K3 as [[_ ->]|(e & ps & ss & gs & Se & Fa & A1 & A2 & A3)]; [constructor|]. eapply Forall_impl; [|exact Fa]. intros y [Sy Dy].
          assert (Rd : forall l a, Forall (may_read o) l -> read_props_of o' l = Some a -> Forall2 (tells (writes (writes_of m) s)) l a).
          { intros l a F X. apply read_props_held in X; [|apply obj_good_coded, Go']. subst a. apply told_by_object; [exact Sh'|].
            eapply Forall_impl; [|exact F]. intros q (p & Fq & _) X. apply Sp in X. congruence. }
          unfold reads_of in Pr. exists e, ps, ss, gs. split; [exact Se|]. split; [exact Sy|]. split; [exact Dy|]. split; [|split].
          -- intros X. destruct (A1 X) as (-> & -> & ->). split; [apply acknowledged|auto].
          -- intros X. destruct (A2 X) as (Rp & -> & ->). split; [|auto]. apply Rd; [|exact Rp]. destruct X as [X|X]; rewrite X in Pr; exact Pr.
          -- intros X. destruct (A3 X) as (-> & -> & Rp). split; [reflexivity|]. split; [apply acknowledged|]. apply Rd; [|exact Rp]. rewrite X in Pr. exact Pr.
      + exists h, (offered t2). split; [|split; [|reflexivity]].
        * apply re_other; [exact Ed|]. destruct K3 as [[_ ->]|(e & ps & ss & gs & _ & Fa & _)]; [constructor|]. eapply Forall_impl; [|exact Fa]. intros y [Y _]. do 4 eexists. exact Y.
        * eapply shows_same; [|exact Sh1]. cbn [fst snd]. rewrite K1, Eo. apply find_object_replace; [congruence|congruence].
  Qed.
End S.
