(** C124: a host's IPv6 addresses are left alone; the texts of addresses; what the
    servers make of an IPv6 address. *)
From Verif Require Import Base ModelCodec ModelTransport ModelAddress PropertiesTransport.
From Verif Require Import HMap ModelMessages ModelObject ModelNode ModelController ModelHost ModelNetwork SpecObject SpecNode SpecHost ProofsObject PropertiesObject ProofsNode PropertiesNode ProofsHistory ProofsHost ProofsHost2 PropertiesHost PropertiesFrames PropertiesNetwork PropertiesInterfaces.

(* ------------------------------------------------------------------ *)
(** ** Texts of IPv4 addresses are read back *)

Definition no_digit (l : list N) : Prop := match l with [] => True | c :: _ => c < 0x30 \/ 0x39 < c end.
Lemma digits_end max lim l acc count : no_digit l -> digits_loop max lim l acc count = Some (acc, count, l).
Proof.
  destruct l as [|c r]; cbn; auto. intro H. replace ((0x30 <=? c) && (c <=? 0x39)) with false by lia. reflexivity.
Qed.
Lemma digits_step max lim d r acc count : d < 10 -> acc * 10 + d <= max -> match lim with None => True | Some n => count < n end ->
  digits_loop max lim (0x30 + d :: r) acc count = digits_loop max lim r (acc * 10 + d) (count + 1).
Proof.
  intros D M L. cbn [digits_loop]. replace ((0x30 <=? 0x30 + d) && (0x30 + d <=? 0x39)) with true by lia.
  replace (0x30 + d - 0x30) with d by lia. replace (max <? acc * 10) with false by lia. replace (max <? acc * 10 + d) with false by lia.
  destruct lim as [n|]; [replace (n <? count + 1) with false by lia|]; reflexivity.
Qed.
Lemma decimal_u8 b : b < 256 -> decimal b = (if b <? 10 then [0x30 + b] else if b <? 100 then [0x30 + b / 10; 0x30 + b mod 10] else [0x30 + b / 100; 0x30 + b / 10 mod 10; 0x30 + b mod 10]).
Proof.
  intro B. unfold decimal. cbn [decimal_loop]. destruct (b <? 10) eqn:E; auto. destruct (b <? 100) eqn:E2.
  - replace (b / 10 <? 10) with true by lia. reflexivity.
  - replace (b / 10 <? 10) with false by lia. replace (b / 10 / 10 <? 10) with true by lia. cbn [app]. replace (b / 10 / 10) with (b / 100) by lia. reflexivity.
Qed.
Lemma read_octet b l : b < 256 -> no_digit l -> read_number 255 (Some 3) false (decimal b ++ l) = Some (b, l).
Proof.
  intros B L. rewrite decimal_u8 by auto. unfold read_number.
  destruct (b <? 10) eqn:E; [|destruct (b <? 100) eqn:E2]; cbn [app]; rewrite !digits_step by lia; rewrite digits_end by auto.
  - cbn [N.eqb N.add negb andb]. replace (0 + 1 =? 0) with false by lia. replace (1 <? 0 + 1) with false by lia. rewrite andb_false_r. do 2 f_equal; lia.
  - replace (0 + 1 + 1 =? 0) with false by lia. cbn [negb andb]. replace (0x30 + b / 10 =? 0x30) with false by lia. cbn [andb]. do 2 f_equal; lia.
  - replace (0 + 1 + 1 + 1 =? 0) with false by lia. cbn [negb andb]. replace (0x30 + b / 100 =? 0x30) with false by lia. cbn [andb]. do 2 f_equal; lia.
Qed.
Lemma read_v4_text a l : a < 2 ^ 32 -> no_digit l -> read_v4 (v4_text a ++ l) = Some (a, l).
Proof.
  intros A L. unfold v4_text, v4_octets, read_v4. cbn [map joined].
  rewrite <- !app_assoc. cbn [app]. rewrite read_octet; [|lia|cbn; lia]. cbn [read_char]. rewrite N.eqb_refl.
  rewrite <- !app_assoc. cbn [app]. rewrite read_octet; [|lia|cbn; lia]. cbn [read_char]. rewrite N.eqb_refl.
  rewrite <- !app_assoc. cbn [app]. rewrite read_octet; [|lia|cbn; lia]. cbn [read_char]. rewrite N.eqb_refl.
  rewrite read_octet; [|lia|auto]. change (2 ^ 32) with 4294967296 in A. do 2 f_equal; lia.
Qed.

(** The text of an IPv4 address with the port is read back as it was. *)
Theorem C124_text4 {B : Bracketed} a : a < 2 ^ 32 -> parse_endpoint (endpoint_text (V4 a)) = Some (V4 a, 3610).
Proof.
  intro A. unfold parse_endpoint, read_endpoint4, endpoint_text, ip_text. rewrite read_v4_text; [|auto|cbn; lia].
  cbn [read_char]. rewrite N.eqb_refl. change (decimal PORT) with [0x33; 0x36; 0x31; 0x30].
  change (read_number 65535 None true [0x33; 0x36; 0x31; 0x30]) with (Some (3610, @nil N)). reflexivity.
Qed.

(* ------------------------------------------------------------------ *)
(** ** Texts of IPv6 addresses are not read back *)

Definition colons (l : list N) : nat := length (filter (N.eqb 0x3A) l).
Lemma colons_app l r : colons (l ++ r) = (colons l + colons r)%nat.
Proof. unfold colons. rewrite filter_app, app_length. reflexivity. Qed.
Lemma digits_colons max lim l : forall acc count v n r, digits_loop max lim l acc count = Some (v, n, r) -> colons l = colons r.
Proof.
  induction l as [|c l IH]; intros acc count v n r; cbn [digits_loop]; [intro H; inversion H; auto|].
  destruct ((0x30 <=? c) && (c <=? 0x39)) eqn:D; [|intro H; inversion H; auto].
  destruct (max <? acc * 10); [discriminate|]. destruct (max <? acc * 10 + (c - 0x30)); [discriminate|].
  destruct (match lim with None => false | Some k => k <? count + 1 end); [discriminate|].
  intro H. apply IH in H. rewrite <- H. unfold colons. cbn [filter]. replace (0x3A =? c) with false by lia. reflexivity.
Qed.
Lemma number_colons max lim z l v r : read_number max lim z l = Some (v, r) -> colons l = colons r.
Proof.
  unfold read_number. destruct (digits_loop max lim l 0 0) as [[[v0 n] r0]|] eqn:E; [|discriminate].
  destruct (n =? 0); [discriminate|]. destruct (_ && _ && _); [discriminate|]. intro H. inversion H; subst. eapply digits_colons; eauto.
Qed.
Lemma char_colons c l r : read_char c l = Some r -> colons l = (colons [c] + colons r)%nat.
Proof.
  destruct l as [|x l]; cbn [read_char]; [discriminate|]. destruct (x =? c) eqn:E; [|discriminate]. intro H. inversion H; subst.
  replace x with c by lia. rewrite <- colons_app. reflexivity.
Qed.
Lemma v4_colons l a r : read_v4 l = Some (a, r) -> colons l = colons r.
Proof.
  unfold read_v4. intro H.
  repeat match type of H with
         | match read_number ?m ?k ?z ?x with _ => _ end = _ => destruct (read_number m k z x) as [[? ?]|] eqn:?; [|discriminate]
         | match read_char ?c ?x with _ => _ end = _ => destruct (read_char c x) eqn:?; [|discriminate]
         end.
  inversion H; subst.
  repeat match goal with
         | E : read_number _ _ _ _ = Some _ |- _ => apply number_colons in E
         | E : read_char _ _ = Some _ |- _ => apply char_colons in E; change (colons [0x2E]) with 0%nat in E
         end. lia.
Qed.
Lemma endpoint4_colons l x r : read_endpoint4 l = Some (x, r) -> colons l = S (colons r).
Proof.
  unfold read_endpoint4. destruct (read_v4 l) as [[a l1]|] eqn:E1; [|discriminate]. destruct (read_char 0x3A l1) as [l2|] eqn:E2; [|discriminate].
  destruct (read_number 65535 None true l2) as [[p l3]|] eqn:E3; [|discriminate]. intro H. inversion H; subst.
  apply v4_colons in E1. apply char_colons in E2. apply number_colons in E3. change (colons [0x3A]) with 1%nat in E2. lia.
Qed.

(** Characters of an IPv6 address: no bracket. *)
Definition unbracketed (l : list N) : Prop := Forall (fun c => c <> 0x5B) l.
Lemma joined_unbracketed sep l : sep <> 0x5B -> Forall unbracketed l -> unbracketed (joined sep l).
Proof.
  intros S F. induction F as [|x l X F IH]; [constructor|]. destruct l as [|y r]; [exact X|].
  change (joined sep (x :: y :: r)) with (x ++ sep :: joined sep (y :: r)). apply Forall_app. split; [exact X|]. constructor; auto.
Qed.
Lemma decimal_unbracketed v : unbracketed (decimal v).
Proof.
  unfold decimal. generalize 5%nat. intro n. revert v. induction n as [|n IH]; intro v; cbn [decimal_loop]; [constructor|]. destruct (v <? 10) eqn:E.
  - constructor; [lia|constructor].
  - apply Forall_app. split; [apply IH|]. constructor; [lia|constructor].
Qed.
Lemma lower_unbracketed v : unbracketed (lower_hex v).
Proof.
  unfold lower_hex. generalize 4%nat. intro n. revert v. induction n as [|n IH]; intro v; cbn [lower_loop]; [constructor|]. unfold lower_digit. destruct (v <? 16) eqn:E.
  - constructor; [destruct (v <? 10) eqn:?; lia|constructor].
  - apply Forall_app. split; [apply IH|]. constructor; [destruct (v mod 16 <? 10) eqn:?; lia|constructor].
Qed.
Lemma maps_unbracketed l : Forall unbracketed (map lower_hex l).
Proof. apply Forall_forall. intros x I. apply in_map_iff in I as (v & <- & _). apply lower_unbracketed. Qed.
Lemma v6_unbracketed a : unbracketed (v6_text a).
Proof.
  unfold v6_text. destruct (a / 2 ^ 32 =? 0xFFFF).
  - apply Forall_app. split; [repeat (constructor; [lia|]); constructor|]. apply joined_unbracketed; [lia|]. apply Forall_forall. intros x I. apply in_map_iff in I as (v & <- & _). apply decimal_unbracketed.
  - set (run := zero_run _ _ _ _). destruct (Nat.ltb 1 (snd run)).
    + apply Forall_app. split; [apply joined_unbracketed; [lia|apply maps_unbracketed]|]. apply Forall_app. split; [repeat (constructor; [lia|]); constructor|]. apply joined_unbracketed; [lia|apply maps_unbracketed].
    + apply joined_unbracketed; [lia|apply maps_unbracketed].
Qed.
Lemma v6_colons a : (2 <= colons (v6_text a))%nat.
Proof.
  unfold v6_text. destruct (a / 2 ^ 32 =? 0xFFFF).
  - rewrite colons_app. change (colons [0x3A; 0x3A; 0x66; 0x66; 0x66; 0x66; 0x3A]) with 3%nat. lia.
  - set (run := zero_run _ _ _ _). destruct (Nat.ltb 1 (snd run)).
    + rewrite !colons_app. change (colons [0x3A; 0x3A]) with 2%nat. lia.
    + unfold v6_segments. cbn [map joined]. rewrite !colons_app.
      assert (C : forall l, colons (0x3A :: l) = S (colons l)) by reflexivity. rewrite C, colons_app, C. lia.
Qed.

(** The text of an IPv6 address with the port is no address: it lacks the brackets. *)
Theorem C124_text6 {B : Bracketed} a : parse_endpoint (endpoint_text (V6 a)) = None.
Proof.
  unfold parse_endpoint. assert (C : (3 <= colons (endpoint_text (V6 a)))%nat).
  { unfold endpoint_text. rewrite colons_app. cbn [ip_text]. pose proof (v6_colons a). change (colons (0x3A :: decimal PORT)) with 1%nat. lia. }
  destruct (read_endpoint4 (endpoint_text (V6 a))) as [[x r]|] eqn:E.
  - apply endpoint4_colons in E. destruct r; [change (colons []) with 0%nat in E; lia|reflexivity].
  - assert (F : unbracketed (endpoint_text (V6 a))).
    { apply Forall_app. split; [apply v6_unbracketed|]. constructor; [lia|]. apply decimal_unbracketed. }
    unfold read_endpoint6, read_char. destruct F as [|c l N F]; [reflexivity|]. replace (c =? 0x5B) with false by lia. reflexivity.
Qed.

(** fe80::1, ::ffff:192.168.0.1, 1:2:3:4:5:6:7:8, 0:1:2:3:4:5:6:7 and 1:0:0:2:: have these texts. *)
Example C124_texts :
  map (fun a => string_of_list_ascii (map Ascii.ascii_of_N (v6_text a)))
    [0xFE80 * 2 ^ 112 + 1; 0xFFFFC0A80001; 0x00010002000300040005000600070008; 0x00000001000200030004000500060007; 0x00010000000000020000000000000000; 0]
  = ["fe80::1"; "::ffff:192.168.0.1"; "1:2:3:4:5:6:7:8"; "0:1:2:3:4:5:6:7"; "1:0:0:2::"; "::"]%string
  /\ string_of_list_ascii (map Ascii.ascii_of_N (endpoint_text (V4 0xC0A8010A))) = "192.168.1.10:3610"%string.
Proof. vm_compute. split; reflexivity. Qed.

(* ------------------------------------------------------------------ *)
(** ** Servers *)

Section Servers.
  Context {B : Bracketed} {O : OS}.

  (** A unicast server refuses an IPv6 address without asking the operating system,
      and stays as it was. *)
  Theorem C124_unicast w g a : guarded_ucast_bind w g (V6 a) = (Ret false, g, w).
  Proof. unfold guarded_ucast_bind. rewrite C124_text6. reflexivity. Qed.

  (** With an IPv4 address the servers do what ModelTransport.v says. *)
  Theorem C124_as_modelled w s a : a < 2 ^ 32 ->
    guarded_ucast_bind w (Guarded s false) (V4 a) = (let '(ok, s', w') := ucast_server_bind w s (V4 a) in (Ret ok, Guarded s' false, w')) /\
    guarded_mcast_bind w (Guarded s false) (V4 a) = (let '(ok, s', w') := mcast_server_bind w s (V4 a) in (Ret ok, Guarded s' false, w')).
  Proof.
    intro A. split.
    - unfold guarded_ucast_bind, ucast_server_bind. rewrite C124_text4 by auto. cbn [gd_poisoned gd_server]. change PORT with 3610.
      destruct (socket_bind w (sv_socket s) (V4 a, 3610)) as [[ok k] w1]. reflexivity.
    - unfold guarded_mcast_bind, mcast_server_bind. cbn [gd_poisoned gd_server]. destruct (socket_bind w (sv_socket s) (V4 0, PORT)) as [[ok k] w1].
      destruct ok; cbn [negb]; [|reflexivity]. unfold text_join, socket_join. destruct (sk_sock k); [|reflexivity].
      rewrite C124_text4 by auto. reflexivity.
  Qed.

  (** A multicast server that is asked to bind to an IPv6 address fails when the
      operating system refuses all three attempts, and panics otherwise. After the
      panic every use of the server panics, and it cannot be stopped. *)
  Theorem C124_multicast_refuted w s a : exists s' w',
    (guarded_mcast_bind w (Guarded s false) (V6 a) = (Ret false, Guarded s' false, w') /\
     w_trace w' = w_trace w ++ repeat (EvBind (V6 0, 3610) false) 3) \/
    (guarded_mcast_bind w (Guarded s false) (V6 a) = (Panic, Guarded s' true, w') /\
     (forall b, guarded_mcast_bind w' (Guarded s' true) b = (Panic, Guarded s' true, w')) /\
     guarded_ifaddr (Guarded s' true) = Panic /\
     (forall m, fst (guarded_notify w' (Guarded s' true) m) = Panic) /\
     (exists g, guarded_stop (Guarded s' true) = Ret (false, g) /\ gd_poisoned g = true)).
  Proof.
    unfold guarded_mcast_bind. cbn [gd_poisoned gd_server]. unfold socket_bind, UDP_SOCKET_BIND_RETRY_MAX.
    destruct (bind_loop 3 w (V6 0, PORT)) as [ok w1] eqn:E. destruct ok; cbn [negb].
    - eexists _, _. right. unfold text_join. cbn [sk_sock]. rewrite C124_text6. split; [reflexivity|]. cbn. repeat split. eexists. split; reflexivity.
    - eexists _, _. left. split; [reflexivity|]. cbn [bind_loop] in E.
      repeat match type of E with context [if ?b then (true, _) else _] => destruct b eqn:? ; [discriminate|] end.
      inversion E; subst. cbn [log w_trace w_calls]. rewrite <- !app_assoc. reflexivity.
  Qed.

  (** The IPv4 group is a multicast address (224.0.0.0/4); what is to be the IPv6
      group is not (ff00::/8), nor is it the group ff02::1. It is the address ff:2::1. *)
  Theorem C124_group_refuted :
    (exists g, MULTICAST_V4_ADDRESS = V4 g /\ g / 2 ^ 28 = 0xE) /\
    MULTICAST_V6_ADDRESS / 2 ^ 120 <> 0xFF /\ MULTICAST_V6_ADDRESS <> 0xFF02 * 2 ^ 112 + 1 /\
    v6_text MULTICAST_V6_ADDRESS = [0x66; 0x66; 0x3A; 0x32; 0x3A; 0x3A; 0x31].
  Proof. split; [eexists; split; [reflexivity|reflexivity]|]. split; [vm_compute; discriminate|]. split; [vm_compute; discriminate|vm_compute; reflexivity]. Qed.
End Servers.

(* ------------------------------------------------------------------ *)
(** ** A host with IPv6 addresses *)

(** The interfaces without their IPv6 addresses. *)
Definition without6 (is : list iface) : list iface :=
  map (fun i => Iface (if_up i) (if_loopback i) (if_p2p i) (filter (fun ip => match fst ip with V4 _ => true | V6 _ => false end) (if_ips i))) is.
(** Two operating systems that differ in nothing but IPv6 addresses. *)
Definition alike (O1 O2 : OS) : Prop :=
  (forall k, without6 (@os_interfaces O1 k) = without6 (@os_interfaces O2 k)) /\
  (forall k, @os_bind O1 k = @os_bind O2 k) /\ (forall k, @os_join O1 k = @os_join O2 k).

Lemma ips_filter l : interface_ips (filter (fun ip => match fst ip with V4 _ => true | V6 _ => false end) l) = interface_ips l.
Proof.
  induction l as [|[ip m] r IH]; auto. cbn [filter fst]. destruct ip as [x|x]; cbn [interface_ips]; rewrite IH; auto.
Qed.
Lemma interfaces_without6 is : get_interfaces (without6 is) = get_interfaces is.
Proof.
  induction is as [|i r IH]; auto. cbn [without6 map get_interfaces if_up if_loopback if_p2p if_ips]. fold (without6 r). rewrite IH.
  destruct (negb (if_up i)); auto. destruct (if_loopback i || if_p2p i); auto. pose proof (ips_filter (if_ips i)) as H.
  destruct (filter _ (if_ips i)) as [|x l]; destruct (if_ips i) as [|y l']; auto; first [rewrite <- H | rewrite H]; auto.
Qed.

Section Alike.
  Context {O1 O2 : OS}.
  Variable A : alike O1 O2.

  Lemma bind_loop_alike a n : forall w, @bind_loop O1 n w a = @bind_loop O2 n w a.
  Proof. induction n as [|n IH]; intro w; cbn [bind_loop]; auto. rewrite (proj1 (proj2 A)). rewrite IH. reflexivity. Qed.
  Lemma socket_bind_alike w k a : @socket_bind O1 w k a = @socket_bind O2 w k a.
  Proof. unfold socket_bind. rewrite bind_loop_alike. reflexivity. Qed.
  Lemma ucast_bind_alike w s a : @ucast_server_bind O1 w s a = @ucast_server_bind O2 w s a.
  Proof. destruct a; cbn [ucast_server_bind]; auto. rewrite socket_bind_alike. reflexivity. Qed.
  Lemma mcast_bind_alike w s a : @mcast_server_bind O1 w s a = @mcast_server_bind O2 w s a.
  Proof.
    unfold mcast_server_bind. rewrite socket_bind_alike. destruct (@socket_bind O2 w (sv_socket s) (V4 0, PORT)) as [[ok k] w1]. destruct (negb ok); auto.
    unfold socket_join. rewrite (proj2 (proj2 A)). reflexivity.
  Qed.
  Lemma servers_alike b1 b2 : (forall w s a, b1 w s a = b2 w s a) -> forall ifs w l, @servers_start O1 b1 w ifs l = @servers_start O2 b2 w ifs l.
  Proof.
    intros Hb ifs. induction ifs as [|i r IH]; intros w l; cbn [servers_start]; auto. rewrite Hb. destruct (b2 w server_new i) as [[ok s] w1].
    destruct (negb ok); auto. destruct (server_start s) as [ok2 s2]. destruct (negb ok2); auto.
  Qed.
  Lemma interfaces_alike w : @get_all_interfaces O1 w = @get_all_interfaces O2 w.
  Proof. unfold get_all_interfaces. rewrite <- (interfaces_without6 (@os_interfaces O1 _)), (proj1 A), interfaces_without6. reflexivity. Qed.

  (** The IPv6 addresses of the host make no difference to the start of the
      transport: same result, same servers, same calls into the operating system. *)
  Theorem C124_ignored w m : @manager_start O1 w m = @manager_start O2 w m.
  Proof.
    assert (M : forall w l, @mcast_start O1 w l = @mcast_start O2 w l).
    { intros w1 l. unfold mcast_start. destruct (servers_running l); auto. rewrite interfaces_alike. destruct (@get_all_interfaces O2 w1) as [ifs w2].
      rewrite (servers_alike (@mcast_server_bind O1) (@mcast_server_bind O2) mcast_bind_alike). reflexivity. }
    assert (U : forall w l, @ucast_start O1 w l = @ucast_start O2 w l).
    { intros w1 l. unfold ucast_start. destruct (servers_running l); auto. rewrite interfaces_alike. destruct (@get_all_interfaces O2 w1) as [ifs w2].
      rewrite (servers_alike (@ucast_server_bind O1) (@ucast_server_bind O2) ucast_bind_alike). reflexivity. }
    unfold manager_start. destruct (manager_running m); auto. rewrite M. destruct (@mcast_start O2 w (mg_mcast m)) as [[ok c] w1]. cbn [mg_ucast]. destruct (negb ok); auto. rewrite U. reflexivity.
  Qed.
End Alike.

(** get_all_interfaces names no IPv6 address, whatever the host has. *)
Lemma interfaces_only4 is a : ~ In (V6 a) (get_interfaces is).
Proof.
  intro H. apply get_interfaces_in in H. destruct H as (i & m & _ & _ & _ & _ & _ & (x & H) & _). discriminate.
Qed.

(** After any calls and datagrams a node says of no IPv6 address that it serves it. *)
Theorem C124_never {U : Type} {P : Profile} {HO : HashOrder} {Os : OS} {Uu : Uuids} db np n0 u w ops (h : host U) w' a :
  obj_built np -> node_new np = Ret n0 -> Forall typed_op ops -> host_run db (host_new u n0, w) ops = Ret (h, w') ->
  node_has_interface (h_node h) (V6 a) = false.
Proof.
  intros Np N F E. destruct (C101_exact db np n0 u w ops h w' (V6 a) Np N F E) as [_ X]. destruct (node_has_interface (h_node h) (V6 a)); auto.
  destruct (X eq_refl) as (k & i & m & _ & _ & _ & _ & _ & (x & H) & _). discriminate.
Qed.

(** The filters of interface_unix.rs: get_all_interfaces gives what get_v4_interfaces
    gives, get_v6_interfaces gives the rest. *)
Theorem C124_filters is : get_interfaces is = get_v4_interfaces is /\
  (forall a, In a (get_v4_interfaces is) -> exists x, a = V4 x) /\ (forall a, In a (get_v6_interfaces is) -> exists x, a = V6 x) /\
  Permutation (filtered_interfaces is_all_interface is) (get_v4_interfaces is ++ get_v6_interfaces is).
Proof.
  assert (Ips : forall l, interface_ips l = map fst (filter is_v4_interface (filter (fun ip => negb (is_ignore_interface ip)) l))).
  { induction l as [|ip r IH]; auto. cbn [interface_ips filter]. destruct (is_ignore_interface ip); cbn [negb]; auto. cbn [filter]. destruct (is_v4_interface ip); cbn [negb map]; rewrite IH; auto. }
  assert (In4 : forall f is a, In a (filtered_interfaces f is) -> exists ip, a = fst ip /\ f ip = true).
  { intros f js a H. apply in_flat_map in H as (i & _ & H). destruct (negb (if_up i)); [destruct H|]. destruct (if_loopback i || if_p2p i); [destruct H|].
    apply in_map_iff in H as (ip & <- & H). apply filter_In in H as [_ H]. eauto. }
  split; [|split; [|split]].
  - unfold get_v4_interfaces, filtered_interfaces. induction is as [|i r IH]; auto. cbn [get_interfaces flat_map]. rewrite IH. destruct (negb (if_up i)); auto. destruct (if_loopback i || if_p2p i); auto.
    rewrite <- Ips. destruct (if_ips i); auto.
  - intros a H. apply In4 in H as (ip & -> & H). unfold is_v4_interface in H. destruct (fst ip); eauto; discriminate.
  - intros a H. apply In4 in H as (ip & -> & H). unfold is_v6_interface in H. destruct (fst ip); eauto; discriminate.
  - unfold get_v4_interfaces, get_v6_interfaces, filtered_interfaces.
    assert (Part : forall l, Permutation (map fst (filter is_all_interface l)) (map fst (filter is_v4_interface l) ++ map fst (filter is_v6_interface l))).
    { induction l as [|ip r IH]; [constructor|]. cbn [filter is_all_interface map]. unfold is_v4_interface at 1, is_v6_interface at 1. destruct (fst ip) eqn:X; cbn [map app].
      - rewrite X. constructor. exact IH.
      - rewrite X. apply Permutation_cons_app. exact IH. }
    induction is as [|i r IH]; [constructor|]. cbn [flat_map].
    set (F := fun f => if negb (if_up i) then [] else if if_loopback i || if_p2p i then [] else map fst (filter f (filter (fun ip => negb (is_ignore_interface ip)) (if_ips i)))).
    assert (Q : Permutation (F is_all_interface) (F is_v4_interface ++ F is_v6_interface)).
    { unfold F. destruct (negb (if_up i)); [constructor|]. destruct (if_loopback i || if_p2p i); [constructor|]. apply Part. }
    fold (F is_all_interface) (F is_v4_interface) (F is_v6_interface).
    eapply Permutation_trans; [apply Permutation_app; [exact Q|exact IH]|]. rewrite <- !app_assoc. apply Permutation_app_head. rewrite !app_assoc. apply Permutation_app_tail. apply Permutation_app_comm.
Qed.
(** Despite its name get_all_interfaces leaves addresses out. *)
Theorem C124_all_refuted : exists is a, In a (filtered_interfaces is_all_interface is) /\ ~ In a (get_interfaces is).
Proof.
  exists [Iface true false false [(V6 1, 64)]], (V6 1). split; [left; reflexivity|]. apply interfaces_only4.
Qed.

(* ------------------------------------------------------------------ *)
(** ** A host with one interface that has an IPv4 and an IPv6 address *)

Definition dual : list iface := [Iface true false false [(V6 (0xFE80 * 2 ^ 112 + 1), 64); (V4 0xC0A8010A, 24); (V6 7, 64)]].
Definition dual_os : OS := Build_OS (fun _ => dual) (fun _ => true) (fun _ => true) (fun _ => true) (fun k => k).
Definition plain_os : OS := Build_OS (fun _ => [Iface true false false [(V4 0xC0A8010A, 24)]]) (fun _ => true) (fun _ => true) (fun _ => true) (fun k => k).
Example C124_case : alike dual_os plain_os /\
  (match @manager_start dual_os (World 0 [] 0) manager_new with
   | Ret (ok, m, w) => (ok, w_trace w, manager_has_interface m (V4 0xC0A8010A), manager_has_interface m (V6 7))
   | Panic => (false, [], false, true)
   end) = (true, [EvBind (V4 0, 3610) true; EvJoin (V4 0xC0A8010A) true; EvBind (V4 0xC0A8010A, 3610) true], true, false) /\
  get_v6_interfaces dual = [V6 (0xFE80 * 2 ^ 112 + 1); V6 7].
Proof. split; [repeat split|]. split; vm_compute; reflexivity. Qed.
(** Both cases of C124_multicast_refuted. *)
Definition no_os : OS := Build_OS (fun _ => dual) (fun _ => false) (fun _ => true) (fun _ => true) (fun k => k).
Example C124_case_servers : let B : Bracketed := fun _ => None in
  fst (fst (@guarded_mcast_bind B dual_os (World 0 [] 0) (Guarded server_new false) (V6 7))) = Panic /\
  fst (fst (@guarded_mcast_bind B no_os (World 0 [] 0) (Guarded server_new false) (V6 7))) = Ret false /\
  fst (fst (@guarded_mcast_bind B dual_os (World 0 [] 0) (Guarded server_new false) (V4 0xC0A8010A))) = Ret true.
Proof. vm_compute. repeat split. Qed.

Print Assumptions C124_text4.
Print Assumptions C124_text6.
Print Assumptions C124_unicast.
Print Assumptions C124_as_modelled.
Print Assumptions C124_multicast_refuted.
Print Assumptions C124_group_refuted.
Print Assumptions C124_ignored.
Print Assumptions C124_never.
Print Assumptions C124_filters.
Print Assumptions C124_all_refuted.
