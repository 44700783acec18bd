(** Debug and release builds: what a debug build computes without panic, a
    release build computes as well. *)
From Verif Require Import Base HMap ModelCodec ModelMessages ModelObject ModelTransport ModelNode ModelController ModelHost ModelDevice SpecNode SpecDevice.

Definition refines {A} (x y : outcome A) : Prop := forall a, x = Ret a -> y = Ret a.
Lemma refines_refl {A} (x : outcome A) : refines x x.
Proof. intros a E. exact E. Qed.
Lemma refines_bind {A B} (x y : outcome A) (f g : A -> outcome B) :
  refines x y -> (forall a, refines (f a) (g a)) -> refines (obind x f) (obind y g).
Proof. intros H F b E. destruct x as [a|]; cbn in E; [|discriminate]. rewrite (H a eq_refl). cbn. exact (F a b E). Qed.

(** The only places where the two builds differ. *)
Lemma shl_ref w a s : refines (shl_w (P := true) w a s) (shl_w (P := false) w a s).
Proof. intros x E. unfold shl_w in *. destruct (s <? w); [exact E|discriminate]. Qed.
Lemma shr_ref w a s : refines (shr_w (P := true) w a s) (shr_w (P := false) w a s).
Proof. intros x E. unfold shr_w in *. destruct (s <? w); [exact E|discriminate]. Qed.
Lemma add_ref w a b : refines (add_w (P := true) w a b) (add_w (P := false) w a b).
Proof. intros x E. unfold add_w in *. destruct (a + b <? 2 ^ w); [exact E|discriminate]. Qed.
Lemma sub_ref w a b : refines (sub_w (P := true) w a b) (sub_w (P := false) w a b).
Proof. intros x E. unfold sub_w in *. destruct (b <=? a); [exact E|discriminate]. Qed.
Create HintDb build.
#[export] Hint Resolve shl_ref shr_ref add_ref sub_ref : build.

Ltac ref := repeat first
  [ solve [auto with build nocore]
  | apply refines_refl
  | (apply refines_bind; [|intro])
  | match goal with
    | |- refines (match ?x with _ => _ end) _ => destruct x
    | |- refines (if ?x then _ else _) _ => destruct x
    end; cbn [fst snd] ].

Section B.
  Context {HO : HashOrder}.
  Notation D := true (only parsing).
  Lemma from_u32_ref v k : refines (bytes_from_u32 (P := true) v k) (bytes_from_u32 (P := false) v k).
  Proof. unfold bytes_from_u32. induction k; cbn [bytes_from_u32_loop]; ref. Qed.
  Lemma to_u32_loop_ref l : forall n v, refines (bytes_to_u32_loop (P := true) l n v) (bytes_to_u32_loop (P := false) l n v).
  Proof. induction l; intros; cbn [bytes_to_u32_loop]; ref. Qed.
  Lemma to_u32_ref l : refines (bytes_to_u32 (P := true) l) (bytes_to_u32 (P := false) l).
  Proof. apply to_u32_loop_ref. Qed.
  Hint Resolve from_u32_ref to_u32_ref : build.
  Lemma oid_ref c u : refines (oid_new (P := true) c u) (oid_new (P := false) c u).
  Proof. unfold oid_new. ref. Qed.
  Lemma instance_codes_ref : forall k d, (length d <= k)%nat -> refines (instance_codes (P := true) d) (instance_codes (P := false) d).
  Proof.
    induction k as [|k IH]; intros d L; destruct d as [|a [|b [|c r]]]; cbn [instance_codes length] in *; ref; try lia.
    apply IH. lia.
  Qed.
  Lemma instance_codes_ref' d : refines (instance_codes (P := true) d) (instance_codes (P := false) d).
  Proof. exact (instance_codes_ref (length d) d (le_n _)). Qed.
  Hint Resolve oid_ref instance_codes_ref' : build.
  Lemma profile_codes_ref l : refines (node_profile_codes (P := true) l) (node_profile_codes (P := false) l).
  Proof. induction l; cbn [node_profile_codes]; ref. Qed.
  Hint Resolve profile_codes_ref : build.
  Lemma set_int_ref p v k : refines (prop_set_int_data (P := true) p v k) (prop_set_int_data (P := false) p v k).
  Proof. unfold prop_set_int_data. ref. Qed.
  Lemma as_int_ref p : refines (prop_data_as_int (P := true) p) (prop_data_as_int (P := false) p).
  Proof. unfold prop_data_as_int. ref. Qed.
  Hint Resolve set_int_ref as_int_ref : build.
  Lemma object_set_int_ref o c v k : refines (object_set_property_int (P := true) o c v k) (object_set_property_int (P := false) o c v k).
  Proof. unfold object_set_property_int. ref. Qed.
  Lemma object_as_int_ref o c : refines (object_property_data_as_int (P := true) o c) (object_property_data_as_int (P := false) o c).
  Proof. unfold object_property_data_as_int. ref. Qed.
  Lemma map_bits_ref l : forall m, refines (property_map_bits (P := true) l m) (property_map_bits (P := false) l m).
  Proof. induction l; intros; cbn [property_map_bits]; ref. Qed.
  Hint Resolve object_set_int_ref object_as_int_ref map_bits_ref : build.
  Lemma map_bytes_ref l : refines (to_property_map_bytes (P := true) l) (to_property_map_bytes (P := false) l).
  Proof. unfold to_property_map_bytes. ref. Qed.
  Hint Resolve map_bytes_ref : build.
  Lemma update_maps_ref o : refines (object_update_property_maps (P := true) o) (object_update_property_maps (P := false) o).
  Proof. unfold object_update_property_maps. ref. Qed.
  Hint Resolve update_maps_ref : build.
  Lemma add_property_ref o p : refines (object_add_property (P := true) o p) (object_add_property (P := false) o p).
  Proof. unfold object_add_property. ref. Qed.
  Hint Resolve add_property_ref : build.
  Lemma add_properties_ref l : forall o, refines (add_properties (P := true) o l) (add_properties (P := false) o l).
  Proof. induction l; intros; cbn [add_properties]; ref. Qed.
  Hint Resolve add_properties_ref : build.
  Lemma clone_ref s o : refines (object_clone (P := true) s o) (object_clone (P := false) s o).
  Proof. unfold object_clone. ref. Qed.
  Lemma manufacturer_ref o c : refines (object_set_manufacturer_code (P := true) o c) (object_set_manufacturer_code (P := false) o c).
  Proof. unfold object_set_manufacturer_code. ref. Qed.
  Hint Resolve clone_ref manufacturer_ref : build.
  Lemma rows_ref l : forall o, refines (add_standard_rows (P := true) o l) (add_standard_rows (P := false) o l).
  Proof. induction l; intros; cbn [add_standard_rows]; ref. Qed.
  Hint Resolve rows_ref : build.
  Lemma standard_object_ref s c : refines (standard_object (P := true) s c) (standard_object (P := false) s c).
  Proof. unfold standard_object. ref. Qed.
  Hint Resolve standard_object_ref : build.
  Lemma standard_objects_ref seed l : forall n, refines (standard_objects (P := true) seed n l) (standard_objects (P := false) seed n l).
  Proof. induction l; intros; cbn [standard_objects]; ref. Qed.
  Lemma database_ref seed : refines (standard_database (P := true) seed) (standard_database (P := false) seed).
  Proof. apply standard_objects_ref. Qed.
  Lemma default_ref u o c : refines (set_standard_default (P := true) u o c) (set_standard_default (P := false) u o c).
  Proof. unfold set_standard_default. ref. Qed.
  Hint Resolve default_ref : build.
  Lemma standard_loop_ref u l : forall o, refines (add_standard_loop (P := true) u o l) (add_standard_loop (P := false) u o l).
  Proof. induction l as [|[c p] l IH]; intros; cbn [add_standard_loop]; ref. Qed.
  Hint Resolve standard_loop_ref : build.
  Lemma add_standard_ref db u o c : refines (object_add_standard_properties (P := true) db u o c) (object_add_standard_properties (P := false) db u o c).
  Proof. unfold object_add_standard_properties. ref. Qed.
  Hint Resolve add_standard_ref : build.
  Lemma device_object_ref db u1 u2 s c : refines (device_object (P := true) db u1 u2 s c) (device_object (P := false) db u1 u2 s c).
  Proof. unfold device_object, with_standard_properties. ref. Qed.
  Hint Resolve device_object_ref : build.

  Section N.
    Context {U : Type} {Os : OS} {Uu : Uuids}.
    Lemma int_if_present_ref o c v k : refines (object_set_int_if_present (P := true) o c v k) (object_set_int_if_present (P := false) o c v k).
    Proof. unfold object_set_int_if_present. ref. Qed.
    Hint Resolve int_if_present_ref : build.
    Lemma np_update_ref o l : refines (node_profile_update (P := true) o l) (node_profile_update (P := false) o l).
    Proof. unfold node_profile_update. ref. Qed.
    Hint Resolve np_update_ref : build.
    Lemma add_object_ref (n : node U) o : refines (node_add_object (P := true) n o) (node_add_object (P := false) n o).
    Proof. unfold node_add_object, update_node_profile. ref. Qed.
    Hint Resolve add_object_ref : build.
    Lemma node_new_ref o : refines (node_new (U := U) (P := true) o) (node_new (P := false) o).
    Proof. unfold node_new. ref. Qed.
    Lemma received_ref s u (n : node U) m : refines (node_message_received (P := true) s u n m) (node_message_received (P := false) s u n m).
    Proof. unfold node_message_received. ref. Qed.
    Hint Resolve received_ref : build.
    Lemma observe_ref w u (n : node U) m : refines (node_observe (P := true) w u n m) (node_observe (P := false) w u n m).
    Proof. unfold node_observe. ref. Qed.
    Hint Resolve observe_ref : build.
    Lemma step_ref (s : U * node U * world) op : refines (node_step (P := true) s op) (node_step (P := false) s op).
    Proof. destruct s as [[u n] w]. destruct op; cbn [node_step]; ref. Qed.
    Hint Resolve step_ref : build.
    Lemma run_ref ops : forall s : U * node U * world, refines (node_run (P := true) s ops) (node_run (P := false) s ops).
    Proof. induction ops; intros; cbn [node_run]; ref. Qed.
    Lemma device_new_ref db u1 u2 s (n : node U) i c : refines (device_new (P := true) db u1 u2 s n i c) (device_new (P := false) db u1 u2 s n i c).
    Proof. unfold device_new, device_init. ref. Qed.
    Lemma device_do_ref (n : node U) k : refines (device_do (P := true) n k) (device_do (P := false) n k).
    Proof. unfold device_do. destruct k; unfold device_set_manufacturer_code; ref. Qed.
    Hint Resolve device_do_ref : build.
    Lemma device_dos_ref ks : forall n : node U, refines (device_dos (P := true) n ks) (device_dos (P := false) n ks).
    Proof. induction ks; intros; cbn [device_dos]; ref. Qed.

    Lemma remote_ref w m : refines (remote_from_message (P := true) w m) (remote_from_message (P := false) w m).
    Proof. unfold remote_from_message. ref. Qed.
    Lemma clone_objects_ref l : forall w, refines (clone_objects (P := true) w l) (clone_objects (P := false) w l).
    Proof. induction l; intros; cbn [clone_objects]; ref. Qed.
    Hint Resolve remote_ref clone_objects_ref : build.
    Lemma remote_clone_ref w r : refines (remote_clone (P := true) w r) (remote_clone (P := false) w r).
    Proof. unfold remote_clone. ref. Qed.
    Hint Resolve remote_clone_ref : build.
    Lemma standard_all_ref db l : forall w, refines (add_standard_all (P := true) db w l) (add_standard_all (P := false) db w l).
    Proof. induction l; intros; cbn [add_standard_all]; ref. Qed.
    Hint Resolve standard_all_ref : build.
    Lemma controller_observe_ref db w r m : refines (controller_observe (P := true) db w r m) (controller_observe (P := false) db w r m).
    Proof. unfold controller_observe. ref. Qed.
    Lemma controller_nodes_ref l : forall w, refines (controller_nodes (P := true) w l) (controller_nodes (P := false) w l).
    Proof. induction l; intros; cbn [controller_nodes]; ref. Qed.
    Hint Resolve controller_observe_ref controller_nodes_ref : build.

    (** Hosts: a panic on a receive thread leaves a poisoned observer. *)
    Lemma observer_ref db f (h : host U) w o m h' w' :
      observer_received (P := true) db f h w o m = (false, h', w') -> observer_received (P := false) db f h w o m = (false, h', w').
    Proof.
      unfold observer_received. destruct (ob_kind o); try exact (fun E => E).
      - destruct (h_poisoned h || negb f); [exact (fun E => E)|].
        destruct (node_observe (P := true) w (h_user h) (h_node h) m) as [[[u n] w1]|] eqn:E; [|discriminate].
        rewrite (observe_ref _ _ _ _ _ E). exact (fun E => E).
      - destruct (h_cpoisoned h || negb f); [exact (fun E => E)|].
        destruct (controller_observe (P := true) db w (h_remotes h) m) as [[r w1]|] eqn:E; [|discriminate].
        rewrite (controller_observe_ref _ _ _ _ _ E). exact (fun E => E).
    Qed.
    Lemma observer_wpoisoned {P : Profile} db f (h : host U) w o m b h' w' :
      observer_received db f h w o m = (b, h', w') -> h_wpoisoned h' = h_wpoisoned h.
    Proof.
      unfold observer_received. destruct (ob_kind o).
      - destruct (h_poisoned h || negb f); [now intros [= <- <- <-]|].
        destruct (node_observe w (h_user h) (h_node h) m) as [[[u n] w1]|]; now intros [= <- <- <-].
      - intros E; inversion E; reflexivity.
      - destruct (h_cpoisoned h || negb f); [now intros [= <- <- <-]|].
        destruct (controller_observe db w (h_remotes h) m) as [[r w1]|]; now intros [= <- <- <-].
      - intros E; inversion E; reflexivity.
    Qed.
    Lemma notify_poison {P : Profile} db f m l : forall i (h : host U) w b h' w',
      notify_observers db f i h w l m = (b, h', w') -> exists k, h_wpoisoned h' = k ++ h_wpoisoned h /\ (h_wpoisoned h' = [] -> b = false).
    Proof.
      induction l as [|o l IH]; intros i h w b h' w' E; cbn [notify_observers] in E.
      - injection E as <- <- <-. exists []. auto.
      - destruct (existsb (N.eqb (ob_id o)) (h_wpoisoned h)) eqn:X.
        + injection E as <- <- <-. exists []. split; [reflexivity|]. intros W. rewrite W in X. discriminate.
        + destruct (observer_received db (f i) (h_called h o m) w o m) as [[b1 h1] w1] eqn:R. apply observer_wpoisoned in R. cbn in R.
          destruct b1.
          * injection E as <- <- <-. exists [ob_id o]. cbn. rewrite R. split; [reflexivity|discriminate].
          * apply IH in E. rewrite R in E. exact E.
    Qed.
    Lemma notify_ref db f m l : forall i (h : host U) w h' w',
      notify_observers (P := true) db f i h w l m = (false, h', w') -> notify_observers (P := false) db f i h w l m = (false, h', w').
    Proof.
      induction l as [|o l IH]; intros i h w h' w' E; cbn [notify_observers] in *; [exact E|].
      destruct (existsb (N.eqb (ob_id o)) (h_wpoisoned h)); [discriminate|].
      destruct (observer_received (P := true) db (f i) (h_called h o m) w o m) as [[[|] h1] w1] eqn:R; [discriminate|].
      rewrite (observer_ref _ _ _ _ _ _ _ _ R). exact (IH _ _ _ _ _ E).
    Qed.
    Lemma set_server_wpoisoned (h : host U) i s : h_wpoisoned (h_set_server h i s) = h_wpoisoned h.
    Proof. reflexivity. Qed.
    Lemma receive_poison {P : Profile} db f (h : host U) w i d a : exists k, h_wpoisoned (fst (receive db f h w i d a)) = k ++ h_wpoisoned h.
    Proof.
      unfold receive. destruct (h_server h i) as [s|]; [|now exists []]. destruct (sv_thread s); try now exists [].
      destruct (sv_stop s); [now exists []|]. destruct (msg_parse msg_new (firstn MAX_PACKET_SIZE d)) as [[[|] m]|]; try now exists [].
      destruct (sv_poisoned s); [now exists []|].
      destruct (notify_observers db f 0 h w (sv_observers s) (msg_set_from m a)) as [[b h1] w1] eqn:E. apply notify_poison in E. destruct E as (k & E & _).
      exists k. destruct b; exact E.
    Qed.
    Lemma receive_ref db f (h : host U) w i d a : h_wpoisoned (fst (receive (P := true) db f h w i d a)) = [] ->
      receive (P := false) db f h w i d a = receive (P := true) db f h w i d a.
    Proof.
      unfold receive. destruct (h_server h i) as [s|]; [|reflexivity]. destruct (sv_thread s); try reflexivity.
      destruct (sv_stop s); [reflexivity|]. destruct (msg_parse msg_new (firstn MAX_PACKET_SIZE d)) as [[[|] m]|]; try reflexivity.
      destruct (sv_poisoned s); [reflexivity|].
      destruct (notify_observers (P := true) db f 0 h w (sv_observers s) (msg_set_from m a)) as [[b h1] w1] eqn:E. intros W.
      assert (W1 : h_wpoisoned h1 = []) by (destruct b; exact W).
      destruct (notify_poison _ _ _ _ _ _ _ _ _ _ E) as (k & _ & B). rewrite (B W1) in E. rewrite (notify_ref _ _ _ _ _ _ _ _ _ E). rewrite (B W1). reflexivity.
    Qed.
    Lemma host_step_poison {P : Profile} db (h : host U) w op h' w' : host_step db (h, w) op = Ret (h', w') ->
      exists k, h_wpoisoned h' = k ++ h_wpoisoned h.
    Proof.
      intros E. destruct op; cbn [host_step] in E.
      8: { destruct (receive_poison db free h w i data from) as (k & W). injection E as E. rewrite E in W. now exists k. }
      8: { injection E as <- <-. exists []. unfold receive_error. destruct (h_server h i) as [s|]; [destruct (sv_thread s)|]; reflexivity. }
      all: exists []; cbn [app];
        repeat match type of E with
        | (if ?b then _ else _) = _ => destruct b
        | obind ?x _ = _ => destruct x; cbn [obind] in E
        | (let '(_, _) := ?x in _) = _ => destruct x
        end; try discriminate; injection E as <- <-; reflexivity.
    Qed.
    Lemma host_run_poison {P : Profile} db ops : forall (h : host U) w h' w', host_run db (h, w) ops = Ret (h', w') ->
      exists k, h_wpoisoned h' = k ++ h_wpoisoned h.
    Proof.
      induction ops as [|op ops IH]; intros h w h' w' E; cbn [host_run] in E.
      - injection E as <- <-. now exists [].
      - destruct (host_step db (h, w) op) as [[h1 w1]|] eqn:S; cbn [obind] in E; [|discriminate].
        destruct (host_step_poison _ _ _ _ _ _ S) as (k1 & E1). destruct (IH _ _ _ _ E) as (k2 & E2).
        exists (k2 ++ k1). rewrite E2, E1. apply app_assoc.
    Qed.
    Lemma host_step_ref db (h : host U) w op h' w' : h_wpoisoned h' = [] ->
      host_step (P := true) db (h, w) op = Ret (h', w') -> host_step (P := false) db (h, w) op = Ret (h', w').
    Proof.
      intros W E. destruct op; cbn [host_step] in *; try exact E.
      - destruct (h_poisoned h); [discriminate|]. revert E. apply (refines_bind _ _ _ _ (step_ref _ _)). intros a. apply refines_refl.
      - destruct (h_cpoisoned h); [discriminate|]. revert E. apply (refines_bind _ _ _ _ (controller_nodes_ref _ _)). intros a. apply refines_refl.
      - injection E as E. rewrite receive_ref; rewrite E; [reflexivity|exact W].
    Qed.
    Lemma host_run_ref db ops : forall (h : host U) w h' w', h_wpoisoned h' = [] ->
      host_run (P := true) db (h, w) ops = Ret (h', w') -> host_run (P := false) db (h, w) ops = Ret (h', w').
    Proof.
      induction ops as [|op ops IH]; intros h w h' w' W E; cbn [host_run] in *; [exact E|].
      destruct (host_step (P := true) db (h, w) op) as [[h1 w1]|] eqn:S; cbn [obind] in E; [|discriminate].
      destruct (host_run_poison _ _ _ _ _ _ E) as (k & K). rewrite W in K. symmetry in K. apply app_eq_nil in K.
      rewrite (host_step_ref _ _ _ _ _ _ (proj2 K) S). cbn [obind]. exact (IH _ _ _ _ W E).
    Qed.
  End N.
End B.
