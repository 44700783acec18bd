(** Devices which threads and the network share (C116). *)
From Verif Require Import Base HMap ModelCodec ModelMessages ModelObject ModelTransport ModelNode ModelController ModelDevice ModelThreads
  SpecWire SpecObject SpecNode SpecThreads ProofsCodec ProofsObject ProofsNode ProofsNode2 ProofsNode3 PropertiesObject PropertiesTrans PropertiesNode PropertiesDevice
  ProofsThreads ProofsThreads2 PropertiesThreads PropertiesThreads4 ProofsThreads6 ExamplesNode ProofsClients SpecShared ProofsShared ProofsShared2 ProofsShared3.
From Verif Require ModelLocks.

Section S.
  Context {U : Type} {P : Profile} {HO : HashOrder} {Os : OS} {Uu : Uuids} (db : list object).
  Implicit Types (s : process U).

  (** ** C116: A device is shared without surprises *)

  (** Every execution in which handlers leave objects alone is, for one device, an
      execution of the machine of SpecShared.v: the same calls, answers and
      messages; whenever nobody is in the node, its properties hold and its sockets
      have been given the same. *)
  Theorem C116_device : forall what net ns cs xs s n oc, down ns -> steps db what net (begins ns cs xs) s -> calls_ok (history s) ->
    (let '(u, x, w) := ns n in reachable u x w) -> Forall hands_off (n_handlers (snd (fst (ns n)))) -> tame_calls n (history s) -> oc <> 0x0EF001 ->
    exists d, ssteps n oc (fresh oc (ns n)) d /\ past d = history s /\
      (owner s (ModelLocks.Node n) = None -> poisoned s (ModelLocks.Node n) = false -> shows oc (contents d) (nodes s n) /\ wires d = line (nodes s n)).
  Proof.
    intros what net ns cs xs s n oc Dn St K R Ho T Np. pose proof (of_app_all db what net ns cs xs s Dn St) as O.
    destruct (C106_in_turn db what net ns cs xs s Dn St) as (a & A & Eh & _ & Nd & _). rewrite <- Eh in K, T, O.
    destruct (joined_all db what net n oc ns cs (length xs) a Np R Ho A K T O) as (d & S1 & Ep & Sh & Wi & _). exists d. split; [exact S1|]. split; [congruence|].
    intros Ow Po. rewrite <- (Nd n Ow Po). auto.
  Qed.

  (** A write that returned true is read back: by every read which begins later, in
      any thread, with whatever else running, unless something that writes the same
      property was under way or has begun since. *)
  Theorem C116_fresh : forall what net ns cs xs s n oc t d c x t' d' v h1 h2 h3 h4 h5, down ns -> steps db what net (begins ns cs xs) s -> calls_ok (history s) ->
    (let '(u, y, w) := ns n in reachable u y w) -> Forall hands_off (n_handlers (snd (fst (ns n)))) -> tame_calls n (history s) -> oc <> 0x0EF001 -> stored c ->
    history s = h1 ++ ECall t (CSetProperty d n oc c x) :: h2 ++ EReturn t (CSetProperty d n oc c x) (VBool true) :: h3 ++
      ECall t' (CProperty d' n oc c) :: h4 ++ EReturn t' (CProperty d' n oc c) v :: h5 ->
    settled n oc c h1 -> Forall (fun e => ~ changes n oc c e) (h2 ++ h3 ++ h4) -> Forall (fun e => who e <> t') h4 -> v = VData (Some x).
  Proof.
    intros what net ns cs xs s n oc t d c x t' d' v h1 h2 h3 h4 h5 Dn St K R Ho T Np Sc E Se F Ft.
    destruct (C116_device what net ns cs xs s n oc Dn St K R Ho T Np) as (z & S1 & Ep & _). rewrite <- Ep in E.
    exact (fresh_read n oc (fresh oc (ns n)) z t d c x t' d' v h1 h2 h3 h4 h5 (fun _ => eq_refl) eq_refl S1 Sc Se E F Ft).
  Qed.

  (** So is it by the network: an answer to a read request that was received after
      the write had returned carries what was written. *)
  Theorem C116_answers : forall what net ns cs xs s n oc t d c x h1 h2 h3 y, down ns -> steps db what net (begins ns cs xs) s -> calls_ok (history s) ->
    (let '(u, y, w) := ns n in reachable u y w) -> Forall hands_off (n_handlers (snd (fst (ns n)))) -> tame_calls n (history s) -> oc <> 0x0EF001 -> stored c ->
    history s = h1 ++ ECall t (CSetProperty d n oc c x) :: h2 ++ EReturn t (CSetProperty d n oc c x) (VBool true) :: h3 ->
    settled n oc c h1 -> Forall (fun e => ~ changes n oc c e) (h2 ++ h3) ->
    owner s (ModelLocks.Node n) = None -> poisoned s (ModelLocks.Node n) = false ->
    In y (line (nodes s n)) -> ~ In y (line (ns n)) -> service_of (snd y) = 0x72 -> source_of (snd y) = oc ->
    (forall t' k, In (ECall t' k) (history s) -> sends n k <> Some 0x72) ->
    (forall t' m, In (EGot t' m) (h1 ++ h2) -> fst (msg_from m) = fst (fst y) -> msg_tid m <> 0 /\ msg_tid m <> tid_of (snd y)) ->
    exists r, snd y = msg_bytes r /\ m_esv r = 0x72 /\ forall a, In a (m_props r) -> pp_code a = c -> pp_data a = x.
  Proof.
    intros what net ns cs xs s n oc t d c x h1 h2 h3 y Dn St K R Ho T Np Sc E Se F Ow Po I Ni Sv So Nc Nm.
    destruct (C116_device what net ns cs xs s n oc Dn St K R Ho T Np) as (z & S1 & Ep & Fr). destruct (Fr Ow Po) as [_ Wi]. rewrite <- Ep in E, Nc. rewrite <- Wi in I.
    exact (fresh_answer n oc (fresh oc (ns n)) z t d c x h1 h2 h3 y (tid_of (snd y)) (fun _ => eq_refl) eq_refl S1 Sc Se E F I Ni Sv So eq_refl Nc Nm).
  Qed.

  (** Whatever a thread reads was in the device from the beginning, or was put there
      by a call that had begun, or a message that had arrived, before the read
      returned. *)
  Theorem C116_origin : forall what net ns cs xs s n oc t d c y h1 h2, down ns -> steps db what net (begins ns cs xs) s -> calls_ok (history s) ->
    (let '(u, x, w) := ns n in reachable u x w) -> Forall hands_off (n_handlers (snd (fst (ns n)))) -> tame_calls n (history s) -> oc <> 0x0EF001 -> stored c ->
    history s = h1 ++ EReturn t (CProperty d n oc c) (VData (Some y)) :: h2 ->
    value (view oc (ns n)) c = Some y \/ exists e, In e h1 /\ origin n oc c y e.
  Proof.
    intros what net ns cs xs s n oc t d c y h1 h2 Dn St K R Ho T Np Sc E.
    destruct (C116_device what net ns cs xs s n oc Dn St K R Ho T Np) as (z & S1 & Ep & _). rewrite <- Ep in E.
    destruct (read_moment n oc (fresh oc (ns n)) z (fun _ => eq_refl) eq_refl S1 t d c (VData (Some y)) Sc) as [_ M].
    destruct (M h1 h2 E) as (d1 & l & S2 & _ & V & -> & _). injection V as V. symmetry in V.
    destruct (value_origin n oc (fresh oc (ns n)) d1 c y (fun _ => eq_refl) S2 V) as [X|(e & I & X)]; [left; exact X|]. right. exists e. split; [apply in_or_app; auto|exact X].
  Qed.
End S.

(* ------------------------------------------------------------------ *)
(** ** Cases *)

(** Thread 0 starts the device and writes; then thread 1 reads; then the receive
    thread 3 gets a request. *)
Definition plan_shared := gos [(0, 39); (3, 1); (0, 9); (1, 8)]%nat ++ [Get 3 ask peer] ++ gos [(3, 22)]%nat.
Definition c_set : call unit := CSetProperty 0 0 0x029101 0x80 [0x31].
Definition c_read : call unit := CProperty 0 0 0x029101 0x80.
Definition e_ask : event unit := EGot 3 (msg_set_from (ex_rcv ask) peer).
Definition before_set : list (event unit) := [ECall 0 (CStart (Some 0%nat) 0); EReturn 0 (CStart (Some 0%nat) 0) (VBool true)].
Definition seen_shared : list (event unit) :=
  before_set ++ ECall 0 c_set :: [] ++ EReturn 0 c_set (VBool true) :: [] ++ ECall 1 c_read :: [] ++ EReturn 1 c_read (VData (Some [0x31])) :: [e_ask].
Definition answer_shared : datagram := ((V4 0xC0A80014, 3610), [0x10; 0x81; 0; 5; 0x02; 0x91; 0x01; 0x05; 0xFF; 0x01; 0x72; 1; 0x80; 1; 0x31]).
(** What there is to see at the end. *)
Definition at_end (s : process unit) := (history s, owner s (ModelLocks.Node 0), poisoned s (ModelLocks.Node 0), skipn 1 (line (nodes s 0)), line (ex_ns 0)).
Example C116_case : exists s, ex_execution [x_life; x_reads] s /\ at_end s = (seen_shared, None, false, [answer_shared], []).
Proof. apply (played at_end [x_life; x_reads] plan_shared). vm_compute. reflexivity. Qed.
(** All premises of the theorems are fulfilled. *)
Example C116_case_premises : down ex_ns /\ calls_ok (P := true) (HO := ex_order) seen_shared /\
  (let '(u, x, w) := ex_ns 0 in reachable (P := true) (HO := ex_order) (O := ex_os) u x w) /\
  Forall hands_off (n_handlers (snd (fst (ex_ns 0)))) /\ tame_calls 0 seen_shared /\ stored 0x80 /\
  settled 0 0x029101 0x80 before_set /\ Forall (fun e => ~ changes 0 0x029101 0x80 e) (([] ++ [] ++ []) ++ ECall 1 c_read :: [] ++ EReturn 1 c_read (VData (Some [0x31])) :: [e_ask]) /\
  service_of (snd answer_shared) = 0x72 /\ source_of (snd answer_shared) = 0x029101 /\ tid_of (snd answer_shared) = 5 /\
  (forall t k, In (ECall t k) seen_shared -> sends 0 k <> Some 0x72) /\ (forall t m, ~ In (EGot t m) (before_set ++ [])).
Proof.
  split; [exact ex_down|]. split.
  { intros t c I. repeat (destruct I as [I|I]; [inversion I; subst; cbn; try exact Logic.I; repeat constructor; fail|]). destruct I. }
  split; [apply C108_case_typed|]. split.
  { assert (E : n_handlers (snd (fst (ex_ns 0))) = [HNode; yes]) by (vm_compute; reflexivity). rewrite E. constructor; [exact Logic.I|]. constructor; [|constructor].
    intros u o e p u' o' b X. inversion X. reflexivity. }
  split; [intros t c I; repeat (destruct I as [I|I]; [inversion I; subst; exact Logic.I|]); destruct I|].
  split; [unfold stored, map_code; lia|]. split.
  { intros h1 e h2 E. destruct h1 as [|a h1]; [inversion E; subst; intros _; eexists; split; [left; reflexivity|reflexivity]|].
    destruct h1 as [|b h1]; [inversion E; subst; intros []|]. injection E as _ _ E. destruct h1; discriminate. }
  split; [repeat apply Forall_cons; try apply Forall_nil; intros X; try exact X; destruct X as [_ []]|].
  split; [reflexivity|]. split; [reflexivity|]. split; [reflexivity|].
  split; [intros t k I; repeat (destruct I as [I|I]; [inversion I; subst; discriminate|]); destruct I|].
  intros t m I. repeat (destruct I as [I|I]; [discriminate|]). destruct I.
Qed.

(** The premises are needed: a request to write arrives after the write has
    returned, and the read sees what the network wrote. *)
Definition e_over : event unit := EGot 3 (msg_set_from (ex_rcv (to_lamp 6 0x61 [1; 0x80; 1; 0x30])) peer).
Definition plan_over := gos [(0, 39); (3, 1); (0, 9)]%nat ++ [Get 3 (to_lamp 6 0x61 [1; 0x80; 1; 0x30]) peer] ++ gos [(3, 22); (1, 8)]%nat.
Example C116_case_over : exists s, ex_execution [x_life; x_reads] s /\
  history s = before_set ++ ECall 0 c_set :: EReturn 0 c_set (VBool true) :: e_over :: ECall 1 c_read :: [EReturn 1 c_read (VData (Some [0x30]))] /\
  origin 0 0x029101 0x80 [0x30] e_over.
Proof.
  destruct (played (@history unit) [x_life; x_reads] plan_over (before_set ++ ECall 0 c_set :: EReturn 0 c_set (VBool true) :: e_over :: ECall 1 c_read :: [EReturn 1 c_read (VData (Some [0x30]))]))
    as (s & A & B); [vm_compute; reflexivity|]. exists s. split; [exact A|]. split; [exact B|]. split; [reflexivity|]. left. reflexivity.
Qed.

Print Assumptions C116_device.
Print Assumptions C116_fresh.
Print Assumptions C116_answers.
Print Assumptions C116_origin.
