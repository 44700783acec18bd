(** Vocabulary for C102: two processes that differ in the hash seeds. *)
From Verif Require Import Base HMap ModelCodec ModelMessages ModelObject ModelTransport ModelNode SpecWire SpecObject SpecNode
  ProofsObject ProofsObject2 ProofsObject3 ProofsNode2.

(** Both programs return related values, or both panic. *)
Definition both {A B} (R : A -> B -> Prop) (x : outcome A) (y : outcome B) : Prop :=
  match x, y with Ret a, Ret b => R a b | Panic, Panic => True | _, _ => False end.
Definition both_some {A B} (R : A -> B -> Prop) (x : option A) (y : option B) : Prop :=
  match x, y with Some a, Some b => R a b | None, None => True | _, _ => False end.

(** The data of a property: the same, or for a property map in its short form the
    same number and the same codes in another order. *)
Inductive like_map : list N -> list N -> Prop :=
| like_map_intro n l l' : n = N.of_nat (length l) -> n < 16 -> Permutation l l' -> like_map (n :: l) (n :: l').
Definition like_data (c : N) (d d' : list N) : Prop := d = d' \/ (map_code c /\ like_map d d').
Definition like_prop (p p' : prop) : Prop := same_attributes p p' /\ like_data (p_code p) (p_data p) (p_data p').
(** Objects with the same properties, in any order. [obj_good]: every property is
    stored under its own code, once, and holds octets; [std_keys]: the codes are
    0x80 or above, like those of the ECHONET Lite specification. *)
Record like (o o' : object) : Prop := {
  lk_good : obj_good o /\ obj_good o'; lk_std : std_keys o /\ std_keys o'; lk_codes : o_codes o = o_codes o';
  lk_names : o_name o = o_name o' /\ o_class_name o = o_class_name o';
  lk_props : forall c, both_some like_prop (object_find_property o c) (object_find_property o' c) }.

(** Messages and events. *)
Definition like_pprop (a b : pprop) : Prop := pp_code a = pp_code b /\ like_data (pp_code a) (pp_data a) (pp_data b).
Record like_msg (m m' : message) : Prop := {
  lm_ehd : m_ehd m = m_ehd m'; lm_tid : m_tid m = m_tid m'; lm_seoj : m_seoj m = m_seoj m'; lm_deoj : m_deoj m = m_deoj m'; lm_esv : m_esv m = m_esv m';
  lm_props : Forall2 like_pprop (m_props m) (m_props m'); lm_set : Forall2 like_pprop (m_set m) (m_set m');
  lm_get : Forall2 like_pprop (m_get m) (m_get m') }.
Inductive like_event : event -> event -> Prop :=
| like_same e : like_event e e
| like_send a to m m' ok : like_msg m m' -> like_event (EvSend a to (msg_bytes m) ok) (EvSend a to (msg_bytes m') ok).
Record like_world (w w' : world) : Prop := {
  lw_calls : w_calls w = w_calls w'; lw_trace : Forall2 like_event (w_trace w) (w_trace w'); lw_chan : w_chan w = w_chan w' }.

Section S.
  Context {U : Type}.
  (** A handler that does not look at the order of the properties of an object. *)
  Definition order_blind (h : handler U) : Prop :=
    forall u o o' e p, like o o' ->
      both (fun x y => fst (fst x) = fst (fst y) /\ like (snd (fst x)) (snd (fst y)) /\ snd x = snd y) (call_handler h u o e p) (call_handler h u o' e p).
  Record like_node (n n' : node U) : Prop := {
    ln_mgr : n_mgr n = n_mgr n'; ln_objects : Forall2 like (n_objects n) (n_objects n'); ln_tid : n_last_tid n = n_last_tid n';
    ln_post : n_post n = n_post n'; ln_handlers : n_handlers n = n_handlers n' /\ Forall order_blind (n_handlers n);
    ln_observers : n_observers n = n_observers n' }.
  Definition like_state (s s' : U * node U * world) : Prop :=
    fst (fst s) = fst (fst s') /\ like_node (snd (fst s)) (snd (fst s')) /\ like_world (snd s) (snd s').
  (** The same call. *)
  Inductive like_op : node_op U -> node_op U -> Prop :=
  | like_add_object o o' : like o o' -> like_op (OpAddObject o) (OpAddObject o')
  | like_add_handler h : order_blind h -> like_op (OpAddHandler h) (OpAddHandler h)
  | like_set_data o c d : octets d -> like_op (OpSetData o c d) (OpSetData o c d)
  | like_announce_property o o' p p' : like o o' -> like_prop p p' -> like_op (OpAnnounceProperty o p) (OpAnnounceProperty o' p')
  | like_recv m : received m -> like_op (OpRecv m) (OpRecv m)
  | like_other op : match op with
      | OpSend _ _ | OpPost _ _ | OpNotify _ | OpAddObserver _ | OpAnnounce | OpStart | OpStop => True | _ => False end -> like_op op op.
End S.

(** Machines that differ in the hash seeds only. *)
Definition same_os (O O' : OS) : Prop :=
  (forall k, os_interfaces (OS := O) k = os_interfaces (OS := O') k) /\ (forall k, os_bind (OS := O) k = os_bind (OS := O') k) /\
  (forall k, os_join (OS := O) k = os_join (OS := O') k) /\ (forall k, os_send (OS := O) k = os_send (OS := O') k).
