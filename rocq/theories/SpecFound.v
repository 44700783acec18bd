(** Vocabulary for the nodes that a controller has found. *)
From Verif Require Import Base HMap ModelCodec ModelMessages DbTable ModelObject ModelTransport ModelNode ModelController ModelDevice ModelThreads
  SpecWire SpecObject SpecNode PropertiesDb ProofsDevice ProofsController.

(** A copy of an object: the same code, names and properties, in whatever order; the
    values are the same except for those of the property maps, which are lists in
    whatever order. *)
Definition is_map (c : N) : Prop := c = 0x9D \/ c = 0x9E \/ c = 0x9F.
Definition same_property (c : N) (p q : option prop) : Prop :=
  match p, q with
  | None, None => True
  | Some p, Some q => same_attributes p q /\ (~ is_map c -> p_data p = p_data q)
  | _, _ => False
  end.
Definition copy_of (o o' : object) : Prop :=
  object_code o' = object_code o /\ o_name o' = o_name o /\ o_class_name o' = o_class_name o /\
  forall c, same_property c (object_find_property o c) (object_find_property o' c).

Section S.
  Context {U : Type} {P : Profile} {HO : HashOrder} {Uu : Uuids} (db : list object).

  (** The entry tells what the message has told: it has the address of the sender;
      the objects are those whose codes are in the instance lists of the message,
      and the node profile; their properties are those of the standard. *)
  Definition told_by (m : message) (r : remote_node) : Prop :=
    exists codes, Forall2 listed (m_props m) codes /\ rn_addr r = msg_from m /\
      Forall2 (fun c o => object_code o = c /\ exists o0, standard_object db c o0 /\ copy_of o0 o) (concat codes ++ [0x0EF001]) (rn_objects r).
  (** A message for the node profile which has told this is in the history. *)
  Definition found (h : list (event U)) (r : remote_node) : Prop :=
    exists t m, In (EGot t m) h /\ for_profile m /\ told_by m r.
End S.
