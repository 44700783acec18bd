(** Independent vocabulary for the object properties: how the API can be used
    to build properties and objects, what the access rules mean, and how a
    reader of an ECHONET Lite property map decodes it (Annex 1 of the
    specification). *)
From Verif Require Import Base HMap ModelCodec DbTable ModelObject.

(** Properties built through the public API of Property. *)
Inductive prop_built : prop -> Prop :=
| PB_new : prop_built prop_new
| PB_code p c : prop_built p -> c < 256 -> prop_built (prop_set_code p c)
| PB_data p d : prop_built p -> octets d -> prop_built (prop_set_data p d)
| PB_name p s : prop_built p -> prop_built (prop_set_name p s)
| PB_type p s : prop_built p -> prop_built (prop_set_data_type p s)
| PB_cap p n : prop_built p -> prop_built (prop_set_capacity p n)
| PB_read p r : prop_built p -> prop_built (prop_set_read p r)
| PB_write p r : prop_built p -> prop_built (prop_set_write p r)
| PB_anno p r : prop_built p -> prop_built (prop_set_anno p r)
| PB_enum p e : prop_built p -> prop_built (prop_add_enum p e).

(** The three property maps of an object. *)
Definition map_code (c : N) : Prop := c = 0x9D \/ c = 0x9E \/ c = 0x9F.

(** Objects built through the public API of Object, without overwriting a
    property map and without changing codes or rules through
    find_property_mut. *)
Inductive obj_built {P : Profile} {HO : HashOrder} : object -> Prop :=
| OB_new seed : obj_built (object_new seed)
| OB_code o c : obj_built o -> obj_built (object_set_code o c)
| OB_group o c : obj_built o -> c < 256 -> obj_built (object_set_class_group_code o c)
| OB_class o c : obj_built o -> c < 256 -> obj_built (object_set_class_code o c)
| OB_inst o c : obj_built o -> c < 256 -> obj_built (object_set_instance_code o c)
| OB_name o s : obj_built o -> obj_built (object_set_name o s)
| OB_cname o s : obj_built o -> obj_built (object_set_class_name o s)
| OB_add o p o' : obj_built o -> prop_built p -> object_add_property o p = Ret o' -> obj_built o'
| OB_set o c d : obj_built o -> ~ map_code c -> octets d -> obj_built (fst (object_set_property_data o c d)).

(** The object has property [c] and its rule allows the access. *)
Definition allows (r : rule) : Prop := r <> Prohibited.
Definition can_read (o : object) (c : N) : Prop := exists p, object_find_property o c = Some p /\ allows (p_read p).
Definition can_write (o : object) (c : N) : Prop := exists p, object_find_property o c = Some p /\ allows (p_write p).
Definition can_announce (o : object) (c : N) : Prop := exists p, object_find_property o c = Some p /\ allows (p_anno p).

(** Which property codes a property map lists. *)
Definition map_kind (o : object) (mc c : N) : Prop :=
  (mc = 0x9F /\ can_read o c) \/ (mc = 0x9E /\ can_write o c) \/ (mc = 0x9D /\ can_announce o c).

(** Annex 1: fewer than 16 properties: count and codes; otherwise count and 16
    octets, bit [b] of octet [r] (both from zero) standing for code
    [0x80 + 16 b + r]. *)
Definition property_map_has (bs : list N) (c : N) : Prop :=
  match bs with
  | [] => False
  | n :: r => if n <? 16 then In c (firstn (N.to_nat n) r)
              else exists b i, c = 0x80 + 16 * b + N.of_nat i /\ b < 8 /\ (i < 16)%nat /\ N.testbit (nth i r 0) b = true
  end.

(** [l] lists, once each, the codes satisfying [S]. *)
Definition enumerates (l : list N) (S : N -> Prop) : Prop := NoDup l /\ forall c, In c l <-> S c.

(** Everything of a property but its data. *)
Definition same_attributes (p q : prop) : Prop :=
  p_code p = p_code q /\ p_name p = p_name q /\ p_typ p = p_typ q /\ p_cap p = p_cap q /\
  p_read p = p_read q /\ p_write p = p_write q /\ p_anno p = p_anno q /\ p_enums p = p_enums q.
