(** Model of src/property.rs, src/object.rs, src/super_object.rs,
    src/manufacture.rs, src/database.rs and the helpers of
    src/database_mra_objects.rs. *)
From Verif Require Import Base HMap ModelCodec ModelMessages DbTable MakerTable.

(* ------------------------------------------------------------------ *)
(** ** src/property.rs *)

(** src/property.rs:40-45, PropertyRule. *)
Inductive rule : Type := Prohibited | Required | Optional.

(** src/property.rs:49-53, PropertyEnum. *)
Record penum : Type := PEnum { pe_code : N; pe_name : string; pe_desc : string }.

(** src/property.rs:87-89, PropertyEnum::description (returns the name). *)
Definition penum_description (e : penum) : string := pe_name e.

(** src/property.rs:147-157, Property. Simplified: the HashMap of enumerated
    values is kept in insertion order; its iteration order is visible only
    through Property::enums(). *)
Record prop : Type := Prop_ {
  p_code : N; p_data : list N; p_name : string; p_typ : string; p_cap : N;
  p_read : rule; p_write : rule; p_anno : rule; p_enums : list (N * penum) }.

(** src/property.rs:160-172, Property::new. *)
Definition prop_new : prop := Prop_ 0 [] "" "" 0 Prohibited Prohibited Prohibited [].

(** src/property.rs:174-234 (setters) and 308-311 (set_data). *)
Definition prop_set_code (p : prop) c := Prop_ c (p_data p) (p_name p) (p_typ p) (p_cap p) (p_read p) (p_write p) (p_anno p) (p_enums p).
(** src/property.rs:308-311, set_data. *)
Definition prop_set_data (p : prop) d := Prop_ (p_code p) d (p_name p) (p_typ p) (p_cap p) (p_read p) (p_write p) (p_anno p) (p_enums p).
(** src/property.rs:183-186, set_name. *)
Definition prop_set_name (p : prop) n := Prop_ (p_code p) (p_data p) n (p_typ p) (p_cap p) (p_read p) (p_write p) (p_anno p) (p_enums p).
(** src/property.rs:192-195, set_data_type. *)
Definition prop_set_data_type (p : prop) t := Prop_ (p_code p) (p_data p) (p_name p) t (p_cap p) (p_read p) (p_write p) (p_anno p) (p_enums p).
(** src/property.rs:201-204, set_capacity. *)
Definition prop_set_capacity (p : prop) c := Prop_ (p_code p) (p_data p) (p_name p) (p_typ p) c (p_read p) (p_write p) (p_anno p) (p_enums p).
(** src/property.rs:210-213, set_read_attribute. *)
Definition prop_set_read (p : prop) r := Prop_ (p_code p) (p_data p) (p_name p) (p_typ p) (p_cap p) r (p_write p) (p_anno p) (p_enums p).
(** src/property.rs:219-222, set_write_attribute. *)
Definition prop_set_write (p : prop) r := Prop_ (p_code p) (p_data p) (p_name p) (p_typ p) (p_cap p) (p_read p) r (p_anno p) (p_enums p).
(** src/property.rs:227-230, set_anno_attribute. *)
Definition prop_set_anno (p : prop) r := Prop_ (p_code p) (p_data p) (p_name p) (p_typ p) (p_cap p) (p_read p) (p_write p) r (p_enums p).
(** Assignment to the field enums of src/property.rs:147-157. *)
Definition prop_with_enums (p : prop) e := Prop_ (p_code p) (p_data p) (p_name p) (p_typ p) (p_cap p) (p_read p) (p_write p) (p_anno p) e.

(** src/property.rs:236-258, is_read_required, is_write_required,
    is_announce_required. *)
Definition rule_required (r : rule) : bool :=
  match r with Prohibited => false | Required => true | Optional => false end.
(** src/property.rs:236-242, is_read_required. *)
Definition prop_is_read_required (p : prop) : bool := rule_required (p_read p).
(** src/property.rs:244-250, is_write_required. *)
Definition prop_is_write_required (p : prop) : bool := rule_required (p_write p).
(** src/property.rs:252-258, is_announce_required. *)
Definition prop_is_announce_required (p : prop) : bool := rule_required (p_anno p).

(** src/property.rs:260-282, is_readable, is_writable, is_announceable. *)
Definition rule_allowed (r : rule) : bool :=
  match r with Prohibited => false | Required => true | Optional => true end.
(** src/property.rs:260-266, is_readable. *)
Definition prop_is_readable (p : prop) : bool := rule_allowed (p_read p).
(** src/property.rs:268-274, is_writable. *)
Definition prop_is_writable (p : prop) : bool := rule_allowed (p_write p).
(** src/property.rs:276-282, is_announceable. *)
Definition prop_is_announceable (p : prop) : bool := rule_allowed (p_anno p).

(** src/property.rs:284-302, is_readonly, is_writeonly. *)
Definition prop_is_readonly (p : prop) : bool :=
  if negb (prop_is_readable p) then false else if prop_is_writable p then false else true.
(** src/property.rs:294-302, is_writeonly. *)
Definition prop_is_writeonly (p : prop) : bool :=
  if negb (prop_is_writable p) then false else if prop_is_readable p then false else true.

(** src/property.rs:313-334, set_byte_data, set_int_data, add_data. *)
Definition prop_set_byte_data (p : prop) (v : N) : prop := prop_set_data p [v].
(** src/property.rs:324-329, set_int_data. *)
Definition prop_set_int_data {P : Profile} (p : prop) (v : N) (size : nat) : outcome prop :=
  let! buf := bytes_from_u32 v size in Ret (prop_set_data p buf).
(** src/property.rs:331-334, add_data. *)
Definition prop_add_data (p : prop) (d : list N) : prop := prop_set_data p (p_data p ++ d).

(** src/property.rs:344-349, data_as_byte. *)
Definition prop_data_as_byte (p : prop) : N :=
  match p_data p with [] => 0 | b :: _ => b end.

(** src/property.rs:351-356, data_as_int. *)
Definition prop_data_as_int {P : Profile} (p : prop) : outcome N :=
  match p_data p with [] => Ret 0 | _ => bytes_to_u32 (p_data p) end.

(** src/property.rs:358-368, equals_data. *)
Definition prop_equals_data (p : prop) (d : list N) : bool :=
  if negb (Nat.eqb (length (p_data p)) (length d)) then false else bytes_eqb (p_data p) d.

(** HashMap::insert for the enumerated values. Used by src/property.rs:370-374. *)
Definition enum_insert (m : list (N * penum)) (k : N) (e : penum) : list (N * penum) :=
  match hget m k with Some _ => hput m k e | None => m ++ [(k, e)] end.

(** src/property.rs:370-374, add_enum. *)
Definition prop_add_enum (p : prop) (e : penum) : prop :=
  prop_with_enums p (enum_insert (p_enums p) (pe_code e) e).

(** src/property.rs:380-382, find_enum. *)
Definition prop_find_enum (p : prop) (code : N) : option penum := hget (p_enums p) code.

(** src/property.rs:385-403, Clone for Property. *)
Definition prop_clone (p : prop) : prop :=
  fold_left prop_add_enum (hvalues (p_enums p)) (prop_with_enums p []).

(** src/property.rs:411-415, From<&Property> for protocol::Property. *)
Definition pprop_of_prop (p : prop) : pprop := PProp (p_code p) (p_data p).

(* ------------------------------------------------------------------ *)
(** ** src/object.rs *)

(** src/object.rs:33-38, Object. [o_seed] is the hash seed of the map. *)
Record object : Type := Obj {
  o_codes : N * N * N; o_name : string; o_class_name : string;
  o_props : list (N * prop); o_seed : N }.

(** src/object.rs:41-48, Object::new; the seed is chosen by the runtime. *)
Definition object_new (seed : N) : object := Obj (0, 0, 0) "" "" [] seed.

(** field assignments Assignment to the field codes of src/object.rs:33-38. *)
Definition obj_with_codes (o : object) c := Obj c (o_name o) (o_class_name o) (o_props o) (o_seed o).
(** Assignment to the field properties of src/object.rs:33-38. *)
Definition obj_with_props (o : object) ps := Obj (o_codes o) (o_name o) (o_class_name o) ps (o_seed o).

(** src/object.rs:56-61, set_code. *)
Definition object_set_code (o : object) (code : N) : object :=
  obj_with_codes o (as_u8 (N.shiftr (N.land code 0xFF0000) 16),
                    as_u8 (N.shiftr (N.land code 0x00FF00) 8),
                    as_u8 (N.land code 0x0000FF)).

(** src/object.rs:50-54, from_code. *)
Definition object_from_code (seed code : N) : object := object_set_code (object_new seed) code.

(** src/object.rs:63-76, set_class_group_code, set_class_code,
    set_instance_code. *)
Definition object_set_class_group_code (o : object) (c : N) : object :=
  let '(_, b, d) := o_codes o in obj_with_codes o (c, b, d).
(** src/object.rs:68-71, set_class_code. *)
Definition object_set_class_code (o : object) (c : N) : object :=
  let '(a, _, d) := o_codes o in obj_with_codes o (a, c, d).
(** src/object.rs:73-76, set_instance_code. *)
Definition object_set_instance_code (o : object) (c : N) : object :=
  let '(a, b, _) := o_codes o in obj_with_codes o (a, b, c).

(** src/object.rs:78-84, code. *)
Definition object_code (o : object) : N :=
  let '(a, b, c) := o_codes o in
  N.lor (N.lor (N.lor 0 (N.land (N.shiftl a 16) 0xFF0000)) (N.land (N.shiftl b 8) 0x00FF00)) (N.land c 0x0000FF).

(** src/object.rs:86-96, class_group_code, class_code, instance_code. *)
Definition object_class_group_code (o : object) : N := fst (fst (o_codes o)).
(** src/object.rs:90-92, class_code. *)
Definition object_class_code (o : object) : N := snd (fst (o_codes o)).
(** src/object.rs:94-96, instance_code. *)
Definition object_instance_code (o : object) : N := snd (o_codes o).

(** src/object.rs:98-114, set_name, set_class_name. *)
Definition object_set_name (o : object) n := Obj (o_codes o) n (o_class_name o) (o_props o) (o_seed o).
(** src/object.rs:107-110, set_class_name. *)
Definition object_set_class_name (o : object) n := Obj (o_codes o) (o_name o) n (o_props o) (o_seed o).

(** src/object.rs:123-140, properties, find_property, find_property_mut,
    has_property. *)
Definition object_properties (o : object) : list prop := hvalues (o_props o).
(** src/object.rs:131-133, find_property. *)
Definition object_find_property (o : object) (code : N) : option prop := hget (o_props o) code.
(** src/object.rs:135-140, has_property. *)
Definition object_has_property (o : object) (code : N) : bool :=
  match object_find_property o code with None => false | Some _ => true end.

(** src/object.rs:142-150, set_property_data. *)
Definition object_set_property_data (o : object) (code : N) (data : list N) : object * bool :=
  match object_find_property o code with
  | Some p => (obj_with_props o (hput (o_props o) code (prop_set_data p data)), true)
  | None => (o, false)
  end.

(** src/object.rs:152-165, set_property_byte, set_property_bytes,
    set_property_int. *)
Definition object_set_property_byte (o : object) (code v : N) : object * bool :=
  object_set_property_data o code [v].
(** src/object.rs:157-159, set_property_bytes. *)
Definition object_set_property_bytes (o : object) (code : N) (data : list N) : object * bool :=
  object_set_property_data o code data.
(** src/object.rs:161-165, set_property_int. *)
Definition object_set_property_int {P : Profile} (o : object) (code v : N) (size : nat) : outcome (object * bool) :=
  let! buf := bytes_from_u32 v size in Ret (object_set_property_data o code buf).

(** src/object.rs:167-193, property_data, property_data_as_byte,
    property_data_as_int. *)
Definition object_property_data (o : object) (code : N) : option (list N) :=
  match object_find_property o code with Some p => Some (p_data p) | None => None end.
(** src/object.rs:181-186, property_data_as_byte. *)
Definition object_property_data_as_byte (o : object) (code : N) : option N :=
  match object_find_property o code with Some p => Some (prop_data_as_byte p) | None => None end.
(** src/object.rs:188-193, property_data_as_int. *)
Definition object_property_data_as_int {P : Profile} (o : object) (code : N) : outcome (option N) :=
  match object_find_property o code with
  | Some p => let! v := prop_data_as_int p in Ret (Some v)
  | None => Ret None
  end.

(** src/object.rs:195-200, equals_property_data. *)
Definition object_equals_property_data (o : object) (code : N) (data : list N) : bool :=
  match object_find_property o code with Some p => prop_equals_data p data | None => false end.

(** src/object.rs:252-258, the bitmap loop of to_property_map_bytes. The
    literal [0x01] has type u8; [1 << bit] may overflow only in the sense of
    the shift amount. *)
Fixpoint property_map_bits {P : Profile} (codes : list N) (map_bytes : list N) : outcome (list N) :=
  match codes with
  | [] => Ret map_bytes
  | c :: r =>
    let! d := sub_w 8 c 0x80 in
    let row := N.to_nat (N.land d 0x0F + 1) in
    let bit := N.land (N.shiftr (N.land d 0xF0) 4) 0x0F in
    let! s := shl_w 8 1 bit in
    let! old := idx map_bytes row in
    let! mb := upd map_bytes row (N.lor old (N.land s 0x0F)) in
    property_map_bits r mb
  end.

(** src/object.rs:241-261, to_property_map_bytes. *)
Definition to_property_map_bytes {P : Profile} (maps : list N) : outcome (list N) :=
  if Nat.leb (length maps) 15 then Ret (len_u8 maps :: maps)
  else property_map_bits maps (len_u8 maps :: repeat 0 16).

(** src/object.rs:239-291, update_property_maps. *)
Definition object_update_property_maps {P : Profile} (o : object) : outcome object :=
  let vs := object_properties o in
  let get_map := map p_code (filter prop_is_readable vs) in
  let set_map := map p_code (filter prop_is_writable vs) in
  let anno_map := map p_code (filter prop_is_announceable vs) in
  let! b1 := to_property_map_bytes get_map in
  let o1 := fst (object_set_property_data o 0x9F b1) in
  let! b2 := to_property_map_bytes set_map in
  let o2 := fst (object_set_property_data o1 0x9E b2) in
  let! b3 := to_property_map_bytes anno_map in
  Ret (fst (object_set_property_data o2 0x9D b3)).

(** src/object.rs:116-121, add_property (returns true). *)
Definition object_add_property {P : Profile} {HO : HashOrder} (o : object) (p : prop) : outcome object :=
  object_update_property_maps (obj_with_props o (hor_insert (o_seed o) (o_props o) (p_code p) p)).

(** src/object.rs:347-360, Clone for Object; [seed] is the hash seed of the new
    map. *)
Fixpoint add_properties {P : Profile} {HO : HashOrder} (o : object) (ps : list prop) : outcome object :=
  match ps with
  | [] => Ret o
  | p :: r => let! o' := object_add_property o (prop_clone p) in add_properties o' r
  end.
(** src/object.rs:347-360, Clone for Object. *)
Definition object_clone {P : Profile} {HO : HashOrder} (seed : N) (o : object) : outcome object :=
  add_properties (Obj (o_codes o) (o_name o) (o_class_name o) [] seed) (object_properties o).

(* ------------------------------------------------------------------ *)
(** ** src/super_object.rs and src/device.rs:29-93 (constants) *)

(** src/super_object.rs:43, OBJECT_MANUFACTURER_EXPERIMENT. *)
Definition OBJECT_MANUFACTURER_EXPERIMENT : N := 0xFFFFFF.

(** src/super_object.rs:46-56, set_manufacturer_code, manufacturer_code (the
    latter unwraps the property). *)
Definition object_set_manufacturer_code {P : Profile} (o : object) (code : N) : outcome (object * bool) :=
  object_set_property_int o 0x8A code 3.
(** src/super_object.rs:54-56, manufacturer_code. *)
Definition object_manufacturer_code (o : object) : outcome prop :=
  match object_find_property o 0x8A with Some p => Ret p | None => Panic end.

(** src/super_object.rs:58-69, set_operating_status, operating_status. *)
Definition object_set_operating_status (o : object) (s : bool) : object * bool :=
  object_set_property_byte o 0x80 (if s then 0x30 else 0x31).
(** src/super_object.rs:67-69, operating_status. *)
Definition object_operating_status (o : object) : option N := object_property_data_as_byte o 0x80.

(** src/super_object.rs:71-82, set_fault_status, fault_status. *)
Definition object_set_fault_status (o : object) (s : bool) : object * bool :=
  object_set_property_byte o 0x88 (if s then 0x41 else 0x42).
(** src/super_object.rs:80-82, fault_status. *)
Definition object_fault_status (o : object) : option N := object_property_data_as_byte o 0x88.

(** src/super_object.rs:84-90, set_installation_location,
    installation_location. *)
Definition object_set_installation_location (o : object) (l : N) : object * bool :=
  object_set_property_byte o 0x81 l.
(** src/super_object.rs:88-90, installation_location. *)
Definition object_installation_location (o : object) : option N := object_property_data_as_byte o 0x81.

(** src/super_object.rs:92-100, set_standard_version, standard_version. *)
Definition object_set_standard_version (o : object) (v : N) : object * bool :=
  object_set_property_bytes o 0x82 [0; 0; v; 0].
(** src/super_object.rs:98-100, standard_version. *)
Definition object_standard_version (o : object) : option N := object_property_data_as_byte o 0x82.

(** src/super_object.rs:102-107, set_id, id. *)
Definition object_set_id (o : object) (id : list N) : object * bool := object_set_property_bytes o 0x83 id.
(** src/super_object.rs:105-107, id. *)
Definition object_id (o : object) : option (list N) := object_property_data o 0x83.

(* ------------------------------------------------------------------ *)
(** ** src/database.rs, src/database_mra_objects.rs, src/manufacture.rs *)

(** src/database_mra_objects.rs:47-55, property_string_to_attribute. *)
Definition property_string_to_attribute (s : string) : rule :=
  if String.eqb s "required" then Required
  else if String.eqb s "optional" then Optional
  else Prohibited.

(** src/database_mra_objects.rs:66-77, create_standard_property_enum. *)
Definition create_standard_property_enum (e : N * string * string) : penum :=
  let '(c, n, d) := e in PEnum c n d.

(** src/database_mra_objects.rs:20-43, add_standard_property: the property that
    is built before add_property is called. *)
Definition standard_property (r : db_row) : prop :=
  let p := prop_set_code prop_new (r_code r) in
  let p := prop_set_name p (r_name r) in
  let p := prop_set_data_type p (r_typ r) in
  let p := prop_set_capacity p (r_cap r) in
  let p := prop_set_read p (property_string_to_attribute (r_get r)) in
  let p := prop_set_write p (property_string_to_attribute (r_set r)) in
  let p := prop_set_anno p (property_string_to_attribute (r_anno r)) in
  fold_left prop_add_enum (map create_standard_property_enum (r_enums r)) p.

(** src/database_mra_objects.rs:20-43, the calls of add_standard_property one after
    another. *)
Fixpoint add_standard_rows {P : Profile} {HO : HashOrder} (o : object) (rows : list db_row) : outcome object :=
  match rows with
  | [] => Ret o
  | r :: rest => let! o' := object_add_property o (standard_property r) in add_standard_rows o' rest
  end.

(** src/database_mra_objects.rs:58-64 (create_standard_object) and the calls of
    add_standard_property for one class. *)
Definition standard_object {P : Profile} {HO : HashOrder} (seed : N) (c : db_class) : outcome object :=
  let o := object_set_class_group_code (object_new seed) (c_grp c) in
  let o := object_set_class_code o (c_cls c) in
  let o := object_set_class_name o (c_name c) in
  add_standard_rows o (c_rows c).

(** src/database.rs:51-59 and src/database_mra_objects.rs:79-end, the objects of
    StandardDatabase::new; [seed] gives the hash seed of the [n]-th object. *)
Fixpoint standard_objects {P : Profile} {HO : HashOrder} (seed : N -> N) (n : N) (cs : list db_class) : outcome (list object) :=
  match cs with
  | [] => Ret []
  | c :: r =>
    let! o := standard_object (seed n) c in
    let! os := standard_objects seed (n + 1) r in
    Ret (o :: os)
  end.
(** src/database.rs:51-59, StandardDatabase::new. *)
Definition standard_database {P : Profile} {HO : HashOrder} (seed : N -> N) : outcome (list object) :=
  standard_objects seed 0 db_table.

(** src/database.rs:90-98, find_object. *)
Definition db_find_object (db : list object) (code : N) : option object :=
  find (fun o => object_code o =? N.land code 0xFFFF00) db.

(** src/manufacture.rs:19-22, src/database.rs:76-83, find_manufacture over the
    table of src/database_manufacturers.rs. *)
Definition find_manufacture (code : N) : option (N * string) :=
  find (fun m => fst m =? code) maker_table.

(* ------------------------------------------------------------------ *)
(** ** src/object.rs:202-237, add_standard_properties *)

(** src/object.rs:211-231, the default data; [uuid] is the result of
    Uuid::new_v4. *)
Definition set_standard_default {P : Profile} (uuid : list N) (o : object) (code : N) : outcome object :=
  if code =? 0x8A then let! r := object_set_manufacturer_code o OBJECT_MANUFACTURER_EXPERIMENT in Ret (fst r)
  else if code =? 0x80 then Ret (fst (object_set_operating_status o false))
  else if code =? 0x81 then Ret (fst (object_set_installation_location o 0x00))
  else if code =? 0x88 then Ret (fst (object_set_fault_status o false))
  else if code =? 0x82 then Ret (fst (object_set_standard_version o 0x50))
  else if code =? 0x83 then
    let! id := oid_new OBJECT_MANUFACTURER_EXPERIMENT uuid in Ret (fst (object_set_id o id))
  else Ret o.

(** src/object.rs:208-233, the loop over the properties of the standard object.
    Iteration is over (key, property) pairs. *)
Fixpoint add_standard_loop {P : Profile} {HO : HashOrder} (uuid : list N) (o : object) (ps : list (N * prop)) : outcome object :=
  match ps with
  | [] => Ret o
  | (k, p) :: r =>
    let! o1 := object_add_property o (prop_clone p) in
    let! o2 := set_standard_default uuid o1 k in
    add_standard_loop uuid o2 r
  end.

(** src/object.rs:202-237, add_standard_properties. *)
Definition object_add_standard_properties {P : Profile} {HO : HashOrder} (db : list object) (uuid : list N)
  (o : object) (code : N) : outcome (object * bool) :=
  match db_find_object db (N.land code 0xFFFF00) with
  | Some std =>
    let! o' := add_standard_loop uuid (object_set_class_name o (o_class_name std)) (o_props std) in
    Ret (o', true)
  | None => Ret (o, false)
  end.

(* ------------------------------------------------------------------ *)
(** ** src/object.rs:293-344, message_received *)

(** src/object.rs:308-318 and 328-338: the loop that answers reads; [None]
    stands for the early return of an error response. *)
Fixpoint read_props_of (o : object) (req : list pprop) : option (list pprop) :=
  match req with
  | [] => Some []
  | q :: r =>
    match object_find_property o (pp_code q) with
    | None => None
    | Some p => match read_props_of o r with
                | None => None
                | Some l => Some (PProp (p_code p) (p_data p) :: l)
                end
    end
  end.

(** src/object.rs:299-303 and 322-326: empty properties with the codes of the
    request. *)
Definition ack_props (req : list pprop) : list pprop := map (fun q => PProp (pp_code q) []) req.

(** src/object.rs:293-344, message_received. *)
Definition object_message_received (o : object) (req : message) : option message :=
  let res := response_message req in
  match msg_esv req with
  | EWriteRequestResponseRequired | ENotificationResponseRequired =>
    Some (fold_left msg_add_property (ack_props (m_props req)) res)
  | EReadRequest | ENotificationRequest =>
    match read_props_of o (m_props req) with
    | None => Some (response_error_message req)
    | Some ps => Some (fold_left msg_add_property ps res)
    end
  | EWriteReadRequest =>
    let res := fold_left msg_add_property_set (ack_props (m_set req)) res in
    match read_props_of o (m_get req) with
    | None => Some (response_error_message req)
    | Some ps => Some (fold_left msg_add_property_get ps res)
    end
  | _ => None
  end.

(* ------------------------------------------------------------------ *)
(** ** src/device.rs:188-200, Device::init: the object that is added to the node *)

(** src/super_object.rs:21 *)
Definition SUPER_OBJECT_CODE : N := 0x000000.

(** The two calls of add_standard_properties (device.rs:192-193,
    node_profile.rs:67-68, controller_node.rs:142-143). [u1] and [u2] are the
    results of Uuid::new_v4 in them. *)
Definition with_standard_properties {P : Profile} {HO : HashOrder} (db : list object) (u1 u2 : list N)
  (o : object) (code : N) : outcome object :=
  let! r1 := object_add_standard_properties db u1 o SUPER_OBJECT_CODE in
  let! r2 := object_add_standard_properties db u2 (fst r1) code in
  Ret (fst r2).
(** src/device.rs:189-193, the object that init makes. *)
Definition device_object {P : Profile} {HO : HashOrder} (db : list object) (u1 u2 : list N) (seed code : N) : outcome object :=
  with_standard_properties db u1 u2 (object_set_code (object_new seed) code) code.
