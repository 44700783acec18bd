(** Builds without the feature "std" (Cargo.toml:17-23): src/util/oid.rs is compiled
    differently, and with it the objects that carry an identification number. The
    definitions are those of ModelCodec.v and ModelObject.v with that one change. *)
From Verif Require Import Base HMap ModelCodec ModelMessages DbTable ModelObject.

(** src/util/oid.rs:26-47, OID::new without feature "std": a vector of 17 zeros of
    which the first four and the last one are assigned (lines 28-38). *)
Definition oid_new_no_std {P : Profile} (code : N) : outcome (list N) :=
  let! man := bytes_from_u32 code 3 in
  Ret (0xFE :: man ++ repeat 0 12 ++ [0x01]).

(** src/object.rs:211-231 *)
Definition set_standard_default_no_std {P : Profile} (o : object) (code : N) : outcome object :=
  if code =? 0x8A then let! r := object_set_manufacturer_code o OBJECT_MANUFACTURER_EXPERIMENT in Ret (fst r)
  else if code =? 0x80 then Ret (fst (object_set_operating_status o false))
  else if code =? 0x81 then Ret (fst (object_set_installation_location o 0x00))
  else if code =? 0x88 then Ret (fst (object_set_fault_status o false))
  else if code =? 0x82 then Ret (fst (object_set_standard_version o 0x50))
  else if code =? 0x83 then
    let! id := oid_new_no_std OBJECT_MANUFACTURER_EXPERIMENT in Ret (fst (object_set_id o id))
  else Ret o.

(** src/object.rs:208-233 *)
Fixpoint add_standard_loop_no_std {P : Profile} {HO : HashOrder} (o : object) (ps : list (N * prop)) : outcome object :=
  match ps with
  | [] => Ret o
  | (k, p) :: r =>
    let! o1 := object_add_property o (prop_clone p) in
    let! o2 := set_standard_default_no_std o1 k in
    add_standard_loop_no_std o2 r
  end.

(** src/object.rs:202-237 *)
Definition object_add_standard_properties_no_std {P : Profile} {HO : HashOrder} (db : list object)
  (o : object) (code : N) : outcome (object * bool) :=
  match db_find_object db (N.land code 0xFFFF00) with
  | Some std =>
    let! o' := add_standard_loop_no_std (object_set_class_name o (o_class_name std)) (o_props std) in
    Ret (o', true)
  | None => Ret (o, false)
  end.

(** src/device.rs:188-200, src/node_profile.rs:64-70 *)
Definition device_object_no_std {P : Profile} {HO : HashOrder} (db : list object) (seed code : N) : outcome object :=
  let! r1 := object_add_standard_properties_no_std db (object_set_code (object_new seed) code) SUPER_OBJECT_CODE in
  let! r2 := object_add_standard_properties_no_std db (fst r1) code in
  Ret (fst r2).
