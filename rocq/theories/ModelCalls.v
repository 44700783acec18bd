(** The calls with which an application writes a message or a property, one
    after the other, and src/property.rs:126-144, PropertyType. *)
From Verif Require Import Base HMap ModelCodec ModelMessages ModelObject.

(** src/protocol/message.rs:99-176 and 202-205, the &mut methods of Message. *)
Inductive mcall : Type :=
| MSetTid (t : N) | MSetSeoj (c : N) | MSetDeoj (c : N) | MSetEsv (e : esv)
| MAdd (p : pprop) | MAddSet (p : pprop) | MAddGet (p : pprop) | MSetFrom (a : sockaddr).
(** src/protocol/message.rs:99-176 and 202-205, what each of the calls does. *)
Definition mcall_run (m : message) (c : mcall) : message :=
  match c with
  | MSetTid t => msg_set_tid m t | MSetSeoj c => msg_set_seoj m c | MSetDeoj c => msg_set_deoj m c | MSetEsv e => msg_set_esv m e
  | MAdd p => msg_add_property m p | MAddSet p => msg_add_property_set m p | MAddGet p => msg_add_property_get m p
  | MSetFrom a => msg_set_from m a
  end.
(** src/protocol/message.rs:79-91, Message::new, and then the calls one after another.
    *)
Definition msg_build (cs : list mcall) : message := fold_left mcall_run cs msg_new.

(** src/protocol/property.rs:41-53, set_code and set_data of protocol::Property. *)
Inductive qcall : Type := QCode (c : N) | QData (d : list N).
(** src/protocol/property.rs:41-53, what the two calls do. *)
Definition qcall_run (p : pprop) (c : qcall) : pprop :=
  match c with QCode c => PProp c (pp_data p) | QData d => PProp (pp_code p) d end.
(** src/protocol/property.rs:27-32, Property::new, and then the calls one after
    another. *)
Definition pprop_build (cs : list qcall) : pprop := fold_left qcall_run cs pprop_new.

(** src/property.rs:174-234, 308-334 and 370-374, the &mut methods of Property,
    except set_int_data, which can panic (C23). set_bytes_data is set_data. *)
Inductive pcall : Type :=
| PCode (c : N) | PName (s : string) | PType (s : string) | PCap (n : N) | PRead (r : rule) | PWrite (r : rule) | PAnno (r : rule)
| PData (d : list N) | PByte (v : N) | PAddData (d : list N) | PAddEnum (e : penum).
(** src/property.rs:174-234, 308-334 and 370-374, what each of the calls does. *)
Definition pcall_run (p : prop) (c : pcall) : prop :=
  match c with
  | PCode c => prop_set_code p c | PName s => prop_set_name p s | PType s => prop_set_data_type p s | PCap n => prop_set_capacity p n
  | PRead r => prop_set_read p r | PWrite r => prop_set_write p r | PAnno r => prop_set_anno p r
  | PData d => prop_set_data p d | PByte v => prop_set_byte_data p v | PAddData d => prop_add_data p d | PAddEnum e => prop_add_enum p e
  end.
(** src/property.rs:160-172, Property::new, and then the calls one after another. *)
Definition prop_build (cs : list pcall) : prop := fold_left pcall_run cs prop_new.

(** src/property.rs:109-123, PropertyType. *)
Inductive ptype : Type :=
| TUnknown | TNumber | TState | TNumericValue | TLevel | TDate | TDateTime | TTime | TRaw | TBitmap | TArray | TObject | TOneOf.

(** src/property.rs:126-144, PropertyType::from_string. *)
Definition ptype_from_string (s : string) : ptype :=
  if String.eqb s "number" then TNumber
  else if String.eqb s "state" then TState
  else if String.eqb s "numericValue" then TNumericValue
  else if String.eqb s "level" then TLevel
  else if String.eqb s "date" then TDate
  else if String.eqb s "date-time" then TDateTime
  else if String.eqb s "time" then TTime
  else if String.eqb s "raw" then TRaw
  else if String.eqb s "bitmap" then TBitmap
  else if String.eqb s "array" then TArray
  else if String.eqb s "object" then TObject
  else if String.eqb s "oneOf" then TOneOf
  else TUnknown.
