(** Independent specification of the ECHONET Lite format-1 frame (ECHONET Lite
    specification, part II, section 3.2): what a frame is and how it looks on
    the wire. Nothing here refers to the model of the encoder or decoder,
    except [carries], which says that a Message holds a frame. *)
From Verif Require Import Base ModelCodec.

(** A property on the wire: code (EPC) and data (EDT). *)
Definition wprop : Type := (N * list N)%type.

(** Frame contents: one property list, or the two lists (set, get) of the
    write-read services. *)
Inductive wbody : Type :=
| Single (ps : list wprop)
| Double (sets gets : list wprop).

Record frame : Type := Frame {
  f_tid : N; f_seoj : N; f_deoj : N; f_esv : N; f_body : wbody }.

(** Services with two property lists: SetGet (0x6E), SetGet_Res (0x7E),
    SetGet_SNA (0x5E). *)
Definition two_lists (esv : N) : Prop := esv = 0x6E \/ esv = 0x7E \/ esv = 0x5E.

Definition wprop_ok (p : wprop) : Prop :=
  fst p < 256 /\ octets (snd p) /\ (length (snd p) <= 255)%nat.
Definition wprops_ok (ps : list wprop) : Prop :=
  Forall wprop_ok ps /\ (length ps <= 255)%nat.
Definition wbody_ok (esv : N) (b : wbody) : Prop :=
  match b with
  | Single ps => ~ two_lists esv /\ wprops_ok ps
  | Double ss gs => two_lists esv /\ wprops_ok ss /\ wprops_ok gs
  end.
Definition frame_ok (f : frame) : Prop :=
  f_tid f < 65536 /\ f_seoj f < 16777216 /\ f_deoj f < 16777216 /\ f_esv f < 256 /\
  wbody_ok (f_esv f) (f_body f).

(** The octets of a frame, big-endian. *)
Definition wire_prop (p : wprop) : list N := fst p :: N.of_nat (length (snd p)) :: snd p.
Definition wire_props (ps : list wprop) : list N :=
  N.of_nat (length ps) :: concat (map wire_prop ps).
Definition wire_body (b : wbody) : list N :=
  match b with
  | Single ps => wire_props ps
  | Double ss gs => wire_props ss ++ wire_props gs
  end.
Definition wire_eoj (c : N) : list N := [c / 65536; c / 256 mod 256; c mod 256].
Definition wire (f : frame) : list N :=
  [0x10; 0x81; f_tid f / 256; f_tid f mod 256] ++ wire_eoj (f_seoj f) ++
  wire_eoj (f_deoj f) ++ [f_esv f] ++ wire_body (f_body f).

(** What a Message shows through its getters. *)
Definition to_wprop (p : pprop) : wprop := (pp_code p, pp_data p).
Definition carries (m : message) (f : frame) : Prop :=
  msg_tid m = f_tid f /\ msg_seoj m = f_seoj f /\ msg_deoj m = f_deoj f /\
  m_esv m = f_esv f /\
  match f_body f with
  | Single ps => map to_wprop (m_props m) = ps /\ m_set m = [] /\ m_get m = []
  | Double ss gs =>
      map to_wprop (m_set m) = ss /\ map to_wprop (m_get m) = gs /\ m_props m = []
  end.

(** Messages that an application can build with the public setters of
    protocol::Message (u16 TID, u32 codes, octet vectors). *)
Definition u8prop (p : pprop) : Prop := octet (pp_code p) /\ octets (pp_data p).
Inductive built : message -> Prop :=
| B_new : built msg_new
| B_tid m t : built m -> t < 65536 -> built (msg_set_tid m t)
| B_seoj m c : built m -> c < 4294967296 -> built (msg_set_seoj m c)
| B_deoj m c : built m -> c < 4294967296 -> built (msg_set_deoj m c)
| B_esv m e : built m -> built (msg_set_esv m e)
| B_add m p : built m -> u8prop p -> built (msg_add_property m p)
| B_add_set m p : built m -> u8prop p -> built (msg_add_property_set m p)
| B_add_get m p : built m -> u8prop p -> built (msg_add_property_get m p)
| B_from m a : built m -> built (msg_set_from m a).

(** The counters of the wire format are one octet wide. *)
Definition prop_in_limit (p : pprop) : Prop := (length (pp_data p) <= 255)%nat.
Definition list_in_limit (ps : list pprop) : Prop :=
  (length ps <= 255)%nat /\ Forall prop_in_limit ps.
Definition in_limits (m : message) : Prop :=
  list_in_limit (m_props m) /\ list_in_limit (m_set m) /\ list_in_limit (m_get m).

(** Two messages show the same content: same TID, objects, service and, of the
    property lists, those which the service uses. *)
Definition same_content (a b : message) : Prop :=
  msg_tid a = msg_tid b /\ msg_seoj a = msg_seoj b /\ msg_deoj a = msg_deoj b /\
  m_esv a = m_esv b /\
  (two_lists (m_esv a) -> m_set a = m_set b /\ m_get a = m_get b) /\
  (~ two_lists (m_esv a) -> m_props a = m_props b).
