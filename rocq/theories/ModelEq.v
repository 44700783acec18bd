(** Model of the equality and hash implementations (src/object.rs:362-377,
    src/remote_node.rs:104-116, src/property.rs:102-106, 405-409) and of the
    constructors and accessors around them. *)
From Verif Require Import Base HMap ModelCodec ModelMessages ModelObject ModelTransport ModelNode ModelController.

(** What a Hash implementation writes to its Hasher, in order. u8, u32 and u16 values
    are one word each. Simplified: the derived Hash of SocketAddr and IpAddr
    (core::net) writes the variant, the address and the port. Used for
    src/object.rs:373-377, src/remote_node.rs:112-116 and src/property.rs:102-106,
    405-409. *)
Inductive word : Type := W8 (b : N) | W16 (h : N) | W32 (w : N) | WVariant (v : N) | WAddr (a : N).

(** src/object.rs:362-369, PartialEq for Object. *)
Definition object_eqb (a b : object) : bool := if negb (object_code a =? object_code b) then false else true.
(** src/object.rs:373-377, Hash for Object. *)
Definition object_hash (o : object) : list word := [W32 (object_code o)].

(** src/remote_node.rs:112-116, Hash for RemoteNode. *)
Definition sockaddr_hash (a : sockaddr) : list word :=
  match fst a with
  | V4 x => [WVariant 0; WAddr x; W16 (snd a)]
  | V6 x => [WVariant 1; WAddr x; W16 (snd a)]
  end.
(** src/remote_node.rs:112-116, Hash for RemoteNode. *)
Definition remote_hash (r : remote_node) : list word := sockaddr_hash (rn_addr r).

(** src/property.rs:102-106 and 405-409, Hash for PropertyEnum and Property. *)
Definition penum_hash (e : penum) : list word := [W8 (pe_code e)].
(** src/property.rs:405-409, Hash for Property. *)
Definition prop_hash (p : prop) : list word := [W8 (p_code p)].

(** src/remote_node.rs:30-35 and 50-52, RemoteNode::new and set_addr. *)
Definition remote_new : remote_node := Remote (V4 0, 0) [].
(** src/remote_node.rs:50-52, set_addr. *)
Definition remote_set_addr (r : remote_node) (a : sockaddr) : remote_node := Remote a (rn_objects r).
