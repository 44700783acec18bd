(** Several processes, each with its threads and nodes, on one network; and other
    hosts, about which nothing is assumed. *)
From Verif Require Import Base HMap ModelCodec ModelMessages ModelObject ModelTransport ModelNode ModelController ModelDevice ModelThreads
  SpecWire SpecNode SpecShared.

Section S.
  Context {U : Type} {P : Profile} (HO : nat -> HashOrder) (Os : nat -> OS) (Uu : nat -> Uuids) (db : nat -> list object) (what : nat -> observer -> obs).
  (** The process at an address; [None] for other hosts. *)
  Variable host : ipaddr -> option nat.

  Definition mesh : Type := nat -> process U.
  Definition replace (G : mesh) (i : nat) (s : process U) : mesh := fun j => if Nat.eqb j i then s else G j.

  (** Process [i] has sent the octets [data] to the process [j]. *)
  Definition sent_by (G : mesh) (i j : nat) (data : list N) : Prop :=
    exists n to, In (to, data) (line (nodes (G i) n)) /\ (host (fst to) = Some j \/ to = group).
  (** The network may lose, delay, repeat and reorder datagrams, but what comes from
      the address of a process was sent by the process; it need not be all that was
      sent: a receiver takes so many octets. Nothing comes from the address of the
      multicast group. *)
  Definition genuine (G : mesh) (j : nat) (m : message) : Prop :=
    fst (msg_from m) <> fst group /\
    forall i, host (fst (msg_from m)) = Some i -> exists data m0, sent_by G i j data /\ octets data /\
      msg_parse msg_new (firstn MAX_PACKET_SIZE data) = Ret (true, m0) /\ m = msg_set_from m0 (msg_from m).

  (** A step of a process; the messages it gets are genuine. *)
  Inductive gstep (G : mesh) : mesh -> Prop :=
  | g_step i s : step (HO := HO i) (O := Os i) (Uu := Uu i) (db i) (what i) true (G i) s ->
      (forall t m, history s = history (G i) ++ [EGot t m] -> genuine G i m) -> gstep G (replace G i s).
  Inductive gsteps : mesh -> mesh -> Prop :=
  | gs_refl G : gsteps G G
  | gs_step G G' G'' : gsteps G G' -> gstep G' G'' -> gsteps G G''.

  (** Nothing was started or sent when the processes begin. *)
  Definition gbegins (ns : nat -> nat -> nstate U) (cs : nat -> nat -> cstate) (xs : nat -> list (client U)) : mesh :=
    fun i => begins (HO := HO i) (O := Os i) (ns i) (cs i) (xs i).
End S.

(** What is put into the device, by its maker and the application, fits into a
    message. *)
Definition small {U} (n : nat) (oc : N) (x0 : nstate U) (h : list (event U)) : Prop :=
  (forall c y, value (view oc x0) c = Some y -> (length y <= 255)%nat) /\
  forall t k c y, In (ECall t k) h -> origin n oc c y (ECall t k) -> (length y <= 255)%nat.
(** The requests to the object [oc] which process [a] makes with this TID, or
    without one, are not about property maps. *)
Definition plain_reads {U} (host : ipaddr -> option nat) (a : nat) (oc tid : N) (h : list (event U)) : Prop :=
  forall t m, In (EGot t m) h -> host (fst (msg_from m)) = Some a -> msg_deoj m = oc -> msg_tid m = 0 \/ msg_tid m = tid ->
    Forall (fun q => stored (pp_code q)) (m_props m).

(** A request of process [a] to the object [oc] with this TID, or without one. *)
Definition request_of (host : ipaddr -> option nat) (a : nat) (oc tid : N) (m : message) : Prop :=
  host (fst (msg_from m)) = Some a /\ msg_deoj m = oc /\ (msg_tid m = 0 \/ msg_tid m = tid).
(** The services of requests that write and are answered, and of the answers. *)
Definition write_asked (e : N) : Prop := e = 0x61 \/ e = 0x6E.
Definition write_answered (e : N) : Prop := e = 0x71 \/ e = 0x7E.
(** Only these requests write the property [c], and all which are answered write
    [x]. *)
Definition only_writes {U} (host : ipaddr -> option nat) (a : nat) (n : nat) (oc tid c : N) (x : list N) (e : event U) : Prop :=
  (changes n oc c e -> exists t m, e = EGot t m /\ request_of host a oc tid m /\ last_data c (writes_of m) = Some x) /\
  (forall t m, e = EGot t m -> request_of host a oc tid m -> write_asked (m_esv m) -> last_data c (writes_of m) = Some x).
