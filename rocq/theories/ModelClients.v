(** The main functions of the command-line tools as programs of a thread which
    uses a controller.

    The bodies of the loops, the messages and what is printed are those of
    [ModelTools]; here the answers come from the receivers, and the controller is
    used by other threads too.

    Simplified: Controller::new has returned before (the state in which the threads
    begin has the controller); the sleep after search lets the other threads go on,
    which they may do at any time anyway. When main panics in between calls, the
    destructor of the controller runs; when it panics in a call, the mutexes it
    holds are poisoned and the destructor would panic again: the thread is dead. *)
From Verif Require Import Base HMap ModelCodec ModelMessages ModelObject ModelTransport ModelNode ModelController ModelDevice ModelThreads ModelTools.

Section Tools.
  Context {U : Type} {P : Profile} (c n : nat).

  (** src/controller.rs:145-149, Drop for Controller, when main returns or panics. *)
  Definition dropped : client U := Call (CStop (Some c) n) (fun _ => Finished).
  (** ctrl.stop(), and the end of main: bin/uechosearch/uechosearch.rs:124-126,
      bin/uechobench/uechobench.rs:111-113, bin/uechopost/uechopost.rs:196-197 and 202. *)
  Definition stopped : client U := Call (CStop (Some c) n) (fun _ => dropped).

  (** post_message and recv_timeout: bin/uechosearch/uechosearch.rs:67-68 and 103-104,
      bin/uechobench/uechobench.rs:89-90, bin/uechopost/uechopost.rs:181-182. The other
      kinds of answers do not occur. *)
  Definition ask (r : remote_node) (m : message) (k : option message -> client U) : client U :=
    Call (CCtrlPost c n r m) (fun v =>
      match v with
      | VPosted ch _ => Call (CWait n ch) (fun v => match v with VGot a => k a | _ => Finished end)
      | _ => Finished
      end).
  (** What follows an answer, unless looking at it panics.
      bin/uechosearch/uechosearch.rs:66-81 and 102-113,
      bin/uechobench/uechobench.rs:90-100. *)
  Definition unless_panic {A} (x : outcome A) (k : client U) : client U := match x with Ret _ => k | Panic => dropped end.

  (** bin/uechosearch/uechosearch.rs:89-120, bin/uechobench/uechobench.rs:75-106. *)
  Fixpoint read_client (all : bool) (r : remote_node) (oc : N) (ps : list prop) (k : client U) : client U :=
    match ps with
    | [] => k
    | p :: l =>
      if negb all && negb (prop_is_read_required p) then read_client all r oc l k
      else ask r (read_message oc (p_code p)) (fun a => unless_panic (answer_data a) (read_client all r oc l k))
    end.
  (** bin/uechosearch/uechosearch.rs:87-121, bin/uechobench/uechobench.rs:73-107. *)
  Fixpoint object_client (all : bool) (r : remote_node) (os : list object) (k : client U) : client U :=
    match os with
    | [] => k
    | o :: l => read_client all r (object_code o) (object_properties o) (object_client all r l k)
    end.

  (** bin/uechosearch/uechosearch.rs:57-122. *)
  Fixpoint search_client (all : bool) (nodes : list remote_node) (k : client U) : client U :=
    match nodes with
    | [] => k
    | r :: l => ask r (read_message 0x0EF001 0x8A) (fun a => unless_panic (maker_name a) (object_client all r (rn_objects r) (search_client all l k)))
    end.
  (** ctrl.nodes(): bin/uechosearch/uechosearch.rs:57, bin/uechobench/uechobench.rs:68,
      bin/uechopost/uechopost.rs:171. *)
  Definition with_nodes (k : list remote_node -> client U) : client U :=
    Call (CNodes c) (fun v => match v with VNodes l => k l | _ => Finished end).
  (** ctrl.start(), ctrl.search(): bin/uechosearch/uechosearch.rs:52-53,
      bin/uechobench/uechobench.rs:62-63, bin/uechopost/uechopost.rs:150-151. *)
  Definition searching (k : client U) : client U :=
    Call (CStart (Some c) n) (fun _ => Call (CSearch c n NODE_PROFILE_OBJECT_CODE) (fun _ => k)).
  (** bin/uechosearch/uechosearch.rs:33-127, main. *)
  Definition search_body (all : bool) : client U := searching (with_nodes (fun l => search_client all l stopped)).
  (** bin/uechosearch/uechosearch.rs:33-127, main with its command line. *)
  Definition uechosearch (args : list (list N)) : client U :=
    match search_args false args with None => Finished | Some all => search_body all end.

  (** bin/uechobench/uechobench.rs:68-108. *)
  Fixpoint bench_client (all : bool) (nodes : list remote_node) (k : client U) : client U :=
    match nodes with
    | [] => k
    | r :: l => object_client all r (rn_objects r) (bench_client all l k)
    end.
  (** bin/uechobench/uechobench.rs:67-109. *)
  Fixpoint rounds_client (all : bool) (count : nat) (k : client U) : client U :=
    match count with
    | O => k
    | S i => with_nodes (fun l => bench_client all l (rounds_client all i k))
    end.
  (** bin/uechobench/uechobench.rs:33-114, main. *)
  Definition bench_body (all : bool) (count : nat) : client U := searching (rounds_client all count stopped).
  (** bin/uechobench/uechobench.rs:33-114, main with its command line. *)
  Definition uechobench {T : Texts} (args : list (list N)) : client U :=
    match bench_args false 1 args with Ret (Some (all, count)) => bench_body all (Z.to_nat count) | _ => Finished end.

  (** bin/uechopost/uechopost.rs:171-202. *)
  Fixpoint post_client (nodes : list remote_node) (a : post_args) : client U :=
    match nodes with
    | [] => stopped
    | r :: l =>
      if negb (ipaddr_eqb (fst (rn_addr r)) (pa_addr a)) then post_client l a
      else
        let m := post_message a in
        match msg_esv m with
        | EWriteRequest | ENotificationRequest => Call (CCtrlSend c n r m) (fun _ => stopped)
        | EWriteRequestResponseRequired | EReadRequest | EWriteReadRequest => ask r m (fun _ => stopped)
        | _ => stopped
        end
    end.
  (** bin/uechopost/uechopost.rs:35-203, main. *)
  Definition post_body (a : post_args) : client U := searching (with_nodes (fun l => post_client l a)).
  (** bin/uechopost/uechopost.rs:35-203, main with its command line. *)
  Definition uechopost {T : Texts} (args : list (list N)) : client U :=
    match uechopost_args args with Ret (Some a) => post_body a | _ => Finished end.
End Tools.
