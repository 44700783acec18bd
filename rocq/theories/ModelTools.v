(** Model of the command line tools: bin/uechopost/uechopost.rs,
    bin/uechosearch/uechosearch.rs and bin/uechobench/uechobench.rs. Arguments are
    UTF-8 texts as lists of octets. What is printed is modelled where it shows
    answers; usage texts and error messages are not. *)
From Verif Require Import Base HMap ModelCodec ModelMessages MakerTable ModelObject ModelTransport ModelNode ModelController.

(** Results of [str::parse] of the standard library for IpAddr
    (bin/uechopost/uechopost.rs:61) and i32 (bin/uechobench/uechobench.rs:47). *)
Class Texts := { parse_ip : list N -> option ipaddr; parse_i32 : list N -> option Z }.

(** hex::decode of the crate hex (Cargo.toml:26, version 0.4), used in
    bin/uechopost/uechopost.rs:71-108: pairs of digits of either case. *)
Definition hex_val (c : N) : option N :=
  if (0x41 <=? c) && (c <=? 0x46) then Some (c - 0x41 + 10)
  else if (0x61 <=? c) && (c <=? 0x66) then Some (c - 0x61 + 10)
  else if (0x30 <=? c) && (c <=? 0x39) then Some (c - 0x30)
  else None.
(** Crate hex; used in bin/uechopost/uechopost.rs:71-108. *)
Fixpoint hex_decode (s : list N) : option (list N) :=
  match s with
  | [] => Some []
  | [_] => None
  | a :: b :: r =>
    match hex_val a, hex_val b, hex_decode r with
    | Some x, Some y, Some l => Some (x * 16 + y :: l)
    | _, _, _ => None
    end
  end.
(** hex::encode: lower case. Crate hex; used in bin/uechosearch/uechosearch.rs:102-113.
    *)
Definition hex_digit (v : N) : N := if v <? 10 then 0x30 + v else 0x61 + (v - 10).
(** Crate hex; used in bin/uechosearch/uechosearch.rs:102-113. *)
Definition hex_encode (l : list N) : list N := flat_map (fun b => [hex_digit (b / 16); hex_digit (b mod 16)]) l.

(** bin/uechopost/uechopost.rs:48, -v. *)
Definition arg_v : list N := [0x2D; 0x76].
(** bin/uechopost/uechopost.rs:51, -h. *)
Definition arg_h : list N := [0x2D; 0x68].
(** bin/uechosearch/uechosearch.rs:34-49, -a. *)
Definition arg_a : list N := [0x2D; 0x61].
(** bin/uechobench/uechobench.rs:34-59, -n. *)
Definition arg_n : list N := [0x2D; 0x6E].
(** The match on the text of an argument: bin/uechopost/uechopost.rs:47. *)
Definition is_arg (a b : list N) : bool := bytes_eqb a b.

(* ------------------------------------------------------------------ *)
(** ** bin/uechopost/uechopost.rs *)

(** bin/uechopost/uechopost.rs:36-42, the variables filled from the command line. *)
Record post_args : Type := PostArgs {
  pa_program : list N; pa_addr : ipaddr; pa_obj : N; pa_esv : esv; pa_epcs : list N; pa_edts : list (list N) }.
(** bin/uechopost/uechopost.rs:36-42, the values at the beginning. *)
Definition post_args0 : post_args := PostArgs [] (V4 0) 0 EUnknown [] [].

(** bin/uechopost/uechopost.rs:46-119, one argument. [None]: the program prints its usage and ends. *)
Definition post_arg {P : Profile} {T : Texts} (a : post_args) (arg : list N) : outcome (option post_args) :=
  if is_arg arg arg_v then Ret (Some a)
  else if is_arg arg arg_h then Ret None
  else if Nat.eqb (length (pa_program a)) 0 then
    Ret (Some (PostArgs arg (pa_addr a) (pa_obj a) (pa_esv a) (pa_epcs a) (pa_edts a)))
  else if ipaddr_eqb (pa_addr a) (V4 0) then
    match parse_ip arg with
    | None => Ret None
    | Some ip => Ret (Some (PostArgs (pa_program a) ip (pa_obj a) (pa_esv a) (pa_epcs a) (pa_edts a)))
    end
  else if pa_obj a =? 0 then
    match hex_decode arg with
    | None => Ret None
    | Some b => let! c := bytes_to_u32 b in
                Ret (Some (PostArgs (pa_program a) (pa_addr a) c (pa_esv a) (pa_epcs a) (pa_edts a)))
    end
  else if esv_eqb (pa_esv a) EUnknown then
    match hex_decode arg with
    | None => Ret None
    | Some b => let! x := idx b 0 in
                let e := esv_from_u8 x in
                if esv_eqb e EUnknown then Ret None
                else Ret (Some (PostArgs (pa_program a) (pa_addr a) (pa_obj a) e (pa_epcs a) (pa_edts a)))
    end
  else if Nat.eqb (length (pa_epcs a)) (length (pa_edts a)) then
    match hex_decode arg with
    | None => Ret None
    | Some b => let! x := idx b 0 in
                Ret (Some (PostArgs (pa_program a) (pa_addr a) (pa_obj a) (pa_esv a) (pa_epcs a ++ [x]) (pa_edts a)))
    end
  else if Nat.ltb (length (pa_edts a)) (length (pa_epcs a)) then
    match hex_decode arg with
    | None => Ret None
    | Some b => Ret (Some (PostArgs (pa_program a) (pa_addr a) (pa_obj a) (pa_esv a) (pa_epcs a) (pa_edts a ++ [b])))
    end
  else Ret (Some a).
(** bin/uechopost/uechopost.rs:46-119, the loop over the arguments. *)
Fixpoint post_args_loop {P : Profile} {T : Texts} (a : post_args) (args : list (list N)) : outcome (option post_args) :=
  match args with
  | [] => Ret (Some a)
  | x :: r => let! y := post_arg a x in
              match y with None => Ret None | Some a => post_args_loop a r end
  end.

(** bin/uechopost/uechopost.rs:46-145, the command line and its checks. *)
Definition uechopost_args {P : Profile} {T : Texts} (args : list (list N)) : outcome (option post_args) :=
  let! y := post_args_loop post_args0 args in
  match y with
  | None => Ret None
  | Some a =>
    if ipaddr_eqb (pa_addr a) (V4 0) then Ret None
    else if esv_eqb (pa_esv a) EUnknown then Ret None
    else if pa_obj a =? 0 then Ret None
    else if Nat.eqb (length (pa_epcs a)) 0 then Ret None
    else Ret (Some a)
  end.

(** bin/uechopost/uechopost.rs:157-167, the message. *)
Fixpoint post_props (n : nat) (epcs : list N) (edts : list (list N)) (m : message) : message :=
  match epcs with
  | [] => m
  | c :: r =>
    post_props (S n) r edts (msg_add_property m (PProp c (if Nat.ltb n (length edts) then nth n edts [] else [])))
  end.
(** bin/uechopost/uechopost.rs:157-167, the message. *)
Definition post_message (a : post_args) : message :=
  post_props 0 (pa_epcs a) (pa_edts a) (msg_set_deoj (msg_set_esv msg_new (pa_esv a)) (pa_obj a)).

(** bin/uechopost/uechopost.rs:171-202, the loop over the nodes found: the first one with the address
    gets the message. The result says whether an answer is awaited. *)
Fixpoint uechopost_loop {U : Type} {O : OS} (w : world) (n : node U) (nodes : list remote_node) (a : post_args)
  : option N * node U * world :=
  match nodes with
  | [] => (None, n, w)
  | r :: l =>
    if negb (ipaddr_eqb (fst (rn_addr r)) (pa_addr a)) then uechopost_loop w n l a
    else
      let m := post_message a in
      match msg_esv m with
      | EWriteRequest | ENotificationRequest => let '(_, _, n, w) := controller_send w n r m in (None, n, w)
      | EWriteRequestResponseRequired | EReadRequest | EWriteReadRequest =>
        let '(c, _, n, w) := controller_post w n r m in (Some c, n, w)
      | _ => (None, n, w)
      end
  end.

(* ------------------------------------------------------------------ *)
(** ** bin/uechosearch/uechosearch.rs *)

(** bin/uechosearch/uechosearch.rs:34-49. [None]: usage. *)
Fixpoint search_args (all : bool) (args : list (list N)) : option bool :=
  match args with
  | [] => Some all
  | x :: r => if is_arg x arg_v then search_args all r
              else if is_arg x arg_a then search_args true r
              else if is_arg x arg_h then None
              else search_args all r
  end.

(** A read of one property: lines 59-64 and 95-100; uechobench.rs:81-86. *)
Definition read_message (obj code : N) : message :=
  msg_add_property (msg_set_deoj (msg_set_esv msg_new EReadRequest) obj) (PProp code []).

(** Lines that are printed: 83, 88 and 114-119; uechobench.rs:69 without the name. *)
Inductive line : Type :=
| LNode (i : nat) (addr : sockaddr) (maker : string)
| LObject (j : nat) (code : N) (class_name : string)
| LProp (code : N) (name : string) (data : option (list N)).

(** What a program does: requests that are posted, and lines. The answers come from the
    channels: [ans k] is what the k-th request gets within its second.
    bin/uechosearch/uechosearch.rs:57-122, bin/uechobench/uechobench.rs:67-109. *)
Inductive act : Type := APost (r : remote_node) (m : message) | APrint (l : line).

(** bin/uechosearch/uechosearch.rs:66-81, the name of the manufacturer. *)
Definition maker_name {P : Profile} (ans : option message) : outcome string :=
  match ans with
  | None => Ret ""%string
  | Some m =>
    match m_props m with
    | [] => Ret ""%string
    | p :: _ => let! c := bytes_to_u32 (pp_data p) in
                match find_manufacture c with Some x => Ret (snd x) | None => Ret ""%string end
    end
  end.
(** bin/uechosearch/uechosearch.rs:102-113; [None] is an error text. *)
Definition answer_data (ans : option message) : outcome (option (list N)) :=
  match ans with
  | None => Ret None
  | Some m => if Nat.ltb 0 (msg_opc m) then let! p := msg_property m 0 in Ret (Some (hex_encode (pp_data p)))
              else Ret (Some [])
  end.

(** bin/uechosearch/uechosearch.rs:89-120, the loop over the properties of an object; also uechobench.rs:75-106.
    [k] counts the requests. *)
Fixpoint read_loop (all : bool) (ans : nat -> option message) (k : nat) (r : remote_node) (oc : N) (ps : list prop)
  : outcome (nat * list act) :=
  match ps with
  | [] => Ret (k, [])
  | p :: l =>
    if negb all && negb (prop_is_read_required p) then read_loop all ans k r oc l
    else
      let! d := answer_data (ans k) in
      let! x := read_loop all ans (S k) r oc l in
      Ret (fst x, APost r (read_message oc (p_code p)) :: APrint (LProp (p_code p) (p_name p) d) :: snd x)
  end.
(** bin/uechosearch/uechosearch.rs:87-121; also uechobench.rs:73-107. *)
Fixpoint object_loop (all : bool) (ans : nat -> option message) (k j : nat) (r : remote_node) (os : list object)
  : outcome (nat * list act) :=
  match os with
  | [] => Ret (k, [])
  | o :: l =>
    let! x := read_loop all ans k r (object_code o) (object_properties o) in
    let! y := object_loop all ans (fst x) (S j) r l in
    Ret (fst y, APrint (LObject j (object_code o) (o_class_name o)) :: snd x ++ snd y)
  end.
(** bin/uechosearch/uechosearch.rs:57-122, the loop over the nodes. *)
Fixpoint search_loop {P : Profile} (all : bool) (ans : nat -> option message) (k i : nat) (nodes : list remote_node)
  : outcome (nat * list act) :=
  match nodes with
  | [] => Ret (k, [])
  | r :: l =>
    let! name := maker_name (ans k) in
    let! x := object_loop all ans (S k) 0 r (rn_objects r) in
    let! y := search_loop all ans (fst x) (S i) l in
    Ret (fst y, APost r (read_message 0x0EF001 0x8A) :: APrint (LNode i (rn_addr r) name) :: snd x ++ snd y)
  end.

(* ------------------------------------------------------------------ *)
(** ** bin/uechobench/uechobench.rs *)

(** bin/uechobench/uechobench.rs:34-59. The result: all properties, number of rounds; [None]: usage. *)
Fixpoint bench_args {T : Texts} (all : bool) (count : Z) (args : list (list N)) : outcome (option (bool * Z)) :=
  match args with
  | [] => Ret (Some (all, count))
  | x :: r =>
    if is_arg x arg_v then bench_args all count r
    else if is_arg x arg_n then
      match r with
      | [] => Panic
      | y :: r => match parse_i32 y with Some z => bench_args all z r | None => Panic end
      end
    else if is_arg x arg_a then bench_args true count r
    else if is_arg x arg_h then Ret None
    else bench_args all count r
  end.
(** bin/uechobench/uechobench.rs:68-108, one round. *)
Fixpoint bench_loop (all : bool) (ans : nat -> option message) (k i : nat) (nodes : list remote_node)
  : outcome (nat * list act) :=
  match nodes with
  | [] => Ret (k, [])
  | r :: l =>
    let! x := object_loop all ans k 0 r (rn_objects r) in
    let! y := bench_loop all ans (fst x) (S i) l in
    Ret (fst y, APrint (LNode i (rn_addr r) ""%string) :: snd x ++ snd y)
  end.
(** bin/uechobench/uechobench.rs:67-109: the nodes are asked for anew in every round ([nodes]). *)
Fixpoint bench_rounds (all : bool) (ans : nat -> option message) (k : nat) (nodes : nat -> list remote_node) (count : nat)
  : outcome (nat * list act) :=
  match count with
  | O => Ret (k, [])
  | S c =>
    let! x := bench_loop all ans k 0 (nodes c) in
    let! y := bench_rounds all ans (fst x) nodes c in
    Ret (fst y, snd x ++ snd y)
  end.
