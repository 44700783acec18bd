(** Model of the texts of addresses which src/transport/unicast_server.rs:79-91 and
    src/transport/udp_socket.rs:154-173 write and read back, and of binding a
    server to an IPv6 address. ModelTransport.v leaves the texts out and has only
    IPv4; here nothing is left out of these functions. Texts are lists of
    character codes. *)
From Verif Require Import Base ModelCodec ModelTransport.

(* ------------------------------------------------------------------ *)
(** ** Texts of addresses (standard library) *)

(** Display of u8 and u16: decimal digits without leading zeros. A u16 has at most five
    digits. Standard library; used by src/transport/unicast_server.rs:80 and
    src/transport/udp_socket.rs:158, 169. *)
Fixpoint decimal_loop (fuel : nat) (v : N) : list N :=
  match fuel with
  | O => []
  | S f => if v <? 10 then [0x30 + v] else decimal_loop f (v / 10) ++ [0x30 + v mod 10]
  end.
(** Standard library; used by src/transport/unicast_server.rs:80 and
    src/transport/udp_socket.rs:158, 169. *)
Definition decimal (v : N) : list N := decimal_loop 5 v.

(** Display of [{:x}] of u16. Standard library; used by
    src/transport/unicast_server.rs:80 and src/transport/udp_socket.rs:158, 169. *)
Definition lower_digit (v : N) : N := if v <? 10 then 0x30 + v else 0x61 + (v - 10).
(** Standard library; used by src/transport/unicast_server.rs:80 and
    src/transport/udp_socket.rs:158, 169. *)
Fixpoint lower_loop (fuel : nat) (v : N) : list N :=
  match fuel with
  | O => []
  | S f => if v <? 16 then [lower_digit v] else lower_loop f (v / 16) ++ [lower_digit (v mod 16)]
  end.
(** Standard library; used by src/transport/unicast_server.rs:80 and
    src/transport/udp_socket.rs:158, 169. *)
Definition lower_hex (v : N) : list N := lower_loop 4 v.

(** Ipv4Addr::octets and Ipv6Addr::segments. Standard library; used by
    src/transport/unicast_server.rs:80 and src/transport/udp_socket.rs:158, 169. *)
Definition v4_octets (a : N) : list N := [a / 0x1000000 mod 256; a / 0x10000 mod 256; a / 0x100 mod 256; a mod 256].
(** Standard library; used by src/transport/unicast_server.rs:80 and
    src/transport/udp_socket.rs:158, 169. *)
Definition v6_segments (a : N) : list N :=
  [a / 2 ^ 112 mod 65536; a / 2 ^ 96 mod 65536; a / 2 ^ 80 mod 65536; a / 2 ^ 64 mod 65536;
   a / 2 ^ 48 mod 65536; a / 2 ^ 32 mod 65536; a / 2 ^ 16 mod 65536; a mod 65536].

(** Items with a separator between them. Standard library; used by
    src/transport/unicast_server.rs:80 and src/transport/udp_socket.rs:158, 169. *)
Fixpoint joined (sep : N) (l : list (list N)) : list N :=
  match l with
  | [] => []
  | [x] => x
  | x :: r => x ++ sep :: joined sep r
  end.

(** Display of Ipv4Addr. Standard library; used by src/transport/unicast_server.rs:80
    and src/transport/udp_socket.rs:158, 169. *)
Definition v4_text (a : N) : list N := joined 0x2E (map decimal (v4_octets a)).

(** Display of Ipv6Addr: the search for the longest run of zeros; a run is its start
    and its length. Standard library; used by src/transport/unicast_server.rs:80 and
    src/transport/udp_socket.rs:158, 169. *)
Fixpoint zero_run (l : list N) (i : nat) (current longest : nat * nat) : nat * nat :=
  match l with
  | [] => longest
  | s :: r =>
    if s =? 0 then
      let current := ((if Nat.eqb (snd current) 0 then i else fst current), S (snd current)) in
      zero_run r (S i) current (if Nat.ltb (snd longest) (snd current) then current else longest)
    else zero_run r (S i) (0%nat, 0%nat) longest
  end.
(** Display of Ipv6Addr. Standard library; used by src/transport/unicast_server.rs:80
    and src/transport/udp_socket.rs:158, 169. *)
Definition v6_text (a : N) : list N :=
  if a / 2 ^ 32 =? 0xFFFF then [0x3A; 0x3A; 0x66; 0x66; 0x66; 0x66; 0x3A] ++ v4_text (a mod 2 ^ 32)
  else
    let segs := v6_segments a in
    let run := zero_run segs 0 (0%nat, 0%nat) (0%nat, 0%nat) in
    if Nat.ltb 1 (snd run)
    then joined 0x3A (map lower_hex (firstn (fst run) segs)) ++ [0x3A; 0x3A] ++ joined 0x3A (map lower_hex (skipn (fst run + snd run) segs))
    else joined 0x3A (map lower_hex segs).
(** Display of IpAddr. Standard library; used by src/transport/unicast_server.rs:80 and
    src/transport/udp_socket.rs:158, 169. *)
Definition ip_text (a : ipaddr) : list N := match a with V4 x => v4_text x | V6 x => v6_text x end.

(** [format!("{}:{}", ifaddr, PORT)]: unicast_server.rs:80, udp_socket.rs:158, 169. *)
Definition endpoint_text (a : ipaddr) : list N := ip_text a ++ 0x3A :: decimal PORT.

(* ------------------------------------------------------------------ *)
(** ** SocketAddr::from_str (standard library, core::net::parser) *)

(** read_number with radix 10: the loop over the digits; [max] is the largest value of
    the type, [lim] the largest number of digits. Standard library; used by
    src/transport/unicast_server.rs:80 and src/transport/udp_socket.rs:158, 169. *)
Fixpoint digits_loop (max : N) (lim : option N) (l : list N) (acc count : N) : option (N * N * list N) :=
  match l with
  | [] => Some (acc, count, [])
  | c :: r =>
    if (0x30 <=? c) && (c <=? 0x39) then
      if max <? acc * 10 then None
      else if max <? acc * 10 + (c - 0x30) then None
      else if match lim with None => false | Some n => n <? count + 1 end then None
      else digits_loop max lim r (acc * 10 + (c - 0x30)) (count + 1)
    else Some (acc, count, l)
  end.
(** read_number. Standard library; used by src/transport/unicast_server.rs:80 and
    src/transport/udp_socket.rs:158, 169. *)
Definition read_number (max : N) (lim : option N) (zeros : bool) (l : list N) : option (N * list N) :=
  match digits_loop max lim l 0 0 with
  | None => None
  | Some (v, count, r) =>
    if count =? 0 then None
    else if negb zeros && match l with c :: _ => c =? 0x30 | [] => false end && (1 <? count) then None
    else Some (v, r)
  end.
(** read_given_char. Standard library; used by src/transport/unicast_server.rs:80 and
    src/transport/udp_socket.rs:158, 169. *)
Definition read_char (c : N) (l : list N) : option (list N) :=
  match l with x :: r => if x =? c then Some r else None | [] => None end.

(** read_ipv4_addr: four numbers separated by points. Standard library; used by
    src/transport/unicast_server.rs:80 and src/transport/udp_socket.rs:158, 169. *)
Definition read_v4 (l : list N) : option (N * list N) :=
  match read_number 255 (Some 3) false l with None => None | Some (a, l) =>
  match read_char 0x2E l with None => None | Some l =>
  match read_number 255 (Some 3) false l with None => None | Some (b, l) =>
  match read_char 0x2E l with None => None | Some l =>
  match read_number 255 (Some 3) false l with None => None | Some (c, l) =>
  match read_char 0x2E l with None => None | Some l =>
  match read_number 255 (Some 3) false l with None => None | Some (d, l) =>
    Some (a * 0x1000000 + b * 0x10000 + c * 0x100 + d, l)
  end end end end end end end.
(** read_socket_addr_v4: the address, a colon and the port. Standard library; used by
    src/transport/unicast_server.rs:80 and src/transport/udp_socket.rs:158, 169. *)
Definition read_endpoint4 (l : list N) : option (sockaddr * list N) :=
  match read_v4 l with None => None | Some (a, l) =>
  match read_char 0x3A l with None => None | Some l =>
  match read_number 65535 None true l with None => None | Some (p, l) => Some ((V4 a, p), l) end end end.

(** What read_socket_addr_v6 makes of the text behind its opening bracket: any
    function. Standard library; used by src/transport/unicast_server.rs:80 and
    src/transport/udp_socket.rs:158, 169. *)
Class Bracketed := behind_bracket : list N -> option (sockaddr * list N).
(** read_socket_addr_v6. Standard library; used by src/transport/unicast_server.rs:80
    and src/transport/udp_socket.rs:158, 169. *)
Definition read_endpoint6 {B : Bracketed} (l : list N) : option (sockaddr * list N) :=
  match read_char 0x5B l with None => None | Some l => behind_bracket l end.
(** SocketAddr::from_str: one of the two, and nothing left over. Standard library; used
    by src/transport/unicast_server.rs:80 and src/transport/udp_socket.rs:158, 169. *)
Definition parse_endpoint {B : Bracketed} (l : list N) : option sockaddr :=
  match match read_endpoint4 l with Some x => Some x | None => read_endpoint6 l end with
  | Some (a, []) => Some a
  | _ => None
  end.

(* ------------------------------------------------------------------ *)
(** ** Servers and the lock of their socket *)

(** A server with the poison flag of the RwLock around its socket
    (src/transport/unicast_server.rs:31, multicast_server.rs:31). *)
Record guarded : Type := Guarded { gd_server : server; gd_poisoned : bool }.

(** src/transport/default.rs:18, Ipv6Addr::new(0xff, 0x02, 0, 0, 0, 0, 0, 1):
    eight segments of sixteen bits. *)
Definition MULTICAST_V6_ADDRESS : N := 0xFF * 2 ^ 112 + 0x02 * 2 ^ 96 + 1.

(** src/transport/unicast_server.rs:79-91, bind. *)
Definition guarded_ucast_bind {B : Bracketed} {O : OS} (w : world) (g : guarded) (ifaddr : ipaddr) : outcome bool * guarded * world :=
  match parse_endpoint (endpoint_text ifaddr) with
  | None => (Ret false, g, w)
  | Some addr =>
    if gd_poisoned g then (Panic, g, w)
    else let '(ok, k, w) := socket_bind w (sv_socket (gd_server g)) addr in
         (Ret ok, Guarded (sv_with_socket (gd_server g) k) false, w)
  end.

(** src/transport/udp_socket.rs:154-163 and 165-173, join_multicast_v4 and
    join_multicast_v6, which are the same but for the call into the operating
    system. *)
Definition text_join {B : Bracketed} {O : OS} (w : world) (k : socket) (ifaddr : ipaddr) : outcome bool * socket * world :=
  match sk_sock k with
  | None => (Ret false, k, w)
  | Some _ =>
    match parse_endpoint (endpoint_text ifaddr) with
    | None => (Panic, k, w)
    | Some addr => let ok := os_join (w_calls w) in
                   (Ret ok, Socket (sk_sock k) (Some addr), log w (EvJoin ifaddr ok))
    end
  end.

(** src/transport/multicast_server.rs:81-125, bind. The write guard is alive
    during the call of join_multicast_v4 or join_multicast_v6, so that a panic
    there poisons the lock. *)
Definition guarded_mcast_bind {B : Bracketed} {O : OS} (w : world) (g : guarded) (ifaddr : ipaddr) : outcome bool * guarded * world :=
  let addr := match ifaddr with V4 _ => (V4 0, PORT) | V6 _ => (V6 0, PORT) end in
  if gd_poisoned g then (Panic, g, w)
  else
    let '(ok, k, w) := socket_bind w (sv_socket (gd_server g)) addr in
    if negb ok then (Ret false, Guarded (sv_with_socket (gd_server g) k) false, w)
    else match text_join w k ifaddr with
         | (Panic, k, w) => (Panic, Guarded (sv_with_socket (gd_server g) k) true, w)
         | (Ret ok, k, w) => (Ret ok, Guarded (sv_with_socket (gd_server g) k) false, w)
         end.

(** src/transport/unicast_server.rs:75-77, multicast_server.rs:77-79, ifaddr. *)
Definition guarded_ifaddr (g : guarded) : outcome (option sockaddr) :=
  if gd_poisoned g then Panic else Ret (sk_ifaddr (sv_socket (gd_server g))).
(** src/transport/multicast_server.rs:51-75, notify. *)
Definition guarded_notify {O : OS} (w : world) (g : guarded) (msg : message) : outcome bool * world :=
  if gd_poisoned g then (Panic, w)
  else let '(ok, w) := mcast_server_notify w (gd_server g) msg in (Ret ok, w).
(** src/transport/multicast_server.rs:127-134 and 187-196, close and stop: the
    thread is not joined when the lock is poisoned. *)
Definition guarded_stop (g : guarded) : outcome (bool * guarded) :=
  if gd_poisoned g
  then Ret (false, Guarded (let s := gd_server g in Server (sv_socket s) (sv_observers s) (sv_poisoned s) true (sv_thread s)) true)
  else let! x := server_stop (gd_server g) in Ret (fst x, Guarded (snd x) false).

(* ------------------------------------------------------------------ *)
(** ** The other interface filters *)

(** src/transport/interface_unix.rs:49-51, is_v6_interface. *)
Definition is_v6_interface (ip : ipaddr * N) : bool := match fst ip with V4 _ => false | V6 _ => true end.
(** src/transport/interface_unix.rs:39-41, is_all_interface. *)
Definition is_all_interface (ip : ipaddr * N) : bool := true.
(** src/transport/interface_unix.rs:54-77, get_interfaces with its argument. *)
Definition filtered_interfaces (enable : ipaddr * N -> bool) (is : list iface) : list ipaddr :=
  flat_map (fun i => if negb (if_up i) then []
                     else if if_loopback i || if_p2p i then []
                     else map fst (filter enable (filter (fun ip => negb (is_ignore_interface ip)) (if_ips i)))) is.
(** src/transport/interface_unix.rs:85-92, get_v4_interfaces and get_v6_interfaces. *)
Definition get_v4_interfaces := filtered_interfaces is_v4_interface.
(** src/transport/interface_unix.rs:90-92, get_v6_interfaces. *)
Definition get_v6_interfaces := filtered_interfaces is_v6_interface.
