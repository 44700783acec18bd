(** Model of the texts of messages and services (Display). Texts are lists of
    octets, ASCII. Writing to the formatter is taken to succeed: the only caller
    outside of applications is the log, and writing to a String always succeeds. *)
From Verif Require Import Base ModelCodec.

(** [format_args!("{:02X}", b)] of the standard library for a u8: hexadecimal digits in
    upper case without leading zeros, filled with zeros to width 2. Used by
    src/protocol/message.rs:377-387 and src/protocol/esv.rs:110-119. *)
Definition upper_digit (v : N) : N := if v <? 10 then 0x30 + v else 0x41 + (v - 10).
(** Used by src/protocol/message.rs:377-387 and src/protocol/esv.rs:110-119. *)
Definition upper_hex (b : N) : list N := if b <? 16 then [upper_digit b] else [upper_digit (b / 16); upper_digit (b mod 16)].
(** src/protocol/message.rs:377-387, src/protocol/esv.rs:110-119: the format of one
    octet. *)
Definition fmt_02X (b : N) : list N := let s := upper_hex b in repeat 0x30 (2 - length s) ++ s.

(** src/protocol/message.rs:377-387, Display for Message. *)
Definition msg_display (m : message) : list N := flat_map fmt_02X (msg_bytes m).
(** src/protocol/esv.rs:110-119, Display for ESV. *)
Definition esv_display (e : esv) : list N := fmt_02X (esv_to_u8 e).
