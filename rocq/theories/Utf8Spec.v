(** Text as Unicode defines it, independently of the checks in the decoder: a Rust [String] is
    a sequence of Unicode scalar values, stored in UTF-8 (The Unicode Standard, D76 and D92,
    table 3-6; used for the [context] of an [AuthenticateResponse],
    cdn-proto/src/message.rs 338-345). *)
From stdpp Require Import list.
From Coq Require Import NArith.
From Verif Require Import IdModel MsgModel CodecModel.
Local Open Scope N_scope.

(** D76: every code point but the surrogates. *)
Definition scalar (n : N) : Prop := n < 0xD800 \/ (0xE000 <= n /\ n < 0x110000).

(** Table 3-6: how one scalar value is stored. *)
Definition utf8_char (n : N) : bytes :=
  if n <? 0x80 then [n]
  else if n <? 0x800 then [0xC0 + n / 64; 0x80 + n mod 64]
  else if n <? 0x10000 then [0xE0 + n / 4096; 0x80 + n / 64 mod 64; 0x80 + n mod 64]
  else [0xF0 + n / 262144; 0x80 + n / 4096 mod 64; 0x80 + n / 64 mod 64; 0x80 + n mod 64].

Definition utf8 (cs : list N) : bytes := concat (map utf8_char cs).

(** The bytes are those of a string. *)
Definition is_text (bs : bytes) : Prop := exists cs, Forall scalar cs /\ bs = utf8 cs.

(** Values a message can have in the code (message.rs 320-345): 64-bit numbers, and the
    context is a string. *)
Definition real_msg (m : message) : Prop :=
  match m with
  | MAuthWithKey ts _ _ => ts < 2 ^ 64
  | MAuthWithPermit p => p < 2 ^ 64
  | MAuthResponse p c => p < 2 ^ 64 /\ is_text c
  | _ => True
  end.
