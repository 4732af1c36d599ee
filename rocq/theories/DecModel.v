(** Decimal printing and parsing of unsigned integers ([u64::to_string], as used in
    /repo/cdn-proto/src/discovery/redis.rs 107, 206, 242 and by the redis reply parser).
    Definitions only. *)
From stdpp Require Import list.
From Coq Require Import NArith.
From Verif Require Import IdModel.

(** The byte of a digit. *)
Definition digit (d : N) : N := (48 + d)%N.

(** Least significant digit last; [fuel] bounds the number of digits. *)
Fixpoint dec_digits (fuel : nat) (n : N) : bytes :=
  match fuel with
  | O => []
  | S f => if (n <? 10)%N then [digit n] else dec_digits f (n / 10)%N ++ [digit (n mod 10)%N]
  end.

(** [to_string] of an unsigned integer. *)
Definition dec (n : N) : bytes := dec_digits (S (N.to_nat (N.log2 n))) n.

(** [str::parse] of an unsigned integer without bound. *)
Definition undec_step (acc : option N) (b : N) : option N :=
  match acc with
  | Some v => if ((48 <=? b) && (b <=? 57))%N then Some (10 * v + (b - 48))%N else None
  | None => None
  end.
Definition undec (s : bytes) : option N :=
  match s with [] => None | _ => fold_left undec_step s (Some 0%N) end.
