(** Model of byte strings and broker identifiers —
    /repo/cdn-proto/src/discovery/mod.rs 80-129. Definitions only. *)
From stdpp Require Import gmap list countable.
From Coq Require Import NArith.

(** Byte strings ([Vec<u8>], [String] contents). A byte is an [N]; the bound [< 256] is a
    hypothesis only where it matters (codecs). *)
Notation bytes := (list N).

(** [Ord] of Rust [str]/[Vec<u8>]: lexicographic on bytes. *)
Fixpoint bytes_cmp (a b : bytes) : comparison :=
  match a, b with
  | [], [] => Eq
  | [], _ :: _ => Lt
  | _ :: _, [] => Gt
  | x :: a', y :: b' =>
      match N.compare x y with Eq => bytes_cmp a' b' | c => c end
  end.

(** discovery/mod.rs 82-87: [BrokerIdentifier]. *)
Record bid := Bid { bpub : bytes; bpriv : bytes }.

Global Instance bid_eq_dec : EqDecision bid.
Proof. solve_decision. Defined.
Global Instance bid_countable : Countable bid.
Proof.
  apply (inj_countable' (fun b => (bpub b, bpriv b)) (fun p => Bid p.1 p.2)).
  by intros [? ?].
Defined.

(** discovery/mod.rs 80: derived [Ord]: field by field. *)
Definition bid_cmp (a b : bid) : comparison :=
  match bytes_cmp (bpub a) (bpub b) with Eq => bytes_cmp (bpriv a) (bpriv b) | c => c end.

(** The Rust operators [a > b] and [a >= b] on identifiers. *)
Definition bid_gtb (a b : bid) : bool := match bid_cmp a b with Gt => true | _ => false end.
Definition bid_geb (a b : bid) : bool := match bid_cmp a b with Lt => false | _ => true end.

(** The byte of ['/']. *)
Definition slash : N := 47.

(** discovery/mod.rs 91-99: [Display]. *)
Definition bid_print (b : bid) : bytes := bpub b ++ slash :: bpriv b.

(** [str::split('/')]: the pieces between slashes (never empty). *)
Fixpoint split_slash (s : bytes) : list bytes :=
  match s with
  | [] => [[]]
  | x :: s' =>
      if N.eqb x slash then [] :: split_slash s'
      else match split_slash s' with
           | p :: ps => (x :: p) :: ps
           | [] => [[x]]
           end
  end.

(** discovery/mod.rs 103-129: [TryFrom<String>]; the two [ok_or_else] failures are
    [None]. *)
Definition bid_parse (s : bytes) : option bid :=
  match split_slash s with
  | p :: q :: _ => Some (Bid p q)
  | _ => None
  end.
