(** Specification vocabulary for heartbeats over time. *)
From stdpp Require Import gmap list.
From Coq Require Import NArith.
From Verif Require Import IdModel DiscModel.

(** Not more than [f] of [xs] in a row are without [P]. *)
Definition at_most_in_a_row {A} (P : A -> Prop) (f : nat) (xs : list A) : Prop :=
  forall pre mid post, xs = pre ++ mid ++ post -> Forall (fun x => ~ P x) mid -> length mid <= f.

(** The heartbeats of broker [self] in a history of the discovery service. *)
Definition beat_of (self : bid) (o : dop) : bool :=
  match o with DHeartbeat _ _ b _ _ => bool_decide (bid_print b = bid_print self) | _ => false end.
Definition beats_in (self : bid) (os : list dop) : list dop := List.filter (beat_of self) os.
(** What of a timed list of operations has happened by [now]. *)
Definition happened (now : N) (l : list (N * dop)) : list dop :=
  map snd (List.filter (fun mo => (mo.1 <=? now)%N) l).
