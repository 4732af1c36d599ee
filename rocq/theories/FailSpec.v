(** Specification vocabulary for brokers that come and go. *)
From stdpp Require Import gmap list.
From Coq Require Import NArith.
From Verif Require Import IdModel DiscModel DiscSpec HeartModel HeartSpec.

(** At [v] broker [g] runs its heartbeat task, has written a heartbeat, and never failed to twice in a row. *)
Definition beating (hist : N -> list dop) (g : bid) (v : N) : Prop :=
  exists t0 xs, at_most_in_a_row (fun x => written 1000 x <> None) 1 xs
    /\ (forall x, In x xs -> (x_users x < 2 ^ 32)%N)
    /\ (v < loop_end 1000 t0 xs)%N
    /\ beats_in g (hist v) = happened v (beats 1000 g t0 xs) /\ beats_in g (hist v) <> [].
