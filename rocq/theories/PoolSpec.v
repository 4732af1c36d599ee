(** Vocabulary for the memory pool: sums over messages in existence, and counts of what the
    users of messages did. *)
From stdpp Require Import list gmap.
From Coq Require Import NArith.
From Verif Require Import PoolModel.

(** Bytes held by the messages in existence. *)
Definition held (m : gmap nat (N * nat)) : N :=
  map_fold (fun _ v a => (v.1 + a)%N) 0%N m.

(** The sizes asked for in a history. *)
Definition asked (os : list pop) : list N :=
  omap (fun o => match o with PAlloc _ n => Some n | _ => None end) os.

(** How often a message was cloned, and how often a copy of it was dropped. *)
Definition clones (id : nat) (os : list pop) : nat :=
  length (List.filter (fun o => match o with PClone j => j =? id | _ => false end) os).
Definition drops (id : nat) (os : list pop) : nat :=
  length (List.filter (fun o => match o with PDrop j => j =? id | _ => false end) os).
