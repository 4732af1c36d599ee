(** Vocabulary for the in-memory transport. *)
From stdpp Require Import list gmap.
From Coq Require Import NArith.
From Verif Require Import MemModel.

(** At most one connector waits at each listener. *)
Definition alone (s : mem) : Prop :=
  forall i1 i2 l, m_conns s !! i1 = Some (MPending l) -> m_conns s !! i2 = Some (MPending l) -> i1 = i2.

(** A connector that gives up after it has sent its pipe, and an acceptor that serves it. *)
Definition lost_one : list mevent := [MBind 0 0; MDial 0 0; MGiveUp 0; MTake 0 0; MGive 0]%N.
(** Later calls, one after the other: connector [k] calls, then acceptor [k] serves. *)
Definition round (k : N) : list mevent := [MDial k 0; MReceive k; MTake 0 k; MGive k]%N.
Fixpoint rounds (n : nat) : list mevent :=
  match n with O => [] | S m => rounds m ++ round (N.of_nat (S m)) end.
