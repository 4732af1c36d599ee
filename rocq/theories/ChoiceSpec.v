(** Specification vocabulary: queries that are made one after the other. *)
From stdpp Require Import gmap list.
From Coq Require Import NArith.
From Verif Require Import IdModel DecModel DiscModel DiscSpec ChoiceModel.

(** No clock reading is from the future. *)
Definition timely (v : view) : Prop := List.Forall (fun u => (u <= v.2)%N) (times v.1).
(** Between [v], at which the statements [o] were executed, and [v'] others may have done anything. *)
Definition next_view (o : list dop) (v v' : view) : Prop :=
  exists mid, v'.1 = v.1 ++ o ++ mid /\ (v.2 <= v'.2)%N /\ List.Forall (fun u => (v.2 <= u <= v'.2)%N) (times mid).
(** What the query numbered [k] does to the SQLite data base at time [t]: embedded.rs 136-140 (first),
    157-161 (every second one of the others). *)
Definition e_effect (k : nat) (t : N) : list dop :=
  match k with O => [DPruneBrokers t] | _ => if Nat.even k then [DPrune t] else [] end.
Definition e_timeline (vs : nat -> option view) : Prop :=
  (forall k v, vs k = Some v -> timely v)
  /\ forall k v v', vs k = Some v -> vs (S k) = Some v' -> next_view (e_effect k v.2) v v'.
(** Any order of the elements. *)
Definition some_order (ord : forall A : Type, list A -> list A) : Prop := forall A l, Permutation (ord A l) l.
(** The permits of [b] that could be redeemed when they were counted, less those that had expired at
    the clean-up just before. *)
Definition waiting (vs : nat -> option view) (b : bid) (S : gset N) : Prop :=
  exists k os t, 2 <= k /\ vs k = Some (os, t) /\ exists u, (exists os0, vs (pred k) = Some (os0, u)) /\ outstanding false os u (bid_print b) S.
(** Nothing but time and other processes comes between the queries made of Redis. *)
Definition r_timeline (vs : nat -> option view) : Prop :=
  (forall k v, vs k = Some v -> timely v) /\ forall k v v', vs k = Some v -> vs (S k) = Some v' -> next_view [] v v'.
