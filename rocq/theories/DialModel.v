(** Model of the choice of brokers to dial — /repo/cdn-broker/src/tasks/broker/heartbeat.rs
    62-70. Definitions only. *)
From stdpp Require Import gmap.
From Verif Require Import IdModel.

(** heartbeat.rs 64-69: the listed brokers we are not connected to and whose identifier is
    not smaller than ours. *)
Definition dials (self : bid) (others connected : gset bid) : gset bid :=
  filter (fun b => bid_geb b self = true) (others ∖ connected).
