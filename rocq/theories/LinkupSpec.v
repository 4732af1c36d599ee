(** Specification vocabulary: two brokers, with any past, link up and exchange their lists of
    users and the updates that follow. *)
From stdpp Require Import gmap list.
From Coq Require Import NArith.
From Verif Require Import IdModel VMapModel ConnModel.

(** A broker is sent a list of users, or nothing (tasks/broker/handler.rs 163-173;
    tasks/broker/sync.rs 49-63, 70-87: an empty list is not sent). *)
Definition told (s : conns) (m : option direct_map) : conns :=
  match m with Some m => c_apply_user_sync s m | None => s end.

(** Each sends the other its full list (tasks/broker/handler.rs 110-118) and reads the other's;
    each then sends what has changed by that (tasks/broker/sync.rs 70-87, 129-145) and reads the
    other's changes. *)
Definition link_up (a b : conns) : conns * conns :=
  let '(a1, da) := c_get_partial_user_sync (told a (c_get_full_user_sync b)) in
  let '(b1, db) := c_get_partial_user_sync (told b (c_get_full_user_sync a)) in
  (told a1 db, told b1 da).

(** What a broker has on record about a user: a version number and a broker. *)
Definition on_file (s : conns) (v : ukey) : option (vval bid) := entries (direct s) !! v.

(** No version number on record is about to wrap around. *)
Definition no_wrap (s : conns) : Prop := forall v e, on_file s v = Some e -> (ver e + 1 < u64_modulus)%N.

(** What [a] has on record about [v] overrules what [b] has: it has the higher version number,
    or the same and [a] the greater identity. *)
Definition overrules (a b : conns) (v : ukey) : Prop :=
  exists ea eb, on_file a v = Some ea /\ on_file b v = Some eb
    /\ (ver eb < ver ea \/ ver eb = ver ea /\ bid_gtb (identity a) (identity b) = true)%N.
