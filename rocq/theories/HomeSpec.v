(** Specification vocabulary: users that log in at several brokers, in whatever order. *)
From stdpp Require Import gmap list.
From Coq Require Import NArith.
From Verif Require Import IdModel VMapModel ConnModel TopicModel MsgModel RouteModel TaskModel TaskOrder NetModel NetProofs NetComplete NetSettle MoveSpec.

Section spec.
Variable deser : bytes -> option message.
Variable dec_users : bytes -> option direct_map.
Variable dec_topics : bytes -> option topic_map.
Variable valid : N -> bool.
Notation m_run := (m_run deser dec_users dec_topics valid).
Notation broker_at := (broker_at deser dec_users dec_topics valid).

(** Once a broker could say where [v] is, it always could (be it right or wrong). *)
Definition never_lost (v : ukey) (n : net) : Prop :=
  forall x l l', l `prefix_of` l' -> l' `prefix_of` trace n x ->
    c_get_broker_identifier_of_user (m_conns (m_run x l)) v <> None -> c_get_broker_identifier_of_user (m_conns (m_run x l')) v <> None.

(** No version number about [v] came near 2^64. *)
Definition below_wrap (v : ukey) (n : net) : Prop :=
  forall x l e, l `prefix_of` trace n x -> entries (direct (m_conns (m_run x l))) !! v = Some e -> (ver e + 1 < u64_modulus)%N.

(** Broker [x] has no news about users that it has not announced. *)
Definition all_announced (n : net) (x : bid) : Prop := (c_get_partial_user_sync (m_conns (broker_at n x))).2 = None.
End spec.
