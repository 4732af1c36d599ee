(** Specification vocabulary: brokers that take on a user whose place they know. *)
From stdpp Require Import gmap list.
From Coq Require Import NArith.
From Verif Require Import IdModel VMapModel ConnModel TopicModel MsgModel RouteModel TaskModel TaskOrder NetModel NetProofs NetComplete NetSettle MoveSpec.

Section spec.
Variable deser : bytes -> option message.
Variable dec_users : bytes -> option direct_map.
Variable dec_topics : bytes -> option topic_map.
Variable valid : N -> bool.
Variable enc_users : direct_map -> bytes.
Variable enc_topics : topic_map -> bytes.
Notation n_run := (n_run deser dec_users dec_topics valid enc_users enc_topics).
Notation record_at := (record_at deser dec_users dec_topics valid).

(** From [n] to [n'] broker [b] took [v] on: what it has on record about [v] changed and names [b]. *)
Definition takes_on (v : ukey) (b : bid) (n n' : net) : Prop :=
  exists e, record_at v n' b = Some e /\ val e = Some b /\ record_at v n b <> Some e.

(** Whenever a broker took [v] on, no broker had anything newer about [v] on record than that broker. *)
Definition informed (v : ukey) (es : list nevent) : Prop :=
  forall p e, p ++ [e] `prefix_of` es -> forall b, takes_on v b (n_run p) (n_run (p ++ [e])) ->
  forall z r, record_at v (n_run p) z = Some r -> exists r', record_at v (n_run p) b = Some r' /\ (ver r <= ver r')%N.
End spec.
