(** Vocabulary of C89, over the model of the heartbeat task in time (PaceModel.v). *)
From stdpp Require Import gmap list.
From Coq Require Import NArith.
From Verif Require Import IdModel VMapModel ConnModel TopicModel MsgModel RouteModel TaskModel TaskOrder NetModel NetSettle LinkSpec ClockModel PaceModel.

Section spec.
Variable deser : bytes -> option message.
Variable dec_users : bytes -> option direct_map.
Variable dec_topics : bytes -> option topic_map.
Variable valid : N -> bool.
Variable enc_users : direct_map -> bytes.
Variable enc_topics : topic_map -> bytes.
Variable delay limit : N.
Notation n_run := (n_run deser dec_users dec_topics valid enc_users enc_topics).
Notation clock_run := (clock_run deser dec_users dec_topics valid enc_users enc_topics delay).
Notation pace_run := (pace_run deser dec_users dec_topics valid enc_users enc_topics delay limit).
Notation events ps := (ck_events (clock_run (pa_hist (pace_run ps)))).

(** [x] is the one of the two that dials, its heartbeat task runs at [ps1]; during [l] discovery answers
    it and names [y], and no dial of [y] fails. *)
Definition keeps_dialling (ps1 l : list pevent) (x y : bid) : Prop :=
  bid_gtb x y = false /\ pa_beat (pace_run ps1) !! x <> None /\ ~ In (PRetry x) l
  /\ (forall others, In (PList x others) l -> y ∈ others) /\ (forall t, ~ In (PFail x y t) l).

(** No hook refuses a message, and nothing that [a] and [b] send each other has failed. *)
Definition nothing_breaks (ps : list pevent) (a b : bid) : Prop :=
  hooks_pass (events ps) /\ hooks_accept (events ps)
  /\ unbroken deser dec_users dec_topics valid a b (n_run (events ps)) /\ unbroken deser dec_users dec_topics valid b a (n_run (events ps)).
End spec.
