(** Specification vocabulary: users that move from one broker to another. *)
From stdpp Require Import gmap list.
From Coq Require Import NArith.
From Verif Require Import IdModel VMapModel ConnModel TopicModel MsgModel RouteModel TaskModel TaskOrder NetModel NetProofs NetComplete NetSettle.

(** After [n0] (of which [n] is a continuation) user [v] was admitted at broker [b] only, and
    there at most once. *)
Definition moved_to (v : ukey) (b : bid) (n0 n : net) : Prop :=
  forall x i h hh c ts, trace n x !! i = Some (EUserAuthed h hh v c ts) -> length (trace n0 x) <= i ->
    x = b /\ forall j h' hh' c' ts', trace n b !! j = Some (EUserAuthed h' hh' v c' ts') -> length (trace n0 b) <= j -> j = i.

Section spec.
Variable deser : bytes -> option message.
Variable dec_users : bytes -> option direct_map.
Variable dec_topics : bytes -> option topic_map.
Variable valid : N -> bool.
Variable enc_users : direct_map -> bytes.
Variable enc_topics : topic_map -> bytes.
Notation broker_at := (broker_at deser dec_users dec_topics valid).
Notation n_run := (n_run deser dec_users dec_topics valid enc_users enc_topics).

(** What broker [x] has on record about user [v]: a version number and a broker (or the note
    that [v] has gone). *)
Definition record_at (v : ukey) (n : net) (x : bid) : option (vval bid) := entries (direct (m_conns (broker_at n x))) !! v.

(** Every broker that has something on record about [v] has the same, namely [r]. *)
Definition on_record (v : ukey) (r : option (N * bid)) (n : net) : Prop :=
  forall x e, record_at v n x = Some e -> exists k b, r = Some (k, b) /\ e = VVal k (Some b).

(** From [es0] to [es], broker [b0] kept its connection with [v] until it knew [v] to be at [b]. *)
Definition kept_until_heard (v : ukey) (b0 b : bid) (es0 es : list nevent) : Prop :=
  forall p, es0 `prefix_of` p -> p `prefix_of` es -> let s := m_conns (broker_at (n_run p) b0) in
    (exists c, c_get_user_connection s v = Some c) \/ c_get_broker_identifier_of_user s v = Some b.

(** At broker [b] all went well after [n0]: no connection of a user or broker failed or was closed
    by the other end, nobody was thrown out, and every send succeeded. *)
Definition untroubled (b : bid) (n0 n : net) : Prop :=
  Forall (fun e => match e with ERecvErr _ | EKick _ _ | ERun _ false => False | _ => True end) (drop (length (trace n0 b)) (trace n b)).

(** Nothing is under way; [v] is connected to [b], which has no changes left to announce; and
    every other broker that has [v] on record shares a link with [b]. *)
Definition settled_with (v : ukey) (b : bid) (n : net) : Prop :=
  at_rest deser dec_users dec_topics valid n
  /\ (exists c, c_get_user_connection (m_conns (broker_at n b)) v = Some c)
  /\ (c_get_partial_user_sync (m_conns (broker_at n b))).2 = None
  /\ forall x, x = b \/ joined deser dec_users dec_topics valid n x b \/ record_at v n x = None.

(** [v], unknown at first, came to a broker and then moved from broker to broker; the network came
    to rest after each move, the broker moved to had heard where [v] was before and had nothing
    to announce, and the broker left kept its connection until it had heard. [travels v es k b]:
    this happened in [es], with [k] brokers visited, the last of them [b]. *)
Inductive travels (v : ukey) : list nevent -> N -> bid -> Prop :=
  | t_comes es0 es b :
      es0 `prefix_of` es -> at_rest deser dec_users dec_topics valid (n_run es0) -> (forall x, record_at v (n_run es0) x = None) ->
      (c_get_partial_user_sync (m_conns (broker_at (n_run es0) b))).2 = None ->
      moved_to v b (n_run es0) (n_run es) -> settled_with v b (n_run es) -> travels v es 1 b
  | t_moves es0 k b0 es b :
      travels v es0 k b0 -> es0 `prefix_of` es -> b <> b0 -> joined deser dec_users dec_topics valid (n_run es0) b b0 ->
      (c_get_partial_user_sync (m_conns (broker_at (n_run es0) b))).2 = None ->
      kept_until_heard v b0 b es0 es -> moved_to v b (n_run es0) (n_run es) -> settled_with v b (n_run es) -> travels v es (k + 1) b.
End spec.
