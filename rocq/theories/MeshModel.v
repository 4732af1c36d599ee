(** Model of the heartbeat tasks of a network of brokers and of the dials they start —
    /repo/cdn-broker/src/tasks/broker/heartbeat.rs 62-105 — over the network of NetModel.v.
    Definitions only.

    A round of the heartbeat task at broker [a] starts one task per broker it dials (87-105).
    Such a task connects and authenticates, and either gives up or ends in a link (the event
    [NUp] of NetModel.v). It may be under way for any time; the rounds do not wait for it.

    Simplifications: the listing is an argument (its contents are the subject of C55 and C68);
    a dial of [b] reaches [b] if it reaches anybody. *)
From stdpp Require Import gmap list.
From Coq Require Import NArith.
From Verif Require Import IdModel VMapModel ConnModel TopicModel MsgModel RouteModel TaskModel TaskOrder NetModel DialModel.

(** [me_events]: what has happened in the network; [me_dialing]: the dials under way. *)
Record mesh := Mesh { me_events : list nevent; me_dialing : list (bid * bid) }.

Inductive mevent :=
  (* heartbeat.rs 62-105: broker [a] is given the list [others] *)
  | MBeat (a : bid) (others : gset bid)
  (* a dial of [b] by [a] succeeds (heartbeat.rs 89-104, broker/handler.rs 31-67) *)
  | MDial (a : bid) (ha hha ca : N) (b : bid) (hb hhb cb : N)
  (* a dial of [b] by [a] fails (heartbeat.rs 96-99, broker/handler.rs 57-66) *)
  | MFail (a b : bid)
  (* anything else in the network *)
  | MNet (e : nevent).

Section mesh.
Variable deser : bytes -> option message.
Variable dec_users : bytes -> option direct_map.
Variable dec_topics : bytes -> option topic_map.
Variable valid : N -> bool.
Variable enc_users : direct_map -> bytes.
Variable enc_topics : topic_map -> bytes.
Notation n_run := (n_run deser dec_users dec_topics valid enc_users enc_topics).
Notation broker_at := (broker_at deser dec_users dec_topics valid).
Notation fresh_pair := (fresh_pair deser dec_users dec_topics valid).

(** One dial of the pair is no longer under way. *)
Fixpoint one_less (x : bid * bid) (l : list (bid * bid)) : list (bid * bid) :=
  match l with [] => [] | y :: l' => if decide (y = x) then l' else y :: one_less x l' end.

(** connections/mod.rs 241-243: the brokers a broker is connected to. *)
Definition connected_to (m : machine) : gset bid := dom (brokers (m_conns m)).

(** One event; an event that is not possible leaves the state unchanged. *)
Definition mesh_step (s : mesh) (e : mevent) : mesh :=
  let n := n_run (me_events s) in
  match e with
  | MBeat a others =>
      Mesh (me_events s) (me_dialing s ++ map (fun b => (a, b)) (elements (dials a others (connected_to (broker_at n a)))))
  | MDial a ha hha ca b hb hhb cb =>
      if decide ((a, b) ∈ me_dialing s /\ a <> b /\ fresh_pair n a ha hha ca /\ fresh_pair n b hb hhb cb) then
        Mesh (me_events s ++ [NUp a ha hha ca b hb hhb cb]) (one_less (a, b) (me_dialing s))
      else s
  | MFail a b => Mesh (me_events s) (one_less (a, b) (me_dialing s))
  | MNet (NUp _ _ _ _ _ _ _ _) => s
  | MNet e => Mesh (me_events s ++ [e]) (me_dialing s)
  end.

(** From a network with history [es0] in which no dial is under way. *)
Definition mesh_run (es0 : list nevent) (ms : list mevent) : mesh := fold_left mesh_step ms (Mesh es0 []).
End mesh.
