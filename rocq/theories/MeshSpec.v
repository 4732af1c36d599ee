(** Specification vocabulary: brokers that find each other. *)
From stdpp Require Import gmap list.
From Coq Require Import NArith.
From Verif Require Import IdModel VMapModel ConnModel TopicModel MsgModel RouteModel TaskModel TaskOrder NetModel NetSettle NetSettleAll LinkSpec MeshModel.

(** How many links between the two were made. *)
Definition is_link (a b : bid) (e : nevent) : bool :=
  match e with
  | NUp x _ _ _ y _ _ _ => bool_decide (x = a /\ y = b \/ x = b /\ y = a)
  | _ => false
  end.
Definition links_made (a b : bid) (es : list nevent) : nat := length (List.filter (is_link a b) es).

Section spec.
Variable deser : bytes -> option message.
Variable dec_users : bytes -> option direct_map.
Variable dec_topics : bytes -> option topic_map.
Variable valid : N -> bool.
Variable enc_users : direct_map -> bytes.
Variable enc_topics : topic_map -> bytes.
Notation n_run := (n_run deser dec_users dec_topics valid enc_users enc_topics).
Notation broker_at := (broker_at deser dec_users dec_topics valid).
Notation mesh_run := (mesh_run deser dec_users dec_topics valid enc_users enc_topics).

(** No task of broker [a] has anything left to do. *)
Definition idle_at (n : net) (a : bid) : Prop := forall h t, m_tasks (broker_at n a) !! h = Some t -> t_acts t = [].
(** Neither of the two is connected to the other. *)
Definition unlinked (n : net) (a b : bid) : Prop :=
  c_get_broker_connection (m_conns (broker_at n a)) b = None /\ c_get_broker_connection (m_conns (broker_at n b)) a = None.
(** Since [n0], no connection to [p] broke at [a]. *)
Definition unbroken_since (a p : bid) (n0 n : net) : Prop :=
  forall es1 e es2, trace n a = trace n0 a ++ es1 ++ e :: es2 -> unbroken_step p (m_run deser dec_users dec_topics valid a (trace n0 a ++ es1)) e.
(** Whenever [a] began a round, no dial of [b] by [a] was under way and no connection of [a] with [b] still to be registered. *)
Definition prompt_rounds (es0 : list nevent) (ms : list mevent) (a b : bid) : Prop :=
  forall ms1 others ms2, ms = ms1 ++ MBeat a others :: ms2 -> let s := mesh_run es0 ms1 in
    (a, b) ∉ me_dialing s
    /\ forall h t c h', m_tasks (broker_at (n_run (me_events s)) a) !! h = Some t -> ~ In (AAddBroker b c h') (t_acts t).
(** [a] took part in a round with a list that names [b]. *)
Definition listed (ms : list mevent) (a b : bid) : Prop := exists others, In (MBeat a others) ms /\ b ∈ others.

(** What it takes for brokers [a] and [b] to be linked, from [es0] on: at the outset the two have
    nothing to do and are linked with each other or not linked at all; no connection between them
    breaks; the one of the two that dials begins no round while a dial of the other is under way
    or a link with it is still to be registered; no such dial fails; unless they are linked at
    the outset, it took part in a round with a list that names the other; and none of its dials
    of the other is still under way. *)
Definition get_to_know (es0 : list nevent) (ms : list mevent) (a b : bid) : Prop :=
  let n0 := n_run es0 in let s := mesh_run es0 ms in let n := n_run (me_events s) in
  let linked := joined deser dec_users dec_topics valid n0 a b in
  idle_at n0 a /\ idle_at n0 b /\ (linked \/ unlinked n0 a b)
  /\ unbroken_since a b n0 n /\ unbroken_since b a n0 n
  /\ exists x y, ((x, y) = (a, b) \/ (x, y) = (b, a)) /\ bid_gtb x y = false
       /\ prompt_rounds es0 ms x y /\ ~ In (MFail x y) ms /\ (linked \/ listed ms x y) /\ (x, y) ∉ me_dialing s.
End spec.
