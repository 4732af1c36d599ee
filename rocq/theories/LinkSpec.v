(** Specification vocabulary: what does not end a link between two brokers. *)
From stdpp Require Import gmap list.
From Coq Require Import NArith.
From Verif Require Import IdModel VMapModel ConnModel TopicModel MsgModel RouteModel TaskModel TaskOrder NetModel.

(** Hooks on links refuse no message. *)
Definition hooks_accept (es : list nevent) : Prop := forall a c hk m, In (NDeliver a c hk) es -> hk m <> HErr.

(** Broker [a] was linked to [p] at most once so far. *)
Definition linked_once (a p : bid) (n : net) : Prop :=
  forall h hh c h' hh' c', In (EBrokerAuthed h hh p c) (trace n a) -> In (EBrokerAuthed h' hh' p c') (trace n a) -> h = h'.

Section spec.
Variable deser : bytes -> option message.
Variable dec_users : bytes -> option direct_map.
Variable dec_topics : bytes -> option topic_map.
Variable valid : N -> bool.
(** No connection to [p] breaks at a broker in state [m]: receiving from [p] does not fail, and no message to [p] fails to be sent. *)
Definition unbroken_step (p : bid) (m : machine) (e : event) : Prop :=
  match e with
  | ERecvErr h => forall t c, m_tasks m !! h = Some t -> t_owner t <> OBroker p c
  | ERun h good => forall t c f l, m_tasks m !! h = Some t -> t_acts t = ASendBroker p c f :: l -> good = true
  | _ => True
  end.
(** So it was with every step broker [a] has made. *)
Definition unbroken (a p : bid) (n : net) : Prop :=
  forall es1 e es2, trace n a = es1 ++ e :: es2 -> unbroken_step p (m_run deser dec_users dec_topics valid a es1) e.
End spec.
