(** Specification vocabulary: what a broker is done with while everything else goes on. *)
From stdpp Require Import gmap list.
From Coq Require Import NArith.
From Verif Require Import IdModel VMapModel ConnModel TopicModel MsgModel RouteModel TaskModel TaskOrder NetModel NetProofs.

(** The action tells broker [a] where user [v] is, or ends the connection to [a]. *)
Definition tells_user (a : bid) (v : ukey) (x : act) : Prop :=
  match x with
  | ASendBroker p _ (FUserSync d) | ALookupBroker p (FUserSync d) => p = a /\ is_Some (entries d !! v)
  | ASendBrokers (FUserSync d) => is_Some (entries d !! v)
  | AFullUserSync p | ARemoveBroker p => p = a
  | _ => False
  end.
(** The action tells broker [a] whether topic [t] is needed, or ends the connection to [a]. *)
Definition tells_topic (a : bid) (t : N) (x : act) : Prop :=
  match x with
  | ASendBroker p _ (FTopicSync d) | ALookupBroker p (FTopicSync d) => p = a /\ is_Some (entries d !! t)
  | ASendBrokers (FTopicSync d) => is_Some (entries d !! t)
  | AFullTopicSync p | ARemoveBroker p => p = a
  | _ => False
  end.

Section spec.
Variable deser : bytes -> option message.
Variable dec_users : bytes -> option direct_map.
Variable dec_topics : bytes -> option topic_map.
Variable valid : N -> bool.
Notation broker_at := (broker_at deser dec_users dec_topics valid).
Notation conns_at n b := (m_conns (broker_at n b)).
Notation tasks_at n b := (m_tasks (broker_at n b)).

(** Broker [b] is done telling [a] where [v] is: [v] is not in the next announcement, and no task of [b] has still to tell it. *)
Definition user_told (n : net) (b a : bid) (v : ukey) : Prop :=
  (forall d, (c_get_partial_user_sync (conns_at n b)).2 = Some d -> entries d !! v = None)
  /\ forall h t x, tasks_at n b !! h = Some t -> In x (t_acts t) -> ~ tells_user a v x.
(** The same for a topic. *)
Definition topic_told (n : net) (b a : bid) (t : N) : Prop :=
  (forall d, (c_get_partial_topic_sync (conns_at n b)).2 = Some d -> entries d !! t = None)
  /\ forall h tk x, tasks_at n b !! h = Some tk -> In x (t_acts tk) -> ~ tells_topic a t x.

(** Loop [h] of broker [b] is done with the first [k] frames on its connection. *)
Definition done_with (n : net) (b : bid) (h : N) (k : nat) : Prop :=
  exists t, tasks_at n b !! h = Some t /\ (k < t_frames t \/ k = t_frames t /\ t_acts t = []).
(** Broker [b], whose loop [h] reads what [a] sends on [c], is done with all that [a] had sent at the earlier moment [n]. *)
Definition caught_up (n n' : net) (a : bid) (c : N) (b : bid) (h : N) : Prop :=
  done_with n' b h (length (sent_on (broker_at n a) c)).

(** [a] and [b] are linked: [a] sends on [ca] and reads in loop [ha], [b] sends on [cb] and reads in [hb]. *)
Definition tied (n : net) (a : bid) (ca ha : N) (b : bid) (cb hb : N) : Prop :=
  c_get_broker_connection (conns_at n a) b = Some ca /\ loop_of deser dec_users dec_topics valid n a ha (OBroker b ca)
  /\ c_get_broker_connection (conns_at n b) a = Some cb /\ loop_of deser dec_users dec_topics valid n b hb (OBroker a cb)
  /\ n_links n !! (a, ca) = Some (b, hb) /\ n_links n !! (b, cb) = Some (a, ha).
End spec.
