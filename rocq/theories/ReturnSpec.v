(** Specification vocabulary: users that come back to their broker again and again. *)
From stdpp Require Import gmap list.
From Coq Require Import NArith.
From Verif Require Import IdModel VMapModel ConnModel TopicModel MsgModel RouteModel TaskModel TaskOrder NetModel.

(** User [v] was admitted, any number of times, at broker [b] only. *)
Definition admitted_at (v : ukey) (b : bid) (n : net) : Prop :=
  forall x h hh c ts, In (EUserAuthed h hh v c ts) (trace n x) -> x = b.

(** [d] says that [v] has gone; the frame an action is going to send. *)
Definition says_gone (v : ukey) (d : direct_map) : Prop := exists k, entries d !! v = Some (VVal k None).
Definition to_send (a : act) : option frame :=
  match a with ASendBroker _ _ f | ALookupBroker _ f | ASendBrokers f | ALookupUser _ f | ASendUser _ _ f => Some f | _ => None end.
(** The action draws up a list of users for other brokers. *)
Definition draws_up (a : act) : Prop := match a with APartialUserSync | AFullUserSync _ => True | _ => False end.

Section spec.
Variable deser : bytes -> option message.
Variable dec_users : bytes -> option direct_map.
Variable dec_topics : bytes -> option topic_map.
Variable valid : N -> bool.

(** Some task of the broker is still sending a list which says that [v] has gone. *)
Definition sending_gone (v : ukey) (m : machine) : Prop :=
  exists h t y d, m_tasks m !! h = Some t /\ In y (t_acts t) /\ to_send y = Some (FUserSync d) /\ says_gone v d.

(** Broker [b] never drew up a list of users while an older list which says that [v] has gone
    was still being sent. *)
Definition not_overtaken (v : ukey) (b : bid) (n : net) : Prop :=
  forall es1 h good es2 o y l op k, trace n b = es1 ++ ERun h good :: es2 ->
    let m := m_run deser dec_users dec_topics valid b es1 in
    m_tasks m !! h = Some (Task o (y :: l) op k) -> draws_up y -> ~ sending_gone v m.

(** At broker [a], receive loops of connections with [b] that were told to stop did nothing more. *)
Definition stops_when_told (a b : bid) (n : net) : Prop :=
  forall es1 h good es2 t c, trace n a = es1 ++ ERun h good :: es2 ->
    let m := m_run deser dec_users dec_topics valid a es1 in
    m_tasks m !! h = Some t -> t_owner t = OBroker b c -> ~ In h (aborted (m_conns m)).
End spec.
