(** What topic synchronisation should achieve, stated over the messages a broker sends. *)
From stdpp Require Import gmap.
From Coq Require Import NArith.
From Verif Require Import IdModel RelMapModel VMapModel ConnModel ConnSpec.

(** The partial topic syncs sent while the operations [os] run from state [s], oldest first. *)
Fixpoint topic_deltas (s : conns) (os : list conn_op) : list topic_map :=
  match os with
  | [] => []
  | o :: os' =>
      match o with
      | CPartialTopicSync => option_list (c_get_partial_topic_sync s).2
      | _ => []
      end ++ topic_deltas (c_step s o) os'
  end.

(** The last status announced for topic [t] in a list of messages. *)
Definition last_said (ms : list topic_map) (t : N) : option sub_status :=
  fold_left (fun acc m => match entries m !! t with Some e => val e | None => acc end) ms None.

(** Topic [t] is advertised by broker [i] after [os]: its last announcement of it was
    [Subscribed]. *)
Definition advertised (i : bid) (os : list conn_op) (t : N) : Prop :=
  last_said (topic_deltas (c_new i) os) t = Some Subscribed.

(** Some user is subscribed to [t] at broker [i]. *)
Definition has_subscriber (i : bid) (os : list conn_op) (t : N) : Prop :=
  exists u, user_topic i os u t.

(** Every topic sync message broker [i] may have sent during [os]: a delta, or a full copy
    taken at any moment. *)
Definition topic_sent (i : bid) (os : list conn_op) (m : topic_map) : Prop :=
  In m (topic_deltas (c_new i) os)
  \/ exists o1 o2, os = o1 ++ o2 /\ c_get_full_topic_sync (c_run i o1) = Some m.

(** The number of partial topic syncs computed. *)
Definition is_topic_round (o : conn_op) : bool := match o with CPartialTopicSync => true | _ => false end.
Definition topic_rounds (os : list conn_op) : N := N.of_nat (length (List.filter is_topic_round os)).

(** Does this operation replace or drop the link to broker [b]? *)
Definition relinks (b : bid) (o : conn_op) : Prop :=
  match o with CAddBroker b' _ _ | CRemoveBroker b' => b' = b | _ => False end.
