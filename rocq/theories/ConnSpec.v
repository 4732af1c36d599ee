(** Specification of the broker's connection table in terms of the history of operations
    (newest operation FIRST in the [_rev] functions). *)
From stdpp Require Import gmap.
From Coq Require Import NArith.
From Verif Require Import IdModel RelMapModel VMapModel VMapSpec ConnModel.

(** Did this sync announce, for user [u], something that overrides entry [l] held by the
    broker with identity [i]? *)
Definition sync_overrides (i : bid) (m : direct_map) (u : ukey) (l : option (vval bid)) : Prop :=
  match entries m !! u with
  | Some rv => remote_wins bid_gtb (cid m) i l rv
  | None => False
  end.
Global Instance sync_overrides_dec i m u l : Decision (sync_overrides i m u l).
Proof. unfold sync_overrides. destruct (entries m !! u); apply _. Defined.

(** The connection (and task) of user [u]: the one added last, unless removed since, or
    overridden by a sync. *)
Fixpoint current_user_rev (i : bid) (os : list conn_op) (u : ukey) : option (N * N) :=
  match os with
  | [] => None
  | CAddUser u' c _ h :: os' => if decide (u' = u) then Some (c, h) else current_user_rev i os' u
  | CRemoveUser u' :: os' => if decide (u' = u) then None else current_user_rev i os' u
  | CApplyUserSync m :: os' =>
      if decide (sync_overrides i m u (entries (direct (c_run i (rev os'))) !! u))
      then None else current_user_rev i os' u
  | _ :: os' => current_user_rev i os' u
  end.
Definition current_user i os u := current_user_rev i (rev os) u.

(** The connection (and task) of broker [b]: the one added last unless removed since. *)
Fixpoint current_broker_rev (os : list conn_op) (b : bid) : option (N * N) :=
  match os with
  | [] => None
  | CAddBroker b' c h :: os' => if decide (b' = b) then Some (c, h) else current_broker_rev os' b
  | CRemoveBroker b' :: os' => if decide (b' = b) then None else current_broker_rev os' b
  | _ :: os' => current_broker_rev os' b
  end.
Definition current_broker os b := current_broker_rev (rev os) b.

(** The task handles handed to the broker state, in order. *)
Definition op_handles (o : conn_op) : list N :=
  match o with CAddUser _ _ _ h | CAddBroker _ _ h => [h] | _ => [] end.
Definition added_handles (os : list conn_op) : list N := concat (map op_handles os).

(** The task handles of the registered connections. *)
Definition live_handles (s : conns) : list N :=
  map (fun p => p.2.2) (map_to_list (users s)) ++ map (fun p => be_handle p.2) (map_to_list (brokers s)).

(** Who is subscribed to what at this broker, from the history. *)
Fixpoint user_topic_rev (i : bid) (os : list conn_op) (u : ukey) (t : N) : Prop :=
  match os with
  | [] => False
  | CAddUser u' _ ts _ :: os' => if decide (u' = u) then In t ts else user_topic_rev i os' u t
  | CSubscribeUser u' ts :: os' => (u' = u /\ In t ts) \/ user_topic_rev i os' u t
  | CUnsubscribeUser u' ts :: os' => ~ (u' = u /\ In t ts) /\ user_topic_rev i os' u t
  | CRemoveUser u' :: os' => u' <> u /\ user_topic_rev i os' u t
  | CApplyUserSync m :: os' =>
      ~ sync_overrides i m u (entries (direct (c_run i (rev os'))) !! u) /\ user_topic_rev i os' u t
  | _ :: os' => user_topic_rev i os' u t
  end.
Definition user_topic i os u t := user_topic_rev i (rev os) u t.
