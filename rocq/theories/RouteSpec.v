(** Specification of routing interest: what a peer broker has advertised, from the history
    of calls (newest call FIRST in the [_rev] function). *)
From stdpp Require Import gmap.
From Coq Require Import NArith.
From Verif Require Import IdModel RelMapModel VMapModel VMapSpec ConnModel ConnSpec.

(** The last word received from broker [b] about topic [t] on its current connection:
    last-writer-wins over the topic syncs applied since the connection was registered.
    Syncs that arrive while [b] is not registered count for nothing. *)
Fixpoint peer_word_rev (os : list conn_op) (b : bid) (t : N) : option (vval sub_status) :=
  match os with
  | [] => None
  | CAddBroker b' _ _ :: os' => if decide (b' = b) then None else peer_word_rev os' b t
  | CRemoveBroker b' :: os' => if decide (b' = b) then None else peer_word_rev os' b t
  | CApplyTopicSync b' m :: os' =>
      if decide (b' = b /\ current_broker_rev os' b <> None)
      then lww u32_gtb (cid m) 0%N (peer_word_rev os' b t) (entries m !! t)
      else peer_word_rev os' b t
  | _ :: os' => peer_word_rev os' b t
  end.
Definition peer_word os b t := peer_word_rev (rev os) b t.

(** Broker [b] has advertised topic [t]. *)
Definition advertised (os : list conn_op) (b : bid) (t : N) : Prop :=
  exists v, peer_word os b t = Some (VVal v (Some Subscribed)).
