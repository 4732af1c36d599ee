(** Specification of the subscription index, independent of the model: who is subscribed
    to what is decided by reading the history of calls from the end. *)
From stdpp Require Import gmap.
From Verif Require Import RelMapModel.

Section spec.
Context {K V : Type} `{Countable K} `{Countable V}.

(** [subscribed os k v]: scanning the history [os] (newest call FIRST), the most recent
    call that concerns [k] and [v] is an association. *)
Fixpoint subscribed_rev (os : list (rm_op K V)) (k : K) (v : V) : Prop :=
  match os with
  | [] => False
  | RAssociate k' vs :: os' => (k' = k /\ In v vs) \/ subscribed_rev os' k v
  | RDissociate k' vs :: os' => ~ (k' = k /\ In v vs) /\ subscribed_rev os' k v
  | RRemoveKey k' :: os' => k' <> k /\ subscribed_rev os' k v
  end.

Definition subscribed (os : list (rm_op K V)) (k : K) (v : V) : Prop :=
  subscribed_rev (rev os) k v.
End spec.
