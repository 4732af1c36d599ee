(** Model of topic validation — /repo/cdn-proto/src/def.rs 31-50. Definitions only.
    [valid] models [Self::try_from(topic).is_ok()]. *)
From Coq Require Import List NArith.
Import ListNotations.

(** A topic is a [u8]: /repo/cdn-proto/src/message.rs, [pub type Topic = u8]. *)
Notation topic := N (only parsing).

(** [Vec::dedup]: drop an element equal to its (kept) predecessor. *)
Fixpoint dedup (l : list N) : list N :=
  match l with
  | [] => []
  | x :: l' =>
      match l' with
      | [] => [x]
      | y :: _ => if N.eqb x y then dedup l' else x :: dedup l'
      end
  end.

(** def.rs 36-49: [prune]. The vector is modified in place even when an error is
    returned (it is then empty), so both are returned: the pruned list, and whether the
    call succeeded. *)
Definition prune (valid : N -> bool) (topics : list N) : list N * bool :=
  let t := filter valid (dedup topics) in
  (t, match t with [] => false | _ => true end).
