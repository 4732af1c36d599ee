(** Model of [RelationalMap] — /repo/cdn-broker/src/connections/broadcast/relational_map.rs.
    Executable definitions only; proofs are in RelMapProofs.v.

    Simplifications: [HashMap]/[HashSet] are finite maps/sets ([gmap]/[gset]); the
    unspecified iteration order of the Rust containers is the order of [elements], and
    every theorem about a returned vector is about membership and absence of
    repetitions only. *)
From stdpp Require Import gmap fin_maps fin_sets.

Section relmap.
Context {K V : Type} `{Countable K} `{Countable V}.

(** relational_map.rs 14-17: the two redundant indexes. *)
Record relmap := RelMap {
  key_to_values : gmap K (gset V);
  value_to_keys : gmap V (gset K);
}.

(** relational_map.rs 20-35: [default] / [new]. *)
Definition rm_new : relmap := RelMap ∅ ∅.

(** relational_map.rs 39-47: [get_keys_by_value]. *)
Definition rm_get_keys_by_value (m : relmap) (v : V) : list K :=
  elements (default ∅ (value_to_keys m !! v)).

(** relational_map.rs 51-54: [get_values] (the keys of the reverse index). *)
Definition rm_get_values (m : relmap) : list V :=
  elements (dom (value_to_keys m)).

(** relational_map.rs 65-67: one iteration of the loop of [associate_key_with_values]. *)
Definition rm_assoc_one (k : K) (vk : gmap V (gset K)) (v : V) : gmap V (gset K) :=
  <[v := {[k]} ∪ default ∅ (vk !! v)]> vk.

(** relational_map.rs 57-68: [associate_key_with_values]. *)
Definition rm_associate (m : relmap) (k : K) (vs : list V) : relmap :=
  RelMap
    (<[k := default ∅ (key_to_values m !! k) ∪ list_to_set vs]> (key_to_values m))
    (fold_left (rm_assoc_one k) vs (value_to_keys m)).

(** relational_map.rs 73-84 (and identically 104-114): remove [k] from the key set of
    [v], dropping the entry when it becomes empty. *)
Definition rm_drop_key (k : K) (vk : gmap V (gset K)) (v : V) : gmap V (gset K) :=
  match vk !! v with
  | Some ks =>
      let ks' := ks ∖ {[k]} in
      if decide (ks' = ∅) then delete v vk else <[v := ks']> vk
  | None => vk
  end.

(** relational_map.rs 71-96: [dissociate_keys_from_value]. *)
Definition rm_dissociate (m : relmap) (k : K) (vs : list V) : relmap :=
  RelMap
    (match key_to_values m !! k with
     | Some k_vs =>
         let k_vs' := k_vs ∖ list_to_set vs in
         if decide (k_vs' = ∅) then delete k (key_to_values m)
         else <[k := k_vs']> (key_to_values m)
     | None => key_to_values m
     end)
    (fold_left (rm_drop_key k) vs (value_to_keys m)).

(** relational_map.rs 100-116: [remove_key]. *)
Definition rm_remove_key (m : relmap) (k : K) : relmap :=
  match key_to_values m !! k with
  | Some vs =>
      RelMap (delete k (key_to_values m))
             (fold_left (rm_drop_key k) (elements vs) (value_to_keys m))
  | None => m
  end.

(** The mutating public methods of the type, relational_map.rs 57, 71, 100. *)
Inductive rm_op :=
  | RAssociate (k : K) (vs : list V)
  | RDissociate (k : K) (vs : list V)
  | RRemoveKey (k : K).

(** One call of a mutating public method, relational_map.rs 57, 71, 100. *)
Definition rm_step (m : relmap) (o : rm_op) : relmap :=
  match o with
  | RAssociate k vs => rm_associate m k vs
  | RDissociate k vs => rm_dissociate m k vs
  | RRemoveKey k => rm_remove_key m k
  end.

(** A history of calls on a fresh map. *)
Definition rm_run (os : list rm_op) : relmap := fold_left rm_step os rm_new.

End relmap.

Arguments relmap K V {_ _ _ _}.
Arguments rm_op K V : clear implicits.
