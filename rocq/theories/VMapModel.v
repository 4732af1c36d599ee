(** Model of [VersionedMap] — /repo/cdn-broker/src/connections/versioned_map.rs.
    Executable definitions only; proofs are in VMapProofs.v.

    Simplifications: hash maps/sets are [gmap]/[gset]. Where the code iterates over a
    hash map (whose order is unspecified) the model iterates over a list, and the order
    is shown to be irrelevant in VMapProofs.v. The [PartialOrd] test
    [remote.conflict_identity > self.conflict_identity] is the parameter [cgt]. *)
From stdpp Require Import gmap fin_maps fin_sets.
From Coq Require Import NArith.

(** Rust [u64] arithmetic in release mode: addition wraps modulo 2^64 (a debug build
    would panic instead of wrapping). *)
Definition u64_modulus : N := 18446744073709551616.
Definition u64_succ (v : N) : N := ((v + 1) mod u64_modulus)%N.

Section vmap.
Context {K V C : Type} `{Countable K} `{EqDecision V}.
(** [cgt a b] models the Rust comparison [a > b] on conflict identities. *)
Variable cgt : C -> C -> bool.

(** versioned_map.rs 28-31: [VersionedValue]; [None] is a tombstone (line 22). *)
Record vval := VVal { ver : N; val : option V }.

(** versioned_map.rs 39-52: [VersionedMap]. *)
Record vmap := VMap {
  entries : gmap K vval;      (* underlying_map *)
  modified : gset K;          (* locally_modified_keys *)
  cid : C;                    (* conflict_identity *)
}.

(** versioned_map.rs 61-67: [new]. *)
Definition vm_new (c : C) : vmap := VMap ∅ ∅ c.

(** versioned_map.rs 70-72: [is_empty]. *)
Definition vm_is_empty (m : vmap) : bool := bool_decide (entries m = ∅).

(** versioned_map.rs 76-81: [get]. *)
Definition vm_get (m : vmap) (k : K) : option V :=
  match entries m !! k with
  | Some vv => val vv
  | None => None
  end.

(** versioned_map.rs 84-113: [modify_local]. *)
Definition vm_modify_local (m : vmap) (k : K) (v : option V) : vmap :=
  let e :=
    match entries m !! k with
    | Some old =>
        if decide (k ∈ modified m) then VVal (ver old) v
        else VVal (u64_succ (ver old)) v
    | None => VVal 1 v
    end in
  VMap (<[k := e]> (entries m)) ({[k]} ∪ modified m) (cid m).

(** versioned_map.rs 117-119: [insert]. *)
Definition vm_insert (m : vmap) (k : K) (v : V) : vmap := vm_modify_local m k (Some v).

(** versioned_map.rs 123-125: [remove]. *)
Definition vm_remove (m : vmap) (k : K) : vmap := vm_modify_local m k None.

(** versioned_map.rs 128-136: [remove_if_equals]. *)
Definition vm_remove_if_equals (m : vmap) (k : K) (v : V) : vmap :=
  match entries m !! k with
  | Some vv => if decide (val vv = Some v) then vm_remove m k else m
  | None => m
  end.

(** versioned_map.rs 141-154: [remove_by_value_no_modify] (its only caller is commented
    out, connections/mod.rs 322-323). *)
Definition vm_remove_by_value_no_modify (m : vmap) (v : V) : vmap :=
  let keys := map fst (filter (fun p => val p.2 = Some v) (map_to_list (entries m))) in
  VMap (fold_left (fun e k => delete k e) keys (entries m)) (modified m) (cid m).

(** versioned_map.rs 158-164: [get_full]. *)
Definition vm_get_full (m : vmap) : vmap := VMap (entries m) ∅ (cid m).

(** versioned_map.rs 174-186: one iteration of the loop of [diff]; the state is the pair
    (diff_map, underlying_map). *)
Definition vm_diff_one (acc : gmap K vval * gmap K vval) (k : K) : gmap K vval * gmap K vval :=
  let '(d, u) := acc in
  match u !! k with
  | Some e =>
      (<[k := e]> d, match val e with None => delete k u | Some _ => u end)
  | None => (d, u)
  end.

(** versioned_map.rs 168-194: [diff], iterating over the modified keys in order [ks];
    returns the delta and the new map. *)
Definition vm_diff_order (ks : list K) (m : vmap) : vmap * vmap :=
  let '(d, u) := fold_left vm_diff_one ks (∅, entries m) in
  (VMap d ∅ (cid m), VMap u ∅ (cid m)).

(** versioned_map.rs 168-194: [diff]. *)
Definition vm_diff (m : vmap) : vmap * vmap := vm_diff_order (elements (modified m)) m.

(** versioned_map.rs 206-265: one iteration of the loop of [merge] on the remote pair
    [(k, rv)], with [rid] the remote conflict identity. Returns the new map and the
    change pushed, if any. *)
Definition vm_merge_one (rid : C) (m : vmap) (k : K) (rv : vval) : vmap * list (K * option V) :=
  match entries m !! k with
  | Some lv =>
      let take :=
        (VMap (match val rv with
               | Some _ => <[k := VVal (ver rv) (val rv)]> (entries m)
               | None => delete k (entries m)
               end) (modified m ∖ {[k]}) (cid m), [(k, val rv)]) in
      match N.compare (ver rv) (ver lv) with
      | Gt => take
      | Eq => if cgt rid (cid m) then take else (m, [])
      | Lt => (m, [])
      end
  | None =>
      match val rv with
      | Some _ => (VMap (<[k := rv]> (entries m)) (modified m) (cid m), [(k, val rv)])
      | None => (m, [])
      end
  end.

(** versioned_map.rs 201-269: [merge], iterating over the remote pairs in the order [l]. *)
Fixpoint vm_merge_list (rid : C) (l : list (K * vval)) (m : vmap) : vmap * list (K * option V) :=
  match l with
  | [] => (m, [])
  | (k, rv) :: l' =>
      let '(m1, c1) := vm_merge_one rid m k rv in
      let '(m2, c2) := vm_merge_list rid l' m1 in
      (m2, c1 ++ c2)
  end.

(** versioned_map.rs 201-269: [merge]. *)
Definition vm_merge (m remote : vmap) : vmap * list (K * option V) :=
  vm_merge_list (cid remote) (map_to_list (entries remote)) m.

(** The public mutating methods, versioned_map.rs 117, 123, 128, 158, 168, 201. *)
Inductive vm_op :=
  | VInsert (k : K) (v : V)
  | VRemove (k : K)
  | VRemoveIfEq (k : K) (v : V)
  | VFull
  | VDiff
  | VMerge (r : vmap).

(** One call of a public method (the value returned by [VFull]/[VDiff]/[VMerge] is
    dropped here; see [vm_get_full], [vm_diff], [vm_merge]). *)
Definition vm_step (m : vmap) (o : vm_op) : vmap :=
  match o with
  | VInsert k v => vm_insert m k v
  | VRemove k => vm_remove m k
  | VRemoveIfEq k v => vm_remove_if_equals m k v
  | VFull => m
  | VDiff => (vm_diff m).2
  | VMerge r => (vm_merge m r).1
  end.

(** A history of calls on a fresh map with identity [c]. *)
Definition vm_run (c : C) (os : list vm_op) : vmap := fold_left vm_step os (vm_new c).

End vmap.

Arguments vval V : clear implicits.
Arguments vmap K V C {_ _}.
Arguments vm_op K V C {_ _}.

(** Decidable equality on entries (used by examples and specifications). *)
Global Instance vval_eq_dec V `{EqDecision V} : EqDecision (vval V).
Proof. solve_decision. Defined.
