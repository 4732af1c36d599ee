(** A network of versioned maps exchanging deltas and full copies: the use that
    /repo/cdn-broker/src/tasks/broker/sync.rs 49-125 makes of
    /repo/cdn-broker/src/connections/versioned_map.rs.

    Simplification: messages are never consumed, so every delivery may be repeated,
    delayed and reordered arbitrarily and by any receiver; this over-approximates the
    real links. *)
From stdpp Require Import gmap list.
From Coq Require Import NArith.
From Verif Require Import VMapModel.

Section vnet.
Context {I K V C : Type} `{EqDecision I} `{Countable K} `{EqDecision V}.
Variable cgt : C -> C -> bool.
(** The conflict identity of each node. *)
Variable ident : I -> C.

(** All maps and every message ever sent. *)
Record vnet := VNet { nmaps : I -> vmap K V C; npool : list (vmap K V C) }.

(** One event: a local modification (connections/mod.rs 226, 232, 298, 350), the
    computation of a delta (mod.rs 144, 236), of a full copy (mod.rs 137, 199), or the
    merge of any message sent so far (mod.rs 156, 179). *)
Inductive vn_op :=
  | NInsert (i : I) (k : K) (v : V)
  | NRemove (i : I) (k : K)
  | NRemoveIfEq (i : I) (k : K) (v : V)
  | NDiff (i : I)
  | NFull (i : I)
  | NDeliver (j : I) (n : nat).

(** Replace the map of node [i]. *)
Definition vn_set (f : I -> vmap K V C) (i : I) (m : vmap K V C) : I -> vmap K V C :=
  fun j => if decide (j = i) then m else f j.

(** Initially every map is new (connections/mod.rs 58-66, broadcast/mod.rs 39-47). *)
Definition vn_init : vnet := VNet (fun i => vm_new (ident i)) [].

(** One event of the network. *)
Definition vn_step (s : vnet) (o : vn_op) : vnet :=
  match o with
  | NInsert i k v => VNet (vn_set (nmaps s) i (vm_insert (nmaps s i) k v)) (npool s)
  | NRemove i k => VNet (vn_set (nmaps s) i (vm_remove (nmaps s i) k)) (npool s)
  | NRemoveIfEq i k v => VNet (vn_set (nmaps s) i (vm_remove_if_equals (nmaps s i) k v)) (npool s)
  | NDiff i => let '(d, m) := vm_diff (nmaps s i) in VNet (vn_set (nmaps s) i m) (npool s ++ [d])
  | NFull i => VNet (nmaps s) (npool s ++ [nmaps s i])
  | NDeliver j n =>
      match npool s !! n with
      | Some r => VNet (vn_set (nmaps s) j (vm_merge cgt (nmaps s j) r).1) (npool s)
      | None => s
      end
  end.

Definition vn_run (os : list vn_op) : vnet := fold_left vn_step os vn_init.
End vnet.

Arguments vn_op I K V : clear implicits.
Arguments vnet I K V C {_ _}.
