(** Specification of the versioned map, independent of the model's imperative code. *)
From stdpp Require Import gmap.
From Coq Require Import NArith.
From Verif Require Import VMapModel.

Section spec.
Context {K V C : Type} `{Countable K} `{EqDecision V}.
Variable cgt : C -> C -> bool.

(** An ordinary map driven by the local operations. [None] = absent. Newest call FIRST. *)
Fixpoint plain_read_rev (os : list (vm_op K V C)) (k : K) : option V :=
  match os with
  | [] => None
  | o :: os' =>
      let before := plain_read_rev os' k in
      match o with
      | VInsert k' v => if decide (k' = k) then Some v else before
      | VRemove k' => if decide (k' = k) then None else before
      | VRemoveIfEq k' v =>
          if decide (k' = k) then (if decide (before = Some v) then None else before) else before
      | VFull | VDiff | VMerge _ => before
      end
  end.
Definition plain_read (os : list (vm_op K V C)) (k : K) : option V := plain_read_rev (rev os) k.

(** Operations that are purely local (no remote map involved). *)
Definition is_local (o : vm_op K V C) : Prop :=
  match o with VMerge _ => False | _ => True end.

(** The last-writer-wins rule for one key: does the remote entry replace the local one? *)
Definition remote_wins (rid sid : C) (l : option (vval V)) (r : vval V) : Prop :=
  match l with
  | Some lv => (ver lv < ver r)%N \/ (ver lv = ver r /\ cgt rid sid = true)
  | None => val r <> None
  end.
Global Instance remote_wins_dec rid sid l r : Decision (remote_wins rid sid l r).
Proof. destruct l; cbn; apply _. Defined.

(** What a remote entry leaves behind when it wins: itself, or nothing for a deletion. *)
Definition taken (r : vval V) : option (vval V) :=
  match val r with Some _ => Some r | None => None end.

(** The entry for a key after receiving the (optional) remote entry [r]. *)
Definition lww (rid sid : C) (l r : option (vval V)) : option (vval V) :=
  match r with
  | None => l
  | Some rv => if decide (remote_wins rid sid l rv) then taken rv else l
  end.

(** Keys with an unsent local change, from the history (newest call FIRST): changed
    locally, no delta since, and no remote entry won since. [c] is the identity. *)
Fixpoint dirty_rev (c : C) (os : list (vm_op K V C)) (k : K) : Prop :=
  match os with
  | [] => False
  | o :: os' =>
      match o with
      | VInsert k' _ | VRemove k' => k' = k \/ dirty_rev c os' k
      | VRemoveIfEq k' v =>
          (k' = k /\ vm_get (vm_run cgt c (rev os')) k = Some v) \/ dirty_rev c os' k
      | VFull => dirty_rev c os' k
      | VDiff => False
      | VMerge r =>
          dirty_rev c os' k /\
          forall rv, entries r !! k = Some rv ->
            ~ remote_wins (cid r) c (entries (vm_run cgt c (rev os')) !! k) rv
      end
  end.
Definition dirty (c : C) (os : list (vm_op K V C)) (k : K) : Prop := dirty_rev c (rev os) k.

End spec.
