(** Vocabulary for the properties of the whitelist task. *)
From stdpp Require Import gmap list.
From Coq Require Import NArith.
From Verif Require Import IdModel ConnModel WhiteModel.

Definition registered (s : white) (u : bytes) : Prop := is_Some (users (w_conns s) !! u).

(** What a whitelist means: without one everybody is allowed. *)
Definition allowed (w : wlist) (k : bytes) : Prop := match w with None => True | Some s => k ∈ s end.
(** A whitelist is in force and the key is not on it. *)
Definition revoked (w : wlist) (k : bytes) : Prop := ~ allowed w k.

Section white.
Variable redis : bool.
Notation w_run := (w_run redis).

(** No statement of the task takes longer than [D], and it wakes up at most [D] late: whenever something
    happens, the task has not missed its next step. *)
Definition in_time (D : N) (s0 : white) (es : list (N * wev)) : Prop :=
  forall es1 t e es2, es = es1 ++ (t, e) :: es2 ->
    let s := w_run s0 es1 in (t <= w_since s + D + match w_task s with WSleep => 60 | _ => 0 end)%N.
(** The broker never has more than [n] users. *)
Definition at_most (n : nat) (s0 : white) (es : list (N * wev)) : Prop :=
  forall es1 es2, es = es1 ++ es2 -> size (users (w_conns (w_run s0 es1))) <= n.
(** No statement of the task fails. *)
Definition answered (es : list (N * wev)) : Prop := forall t, ~ In (t, WFirst false) es /\ ~ In (t, WSecond false) es.
End white.
