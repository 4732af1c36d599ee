(** What is said about the life of a connection (LifeModel.v). *)
From stdpp Require Import list.
From Coq Require Import NArith.
From Verif Require Import LifeModel.

(** How many messages the server has sent. *)
Fixpoint sent (es : list (N * fev)) : N :=
  match es with [] => 0 | (_, FSend _) :: r => 1 + sent r | _ :: r => sent r end%N.

(** The messages accepted for sending and not yet written: the one being written, and those waiting. *)
Definition unwritten (s : life) : list N :=
  match f_writer s with WLength m _ | WBytes m _ | WFlush m => [m] | _ => [] end ++ omap (fun x => x) (f_queue s).

(** The connection takes messages for sending. *)
Definition sendable (s : life) : Prop :=
  (f_phase s = PServed \/ exists d, f_phase s = PAuth d) /\ f_writer s <> WDead.
