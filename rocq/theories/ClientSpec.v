(** What a user of the client can say about a history of calls. *)
From stdpp Require Import gmap list.
From Coq Require Import NArith.
From Verif Require Import ClientModel.

(** The topics asked for: those of the configuration, changed by the successful calls. *)
Fixpoint wanted (s : gset N) (outs : list cout) : gset N :=
  match outs with
  | [] => s
  | ORet _ (KSub l) true :: outs' => wanted (s ∪ list_to_set l) outs'
  | ORet _ (KUnsub l) true :: outs' => wanted (s ∖ list_to_set l) outs'
  | _ :: outs' => wanted s outs'
  end.

(** A connection attempt is in progress. *)
Definition attempting (k : client) (r : N) : Prop :=
  k_tasks k !! r = Some QNet \/ exists l, k_tasks k !! r = Some (QAuth l).

(** Connection [c] is open: some part of the client still has it. *)
Definition has_conn (k : client) (c : N) : Prop :=
  k_slot k = Some c \/ exists t o, k_thr k !! t = Some (PUse o c).

(** Nobody calls [close], and the call of thread [t] is not dropped. *)
Definition bystanders (t : N) (e : cev) : Prop :=
  match e with EStart _ KClose => False | EDrop t' => t' <> t | _ => True end.

(** [close] is called by [t], reaches the end of its second step, the abort of task [r] takes effect (or the task
    ends by itself, if it was past the last place where it waits), and [close] goes on. *)
Definition close_now (t r : N) : list cev :=
  [EStart t KClose; EStep t true; EStep t true; EAbort r; ETask r false; ETask r false; EStep t true].

