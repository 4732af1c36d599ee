(** Vocabulary for the memory of a running broker. *)
From stdpp Require Import list gmap.
From Coq Require Import NArith.
From Verif Require Import FlowModel.

(** A connection with nothing received, nothing to be written and no message being read. *)
Definition idle (x : fconn) : Prop := fc_recv x = [] /\ fc_queue x = [] /\ forall id, fc_read x <> FMem id.

(** No write has failed. *)
Definition all_alive (s : flow) : Prop := forall c x, f_conns s !! c = Some x -> fc_alive x = true.

(** The broker's own work: finishing a read, handling, finishing a write. *)
Definition own_work (K : nat) (e : fevent) : Prop :=
  match e with FBody _ | FWritten _ => True | FHandle _ to => length to <= K | _ => False end.

(** A run in which every event does something. *)
Fixpoint busy (s : flow) (es : list fevent) : Prop :=
  match es with [] => True | e :: es => (fstep s e).1 <> s /\ busy (fstep s e).1 es end.

(** Events after which a user [S] is still connected and in which nobody announces a message
    of [g] bytes or less: [S] does not close its connection, sends no header announcing more
    than the limit, and is not removed for another reason. *)
Definition harmless (g : N) (S : N) (e : fevent) : Prop :=
  match e with
  | FAnnounce c n => (g < n)%N /\ (c = S -> (n <= 536870911)%N)
  | FReadFail c | FKick c => c <> S
  | _ => True
  end.

(** [p] sends messages of these sizes to [S], one after the other. *)
Definition fill (p S : N) (ns : list N) : list fevent := concat (map (fun n => [FAnnounce p n; FBody p; FHandle p [S]]) ns).
Definition total (ns : list N) : N := fold_right N.add 0%N ns.
