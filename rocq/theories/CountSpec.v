(** Vocabulary for the byte counters. *)
From stdpp Require Import gmap list.
From Coq Require Import NArith.
From Verif Require Import IdModel WireModel WireSpec CountModel.

(** What happened on line [i], and what was seen there. *)
Definition on_line (i : nat) (es : list (nat * event)) : list event :=
  omap (fun ie => if decide (ie.1 = i) then Some ie.2 else None) es.
Definition seen (cap : option nat) (i : nat) (es : list (nat * event)) : conn * list out :=
  crun (conn_new cap) (on_line i es).

(** All the bytes of some messages. *)
Definition volume (ms : list bytes) : N := fold_right (fun m a => (blen m + a)%N) 0%N ms.

(** The sum over the lines that [sel] picks. *)
Definition sum_lines (ls : list (N * N * option nat)) (sel : N * N * option nat -> bool) (f : nat -> N) : N :=
  fold_right (fun i a => (match ls !! i with Some x => if sel x then f i else 0 | None => 0 end + a)%N) 0%N (seq 0 (length ls)).
Definition from_p (p : N) (x : N * N * option nat) : bool := (x.1.1 =? p)%N.
Definition to_p (p : N) (x : N * N * option nat) : bool := (x.1.2 =? p)%N.

(** Bytes that do not even hold the first message. *)
Definition unfinished (t : bytes) : Prop := forall m, (blen m < 2 ^ 32)%N -> ~ stream_of [m] `prefix_of` t.

(** [ms] are the messages the transport has accepted to the last byte. *)
Definition written (co : conn * list out) (ms : list bytes) : Prop :=
  ms `prefix_of` sends co.2 /\ exists part, passed co.2 ++ c_wbuf co.1 = stream_of ms ++ part /\ unfinished part.
(** [ms] are the messages read from the transport to the last byte. An empty one may be left out. *)
Definition arrived (co : conn * list out) (ms : list bytes) : Prop :=
  recvs co.2 `prefix_of` ms /\ exists part, reads co.2 = stream_of ms ++ part /\ (unfinished part \/ part = stream_of [[]]).

(** Nothing is under way, and nothing has failed. *)
Definition at_rest (c : conn) : Prop :=
  c_sq c = [] /\ c_sp c = SIdle /\ c_wbuf c = [] /\ c_wire c = [] /\ c_rp c = RHead [].
