(** Model of a broker's heartbeat task over time —
    /repo/cdn-broker/src/tasks/broker/heartbeat.rs 28-108. Definitions only.

    Time is counted in ticks, [sec] of them to a second. What the data base does in each round is
    an argument: how long each of the two calls takes, whether and when the heartbeat is written,
    whether the listing succeeds. Simplified: a call that timed out writes nothing afterwards;
    computing and spawning take no time; [sleep] lasts exactly ten seconds; all clocks agree. *)
From stdpp Require Import gmap list.
From Coq Require Import NArith.
From Verif Require Import IdModel DiscModel DialModel.

(** One round: the number of users (line 34), the time [perform_heartbeat] would take (lines
    37-50), after which times it reads the clock (embedded.rs 102-107; with Redis the server does,
    when it writes) and has written, the time [get_other_brokers] would take and whether it
    succeeds (lines 53-66). *)
Record hround := HRound {
  x_users : N; x_beat : N; x_write : option (N * N); x_list : N; x_listed : bool }.

Section heart.
Variable sec : N.

(** lines 37-41, 53-54: [timeout(Duration::from_secs(5), _)]. *)
Definition limit5 (d : N) : N := N.min d (5 * sec).
Definition beat_time (x : hround) : N := limit5 (x_beat x).
Definition list_time (x : hround) : N := limit5 (x_list x).
Definition written (x : hround) : option (N * N) :=
  match x_write x with
  | Some (a, w) => if (a <=? w)%N && (w <=? beat_time x)%N then Some (a, w) else None
  | None => None
  end.
Definition lists (x : hround) : bool := x_listed x && (x_list x <? 5 * sec)%N.

(** lines 33-50: the statement of a round that begins at [t], with the moment at which it takes
    effect; it expires after sixty seconds (line 39). *)
Definition round_beat (self : bid) (t : N) (x : hround) : list (N * dop) :=
  match written x with
  | Some (a, w) => [((t + w)%N, DHeartbeat (t + a) (t + a) self (x_users x) (60 * sec))]
  | None => []
  end.
(** lines 57-66: no pause after a failed listing; line 106. *)
Definition round_end (t : N) (x : hround) : N :=
  (t + beat_time x + list_time x + if lists x then 10 * sec else 0)%N.

(** The heartbeats of a task started at [t], the time at which the next round begins, and the
    times of its successful listings (at each it dials, lines 68-103). *)
Fixpoint beats (self : bid) (t : N) (xs : list hround) : list (N * dop) :=
  match xs with [] => [] | x :: xs' => round_beat self t x ++ beats self (round_end t x) xs' end.
Fixpoint loop_end (t : N) (xs : list hround) : N :=
  match xs with [] => t | x :: xs' => loop_end (round_end t x) xs' end.
Fixpoint listings (t : N) (xs : list hround) : list N :=
  match xs with
  | [] => []
  | x :: xs' => (if lists x then [(t + beat_time x + list_time x)%N] else []) ++ listings (round_end t x) xs'
  end.
End heart.
