(** Model of the running-latency metric. Definitions only.

    /repo/cdn-proto/src/metrics.rs 43-79 ([running_latency_calculator]);
    /repo/cdn-proto/src/connection/limiter/pool.rs 43-52 (every message adds a sample when its memory is given back).

    Simplified: samples and sums are natural numbers (of any unit) instead of floating-point numbers, and the count does not overflow; the gauge is kept as a fraction. *)
From stdpp Require Import list.
From Coq Require Import NArith.
Local Open Scope N_scope.

Inductive lev :=
  | LSample (x : N)  (* a message is done with *)
  | LSum             (* 64: the task reads the sum of the histogram *)
  | LCount.          (* 65-82: it reads the count, and sets the gauge *)

Record lat := Lat {
  l_sum : N; l_count : N;            (* of the histogram *)
  l_read : N;                        (* the sum just read *)
  l_last_sum : N; l_last_count : N;  (* 46-47: of the round before *)
  l_gauge : option (N * N);          (* the gauge: what is divided by what; not set at first *)
}.
Definition l_init : lat := Lat 0 0 0 0 0 None.
Definition l_step (s : lat) (e : lev) : lat :=
  match e with
  | LSample x => Lat (l_sum s + x) (l_count s + 1) (l_read s) (l_last_sum s) (l_last_count s) (l_gauge s)
  | LSum => Lat (l_sum s) (l_count s) (l_sum s) (l_last_sum s) (l_last_count s) (l_gauge s)
  | LCount =>
      let dsum := l_read s - l_last_sum s in
      let dcount := l_count s - l_last_count s in
      Lat (l_sum s) (l_count s) (l_read s) (l_read s) (l_count s)
        (if dcount =? 0 then l_gauge s else Some (dsum, dcount))
  end.
Definition l_run (s : lat) (es : list lev) : lat := fold_left l_step es s.
