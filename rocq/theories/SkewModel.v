(** Model of the discovery service for machines whose clocks differ —
    /repo/cdn-proto/src/discovery/embedded.rs and redis.rs, over DiscModel.v. Definitions only.

    SQLite: whoever writes a row reads its own clock to say when the row expires (embedded.rs
    102-107 for heartbeats, 244-249 for permits), and whoever cleans up reads its own clock to say
    which rows have expired (402-421). Redis: the server does both ("EX" and "EXPIREMEMBER" take
    durations: redis.rs 94-107, 230).

    A history is a list of operations, each with the machine that performs it; the times in the
    operations are true ones. [off i] is what the clock of machine [i] is ahead of the slowest one.
    Simplified: clocks run at the same speed and are not adjusted; times are natural numbers. *)
From stdpp Require Import gmap list.
From Coq Require Import NArith.
From Verif Require Import IdModel DiscModel.

(** The operation as performed by a machine whose clock is [d] ahead. *)
Definition ahead (d : N) (o : dop) : dop :=
  match o with
  | DIssue now b p ttl key => DIssue (now + d) b p ttl key
  | DPrune now => DPrune (now + d)
  | DTake now b p => DTake (now + d) b p
  | DHeartbeat now1 now2 b n ttl => DHeartbeat (now1 + d) (now2 + d) b n ttl
  | DPruneBrokers now => DPruneBrokers (now + d)
  | DSetWhitelist l => DSetWhitelist l
  end.
Definition history := list (N * dop).
(** What actually happened, in true time. *)
Definition truly (h : history) : list dop := map snd h.
(** embedded.rs: every machine reads its own clock. *)
Definition own_clocks (off : N -> N) (h : history) : list dop := map (fun x => ahead (off x.1) x.2) h.
(** redis.rs: the server's clock counts. *)
Definition server_clock (d : N) (h : history) : list dop := map (fun x => ahead d x.2) h.
