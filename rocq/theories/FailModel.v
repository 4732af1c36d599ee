(** Model of a client's attempts to connect while brokers come and go, in time (milliseconds) —
    /repo/cdn-client/src/lib.rs 79-125 ([connect]) and
    /repo/cdn-proto/src/connection/auth/marshal.rs 107-141 (the marshal asks the discovery service for
    a broker). Definitions only, over RetryModel.v and DiscModel.v.

    [hist v] is what has been done with the discovery service by the time [v]. Simplified as in
    RetryModel.v and DiscModel.v; the marshal asks at one moment. *)
From stdpp Require Import gmap list.
From Coq Require Import NArith.
From Verif Require Import IdModel DiscModel RetryModel SkewModel.

Section fail.
Variable hist : N -> list dop.
(** For an attempt that begins at a time: the steps until the client is connected to the marshal;
    after which time of authenticating the marshal asks; how long authenticating takes. *)
Variable pre : N -> list stepx.
Variable ask : N -> N.
Variable auth : N -> N.
(** The steps to get from the marshal to a broker, at a time. *)
Variable reach : N -> bid -> list stepx.
(** auth/marshal.rs 107-118, embedded.rs 134-189, redis.rs 122-173. *)
Variable choice : N -> option bid.

Definition span (l : list stepx) : N := fold_right (fun x n => (x_time x + n)%N) 0%N l.
Definition asked (u : N) : N := (u + span (pre u) + ask u)%N.
(** client lib.rs 90-122: without a broker the marshal turns the client away (auth/marshal.rs 114-117). *)
Definition f_world (u : N) : list stepx :=
  pre u ++ match choice (asked u) with
           | Some b => Step KAuth (auth u) true :: reach (u + span (pre u) + auth u) b
           | None => [Step KAuth (auth u) false]
           end.
End fail.
(** What marshals answer: SQLite, Redis. *)
Definition e_choice (hist : N -> list dop) (v : N) : option bid := (e_least (e_run false (hist v)) v).2.
Definition r_choice (global : bool) (hist : N -> list dop) (v : N) : option bid := r_least (r_run global (hist v)) v.
(** SQLite, a marshal on machine [i], with clocks that differ. *)
Definition s_choice (off : N -> N) (i : N) (hist : N -> history) (v : N) : option bid :=
  (e_least (e_run false (own_clocks off (hist v))) (v + off i)).2.
