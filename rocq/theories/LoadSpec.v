(** Vocabulary for the spread of users over brokers. *)
From stdpp Require Import gmap list.
From Coq Require Import NArith.
From Verif Require Import IdModel DiscModel DiscSpec LoadModel.

(** How many users the marshals have settled on [b] for. *)
Definition sent (w : world) (b : bid) : N := N.of_nat (count_occ bid_eq_dec (w_sent w) b).

(** How many users are connected to [b]. *)
Definition connected (w : world) (b : bid) : N := N.of_nat (size (users_at w b)).

(** Discovery knows of [m] users of [b], which is registered: those of its last heartbeat and, for
    SQLite, the holders of permits it would accept now. *)
Definition known_users (be : backend) (w : world) (b : bid) (m : N) : Prop :=
  match be with
  | Embedded => exists n S, e_alive (w_hist w) (w_now w) b n
      /\ outstanding false (w_hist w) (w_now w) (bid_print b) S /\ m = (n + N.of_nat (size S))%N
  | Redis => r_alive (w_hist w) (w_now w) b m
  end.

(** All of the brokers [B] are registered, and at most [k] of the users sent to any of them are
    unknown to discovery. *)
Definition up_to_date (be : backend) (B : gset bid) (k : N) (w : world) : Prop :=
  forall b, b ∈ B -> exists m, known_users be w b m /\ (sent w b <= m + k)%N.

(** This is so whenever a marshal looks for a broker. *)
Definition timely (be : backend) (B : gset bid) (k : N) (es : list wev) : Prop :=
  forall es1 h es2, es = es1 ++ WChoose h :: es2 -> up_to_date be B k (w_run be es1).

(** Only the brokers [B] take part, with identifiers like host:port, and permit numbers fit in 32
    bits, as embedded.rs draws them. *)
Definition wev_ok (B : gset bid) (e : wev) : Prop :=
  match e with
  | WTick _ | WChoose _ => True
  | WIssue _ _ p => (p < 2 ^ 32)%N
  | WPresent b _ | WBeat b | WLeave b _ => b ∈ B
  end.
Definition among (B : gset bid) (es : list wev) : Prop := (forall b, b ∈ B -> id_ok b) /\ Forall (wev_ok B) es.

(** Nobody leaves. *)
Definition is_leave (e : wev) : Prop := match e with WLeave _ _ => True | _ => False end.
Definition stays (es : list wev) : Prop := Forall (fun e => ~ is_leave e) es.

(** The permit numbers drawn. *)
Definition drawn (es : list wev) : list N := omap (fun e => match e with WIssue _ _ p => Some p | _ => None end) es.
(** Whenever a marshal looks for a broker, at most [c] other logins are between that and the
    issuing of their permits. *)
Definition at_once (be : backend) (c : N) (es : list wev) : Prop :=
  forall es1 h es2, es = es1 ++ WChoose h :: es2 -> (N.of_nat (size (w_pend (w_run be es1))) <= c)%N.
