(** Model of a client's attempts to connect, in time (milliseconds). Definitions only.

    /repo/cdn-client/src/lib.rs 79-125 ([connect]), 214-263 (the reconnection task);
    /repo/cdn-proto/src/connection/protocols/{tcp,tcp_tls,quic}.rs ([connect]); /repo/cdn-proto/src/connection/auth/user.rs
    (waits for answers without a limit of its own).

    Simplified: a step of an attempt is what takes time in it; what is said in it is in ClientModel.v and LoginModel.v. Sleeping lasts exactly as long as
    asked for, and computing takes no time. *)
From stdpp Require Import list.
From Coq Require Import NArith.
Local Open Scope N_scope.

(** Looking up an address ([to_socket_addrs] blocks its thread, so no time limit can interrupt it); connecting; the TLS handshake; opening a QUIC stream; an authentication. *)
Inductive kind := KResolve | KDial | KTls | KOpen | KAuth.
(** tcp.rs 76, tcp_tls.rs 100, 117, quic.rs 86, 105: the limits of the steps. *)
Definition limit (k : kind) : option N := match k with KDial | KTls | KOpen => Some 5000 | _ => None end.
Definition blocks (k : kind) : bool := match k with KResolve => true | _ => false end.

(** How long the step would take, and whether it would succeed. *)
Record stepx := Step { x_kind : kind; x_time : N; x_ok : bool }.
(** lib.rs 91-122: marshal, then broker. *)
Definition kinds_tcp : list kind := [KResolve; KDial; KAuth; KResolve; KDial; KAuth].
Definition kinds_tls : list kind := [KResolve; KDial; KTls; KAuth; KResolve; KDial; KTls; KAuth].
Definition kinds_quic : list kind := [KResolve; KDial; KOpen; KAuth; KResolve; KDial; KOpen; KAuth].

(** The steps of an attempt from [t] on, that is given up at [stop]: when it ends, and whether it succeeded. *)
Fixpoint steps (stop t : N) (l : list stepx) : N * bool :=
  match l with
  | [] => (t, true)
  | x :: r =>
      if blocks (x_kind x) then
        if x_ok x then steps stop (t + x_time x) r else (t + x_time x, false)
      else
        let d := match limit (x_kind x) with Some m => N.min m (x_time x) | None => x_time x end in
        if stop <? t + d then (N.max t stop, false)
        else if x_ok x && (x_time x =? d) then steps stop (t + d) r
        else (t + d, false)
  end.
(** lib.rs 226: an attempt is given up after 10 s. *)
Definition attempt (t : N) (l : list stepx) : N * bool := steps (t + 10000) t l.

Section retry.
(** What an attempt that begins at a time would meet. *)
Variable world : N -> list stepx.
(** lib.rs 224-245: the task that tries until it succeeds, for [n] attempts: the beginnings and ends of those that
    failed, and when it succeeded, if it did. After a failure it sleeps for 2 s. *)
Fixpoint retry (n : nat) (t : N) : list (N * N) * option N :=
  match n with
  | O => ([], None)
  | S n =>
      let '(e, ok) := attempt t (world t) in
      if ok then ([], Some e)
      else let '(l, r) := retry n (e + 2000) in ((t, e) :: l, r)
  end.
End retry.
