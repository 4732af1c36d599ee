(** Model of the life of one incoming connection of a broker or marshal in time: its set-up, its
    authentication, and its two tasks with their time limits. Definitions only.

    /repo/cdn-broker/src/tasks/{user,broker}/listener.rs and handler.rs,
    /repo/cdn-marshal/src/handlers.rs, /repo/cdn-proto/src/connection/protocols/mod.rs (both
    tasks), tcp.rs, tcp_tls.rs, quic.rs, memory.rs ([finalize], [flush], [soft_close]).

    Simplified: a time limit of [d] takes effect before anything happens later than [d]; the sender's task takes
    the next message as soon as it is free; computing takes no time; aborted tasks stop at once. What the messages say is
    left out (WireModel.v, FlowModel.v). The queues are unbounded, the default. Whoever takes a message from the connection keeps its
    memory, which is not counted here. The connection is dropped with the last handle to it. *)
From stdpp Require Import list.
From Coq Require Import NArith.

(** Being set up; being authenticated; in use; being closed softly; dropped. The first two with their time limits. *)
Inductive phase := PSetup (limit : N) | PAuth (limit : N) | PServed | PClosing | PGone.
(** The sender's task (protocols/mod.rs 156-185): waiting; writing a length; writing a
    message; flushing; closing softly; ended, with the queue closed. *)
Inductive writer := WIdle | WLength (m limit : N) | WBytes (m limit : N) | WFlush (m : N) | WClose (limit : N) | WDead.
(** The receiver's task (188-207): waiting for a length; for memory; for a message; ended. *)
Inductive reader := RLength | RMemory (n : N) | RBytes (n limit : N) | RDead.

Record life := Life {
  f_phase : phase;
  f_writer : writer;
  f_queue : list (option N);  (* for the sender's task: messages, and [None] to close softly *)
  f_written : list N;
  f_reader : reader;
  f_inbox : list N;           (* sizes of the messages received and not yet taken *)
}.

Inductive fev :=
  | FReady (ok : bool)       (* [finalize] ends *)
  | FAuth (ok : bool)        (* the authentication ends *)
  | FDrop                    (* the last handle is dropped *)
  | FSend (m : N)            (* somebody sends [m] *)
  | FLength (ok : bool)      (* a write, a flush, a soft close ends *)
  | FBytes (ok : bool)
  | FFlush (ok : bool)
  | FClosed
  | FHeader (n : N)          (* the length of a message has arrived *)
  | FMemory                  (* the pool grants the memory *)
  | FBody (ok : bool)        (* the message has arrived, or the stream failed *)
  | FEnd                     (* the stream ended between two messages *)
  | FTake                    (* somebody takes a message *)
  | FPass.                   (* nothing; time passes *)

(** /repo/cdn-proto/src/lib.rs: MAX_MESSAGE_SIZE. *)
Definition f_max : N := ((2 ^ 32 - 1) / 8)%N.

Section life.
(** Does a flush wait for the peer? (protocols/mod.rs 168-174: only for TCP+TLS.) *)
Variable flushes : bool.
(** A marshal's connection, or a broker's? *)
Variable marshal : bool.
(** How long may the stream take to close softly? (quic.rs 272-276: 3 s; the others: nothing to do.) *)
Variable linger : N.

Definition drop_all (s : life) : life := Life PGone WDead [] (f_written s) RDead [].
Definition set_phase (p : phase) (s : life) : life := Life p (f_writer s) (f_queue s) (f_written s) (f_reader s) (f_inbox s).
Definition set_writer (w : writer) (s : life) : life := Life (f_phase s) w (f_queue s) (f_written s) (f_reader s) (f_inbox s).
Definition set_reader (r : reader) (s : life) : life := Life (f_phase s) (f_writer s) (f_queue s) (f_written s) r (f_inbox s).
Definition enqueue (m : option N) (s : life) : life := Life (f_phase s) (f_writer s) (f_queue s ++ [m]) (f_written s) (f_reader s) (f_inbox s).
Definition wrote (m : N) (s : life) : life := Life (f_phase s) WIdle (f_queue s) (f_written s ++ [m]) (f_reader s) (f_inbox s).

(** The sender's task ends and closes its queue (protocols/mod.rs 161-165, 170-174). A closed queue of [async_channel] keeps what is
    in it, so a soft close that waits there is never answered (300-304). *)
Definition writer_dies (s : life) : life := Life (f_phase s) WDead [] (f_written s) (f_reader s) (f_inbox s).
(** The authentication has ended, without success for a broker: handler.rs 29-42 (the connection is dropped); for a marshal in any
    way: handlers.rs 24-36 (it is closed softly, and then dropped). *)
Definition finish (s : life) : life :=
  if marshal then
    match f_writer s with WDead => drop_all s | _ => set_phase PClosing (enqueue None s) end
  else drop_all s.

(** The time limits before [t] have run out: tcp_tls.rs 191-198, quic.rs 177-185 (set-up), handler.rs 29-31, handlers.rs 25-28
    (authentication), protocols/mod.rs 329-337 (reading), 362-381 (writing), quic.rs 274 (closing). *)
Definition p_expire (t : N) (s : life) : life :=
  match f_phase s with
  | PSetup d => if (d <? t)%N then drop_all s else s
  | PAuth d => if (d <? t)%N then finish s else s
  | _ => s
  end.
Definition w_expire (t : N) (s : life) : life :=
  match f_writer s with
  | WLength _ d | WBytes _ d => if (d <? t)%N then writer_dies s else s
  | WClose d => if (d <? t)%N then drop_all s else s
  | _ => s
  end.
Definition r_expire (t : N) (s : life) : life :=
  match f_reader s with
  | RBytes _ d => if (d <? t)%N then set_reader RDead s else s
  | _ => s
  end.

(** 158: the sender's task takes the next message. *)
Definition pick (t : N) (s : life) : life :=
  match f_writer s, f_queue s with
  | WIdle, Some m :: q => Life (f_phase s) (WLength m (t + 5)) q (f_written s) (f_reader s) (f_inbox s)
  | WIdle, None :: q => Life (f_phase s) (WClose (t + linger)) q (f_written s) (f_reader s) (f_inbox s)
  | _, _ => s
  end.

(** When the limit of the authentication runs out at [d], the sender's task may start to close at [d]. *)
Definition timers (t : N) (s : life) : life :=
  let s1 := match f_phase s with PAuth d => if (d <? t)%N then pick d (p_expire t (w_expire d s)) else s | _ => p_expire t s end in
  r_expire t (w_expire t s1).

Definition f_act (t : N) (e : fev) (s : life) : life :=
  match e with
  | FReady ok =>
      match f_phase s with
      | PSetup _ => if ok then Life (PAuth (t + 5)) WIdle [] [] RLength [] else drop_all s
      | _ => s
      end
  | FAuth ok =>
      match f_phase s with
      | PAuth _ => if ok && negb marshal then set_phase PServed s else finish s
      | _ => s
      end
  | FDrop => drop_all s
  | FSend m =>
      match f_phase s, f_writer s with
      | PAuth _, WDead | PServed, WDead => s
      | PAuth _, _ | PServed, _ => enqueue (Some m) s
      | _, _ => s
      end
  | FLength ok => match f_writer s with WLength m _ => if ok then set_writer (WBytes m (t + 5)) s else writer_dies s | _ => s end
  | FBytes ok =>
      match f_writer s with
      | WBytes m _ => if ok then (if flushes then set_writer (WFlush m) s else wrote m s) else writer_dies s
      | _ => s
      end
  | FFlush ok => match f_writer s with WFlush m => if ok then wrote m s else writer_dies s | _ => s end
  | FClosed => match f_writer s with WClose _ => drop_all s | _ => s end
  | FHeader n => match f_reader s with RLength => set_reader (if (f_max <? n)%N then RDead else RMemory n) s | _ => s end
  | FMemory => match f_reader s with RMemory n => set_reader (RBytes n (t + 5)) s | _ => s end
  | FBody ok =>
      match f_reader s with
      | RBytes n _ => if ok then Life (f_phase s) (f_writer s) (f_queue s) (f_written s) RLength (f_inbox s ++ [n]) else set_reader RDead s
      | _ => s
      end
  | FEnd => match f_reader s with RLength => set_reader RDead s | _ => s end
  | FTake => match f_inbox s with _ :: l => Life (f_phase s) (f_writer s) (f_queue s) (f_written s) (f_reader s) l | [] => s end
  | FPass => s
  end.
Definition f_step (s : life) (te : N * fev) : life := let '(t, e) := te in pick t (f_act t e (timers t s)).

(** Accepted at [t0]; its set-up must end within [h] (TCP and in-memory: at once; TCP+TLS: 5 s; QUIC: 5 s from the end of the
    handshake). Until then it has no tasks. *)
Definition f_init (t0 h : N) : life := Life (PSetup (t0 + h)) WDead [] [] RDead [].
Definition f_run (s : life) (es : list (N * fev)) : life := fold_left f_step es s.
End life.

(** The memory of the pool the connection holds. *)
Definition f_held (s : life) : N :=
  (match f_reader s with RBytes n _ => n | _ => 0 end + fold_right N.add 0 (f_inbox s))%N.
