(** Model of framing and of the two tasks behind a connection —
    /repo/cdn-proto/src/connection/protocols/mod.rs. Definitions only.

    One direction of a connection is modelled: the queue and the sender task of one end, the
    transport, the receiver task and the queue of the other end. The other direction is the
    same thing again and shares no state with it. *)
From stdpp Require Import list.
From Coq Require Import NArith.
From Verif Require Import IdModel.

Definition blen (m : bytes) : N := N.of_nat (length m).

(** /repo/cdn-proto/src/lib.rs 25: [u32::MAX / 8]. *)
Definition max_message_size : N := (2 ^ 32 - 1) / 8.

(** protocols/mod.rs 365-375: [write_u32] writes big-endian. *)
Definition u32_be (n : N) : bytes :=
  [(n / 2 ^ 24) mod 256; (n / 2 ^ 16) mod 256; (n / 2 ^ 8) mod 256; n mod 256]%N.

(** protocols/mod.rs 316-320: [read_u32] reads big-endian. *)
Definition be_u32 (l : bytes) : N := fold_left (fun a b => a * 256 + b)%N l 0%N.

(** protocols/mod.rs 359-363 and 365-388: the bytes of one message on the stream. Only for
    lengths that fit 32 bits; otherwise writing fails before the first byte. *)
Definition fits_u32 (m : bytes) : bool := (blen m <? 2 ^ 32)%N.
Definition frame (m : bytes) : bytes := u32_be (blen m) ++ m.

(** protocols/mod.rs 311-351: where the receiver task stands inside
    [read_length_delimited], or in handing the message over (195-203). *)
Inductive rphase :=
  | RHead (got : bytes)             (* inside [read_u32] *)
  | RWait (n : N)                   (* awaiting the allocation of [n] bytes, line 328 *)
  | RBody (n : N) (got : bytes)     (* inside [read_exact], line 336 *)
  | RPush (m : bytes)               (* awaiting [send_to_caller.send], line 197 *)
  | RStop.                          (* the task returned *)

(** Number of bytes the current read still asks for. *)
Definition rwants (p : rphase) : nat :=
  match p with
  | RHead got => 4 - length got
  | RBody n got => N.to_nat n - length got
  | _ => 0
  end.

(** What the task does as soon as the current read is complete: lines 322-325 (the bounds
    check), 350 (the message is built). *)
Definition rsettle (p : rphase) : rphase :=
  match p with
  | RHead got =>
      if decide (length got = 4) then
        if (be_u32 got <=? max_message_size)%N then RWait (be_u32 got) else RStop
      else p
  | RBody n got => if decide (length got = N.to_nat n) then RPush got else p
  | _ => p
  end.

(** A read of [l] (at most what is asked for) from the stream. *)
Definition rtake (p : rphase) (l : bytes) : rphase :=
  match p with
  | RHead got => rsettle (RHead (got ++ l))
  | RBody n got => rsettle (RBody n (got ++ l))
  | _ => p
  end.

(** protocols/mod.rs 88-91: an entry of the outgoing queue; soft closes carry the identity
    of the call waiting for their acknowledgement. *)
Inductive item := IMsg (m : bytes) | ISoft (k : nat).

(** protocols/mod.rs 155-185: where the sender task stands. *)
Inductive sphase :=
  | SIdle                           (* awaiting [receive_from_caller.recv], line 157 *)
  | SWrite (rest : bytes)           (* inside [write_length_delimited], line 161 *)
  | SFlush                          (* inside [writer.flush], line 169 *)
  | SSoft (k : nat)                 (* inside [writer.soft_close], line 177 *)
  | SStop.                          (* the task returned or was aborted *)

(** [wbuf]: bytes the writer accepted and has not passed on yet (TLS buffers, for
    instance); [wire]: bytes passed on and not read yet. *)
Record conn := Conn {
  c_cap : option nat;               (* limiter/mod.rs 71: capacity of both queues *)
  c_sq : list item; c_sopen : bool; c_sp : sphase;
  c_wbuf : bytes; c_wire : bytes;
  c_rp : rphase; c_rq : list bytes; c_ropen : bool }.

(** protocols/mod.rs 139-217: a fresh connection. *)
Definition conn_new (cap : option nat) : conn :=
  Conn cap [] true SIdle [] [] (RHead []) [] true.

(** What can be seen from outside: results of the calls, bytes passed to the transport, bytes
    read from it, memory asked for. *)
Inductive out :=
  | OSendOk (m : bytes) | OSendErr (m : bytes)
  | OSoftStart (k : nat) | OSoftOk (k : nat) | OSoftErr (k : nat)
  | OPassed (l : bytes) | ORead (l : bytes) | OAlloc (n : N)
  | ORecv (m : bytes) | ORecvErr.

Inductive event :=
  | ESend (m : bytes)               (* [send_message_raw] is polled *)
  | ESoft (k : nat)                 (* [soft_close] is polled *)
  | ETake                           (* the sender task takes the next entry *)
  | EWrite (n : nat)                (* the writer accepts [n] more bytes *)
  | EWriteFail                      (* error or timeout while writing or flushing *)
  | EPass (n : nat)                 (* the writer passes on [n] buffered bytes by itself *)
  | EFlushed                        (* the flush completes *)
  | ESoftDone                       (* the writer's soft close completes *)
  | EReadSome (n : nat)             (* the reader is given [n] bytes *)
  | EReadFail                       (* error, end of stream or timeout while reading *)
  | EGrant                          (* the allocation is granted *)
  | EPush                           (* [send_to_caller.send] is polled *)
  | ERecv                           (* [recv_message_raw] is polled *)
  | EDropSender | EDropReceiver.    (* the last handle of that end is dropped *)

Definition room (cap : option nat) (used : nat) : bool :=
  match cap with None => true | Some c => used <? c end.

(** The soft closes still queued when the queue goes away: their callers get an error
    (lines 302-305: the oneshot sender is dropped). Simplified: the error is shown at once;
    in the code it comes when the channel frees its contents. *)
Definition soft_errs (q : list item) : list out :=
  flat_map (fun i => match i with ISoft k => [OSoftErr k] | IMsg _ => [] end) q.

(** The sender task stops: the queue is closed and what it held is dropped. *)
Definition sstop (c : conn) : conn * list out :=
  (Conn (c_cap c) [] false SStop (c_wbuf c) (c_wire c) (c_rp c) (c_rq c) (c_ropen c),
   soft_errs (c_sq c) ++ match c_sp c with SSoft k => [OSoftErr k] | _ => [] end).

Definition set_sp (c : conn) (sp : sphase) : conn :=
  Conn (c_cap c) (c_sq c) (c_sopen c) sp (c_wbuf c) (c_wire c) (c_rp c) (c_rq c) (c_ropen c).
Definition set_rp (c : conn) (rp : rphase) : conn :=
  Conn (c_cap c) (c_sq c) (c_sopen c) (c_sp c) (c_wbuf c) (c_wire c) rp (c_rq c) (c_ropen c).

(** Adding to the outgoing queue: [async_channel]'s bounded [send], lines 239-251 and
    287-300. A full queue blocks: nothing happens and the call is polled again later. *)
Definition enqueue (c : conn) (i : item) (ok err : out) : conn * list out :=
  if c_sopen c then
    if room (c_cap c) (length (c_sq c)) then
      (Conn (c_cap c) (c_sq c ++ [i]) true (c_sp c) (c_wbuf c) (c_wire c)
            (c_rp c) (c_rq c) (c_ropen c), [ok])
    else (c, [])
  else (c, [err]).

Definition cstep (c : conn) (e : event) : conn * list out :=
  match e with
  | ESend m => enqueue c (IMsg m) (OSendOk m) (OSendErr m)
  | ESoft k => enqueue c (ISoft k) (OSoftStart k) (OSoftErr k)
  | ETake =>
      match c_sp c, c_sq c with
      | SIdle, IMsg m :: q =>
          let c' := Conn (c_cap c) q (c_sopen c) SIdle (c_wbuf c) (c_wire c)
                         (c_rp c) (c_rq c) (c_ropen c) in
          if fits_u32 m then (set_sp c' (SWrite (frame m)), []) else sstop c'
      | SIdle, ISoft k :: q =>
          (Conn (c_cap c) q (c_sopen c) (SSoft k) (c_wbuf c) (c_wire c)
                (c_rp c) (c_rq c) (c_ropen c), [])
      | _, _ => (c, [])
      end
  | EWrite n =>
      match c_sp c with
      | SWrite rest =>
          let rest' := drop n rest in
          (Conn (c_cap c) (c_sq c) (c_sopen c)
                (match rest' with [] => SFlush | _ => SWrite rest' end)
                (c_wbuf c ++ take n rest) (c_wire c) (c_rp c) (c_rq c) (c_ropen c), [])
      | _ => (c, [])
      end
  | EWriteFail =>
      match c_sp c with
      | SWrite _ | SFlush => sstop c
      | _ => (c, [])
      end
  | EPass n =>
      (Conn (c_cap c) (c_sq c) (c_sopen c) (c_sp c) (drop n (c_wbuf c))
            (c_wire c ++ take n (c_wbuf c)) (c_rp c) (c_rq c) (c_ropen c),
       [OPassed (take n (c_wbuf c))])
  | EFlushed =>
      match c_sp c with
      | SFlush =>
          (Conn (c_cap c) (c_sq c) (c_sopen c) SIdle [] (c_wire c ++ c_wbuf c)
                (c_rp c) (c_rq c) (c_ropen c), [OPassed (c_wbuf c)])
      | _ => (c, [])
      end
  | ESoftDone =>
      match c_sp c with
      | SSoft k => (set_sp c SIdle, [OSoftOk k])
      | _ => (c, [])
      end
  | EReadSome n =>
      let l := take (rwants (c_rp c) `min` n) (c_wire c) in
      let rp' := rtake (c_rp c) l in
      (Conn (c_cap c) (c_sq c) (c_sopen c) (c_sp c) (c_wbuf c)
            (drop (rwants (c_rp c) `min` n) (c_wire c)) rp' (c_rq c) (c_ropen c),
       ORead l :: match c_rp c, rp' with RHead _, RWait k => [OAlloc k] | _, _ => [] end)
  | EReadFail =>
      match c_rp c with
      | RHead _ | RBody _ _ => (set_rp c RStop, [])
      | _ => (c, [])
      end
  | EGrant =>
      match c_rp c with
      | RWait n => (set_rp c (rsettle (RBody n [])), [])
      | _ => (c, [])
      end
  | EPush =>
      match c_rp c with
      | RPush m =>
          if c_ropen c then
            if room (c_cap c) (length (c_rq c)) then
              (Conn (c_cap c) (c_sq c) (c_sopen c) (c_sp c) (c_wbuf c) (c_wire c)
                    (RHead []) (c_rq c ++ [m]) (c_ropen c), [])
            else (c, [])
          else (set_rp c RStop, [])
      | _ => (c, [])
      end
  | ERecv =>
      match c_rq c with
      | m :: q =>
          (Conn (c_cap c) (c_sq c) (c_sopen c) (c_sp c) (c_wbuf c) (c_wire c)
                (c_rp c) q (c_ropen c), [ORecv m])
      | [] => (c, match c_rp c with RStop => [ORecvErr] | _ => [] end)
      end
  | EDropSender => sstop c
  | EDropReceiver =>
      (Conn (c_cap c) (c_sq c) (c_sopen c) (c_sp c) (c_wbuf c) (c_wire c) RStop [] false, [])
  end.

(** The outputs of a whole run, in order. *)
Fixpoint crun (c : conn) (es : list event) : conn * list out :=
  match es with
  | [] => (c, [])
  | e :: es' => let '(c1, o1) := cstep c e in let '(c2, o2) := crun c1 es' in (c2, o1 ++ o2)
  end.

(** [read_length_delimited] in a loop (lines 191-209) over a whole stream whose end is then
    reached: the messages returned. Granting is immediate (no pool). *)
Definition rbyte (s : rphase * list bytes) (b : N) : rphase * list bytes :=
  let go p :=
    match p with
    | RWait n => match rsettle (RBody n []) with
                 | RPush m => (RHead [], s.2 ++ [m])
                 | p' => (p', s.2)
                 end
    | RPush m => (RHead [], s.2 ++ [m])
    | _ => (p, s.2)
    end in
  go (rtake s.1 [b]).
Definition read_stream (l : bytes) : rphase * list bytes := fold_left rbyte l (RHead [], []).
