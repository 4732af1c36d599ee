(** Model of the client — /repo/cdn-client/src/lib.rs 79-479. Definitions only.

    A client is shared by any number of application tasks ("threads") and by the
    reconnection tasks it spawns. The model interleaves them; one event is one step of one
    of them, between two points at which another task can be seen to run: lock acquisition,
    an operation on the connection, the single atomic accesses to the semaphore and to the
    handle of the reconnection task.

    Simplifications. Contents of messages are dropped except for the topics of subscribe and
    unsubscribe requests. Whether an operation on a connection, a connection attempt or its
    10 s timeout succeeds is chosen by the event, so every failure can happen at any time.
    Waiting tasks are served in any order (tokio serves them in order of arrival). The
    choice [false] also lets [try_read] fail and the test of the semaphore come out
    negative spuriously: [try_read] fails while a writer is queued, and
    [ensure_initialized] holds the permit for an instant. *)
From stdpp Require Import gmap list.
From Coq Require Import NArith.
From Verif Require Import TopicModel.

(** The operations an application can start: [send_message] (and the two wrappers),
    [receive_message], [soft_close], [subscribe], [unsubscribe], [ensure_initialized],
    [close] (lib.rs 295-476). *)
Inductive cop := KSend | KRecv | KSoft | KSub (l : list N) | KUnsub (l : list N) | KEnsure | KClose.

(** A subscription request as the broker receives it. *)
Inductive req := RSub (l : list N) | RUnsub (l : list N).

(** Where a thread is. *)
Inductive pc :=
  | PSubLock (o : cop)          (* subscribe, unsubscribe: waits for the lock on the topic set *)
  | PEns0                       (* ensure_initialized: about to test for closure *)
  | PGet (o : cop)              (* about to look for the connection *)
  | PStore (o : cop) (r : N)    (* spawned reconnection [r], about to store its handle (holds the read lock) *)
  | PUse (o : cop) (c : N)      (* operating on its copy of connection [c] *)
  | PFail (o : cop) (c : N)     (* the operation on [c] failed: about to look at the semaphore *)
  | PTake (o : cop) (c : N)     (* the operation on [c] failed: waits for the write lock *)
  | PEns                        (* ensure_initialized: waits for the semaphore *)
  | PClose1 | PClose2 | PClose3. (* close: about to close the semaphore / abort the task / take the connection *)

(** Where a reconnection task is. *)
Inductive qc :=
  | QLock                       (* waits for the write lock *)
  | QTop                        (* about to call [connect] *)
  | QNet                        (* connecting: marshal, permit, broker *)
  | QAuth (l : list N)          (* authenticating with the broker, reading the topic set (read lock held) *)
  | QSleep                      (* between attempts *)
  | QGot                        (* connected, about to return the permit *)
  | QRel.                       (* about to release the write lock *)

(** [k_slot]: the shared [Option<Connection>]; [k_wl]: the reconnection task holding its
    write lock; [k_rd]: threads holding its read lock while they spawn. [k_permit],
    [k_closed]: the semaphore. [k_subl], [k_subr]: the lock of the topic set. [k_abort]:
    tasks whose handle was dropped. [k_sent]: requests accepted on each connection. *)
Record client := Client {
  k_slot : option N; k_wl : option N; k_rd : gset N;
  k_permit : bool; k_closed : bool; k_handle : option N;
  k_subs : gset N; k_subl : option N; k_subr : bool;
  k_thr : gmap N pc; k_tasks : gmap N qc; k_abort : gset N;
  k_nextc : N; k_nextr : N; k_sent : gmap N (list req);
}.

(** What can be observed. [OTook t c c']: thread [t], whose operation failed on [c],
    emptied the slot, which held [c']. *)
Inductive cout :=
  | OStart (t : N) (o : cop)
  | ORet (t : N) (o : cop) (ok : bool)
  | OAttempt (r : N)
  | OConn (r c : N)
  | OUse (t c : N) (ok : bool)
  | OTook (t c : N) (c' : option N).

Inductive cev :=
  | EStart (t : N) (o : cop)    (* an application calls an operation *)
  | EStep (t : N) (b : bool)    (* thread [t] takes its next step *)
  | EDrop (t : N)               (* the application drops the pending call *)
  | ETask (r : N) (b : bool)    (* reconnection task [r] takes its next step *)
  | EAbort (r : N).             (* the abort of task [r] takes effect *)

(** lib.rs 175-198: [Client::new]. *)
Definition k_new (topics : list N) : client :=
  Client None None ∅ true false None (list_to_set topics) None false ∅ ∅ ∅ 0 0 ∅.

Definition w_thr (k : client) (t : N) (p : option pc) : client :=
  Client (k_slot k) (k_wl k) (k_rd k) (k_permit k) (k_closed k) (k_handle k) (k_subs k) (k_subl k) (k_subr k)
    (partial_alter (fun _ => p) t (k_thr k)) (k_tasks k) (k_abort k) (k_nextc k) (k_nextr k) (k_sent k).
Definition w_task (k : client) (r : N) (q : option qc) : client :=
  Client (k_slot k) (k_wl k) (k_rd k) (k_permit k) (k_closed k) (k_handle k) (k_subs k) (k_subl k) (k_subr k)
    (k_thr k) (partial_alter (fun _ => q) r (k_tasks k)) (k_abort k) (k_nextc k) (k_nextr k) (k_sent k).
Definition w_slot (k : client) (s : option N) : client :=
  Client s (k_wl k) (k_rd k) (k_permit k) (k_closed k) (k_handle k) (k_subs k) (k_subl k) (k_subr k)
    (k_thr k) (k_tasks k) (k_abort k) (k_nextc k) (k_nextr k) (k_sent k).
Definition w_wl (k : client) (w : option N) : client :=
  Client (k_slot k) w (k_rd k) (k_permit k) (k_closed k) (k_handle k) (k_subs k) (k_subl k) (k_subr k)
    (k_thr k) (k_tasks k) (k_abort k) (k_nextc k) (k_nextr k) (k_sent k).
Definition w_permit (k : client) (b : bool) : client :=
  Client (k_slot k) (k_wl k) (k_rd k) b (k_closed k) (k_handle k) (k_subs k) (k_subl k) (k_subr k)
    (k_thr k) (k_tasks k) (k_abort k) (k_nextc k) (k_nextr k) (k_sent k).
Definition w_closed (k : client) : client :=
  Client (k_slot k) (k_wl k) (k_rd k) (k_permit k) true (k_handle k) (k_subs k) (k_subl k) (k_subr k)
    (k_thr k) (k_tasks k) (k_abort k) (k_nextc k) (k_nextr k) (k_sent k).
Definition w_subr (k : client) (b : bool) : client :=
  Client (k_slot k) (k_wl k) (k_rd k) (k_permit k) (k_closed k) (k_handle k) (k_subs k) (k_subl k) b
    (k_thr k) (k_tasks k) (k_abort k) (k_nextc k) (k_nextr k) (k_sent k).
Definition w_subl (k : client) (w : option N) : client :=
  Client (k_slot k) (k_wl k) (k_rd k) (k_permit k) (k_closed k) (k_handle k) (k_subs k) w (k_subr k)
    (k_thr k) (k_tasks k) (k_abort k) (k_nextc k) (k_nextr k) (k_sent k).
Definition w_rd (k : client) (s : gset N) : client :=
  Client (k_slot k) (k_wl k) s (k_permit k) (k_closed k) (k_handle k) (k_subs k) (k_subl k) (k_subr k)
    (k_thr k) (k_tasks k) (k_abort k) (k_nextc k) (k_nextr k) (k_sent k).

(** Dropping a handle of a reconnection task aborts it ([AbortOnDropHandle]). *)
Definition w_handle (k : client) (h : option N) : client :=
  Client (k_slot k) (k_wl k) (k_rd k) (k_permit k) (k_closed k) h (k_subs k) (k_subl k) (k_subr k)
    (k_thr k) (k_tasks k)
    (match k_handle k with Some r => {[r]} ∪ k_abort k | None => k_abort k end)
    (k_nextc k) (k_nextr k) (k_sent k).

(** The lock on the topic set is held from its acquisition to the end of the call. *)
Definition unlock (k : client) (t : N) : client :=
  if decide (k_subl k = Some t) then w_subl k None else k.

(** A call returns. *)
Definition ret (k : client) (t : N) (o : cop) (ok : bool) : client * list cout :=
  (unlock (w_thr k t None) t, [ORet t o ok]).

(** The connection could not be had: [ensure_initialized] goes on to wait (lib.rs 329-335),
    everything else returns the error. *)
Definition no_conn (k : client) (t : N) (o : cop) : client * list cout :=
  match o with KEnsure => (w_thr k t (Some PEns), []) | _ => ret k t o false end.

(** lib.rs 204-257: [reconnect_if_needed]; the read lock is held. *)
Definition reconnect_if_needed (k : client) (t : N) (o : cop) : client * list cout :=
  match k_slot k with
  | Some c => match o with
              | KEnsure => ret k t o true
              | _ => (w_thr k t (Some (PUse o c)), [])
              end
  | None =>
      if k_closed k then no_conn k t o
      else if k_permit k then
        let r := k_nextr k in
        (w_rd (w_permit
          (Client (k_slot k) (k_wl k) (k_rd k) (k_permit k) (k_closed k) (k_handle k) (k_subs k) (k_subl k) (k_subr k)
             (<[t := PStore o r]> (k_thr k)) (<[r := QLock]> (k_tasks k)) (k_abort k)
             (k_nextc k) (r + 1)%N (k_sent k)) false) ({[t]} ∪ k_rd k), [])
      else no_conn k t o
  end.

(** lib.rs 265-288: [get_connection] waits for the read lock, [try_get_connection] does not. *)
Definition get (k : client) (t : N) (o : cop) (b : bool) : client * list cout :=
  match k_wl k, o with
  | Some _, KRecv => (k, [])
  | Some _, _ => no_conn k t o
  | None, KRecv => reconnect_if_needed k t o
  | None, _ => if b then reconnect_if_needed k t o else no_conn k t o
  end.

(** lib.rs 383-444: the topics sent, and the topic set after the request was accepted. *)
Definition fresh_topics (subs : gset N) (l : list N) : list N := filter (fun x => x ∉ subs) l.
Definition known_topics (subs : gset N) (l : list N) : list N := filter (fun x => x ∈ subs) l.

Definition push_req (k : client) (c : N) (q : req) (s : gset N) : client :=
  Client (k_slot k) (k_wl k) (k_rd k) (k_permit k) (k_closed k) (k_handle k) s (k_subl k) (k_subr k)
    (k_thr k) (k_tasks k) (k_abort k) (k_nextc k) (k_nextr k)
    (<[c := (default [] (k_sent k !! c)) ++ [q]]> (k_sent k)).

(** The operation on the connection succeeded. *)
Definition used (k : client) (o : cop) (c : N) : client :=
  match o with
  | KSub l => let l' := fresh_topics (k_subs k) l in push_req k c (RSub l') (k_subs k ∪ list_to_set l')
  | KUnsub l => let l' := known_topics (k_subs k) l in push_req k c (RUnsub l') (k_subs k ∖ list_to_set l')
  | _ => k
  end.

Definition no_readers (k : client) : bool := bool_decide (k_wl k = None /\ k_rd k = ∅).

(** One step of a thread. *)
Definition tstep (k : client) (t : N) (p : pc) (b : bool) : client * list cout :=
  match p with
  | PSubLock o =>
      if decide (k_subl k = None /\ k_subr k = false) then (w_subl (w_thr k t (Some (PGet o))) (Some t), []) else (k, [])
  (* 321-328 *)
  | PEns0 => if k_closed k then ret k t KEnsure false else (w_thr k t (Some (PGet KEnsure)), [])
  | PGet o => get k t o b
  (* 240-241 *)
  | PStore o r => no_conn (w_rd (w_handle k (Some r)) (k_rd k ∖ {[t]})) t o
  | PUse o c =>
      if b then let '(k', out) := ret (used k o c) t o true in (k', OUse t c true :: out)
      else (w_thr k t (Some (PFail o c)), [OUse t c false])
  (* 149-165: [disconnect_on_error] *)
  | PFail o c => if k_permit k && b then (w_thr k t (Some (PTake o c)), []) else ret k t o false
  | PTake o c =>
      if no_readers k then let '(k', out) := ret (w_slot k None) t o false in (k', OTook t c (k_slot k) :: out)
      else (k, [])
  (* 334-335: [acquire] returns at once when the semaphore is closed *)
  | PEns => if k_closed k || k_permit k then ret k t KEnsure true else (k, [])
  (* 464-476: [close] *)
  | PClose1 => (w_thr (w_closed k) t (Some PClose2), [])
  | PClose2 => (w_thr (w_handle k None) t (Some PClose3), [])
  | PClose3 => if no_readers k then ret (w_slot k None) t KClose true else (k, [])
  end.

(** One step of a reconnection task (lib.rs 212-238, and 79-124 for [connect]). *)
Definition qstep (k : client) (r : N) (q : qc) (b : bool) : client * list cout :=
  match q with
  | QLock => if no_readers k then (w_wl (w_task k r (Some QTop)) (Some r), []) else (k, [])
  | QTop => if k_closed k then (w_task k r (Some QSleep), []) else (w_task k r (Some QNet), [OAttempt r])
  | QNet =>
      if b then
        if decide (k_subl k = None) then (w_subr (w_task k r (Some (QAuth (elements (k_subs k))))) true, []) else (k, [])
      else (w_task k r (Some QSleep), [])
  | QAuth l =>
      if b then
        let c := k_nextc k in
        (w_subr (w_task
          (Client (Some c) (k_wl k) (k_rd k) (k_permit k) (k_closed k) (k_handle k) (k_subs k) (k_subl k) (k_subr k)
             (k_thr k) (k_tasks k) (k_abort k) (c + 1)%N (k_nextr k) (<[c := [RSub l]]> (k_sent k))) r (Some QGot)) false,
         [OConn r c])
      else (w_subr (w_task k r (Some QSleep)) false, [])
  | QSleep => (w_task k r (Some QTop), [])
  | QGot => (w_permit (w_task k r (Some QRel)) true, [])
  | QRel => (w_wl (w_task k r None) None, [])
  end.

(** An aborted task is dropped where it waits: permit and locks are returned. The last two
    steps do not wait. *)
Definition qabort (k : client) (r : N) (q : qc) : client :=
  match q with
  | QGot | QRel => k
  | QLock => w_permit (w_task k r None) true
  | QAuth _ => w_subr (w_wl (w_permit (w_task k r None) true) None) false
  | _ => w_wl (w_permit (w_task k r None) true) None
  end.

(** A pending call is dropped where it waits; the other steps do not wait. *)
Definition tdrop (k : client) (t : N) (p : pc) : client :=
  match p with
  | PSubLock _ | PGet KRecv | PUse _ _ | PTake _ _ | PEns | PClose3 => unlock (w_thr k t None) t
  | _ => k
  end.

Definition start_pc (o : cop) : pc :=
  match o with
  | KSub _ | KUnsub _ => PSubLock o
  | KEnsure => PEns0
  | KClose => PClose1
  | _ => PGet o
  end.

Definition kstep (k : client) (e : cev) : client * list cout :=
  match e with
  | EStart t o => match k_thr k !! t with
                  | None => (w_thr k t (Some (start_pc o)), [OStart t o])
                  | Some _ => (k, [])
                  end
  | EStep t b => match k_thr k !! t with Some p => tstep k t p b | None => (k, []) end
  | EDrop t => match k_thr k !! t with Some p => (tdrop k t p, []) | None => (k, []) end
  | ETask r b => match k_tasks k !! r with Some q => qstep k r q b | None => (k, []) end
  | EAbort r => match k_tasks k !! r with
                | Some q => if decide (r ∈ k_abort k) then (qabort k r q, []) else (k, [])
                | None => (k, [])
                end
  end.

Fixpoint kgo (k : client) (es : list cev) : client * list cout :=
  match es with
  | [] => (k, [])
  | e :: es' => let '(k', o) := kstep k e in let '(k'', o') := kgo k' es' in (k'', o ++ o')
  end.

Definition krun (topics : list N) (es : list cev) : client * list cout := kgo (k_new topics) es.

Section broker_side.
Variable valid : N -> bool.

(** What the broker does with the requests of one connection: the first is the initial
    subscription (cdn-broker/src/tasks/user/handler.rs 43-47, an error of [prune] is
    ignored), the others are handled by the receive loop (140-158), which ends the
    connection ([None]) if [prune] fails. *)
Definition b_request (s : option (gset N)) (q : req) : option (gset N) :=
  match s with
  | None => None
  | Some s =>
      match q with
      | RSub l => let '(l', ok) := prune valid l in if ok then Some (s ∪ list_to_set l') else None
      | RUnsub l => let '(l', ok) := prune valid l in if ok then Some (s ∖ list_to_set l') else None
      end
  end.

Definition b_topics (qs : list req) : option (gset N) :=
  match qs with
  | RSub l :: qs' => fold_left b_request qs' (Some (list_to_set (prune valid l).1))
  | _ => None
  end.
End broker_side.
