(** Model of the memory of a running broker: the shared pool, the readers that ask it for
    memory, the messages waiting in incoming and outgoing queues —
    /repo/cdn-proto/src/connection/protocols/mod.rs 105-266, 311-351 with the broker's
    settings (/repo/cdn-broker/src/lib.rs 239: one pool, queues without bound), the receive
    loops (/repo/cdn-broker/src/tasks/user/handler.rs 79-163, tasks/broker/handler.rs 84-194) and the
    senders (tasks/user/sender.rs, tasks/broker/sender.rs). Definitions only.

    Messages are numbers; their contents and the routing decision are left out: whom a
    message goes to is chosen by the event. Connections are those registered. A message
    the broker makes itself (synchronisation) takes nothing from the pool and is left out.

    About [async_channel] it is assumed that a closed queue keeps its contents until the
    last handle of the channel is dropped: closing it (mod.rs 163) frees nothing. *)
From stdpp Require Import list gmap.
From Coq Require Import NArith.
From Verif Require Import WireModel PoolModel.

(** The receiver task: in the header (mod.rs 316-320), asking for memory or reading the body
    of message [id] (328-343), ended (204-208). *)
Inductive fread := FHeader | FMem (id : nat) | FStopped.

(** [fc_recv]: received and not yet handled. [fc_queue]: to be written, the first one being
    written. [fc_alive]: the sender task runs and the queue is open. *)
Record fconn := FConn { fc_read : fread; fc_recv : list nat; fc_queue : list nat; fc_alive : bool }.
Definition fconn_new : fconn := FConn FHeader [] [] true.

Record flow := Flow { f_pool : pool; f_conns : gmap N fconn; f_next : nat }.
Definition flow_new (P : N) : flow := Flow (pool_new P) ∅ 0.

Inductive fevent :=
  | FOpen (c : N)                 (* a connection is registered *)
  | FAnnounce (c : N) (n : N)     (* a header announcing [n] bytes has been read *)
  | FBody (c : N)                 (* the body has been read *)
  | FHandle (c : N) (to : list N) (* the loop handles the next message and sends it to these *)
  | FReadFail (c : N)             (* error, end of stream or timeout while reading *)
  | FEnd (c : N)                  (* the loop ends with its reader: the peer is removed *)
  | FWritten (c : N)              (* the message being written is finished *)
  | FWriteFail (c : N)            (* it fails or takes too long *)
  | FKick (c : N).                (* removed for another reason *)

Definition on_pool (s : flow) (o : pop) : flow := Flow (pstep (f_pool s) o) (f_conns s) (f_next s).
Definition set_conn (s : flow) (c : N) (x : fconn) : flow := Flow (f_pool s) (<[c := x]> (f_conns s)) (f_next s).
Definition in_memory (s : flow) (id : nat) : bool := bool_decide (is_Some (p_live (f_pool s) !! id)).

(** Dropping messages one after the other. *)
Definition drop_all (s : flow) (ids : list nat) : flow := fold_left (fun s id => on_pool s (PDrop id)) ids s.

(** The last handle of a connection goes (mod.rs 105-116): the tasks are aborted, the queues freed. *)
Definition f_remove (s : flow) (c : N) : flow :=
  match f_conns s !! c with
  | None => s
  | Some x =>
      let s1 := drop_all (Flow (f_pool s) (delete c (f_conns s)) (f_next s)) (fc_queue x ++ fc_recv x) in
      match fc_read x with
      | FMem id => if in_memory s1 id then on_pool s1 (PDrop id) else on_pool s1 (PCancel id)
      | _ => s1
      end
  end.

(** [try_send_to_user], [try_send_to_broker]: a closed queue gets the peer removed. *)
Definition f_send (id : nat) (s : flow) (c : N) : flow :=
  match f_conns s !! c with
  | None => s
  | Some x =>
      if fc_alive x then set_conn (on_pool s (PClone id)) c (FConn (fc_read x) (fc_recv x) (fc_queue x ++ [id]) true)
      else f_remove s c
  end.

(** New state, and whether a message has been received. *)
Definition fstep (s : flow) (e : fevent) : flow * bool :=
  match e with
  | FOpen c => match f_conns s !! c with None => (set_conn s c fconn_new, false) | Some _ => (s, false) end
  | FAnnounce c n =>
      match f_conns s !! c with
      | Some (FConn FHeader rq q al) =>
          if (n <=? max_message_size)%N then
            (Flow (pstep (f_pool s) (PAlloc (f_next s) n)) (<[c := FConn (FMem (f_next s)) rq q al]> (f_conns s)) (S (f_next s)), false)
          else (set_conn s c (FConn FStopped rq q al), false)
      | _ => (s, false)
      end
  | FBody c =>
      match f_conns s !! c with
      | Some (FConn (FMem id) rq q al) =>
          if in_memory s id then (set_conn s c (FConn FHeader (rq ++ [id]) q al), true) else (s, false)
      | _ => (s, false)
      end
  | FHandle c to =>
      match f_conns s !! c with
      | Some (FConn r (id :: rq) q al) =>
          (on_pool (fold_left (f_send id) to (set_conn s c (FConn r rq q al))) (PDrop id), false)
      | _ => (s, false)
      end
  | FReadFail c =>
      match f_conns s !! c with
      | Some (FConn FHeader rq q al) => (set_conn s c (FConn FStopped rq q al), false)
      | Some (FConn (FMem id) rq q al) =>
          if in_memory s id then (on_pool (set_conn s c (FConn FStopped rq q al)) (PDrop id), false) else (s, false)
      | _ => (s, false)
      end
  | FEnd c =>
      match f_conns s !! c with
      | Some (FConn FStopped [] _ _) => (f_remove s c, false)
      | _ => (s, false)
      end
  | FWritten c =>
      match f_conns s !! c with
      | Some (FConn r rq (id :: q) true) => (on_pool (set_conn s c (FConn r rq q true)) (PDrop id), false)
      | _ => (s, false)
      end
  | FWriteFail c =>
      match f_conns s !! c with
      | Some (FConn r rq (id :: q) true) => (on_pool (set_conn s c (FConn r rq q false)) (PDrop id), false)
      | _ => (s, false)
      end
  | FKick c => (f_remove s c, false)
  end.

(** A run: the state, and the number of messages received. *)
Definition frun (s : flow) (es : list fevent) : flow * nat :=
  fold_left (fun sn e => let '(s', b) := fstep sn.1 e in (s', if b : bool then S sn.2 else sn.2)) es (s, 0).
