(** Model of a running broker: its state and all of its tasks, interleaved at lock
    granularity — /repo/cdn-broker/src/tasks/user/handler.rs 26-163,
    tasks/broker/handler.rs 31-194, tasks/broker/sync.rs 129-145,
    tasks/broker/whitelist.rs 19-44. Definitions only.

    A task is the list of actions it still has to perform (RouteModel.v). A receive loop
    is a task that accepts the next frame only when it has finished with the previous
    one. [AbortHandle::abort] takes effect at some later moment (event [ECancel]): the
    model lets an aborted task go on for as long as it likes, which includes the real
    behaviour (it goes on until its next suspension point).

    Simplifications: the frames of the handshake itself are not events here; whether a
    send succeeds is chosen by the event. *)
From stdpp Require Import gmap list.
From Coq Require Import NArith.
From Verif Require Import IdModel VMapModel ConnModel TopicModel MsgModel RouteModel.

(** Whose task it is: the receive loop of a user's or a broker's connection, or one of the
    other tasks (connection handlers after authentication, sync, whitelist). *)
Inductive owner := OUser (u : ukey) (c : N) | OBroker (b : bid) (c : N) | OOther.

(** [t_open]: the loop will receive again. [t_frames]: number of frames received so far. *)
Record task := Task { t_owner : owner; t_acts : list act; t_open : bool; t_frames : nat }.

(** What was sent, by which task, and (for loops) while handling which of its frames. *)
Record sent := Sent { s_task : N; s_frame : nat; s_what : emission }.

(** A frame accepted by loop [r_task], its number (from 1) and the hook invocation. *)
Record rcvd := Rcvd { r_task : N; r_frame : nat; r_raw : bytes; r_hook : hook }.

(** [m_sent] and [m_rcvd] only record the history. *)
Record machine := Machine {
  m_conns : conns;
  m_tasks : gmap N task;
  m_sent : list sent;
  m_rcvd : list rcvd;
}.

Inductive event :=
  (* user/handler.rs 29-76: a user was authenticated; its loop is spawned, then the handler goes on *)
  | EUserAuthed (h hh : N) (u : ukey) (c : N) (ts : list N)
  (* broker/handler.rs 40-95 *)
  | EBrokerAuthed (h hh : N) (b : bid) (c : N)
  (* sync.rs 129-145: a round of the periodic sync *)
  | ESync (hh : N)
  (* whitelist.rs 31-42: a user is no longer on the whitelist *)
  | EKick (hh : N) (u : ukey)
  (* the loop [h] receives a frame; [hk] is this invocation of the hook *)
  | EFrame (h : N) (raw : bytes) (hk : hook)
  (* [recv_message_raw] fails in loop [h] *)
  | ERecvErr (h : N)
  (* task [h] performs its next action; [good]: if it is a send, it succeeds *)
  | ERun (h : N) (good : bool)
  (* a pending abort of task [h] takes effect *)
  | ECancel (h : N).

Section machine.
Variable deser : bytes -> option message.
Variable dec_users : bytes -> option direct_map.
Variable dec_topics : bytes -> option topic_map.
Variable valid : N -> bool.

Definition m_init (i : bid) : machine := Machine (c_new i) ∅ [] [].

(** What a loop does with a frame. *)
Definition loop_frame (o : owner) (raw : bytes) (hk : hook) : list act * bool :=
  match o with
  | OUser u _ => user_frame deser valid u raw hk
  | OBroker b _ => broker_frame deser dec_users dec_topics b raw hk
  | OOther => ([], false)
  end.

(** What a loop does when receiving fails (user/handler.rs 61-69, broker/handler.rs 73-88). *)
Definition loop_error (o : owner) : list act :=
  match o with
  | OUser u _ => [ARemoveUser u]
  | OBroker b _ => [ARemoveBroker b]
  | OOther => []
  end.

Definition set_task (m : machine) (h : N) (t : task) : machine :=
  Machine (m_conns m) (<[h := t]> (m_tasks m)) (m_sent m) (m_rcvd m).

(** One event; an event that is not possible in the state leaves it unchanged. *)
Definition m_step (m : machine) (e : event) : machine :=
  match e with
  | EUserAuthed h hh u c ts =>
      if decide (h <> hh /\ m_tasks m !! h = None /\ m_tasks m !! hh = None) then
        set_task (set_task m h (Task (OUser u c) [] true 0)) hh (Task OOther (user_connected valid u c ts h) false 0)
      else m
  | EBrokerAuthed h hh b c =>
      if decide (h <> hh /\ m_tasks m !! h = None /\ m_tasks m !! hh = None) then
        set_task (set_task m h (Task (OBroker b c) [] true 0)) hh (Task OOther (broker_connected b c h) false 0)
      else m
  | ESync hh =>
      match m_tasks m !! hh with None => set_task m hh (Task OOther sync_round false 0) | Some _ => m end
  | EKick hh u =>
      match m_tasks m !! hh with None => set_task m hh (Task OOther [ARemoveUser u] false 0) | Some _ => m end
  | EFrame h raw hk =>
      match m_tasks m !! h with
      | Some (Task o [] true n) =>
          let '(acts, go) := loop_frame o raw hk in
          Machine (m_conns m) (<[h := Task o acts go (S n)]> (m_tasks m)) (m_sent m)
                  (m_rcvd m ++ [Rcvd h (S n) raw hk])
      | _ => m
      end
  | ERecvErr h =>
      match m_tasks m !! h with
      | Some (Task o [] true n) => set_task m h (Task o (loop_error o) false n)
      | _ => m
      end
  | ERun h good =>
      match m_tasks m !! h with
      | Some (Task o (a :: rest) op n) =>
          let '(s', nxt, es) := act_step (fun _ => good) (m_conns m) a in
          Machine s' (<[h := Task o (nxt ++ rest) op n]> (m_tasks m)) (m_sent m ++ map (Sent h n) es) (m_rcvd m)
      | _ => m
      end
  | ECancel h =>
      match m_tasks m !! h with
      | Some (Task o _ _ n) =>
          if decide (h ∈ aborted (m_conns m)) then set_task m h (Task o [] false n) else m
      | None => m
      end
  end.

Definition m_run (i : bid) (es : list event) : machine := fold_left m_step es (m_init i).
End machine.
