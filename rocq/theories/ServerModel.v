(** Model of the main loops of the servers: which tasks run, and what ends them. Definitions only.

    /repo/cdn-broker/src/lib.rs 260-319, /repo/cdn-broker/src/tasks/{user,broker}/listener.rs,
    /repo/cdn-marshal/src/lib.rs 146-179, /repo/cdn-broker/src/binaries/broker.rs and
    /repo/cdn-marshal/src/binaries/marshal.rs (the last lines of [main]).

    Simplified: what the tasks do is in the other models; here a periodic task does rounds, a listener accepts, and a connection's tasks
    (set-up, authentication, receive loop) are one thing that ends at some time. The task that serves metrics is left out: nobody
    waits for it. Aborted tasks stop at once. *)
From stdpp Require Import list.
From Coq Require Import NArith.

(** lib.rs 271-295: the tasks of a broker; a marshal's main loop (lib.rs 153-178) is its only listener. *)
Inductive task := THeartbeat | TSync | TWhitelist | TUsers | TBrokers.
Global Instance task_eq_dec : EqDecision task.
Proof. solve_decision. Defined.
Definition broker_tasks : list task := [THeartbeat; TSync; TWhitelist; TUsers; TBrokers].
Definition marshal_tasks : list task := [TUsers].

Inductive sev :=
  | SAccept (k : task) (r : option N)  (* [accept] of a listener returns: a connection, or an error *)
  | SPanic (k : task)                  (* a task panics *)
  | SRound (k : task)                  (* a periodic task is at the start of a round *)
  | SEnd (c : N)                       (* the tasks of a connection end: it closes, fails, or panics *)
  | SPoll.                             (* [start] looks at its tasks *)

Record server := Server {
  v_tasks : list task;  (* those that run *)
  v_main : bool;        (* [start] has not returned *)
  v_conns : list N;     (* the connections with running tasks *)
  v_rounds : list task; (* the rounds done, the last one first *)
}.

Section server.
(** The tasks [start] waits for. *)
Variable tasks : list task.
(** Does the process end when [start] returns? (The binaries: yes; others that use the library: as they like.) *)
Variable exits : bool.

Definition listener (k : task) : bool := match k with TUsers | TBrokers => true | _ => false end.
Definition stop (k : task) (l : list task) : list task := List.filter (fun x => negb (bool_decide (x = k))) l.
(** lib.rs 303-318: when one of the tasks has ended [start] returns, dropping the handles of the others, which aborts them. *)
Definition poll (s : server) : server :=
  if v_main s && negb (forallb (fun k => bool_decide (k ∈ v_tasks s)) tasks)
  then Server [] false (if exits then [] else v_conns s) (v_rounds s)
  else s.
Definition s_step (s : server) (e : sev) : server :=
  match e with
  (* listener.rs 24-45: a new connection gets a task of its own; an error ends the listener *)
  | SAccept k r =>
      if listener k && bool_decide (k ∈ v_tasks s) then
        match r with
        | Some c => Server (v_tasks s) (v_main s) (v_conns s ++ [c]) (v_rounds s)
        | None => Server (stop k (v_tasks s)) (v_main s) (v_conns s) (v_rounds s)
        end
      else s
  | SPanic k => Server (stop k (v_tasks s)) (v_main s) (v_conns s) (v_rounds s)
  | SRound k =>
      if negb (listener k) && bool_decide (k ∈ v_tasks s)
      then Server (v_tasks s) (v_main s) (v_conns s) (k :: v_rounds s) else s
  | SEnd c => Server (v_tasks s) (v_main s) (List.filter (fun x => negb (bool_decide (x = c))) (v_conns s)) (v_rounds s)
  | SPoll => poll s
  end.
Definition s_init : server := Server tasks true [] [].
Definition s_run (s : server) (es : list sev) : server := fold_left s_step es s.
End server.
