(** Model of the task that announces news every ten seconds — [run_sync_task] of
    /repo/cdn-broker/src/tasks/broker/sync.rs 129-145 — over the network of NetModel.v and a clock.
    Definitions only.

    The clock goes forward in steps of any size ([CTick]), everything else takes no time by itself.
    Three things hold up the clock: a sync task that is asleep wakes up in time; one that has finished
    its round goes to sleep at once; and handlers of connections, rounds and the removal of users who
    are no longer on the whitelist (all tasks but the receive loops) finish within [delay] of their
    beginning. None of these tasks waits for anybody: they send on connections with other
    brokers only, whose queues are not bounded (cdn-broker/src/lib.rs 241, cdn-proto/src/connection/limiter/mod.rs 28).
    [delay] stands for the time for computing and getting hold of locks.

    Simplified: the time is a natural number of seconds; all clocks show the same. *)
From stdpp Require Import gmap list.
From Coq Require Import NArith.
From Verif Require Import IdModel VMapModel ConnModel TopicModel MsgModel RouteModel TaskModel TaskOrder NetModel.

(** The sync task of a broker: its round is task [h]; or it sleeps until [w]. *)
Inductive sync_task := InRound (h : N) | Asleep (w : N).

(** [ck_past]: the earlier moments (time and history of the network), which only say how old tasks are. *)
Record clock := Clock { ck_now : N; ck_events : list nevent; ck_sync : gmap bid sync_task; ck_past : list (N * list nevent) }.

Inductive cevent :=
  (* cdn-broker/src/lib.rs 277: the sync task of broker [b] starts, with its first round (sync.rs 129-139) *)
  | CStart (b : bid) (h : N)
  (* sync.rs 142: the round is over; 10 s of sleep *)
  | CSleep (b : bid)
  (* sync.rs 142, 130-139: the sleep is over; the next round *)
  | CWake (b : bid) (h : N)
  (* anything else in the network *)
  | CNet (e : nevent)
  (* time passes *)
  | CTick (d : N).

Section clock.
Variable deser : bytes -> option message.
Variable dec_users : bytes -> option direct_map.
Variable dec_topics : bytes -> option topic_map.
Variable valid : N -> bool.
Variable enc_users : direct_map -> bytes.
Variable enc_topics : topic_map -> bytes.
Variable delay : N.
Notation n_run := (n_run deser dec_users dec_topics valid enc_users enc_topics).
Notation broker_at := (broker_at deser dec_users dec_topics valid).

(** The task has nothing left to do. *)
Definition idle (n : net) (b : bid) (h : N) : bool :=
  match m_tasks (broker_at n b) !! h with Some (Task _ (_ :: _) _ _) => false | _ => true end.

(** All tasks but the receive loops. *)
Definition other_tasks (n : net) : list (bid * N) :=
  flat_map (fun bt : bid * list event =>
    omap (fun ht : N * task => match t_owner ht.2 with OOther => Some (bt.1, ht.1) | _ => None end) (map_to_list (m_tasks (broker_at n bt.1))))
    (map_to_list (n_trace n)).

(** Nothing forbids that it gets as late as [now]. *)
Definition may_be (s : clock) (now : N) : bool :=
  let n := n_run (ck_events s) in
  forallb (fun bx : bid * sync_task => match bx.2 with Asleep w => (now <=? w)%N | InRound h => negb (idle n bx.1 h) end) (map_to_list (ck_sync s))
  && forallb (fun p : N * list nevent => (now <=? p.1 + delay)%N || forallb (fun bh => idle n bh.1 bh.2) (other_tasks (n_run p.2))) (ck_past s).

(** Something happens in the network. *)
Definition happens (s : clock) (e : nevent) (sync : gmap bid sync_task) : clock :=
  Clock (ck_now s) (ck_events s ++ [e]) sync (ck_past s ++ [(ck_now s, ck_events s ++ [e])]).

(** A round of broker [b] begins. *)
Definition begins (s : clock) (b : bid) (h : N) : clock :=
  match m_tasks (broker_at (n_run (ck_events s)) b) !! h with
  | None => happens s (NStep b (ESync h)) (<[b := InRound h]> (ck_sync s))
  | Some _ => s
  end.

(** One event; an event that is not possible leaves the state unchanged. *)
Definition clock_step (s : clock) (e : cevent) : clock :=
  match e with
  | CStart b h => match ck_sync s !! b with None => begins s b h | Some _ => s end
  | CSleep b =>
      match ck_sync s !! b with
      | Some (InRound h) =>
          if idle (n_run (ck_events s)) b h then Clock (ck_now s) (ck_events s) (<[b := Asleep (ck_now s + 10)%N]> (ck_sync s)) (ck_past s) else s
      | _ => s
      end
  | CWake b h =>
      match ck_sync s !! b with
      | Some (Asleep w) => if (w <=? ck_now s)%N then begins s b h else s
      | _ => s
      end
  | CNet (NStep _ (ESync _)) => s
  | CNet e => happens s e (ck_sync s)
  | CTick d => if may_be s (ck_now s + d)%N then Clock (ck_now s + d)%N (ck_events s) (ck_sync s) (ck_past s) else s
  end.

Definition clock_run (cs : list cevent) : clock := fold_left clock_step cs (Clock 0 [] ∅ [(0%N, [])]).
End clock.
