(** Model of the heartbeat task in time — /repo/cdn-broker/src/tasks/broker/heartbeat.rs 28-110 — over
    the network and the clock of ClockModel.v. Definitions only.

    A heartbeat task asks the discovery service, which takes at most 5 s for each of its two queries
    (37-41, 54), starts one dial for every broker it is to link with, and sleeps for 10 s. The dials go
    on by themselves (87-104); each is over within [limit], which is to cover the resolution of the
    name (which has no time limit), connecting (5 s, cdn-proto/src/connection/protocols/tcp.rs 76) and
    authenticating (5 s, tasks/broker/handler.rs 40).

    Simplified: as in MeshModel.v and ClockModel.v; in particular the two ends of a link are
    authenticated in one event, and the listing is an argument. *)
From stdpp Require Import gmap list.
From Coq Require Import NArith.
From Verif Require Import IdModel VMapModel ConnModel TopicModel MsgModel RouteModel TaskModel TaskOrder NetModel DialModel MeshModel ClockModel.

(** The heartbeat task of a broker: it has been asking since [s]; or it sleeps until [w]. *)
Inductive beat_task := Asking (s : N) | Resting (w : N).

(** [pa_hist]: what has happened in the network and on the clock; [pa_dials]: the dials under way (from, to, begun at). *)
Record pace := Pace { pa_hist : list cevent; pa_beat : gmap bid beat_task; pa_dials : list (bid * bid * N) }.

Inductive pevent :=
  (* cdn-broker/src/lib.rs 270-273: the heartbeat task of broker [a] starts *)
  | PStart (a : bid)
  (* heartbeat.rs 53-55, 66-107: the listing succeeds; dials; 10 s of sleep *)
  | PList (a : bid) (others : gset bid)
  (* heartbeat.rs 56-64: the listing fails or takes too long; once again *)
  | PRetry (a : bid)
  (* heartbeat.rs 107, 33: the sleep is over *)
  | PWake (a : bid)
  (* the dial of [b] by [a] that began at [s] succeeds (heartbeat.rs 89-104, broker/handler.rs 31-67) *)
  | PDial (a : bid) (ha hha ca : N) (b : bid) (hb hhb cb : N) (s : N)
  (* it fails (heartbeat.rs 96-99, broker/handler.rs 57-66) *)
  | PFail (a b : bid) (s : N)
  (* anything else in the network and on the clock *)
  | PClock (e : cevent).

Section pace.
Variable deser : bytes -> option message.
Variable dec_users : bytes -> option direct_map.
Variable dec_topics : bytes -> option topic_map.
Variable valid : N -> bool.
Variable enc_users : direct_map -> bytes.
Variable enc_topics : topic_map -> bytes.
Variable delay limit : N.
Notation n_run := (n_run deser dec_users dec_topics valid enc_users enc_topics).
Notation broker_at := (broker_at deser dec_users dec_topics valid).
Notation fresh_pair := (fresh_pair deser dec_users dec_topics valid).
Notation clock_run := (clock_run deser dec_users dec_topics valid enc_users enc_topics delay).
Notation may_be := (may_be deser dec_users dec_topics valid enc_users enc_topics delay).

(** One dial is no longer under way. *)
Fixpoint over (x : bid * bid * N) (l : list (bid * bid * N)) : list (bid * bid * N) :=
  match l with [] => [] | y :: l' => if decide (y = x) then l' else y :: over x l' end.

(** Nothing forbids that it gets as late as [now]. *)
Definition may_pass (s : pace) (now : N) : bool :=
  may_be (clock_run (pa_hist s)) now
  && forallb (fun bx : bid * beat_task => match bx.2 with Asking t => (now <=? t + 10 + delay)%N | Resting w => (now <=? w)%N end) (map_to_list (pa_beat s))
  && forallb (fun d : bid * bid * N => (now <=? d.2 + limit)%N) (pa_dials s).

(** One event; an event that is not possible leaves the state unchanged. *)
Definition pace_step (s : pace) (e : pevent) : pace :=
  let k := clock_run (pa_hist s) in
  let n := n_run (ck_events k) in
  match e with
  | PStart a => match pa_beat s !! a with None => Pace (pa_hist s) (<[a := Asking (ck_now k)]> (pa_beat s)) (pa_dials s) | Some _ => s end
  | PList a others =>
      match pa_beat s !! a with
      | Some (Asking _) => Pace (pa_hist s) (<[a := Resting (ck_now k + 10)%N]> (pa_beat s))
          (pa_dials s ++ map (fun b => (a, b, ck_now k)) (elements (dials a others (connected_to (broker_at n a)))))
      | _ => s
      end
  | PRetry a =>
      match pa_beat s !! a with
      | Some (Asking _) => Pace (pa_hist s) (<[a := Asking (ck_now k)]> (pa_beat s)) (pa_dials s)
      | _ => s
      end
  | PWake a =>
      match pa_beat s !! a with
      | Some (Resting w) => if (w <=? ck_now k)%N then Pace (pa_hist s) (<[a := Asking (ck_now k)]> (pa_beat s)) (pa_dials s) else s
      | _ => s
      end
  | PDial a ha hha ca b hb hhb cb t =>
      if decide ((a, b, t) ∈ pa_dials s /\ a <> b /\ fresh_pair n a ha hha ca /\ fresh_pair n b hb hhb cb) then
        Pace (pa_hist s ++ [CNet (NUp a ha hha ca b hb hhb cb)]) (pa_beat s) (over (a, b, t) (pa_dials s))
      else s
  | PFail a b t => Pace (pa_hist s) (pa_beat s) (over (a, b, t) (pa_dials s))
  | PClock (CNet (NUp _ _ _ _ _ _ _ _)) => s
  | PClock (CTick d) => if may_pass s (ck_now k + d)%N then Pace (pa_hist s ++ [CTick d]) (pa_beat s) (pa_dials s) else s
  | PClock e => Pace (pa_hist s ++ [e]) (pa_beat s) (pa_dials s)
  end.

Definition pace_run (ps : list pevent) : pace := fold_left pace_step ps (Pace [] ∅ []).
End pace.
