(** Model of a network of brokers: one running broker (TaskModel.v) per identity, joined by
    links. Definitions only.

    A link is what the handshake of /repo/cdn-broker/src/tasks/broker/handler.rs 31-67
    (called for dialled connections from tasks/broker/heartbeat.rs 80-105 and for accepted
    ones from tasks/broker/listener.rs 22-47) leaves behind: a connection between two
    brokers, of which each end has a receive loop. What one end sends on its connection is
    received by the loop of the other end in the order sent, each frame at most once, and
    possibly only up to some point (cdn-proto/src/connection/protocols/mod.rs 88-266;
    theorems C40-C42 of PropertiesWire.v are about that layer).

    Simplifications: both ends of a link come into being in one event ([NUp]; every later
    step of either end is a separate event, which may never happen); every broker presents
    its own identity in the handshake; publications are any frames on users' connections;
    other brokers than those of the model (for instance brokers that deviate from the code)
    do not exist. *)
From stdpp Require Import gmap list.
From Coq Require Import NArith.
From Verif Require Import IdModel VMapModel ConnModel TopicModel MsgModel RouteModel TaskModel TaskOrder.

(** [n_trace]: the events of each broker so far; [n_links]: (broker, its connection) to
    (broker, its receive loop) at the other end. *)
Record net := Net { n_trace : gmap bid (list event); n_links : gmap (bid * N) (bid * N) }.

Inductive nevent :=
  (* a user is authenticated at broker [b] on connection [c] (user/handler.rs 29-76) *)
  | NUser (b : bid) (h hh : N) (u : ukey) (c : N) (ts : list N)
  (* brokers [a] and [b] authenticate each other on a new connection: [ca] at [a], [cb] at [b] *)
  | NUp (a : bid) (ha hha ca : N) (b : bid) (hb hhb cb : N)
  (* the user behind loop [h] of broker [b] sends a frame (user/handler.rs 104-106) *)
  | NPublish (b : bid) (h : N) (raw : bytes) (hk : hook)
  (* the other end of connection [c] of broker [a] receives its next frame (broker/handler.rs 130-132) *)
  | NDeliver (a : bid) (c : N) (hk : hook)
  (* any step of broker [b] that receives nothing *)
  | NStep (b : bid) (e : event).

Section net.
Variable deser : bytes -> option message.
Variable dec_users : bytes -> option direct_map.
Variable dec_topics : bytes -> option topic_map.
Variable valid : N -> bool.
(** The bytes of a sync message: rkyv inside [Message::UserSync]/[TopicSync], serialised
    (tasks/broker/sync.rs 23-42). *)
Variable enc_users : direct_map -> bytes.
Variable enc_topics : topic_map -> bytes.

Definition wire (f : frame) : bytes :=
  match f with FRelay raw => raw | FUserSync m => enc_users m | FTopicSync m => enc_topics m end.

Definition trace (n : net) (b : bid) : list event := default [] (n_trace n !! b).
Definition broker_at (n : net) (b : bid) : machine := m_run deser dec_users dec_topics valid b (trace n b).

(** Everything sent on connection [c], in order. *)
Definition sent_on (m : machine) (c : N) : list sent := filter (fun x => e_conn (s_what x) = c) (m_sent m).

Definition extend (n : net) (b : bid) (e : event) : net :=
  Net (<[b := trace n b ++ [e]]> (n_trace n)) (n_links n).

(** Connections and tasks get fresh names. *)
Definition fresh_pair (n : net) (b : bid) (h hh c : N) : Prop :=
  h <> hh /\ m_tasks (broker_at n b) !! h = None /\ m_tasks (broker_at n b) !! hh = None
  /\ c ∉ authed_conns (trace n b).

Definition receives_nothing (e : event) : bool :=
  match e with ESync _ | EKick _ _ | ERecvErr _ | ERun _ _ | ECancel _ => true | _ => false end.

(** One event; an event that is not possible leaves the network unchanged. *)
Definition n_step (n : net) (e : nevent) : net :=
  match e with
  | NUser b h hh u c ts => if decide (fresh_pair n b h hh c) then extend n b (EUserAuthed h hh u c ts) else n
  | NUp a ha hha ca b hb hhb cb =>
      if decide (a <> b /\ fresh_pair n a ha hha ca /\ fresh_pair n b hb hhb cb) then
        let n1 := extend (extend n a (EBrokerAuthed ha hha b ca)) b (EBrokerAuthed hb hhb a cb) in
        Net (n_trace n1) (<[(a, ca) := (b, hb)]> (<[(b, cb) := (a, ha)]> (n_links n1)))
      else n
  | NPublish b h raw hk =>
      match m_tasks (broker_at n b) !! h with
      | Some (Task (OUser _ _) _ _ _) => extend n b (EFrame h raw hk)
      | _ => n
      end
  | NDeliver a c hk =>
      match n_links n !! (a, c) with
      | Some (b, h) =>
          match m_tasks (broker_at n b) !! h with
          | Some t =>
              match sent_on (broker_at n a) c !! t_frames t with
              | Some x => extend n b (EFrame h (wire (e_frame (s_what x))) hk)
              | None => n
              end
          | None => n
          end
      | None => n
      end
  | NStep b e => if receives_nothing e then extend n b e else n
  end.

Definition n_run (es : list nevent) : net := fold_left n_step es (Net ∅ ∅).
End net.
