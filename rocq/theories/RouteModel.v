(** Model of the broker's message handling —
    /repo/cdn-broker/src/tasks/user/handler.rs, tasks/broker/handler.rs,
    tasks/user/sender.rs, tasks/broker/sender.rs, tasks/broker/sync.rs. Definitions only.

    Every critical section (one acquisition of the [connections] lock) and every send on a
    connection is one action [act]; a task is a list of pending actions. [act_step]
    executes one action and returns what the task must do next, so tasks can be
    interleaved at lock granularity; [exec] runs a task without interruption.

    Simplifications: synchronisation messages are carried as maps ([FUserSync],
    [FTopicSync]) instead of their rkyv bytes; whether [send_message_raw] succeeds on a
    connection is decided by an oracle [ok]; failures of rkyv/capnp serialisation of our
    own maps are not modelled; logging is omitted. *)
From stdpp Require Import gmap list.
From Coq Require Import NArith.
From Verif Require Import IdModel VMapModel ConnModel TopicModel MsgModel.

(** What is put on a connection: bytes received earlier, or one of our own sync maps. *)
Inductive frame :=
  | FRelay (raw : bytes)
  | FUserSync (m : direct_map)
  | FTopicSync (m : topic_map).

(** One successful [send_message_raw]: addressed to a user or a broker, on a connection. *)
Record emission := Emit { e_to : bytes + bid; e_conn : N; e_frame : frame }.

(** One step of a task. *)
Inductive act :=
  | ADirect (recipient : ukey) (raw : bytes) (to_user_only : bool)
  | ABroadcast (topics : list N) (raw : bytes) (to_users_only : bool)
  | ALookupUser (u : ukey) (f : frame)
  | ASendUser (u : ukey) (c : N) (f : frame)
  | ALookupBroker (b : bid) (f : frame)
  | ASendBroker (b : bid) (c : N) (f : frame)
  | ASendBrokers (f : frame)
  | ARemoveUser (u : ukey)
  | ARemoveBroker (b : bid)
  | AAddUser (u : ukey) (c : N) (ts : list N) (h : N)
  | AAddBroker (b : bid) (c h : N)
  | ASubscribe (u : ukey) (ts : list N)
  | AUnsubscribe (u : ukey) (ts : list N)
  | AApplyUserSync (m : direct_map)
  | AApplyTopicSync (b : bid) (m : topic_map)
  | AFullTopicSync (b : bid)
  | AFullUserSync (b : bid)
  | APartialTopicSync
  | APartialUserSync.

Section route.
(** [send_message_raw] succeeds on this connection. *)
Variable ok : N -> bool.

(** tasks/broker/handler.rs 197-237: [handle_direct_message]; the directory is read once. *)
Definition direct_next (s : conns) (u : ukey) (raw : bytes) (to_user_only : bool) : list act :=
  match c_get_broker_identifier_of_user s u with
  | Some b =>
      if decide (b = identity s) then [ALookupUser u (FRelay raw)]
      else if to_user_only then [] else [ALookupBroker b (FRelay raw)]
  | None => []
  end.

(** tasks/broker/handler.rs 240-272: [handle_broadcast_message]; the recipients are read
    once, brokers are served first. *)
Definition broadcast_next (s : conns) (ts : list N) (raw : bytes) (to_users_only : bool) : list act :=
  let '(bs, us) := c_get_interested_by_topic s ts to_users_only in
  map (fun b => ALookupBroker b (FRelay raw)) bs ++ map (fun u => ALookupUser u (FRelay raw)) us.

(** One action: the new state, what the task does next, what was sent. *)
Definition act_step (s : conns) (a : act) : conns * list act * list emission :=
  match a with
  | ADirect u raw only => (s, direct_next s u raw only, [])
  | ABroadcast ts raw only => (s, broadcast_next s ts raw only, [])
  (* user/sender.rs 16-18 *)
  | ALookupUser u f =>
      (s, match c_get_user_connection s u with Some c => [ASendUser u c f] | None => [] end, [])
  (* user/sender.rs 22-29 *)
  | ASendUser u c f => if ok c then (s, [], [Emit (inl u) c f]) else (s, [ARemoveUser u], [])
  (* broker/sender.rs 25-29 *)
  | ALookupBroker b f =>
      (s, match c_get_broker_connection s b with Some c => [ASendBroker b c f] | None => [] end, [])
  (* broker/sender.rs 38-45 *)
  | ASendBroker b c f => if ok c then (s, [], [Emit (inr b) c f]) else (s, [ARemoveBroker b], [])
  (* broker/sender.rs 49-58 *)
  | ASendBrokers f => (s, map (fun b => ALookupBroker b f) (c_get_broker_identifiers s), [])
  (* user/sender.rs 26-28, user/handler.rs 65-68, whitelist.rs 39-41 *)
  | ARemoveUser u => (c_remove_user s u, [], [])
  (* broker/sender.rs 42-44, broker/handler.rs 84-87, 102-104, 114-116 *)
  | ARemoveBroker b => (c_remove_broker s b, [], [])
  (* user/handler.rs 74-76 *)
  | AAddUser u c ts h => (c_add_user s u c ts h, [], [])
  (* broker/handler.rs 93-95 *)
  | AAddBroker b c h => (c_add_broker s b c h, [], [])
  (* user/handler.rs 145-147 *)
  | ASubscribe u ts => (c_subscribe_user_to s u ts, [], [])
  (* user/handler.rs 155-157 *)
  | AUnsubscribe u ts => (c_unsubscribe_user_from s u ts, [], [])
  (* broker/handler.rs 172 *)
  | AApplyUserSync m => (c_apply_user_sync s m, [], [])
  (* broker/handler.rs 185-187 *)
  | AApplyTopicSync b m => (c_apply_topic_sync s b m, [], [])
  (* broker/sync.rs 90-104 *)
  | AFullTopicSync b =>
      (s, match c_get_full_topic_sync s with Some m => [ALookupBroker b (FTopicSync m)] | None => [] end, [])
  (* broker/sync.rs 49-63 *)
  | AFullUserSync b =>
      (s, match c_get_full_user_sync s with Some m => [ALookupBroker b (FUserSync m)] | None => [] end, [])
  (* broker/sync.rs 111-125 *)
  | APartialTopicSync =>
      let '(s', o) := c_get_partial_topic_sync s in
      (s', match o with Some m => [ASendBrokers (FTopicSync m)] | None => [] end, [])
  (* broker/sync.rs 70-83 *)
  | APartialUserSync =>
      let '(s', o) := c_get_partial_user_sync s in
      (s', match o with Some m => [ASendBrokers (FUserSync m)] | None => [] end, [])
  end.

(** Run a task without interruption. Every action spawns only strictly lower ones (four
    levels: sync, fan-out or routing decision, lookup, send, removal), so [fuel] bounds the depth. *)
Fixpoint exec (fuel : nat) (s : conns) (l : list act) : conns * list emission :=
  match fuel with
  | O => (s, [])
  | S fuel' =>
      fold_left (fun '(s, es) a =>
        let '(s1, nxt, e1) := act_step s a in
        let '(s2, e2) := exec fuel' s1 nxt in
        (s2, es ++ e1 ++ e2)) l (s, [])
  end.
End route.

(** Depth sufficient for every action (see [exec_depth] in RouteProofs.v). *)
Definition depth : nat := 6.

Section receive.
(** [Message::deserialize], message.rs 212-312. *)
Variable deser : bytes -> option message.
(** [rkyv::from_bytes] for the two map types, broker/handler.rs 166-170, 178-182. *)
Variable dec_users : bytes -> option direct_map.
Variable dec_topics : bytes -> option topic_map.
(** [Def::Topic::try_from(t).is_ok()]. *)
Variable valid : N -> bool.

(** tasks/user/handler.rs 104-162: one iteration of [user_receive_loop] on a received
    frame; the boolean says whether the loop continues. When it fails the spawned task
    removes the user (64-68). *)
Definition user_frame (u : ukey) (raw : bytes) (hk : hook) : list act * bool :=
  match deser raw with
  | None => ([ARemoveUser u], false)
  | Some m =>
      match hk m with
      | HSkip => ([], true)
      | HErr => ([ARemoveUser u], false)
      | HProcess m' =>
          match m' with
          | MDirect r _ => ([ADirect r raw false], true)
          | MBroadcast ts _ =>
              let '(ts', good) := prune valid ts in
              if good then ([ABroadcast ts' raw false], true) else ([ARemoveUser u], false)
          | MSubscribe ts =>
              let '(ts', good) := prune valid ts in
              if good then ([ASubscribe u ts'], true) else ([ARemoveUser u], false)
          | MUnsubscribe ts =>
              let '(ts', good) := prune valid ts in
              if good then ([AUnsubscribe u ts'], true) else ([ARemoveUser u], false)
          | _ => ([ARemoveUser u], false)
          end
      end
  end.

(** tasks/broker/handler.rs 130-193: one iteration of [broker_receive_loop]. *)
Definition broker_frame (b : bid) (raw : bytes) (hk : hook) : list act * bool :=
  match deser raw with
  | None => ([ARemoveBroker b], false)
  | Some m =>
      match hk m with
      | HSkip => ([], true)
      | HErr => ([ARemoveBroker b], false)
      | HProcess m' =>
          match m' with
          | MDirect r _ => ([ADirect r raw true], true)
          | MBroadcast ts _ => ([ABroadcast ts raw true], true)
          | MUserSync p =>
              match dec_users p with
              | Some d => ([AApplyUserSync d], true)
              | None => ([ARemoveBroker b], false)
              end
          | MTopicSync p =>
              match dec_topics p with
              | Some d => ([AApplyTopicSync b d], true)
              | None => ([ARemoveBroker b], false)
              end
          | _ => ([], true)
          end
      end
  end.

(** tasks/user/handler.rs 47, 74-90: what happens after a user was authenticated with topics
    [ts] on connection [c], its receive loop having handle [h] (feature
    [strong-consistency], on by default). *)
Definition user_connected (u : ukey) (c : N) (ts : list N) (h : N) : list act :=
  [AAddUser u c (prune valid ts).1 h; APartialTopicSync; APartialUserSync].

(** tasks/broker/handler.rs 93-117: what happens after a broker was authenticated. The two
    error branches concern failures of our own serialisation only (not modelled). *)
Definition broker_connected (b : bid) (c h : N) : list act :=
  [AAddBroker b c h; AFullTopicSync b; AFullUserSync b].

(** tasks/broker/sync.rs 129-145: one round of [run_sync_task]. *)
Definition sync_round : list act := [APartialUserSync; APartialTopicSync].

End receive.
