(** Model of the broker's connection state — /repo/cdn-broker/src/connections/mod.rs
    (with direct/mod.rs and broadcast/mod.rs). Definitions only.

    Simplifications: a [Connection] and an [AbortHandle] are opaque numbers; calls to
    [AbortHandle::abort] are recorded in the list [aborted]; the two process-wide gauges
    of /repo/cdn-broker/src/metrics.rs are the fields [gauge_users]/[gauge_brokers] (one
    broker per process); logging is omitted. *)
From stdpp Require Import gmap fin_maps fin_sets.
From Coq Require Import NArith ZArith.
From Verif Require Import IdModel RelMapModel VMapModel.

(** [UserPublicKey = Arc<Vec<u8>>], /repo/cdn-proto/src/connection/mod.rs. *)
Notation ukey := bytes.
Notation conn := N (only parsing).
Notation handle := N (only parsing).

(** broadcast/mod.rs 21-24: [SubscriptionStatus]. *)
Inductive sub_status := Subscribed | Unsubscribed.
Global Instance sub_status_eq_dec : EqDecision sub_status.
Proof. solve_decision. Defined.

(** broadcast/mod.rs 26: [TopicSyncMap = VersionedMap<Topic, SubscriptionStatus, u32>]. *)
Notation topic_map := (vmap N sub_status N).
(** direct/mod.rs: [DirectMap = VersionedMap<UserPublicKey, BrokerIdentifier, BrokerIdentifier>]. *)
Notation direct_map := (vmap bytes bid bid).

(** [>] on the [u32] conflict identity of topic maps. *)
Definition u32_gtb (a b : N) : bool := N.ltb b a.

(** connections/mod.rs 34-38: [Broker]. *)
Record broker_entry := BrokerEntry {
  be_conn : N;
  be_topics : topic_map;
  be_handle : N;
}.

(** connections/mod.rs 40-53 [Connections] and broadcast/mod.rs 30-36 [BroadcastMap]
    (fields [bm_users] to [previous_topics]); plus the gauges and the abort log. *)
Record conns := Conns {
  identity : bid;
  users : gmap bytes (N * N);
  brokers : gmap bid broker_entry;
  direct : direct_map;
  bm_users : relmap bytes N;
  bm_brokers : relmap bid N;
  topic_sync : topic_map;
  previous_topics : gset N;
  gauge_users : Z;
  gauge_brokers : Z;
  aborted : list N;
}.

(** Field updates (Rust assigns to the field through [&mut self]). *)
Definition set_users f (s : conns) : conns :=
  Conns (identity s) f (brokers s) (direct s) (bm_users s) (bm_brokers s) (topic_sync s) (previous_topics s) (gauge_users s) (gauge_brokers s) (aborted s).
Definition set_brokers f (s : conns) : conns :=
  Conns (identity s) (users s) f (direct s) (bm_users s) (bm_brokers s) (topic_sync s) (previous_topics s) (gauge_users s) (gauge_brokers s) (aborted s).
Definition set_direct f (s : conns) : conns :=
  Conns (identity s) (users s) (brokers s) f (bm_users s) (bm_brokers s) (topic_sync s) (previous_topics s) (gauge_users s) (gauge_brokers s) (aborted s).
Definition set_bm_users f (s : conns) : conns :=
  Conns (identity s) (users s) (brokers s) (direct s) f (bm_brokers s) (topic_sync s) (previous_topics s) (gauge_users s) (gauge_brokers s) (aborted s).
Definition set_bm_brokers f (s : conns) : conns :=
  Conns (identity s) (users s) (brokers s) (direct s) (bm_users s) f (topic_sync s) (previous_topics s) (gauge_users s) (gauge_brokers s) (aborted s).
Definition set_topic_sync f (s : conns) : conns :=
  Conns (identity s) (users s) (brokers s) (direct s) (bm_users s) (bm_brokers s) f (previous_topics s) (gauge_users s) (gauge_brokers s) (aborted s).
Definition set_previous f (s : conns) : conns :=
  Conns (identity s) (users s) (brokers s) (direct s) (bm_users s) (bm_brokers s) (topic_sync s) f (gauge_users s) (gauge_brokers s) (aborted s).
Definition set_gauge_users f (s : conns) : conns :=
  Conns (identity s) (users s) (brokers s) (direct s) (bm_users s) (bm_brokers s) (topic_sync s) (previous_topics s) f (gauge_brokers s) (aborted s).
Definition set_gauge_brokers f (s : conns) : conns :=
  Conns (identity s) (users s) (brokers s) (direct s) (bm_users s) (bm_brokers s) (topic_sync s) (previous_topics s) (gauge_users s) f (aborted s).
Definition set_aborted f (s : conns) : conns :=
  Conns (identity s) (users s) (brokers s) (direct s) (bm_users s) (bm_brokers s) (topic_sync s) (previous_topics s) (gauge_users s) (gauge_brokers s) f.

(** connections/mod.rs 58-66: [new]. *)
Definition c_new (i : bid) : conns :=
  Conns i ∅ ∅ (vm_new i) rm_new rm_new (vm_new 0%N) ∅ 0 0 [].

(** connections/mod.rs 69-71. *)
Definition c_get_broker_identifier_of_user (s : conns) (u : ukey) : option bid := vm_get (direct s) u.

(** connections/mod.rs 74-81. *)
Definition c_get_broker_connection (s : conns) (b : bid) : option N :=
  be_conn <$> brokers s !! b.

(** connections/mod.rs 84-86. *)
Definition c_get_user_connection (s : conns) (u : ukey) : option N := fst <$> users s !! u.

(** connections/mod.rs 89-91 (and identically 241-243, [all_brokers]). *)
Definition c_get_broker_identifiers (s : conns) : list bid := elements (dom (brokers s)).

(** connections/mod.rs 247-249: [all_users]. *)
Definition c_all_users (s : conns) : list ukey := elements (dom (users s)).

(** connections/mod.rs 127-129: [num_users]. *)
Definition c_num_users (s : conns) : nat := size (users s).

(** connections/mod.rs 94-124: [get_interested_by_topic]: the recipients are collected in
    hash sets, topic by topic, then turned into vectors. *)
Definition c_get_interested_by_topic (s : conns) (topics : list N) (to_users_only : bool)
  : list bid * list ukey :=
  let urec := fold_left (fun (acc : gset bytes) t =>
                fold_left (fun acc u => {[u]} ∪ acc) (rm_get_keys_by_value (bm_users s) t) acc) topics ∅ in
  let brec := fold_left (fun (acc : gset bid) t =>
                if to_users_only then acc
                else fold_left (fun acc b => {[b]} ∪ acc) (rm_get_keys_by_value (bm_brokers s) t) acc) topics ∅ in
  (elements brec, elements urec).

(** connections/mod.rs 133-139: [get_full_user_sync]: a clone of the whole map. *)
Definition c_get_full_user_sync (s : conns) : option direct_map :=
  if decide (entries (direct s) = ∅) then None else Some (direct s).

(** connections/mod.rs 143-150: [get_partial_user_sync]. *)
Definition c_get_partial_user_sync (s : conns) : conns * option direct_map :=
  let '(d, m) := vm_diff (direct s) in
  (set_direct m s, if vm_is_empty d then None else Some d).

(** connections/mod.rs 308-324: [remove_broker]. *)
Definition c_remove_broker (s : conns) (b : bid) : conns :=
  let s1 :=
    match brokers s !! b with
    | Some be =>
        set_aborted (aborted s ++ [be_handle be])
          (set_gauge_brokers (gauge_brokers s - 1)%Z (set_brokers (delete b (brokers s)) s))
    | None => s
    end in
  set_bm_brokers (rm_remove_key (bm_brokers s1) b) s1.

(** connections/mod.rs 330-351: [remove_user]. *)
Definition c_remove_user (s : conns) (u : ukey) : conns :=
  let s1 :=
    match users s !! u with
    | Some (_, h) =>
        set_aborted (aborted s ++ [h])
          (set_gauge_users (gauge_users s - 1)%Z (set_users (delete u (users s)) s))
    | None => s
    end in
  let s2 := set_bm_users (rm_remove_key (bm_users s1) u) s1 in
  set_direct (vm_remove_if_equals (direct s2) u (identity s2)) s2.

(** connections/mod.rs 252-274: [add_broker]. *)
Definition c_add_broker (s : conns) (b : bid) (c h : N) : conns :=
  let s1 := set_gauge_brokers (gauge_brokers s + 1)%Z s in
  let s2 := c_remove_broker s1 b in
  set_brokers (<[b := BrokerEntry c (vm_new 0%N) h]> (brokers s2)) s2.

(** connections/mod.rs 278-304: [add_user]. *)
Definition c_add_user (s : conns) (u : ukey) (c : N) (topics : list N) (h : N) : conns :=
  let s1 := set_gauge_users (gauge_users s + 1)%Z s in
  let s2 := c_remove_user s1 u in
  let s3 := set_users (<[u := (c, h)]> (users s2)) s2 in
  let s4 := set_direct (vm_insert (direct s3) u (identity s3)) s3 in
  set_bm_users (rm_associate (bm_users s4) u topics) s4.

(** connections/mod.rs 354-362: [subscribe_broker_to]. *)
Definition c_subscribe_broker_to (s : conns) (b : bid) (ts : list N) : conns :=
  set_bm_brokers (rm_associate (bm_brokers s) b ts) s.
(** connections/mod.rs 365-369: [subscribe_user_to]. *)
Definition c_subscribe_user_to (s : conns) (u : ukey) (ts : list N) : conns :=
  set_bm_users (rm_associate (bm_users s) u ts) s.
(** connections/mod.rs 372-380: [unsubscribe_broker_from]. *)
Definition c_unsubscribe_broker_from (s : conns) (b : bid) (ts : list N) : conns :=
  set_bm_brokers (rm_dissociate (bm_brokers s) b ts) s.
(** connections/mod.rs 383-387: [unsubscribe_user_from]. *)
Definition c_unsubscribe_user_from (s : conns) (u : ukey) (ts : list N) : conns :=
  set_bm_users (rm_dissociate (bm_users s) u ts) s.

(** connections/mod.rs 154-162: [apply_user_sync]. *)
Definition c_apply_user_sync (s : conns) (m : direct_map) : conns :=
  let '(d, changes) := vm_merge bid_gtb (direct s) m in
  fold_left (fun s p => c_remove_user s p.1) changes (set_direct d s).

(** connections/mod.rs 182-190: the loop body of [apply_topic_sync]. *)
Definition c_apply_topic_change (b : bid) (s : conns) (p : N * option sub_status) : conns :=
  if decide (p.2 = Some Subscribed) then c_subscribe_broker_to s b [p.1]
  else c_unsubscribe_broker_from s b [p.1].

(** connections/mod.rs 165-191: [apply_topic_sync]. *)
Definition c_apply_topic_sync (s : conns) (b : bid) (m : topic_map) : conns :=
  match brokers s !! b with
  | None => c_remove_broker s b
  | Some be =>
      let '(local, changes) := vm_merge u32_gtb (be_topics be) m in
      let s1 := set_brokers (<[b := BrokerEntry (be_conn be) local (be_handle be)]> (brokers s)) s in
      fold_left (c_apply_topic_change b) changes s1
  end.

(** connections/mod.rs 195-201: [get_full_topic_sync]. *)
Definition c_get_full_topic_sync (s : conns) : option topic_map :=
  if decide (entries (topic_sync s) = ∅) then None else Some (topic_sync s).

(** connections/mod.rs 205-237: [get_partial_topic_sync]. *)
Definition c_get_partial_topic_sync (s : conns) : conns * option topic_map :=
  let previous := previous_topics s in
  let now : gset N := list_to_set (rm_get_values (bm_users s)) in
  let added := elements (now ∖ previous) in
  let removed := elements (previous ∖ now) in
  match added, removed with
  | [], [] => (s, None)
  | _, _ =>
      let m1 := fold_left (fun m t => vm_insert m t Subscribed) added (topic_sync s) in
      let m2 := fold_left (fun m t => vm_insert m t Unsubscribed) removed m1 in
      let '(d, m3) := vm_diff m2 in
      (set_topic_sync m3 (set_previous now s), Some d)
  end.

(** The state-changing operations a running broker performs on [Connections] (call sites:
    tasks/user/handler.rs 64-76, 145-157; tasks/user/sender.rs; tasks/broker/handler.rs
    84-116, 172-187; tasks/broker/sender.rs; tasks/broker/sync.rs 72, 113;
    tasks/broker/whitelist.rs). *)
Inductive conn_op :=
  | CAddUser (u : ukey) (c : N) (ts : list N) (h : N)
  | CRemoveUser (u : ukey)
  | CAddBroker (b : bid) (c h : N)
  | CRemoveBroker (b : bid)
  | CSubscribeUser (u : ukey) (ts : list N)
  | CUnsubscribeUser (u : ukey) (ts : list N)
  | CApplyUserSync (m : direct_map)
  | CApplyTopicSync (b : bid) (m : topic_map)
  | CPartialUserSync
  | CPartialTopicSync.

Definition c_step (s : conns) (o : conn_op) : conns :=
  match o with
  | CAddUser u c ts h => c_add_user s u c ts h
  | CRemoveUser u => c_remove_user s u
  | CAddBroker b c h => c_add_broker s b c h
  | CRemoveBroker b => c_remove_broker s b
  | CSubscribeUser u ts => c_subscribe_user_to s u ts
  | CUnsubscribeUser u ts => c_unsubscribe_user_from s u ts
  | CApplyUserSync m => c_apply_user_sync s m
  | CApplyTopicSync b m => c_apply_topic_sync s b m
  | CPartialUserSync => (c_get_partial_user_sync s).1
  | CPartialTopicSync => (c_get_partial_topic_sync s).1
  end.

Definition c_run (i : bid) (os : list conn_op) : conns := fold_left c_step os (c_new i).
