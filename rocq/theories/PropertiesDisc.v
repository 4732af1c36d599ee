(** Properties of the discovery service: permits (C27, C28), whitelist (C30), placement of
    users (C37), membership (C55). Statements only; the proofs are in DiscProofs*.v. *)
From stdpp Require Import gmap list.
From Coq Require Import NArith Lia.
From Verif Require Import IdModel DecModel DiscModel DiscSpec DiscProofs DiscProofs2 DiscProofs3.

(** Two brokers and two keys for the examples. *)
Definition ex_b1 : bid := Bid [49]%N [50]%N.
Definition ex_b2 : bid := Bid [51]%N [52]%N.
Definition ex_k1 : bytes := [7]%N.
Definition ex_k2 : bytes := [8]%N.
Definition ex_disc : list dop :=
  [DHeartbeat 1 1 ex_b1 5 60; DHeartbeat 2 2 ex_b2 4 60; DIssue 3 ex_b1 77 30 ex_k1; DIssue 3 ex_b2 78 30 ex_k2]%N.

(** * C27 *)
(** SQLite: between two acceptances of the same number, it was issued again. *)
Theorem C27_embedded_single_use : forall global os1 n1 b1 p k1 os2 n2 b2 k2,
  e_answer global os1 (DTake n1 b1 p) = Some k1 ->
  e_answer global (os1 ++ DTake n1 b1 p :: os2) (DTake n2 b2 p) = Some k2 ->
  exists now b ttl, In (DIssue now b p ttl k2) os2.
Proof. exact e_single_use. Qed.
Print Assumptions C27_embedded_single_use.
Example C27_embedded_single_use_nonvacuous :
  e_answer false ex_disc (DTake 4 ex_b1 77)%N = Some ex_k1
  /\ e_answer false (ex_disc ++ [DTake 4 ex_b1 77; DIssue 5 ex_b2 77 30 ex_k2]%N) (DTake 6 ex_b2 77)%N = Some ex_k2.
Proof. by vm_compute. Qed.

(** Redis: likewise, or the two acceptances are of two permits issued to two brokers that
    happen to have the same number. *)
Theorem C27_redis_single_use : forall global os1 n1 b1 p k1 os2 n2 b2 k2,
  r_answer global os1 (DTake n1 b1 p) = Some k1 ->
  r_answer global (os1 ++ DTake n1 b1 p :: os2) (DTake n2 b2 p) = Some k2 ->
  (exists now b ttl, In (DIssue now b p ttl k2) os2)
  \/ (global = false /\ bid_print b1 <> bid_print b2 /\ exists now1 ttl1 b1' now2 ttl2 b2',
        bid_print b1' = bid_print b1 /\ bid_print b2' = bid_print b2
        /\ In (DIssue now1 b1' p ttl1 k1) os1 /\ In (DIssue now2 b2' p ttl2 k2) os1).
Proof. exact r_single_use. Qed.
Print Assumptions C27_redis_single_use.
Example C27_redis_single_use_nonvacuous :
  r_answer true ex_disc (DTake 4 ex_b2 77)%N = Some ex_k1
  /\ r_answer true (ex_disc ++ [DTake 4 ex_b2 77; DIssue 5 ex_b2 77 30 ex_k2]%N) (DTake 6 ex_b1 77)%N = Some ex_k2.
Proof. by vm_compute. Qed.

(** Never more admissions with a key than permits issued for it. *)
Theorem C27_embedded_count : forall global k os, accepted (e_answer global) k os <= issued k os.
Proof. intros global k os. pose proof (e_count global k os). lia. Qed.
Print Assumptions C27_embedded_count.
Theorem C27_redis_count : forall global k os, accepted (r_answer global) k os <= issued k os.
Proof. intros global k os. pose proof (r_count global k os). lia. Qed.
Print Assumptions C27_redis_count.
Example C27_count_nonvacuous :
  accepted (e_answer false) ex_k1 (ex_disc ++ [DTake 4 ex_b1 77; DTake 4 ex_b1 77]%N) = 1
  /\ accepted (r_answer false) ex_k1 (ex_disc ++ [DTake 4 ex_b1 77; DTake 4 ex_b1 77]%N) = 1
  /\ issued ex_k1 ex_disc = 1.
Proof. by vm_compute. Qed.

(** * C28 *)
(** SQLite: an accepted permit was issued for the key returned, to this broker, no clean-up
    since was later than its expiry, and it was not accepted since. *)
Theorem C28_embedded_binding : forall os n b p k,
  e_answer false os (DTake n b p) = Some k -> id_ok b -> 
  exists os1 now b0 ttl os2, os = os1 ++ DIssue now b0 p ttl k :: os2
    /\ bid_print b0 = bid_print b /\ (id_ok b0 -> b0 = b)
    /\ (forall t, In (DPrune t) os2 -> (t <= now + ttl)%N)
    /\ (forall os3 n' b' os4, os2 = os3 ++ DTake n' b' p :: os4 ->
          e_answer false (os1 ++ DIssue now b0 p ttl k :: os3) (DTake n' b' p) = None).
Proof.
  intros os n b p k H Hb. destruct (e_accept_reason false os n b p k H) as (os1 & now & b0 & ttl & os2 & ? & [?|Hp] & ? & ?); [done|].
  exists os1, now, b0, ttl, os2. split; [done|]. split; [done|]. split; [|done]. intros Hb0. by apply print_inj_ok.
Qed.
Print Assumptions C28_embedded_binding.

(** The validation as the broker performs it: clean-up at [t], then the statement. So the permit
    has not expired at [t], the time at which the validation started. *)
Theorem C28_embedded_validation_not_expired : forall os t mid n b p k,
  e_answer false (os ++ DPrune t :: mid) (DTake n b p) = Some k -> id_ok b ->
  (forall now b0 ttl, ~ In (DIssue now b0 p ttl k) mid) ->
  exists now b0 ttl, In (DIssue now b0 p ttl k) os /\ bid_print b0 = bid_print b /\ (t <= now + ttl)%N.
Proof.
  intros os t mid n b p k H Hb Hmid. destruct (C28_embedded_binding _ n b p k H Hb) as (os1 & now & b0 & ttl & os2 & Heq & Hp & _ & Hpr & _).
  apply app_split in Heq as [(_ & ? & _)|[(l & -> & ->)|(l & -> & ->)]]; [done| |].
  - exfalso. eapply (Hmid now b0 ttl). rewrite in_app_iff. right. by left.
  - exists now, b0, ttl. split; [rewrite in_app_iff; right; by left|]. split; [done|]. apply Hpr. rewrite in_app_iff. right. by left.
Qed.
Print Assumptions C28_embedded_validation_not_expired.

(** Redis: likewise, and the permit has not expired at the time of validation. *)
Theorem C28_redis_binding : forall os n b p k,
  r_answer false os (DTake n b p) = Some k -> id_ok b ->
  exists os1 now b0 ttl os2, os = os1 ++ DIssue now b0 p ttl k :: os2
    /\ bid_print b0 = bid_print b /\ (id_ok b0 -> b0 = b)
    /\ (n < now + ttl)%N
    /\ (forall n' b', In (DTake n' b' p) os2 -> bid_print b' <> bid_print b).
Proof.
  intros os n b p k H Hb. destruct (r_accept_reason false os n b p k H) as (os1 & now & b0 & ttl & os2 & ? & [?|Hp] & ? & Hno); [done|].
  exists os1, now, b0, ttl, os2. split; [done|]. split; [done|]. split; [intros Hb0; by apply print_inj_ok|]. split; [done|].
  intros n' b' Hin. by apply (Hno n' b').
Qed.
Print Assumptions C28_redis_binding.
Example C28_nonvacuous :
  e_answer false (ex_disc ++ [DPrune 20]%N) (DTake 20 ex_b1 77)%N = Some ex_k1
  /\ r_answer false ex_disc (DTake 20 ex_b1 77)%N = Some ex_k1 /\ id_ok ex_b1
  (* other broker, expired *)
  /\ e_answer false (ex_disc ++ [DPrune 20]%N) (DTake 20 ex_b2 77)%N = None
  /\ r_answer false ex_disc (DTake 20 ex_b2 77)%N = None
  /\ e_answer false (ex_disc ++ [DPrune 40]%N) (DTake 40 ex_b1 77)%N = None
  /\ r_answer false ex_disc (DTake 40 ex_b1 77)%N = None.
Proof. vm_compute. intuition discriminate. Qed.

(** Permits work: one issued under a free number is accepted right afterwards, with any clock (SQLite,
    before a clean-up) or any clock before its expiry (Redis). *)
Theorem C28_fresh_accepted : forall global os now b p ttl k n,
  ((p < 2 ^ 32)%N -> e_permits (e_run global os) !! p = None ->
     e_answer global (os ++ [DIssue now b p ttl k]) (DTake n b p) = Some k)
  /\ ((n < now + ttl)%N -> r_answer global (os ++ [DIssue now b p ttl k]) (DTake n b p) = Some k).
Proof. intros global os now b p ttl k n. split; [apply e_accept_fresh|apply r_accept_fresh]. Qed.
Print Assumptions C28_fresh_accepted.
Example C28_fresh_accepted_nonvacuous : e_permits (e_run false ex_disc) !! 79%N = None.
Proof. by vm_compute. Qed.

(** The validation in SQLite does not check the expiry itself: a permit accepted although its
    expiry is before the time of validation, because the clean-up at the start of the
    validation ran just before. The window is the time between the two statements. *)
Theorem C28_embedded_expiry_window_refuted : exists os n b p k,
  e_answer false os (DTake n b p) = Some k
  /\ forall now b0 ttl, In (DIssue now b0 p ttl k) os -> (now + ttl < n)%N.
Proof.
  exists (ex_disc ++ [DPrune 33]%N), 34%N, ex_b1, 77%N, ex_k1. split; [by vm_compute|].
  intros now b0 ttl. cbn. intuition; try discriminate. injection H0 as <- _ <-. lia.
Qed.
Print Assumptions C28_embedded_expiry_window_refuted.

(** * C30 *)
(** SQLite admits a key exactly if no whitelist was ever set or the last one set is
    duplicate free and contains it. *)
Theorem C30_embedded_whitelist : forall global os key,
  e_check_whitelist (e_run global os) key = true <->
  match last_whitelist os with None => True | Some l => NoDup l /\ key ∈ l end.
Proof. exact e_whitelist_spec. Qed.
Print Assumptions C30_embedded_whitelist.
(** Redis admits a key exactly if no whitelist was ever set or the last one set is empty or contains it. *)
Theorem C30_redis_whitelist : forall global os key,
  r_check_whitelist (r_run global os) key = true <->
  match last_whitelist os with None => True | Some l => l = [] \/ key ∈ l end.
Proof. exact r_whitelist_spec. Qed.
Print Assumptions C30_redis_whitelist.
(** The back ends agree on lists that are duplicate free and not empty. *)
Theorem C30_backends_agree : forall global os key,
  match last_whitelist os with None => True | Some l => l <> [] /\ NoDup l end ->
  e_check_whitelist (e_run global os) key = r_check_whitelist (r_run global os) key.
Proof.
  intros global os key Hl. apply eq_true_iff_eq. rewrite e_whitelist_spec, r_whitelist_spec.
  destruct (last_whitelist os); tauto.
Qed.
Print Assumptions C30_backends_agree.
Example C30_nonvacuous :
  let os := ex_disc ++ [DSetWhitelist [ex_k1]] in
  last_whitelist os = Some [ex_k1]
  /\ e_check_whitelist (e_run false os) ex_k1 = true /\ e_check_whitelist (e_run false os) ex_k2 = false
  /\ r_check_whitelist (r_run false os) ex_k1 = true /\ r_check_whitelist (r_run false os) ex_k2 = false.
Proof. by vm_compute. Qed.
(** They do not on the others: setting the empty list shuts everybody out of SQLite and lets
    everybody into Redis; a list with a repetition shuts everybody out of SQLite. *)
Theorem C30_backends_agree_refuted :
  (exists key, e_check_whitelist (e_run false [DSetWhitelist []]) key = false
     /\ r_check_whitelist (r_run false [DSetWhitelist []]) key = true)
  /\ (exists key l, key ∈ l /\ e_check_whitelist (e_run false [DSetWhitelist l]) key = false
     /\ r_check_whitelist (r_run false [DSetWhitelist l]) key = true).
Proof. split; [exists ex_k1; by vm_compute|exists ex_k1, [ex_k1; ex_k1]; split; [left|by vm_compute]]. Qed.
Print Assumptions C30_backends_agree_refuted.

(** * C37 *)
(** SQLite: the broker returned is alive and no living broker has fewer connections and
    outstanding permits; none is returned only if none is alive. *)
Theorem C37_embedded_least : forall os now,
  Forall (fun t => (t <= now)%N) (times os) -> ids_ok os ->
  (forall n b p ttl k, In (DIssue n b p ttl k) os -> (p < 2 ^ 32)%N) ->
  match (e_least (e_run false os) now).2 with
  | Some b => id_ok b /\ exists n S, e_alive os now b n /\ outstanding false os now (bid_print b) S
      /\ forall b' n' S', id_ok b' -> e_alive os now b' n' -> outstanding false os now (bid_print b') S' ->
           (n + N.of_nat (size S) <= n' + N.of_nat (size S'))%N
  | None => forall b n, id_ok b -> ~ e_alive os now b n
  end.
Proof. intros os now. by apply e_least_spec. Qed.
Print Assumptions C37_embedded_least.
Example C37_embedded_least_nonvacuous :
  Forall (fun t => (t <= 10)%N) (times ex_disc) /\ (e_least (e_run false ex_disc) 10).2 = Some ex_b2
  /\ (e_least (e_run false (ex_disc ++ [DIssue 4 ex_b2 79 30 ex_k2; DIssue 4 ex_b2 80 30 ex_k2]%N)) 10).2 = Some ex_b1
  /\ (e_least (e_run false ex_disc) 100).2 = None.
Proof. split; [apply (bool_decide_unpack _); by vm_compute|by vm_compute]. Qed.

(** Redis: the broker returned is alive and no living broker has fewer connections. *)
Theorem C37_redis_least_connections_partial : forall global os now,
  ids_ok os -> (forall n1 n2 b n ttl, In (DHeartbeat n1 n2 b n ttl) os -> (n < 2 ^ 64 - 1)%N) ->
  match r_least (r_run global os) now with
  | Some b => id_ok b /\ exists n, r_alive os now b n /\ forall b' n', r_alive os now b' n' -> (n <= n')%N
  | None => forall b n, ~ r_alive os now b n
  end.
Proof. exact r_least_spec. Qed.
Print Assumptions C37_redis_least_connections_partial.
Example C37_redis_least_nonvacuous :
  r_least (r_run false ex_disc) 10 = Some ex_b2 /\ r_least (r_run false ex_disc) 61 = Some ex_b2 /\ r_least (r_run false ex_disc) 62 = None.
Proof. by vm_compute. Qed.

(** Redis never sees outstanding permits: the broker returned has three, and 4 connections, when
    another one has none and 5 connections. *)
Theorem C37_redis_permits_ignored_refuted : exists os now b n b' n' S S',
  r_least (r_run false os) now = Some b
  /\ r_alive os now b n /\ r_alive os now b' n'
  /\ (forall p, p ∈ S <-> is_Some (r_answer false os (DTake now b p)))
  /\ (forall p, p ∈ S' <-> is_Some (r_answer false os (DTake now b' p)))
  /\ (n' + N.of_nat (size (S' : gset N)) < n + N.of_nat (size (S : gset N)))%N.
Proof.
  exists ([DHeartbeat 1 1 ex_b1 5 60; DHeartbeat 2 2 ex_b2 4 60; DIssue 3 ex_b2 77 30 ex_k1; DIssue 3 ex_b2 78 30 ex_k2; DIssue 3 ex_b2 79 30 ex_k2]%N),
    10%N, ex_b2, 4%N, ex_b1, 5%N, {[77; 78; 79]}%N, ∅.
  split; [by vm_compute|]. split; [eexists; split; [by vm_compute|by vm_compute]|]. split; [eexists; split; [by vm_compute|by vm_compute]|].
  split; [|split].
  - intros p. split.
    + rewrite !elem_of_union, !elem_of_singleton. intros [[->| ->]| ->]; vm_compute; eauto.
    + intros [k Hk]. apply r_accept_reason in Hk as (os1 & now & b0 & ttl & os2 & Heq & _).
      assert (Hin : In (DIssue now b0 p ttl k) (os1 ++ DIssue now b0 p ttl k :: os2)) by (rewrite in_app_iff; right; by left).
      rewrite <- Heq in Hin. cbn in Hin. rewrite !elem_of_union, !elem_of_singleton. intuition congruence.
  - intros p. split; [set_solver|]. intros [k Hk]. exfalso. apply r_accept_reason in Hk as (os1 & now & b0 & ttl & os2 & Heq & [?|Hp] & _); [done|].
    assert (Hin : In (DIssue now b0 p ttl k) (os1 ++ DIssue now b0 p ttl k :: os2)) by (rewrite in_app_iff; right; by left).
    rewrite <- Heq in Hin. cbn in Hin. intuition; try discriminate; simplify_eq.
  - by vm_compute.
Qed.
Print Assumptions C37_redis_permits_ignored_refuted.

(** With [global-permits], SQLite does not see them either: every permit is stored under the empty
    identifier. Three permits are outstanding, the broker chosen does not depend on them. *)
Theorem C37_embedded_global_permits_not_counted : forall os now b,
  In 47%N (bid_print b) ->
  e_count_permits (e_prune_permits (e_prune_brokers (e_run true os) now) now) (bid_print b) = 0%N.
Proof.
  intros os now b Hb. unfold e_count_permits.
  assert (filter (fun kv : N * permit_row => pr_ident kv.2 = bid_print b) (e_permits (e_prune_permits (e_prune_brokers (e_run true os) now) now)) = ∅) as ->; [|by rewrite map_size_empty].
  apply map_filter_empty_iff. intros p r Hr. cbn in Hr. apply map_filter_lookup_Some in Hr as [Hr _]. apply e_origin in Hr as (_ & _ & _ & _ & _ & _ & Hi & _).
  cbn. rewrite Hi. cbn. intros Heq. by rewrite <- Heq in Hb.
Qed.
Print Assumptions C37_embedded_global_permits_not_counted.
Example C37_embedded_global_permits_nonvacuous :
  In 47%N (bid_print ex_b1) /\ size (e_permits (e_run true ex_disc)) = 2.
Proof. split; [right; by left|by vm_compute]. Qed.

(** * C55 *)
Theorem C55_embedded_membership : forall global os now self,
  Forall (fun t => (t <= now)%N) (times os) -> ids_ok os ->
  exists S, (e_other_brokers (e_run global os) now self).2 = Some S
    /\ forall b, b ∈ S <-> b <> self /\ id_ok b /\ exists n, e_alive os now b n.
Proof.
  intros global os now self Hm Hok. destruct (e_others global os now self Hm Hok) as (S & HS & Hb). exists S. split; [done|]. exact Hb.
Qed.
Print Assumptions C55_embedded_membership.
Theorem C55_redis_membership : forall global os now self,
  ids_ok os -> id_ok self ->
  exists S, r_other_brokers (r_run global os) now self = Some S
    /\ forall b, b ∈ S <-> b <> self /\ id_ok b /\ exists n, r_alive os now b n.
Proof.
  intros global os now self Hok Hs. destruct (r_others global os now self Hok Hs) as (S & HS & Hb). exists S. split; [done|]. exact Hb.
Qed.
Print Assumptions C55_redis_membership.

(** The number of connections kept is that of the last heartbeat. *)
Theorem C55_connection_count : forall global os now x n e,
  (Forall (fun t => (t <= now)%N) (times os) ->
    (e_brokers (e_prune_brokers (e_run global os) now) !! x = Some (BrokerRow n e) <->
     last_beat (Some (2 ^ 32)%N) os x = Some (n, e) /\ (now <= e)%N))
  /\ (last_beat None os x = Some (n, e) -> (now < e)%N -> r_get (r_run global os) now (conns_key x) = Some (dec n)).
Proof.
  intros global os now x n e. split; [apply e_live|]. intros Hb He. unfold r_get.
  destruct (r_beat global os x) as [_ ->]. rewrite Hb. cbn. destruct (N.ltb_spec now e); [done|lia].
Qed.
Print Assumptions C55_connection_count.
Example C55_nonvacuous :
  ids_ok ex_disc /\ Forall (fun t => (t <= 10)%N) (times ex_disc)
  /\ (e_other_brokers (e_run false ex_disc) 10 ex_b1).2 = Some {[ ex_b2 ]}
  /\ r_other_brokers (r_run false ex_disc) 10 ex_b1 = Some {[ ex_b2 ]}
  /\ r_other_brokers (r_run false ex_disc) 62 ex_b1 = Some ∅.
Proof.
  split; [|split; [apply (bool_decide_unpack _); by vm_compute|apply (bool_decide_unpack _); vm_compute; exact I]].
  intros n1 n2 b n ttl. cbn. intros [H|[H|[H|[H|[]]]]]; try discriminate; injection H as _ _ <- _ _; split; cbn; intros [?|[]]; discriminate.
Qed.

(** An identifier with a second slash is listed under another name, or makes the caller list itself (SQLite). *)
Theorem C55_slash_refuted : exists os now self b,
  (e_other_brokers (e_run false os) now self).2 = Some {[ b ]}
  /\ bid_print self = bid_print (Bid [49;47;50]%N [51]%N) /\ b <> self
  /\ forall n1 n2 b' n ttl, In (DHeartbeat n1 n2 b' n ttl) os -> b' = self.
Proof.
  exists [DHeartbeat 1 1 (Bid [49;47;50] [51]) 5 60]%N, 2%N, (Bid [49;47;50] [51])%N, (Bid [49] [50])%N.
  split; [apply (bool_decide_unpack _); vm_compute; exact I|]. split; [done|]. split; [done|]. intros n1 n2 b' n ttl [H|[]]. by injection H as _ _ <- _ _.
Qed.
Print Assumptions C55_slash_refuted.
