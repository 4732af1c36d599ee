(** Properties of the heartbeat task over time (C68). The proofs are in HeartProofs.v. *)
From stdpp Require Import gmap list.
From Coq Require Import NArith Lia.
From Verif Require Import IdModel DecModel DiscModel DiscSpec DiscProofs DiscProofs2 DiscProofs3 DialModel
  ShakeProofs HeartModel HeartSpec HeartProofs PropertiesDisc.

(** * C68 *)
(** A running broker is always listed: if no call takes longer than [d] (time-outs included), not
    more than [f] heartbeats in a row fail, and [f + 1] rounds of the longest kind and a last
    heartbeat fit into a minute, then from its first heartbeat on, whatever else was done to the
    discovery service, the broker is alive at every moment — with SQLite and with Redis. *)
Theorem C68_running_broker_alive : forall sec f d self t xs os now,
  (N.of_nat (S f) * (10 * sec + 2 * d) + d < 60 * sec)%N ->
  (forall x, In x xs -> (beat_time sec x <= d)%N /\ (list_time sec x <= d)%N /\ (x_users x < 2 ^ 32)%N) ->
  at_most_in_a_row (fun x => written sec x <> None) f xs ->
  (now < loop_end sec t xs)%N ->
  beats_in self os = happened now (beats sec self t xs) -> beats_in self os <> [] ->
  (exists n, e_alive os now self n) /\ (exists n, r_alive os now self n).
Proof.
  intros sec f d self t xs os now Hf Hd Hs Hnow Hos Hne. apply steady_intro in Hs; [|apply wrote_dec]. rewrite Hos in Hne. split.
  - destruct (recent_start sec self f d (Some (2 ^ 32)%N) Hf 0 t xs now) as (n & e & Hb & He); try done; [|lia|].
    { apply List.Forall_forall. intros x Hx. destruct (Hd x Hx) as (? & ? & ?). done. }
    exists n, e. rewrite last_beat_filter, Hos. split; [done|]. lia.
  - destruct (recent_start sec self f d None Hf 0 t xs now) as (n & e & Hb & He); try done; [|lia|].
    { apply List.Forall_forall. intros x Hx. destruct (Hd x Hx) as (? & ? & ?). done. }
    exists n, e. by rewrite last_beat_filter, Hos.
Qed.
Print Assumptions C68_running_broker_alive.

(** However slow the data base is: as long as no two heartbeats in a row fail, every other broker
    that asks gets the running broker in its list, and the marshal finds a broker for its users. *)
Theorem C68_running_broker_listed : forall global sec self t xs os now,
  (0 < sec)%N ->
  (forall x, In x xs -> (x_users x < 2 ^ 32)%N) ->
  at_most_in_a_row (fun x => written sec x <> None) 1 xs ->
  (now < loop_end sec t xs)%N ->
  beats_in self os = happened now (beats sec self t xs) -> beats_in self os <> [] ->
  Forall (fun u => (u <= now)%N) (times os) -> ids_ok os -> id_ok self ->
  (forall other, other <> self -> exists S, (e_other_brokers (e_run global os) now other).2 = Some S /\ self ∈ S)
  /\ (forall other, id_ok other -> other <> self -> exists S, r_other_brokers (r_run global os) now other = Some S /\ self ∈ S)
  /\ ((forall n b p ttl k, In (DIssue n b p ttl k) os -> (p < 2 ^ 32)%N) -> (e_least (e_run false os) now).2 <> None)
  /\ ((forall n1 n2 b n ttl, In (DHeartbeat n1 n2 b n ttl) os -> (n < 2 ^ 64 - 1)%N) -> r_least (r_run global os) now <> None).
Proof.
  intros global sec self t xs os now Hsec Hu Hs Hnow Hos Hne Ht Hok Hid.
  destruct (C68_running_broker_alive sec 1 (5 * sec) self t xs os now) as [(n & He) (m & Hr)]; try done; [lia| |].
  { intros x Hx. destruct (times_5 sec x). split; [done|]. split; [done|]. by apply Hu. }
  split; [|split; [|split]].
  - intros other Hot. destruct (C55_embedded_membership global os now other Ht Hok) as (S & HS & Hb). exists S. split; [done|]. apply Hb. eauto.
  - intros other Hido Hot. destruct (C55_redis_membership global os now other Hok Hido) as (S & HS & Hb). exists S. split; [done|]. apply Hb. eauto.
  - intros Hp E. pose proof (C37_embedded_least os now Ht Hok Hp) as H. rewrite E in H. by apply (H self n).
  - intros Hp E. pose proof (C37_redis_least_connections_partial global os now Hok Hp) as H. rewrite E in H. by apply (H self m).
Qed.
Print Assumptions C68_running_broker_listed.

(** Ten ticks to a second. A quick round; a heartbeat that times out and a slow listing; a slow
    heartbeat; a listing that times out; a quick round. *)
Definition ex_rounds : list hround :=
  [ HRound 3 2 (Some (1, 2)) 3 true; HRound 3 70 None 49 true; HRound 4 50 (Some (10, 50)) 49 true;
    HRound 4 2 (Some (1, 2)) 90 true; HRound 5 2 (Some (1, 2)) 3 true ]%N.
Definition ex_heart_history : list dop :=
  [ DHeartbeat 1 1 ex_b1 3 600; DHeartbeat 5 5 ex_b2 1 600; DIssue 9 ex_b1 77 300 ex_k1; DHeartbeat 314 314 ex_b1 4 600; DPruneBrokers 320 ]%N.
Example C68_running_broker_nonvacuous :
  loop_end 10 0 ex_rounds = 660%N
  /\ beats 10 ex_b1 0 ex_rounds =
       [ (2, DHeartbeat 1 1 ex_b1 3 600); (354, DHeartbeat 314 314 ex_b1 4 600);
         (505, DHeartbeat 504 504 ex_b1 4 600); (557, DHeartbeat 556 556 ex_b1 5 600) ]%N
  /\ at_most_in_a_row (fun x => written 10 x <> None) 1 ex_rounds
  /\ beats_in ex_b1 ex_heart_history = happened 400 (beats 10 ex_b1 0 ex_rounds)
  /\ Forall (fun u => (u <= 400)%N) (times ex_heart_history)
  /\ (e_other_brokers (e_run false ex_heart_history) 400 ex_b2).2 = Some {[ex_b1]}.
Proof.
  split; [by vm_compute|]. split; [by vm_compute|]. split.
  { apply (steady_elim _ 1 0); [lia|]. cbn. left. split; [vm_compute; first [discriminate|reflexivity]|]. right. split; [intros H; apply H; reflexivity|]. split; [lia|].
    left. split; [vm_compute; first [discriminate|reflexivity]|]. left. split; [vm_compute; first [discriminate|reflexivity]|]. left. split; [vm_compute; discriminate|exact I]. }
  split; [by vm_compute|]. split; [apply (bool_decide_unpack _); by vm_compute|]. apply (bool_decide_unpack _). by vm_compute.
Qed.

(** Two failed heartbeats in a row are too many when the data base is slow: the task runs on, but
    for a while the broker is not listed and, if it is the only one, nobody can be placed. *)
Theorem C68_two_failures_refuted : exists sec self t xs os now,
  at_most_in_a_row (fun x => written sec x <> None) 2 xs
  /\ (now < loop_end sec t xs)%N
  /\ beats_in self os = happened now (beats sec self t xs) /\ beats_in self os <> []
  /\ Forall (fun u => (u <= now)%N) (times os) /\ ids_ok os
  /\ (e_other_brokers (e_run false os) now ex_b2).2 = Some ∅
  /\ r_other_brokers (r_run false os) now ex_b2 = Some ∅
  /\ (e_least (e_run false os) now).2 = None /\ r_least (r_run false os) now = None.
Proof.
  exists 10%N, ex_b1, 0%N, [HRound 3 50 (Some (0, 1)) 49 true; HRound 3 50 None 49 true; HRound 3 50 None 49 true; HRound 3 50 (Some (49, 50)) 49 true]%N,
    [DHeartbeat 0 0 ex_b1 3 600]%N, 620%N.
  split.
  { apply (steady_elim _ 2 0); [lia|]. cbn. left. split; [vm_compute; first [discriminate|reflexivity]|]. right. split; [intros H; apply H; reflexivity|]. split; [lia|].
    right. split; [intros H; apply H; reflexivity|]. split; [lia|]. left. split; [vm_compute; discriminate|exact I]. }
  split; [by vm_compute|]. split; [by vm_compute|]. split; [by vm_compute|]. split; [apply (bool_decide_unpack _); by vm_compute|].
  split. { intros n1 n2 b n ttl [[= _ _ <- _ _]|[]]. split; cbn; intros [?|[]]; discriminate. }
  split; [apply (bool_decide_unpack _); by vm_compute|]. split; [apply (bool_decide_unpack _); by vm_compute|]. by vm_compute.
Qed.
Print Assumptions C68_two_failures_refuted.

(** A broker whose task has stopped is gone a minute later: no one lists it any more. *)
Theorem C68_stopped_broker_vanishes : forall global sec self t xs os now,
  (loop_end sec t xs + 60 * sec < now)%N ->
  beats_in self os = happened now (beats sec self t xs) ->
  Forall (fun u => (u <= now)%N) (times os) -> ids_ok os ->
  (forall other, exists S, (e_other_brokers (e_run global os) now other).2 = Some S /\ self ∉ S)
  /\ (forall other, id_ok other -> exists S, r_other_brokers (r_run global os) now other = Some S /\ self ∉ S).
Proof.
  intros global sec self t xs os now Hnow Hos Ht Hok. split.
  - intros other. destruct (C55_embedded_membership global os now other Ht Hok) as (S & HS & Hb). exists S. split; [done|].
    rewrite Hb. intros (_ & _ & n & e & Hl & He). rewrite last_beat_filter, Hos in Hl. apply over in Hl. lia.
  - intros other Hid. destruct (C55_redis_membership global os now other Hok Hid) as (S & HS & Hb). exists S. split; [done|].
    rewrite Hb. intros (_ & _ & n & e & Hl & He). rewrite last_beat_filter, Hos in Hl. apply over in Hl. lia.
Qed.
Print Assumptions C68_stopped_broker_vanishes.
Example C68_stopped_broker_nonvacuous :
  beats_in ex_b1 (DHeartbeat 5 5 ex_b2 1 9000 :: map snd (beats 10 ex_b1 0 ex_rounds))%N = happened 1300 (beats 10 ex_b1 0 ex_rounds)
  /\ (e_other_brokers (e_run false (DHeartbeat 5 5 ex_b2 1 9000 :: map snd (beats 10 ex_b1 0 ex_rounds))%N) 1300 (Bid [9] [9])%N).2 = Some {[ex_b2]}.
Proof. split; [by vm_compute|]. apply (bool_decide_unpack _). by vm_compute. Qed.

(** A missing link is retried: while broker [a] runs, not more than [g] of its listings in a row
    failing, any stretch of [10 (g + 2)] seconds contains a moment [T] at which it has a list; and
    if at that moment the larger broker [b] is running (not failing twice in a row) and is not
    connected to [a], then [a] dials [b]. *)
Theorem C68_missing_link_retried : forall global sec g a b ta xs s,
  (0 < sec)%N -> at_most_in_a_row (fun x => lists sec x = true) g xs ->
  (ta <= s)%N -> (s + N.of_nat (g + 2) * (10 * sec) < loop_end sec ta xs)%N ->
  a <> b -> bid_gtb a b = false -> id_ok a -> id_ok b ->
  exists T, In T (listings sec ta xs) /\ (s <= T <= s + N.of_nat (g + 2) * (10 * sec))%N
    /\ forall tb ys os connected,
      (forall y, In y ys -> (x_users y < 2 ^ 32)%N) ->
      at_most_in_a_row (fun y => written sec y <> None) 1 ys -> (T < loop_end sec tb ys)%N ->
      beats_in b os = happened T (beats sec b tb ys) -> beats_in b os <> [] ->
      Forall (fun u => (u <= T)%N) (times os) -> ids_ok os -> b ∉ connected ->
      (exists S, (e_other_brokers (e_run global os) T a).2 = Some S /\ b ∈ dials a S connected)
      /\ (exists S, r_other_brokers (r_run global os) T a = Some S /\ b ∈ dials a S connected).
Proof.
  intros global sec g a b ta xs s Hsec Hg Hs Hl Hne Hgt Hida Hidb. apply steady_intro in Hg; [|intros x; destruct (lists sec x); [by left|by right]].
  destruct (listing_in_window sec g 0 ta xs s Hg ltac:(lia) Hs Hl) as (T & HT & HTb). exists T. split; [done|]. split; [done|].
  intros tb ys os connected Hu Hy HTe Hos Hne' Ht Hok Hc.
  destruct (C68_running_broker_listed global sec b tb ys os T) as (He & Hr & _); try done. split.
  - destruct (He a Hne) as (S & HS & Hb). exists S. split; [done|]. by rewrite dials_spec.
  - destruct (Hr a Hida Hne) as (S & HS & Hb). exists S. split; [done|]. by rewrite dials_spec.
Qed.
Print Assumptions C68_missing_link_retried.
(** It dials only when the list was had in time: at no other moment. *)
Theorem C68_dials_only_with_a_list : forall sec ta xs T,
  In T (listings sec ta xs) -> exists x, In x xs /\ x_listed x = true /\ (x_list x < 5 * sec)%N.
Proof.
  intros sec ta xs T. revert ta. induction xs as [|x xs IH]; intros ta H; [done|]. cbn [listings] in H. apply in_app_iff in H as [H|H].
  - exists x. split; [by left|]. destruct (lists sec x) eqn:E; [|done]. unfold lists in E. apply andb_true_iff in E as [E1 E2]. split; [done|]. by apply N.ltb_lt.
  - destruct (IH _ H) as (y & Hy & Hl). exists y. split; [by right|done].
Qed.
Print Assumptions C68_dials_only_with_a_list.
Example C68_missing_link_nonvacuous :
  bid_gtb ex_b1 ex_b2 = false
  /\ listings 10 0 ex_rounds = [5; 204; 403; 560]%N
  /\ at_most_in_a_row (fun x => lists 10 x = true) 1 ex_rounds
  /\ (300 + N.of_nat 3 * (10 * 10) < loop_end 10 0 ex_rounds)%N
  /\ beats_in ex_b2 (happened 403 (beats 10 ex_b2 100 ex_rounds)) = happened 403 (beats 10 ex_b2 100 ex_rounds)
  /\ ((fun S => dials ex_b1 S ∅) <$> (e_other_brokers (e_run false (happened 403 (beats 10 ex_b2 100 ex_rounds))) 403 ex_b1).2) = Some {[ex_b2]}.
Proof.
  split; [by vm_compute|]. split; [by vm_compute|]. split.
  { apply (steady_elim _ 1 0); [lia|]. cbn. left. split; [vm_compute; first [discriminate|reflexivity]|]. left. split; [vm_compute; first [discriminate|reflexivity]|]. left. split; [vm_compute; first [discriminate|reflexivity]|].
    right. split; [vm_compute; discriminate|]. split; [lia|]. left. split; [reflexivity|exact I]. }
  split; [by vm_compute|]. split; [by vm_compute|]. apply (bool_decide_unpack _). by vm_compute.
Qed.
