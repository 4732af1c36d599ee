(** Property theorems: heartbeats over time (HeartModel.v) by machines whose clocks differ
    (SkewModel.v). Times in hypotheses and conclusions are true ones. *)
From stdpp Require Import gmap fin_maps list.
From Coq Require Import NArith Lia.
From Verif Require Import IdModel IdProofs DecModel DiscModel DiscSpec DiscProofs DiscProofs2 DiscProofs3 DialModel HeartModel HeartSpec HeartProofs SkewModel SkewProofs SkewHeartProofs PropertiesSkew.

(** * C97: running brokers stay listed although clocks differ *)
(** SQLite. Calls take at most [d], never more than [f] heartbeats in a row fail, and clocks
    differ by at most [m]: whoever asks on whatever machine [i] finds the running broker. *)
Theorem C97_running_broker_listed : forall global off sec f d m self t xs h i now,
  (forall i j, (off i <= off j + m)%N) ->
  (N.of_nat (S f) * (10 * sec + 2 * d) + d + m < 60 * sec)%N ->
  (forall x, In x xs -> (beat_time sec x <= d)%N /\ (list_time sec x <= d)%N /\ (x_users x < 2 ^ 32)%N) ->
  at_most_in_a_row (fun x => written sec x <> None) f xs ->
  (now < loop_end sec t xs)%N ->
  beats_in self (truly h) = happened now (beats sec self t xs) -> beats_in self (truly h) <> [] ->
  Forall (fun u => (u <= now)%N) (times (truly h)) -> ids_ok (truly h) -> id_ok self ->
  (forall other, other <> self -> exists S, (e_other_brokers (e_run global (own_clocks off h)) (now + off i) other).2 = Some S /\ self ∈ S)
  /\ ((forall n b p ttl k, In (DIssue n b p ttl k) (truly h) -> (p < 2 ^ 32)%N) -> (e_least (e_run false (own_clocks off h)) (now + off i)).2 <> None).
Proof.
  intros global off sec f d m self t xs h i now Hoff Hf Hd Hs Hnow Hos Hne Ht Hok Hid.
  assert (Hr : exists n e, last_beat (Some (2 ^ 32)%N) (truly h) (bid_print self) = Some (n, e) /\ (now + m < e)%N).
  { apply steady_intro in Hs; [|apply wrote_dec]. rewrite Hos in Hne.
    destruct (margin_start sec self f d (Some (2 ^ 32)%N) m Hf 0 t xs now) as (n & e & Hb & He); try done; [|lia|].
    { apply List.Forall_forall. intros x Hx. destruct (Hd x Hx) as (? & ? & ?). done. }
    exists n, e. rewrite last_beat_filter, Hos. done. }
  destruct Hr as (n & e & Hl & He). split.
  - intros other Hot. destruct (C97_embedded_listing global off m h i now other Hoff Hok Ht) as (S & HS & Hin & _). exists S. split; [done|].
    apply (Hin self n e); [by apply not_eq_sym|done|done|lia].
  - intros Hp E. pose proof (C97_embedded_choice off m h i now Hoff Hok Hp Ht) as H. rewrite E in H. specialize (H self n e Hl). lia.
Qed.
Print Assumptions C97_running_broker_listed.

(** However slow the data base is: if no two heartbeats in a row fail, clocks may differ by
    anything below fifteen seconds. *)
Theorem C97_fifteen_seconds : forall global off sec m self t xs h i now,
  (forall i j, (off i <= off j + m)%N) -> (m < 15 * sec)%N ->
  (forall x, In x xs -> (x_users x < 2 ^ 32)%N) ->
  at_most_in_a_row (fun x => written sec x <> None) 1 xs ->
  (now < loop_end sec t xs)%N ->
  beats_in self (truly h) = happened now (beats sec self t xs) -> beats_in self (truly h) <> [] ->
  Forall (fun u => (u <= now)%N) (times (truly h)) -> ids_ok (truly h) -> id_ok self ->
  (forall other, other <> self -> exists S, (e_other_brokers (e_run global (own_clocks off h)) (now + off i) other).2 = Some S /\ self ∈ S)
  /\ ((forall n b p ttl k, In (DIssue n b p ttl k) (truly h) -> (p < 2 ^ 32)%N) -> (e_least (e_run false (own_clocks off h)) (now + off i)).2 <> None).
Proof.
  intros global off sec m self t xs h i now Hoff Hm Hu Hs Hnow Hos Hne Ht Hok Hid.
  apply (C97_running_broker_listed global off sec 1 (5 * sec) m self t xs h i now); try done; [lia|].
  intros x Hx. destruct (times_5 sec x). split; [done|]. split; [done|]. by apply Hu.
Qed.
Print Assumptions C97_fifteen_seconds.

(** * Examples *)
(** Ten ticks to a second. The data base takes almost five seconds for everything and the second
    heartbeat fails; broker 2's clock is fourteen seconds ahead of broker 1's. *)
Definition sh_xs : list hround :=
  [HRound 3 50 (Some (0, 1)) 49 true; HRound 3 50 None 49 true; HRound 3 50 (Some (49, 50)) 49 true]%N.
Definition sh_h : history := [(1, DHeartbeat 0 0 sk_b1 3 600); (2, DPruneBrokers 440)]%N.
Definition sh_off (k i : N) : N := if (i =? 2)%N then k else 0%N.
Lemma sh_xs_steady : at_most_in_a_row (fun x => written 10 x <> None) 1 sh_xs.
Proof.
  apply (steady_elim _ 1 0); [lia|]. cbn. left. split; [vm_compute; discriminate|]. right. split; [intros H; apply H; reflexivity|]. split; [lia|].
  left. split; [vm_compute; discriminate|exact I].
Qed.
Lemma sh_xs_users : forall x, In x sh_xs -> (x_users x < 2 ^ 32)%N.
Proof.
  assert (H : forallb (fun x => (x_users x <? 2 ^ 32)%N) sh_xs = true) by (vm_compute; reflexivity).
  rewrite forallb_forall in H. intros x Hx. apply N.ltb_lt. exact (H x Hx).
Qed.
Example C97_heart_nonvacuous :
  (forall i j, (sh_off 140 i <= sh_off 140 j + 140)%N) /\ (140 < 15 * 10)%N
  /\ (forall x, In x sh_xs -> (x_users x < 2 ^ 32)%N)
  /\ at_most_in_a_row (fun x => written 10 x <> None) 1 sh_xs
  /\ (447 < loop_end 10 0 sh_xs)%N
  /\ beats_in sk_b1 (truly sh_h) = happened 447 (beats 10 sk_b1 0 sh_xs) /\ beats_in sk_b1 (truly sh_h) <> []
  /\ Forall (fun u => (u <= 447)%N) (times (truly sh_h)) /\ ids_ok (truly sh_h) /\ id_ok sk_b1
  /\ elements <$> (e_other_brokers (e_run false (own_clocks (sh_off 140) sh_h)) (447 + sh_off 140 2) sk_b2).2 = Some [sk_b1]
  /\ (e_least (e_run false (own_clocks (sh_off 140) sh_h)) (447 + sh_off 140 2)).2 = Some sk_b1.
Proof.
  split. { intros i j. unfold sh_off. destruct (i =? 2)%N, (j =? 2)%N; lia. }
  split; [lia|]. split; [exact sh_xs_users|].
  split; [exact sh_xs_steady|]. split; [by vm_compute|]. split; [by vm_compute|]. split; [by vm_compute|].
  split; [apply (bool_decide_unpack _); by vm_compute|]. split; [apply ids_listed; by vm_compute|].
  split; [unfold id_ok; cbn; intuition discriminate|]. split; by vm_compute.
Qed.

Lemma nobody_listed s now other : map_to_list (e_brokers (e_prune_brokers s now)) = [] -> (e_other_brokers s now other).2 = Some ∅.
Proof.
  intros E. unfold e_other_brokers. cbn [snd]. rewrite E. cbn [map parse_all]. change (Some ((∅ : gset bid) ∖ {[ other ]}) = Some ∅).
  f_equal. apply set_eq. intros x. split; [by intros [H _]%elem_of_difference|]. by intros H%elem_of_empty.
Qed.
(** Fifteen seconds is the limit: with sixteen, a running broker goes missing, for everybody. *)
Theorem C97_sixteen_seconds_refuted : exists off sec self t xs h now,
  (forall i j, (off i <= off j + 16 * sec)%N)
  /\ (forall x, In x xs -> (x_users x < 2 ^ 32)%N)
  /\ at_most_in_a_row (fun x => written sec x <> None) 1 xs
  /\ (now < loop_end sec t xs)%N
  /\ beats_in self (truly h) = happened now (beats sec self t xs) /\ beats_in self (truly h) <> []
  /\ Forall (fun u => (u <= now)%N) (times (truly h)) /\ ids_ok (truly h) /\ id_ok self
  /\ (forall i other, (e_other_brokers (e_run false (own_clocks off h)) (now + off i) other).2 = Some ∅
       /\ (e_least (e_run false (own_clocks off h)) (now + off i)).2 = None).
Proof.
  exists (sh_off 160), 10%N, sk_b1, 0%N, sh_xs, [(1, DHeartbeat 0 0 sk_b1 3 600); (2, DPruneBrokers 447)]%N, 447%N.
  split. { intros i j. unfold sh_off. destruct (i =? 2)%N, (j =? 2)%N; lia. }
  split; [exact sh_xs_users|].
  split; [exact sh_xs_steady|]. split; [by vm_compute|]. split; [by vm_compute|]. split; [by vm_compute|].
  split; [apply (bool_decide_unpack _); by vm_compute|]. split; [apply ids_listed; by vm_compute|].
  split; [unfold id_ok; cbn; intuition discriminate|].
  intros i other. assert (Ho : (sh_off 160 i = 0 \/ sh_off 160 i = 160)%N) by (unfold sh_off; destruct (i =? 2)%N; auto).
  destruct Ho as [-> | ->].
  - split; [|by vm_compute]. apply nobody_listed. by vm_compute.
  - split; [|by vm_compute]. apply nobody_listed. by vm_compute.
Qed.
Print Assumptions C97_sixteen_seconds_refuted.
