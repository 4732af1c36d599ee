(** Lemmas on heartbeats over time. *)
From stdpp Require Import gmap list.
From Coq Require Import NArith Lia.
From Verif Require Import IdModel DiscModel DiscSpec DiscProofs3 DialModel HeartModel HeartSpec.

Lemma last_beat_filter limit os self :
  last_beat limit os (bid_print self) = last_beat limit (beats_in self os) (bid_print self).
Proof.
  unfold beats_in. induction os as [|o os IH] using rev_ind; [done|]. rewrite last_beat_snoc, List.filter_app. cbn.
  destruct o as [| | |n1 n2 b n ttl| |]; cbn; rewrite ?app_nil_r; try done.
  destruct (bool_decide (bid_print b = bid_print self)) eqn:E; cbn.
  - rewrite last_beat_snoc, E. cbn. by destruct limit as [l|]; [destruct (n <? l)%N|].
  - by rewrite app_nil_r.
Qed.

(** Recursive form of [at_most_in_a_row], [c] already having passed. *)
Fixpoint steady {A} (P : A -> Prop) (f c : nat) (xs : list A) : Prop :=
  match xs with
  | [] => True
  | x :: xs' => (P x /\ steady P f 0 xs') \/ (~ P x /\ c < f /\ steady P f (S c) xs')
  end.
Lemma steady_from {A} (P : A -> Prop) f ys xs : (forall x, P x \/ ~ P x) ->
  at_most_in_a_row P f (ys ++ xs) -> Forall (fun x => ~ P x) ys -> steady P f (length ys) xs.
Proof.
  intros Hdec. revert ys. induction xs as [|x xs IH]; intros ys H Hys; [done|]. cbn. destruct (Hdec x) as [Hx|Hx].
  - left. split; [done|]. apply (IH []); [|done]. intros pre mid post E. apply (H (ys ++ [x] ++ pre) mid post).
    cbn in E. rewrite E. by rewrite <- !app_assoc.
  - right. split; [done|].
    assert (Hys' : Forall (fun x => ~ P x) (ys ++ [x])) by (apply Forall_app; split; [done|by constructor]).
    assert (Hl : length (ys ++ [x]) = S (length ys)) by (rewrite app_length; cbn; lia).
    split.
    + specialize (H [] (ys ++ [x]) xs). cbn in H. specialize (H ltac:(by rewrite <- app_assoc) Hys'). rewrite Hl in H. lia.
    + rewrite <- Hl. apply IH; [|done]. by rewrite <- app_assoc.
Qed.
Lemma steady_intro {A} (P : A -> Prop) f xs : (forall x, P x \/ ~ P x) -> at_most_in_a_row P f xs -> steady P f 0 xs.
Proof. intros Hdec H. by apply (steady_from P f [] xs). Qed.

Lemma steady_prefix {A} (P : A -> Prop) f c mid post : c <= f -> steady P f c (mid ++ post) -> Forall (fun x => ~ P x) mid -> c + length mid <= f.
Proof.
  revert c. induction mid as [|x mid IH]; intros c Hc Hs Hm; cbn in *; [lia|]. inversion Hm as [|? ? Hx Hm']; subst.
  destruct Hs as [[? _]|(_ & Hlt & Hs)]; [done|]. specialize (IH (S c)). rewrite Nat.add_succ_r. apply IH; [lia|done|done].
Qed.
Lemma steady_elim {A} (P : A -> Prop) f c xs : c <= f -> steady P f c xs -> at_most_in_a_row P f xs.
Proof.
  intros Hc Hs pre mid post ->. revert c Hc Hs. induction pre as [|x pre IH]; intros c Hc Hs Hm.
  - pose proof (steady_prefix P f c mid post Hc Hs Hm). lia.
  - cbn in Hs. destruct Hs as [[_ Hs]|(_ & Hlt & Hs)]; [apply (IH 0); [lia|done|done]|apply (IH (S c)); [lia|done|done]].
Qed.

Section heart.
Variable sec : N.
Variable self : bid.
Notation beats := (beats sec self).
Notation round_beat := (round_beat sec self).
Notation round_end := (round_end sec).
Notation loop_end := (loop_end sec).
Notation written := (written sec).
Notation beat_time := (beat_time sec).
Notation list_time := (list_time sec).
Notation lists := (lists sec).
Notation listings := (listings sec).
Notation wrote := (fun x => written x <> None).

Lemma happened_app now l l' : happened now (l ++ l') = happened now l ++ happened now l'.
Proof. unfold happened. by rewrite List.filter_app, map_app. Qed.
Lemma written_le x a w : written x = Some (a, w) -> (a <= w <= beat_time x)%N.
Proof.
  unfold HeartModel.written. destruct (x_write x) as [[a' w']|]; [|done].
  destruct (N.leb_spec a' w'); [|done]. destruct (N.leb_spec w' (beat_time x)); [|done]. cbn. intros [= -> ->]. lia.
Qed.
Lemma round_end_le t x d : (beat_time x <= d)%N -> (list_time x <= d)%N -> (t + beat_time x <= round_end t x <= t + (10 * sec + 2 * d))%N.
Proof. intros H1 H2. unfold HeartModel.round_end. destruct (lists x); lia. Qed.
Lemma round_end_ge t x : (t + beat_time x <= round_end t x)%N.
Proof. unfold HeartModel.round_end. lia. Qed.
Lemma round_end_ge' t x : (t <= round_end t x)%N.
Proof. unfold HeartModel.round_end. lia. Qed.
Lemma loop_end_ge t xs : (t <= loop_end t xs)%N.
Proof. revert t. induction xs as [|x xs IH]; intros t; cbn; [lia|]. pose proof (IH (round_end t x)). pose proof (round_end_ge t x). lia. Qed.

(** All heartbeats of a task come after its start and before its end. *)
Lemma beats_shape t xs m o : In (m, o) (beats t xs) ->
  exists a x, o = DHeartbeat a a self (x_users x) (60 * sec) /\ In x xs /\ (t <= a <= m)%N /\ (m <= loop_end t xs)%N.
Proof.
  revert t. induction xs as [|x xs IH]; intros t; cbn; [done|]. rewrite in_app_iff. intros [Hin|Hin].
  - unfold HeartModel.round_beat in Hin. destruct (written x) as [[a w]|] eqn:E; [|done]. destruct Hin as [[= <- <-]|[]].
    pose proof (written_le _ _ _ E). pose proof (round_end_ge t x). pose proof (loop_end_ge (round_end t x) xs).
    exists (t + a)%N, x. split; [done|]. split; [by left|]. lia.
  - destruct (IH _ Hin) as (a & y & -> & Hy & Ha & Hm). pose proof (round_end_ge t x). exists a, y. split; [done|]. split; [by right|]. lia.
Qed.
Lemma happened_none t xs now : (now < t)%N -> happened now (beats t xs) = [].
Proof.
  intros Hn. unfold happened. destruct (List.filter _ _) as [|[m o] l] eqn:E; [done|].
  assert (Hin : In (m, o) (List.filter (fun mo => (mo.1 <=? now)%N) (beats t xs))) by (rewrite E; by left).
  apply filter_In in Hin as [Hin Hb%N.leb_le]. apply beats_shape in Hin as (a & x & _ & _ & Ha & _). cbn in Hb. lia.
Qed.

Section bounds.
Context (f : nat) (d : N) (limit : option N).
Hypothesis Hf : (N.of_nat (S f) * (10 * sec + 2 * d) + d < 60 * sec)%N.
Let ok x := (beat_time x <= d)%N /\ (list_time x <= d)%N /\ match limit with Some l => (x_users x < l)%N | None => True end.

(** The last heartbeat written by [now] is recent. *)
Lemma recent c w0 n0 t xs now l :
  steady wrote f c xs -> Forall ok xs -> c <= f ->
  (t <= w0 + N.of_nat (S c) * (10 * sec + 2 * d))%N -> (now < loop_end t xs)%N ->
  last_beat limit l (bid_print self) = Some (n0, (w0 + 60 * sec)%N) ->
  exists n e, last_beat limit (l ++ happened now (beats t xs)) (bid_print self) = Some (n, e) /\ (now < e)%N.
Proof.
  revert c w0 n0 t l. induction xs as [|x xs IH]; intros c w0 n0 t l Hs Hd Hc Ht Hnow Hl.
  { cbn in Hnow. cbn. rewrite app_nil_r. exists n0, (w0 + 60 * sec)%N. split; [done|].
    assert (N.of_nat (S c) * (10 * sec + 2 * d) <= N.of_nat (S f) * (10 * sec + 2 * d))%N by (apply N.mul_le_mono_r; lia). lia. }
  inversion Hd as [|? ? (Hb & Hli & Hu) Hd']; subst. pose proof (round_end_le t x d Hb Hli) as Hre.
  assert (HR : (N.of_nat (S c) * (10 * sec + 2 * d) <= N.of_nat (S f) * (10 * sec + 2 * d))%N) by (apply N.mul_le_mono_r; lia).
  cbn [HeartModel.beats]. rewrite happened_app, app_assoc. cbn [HeartModel.loop_end] in Hnow. unfold HeartModel.round_beat.
  destruct (written x) as [[a w]|] eqn:E.
  - destruct Hs as [[_ Hs]|[Hn _]]; [|exfalso; apply Hn; by rewrite E].
    pose proof (written_le _ _ _ E) as Hw. unfold happened at 1. cbn.
    destruct (N.leb_spec (t + w) now) as [Hle|Hgt]; cbn.
    + apply (IH 0 (t + a)%N (x_users x)); try done; [lia|lia|].
      rewrite last_beat_snoc, bool_decide_true by done. destruct limit as [lim|]; cbn; [|done].
      by rewrite (proj2 (N.ltb_lt _ _) Hu).
    + rewrite happened_none by lia. rewrite !app_nil_r. exists n0, (w0 + 60 * sec)%N. split; [done|]. lia.
  - destruct Hs as [[Hn _]|(_ & Hcf & Hs)]; [by rewrite E in Hn|]. cbn. rewrite app_nil_r. apply (IH (S c) w0 n0); try done.
    replace (N.of_nat (S (S c))) with (N.of_nat (S c) + 1)%N by lia. lia.
Qed.
(** So it is once there was a first one. *)
Lemma recent_start c t xs now :
  steady wrote f c xs -> Forall ok xs -> c <= f -> (now < loop_end t xs)%N -> happened now (beats t xs) <> [] ->
  exists n e, last_beat limit (happened now (beats t xs)) (bid_print self) = Some (n, e) /\ (now < e)%N.
Proof.
  revert c t. induction xs as [|x xs IH]; intros c t Hs Hd Hc Hnow Hne; [done|].
  inversion Hd as [|? ? (Hb & Hli & Hu) Hd']; subst. pose proof (round_end_le t x d Hb Hli) as Hre.
  cbn [HeartModel.beats] in *. rewrite happened_app in *. cbn [HeartModel.loop_end] in Hnow. unfold HeartModel.round_beat in *.
  destruct (written x) as [[a w]|] eqn:E.
  - destruct Hs as [[_ Hs]|[Hn _]]; [|exfalso; apply Hn; by rewrite E].
    pose proof (written_le _ _ _ E) as Hw. unfold happened at 1. unfold happened at 1 in Hne. cbn in Hne |- *.
    destruct (N.leb_spec (t + w) now) as [Hle|Hgt]; cbn in Hne |- *.
    + apply (recent 0 (t + a)%N (x_users x) (round_end t x) xs now [DHeartbeat (t + a) (t + a) self (x_users x) (60 * sec)]); try done; [lia|lia|].
      unfold last_beat. cbn. rewrite bool_decide_true by done. destruct limit as [lim|]; cbn; [|done].
      by rewrite (proj2 (N.ltb_lt _ _) Hu).
    + by rewrite happened_none in Hne by lia.
  - destruct Hs as [[Hn _]|(_ & Hcf & Hs)]; [by rewrite E in Hn|]. cbn in Hne |- *. by apply (IH (S c)).
Qed.
End bounds.

Lemma wrote_dec x : wrote x \/ ~ wrote x.
Proof. destruct (written x) eqn:E; [left|right]; cbn beta; rewrite E; [done|by intros []]. Qed.
Lemma times_5 x : (beat_time x <= 5 * sec)%N /\ (list_time x <= 5 * sec)%N.
Proof. unfold HeartModel.beat_time, HeartModel.list_time, limit5. lia. Qed.

(** Nothing is left sixty seconds after the last round. *)
Lemma over limit t xs now n e : last_beat limit (happened now (beats t xs)) (bid_print self) = Some (n, e) -> (e <= loop_end t xs + 60 * sec)%N.
Proof.
  intros H. apply last_beat_in in H as (n1 & n2 & b & ttl & Hin & _ & -> & _). unfold happened in Hin. apply in_map_iff in Hin as ([m o] & Ho & Hin).
  apply filter_In in Hin as [Hin _]. apply beats_shape in Hin as (a & x & -> & _ & Ha & Hm). cbn [snd] in Ho. assert (n2 = a) as -> by congruence. assert (ttl = (60 * sec)%N) as -> by congruence. lia.
Qed.

(** ** Listings *)
Notation listed := (fun x => lists x = true).
Lemma next_listing g c t xs :
  steady listed g c xs -> c <= g -> (t + N.of_nat (g + 1 - c) * (10 * sec) < loop_end t xs)%N ->
  exists T, In T (listings t xs) /\ (t <= T <= t + N.of_nat (g + 1 - c) * (10 * sec))%N.
Proof.
  revert c t. induction xs as [|x xs IH]; intros c t Hs Hc Hl; [cbn [HeartModel.loop_end] in Hl; apply N.lt_nge in Hl; exfalso; apply Hl; etransitivity; [|apply N.le_add_r]; done|].
  pose proof (times_5 x) as [Hb Hi].
  assert (H1 : (1 * (10 * sec) <= N.of_nat (g + 1 - c) * (10 * sec))%N) by (apply N.mul_le_mono_r; lia).
  cbn [HeartModel.listings HeartModel.loop_end] in *. destruct Hs as [[Hx Hs]|(Hx & Hcg & Hs)].
  - exists (t + beat_time x + list_time x)%N. split; [rewrite Hx; by left|]. lia.
  - destruct (lists x) eqn:E; [done|]. rewrite app_nil_l.
    assert (Hre : (t <= round_end t x <= t + 10 * sec)%N) by (unfold HeartModel.round_end; rewrite E; lia).
    replace (N.of_nat (g + 1 - c)) with (N.of_nat (g + 1 - S c) + 1)%N in * by lia. rewrite N.mul_add_distr_r, N.mul_1_l in *.
    destruct (IH (S c) (round_end t x)) as (T & HT & HTb); [done|lia|lia|]. exists T. split; [done|]. lia.
Qed.
Lemma listing_in_window g c t xs s :
  steady listed g c xs -> c <= g -> (t <= s)%N -> (s + N.of_nat (g + 2) * (10 * sec) < loop_end t xs)%N ->
  exists T, In T (listings t xs) /\ (s <= T <= s + N.of_nat (g + 2) * (10 * sec))%N.
Proof.
  revert c t. induction xs as [|x xs IH]; intros c t Hs Hc Ht Hl; [cbn [HeartModel.loop_end] in Hl; apply N.lt_nge in Hl; exfalso; apply Hl; etransitivity; [|apply N.le_add_r]; done|].
  pose proof (times_5 x) as [Hb Hi].
  replace (N.of_nat (g + 2)) with (N.of_nat (g + 1) + 1)%N in * by lia.
  cbn [HeartModel.listings HeartModel.loop_end] in *.
  destruct (N.le_gt_cases (round_end t x) s) as [Hle|Hgt].
  { destruct Hs as [[Hx Hs]|(Hx & Hcg & Hs)].
    - destruct (IH 0 (round_end t x)) as (T & HT & HTb); [done|lia|done|lia|]. exists T. rewrite in_app_iff. auto.
    - destruct (IH (S c) (round_end t x)) as (T & HT & HTb); [done|lia|done|lia|]. exists T. rewrite in_app_iff. auto. }
  destruct Hs as [[Hx Hs]|(Hx & Hcg & Hs)].
  - destruct (N.le_gt_cases s (t + beat_time x + list_time x)) as [Hs1|Hs1].
    + exists (t + beat_time x + list_time x)%N. split; [rewrite Hx; by left|]. lia.
    + assert (Hre : (round_end t x < s + 10 * sec)%N) by (unfold HeartModel.round_end; rewrite Hx; lia).
      destruct (next_listing g 0 (round_end t x) xs) as (T & HT & HTb); [done|lia|rewrite Nat.sub_0_r; lia|]. rewrite Nat.sub_0_r in HTb.
      exists T. rewrite in_app_iff. split; [by right|]. lia.
  - destruct (lists x) eqn:E; [done|].
    assert (Hre : (round_end t x <= t + 10 * sec)%N) by (unfold HeartModel.round_end; rewrite E; lia).
    assert (Hm : (N.of_nat (g + 1 - S c) * (10 * sec) <= N.of_nat (g + 1) * (10 * sec))%N) by (apply N.mul_le_mono_r; lia).
    destruct (next_listing g (S c) (round_end t x) xs) as (T & HT & HTb); [done|lia|lia|].
    exists T. rewrite in_app_iff. split; [by right|]. lia.
Qed.
End heart.
