(** Lemmas on heartbeats over time: how long the last one remains good. *)
From stdpp Require Import gmap list.
From Coq Require Import NArith Lia.
From Verif Require Import IdModel DiscModel DiscSpec DiscProofs3 DialModel HeartModel HeartSpec HeartProofs.

Section margin.
Variable sec : N.
Variable self : bid.
Notation wrote := (fun x => written sec x <> None).
Context (f : nat) (d : N) (limit : option N) (m : N).
Hypothesis Hf : (N.of_nat (S f) * (10 * sec + 2 * d) + d + m < 60 * sec)%N.
Let ok x := (beat_time sec x <= d)%N /\ (list_time sec x <= d)%N /\ match limit with Some l => (x_users x < l)%N | None => True end.

(** The last heartbeat written by [now] is good for more than another [m]. *)
Lemma margin c w0 n0 t xs now l :
  steady wrote f c xs -> Forall ok xs -> c <= f ->
  (t <= w0 + N.of_nat (S c) * (10 * sec + 2 * d))%N -> (now < loop_end sec t xs)%N ->
  last_beat limit l (bid_print self) = Some (n0, (w0 + 60 * sec)%N) ->
  exists n e, last_beat limit (l ++ happened now (beats sec self t xs)) (bid_print self) = Some (n, e) /\ (now + m < e)%N.
Proof.
  revert c w0 n0 t l. induction xs as [|x xs IH]; intros c w0 n0 t l Hs Hd Hc Ht Hnow Hl.
  { cbn in Hnow. cbn. rewrite app_nil_r. exists n0, (w0 + 60 * sec)%N. split; [done|].
    assert (N.of_nat (S c) * (10 * sec + 2 * d) <= N.of_nat (S f) * (10 * sec + 2 * d))%N by (apply N.mul_le_mono_r; lia). lia. }
  inversion Hd as [|? ? (Hb & Hli & Hu) Hd']; subst. pose proof (round_end_le sec t x d Hb Hli) as Hre.
  assert (HR : (N.of_nat (S c) * (10 * sec + 2 * d) <= N.of_nat (S f) * (10 * sec + 2 * d))%N) by (apply N.mul_le_mono_r; lia).
  cbn [beats]. rewrite happened_app, app_assoc. cbn [loop_end] in Hnow. unfold round_beat.
  destruct (written sec x) as [[a w]|] eqn:E.
  - destruct Hs as [[_ Hs]|[Hn _]]; [|exfalso; apply Hn; by rewrite E].
    pose proof (written_le sec _ _ _ E) as Hw. unfold happened at 1. cbn.
    destruct (N.leb_spec (t + w) now) as [Hle|Hgt]; cbn.
    + apply (IH 0 (t + a)%N (x_users x)); try done; [lia|lia|].
      rewrite last_beat_snoc, bool_decide_true by done. destruct limit as [lim|]; cbn; [|done].
      by rewrite (proj2 (N.ltb_lt _ _) Hu).
    + rewrite happened_none by lia. rewrite !app_nil_r. exists n0, (w0 + 60 * sec)%N. split; [done|]. lia.
  - destruct Hs as [[Hn _]|(_ & Hcf & Hs)]; [by rewrite E in Hn|]. cbn. rewrite app_nil_r. apply (IH (S c) w0 n0); try done.
    replace (N.of_nat (S (S c))) with (N.of_nat (S c) + 1)%N by lia. lia.
Qed.
Lemma margin_start c t xs now :
  steady wrote f c xs -> Forall ok xs -> c <= f -> (now < loop_end sec t xs)%N -> happened now (beats sec self t xs) <> [] ->
  exists n e, last_beat limit (happened now (beats sec self t xs)) (bid_print self) = Some (n, e) /\ (now + m < e)%N.
Proof.
  revert c t. induction xs as [|x xs IH]; intros c t Hs Hd Hc Hnow Hne; [done|].
  inversion Hd as [|? ? (Hb & Hli & Hu) Hd']; subst. pose proof (round_end_le sec t x d Hb Hli) as Hre.
  cbn [beats] in *. rewrite happened_app in *. cbn [loop_end] in Hnow. unfold round_beat in *.
  destruct (written sec x) as [[a w]|] eqn:E.
  - destruct Hs as [[_ Hs]|[Hn _]]; [|exfalso; apply Hn; by rewrite E].
    pose proof (written_le sec _ _ _ E) as Hw. unfold happened at 1. unfold happened at 1 in Hne. cbn in Hne |- *.
    destruct (N.leb_spec (t + w) now) as [Hle|Hgt]; cbn in Hne |- *.
    + apply (margin 0 (t + a)%N (x_users x) (round_end sec t x) xs now [DHeartbeat (t + a) (t + a) self (x_users x) (60 * sec)]); try done; [lia|lia|].
      unfold last_beat. cbn. rewrite bool_decide_true by done. destruct limit as [lim|]; cbn; [|done].
      by rewrite (proj2 (N.ltb_lt _ _) Hu).
    + by rewrite happened_none in Hne by lia.
  - destruct Hs as [[Hn _]|(_ & Hcf & Hs)]; [by rewrite E in Hn|]. cbn in Hne |- *. by apply (IH (S c)).
Qed.
End margin.
