(** Lemmas on decimal printing. *)
From stdpp Require Import list.
From Coq Require Import NArith Lia.
From Verif Require Import IdModel DecModel.

Lemma undec_step_digit v d : (d < 10)%N -> undec_step (Some v) (digit d) = Some (10 * v + d)%N.
Proof.
  intros Hd. unfold undec_step, digit.
  destruct (N.leb_spec 48 (48 + d)%N); [|lia]. destruct (N.leb_spec (48 + d)%N 57); [|lia]. cbn [andb]. f_equal. lia.
Qed.

Lemma dec_digits_fold fuel n : (n < 10 ^ N.of_nat fuel)%N -> (fuel <> 0)%nat ->
  fold_left undec_step (dec_digits fuel n) (Some 0%N) = Some n.
Proof.
  revert n; induction fuel as [|f IH]; intros n Hn Hf; [done|]. cbn [dec_digits].
  destruct (N.ltb_spec n 10) as [Hlt|Hge].
  - cbn [fold_left]. rewrite undec_step_digit by done. done.
  - rewrite fold_left_app.
    assert (f <> 0%nat) as Hf0. { intros ->. change (10 ^ N.of_nat 1)%N with 10%N in Hn. lia. }
    rewrite IH; [|rewrite Nat2N.inj_succ, N.pow_succ_r' in Hn; apply N.div_lt_upper_bound; lia|done].
    cbn [fold_left]. rewrite undec_step_digit by (apply N.mod_lt; lia). f_equal. pose proof (N.div_mod' n 10). lia.
Qed.

Lemma dec_bound n : (n < 10 ^ N.of_nat (S (N.to_nat (N.log2 n))))%N.
Proof.
  rewrite Nat2N.inj_succ, N2Nat.id.
  destruct (decide (n = 0%N)) as [->|Hn]; [vm_compute; done|].
  pose proof (N.log2_spec n ltac:(lia)) as [_ H]. eapply N.lt_le_trans; [exact H|]. apply N.pow_le_mono_l. lia.
Qed.

Lemma dec_digits_nonempty fuel n : fuel <> 0%nat -> dec_digits fuel n <> [].
Proof. destruct fuel; [done|]. cbn. intros _. destruct (n <? 10)%N; [done|]. intros H. by apply app_eq_nil in H as [_ ?]. Qed.

Lemma undec_dec n : undec (dec n) = Some n.
Proof.
  unfold undec. destruct (dec n) as [|x l] eqn:E; [by apply dec_digits_nonempty in E|].
  rewrite <- E. apply dec_digits_fold; [apply dec_bound|done].
Qed.

Lemma dec_inj n m : dec n = dec m -> n = m.
Proof. intros H. pose proof (undec_dec n) as H1. rewrite H, undec_dec in H1. congruence. Qed.

Lemma dec_digits_range fuel n b : In b (dec_digits fuel n) -> (48 <= b <= 57)%N.
Proof.
  revert n; induction fuel as [|f IH]; intros n; cbn [dec_digits]; [done|]. destruct (N.ltb_spec n 10).
  - intros [<-|[]]. unfold digit. lia.
  - rewrite in_app_iff. intros [H1|[<-|[]]]; [by eapply IH|]. unfold digit. pose proof (N.mod_lt n 10 ltac:(done)) as Hm. revert Hm. generalize (n mod 10)%N. lia.
Qed.

Lemma dec_no_slash n : ~ In slash (dec n).
Proof. intros H. apply dec_digits_range in H. unfold slash in H. lia. Qed.
