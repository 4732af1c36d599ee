(** Proofs about identifiers. *)
From stdpp Require Import gmap list.
From Coq Require Import NArith Lia.
From Verif Require Import IdModel.

Lemma bytes_cmp_eq a b : bytes_cmp a b = Eq <-> a = b.
Proof.
  revert b; induction a as [|x a IH]; intros [|y b]; cbn; try done.
  destruct (N.compare_spec x y) as [->|Hl|Hl].
  - rewrite IH. split; [by intros ->|by intros [= ->]].
  - split; [done|]. intros [= -> _]. lia.
  - split; [done|]. intros [= -> _]. lia.
Qed.

Lemma bytes_cmp_antisym a b : bytes_cmp b a = CompOpp (bytes_cmp a b).
Proof.
  revert b; induction a as [|x a IH]; intros [|y b]; cbn; try done.
  rewrite (N.compare_antisym x y). destruct (N.compare x y); cbn; [apply IH|done|done].
Qed.

Lemma bytes_cmp_lt_trans a b c : bytes_cmp a b = Lt -> bytes_cmp b c = Lt -> bytes_cmp a c = Lt.
Proof.
  revert b c; induction a as [|x a IH]; intros [|y b] [|z c]; cbn; try done.
  destruct (N.compare_spec x y) as [->|Hl|Hl]; try done.
  - destruct (N.compare_spec y z); try done. apply IH.
  - intros _. destruct (N.compare_spec y z) as [->|Hl'|Hl']; try done.
    + destruct (N.compare_spec x z); try lia; done.
    + destruct (N.compare_spec x z); try lia; done.
Qed.

Lemma bid_cmp_eq a b : bid_cmp a b = Eq <-> a = b.
Proof.
  destruct a as [p q], b as [p' q']; unfold bid_cmp; cbn.
  destruct (bytes_cmp p p') eqn:E.
  - apply bytes_cmp_eq in E as ->. rewrite bytes_cmp_eq. split; [by intros ->|by intros [= ->]].
  - split; [done|]. intros [= -> _]. by rewrite (proj2 (bytes_cmp_eq p' p')) in E.
  - split; [done|]. intros [= -> _]. by rewrite (proj2 (bytes_cmp_eq p' p')) in E.
Qed.

Lemma bid_cmp_antisym a b : bid_cmp b a = CompOpp (bid_cmp a b).
Proof.
  unfold bid_cmp. rewrite (bytes_cmp_antisym (bpub a) (bpub b)).
  destruct (bytes_cmp (bpub a) (bpub b)); cbn; [apply bytes_cmp_antisym|done|done].
Qed.

Lemma bid_cmp_lt_trans a b c : bid_cmp a b = Lt -> bid_cmp b c = Lt -> bid_cmp a c = Lt.
Proof.
  unfold bid_cmp.
  destruct (bytes_cmp (bpub a) (bpub b)) eqn:E1, (bytes_cmp (bpub b) (bpub c)) eqn:E2; try done; intros H1 H2.
  - apply bytes_cmp_eq in E1. rewrite E1, E2. by eapply bytes_cmp_lt_trans.
  - apply bytes_cmp_eq in E1. by rewrite E1, E2.
  - apply bytes_cmp_eq in E2. by rewrite <- E2, E1.
  - by rewrite (bytes_cmp_lt_trans _ _ _ E1 E2).
Qed.

Lemma bid_gtb_irrefl a : bid_gtb a a = false.
Proof. unfold bid_gtb. by rewrite (proj2 (bid_cmp_eq a a)). Qed.

Lemma bid_gtb_asym a b : bid_gtb a b = true -> bid_gtb b a = false.
Proof. unfold bid_gtb. rewrite (bid_cmp_antisym a b). by destruct (bid_cmp a b). Qed.

Lemma bid_gtb_trans a b c : bid_gtb a b = true -> bid_gtb b c = true -> bid_gtb a c = true.
Proof.
  unfold bid_gtb. rewrite (bid_cmp_antisym b a), (bid_cmp_antisym c b), (bid_cmp_antisym c a).
  destruct (bid_cmp b a) eqn:E1; try done. destruct (bid_cmp c b) eqn:E2; try done.
  intros _ _. by rewrite (bid_cmp_lt_trans _ _ _ E2 E1).
Qed.

Lemma bid_gtb_total a b : a <> b -> bid_gtb a b = true \/ bid_gtb b a = true.
Proof.
  intros Hne. unfold bid_gtb. rewrite (bid_cmp_antisym a b).
  destruct (bid_cmp a b) eqn:E; [by apply bid_cmp_eq in E|by right|by left].
Qed.

Lemma bid_geb_gtb a b : bid_geb a b = negb (bid_gtb b a).
Proof. unfold bid_geb, bid_gtb. rewrite (bid_cmp_antisym a b). by destruct (bid_cmp a b). Qed.

(** Printing and parsing *)
Lemma split_no_slash s : ~ In slash s -> split_slash s = [s].
Proof.
  induction s as [|x s IH]; cbn; [done|]. intros Hn.
  destruct (N.eqb_spec x slash) as [->|Hx]; [exfalso; apply Hn; by left|].
  rewrite IH; [done|]. intros Hi; apply Hn; by right.
Qed.

Lemma split_app_slash p s : ~ In slash p -> split_slash (p ++ slash :: s) = p :: split_slash s.
Proof.
  induction p as [|x p IH]; cbn; [done|]. intros Hn.
  destruct (N.eqb_spec x slash) as [->|Hx]; [exfalso; apply Hn; by left|].
  rewrite IH; [done|]. intros Hi; apply Hn; by right.
Qed.

Lemma bid_roundtrip b :
  ~ In slash (bpub b) -> ~ In slash (bpriv b) -> bid_parse (bid_print b) = Some b.
Proof.
  intros Hp Hq. unfold bid_parse, bid_print. rewrite split_app_slash by done.
  rewrite split_no_slash by done. by destruct b.
Qed.

(** The pieces of [split_slash] never contain a slash. *)
Lemma split_pieces s p : In p (split_slash s) -> ~ In slash p.
Proof.
  revert p; induction s as [|x s IH]; cbn; intros p.
  - intros [<-|[]]. intros [].
  - destruct (N.eqb_spec x slash) as [->|Hx].
    + intros [<-|Hin]; [intros []|by apply IH].
    + destruct (split_slash s) as [|q qs]; cbn.
      * intros [<-|[]]. cbn. intros [?|[]]; done.
      * intros [<-|Hin]; [|apply IH; by right]. cbn. intros [?|Hi]; [done|].
        by apply (IH q (or_introl eq_refl)).
Qed.

(** The exact condition: the round trip holds iff neither endpoint contains a slash. *)
Lemma bid_roundtrip_iff b :
  bid_parse (bid_print b) = Some b <-> (~ In slash (bpub b) /\ ~ In slash (bpriv b)).
Proof.
  split; [|intros [? ?]; by apply bid_roundtrip].
  unfold bid_parse. destruct (split_slash (bid_print b)) as [|p [|q ps]] eqn:E; try done.
  intros [= Hb]. split.
  - apply (split_pieces (bid_print b)). rewrite E, <- Hb. by left.
  - apply (split_pieces (bid_print b)). rewrite E, <- Hb. right. by left.
Qed.

(** Parsing fails exactly when there is no slash at all. *)
Lemma bid_parse_none s : bid_parse s = None <-> ~ In slash s.
Proof.
  split.
  - intros Hp Hin. apply in_split in Hin as (p & q & ->).
    unfold bid_parse in Hp. revert Hp. induction p as [|x p IH]; cbn.
    + destruct (split_slash q) eqn:E; [|done]. by destruct q as [|y q]; cbn in E; [|destruct (N.eqb y slash), (split_slash q)].
    + destruct (N.eqb_spec x slash) as [->|Hx].
      * destruct (split_slash (p ++ slash :: q)) eqn:E; [|done].
        destruct p as [|y p]; cbn in E; [done|]. destruct (N.eqb y slash); [done|]. by destruct (split_slash (p ++ slash :: q)).
      * destruct (split_slash (p ++ slash :: q)) as [|a [|b l]] eqn:E; try done; intros _; by apply IH.
  - intros Hn. unfold bid_parse. by rewrite split_no_slash.
Qed.

(** Two identifiers that print alike after slash-free endpoints are equal. *)
Lemma bid_print_inj a b :
  ~ In slash (bpub a) -> ~ In slash (bpriv a) -> ~ In slash (bpub b) -> ~ In slash (bpriv b) ->
  bid_print a = bid_print b -> a = b.
Proof.
  intros Ha1 Ha2 Hb1 Hb2 Heq. pose proof (bid_roundtrip a Ha1 Ha2) as Hr.
  rewrite Heq, bid_roundtrip in Hr by done. by injection Hr.
Qed.

Lemma bid_total_order a b c :
  bid_gtb a a = false
  /\ (a <> b -> bid_gtb a b = true \/ bid_gtb b a = true)
  /\ (bid_gtb a b = true -> bid_gtb b a = false)
  /\ (bid_gtb a b = true -> bid_gtb b c = true -> bid_gtb a c = true)
  /\ (bid_geb a b = true <-> bid_gtb a b = true \/ a = b).
Proof.
  split; [apply bid_gtb_irrefl|]. split; [apply bid_gtb_total|]. split; [apply bid_gtb_asym|].
  split; [apply bid_gtb_trans|]. rewrite <- bid_cmp_eq. unfold bid_geb, bid_gtb. destruct (bid_cmp a b); naive_solver.
Qed.
