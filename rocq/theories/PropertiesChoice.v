(** Property C85: the choice of a broker, query by query, while brokers come and go. The proofs are
    in ChoiceProofs.v. *)
From stdpp Require Import gmap list.
From Coq Require Import NArith Lia.
From Verif Require Import IdModel DecModel DiscModel DiscSpec PropertiesDisc ChoiceModel ChoiceSpec ChoiceProofs.

(** * C85 *)
(** Redis: the broker chosen was registered at the listing and when it was asked about, and no
    broker registered at the listing had fewer connections when it was asked about. If none is
    chosen, a query failed, or no broker was registered at the listing, or one of those registered
    then was not when it was asked about. *)
Theorem C85_redis_choice : forall global vs ord,
  some_order ord ->
  (forall k v, vs k = Some v -> ids_ok v.1 /\ forall n1 n2 b n ttl, In (DHeartbeat n1 n2 b n ttl) v.1 -> (n < 2 ^ 64 - 1)%N) ->
  match r_choose global vs ord with
  | Some b => exists os0 t0, vs 0 = Some (os0, t0) /\ id_ok b /\ (exists m, r_alive os0 t0 b m)
      /\ exists n k os t, 0 < k /\ vs k = Some (os, t) /\ r_alive os t b n
      /\ forall b' n0, r_alive os0 t0 b' n0 -> exists n' k' os' t', 0 < k' /\ vs k' = Some (os', t') /\ r_alive os' t' b' n' /\ (n <= n')%N
  | None => (exists k, vs k = None) \/ exists os0 t0, vs 0 = Some (os0, t0)
      /\ ((forall b n, ~ r_alive os0 t0 b n)
          \/ exists b n0 k os t, r_alive os0 t0 b n0 /\ 0 < k /\ vs k = Some (os, t) /\ forall n, ~ r_alive os t b n)
  end.
Proof.
  intros global vs ord Hord Hok. pose proof (r_choose_spec global vs ord Hord Hok) as H. destruct (r_choose global vs ord) as [b|]; [exact H|].
  destruct H as [k H]. destruct (vs k) as [[os t]|] eqn:Ek; [|left; by exists k].
  right. destruct H as (os0 & t0 & E0 & [[-> Hno]|(Hk & x & n0 & e0 & Hb & He & Hd)]); exists os0, t0; (split; [done|]).
  - left. rewrite E0 in Ek. by injection Ek as <- <-.
  - right. destruct (DiscProofs3.beat_id_ok _ _ _ _ _ (proj1 (Hok _ _ E0)) Hb) as (b & _ & <-).
    exists b, n0, k, os, t. split; [by exists e0|]. split; [done|]. split; [done|]. intros n (e & Hbe & Hlt). specialize (Hd n e Hbe). lia.
Qed.
Print Assumptions C85_redis_choice.

(** SQLite: the broker chosen was registered at the listing (its heartbeat had not expired at the
    clean-up before it), and no broker registered at the listing had fewer connections and permits
    together. One is chosen whenever no query fails and some broker is registered at the listing. *)
Theorem C85_embedded_choice : forall vs ord,
  some_order ord -> e_timeline vs ->
  (forall k v, vs k = Some v -> ids_ok v.1 /\ forall n b p ttl q, In (DIssue n b p ttl q) v.1 -> (p < 2 ^ 32)%N) ->
  match e_choose false vs ord with
  | Some b => exists os0 t0 os1 t1 n S, vs 0 = Some (os0, t0) /\ vs 1 = Some (os1, t1) /\ id_ok b /\ e_alive os1 t0 b n /\ waiting vs b S
      /\ forall b' n', id_ok b' -> e_alive os1 t1 b' n' -> exists S', waiting vs b' S' /\ (n + N.of_nat (size S) <= n' + N.of_nat (size S'))%N
  | None => (exists k, vs k = None) \/ exists os1 t1, vs 1 = Some (os1, t1) /\ forall b n, id_ok b -> ~ e_alive os1 t1 b n
  end.
Proof.
  intros vs ord Hord Ht Hok. pose proof (e_choose_spec vs ord Hord Ht Hok) as H. destruct (e_choose false vs ord) as [b|]; [exact H|].
  destruct H as [(k & Hk & _)|H]; [left; by exists k|by right].
Qed.
Print Assumptions C85_embedded_choice.

(** At one moment it is the choice of C37. *)
Theorem C85_redis_at_one_moment : forall global os now, r_choose global (fun _ => Some (os, now)) (fun _ l => l) = r_least (r_run global os) now.
Proof. exact r_choose_moment. Qed.
Print Assumptions C85_redis_at_one_moment.

(** The second broker is listed at 60, and has expired when it is asked about at 63; the first is
    registered throughout. *)
Definition ex_choice (k : nat) : option view :=
  let os := [DHeartbeat 1 1 ex_b2 4 60; DHeartbeat 3 3 ex_b1 0 60]%N in
  match k with
  | 0 => Some (os, 60)%N
  | _ => Some (os ++ [DHeartbeat 61 61 ex_b1 0 60]%N, 63)%N
  end.
Lemma ex_choice_ok : r_timeline ex_choice.
Proof.
  split.
  - intros [|k] v [= <-]; unfold timely; cbn; repeat constructor; cbn; lia.
  - intros [|k] v v' [= <-] [= <-]; unfold next_view; cbn [fst snd app].
    + exists [DHeartbeat 61 61 ex_b1 0 60]%N. split; [done|]. split; [lia|]. cbn. repeat constructor; cbn; lia.
    + exists []. split; [done|]. split; [lia|]. constructor.
Qed.
(** Refuted for Redis: although a broker is registered throughout and no query fails, none is chosen
    when another expires between the listing and the question about it. SQLite chooses. *)
Theorem C85_redis_vanishing_broker_refuted : exists vs b,
  r_timeline vs /\ (forall k, vs k <> None)
  /\ (forall k os t, vs k = Some (os, t) -> ids_ok os /\ r_alive os t b 0)
  /\ forall ord, some_order ord -> r_choose false vs ord = None.
Proof.
  exists ex_choice, ex_b1. split; [exact ex_choice_ok|]. split; [by intros [|k]|]. split.
  - intros [|k] os t [= <- <-]; (split; [|by vm_compute; eexists]).
    + intros n1 n2 b n ttl. cbn. intros [[= _ _ <- _ _]|[[= _ _ <- _ _]|[]]]; split; vm_compute; intuition congruence.
    + intros n1 n2 b n ttl. cbn. intros [[= _ _ <- _ _]|[[= _ _ <- _ _]|[[= _ _ <- _ _]|[]]]]; split; vm_compute; intuition congruence.
  - intros ord Hord. unfold r_choose.
    change (ex_choice 0) with (Some ([DHeartbeat 1 1 ex_b2 4 60; DHeartbeat 3 3 ex_b1 0 60], 60)%N). cbv beta iota.
    assert (Hm : r_members (r_run false [DHeartbeat 1 1 ex_b2 4 60; DHeartbeat 3 3 ex_b1 0 60]%N) 60%N = [bid_print ex_b1; bid_print ex_b2]
      \/ r_members (r_run false [DHeartbeat 1 1 ex_b2 4 60; DHeartbeat 3 3 ex_b1 0 60]%N) 60%N = [bid_print ex_b2; bid_print ex_b1]) by (vm_compute; by auto).
    destruct Hm as [-> | ->].
    + pose proof (Hord _ [bid_print ex_b1; bid_print ex_b2]) as Hp. symmetry in Hp. apply Permutation_length_2_inv in Hp as [-> | ->]; by vm_compute.
    + pose proof (Hord _ [bid_print ex_b2; bid_print ex_b1]) as Hp. symmetry in Hp. apply Permutation_length_2_inv in Hp as [-> | ->]; by vm_compute.
Qed.
Print Assumptions C85_redis_vanishing_broker_refuted.

(** The hypotheses of C85_redis_choice are met: a broker leaves its users between the listing and the
    question, and is chosen although it had more before. *)
Definition ex_choice_r (k : nat) : option view :=
  match k with 0 => Some (ex_disc, 10)%N | _ => Some (ex_disc ++ [DHeartbeat 11 11 ex_b1 0 60]%N, 12)%N end.
(** And those of C85_embedded_choice: the clean-ups are in the history, and two permits are issued to
    the second broker meanwhile. *)
Fixpoint ex_choice_e_from (os : list dop) (k n : nat) : list dop :=
  match n with
  | O => os
  | S n => ex_choice_e_from (os ++ e_effect k (10 + N.of_nat k)%N ++ match k with 1 => [DIssue 11 ex_b2 79 30 ex_k2; DIssue 11 ex_b2 80 30 ex_k2]%N | _ => [] end) (S k) n
  end.
Definition ex_choice_e (k : nat) : option view := Some (ex_choice_e_from ex_disc 0 k, 10 + N.of_nat k)%N.
Lemma ex_choice_e_from_snoc os j n :
  ex_choice_e_from os j (S n) = ex_choice_e_from os j n ++ e_effect (j + n) (10 + N.of_nat (j + n))%N
    ++ match j + n with 1 => [DIssue 11 ex_b2 79 30 ex_k2; DIssue 11 ex_b2 80 30 ex_k2]%N | _ => [] end.
Proof.
  revert os j. induction n as [|n IH]; intros os j; [cbn [ex_choice_e_from]; by rewrite Nat.add_0_r|].
  change (ex_choice_e_from os j (S (S n))) with
    (ex_choice_e_from (os ++ e_effect j (10 + N.of_nat j)%N ++ match j with 1 => [DIssue 11 ex_b2 79 30 ex_k2; DIssue 11 ex_b2 80 30 ex_k2]%N | _ => [] end) (S j) (S n)).
  rewrite IH. by replace (S j + n) with (j + S n) by lia.
Qed.
Lemma ex_choice_e_from_succ k :
  ex_choice_e_from ex_disc 0 (S k) = ex_choice_e_from ex_disc 0 k ++ e_effect k (10 + N.of_nat k)%N
    ++ match k with 1 => [DIssue 11 ex_b2 79 30 ex_k2; DIssue 11 ex_b2 80 30 ex_k2]%N | _ => [] end.
Proof. apply (ex_choice_e_from_snoc ex_disc 0 k). Qed.
Lemma times_app_mem a b u : In u (times (a ++ b)) -> In u (times a) \/ In u (times b).
Proof. unfold times. rewrite map_app, concat_app, in_app_iff. done. Qed.
Lemma ex_choice_e_ok : e_timeline ex_choice_e
  /\ forall k v, ex_choice_e k = Some v -> ids_ok v.1 /\ forall n b p ttl q, In (DIssue n b p ttl q) v.1 -> (p < 2 ^ 32)%N.
Proof.
  split; [split|].
  - intros k v [= <-]. unfold timely. cbn [fst snd]. apply List.Forall_forall. induction k as [|k IH]; intros u Hu.
    { cbn in Hu. repeat destruct Hu as [<-|Hu]; try lia; done. }
    rewrite ex_choice_e_from_succ in Hu. apply times_app_mem in Hu as [Hu|Hu]; [specialize (IH u Hu); lia|].
    apply times_app_mem in Hu as [Hu|Hu].
    + destruct k as [|k]; [cbn in Hu; destruct Hu as [<-|[]]; lia|]. cbn [e_effect] in Hu. destruct (Nat.even (S k)); [|done].
      unfold times in Hu. cbn [map concat op_times app] in Hu. destruct Hu as [<-|[]]; lia.
    + destruct k as [|[|k]]; [done| |done]. cbn in Hu. destruct Hu as [<-|[<-|[]]]; lia.
  - intros k v v' [= <-] [= <-]. unfold next_view. cbn [fst snd].
    eexists. split; [apply ex_choice_e_from_succ|]. split; [lia|]. destruct k as [|[|k]]; [constructor| |constructor]. cbn. repeat constructor; cbn; lia.
  - intros k v [= <-]. cbn [fst]. induction k as [|k [IH1 IH2]].
    + split; [|intros n b p ttl q Hi; cbn in Hi; destruct Hi as [|[|[[= _ _ <- _ _]|[[= _ _ <- _ _]|[]]]]]; (done || lia)].
      intros n1 n2 b n ttl. cbn. intros [[= _ _ <- _ _]|[[= _ _ <- _ _]|[|[|[]]]]]; try done; split; vm_compute; intuition congruence.
    + rewrite ex_choice_e_from_succ. split.
      * intros n1 n2 b n ttl Hi. apply in_app_iff in Hi as [Hi|Hi]; [by eapply IH1|]. exfalso. apply in_app_iff in Hi as [Hi|Hi].
        -- destruct k as [|k]; cbn [e_effect] in Hi; [by destruct Hi|]. destruct (Nat.even (S k)); [by destruct Hi|done].
        -- destruct k as [|[|k]]; [done| |done]. by destruct Hi as [|[|[]]].
      * intros n b p ttl q Hi. apply in_app_iff in Hi as [Hi|Hi]; [by eapply IH2|]. apply in_app_iff in Hi as [Hi|Hi].
        -- exfalso. destruct k as [|k]; cbn [e_effect] in Hi; [by destruct Hi|]. destruct (Nat.even (S k)); [by destruct Hi|done].
        -- destruct k as [|[|k]]; [done| |done]. cbn in Hi. destruct Hi as [[= _ _ <- _ _]|[[= _ _ <- _ _]|[]]]; lia.
Qed.
Example C85_example :
  r_choose false ex_choice_r (fun _ l => l) = Some ex_b1
  /\ r_least (r_run false ex_disc) 10 = Some ex_b2
  /\ (forall k v, ex_choice_r k = Some v -> ids_ok v.1 /\ forall n1 n2 b n ttl, In (DHeartbeat n1 n2 b n ttl) v.1 -> (n < 2 ^ 64 - 1)%N)
  /\ some_order (fun _ l => l) /\ some_order (fun _ l => rev l)
  /\ e_choose false ex_choice_e (fun _ l => rev l) = Some ex_b1
  /\ (e_least (e_run false ex_disc) 10).2 = Some ex_b2
  /\ e_choose false ex_choice (fun _ l => l) = Some ex_b1.
Proof.
  split; [by vm_compute|]. split; [by vm_compute|]. split.
  { intros [|k] v [= <-]; cbn [fst]; (split; [intros n1 n2 b n ttl Hi|intros n1 n2 b n ttl Hi]); cbn in Hi.
    - destruct Hi as [[= _ _ <- _ _]|[[= _ _ <- _ _]|[|[|[]]]]]; try done; split; vm_compute; intuition congruence.
    - destruct Hi as [[= _ _ _ <- _]|[[= _ _ _ <- _]|[|[|[]]]]]; try done; lia.
    - destruct Hi as [[= _ _ <- _ _]|[[= _ _ <- _ _]|[|[|[[= _ _ <- _ _]|[]]]]]]; try done; split; vm_compute; intuition congruence.
    - destruct Hi as [[= _ _ _ <- _]|[[= _ _ _ <- _]|[|[|[[= _ _ _ <- _]|[]]]]]]; try done; lia. }
  split; [by intros A l|]. split; [intros A l; symmetry; apply Permutation_rev|]. split; [by vm_compute|]. split; [by vm_compute|]. by vm_compute.
Qed.
