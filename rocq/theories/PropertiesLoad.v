(** C93: users are spread evenly over the brokers. *)
From stdpp Require Import gmap list.
From Coq Require Import NArith Lia.
From Verif Require Import IdModel DiscModel DiscSpec LoadModel LoadSpec LoadProofs LoadProofs2.

(** If, whenever a marshal picks a broker for a user, every broker is registered and discovery knows of all but [k] of
    the users sent to any of them, then the brokers' shares differ by at most [k + 1]. Whichever the
    back end, the brokers and the order of events; nobody leaves. *)
Theorem C93_spread_evenly : forall be B k es,
  among B es -> stays es -> (be = Redis -> (N.of_nat (length es) < 2 ^ 64 - 1)%N) -> timely be B k es ->
  forall b b', b ∈ B -> b' ∈ B -> (sent (w_run be es) b <= sent (w_run be es) b' + k + 1)%N.
Proof. exact spread. Qed.
Print Assumptions C93_spread_evenly.

(** A rush of users with SQLite: all brokers have registered, then users log in for up to 30 s and
    none gets as far as its broker. Permits that wait are counted, so the shares differ by at
    most one, plus one for each other login that may have picked its broker but not issued its
    permit yet while another one picks. No two logins draw the same number. *)
Theorem C93_rush_is_spread : forall l es c,
  Forall id_ok l ->
  Forall (fun e => match e with WTick _ | WChoose _ => True | WIssue _ _ p => (p < 2 ^ 32)%N | WBeat b => In b l | _ => False end) es ->
  NoDup (drawn es) ->
  (w_now (w_run Embedded (map WBeat l ++ es)) <= 30)%N ->
  at_once Embedded c (map WBeat l ++ es) ->
  forall b b', In b l -> In b' l ->
    (sent (w_run Embedded (map WBeat l ++ es)) b <= sent (w_run Embedded (map WBeat l ++ es)) b' + c + 1)%N.
Proof.
  intros l es c Hl He. apply rush_spread; [exact Hl|]. eapply Forall_impl; [exact He|].
  intros e. destruct e; cbn; try done. intros H. by apply elem_of_list_to_set, elem_of_list_In.
Qed.
Print Assumptions C93_rush_is_spread.

(** One login, whatever happened before (users may have left): if the heartbeat of the broker
    chosen misses at most [k1] of its users and that of another living broker overstates its users
    by at most [k2], the users and permits of the one exceed those of the other by at most [k1 + k2]. *)
Theorem C93_next_user : forall B es b n S k1 k2,
  let w := w_run Embedded es in
  among B es -> choice Embedded (w_hist w) (w_now w) = Some b ->
  e_alive (w_hist w) (w_now w) b n -> outstanding false (w_hist w) (w_now w) (bid_print b) S ->
  (connected w b <= n + k1)%N ->
  forall b' n' S', b' ∈ B ->
    e_alive (w_hist w) (w_now w) b' n' -> outstanding false (w_hist w) (w_now w) (bid_print b') S' ->
    (n' <= connected w b' + k2)%N ->
    (connected w b + N.of_nat (size S) <= connected w b' + N.of_nat (size S') + k1 + k2)%N.
Proof. exact next_user. Qed.
Print Assumptions C93_next_user.
(** The same for Redis, without the permits. *)
Theorem C93_next_user_redis : forall B es b n k1 k2,
  let w := w_run Redis es in
  among B es -> (N.of_nat (length es) < 2 ^ 64 - 1)%N ->
  choice Redis (w_hist w) (w_now w) = Some b -> r_alive (w_hist w) (w_now w) b n ->
  (connected w b <= n + k1)%N ->
  forall b' n', b' ∈ B -> r_alive (w_hist w) (w_now w) b' n' -> (n' <= connected w b' + k2)%N ->
    (connected w b <= connected w b' + k1 + k2)%N.
Proof. exact next_user_redis. Qed.
Print Assumptions C93_next_user_redis.

(** Two brokers; one user logs in and connects; both report. *)
Definition lx1 : bid := Bid [49]%N [50]%N.
Definition lx2 : bid := Bid [51]%N [52]%N.
Definition lx_both : gset bid := {[ lx1; lx2 ]}.
Definition lx_start : list wev :=
  [WBeat lx1; WBeat lx2; WChoose 0; WIssue 0 [200]%N 5; WPresent lx1 5; WPresent lx2 5; WBeat lx1; WBeat lx2].
(** The one that gets the first user, and the other. *)
Definition lx_first (be : backend) : bid := default lx1 (head (w_sent (w_run be lx_start))).
Definition lx_other (be : backend) : bid := if decide (lx_first be = lx1) then lx2 else lx1.

Lemma lx_ok : forall b, b ∈ lx_both -> id_ok b.
Proof.
  unfold lx_both. intros b. rewrite elem_of_union, !elem_of_singleton.
  intros [->| ->]; split; cbn; intros [H|[]]; discriminate.
Qed.
Lemma lx_queue_ok be n : among lx_both (lx_start ++ queue (lx_other be) n) /\ stays (lx_start ++ queue (lx_other be) n).
Proof.
  assert (H1 : lx1 ∈ lx_both) by (unfold lx_both; set_solver). assert (H2 : lx2 ∈ lx_both) by (unfold lx_both; set_solver).
  split; [split; [exact lx_ok|]|]; apply Forall_app; split.
  - unfold lx_start. repeat constructor; try done.
  - unfold queue. apply List.Forall_concat, List.Forall_map, List.Forall_forall. intros i _.
    constructor; [done|]. constructor; [done|]. constructor; [|constructor]. cbn [wev_ok]. unfold lx_other. by case_decide.
  - unfold stays, lx_start. repeat constructor; by intros [].
  - unfold queue. apply List.Forall_concat, List.Forall_map, List.Forall_forall. intros i _.
    repeat constructor; by intros [].
Qed.

(** Users that connect at once are counted nowhere until the broker's next heartbeat, up to ten
    seconds later or more: any number of them, one after the other, are sent to the same broker,
    while another living broker keeps its single user. Both back ends. *)
Theorem C93_all_to_one_refuted : forall be n, exists B es b b',
  among B es /\ stays es /\ b ∈ B /\ b' ∈ B
  /\ w_now (w_run be es) = 0%N
  /\ (exists m, known_users be (w_run be es) b m) /\ (exists m, known_users be (w_run be es) b' m)
  /\ sent (w_run be es) b = N.of_nat n /\ connected (w_run be es) b = N.of_nat n
  /\ sent (w_run be es) b' = 1%N /\ connected (w_run be es) b' = 1%N.
Proof.
  intros be n. exists lx_both, (lx_start ++ queue (lx_other be) n), (lx_other be), (lx_first be).
  destruct (lx_queue_ok be n) as [Ha Hs].
  assert (Hready : ready be (w_run be lx_start) (lx_other be)).
  { destruct be; (split; [by vm_compute|split; [apply (bool_decide_unpack _); by vm_compute|split; by vm_compute]]). }
  assert (Hu : users_at (w_run be lx_start) (lx_other be) = ∅) by (destruct be; by vm_compute).
  destruct (queue_run be lx_start (lx_other be) n Hready Hu) as (Hr & Hsent & Husers & Hrest).
  assert (Hknown : forall b, b ∈ lx_both -> exists m, known_users be (w_run be (lx_start ++ queue (lx_other be) n)) b m).
  { intros b Hb.
    assert (Hl : exists n e, last_beat None (w_hist (w_run be lx_start)) (bid_print b) = Some (n, e)
      /\ last_beat (Some (2 ^ 32)%N) (w_hist (w_run be lx_start)) (bid_print b) = Some (n, e) /\ (0 < e)%N).
    { unfold lx_both in Hb. rewrite elem_of_union, !elem_of_singleton in Hb. destruct Hb as [->| ->], be;
        (eexists _, _; split; [by vm_compute|split; by vm_compute]). }
    destruct Hl as (n0 & e & Hl1 & Hl2 & He). apply (known_exists be _ b n0 e).
    - by rewrite last_beat_quiet by apply queue_quiet.
    - by rewrite last_beat_quiet by apply queue_quiet.
    - by destruct Hr as [-> _]. }
  assert (Hne : lx_first be <> lx_other be) by (destruct be; by vm_compute).
  assert (Hin1 : lx_other be ∈ lx_both) by (unfold lx_both, lx_other; case_decide; set_solver).
  assert (Hin2 : lx_first be ∈ lx_both) by (apply (bool_decide_unpack _); destruct be; by vm_compute).
  split; [exact Ha|]. split; [exact Hs|]. split; [exact Hin1|]. split; [exact Hin2|].
  split; [by destruct Hr|]. split; [auto|]. split; [auto|].
  assert (H0 : w_sent (w_run be lx_start) = [lx_first be]) by (destruct be; by vm_compute).
  unfold sent, connected. rewrite Hsent, H0, !count_occ_app, Husers, queue_size, (Hrest _ Hne).
  assert (Hrep : forall b, count_occ bid_eq_dec (replicate n (lx_other be)) b = if decide (lx_other be = b) then n else 0).
  { intros b. clear. induction n as [|n IH]; cbn [replicate count_occ]; [by case_decide|].
    destruct (bid_eq_dec (lx_other be) b) as [Hd|Hd]; rewrite IH.
    - by rewrite !decide_True.
    - by rewrite !decide_False. }
  rewrite !Hrep, decide_True by done. rewrite decide_False by done. cbn [count_occ].
  destruct (bid_eq_dec (lx_first be) (lx_other be)) as [?|_]; [done|].
  destruct (bid_eq_dec (lx_first be) (lx_first be)) as [_|?]; [|done].
  split; [done|]. split; [done|]. split; [done|]. destruct be; by vm_compute.
Qed.
Print Assumptions C93_all_to_one_refuted.

(** Marshals that pick a broker before any of them has issued its permit all pick the same one, in
    both back ends: any number of users that log in at the same moment, to one marshal or to
    several, are sent to one broker, while another living broker gets none. *)
Theorem C93_same_moment_refuted : forall be n, exists l es b b',
  Forall id_ok l
  /\ Forall (fun e => match e with WChoose _ => True | _ => False end) es
  /\ length es = n /\ In b l /\ In b' l /\ b <> b'
  /\ sent (w_run be (map WBeat l ++ es)) b = N.of_nat n
  /\ sent (w_run be (map WBeat l ++ es)) b' = 0%N
  /\ (exists m, known_users be (w_run be (map WBeat l ++ es)) b m)
  /\ (exists m, known_users be (w_run be (map WBeat l ++ es)) b' m).
Proof.
  intros be n. set (l := [lx1; lx2]).
  assert (Hc : exists b b', choice be (w_hist (w_run be (map WBeat l))) 0 = Some b
    /\ In b l /\ In b' l /\ b <> b').
  { destruct (choice be (w_hist (w_run be (map WBeat l))) 0) as [b|] eqn:E;
      [|destruct be; vm_compute in E; discriminate E].
    destruct (decide (b = lx1)) as [->|Hne].
    - exists lx1, lx2. split; [done|]. split; [by left|]. split; [right; by left|]. by vm_compute.
    - exists b, lx1. split; [done|]. split; [|split; [by left|done]].
      destruct be; vm_compute in E; injection E as <-; first [by left|right; by left]. }
  destruct Hc as (b & b' & Hc & Hb & Hb' & Hne). exists l, (herd n), b, b'.
  assert (Hn0 : w_now (w_run be (map WBeat l)) = 0%N) by (destruct be; by vm_compute).
  assert (Hq0 : w_pend (w_run be (map WBeat l)) = ∅) by (destruct be; by vm_compute).
  destruct (herd_run be (map WBeat l) b n Hn0 Hq0 Hc) as (Hnow & _ & _ & Hsent & _).
  assert (Hok : Forall id_ok l).
  { apply List.Forall_forall. intros x Hx. apply lx_ok. unfold lx_both. destruct Hx as [<-|[<-|[]]]; set_solver. }
  split; [exact Hok|]. split; [unfold herd; apply List.Forall_map, List.Forall_forall; done|].
  split; [unfold herd; by rewrite map_length, seq_length|]. split; [exact Hb|]. split; [exact Hb'|]. split; [exact Hne|].
  assert (H0 : w_sent (w_run be (map WBeat l)) = []) by (destruct be; by vm_compute).
  assert (Hrep : forall c, count_occ bid_eq_dec (replicate n b) c = if decide (b = c) then n else 0).
  { intros c. clear. induction n as [|n IH]; cbn [replicate count_occ]; [by case_decide|].
    destruct (bid_eq_dec b c) as [Hd|Hd]; rewrite IH.
    - by rewrite !decide_True.
    - by rewrite !decide_False. }
  unfold sent. rewrite Hsent, H0. cbn [app]. rewrite !Hrep, decide_True by done. rewrite decide_False by done.
  split; [done|]. split; [done|].
  assert (Hknown : forall x, In x l -> exists m, known_users be (w_run be (map WBeat l ++ herd n)) x m).
  { intros x Hx. apply (known_exists be _ x 0 60).
    - rewrite last_beat_quiet by apply herd_quiet. destruct Hx as [<-|[<-|[]]], be; by vm_compute.
    - rewrite last_beat_quiet by apply herd_quiet. destruct Hx as [<-|[<-|[]]], be; by vm_compute.
    - rewrite Hnow. by vm_compute. }
  split; auto.
Qed.
Print Assumptions C93_same_moment_refuted.

(** A rush of users with Redis, one after the other: its count of permits is always 0, so all of them are sent to the
    same broker, and another living broker gets none. *)
Theorem C93_rush_is_spread_redis_refuted : forall n, exists l es b b',
  Forall id_ok l
  /\ Forall (fun e => match e with WChoose _ | WIssue _ _ _ => True | _ => False end) es
  /\ at_once Redis 0 (map WBeat l ++ es) /\ In b l /\ In b' l
  /\ sent (w_run Redis (map WBeat l ++ es)) b = N.of_nat n
  /\ sent (w_run Redis (map WBeat l ++ es)) b' = 0%N /\ b <> b'
  /\ known_users Redis (w_run Redis (map WBeat l ++ es)) b' 0.
Proof.
  intros n. set (l := [lx1; lx2]).
  assert (Hc : exists b b', choice Redis (w_hist (w_run Redis (map WBeat l))) (w_now (w_run Redis (map WBeat l))) = Some b
    /\ In b l /\ In b' l /\ b <> b').
  { destruct (choice Redis (w_hist (w_run Redis (map WBeat l))) (w_now (w_run Redis (map WBeat l)))) as [b|] eqn:E;
      [|vm_compute in E; discriminate E].
    destruct (decide (b = lx1)) as [->|Hne].
    - exists lx1, lx2. split; [done|]. split; [by left|]. split; [right; by left|]. by vm_compute.
    - exists b, lx1. split; [done|]. split; [|split; [by left|done]].
      vm_compute in E. injection E as <-. first [by left|right; by left]. }
  destruct Hc as (b & b' & Hc & Hb & Hb' & Hne). exists l, (crowd n), b, b'.
  assert (Hq0 : w_pend (w_run Redis (map WBeat l)) = ∅) by (by vm_compute).
  destruct (crowd_run (map WBeat l) b n Hq0 Hc) as (Hnow & _ & _ & Hsent & _).
  assert (Hok : Forall id_ok l).
  { apply List.Forall_forall. intros x Hx. apply lx_ok. unfold lx_both. destruct Hx as [<-|[<-|[]]]; set_solver. }
  split; [exact Hok|]. split; [unfold crowd; apply List.Forall_concat, List.Forall_map, List.Forall_forall; intros i _; repeat constructor|].
  split; [eapply crowd_one_by_one; [repeat constructor|exact Hq0|exact Hc]|]. split; [exact Hb|]. split; [exact Hb'|].
  assert (H0 : w_sent (w_run Redis (map WBeat l)) = []) by (by vm_compute).
  unfold sent. rewrite Hsent, H0. cbn [app].
  assert (Hrep : forall c, count_occ bid_eq_dec (replicate n b) c = if decide (b = c) then n else 0).
  { intros c. clear. induction n as [|n IH]; cbn [replicate count_occ]; [by case_decide|].
    destruct (bid_eq_dec b c) as [Hd|Hd]; rewrite IH.
    - by rewrite !decide_True.
    - by rewrite !decide_False. }
  rewrite !Hrep, decide_True by done. rewrite decide_False by done.
  split; [done|]. split; [done|]. split; [done|].
  cbn [known_users]. exists 60%N. rewrite last_beat_quiet by apply crowd_quiet. rewrite Hnow.
  destruct Hb' as [<-|[<-|[]]]; by vm_compute.
Qed.
Print Assumptions C93_rush_is_spread_redis_refuted.

(** A timely run: two brokers, four users, each of which connects, and both brokers report before
    the next one logs in. *)
Definition lx_round (key : bytes) (p : N) : list wev :=
  [WChoose 0; WIssue 0 key p; WPresent lx1 p; WPresent lx2 p; WTick 10; WBeat lx1; WBeat lx2].
Definition lx_day : list wev :=
  [WBeat lx1; WBeat lx2] ++ lx_round [1]%N 5 ++ lx_round [2]%N 6 ++ lx_round [3]%N 7 ++ lx_round [4]%N 8.
Example C93_spread_nonvacuous : forall be,
  among lx_both lx_day /\ stays lx_day /\ (N.of_nat (length lx_day) < 2 ^ 64 - 1)%N
  /\ timely be lx_both 0 lx_day
  /\ sent (w_run be lx_day) lx1 = 2%N /\ sent (w_run be lx_day) lx2 = 2%N
  /\ connected (w_run be lx_day) lx1 = 2%N /\ connected (w_run be lx_day) lx2 = 2%N.
Proof.
  intros be. assert (H1 : lx1 ∈ lx_both) by (unfold lx_both; set_solver). assert (H2 : lx2 ∈ lx_both) by (unfold lx_both; set_solver).
  split; [split; [exact lx_ok|]; unfold lx_day, lx_round; cbn [app]; repeat constructor; done|].
  split; [unfold stays, lx_day, lx_round; cbn [app]; repeat constructor; by intros []|].
  split; [by vm_compute|]. split; [|destruct be; by vm_compute].
  assert (Hup : forall es1, In es1 [firstn 2 lx_day; firstn 9 lx_day; firstn 16 lx_day; firstn 23 lx_day] -> up_to_date be lx_both 0 (w_run be es1)).
  { intros es1 Hin b Hb.
    assert (Hl : exists n e, last_beat None (w_hist (w_run be es1)) (bid_print b) = Some (n, e)
      /\ last_beat (Some (2 ^ 32)%N) (w_hist (w_run be es1)) (bid_print b) = Some (n, e) /\ (w_now (w_run be es1) < e)%N
      /\ (sent (w_run be es1) b <= n)%N).
    { unfold lx_both in Hb. rewrite elem_of_union, !elem_of_singleton in Hb.
      destruct Hb as [->| ->], be, Hin as [<-|[<-|[<-|[<-|[]]]]];
        (eexists _, _; split; [by vm_compute|split; [by vm_compute|split; [by vm_compute|by vm_compute]]]). }
    destruct Hl as (n & e & Hl1 & Hl2 & He & Hle). destruct be; cbn [known_users].
    - destruct (DiscProofs3.outstanding_exists false (w_hist (w_run Embedded es1)) (w_now (w_run Embedded es1)) (bid_print b) ltac:(by exists b)) as [S HS].
      exists (n + N.of_nat (size S))%N. split; [|lia]. exists n, S. split; [exists e; split; [exact Hl2|lia]|done].
    - exists n. split; [exists e; done|lia]. }
  intros es1 h es2 Heq. apply Hup.
  unfold lx_day, lx_round in Heq. cbn [app] in Heq.
  repeat (destruct es1 as [|? es1]; cbn [app] in Heq;
    [first [discriminate Heq|injection Heq as <- <-; cbn; tauto]|injection Heq as <- Heq]).
  destruct es1; discriminate Heq.
Qed.
Print Assumptions C93_spread_nonvacuous.
(** Two logins at a time. *)
Definition lx_rush : list wev :=
  [WChoose 0; WChoose 1; WIssue 1 [1] 5; WTick 20; WChoose 2; WIssue 0 [2] 6; WBeat lx1; WChoose 1; WIssue 2 [3] 7; WIssue 1 [4] 8; WChoose 0]%N.
Example C93_rush_nonvacuous :
  let es := map WBeat [lx1; lx2] ++ lx_rush in
  Forall id_ok [lx1; lx2] /\ NoDup (drawn lx_rush) /\ w_now (w_run Embedded es) = 20%N
  /\ at_once Embedded 1 es
  /\ (sent (w_run Embedded es) lx1 + sent (w_run Embedded es) lx2 = 5)%N.
Proof.
  cbv zeta. split; [|split; [|split; [by vm_compute|split; [|by vm_compute]]]].
  - apply List.Forall_forall. intros x Hx. apply lx_ok. unfold lx_both. destruct Hx as [<-|[<-|[]]]; set_solver.
  - apply (bool_decide_unpack _). by vm_compute.
  - intros es1 h es2 Heq. unfold lx_rush in Heq. cbn [map app] in Heq.
    repeat (destruct es1 as [|? es1]; cbn [app] in Heq;
      [first [discriminate Heq|by vm_compute]|injection Heq as <- Heq]).
    destruct es1; discriminate Heq.
Qed.
(** The user has left, which its broker has not reported yet: the other one is chosen. *)
Example C93_next_user_nonvacuous : forall be,
  let es := lx_start ++ [WLeave (lx_first be) [200]%N] in
  let w := w_run be es in
  choice be (w_hist w) (w_now w) = Some (lx_other be)
  /\ connected w (lx_other be) = 0%N /\ connected w (lx_first be) = 0%N
  /\ e_alive (w_hist w) (w_now w) (lx_other be) 0 /\ e_alive (w_hist w) (w_now w) (lx_first be) 1
  /\ r_alive (w_hist w) (w_now w) (lx_other be) 0 /\ r_alive (w_hist w) (w_now w) (lx_first be) 1.
Proof.
  intros be. cbv zeta. unfold e_alive, r_alive.
  split; [destruct be; by vm_compute|]. split; [destruct be; by vm_compute|]. split; [destruct be; by vm_compute|].
  split; [|split; [|split]]; (exists 60%N; destruct be; split; by vm_compute).
Qed.
