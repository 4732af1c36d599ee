(** Proofs about ChoiceModel.v. *)
From stdpp Require Import gmap list.
From Coq Require Import NArith Lia.
From Verif Require Import IdModel IdProofs DecModel DecProofs DiscModel DiscSpec DiscProofs DiscProofs2 DiscProofs3 ChoiceModel ChoiceSpec.

Section redis.
Variable global : bool.
Variable vs : nat -> option view.
Variable ord : forall A : Type, list A -> list A.
Hypothesis Hord : some_order ord.
Notation r_run := (r_run global).

Lemma r_get_alive os t x n : r_get (r_run os) t (conns_key x) = Some (dec n) <-> exists e, last_beat None os x = Some (n, e) /\ (t < e)%N.
Proof.
  unfold r_get. destruct (r_beat global os x) as [_ ->]. destruct (last_beat None os x) as [[m e]|]; cbn [fmap option_fmap option_map fst snd].
  - destruct (N.ltb_spec t e) as [Hl|Hl].
    + split; [|intros (e' & [= <- <-] & _); done]. intros H. assert (Hd : dec m = dec n) by congruence. apply dec_inj in Hd as ->. eauto.
    + split; [done|]. intros (e' & [= <- <-] & Hl'). lia.
  - split; [done|]. by intros (e & ? & _).
Qed.
Lemma r_get_some os t x v : r_get (r_run os) t (conns_key x) = Some v -> exists n e, v = dec n /\ last_beat None os x = Some (n, e) /\ (t < e)%N.
Proof.
  unfold r_get. destruct (r_beat global os x) as [_ ->]. destruct (last_beat None os x) as [[m e]|]; cbn [fmap option_fmap option_map fst snd]; [|done].
  destruct (N.ltb_spec t e) as [Hl|Hl]; [|done]. intros [= <-]. eauto.
Qed.

Lemma r_counts_some k l t : r_counts global vs k l = Some t ->
  (forall x, In x l -> exists n, In (x, n) t)
  /\ (forall x n, In (x, n) t -> In x l /\ exists j os now e, k <= j /\ vs j = Some (os, now) /\ last_beat None os x = Some (n, e) /\ (now < e)%N).
Proof.
  revert k t. induction l as [|x l IH]; intros k t; cbn [r_counts].
  { intros [= <-]. split; [by intros ? []|]. by intros ? ? []. }
  destruct (vs k) as [[os now]|] eqn:E1; [|done]. destruct (vs (S k)) as [v2|] eqn:E2; [|done].
  destruct (r_get (r_run os) now (conns_key x)) as [v|] eqn:Eg; [|done]. apply r_get_some in Eg as (n & e & -> & Hb & He). rewrite undec_dec.
  destruct (r_counts global vs (S (S k)) l) as [r|] eqn:Er; [|done]. intros [= <-]. destruct (IH _ _ Er) as [IH1 IH2]. rewrite N.add_0_r. split.
  - intros y [<-|Hy]; [exists n; by left|]. destruct (IH1 y Hy) as [m Hm]. exists m. by right.
  - intros y m [[= <- <-]|Hy]; [split; [by left|]; exists k, os, now, e; split; [lia|done]|].
    destruct (IH2 y m Hy) as (Hi & j & os' & now' & e' & Hj & H). split; [by right|]. exists j, os', now', e'. split; [lia|done].
Qed.
Lemma r_counts_none k l : r_counts global vs k l = None ->
  (exists j, k <= j < k + 2 * length l /\ vs j = None)
  \/ exists x j os now, In x l /\ k <= j < k + 2 * length l /\ vs j = Some (os, now) /\ forall n e, last_beat None os x = Some (n, e) -> (e <= now)%N.
Proof.
  revert k. induction l as [|x l IH]; intros k; cbn [r_counts]; [done|].
  destruct (vs k) as [[os now]|] eqn:E1; [|intros _; left; exists k; cbn; split; [lia|done]].
  destruct (vs (S k)) as [v2|] eqn:E2; [|intros _; left; exists (S k); cbn; split; [lia|done]].
  destruct (r_get (r_run os) now (conns_key x)) as [v|] eqn:Eg.
  - apply r_get_some in Eg as (n & e & -> & Hb & He). rewrite undec_dec. destruct (r_counts global vs (S (S k)) l) as [r|] eqn:Er; [done|].
    intros _. destruct (IH _ Er) as [(j & Hj & H)|(y & j & os' & now' & Hy & Hj & H)]; [left|right].
    + exists j. split; [cbn; lia|done].
    + exists y, j, os', now'. split; [by right|]. split; [cbn; lia|done].
  - intros _. right. exists x, k, os, now. split; [by left|]. split; [cbn; lia|]. split; [done|]. intros n e Hb.
    destruct (N.ltb_spec now e) as [Hl|]; [|done]. exfalso.
    assert (Hg : r_get (r_run os) now (conns_key x) = Some (dec n)) by (apply r_get_alive; eauto). congruence.
Qed.

Lemma r_choose_spec :
  (forall k v, vs k = Some v -> ids_ok v.1 /\ forall n1 n2 b n ttl, In (DHeartbeat n1 n2 b n ttl) v.1 -> (n < 2 ^ 64 - 1)%N) ->
  match r_choose global vs ord with
  | Some b => exists os0 t0, vs 0 = Some (os0, t0) /\ id_ok b /\ (exists m, r_alive os0 t0 b m)
      /\ exists n k os t, 0 < k /\ vs k = Some (os, t) /\ r_alive os t b n
      /\ forall b' n0, r_alive os0 t0 b' n0 -> exists n' k' os' t', 0 < k' /\ vs k' = Some (os', t') /\ r_alive os' t' b' n' /\ (n <= n')%N
  | None => exists k, match vs k with
      | None => k = 0 \/ exists os0 t0, vs 0 = Some (os0, t0) /\ k <= 2 * length (r_members (r_run os0) t0)
      | Some (os, t) => exists os0 t0, vs 0 = Some (os0, t0) /\
          ((k = 0 /\ forall b n, ~ r_alive os t b n) \/ (0 < k /\ exists x n0 e0, last_beat None os0 x = Some (n0, e0) /\ (t0 < e0)%N /\ forall n e, last_beat None os x = Some (n, e) -> (e <= t)%N))
      end
  end.
Proof.
  intros Hok. unfold r_choose. destruct (vs 0) as [[os0 t0]|] eqn:E0; [|exists 0; rewrite E0; by left].
  destruct (r_members (r_run os0) t0) as [|y l0] eqn:El.
  { exists 0. rewrite E0. exists os0, t0. split; [done|]. left. split; [done|]. intros b n (e & Hb & He).
    assert (Hm : In (bid_print b) (r_members (r_run os0) t0)) by (apply r_live; eauto). by rewrite El in Hm. }
  set (l := y :: l0) in *. pose proof (Hord _ l) as Hp.
  assert (Hin : forall x, In x (ord _ l) <-> In x l).
  { intros x. split; apply Permutation_in; [done|by symmetry]. }
  assert (Hlive : forall x, In x l <-> exists n e, last_beat None os0 x = Some (n, e) /\ (t0 < e)%N) by (intros x; rewrite <- El; apply r_live).
  destruct (r_counts global vs 1 (ord _ l)) as [t|] eqn:Et.
  - destruct (r_counts_some _ _ _ Et) as [H1 H2].
    destruct (least_spec t) as (x & n & Hx & Hmin & ->).
    { destruct (H1 y) as [n Hn]; [apply Hin; by left|]. by destruct t. }
    { intros [x n] Hx. destruct (H2 _ _ Hx) as (_ & j & os & now & e & _ & Hj & Hb & _). destruct (Hok _ _ Hj) as [_ Hn].
      apply last_beat_in in Hb as (n1 & n2 & b & ttl & Hi & _). cbn in *. by eapply Hn. }
    destruct (H2 _ _ Hx) as (Hil & j & os & now & e & Hj & Hv & Hb & He). destruct (Hok _ _ Hv) as [Hids _]. cbn in Hids.
    pose proof (beat_id_ok _ _ _ _ _ Hids Hb) as (b & [Hb1 Hb2] & <-). rewrite bid_roundtrip by done.
    exists os0, t0. split; [done|]. split; [done|]. split; [apply Hin, Hlive in Hil as (m & e0 & Hm & He0); exists m, e0; done|].
    exists n, j, os, now. split; [lia|]. split; [done|]. split; [by exists e|].
    intros b' n0 (e0 & Hb' & He0). destruct (H1 (bid_print b')) as [n' Hn']; [apply Hin, Hlive; eauto|].
    destruct (H2 _ _ Hn') as (_ & j' & os' & now' & e' & Hj' & Hv' & Hb'' & He'). exists n', j', os', now'. split; [lia|]. split; [done|]. split; [by exists e'|]. by eapply Hmin.
  - destruct (r_counts_none _ _ Et) as [(j & Hj & Hv)|(x & j & os & now & Hx & Hj & Hv & Hd)]; exists j; rewrite Hv.
    + right. exists os0, t0. split; [done|]. rewrite El, (Permutation_length Hp) in *. fold l. lia.
    + exists os0, t0. split; [done|]. right. split; [lia|]. apply Hin, Hlive in Hx as (n0 & e0 & Hb0 & He0). exists x, n0, e0. done.
Qed.
End redis.

(** At one moment, it is the function of DiscModel.v. *)
Lemma r_choose_moment global os now : r_choose global (fun _ => Some (os, now)) (fun _ l => l) = r_least (r_run global os) now.
Proof.
  unfold r_choose, r_least.
  assert (Hc : forall l k, r_counts global (fun _ => Some (os, now)) k l = r_totals (r_run global os) now l).
  { induction l as [|x l IH]; intros k; cbn [r_counts r_totals]; [done|]. destruct (r_get _ _ _); [|done]. by rewrite IH. }
  destruct (r_members _ _) as [|y l]; [done|]. by rewrite Hc.
Qed.

Section sqlite.
Variable vs : nat -> option view.
Variable ord : forall A : Type, list A -> list A.
Hypothesis Hord : some_order ord.
Hypothesis Htime : e_timeline vs.
Notation e_run := (e_run false).
Notation outstanding := (outstanding false).
Notation waiting := (waiting vs).

(** After a clean-up at [t], everything in the table is younger. *)
Lemma brokers_young os t mid x r : List.Forall (fun u => (t <= u)%N) (times mid) ->
  e_brokers (e_run (os ++ DPruneBrokers t :: mid)) !! x = Some r -> (t <= br_expiry r)%N.
Proof.
  revert r. induction mid as [|o mid IH] using rev_ind; intros r Hm.
  - change (os ++ [DPruneBrokers t]) with (os ++ [DPruneBrokers t]). rewrite (e_run_snoc false). cbn [DiscModel.e_step fst]. rewrite e_prune_brokers_lookup. unfold pruned.
    destruct (e_brokers (e_run os) !! x) as [r0|]; [|done]. destruct (N.ltb_spec (br_expiry r0) t); [done|]. by intros [= <-].
  - rewrite app_comm_cons, app_assoc, (e_run_snoc false), e_step_broker. rewrite times_snoc in Hm. apply List.Forall_app in Hm as [Hm Ho].
    assert (Hpr : forall u, pruned u (e_brokers (e_run (os ++ DPruneBrokers t :: mid)) !! x) = Some r -> (t <= br_expiry r)%N).
    { intros u. unfold pruned. destruct (e_brokers _ !! x) as [r0|] eqn:E; [|done]. destruct (_ <? _)%N; [done|]. intros [= <-]. by apply IH. }
    destruct o as [now b' p' ttl key|now|n b' p'|n1 n2 b' n ttl|now|l]; try (by apply IH); try by apply Hpr.
    destruct (_ && _); [|by apply Hpr]. intros [= <-]. cbn. apply List.Forall_cons_iff in Ho as [_ Ho]. apply List.Forall_cons_iff in Ho as [Ho _]. lia.
Qed.
Lemma permits_young os t mid p r : List.Forall (fun u => (t <= u)%N) (times mid) ->
  e_permits (e_run (os ++ DPrune t :: mid)) !! p = Some r -> (t <= pr_expiry r)%N.
Proof.
  revert r. induction mid as [|o mid IH] using rev_ind; intros r Hm.
  - rewrite (e_run_snoc false). cbn. intros H. apply map_filter_lookup_Some in H as [_ H]. cbn in H. by apply N.ltb_ge in H.
  - rewrite app_comm_cons, app_assoc, (e_run_snoc false). rewrite times_snoc in Hm. apply List.Forall_app in Hm as [Hm Ho].
    destruct o as [now b' p' ttl key|now|n b' p'|n1 n2 b' n ttl|now|l]; cbn [DiscModel.e_step fst].
    + unfold e_issue. destruct (e_permits _ !! p') eqn:E; [by apply IH|]. cbn [fst e_permits]. intros H. apply lookup_insert_Some in H as [[<- <-]|[_ H]]; [|by apply IH].
      cbn. apply List.Forall_cons_iff in Ho as [Ho _]. lia.
    + cbn. intros H. apply map_filter_lookup_Some in H as [H _]. by apply IH.
    + unfold e_take. destruct (p' <? 2 ^ 32)%N; [|by apply IH]. destruct (e_permits _ !! p') eqn:E; [|by apply IH]. case_decide; [|by apply IH].
      cbn [fst e_permits]. intros H1. apply lookup_delete_Some in H1 as [_ H1]. by apply IH.
    + unfold e_heartbeat. destruct (n <? 2 ^ 32)%N; by apply IH.
    + by apply IH.
    + unfold e_set_whitelist. case_decide; by apply IH.
Qed.
Lemma count_outstanding os t mid x S b :
  List.Forall (fun u => (t <= u)%N) (times mid) -> (forall n b p ttl k, In (DIssue n b p ttl k) (os ++ DPrune t :: mid) -> (p < 2 ^ 32)%N) ->
  bid_print b = x -> outstanding (os ++ DPrune t :: mid) t x S -> e_count_permits (e_run (os ++ DPrune t :: mid)) x = N.of_nat (size S).
Proof.
  intros Hm Hp Hb HS. set (os' := os ++ DPrune t :: mid) in *.
  rewrite <- (e_count_outstanding false os' t x S eq_refl Hp (ex_intro _ b Hb) HS).
  unfold e_count_permits, e_prune_permits, e_prune_brokers. cbn [e_permits].
  f_equal. f_equal. f_equal. symmetry. apply map_eq. intros p. destruct (e_permits (e_run os') !! p) as [r|] eqn:E.
  - apply map_filter_lookup_Some. split; [done|]. cbn. apply N.ltb_ge. by eapply permits_young.
  - apply map_filter_lookup_None. by left.
Qed.

(** The two queries that count the permits of one broker. *)
Definition counted (x : bytes) (c : N) (k : nat) : Prop :=
  exists os t os' t', vs k = Some (os, t) /\ vs (S k) = Some (os', t') /\ c = e_count_permits (e_run os') x.
Lemma e_counts_some k l t : Nat.even k = true -> 2 <= k -> e_counts false vs k l = Some t ->
  (forall x r, In (x, r) l -> exists m, In (x, m) t)
  /\ (forall x m, In (x, m) t -> exists r c j, In (x, r) l /\ Nat.even j = true /\ 2 <= j /\ counted x c j /\ m = (br_conns r + c)%N).
Proof.
  revert k t. induction l as [|[x r] l IH]; intros k t Hk Hk2; cbn [e_counts].
  { intros [= <-]. split; [by intros ? ? []|]. by intros ? ? []. }
  destruct (vs k) as [[os0 t0]|] eqn:E1; [|done]. destruct (vs (S k)) as [[os now]|] eqn:E2; [|done].
  destruct (e_counts false vs (S (S k)) l) as [r'|] eqn:Er; [|done]. intros [= <-]. destruct (IH (S (S k)) _ Hk ltac:(lia) Er) as [IH1 IH2]. split.
  - intros y r0 [[= <- <-]|Hy]; [eexists; by left|]. destruct (IH1 y r0 Hy) as [m Hm]. exists m. by right.
  - intros y m [[= <- <-]|Hy].
    + exists r, (e_count_permits (e_run os) x), k. split; [by left|]. split; [done|]. split; [done|]. split; [|done]. by exists os0, t0, os, now.
    + destruct (IH2 y m Hy) as (r0 & c & j & Hi & H). exists r0, c, j. split; [by right|done].
Qed.
Lemma e_counts_none k l : e_counts false vs k l = None -> exists j, k <= j < k + 2 * length l /\ vs j = None.
Proof.
  revert k. induction l as [|[x r] l IH]; intros k; cbn [e_counts]; [done|].
  destruct (vs k) as [v1|] eqn:E1; [|intros _; exists k; cbn; split; [lia|done]].
  destruct (vs (S k)) as [[os now]|] eqn:E2; [|intros _; exists (S k); cbn; split; [lia|done]].
  destruct (e_counts false vs (S (S k)) l) as [r'|] eqn:Er; [done|]. intros _. destruct (IH _ Er) as (j & Hj & H). exists j. cbn. split; [lia|done].
Qed.

Lemma counted_waiting b c j : (forall k v, vs k = Some v -> forall n b p ttl q, In (DIssue n b p ttl q) v.1 -> (p < 2 ^ 32)%N) ->
  Nat.even j = true -> 2 <= j -> counted (bid_print b) c j -> exists S, waiting b S /\ c = N.of_nat (size S).
Proof.
  intros Hp Hj Hj2 (os & t & os' & t' & E1 & E2 & ->). destruct Htime as [_ Hn]. destruct (Hn _ _ _ E1 E2) as (mid & Heq & Hle & Hm). cbn in Heq, Hle, Hm.
  assert (He : e_effect j t = [DPrune t]) by (unfold e_effect; destruct j; [lia|]; by rewrite Hj). rewrite He in Heq. cbn [app] in Heq.
  destruct (outstanding_exists false os' t (bid_print b)) as [S HS]; [by exists b|]. exists S. split.
  - exists (Datatypes.S j), os', t'. split; [lia|]. split; [done|]. exists t. split; [by exists os|done].
  - rewrite Heq in *. eapply count_outstanding; [|by apply (Hp _ _ E2)|done|done]. eapply List.Forall_impl; [|exact Hm]. cbn. lia.
Qed.

Lemma e_choose_spec :
  (forall k v, vs k = Some v -> ids_ok v.1 /\ forall n b p ttl q, In (DIssue n b p ttl q) v.1 -> (p < 2 ^ 32)%N) ->
  match e_choose false vs ord with
  | Some b => exists os0 t0 os1 t1 n S, vs 0 = Some (os0, t0) /\ vs 1 = Some (os1, t1) /\ id_ok b /\ e_alive os1 t0 b n /\ waiting b S
      /\ forall b' n', id_ok b' -> e_alive os1 t1 b' n' -> exists S', waiting b' S' /\ (n + N.of_nat (size S) <= n' + N.of_nat (size S'))%N
  | None => (exists k, vs k = None /\ (k <= 1 \/ exists os1 t1, vs 1 = Some (os1, t1) /\ k < 2 + 2 * size (e_brokers (e_run os1))))
      \/ exists os1 t1, vs 1 = Some (os1, t1) /\ forall b n, id_ok b -> ~ e_alive os1 t1 b n
  end.
Proof.
  intros Hok. unfold e_choose. destruct (vs 0) as [[os0 t0]|] eqn:E0; [|left; exists 0; split; [done|lia]].
  destruct (vs 1) as [[os1 t1]|] eqn:E1; [|left; exists 1; split; [done|lia]].
  destruct Htime as [Ht Hn]. destruct (Hn _ _ _ E0 E1) as (mid & Heq & Hle & Hm). cbn in Heq, Hle, Hm. destruct (Hok _ _ E1) as [Hids Hp1]. cbn in Hids, Hp1.
  pose proof (Ht _ _ E1) as Hty. unfold timely in Hty. cbn in Hty.
  set (rows := map_to_list (e_brokers (e_run os1))).
  assert (Hrows : forall x r, In (x, r) rows <-> e_brokers (e_run os1) !! x = Some r) by (intros x r; unfold rows; by rewrite <- elem_of_list_In, elem_of_map_to_list).
  pose proof (Hord _ rows) as Hperm.
  assert (Hin : forall z, In z (ord _ rows) <-> In z rows) by (intros z; split; apply Permutation_in; [done|by symmetry]).
  destruct (e_counts false vs 2 (ord _ rows)) as [t|] eqn:Et.
  - destruct (e_counts_some 2 _ _ eq_refl ltac:(lia) Et) as [H1 H2].
    destruct (decide (rows = [])) as [Hnil|Hnil].
    + assert (t = []) as ->. { destruct t as [|[x m] t]; [done|]. destruct (H2 x m) as (r & c & j & Hi & _); [by left|]. apply Hin in Hi. by rewrite Hnil in Hi. }
      cbn. right. exists os1, t1. split; [done|]. intros b n Hb (e & Hbt & He). destruct (e_beat_row false _ _ _ _ Hbt) as [Hrow|(u & Hu & Hlt)].
      * apply Hrows in Hrow. by rewrite Hnil in Hrow.
      * rewrite List.Forall_forall in Hty. specialize (Hty u Hu). lia.
    + assert (Hlt : forall x m, In (x, m) t -> (m < 2 ^ 64 - 1)%N).
      { intros x m Hx. destruct (H2 _ _ Hx) as (r & c & j & Hi & Hj & Hj2 & (osj & tj & os' & t' & Ej & Ej' & ->) & ->). apply Hin, Hrows, e_row_beat in Hi.
        apply last_beat_in in Hi as (? & ? & ? & ? & _ & _ & _ & Hnn).
        assert (Hc : (e_count_permits (e_run os') x <= 2 ^ 32)%N).
        { unfold e_count_permits. rewrite <- (size_dom (D := gset N)). apply size_below. intros p Hp'. apply elem_of_dom in Hp' as [r' Hr].
          apply map_filter_lookup_Some in Hr as [Hr _]. apply e_permit_numbers in Hr as (n & b' & ttl & Hin'). destruct (Hok _ _ Ej') as [_ Hp]. by eapply Hp. }
        lia. }
      destruct (least_spec t) as (x & m & Hx & Hmin & ->).
      { intros ->. destruct rows as [|[x r] rr] eqn:Er; [done|]. destruct (H1 x r) as [m Hm']; [|done]. apply Hin. by left. }
      { intros [x m] Hx. by eapply Hlt. }
      destruct (H2 _ _ Hx) as (r & c & j & Hi & Hj & Hj2 & Hc & ->). apply Hin, Hrows in Hi.
      assert (Hyoung : (t0 <= br_expiry r)%N).
      { rewrite Heq in Hi. cbn [app] in Hi. eapply brokers_young; [|exact Hi]. eapply List.Forall_impl; [|exact Hm]. cbn. lia. }
      pose proof (e_row_beat false _ _ _ Hi) as Hb. pose proof (beat_id_ok _ _ _ _ _ Hids Hb) as (b & [Hb1 Hb2] & <-). rewrite bid_roundtrip by done.
      destruct (counted_waiting b c j (fun k v E => proj2 (Hok k v E)) Hj Hj2 Hc) as (S & HS & ->).
      exists os0, t0, os1, t1, (br_conns r), S. split; [done|]. split; [done|]. split; [done|]. split; [by exists (br_expiry r)|]. split; [done|].
      intros b' n' Hb' (e' & Hbt & He').
      assert (Hrow' : e_brokers (e_run os1) !! bid_print b' = Some (BrokerRow n' e')).
      { destruct (e_beat_row false _ _ _ _ Hbt) as [Hrow|(u & Hu & Hlt')]; [done|]. rewrite List.Forall_forall in Hty. specialize (Hty u Hu). lia. }
      destruct (H1 (bid_print b') (BrokerRow n' e')) as [m' Hm']; [by apply Hin, Hrows|].
      destruct (H2 _ _ Hm') as (r' & c' & j' & Hi' & Hj' & Hj2' & Hc' & ->). apply Hin, Hrows in Hi'. rewrite Hrow' in Hi'. injection Hi' as <-.
      destruct (counted_waiting b' c' j' (fun k v E => proj2 (Hok k v E)) Hj' Hj2' Hc') as (S' & HS' & ->). exists S'. split; [done|]. apply (Hmin _ _ Hm').
  - left. destruct (e_counts_none _ _ Et) as (j & Hj & Hv). exists j. split; [done|]. right. exists os1, t1. split; [done|].
    rewrite (Permutation_length Hperm) in Hj. change (length rows) with (size (e_brokers (e_run os1))) in Hj. lia.
Qed.
End sqlite.
