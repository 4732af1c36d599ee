(** Lemmas on the discovery back ends: membership, load, whitelist. *)
From stdpp Require Import gmap fin_maps list sets fin_map_dom.
From Coq Require Import NArith Lia.
From Verif Require Import IdModel IdProofs DecModel DecProofs DiscModel DiscSpec DiscProofs DiscProofs2.

Lemma times_snoc os o : times (os ++ [o]) = times os ++ op_times o.
Proof. unfold times. rewrite map_app, concat_app. cbn. by rewrite app_nil_r. Qed.
Lemma last_beat_snoc limit os o x :
  last_beat limit (os ++ [o]) x =
  match o with
  | DHeartbeat _ now b n ttl =>
      if bool_decide (bid_print b = x) && match limit with Some l => (n <? l)%N | None => true end
      then Some (n, (now + ttl)%N) else last_beat limit os x
  | _ => last_beat limit os x
  end.
Proof. unfold last_beat. rewrite rev_unit. by destruct o. Qed.

(** A heartbeat in the history is why there is a last one. *)
Lemma last_beat_in limit os x n e :
  last_beat limit os x = Some (n, e) -> exists now1 now2 b ttl, In (DHeartbeat now1 now2 b n ttl) os /\ bid_print b = x /\ e = (now2 + ttl)%N
     /\ match limit with Some l => (n < l)%N | None => True end.
Proof.
  induction os as [|o os IH] using rev_ind; [done|]. rewrite last_beat_snoc.
  assert (Hrec : last_beat limit os x = Some (n, e) -> exists now1 now2 b ttl, In (DHeartbeat now1 now2 b n ttl) (os ++ [o]) /\ bid_print b = x /\ e = (now2 + ttl)%N
      /\ match limit with Some l => (n < l)%N | None => True end).
  { intros H. destruct (IH H) as (n1 & n2 & b & ttl & Hin & Hp & He & Hl). exists n1, n2, b, ttl. rewrite in_app_iff. auto. }
  destruct o as [| | |n1 n2 b m ttl| |]; try done.
  destruct (bool_decide (bid_print b = x) && _) eqn:E; [|done]. intros [= -> <-].
  apply andb_prop in E as [E1 E2]. apply bool_decide_eq_true in E1.
  exists n1, n2, b, ttl. rewrite in_app_iff. split; [right; by left|]. split; [done|]. split; [done|].
  destruct limit; [by apply N.ltb_lt|done].
Qed.

(** A set of numbers below [M] has at most [M] elements. *)
Lemma size_below (M : N) (D : gset N) : (forall p, p ∈ D -> (p < M)%N) -> (N.of_nat (size D) <= M)%N.
Proof.
  intros Hd. set (L := map N.of_nat (seq 0 (N.to_nat M))).
  assert (Hsub : D ⊆ list_to_set L).
  { intros p Hp. apply elem_of_list_to_set, elem_of_list_In, in_map_iff. exists (N.to_nat p). split; [lia|].
    apply in_seq. specialize (Hd p Hp). lia. }
  apply subseteq_size in Hsub.
  assert (HL : size (list_to_set L : gset N) <= length L).
  { clear. induction L as [|x L IH]; cbn; [by rewrite size_empty|]. rewrite size_union_alt, size_singleton.
    assert (size (list_to_set L ∖ {[x]} : gset N) <= size (list_to_set L : gset N)) by (apply subseteq_size; set_solver). lia. }
  unfold L in HL at 2. rewrite map_length, seq_length in HL. lia.
Qed.

Section runs.
Variable global : bool.
Notation e_step := (e_step global). Notation r_step := (r_step global).
Notation e_run := (e_run global). Notation r_run := (r_run global).
Notation e_answer := (e_answer global). Notation r_answer := (r_answer global).
Notation permit_key := (permit_key global).
Notation outstanding := (outstanding global).

(** ** SQLite: rows of brokers *)
Definition pruned (t : N) (r : option broker_row) : option broker_row :=
  match r with Some r => if (br_expiry r <? t)%N then None else Some r | None => None end.
Lemma e_prune_brokers_lookup s t x : e_brokers (e_prune_brokers s t) !! x = pruned t (e_brokers s !! x).
Proof.
  unfold e_prune_brokers; cbn. destruct (e_brokers s !! x) as [r|] eqn:E; cbn.
  - destruct (br_expiry r <? t)%N eqn:Er.
    + apply map_filter_lookup_None. right. intros r'. rewrite E. intros [= <-]. cbn. by rewrite Er.
    + by apply map_filter_lookup_Some.
  - apply map_filter_lookup_None. by left.
Qed.

Lemma e_step_broker s o x :
  e_brokers (e_step s o).1 !! x =
  match o with
  | DHeartbeat now1 now2 b n ttl =>
      if bool_decide (bid_print b = x) && (n <? 2 ^ 32)%N then Some (BrokerRow n (now2 + ttl)) else pruned now1 (e_brokers s !! x)
  | DPruneBrokers now => pruned now (e_brokers s !! x)
  | _ => e_brokers s !! x
  end.
Proof.
  destruct o as [now b' p' ttl key|now|n b' p'|n1 n2 b' n ttl|now|l]; cbn [DiscModel.e_step fst]; try done.
  - unfold e_issue. by destruct (e_permits s !! p').
  - unfold e_take. destruct (p' <? 2 ^ 32)%N; [|done]. destruct (e_permits s !! p'); [|done]. by case_decide.
  - unfold e_heartbeat. destruct (n <? 2 ^ 32)%N; cbn [fst e_brokers].
    + rewrite andb_true_r. case_bool_decide as Hd; [rewrite Hd; by rewrite lookup_insert|rewrite lookup_insert_ne by done; apply e_prune_brokers_lookup].
    + rewrite andb_false_r. apply e_prune_brokers_lookup.
  - apply e_prune_brokers_lookup.
  - unfold e_set_whitelist. by case_decide.
Qed.

Lemma e_row_beat os x r :
  e_brokers (e_run os) !! x = Some r -> last_beat (Some (2 ^ 32)%N) os x = Some (br_conns r, br_expiry r).
Proof.
  revert r. induction os as [|o os IH] using rev_ind; intros r; [cbn; by rewrite lookup_empty|].
  rewrite (e_run_snoc global), e_step_broker, last_beat_snoc.
  assert (Hpr : forall t, pruned t (e_brokers (e_run os) !! x) = Some r -> e_brokers (e_run os) !! x = Some r).
  { intros t. unfold pruned. destruct (e_brokers (e_run os) !! x); [|done]. by destruct (_ <? _)%N. }
  destruct o as [now b' p' ttl key|now|n b' p'|n1 n2 b' n ttl|now|l]; eauto.
  destruct (bool_decide (bid_print b' = x) && (n <? 2 ^ 32)%N); [by intros [= <-]|eauto].
Qed.

Lemma e_beat_row os x n e :
  last_beat (Some (2 ^ 32)%N) os x = Some (n, e) ->
  e_brokers (e_run os) !! x = Some (BrokerRow n e) \/ exists t, In t (times os) /\ (e < t)%N.
Proof.
  revert n e. induction os as [|o os IH] using rev_ind; intros n e; [done|].
  rewrite (e_run_snoc global), e_step_broker, last_beat_snoc, times_snoc.
  assert (Hl : forall l, (e_brokers (e_run os) !! x = Some (BrokerRow n e) \/ exists t, In t (times os) /\ (e < t)%N) ->
     (e_brokers (e_run os) !! x = Some (BrokerRow n e) \/ exists t, In t (times os ++ l) /\ (e < t)%N)).
  { intros l [H|(t & Ht & He)]; [by left|right]. exists t. rewrite in_app_iff. auto. }
  assert (Hp : forall t l, (e_brokers (e_run os) !! x = Some (BrokerRow n e) \/ exists t, In t (times os) /\ (e < t)%N) -> In t l ->
     (pruned t (e_brokers (e_run os) !! x) = Some (BrokerRow n e) \/ exists t, In t (times os ++ l) /\ (e < t)%N)).
  { intros t l [->|(u & Hu & He)] Hin; [|right; exists u; rewrite in_app_iff; auto]. cbn.
    destruct (N.ltb_spec e t); [|by left]. right. exists t. rewrite in_app_iff. auto. }
  destruct o as [now b' p' ttl key|now|m b' p'|n1 n2 b' m ttl|now|l]; try (intros H; apply Hl, IH, H).
  - destruct (bool_decide (bid_print b' = x) && (m <? 2 ^ 32)%N); [intros [= -> <-]; by left|].
    intros H. apply Hp; [by apply IH|by left].
  - intros H. apply Hp; [by apply IH|by left].
Qed.

(** The rows left after cleaning up are the unexpired last heartbeats. *)
Lemma e_live os now x n e :
  Forall (fun t => (t <= now)%N) (times os) ->
  e_brokers (e_prune_brokers (e_run os) now) !! x = Some (BrokerRow n e)
  <-> last_beat (Some (2 ^ 32)%N) os x = Some (n, e) /\ (now <= e)%N.
Proof.
  intros Hm. rewrite e_prune_brokers_lookup. split.
  - unfold pruned. destruct (e_brokers (e_run os) !! x) as [r|] eqn:E; [|done].
    destruct (N.ltb_spec (br_expiry r) now); [done|]. intros [= ->]. apply e_row_beat in E. done.
  - intros [Hb He]. destruct (e_beat_row os x n e Hb) as [->|(t & Ht & Het)]; cbn.
    + destruct (N.ltb_spec e now); [lia|done].
    + rewrite List.Forall_forall in Hm. specialize (Hm t Ht). lia.
Qed.

(** ** Redis: members and counters *)
Lemma r_step_broker s o x :
  r_brokers (r_step s o).1 !! x =
    match o with DHeartbeat _ now b n ttl => if decide (bid_print b = x) then Some (now + ttl)%N else r_brokers s !! x | _ => r_brokers s !! x end
  /\ r_keys (r_step s o).1 !! conns_key x =
    match o with DHeartbeat _ now b n ttl => if decide (bid_print b = x) then Some (dec n, now + ttl)%N else r_keys s !! conns_key x | _ => r_keys s !! conns_key x end.
Proof.
  destruct o as [now b' p' ttl key|now|n b' p'|n1 n2 b' n ttl|now|l]; cbn; try done.
  - rewrite lookup_insert_ne; [done|]. intros H. symmetry in H. by apply conns_permit_ne in H.
  - rewrite lookup_delete_ne; [done|]. intros H. symmetry in H. by apply conns_permit_ne in H.
  - case_decide as Hd.
    + rewrite Hd. by rewrite !lookup_insert.
    + rewrite !lookup_insert_ne; [done| |done]. intros H. by apply conns_key_inj in H.
Qed.

Lemma r_beat os x :
  r_brokers (r_run os) !! x = snd <$> last_beat None os x
  /\ r_keys (r_run os) !! conns_key x = (fun ne => (dec ne.1, ne.2)) <$> last_beat None os x.
Proof.
  induction os as [|o os IH] using rev_ind; [cbn; by rewrite !lookup_empty|].
  rewrite (r_run_snoc global). destruct (r_step_broker (r_run os) o x) as [-> ->]. rewrite last_beat_snoc.
  destruct o; try done. rewrite andb_true_r. case_decide as Hd.
  - by rewrite bool_decide_true.
  - by rewrite bool_decide_false.
Qed.

Lemma r_live os now x :
  In x (r_members (r_run os) now) <-> exists n e, last_beat None os x = Some (n, e) /\ (now < e)%N.
Proof.
  unfold r_members. rewrite in_map_iff. split.
  - intros ([y e] & <- & Hin). apply elem_of_list_In, elem_of_list_filter in Hin as [Hlt Hin].
    apply elem_of_map_to_list in Hin. destruct (r_beat os y) as [Hr _]. rewrite Hr in Hin.
    destruct (last_beat None os y) as [[n e']|] eqn:E; [|done]. cbn in Hin. injection Hin as ->.
    exists n, e. split; [done|]. by apply N.ltb_lt.
  - intros (n & e & Hb & Hlt). exists (x, e). split; [done|]. apply elem_of_list_In, elem_of_list_filter.
    split; [by apply N.ltb_lt|]. apply elem_of_map_to_list. destruct (r_beat os x) as [-> _]. by rewrite Hb.
Qed.

(** ** Listing the other brokers *)
Lemma print_inj_ok a b : id_ok a -> id_ok b -> bid_print a = bid_print b -> a = b.
Proof. intros [? ?] [? ?]. by apply bid_print_inj. Qed.

Lemma parse_all_ok l : (forall x, In x l -> exists b, id_ok b /\ bid_print b = x) ->
  exists r, parse_all l = Some r /\ forall b, In b r <-> (id_ok b /\ In (bid_print b) l).
Proof.
  induction l as [|x l IH]; intros Hl.
  - exists []. split; [done|]. cbn. tauto.
  - destruct IH as (r & Hr & Hb); [intros; apply Hl; by right|].
    destruct (Hl x) as (c & [Hc1 Hc2] & <-); [by left|].
    exists (c :: r). cbn. rewrite bid_roundtrip, Hr by done. split; [done|].
    intros b. rewrite Hb. split.
    + intros [->|[? ?]]; [split; [done|by left]|tauto].
    + intros [Hok [Heq|Hin]]; [left; by apply print_inj_ok|tauto].
Qed.

Lemma beat_id_ok limit os x n e : ids_ok os -> last_beat limit os x = Some (n, e) -> exists b, id_ok b /\ bid_print b = x.
Proof. intros Hok H. apply last_beat_in in H as (n1 & n2 & b & ttl & Hin & Hp & _). exists b. split; [by eapply Hok|done]. Qed.

Lemma e_others os now self :
  Forall (fun t => (t <= now)%N) (times os) -> ids_ok os ->
  exists S, (e_other_brokers (e_run os) now self).2 = Some S
    /\ forall b, b ∈ S <-> b <> self /\ id_ok b /\ exists n e, last_beat (Some (2 ^ 32)%N) os (bid_print b) = Some (n, e) /\ (now <= e)%N.
Proof.
  intros Hm Hok. unfold e_other_brokers. cbn [snd].
  assert (Hin : forall x, In x (map fst (map_to_list (e_brokers (e_prune_brokers (e_run os) now)))) <->
     exists n e, last_beat (Some (2 ^ 32)%N) os x = Some (n, e) /\ (now <= e)%N).
  { intros x. rewrite in_map_iff. split.
    - intros ([y [n e]] & <- & Hi). apply elem_of_list_In, elem_of_map_to_list in Hi. exists n, e. by apply e_live.
    - intros (n & e & Hb). exists (x, BrokerRow n e). split; [done|]. apply elem_of_list_In, elem_of_map_to_list. by apply e_live. }
  destruct (parse_all_ok (map fst (map_to_list (e_brokers (e_prune_brokers (e_run os) now))))) as (r & Hr & Hb).
  { intros x Hx. apply Hin in Hx as (n & e & Hx & _). by eapply beat_id_ok. }
  rewrite Hr. eexists. split; [done|]. intros b. rewrite elem_of_difference, elem_of_list_to_set, elem_of_list_In, not_elem_of_singleton, Hb, Hin. tauto.
Qed.

Lemma r_others os now self :
  ids_ok os -> id_ok self ->
  exists S, r_other_brokers (r_run os) now self = Some S
    /\ forall b, b ∈ S <-> b <> self /\ id_ok b /\ exists n e, last_beat None os (bid_print b) = Some (n, e) /\ (now < e)%N.
Proof.
  intros Hok Hself. unfold r_other_brokers.
  destruct (parse_all_ok (filter (fun x => x <> bid_print self) (r_members (r_run os) now))) as (r & Hr & Hb).
  { intros x Hx. apply elem_of_list_In, elem_of_list_filter in Hx as [_ Hx]. apply elem_of_list_In, r_live in Hx as (n & e & Hx & _). by eapply beat_id_ok. }
  rewrite Hr. eexists. split; [done|]. intros b. rewrite elem_of_list_to_set, elem_of_list_In, Hb, <- elem_of_list_In, elem_of_list_filter, elem_of_list_In, r_live.
  split.
  - intros (Hb1 & Hne & Hl). split; [|done]. intros ->. done.
  - intros (Hne & Hb1 & Hl). split; [done|]. split; [|done]. intros Heq. apply Hne. by apply print_inj_ok.
Qed.

(** ** Least loaded *)
Lemma least_fold l acc :
  (forall x, In x l -> ((fold_left least_step l acc).1 <= x.2)%N)
  /\ ((fold_left least_step l acc).1 <= acc.1)%N
  /\ (fold_left least_step l acc = acc \/ In ((fold_left least_step l acc).2, (fold_left least_step l acc).1) l).
Proof.
  revert acc; induction l as [|y l IH]; intros acc; cbn [fold_left].
  - split; [by intros|]. split; [lia|by left].
  - destruct (IH (least_step acc y)) as (H1 & H2 & H3).
    assert (Hle : ((least_step acc y).1 <= acc.1)%N /\ ((least_step acc y).1 <= y.2)%N).
    { unfold least_step. destruct (N.ltb_spec y.2 acc.1); cbn; lia. }
    split; [intros x [<-|Hx]; [lia|by apply H1]|]. split; [lia|].
    destruct H3 as [H3|H3]; [|right; by right]. rewrite H3. unfold least_step.
    destruct (y.2 <? acc.1)%N; cbn; [right; left; by destruct y|by left].
Qed.

Lemma least_spec l :
  l <> [] -> (forall x, In x l -> (x.2 < 2 ^ 64 - 1)%N) ->
  exists x n, In (x, n) l /\ (forall y m, In (y, m) l -> (n <= m)%N) /\ least l = bid_parse x.
Proof.
  intros Hne Hlt. unfold least.
  destruct (least_fold l ((2 ^ 64 - 1)%N, [])) as (H1 & H2 & H3). destruct l as [|y l]; [done|].
  destruct H3 as [H3|H3].
  - exfalso. specialize (H1 y (or_introl eq_refl)). rewrite H3 in H1. specialize (Hlt y (or_introl eq_refl)). cbn [fst] in H1. lia.
  - eexists _, _. split; [exact H3|]. split; [|done]. intros z m Hz. apply (H1 _ Hz).
Qed.

Lemma e_run_permits os now : e_run (os ++ [DPrune now]) = e_prune_permits (e_run os) now.
Proof. by rewrite (e_run_snoc global). Qed.

Lemma e_permit_numbers os p r : e_permits (e_run os) !! p = Some r -> exists now b ttl, In (DIssue now b p ttl (pr_key r)) os.
Proof. intros H. apply e_origin in H as (os1 & now & b & ttl & os2 & -> & _). exists now, b, ttl. rewrite in_app_iff. right. by left. Qed.

Lemma e_count_outstanding os now x S :
  global = false -> (forall n b p ttl k, In (DIssue n b p ttl k) os -> (p < 2 ^ 32)%N) ->
  (exists b, bid_print b = x) ->
  outstanding os now x S ->
  e_count_permits (e_prune_permits (e_prune_brokers (e_run os) now) now) x = N.of_nat (size S).
Proof.
  intros Hg Hp [b Hb] HS. unfold e_count_permits. f_equal.
  rewrite <- (size_dom (D := gset N)). apply set_size_proper. intros p.
  rewrite (HS p b Hb). rewrite elem_of_dom. unfold is_Some.
  change (e_permits (e_prune_permits (e_prune_brokers (e_run os) now) now)) with (e_permits (e_prune_permits (e_run os) now)).
  rewrite <- e_run_permits.
  split.
  - intros (r & Hr). apply map_filter_lookup_Some in Hr as [Hr Hi]. cbn in Hi. exists (pr_key r). apply e_take_answer. split.
    + apply e_permit_numbers in Hr as (n & b' & ttl & Hin). rewrite in_app_iff in Hin. destruct Hin as [Hin|[?|[]]]; [by eapply Hp|done].
    + exists r. split; [done|]. split; [done|]. right. congruence.
  - intros (k & Hk). apply e_take_answer in Hk as (_ & r & Hr & _ & [?|Hi]); [congruence|].
    exists r. apply map_filter_lookup_Some. split; [done|]. cbn. congruence.
Qed.

(** There is such a set. *)
Lemma outstanding_exists os now x : (exists b, bid_print b = x) -> exists S, outstanding os now x S.
Proof.
  intros [b0 Hb0].
  exists (dom (filter (fun kv : N * permit_row => (kv.1 < 2 ^ 32)%N /\ (global = true \/ pr_ident kv.2 = x)) (e_permits (e_run (os ++ [DPrune now]))))).
  intros p b Hb. rewrite elem_of_dom. unfold is_Some. split.
  - intros (r & Hr). apply map_filter_lookup_Some in Hr as [Hr [Hp Hi]]. cbn in Hp, Hi. exists (pr_key r). apply e_take_answer.
    split; [done|]. exists r. rewrite Hb. done.
  - intros (k & Hk). apply e_take_answer in Hk as (Hp & r & Hr & _ & Hi). exists r. apply map_filter_lookup_Some. rewrite Hb in Hi. done.
Qed.

Lemma e_least_spec os now :
  global = false -> Forall (fun t => (t <= now)%N) (times os) -> ids_ok os ->
  (forall n b p ttl k, In (DIssue n b p ttl k) os -> (p < 2 ^ 32)%N) ->
  match (e_least (e_run os) now).2 with
  | Some b => id_ok b /\ exists n S, e_alive os now b n /\ outstanding os now (bid_print b) S
      /\ forall b' n' S', id_ok b' -> e_alive os now b' n' -> outstanding os now (bid_print b') S' ->
           (n + N.of_nat (size S) <= n' + N.of_nat (size S'))%N
  | None => forall b n, id_ok b -> ~ e_alive os now b n
  end.
Proof.
  intros Hg Hm Hok Hp. unfold e_least. cbn [snd].
  set (s := e_prune_permits (e_prune_brokers (e_run os) now) now).
  set (l := map _ (map_to_list (e_brokers s))).
  assert (Hl : forall x t, In (x, t) l <-> exists n e, last_beat (Some (2 ^ 32)%N) os x = Some (n, e) /\ (now <= e)%N /\ t = (n + e_count_permits s x)%N).
  { intros x t. unfold l. rewrite in_map_iff. split.
    - intros ([y [n e]] & Heq & Hi). cbn in Heq. injection Heq as <- <-. apply elem_of_list_In, elem_of_map_to_list in Hi.
      exists n, e. apply e_live in Hi as [? ?]; done.
    - intros (n & e & Hb & He & ->). exists (x, BrokerRow n e). split; [done|]. apply elem_of_list_In, elem_of_map_to_list. by apply e_live. }
  assert (Hcount : forall x, (e_count_permits s x <= 2 ^ 32)%N).
  { intros x. unfold e_count_permits. rewrite <- (size_dom (D := gset N)).
    apply size_below. intros p Hp'. apply elem_of_dom in Hp' as [r Hr]. apply map_filter_lookup_Some in Hr as [Hr _].
    unfold s in Hr. cbn in Hr. apply map_filter_lookup_Some in Hr as [Hr _]. apply e_permit_numbers in Hr as (n & b' & ttl & Hin).
    by eapply Hp. }
  destruct (decide (l = [])) as [Hnil|Hnil].
  - rewrite Hnil. cbn. intros b n Hb (e & Hbt & He).
    assert (In (bid_print b, (n + e_count_permits s (bid_print b))%N) l) as Hin by (apply Hl; eauto). by rewrite Hnil in Hin.
  - destruct (least_spec l Hnil) as (x & t & Hin & Hmin & ->).
    { intros [x t] Hin. apply Hl in Hin as (n & e & Hb & _ & ->). apply last_beat_in in Hb as (_ & _ & _ & _ & _ & _ & _ & Hn). cbn [snd].
      specialize (Hcount x). lia. }
    apply Hl in Hin as (n & e & Hb & He & ->). pose proof (beat_id_ok _ _ _ _ _ Hok Hb) as (b & [Hb1 Hb2] & <-).
    rewrite bid_roundtrip by done. split; [done|].
    destruct (outstanding_exists os now (bid_print b)) as [S HS]; [by exists b|].
    exists n, S. split; [by exists e|]. split; [done|].
    intros b' n' S' Hb' (e' & Hbt & He') HS'.
    rewrite <- (e_count_outstanding os now (bid_print b) S) by (done || by exists b).
    rewrite <- (e_count_outstanding os now (bid_print b') S') by (done || by exists b').
    apply (Hmin (bid_print b')). apply Hl. eauto.
Qed.

Lemma r_totals_ok os now l :
  (forall x, In x l -> exists n e, last_beat None os x = Some (n, e) /\ (now < e)%N) ->
  exists t, r_totals (r_run os) now l = Some t
    /\ forall x n, In (x, n) t <-> In x l /\ exists e, last_beat None os x = Some (n, e) /\ (now < e)%N.
Proof.
  induction l as [|x l IH]; intros Hl.
  - exists []. split; [done|]. cbn. tauto.
  - destruct IH as (t & Ht & Hin); [intros; apply Hl; by right|].
    destruct (Hl x) as (n & e & Hb & He); [by left|].
    exists ((x, n) :: t). cbn [r_totals].
    assert (Hg : r_get (r_run os) now (conns_key x) = Some (dec n)).
    { unfold r_get. destruct (r_beat os x) as [_ ->]. rewrite Hb. cbn. destruct (N.ltb_spec now e); [done|lia]. }
    rewrite Hg, undec_dec, Ht, N.add_0_r. split; [done|].
    intros y m. cbn [In]. rewrite Hin. split.
    + intros [[= <- <-]|[? ?]]; [split; [by left|by exists e]|]. split; [by right|done].
    + intros [[<-|Hy] (e' & Hb' & He')]; [left; congruence|right; eauto].
Qed.

(** Redis compares the numbers of connections only. *)
Lemma r_least_spec os now :
  ids_ok os -> (forall n1 n2 b n ttl, In (DHeartbeat n1 n2 b n ttl) os -> (n < 2 ^ 64 - 1)%N) ->
  match r_least (r_run os) now with
  | Some b => id_ok b /\ exists n, r_alive os now b n /\ forall b' n', r_alive os now b' n' -> (n <= n')%N
  | None => forall b n, ~ r_alive os now b n
  end.
Proof.
  intros Hok Hsm. unfold r_least.
  destruct (r_totals_ok os now (r_members (r_run os) now)) as (t & Ht & Hin); [intros x; apply r_live|].
  destruct (r_members (r_run os) now) as [|y l] eqn:E.
  - intros b n (e & Hb & He). assert (In (bid_print b) (r_members (r_run os) now)) as Hm by (apply r_live; eauto). by rewrite E in Hm.
  - rewrite Ht.
    assert (Hall : forall x n, In (x, n) t <-> exists e, last_beat None os x = Some (n, e) /\ (now < e)%N).
    { intros x n. rewrite Hin, <- E. split; [by intros [_ ?]|]. intros (e & Hb & He). split; [apply r_live|]; eauto. }
    destruct (least_spec t) as (x & n & Hx & Hmin & ->).
    { intros ->. assert (In y (r_members (r_run os) now)) as Hy by (rewrite E; by left). apply r_live in Hy as (n & e & Hb & He).
      apply (Hall y n). eauto. }
    { intros [x n] Hx. apply Hall in Hx as (e & Hb & _). apply last_beat_in in Hb as (n1 & n2 & b & ttl & Hi & _). cbn. by eapply Hsm. }
    apply Hall in Hx as (e & Hb & He). pose proof (beat_id_ok _ _ _ _ _ Hok Hb) as (b & [Hb1 Hb2] & <-).
    rewrite bid_roundtrip by done. split; [done|]. exists n. split; [by exists e|]. intros b' n' (e' & Hb' & He'). apply (Hmin (bid_print b')). apply Hall. eauto.
Qed.

(** ** Whitelist *)
Lemma last_whitelist_snoc os o : last_whitelist (os ++ [o]) = match o with DSetWhitelist l => Some l | _ => last_whitelist os end.
Proof. unfold last_whitelist. rewrite rev_unit. by destruct o. Qed.

Lemma e_whitelist_run os :
  e_whitelist (e_run os) = match last_whitelist os with
    | None => None
    | Some l => Some (if decide (l = [] \/ ~ NoDup l) then ∅ else list_to_set l) end.
Proof.
  induction os as [|o os IH] using rev_ind; [done|]. rewrite (e_run_snoc global), last_whitelist_snoc.
  destruct o as [now b' p' ttl key|now|n b' p'|n1 n2 b' n ttl|now|l]; cbn [DiscModel.e_step fst].
  - unfold e_issue. by destruct (e_permits _ !! p').
  - done.
  - unfold e_take. destruct (p' <? 2 ^ 32)%N; [|done]. destruct (e_permits _ !! p'); [|done]. by case_decide.
  - unfold e_heartbeat. by destruct (n <? 2 ^ 32)%N.
  - done.
  - unfold e_set_whitelist. by case_decide.
Qed.
Lemma r_whitelist_run os : r_whitelist (r_run os) = match last_whitelist os with None => ∅ | Some l => list_to_set l end.
Proof.
  induction os as [|o os IH] using rev_ind; [done|]. rewrite (r_run_snoc global), last_whitelist_snoc. by destruct o.
Qed.

Lemma e_whitelist_spec os key :
  e_check_whitelist (e_run os) key = true <->
  match last_whitelist os with None => True | Some l => NoDup l /\ key ∈ l end.
Proof.
  unfold e_check_whitelist. rewrite e_whitelist_run. destruct (last_whitelist os) as [l|]; [|done].
  rewrite bool_decide_eq_true. case_decide as Hd.
  - split; [set_solver|]. intros [Hn Hk]. destruct Hd as [->|Hd]; [by apply elem_of_nil in Hk|done].
  - rewrite elem_of_list_to_set. split; [|tauto]. intros Hk. split; [|done]. destruct (decide (NoDup l)); tauto.
Qed.
Lemma r_whitelist_spec os key :
  r_check_whitelist (r_run os) key = true <->
  match last_whitelist os with None => True | Some l => l = [] \/ key ∈ l end.
Proof.
  unfold r_check_whitelist. rewrite r_whitelist_run. destruct (last_whitelist os) as [l|]; [|by case_decide].
  case_decide as Hd.
  - split; [|done]. intros _. left. destruct l; [done|]. set_solver.
  - rewrite bool_decide_eq_true, elem_of_list_to_set. split; [by right|]. intros [->|]; [|done]. by destruct Hd.
Qed.
End runs.
