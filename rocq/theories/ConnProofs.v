(** Invariants of the broker's connection state. *)
From stdpp Require Import gmap fin_maps fin_sets.
From Coq Require Import NArith ZArith Lia.
From Verif Require Import IdModel IdProofs RelMapModel RelMapProofs VMapModel VMapSpec VMapProofs ConnModel ConnSpec.

(** ** Projections of the individual operations *)
Section remove_user.
Context (s : conns) (u : ukey).
Lemma ru_identity : identity (c_remove_user s u) = identity s.
Proof. unfold c_remove_user; cbn. by destruct (users s !! u) as [[? ?]|]. Qed.
Lemma ru_users : users (c_remove_user s u) = delete u (users s).
Proof.
  unfold c_remove_user; cbn. destruct (users s !! u) as [[? ?]|] eqn:E; cbn; [done|].
  by rewrite delete_notin.
Qed.
Lemma ru_brokers : brokers (c_remove_user s u) = brokers s.
Proof. unfold c_remove_user; cbn. by destruct (users s !! u) as [[? ?]|]. Qed.
Lemma ru_direct : direct (c_remove_user s u) = vm_remove_if_equals (direct s) u (identity s).
Proof. unfold c_remove_user; cbn. by destruct (users s !! u) as [[? ?]|]. Qed.
Lemma ru_bm_users : bm_users (c_remove_user s u) = rm_remove_key (bm_users s) u.
Proof. unfold c_remove_user; cbn. by destruct (users s !! u) as [[? ?]|]. Qed.
Lemma ru_bm_brokers : bm_brokers (c_remove_user s u) = bm_brokers s.
Proof. unfold c_remove_user; cbn. by destruct (users s !! u) as [[? ?]|]. Qed.
Lemma ru_topic_sync : topic_sync (c_remove_user s u) = topic_sync s.
Proof. unfold c_remove_user; cbn. by destruct (users s !! u) as [[? ?]|]. Qed.
Lemma ru_previous : previous_topics (c_remove_user s u) = previous_topics s.
Proof. unfold c_remove_user; cbn. by destruct (users s !! u) as [[? ?]|]. Qed.
Lemma ru_gauge_users : gauge_users (c_remove_user s u) = match users s !! u with Some _ => (gauge_users s - 1)%Z | None => gauge_users s end.
Proof. unfold c_remove_user; cbn. by destruct (users s !! u) as [[? ?]|]. Qed.
Lemma ru_gauge_brokers : gauge_brokers (c_remove_user s u) = gauge_brokers s.
Proof. unfold c_remove_user; cbn. by destruct (users s !! u) as [[? ?]|]. Qed.
Lemma ru_aborted : aborted (c_remove_user s u) = aborted s ++ match users s !! u with Some (_, h) => [h] | None => [] end.
Proof. unfold c_remove_user; cbn. destruct (users s !! u) as [[? ?]|]; cbn; by rewrite ?app_nil_r. Qed.
End remove_user.

Section remove_broker.
Context (s : conns) (b : bid).
Lemma rb_identity : identity (c_remove_broker s b) = identity s.
Proof. unfold c_remove_broker; cbn. by destruct (brokers s !! b). Qed.
Lemma rb_users : users (c_remove_broker s b) = users s.
Proof. unfold c_remove_broker; cbn. by destruct (brokers s !! b). Qed.
Lemma rb_brokers : brokers (c_remove_broker s b) = delete b (brokers s).
Proof.
  unfold c_remove_broker; cbn. destruct (brokers s !! b) eqn:E; cbn; [done|]. by rewrite delete_notin.
Qed.
Lemma rb_direct : direct (c_remove_broker s b) = direct s.
Proof. unfold c_remove_broker; cbn. by destruct (brokers s !! b). Qed.
Lemma rb_bm_users : bm_users (c_remove_broker s b) = bm_users s.
Proof. unfold c_remove_broker; cbn. by destruct (brokers s !! b). Qed.
Lemma rb_bm_brokers : bm_brokers (c_remove_broker s b) = rm_remove_key (bm_brokers s) b.
Proof. unfold c_remove_broker; cbn. by destruct (brokers s !! b). Qed.
Lemma rb_topic_sync : topic_sync (c_remove_broker s b) = topic_sync s.
Proof. unfold c_remove_broker; cbn. by destruct (brokers s !! b). Qed.
Lemma rb_previous : previous_topics (c_remove_broker s b) = previous_topics s.
Proof. unfold c_remove_broker; cbn. by destruct (brokers s !! b). Qed.
Lemma rb_gauge_users : gauge_users (c_remove_broker s b) = gauge_users s.
Proof. unfold c_remove_broker; cbn. by destruct (brokers s !! b). Qed.
Lemma rb_gauge_brokers : gauge_brokers (c_remove_broker s b) = match brokers s !! b with Some _ => (gauge_brokers s - 1)%Z | None => gauge_brokers s end.
Proof. unfold c_remove_broker; cbn. by destruct (brokers s !! b). Qed.
Lemma rb_aborted : aborted (c_remove_broker s b) = aborted s ++ match brokers s !! b with Some be => [be_handle be] | None => [] end.
Proof. unfold c_remove_broker; cbn. destruct (brokers s !! b); cbn; by rewrite ?app_nil_r. Qed.
End remove_broker.

Global Arguments c_remove_user : simpl never.
Global Arguments c_remove_broker : simpl never.

Global Hint Rewrite ru_identity ru_users ru_brokers ru_direct ru_bm_users ru_bm_brokers ru_topic_sync ru_previous
  ru_gauge_users ru_gauge_brokers ru_aborted rb_identity rb_users rb_brokers rb_direct rb_bm_users rb_bm_brokers
  rb_topic_sync rb_previous rb_gauge_users rb_gauge_brokers rb_aborted : conn.

(** [add_user] and [add_broker] *)
Section add_user.
Context (s : conns) (u : ukey) (c : N) (ts : list N) (h : N).
Lemma au_identity : identity (c_add_user s u c ts h) = identity s.
Proof. unfold c_add_user; cbn. by autorewrite with conn. Qed.
Lemma au_users : users (c_add_user s u c ts h) = <[u := (c, h)]> (users s).
Proof. unfold c_add_user; cbn. autorewrite with conn. cbn. by rewrite insert_delete_insert. Qed.
Lemma au_brokers : brokers (c_add_user s u c ts h) = brokers s.
Proof. unfold c_add_user; cbn. by autorewrite with conn. Qed.
Lemma au_direct : direct (c_add_user s u c ts h) = vm_insert (vm_remove_if_equals (direct s) u (identity s)) u (identity s).
Proof. unfold c_add_user; cbn. by autorewrite with conn. Qed.
Lemma au_bm_users : bm_users (c_add_user s u c ts h) = rm_associate (rm_remove_key (bm_users s) u) u ts.
Proof. unfold c_add_user; cbn. by autorewrite with conn. Qed.
Lemma au_bm_brokers : bm_brokers (c_add_user s u c ts h) = bm_brokers s.
Proof. unfold c_add_user; cbn. by autorewrite with conn. Qed.
Lemma au_topic_sync : topic_sync (c_add_user s u c ts h) = topic_sync s.
Proof. unfold c_add_user; cbn. by autorewrite with conn. Qed.
Lemma au_previous : previous_topics (c_add_user s u c ts h) = previous_topics s.
Proof. unfold c_add_user; cbn. by autorewrite with conn. Qed.
Lemma au_gauge_users : gauge_users (c_add_user s u c ts h) = match users s !! u with Some _ => gauge_users s | None => (gauge_users s + 1)%Z end.
Proof. unfold c_add_user; cbn. autorewrite with conn. cbn. destruct (users s !! u); lia. Qed.
Lemma au_gauge_brokers : gauge_brokers (c_add_user s u c ts h) = gauge_brokers s.
Proof. unfold c_add_user; cbn. by autorewrite with conn. Qed.
Lemma au_aborted : aborted (c_add_user s u c ts h) = aborted s ++ match users s !! u with Some (_, h) => [h] | None => [] end.
Proof. unfold c_add_user; cbn. by autorewrite with conn. Qed.
End add_user.

Section add_broker.
Context (s : conns) (b : bid) (c h : N).
Lemma ab_identity : identity (c_add_broker s b c h) = identity s.
Proof. unfold c_add_broker; cbn. by autorewrite with conn. Qed.
Lemma ab_users : users (c_add_broker s b c h) = users s.
Proof. unfold c_add_broker; cbn. by autorewrite with conn. Qed.
Lemma ab_brokers : brokers (c_add_broker s b c h) = <[b := BrokerEntry c (vm_new 0%N) h]> (brokers s).
Proof. unfold c_add_broker; cbn. autorewrite with conn. cbn. by rewrite insert_delete_insert. Qed.
Lemma ab_direct : direct (c_add_broker s b c h) = direct s.
Proof. unfold c_add_broker; cbn. by autorewrite with conn. Qed.
Lemma ab_bm_users : bm_users (c_add_broker s b c h) = bm_users s.
Proof. unfold c_add_broker; cbn. by autorewrite with conn. Qed.
Lemma ab_bm_brokers : bm_brokers (c_add_broker s b c h) = rm_remove_key (bm_brokers s) b.
Proof. unfold c_add_broker; cbn. by autorewrite with conn. Qed.
Lemma ab_topic_sync : topic_sync (c_add_broker s b c h) = topic_sync s.
Proof. unfold c_add_broker; cbn. by autorewrite with conn. Qed.
Lemma ab_previous : previous_topics (c_add_broker s b c h) = previous_topics s.
Proof. unfold c_add_broker; cbn. by autorewrite with conn. Qed.
Lemma ab_gauge_users : gauge_users (c_add_broker s b c h) = gauge_users s.
Proof. unfold c_add_broker; cbn. by autorewrite with conn. Qed.
Lemma ab_gauge_brokers : gauge_brokers (c_add_broker s b c h) = match brokers s !! b with Some _ => gauge_brokers s | None => (gauge_brokers s + 1)%Z end.
Proof. unfold c_add_broker; cbn. autorewrite with conn. cbn. destruct (brokers s !! b); lia. Qed.
Lemma ab_aborted : aborted (c_add_broker s b c h) = aborted s ++ match brokers s !! b with Some be => [be_handle be] | None => [] end.
Proof. unfold c_add_broker; cbn. by autorewrite with conn. Qed.
End add_broker.
Global Arguments c_add_user : simpl never.
Global Arguments c_add_broker : simpl never.
Global Hint Rewrite au_identity au_users au_brokers au_direct au_bm_users au_bm_brokers au_topic_sync au_previous
  au_gauge_users au_gauge_brokers au_aborted ab_identity ab_users ab_brokers ab_direct ab_bm_users ab_bm_brokers
  ab_topic_sync ab_previous ab_gauge_users ab_gauge_brokers ab_aborted : conn.

(** Removing a list of users. *)
Definition remove_users (s : conns) (us : list ukey) : conns := fold_left c_remove_user us s.

Lemma remove_users_nil s : remove_users s [] = s.
Proof. done. Qed.
Lemma remove_users_cons s u us : remove_users s (u :: us) = remove_users (c_remove_user s u) us.
Proof. done. Qed.

Lemma apply_user_sync_eq s m :
  c_apply_user_sync s m =
  remove_users (set_direct (vm_merge bid_gtb (direct s) m).1 s) (map fst (vm_merge bid_gtb (direct s) m).2).
Proof.
  unfold c_apply_user_sync, remove_users. destruct (vm_merge bid_gtb (direct s) m) as [d ch]; cbn.
  generalize (set_direct d s). induction ch as [|[u v] ch IH]; intros s'; cbn; [done|]. apply IH.
Qed.

Lemma rus_frame s us :
  identity (remove_users s us) = identity s /\ brokers (remove_users s us) = brokers s
  /\ bm_brokers (remove_users s us) = bm_brokers s /\ topic_sync (remove_users s us) = topic_sync s
  /\ previous_topics (remove_users s us) = previous_topics s /\ gauge_brokers (remove_users s us) = gauge_brokers s.
Proof.
  revert s; induction us as [|u us IH]; intros s; [done|]. rewrite remove_users_cons.
  destruct (IH (c_remove_user s u)) as (-> & -> & -> & -> & -> & ->). by autorewrite with conn.
Qed.

Lemma rus_users s us u : users (remove_users s us) !! u = if decide (u ∈ us) then None else users s !! u.
Proof.
  revert s; induction us as [|u0 us IH]; intros s; rewrite ?remove_users_nil, ?remove_users_cons.
  - by rewrite decide_False by set_solver.
  - rewrite IH, ru_users. destruct (decide (u0 = u)) as [->|Hne].
    + rewrite (decide_True (P := u ∈ u :: us)) by set_solver. rewrite lookup_delete. by case_decide.
    + rewrite lookup_delete_ne by done.
      destruct (decide (u ∈ us)); [rewrite decide_True by set_solver|rewrite decide_False by set_solver]; done.
Qed.

Lemma rus_direct_cid s us : cid (direct (remove_users s us)) = cid (direct s).
Proof.
  revert s; induction us as [|u us IH]; intros s; [done|]. rewrite remove_users_cons, IH, ru_direct.
  unfold vm_remove_if_equals. destruct (entries (direct s) !! u); [|done]. by case_decide.
Qed.

Lemma vm_get_remove_if_none (m : direct_map) k v : vm_get m k <> Some v -> vm_remove_if_equals m k v = m.
Proof.
  unfold vm_remove_if_equals, vm_get. destruct (entries m !! k) as [vv|]; [|done].
  intros Hn. by case_decide.
Qed.

Lemma rus_get s us u :
  vm_get (direct (remove_users s us)) u =
  if decide (u ∈ us /\ vm_get (direct s) u = Some (identity s)) then None else vm_get (direct s) u.
Proof.
  revert s; induction us as [|u0 us IH]; intros s; rewrite ?remove_users_nil, ?remove_users_cons.
  - by rewrite decide_False by set_solver.
  - rewrite IH, ru_direct, ru_identity, remove_if_equals_get.
    destruct (decide (u0 = u)) as [->|Hne].
    + destruct (decide (vm_get (direct s) u = Some (identity s))) as [E|E].
      * rewrite (decide_True (P := u ∈ u :: us /\ _)) by set_solver. by case_decide.
      * rewrite !decide_False by tauto. done.
    + destruct (decide (u ∈ us /\ vm_get (direct s) u = Some (identity s))) as [[? ?]|Hn].
      * rewrite decide_True by set_solver. done.
      * rewrite decide_False by set_solver. done.
Qed.

(** ** The directory agrees with the connection table *)
Definition dir_inv (s : conns) : Prop :=
  cid (direct s) = identity s /\
  forall u, vm_get (direct s) u = Some (identity s) <-> is_Some (users s !! u).

Lemma remove_user_dir s u : dir_inv s -> dir_inv (c_remove_user s u).
Proof.
  intros [Hc Hd]. split.
  - rewrite ru_direct, ru_identity. unfold vm_remove_if_equals.
    destruct (entries (direct s) !! u); [|done]. by case_decide.
  - intros u'. rewrite ru_direct, ru_identity, ru_users, remove_if_equals_get.
    destruct (decide (u = u')) as [->|Hne].
    + rewrite lookup_delete. split; [|by intros [? ?]]. case_decide; done.
    + rewrite lookup_delete_ne by done. apply Hd.
Qed.

Lemma partial_user_direct s :
  c_get_partial_user_sync s = (set_direct (vm_diff (direct s)).2 s,
    if vm_is_empty (vm_diff (direct s)).1 then None else Some (vm_diff (direct s)).1).
Proof. unfold c_get_partial_user_sync. by destruct (vm_diff (direct s)). Qed.

Lemma partial_topic_frame s :
  let s' := (c_get_partial_topic_sync s).1 in
  identity s' = identity s /\ users s' = users s /\ brokers s' = brokers s /\ direct s' = direct s
  /\ bm_users s' = bm_users s /\ bm_brokers s' = bm_brokers s /\ gauge_users s' = gauge_users s
  /\ gauge_brokers s' = gauge_brokers s /\ aborted s' = aborted s.
Proof.
  unfold c_get_partial_topic_sync.
  set (a := elements (list_to_set (rm_get_values (bm_users s)) ∖ previous_topics s)).
  set (r := elements (previous_topics s ∖ list_to_set (rm_get_values (bm_users s)))).
  destruct a, r; cbn; try done; by destruct (vm_diff _).
Qed.

Lemma topic_change_frame b s p :
  let s' := c_apply_topic_change b s p in
  identity s' = identity s /\ users s' = users s /\ brokers s' = brokers s /\ direct s' = direct s
  /\ bm_users s' = bm_users s /\ topic_sync s' = topic_sync s /\ previous_topics s' = previous_topics s
  /\ gauge_users s' = gauge_users s /\ gauge_brokers s' = gauge_brokers s /\ aborted s' = aborted s.
Proof. unfold c_apply_topic_change. by case_decide. Qed.

Lemma topic_changes_frame b l s :
  let s' := fold_left (c_apply_topic_change b) l s in
  identity s' = identity s /\ users s' = users s /\ brokers s' = brokers s /\ direct s' = direct s
  /\ bm_users s' = bm_users s /\ topic_sync s' = topic_sync s /\ previous_topics s' = previous_topics s
  /\ gauge_users s' = gauge_users s /\ gauge_brokers s' = gauge_brokers s /\ aborted s' = aborted s.
Proof.
  revert s; induction l as [|p l IH]; intros s; cbn; [done|].
  destruct (IH (c_apply_topic_change b s p)) as (-> & -> & -> & -> & -> & -> & -> & -> & -> & ->).
  apply topic_change_frame.
Qed.

Lemma apply_topic_eq s b m be :
  brokers s !! b = Some be ->
  c_apply_topic_sync s b m =
  fold_left (c_apply_topic_change b) (vm_merge u32_gtb (be_topics be) m).2
    (set_brokers (<[b := BrokerEntry (be_conn be) (vm_merge u32_gtb (be_topics be) m).1 (be_handle be)]> (brokers s)) s).
Proof. unfold c_apply_topic_sync. intros ->. by destruct (vm_merge u32_gtb (be_topics be) m). Qed.

Lemma apply_topic_frame s b m :
  let s' := c_apply_topic_sync s b m in
  identity s' = identity s /\ users s' = users s /\ direct s' = direct s
  /\ bm_users s' = bm_users s /\ topic_sync s' = topic_sync s /\ previous_topics s' = previous_topics s
  /\ gauge_users s' = gauge_users s.
Proof.
  cbn. destruct (brokers s !! b) as [be|] eqn:E.
  - rewrite (apply_topic_eq _ _ _ _ E).
    match goal with |- context [fold_left (c_apply_topic_change b) ?l ?s1] => pose proof (topic_changes_frame b l s1) as (-> & -> & _ & -> & -> & -> & -> & -> & _) end. done.
  - unfold c_apply_topic_sync. rewrite E. by autorewrite with conn.
Qed.

Lemma step_dir s o : dir_inv s -> dir_inv (c_step s o).
Proof.
  intros Hinv. destruct o as [u c ts h|u|b c h|b|u ts|u ts|m|b m| |]; cbn [c_step].
  - (* add user *)
    pose proof (remove_user_dir s u Hinv) as [Hc Hd]. autorewrite with conn in Hc, Hd. split; autorewrite with conn.
    + done.
    + intros u'. unfold vm_insert. rewrite modify_local_get. destruct (decide (u = u')) as [->|Hne].
      * rewrite lookup_insert. split; eauto.
      * rewrite lookup_insert_ne by done. rewrite Hd, lookup_delete_ne by done. done.
  - by apply remove_user_dir.
  - unfold dir_inv. autorewrite with conn. exact Hinv.
  - unfold dir_inv. autorewrite with conn. exact Hinv.
  - exact Hinv.
  - exact Hinv.
  - (* apply user sync *)
    rewrite apply_user_sync_eq. destruct Hinv as [Hc Hd]. split.
    + rewrite rus_direct_cid. cbn. rewrite merge_cid, Hc, (proj1 (rus_frame _ _)). done.
    + intros u. rewrite (proj1 (rus_frame _ _)), rus_get, rus_users. cbn.
      set (ch := map fst _). destruct (decide (u ∈ ch)) as [Hin|Hin].
      * split; [|by intros [? ?]]. case_decide as Hd'; [done|]. intros Hg. exfalso. tauto.
      * rewrite decide_False by tauto.
        assert (vm_get (vm_merge bid_gtb (direct s) m).1 u = vm_get (direct s) u) as ->; [|apply Hd].
        unfold vm_get. rewrite merge_lookup. destruct (entries m !! u) as [rv|] eqn:Er; [|done]. cbn.
        case_decide as Hw; [|done]. exfalso. apply Hin. unfold ch. apply elem_of_list_In, in_map_iff.
        exists (u, val rv). split; [done|]. apply merge_changes. eauto.
  - destruct (apply_topic_frame s b m) as (H1 & H2 & H3 & _). unfold dir_inv. by rewrite H1, H2, H3.
  - rewrite partial_user_direct. destruct Hinv as [Hc Hd]. split; cbn.
    + by rewrite diff_rest_cid.
    + intros u. rewrite diff_get. apply Hd.
  - destruct (partial_topic_frame s) as (H1 & H2 & _ & H3 & _). unfold dir_inv. by rewrite H1, H2, H3.
Qed.

Lemma c_run_snoc i os o : c_run i (os ++ [o]) = c_step (c_run i os) o.
Proof. unfold c_run. by rewrite fold_left_app. Qed.

Lemma run_dir i os : dir_inv (c_run i os).
Proof.
  induction os as [|o os IH] using rev_ind.
  - split; [done|]. intros u; cbn. unfold vm_get; cbn. rewrite !lookup_empty. split; [done|by intros [? ?]].
  - rewrite c_run_snoc. by apply step_dir.
Qed.

Lemma step_identity s o : identity (c_step s o) = identity s.
Proof.
  destruct o as [u c ts h|u|b c h|b|u ts|u ts|m|b m| |]; cbn [c_step]; try done.
  - by autorewrite with conn.
  - by autorewrite with conn.
  - by autorewrite with conn.
  - by autorewrite with conn.
  - rewrite apply_user_sync_eq, (proj1 (rus_frame _ _)). done.
  - apply apply_topic_frame.
  - by rewrite partial_user_direct.
  - apply partial_topic_frame.
Qed.

Lemma run_identity i os : identity (c_run i os) = i.
Proof. induction os as [|o os IH] using rev_ind; [done|]. by rewrite c_run_snoc, step_identity. Qed.

Lemma directory_iff_connected i os u :
  c_get_broker_identifier_of_user (c_run i os) u = Some i <-> exists c, c_get_user_connection (c_run i os) u = Some c.
Proof.
  destruct (run_dir i os) as [_ Hd]. rewrite run_identity in Hd. unfold c_get_broker_identifier_of_user.
  rewrite Hd. unfold c_get_user_connection. split.
  - intros [[c h] ->]. by exists c.
  - intros [c Hc]. destruct (users (c_run i os) !! u); [eauto|done].
Qed.

(** ** Gauges *)
Definition gauge_inv (s : conns) : Prop :=
  gauge_users s = Z.of_nat (size (users s)) /\ gauge_brokers s = Z.of_nat (size (brokers s)).

Lemma size_delete_user {K A} `{Countable K} (m : gmap K A) k x :
  m !! k = Some x -> Z.of_nat (size (delete k m)) = (Z.of_nat (size m) - 1)%Z.
Proof. intros E. rewrite <- (insert_delete m k x E) at 2. rewrite map_size_insert_None by apply lookup_delete. lia. Qed.

Lemma remove_user_gauge s u : gauge_inv s -> gauge_inv (c_remove_user s u).
Proof.
  intros [Hu Hb]. split; autorewrite with conn; [|done].
  destruct (users s !! u) eqn:E; [by rewrite (size_delete_user _ _ _ E), Hu|by rewrite delete_notin].
Qed.

Lemma remove_broker_gauge s b : gauge_inv s -> gauge_inv (c_remove_broker s b).
Proof.
  intros [Hu Hb]. split; autorewrite with conn; [done|].
  destruct (brokers s !! b) eqn:E; [by rewrite (size_delete_user _ _ _ E), Hb|by rewrite delete_notin].
Qed.

Lemma remove_users_gauge s us : gauge_inv s -> gauge_inv (remove_users s us).
Proof. revert s; induction us as [|u us IH]; intros s Hg; [done|]. rewrite remove_users_cons. by apply IH, remove_user_gauge. Qed.

Lemma step_gauge s o : gauge_inv s -> gauge_inv (c_step s o).
Proof.
  intros Hinv. destruct o as [u c ts h|u|b c h|b|u ts|u ts|m|b m| |]; cbn [c_step].
  - destruct Hinv as [Hu Hb]. split; autorewrite with conn; [|done].
    destruct (users s !! u) eqn:E.
    + by rewrite map_size_insert_Some by eauto.
    + rewrite map_size_insert_None by done. lia.
  - by apply remove_user_gauge.
  - destruct Hinv as [Hu Hb]. split; autorewrite with conn; [done|].
    destruct (brokers s !! b) eqn:E.
    + by rewrite map_size_insert_Some by eauto.
    + rewrite map_size_insert_None by done. lia.
  - by apply remove_broker_gauge.
  - exact Hinv.
  - exact Hinv.
  - rewrite apply_user_sync_eq. by apply remove_users_gauge.
  - destruct (brokers s !! b) as [be|] eqn:E.
    + rewrite (apply_topic_eq _ _ _ _ E). unfold gauge_inv.
      match goal with |- context [fold_left (c_apply_topic_change b) ?l ?s1] => pose proof (topic_changes_frame b l s1) as (_ & -> & -> & _ & _ & _ & _ & -> & -> & _) end.
      cbn. split; [apply Hinv|]. rewrite map_size_insert_Some by eauto. apply Hinv.
    + unfold c_apply_topic_sync. rewrite E. by apply remove_broker_gauge.
  - by rewrite partial_user_direct.
  - destruct (partial_topic_frame s) as (_ & H2 & H3 & _ & _ & _ & H4 & H5 & _). unfold gauge_inv. by rewrite H2, H3, H4, H5.
Qed.

Lemma run_gauge i os : gauge_inv (c_run i os).
Proof.
  induction os as [|o os IH] using rev_ind; [done|]. rewrite c_run_snoc. by apply step_gauge.
Qed.
