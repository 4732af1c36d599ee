(** Connection tables, task handles and subscriptions in terms of the history. *)
From stdpp Require Import gmap fin_maps fin_sets.
From Coq Require Import NArith ZArith Lia.
From Verif Require Import IdModel IdProofs RelMapModel RelMapProofs VMapModel VMapSpec VMapProofs ConnModel ConnSpec ConnProofs.

Lemma changed_iff s m u i :
  cid (direct s) = i ->
  u ∈ map fst (vm_merge bid_gtb (direct s) m).2 <-> sync_overrides i m u (entries (direct s) !! u).
Proof.
  intros Hi. rewrite elem_of_list_In, in_map_iff. unfold sync_overrides. split.
  - intros ([u' v] & Heq & Hin). cbn in Heq. subst u'. apply merge_changes in Hin as (rv & -> & _ & Hw). by rewrite <- Hi.
  - destruct (entries m !! u) as [rv|] eqn:E; [|done]. intros Hw. exists (u, val rv). split; [done|].
    apply merge_changes. exists rv. rewrite Hi. done.
Qed.

Lemma apply_user_sync_users s m u :
  dir_inv s ->
  users (c_apply_user_sync s m) !! u =
  if decide (sync_overrides (identity s) m u (entries (direct s) !! u)) then None else users s !! u.
Proof.
  intros [Hc _]. rewrite apply_user_sync_eq, rus_users. cbn.
  pose proof (changed_iff s m u (identity s) Hc) as Hiff.
  destruct (decide (sync_overrides _ _ _ _)); [rewrite decide_True by tauto|rewrite decide_False by tauto]; done.
Qed.

Lemma run_current_user i os u : users (c_run i os) !! u = current_user i os u.
Proof.
  unfold current_user. induction os as [|o os IH] using rev_ind; [cbn; by rewrite lookup_empty|].
  rewrite c_run_snoc, rev_app_distr. cbn [rev app].
  destruct o as [u' c ts h|u'|b c h|b|u' ts|u' ts|m|b m| |]; cbn [c_step current_user_rev].
  - rewrite au_users. destruct (decide (u' = u)) as [->|Hne]; [by rewrite lookup_insert|by rewrite lookup_insert_ne].
  - rewrite ru_users. destruct (decide (u' = u)) as [->|Hne]; [by rewrite lookup_delete|by rewrite lookup_delete_ne].
  - by rewrite ab_users.
  - by rewrite rb_users.
  - done.
  - done.
  - rewrite apply_user_sync_users by apply run_dir. rewrite run_identity, rev_involutive. by case_decide.
  - destruct (apply_topic_frame (c_run i os) b m) as (_ & -> & _). done.
  - rewrite partial_user_direct. done.
  - destruct (partial_topic_frame (c_run i os)) as (_ & -> & _). done.
Qed.

Lemma apply_topic_brokers s b m b' :
  (fun be => (be_conn be, be_handle be)) <$> brokers (c_apply_topic_sync s b m) !! b' =
  (fun be => (be_conn be, be_handle be)) <$> brokers s !! b'.
Proof.
  destruct (brokers s !! b) as [be|] eqn:E.
  - rewrite (apply_topic_eq _ _ _ _ E).
    match goal with |- context [fold_left (c_apply_topic_change b) ?l ?s1] => pose proof (topic_changes_frame b l s1) as (_ & _ & -> & _) end.
    cbn. destruct (decide (b = b')) as [->|Hne].
    + rewrite lookup_insert, E. done.
    + rewrite lookup_insert_ne by done. done.
  - unfold c_apply_topic_sync. rewrite E, rb_brokers. destruct (decide (b = b')) as [->|Hne].
    + by rewrite lookup_delete, E.
    + by rewrite lookup_delete_ne.
Qed.

Lemma run_current_broker i os b :
  (fun be => (be_conn be, be_handle be)) <$> brokers (c_run i os) !! b = current_broker os b.
Proof.
  unfold current_broker. induction os as [|o os IH] using rev_ind; [cbn; by rewrite lookup_empty|].
  rewrite c_run_snoc, rev_app_distr. cbn [rev app].
  destruct o as [u' c ts h|u'|b' c h|b'|u' ts|u' ts|m|b' m| |]; cbn [c_step current_broker_rev].
  - by rewrite au_brokers.
  - by rewrite ru_brokers.
  - rewrite ab_brokers. destruct (decide (b' = b)) as [->|Hne]; [by rewrite lookup_insert|by rewrite lookup_insert_ne].
  - rewrite rb_brokers. destruct (decide (b' = b)) as [->|Hne]; [by rewrite lookup_delete|by rewrite lookup_delete_ne].
  - done.
  - done.
  - rewrite apply_user_sync_eq. destruct (rus_frame (set_direct (vm_merge bid_gtb (direct (c_run i os)) m).1 (c_run i os)) (map fst (vm_merge bid_gtb (direct (c_run i os)) m).2)) as (_ & -> & _). done.
  - by rewrite apply_topic_brokers.
  - rewrite partial_user_direct. done.
  - destruct (partial_topic_frame (c_run i os)) as (_ & _ & -> & _). done.
Qed.

(** ** Task handles *)
Definition uhandles (m : gmap bytes (N * N)) : list N := map (fun p => p.2.2) (map_to_list m).
Definition bhandles (m : gmap bid broker_entry) : list N := map (fun p => be_handle p.2) (map_to_list m).

Lemma uhandles_delete m u c h : m !! u = Some (c, h) -> uhandles m ≡ₚ h :: uhandles (delete u m).
Proof. intros E. unfold uhandles. rewrite <- (map_to_list_delete m u (c, h) E). done. Qed.
Lemma uhandles_insert m u c h : m !! u = None -> uhandles (<[u := (c, h)]> m) ≡ₚ h :: uhandles m.
Proof. intros E. unfold uhandles. rewrite (map_to_list_insert m u (c, h) E). done. Qed.
Lemma bhandles_delete m b be : m !! b = Some be -> bhandles m ≡ₚ be_handle be :: bhandles (delete b m).
Proof. intros E. unfold bhandles. rewrite <- (map_to_list_delete m b be E). done. Qed.
Lemma bhandles_insert m b be : m !! b = None -> bhandles (<[b := be]> m) ≡ₚ be_handle be :: bhandles m.
Proof. intros E. unfold bhandles. rewrite (map_to_list_insert m b be E). done. Qed.

Definition all_handles (s : conns) : list N := aborted s ++ uhandles (users s) ++ bhandles (brokers s).

Lemma ru_handles s u : all_handles (c_remove_user s u) ≡ₚ all_handles s.
Proof.
  unfold all_handles. rewrite ru_aborted, ru_users, ru_brokers.
  destruct (users s !! u) as [[c h]|] eqn:E.
  - rewrite (uhandles_delete _ _ _ _ E). solve_Permutation.
  - rewrite delete_notin by done. by rewrite app_nil_r.
Qed.
Lemma rb_handles s b : all_handles (c_remove_broker s b) ≡ₚ all_handles s.
Proof.
  unfold all_handles. rewrite rb_aborted, rb_users, rb_brokers.
  destruct (brokers s !! b) as [be|] eqn:E.
  - rewrite (bhandles_delete _ _ _ E). solve_Permutation.
  - rewrite delete_notin by done. by rewrite app_nil_r.
Qed.
Lemma rus_handles s us : all_handles (remove_users s us) ≡ₚ all_handles s.
Proof. revert s; induction us as [|u us IH]; intros s; [done|]. rewrite remove_users_cons, IH. apply ru_handles. Qed.
Lemma au_handles s u c ts h : all_handles (c_add_user s u c ts h) ≡ₚ h :: all_handles s.
Proof.
  unfold all_handles. rewrite au_aborted, au_users, au_brokers.
  rewrite <- insert_delete_insert, uhandles_insert by apply lookup_delete.
  destruct (users s !! u) as [[c' h']|] eqn:E.
  - rewrite (uhandles_delete _ _ _ _ E). solve_Permutation.
  - rewrite delete_notin by done. rewrite app_nil_r. solve_Permutation.
Qed.
Lemma ab_handles s b c h : all_handles (c_add_broker s b c h) ≡ₚ h :: all_handles s.
Proof.
  unfold all_handles. rewrite ab_aborted, ab_users, ab_brokers.
  rewrite <- insert_delete_insert, bhandles_insert by apply lookup_delete. cbn [be_handle].
  destruct (brokers s !! b) as [be|] eqn:E.
  - rewrite (bhandles_delete _ _ _ E). solve_Permutation.
  - rewrite delete_notin by done. rewrite app_nil_r. solve_Permutation.
Qed.
Lemma ats_handles s b m : all_handles (c_apply_topic_sync s b m) ≡ₚ all_handles s.
Proof.
  destruct (brokers s !! b) as [be|] eqn:E.
  - rewrite (apply_topic_eq _ _ _ _ E). unfold all_handles.
    match goal with |- context [fold_left (c_apply_topic_change b) ?l ?s1] => pose proof (topic_changes_frame b l s1) as (_ & -> & -> & _ & _ & _ & _ & _ & _ & ->) end.
    cbn. rewrite <- insert_delete_insert, bhandles_insert by apply lookup_delete. cbn [be_handle].
    by rewrite (bhandles_delete _ _ _ E).
  - unfold c_apply_topic_sync. rewrite E. apply rb_handles.
Qed.

Lemma run_handles i os : added_handles os ≡ₚ all_handles (c_run i os).
Proof.
  induction os as [|o os IH] using rev_ind; [done|].
  rewrite c_run_snoc. unfold added_handles in *. rewrite map_app, concat_app, IH. cbn [map concat].
  rewrite app_nil_r.
  destruct o as [u' c ts h|u'|b' c h|b'|u' ts|u' ts|m|b' m| |]; cbn [c_step op_handles]; rewrite ?app_nil_r.
  - rewrite au_handles. solve_Permutation.
  - by rewrite ru_handles.
  - rewrite ab_handles. solve_Permutation.
  - by rewrite rb_handles.
  - done.
  - done.
  - rewrite apply_user_sync_eq, rus_handles. done.
  - by rewrite ats_handles.
  - rewrite partial_user_direct. done.
  - unfold all_handles. destruct (partial_topic_frame (c_run i os)) as (_ & -> & -> & _ & _ & _ & _ & _ & ->). done.
Qed.

(** Corollary with distinct handles: live and aborted are disjoint and cover everything. *)
Lemma handles_accounted i os h :
  NoDup (added_handles os) ->
  (In h (added_handles os) <-> In h (live_handles (c_run i os)) \/ In h (aborted (c_run i os)))
  /\ ~ (In h (live_handles (c_run i os)) /\ In h (aborted (c_run i os)))
  /\ NoDup (aborted (c_run i os)) /\ NoDup (live_handles (c_run i os)).
Proof.
  intros Hnd. pose proof (run_handles i os) as Hp. rewrite Hp in Hnd.
  unfold all_handles in *. fold (live_handles (c_run i os)) in *.
  change (uhandles (users (c_run i os)) ++ bhandles (brokers (c_run i os))) with (live_handles (c_run i os)) in *.
  apply NoDup_app in Hnd as (Hn1 & Hdis & Hn2). split; [|split; [|split; done]].
  - rewrite <- !elem_of_list_In, Hp, elem_of_app. tauto.
  - rewrite <- !elem_of_list_In. intros [H1 H2]. by apply (Hdis h).
Qed.

(** ** Subscription indexes *)
Definition idx_inv (s : conns) : Prop := rm_inv (bm_users s) /\ rm_inv (bm_brokers s).

Lemma rus_bm_users s us : bm_users (remove_users s us) = fold_left rm_remove_key us (bm_users s).
Proof.
  revert s; induction us as [|u us IH]; intros s; [done|].
  rewrite remove_users_cons, IH. by rewrite ru_bm_users.
Qed.

Lemma remove_keys_inv {K V} `{Countable K} `{Countable V} (m : relmap K V) ks :
  rm_inv m -> rm_inv (fold_left rm_remove_key ks m).
Proof.
  revert m; induction ks as [|k ks IH]; intros m Hm; [done|]. cbn. apply IH.
  by apply (rm_inv_step m (RRemoveKey k)).
Qed.

Lemma remove_keys_fwd {K V} `{Countable K} `{Countable V} (m : relmap K V) ks k v :
  fwd (fold_left rm_remove_key ks m) k v <-> fwd m k v /\ k ∉ ks.
Proof.
  revert m; induction ks as [|k0 ks IH]; intros m; cbn [fold_left]; [set_solver|].
  rewrite IH, fwd_remove. set_solver.
Qed.

Lemma topic_changes_bm b l s :
  rm_inv (bm_brokers s) -> rm_inv (bm_brokers (fold_left (c_apply_topic_change b) l s)).
Proof.
  revert s; induction l as [|p l IH]; intros s Hi; [done|]. cbn. apply IH.
  unfold c_apply_topic_change. case_decide; cbn.
  - by apply (rm_inv_step _ (RAssociate b [p.1])).
  - by apply (rm_inv_step _ (RDissociate b [p.1])).
Qed.

Lemma step_idx s o : idx_inv s -> idx_inv (c_step s o).
Proof.
  intros [Hu Hb]. unfold idx_inv.
  destruct o as [u' c ts h|u'|b' c h|b'|u' ts|u' ts|m|b' m| |]; cbn [c_step].
  - autorewrite with conn. split; [|done]. apply (rm_inv_step _ (RAssociate u' ts)). by apply (rm_inv_step _ (RRemoveKey u')).
  - autorewrite with conn. split; [|done]. by apply (rm_inv_step _ (RRemoveKey u')).
  - autorewrite with conn. split; [done|]. by apply (rm_inv_step _ (RRemoveKey b')).
  - autorewrite with conn. split; [done|]. by apply (rm_inv_step _ (RRemoveKey b')).
  - split; [|done]. by apply (rm_inv_step _ (RAssociate u' ts)).
  - split; [|done]. by apply (rm_inv_step _ (RDissociate u' ts)).
  - rewrite apply_user_sync_eq. destruct (rus_frame (set_direct (vm_merge bid_gtb (direct s) m).1 s) (map fst (vm_merge bid_gtb (direct s) m).2)) as (_ & _ & -> & _).
    rewrite rus_bm_users. split; [by apply remove_keys_inv|done].
  - destruct (apply_topic_frame s b' m) as (_ & _ & _ & -> & _). split; [done|].
    destruct (brokers s !! b') as [be|] eqn:E.
    + rewrite (apply_topic_eq _ _ _ _ E). by apply topic_changes_bm.
    + unfold c_apply_topic_sync. rewrite E, rb_bm_brokers. by apply (rm_inv_step _ (RRemoveKey b')).
  - by rewrite partial_user_direct.
  - destruct (partial_topic_frame s) as (_ & _ & _ & _ & -> & -> & _). done.
Qed.

Lemma run_idx i os : idx_inv (c_run i os).
Proof.
  induction os as [|o os IH] using rev_ind; [split; apply rm_inv_new|]. rewrite c_run_snoc. by apply step_idx.
Qed.

Lemma run_user_topic i os u t : fwd (bm_users (c_run i os)) u t <-> user_topic i os u t.
Proof.
  unfold user_topic. induction os as [|o os IH] using rev_ind.
  { cbn. unfold fwd; cbn. rewrite lookup_empty. cbn. set_solver. }
  rewrite c_run_snoc, rev_app_distr. cbn [rev app].
  destruct o as [u' c ts h|u'|b' c h|b'|u' ts|u' ts|m|b' m| |]; cbn [c_step user_topic_rev].
  - rewrite au_bm_users, fwd_associate, fwd_remove, IH. case_decide; naive_solver.
  - rewrite ru_bm_users, fwd_remove, IH. naive_solver.
  - by rewrite ab_bm_users.
  - by rewrite rb_bm_users.
  - cbn. rewrite fwd_associate, IH. naive_solver.
  - cbn. rewrite fwd_dissociate, IH. naive_solver.
  - rewrite apply_user_sync_eq, rus_bm_users, remove_keys_fwd. cbn. rewrite IH.
    destruct (run_dir i os) as [Hc _]. rewrite run_identity in Hc.
    rewrite (changed_iff _ m u i Hc), rev_involutive. tauto.
  - destruct (apply_topic_frame (c_run i os) b' m) as (_ & _ & _ & -> & _). done.
  - by rewrite partial_user_direct.
  - destruct (partial_topic_frame (c_run i os)) as (_ & _ & _ & _ & -> & _). done.
Qed.

(** ** Interested brokers are connected *)
Definition broker_interest_inv (s : conns) : Prop :=
  forall b t, fwd (bm_brokers s) b t -> is_Some (brokers s !! b).

Lemma topic_changes_fwd_other b l s b' t :
  b' <> b -> fwd (bm_brokers (fold_left (c_apply_topic_change b) l s)) b' t <-> fwd (bm_brokers s) b' t.
Proof.
  intros Hne. revert s; induction l as [|p l IH]; intros s; [done|]. cbn. rewrite IH.
  unfold c_apply_topic_change. case_decide; cbn.
  - rewrite fwd_associate. naive_solver.
  - rewrite fwd_dissociate. naive_solver.
Qed.

Lemma step_interest s o : broker_interest_inv s -> broker_interest_inv (c_step s o).
Proof.
  intros Hi b t.
  destruct o as [u' c ts h|u'|b' c h|b'|u' ts|u' ts|m|b' m| |]; cbn [c_step].
  - rewrite au_bm_brokers, au_brokers. apply Hi.
  - rewrite ru_bm_brokers, ru_brokers. apply Hi.
  - rewrite ab_bm_brokers, ab_brokers, fwd_remove. intros [Hf Hne]. rewrite lookup_insert_ne by done. by eapply Hi.
  - rewrite rb_bm_brokers, rb_brokers, fwd_remove. intros [Hf Hne]. rewrite lookup_delete_ne by done. by eapply Hi.
  - apply Hi.
  - apply Hi.
  - rewrite apply_user_sync_eq. destruct (rus_frame (set_direct (vm_merge bid_gtb (direct s) m).1 s) (map fst (vm_merge bid_gtb (direct s) m).2)) as (_ & -> & -> & _). apply Hi.
  - destruct (brokers s !! b') as [be|] eqn:E.
    + rewrite (apply_topic_eq _ _ _ _ E).
      destruct (decide (b = b')) as [->|Hne].
      * intros _. match goal with |- context [fold_left (c_apply_topic_change b') ?l ?s1] => pose proof (topic_changes_frame b' l s1) as (_ & _ & -> & _) end.
        cbn. rewrite lookup_insert. eauto.
      * rewrite topic_changes_fwd_other by done. cbn. intros Hf.
        match goal with |- context [fold_left (c_apply_topic_change b') ?l ?s1] => pose proof (topic_changes_frame b' l s1) as (_ & _ & -> & _) end.
        cbn. rewrite lookup_insert_ne by done. by eapply Hi.
    + unfold c_apply_topic_sync. rewrite E, rb_bm_brokers, rb_brokers, fwd_remove.
      intros [Hf Hne]. rewrite lookup_delete_ne by done. by eapply Hi.
  - rewrite partial_user_direct. apply Hi.
  - destruct (partial_topic_frame s) as (_ & _ & -> & _ & _ & -> & _). apply Hi.
Qed.

Lemma run_interest i os : broker_interest_inv (c_run i os).
Proof.
  induction os as [|o os IH] using rev_ind.
  - intros b t; cbn. unfold fwd; cbn. rewrite lookup_empty. cbn. set_solver.
  - rewrite c_run_snoc. by apply step_interest.
Qed.
