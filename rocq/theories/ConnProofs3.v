(** Recipient lists and removal. *)
From stdpp Require Import gmap fin_maps fin_sets.
From Coq Require Import NArith ZArith Lia.
From Verif Require Import IdModel IdProofs RelMapModel RelMapProofs VMapModel VMapSpec VMapProofs ConnModel ConnSpec ConnProofs ConnProofs2.

Lemma fold_add {A} `{Countable A} (l : list A) (acc : gset A) x :
  x ∈ fold_left (fun acc u => {[u]} ∪ acc) l acc <-> x ∈ acc \/ In x l.
Proof. revert acc; induction l as [|y l IH]; intros acc; cbn; [tauto|]. rewrite IH. set_solver. Qed.

Lemma fold_topics {A} `{Countable A} (f : N -> list A) ts (acc : gset A) x :
  x ∈ fold_left (fun acc t => fold_left (fun acc u => {[u]} ∪ acc) (f t) acc) ts acc
  <-> x ∈ acc \/ exists t, In t ts /\ In x (f t).
Proof.
  revert acc; induction ts as [|t ts IH]; intros acc; cbn; [naive_solver|].
  rewrite IH, fold_add. naive_solver.
Qed.

Lemma fold_const {A B} (ts : list A) (acc : B) : fold_left (fun acc _ => acc) ts acc = acc.
Proof. induction ts; done. Qed.

Lemma interested_users s ts tuo u : idx_inv s ->
  In u (c_get_interested_by_topic s ts tuo).2 <-> exists t, In t ts /\ fwd (bm_users s) u t.
Proof.
  intros [Hu _]. unfold c_get_interested_by_topic; cbn. rewrite <- elem_of_list_In, elem_of_elements, fold_topics.
  split.
  - intros [?|(t & Ht & Hk)]; [set_solver|]. exists t. split; [done|]. apply elem_of_list_In in Hk || apply elem_of_list_In; by apply (keys_by_value_fwd _ _ _).
  - intros (t & Ht & Hk). right. exists t. split; [done|]. apply elem_of_list_In in Hk || apply elem_of_list_In; by apply (keys_by_value_fwd _ _ _).
Qed.

Lemma interested_brokers s ts tuo b : idx_inv s ->
  In b (c_get_interested_by_topic s ts tuo).1 <-> tuo = false /\ exists t, In t ts /\ fwd (bm_brokers s) b t.
Proof.
  intros [_ Hb]. unfold c_get_interested_by_topic; cbn. rewrite <- elem_of_list_In, elem_of_elements.
  destruct tuo.
  - rewrite fold_const. set_solver.
  - rewrite fold_topics. split.
    + intros [?|(t & Ht & Hk)]; [set_solver|]. split; [done|]. exists t. split; [done|]. apply elem_of_list_In in Hk || apply elem_of_list_In; by apply (keys_by_value_fwd _ _ _).
    + intros (_ & t & Ht & Hk). right. exists t. split; [done|]. apply elem_of_list_In in Hk || apply elem_of_list_In; by apply (keys_by_value_fwd _ _ _).
Qed.

Lemma interested_nodup s ts tuo :
  NoDup (c_get_interested_by_topic s ts tuo).1 /\ NoDup (c_get_interested_by_topic s ts tuo).2.
Proof. unfold c_get_interested_by_topic; cbn. split; apply NoDup_elements. Qed.

(** Interest, with the broker's own vocabulary eliminated: from the history. *)
Lemma interested_users_history i os ts tuo u :
  In u (c_get_interested_by_topic (c_run i os) ts tuo).2 <-> exists t, In t ts /\ user_topic i os u t.
Proof.
  rewrite interested_users by apply run_idx. split; intros (t & Ht & Hf); exists t; (split; [done|]); by apply run_user_topic.
Qed.

Lemma remove_user_frame i os u :
  let s := c_run i os in let s' := c_remove_user s u in
  c_get_user_connection s' u = None
  /\ (forall ts tuo, ~ In u (c_get_interested_by_topic s' ts tuo).2)
  /\ c_get_broker_identifier_of_user s' u <> Some i
  /\ (forall u', u' <> u ->
        c_get_user_connection s' u' = c_get_user_connection s u'
        /\ c_get_broker_identifier_of_user s' u' = c_get_broker_identifier_of_user s u'
        /\ forall ts tuo, In u' (c_get_interested_by_topic s' ts tuo).2 <-> In u' (c_get_interested_by_topic s ts tuo).2)
  /\ (forall b, c_get_broker_connection s' b = c_get_broker_connection s b)
  /\ (forall b ts tuo, In b (c_get_interested_by_topic s' ts tuo).1 <-> In b (c_get_interested_by_topic s ts tuo).1).
Proof.
  intros s s'; subst s'.
  assert (Hidx : idx_inv s) by apply run_idx.
  assert (Hidx' : idx_inv (c_remove_user s u)) by (apply (step_idx s (CRemoveUser u)); done).
  split; [|split; [|split; [|split; [|split]]]].
  - unfold c_get_user_connection. rewrite ru_users, lookup_delete. done.
  - intros ts tuo. rewrite interested_users by done. intros (t & _ & Hf). rewrite ru_bm_users, fwd_remove in Hf. naive_solver.
  - intros Hd. pose proof (directory_iff_connected i (os ++ [CRemoveUser u]) u) as Hdc. rewrite c_run_snoc in Hdc. cbn [c_step] in Hdc.
    apply Hdc in Hd as [c Hc]. unfold c_get_user_connection in Hc. rewrite ru_users, lookup_delete in Hc. done.
  - intros u' Hne. unfold c_get_user_connection, c_get_broker_identifier_of_user. split; [|split].
    + rewrite ru_users, lookup_delete_ne by done. done.
    + rewrite ru_direct, remove_if_equals_get. by rewrite decide_False by naive_solver.
    + intros ts tuo. rewrite (interested_users (c_remove_user s u)), (interested_users s) by done. rewrite ru_bm_users. setoid_rewrite fwd_remove. naive_solver.
  - intros b. unfold c_get_broker_connection. by rewrite ru_brokers.
  - intros b ts tuo. rewrite (interested_brokers (c_remove_user s u)), (interested_brokers s) by done. by rewrite ru_bm_brokers.
Qed.

Lemma remove_broker_frame i os b :
  let s := c_run i os in let s' := c_remove_broker s b in
  c_get_broker_connection s' b = None
  /\ (forall ts tuo, ~ In b (c_get_interested_by_topic s' ts tuo).1)
  /\ (forall b', b' <> b ->
        c_get_broker_connection s' b' = c_get_broker_connection s b'
        /\ forall ts tuo, In b' (c_get_interested_by_topic s' ts tuo).1 <-> In b' (c_get_interested_by_topic s ts tuo).1)
  /\ (forall u, c_get_user_connection s' u = c_get_user_connection s u
        /\ c_get_broker_identifier_of_user s' u = c_get_broker_identifier_of_user s u)
  /\ (forall u ts tuo, In u (c_get_interested_by_topic s' ts tuo).2 <-> In u (c_get_interested_by_topic s ts tuo).2).
Proof.
  intros s s'; subst s'.
  assert (Hidx : idx_inv s) by apply run_idx.
  assert (Hidx' : idx_inv (c_remove_broker s b)) by (apply (step_idx s (CRemoveBroker b)); done).
  split; [|split; [|split; [|split]]].
  - unfold c_get_broker_connection. rewrite rb_brokers, lookup_delete. done.
  - intros ts tuo. rewrite interested_brokers by done. intros (_ & t & _ & Hf). rewrite rb_bm_brokers, fwd_remove in Hf. naive_solver.
  - intros b' Hne. unfold c_get_broker_connection. split.
    + rewrite rb_brokers, lookup_delete_ne by done. done.
    + intros ts tuo. rewrite (interested_brokers (c_remove_broker s b)), (interested_brokers s) by done. rewrite rb_bm_brokers. setoid_rewrite fwd_remove. naive_solver.
  - intros u. unfold c_get_user_connection, c_get_broker_identifier_of_user. by rewrite rb_users, rb_direct.
  - intros u ts tuo. rewrite (interested_users (c_remove_broker s b)), (interested_users s) by done. by rewrite rb_bm_users.
Qed.

Lemma interested_brokers_connected i os ts tuo b :
  In b (c_get_interested_by_topic (c_run i os) ts tuo).1 ->
  exists c, c_get_broker_connection (c_run i os) b = Some c.
Proof.
  rewrite interested_brokers by apply run_idx. intros (_ & t & _ & Hf).
  apply run_interest in Hf as [be Hb]. unfold c_get_broker_connection. rewrite Hb. cbn. eauto.
Qed.

(** Gauges through the public queries. *)
Lemma gauges_exact i os :
  gauge_users (c_run i os) = Z.of_nat (c_num_users (c_run i os))
  /\ gauge_users (c_run i os) = Z.of_nat (length (c_all_users (c_run i os)))
  /\ gauge_brokers (c_run i os) = Z.of_nat (length (c_get_broker_identifiers (c_run i os))).
Proof.
  destruct (run_gauge i os) as [Hu Hb]. unfold c_num_users, c_all_users, c_get_broker_identifiers.
  split; [|split].
  - exact Hu.
  - rewrite Hu. f_equal. symmetry. apply (size_dom (D := gset bytes) (users (c_run i os))).
  - rewrite Hb. f_equal. symmetry. apply (size_dom (D := gset bid) (brokers (c_run i os))).
Qed.

(** The registered connection is the most recently added one not removed since. *)
Lemma registered_current i os :
  (forall u, c_get_user_connection (c_run i os) u = fst <$> current_user i os u)
  /\ (forall b, c_get_broker_connection (c_run i os) b = fst <$> current_broker os b).
Proof.
  split; intros x.
  - unfold c_get_user_connection. by rewrite run_current_user.
  - unfold c_get_broker_connection. rewrite <- (run_current_broker i os x). by destruct (brokers (c_run i os) !! x).
Qed.
