(** Properties of clients that were dropped (HandleModel.v). *)
From stdpp Require Import gmap list.
From Coq Require Import NArith Lia.
From Verif Require Import ClientModel ClientSpec ClientProofs ClientClose HandleModel HandleSpec HandleProofs.

(** ** C92: a client that was dropped is gone *)
Lemma freed_silent ts s outs : reach ts s outs -> a_freed s = true -> silent s.
Proof.
  intros H Hf es. rewrite freed_stays by done. split; [done|]. destruct (rc_freed _ _ _ H Hf) as [H0 Hs].
  intros c [E|(t & o & E)]; cbn [fst] in E; [congruence|]. rewrite (rc_idle _ _ _ H H0), lookup_empty in E. done.
Qed.

(** Once the last handle was dropped, and unless a reconnection is going on, the connection is closed and nothing more happens. *)
Theorem C92_dropped_client_is_gone ts es :
  let s := (a_run ts es).1 in dropped s -> ~ reconnecting s -> a_freed s = true /\ silent s.
Proof.
  intros s H0 Hr. pose proof (a_run_reach ts es) as H. fold s in H.
  assert (a_freed s = true) as Hf.
  { destruct (a_freed s) eqn:E; [done|]. exfalso. destruct (map_choose _ (rc_tasks _ _ _ H H0 E)) as (r & q & Hq). apply Hr. by exists r, q. }
  split; [done|]. by eapply freed_silent.
Qed.
Print Assumptions C92_dropped_client_is_gone.

(** Otherwise it opens one more connection at the most, *)
Theorem C92_at_most_one_more_connection ts es es' :
  let s := (a_run ts es).1 in dropped s -> conns (a_go s es').2 <= 1.
Proof. intros s H0. exact (one_more ts s _ es' (a_run_reach ts es) H0). Qed.
Print Assumptions C92_at_most_one_more_connection.

(** and that one is closed as soon as the reconnection has ended, which takes two steps of its task, that wait for nobody. *)
Theorem C92_that_one_is_closed ts es c :
  let s := (a_run ts es).1 in dropped s -> has_conn (a_client s) c ->
  exists r, forall b b', let s' := (a_go s [ADo (ETask r b); ADo (ETask r b')]).1 in a_freed s' = true /\ silent s'.
Proof.
  intros s H0 Hc. pose proof (a_run_reach ts es) as H. fold s in H.
  destruct Hc as [Hs|(t & o & E)]; [|rewrite (rc_idle _ _ _ H H0), lookup_empty in E; done].
  assert (a_freed s = false) as Hf.
  { destruct (a_freed s) eqn:E; [|done]. destruct (rc_freed _ _ _ H E). congruence. }
  destruct (open_closes ts s _ c H H0 Hf Hs) as [r Hr]. exists r. intros b b'. specialize (Hr b b'). split; [done|].
  eapply freed_silent; [apply a_go_reach; exact H|done].
Qed.
Print Assumptions C92_that_one_is_closed.

(** If [close] has returned before, nothing more happens in any case. *)
Theorem C92_closed_then_dropped ts es t :
  let s := (a_run ts es).1 in In (ORet t KClose true) (a_run ts es).2 -> dropped s -> silent s.
Proof.
  intros s Hin H0. pose proof (a_run_reach ts es) as H. fold s in H.
  destruct (a_freed s) eqn:Hf; [by eapply freed_silent|].
  destruct (rc_run _ _ _ H Hf) as [es0 E]. intros es'.
  assert (shut (a_client s)) as Hs.
  { pose proof (closed_shut ts es0 t) as Hc. rewrite E in Hc. cbn [fst snd] in Hc. apply Hc. exact Hin. }
  destruct (shut_dropped ts s _ es' H H0 Hs) as [H1 H2]. split; [done|].
  intros c [Es|(t' & o & Et)]; [congruence|].
  pose proof (a_go_reach ts s _ es' H) as H'. rewrite (rc_idle _ _ _ H' (dropped_stays s es' H0)), lookup_empty in Et. done.
Qed.
Print Assumptions C92_closed_then_dropped.

(** A client that connects, is cloned, used, and dropped; a client that is dropped while it connects; a client that is closed and dropped. *)
Definition hx_connect : list aev :=
  ADo <$> [EStart 1 KEnsure; EStep 1 true; EStep 1 true; EStep 1 true;
   ETask 0 true; ETask 0 true; ETask 0 true; ETask 0 true; ETask 0 true; ETask 0 true; EStep 1 true].
Definition hx_used : list aev := hx_connect ++ [AClone; ADo (EStart 2 KSend); AFree; ADo (EStep 2 true); ADo (EStep 2 true); AFree].
Definition hx_early : list aev :=
  ADo <$> [EStart 1 KSend; EStep 1 true; EStep 1 true; ETask 0 true; ETask 0 true].
Definition hx_closed : list aev := hx_connect ++ (ADo <$> [EStart 3 KClose; EStep 3 true; EStep 3 true; EStep 3 true]) ++ [AFree].
Example C92_example :
  k_slot (a_client (a_run [1%N] hx_connect).1) = Some 0%N /\
  (dropped (a_run [1%N] hx_used).1 /\ ~ reconnecting (a_run [1%N] hx_used).1) /\
  (dropped (a_run [1%N] (hx_early ++ [AFree])).1 /\ reconnecting (a_run [1%N] (hx_early ++ [AFree])).1) /\
  (let s := (a_run [1%N] (hx_early ++ [AFree; ADo (ETask 0 true); ADo (ETask 0 true)])).1 in dropped s /\ has_conn (a_client s) 0) /\
  (In (ORet 3 KClose true) (a_run [1%N] hx_closed).2 /\ dropped (a_run [1%N] hx_closed).1).
Proof.
  split; [vm_compute; reflexivity|]. split; [|split; [|split; [|split]]].
  - split; [vm_compute; reflexivity|]. intros (r & q & E).
    assert (k_tasks (a_client (a_run [1%N] hx_used).1) = ∅) as E0 by (apply map_to_list_empty_iff; vm_compute; reflexivity). rewrite E0, lookup_empty in E. discriminate E.
  - split; [vm_compute; reflexivity|]. exists 0%N, QNet. vm_compute. reflexivity.
  - split; [vm_compute; reflexivity|]. left. vm_compute. reflexivity.
  - vm_compute. intuition.
  - vm_compute. reflexivity.
Qed.

(** "A client that was dropped does nothing more" is false while it reconnects: it goes on trying, any number of times, and then logs in once more. *)
Definition hx_again : list aev := ADo <$> [ETask 0 false; ETask 0 true; ETask 0 true].
Fixpoint hx_times (n : nat) : list aev := match n with O => [] | S m => hx_again ++ hx_times m end.
(** Nobody has the client but a task that is about to hear how its attempt went. *)
Definition hx_loops (s : held) : Prop :=
  exists k, s = Held k 0 false /\ k_tasks k !! 0%N = Some QNet /\ k_closed k = false /\ k_subl k = None.
Lemma hx_task k q o b : k_tasks k !! 0%N = Some q -> k_tasks (qstep k 0 q b).1 !! 0%N = Some o ->
  a_step (Held k 0 false) (ADo (ETask 0 b)) = (Held (qstep k 0 q b).1 0 false, (qstep k 0 q b).2).
Proof.
  intros Hq Ho. unfold a_step. cbn [a_freed a_handles a_client N.eqb kstep]. rewrite Hq. destruct (qstep k 0 q b) as [k' l]. cbn [fst snd] in *.
  unfold settle. rewrite decide_False; [done|]. cbn [a_handles a_client]. intros [_ E]. rewrite E, lookup_empty in Ho. done.
Qed.
Lemma hx_set k q : k_tasks (w_task k 0 (Some q)) !! 0%N = Some q.
Proof. cbn [w_task k_tasks]. rewrite pa_lookup. case_decide; done. Qed.
Lemma hx_again_go s : hx_loops s -> hx_loops (a_go s hx_again).1 /\ (a_go s hx_again).2 = [OAttempt 0].
Proof.
  intros (k & -> & Hq & Hc & Hl). unfold hx_again. cbn [fmap list_fmap]. rewrite !a_go_cons. cbn [a_go].
  rewrite (hx_task k QNet QSleep) by (first [exact Hq|cbn [qstep fst]; apply hx_set]). cbn [qstep fst snd].
  rewrite (hx_task _ QSleep QTop) by (first [apply hx_set|cbn [qstep fst]; apply hx_set]). cbn [qstep fst snd].
  assert (k_closed (w_task (w_task k 0 (Some QSleep)) 0 (Some QTop)) = false) as Hc' by exact Hc.
  rewrite (hx_task _ QTop QNet) by (first [apply hx_set|cbn [qstep]; rewrite Hc'; cbn [fst]; apply hx_set]). cbn [qstep]. rewrite Hc'. cbn [fst snd].
  split; [|done]. eexists. split; [reflexivity|]. split; [apply hx_set|]. split; [exact Hc|exact Hl].
Qed.
Lemma hx_times_go s n : hx_loops s -> hx_loops (a_go s (hx_times n)).1 /\ attempts (a_go s (hx_times n)).2 = n /\ conns (a_go s (hx_times n)).2 = 0.
Proof.
  revert s. induction n as [|n IH]; intros s H; [done|]. cbn [hx_times]. rewrite a_go_app. cbn [fst snd].
  destruct (hx_again_go s H) as [H1 H2]. rewrite H2. destruct (IH _ H1) as (I1 & I2 & I3). split; [done|].
  change ([OAttempt 0] ++ ?l) with (OAttempt 0 :: l). unfold attempts, conns in *. cbn [List.filter attempt_of conn_of length]. rewrite I2. done.
Qed.
Lemma hx_connects s : hx_loops s -> exists r c, In (OConn r c) (a_go s [ADo (ETask 0 true); ADo (ETask 0 true)]).2.
Proof.
  intros (k & -> & Hq & Hc & Hl). rewrite !a_go_cons. cbn [a_go].
  assert (qstep k 0 QNet true = (w_subr (w_task k 0 (Some (QAuth (elements (k_subs k))))) true, [])) as E.
  { cbn [qstep]. rewrite decide_True by done. done. }
  rewrite (hx_task k QNet (QAuth (elements (k_subs k)))) by (first [exact Hq|rewrite E; apply (hx_set k)]). rewrite E. cbn [fst snd].
  rewrite (hx_task _ (QAuth (elements (k_subs k))) QGot) by (first [apply (hx_set k)|cbn [qstep fst]; apply hx_set]). cbn [qstep snd].
  eexists _, _. cbn. left. reflexivity.
Qed.
Lemma hx_early_loops : hx_loops (a_run [1%N] (hx_early ++ [AFree])).1.
Proof.
  exists (a_client (a_run [1%N] (hx_early ++ [AFree])).1). split; [|split; [vm_compute; reflexivity|split; vm_compute; reflexivity]].
  vm_compute. reflexivity.
Qed.
Theorem C92_dropped_client_reconnects_refuted :
  exists ts es, let s := (a_run ts es).1 in dropped s /\
    forall n, exists es1, attempts (a_go s es1).2 = n /\ conns (a_go s es1).2 = 0 /\
      exists r c, In (OConn r c) (a_go (a_go s es1).1 [ADo (ETask 0 true); ADo (ETask 0 true)]).2.
Proof.
  exists [1%N], (hx_early ++ [AFree]). cbv zeta. split; [vm_compute; reflexivity|]. intros n. exists (hx_times n).
  destruct (hx_times_go _ n hx_early_loops) as (E1 & E2 & E3). split; [done|]. split; [done|]. exact (hx_connects _ E1).
Qed.
Print Assumptions C92_dropped_client_reconnects_refuted.

Definition stuck_b (s : held) (r : N) : bool :=
  negb (a_freed s) && N.eqb (a_handles s) 0 && match map_to_list (k_thr (a_client s)) with [] => true | _ => false end && bool_decide (k_abort (a_client s) = ∅) &&
  match map_to_list (k_tasks (a_client s)) with
  | [(r', q)] => N.eqb r' r && match q with QGot | QRel => false | _ => true end
  | _ => false
  end.
Lemma stuck_check s r : stuck_b s r = true -> stuck s r.
Proof.
  unfold stuck_b. rewrite !andb_true_iff. intros ((((H1 & H2) & H3) & H4) & H5).
  split; [by destruct (a_freed s)|]. split; [by apply N.eqb_eq|]. split; [apply map_to_list_empty_iff; by destruct (map_to_list (k_thr (a_client s)))|].
  split; [by apply bool_decide_eq_true_1 in H4|].
  destruct (map_to_list (k_tasks (a_client s))) as [|[r' q] [|]] eqn:E; [done| |done].
  apply andb_true_iff in H5 as [H5 H6]. apply N.eqb_eq in H5 as ->. exists q. split.
  - assert (map_to_list (k_tasks (a_client s)) ≡ₚ (r, q) :: []) as E' by (rewrite E; done). apply map_to_list_insert_inv in E'. exact E'.
  - destruct q; done.
Qed.
(** "A client that was dropped is freed" is false: not before an attempt succeeds, whatever happens until then. *)
Theorem C92_dropped_client_freed_refuted :
  exists ts es, let s := (a_run ts es).1 in dropped s /\
    forall es', conns (a_go s es').2 = 0 -> a_freed (a_go s es').1 = false /\ reconnecting (a_go s es').1.
Proof.
  exists [1%N], (hx_early ++ [AFree]). cbv zeta. split; [vm_compute; reflexivity|]. intros es' Hc.
  assert (stuck (a_run [1%N] (hx_early ++ [AFree])).1 0) as Hs.
  { apply stuck_check. vm_compute. reflexivity. }
  destruct (stuck_go _ _ es' Hs Hc) as (Hf & _ & _ & _ & q & Hq & _). split; [exact Hf|]. exists 0%N, q. rewrite Hq. apply lookup_singleton.
Qed.
Print Assumptions C92_dropped_client_freed_refuted.

(** Not even if it was closed first: the call that starts a reconnection may store its handle after [close] has looked for it, and then the task looks every two
    seconds, for ever, whether it may connect. *)
Definition hx_race : list aev :=
  [ADo (EStart 1 KSend); ADo (EStep 1 true); AClone] ++
  (ADo <$> [EStart 2 KClose; EStep 2 true; EStep 2 true; EStep 1 true; EStep 2 true]) ++ [AFree; AFree].
Theorem C92_closed_and_dropped_freed_refuted :
  exists ts es t, let s := (a_run ts es).1 in In (ORet t KClose true) (a_run ts es).2 /\ dropped s /\
    forall es', a_freed (a_go s es').1 = false /\ reconnecting (a_go s es').1.
Proof.
  exists [1%N], hx_race, 2%N. cbv zeta. split; [vm_compute; intuition|]. split; [vm_compute; reflexivity|]. intros es'.
  assert (stuck (a_run [1%N] hx_race).1 0) as Hs.
  { apply stuck_check. vm_compute. reflexivity. }
  assert (silent (a_run [1%N] hx_race).1) as Hq.
  { apply (C92_closed_then_dropped [1%N] hx_race 2); [vm_compute; intuition|vm_compute; reflexivity]. }
  destruct (Hq es') as [E _]. destruct (stuck_go _ _ es' Hs (conns_quiet _ E)) as (Hf & _ & _ & _ & q & Hk & _).
  split; [exact Hf|]. exists 0%N, q. rewrite Hk. apply lookup_singleton.
Qed.
Print Assumptions C92_closed_and_dropped_freed_refuted.
