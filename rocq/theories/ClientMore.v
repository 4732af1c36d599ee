(** Replacing connections, the topic set, recovery, and the two ways to get stuck. *)
From stdpp Require Import gmap list.
From Coq Require Import NArith Lia.
From Verif Require Import TopicModel TopicProofs ClientModel ClientSpec ClientProofs ClientSubs ClientClose.

(** * Attempts *)
Lemma one_attempt ts es r1 r2 :
  attempting (krun ts es).1 r1 -> attempting (krun ts es).1 r2 -> r1 = r2.
Proof.
  pose proof (krun_tk ts es) as []. intros [H1|[l1 H1]] [H2|[l2 H2]]; eapply ti_uniq; eauto; done.
Qed.

Lemma attempt_no_slot ts es r : attempting (krun ts es).1 r -> k_slot (krun ts es).1 = None.
Proof. pose proof (krun_tk ts es) as []. intros [H1|[l1 H1]]; eapply ti_slot; eauto; done. Qed.

(** * The topic set *)
Lemma wanted_app s o1 o2 : wanted s (o1 ++ o2) = wanted (wanted s o1) o2.
Proof. revert s. induction o1 as [|x o1 IH]; intros s; [done|]. destruct x as [|t [] []| | | |]; cbn; apply IH. Qed.

Lemma fresh_same s l : s ∪ list_to_set (fresh_topics s l) = s ∪ (list_to_set l : gset N).
Proof.
  apply set_eq. intros x. unfold fresh_topics.
  rewrite !elem_of_union, !elem_of_list_to_set, elem_of_list_filter. destruct (decide (x ∈ s)); tauto.
Qed.
Lemma known_same s l : s ∖ list_to_set (known_topics s l) = s ∖ (list_to_set l : gset N).
Proof.
  apply set_eq. intros x. unfold known_topics.
  rewrite !elem_of_difference, !elem_of_list_to_set, elem_of_list_filter. tauto.
Qed.

Lemma unlock_subs k t : k_subs (unlock k t) = k_subs k.
Proof. unfold unlock. by case_decide. Qed.
Lemma no_conn_subs k t o s : k_subs (no_conn k t o).1 = k_subs k /\ wanted s (no_conn k t o).2 = s.
Proof. destruct o; cbn [no_conn]; unfold ret; cbn [fst snd wanted]; by rewrite ?unlock_subs. Qed.
Lemma rin_subs k t o : k_subs (reconnect_if_needed k t o).1 = k_subs k
  /\ wanted (k_subs k) (reconnect_if_needed k t o).2 = k_subs k.
Proof.
  unfold reconnect_if_needed. destruct (k_slot k).
  - destruct o; cbn; rewrite ?unlock_subs; done.
  - destruct (k_closed k); [apply no_conn_subs|]. destruct (k_permit k); [done|apply no_conn_subs].
Qed.

Lemma step_subs k e : pwf k -> psl k -> k_subs (kstep k e).1 = wanted (k_subs k) (kstep k e).2.
Proof.
  intros Hp Hs. destruct e as [t o|t b|t|r b|r]; cbn [kstep].
  - by destruct (k_thr k !! t).
  - destruct (k_thr k !! t) as [p|] eqn:Ht; [|done]. destruct p; cbn [tstep].
    + by case_decide.
    + destruct (k_closed k); [|done]. cbn. by rewrite unlock_subs.
    + destruct (rin_subs k t o) as [E1 E2]. destruct (no_conn_subs k t o (k_subs k)) as [E3 E4].
      unfold get. destruct (k_wl k), o, b; auto; congruence.
    + set (k' := w_rd _ _). destruct (no_conn_subs k' t o (k_subs k)) as [E3 E4]. by rewrite E3, E4.
    + destruct b; [|done]. unfold ret. cbn [fst snd]. rewrite unlock_subs. destruct o; cbn; try done.
      * apply fresh_same.
      * apply known_same.
    + destruct (_ && _); [done|]. unfold ret. cbn [fst snd]. rewrite unlock_subs. by destruct o.
    + destruct (no_readers k); [|done]. unfold ret. cbn [fst snd]. rewrite unlock_subs. by destruct o.
    + destruct (_ || _); [|done]. cbn. by rewrite unlock_subs.
    + done.
    + done.
    + destruct (no_readers k); [|done]. cbn. by rewrite unlock_subs.
  - destruct (k_thr k !! t) as [p|]; [|done]. cbn [fst snd wanted].
    destruct p as [ | |[]| | | | | | | | ]; cbn [tdrop]; rewrite ?unlock_subs; done.
  - destruct (k_tasks k !! r) as [q|]; [|done]. destruct q; cbn [qstep]; repeat (case_decide || case_match); done.
  - destruct (k_tasks k !! r) as [q|]; [|done]. case_decide; [|done]. by destruct q.
Qed.

Lemma run_wanted ts es : k_subs (krun ts es).1 = wanted (list_to_set ts) (krun ts es).2.
Proof.
  induction es as [|e es IH] using rev_ind; [done|]. rewrite krun_snoc. cbn [fst snd].
  rewrite wanted_app, <- IH. apply step_subs; [apply krun_pwf|apply (krun_all (fun _ => true))].
Qed.

Lemma topics_match valid ts es c :
  k_slot (krun ts es).1 = Some c ->
  exists qs, k_sent (krun ts es).1 !! c = Some qs
    /\ forall S x, b_topics valid qs = Some S -> x ∈ S <-> valid x = true /\ x ∈ wanted (list_to_set ts) (krun ts es).2.
Proof.
  intros Hc. pose proof (krun_hk valid ts es) as H. destruct (h_sent _ _ _ _ _ _ _ _ _ H _ Hc) as (l&qs&Hs&HS).
  rewrite <- run_wanted. eauto.
Qed.

(** * Which connection is given up *)
Definition pc_failed (p : pc) : option N := match p with PFail _ c | PTake _ c => Some c | _ => None end.
Definition finv (k : client) (outs : list cout) : Prop :=
  forall t p c, k_thr k !! t = Some p -> pc_failed p = Some c -> In (OUse t c false) outs.

Lemma finv_move k t p outs : finv k outs -> (forall q c, p = Some q -> pc_failed q = Some c -> In (OUse t c false) outs) ->
  finv (w_thr k t p) outs.
Proof. intros H Hp t' q c. cbn. rewrite pa_lookup. case_decide; intros; simplify_eq; eauto. Qed.
Lemma finv_unlock k t outs : finv k outs -> finv (unlock k t) outs.
Proof. unfold unlock. by case_decide. Qed.
Lemma finv_no_conn k t o outs : finv k outs -> finv (no_conn k t o).1 outs.
Proof.
  intros H. destruct o; cbn [no_conn]; unfold ret; cbn [fst]; try (by apply finv_unlock, finv_move).
  apply finv_move; [done|]. intros ? ? [= <-]. done.
Qed.
Lemma finv_rin k t o outs : finv k outs -> finv (reconnect_if_needed k t o).1 outs.
Proof.
  intros H. unfold reconnect_if_needed. destruct (k_slot k).
  - assert (Hg : finv (w_thr k t (Some (PUse o n))) outs) by (apply finv_move; [done|]; by intros ? ? [= <-]).
    destruct o; try exact Hg. unfold ret; cbn [fst]. by apply finv_unlock, finv_move.
  - destruct (k_closed k) eqn:Ec; [by apply finv_no_conn|]. destruct (k_permit k); [|by apply finv_no_conn].
    intros t' o' c. cbn. rewrite ins_lookup. case_decide; intros; simplify_eq; eauto; done.
Qed.
Lemma finv_more k o1 o2 : finv k o1 -> finv k (o1 ++ o2).
Proof. intros H t p c Ht Hp. apply in_or_app. left. eauto. Qed.

Lemma finv_step k e outs : finv k outs -> finv (kstep k e).1 (outs ++ (kstep k e).2).
Proof.
  intros H. destruct e as [t o|t b|t|r b|r]; cbn [kstep].
  - apply finv_more. destruct (k_thr k !! t); [done|]. apply finv_move; [done|]. intros ? ? [= <-]. by destruct o.
  - destruct (k_thr k !! t) as [p|] eqn:Ht; [|by apply finv_more]. destruct p; cbn [tstep].
    + apply finv_more. case_decide; [|done]. apply (finv_move k t (Some (PGet o))); [done|]. by intros ? ? [= <-].
    + apply finv_more. destruct (k_closed k); unfold ret; cbn [fst]; [by apply finv_unlock, finv_move|].
      apply finv_move; [done|]. by intros ? ? [= <-].
    + apply finv_more. pose proof (finv_rin k t o outs H). pose proof (finv_no_conn k t o outs H).
      unfold get. destruct (k_wl k), o, b; auto.
    + apply finv_more. by apply finv_no_conn.
    + destruct b.
      * apply finv_more. unfold ret. cbn [fst]. apply finv_unlock, finv_move; [|done]. by destruct o.
      * cbn [fst snd]. apply finv_move; [by apply finv_more|]. intros ? ? [= <-] [= <-]. apply in_or_app. right. left. done.
    + apply finv_more. destruct (_ && _); unfold ret; cbn [fst]; [|by apply finv_unlock, finv_move].
      apply finv_move; [done|]. intros ? ? [= <-] [= <-]. eapply H; eauto; done.
    + apply finv_more. destruct (no_readers k); [|done]. unfold ret; cbn [fst]. by apply finv_unlock, finv_move.
    + apply finv_more. destruct (_ || _); [|done]. unfold ret; cbn [fst]. by apply finv_unlock, finv_move.
    + apply finv_more. apply (finv_move (w_closed k)); [done|]. by intros ? ? [= <-].
    + apply finv_more. apply (finv_move (w_handle k None)); [done|]. by intros ? ? [= <-].
    + apply finv_more. destruct (no_readers k); [|done]. unfold ret; cbn [fst]. by apply finv_unlock, finv_move.
  - apply finv_more. destruct (k_thr k !! t) as [p|]; [|done]. cbn [fst].
    assert (finv (unlock (w_thr k t None) t) outs) by by apply finv_unlock, finv_move.
    destruct p as [ | |[]| | | | | | | | ]; done.
  - apply finv_more. destruct (k_tasks k !! r) as [q|]; [|done].
    destruct q; cbn [qstep]; repeat (case_decide || case_match); exact H.
  - apply finv_more. destruct (k_tasks k !! r) as [q|]; [|done]. case_decide; [|done]. destruct q; exact H.
Qed.

Lemma run_finv ts es : finv (krun ts es).1 (krun ts es).2.
Proof.
  induction es as [|e es IH] using rev_ind.
  - intros t p c Ht. cbn in Ht. simplify_map_eq.
  - rewrite krun_snoc. by apply finv_step.
Qed.

Lemma step_took k e t c s : In (OTook t c s) (kstep k e).2 ->
  exists o, k_thr k !! t = Some (PTake o c) /\ s = k_slot k.
Proof.
  destruct e as [t' o|t' b|t'|r b|r]; cbn [kstep].
  - destruct (k_thr k !! t'); cbn; intuition; done.
  - destruct (k_thr k !! t') as [p|] eqn:Ht; [|done]. destruct p; cbn [tstep].
    + by case_decide.
    + destruct (k_closed k); cbn; [|done]. by intros [?|[]].
    + intros Hx. destruct (get_outs _ _ _ _ _ Hx) as [?|[? ?]]; done.
    + intros Hx. pose proof (no_conn_outs _ _ _ _ Hx). done.
    + destruct b; cbn; [by intros [?|[?|[]]]|by intros [?|[]]].
    + destruct (_ && _); cbn; [done|by intros [?|[]]].
    + destruct (no_readers k); [|done]. cbn. intros [?|[?|[]]]; simplify_eq. eauto.
    + destruct (_ || _); [|done]. cbn. by intros [?|[]].
    + done.
    + done.
    + destruct (no_readers k); [|done]. cbn. by intros [?|[]].
  - by destruct (k_thr k !! t').
  - destruct (k_tasks k !! r) as [q|]; [|done]. destruct q; cbn [qstep]; repeat (case_decide || case_match); cbn; try done;
      by intros [?|[]].
  - destruct (k_tasks k !! r) as [q|]; [|done]. by case_decide.
Qed.

Lemma took_older ts es t c c' :
  In (OTook t c (Some c')) (krun ts es).2 -> (c <= c')%N /\ In (OUse t c false) (krun ts es).2.
Proof.
  induction es as [|e es IH] using rev_ind; [done|]. rewrite krun_snoc. cbn [fst snd].
  intros [H|H]%in_app_or; [destruct (IH H); split; [done|]; apply in_or_app; by left|].
  destruct (step_took _ _ _ _ _ H) as (o&Ht&Hs). split.
  - pose proof (krun_hk (fun _ => true) ts es) as Hk.
    pose proof (h_next _ _ _ _ _ _ _ _ _ Hk _ _ c Ht eq_refl) as H1. symmetry in Hs.
    pose proof (h_last _ _ _ _ _ _ _ _ _ Hk _ Hs). lia.
  - apply in_or_app. left. eapply run_finv; eauto; done.
Qed.

(** * Recovery *)
Definition rinv (k : client) : Prop := forall t, t ∈ k_rd k -> exists o r, k_thr k !! t = Some (PStore o r).

Lemma rinv_move k t p : rinv k -> t ∉ k_rd k -> rinv (w_thr k t p).
Proof.
  intros H Hn t' Ht'. destruct (H _ Ht') as (o&r&E). exists o, r. cbn. rewrite pa_lookup, decide_False; auto. by intros ->.
Qed.
Lemma rinv_unlock k t : rinv k -> rinv (unlock k t).
Proof. unfold unlock. by case_decide. Qed.
Lemma rinv_no_conn k t o : rinv k -> t ∉ k_rd k -> rinv (no_conn k t o).1.
Proof.
  intros H Hn. destruct o; cbn [no_conn]; unfold ret; cbn [fst]; try (by apply rinv_unlock, rinv_move). by apply rinv_move.
Qed.
Lemma rinv_rin k t o : rinv k -> t ∉ k_rd k -> rinv (reconnect_if_needed k t o).1.
Proof.
  intros H Hn. unfold reconnect_if_needed. destruct (k_slot k).
  - pose proof (rinv_move k t (Some (PUse o n)) H Hn). destruct o; auto. unfold ret; cbn [fst]. by apply rinv_unlock, rinv_move.
  - destruct (k_closed k); [by apply rinv_no_conn|]. destruct (k_permit k); [|by apply rinv_no_conn].
    intros t'. cbn. rewrite elem_of_union, elem_of_singleton. rewrite ins_lookup. case_decide; [eauto|].
    intros [->|Ht']; [done|]. eauto.
Qed.
Lemma rinv_notin k t p : rinv k -> k_thr k !! t = Some p -> (forall o r, p <> PStore o r) -> t ∉ k_rd k.
Proof. intros H Ht Hp Hin. destruct (H _ Hin) as (o&r&E). rewrite Ht in E. simplify_eq. by eapply Hp. Qed.

Lemma rinv_step k e : rinv k -> rinv (kstep k e).1.
Proof.
  intros H. destruct e as [t o|t b|t|r b|r]; cbn [kstep].
  - destruct (k_thr k !! t) eqn:E; [done|]. apply rinv_move; [done|]. intros Hin. destruct (H _ Hin) as (?&?&?). congruence.
  - destruct (k_thr k !! t) as [p|] eqn:Ht; [|done]. destruct p.
    4:{ cbn [tstep]. apply rinv_no_conn; cbn; [|set_solver]. intros t' Ht'. cbn in *. apply H. set_solver. }
    all: assert (Hn : t ∉ k_rd k) by (eapply rinv_notin; eauto; done); cbn [tstep].
    + case_decide; [|done]. by apply (rinv_move k t (Some (PGet o))).
    + destruct (k_closed k); unfold ret; cbn [fst]; [by apply rinv_unlock, rinv_move|by apply rinv_move].
    + pose proof (rinv_rin k t o H Hn). pose proof (rinv_no_conn k t o H Hn).
      unfold get. destruct (k_wl k), o, b; auto.
    + destruct b; [|by apply rinv_move]. unfold ret. cbn [fst]. apply rinv_unlock, rinv_move; by destruct o.
    + destruct (_ && _); unfold ret; cbn [fst]; [by apply rinv_move|by apply rinv_unlock, rinv_move].
    + destruct (no_readers k); [|done]. unfold ret; cbn [fst]. by apply rinv_unlock, rinv_move.
    + destruct (_ || _); [|done]. unfold ret; cbn [fst]. by apply rinv_unlock, rinv_move.
    + by apply (rinv_move (w_closed k)).
    + by apply (rinv_move (w_handle k None)).
    + destruct (no_readers k); [|done]. unfold ret; cbn [fst]. by apply rinv_unlock, rinv_move.
  - destruct (k_thr k !! t) as [p|] eqn:Ht; [|done]. cbn [fst].
    assert ((forall o r, p <> PStore o r) -> rinv (unlock (w_thr k t None) t)).
    { intros Hp. apply rinv_unlock, rinv_move; [done|]. by eapply rinv_notin. }
    destruct p as [ | |[]| | | | | | | | ]; cbn [tdrop]; auto; apply H0; done.
  - destruct (k_tasks k !! r) as [q|]; [|done].
    destruct q; cbn [qstep]; repeat (case_decide || case_match); exact H.
  - destruct (k_tasks k !! r) as [q|]; [|done]. case_decide; [|done]. destruct q; exact H.
Qed.

(** The client is open and no call is changing the topic set. *)
Record ready (k : client) : Prop := {
  rd_tk : tk k; rd_rinv : rinv k; rd_open : k_closed k = false; rd_subl : k_subl k = None;
}.

Definition recovers (k : client) : Prop := exists es, k_slot (kgo k es).1 <> None.

Lemma recovers_step k e : recovers (kstep k e).1 -> recovers k.
Proof. intros [es H]. exists (e :: es). by rewrite kgo_cons. Qed.

Lemma task_step k r q : k_tasks k !! r = Some q -> kstep k (ETask r true) = qstep k r q true.
Proof. intros H. cbn [kstep]. by rewrite H. Qed.
Lemma thread_step k t p : k_thr k !! t = Some p -> kstep k (EStep t true) = tstep k t p true.
Proof. intros H. cbn [kstep]. by rewrite H. Qed.

Lemma rec_auth k r l : k_tasks k !! r = Some (QAuth l) -> recovers k.
Proof. intros H. exists [ETask r true]. rewrite kgo_cons, (task_step _ _ _ H). cbn. done. Qed.
Lemma rec_net k r : k_subl k = None -> k_tasks k !! r = Some QNet -> recovers k.
Proof.
  intros Hs H. apply (recovers_step k (ETask r true)). rewrite (task_step _ _ _ H). cbn [qstep]. rewrite decide_True by done.
  cbn [fst]. eapply rec_auth. cbn. by rewrite pa_lookup, decide_True.
Qed.
Lemma rec_top k r : k_closed k = false -> k_subl k = None -> k_tasks k !! r = Some QTop -> recovers k.
Proof.
  intros Hc Hs H. apply (recovers_step k (ETask r true)). rewrite (task_step _ _ _ H). cbn [qstep]. rewrite Hc.
  cbn [fst]. eapply rec_net; [done|]. cbn. by rewrite pa_lookup, decide_True.
Qed.
Lemma rec_sleep k r : k_closed k = false -> k_subl k = None -> k_tasks k !! r = Some QSleep -> recovers k.
Proof.
  intros Hc Hs H. apply (recovers_step k (ETask r true)). rewrite (task_step _ _ _ H). cbn [qstep].
  cbn [fst]. eapply rec_top; [done..|]. cbn. by rewrite pa_lookup, decide_True.
Qed.
Lemma rec_lock k r : k_closed k = false -> k_subl k = None -> k_wl k = None -> k_rd k = ∅ ->
  k_tasks k !! r = Some QLock -> recovers k.
Proof.
  intros Hc Hs Hw Hr H. apply (recovers_step k (ETask r true)). rewrite (task_step _ _ _ H). cbn [qstep].
  unfold no_readers. rewrite bool_decide_true by done. cbn [fst]. eapply rec_top; [done..|]. cbn. by rewrite pa_lookup, decide_True.
Qed.

(** Threads storing a handle finish; the remaining ones keep their place. *)
Lemma clear_readers k : ready k -> exists es, let k' := (kgo k es).1 in
  ready k' /\ k_rd k' = ∅ /\ k_tasks k' = k_tasks k /\ k_wl k' = k_wl k /\ k_permit k' = k_permit k /\ k_slot k' = k_slot k.
Proof.
  remember (size (k_rd k)) as n eqn:Hn. revert k Hn. induction (lt_wf n) as [n _ IH]. intros k Hn Hk.
  destruct (decide (k_rd k = ∅)) as [He|He]; [exists []; cbn; split_and!; done|].
  apply set_choose_L in He as [t Ht]. destruct Hk as [H1 H2 H3 H4]. destruct (H2 _ Ht) as (o&r&Ep).
  set (k1 := (kstep k (EStep t true)).1).
  assert (E : k_rd k1 = k_rd k ∖ {[t]} /\ k_closed k1 = k_closed k /\ k_subl k1 = None
     /\ k_tasks k1 = k_tasks k /\ k_wl k1 = k_wl k /\ k_permit k1 = k_permit k /\ k_slot k1 = k_slot k).
  { unfold k1. rewrite (thread_step _ _ _ Ep). cbn [tstep].
    destruct o; cbn [no_conn]; unfold ret, unlock; cbn [fst]; try case_decide; cbn; rewrite ?H4; auto 10. }
  destruct E as (E1&E2&E3&E4&E5&E6&E7).
  edestruct (IH (size (k_rd k1))) as (es&Hes).
  - rewrite Hn, E1. apply subset_size. set_solver.
  - reflexivity.
  - split; [by apply kstep_tk|by apply rinv_step|congruence|done].
  - cbn zeta in Hes. exists (EStep t true :: es). rewrite kgo_cons. cbn zeta. cbn [fst]. fold k1.
    destruct Hes as (?&?&?&?&?&?). split_and!; try done; congruence.
Qed.

Lemma rec_holder k : ready k -> k_wl k = None -> k_permit k = false -> recovers k.
Proof.
  intros Hk Hw Hp. destruct (clear_readers k Hk) as (es&Hk'&Hr&Et&Ew&Epe&_).
  set (k' := (kgo k es).1) in *.
  assert (recovers k').
  { destruct Hk' as [H1 H2 H3 H4]. rewrite <- Epe in Hp. destruct (ti_taken _ _ _ _ _ _ H1 Hp) as (r&q&Hq&Hne).
    destruct q; try done.
    - eapply rec_lock; eauto. congruence.
    - by eapply rec_top.
    - by eapply rec_net.
    - by eapply rec_auth.
    - by eapply rec_sleep.
    - pose proof (ti_holds _ _ _ _ _ _ H1 _ _ Hq) as Hh. rewrite Ew, Hw in Hh. by assert (None = Some r) by (apply Hh; done). }
  destruct H as [es' H]. exists (es ++ es'). by rewrite kgo_app.
Qed.

Lemma rec_idle k : ready k -> k_wl k = None -> k_permit k = true -> k_slot k = None -> recovers k.
Proof.
  intros [H1 H2 H3 H4] Hw Hp Hs. set (t := fresh (dom (k_thr k) : gset N)).
  assert (Ht : k_thr k !! t = None) by (apply not_elem_of_dom, is_fresh).
  apply (recovers_step k (EStart t KSend)). set (k1 := (kstep k (EStart t KSend)).1).
  assert (E1 : k1 = w_thr k t (Some (PGet KSend))) by (unfold k1; cbn [kstep]; by rewrite Ht).
  apply (recovers_step k1 (EStep t true)). set (k2 := (kstep k1 (EStep t true)).1).
  assert (R1 : tk k1 /\ rinv k1) by (split; [by apply kstep_tk|by apply rinv_step]).
  assert (R2 : tk k2 /\ rinv k2) by (split; [apply kstep_tk|apply rinv_step]; tauto).
  assert (E2 : k2 = (reconnect_if_needed k1 t KSend).1).
  { unfold k2. rewrite (thread_step k1 t (PGet KSend)) by (rewrite E1; cbn; by rewrite pa_lookup, decide_True).
    cbn [tstep]. unfold get. rewrite E1. cbn. by rewrite Hw. }
  unfold reconnect_if_needed in E2. rewrite E1 in E2. cbn in E2. rewrite Hs, H3, Hp in E2. cbn in E2.
  apply rec_holder; [split; try tauto; rewrite E2; done|rewrite E2; done|rewrite E2; done].
Qed.

Lemma rec_rel k r : ready k -> k_tasks k !! r = Some QRel -> recovers k.
Proof.
  intros [H1 H2 H3 H4] Hr. destruct (k_slot k) as [c|] eqn:Es; [by exists []; cbn; rewrite Es|].
  apply (recovers_step k (ETask r true)). set (k1 := (kstep k (ETask r true)).1).
  assert (R1 : tk k1 /\ rinv k1) by (split; [by apply kstep_tk|by apply rinv_step]).
  assert (E1 : k1 = w_wl (w_task k r None) None) by (unfold k1; by rewrite (task_step _ _ _ Hr)).
  assert (Hk1 : ready k1) by (split; try tauto; rewrite E1; done).
  destruct (k_permit k1) eqn:Ep; [apply rec_idle; auto; rewrite E1; done|apply rec_holder; auto; rewrite E1; done].
Qed.

Lemma ready_recovers k : ready k -> recovers k.
Proof.
  intros Hk. destruct (k_slot k) as [c|] eqn:Es; [by exists []; cbn; rewrite Es|].
  pose proof Hk as [H1 H2 H3 H4]. destruct (k_wl k) as [r|] eqn:Ew.
  - destruct (ti_held _ _ _ _ _ _ H1 r Ew) as (q&Hq&Hn). destruct q; try done.
    + by eapply rec_top.
    + by eapply rec_net.
    + by eapply rec_auth.
    + by eapply rec_sleep.
    + apply (recovers_step k (ETask r true)). set (k1 := (kstep k (ETask r true)).1).
      assert (R1 : tk k1 /\ rinv k1) by (split; [by apply kstep_tk|by apply rinv_step]).
      assert (E1 : k1 = w_permit (w_task k r (Some QRel)) true) by (unfold k1; by rewrite (task_step _ _ _ Hq)).
      apply (rec_rel k1 r); [split; try tauto; rewrite E1; done|]. rewrite E1. cbn. by rewrite pa_lookup, decide_True.
    + by eapply rec_rel.
  - destruct (k_permit k) eqn:Ep; [by apply rec_idle|by apply rec_holder].
Qed.

Lemma run_rinv ts es : rinv (krun ts es).1.
Proof.
  induction es as [|e es IH] using rev_ind; [by intros t Ht; cbn in Ht; set_solver|].
  rewrite krun_snoc. by apply rinv_step.
Qed.

Lemma run_recovers ts es :
  k_closed (krun ts es).1 = false -> k_subl (krun ts es).1 = None ->
  exists es', k_slot (krun ts (es ++ es')).1 <> None.
Proof.
  intros Hc Hs. destruct (ready_recovers (krun ts es).1) as [es' H].
  - split; [apply krun_tk|apply run_rinv|done|done].
  - exists es'. unfold krun in *. by rewrite kgo_app.
Qed.

(** * Redundant requests *)
Lemma fresh_none s l : (forall x, x ∈ l -> x ∈ s) -> fresh_topics s l = [].
Proof.
  intros H. unfold fresh_topics. destruct (filter _ l) as [|x l'] eqn:E; [done|].
  assert (Hx : x ∈ filter (fun x => x ∉ s) l) by (rewrite E; left). apply elem_of_list_filter in Hx as [? ?]. naive_solver.
Qed.
Lemma known_none s l : (forall x, x ∈ l -> x ∉ s) -> known_topics s l = [].
Proof.
  intros H. unfold known_topics. destruct (filter _ l) as [|x l'] eqn:E; [done|].
  assert (Hx : x ∈ filter (fun x => x ∈ s) l) by (rewrite E; left). apply elem_of_list_filter in Hx as [? ?]. naive_solver.
Qed.

Lemma used_sent k t o c qs q s :
  k_thr k !! t = Some (PUse o c) -> k_sent k !! c = Some qs -> used k o c = push_req k c q s ->
  k_sent (kstep k (EStep t true)).1 !! c = Some (qs ++ [q]).
Proof.
  intros Ht Hq E. rewrite (thread_step _ _ _ Ht). cbn [tstep]. rewrite E. unfold ret. cbn [fst].
  assert (Hu : forall x, k_sent (unlock x t) = k_sent x) by (intros x; unfold unlock; by case_decide).
  rewrite Hu. cbn. by rewrite lookup_insert, Hq.
Qed.

Lemma redundant valid ts es t o l c :
  let k := (krun ts es).1 in
  k_thr k !! t = Some (PUse o c) -> k_slot k = Some c ->
  (o = KSub l /\ forall x, x ∈ l -> x ∈ wanted (list_to_set ts) (krun ts es).2)
   \/ (o = KUnsub l /\ forall x, x ∈ l -> x ∉ wanted (list_to_set ts) (krun ts es).2) ->
  exists qs, k_sent (krun ts (es ++ [EStep t true])).1 !! c = Some qs /\ b_topics valid qs = None.
Proof.
  intros k Ht Hc Ho. rewrite <- run_wanted in Ho. fold k in Ho.
  destruct (h_sent _ _ _ _ _ _ _ _ _ (krun_hk valid ts es) _ Hc) as (l0&qs&Hs&_).
  rewrite krun_snoc. cbn [fst]. fold k in Hs. fold k.
  destruct Ho as [[-> Hl]|[-> Hl]].
  - exists ((RSub l0 :: qs) ++ [RSub []]). split.
    + eapply used_sent; eauto. cbn [used]. by rewrite fresh_none.
    + rewrite b_topics_app. by destruct (b_topics valid (RSub l0 :: qs)).
  - exists ((RSub l0 :: qs) ++ [RUnsub []]). split.
    + eapply used_sent; eauto. cbn [used]. by rewrite known_none.
    + rewrite b_topics_app. by destruct (b_topics valid (RSub l0 :: qs)).
Qed.

Lemma effective valid ts es t o l c qs S x :
  let k := (krun ts es).1 in
  k_thr k !! t = Some (PUse o c) -> k_sent k !! c = Some qs -> b_topics valid qs = Some S ->
  x ∈ l -> valid x = true ->
  (o = KSub l /\ x ∉ wanted (list_to_set ts) (krun ts es).2)
   \/ (o = KUnsub l /\ x ∈ wanted (list_to_set ts) (krun ts es).2) ->
  exists qs' S', k_sent (krun ts (es ++ [EStep t true])).1 !! c = Some qs' /\ b_topics valid qs' = Some S'.
Proof.
  intros k Ht Hs HS Hx Hv Ho. rewrite <- run_wanted in Ho. fold k in Ho. rewrite krun_snoc. cbn [fst]. fold k.
  assert (Hq : exists l0 qs0, qs = RSub l0 :: qs0) by (destruct qs as [|[] ?]; try done; eauto).
  destruct Hq as (l0&qs0&->).
  assert (Hok : forall m, x ∈ m -> prune valid m = ((prune valid m).1, true)).
  { intros m Hm. destruct (prune valid m) as [m' ok] eqn:E. cbn. f_equal.
    assert (H : snd (prune valid m) = true) by (apply prune_ok; exists x; split; [by apply elem_of_list_In|done]).
    by rewrite E in H. }
  destruct Ho as [[-> Hn]|[-> Hn]].
  - eexists _, _. split; [eapply used_sent; eauto; done|]. rewrite b_topics_app, HS.
    unfold b_request. rewrite Hok; [done|]. unfold fresh_topics. by apply elem_of_list_filter.
  - eexists _, _. split; [eapply used_sent; eauto; done|]. rewrite b_topics_app, HS.
    unfold b_request. rewrite Hok; [done|]. unfold known_topics. by apply elem_of_list_filter.
Qed.
