(** Two states the client never leaves. *)
From stdpp Require Import gmap list.
From Coq Require Import NArith Lia.
From Verif Require Import TopicModel TopicProofs ClientModel ClientSpec ClientProofs ClientSubs ClientClose ClientMore.

(** Nobody is about to replace the handle of the reconnection task. *)
Definition settled (p : pc) : Prop :=
  match p with PStore _ _ | PClose1 | PClose2 => False | _ => True end.
Definition calm (k : client) : Prop := forall t p, k_thr k !! t = Some p -> settled p.

Lemma calm_move k t p : calm k -> (forall q, p = Some q -> settled q) -> calm (w_thr k t p).
Proof. intros H Hp t' q. cbn. rewrite pa_lookup. case_decide; intros; simplify_eq; eauto. Qed.
Lemma calm_unlock k t : calm k -> calm (unlock k t).
Proof. unfold unlock. by case_decide. Qed.
Lemma calm_no_conn k t o : calm k -> calm (no_conn k t o).1.
Proof.
  intros H. destruct o; cbn [no_conn]; unfold ret; cbn [fst]; try (by apply calm_unlock, calm_move).
  apply calm_move; [done|]. by intros ? [= <-].
Qed.

Lemma calm_step k e r : calm k -> k_wl k = Some r -> (forall t, e <> EStart t KClose) -> calm (kstep k e).1.
Proof.
  intros H Hw He. destruct e as [t o|t b|t|r' b|r']; cbn [kstep].
  - destruct (k_thr k !! t); [done|]. apply calm_move; [done|]. intros ? [= <-]. destruct o; try done. by destruct (He t).
  - destruct (k_thr k !! t) as [p|] eqn:Ht; [|done]. pose proof (H _ _ Ht) as Hp. destruct p; try done; cbn [tstep].
    + case_decide; [|done]. apply (calm_move k t (Some (PGet o))); [done|]. by intros ? [= <-].
    + destruct (k_closed k); unfold ret; cbn [fst]; [by apply calm_unlock, calm_move|].
      apply calm_move; [done|]. by intros ? [= <-].
    + pose proof (calm_no_conn k t o H). unfold get. rewrite Hw. destruct o; auto.
    + destruct b; [unfold ret; cbn [fst]; apply calm_unlock, calm_move; [by destruct o|done]|].
      apply calm_move; [done|]. by intros ? [= <-].
    + destruct (_ && _); unfold ret; cbn [fst]; [|by apply calm_unlock, calm_move].
      apply calm_move; [done|]. by intros ? [= <-].
    + destruct (no_readers k); [|done]. unfold ret; cbn [fst]. by apply calm_unlock, calm_move.
    + destruct (_ || _); [|done]. unfold ret; cbn [fst]. by apply calm_unlock, calm_move.
    + destruct (no_readers k); [|done]. unfold ret; cbn [fst]. by apply calm_unlock, calm_move.
  - destruct (k_thr k !! t) as [p|]; [|done]. cbn [fst].
    assert (calm (unlock (w_thr k t None) t)) by by apply calm_unlock, calm_move.
    destruct p as [ | |[]| | | | | | | | ]; done.
  - destruct (k_tasks k !! r') as [q|]; [|done].
    destruct q; cbn [qstep]; repeat (case_decide || case_match); exact H.
  - destruct (k_tasks k !! r') as [q|]; [|done]. case_decide; [|done]. destruct q; exact H.
Qed.

(** What threads cannot change while a reconnection task holds the write lock. *)
Definition under (k : client) := (k_slot k, k_wl k, k_tasks k, k_abort k, k_closed k, k_permit k).
Lemma unlock_under k t : under (unlock k t) = under k.
Proof. unfold unlock. by case_decide. Qed.
Lemma no_conn_under k t o : under (no_conn k t o).1 = under k.
Proof. destruct o; cbn [no_conn]; unfold ret; cbn [fst]; by rewrite ?unlock_under. Qed.
Lemma wl_no_readers k r : k_wl k = Some r -> no_readers k = false.
Proof. intros H. unfold no_readers. apply bool_decide_eq_false_2. rewrite H. by intros [? _]. Qed.

Lemma tstep_under k t p b r :
  k_wl k = Some r -> settled p -> under (tstep k t p b).1 = under k.
Proof.
  intros Hw Hp. pose proof (wl_no_readers _ _ Hw) as Hn. destruct p; try done; cbn [tstep].
  - by case_decide.
  - destruct (k_closed k); [|done]. unfold ret; cbn [fst]. by rewrite unlock_under.
  - unfold get. rewrite Hw. destruct o; try apply no_conn_under. done.
  - destruct b; [|done]. unfold ret; cbn [fst]. rewrite unlock_under. by destruct o.
  - destruct (_ && _); [done|]. unfold ret; cbn [fst]. by rewrite unlock_under.
  - by rewrite Hn.
  - destruct (_ || _); [|done]. unfold ret; cbn [fst]. by rewrite unlock_under.
  - by rewrite Hn.
Qed.
Lemma tdrop_under k t p : under (tdrop k t p) = under k.
Proof. destruct p as [ | |[]| | | | | | | | ]; cbn [tdrop]; by rewrite ?unlock_under. Qed.

(** Threads other than [t] do not move [t]. *)
Lemma unlock_thr k t : k_thr (unlock k t) = k_thr k.
Proof. unfold unlock. by case_decide. Qed.
Lemma no_conn_thr k t t' o : t <> t' -> k_thr (no_conn k t' o).1 !! t = k_thr k !! t.
Proof.
  intros Hn. destruct o; cbn [no_conn]; unfold ret; cbn [fst]; rewrite ?unlock_thr; cbn; rewrite pa_lookup, decide_False; auto.
Qed.
Lemma tstep_thr k t t' p b : t <> t' -> k_thr (tstep k t' p b).1 !! t = k_thr k !! t.
Proof.
  intros Hn. assert (Hm : forall x (q : option pc), k_thr x = k_thr k -> k_thr (w_thr x t' q) !! t = k_thr k !! t).
  { intros x q E. cbn. rewrite pa_lookup, decide_False, E; auto. }
  assert (Hr : k_thr (reconnect_if_needed k t' (match p with PGet o => o | _ => KSend end)).1 !! t = k_thr k !! t).
  { set (o := match p with PGet o => o | _ => KSend end). unfold reconnect_if_needed. destruct (k_slot k).
    - assert (k_thr (w_thr k t' (Some (PUse o n))) !! t = k_thr k !! t) by by apply Hm. destruct o; auto.
      unfold ret; cbn [fst]. rewrite unlock_thr. by apply Hm.
    - destruct (k_closed k); [by apply no_conn_thr|]. destruct (k_permit k); [|by apply no_conn_thr].
      cbn. rewrite ins_lookup, decide_False; auto. }
  destruct p; cbn [tstep].
  - case_decide; [|done]. by apply (Hm k).
  - destruct (k_closed k); unfold ret; cbn [fst]; rewrite ?unlock_thr; by apply Hm.
  - pose proof (no_conn_thr k t t' o Hn). unfold get. destruct (k_wl k), o, b; auto.
  - rewrite no_conn_thr by done. done.
  - destruct b; unfold ret; cbn [fst]; rewrite ?unlock_thr; apply Hm; by destruct o.
  - destruct (_ && _); unfold ret; cbn [fst]; rewrite ?unlock_thr; by apply Hm.
  - destruct (no_readers k); [|done]. unfold ret; cbn [fst]; rewrite ?unlock_thr; by apply (Hm (w_slot k None)).
  - destruct (_ || _); [|done]. unfold ret; cbn [fst]; rewrite ?unlock_thr; by apply Hm.
  - by apply (Hm (w_closed k)).
  - by apply (Hm (w_handle k None)).
  - destruct (no_readers k); [|done]. unfold ret; cbn [fst]; rewrite ?unlock_thr; by apply (Hm (w_slot k None)).
Qed.
Lemma tdrop_thr k t t' p : t <> t' -> k_thr (tdrop k t' p) !! t = k_thr k !! t.
Proof.
  intros Hn. assert (k_thr (unlock (w_thr k t' None) t') !! t = k_thr k !! t).
  { rewrite unlock_thr. cbn. rewrite pa_lookup, decide_False; auto. }
  destruct p as [ | |[]| | | | | | | | ]; done.
Qed.
Lemma qstep_thr k r q b : k_thr (qstep k r q b).1 = k_thr k.
Proof. destruct q; cbn [qstep]; repeat (case_decide || case_match); done. Qed.

(** * [close] waits for a reconnection task that never ends *)
Record hang (k : client) (t r : N) : Prop := {
  hg_tk : tk k; hg_calm : calm k; hg_t : k_thr k !! t = Some PClose3;
  hg_wl : k_wl k = Some r; hg_closed : k_closed k = true; hg_abort : r ∉ k_abort k;
  hg_task : k_tasks k !! r = Some QTop \/ k_tasks k !! r = Some QSleep;
}.

Lemma hang_same k k' t r : hang k t r -> tk k' -> calm k' -> k_thr k' !! t = Some PClose3 -> under k' = under k -> hang k' t r.
Proof. intros [] ? ? ? [= E1 E2 E3 E4 E5 E6]. split; auto; congruence. Qed.

Lemma hang_step k e t r : hang k t r -> bystanders t e -> hang (kstep k e).1 t r.
Proof.
  intros H He. pose proof H as []. pose proof (kstep_tk k e hg_tk0) as Ht'.
  assert (Hc' : calm (kstep k e).1).
  { eapply calm_step; eauto. intros t' ->. done. }
  destruct e as [t' o|t' b|t'|r' b|r']; cbn [kstep] in *.
  - destruct (k_thr k !! t') eqn:E; [done|]. eapply hang_same; eauto. cbn. rewrite pa_lookup, decide_False; [done|].
    intros ->. congruence.
  - destruct (k_thr k !! t') as [p|] eqn:E; [|done]. eapply hang_same; eauto.
    + destruct (decide (t = t')) as [<-|Hn].
      * rewrite hg_t0 in E. injection E as <-. cbn [tstep]. by rewrite (wl_no_readers _ _ hg_wl0).
      * by rewrite tstep_thr.
    + eapply tstep_under; eauto.
  - destruct (k_thr k !! t') as [p|] eqn:E; [|done]. eapply hang_same; eauto; cbn [fst].
    + rewrite tdrop_thr; auto.
    + apply tdrop_under.
  - destruct (k_tasks k !! r') as [q|] eqn:E; [|done]. destruct (decide (r' = r)) as [->|Hn].
    + rewrite E in hg_task0. destruct hg_task0 as [[= ->]|[= ->]]; cbn [qstep] in *.
      * rewrite hg_closed0 in *. split; try done. right. cbn. by rewrite pa_lookup, decide_True.
      * split; try done. left. cbn. by rewrite pa_lookup, decide_True.
    + assert (q = QLock) as ->.
      { pose proof (ti_holds _ _ _ _ _ _ hg_tk0 _ _ E) as Hh. destruct q; auto; exfalso; apply Hn;
          assert (k_wl k = Some r') by (apply Hh; done); congruence. }
      cbn [qstep]. by rewrite (wl_no_readers _ _ hg_wl0).
  - destruct (k_tasks k !! r') as [q|] eqn:E; [|done]. case_decide as Ha; [|done].
    assert (Hn : r' <> r) by (intros ->; done).
    assert (q = QLock) as ->.
    { pose proof (ti_holds _ _ _ _ _ _ hg_tk0 _ _ E) as Hh. destruct q; auto; exfalso; apply Hn;
        assert (k_wl k = Some r') by (apply Hh; done); congruence. }
    split; try done. cbn. rewrite pa_lookup, decide_False; auto.
Qed.

Lemma hang_go k es t r : hang k t r -> Forall (bystanders t) es -> hang (kgo k es).1 t r.
Proof.
  revert k. induction es as [|e es IH]; intros k H Hes; [done|]. inversion_clear Hes. rewrite kgo_cons. cbn [fst].
  apply IH; [by apply hang_step|done].
Qed.

(** * A subscription call and a reconnection task wait for each other *)
Record knot (k : client) (t r : N) : Prop := {
  kn_tk : tk k; kn_calm : calm k; kn_t : exists o c, k_thr k !! t = Some (PTake o c);
  kn_subl : k_subl k = Some t; kn_slot : k_slot k = None;
  kn_wl : k_wl k = Some r; kn_abort : r ∉ k_abort k;
  kn_task : k_tasks k !! r = Some QTop \/ k_tasks k !! r = Some QNet \/ k_tasks k !! r = Some QSleep;
}.

Lemma knot_same k k' t r : knot k t r -> tk k' -> calm k' -> k_thr k' !! t = k_thr k !! t -> k_subl k' = Some t ->
  under k' = under k -> knot k' t r.
Proof.
  intros [] ? ? E ? [= E1 E2 E3 E4 E5 E6]. destruct kn_t0 as (o&c&?). split; auto; try congruence.
  - exists o, c. congruence.
Qed.

Lemma unlock_subl k t t' : t <> t' -> k_subl k = Some t -> k_subl (unlock k t') = Some t.
Proof. intros Hn H. unfold unlock. case_decide; [congruence|done]. Qed.
Lemma no_conn_subl k t t' o : t <> t' -> k_subl k = Some t -> k_subl (no_conn k t' o).1 = Some t.
Proof. intros Hn H. destruct o; cbn [no_conn]; unfold ret; cbn [fst]; try done; by apply unlock_subl. Qed.
Lemma tstep_subl k t t' p b r : t <> t' -> k_wl k = Some r -> settled p -> k_subl k = Some t -> k_subl (tstep k t' p b).1 = Some t.
Proof.
  intros Hn Hw Hp H. pose proof (wl_no_readers _ _ Hw) as Hnr. destruct p; try done; cbn [tstep].
  - case_decide as Hd; [|done]. destruct Hd. congruence.
  - destruct (k_closed k); [|done]. unfold ret; cbn [fst]. by apply unlock_subl.
  - pose proof (no_conn_subl k t t' o Hn H). unfold get. rewrite Hw. destruct o; auto.
  - destruct b; [|done]. unfold ret; cbn [fst]. apply unlock_subl; [done|]. by destruct o.
  - destruct (_ && _); [done|]. unfold ret; cbn [fst]. by apply unlock_subl.
  - by rewrite Hnr.
  - destruct (_ || _); [|done]. unfold ret; cbn [fst]. by apply unlock_subl.
  - by rewrite Hnr.
Qed.
Lemma tdrop_subl k t t' p : t <> t' -> k_subl k = Some t -> k_subl (tdrop k t' p) = Some t.
Proof.
  intros Hn H. assert (k_subl (unlock (w_thr k t' None) t') = Some t) by by apply unlock_subl.
  destruct p as [ | |[]| | | | | | | | ]; done.
Qed.

Lemma knot_step k e t r : knot k t r -> bystanders t e ->
  knot (kstep k e).1 t r /\ (forall r' c, ~ In (OConn r' c) (kstep k e).2).
Proof.
  intros H He. pose proof H as []. pose proof (kstep_tk k e kn_tk0) as Ht'.
  assert (Hc' : calm (kstep k e).1).
  { eapply calm_step; eauto. intros t' ->. done. }
  destruct e as [t' o|t' b|t'|r' b|r']; cbn [kstep] in *.
  - destruct (k_thr k !! t') eqn:E; [by split; [|intros ? ? []]|]. split; [|by intros ? ? [?|[]]].
    eapply knot_same; eauto. cbn. rewrite pa_lookup, decide_False; [done|].
    intros ->. destruct kn_t0 as (?&?&?). congruence.
  - destruct (k_thr k !! t') as [p|] eqn:E; [|by split; [|intros ? ? []]].
    destruct (decide (t = t')) as [<-|Hn].
    + destruct kn_t0 as (o&c&Et). rewrite Et in E. injection E as <-. cbn [tstep].
      rewrite (wl_no_readers _ _ kn_wl0). by split; [|intros ? ? []].
    + split.
      * eapply knot_same; eauto; [by apply tstep_thr|eapply tstep_subl; eauto|eapply tstep_under; eauto].
      * intros r' c. destruct p; cbn [tstep].
        -- case_decide; cbn; tauto.
        -- destruct (k_closed k); cbn; [|tauto]. by intros [?|[]].
        -- intros Hx. destruct (get_outs _ _ _ _ _ Hx) as [?|[? ?]]; done.
        -- intros Hx. pose proof (no_conn_outs _ _ _ _ Hx). done.
        -- destruct b; cbn; [by intros [?|[?|[]]]|by intros [?|[]]].
        -- destruct (_ && _); cbn; [tauto|by intros [?|[]]].
        -- destruct (no_readers k); [|tauto]. cbn. intros [?|[?|[]]]; simplify_eq.
        -- destruct (_ || _); [|tauto]. cbn. by intros [?|[]].
        -- tauto.
        -- tauto.
        -- destruct (no_readers k); [|tauto]. cbn. by intros [?|[]].
  - destruct (k_thr k !! t') as [p|] eqn:E; [|by split; [|intros ? ? []]]. split; [|by intros ? ? []].
    cbn in He. eapply knot_same; eauto; cbn [fst]; [apply tdrop_thr|apply tdrop_subl|apply tdrop_under]; auto.
  - destruct (k_tasks k !! r') as [q|] eqn:E; [|by split; [|intros ? ? []]]. destruct (decide (r' = r)) as [->|Hn].
    + rewrite E in kn_task0. destruct kn_task0 as [[= ->]|[[= ->]|[= ->]]]; cbn [qstep] in *.
      * destruct (k_closed k); (split; [|by intros ? ? [?|[]]]) || (split; [|by intros ? ? []]);
          split; try done; cbn; rewrite pa_lookup, decide_True; auto.
      * destruct b.
        -- rewrite decide_False in * by congruence. by split; [|intros ? ? []].
        -- split; [|by intros ? ? []]. split; try done; cbn; rewrite pa_lookup, decide_True; auto.
      * split; [|by intros ? ? []]. split; try done; cbn; rewrite pa_lookup, decide_True; auto.
    + assert (q = QLock) as ->.
      { pose proof (ti_holds _ _ _ _ _ _ kn_tk0 _ _ E) as Hh. destruct q; auto; exfalso; apply Hn;
          assert (k_wl k = Some r') by (apply Hh; done); congruence. }
      cbn [qstep]. rewrite (wl_no_readers _ _ kn_wl0). by split; [|intros ? ? []].
  - destruct (k_tasks k !! r') as [q|] eqn:E; [|by split; [|intros ? ? []]].
    case_decide as Ha; [|by split; [|intros ? ? []]]. split; [|by intros ? ? []].
    assert (Hn : r' <> r) by (intros ->; done).
    assert (q = QLock) as ->.
    { pose proof (ti_holds _ _ _ _ _ _ kn_tk0 _ _ E) as Hh. destruct q; auto; exfalso; apply Hn;
        assert (k_wl k = Some r') by (apply Hh; done); congruence. }
    split; try done. cbn. rewrite pa_lookup, decide_False; auto.
Qed.

Lemma knot_go k es t r : knot k t r -> Forall (bystanders t) es ->
  knot (kgo k es).1 t r /\ (forall r' c, ~ In (OConn r' c) (kgo k es).2).
Proof.
  revert k. induction es as [|e es IH]; intros k H Hes; [by split; [|intros ? ? []]|]. inversion_clear Hes. rewrite kgo_cons. cbn [fst snd].
  destruct (knot_step k e t r H H0) as [H2 H3]. destruct (IH _ H2 H1) as [H4 H5]. split; [done|].
  intros r' c [Hx|Hx]%in_app_or; [by eapply H3|by eapply H5].
Qed.
