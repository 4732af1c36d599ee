(** Proofs about clients that were dropped (HandleModel.v). *)
From stdpp Require Import gmap list.
From Coq Require Import NArith Lia.
From Verif Require Import ClientModel ClientSpec ClientProofs ClientSubs ClientClose ClientStuck HandleModel HandleSpec.

Local Instance qc_eq_dec : EqDecision qc.
Proof. solve_decision. Defined.

Lemma a_go_app s es1 es2 :
  a_go s (es1 ++ es2) = ((a_go (a_go s es1).1 es2).1, (a_go s es1).2 ++ (a_go (a_go s es1).1 es2).2).
Proof.
  revert s. induction es1 as [|e es1 IH]; intros s; cbn [a_go app].
  - cbn [fst snd]. rewrite app_nil_l. by destruct (a_go s es2).
  - destruct (a_step s e) as [s' o]. rewrite IH. destruct (a_go s' es1) as [s'' o']. cbn [fst snd].
    destruct (a_go s'' es2). cbn [fst snd]. by rewrite app_assoc.
Qed.
Lemma a_go_cons s e es : a_go s (e :: es) = ((a_go (a_step s e).1 es).1, (a_step s e).2 ++ (a_go (a_step s e).1 es).2).
Proof. cbn [a_go]. destruct (a_step s e) as [s' o]. cbn [fst snd]. by destruct (a_go s' es). Qed.

(** ** What is reachable *)
Record reach (ts : list N) (s : held) (outs : list cout) : Prop := {
  rc_run : a_freed s = false -> exists es, krun ts es = (a_client s, outs);
  rc_freed : a_freed s = true -> a_handles s = 0%N /\ k_slot (a_client s) = None;
  rc_idle : a_handles s = 0%N -> k_thr (a_client s) = ∅;
  rc_tasks : a_handles s = 0%N -> a_freed s = false -> k_tasks (a_client s) <> ∅;
}.

Definition starts (e : cev) : Prop := match e with EStart _ _ => True | _ => False end.

Lemma qabort_thr k r q : k_thr (qabort k r q) = k_thr k.
Proof. by destruct q. Qed.
Lemma idle_step k e : k_thr k = ∅ -> ~ starts e -> k_thr (kstep k e).1 = ∅.
Proof.
  intros H He. destruct e as [t o|t b|t|r b|r]; cbn [kstep].
  - exfalso. apply He. exact I.
  - rewrite H, lookup_empty. done.
  - rewrite H, lookup_empty. done.
  - destruct (k_tasks k !! r) as [q|]; [|done]. rewrite qstep_thr. done.
  - destruct (k_tasks k !! r) as [q|]; [|done]. case_decide; [|done]. cbn [fst]. rewrite qabort_thr. done.
Qed.
Lemma idle_out k e : k_thr k = ∅ -> ~ starts e -> forall x, In x (kstep k e).2 -> exists r, e = ETask r true \/ e = ETask r false.
Proof.
  intros H He x. destruct e as [t o|t b|t|r b|r]; cbn [kstep].
  - exfalso. apply He. exact I.
  - rewrite H, lookup_empty. done.
  - rewrite H, lookup_empty. done.
  - intros _. exists r. destruct b; auto.
  - destruct (k_tasks k !! r) as [q|]; [|done]. case_decide; done.
Qed.

Lemma settle_reach ts k h outs :
  (exists es, krun ts es = (k, outs)) -> (h = 0%N -> k_thr k = ∅) -> reach ts (settle (Held k h false)) outs.
Proof.
  intros Hr Hi. unfold settle. cbn [a_handles a_client]. case_decide as Hd.
  - destruct Hd as [-> _]. split; cbn; try done.
  - split; cbn; try done. intros -> _ E. apply Hd. done.
Qed.

Lemma a_step_reach ts s outs e : reach ts s outs -> reach ts (a_step s e).1 (outs ++ (a_step s e).2).
Proof.
  intros H. unfold a_step. destruct (a_freed s) eqn:Ef; [cbn [fst snd]; rewrite app_nil_r; done|].
  destruct (rc_run _ _ _ H Ef) as [es Hes].
  destruct e as [| |e].
  - destruct (N.eqb_spec (a_handles s) 0) as [E|E]; cbn [fst snd]; rewrite app_nil_r; [done|].
    split; cbn; try done; [intros _; by exists es| |]; intros; lia.
  - destruct (N.eqb_spec (a_handles s) 0) as [E|E]; [cbn [fst snd]; rewrite app_nil_r; done|].
    case_decide as Hd; [cbn [fst snd]; rewrite app_nil_r; done|].
    cbn [fst snd]. rewrite app_nil_r. apply settle_reach; [by exists es|].
    intros E1. destruct (decide (k_thr (a_client s) = ∅)) as [?|Hn]; [done|]. exfalso. apply Hd. split; [lia|done].
  - assert (forall k o, kstep (a_client s) e = (k, o) -> (a_handles s = 0%N -> ~ starts e) ->
      reach ts (settle (Held k (a_handles s) false)) (outs ++ o)) as Hs.
    { intros k o E He. apply settle_reach.
      - exists (es ++ [e]). rewrite krun_snoc, Hes. cbn [fst snd]. rewrite E. done.
      - intros E0. pose proof (idle_step (a_client s) e (rc_idle _ _ _ H E0) (He E0)) as Hi. rewrite E in Hi. done. }
    destruct (kstep (a_client s) e) as [k o] eqn:E.
    destruct e; destruct (N.eqb_spec (a_handles s) 0) as [E0|E0]; cbn [fst snd];
      try (rewrite app_nil_r; done); apply (Hs _ _ eq_refl); auto; intros ?; done.
Qed.

Lemma a_go_reach ts s outs es : reach ts s outs -> reach ts (a_go s es).1 (outs ++ (a_go s es).2).
Proof.
  revert s outs. induction es as [|e es IH]; intros s outs H; [cbn [a_go fst snd]; rewrite app_nil_r; done|].
  rewrite a_go_cons. cbn [fst snd]. rewrite app_assoc. apply IH. by apply a_step_reach.
Qed.
Lemma a_run_reach ts es : reach ts (a_run ts es).1 (a_run ts es).2.
Proof.
  unfold a_run. change (a_go (a_new ts) es).2 with ([] ++ (a_go (a_new ts) es).2). apply a_go_reach.
  split; cbn; try done. intros _. exists []. done.
Qed.
Lemma reach_tk ts s outs : reach ts s outs -> a_freed s = false -> tk (a_client s).
Proof. intros H Hf. destruct (rc_run _ _ _ H Hf) as [es E]. pose proof (krun_tk ts es) as Ht. rewrite E in Ht. done. Qed.

(** ** Without handles *)
Lemma freed_stays s es : a_freed s = true -> a_go s es = (s, []).
Proof.
  intros H. induction es as [|e es IH]; [done|]. rewrite a_go_cons. unfold a_step. rewrite H. cbn [fst snd]. rewrite IH. done.
Qed.
Lemma dropped_step s e : a_handles s = 0%N -> a_freed s = false ->
  a_step s e = (s, []) \/ exists e', e = ADo e' /\ ~ starts e' /\ a_step s e = (settle (Held (kstep (a_client s) e').1 0 false), (kstep (a_client s) e').2).
Proof.
  intros H0 Hf. unfold a_step. rewrite Hf, H0. destruct e as [| |e]; [left; done|left; done|].
  destruct e; [left; done|right..]; eexists; (split; [reflexivity|]); (split; [cbn; tauto|]);
    match goal with |- context[kstep ?a ?b] => destruct (kstep a b) end; done.
Qed.
Lemma settle_handles k h f : a_handles (settle (Held k h f)) = h.
Proof. unfold settle. case_decide as Hd; [|done]. cbn in *. symmetry. apply Hd. Qed.
Lemma dropped_stays s es : a_handles s = 0%N -> a_handles (a_go s es).1 = 0%N.
Proof.
  revert s. induction es as [|e es IH]; intros s H; [done|]. rewrite a_go_cons. cbn [fst]. apply IH.
  destruct (a_freed s) eqn:Ef; [unfold a_step; rewrite Ef; done|].
  destruct (dropped_step s e H Ef) as [->|(e' & -> & _ & ->)]; [done|]. cbn [fst]. apply settle_handles.
Qed.

(** The task has connected: it has nothing more to do. *)
Definition spent (k : client) : Prop := forall r q, k_tasks k !! r = Some q -> q = QGot \/ q = QRel.

Lemma spent_task k r q : spent k -> (forall q', q = Some q' -> q' = QGot \/ q' = QRel) -> spent (w_task k r q).
Proof. intros H Hq r' q'. cbn. rewrite pa_lookup. case_decide; intros; simplify_eq; eauto. Qed.
Lemma spent_step k e : k_thr k = ∅ -> spent k -> ~ starts e -> spent (kstep k e).1 /\ (kstep k e).2 = [].
Proof.
  intros Hi H He. destruct e as [t o|t b|t|r b|r]; cbn [kstep].
  - exfalso. apply He. exact I.
  - rewrite Hi, lookup_empty. done.
  - rewrite Hi, lookup_empty. done.
  - destruct (k_tasks k !! r) as [q|] eqn:Hq; [|done]. destruct (H _ _ Hq) as [->| ->]; cbn [qstep fst snd]; (split; [|done]).
    + apply (spent_task k r (Some QRel) H). intros ? [= <-]. auto.
    + apply (spent_task k r None H). done.
  - destruct (k_tasks k !! r) as [q|] eqn:Hq; [|done]. case_decide; [|done]. cbn [fst snd]. split; [|done].
    destruct (H _ _ Hq) as [->| ->]; done.
Qed.
Lemma alone k r q : tk k -> k_tasks k !! r = Some q -> q <> QRel -> q <> QLock -> forall r' q', k_tasks k !! r' = Some q' -> r' = r.
Proof.
  intros T Hq H1 H2 r' q' Hq'. destruct (decide (q' = QRel)) as [->|Hn].
  - pose proof (ti_holds _ _ _ _ _ _ T _ _ Hq H2) as E1. assert (QRel <> QLock) as Hd by done.
    pose proof (ti_holds _ _ _ _ _ _ T _ _ Hq' Hd) as E2. congruence.
  - by eapply (ti_uniq _ _ _ _ _ _ T).
Qed.

Lemma conns_app l1 l2 : conns (l1 ++ l2) = conns l1 + conns l2.
Proof. unfold conns. rewrite List.filter_app, app_length. done. Qed.

Lemma conn_step k e : tk k -> k_thr k = ∅ -> ~ starts e ->
  conns (kstep k e).2 = 0 \/ conns (kstep k e).2 = 1 /\ spent (kstep k e).1.
Proof.
  intros T Hi He. destruct e as [t o|t b|t|r b|r]; cbn [kstep].
  - exfalso. apply He. exact I.
  - rewrite Hi, lookup_empty. auto.
  - rewrite Hi, lookup_empty. auto.
  - destruct (k_tasks k !! r) as [q|] eqn:Hq; [|auto]. destruct q; cbn [qstep].
    + destruct (no_readers k); auto.
    + destruct (k_closed k); auto.
    + destruct b; [|auto]. case_decide; auto.
    + destruct b; [|auto]. right. cbn [fst snd]. split; [done|]. intros r' q'. cbn. rewrite pa_lookup. case_decide as Hd; intros E; simplify_eq; [auto|].
      exfalso. apply Hd. symmetry. eapply (alone k r (QAuth l)); done.
    + auto.
    + auto.
    + auto.
  - destruct (k_tasks k !! r) as [q|] eqn:Hq; [|auto]. case_decide; auto.
Qed.

Lemma spent_go ts s outs es : reach ts s outs -> a_handles s = 0%N -> spent (a_client s) -> (a_go s es).2 = [].
Proof.
  revert s outs. induction es as [|e es IH]; intros s outs H H0 Hs; [done|].
  rewrite a_go_cons. cbn [snd]. destruct (a_freed s) eqn:Ef.
  { unfold a_step. rewrite Ef. cbn [fst snd]. rewrite freed_stays by done. done. }
  pose proof (a_step_reach ts s outs e H) as H'.
  destruct (dropped_step s e H0 Ef) as [E|(e' & -> & He & E)]; rewrite E in *; cbn [fst snd] in *.
  - eapply IH; eauto.
  - destruct (spent_step (a_client s) e' (rc_idle _ _ _ H H0) Hs He) as [H1 H2]. rewrite H2. rewrite app_nil_l.
    eapply IH; [exact H'|apply settle_handles|]. unfold settle. case_decide; [|done]. intros r q. cbn. apply H1.
Qed.
Lemma one_more ts s outs es : reach ts s outs -> a_handles s = 0%N -> conns (a_go s es).2 <= 1.
Proof.
  revert s outs. induction es as [|e es IH]; intros s outs H H0; [cbn; lia|].
  rewrite a_go_cons. cbn [snd]. rewrite conns_app. destruct (a_freed s) eqn:Ef.
  { unfold a_step. rewrite Ef. cbn [fst snd]. rewrite freed_stays by done. cbn. lia. }
  pose proof (a_step_reach ts s outs e H) as H'.
  destruct (dropped_step s e H0 Ef) as [E|(e' & -> & He & E)]; rewrite E in *; cbn [fst snd] in *.
  - change (conns []) with 0. rewrite Nat.add_0_l. eapply IH; eauto.
  - destruct (conn_step (a_client s) e' (reach_tk _ _ _ H Ef) (rc_idle _ _ _ H H0) He) as [Hc|[Hc Hs]]; rewrite Hc.
    + rewrite Nat.add_0_l. eapply IH; [exact H'|apply settle_handles].
    + rewrite (spent_go ts _ _ es H'); [cbn; lia|apply settle_handles|]. unfold settle. case_decide; [|done]. intros r q. cbn. apply Hs.
Qed.

(** A connection that is open without handles is closed as soon as the task ends. *)
Lemma task_done s r : a_freed s = false -> a_handles s = 0%N -> k_tasks (a_client s) !! r = Some QRel ->
  (forall r' q', k_tasks (a_client s) !! r' = Some q' -> r' = r) ->
  forall b, a_freed (a_step s (ADo (ETask r b))).1 = true.
Proof.
  intros Hf H0 Hq Hu b. unfold a_step. rewrite Hf, H0. cbn [kstep]. rewrite Hq. cbn [qstep fst]. unfold settle.
  rewrite decide_True; [done|]. cbn. split; [done|]. apply map_eq. intros r'. rewrite lookup_empty, pa_lookup.
  case_decide as Hd; [done|]. destruct (k_tasks (a_client s) !! r') as [q'|] eqn:E; [|done]. exfalso. apply Hd. symmetry. by eapply Hu.
Qed.
Lemma open_closes ts s outs c : reach ts s outs -> a_handles s = 0%N -> a_freed s = false -> k_slot (a_client s) = Some c ->
  exists r, forall b b', a_freed (a_go s [ADo (ETask r b); ADo (ETask r b')]).1 = true.
Proof.
  intros H H0 Hf Hs. pose proof (reach_tk _ _ _ H Hf) as T.
  destruct (map_choose _ (rc_tasks _ _ _ H H0 Hf)) as (r & q & Hq).
  assert (q = QGot \/ q = QRel) as Hc.
  { destruct (decide (q = QGot)) as [?|N1]; [auto|]. destruct (decide (q = QRel)) as [?|N2]; [auto|].
    pose proof (ti_slot _ _ _ _ _ _ T _ _ Hq N2 N1). congruence. }
  assert (forall r' q', k_tasks (a_client s) !! r' = Some q' -> r' = r) as Hu.
  { intros r' q' Hq'. assert (q' <> QLock) as Hl.
    { intros ->. assert (QLock <> QRel) as N1 by done. assert (QLock <> QGot) as N2 by done.
      pose proof (ti_slot _ _ _ _ _ _ T _ _ Hq' N1 N2). congruence. }
    assert (q <> QLock) as Hl' by (destruct Hc as [->| ->]; done).
    pose proof (ti_holds _ _ _ _ _ _ T _ _ Hq Hl'). pose proof (ti_holds _ _ _ _ _ _ T _ _ Hq' Hl). congruence. }
  exists r. intros b b'. rewrite a_go_cons. cbn [fst]. destruct Hc as [->| ->].
  - rewrite a_go_cons. cbn [a_go fst]. unfold a_step at 2. rewrite Hf, H0. cbn [kstep]. rewrite Hq. cbn [qstep fst]. unfold settle.
    rewrite decide_False; [|cbn; intros [_ E]; apply (f_equal (fun m => m !! r)) in E; rewrite pa_lookup, lookup_empty in E; case_decide; done].
    apply task_done; [done|done|cbn; rewrite pa_lookup; case_decide; done|].
    intros r' q'. cbn. rewrite pa_lookup. case_decide as Hd; [done|]. intros E. by eapply Hu.
  - pose proof (task_done s r Hf H0 Hq Hu b) as E. rewrite freed_stays by done. done.
Qed.

(** ** After [close] *)
Lemma shut_dropped ts s outs es : reach ts s outs -> a_handles s = 0%N -> shut (a_client s) ->
  (a_go s es).2 = [] /\ k_slot (a_client (a_go s es).1) = None.
Proof.
  revert s outs. induction es as [|e es IH]; intros s outs H H0 Hs; [split; [done|apply Hs]|].
  rewrite a_go_cons. cbn [fst snd]. destruct (a_freed s) eqn:Ef.
  { unfold a_step. rewrite Ef. cbn [fst snd]. rewrite freed_stays by done. split; [done|apply Hs]. }
  pose proof (a_step_reach ts s outs e H) as H'.
  destruct (dropped_step s e H0 Ef) as [E|(e' & -> & He & E)]; rewrite E in *; cbn [fst snd] in *.
  - eapply IH; eauto.
  - destruct (shut_step (a_client s) e' Hs) as [H1 H2].
    assert ((kstep (a_client s) e').2 = []) as E2.
    { pose proof (rc_idle _ _ _ H H0) as Hi. destruct e' as [t o|t b|t|r b|r]; cbn [kstep].
      - exfalso. apply He. exact I.
      - rewrite Hi, lookup_empty. done.
      - rewrite Hi, lookup_empty. done.
      - destruct (k_tasks (a_client s) !! r) as [q|] eqn:Hq; [|done].
        destruct (sh_tasks _ Hs _ _ Hq) as [->|[->| ->]]; cbn [qstep]; [destruct (no_readers _); done|rewrite (sh_closed _ Hs); done|done].
      - destruct (k_tasks (a_client s) !! r) as [q|]; [|done]. case_decide; done. }
    rewrite E2, app_nil_l. eapply IH; [exact H'|apply settle_handles|].
    unfold settle. case_decide; [|done]. destruct H1. split; cbn; auto.
Qed.

(** ** What may go on for ever *)
(** A task nobody will abort, and that has not connected. *)
Definition stuck (s : held) (r : N) : Prop :=
  a_freed s = false /\ a_handles s = 0%N /\ k_thr (a_client s) = ∅ /\ k_abort (a_client s) = ∅ /\
  exists q, k_tasks (a_client s) = {[r := q]} /\ q <> QGot /\ q <> QRel.
Lemma stuck_settle k r q : k_thr k = ∅ -> k_abort k = ∅ -> k_tasks k = {[r := q]} -> q <> QGot -> q <> QRel -> stuck (settle (Held k 0 false)) r.
Proof.
  intros H1 H2 H3 H4 H5. unfold settle. rewrite decide_False.
  - repeat split; try done. exists q. done.
  - cbn. intros [_ E]. rewrite H3 in E. apply (f_equal (fun m => m !! r)) in E. rewrite lookup_singleton, lookup_empty in E. done.
Qed.
Lemma stuck_step s r e : stuck s r -> stuck (a_step s e).1 r \/ conns (a_step s e).2 = 1 /\ k_closed (a_client s) = k_closed (a_client (a_step s e).1).
Proof.
  intros (Hf & H0 & Hi & Ha & q & Hq & N1 & N2).
  destruct (dropped_step s e H0 Hf) as [->|(e' & -> & He & ->)]; [left; repeat split; try done; by exists q|]. cbn [fst snd].
  assert (forall q', <[r := q']> (k_tasks (a_client s)) = {[r := q']}) as Hins by (intros q'; rewrite Hq; apply insert_singleton).
  assert (forall q', partial_alter (fun _ => Some q') r (k_tasks (a_client s)) = {[r := q']}) as Hins' by exact Hins.
  destruct e' as [t o|t b|t|r' b|r']; cbn [kstep].
  - exfalso. apply He. exact I.
  - rewrite Hi, lookup_empty. cbn [fst]. left. by eapply stuck_settle.
  - rewrite Hi, lookup_empty. cbn [fst]. left. by eapply stuck_settle.
  - destruct (decide (r' = r)) as [->|Hn]; [|rewrite Hq, lookup_singleton_ne by done; left; by eapply stuck_settle].
    rewrite Hq, lookup_singleton. destruct q; cbn [qstep]; try done.
    + destruct (no_readers _); left; cbn [fst]; [|by eapply stuck_settle]. eapply (stuck_settle _ r QTop); cbn; auto; done.
    + destruct (k_closed _); left; cbn [fst]; [eapply (stuck_settle _ r QSleep)|eapply (stuck_settle _ r QNet)]; cbn; auto; done.
    + destruct b; [case_decide|]; left; cbn [fst]; [eapply (stuck_settle _ r (QAuth _))|by eapply stuck_settle|eapply (stuck_settle _ r QSleep)]; cbn; auto; done.
    + destruct b; [right|left; cbn [fst]; eapply (stuck_settle _ r QSleep); cbn; auto; done].
      cbn [fst snd]. split; [done|]. unfold settle. case_decide; done.
    + left. cbn [fst]. eapply (stuck_settle _ r QTop); cbn; auto; done.
  - assert ((match k_tasks (a_client s) !! r' with
             | Some q => if decide (r' ∈ k_abort (a_client s)) then (qabort (a_client s) r' q, []) else (a_client s, [])
             | None => (a_client s, ([] : list cout)) end) = (a_client s, [])) as ->.
    { destruct (k_tasks _ !! r'); [|done]. rewrite decide_False; [done|]. rewrite Ha. set_solver. }
    left. by eapply stuck_settle.
Qed.
Lemma stuck_go s r es : stuck s r -> conns (a_go s es).2 = 0 -> stuck (a_go s es).1 r.
Proof.
  revert s. induction es as [|e es IH]; intros s Hs; [done|]. rewrite a_go_cons. cbn [fst snd]. rewrite conns_app. intros Hc.
  destruct (stuck_step s r e Hs) as [H|[H _]]; [|lia]. apply IH; [done|lia].
Qed.
Lemma conns_quiet l : l = [] -> conns l = 0.
Proof. intros ->. done. Qed.
