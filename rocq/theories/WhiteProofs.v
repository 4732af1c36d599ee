(** Lemmas on the whitelist task. *)
From stdpp Require Import gmap list.
From Coq Require Import NArith Lia.
From Verif Require Import IdModel VMapModel ConnModel ConnProofs TaskOrder WhiteModel WhiteSpec.

Section white.
Variable redis : bool.
Notation w_step := (w_step redis).
Notation w_run := (w_run redis).

Lemma w_run_app s es1 es2 : w_run s (es1 ++ es2) = w_run (w_run s es1) es2.
Proof. unfold WhiteModel.w_run. by rewrite fold_left_app. Qed.
Lemma w_run_snoc s es e : w_run s (es ++ [e]) = w_step (w_run s es) e.
Proof. by rewrite w_run_app. Qed.

(** * How long a round lasts *)
(** Steps to the end of the round. *)
Definition steps (s : white) : nat :=
  match w_task s with
  | WSleep => 0
  | WNext _ todo => 3 * S (length todo)
  | WCheck _ todo Asked => 3 * length todo + 2
  | WCheck _ todo (Result _) => 3 * length todo + 1
  end.
(** The round will find out about [u]. *)
Definition due (s : white) (u : bytes) : Prop :=
  match w_task s with
  | WSleep => False
  | WNext v todo => v = u \/ In u todo
  | WCheck v todo c => In u todo \/ (v = u /\ (c = Asked \/ c = Result (Some false)))
  end.
(** By when [u] is removed. *)
Definition by_when (D : N) (n : nat) (s : white) (B : N) : Prop := (w_since s + D * N.of_nat (steps s) + 60 + D + D * N.of_nat (3 * n) <= B)%N.
Definition by_now (D : N) (s : white) (B : N) : Prop := (w_since s + D * N.of_nat (steps s) <= B)%N.

Lemma steps_next s todo t : steps (White (w_list s) (w_conns s) (w_next todo) t (w_others s)) = 3 * length todo.
Proof. destruct todo; cbn; lia. Qed.
Lemma due_next s cs todo t u : In u todo -> due (White (w_list s) cs (w_next todo) t (w_others s)) u.
Proof. destruct todo as [|v todo]; [done|]. cbn. tauto. Qed.
Lemma steps_next' l cs todo t o : steps (White l cs (w_next todo) t o) = 3 * length todo.
Proof. destruct todo; cbn; lia. Qed.
Lemma due_next' l cs todo t u o : In u todo -> due (White l cs (w_next todo) t o) u.
Proof. destruct todo as [|v todo]; [done|]. cbn. tauto. Qed.

Definition soon (D : N) (n : nat) (u : bytes) (s : white) (B : N) : Prop :=
  (due s u /\ by_now D s B) \/ by_when D n s B.

(** The task's users come from a time when they were registered. *)
Definition fits (n : nat) (s : white) : Prop := steps s <= 3 * n.
Lemma fits_step n s te : size (users (w_conns s)) <= n -> fits n s -> fits n (w_step s te).
Proof.
  intros Hn Hf. unfold fits, steps in *. destruct te as [t []]; cbn; try done.
  - destruct (w_task s) eqn:E; try (by rewrite E). case_decide as H; [|by rewrite E]. destruct H as [_ H].
    apply Permutation_length in H. unfold c_all_users in H. change (length (elements (dom (users (w_conns s))))) with (size (dom (users (w_conns s)))) in H.
    rewrite size_dom in H. destruct order as [|u todo]; cbn in *; lia.
  - destruct (w_task s) eqn:E; try (by rewrite E). cbn. unfold chk_first. repeat case_match; cbn in *; lia.
  - destruct (w_task s) as [| |u todo []] eqn:E; try (by rewrite E). cbn. lia.
  - destruct (w_task s) as [| |u todo []] eqn:E; try (by rewrite E). cbn. destruct todo; cbn in *; lia.
  - destruct (w_others s !! m) as [[k []]|]; done.
Qed.
Lemma fits_run n s es : fits n s -> at_most redis n s es -> fits n (w_run s es).
Proof.
  induction es as [|e es IH] using rev_ind; intros Hf Hm; [done|]. rewrite w_run_snoc. apply fits_step.
  - apply (Hm es [e]). done.
  - apply IH; [done|]. intros es1 es2 ->. apply (Hm es1 (es2 ++ [e])). by rewrite app_assoc.
Qed.

Lemma soon_step D n u s t e B :
  (t <= w_since s + D + match w_task s with WSleep => 60 | _ => 0 end)%N -> size (users (w_conns s)) <= n ->
  revoked (w_list s) u -> e <> WFirst false -> e <> WSecond false -> registered s u -> registered (w_step s (t, e)) u ->
  soon D n u s B -> soon D n u (w_step s (t, e)) B.
Proof.
  intros Ht Hn Hl H1 H2 Hr Hr' Hs. unfold revoked, allowed in Hl. destruct (w_list s) as [ws|] eqn:El; [|tauto].
  unfold soon, by_now, by_when in *. destruct e; cbn [WhiteModel.w_step] in *; try done.
  - (* the next round *)
    destruct (w_task s) eqn:E; try done. case_decide as H; [|done]. destruct H as [Hw Hp]. left.
    assert (Hin : In u order).
    { apply elem_of_list_In. rewrite Hp. unfold c_all_users. apply elem_of_elements, elem_of_dom. exact Hr. }
    split; [by apply due_next'|]. rewrite steps_next'. cbn [w_since].
    assert (Hlen : length order <= n).
    { apply Permutation_length in Hp. unfold c_all_users in Hp. change (length (elements (dom (users (w_conns s))))) with (size (dom (users (w_conns s)))) in Hp.
      rewrite size_dom in Hp. lia. }
    assert (Hm : (D * N.of_nat (3 * length order) <= D * N.of_nat (3 * n))%N) by (apply N.mul_le_mono_l; lia).
    destruct Hs as [[Hd _]|Hs]; [unfold due in Hd; by rewrite E in Hd|]. unfold steps in Hs. rewrite E in Hs. cbn in Hs. lia.
  - destruct (w_task s) eqn:E; try done. destruct ok; [|done]. unfold chk_first, q_exists. rewrite El. unfold due, steps in *. rewrite E in Hs. cbn in *.
    destruct Hs as [[Hd Hs]|Hs]; [left|right]; [split; [|nia]|nia]. destruct Hd as [->|Hd]; [right; auto|left; auto].
  - destruct (w_task s) as [| |v todo []] eqn:E; try done. destruct ok; [|done]. unfold chk_second, q_member. rewrite El. unfold due, steps in *. rewrite E in Hs. cbn in *.
    destruct Hs as [[Hd Hs]|Hs]; [left|right]; [split; [|nia]|nia].
    destruct Hd as [Hd|[-> _]]; [left; auto|right]. split; [done|]. right. by rewrite bool_decide_eq_false_2.
  - destruct (w_task s) as [| |v todo [|r]] eqn:E; try done.
    destruct Hs as [[Hd Hs]|Hs]; [left|right].
    + unfold due in Hd. rewrite E in Hd. destruct Hd as [Hd|[-> [Hd|Hd]]].
      * split; [by apply due_next'|]. rewrite steps_next'. unfold steps in Hs. rewrite E in Hs. cbn in *. nia.
      * done.
      * injection Hd as ->. exfalso. cbn in Hr'. unfold registered in Hr'. cbn in Hr'. destruct Hr' as [x Hx]. by rewrite ru_users, lookup_delete in Hx.
    + rewrite steps_next'. unfold steps in Hs. rewrite E in Hs. cbn in *. nia.
  - destruct (w_others s !! m) as [[k []]|]; done.
Qed.

Lemma soon_run D n u s es B :
  in_time redis D s es -> at_most redis n s es -> answered es -> (forall es1 es2, es = es1 ++ es2 -> revoked (w_list (w_run s es1)) u) ->
  (forall es1 es2, es = es1 ++ es2 -> registered (w_run s es1) u) -> soon D n u s B -> soon D n u (w_run s es) B.
Proof.
  induction es as [|[t e] es IH] using rev_ind; intros Ht Hm Ha Hl Hr Hs; [done|].
  pose proof (Hr (es ++ [(t, e)]) []) as Hr2. rewrite app_nil_r in Hr2. specialize (Hr2 eq_refl). rewrite w_run_snoc in *.
  apply soon_step; [apply (Ht es t e []); done|apply (Hm es [(t, e)]); done|apply (Hl es [(t, e)]); done| | |apply (Hr es [(t, e)]); done|done|].
  - intros ->. apply (proj1 (Ha t)), in_app_iff. right. by left.
  - intros ->. apply (proj2 (Ha t)), in_app_iff. right. by left.
  - apply IH; [| | | | |done].
    + intros es1 t' e' es2 ->. apply (Ht es1 t' e' (es2 ++ [(t, e)])). by rewrite <- app_assoc.
    + intros es1 es2 ->. apply (Hm es1 (es2 ++ [(t, e)])). by rewrite app_assoc.
    + intros t'. destruct (Ha t') as [H1 H2]. split; intros H; [apply H1|apply H2]; apply in_app_iff; by left.
    + intros es1 es2 ->. apply (Hl es1 (es2 ++ [(t, e)])). by rewrite app_assoc.
    + intros es1 es2 ->. apply (Hr es1 (es2 ++ [(t, e)])). by rewrite app_assoc.
Qed.

Lemma since_run T s es : (w_since s <= T)%N -> Forall (fun te => (te.1 <= T)%N) es -> (w_since (w_run s es) <= T)%N.
Proof.
  intros Hs. induction es as [|[t e] es IH] using rev_ind; intros Hall; [done|]. rewrite w_run_snoc. apply Forall_app in Hall as [Hall Ht].
  apply Forall_cons in Ht as [Ht _]. cbn in Ht. specialize (IH Hall). destruct e; cbn [WhiteModel.w_step]; repeat case_match; done.
Qed.

(** * Where removals come from *)
Lemma step_task_check s te u todo c :
  w_task (w_step s te) = WCheck u todo c ->
  w_task s = WCheck u todo c
  \/ (exists t ok, te = (t, WFirst ok) /\ w_task s = WNext u todo /\ c = chk_first (w_list s) ok)
  \/ (exists t ok, te = (t, WSecond ok) /\ w_task s = WCheck u todo Asked /\ c = chk_second redis (w_list s) u ok).
Proof.
  intros H. destruct te as [t []]; cbn [WhiteModel.w_step] in H; try (by left).
  - destruct (w_task s) eqn:E; rewrite ?E in H; try (by left). case_decide; [|by rewrite E in H]. cbn in H. by destruct order.
  - destruct (w_task s) eqn:E; rewrite ?E in H; try (by left). cbn in H. injection H as -> -> <-. right. left. by exists t, ok.
  - destruct (w_task s) as [| |v todo' []] eqn:E; rewrite ?E in H; try (by left). cbn in H. injection H as -> -> <-. right. right. by exists t, ok.
  - destruct (w_task s) as [| |v todo' []] eqn:E; rewrite ?E in H; try (by left). cbn in H. by destruct todo'.
  - left. destruct (w_others s !! m) as [[k []]|]; done.
Qed.
Lemma asked_when s es u todo :
  (forall todo c, w_task s <> WCheck u todo c) -> w_task (w_run s es) = WCheck u todo Asked ->
  exists es1 t es2, es = es1 ++ (t, WFirst true) :: es2 /\ w_task (w_run s es1) = WNext u todo /\ w_list (w_run s es1) <> None.
Proof.
  intros H0. induction es as [|te es IH] using rev_ind; intros H; [by apply H0 in H|]. rewrite w_run_snoc in H.
  apply step_task_check in H as [H|[(t & ok & -> & H & Hc)|(t & ok & -> & H & Hc)]].
  - destruct (IH H) as (es1 & t & es2 & -> & H1). exists es1, t, (es2 ++ [te]). by rewrite <- app_assoc.
  - exists es, t, []. unfold chk_first, q_exists in Hc. destruct ok; [|done]. split; [done|]. split; [done|]. intros Hl. by rewrite Hl in Hc.
  - done.
Qed.
Lemma refused_when s es u todo :
  (forall todo c, w_task s <> WCheck u todo c) -> w_task (w_run s es) = WCheck u todo (Result (Some false)) ->
  exists es1 t1 es2 t2 es3, es = es1 ++ (t1, WFirst true) :: es2 ++ (t2, WSecond true) :: es3
    /\ w_task (w_run s es1) = WNext u todo /\ w_list (w_run s es1) <> None
    /\ let w := w_list (w_run s (es1 ++ (t1, WFirst true) :: es2)) in (w = None /\ redis = true) \/ revoked w u.
Proof.
  intros H0. induction es as [|te es IH] using rev_ind; intros H; [by apply H0 in H|]. rewrite w_run_snoc in H.
  apply step_task_check in H as [H|[(t & ok & -> & H & Hc)|(t & ok & -> & H & Hc)]].
  - destruct (IH H) as (es1 & t1 & es2 & t2 & es3 & -> & H1). exists es1, t1, es2, t2, (es3 ++ [te]). split; [|done].
    by rewrite <- app_assoc, <- app_comm_cons, <- app_assoc.
  - unfold chk_first in Hc. destruct ok; [|done]. by destruct (q_exists _).
  - unfold chk_second in Hc. destruct ok; [|done]. injection Hc as Hc. unfold q_member in Hc.
    apply asked_when in H as (es1 & t1 & es2 & -> & H1 & H2); [|done]. exists es1, t1, es2, t, []. rewrite <- app_assoc, <- app_comm_cons.
    split; [done|]. split; [done|]. split; [done|]. cbv zeta.
    unfold revoked, allowed. destruct (w_list (w_run s (es1 ++ (t1, WFirst true) :: es2))) as [ws|]; [right|left].
    + intros Hin. by rewrite bool_decide_eq_true_2 in Hc.
    + by destruct redis.
Qed.

Lemma act_removes s t u : registered s u -> ~ registered (w_step s (t, WAct)) u -> exists todo, w_task s = WCheck u todo (Result (Some false)).
Proof.
  intros Hr Hn. cbn [WhiteModel.w_step] in Hn. destruct (w_task s) as [| |v todo [|r]] eqn:E; try done. unfold registered in Hn, Hr. cbn in Hn.
  destruct r as [[]|]; cbn in Hn; try done. rewrite ru_users in Hn. destruct (decide (v = u)) as [->|Hne]; [by exists todo|].
  by rewrite lookup_delete_ne in Hn.
Qed.

(** * Checks by marshals *)
Lemma others_step s te m k c :
  w_others (w_step s te) !! m = Some (k, c) ->
  w_others s !! m = Some (k, c)
  \/ (exists t ok, te = (t, WMFirst m k ok) /\ c = chk_first (w_list s) ok)
  \/ (exists t ok, te = (t, WMSecond m ok) /\ w_others s !! m = Some (k, Asked) /\ c = chk_second redis (w_list s) k ok).
Proof.
  intros H. destruct te as [t []]; cbn [WhiteModel.w_step] in H; try (by left).
  - repeat case_match; by left.
  - repeat case_match; by left.
  - repeat case_match; by left.
  - repeat case_match; by left.
  - cbn in H. destruct (decide (m0 = m)) as [->|Hne]; [|rewrite lookup_insert_ne in H by done; by left].
    rewrite lookup_insert in H. injection H as -> <-. right. left. by exists t, ok.
  - destruct (w_others s !! m0) as [[k0 []]|] eqn:E; try (by left). cbn in H.
    destruct (decide (m0 = m)) as [->|Hne]; [|rewrite lookup_insert_ne in H by done; by left].
    rewrite lookup_insert in H. injection H as -> <-. right. right. by exists t, ok.
Qed.
Lemma m_asked_when s es m k :
  w_others s !! m = None -> w_others (w_run s es) !! m = Some (k, Asked) ->
  exists es1 t es2, es = es1 ++ (t, WMFirst m k true) :: es2 /\ w_list (w_run s es1) <> None.
Proof.
  intros H0. induction es as [|te es IH] using rev_ind; intros H; [cbn in H; by rewrite H0 in H|]. rewrite w_run_snoc in H.
  apply others_step in H as [H|[(t & ok & -> & Hc)|(t & ok & -> & H & Hc)]].
  - destruct (IH H) as (es1 & t & es2 & -> & H1). exists es1, t, (es2 ++ [te]). by rewrite <- app_assoc.
  - exists es, t, []. unfold chk_first, q_exists in Hc. destruct ok; [|done]. split; [done|]. intros Hl. by rewrite Hl in Hc.
  - done.
Qed.
Lemma list_stays s es : redis = true -> (forall t, ~ In (t, WSet (SReplace [])) es) -> w_list s <> None -> w_list (w_run s es) <> None.
Proof.
  intros Hred He Hs. induction es as [|[t e] es IH] using rev_ind; [done|]. rewrite w_run_snoc.
  assert (IH' : w_list (w_run s es) <> None) by (apply IH; intros t' Hin; apply (He t'), in_app_iff; by left).
  destruct e; cbn [WhiteModel.w_step]; try (repeat case_match; exact IH'). destruct o as [| |l|l]; cbn; rewrite Hred in IH' |- *; cbn; try exact IH'.
  destruct l; [|done]. exfalso. apply (He t), in_app_iff. right. by left.
Qed.
(** The answer of a check is right about one moment between its beginning and its end. *)
Lemma m_result_when s es m k r :
  w_others s !! m = None -> (redis = true -> forall t, ~ In (t, WSet (SReplace [])) es) -> w_others (w_run s es) !! m = Some (k, Result (Some r)) ->
  exists es1 t es2 es3, es = (es1 ++ (t, WMFirst m k true) :: es2) ++ es3
    /\ (let right w := r = true <-> allowed w k in right (w_list (w_run s es1)) \/ right (w_list (w_run s (es1 ++ (t, WMFirst m k true) :: es2)))).
Proof.
  intros H0 Hemp. induction es as [|te es IH] using rev_ind; intros H; [cbn in H; by rewrite H0 in H|]. rewrite w_run_snoc in H.
  apply others_step in H as [H|[(t & ok & -> & Hc)|(t & ok & -> & H & Hc)]].
  - destruct IH as (es1 & t & es2 & es3 & -> & H1); [|done|].
    + intros Hr t Hin. apply (Hemp Hr t), in_app_iff. by left.
    + exists es1, t, es2, (es3 ++ [te]). by rewrite app_assoc.
  - exists es, t, [], []. rewrite app_nil_r. unfold chk_first, q_exists in Hc. destruct ok; [|done]. split; [done|]. left.
    destruct (w_list (w_run s es)); [done|]. injection Hc as ->. done.
  - destruct (m_asked_when _ _ _ _ H0 H) as (es1 & t1 & es2 & -> & Hl). exists es1, t1, es2, [(t, WMSecond m ok)]. split; [done|]. right.
    unfold chk_second in Hc. destruct ok; [|done]. injection Hc as Hc. unfold q_member in Hc.
    destruct (w_list (w_run s (es1 ++ (t1, WMFirst m k true) :: es2))) as [ws|] eqn:El.
    + injection Hc as ->. cbn. split; [apply bool_decide_eq_true_1|apply bool_decide_eq_true_2].
    + assert (Er : redis = true) by (clear - Hc; by destruct redis). exfalso. rewrite w_run_app in El. refine (list_stays (w_run s es1) ((t1, WMFirst m k true) :: es2) Er _ Hl El).
      intros t' Hin. apply (Hemp Er t'), in_app_iff. left. apply in_app_iff. by right.
Qed.

Lemma op_users u s o : (forall c ts h, o <> CAddUser u c ts h) -> users s !! u = None -> users (c_step s o) !! u = None.
Proof.
  intros Hadd Hu. destruct o; cbn [c_step].
  - rewrite au_users, lookup_insert_ne; [done|]. intros ->. by edestruct Hadd.
  - rewrite ru_users. by apply lookup_delete_None; right.
  - by rewrite ab_users.
  - by rewrite rb_users.
  - done.
  - done.
  - rewrite apply_user_sync_eq. destruct (aborts_users_sub (set_direct (vm_merge bid_gtb (direct s) m).1 s) (map fst (vm_merge bid_gtb (direct s) m).2) u) as [->| ->]; done.
  - by destruct (apply_topic_frame s b m) as (_ & -> & _).
  - by rewrite partial_user_direct.
  - pose proof (partial_topic_frame s) as Hf. cbn zeta in Hf. by destruct Hf as (_ & -> & _).
Qed.
Lemma gone_stays s es u : ~ registered s u -> (forall t c ts h, ~ In (t, WOther (CAddUser u c ts h)) es) -> ~ registered (w_run s es) u.
Proof.
  intros Hn Hadd. induction es as [|[t e] es IH] using rev_ind; [done|]. rewrite w_run_snoc.
  assert (IH' : ~ registered (w_run s es) u) by (apply IH; intros t' c ts h Hin; apply (Hadd t' c ts h), in_app_iff; by left).
  clear IH. unfold registered in *. rewrite <- eq_None_not_Some in *.
  destruct e; cbn [WhiteModel.w_step]; try (repeat case_match; exact IH').
  - destruct (w_task _) as [| |v todo [|r]]; try exact IH'. cbn. destruct (default true r); [exact IH'|]. rewrite ru_users. by apply lookup_delete_None; right.
  - cbn. apply op_users; [|done]. intros c ts h ->. apply (Hadd t c ts h), in_app_iff. right. by left.
Qed.
End white.
