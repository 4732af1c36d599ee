(** The client's topic set, its lock, and the requests it sends. *)
From stdpp Require Import gmap list.
From Coq Require Import NArith Lia.
From Verif Require Import TopicModel TopicProofs ClientModel ClientProofs.

Definition is_sub (o : cop) : bool := match o with KSub _ | KUnsub _ => true | _ => false end.

(** A thread in the middle of a subscribe or unsubscribe call, with the lock. *)
Definition pc_sub (p : pc) : bool :=
  match p with PGet o | PStore o _ | PUse o _ | PFail o _ | PTake o _ => is_sub o | _ => false end.

Definition pc_conn (p : pc) : option N := match p with PUse _ c | PFail _ c | PTake _ c => Some c | _ => None end.

Section subs.
Variable valid : N -> bool.

Record hinv (slot subl : option N) (subr : bool) (subs : gset N) (thr : gmap N pc) (tasks : gmap N qc) (nextc : N)
    (sent : gmap N (list req)) : Prop := {
  h_lock : forall t p, thr !! t = Some p -> pc_sub p = true -> subl = Some t;
  h_held : forall t, subl = Some t -> exists p, thr !! t = Some p /\ pc_sub p = true;
  h_excl : forall t, subl = Some t -> subr = false;
  h_snap : forall r l, tasks !! r = Some (QAuth l) -> l = elements subs;
  h_use : forall t o c c', thr !! t = Some (PUse o c) -> is_sub o = true -> slot = Some c' -> c = c';
  h_next : forall t p c, thr !! t = Some p -> pc_conn p = Some c -> (c < nextc)%N;
  h_last : forall c, slot = Some c -> nextc = (c + 1)%N;
  h_sent : forall c, slot = Some c -> exists l qs, sent !! c = Some (RSub l :: qs)
             /\ forall S x, b_topics valid (RSub l :: qs) = Some S -> x ∈ S <-> valid x = true /\ x ∈ subs;
}.

Definition hk (k : client) : Prop :=
  hinv (k_slot k) (k_subl k) (k_subr k) (k_subs k) (k_thr k) (k_tasks k) (k_nextc k) (k_sent k).

Definition hks (k : client) :=
  (k_slot k, k_subl k, k_subr k, k_subs k, k_thr k, k_tasks k, k_nextc k, k_sent k).
Lemma hk_same k k' : hks k' = hks k -> hk k -> hk k'.
Proof. unfold hks, hk. intros [= -> -> -> -> -> -> -> ->]. done. Qed.

Lemma hk_noslot k : hk k -> hk (w_slot k None).
Proof. unfold hk. cbn. intros []. split; auto; done. Qed.

(** A thread moves on, keeping what it holds. *)
Lemma hk_move k t p p' :
  hk k -> k_thr k !! t = p -> default false (pc_sub <$> p) = pc_sub p' ->
  (forall o c c', p' = PUse o c -> is_sub o = true -> k_slot k = Some c' -> c = c') ->
  (forall c, pc_conn p' = Some c -> (c < k_nextc k)%N) ->
  hk (w_thr k t (Some p')).
Proof.
  unfold hk. cbn. intros [] Hp Hs Hu Hc. split; auto.
  - intros t' q. rewrite pa_lookup. case_decide; intros; simplify_eq; [|eauto].
    rewrite H1 in Hs. destruct (k_thr k !! t') as [p|] eqn:E; [|done]. cbn in Hs. eauto.
  - intros t' Ht'. destruct (h_held0 _ Ht') as (q&Hq&?). rewrite pa_lookup. case_decide; subst; [|eauto].
    exists p'. split; [done|]. rewrite Hq in Hs. cbn in Hs. congruence.
  - intros t' o c c'. rewrite pa_lookup. case_decide; intros; simplify_eq; eauto.
  - intros t' q c. rewrite pa_lookup. case_decide; intros; simplify_eq; eauto.
Qed.

Lemma hk_ret k t : hk k -> hk (unlock (w_thr k t None) t).
Proof.
  intros H. unfold unlock. destruct H. case_decide as Hd; cbn in Hd; split; cbn; auto.
  - intros t' q. rewrite pa_lookup. case_decide; intros; simplify_eq.
    assert (k_subl k = Some t') by eauto. congruence.
  - done.
  - intros t' Ht'. done.
  - intros t' o c c'. rewrite pa_lookup. case_decide; intros; simplify_eq; eauto.
  - intros t' q c. rewrite pa_lookup. case_decide; intros; simplify_eq; eauto.
  - intros t' q. rewrite pa_lookup. case_decide; intros; simplify_eq; eauto.
  - intros t' Ht'. destruct (h_held0 _ Ht') as (q&Hq&?). exists q. rewrite pa_lookup, decide_False; auto. congruence.
  - intros t' o c c'. rewrite pa_lookup. case_decide; intros; simplify_eq; eauto.
  - intros t' q c. rewrite pa_lookup. case_decide; intros; simplify_eq; eauto.
Qed.

Lemma b_topics_app l qs q :
  b_topics valid ((RSub l :: qs) ++ [q]) = b_request valid (b_topics valid (RSub l :: qs)) q.
Proof. cbn. by rewrite fold_left_app. Qed.

Lemma hk_push k t o c q s' :
  tk k -> hk k -> k_thr k !! t = Some (PUse o c) -> is_sub o = true ->
  (forall S S' x, b_request valid (Some S) q = Some S' ->
      (x ∈ S <-> valid x = true /\ x ∈ k_subs k) -> (x ∈ S' <-> valid x = true /\ x ∈ s')) ->
  hk (push_req k c q s').
Proof.
  unfold hk. intros Htk H Ht Ho Hq. destruct H. cbn. split; auto.
  - intros r l Hr. exfalso. assert (Hl : k_subl k = Some t) by (eapply h_lock0; eauto).
    specialize (h_excl0 _ Hl). pose proof (ti_auth _ _ _ _ _ _ Htk _ _ Hr). congruence.
  - intros c' Hc'. assert (c = c') as -> by eauto. destruct (h_sent0 _ Hc') as (l&qs&Hs&Hall).
    exists l, (qs ++ [q]). rewrite lookup_insert, Hs. split; [done|].
    intros S x. change (RSub l :: qs ++ [q]) with ((RSub l :: qs) ++ [q]). rewrite b_topics_app.
    destruct (b_topics valid (RSub l :: qs)) as [S0|] eqn:E; [|done]. intros HS. eapply Hq; [done|]. by apply Hall.
Qed.

Lemma prune_set l x : x ∈ (list_to_set (prune valid l).1 : gset N) <-> x ∈ l /\ valid x = true.
Proof. rewrite elem_of_list_to_set, elem_of_list_In, prune_in, elem_of_list_In. tauto. Qed.

Lemma request_sub S l S' : b_request valid (Some S) (RSub l) = Some S' ->
  forall x, x ∈ S' <-> x ∈ S \/ x ∈ l /\ valid x = true.
Proof.
  unfold b_request. pose proof (prune_set l) as Hp. destruct (prune valid l) as [l' []]; [|done]. cbn [fst] in Hp.
  intros [= <-] x. rewrite elem_of_union, Hp. tauto.
Qed.

Lemma request_unsub S l S' : b_request valid (Some S) (RUnsub l) = Some S' ->
  forall x, x ∈ S' <-> x ∈ S /\ ~ (x ∈ l /\ valid x = true).
Proof.
  unfold b_request. pose proof (prune_set l) as Hp. destruct (prune valid l) as [l' []]; [|done]. cbn [fst] in Hp.
  intros [= <-] x. rewrite elem_of_difference, Hp. tauto.
Qed.

Lemma hk_used k t o c : tk k -> hk k -> k_thr k !! t = Some (PUse o c) -> hk (used k o c).
Proof.
  intros Htk H Ht. destruct o; try done; cbn [used]; eapply hk_push; eauto; intros S S' x HS Hx.
  - rewrite (request_sub _ _ _ HS x), Hx, elem_of_union, elem_of_list_to_set. tauto.
  - rewrite (request_unsub _ _ _ HS x), Hx, elem_of_difference, elem_of_list_to_set. tauto.
Qed.

Lemma used_thr k o c : k_thr (used k o c) = k_thr k.
Proof. by destruct o. Qed.

Lemma hk_no_conn k t o p :
  hk k -> k_thr k !! t = Some p -> pc_sub p = is_sub o -> hk (no_conn k t o).1.
Proof.
  intros H Ht Hp. destruct o; cbn [no_conn]; try by apply hk_ret.
  cbn [fst]. apply (hk_move k t (Some _) _ H Ht); [done|done|done].
Qed.

Lemma hk_rin k t o : hk k -> k_thr k !! t = Some (PGet o) -> hk (reconnect_if_needed k t o).1.
Proof.
  intros H Ht. unfold reconnect_if_needed. destruct (k_slot k) as [c|] eqn:Es.
  - assert (Hg : hk (w_thr k t (Some (PUse o c)))).
    { apply (hk_move k t (Some _) _ H Ht); [done| |].
      - intros o' c1 c2 [= -> ->] _. rewrite Es. congruence.
      - intros c1 [= <-]. pose proof (h_last _ _ _ _ _ _ _ _ H _ Es). lia. }
    destruct o; try exact Hg. by apply hk_ret.
  - destruct (k_closed k); [eapply hk_no_conn; eauto|].
    destruct (k_permit k) eqn:Ep; [|eapply hk_no_conn; eauto]. cbn [fst].
    assert (Hm : hk (w_thr k t (Some (PStore o (k_nextr k))))) by (apply (hk_move k t (Some _) _ H Ht); [done|done|done]).
    unfold hk in *. cbn in *. destruct Hm. rewrite Es in *. split; auto.
    intros r l. rewrite ins_lookup. case_decide; intros; simplify_eq; eauto.
Qed.

Lemma hk_get k t o b : hk k -> k_thr k !! t = Some (PGet o) -> hk (get k t o b).1.
Proof.
  intros H Ht. unfold get. pose proof (hk_rin k t o H Ht).
  assert (hk (no_conn k t o).1) by (eapply hk_no_conn; eauto; done).
  destruct (k_wl k), o, b; auto.
Qed.

Lemma hk_tstep k t p b : tk k -> hk k -> k_thr k !! t = Some p ->
  (forall o, p = PSubLock o -> is_sub o = true) -> hk (tstep k t p b).1.
Proof.
  intros Htk H Ht Hsl. destruct p; cbn [tstep].
  - specialize (Hsl _ eq_refl). case_decide as Hd; [|done]. destruct Hd as [Hl Hr]. cbn [fst]. unfold hk in *. destruct H. cbn. split; auto.
    + intros t' q. rewrite pa_lookup. case_decide; intros; simplify_eq; [done|].
      assert (k_subl k = Some t') by eauto. congruence.
    + intros t' [= <-]. exists (PGet o). rewrite pa_lookup, decide_True; done.
    + intros t' o' c c'. rewrite pa_lookup. case_decide; intros; simplify_eq; eauto.
    + intros t' q c. rewrite pa_lookup. case_decide; intros; simplify_eq; eauto; done.
  - destruct (k_closed k); [by apply hk_ret|]. apply (hk_move k t (Some _) _ H Ht); [done|done|done].
  - by apply hk_get.
  - eapply hk_no_conn; [|exact Ht|done]. by eapply hk_same; [|exact H].
  - destruct b.
    + unfold ret. cbn [fst]. apply hk_ret. by eapply hk_used.
    + apply (hk_move k t (Some _) _ H Ht); [done|done|]. intros c1 [= <-]. eapply (h_next _ _ _ _ _ _ _ _ H); eauto; done.
  - destruct (k_permit k && b); [|by apply hk_ret].
    apply (hk_move k t (Some _) _ H Ht); [done|done|]. intros c1 [= <-]. eapply (h_next _ _ _ _ _ _ _ _ H); eauto; done.
  - destruct (no_readers k); [|done]. unfold ret. cbn [fst]. by apply hk_ret, hk_noslot.
  - destruct (_ || _); [|done]. by apply hk_ret.
  - apply (hk_move (w_closed k) t (Some PClose1)); [by eapply hk_same; [|exact H]|done|done|done|done].
  - apply (hk_move (w_handle k None) t (Some PClose2)); [by eapply hk_same; [|exact H]|done|done|done|done].
  - destruct (no_readers k); [|done]. unfold ret. cbn [fst]. by apply hk_ret, hk_noslot.
Qed.

(** A change to the tasks that starts no authentication. *)
Lemma hk_tasks k r q : hk k -> (forall l, q <> Some (QAuth l)) -> hk (w_task k r q).
Proof.
  unfold hk. intros [] Hq. cbn. split; auto.
  intros r' l. rewrite pa_lookup. case_decide; intros; simplify_eq; eauto. naive_solver.
Qed.

Lemma hk_subr k : hk k -> hk (w_subr k false).
Proof. unfold hk. intros []. cbn. split; auto. Qed.

Lemma hk_qstep k r q b : tk k -> hk k -> k_tasks k !! r = Some q -> hk (qstep k r q b).1.
Proof.
  intros Htk H Hr. destruct q; cbn [qstep].
  - destruct (no_readers k); [|done]. by apply (hk_tasks k r (Some QTop)).
  - destruct (k_closed k); by apply hk_tasks.
  - destruct b; [|by apply hk_tasks]. case_decide as Hl; [|done]. unfold hk in *. destruct H. cbn. split; auto.
    + rewrite Hl. done.
    + intros r' l. rewrite pa_lookup. case_decide; intros; simplify_eq; eauto.
  - destruct b; cbn [fst]; [|by apply hk_subr, hk_tasks].
    apply hk_subr, hk_tasks; [|done].
    assert (Hsr : k_subr k = true) by (eapply (ti_auth _ _ _ _ _ _ Htk); eauto).
    pose proof (h_snap _ _ _ _ _ _ _ _ H _ _ Hr) as ->.
    unfold hk in *. destruct H. cbn. split; auto.
    + intros t o c c' Ht Ho. assert (Hl : k_subl k = Some t) by (eapply h_lock0; eauto).
      specialize (h_excl0 _ Hl). congruence.
    + intros t p c Ht Hc. specialize (h_next0 _ _ _ Ht Hc). lia.
    + intros c [= <-]. done.
    + intros c [= <-]. exists (elements (k_subs k)), []. rewrite lookup_insert. split; [done|].
      intros S x HS. change (Some (list_to_set (prune valid (elements (k_subs k))).1 : gset N) = Some S) in HS.
      apply (inj Some) in HS. rewrite <- HS, prune_set, elem_of_elements. tauto.
  - by apply hk_tasks.
  - by apply (hk_tasks k r (Some QRel)).
  - by apply (hk_tasks k r None).
Qed.

Lemma hk_qabort k r q : hk k -> hk (qabort k r q).
Proof.
  intros H. pose proof (hk_tasks k r None H). destruct q; cbn [qabort]; try done; try (by apply H0).
  apply hk_subr. by apply H0.
Qed.

Lemma hk_tdrop k t p : hk k -> hk (tdrop k t p).
Proof. intros H. destruct p as [ | |[]| | | | | | | | ]; try done; cbn [tdrop]; by apply hk_ret. Qed.

(** Only subscribe and unsubscribe wait for the lock of the topic set. *)
Definition psl (k : client) : Prop := forall t o, k_thr k !! t = Some (PSubLock o) -> is_sub o = true.

Lemma psl_move k t p : psl k -> (forall o, p = Some (PSubLock o) -> is_sub o = true) -> psl (w_thr k t p).
Proof. intros H Hp t' o. cbn. rewrite pa_lookup. case_decide; intros; simplify_eq; eauto. Qed.
Lemma psl_unlock k t : psl k -> psl (unlock k t).
Proof. unfold unlock. by case_decide. Qed.
Lemma psl_ret k t o ok : psl k -> psl (ret k t o ok).1.
Proof. intros H. by apply psl_unlock, psl_move. Qed.
Lemma psl_no_conn k t o : psl k -> psl (no_conn k t o).1.
Proof. intros H. destruct o; cbn [no_conn]; try by apply psl_ret. by apply psl_move. Qed.
Lemma psl_rin k t o : psl k -> psl (reconnect_if_needed k t o).1.
Proof.
  intros H. unfold reconnect_if_needed. destruct (k_slot k).
  - assert (psl (w_thr k t (Some (PUse o n)))) by by apply psl_move. destruct o; auto. by apply psl_ret.
  - destruct (k_closed k); [by apply psl_no_conn|]. destruct (k_permit k); [|by apply psl_no_conn].
    intros t' o'. cbn. rewrite ins_lookup. case_decide; intros; simplify_eq; eauto.
Qed.
Lemma psl_used k o c : psl k -> psl (used k o c).
Proof. intros H. by destruct o. Qed.
Lemma psl_step k e : psl k -> psl (kstep k e).1.
Proof.
  intros H. destruct e as [t o|t b|t|r b|r]; cbn [kstep].
  - destruct (k_thr k !! t); [done|]. apply psl_move; [done|]. intros o' [= Ho]. destruct o; cbn in Ho; simplify_eq; done.
  - destruct (k_thr k !! t) as [p|]; [|done]. destruct p; cbn [tstep].
    + case_decide; [|done]. by apply (psl_move k t (Some (PGet o))).
    + destruct (k_closed k); [by apply psl_ret|by apply psl_move].
    + pose proof (psl_rin k t o H). pose proof (psl_no_conn k t o H). unfold get. destruct (k_wl k), o, b; auto.
    + by apply psl_no_conn.
    + destruct b; [|by apply psl_move]. unfold ret; cbn [fst]. by apply psl_unlock, psl_move; [apply psl_used|].
    + destruct (_ && _); [by apply psl_move|by apply psl_ret].
    + destruct (no_readers k); [|done]. unfold ret; cbn [fst]. by apply psl_unlock, psl_move.
    + destruct (_ || _); [|done]. by apply psl_ret.
    + by apply psl_move.
    + by apply psl_move.
    + destruct (no_readers k); [|done]. unfold ret; cbn [fst]. by apply psl_unlock, psl_move.
  - destruct (k_thr k !! t) as [p|]; [|done]. assert (psl (unlock (w_thr k t None) t)) by by apply psl_unlock, psl_move.
    destruct p as [ | |[]| | | | | | | | ]; done.
  - destruct (k_tasks k !! r) as [q|]; [|done].
    destruct q; cbn [qstep]; repeat (case_decide || case_match); exact H.
  - destruct (k_tasks k !! r) as [q|]; [|done]. case_decide; [|done]. destruct q; exact H.
Qed.

Lemma kstep_hk k e : tk k -> psl k -> hk k -> hk (kstep k e).1.
Proof.
  intros Htk Hpl H. destruct e as [t o|t b|t|r b|r]; cbn [kstep].
  - destruct (k_thr k !! t) eqn:E; [done|]. apply (hk_move k t None _ H E); by destruct o.
  - destruct (k_thr k !! t) eqn:E; [|done]. apply hk_tstep; auto. intros o ->. eauto.
  - destruct (k_thr k !! t) eqn:E; [|done]. by apply hk_tdrop.
  - destruct (k_tasks k !! r) eqn:E; [|done]. by apply hk_qstep.
  - destruct (k_tasks k !! r) eqn:E; [|done]. case_decide; [|done]. by apply hk_qabort.
Qed.

Lemma krun_all ts es : tk (krun ts es).1 /\ psl (krun ts es).1 /\ hk (krun ts es).1.
Proof.
  induction es as [|e es (H1&H2&H3)] using rev_ind.
  - split; [apply new_tk|]. split; [by intros t o ?; cbn in *; simplify_map_eq|].
    split; cbn; try done; intros; simplify_map_eq.
  - rewrite krun_snoc. cbn [fst]. split; [by apply kstep_tk|]. split; [by apply psl_step|by apply kstep_hk].
Qed.

Lemma krun_hk ts es : hk (krun ts es).1.
Proof. apply krun_all. Qed.
End subs.
