(** Property theorems: the whitelist over time. C72: users taken off it leave; C73: replacing it. *)
From stdpp Require Import gmap list.
From Coq Require Import NArith Lia.
From Verif Require Import IdModel ConnModel TopicModel MsgModel DiscModel AuthModel WhiteModel WhiteSpec WhiteProofs PropertiesAuth.

(** * C72 *)
Section c72.
Variable redis : bool.
Notation w_run := (w_run redis).

(** A user whose key is off the whitelist from time [T] on, whether the broker has it in the round
    under way or not, is not registered any more at some moment before [T + 60 + D + 6 n D], for a broker with
    at most [n] users at a time and checks whose steps take at most [D]. *)
Theorem C72_revoked_user_leaves : forall b w t0 n D es1 es2 T t e u,
  let s0 := w_init b w t0 in
  in_time redis D s0 (es1 ++ es2) -> at_most redis n s0 (es1 ++ es2) -> answered es2 ->
  (t0 <= T)%N -> Forall (fun te => (te.1 <= T)%N) es1 ->
  (forall p q, es2 = p ++ q -> revoked (w_list (w_run s0 (es1 ++ p))) u) ->
  In (t, e) es2 -> (T + 60 + D + 6 * N.of_nat n * D < t)%N ->
  exists p q, es2 = p ++ q /\ ~ registered (w_run s0 (es1 ++ p)) u.
Proof.
  intros b w t0 n D es1 es2 T t e u s0 Ht Hm Ha HT Hbefore Hl Hin Hlate.
  destruct (in_split _ _ Hin) as (p & q & Heq). 
  assert (Hdec : (forall p1 p2, p = p1 ++ p2 -> registered (w_run s0 (es1 ++ p1)) u) \/ exists p1 p2, p = p1 ++ p2 /\ ~ registered (w_run s0 (es1 ++ p1)) u).
  { clear - p. induction p as [|x p IH] using rev_ind.
    - destruct (users (w_conns (w_run s0 (es1 ++ []))) !! u) eqn:E; [left|right].
      + intros p1 p2 Hp. symmetry in Hp. apply app_eq_nil in Hp as [-> ->]. unfold registered. by rewrite E.
      + exists [], []. split; [done|]. unfold registered. rewrite E. by intros [].
    - destruct IH as [IH|(p1 & p2 & -> & Hn)]; [|right; exists p1, (p2 ++ [x]); by rewrite app_assoc].
      destruct (users (w_conns (w_run s0 (es1 ++ (p ++ [x])))) !! u) eqn:E; [left|right].
      + intros p1 p2 Hp. destruct p2 as [|y p2 _] using rev_ind.
        * rewrite app_nil_r in Hp. subst p1. unfold registered. by rewrite E.
        * rewrite app_assoc in Hp. apply app_inj_tail in Hp as [-> ->]. by apply IH with p2.
      + exists (p ++ [x]), []. rewrite app_nil_r. split; [done|]. unfold registered. rewrite E. by intros []. }
  destruct Hdec as [Hall|(p1 & p2 & -> & Hn)]; [|exists p1, (p2 ++ (t, e) :: q); split; [by rewrite Heq, <- app_assoc|done]].
  exfalso. subst es2. set (s1 := w_run s0 es1).
  assert (Hm1 : at_most redis n s0 es1) by (intros a c ->; apply (Hm a (c ++ p ++ (t, e) :: q)); by rewrite <- app_assoc).
  assert (Hf : fits n s1) by (apply fits_run; [unfold fits; cbn; lia|done]).
  assert (Hs1 : (w_since s1 <= T)%N) by (apply (since_run redis); [exact HT|exact Hbefore]).
  set (B := (w_since s1 + D * N.of_nat (steps s1) + 60 + D + D * N.of_nat (3 * n))%N).
  assert (Hsoon : soon D n u (w_run s1 p) B).
  { apply (soon_run redis).
    - intros a t' e' c ->. unfold s1. rewrite <- w_run_app. apply (Ht (es1 ++ a) t' e' (c ++ (t, e) :: q)). by rewrite <- !app_assoc.
    - intros a c ->. unfold s1. rewrite <- w_run_app. apply (Hm (es1 ++ a) (c ++ (t, e) :: q)). by rewrite <- !app_assoc.
    - intros t'. destruct (Ha t') as [H1 H2]. split; intros H; [apply H1|apply H2]; apply in_app_iff; by left.
    - intros a c ->. unfold s1. rewrite <- w_run_app. apply (Hl a (c ++ (t, e) :: q)). by rewrite <- !app_assoc.
    - intros a c ->. unfold s1. rewrite <- w_run_app. by apply (Hall a c).
    - right. unfold by_when. done. }
  pose proof (Ht (es1 ++ p) t e q) as Hlast. rewrite <- app_assoc in Hlast. specialize (Hlast eq_refl). cbv zeta in Hlast. rewrite w_run_app in Hlast. fold s1 in Hlast.
  unfold fits in Hf. assert (HB : (B <= T + 60 + D + 6 * N.of_nat n * D)%N) by (unfold B; nia).
  destruct Hsoon as [[Hd Hs]|Hs]; unfold by_now, by_when, due in *.
  - destruct (w_task (w_run s1 p)) as [| |v todo [|r]] eqn:E; [done| | |]; unfold steps in Hs; rewrite E in Hs; nia.
  - destruct (w_task (w_run s1 p)); nia.
Qed.

(** ... and unless it is registered again (for which it needs a permit), it is not registered at the end. *)
Theorem C72_revoked_for_good : forall b w t0 n D es1 es2 T t e u,
  let s0 := w_init b w t0 in
  in_time redis D s0 (es1 ++ es2) -> at_most redis n s0 (es1 ++ es2) -> answered es2 ->
  (t0 <= T)%N -> Forall (fun te => (te.1 <= T)%N) es1 ->
  (forall p q, es2 = p ++ q -> revoked (w_list (w_run s0 (es1 ++ p))) u) ->
  In (t, e) es2 -> (T + 60 + D + 6 * N.of_nat n * D < t)%N ->
  (forall t c ts h, ~ In (t, WOther (CAddUser u c ts h)) es2) ->
  ~ registered (w_run s0 (es1 ++ es2)) u.
Proof.
  intros b w t0 n D es1 es2 T t e u s0 Ht Hm Ha HT Hb Hl Hin Hlate Hadd.
  destruct (C72_revoked_user_leaves b w t0 n D es1 es2 T t e u Ht Hm Ha HT Hb Hl Hin Hlate) as (p & q & -> & Hn).
  rewrite app_assoc, w_run_app. apply gone_stays; [done|]. intros t' c ts h Hq. apply (Hadd t' c ts h), in_app_iff. by right.
Qed.

(** The task removes a user only if, in this round, one statement saw a whitelist and a later one did not find the user on it. In
    particular a failed statement removes nobody. *)
Theorem C72_removed_only_after_refusal : forall b w t0 es t u,
  let s0 := w_init b w t0 in
  registered (w_run s0 es) u -> ~ registered (w_run s0 (es ++ [(t, WAct)])) u ->
  exists es1 t1 es2 t2 es3 todo, es = es1 ++ (t1, WFirst true) :: es2 ++ (t2, WSecond true) :: es3
    /\ w_task (w_run s0 es1) = WNext u todo /\ w_list (w_run s0 es1) <> None
    /\ let w' := w_list (w_run s0 (es1 ++ (t1, WFirst true) :: es2)) in (w' = None /\ redis = true) \/ revoked w' u.
Proof.
  intros b w t0 es t u s0 Hr Hn. rewrite w_run_snoc in Hn. destruct (act_removes _ _ _ _ Hr Hn) as [todo Htask].
  destruct (refused_when redis s0 es u todo) as (es1 & t1 & es2 & t2 & es3 & H); [done|done|]. by exists es1, t1, es2, t2, es3, todo.
Qed.
End c72.
Print Assumptions C72_revoked_user_leaves.
Print Assumptions C72_revoked_for_good.
Print Assumptions C72_removed_only_after_refusal.

(** ** A user is taken off the list *)
Definition yx_run := w_run false (w_init ex_broker (Some {[ [7]; [8] ]}%N) 0).
(** Users 7 and 8 are connected when the list is replaced by one without 7: the round under way had passed 7, the next one finds it. *)
Definition yx_before : list (N * wev) :=
  [(10, WOther (CAddUser [7] 1 [] 1)); (11, WOther (CAddUser [8] 2 [] 2)); (60, WWake [[7]; [8]]); (60, WFirst true); (61, WSecond true); (62, WAct);
   (62, WSet SDrop); (62, WSet SCreate); (62, WSet (SInsert [[8]]))]%N.
Definition yx_after : list (N * wev) :=
  [(62, WFirst true); (63, WSecond true); (63, WAct); (123, WWake [[8]; [7]]); (124, WFirst true); (124, WSecond true); (124, WAct);
   (125, WFirst true); (125, WSecond true); (126, WAct); (150, WPass)]%N.
Definition in_time_b (redis : bool) (D : N) (s0 : white) (es : list (N * wev)) : bool :=
  forallb (fun n => match es !! n with
    | Some (t, _) => let s := w_run redis s0 (take n es) in (t <=? w_since s + D + match w_task s with WSleep => 60 | _ => 0 end)%N
    | None => true end) (seq 0 (length es)).
Lemma in_time_check redis D s0 es : in_time_b redis D s0 es = true -> in_time redis D s0 es.
Proof.
  intros H es1 t e es2 Heq. unfold in_time_b in H. rewrite forallb_forall in H. specialize (H (length es1)).
  subst es. rewrite list_lookup_middle, take_app in H by done. cbv zeta in *. apply N.leb_le, H, in_seq. rewrite app_length. cbn. lia.
Qed.
Definition always_b (redis : bool) (s0 : white) (f : white -> bool) (es : list (N * wev)) : bool :=
  forallb (fun n => f (w_run redis s0 (take n es))) (seq 0 (S (length es))).
Lemma always_check redis s0 f es : always_b redis s0 f es = true -> forall p q, es = p ++ q -> f (w_run redis s0 p) = true.
Proof.
  intros H p q ->. unfold always_b in H. rewrite forallb_forall in H. specialize (H (length p)). rewrite take_app in H.
  apply H, in_seq. rewrite app_length. lia.
Qed.
Definition revoked_b (u : bytes) (s : white) : bool := match w_list s with None => false | Some w => bool_decide (u ∉ w) end.
Lemma revoked_check u s : revoked_b u s = true -> revoked (w_list s) u.
Proof. unfold revoked_b, revoked, allowed. destruct (w_list s); [|done]. by intros H%bool_decide_eq_true_1. Qed.
Example C72_example :
  let s0 := w_init ex_broker (Some {[ [7]; [8] ]}%N) 0 in
  in_time false 1 s0 (yx_before ++ yx_after) /\ at_most false 2 s0 (yx_before ++ yx_after) /\ answered yx_after
  /\ Forall (fun te => (te.1 <= 62)%N) yx_before
  /\ (forall p q, yx_after = p ++ q -> revoked (w_list (w_run false s0 (yx_before ++ p))) [7]%N)
  /\ In (150%N, WPass) yx_after /\ (62 + 60 + 1 + 6 * N.of_nat 2 * 1 < 150)%N
  /\ registered (w_run false s0 yx_before) [7]%N
  /\ ~ registered (w_run false s0 (yx_before ++ yx_after)) [7]%N /\ registered (w_run false s0 (yx_before ++ yx_after)) [8]%N.
Proof.
  cbv zeta. split; [apply in_time_check; vm_compute; reflexivity|].
  split. { intros p q Heq. apply Nat.leb_le. revert p q Heq. apply (always_check false _ (fun s => size (users (w_conns s)) <=? 2)). vm_compute. reflexivity. }
  split. { intros t. split; intros H; cbn in H; repeat destruct H as [H|H]; done. }
  split; [repeat constructor; cbn; lia|].
  split. { intros p q Heq. apply revoked_check. rewrite w_run_app. revert p q Heq. apply (always_check false). vm_compute. reflexivity. }
  split; [vm_compute; tauto|]. split; [cbn; lia|]. unfold registered. rewrite <- eq_None_not_Some. split; [vm_compute; eauto|]. split; [vm_compute; reflexivity|vm_compute; eauto].
Qed.

(** There is no time limit on the checks: one that gets no answer keeps revoked users connected for any time [B]. *)
Theorem C72_hanging_check_refuted : forall redis B, exists s0 es u,
  answered es /\ (forall p q, es = p ++ q -> revoked (w_list (w_run redis s0 p)) u)
  /\ (exists t, (B <= t)%N /\ In (t, WPass) es) /\ Forall (fun te => (60 <= te.1)%N) es
  /\ (forall p q, es = p ++ q -> registered (w_run redis s0 p) u).
Proof.
  intros redis B.
  exists (w_run redis (w_init ex_broker (Some {[ [8] ]}%N) 0) [(10, WOther (CAddUser [7] 1 [] 1)); (11, WOther (CAddUser [8] 1 [] 1))])%N,
    [(60, WWake [[8]; [7]]); (60, WFirst true); (60 + B, WPass)]%N, [7]%N.
  assert (Hall : forall s p q, [(60, WWake [[8]; [7]]); (60, WFirst true); ((60 + B)%N, WPass)]%N = p ++ q ->
    w_list (w_run redis s p) = w_list s /\ w_conns (w_run redis s p) = w_conns s).
  { intros s p q Heq.
    assert (Hstep : forall s te, te.2 = WPass \/ te.2 = WFirst true \/ te.2 = WWake [[8]; [7]]%N -> w_list (w_step redis s te) = w_list s /\ w_conns (w_step redis s te) = w_conns s).
    { intros s' [t e] [H|[H|H]]; cbn in H; subst e; cbn [w_step]; repeat case_match; done. }
    destruct p as [|x [|y [|z [|? p]]]]; cbn in Heq; simplify_eq; cbn [w_run fold_left]; unfold w_run; cbn [fold_left].
    - done.
    - apply Hstep. cbn. tauto.
    - split; (etrans; [apply Hstep; cbn; tauto|apply Hstep; cbn; tauto]).
    - split; (etrans; [apply Hstep; cbn; tauto|etrans; apply Hstep; cbn; tauto]). }
  split. { intros t. split; intros H; cbn in H; repeat destruct H as [H|H]; done. }
  split. { intros p q Heq. destruct (Hall (w_run redis (w_init ex_broker (Some {[ [8] ]}%N) 0) [(10, WOther (CAddUser [7] 1 [] 1)); (11, WOther (CAddUser [8] 1 [] 1))])%N p q Heq) as [-> _].
    apply revoked_check. destruct redis; vm_compute; reflexivity. }
  split. { exists (60 + B)%N. split; [lia|]. right. right. by left. }
  split. { repeat constructor; cbn; lia. }
  intros p q Heq. unfold registered. destruct (Hall (w_run redis (w_init ex_broker (Some {[ [8] ]}%N) 0) [(10, WOther (CAddUser [7] 1 [] 1)); (11, WOther (CAddUser [8] 1 [] 1))])%N p q Heq) as [_ ->].
  destruct redis; vm_compute; eauto.
Qed.
Print Assumptions C72_hanging_check_refuted.
(** The marshal looks up the canonical form of the key, the broker the bytes the user sent. A user on the whitelist
    that sends its key in another encoding is admitted, and disconnected by the broker's next round. *)
Theorem C72_other_encoding_removed_refuted : exists es e k ts l wes,
  ex_admits false es e = Some (ex_broker, k, ts)
  /\ (exists p canon, ex_pk_deser k = Some p /\ ex_pk_ser p = Some canon /\ In canon l)
  /\ In (ASetWhitelist l) es /\ (forall l', In (ASetWhitelist l') es -> l' = l)
  /\ (let s0 := w_init ex_broker (Some (list_to_set l)) 0 in
      (forall t o, ~ In (t, WSet o) wes) /\ (forall t u, ~ In (t, WOther (CRemoveUser u)) wes)
      /\ registered (w_run false s0 (take 1 wes)) k /\ ~ registered (w_run false s0 wes) k).
Proof.
  exists (ex_pre ++ take 7 (ex_login 2 [7; 0] 7 56))%N, (ABrokerTopics 2 (MSubscribe [1; 2]))%N, [7; 0]%N, [1; 2]%N, [[7]]%N,
    [(10, WOther (CAddUser [7; 0] 1 [1; 2] 1)); (60, WWake [[7; 0]]); (60, WFirst true); (60, WSecond true); (60, WAct)]%N.
  split; [vm_compute; reflexivity|]. split; [exists 7%N, [7]%N; split; [done|]; split; [done|]; by left|].
  split; [vm_compute; tauto|]. split. { intros l' H. vm_compute in H. repeat destruct H as [H|H]; try done. by injection H. }
  cbv zeta. split. { intros t o H. cbn in H. repeat destruct H as [H|H]; done. }
  split. { intros t u H. cbn in H. repeat destruct H as [H|H]; done. }
  unfold registered. rewrite <- eq_None_not_Some. split; [vm_compute; eauto|vm_compute; reflexivity].
Qed.
Print Assumptions C72_other_encoding_removed_refuted.

(** * C73 *)
(** With Redis, a user who is on every whitelist that is set is never removed by the task. *)
Theorem C73_redis_listed_user_stays_partial : forall b w t0 es t u,
  let s0 := w_init b w t0 in
  allowed w u -> (forall t l, In (t, WSet (SReplace l)) es -> In u l) ->
  registered (w_run true s0 es) u -> registered (w_run true s0 (es ++ [(t, WAct)])) u.
Proof.
  intros b w t0 es t u s0 Hw Hset Hr.
  destruct (users (w_conns (w_run true s0 (es ++ [(t, WAct)]))) !! u) eqn:E; [unfold registered; by rewrite E|]. exfalso.
  destruct (C72_removed_only_after_refusal true b w t0 es t u) as (es1 & t1 & es2 & t2 & es3 & todo & -> & _ & Hl & H); [done| |].
  { unfold registered. fold s0. rewrite E. by intros []. }
  assert (Hinv : forall p q, es1 ++ (t1, WFirst true) :: es2 ++ (t2, WSecond true) :: es3 = p ++ q -> allowed (w_list (w_run true s0 p)) u).
  { induction p as [|[t' e] p IH] using rev_ind; intros q Heq; [done|]. rewrite w_run_snoc.
    assert (IH' : allowed (w_list (w_run true s0 p)) u) by (apply (IH ((t', e) :: q)); rewrite Heq, <- app_assoc; done).
    destruct e; cbn [w_step]; try (repeat case_match; exact IH'). destruct o as [| |l|l]; cbn; try exact IH'.
    assert (Hin : In u l) by (apply (Hset t'); rewrite Heq; apply in_app_iff; left; apply in_app_iff; right; by left).
    destruct l as [|k l]; [done|]. change (u ∈ (list_to_set (k :: l) : gset bytes)). apply elem_of_list_to_set, elem_of_list_In. exact Hin. }
  cbv zeta in H. destruct H as [[H _]|H].
  - rewrite w_run_app in H. refine (list_stays true (w_run true s0 es1) ((t1, WFirst true) :: es2) eq_refl _ Hl H).
    intros t' Hin. assert (Hu : In u []); [|done]. apply (Hset t'). apply in_app_iff. right. apply (in_app_iff ((t1, WFirst true) :: es2) ((t2, WSecond true) :: es3)). by left.
  - apply H, (Hinv _ ((t2, WSecond true) :: es3)). by rewrite <- app_assoc.
Qed.
Print Assumptions C73_redis_listed_user_stays_partial.

(** Every answered check, also the marshal's, is right about the whitelist at one moment between its two
    statements (with Redis: unless the whitelist is abolished in between). *)
Theorem C73_checks_are_right : forall redis b w t0 es m k r,
  let s0 := w_init b w t0 in
  (redis = true -> forall t, ~ In (t, WSet (SReplace [])) es) -> w_others (w_run redis s0 es) !! m = Some (k, Result (Some r)) ->
  exists es1 t es2 es3, es = (es1 ++ (t, WMFirst m k true) :: es2) ++ es3
    /\ (let right w := r = true <-> allowed w k in
        right (w_list (w_run redis s0 es1)) \/ right (w_list (w_run redis s0 (es1 ++ (t, WMFirst m k true) :: es2)))).
Proof. intros redis b w t0 es m k r s0. by apply m_result_when. Qed.
Print Assumptions C73_checks_are_right.

(** With Redis, a key that is on no whitelist that is set passes no check. *)
Theorem C73_redis_unlisted_never_passes_partial : forall b w t0 es m k,
  let s0 := w_init b (Some w) t0 in
  k ∉ w -> (forall t l, In (t, WSet (SReplace l)) es -> l <> [] /\ ~ In k l) ->
  w_others (w_run true s0 es) !! m <> Some (k, Result (Some true)).
Proof.
  intros b w t0 es m k s0 Hw Hset Hr.
  destruct (C73_checks_are_right true b (Some w) t0 es m k true) as (es1 & t & es2 & es3 & -> & H); [|done|].
  { intros _ t Hin. by destruct (Hset _ _ Hin). }
  assert (Hinv : forall p q, (es1 ++ (t, WMFirst m k true) :: es2) ++ es3 = p ++ q -> revoked (w_list (w_run true s0 p)) k).
  { induction p as [|[t' e] p IH] using rev_ind; intros q Heq; [by apply Hw|]. rewrite w_run_snoc.
    assert (IH' : revoked (w_list (w_run true s0 p)) k) by (apply (IH ((t', e) :: q)); rewrite Heq, <- app_assoc; done).
    destruct e; cbn [w_step]; try (repeat case_match; exact IH'). destruct o as [| |l|l]; cbn; try exact IH'.
    destruct (Hset t' l) as [Hne Hn]; [rewrite Heq; apply in_app_iff; left; apply in_app_iff; right; by left|].
    destruct l as [|k' l]; [done|]. change (k ∉ (list_to_set (k' :: l) : gset bytes)). rewrite elem_of_list_to_set, elem_of_list_In. exact Hn. }
  cbv zeta in H. destruct H as [[H _]|[H _]].
  - apply (Hinv es1 ((t, WMFirst m k true) :: es2 ++ es3)); [by rewrite <- app_assoc|]. by apply H.
  - apply (Hinv _ es3 eq_refl). by apply H.
Qed.
Print Assumptions C73_redis_unlisted_never_passes_partial.
Example C73_example :
  let s0 := w_init ex_broker (Some {[ [7] ]}%N) 0 in
  let es := [(10, WOther (CAddUser [7] 1 [] 1)); (59, WMFirst 1 [9] true); (60, WWake [[7]]); (60, WFirst true); (60, WSet (SReplace [[8]; [7]])); (60, WMSecond 1 true); (60, WSecond true)]%N in
  allowed (w_list s0) [7]%N /\ (forall t l, In (t, WSet (SReplace l)) es -> In [7]%N l /\ l <> [] /\ ~ In [9]%N l)
  /\ registered (w_run true s0 es) [7]%N /\ w_others (w_run true s0 es) !! 1%N = Some ([9]%N, Result (Some false)).
Proof.
  cbv zeta. split; [change ([7]%N ∈ ({[ [7]%N ]} : gset bytes)); by apply elem_of_singleton|]. split.
  { intros t l H. cbn in H. repeat destruct H as [H|H]; try done. injection H as _ <-. split; [by right; left|]. split; [done|]. intros [H|[H|[]]]; done. }
  unfold registered. split; [vm_compute; eauto|vm_compute; reflexivity].
Qed.

(** SQLite: a user on the old and on the new list is disconnected, if the broker checks it after the new
    table has been created and before it has been filled. *)
Theorem C73_relisted_user_removed_refuted : exists es1 es2 l u,
  let s0 := w_init ex_broker (Some (list_to_set l)) 0 in
  let es := es1 ++ [(60, WSet SDrop); (60, WSet SCreate)]%N ++ es2 ++ [(61, WSet (SInsert l))]%N in
  In u l /\ in_time false 1 s0 es /\ answered es
  /\ (forall t o, In (t, WSet o) (es1 ++ es2) -> False) /\ (forall t u, ~ In (t, WOther (CRemoveUser u)) es)
  /\ registered (w_run false s0 es1) u /\ ~ registered (w_run false s0 es) u
  /\ w_list (w_run false s0 es) = Some (list_to_set l).
Proof.
  exists [(10, WOther (CAddUser [7] 1 [] 1)); (60, WWake [[7]])]%N, [(60, WFirst true); (60, WSecond true); (60, WAct)]%N, [[7]; [8]]%N, [7]%N.
  cbv zeta. split; [by left|]. split; [apply in_time_check; vm_compute; reflexivity|].
  split. { intros t. split; intros H; cbn in H; repeat destruct H as [H|H]; done. }
  split. { intros t o H. cbn in H. repeat destruct H as [H|H]; done. }
  split. { intros t u H. cbn in H. repeat destruct H as [H|H]; done. }
  unfold registered. rewrite <- eq_None_not_Some. split; [vm_compute; eauto|]. split; [vm_compute; reflexivity|]. apply (bool_decide_unpack _). vm_compute. exact I.
Qed.
Print Assumptions C73_relisted_user_removed_refuted.
(** SQLite: somebody who is neither on the old nor on the new list passes the marshal's check between DROP and CREATE. *)
Theorem C73_anyone_passes_while_replaced_refuted : exists l l' k,
  let s0 := w_init ex_broker (Some (list_to_set l)) 0 in
  let s := w_run false s0 [(5, WSet SDrop); (5, WMFirst 1 k true); (5, WSet SCreate); (6, WSet (SInsert l'))]%N in
  ~ In k l /\ ~ In k l' /\ w_list s = Some (list_to_set l') /\ w_others s !! 1%N = Some (k, Result (Some true)).
Proof.
  exists [[7]]%N, [[8]]%N, [9]%N. cbv zeta. split; [intros [H|[]]; done|]. split; [intros [H|[]]; done|].
  split; [apply (bool_decide_unpack _); vm_compute; exact I|vm_compute; reflexivity].
Qed.
Print Assumptions C73_anyone_passes_while_replaced_refuted.
(** Redis: when the whitelist is abolished (set to nothing) in the middle of a check, the user is removed although
    it was on the list before and everybody is allowed now. *)
Theorem C73_abolished_list_removes_refuted : exists es l u,
  let s0 := w_init ex_broker (Some (list_to_set l)) 0 in
  In u l /\ (forall t o, In (t, WSet o) es -> o = SReplace []) /\ (forall p q, es = p ++ q -> allowed (w_list (w_run true s0 p)) u)
  /\ registered (w_run true s0 (take 3 es)) u /\ ~ registered (w_run true s0 es) u /\ (forall t u, ~ In (t, WOther (CRemoveUser u)) es).
Proof.
  exists [(10, WOther (CAddUser [7] 1 [] 1)); (60, WWake [[7]]); (60, WFirst true); (60, WSet (SReplace [])); (60, WSecond true); (60, WAct)]%N, [[7]]%N, [7]%N.
  cbv zeta. split; [by left|]. split. { intros t o H. cbn in H. repeat destruct H as [H|H]; try done. by injection H. }
  split.
  { assert (Hc : forall s, (match w_list s with None => true | Some w => bool_decide ([7]%N ∈ w) end) = true -> allowed (w_list s) [7]%N).
    { intros s. unfold allowed. destruct (w_list s); [|done]. by intros H%bool_decide_eq_true_1. }
    intros p q Heq. apply Hc. revert p q Heq. apply (always_check true _ (fun s => match w_list s with None => true | Some w => bool_decide ([7]%N ∈ w) end)). vm_compute. reflexivity. }
  unfold registered. rewrite <- eq_None_not_Some. split; [vm_compute; eauto|]. split; [vm_compute; reflexivity|]. intros t u H. cbn in H. repeat destruct H as [H|H]; done.
Qed.
Print Assumptions C73_abolished_list_removes_refuted.
