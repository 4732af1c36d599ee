(** Lemmas on the discovery back ends: single use of permits, counting, Redis. *)
From stdpp Require Import gmap fin_maps list.
From Coq Require Import NArith Lia.
From Verif Require Import IdModel IdProofs DecModel DecProofs DiscModel DiscSpec DiscProofs.

Lemma app_split {A} (l1 : list A) x l2 l3 y l4 :
  l1 ++ x :: l2 = l3 ++ y :: l4 ->
  (l1 = l3 /\ x = y /\ l2 = l4)
  \/ (exists l, l2 = l ++ y :: l4 /\ l3 = l1 ++ x :: l)
  \/ (exists l, l4 = l ++ x :: l2 /\ l1 = l3 ++ y :: l).
Proof.
  revert l3. induction l1 as [|a l1 IH]; intros [|b l3]; cbn.
  - intros [= -> ->]. by left.
  - intros [= -> ->]. right. left. by exists l3.
  - intros [= -> <-]. right. right. by exists l1.
  - intros [= -> H]. destruct (IH l3 H) as [(-> & -> & ->)|[(l & -> & ->)|(l & -> & ->)]]; [by left|right; left; by exists l|right; right; by exists l].
Qed.

Lemma accepted_from_snoc ans k pre os o :
  accepted_from ans k pre (os ++ [o]) = accepted_from ans k pre os + (if decide (ans (pre ++ os) o = Some k) then 1 else 0).
Proof.
  revert pre; induction os as [|x os IH]; intros pre; cbn.
  - rewrite app_nil_r. lia.
  - rewrite IH. rewrite <- app_assoc. cbn. lia.
Qed.
Lemma accepted_snoc ans k os o :
  accepted ans k (os ++ [o]) = accepted ans k os + (if decide (ans os o = Some k) then 1 else 0).
Proof. apply accepted_from_snoc. Qed.
Lemma issued_snoc k os o : issued k (os ++ [o]) = issued k os + (if issued_op k o then 1 else 0).
Proof. unfold issued. rewrite List.filter_app, app_length. cbn. by destruct (issued_op k o). Qed.

(** Sizes of filtered maps. *)
Lemma map_subseteq_size {K V} `{Countable K} (m1 m2 : gmap K V) : m1 ⊆ m2 -> size m1 <= size m2.
Proof. intros Hs. rewrite <- !(size_dom (D := gset K)). apply subseteq_size. by apply subseteq_dom. Qed.

Section sizes.
Context {K V : Type} `{Countable K}.
Variable P : K * V -> Prop.
Context {Pdec : forall x, Decision (P x)}.
Implicit Types m : gmap K V.

Lemma filter_delete_le m i : size (filter P (delete i m)) <= size (filter P m).
Proof. rewrite map_filter_delete. apply map_subseteq_size, delete_subseteq. Qed.

Lemma filter_insert_le m i x :
  size (filter P (<[i := x]> m)) <= size (filter P m) + (if decide (P (i, x)) then 1 else 0).
Proof.
  destruct (decide (P (i, x))) as [Hp|Hp].
  - rewrite map_filter_insert_True by done. rewrite map_size_insert. destruct (filter P m !! i); cbn; lia.
  - rewrite map_filter_insert_False by done. pose proof (filter_delete_le m i). lia.
Qed.

Lemma filter_delete_drop m i x : m !! i = Some x -> P (i, x) -> S (size (filter P (delete i m))) = size (filter P m).
Proof.
  intros Hm Hp. rewrite map_filter_delete.
  assert (Hf : filter P m !! i = Some x) by (by apply map_filter_lookup_Some).
  rewrite <- (insert_delete (filter P m) i x Hf) at 2. rewrite map_size_insert_None by apply lookup_delete. done.
Qed.
End sizes.

Section runs.
Variable global : bool.
Notation e_step := (e_step global). Notation r_step := (r_step global).
Notation e_run := (e_run global). Notation r_run := (r_run global).
Notation e_answer := (e_answer global). Notation r_answer := (r_answer global).
Notation permit_key := (permit_key global).

(** ** SQLite *)
Lemma e_single_use os1 n1 b1 p k1 os2 n2 b2 k2 :
  e_answer os1 (DTake n1 b1 p) = Some k1 ->
  e_answer (os1 ++ DTake n1 b1 p :: os2) (DTake n2 b2 p) = Some k2 ->
  exists now b ttl, In (DIssue now b p ttl k2) os2.
Proof.
  intros H1 H2. apply e_take_answer in H2 as (_ & r & Hr & <- & _).
  apply e_origin in Hr as (osA & now & b & ttl & osB & Heq & _ & _ & _ & Hno).
  apply app_split in Heq as [(_ & ? & _)|[(l & -> & ->)|(l & -> & ->)]]; [done| |].
  - exists now, b, ttl. rewrite in_app_iff. right. by left.
  - specialize (Hno l n1 b1 os2 eq_refl). congruence.
Qed.

Lemma e_accept_reason os n b p k :
  e_answer os (DTake n b p) = Some k ->
  exists os1 now b0 ttl os2, os = os1 ++ DIssue now b0 p ttl k :: os2
    /\ (global = true \/ bid_print b0 = bid_print b)
    /\ (forall t, In (DPrune t) os2 -> (t <= now + ttl)%N)
    /\ (forall os3 n' b' os4, os2 = os3 ++ DTake n' b' p :: os4 ->
          e_answer (os1 ++ DIssue now b0 p ttl k :: os3) (DTake n' b' p) = None).
Proof.
  intros H. apply e_take_answer in H as (_ & r & Hr & <- & Hg).
  apply e_origin in Hr as (osA & now & b0 & ttl & osB & Heq & Hi & _ & Hp & Hno).
  exists osA, now, b0, ttl, osB. split; [done|]. split; [|done].
  destruct Hg as [Hg|Hg]; [by left|]. destruct global; [by left|right; congruence].
Qed.

(** A permit that was issued, has not been taken or cleaned up, is accepted. *)
Lemma e_accept_fresh os now b p ttl k n :
  (p < 2 ^ 32)%N -> e_permits (e_run os) !! p = None ->
  e_answer (os ++ [DIssue now b p ttl k]) (DTake n b p) = Some k.
Proof.
  intros Hp Hn. apply e_take_answer. split; [done|]. rewrite e_run_snoc, e_step_permit, decide_True, Hn by done.
  eexists. split; [done|]. split; [done|]. cbn. destruct global; auto.
Qed.

Lemma e_count k os : accepted e_answer k os + size (filter (fun kv : N * permit_row => pr_key kv.2 = k) (e_permits (e_run os))) <= issued k os.
Proof.
  induction os as [|o os IH] using rev_ind.
  { cbn. unfold accepted, issued. cbn. rewrite map_filter_empty, map_size_empty. lia. }
  rewrite accepted_snoc, issued_snoc, e_run_snoc. set (s := e_run os) in *.
  destruct o as [now b p' ttl key|now|n b p'|n1 n2 b n ttl|now|l]; cbn [DiscModel.e_step fst snd issued_op].
  - rewrite decide_False by done. unfold e_issue. destruct (e_permits s !! p') eqn:E; cbn [fst e_permits]; [lia|].
    pose proof (filter_insert_le (fun kv : N * permit_row => pr_key kv.2 = k) (e_permits s) p' (PermitRow (if global then [] else bid_print b) key (now + ttl))) as Hle.
    cbn [snd pr_key] in Hle. destruct (decide (key = k)); [rewrite bool_decide_true by done|rewrite bool_decide_false by done]; lia.
  - rewrite decide_False by done. cbn.
    assert (Hs : filter (fun kv : N * permit_row => pr_key kv.2 = k) (filter (fun kv : N * permit_row => (pr_expiry kv.2 <? now)%N = false) (e_permits s))
       ⊆ filter (fun kv : N * permit_row => pr_key kv.2 = k) (e_permits s)).
    { apply map_subseteq_spec. intros i x. rewrite !map_filter_lookup_Some. tauto. }
    apply map_subseteq_size in Hs. lia.
  - destruct (decide (e_answer os (DTake n b p') = Some k)) as [Hk|Hk].
    + apply e_take_answer in Hk as (Hp & r & E & Hk & Hg). fold s in E. unfold e_take.
      rewrite (proj2 (N.ltb_lt _ _) Hp), E, decide_True by done. cbn [fst e_permits].
      pose proof (filter_delete_drop (fun kv : N * permit_row => pr_key kv.2 = k) (e_permits s) p' r E Hk). lia.
    + unfold e_take. pose proof (filter_delete_le (fun kv : N * permit_row => pr_key kv.2 = k) (e_permits s) p').
      destruct (p' <? 2 ^ 32)%N; [|cbn; lia]. destruct (e_permits s !! p') as [r|]; [|cbn; lia]. case_decide; cbn [fst e_permits]; lia.
  - rewrite decide_False by done. unfold e_heartbeat. destruct (n <? 2 ^ 32)%N; cbn; lia.
  - rewrite decide_False by done. cbn. lia.
  - rewrite decide_False by done. unfold e_set_whitelist. case_decide; cbn; lia.
Qed.

(** ** Redis *)
Lemma r_step_permit s o b p :
  r_keys (r_step s o).1 !! permit_key b p =
  match o with
  | DIssue now b' p' ttl key =>
      if decide (permit_key b' p' = permit_key b p) then Some (key, (now + ttl)%N) else r_keys s !! permit_key b p
  | DTake n b' p' => if decide (permit_key b' p' = permit_key b p) then None else r_keys s !! permit_key b p
  | _ => r_keys s !! permit_key b p
  end.
Proof.
  destruct o as [now b' p' ttl key|now|n b' p'|n1 n2 b' n ttl|now|l]; cbn; try done.
  - case_decide as Hd; [rewrite Hd; by rewrite lookup_insert|by rewrite lookup_insert_ne].
  - case_decide as Hd; [rewrite Hd; by rewrite lookup_delete|by rewrite lookup_delete_ne].
  - rewrite lookup_insert_ne; [done|]. apply conns_permit_ne.
Qed.

Lemma r_take_answer os n b p k :
  r_answer os (DTake n b p) = Some k <->
  exists exp, r_keys (r_run os) !! permit_key b p = Some (k, exp) /\ (n < exp)%N.
Proof.
  unfold DiscModel.r_answer. cbn. unfold r_get. destruct (r_keys (r_run os) !! permit_key b p) as [[v exp]|].
  - destruct (N.ltb_spec n exp) as [Hlt|Hge].
    + split; [intros [= ->]; by exists exp|]. by intros (e & [= -> ->] & _).
    + split; [done|]. intros (e & [= _ ->] & ?). lia.
  - split; [done|]. by intros (e & ? & _).
Qed.

Lemma r_origin os b p k exp :
  r_keys (r_run os) !! permit_key b p = Some (k, exp) ->
  exists os1 now b0 ttl os2, os = os1 ++ DIssue now b0 p ttl k :: os2
    /\ permit_key b0 p = permit_key b p /\ exp = (now + ttl)%N
    /\ (forall n b' , In (DTake n b' p) os2 -> permit_key b' p <> permit_key b p).
Proof.
  revert k exp. induction os as [|o os IH] using rev_ind; intros k exp; [cbn; by rewrite lookup_empty|].
  rewrite r_run_snoc, r_step_permit.
  assert (Hkeep : r_keys (r_run os) !! permit_key b p = Some (k, exp) ->
    (forall n b', o = DTake n b' p -> permit_key b' p <> permit_key b p) ->
    exists os1 now b0 ttl os2, os ++ [o] = os1 ++ DIssue now b0 p ttl k :: os2
    /\ permit_key b0 p = permit_key b p /\ exp = (now + ttl)%N
    /\ (forall n b' , In (DTake n b' p) os2 -> permit_key b' p <> permit_key b p)).
  { intros Hr Ht. destruct (IH k exp Hr) as (os1 & now & b0 & ttl & os2 & -> & Hi & He & Htk).
    exists os1, now, b0, ttl, (os2 ++ [o]). split; [by rewrite <- app_assoc|]. split; [done|]. split; [done|].
    intros n b'. rewrite in_app_iff. intros [H|[Ho|[]]]; [by eapply Htk|by eapply Ht]. }
  destruct o as [now b' p' ttl key|now|n b' p'|n1 n2 b' n ttl|now|l]; try (intros Hr; apply Hkeep; [done|by intros]).
  - case_decide as Hd; [|intros Hr; apply Hkeep; [done|by intros]]. intros [= <- <-].
    pose proof Hd as Hd2. apply permit_key_num_inj in Hd2 as ->. exists os, now, b', ttl, []. done.
  - case_decide as Hd; [done|]. intros Hr. apply Hkeep; [done|]. intros n' b'' [= -> -> ->]. done.
Qed.

Lemma r_accept_reason os n b p k :
  r_answer os (DTake n b p) = Some k ->
  exists os1 now b0 ttl os2, os = os1 ++ DIssue now b0 p ttl k :: os2
    /\ (global = true \/ bid_print b0 = bid_print b)
    /\ (n < now + ttl)%N
    /\ (forall n' b', In (DTake n' b' p) os2 -> global = false /\ bid_print b' <> bid_print b).
Proof.
  intros H. apply r_take_answer in H as (exp & Hr & Hlt). apply r_origin in Hr as (os1 & now & b0 & ttl & os2 & -> & Hk & -> & Hno).
  exists os1, now, b0, ttl, os2. split; [done|]. split.
  { destruct global eqn:Eg; [by left|right]. by apply permit_key_inj in Hk as [? _]. }
  split; [done|]. intros n' b' Hin. specialize (Hno n' b' Hin). destruct global eqn:Eg.
  - exfalso. apply Hno. done.
  - split; [done|]. intros Heq. apply Hno. unfold DiscModel.permit_key. by rewrite Heq.
Qed.

Lemma r_accept_fresh os now b p ttl k n :
  (n < now + ttl)%N -> r_answer (os ++ [DIssue now b p ttl k]) (DTake n b p) = Some k.
Proof.
  intros Hn. apply r_take_answer. rewrite r_run_snoc, r_step_permit, decide_True by done. by exists (now + ttl)%N.
Qed.

Lemma r_single_use os1 n1 b1 p k1 os2 n2 b2 k2 :
  r_answer os1 (DTake n1 b1 p) = Some k1 ->
  r_answer (os1 ++ DTake n1 b1 p :: os2) (DTake n2 b2 p) = Some k2 ->
  (exists now b ttl, In (DIssue now b p ttl k2) os2)
  \/ (global = false /\ bid_print b1 <> bid_print b2 /\ exists now1 ttl1 b1' now2 ttl2 b2',
        bid_print b1' = bid_print b1 /\ bid_print b2' = bid_print b2
        /\ In (DIssue now1 b1' p ttl1 k1) os1 /\ In (DIssue now2 b2' p ttl2 k2) os1).
Proof.
  intros H1 H2.
  apply r_accept_reason in H2 as (osA & now & b & ttl & osB & Heq & Hg & _ & Hno).
  apply app_split in Heq as [(_ & ? & _)|[(l & -> & ->)|(l & -> & ->)]]; [done| |].
  - left. exists now, b, ttl. rewrite in_app_iff. right. by left.
  - right. destruct (Hno n1 b1) as [Hgl Hne]; [rewrite in_app_iff; right; by left|].
    split; [done|]. split; [done|].
    apply r_accept_reason in H1 as (osC & now' & b' & ttl' & osD & Heq & Hg' & _ & _).
    exists now', ttl', b', now, ttl, b. destruct Hg as [?|Hg]; [congruence|]. destruct Hg' as [?|Hg']; [congruence|].
    split; [done|]. split; [done|]. split; [rewrite Heq|]; rewrite in_app_iff; right; by left.
Qed.

(** The rows that count: not counters of connections, with key [k]. *)
Definition r_row (k : bytes) (kv : bytes * (bytes * N)) : Prop := last kv.1 <> Some 115%N /\ kv.2.1 = k.
Global Instance r_row_dec k kv : Decision (r_row k kv).
Proof. unfold r_row. apply _. Defined.

Lemma r_count k os : accepted r_answer k os + size (filter (r_row k) (r_keys (r_run os))) <= issued k os.
Proof.
  induction os as [|o os IH] using rev_ind.
  { cbn. unfold accepted, issued. cbn. rewrite map_filter_empty, map_size_empty. lia. }
  rewrite accepted_snoc, issued_snoc, r_run_snoc. set (s := r_run os) in *.
  destruct o as [now b p' ttl key|now|n b p'|n1 n2 b n ttl|now|l]; cbn [DiscModel.r_step fst snd issued_op r_keys].
  - rewrite decide_False by done. cbn [r_issue r_keys].
    pose proof (filter_insert_le (r_row k) (r_keys s) (permit_key b p') (key, (now + ttl)%N)) as Hle.
    destruct (decide (r_row k (permit_key b p', (key, (now + ttl)%N)))) as [[_ Hr]|Hr].
    + cbn in Hr. rewrite bool_decide_true by done. cbn [r_keys r_issue]. lia.
    + cbn [r_keys r_issue]. destruct (bool_decide (key = k)); lia.
  - rewrite decide_False by done. lia.
  - cbn [r_take fst snd r_keys].
    destruct (decide (r_answer os (DTake n b p') = Some k)) as [Hk|Hk].
    + apply r_take_answer in Hk as (exp & E & _). fold s in E.
      assert (Hrow : r_row k (permit_key b p', (k, exp))).
      { split; [|done]. cbn. destruct (permit_key_last global b p') as (x & Hx & Hr). rewrite Hx. intros [= ->]. lia. }
      pose proof (filter_delete_drop (r_row k) (r_keys s) _ _ E Hrow). unfold r_take; cbn [fst snd r_keys]. lia.
    + pose proof (filter_delete_le (r_row k) (r_keys s) (permit_key b p')). unfold r_take; cbn [fst snd r_keys]. lia.
  - rewrite decide_False by done. unfold r_heartbeat; cbn [r_keys].
    pose proof (filter_insert_le (r_row k) (r_keys s) (conns_key (bid_print b)) (dec n, (n2 + ttl)%N)) as Hle.
    rewrite decide_False in Hle; [lia|]. intros [Hl _]. apply Hl. apply conns_key_last.
  - rewrite decide_False by done. lia.
  - rewrite decide_False by done. unfold r_set_whitelist; cbn. lia.
Qed.
End runs.
