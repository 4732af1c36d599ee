(** Lemmas on the discovery back ends: permits. *)
From stdpp Require Import gmap fin_maps list.
From Coq Require Import NArith Lia.
From Verif Require Import IdModel IdProofs DecModel DecProofs DiscModel.

(** ** Keys of the Redis back end *)
Lemma app_slash_inj a b x y : ~ In slash x -> ~ In slash y -> a ++ slash :: x = b ++ slash :: y -> a = b /\ x = y.
Proof.
  intros Hx Hy. revert b. induction a as [|h a IH]; intros [|k b]; cbn.
  - intros [= ->]. done.
  - intros [= _ ->]. exfalso. apply Hx. rewrite in_app_iff. right. by left.
  - intros [= _ <-]. exfalso. apply Hy. rewrite in_app_iff. right. by left.
  - intros [= -> H]. destruct (IH b H) as [-> ->]. done.
Qed.

Lemma permit_key_inj b p b' p' :
  permit_key false b p = permit_key false b' p' -> bid_print b = bid_print b' /\ p = p'.
Proof.
  unfold permit_key, s_permits. cbn [app]. intros H.
  change (47 :: ?x)%N with (slash :: x) in H.
  assert (Hshape : forall i q, i ++ slash :: 112%N :: 101%N :: 114%N :: 109%N :: 105%N :: 116%N :: 115%N :: slash :: dec q
    = (i ++ [slash; 112; 101; 114; 109; 105; 116; 115]%N) ++ slash :: dec q).
  { intros i q. by rewrite <- app_assoc. }
  change 47%N with slash in H. rewrite !Hshape in H. apply app_slash_inj in H as [H1 H2]; [|apply dec_no_slash..].
  apply dec_inj in H2. apply app_inv_tail in H1. done.
Qed.

Lemma permit_key_global_inj b p b' p' : permit_key true b p = permit_key true b' p' -> p = p'.
Proof. unfold permit_key. intros H. apply app_inv_head in H. by apply dec_inj. Qed.

Lemma permit_key_num_inj g b p b' p' : permit_key g b p = permit_key g b' p' -> p = p'.
Proof. destruct g; [apply permit_key_global_inj|]. by intros [_ ?]%permit_key_inj. Qed.

(** The last byte tells counters and permits apart. *)
Lemma last_app_cons {A} (a : list A) x l : last (a ++ x :: l) = last (x :: l).
Proof. rewrite last_app. cbn. destruct l; [done|]. destruct (last _) eqn:E; [done|]. by apply last_None in E. Qed.

Lemma dec_last n : exists x, last (dec n) = Some x /\ (48 <= x <= 57)%N.
Proof.
  destruct (last (dec n)) as [x|] eqn:E.
  - exists x. split; [done|]. apply last_Some in E as [l E]. eapply (dec_digits_range _ n). unfold dec in E. rewrite E. rewrite in_app_iff. right. by left.
  - apply last_None in E. by apply dec_digits_nonempty in E.
Qed.

Lemma conns_key_last i : last (conns_key i) = Some 115%N.
Proof. unfold conns_key, s_num_connections. by rewrite last_app_cons. Qed.
Lemma permit_key_last g b p : exists x, last (permit_key g b p) = Some x /\ (48 <= x <= 57)%N.
Proof.
  destruct (dec_last p) as (x & Hx & Hr). exists x. split; [|done].
  destruct (dec p) as [|d l] eqn:E; [done|].
  unfold permit_key. rewrite E. destruct g.
  - by rewrite last_app_cons.
  - rewrite app_assoc, last_app_cons. done.
Qed.
Lemma conns_permit_ne g i b p : conns_key i <> permit_key g b p.
Proof. intros H. destruct (permit_key_last g b p) as (x & Hx & Hr). rewrite <- H, conns_key_last in Hx. injection Hx as <-. lia. Qed.

Lemma conns_key_inj i j : conns_key i = conns_key j -> i = j.
Proof. apply app_inv_tail. Qed.

Lemma list_snoc_inv {A} (l : list A) o l3 x l4 :
  l ++ [o] = l3 ++ x :: l4 -> (l3 = l /\ x = o /\ l4 = []) \/ exists l4', l4 = l4' ++ [o] /\ l = l3 ++ x :: l4'.
Proof.
  destruct l4 as [|y l4' _] using rev_ind.
  - intros H. apply app_inj_tail in H as [-> ->]. by left.
  - intros H. rewrite app_comm_cons, app_assoc in H. apply app_inj_tail in H as [-> ->]. right. by exists l4'.
Qed.

(** ** Runs *)
Section runs.
Variable global : bool.
Notation e_step := (e_step global). Notation r_step := (r_step global).
Notation e_run := (e_run global). Notation r_run := (r_run global).
Notation e_answer := (e_answer global). Notation r_answer := (r_answer global).
Notation permit_key := (permit_key global).

Lemma e_run_snoc os o : e_run (os ++ [o]) = (e_step (e_run os) o).1.
Proof. unfold DiscModel.e_run. by rewrite fold_left_app. Qed.
Lemma r_run_snoc os o : r_run (os ++ [o]) = (r_step (r_run os) o).1.
Proof. unfold DiscModel.r_run. by rewrite fold_left_app. Qed.

(** The step on one permit row. *)
Lemma e_step_permit s o p :
  e_permits (e_step s o).1 !! p =
  match o with
  | DIssue now b p' ttl key =>
      if decide (p' = p) then
        Some (match e_permits s !! p with Some r => r | None => PermitRow (if global then [] else bid_print b) key (now + ttl) end)
      else e_permits s !! p
  | DPrune now => match e_permits s !! p with Some r => if (pr_expiry r <? now)%N then None else Some r | None => None end
  | DTake n b p' =>
      if decide (p' = p) then match (e_step s o).2 with Some _ => None | None => e_permits s !! p end
      else e_permits s !! p
  | _ => e_permits s !! p
  end.
Proof.
  destruct o as [now b p' ttl key|now|n b p'|n1 n2 b n ttl|now|l]; cbn.
  - unfold e_issue. destruct (decide (p' = p)) as [->|Hne].
    + destruct (e_permits s !! p) eqn:E; cbn; [done|]. by rewrite lookup_insert.
    + destruct (e_permits s !! p') eqn:E; cbn; [done|]. by rewrite lookup_insert_ne.
  - destruct (e_permits s !! p) as [r|] eqn:E.
    + destruct (pr_expiry r <? now)%N eqn:El.
      * apply map_filter_lookup_None. right. intros r' Hr'. cbn. rewrite E in Hr'. injection Hr' as <-. congruence.
      * by apply map_filter_lookup_Some.
    + apply map_filter_lookup_None. by left.
  - unfold e_take. destruct (N.ltb p' (2 ^ 32)) eqn:Hlt; [|by repeat case_decide].
    destruct (decide (p' = p)) as [->|Hne].
    + destruct (e_permits s !! p) as [r|] eqn:E; [|done]. case_decide; cbn; [by rewrite lookup_delete|done].
    + destruct (e_permits s !! p') as [r|] eqn:E; [|done]. case_decide; cbn; [by rewrite lookup_delete_ne|done].
  - unfold e_heartbeat. destruct (n <? 2 ^ 32)%N; done.
  - done.
  - unfold e_set_whitelist. by case_decide.
Qed.

Lemma e_take_answer os n b p k :
  e_answer os (DTake n b p) = Some k <->
  (p < 2 ^ 32)%N /\ exists r, e_permits (e_run os) !! p = Some r /\ pr_key r = k /\ (global = true \/ pr_ident r = bid_print b).
Proof.
  unfold DiscModel.e_answer. cbn. unfold e_take. destruct (N.ltb_spec p (2 ^ 32)) as [Hlt|Hge].
  - destruct (e_permits (e_run os) !! p) as [r|] eqn:E.
    + case_decide as Hd; cbn.
      * split; [intros [= <-]; split; [done|]; by exists r|]. intros (_ & r' & [= <-] & <- & _). done.
      * split; [done|]. intros (_ & r' & [= <-] & _ & ?). done.
    + split; [done|]. intros (_ & r & ? & _). done.
  - split; [done|]. intros [? _]. lia.
Qed.

(** Where an outstanding permit comes from. *)
Lemma e_origin os p r :
  e_permits (e_run os) !! p = Some r ->
  exists os1 now b ttl os2, os = os1 ++ DIssue now b p ttl (pr_key r) :: os2
    /\ pr_ident r = (if global then [] else bid_print b) /\ pr_expiry r = (now + ttl)%N
    /\ (forall t, In (DPrune t) os2 -> (t <= now + ttl)%N)
    /\ (forall os3 n b' os4, os2 = os3 ++ DTake n b' p :: os4 ->
          e_answer (os1 ++ DIssue now b p ttl (pr_key r) :: os3) (DTake n b' p) = None).
Proof.
  revert r. induction os as [|o os IH] using rev_ind; intros r; [cbn; by rewrite lookup_empty|].
  rewrite e_run_snoc, e_step_permit.
  assert (Hkeep : e_permits (e_run os) !! p = Some r ->
    (forall t, o = DPrune t -> (t <= pr_expiry r)%N) ->
    (forall n b', o = DTake n b' p -> e_answer os o = None) ->
    exists os1 now b ttl os2, os ++ [o] = os1 ++ DIssue now b p ttl (pr_key r) :: os2
    /\ pr_ident r = (if global then [] else bid_print b) /\ pr_expiry r = (now + ttl)%N
    /\ (forall t, In (DPrune t) os2 -> (t <= now + ttl)%N)
    /\ (forall os3 n b' os4, os2 = os3 ++ DTake n b' p :: os4 ->
          e_answer (os1 ++ DIssue now b p ttl (pr_key r) :: os3) (DTake n b' p) = None)).
  { intros Hr Hp Ht. destruct (IH r Hr) as (os1 & now & b & ttl & os2 & -> & Hi & He & Hpr & Htk).
    exists os1, now, b, ttl, (os2 ++ [o]). split; [by rewrite <- app_assoc|]. split; [done|]. split; [done|]. split.
    - intros t. rewrite in_app_iff. intros [H|[->|[]]]; [by apply Hpr|]. rewrite <- He. by apply Hp.
    - intros os3 n b' os4 Heq. destruct (list_snoc_inv os2 o os3 (DTake n b' p) os4 Heq) as [(-> & Ho & ->)|(os4' & -> & ->)].
      + rewrite Ho. by apply (Ht n b').
      + by apply (Htk os3 n b' os4'). }
  destruct o as [now b p' ttl key|now|n b p'|n1 n2 b n ttl|now|l]; try (intros Hr; apply Hkeep; [done|by intros|by intros]).
  - case_decide as Hd; [subst p'|intros Hr; apply Hkeep; [done|by intros|by intros]].
    destruct (e_permits (e_run os) !! p) as [r0|] eqn:E; intros [= <-].
    + apply Hkeep; [done|by intros|by intros].
    + cbn. exists os, now, b, ttl, []. split; [done|]. split; [done|]. split; [done|]. split; [done|].
      intros os3 ? ? ? Heq. by destruct os3.
  - destruct (e_permits (e_run os) !! p) as [r0|] eqn:E; [|done]. destruct (N.ltb_spec (pr_expiry r0) now) as [Hlt|Hge]; [done|].
    intros [= <-]. apply Hkeep; [done|by intros ? [= <-]|by intros].
  - case_decide as Hd; [subst p'|intros Hr; apply Hkeep; [done|by intros|by intros ? ? [= _ _ ?]]].
    destruct ((e_step (e_run os) (DTake n b p)).2) eqn:Ea; [done|]. intros Hr. apply Hkeep; [done|by intros|]. intros n' b' [= -> ->]. exact Ea.
Qed.
End runs.
