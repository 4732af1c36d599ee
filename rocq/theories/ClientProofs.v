(** Invariants of the client. *)
From stdpp Require Import gmap list.
From Coq Require Import NArith Lia.
From Verif Require Import TopicModel TopicProofs ClientModel.

Lemma pa_lookup {A} (m : gmap N A) t p t' :
  partial_alter (fun _ => p) t m !! t' = if decide (t = t') then p else m !! t'.
Proof. case_decide; subst; [by rewrite lookup_partial_alter | by rewrite lookup_partial_alter_ne]. Qed.

Lemma ins_lookup {A} (m : gmap N A) t p t' :
  <[t := p]> m !! t' = if decide (t = t') then Some p else m !! t'.
Proof. case_decide; subst; [by rewrite lookup_insert | by rewrite lookup_insert_ne]. Qed.

Lemma kgo_app k es1 es2 :
  kgo k (es1 ++ es2) = ((kgo (kgo k es1).1 es2).1, (kgo k es1).2 ++ (kgo (kgo k es1).1 es2).2).
Proof.
  revert k. induction es1 as [|e es1 IH]; intros k; [cbn; by destruct (kgo k es2)|].
  change ((e :: es1) ++ es2) with (e :: (es1 ++ es2)). cbn [kgo]. destruct (kstep k e) as [k' o]. rewrite IH.
  destruct (kgo k' es1) as [k1 o1]. cbn [fst snd]. by rewrite app_assoc.
Qed.

Lemma kgo_cons k e es : kgo k (e :: es) = ((kgo (kstep k e).1 es).1, (kstep k e).2 ++ (kgo (kstep k e).1 es).2).
Proof. cbn [kgo]. destruct (kstep k e) as [k' o]. cbn [fst snd]. by destruct (kgo k' es). Qed.

Lemma krun_snoc ts es e :
  krun ts (es ++ [e]) = ((kstep (krun ts es).1 e).1, (krun ts es).2 ++ (kstep (krun ts es).1 e).2).
Proof. unfold krun. rewrite kgo_app, kgo_cons. cbn. by rewrite app_nil_r. Qed.

(** * Reconnection tasks, permit, locks *)
Record tinv (slot wl : option N) (permit subr : bool) (tasks : gmap N qc) (nextr : N) : Prop := {
  ti_uniq : forall r1 r2 q1 q2, tasks !! r1 = Some q1 -> tasks !! r2 = Some q2 -> q1 <> QRel -> q2 <> QRel -> r1 = r2;
  ti_permit : permit = true -> forall r q, tasks !! r = Some q -> q = QRel;
  ti_taken : permit = false -> exists r q, tasks !! r = Some q /\ q <> QRel;
  ti_holds : forall r q, tasks !! r = Some q -> q <> QLock -> wl = Some r;
  ti_held : forall r, wl = Some r -> exists q, tasks !! r = Some q /\ q <> QLock;
  ti_slot : forall r q, tasks !! r = Some q -> q <> QRel -> q <> QGot -> slot = None;
  ti_subr : subr = true -> exists r l, tasks !! r = Some (QAuth l);
  ti_auth : forall r l, tasks !! r = Some (QAuth l) -> subr = true;
  ti_fresh : forall r q, tasks !! r = Some q -> (r < nextr)%N;
}.

Definition tk (k : client) : Prop := tinv (k_slot k) (k_wl k) (k_permit k) (k_subr k) (k_tasks k) (k_nextr k).

Lemma ti_empty_slot s w p b ts n : tinv s w p b ts n -> tinv None w p b ts n.
Proof. intros []. split; auto. Qed.

(** A task moves to another place without releasing or acquiring anything. *)
Lemma ti_same s w p b ts n r q q' :
  tinv s w p b ts n -> ts !! r = Some q -> q <> QRel -> q' <> QRel -> q <> QLock -> q' <> QLock ->
  q <> QGot -> q' <> QGot -> (forall l, q <> QAuth l) -> (forall l, q' <> QAuth l) ->
  tinv s w p b (partial_alter (fun _ => Some q') r ts) n.
Proof.
  intros [] Hr; intros. split.
  - intros r1 r2 q1 q2. rewrite !pa_lookup. repeat case_decide; intros; simplify_eq; eauto.
  - intros Hp r1 q1. rewrite pa_lookup. case_decide; intros; simplify_eq; eauto. exfalso; naive_solver.
  - intros Hp. destruct (ti_taken0 Hp) as (r1&q1&Hx1&?). destruct (decide (r = r1)) as [<-|].
    + exists r, q'. rewrite pa_lookup, decide_True; done.
    + exists r1, q1. rewrite pa_lookup, decide_False; done.
  - intros r1 q1. rewrite pa_lookup. case_decide; intros; simplify_eq; eauto.
  - intros r1 Hw. destruct (ti_held0 r1 Hw) as (q1&?&?). destruct (decide (r = r1)) as [<-|].
    + exists q'. rewrite pa_lookup, decide_True; auto.
    + exists q1. rewrite pa_lookup, decide_False; auto.
  - intros r1 q1. rewrite pa_lookup. case_decide; intros; simplify_eq; eauto.
  - intros Hb. destruct (ti_subr0 Hb) as (r1&l&?). exists r1, l. rewrite pa_lookup, decide_False; auto.
    intros ->. naive_solver.
  - intros r1 l. rewrite pa_lookup. case_decide; intros; simplify_eq; eauto. naive_solver.
  - intros r1 q1. rewrite pa_lookup. case_decide; intros; simplify_eq; eauto.
Qed.

Lemma ti_lock s p b ts n r :
  tinv s None p b ts n -> ts !! r = Some QLock -> tinv s (Some r) p b (partial_alter (fun _ => Some QTop) r ts) n.
Proof.
  intros [] Hr.
  assert (Hall : forall r1 q1, ts !! r1 = Some q1 -> q1 = QLock).
  { intros r1 q1 H1. destruct q1; auto; exfalso; assert (None = Some r1) by (eapply ti_holds0; eauto; done); done. }
  split.
  - intros r1 r2 q1 q2. rewrite !pa_lookup. repeat case_decide; intros; simplify_eq; eauto.
  - intros Hp. specialize (ti_permit0 Hp r _ Hr). done.
  - intros Hp. destruct (ti_taken0 Hp) as (r1&q1&Hx1&?). destruct (decide (r = r1)) as [<-|].
    + exists r, QTop. rewrite pa_lookup, decide_True; done.
    + exists r1, q1. rewrite pa_lookup, decide_False; done.
  - intros r1 q1. rewrite pa_lookup. case_decide; intros; simplify_eq; eauto. exfalso; eauto.
  - intros r1 [= <-]. exists QTop. rewrite pa_lookup, decide_True; auto.
  - intros r1 q1. rewrite pa_lookup. case_decide; intros; simplify_eq; eauto.
  - intros Hb. destruct (ti_subr0 Hb) as (r1&l&Hl). specialize (Hall _ _ Hl). done.
  - intros r1 l. rewrite pa_lookup. case_decide; intros; simplify_eq; eauto.
  - intros r1 q1. rewrite pa_lookup. case_decide; intros; simplify_eq; eauto.
Qed.

Lemma ti_reading s w p b ts n r l :
  tinv s w p b ts n -> ts !! r = Some QNet -> tinv s w p true (partial_alter (fun _ => Some (QAuth l)) r ts) n.
Proof.
  intros [] Hr. split.
  - intros r1 r2 q1 q2. rewrite !pa_lookup. repeat case_decide; intros; simplify_eq; eauto.
  - intros Hp. specialize (ti_permit0 Hp r _ Hr). done.
  - intros Hp. destruct (ti_taken0 Hp) as (r1&q1&Hx1&?). destruct (decide (r = r1)) as [<-|].
    + exists r, (QAuth l). rewrite pa_lookup, decide_True; done.
    + exists r1, q1. rewrite pa_lookup, decide_False; done.
  - intros r1 q1. rewrite pa_lookup. case_decide; intros; simplify_eq; eauto.
  - intros r1 Hw. destruct (ti_held0 r1 Hw) as (q1&?&?). destruct (decide (r = r1)) as [<-|].
    + exists (QAuth l). rewrite pa_lookup, decide_True; auto.
    + exists q1. rewrite pa_lookup, decide_False; auto.
  - intros r1 q1. rewrite pa_lookup. case_decide; intros; simplify_eq; eauto.
  - intros _. exists r, l. rewrite pa_lookup, decide_True; auto.
  - done.
  - intros r1 q1. rewrite pa_lookup. case_decide; intros; simplify_eq; eauto.
Qed.

(** Authentication ends, one way or the other. *)
Lemma ti_read_done s w p b ts n r l (q' : qc) s' :
  tinv s w p b ts n -> ts !! r = Some (QAuth l) -> (q' = QSleep /\ s' = s) \/ q' = QGot ->
  tinv s' w p false (partial_alter (fun _ => Some q') r ts) n.
Proof.
  intros [] Hr Hq'.
  assert (Ho : forall r1 q1, r <> r1 -> ts !! r1 = Some q1 -> q1 = QRel).
  { intros r1 q1 Hne H1. destruct q1; auto; exfalso; apply Hne; eapply ti_uniq0; eauto. }
  assert (q' <> QRel /\ q' <> QLock /\ forall l', q' <> QAuth l') as (?&?&?) by (destruct Hq' as [[-> _]| ->]; split_and!; done).
  split.
  - intros r1 r2 q1 q2. rewrite !pa_lookup. repeat case_decide; intros; simplify_eq; eauto.
  - intros Hp. specialize (ti_permit0 Hp r _ Hr). done.
  - intros Hp. destruct (ti_taken0 Hp) as (r1&q1&Hx1&?). destruct (decide (r = r1)) as [<-|].
    + exists r, q'. rewrite pa_lookup, decide_True; done.
    + exists r1, q1. rewrite pa_lookup, decide_False; done.
  - intros r1 q1. rewrite pa_lookup. case_decide; intros; simplify_eq; eauto.
  - intros r1 Hw. destruct (ti_held0 r1 Hw) as (q1&?&?). destruct (decide (r = r1)) as [<-|].
    + exists q'. rewrite pa_lookup, decide_True; auto.
    + exists q1. rewrite pa_lookup, decide_False; auto.
  - intros r1 q1. rewrite pa_lookup. case_decide; intros Hx Hx2 Hx3; simplify_eq.
    + destruct Hq' as [[-> ->]| ->]; [|done]. eapply ti_slot0; eauto.
    + exfalso. naive_solver.
  - done.
  - intros r1 l1. rewrite pa_lookup. case_decide as Hd; intros Hx; simplify_eq; [naive_solver|].
    specialize (Ho _ _ Hd Hx). done.
  - intros r1 q1. rewrite pa_lookup. case_decide; intros; simplify_eq; eauto.
Qed.

Lemma ti_got s w p b ts n r :
  tinv s w p b ts n -> ts !! r = Some QGot -> tinv s w true b (partial_alter (fun _ => Some QRel) r ts) n.
Proof.
  intros [] Hr.
  assert (Ho : forall r1 q1, r <> r1 -> ts !! r1 = Some q1 -> q1 = QRel).
  { intros r1 q1 Hne H1. destruct q1; auto; exfalso; apply Hne; eapply ti_uniq0; eauto. }
  split.
  - intros r1 r2 q1 q2. rewrite !pa_lookup. repeat case_decide; intros; simplify_eq; eauto.
  - intros Hp r1 q1. rewrite pa_lookup. case_decide; intros; simplify_eq; eauto.
  - done.
  - intros r1 q1. rewrite pa_lookup. case_decide; intros; simplify_eq; eauto.
  - intros r1 Hw. destruct (ti_held0 r1 Hw) as (q1&?&?). destruct (decide (r = r1)) as [<-|].
    + exists QRel. rewrite pa_lookup, decide_True; auto.
    + exists q1. rewrite pa_lookup, decide_False; auto.
  - intros r1 q1. rewrite pa_lookup. case_decide; intros; simplify_eq; eauto.
  - intros Hb. destruct (ti_subr0 Hb) as (r1&l&?). exists r1, l. rewrite pa_lookup, decide_False; auto.
    intros ->. naive_solver.
  - intros r1 l. rewrite pa_lookup. case_decide; intros; simplify_eq; eauto.
  - intros r1 q1. rewrite pa_lookup. case_decide; intros; simplify_eq; eauto.
Qed.

(** A task ends: [p'] is the permit afterwards. *)
Lemma ti_gone s w p b ts n r q p' b' w' :
  tinv s w p b ts n -> ts !! r = Some q ->
  (q = QRel /\ p' = p \/ q <> QRel /\ p' = true) ->
  b' = match q with QAuth _ => false | _ => b end ->
  (q = QLock /\ w' = w \/ q <> QLock /\ w' = None) ->
  tinv s w' p' b' (partial_alter (fun _ => None) r ts) n.
Proof.
  intros [] Hr Hp' -> Hw'.
  assert (Hw1 : forall r1 q1, r <> r1 -> ts !! r1 = Some q1 -> q1 <> QLock -> q <> QLock -> False).
  { intros r1 q1 Hne H1 Hq Hq1. assert (E1 : w = Some r1) by eauto. assert (E2 : w = Some r) by eauto. congruence. }
  split.
  - intros r1 r2 q1 q2. rewrite !pa_lookup. repeat case_decide; intros; simplify_eq; eauto.
  - intros Hp r1 q1. rewrite pa_lookup. case_decide as Hd; intros Hx; simplify_eq.
    destruct Hp' as [[-> E]|[Hq _]]; [subst; eauto|]. destruct q1; auto; exfalso; apply Hd; eapply ti_uniq0; eauto.
  - intros Hp. destruct Hp' as [[-> E]|[_ E]]; [|congruence]. rewrite E in Hp.
    destruct (ti_taken0 Hp) as (r1&q1&Hx1&?). exists r1, q1. rewrite pa_lookup, decide_False; [done|]. intros <-. congruence.
  - intros r1 q1. rewrite pa_lookup. case_decide; intros Hx Hx2; simplify_eq. destruct Hw' as [[-> E]|[? E]]; subst; [eauto|]. exfalso; eauto.
  - intros r1 Hw. destruct Hw' as [[-> E]|[? E]]; [rewrite E in Hw|congruence]. destruct (ti_held0 r1 Hw) as (q1&?&?).
    exists q1. rewrite pa_lookup, decide_False; auto. intros ->. congruence.
  - intros r1 q1. rewrite pa_lookup. case_decide; intros; simplify_eq; eauto.
  - intros Hb. assert (Hb' : b = true /\ forall l, q <> QAuth l) by (destruct q; done). destruct Hb' as [Hb1 Hb2].
    destruct (ti_subr0 Hb1) as (r1&l&?). exists r1, l. rewrite pa_lookup, decide_False; auto.
    intros ->. naive_solver.
  - intros r1 l. rewrite pa_lookup. case_decide as Hd; intros H1; simplify_eq. destruct q; eauto.
  - intros r1 q1. rewrite pa_lookup. case_decide; intros; simplify_eq; eauto.
Qed.

Lemma ti_spawn w b ts n :
  tinv None w true b ts n -> tinv None w false b (<[n := QLock]> ts) (n + 1).
Proof.
  intros [].
  assert (Hn : ts !! n = None).
  { destruct (ts !! n) as [q|] eqn:E; auto. specialize (ti_fresh0 _ _ E). lia. }
  split.
  - intros r1 r2 q1 q2. rewrite !ins_lookup. repeat case_decide; intros; simplify_eq; eauto;
      exfalso; [apply H4|apply H3]; eapply ti_permit0; eauto.
  - done.
  - intros _. exists n, QLock. rewrite ins_lookup, decide_True; done.
  - intros r1 q1. rewrite ins_lookup. case_decide; intros; simplify_eq; eauto.
  - intros r1 Hw. destruct (ti_held0 r1 Hw) as (q1&?&?). exists q1. rewrite ins_lookup, decide_False; auto.
    intros <-. congruence.
  - done.
  - intros Hb. destruct (ti_subr0 Hb) as (r1&l&?). exists r1, l. rewrite ins_lookup, decide_False; auto.
    intros <-. congruence.
  - intros r1 l. rewrite ins_lookup. case_decide; intros; simplify_eq; eauto.
  - intros r1 q1. rewrite ins_lookup. case_decide; intros; simplify_eq; [lia|].
    specialize (ti_fresh0 _ _ H0). lia.
Qed.

(** The fields the threads do not touch, except by emptying the slot and by spawning. *)
Definition tks (k : client) := (k_slot k, k_wl k, k_permit k, k_subr k, k_tasks k, k_nextr k).

Lemma tk_same k k' : tks k' = tks k -> tk k -> tk k'.
Proof. unfold tks, tk. intros [= -> -> -> -> -> ->]. done. Qed.

Lemma unlock_tks k t : tks (unlock k t) = tks k.
Proof. unfold unlock. by case_decide. Qed.
Lemma ret_tks k t o ok : tks (ret k t o ok).1 = tks k.
Proof. unfold ret. cbn [fst]. by rewrite unlock_tks. Qed.
Lemma no_conn_tks k t o : tks (no_conn k t o).1 = tks k.
Proof. destruct o; try apply ret_tks. done. Qed.
Lemma used_tks k o c : tks (used k o c) = tks k.
Proof. by destruct o. Qed.

Lemma rin_tk k t o : tk k -> tk (reconnect_if_needed k t o).1.
Proof.
  intros H. unfold reconnect_if_needed. destruct (k_slot k) as [c|] eqn:Es.
  - eapply tk_same; [|exact H]. destruct o; first [apply ret_tks | done].
  - destruct (k_closed k); [eapply tk_same; [apply no_conn_tks|done]|].
    destruct (k_permit k) eqn:Ep; [|eapply tk_same; [apply no_conn_tks|done]].
    unfold tk in *. cbn. rewrite Es, Ep in *. by apply ti_spawn.
Qed.

Lemma get_tk k t o b : tk k -> tk (get k t o b).1.
Proof.
  intros H. unfold get. pose proof (rin_tk k t o H).
  assert (tk (no_conn k t o).1) by (eapply tk_same; [apply no_conn_tks|done]).
  destruct (k_wl k), o, b; auto.
Qed.

Lemma tstep_tk k t p b : tk k -> tk (tstep k t p b).1.
Proof.
  intros H. destruct p; cbn [tstep].
  - case_decide; [|done]. by eapply tk_same; [|exact H].
  - destruct (k_closed k); [eapply tk_same; [apply ret_tks|done]|]. by eapply tk_same; [|exact H].
  - by apply get_tk.
  - eapply tk_same; [apply no_conn_tks|]. by eapply tk_same; [|exact H].
  - destruct b; [|by eapply tk_same; [|exact H]]. unfold ret. cbn [fst].
    eapply tk_same; [rewrite unlock_tks; apply used_tks|done].
  - destruct (k_permit k && b); [by eapply tk_same; [|exact H]|]. eapply tk_same; [apply ret_tks|done].
  - destruct (no_readers k); [|done]. unfold ret. cbn [fst]. eapply tk_same; [apply unlock_tks|].
    unfold tk. cbn. eapply ti_empty_slot, H.
  - destruct (_ || _); [|done]. eapply tk_same; [apply ret_tks|done].
  - by eapply tk_same; [|exact H].
  - by eapply tk_same; [|exact H].
  - destruct (no_readers k); [|done]. unfold ret. cbn [fst]. eapply tk_same; [apply unlock_tks|].
    unfold tk. cbn. eapply ti_empty_slot, H.
Qed.

Lemma no_readers_wl k : no_readers k = true -> k_wl k = None.
Proof. unfold no_readers. intros H%bool_decide_eq_true_1. tauto. Qed.

Lemma qstep_tk k r q b : tk k -> k_tasks k !! r = Some q -> tk (qstep k r q b).1.
Proof.
  intros H Hr. unfold tk in *. destruct q; cbn [qstep].
  - destruct (no_readers k) eqn:E; [|done]. cbn. rewrite (no_readers_wl _ E) in H. by apply ti_lock.
  - destruct (k_closed k); cbn; eapply ti_same; eauto; done.
  - destruct b; [case_decide; [|done]; cbn; by eapply ti_reading|]. cbn; eapply ti_same; eauto; done.
  - destruct b; cbn; eapply ti_read_done; eauto.
  - cbn; eapply ti_same; eauto; done.
  - cbn. by eapply ti_got.
  - cbn. eapply (ti_gone _ _ _ _ _ _ r QRel _ _ _ H Hr); [auto|done|right; done].
Qed.

Lemma qabort_tk k r q : tk k -> k_tasks k !! r = Some q -> tk (qabort k r q).
Proof.
  intros H Hr. unfold tk in *. destruct q; cbn [qabort]; try done; cbn.
  all: apply (ti_gone _ _ _ _ _ _ r _ _ _ _ H Hr); [right; done|done|first [left; done|right; done]].
Qed.

Lemma tdrop_tks k t p : tks (tdrop k t p) = tks k.
Proof. destruct p as [ | |[]| | | | | | | | ]; try done; cbn [tdrop]; by rewrite unlock_tks. Qed.

Lemma kstep_tk k e : tk k -> tk (kstep k e).1.
Proof.
  intros H. destruct e as [t o|t b|t|r b|r]; cbn [kstep].
  - destruct (k_thr k !! t); [done|]. by eapply tk_same; [|exact H].
  - destruct (k_thr k !! t); [|done]. by apply tstep_tk.
  - destruct (k_thr k !! t); [|done]. eapply tk_same; [apply tdrop_tks|done].
  - destruct (k_tasks k !! r) eqn:E; [|done]. by apply qstep_tk.
  - destruct (k_tasks k !! r) eqn:E; [|done]. case_decide; [|done]. by apply qabort_tk.
Qed.

Lemma new_tk ts : tk (k_new ts).
Proof. split; cbn; try done; intros; simplify_map_eq. Qed.

Lemma kgo_tk k es : tk k -> tk (kgo k es).1.
Proof.
  revert k. induction es as [|e es IH]; intros k H; [done|]. rewrite kgo_cons. cbn [fst]. by apply IH, kstep_tk.
Qed.

Lemma krun_tk ts es : tk (krun ts es).1.
Proof. apply kgo_tk, new_tk. Qed.
