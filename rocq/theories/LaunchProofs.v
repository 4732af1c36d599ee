(** Lemmas on starting and stopping brokers and marshals. *)
From stdpp Require Import gmap fin_maps list.
From Coq Require Import NArith Lia.
From Verif Require Import DecModel IdModel DiscModel StartModel LaunchModel.

Section launch.
Variable place : N -> bool -> bytes -> option N.
Notation l_run := (l_run place).
Notation l_step := (l_step place).
Notation l_next := (l_next place).
Notation p_place := (p_place place).

Definition program (c : lconfig) : list lstep := if c_broker c then broker_new else marshal_new.
Definition wanted (c : lconfig) : option address := match c_metrics c with Some (Some l) => first_v4 l | _ => None end.
Definition resolves (c : lconfig) : Prop := match c_metrics c with Some None => False | Some (Some l) => first_v4 l <> None | None => True end.
Definition isM (s : lstep) : bool := match s with LMetrics => true | _ => false end.
Definition bound (p : proc) (d : list lstep) : Prop :=
  Forall2 (fun s r => exists u, s = LBind u /\ p_place p u = Some r) (List.filter (fun s => match s with LBind _ => true | _ => false end) d) (p_held p).
Record pinv (p : proc) : Prop := {
  pi_done : exists d, program (p_cfg p) = d ++ p_todo p /\ bound p d
              /\ p_metrics p = (if existsb isM d then wanted (p_cfg p) else None)
              /\ (existsb isM d = true -> resolves (p_cfg p));
  pi_run : p_running p = true -> p_todo p = [];
}.

Lemma split_ip c d s : program c = d ++ LIp :: s -> d = [] /\ c_broker c = true.
Proof.
  unfold program. destruct (c_broker c).
  - intros H. split; [|done]. destruct d as [|a d]; [done|]. exfalso. injection H as _ H.
    assert (Hin : In LIp (d ++ LIp :: s)) by (apply in_app_iff; right; by left). rewrite <- H in Hin. cbn in Hin. intuition discriminate.
  - intros H. exfalso. assert (Hin : In LIp (d ++ LIp :: s)) by (apply in_app_iff; right; by left). rewrite <- H in Hin. cbn in Hin. intuition discriminate.
Qed.
Lemma split_metrics c d s : program c = d ++ LMetrics :: s -> s = [] /\ existsb isM d = false.
Proof.
  intros H. set (f := isM).
  assert (Hb : exists base, program c = base ++ [LMetrics] /\ existsb f base = false).
  { unfold program. destruct (c_broker c); [by exists [LIp; LDiscovery; LCa; LCert; LBind true; LBind false]|by exists [LCa; LCert; LBind true; LDiscovery]]. }
  destruct Hb as (base & Hb & Hn). rewrite Hb in H. destruct s as [|x s _] using rev_ind.
  - apply app_inj_tail in H as [<- _]. split; [done|exact Hn].
  - rewrite app_comm_cons, app_assoc in H. apply app_inj_tail in H as [-> _]. exfalso. rewrite existsb_app in Hn. cbn in Hn. by rewrite orb_true_r in Hn.
Qed.

Lemma bound_same p q d : p_cfg q = p_cfg p -> p_ip q = p_ip p -> p_held q = p_held p -> bound p d -> bound q d.
Proof. intros Hc Hi Hh. unfold bound, LaunchModel.p_place, p_endpoint. by rewrite Hc, Hi, Hh. Qed.
Lemma pinv_advance p s st m :
  (exists d, program (p_cfg p) = d ++ st :: s /\ bound p d /\ p_metrics p = (if existsb isM d then wanted (p_cfg p) else None) /\ (existsb isM d = true -> resolves (p_cfg p))) ->
  (match st with LBind _ | LIp => False | LMetrics => m = wanted (p_cfg p) /\ resolves (p_cfg p) | _ => m = p_metrics p end) -> p_running p = false ->
  pinv (Proc (p_cfg p) s (p_ip p) (p_held p) m (p_running p)).
Proof.
  intros (d & Hp & Hb & Hm & Hres) Hs Hr. split; [|cbn; by rewrite Hr]. exists (d ++ [st]). cbn [p_cfg p_todo p_metrics]. rewrite <- app_assoc. split; [done|]. split.
  - unfold bound. rewrite List.filter_app. replace (List.filter _ [st]) with (@nil lstep) by (by destruct st). rewrite app_nil_r. exact Hb.
  - rewrite existsb_app. destruct st; cbn [existsb isM orb]; try done; rewrite ?orb_false_r, ?orb_true_r; try (rewrite Hs; by split). destruct Hs as [-> Hs]. by split.
Qed.

Lemma next_inv w p ip ok p' : pinv p -> l_next w p ip ok = Some p' -> pinv p' /\ p_cfg p' = p_cfg p /\ p_running p' = p_running p.
Proof.
  intros [Hd Hr] H. unfold LaunchModel.l_next in H. destruct (p_todo p) as [|st s] eqn:Et.
  { injection H as <-. split; [|done]. split; [by rewrite Et|by rewrite Et]. }
  assert (Hr0 : p_running p = false) by (destruct (p_running p); [by specialize (Hr eq_refl)|done]).
  destruct st.
  - destruct ip as [a|]; [|done]. injection H as <-. split; [|done]. destruct Hd as (d & Hp & Hb & Hm & Hres). destruct (split_ip _ _ _ Hp) as [-> _].
    split; [|cbn; by rewrite Hr0]. exists [LIp]. cbn [p_cfg p_todo p_metrics]. split; [done|]. split; [|by split].
    unfold bound in Hb |- *. cbn [List.filter p_held] in Hb |- *. inversion Hb. constructor.
  - destruct ok; [|done]. injection H as <-. split; [|done]. by apply (pinv_advance p s LDiscovery).
  - destruct ok; [|done]. injection H as <-. split; [|done]. by apply (pinv_advance p s LCa).
  - destruct ok; [|done]. injection H as <-. split; [|done]. by apply (pinv_advance p s LCert).
  - destruct (p_place p users) as [r|] eqn:Er; [|done]. destruct (ok && negb (taken w r)); [|done]. injection H as <-. split; [|done].
    destruct Hd as (d & Hp & Hb & Hm & Hres). split; [|cbn; by rewrite Hr0]. exists (d ++ [LBind users]). cbn [p_cfg p_todo p_metrics]. rewrite <- app_assoc. split; [done|]. split.
    + unfold bound. rewrite List.filter_app. cbn [List.filter p_held]. apply Forall2_app; [exact Hb|]. constructor; [|constructor]. exists users. split; [done|exact Er].
    + rewrite existsb_app. cbn [existsb isM]. rewrite !orb_false_r. by split.
  - assert (Hw : exists m, p' = Proc (p_cfg p) s (p_ip p) (p_held p) m (p_running p) /\ m = wanted (p_cfg p) /\ resolves (p_cfg p)).
    { destruct Hd as (d & Hp & _ & Hm & _). apply split_metrics in Hp as [_ He]. rewrite He in Hm. unfold wanted, resolves. destruct (c_metrics (p_cfg p)) as [[l|]|]; [|done|].
      - destruct (first_v4 l); [|done]. injection H as <-. by eexists.
      - injection H as <-. exists None. split; [unfold p_done; by rewrite Hm|done]. }
    destruct Hw as (m & -> & Hm). split; [|done]. by apply (pinv_advance p s LMetrics).
Qed.
Lemma next_held w p ip ok p' : l_next w p ip ok = Some p' -> p_held p' = p_held p \/ exists r, p_held p' = p_held p ++ [r] /\ taken w r = false.
Proof.
  unfold LaunchModel.l_next. destruct (p_todo p) as [|[| | | |u|] s]; intros H.
  - injection H as <-. by left.
  - destruct ip; [|done]. injection H as <-. by left.
  - destruct ok; [|done]. injection H as <-. by left.
  - destruct ok; [|done]. injection H as <-. by left.
  - destruct ok; [|done]. injection H as <-. by left.
  - destruct (p_place p u) as [r|]; [|done]. destruct ok; [|done]. destruct (taken w r) eqn:E; [done|]. injection H as <-. right. by exists r.
  - destruct (c_metrics (p_cfg p)) as [[l|]|]; [|done|injection H as <-; by left]. destruct (first_v4 l); [|done]. injection H as <-. by left.
Qed.
Lemma taken_false w r i p : taken w r = false -> w_procs w !! i = Some p -> r ∉ p_held p.
Proof.
  intros H Hp Hr. assert (E : taken w r = true); [|congruence]. unfold taken. apply existsb_exists. exists (i, p). split; [by apply elem_of_list_In, elem_of_map_to_list|]. by apply bool_decide_eq_true.
Qed.

Record winv (w : world) : Prop := {
  wi_procs : forall i p, w_procs w !! i = Some p -> pinv p /\ NoDup (p_held p);
  wi_excl : forall i j p q r, w_procs w !! i = Some p -> w_procs w !! j = Some q -> r ∈ p_held p -> r ∈ p_held q -> i = j;
}.
Lemma winv_insert w i p' l : winv w -> pinv p' -> NoDup (p_held p') ->
  (forall r j q, r ∈ p_held p' -> j <> i -> w_procs w !! j = Some q -> r ∉ p_held q) -> winv (World (<[i := p']> (w_procs w)) l).
Proof.
  intros [Hp He] Hi Hn Hx. split; cbn [w_procs].
  - intros j q. destruct (decide (j = i)) as [->|]; [rewrite lookup_insert; intros [= <-]; done|rewrite lookup_insert_ne by done; apply Hp].
  - intros j k p q r Hj Hk Hr1 Hr2. destruct (decide (j = i)) as [->|Hji], (decide (k = i)) as [->|Hki]; [done|..].
    + rewrite lookup_insert in Hj. injection Hj as <-. rewrite lookup_insert_ne in Hk by done. by destruct (Hx r k q).
    + rewrite lookup_insert in Hk. injection Hk as <-. rewrite lookup_insert_ne in Hj by done. by destruct (Hx r j p).
    + rewrite lookup_insert_ne in Hj, Hk by done. by apply (He j k p q r).
Qed.
Lemma winv_delete w i l : winv w -> winv (World (delete i (w_procs w)) l).
Proof.
  intros [Hp He]. split; cbn [w_procs].
  - intros j q [_ H]%lookup_delete_Some. by apply (Hp j).
  - intros j k p q r [_ Hj]%lookup_delete_Some [_ Hk]%lookup_delete_Some. by apply He.
Qed.
Lemma winv_log w l : winv w -> winv (World (w_procs w) l).
Proof. intros [Hp He]. by split. Qed.
Lemma step_inv w e : winv w -> winv (l_step w e).
Proof.
  intros Hw. destruct e as [i c|i ip ok|i|i now n|i|o]; cbn [LaunchModel.l_step].
  - destruct (w_procs w !! i) eqn:E; [done|]. apply winv_insert; [done| |constructor|cbn; set_solver].
    split; [|done]. exists []. split; [done|]. split; [constructor|]. by split.
  - destruct (w_procs w !! i) as [p|] eqn:E; [|done]. destruct (wi_procs w Hw i p E) as [Hi Hn]. destruct (l_next w p ip ok) as [p'|] eqn:En; [|by apply winv_delete].
    destruct (next_inv w p ip ok p' Hi En) as [Hi' _]. apply winv_insert; [done|done|..].
    + destruct (next_held _ _ _ _ _ En) as [->|(r & -> & Ht)]; [done|]. apply NoDup_app. split; [done|]. split; [|apply NoDup_singleton].
      intros x Hx ->%elem_of_list_singleton. by apply (taken_false w r i p).
    + intros r j q Hr Hji Hq Hrq. destruct (next_held _ _ _ _ _ En) as [Heq|(r' & Heq & Ht)]; rewrite Heq in Hr.
      * apply Hji. by apply (wi_excl w Hw j i q p r).
      * apply elem_of_app in Hr as [Hr| ->%elem_of_list_singleton]; [apply Hji; by apply (wi_excl w Hw j i q p r)|]. by apply (taken_false w r' j q).
  - destruct (w_procs w !! i) as [p|] eqn:E; [|done]. destruct (p_todo p) eqn:Et; [|done]. destruct (wi_procs w Hw i p E) as [[Hd Hr] Hn]. apply winv_insert; [done| |done|].
    + split; [|done]. destruct Hd as (d & H1 & H2 & H3 & H4). rewrite Et in H1. exists d. done.
    + intros r j q Hp Hji Hq Hrq. apply Hji. by apply (wi_excl w Hw j i q p r).
  - destruct (w_procs w !! i) as [p|]; [|done]. destruct (p_running p && c_broker (p_cfg p)); [|done]. by apply winv_log.
  - by apply winv_delete.
  - destruct o; try done; by apply winv_log.
Qed.
Lemma run_snoc evs e : l_run (evs ++ [e]) = l_step (l_run evs) e.
Proof. unfold LaunchModel.l_run. by rewrite foldl_app. Qed.
Lemma run_inv evs : winv (l_run evs).
Proof.
  induction evs as [|e evs IH] using rev_ind; [|rewrite run_snoc; by apply step_inv].
  split; cbn; intros *; by rewrite lookup_empty.
Qed.

(** What a process that has got through [new] holds. *)
Lemma ready_broker p : pinv p -> p_todo p = [] -> c_broker (p_cfg p) = true ->
  exists r1 r2, p_place p true = Some r1 /\ p_place p false = Some r2 /\ p_held p = [r1; r2] /\ p_metrics p = wanted (p_cfg p) /\ resolves (p_cfg p).
Proof.
  intros [(d & Hp & Hb & Hm & Hres) _] Ht Hc. rewrite Ht, app_nil_r in Hp. subst d. unfold program in *. rewrite Hc in *. unfold bound in Hb. cbn in Hb, Hm. specialize (Hres eq_refl).
  apply Forall2_cons_inv_l in Hb as (r1 & l1 & (u1 & E1 & H1) & Hb1 & Eh). apply Forall2_cons_inv_l in Hb1 as (r2 & l2 & (u2 & E2 & H2) & Hb2 & El).
  apply Forall2_nil_inv_l in Hb2. injection E1 as <-. injection E2 as <-. subst. rewrite Eh. eauto 10.
Qed.
Lemma ready_marshal p : pinv p -> p_todo p = [] -> c_broker (p_cfg p) = false ->
  exists r, p_place p true = Some r /\ p_held p = [r] /\ p_metrics p = wanted (p_cfg p) /\ resolves (p_cfg p).
Proof.
  intros [(d & Hp & Hb & Hm & Hres) _] Ht Hc. rewrite Ht, app_nil_r in Hp. subst d. unfold program in *. rewrite Hc in *. unfold bound in Hb. cbn in Hb, Hm. specialize (Hres eq_refl).
  apply Forall2_cons_inv_l in Hb as (r1 & l1 & (u1 & E1 & H1) & Hb1 & Eh). apply Forall2_nil_inv_l in Hb1. injection E1 as <-. subst. rewrite Eh. eauto 10.
Qed.

(** Where a heartbeat comes from. *)
Lemma log_beat evs n1 n2 b n ttl : In (DHeartbeat n1 n2 b n ttl) (w_log (l_run evs)) ->
  exists pre i post p, evs = pre ++ LBeat i n2 n :: post /\ n1 = n2 /\ ttl = 60%N
    /\ w_procs (l_run pre) !! i = Some p /\ p_running p = true /\ c_broker (p_cfg p) = true /\ p_identity p = b.
Proof.
  induction evs as [|e evs IH] using rev_ind; [done|]. rewrite run_snoc. intros Hin.
  assert (Hc : In (DHeartbeat n1 n2 b n ttl) (w_log (l_run evs)) \/ exists i p, e = LBeat i n2 n /\ n1 = n2 /\ ttl = 60%N /\ w_procs (l_run evs) !! i = Some p /\ p_running p = true /\ c_broker (p_cfg p) = true /\ p_identity p = b).
  { destruct e as [i c|i ip ok|i|i now m|i|o]; cbn [LaunchModel.l_step] in Hin.
    - left. by destruct (w_procs (l_run evs) !! i).
    - left. destruct (w_procs (l_run evs) !! i) as [p|]; [|done]. by destruct (l_next (l_run evs) p ip ok).
    - left. destruct (w_procs (l_run evs) !! i) as [p|]; [|done]. by destruct (p_todo p).
    - destruct (w_procs (l_run evs) !! i) as [p|] eqn:E; [|by left]. destruct (p_running p) eqn:Er, (c_broker (p_cfg p)) eqn:Eb; cbn [andb] in Hin; try (by left).
      cbn [w_log] in Hin. apply in_app_iff in Hin as [Hin|[Hin|[]]]; [by left|]. right. injection Hin as <- <- <- <- <-. by exists i, p.
    - by left.
    - destruct o; try (by left); cbn [w_log] in Hin; apply in_app_iff in Hin as [Hin|[Hin|[]]]; by left. }
  destruct Hc as [Hc|(i & p & -> & -> & -> & Hp & Hr & Hb & Hid)].
  - destruct (IH Hc) as (pre & i & post & p & -> & ? & ? & ?). exists pre, i, (post ++ [e]), p. rewrite <- app_assoc. done.
  - exists evs, i, [], p. done.
Qed.
End launch.
