(** Lemmas about topic synchronisation between two brokers. *)
From stdpp Require Import gmap fin_maps fin_sets list.
From Coq Require Import NArith Lia.
From Verif Require Import IdModel RelMapModel RelMapProofs VMapModel VMapSpec VMapProofs
  ConnModel ConnSpec ConnProofs ConnProofs2 ConnProofs3 ConnProofs4 SyncSpec.
From Verif Require Import RelMapSpec.

Definition next_ver (e : option (vval sub_status)) : N :=
  match e with Some old => u64_succ (ver old) | None => 1 end.

Lemma fold_insert_spec (v : sub_status) l (m : topic_map) :
  NoDup l -> (forall t, t ∈ l -> t ∉ modified m) ->
  let m' := fold_left (fun m t => vm_insert m t v) l m in
  (forall t, entries m' !! t = if decide (t ∈ l) then Some (VVal (next_ver (entries m !! t)) (Some v)) else entries m !! t)
  /\ (forall t, t ∈ modified m' <-> t ∈ l \/ t ∈ modified m) /\ cid m' = cid m.
Proof.
  revert m. induction l as [|x l IH]; intros m Hnd Hdis; cbn [fold_left].
  { split_and!; intros; [by rewrite decide_False by set_solver| set_solver | done]. }
  apply NoDup_cons in Hnd as [Hx Hnd].
  destruct (IH (vm_insert m x v) Hnd) as (H1 & H2 & H3).
  { intros t Ht. cbn. assert (t <> x) by (intros ->; done). specialize (Hdis t). set_solver. }
  split_and!.
  - intros t. rewrite H1. unfold vm_insert. rewrite modify_local_lookup.
    destruct (decide (t ∈ l)) as [Ht|Ht].
    + assert (x <> t) by (intros ->; done). rewrite decide_False by done.
      by rewrite decide_True by set_solver.
    + destruct (decide (x = t)) as [->|Hne].
      * rewrite decide_True by set_solver. f_equal. f_equal. unfold next_ver.
        destruct (entries m !! t); [|done]. rewrite decide_False; [done|]. apply Hdis. set_solver.
      * by rewrite decide_False by set_solver.
  - intros t. rewrite H2. cbn. set_solver.
  - rewrite H3. done.
Qed.

Definition topics_now (s : conns) : gset N := list_to_set (rm_get_values (bm_users s)).

(** The whole effect of computing a partial topic sync. *)
Lemma partial_topic_effect s :
  modified (topic_sync s) = ∅ ->
  let s' := (c_get_partial_topic_sync s).1 in
  previous_topics s' = topics_now s /\ modified (topic_sync s') = ∅ /\ cid (topic_sync s') = cid (topic_sync s)
  /\ (forall t, entries (topic_sync s') !! t =
        if decide (t ∈ topics_now s /\ t ∉ previous_topics s) then Some (VVal (next_ver (entries (topic_sync s) !! t)) (Some Subscribed))
        else if decide (t ∉ topics_now s /\ t ∈ previous_topics s) then Some (VVal (next_ver (entries (topic_sync s) !! t)) (Some Unsubscribed))
        else entries (topic_sync s) !! t)
  /\ match (c_get_partial_topic_sync s).2 with
     | None => topics_now s = previous_topics s
     | Some d => topics_now s <> previous_topics s /\ cid d = cid (topic_sync s) /\ modified d = ∅ /\
        forall t, entries d !! t =
          if decide (t ∈ topics_now s <-> t ∈ previous_topics s) then None else entries (topic_sync s') !! t
     end.
Proof.
  intros Hm. cbn zeta. unfold c_get_partial_topic_sync. fold (topics_now s).
  set (A := elements (topics_now s ∖ previous_topics s)).
  set (R := elements (previous_topics s ∖ topics_now s)).
  assert (HA : forall t, t ∈ A <-> t ∈ topics_now s /\ t ∉ previous_topics s) by (intros t; subst A; set_solver).
  assert (HR : forall t, t ∈ R <-> t ∉ topics_now s /\ t ∈ previous_topics s) by (intros t; subst R; set_solver).
  assert (NA : NoDup A) by apply NoDup_elements.
  assert (NR : NoDup R) by apply NoDup_elements.
  assert (Hcase : (A = [] /\ R = []) \/ (topics_now s <> previous_topics s)).
  { destruct (decide (topics_now s = previous_topics s)) as [He|He]; [left|by right].
    subst A R. rewrite He, difference_diag_L, elements_empty. done. }
  destruct (fold_insert_spec Subscribed A (topic_sync s) NA) as (F1 & F2 & F3).
  { intros t _. rewrite Hm. set_solver. }
  destruct (fold_insert_spec Unsubscribed R (fold_left (fun m t => vm_insert m t Subscribed) A (topic_sync s)) NR) as (G1 & G2 & G3).
  { intros t Ht. rewrite F2, Hm. rewrite HA. apply HR in Ht. set_solver. }
  set (m2 := fold_left (fun m t => vm_insert m t Unsubscribed) R (fold_left (fun m t => vm_insert m t Subscribed) A (topic_sync s))) in *.
  assert (Hval : forall t, entries m2 !! t =
        if decide (t ∈ topics_now s /\ t ∉ previous_topics s) then Some (VVal (next_ver (entries (topic_sync s) !! t)) (Some Subscribed))
        else if decide (t ∉ topics_now s /\ t ∈ previous_topics s) then Some (VVal (next_ver (entries (topic_sync s) !! t)) (Some Unsubscribed))
        else entries (topic_sync s) !! t).
  { intros t. rewrite G1, F1.
    destruct (decide (t ∈ R)) as [Ht|Ht]; destruct (decide (t ∈ A)) as [Ht'|Ht'].
    - exfalso. apply HA in Ht'. apply HR in Ht. tauto.
    - rewrite decide_False by (rewrite <- HA; done). rewrite decide_True by (rewrite <- HR; done). done.
    - rewrite decide_True by (rewrite <- HA; done). done.
    - rewrite decide_False by (rewrite <- HA; done). rewrite decide_False by (rewrite <- HR; done). done. }
  assert (Hne : forall t, val <$> entries m2 !! t = Some None -> val <$> entries (topic_sync s) !! t = Some None).
  { intros t. rewrite Hval. repeat case_decide; done. }
  assert (Hgoal : topics_now s <> previous_topics s ->
     let '(d, m3) := vm_diff m2 in
     (topics_now s = topics_now s /\ modified m3 = ∅ /\ cid m3 = cid (topic_sync s)
      /\ (forall t, entries m3 !! t =
        if decide (t ∈ topics_now s /\ t ∉ previous_topics s) then Some (VVal (next_ver (entries (topic_sync s) !! t)) (Some Subscribed))
        else if decide (t ∉ topics_now s /\ t ∈ previous_topics s) then Some (VVal (next_ver (entries (topic_sync s) !! t)) (Some Unsubscribed))
        else entries (topic_sync s) !! t)
      /\ topics_now s <> previous_topics s /\ cid d = cid (topic_sync s) /\ modified d = ∅ /\
        forall t, entries d !! t =
          if decide (t ∈ topics_now s <-> t ∈ previous_topics s) then None else entries m3 !! t)).
  { intros He. destruct (vm_diff m2) as [d m3] eqn:Hd.
    assert (E1 : d = (vm_diff m2).1) by (by rewrite Hd). assert (E2 : m3 = (vm_diff m2).2) by (by rewrite Hd).
    assert (Hmod : forall t, t ∈ modified m2 <-> ~ (t ∈ topics_now s <-> t ∈ previous_topics s)).
    { intros t. rewrite G2, F2, Hm, HA, HR.
      destruct (decide (t ∈ topics_now s)), (decide (t ∈ previous_topics s)); set_solver. }
    assert (Hm3 : forall t, entries m3 !! t = entries m2 !! t).
    { intros t. rewrite E2, diff_rest_lookup. destruct (decide (t ∈ modified m2)) as [Ht|Ht]; [|done].
      destruct (entries m2 !! t) as [[v [x|]]|] eqn:El; [done| |done].
      exfalso. rewrite Hval in El. apply Hmod in Ht. revert El.
      destruct (decide (t ∈ topics_now s)), (decide (t ∈ previous_topics s)); try (exfalso; tauto).
      - rewrite decide_True by done. done.
      - rewrite decide_False by tauto. rewrite decide_True by done. done. }
    split_and!; try done.
    - rewrite E2. apply diff_rest_modified.
    - rewrite E2, diff_rest_cid. congruence.
    - intros t. rewrite Hm3. apply Hval.
    - rewrite E1, diff_delta_cid. congruence.
    - rewrite E1. apply diff_delta_modified.
    - intros t. rewrite E1, diff_delta_lookup. 
      destruct (decide (t ∈ modified m2)) as [Ht|Ht].
      + apply Hmod in Ht. rewrite decide_False by done. by rewrite Hm3.
      + rewrite decide_True; [done|]. apply dec_stable. intros Hc. apply Ht, Hmod, Hc. }
  assert (Hsame : A = [] -> R = [] -> topics_now s = previous_topics s).
  { intros HA0 HR0. apply set_eq. intros t. specialize (HA t). specialize (HR t). rewrite HA0 in HA. rewrite HR0 in HR.
    rewrite elem_of_nil in HA, HR. destruct (decide (t ∈ topics_now s)), (decide (t ∈ previous_topics s)); tauto. }
  destruct A as [|a A'] eqn:EA; destruct R as [|r R'] eqn:ER.
  - specialize (Hsame eq_refl eq_refl). cbn [fst snd]. split_and!; done.
  - destruct Hcase as [[_ ?]|Hc]; [done|]. specialize (Hgoal Hc). cbv zeta.
    destruct (vm_diff m2) as [d m3] eqn:Hd. cbn [fst snd]. destruct Hgoal as (_ & ? & ? & ? & ? & ? & ? & ?). split_and!; done.
  - destruct Hcase as [[? ?]|Hc]; [done|]. specialize (Hgoal Hc). cbv zeta.
    destruct (vm_diff m2) as [d m3] eqn:Hd. cbn [fst snd]. destruct Hgoal as (_ & ? & ? & ? & ? & ? & ? & ?). split_and!; done.
  - destruct Hcase as [[? ?]|Hc]; [done|]. specialize (Hgoal Hc). cbv zeta.
    destruct (vm_diff m2) as [d m3] eqn:Hd. cbn [fst snd]. destruct Hgoal as (_ & ? & ? & ? & ? & ? & ? & ?). split_and!; done.
Qed.

Lemma step_topic_frame s o :
  is_topic_round o = false ->
  topic_sync (c_step s o) = topic_sync s /\ previous_topics (c_step s o) = previous_topics s.
Proof.
  destruct o; intros Hr; try discriminate Hr; cbn [c_step].
  - rewrite au_topic_sync, au_previous. done.
  - rewrite ru_topic_sync, ru_previous. done.
  - rewrite ab_topic_sync, ab_previous. done.
  - rewrite rb_topic_sync, rb_previous. done.
  - done.
  - done.
  - rewrite apply_user_sync_eq. pose proof (rus_frame (set_direct (vm_merge bid_gtb (direct s) m).1 s) (map fst (vm_merge bid_gtb (direct s) m).2)) as (_ & _ & _ & H1 & H2 & _).
    rewrite H1, H2. done.
  - pose proof (apply_topic_frame s b m) as Hf. cbn zeta in Hf. destruct Hf as (_ & _ & _ & _ & H1 & H2 & _). done.
  - rewrite partial_user_direct. done.
Qed.

Lemma topic_deltas_app s os os' :
  topic_deltas s (os ++ os') = topic_deltas s os ++ topic_deltas (fold_left c_step os s) os'.
Proof.
  revert s. induction os as [|o os IH]; intros s; [done|].
  cbn [app topic_deltas fold_left]. rewrite IH. by rewrite app_assoc.
Qed.

Lemma topic_deltas_run i os os' :
  topic_deltas (c_new i) (os ++ os') = topic_deltas (c_new i) os ++ topic_deltas (c_run i os) os'.
Proof. apply topic_deltas_app. Qed.

Lemma topic_deltas_snoc i os o :
  topic_deltas (c_new i) (os ++ [o]) =
  topic_deltas (c_new i) os ++ (if is_topic_round o then option_list (c_get_partial_topic_sync (c_run i os)).2 else []).
Proof.
  rewrite topic_deltas_app. f_equal. cbn [topic_deltas]. rewrite app_nil_r. destruct o; done.
Qed.

Lemma topic_rounds_snoc os o : topic_rounds (os ++ [o]) = (if is_topic_round o then topic_rounds os + 1 else topic_rounds os)%N.
Proof.
  unfold topic_rounds. rewrite List.filter_app, app_length. cbn [List.filter].
  destruct (is_topic_round o); cbn [length]; lia.
Qed.

Lemma last_said_snoc ms m t :
  last_said (ms ++ [m]) t = match entries m !! t with Some e => val e | None => last_said ms t end.
Proof. unfold last_said. rewrite fold_left_app. done. Qed.

(** What the sender's topic map looks like, relative to what was sent. *)
Record sender_inv (i : bid) (os : list conn_op) : Prop := {
  si_cid : cid (topic_sync (c_run i os)) = 0%N;
  si_mod : modified (topic_sync (c_run i os)) = ∅;
  si_ver : forall t e, entries (topic_sync (c_run i os)) !! t = Some e ->
     (ver e <= topic_rounds os)%N
     /\ val e = Some (if decide (t ∈ previous_topics (c_run i os)) then Subscribed else Unsubscribed);
  si_prev : forall t, t ∈ previous_topics (c_run i os) -> is_Some (entries (topic_sync (c_run i os)) !! t);
  si_said : forall t, last_said (topic_deltas (c_new i) os) t =
     match entries (topic_sync (c_run i os)) !! t with Some e => val e | None => None end;
}.

Lemma sender_run i os : (topic_rounds os < u64_modulus)%N -> sender_inv i os.
Proof.
  induction os as [|o os IH] using rev_ind; intros Hn.
  { split; cbn; try done. }
  rewrite topic_rounds_snoc in Hn.
  assert (Hn' : (topic_rounds os < u64_modulus)%N) by (destruct (is_topic_round o); lia).
  specialize (IH Hn'). destruct IH as [H1 H2 H3 H4 H5].
  destruct (is_topic_round o) eqn:Hr.
  - destruct o; try discriminate Hr.
    destruct (partial_topic_effect (c_run i os) H2) as (E1 & E2 & E3 & E4 & E5).
    assert (HV : forall t, (1 <= next_ver (entries (topic_sync (c_run i os)) !! t) <= topic_rounds os + 1)%N).
    { intros t. unfold next_ver. destruct (entries (topic_sync (c_run i os)) !! t) as [e|] eqn:El; [|lia].
      apply H3 in El as [El _]. rewrite u64_succ_small by (unfold u64_modulus in *; lia). lia. }
    split; rewrite ?c_run_snoc; cbn [c_step].
    + congruence.
    + done.
    + intros t e. rewrite topic_rounds_snoc, E4, E1. cbn [is_topic_round].
      destruct (decide (t ∈ topics_now (c_run i os) /\ t ∉ previous_topics (c_run i os))) as [[Ha Hb]|Hna].
      { intros [= <-]. cbn. rewrite decide_True by done. split; [apply HV|done]. }
      destruct (decide (t ∉ topics_now (c_run i os) /\ t ∈ previous_topics (c_run i os))) as [[Ha Hb]|Hnb].
      { intros [= <-]. cbn. rewrite decide_False by done. split; [apply HV|done]. }
      intros He. apply H3 in He as [He1 He2]. split; [lia|]. rewrite He2. f_equal.
      destruct (decide (t ∈ topics_now (c_run i os))), (decide (t ∈ previous_topics (c_run i os))); tauto.
    + intros t. rewrite E1, E4. intros Ht.
      destruct (decide (t ∈ previous_topics (c_run i os))) as [Hp|Hp].
      * rewrite decide_False by tauto. rewrite decide_False by tauto. by apply H4.
      * rewrite decide_True by tauto. done.
    + intros t. rewrite topic_deltas_snoc. cbn [is_topic_round].
      destruct (c_get_partial_topic_sync (c_run i os)).2 as [d|] eqn:Ed.
      * destruct E5 as (_ & _ & _ & Hd). change (option_list (Some d)) with [d]. rewrite last_said_snoc, Hd.
        destruct (decide (t ∈ topics_now (c_run i os) <-> t ∈ previous_topics (c_run i os))) as [Hiff|Hiff].
        -- rewrite H5, E4. rewrite decide_False by tauto. rewrite decide_False by tauto. done.
        -- destruct (entries (topic_sync (c_get_partial_topic_sync (c_run i os)).1) !! t) eqn:El; [done|].
           exfalso. rewrite E4 in El. revert El.
           destruct (decide (t ∈ topics_now (c_run i os))) as [Ha|Ha], (decide (t ∈ previous_topics (c_run i os))) as [Hb|Hb]; try (exfalso; tauto).
           ++ rewrite decide_True by done. done.
           ++ rewrite decide_False by tauto. rewrite decide_True by done. done.
      * change (option_list None) with (@nil topic_map). rewrite app_nil_r, H5, E4. rewrite E5. rewrite decide_False by tauto. rewrite decide_False by tauto. done.
  - destruct (step_topic_frame (c_run i os) o Hr) as [F1 F2].
    split; rewrite ?c_run_snoc, ?F1, ?F2; try done.
    + intros t e. rewrite topic_rounds_snoc, Hr. apply H3.
    + intros t. rewrite topic_deltas_snoc, Hr, app_nil_r. apply H5.
Qed.

Lemma topics_now_iff i os t : t ∈ topics_now (c_run i os) <-> has_subscriber i os t.
Proof.
  unfold topics_now, has_subscriber. rewrite elem_of_list_to_set.
  rewrite get_values_fwd by (apply run_idx).
  split; intros [u Hu]; exists u; by apply run_user_topic.
Qed.

Lemma advertised_iff i os t :
  (topic_rounds os < u64_modulus)%N -> advertised i os t <-> t ∈ previous_topics (c_run i os).
Proof.
  intros Hn. destruct (sender_run i os Hn) as [H1 H2 H3 H4 H5]. unfold advertised. rewrite H5.
  destruct (entries (topic_sync (c_run i os)) !! t) as [e|] eqn:El.
  - apply H3 in El as [_ ->]. destruct (decide (t ∈ previous_topics (c_run i os))); split; intros; try done.
  - split; [done|]. intros Hp. apply H4 in Hp. rewrite El in Hp. by destruct Hp.
Qed.

(** C19. *)
Lemma advertised_exact i os t :
  (topic_rounds os + 1 < u64_modulus)%N ->
  advertised i (os ++ [CPartialTopicSync]) t <-> has_subscriber i os t.
Proof.
  intros Hn. rewrite advertised_iff by (rewrite topic_rounds_snoc; done).
  rewrite c_run_snoc. cbn [c_step].
  destruct (sender_run i os ltac:(lia)) as [H1 H2 _ _ _].
  destruct (partial_topic_effect (c_run i os) H2) as (E1 & _). rewrite E1. apply topics_now_iff.
Qed.

Lemma partial_topic_none i os :
  (topic_rounds os + 1 < u64_modulus)%N ->
  (c_get_partial_topic_sync (c_run i os)).2 = None <-> forall t, has_subscriber i os t <-> advertised i os t.
Proof.
  intros Hn. destruct (sender_run i os ltac:(lia)) as [H1 H2 _ _ _].
  destruct (partial_topic_effect (c_run i os) H2) as (_ & _ & _ & _ & E5).
  assert (Hq : (forall t, has_subscriber i os t <-> advertised i os t) <-> topics_now (c_run i os) = previous_topics (c_run i os)).
  { split.
    - intros Hall. apply set_eq. intros t. rewrite topics_now_iff, Hall. apply advertised_iff. lia.
    - intros He t. rewrite <- topics_now_iff, He. symmetry. apply advertised_iff. lia. }
  rewrite Hq. destruct (c_get_partial_topic_sync (c_run i os)).2; [|done].
  split; [done|]. intros He. by destruct E5.
Qed.

Lemma partial_topic_contents i os d t :
  (topic_rounds os + 1 < u64_modulus)%N ->
  (c_get_partial_topic_sync (c_run i os)).2 = Some d ->
  vm_get d t = Some Subscribed <-> has_subscriber i os t /\ ~ advertised i os t.
Proof.
  intros Hn Hd. destruct (sender_run i os ltac:(lia)) as [H1 H2 H3 _ _].
  destruct (partial_topic_effect (c_run i os) H2) as (_ & _ & _ & E4 & E5). rewrite Hd in E5.
  destruct E5 as (_ & _ & _ & E5). rewrite <- topics_now_iff, advertised_iff by lia.
  unfold vm_get. rewrite E5, E4.
  destruct (decide (t ∈ topics_now (c_run i os))) as [Ha|Ha], (decide (t ∈ previous_topics (c_run i os))) as [Hb|Hb].
  - rewrite decide_True by tauto. split; [done|tauto].
  - rewrite decide_False by tauto. rewrite decide_True by done. cbn. tauto.
  - rewrite decide_False by tauto. rewrite decide_False by tauto. rewrite decide_True by done. cbn. split; [done|tauto].
  - rewrite decide_True by tauto. split; [done|tauto].
Qed.

Lemma partial_topic_contents_un i os d t :
  (topic_rounds os + 1 < u64_modulus)%N ->
  (c_get_partial_topic_sync (c_run i os)).2 = Some d ->
  vm_get d t = Some Unsubscribed <-> ~ has_subscriber i os t /\ advertised i os t.
Proof.
  intros Hn Hd. destruct (sender_run i os ltac:(lia)) as [H1 H2 H3 _ _].
  destruct (partial_topic_effect (c_run i os) H2) as (_ & _ & _ & E4 & E5). rewrite Hd in E5.
  destruct E5 as (_ & _ & _ & E5). rewrite <- topics_now_iff, advertised_iff by lia.
  unfold vm_get. rewrite E5, E4.
  destruct (decide (t ∈ topics_now (c_run i os))) as [Ha|Ha], (decide (t ∈ previous_topics (c_run i os))) as [Hb|Hb].
  - rewrite decide_True by tauto. split; [done|tauto].
  - rewrite decide_False by tauto. rewrite decide_True by done. cbn. split; [done|tauto].
  - rewrite decide_False by tauto. rewrite decide_False by tauto. rewrite decide_True by done. cbn. tauto.
  - rewrite decide_True by tauto. split; [done|tauto].
Qed.

Lemma partial_topic_no_other i os d t :
  (topic_rounds os + 1 < u64_modulus)%N ->
  (c_get_partial_topic_sync (c_run i os)).2 = Some d ->
  is_Some (entries d !! t) <-> ~ (has_subscriber i os t <-> advertised i os t).
Proof.
  intros Hn Hd. destruct (sender_run i os ltac:(lia)) as [H1 H2 H3 _ _].
  destruct (partial_topic_effect (c_run i os) H2) as (_ & _ & _ & E4 & E5). rewrite Hd in E5.
  destruct E5 as (_ & _ & _ & E5). rewrite <- topics_now_iff, advertised_iff by lia.
  rewrite E5, E4.
  destruct (decide (t ∈ topics_now (c_run i os) <-> t ∈ previous_topics (c_run i os))) as [Hc|Hc].
  - split; [by intros [? [=]]|done].
  - split; [done|]. intros _.
    destruct (decide (t ∈ topics_now (c_run i os))) as [Ha|Ha], (decide (t ∈ previous_topics (c_run i os))) as [Hb|Hb]; try (exfalso; tauto).
    + rewrite decide_True by done. eauto.
    + rewrite decide_False by tauto. rewrite decide_True by done. eauto.
Qed.

(** Entries of one topic only move forward. *)
Definition entry_le (e cur : vval sub_status) : Prop := (ver e < ver cur)%N \/ e = cur.

Lemma entry_le_trans a b c : entry_le a b -> entry_le b c -> entry_le a c.
Proof. unfold entry_le. intros [?| ->] [?| <-]; auto. left. lia. Qed.

Lemma sender_step_le i os o t e :
  (topic_rounds (os ++ [o]) < u64_modulus)%N ->
  entries (topic_sync (c_run i os)) !! t = Some e ->
  exists cur, entries (topic_sync (c_run i (os ++ [o]))) !! t = Some cur /\ entry_le e cur.
Proof.
  intros Hn He. rewrite topic_rounds_snoc in Hn. rewrite c_run_snoc.
  assert (Hn' : (topic_rounds os < u64_modulus)%N) by (destruct (is_topic_round o); lia).
  destruct (sender_run i os Hn') as [H1 H2 H3 _ _].
  destruct (is_topic_round o) eqn:Hr.
  - destruct o; try discriminate Hr. cbn [c_step].
    destruct (partial_topic_effect (c_run i os) H2) as (_ & _ & _ & E4 & _). rewrite E4.
    assert (Hv : next_ver (entries (topic_sync (c_run i os)) !! t) = (ver e + 1)%N).
    { rewrite He. cbn. apply u64_succ_small. apply H3 in He as [He _]. lia. }
    repeat case_decide.
    + eexists. split; [done|]. left. cbn. rewrite Hv. lia.
    + eexists. split; [done|]. left. cbn. rewrite Hv. lia.
    + exists e. split; [done|]. by right.
  - destruct (step_topic_frame (c_run i os) o Hr) as [-> _]. exists e. split; [done|]. by right.
Qed.

Lemma topic_rounds_app os os' : topic_rounds (os ++ os') = (topic_rounds os + topic_rounds os')%N.
Proof. unfold topic_rounds. rewrite List.filter_app, app_length. lia. Qed.

Lemma sender_le i os os2 t e :
  (topic_rounds (os ++ os2) < u64_modulus)%N ->
  entries (topic_sync (c_run i os)) !! t = Some e ->
  exists cur, entries (topic_sync (c_run i (os ++ os2))) !! t = Some cur /\ entry_le e cur.
Proof.
  induction os2 as [|o os2 IH] using rev_ind; intros Hn He.
  { rewrite app_nil_r. exists e. split; [done|by right]. }
  rewrite app_assoc in *.
  destruct IH as (cur & Hc & Hle); [|done|].
  { rewrite topic_rounds_app in Hn. lia. }
  destruct (sender_step_le i (os ++ os2) o t cur) as (cur' & Hc' & Hle'); [done|done|].
  exists cur'. split; [done|]. by eapply entry_le_trans.
Qed.

(** A delta contains only entries of the map it was taken from. *)
Lemma delta_entries i os d t e :
  (topic_rounds os < u64_modulus)%N ->
  (c_get_partial_topic_sync (c_run i os)).2 = Some d -> entries d !! t = Some e ->
  entries (topic_sync (c_run i (os ++ [CPartialTopicSync]))) !! t = Some e.
Proof.
  intros Hn Hd He. destruct (sender_run i os Hn) as [H1 H2 H3 _ _].
  destruct (partial_topic_effect (c_run i os) H2) as (_ & _ & _ & _ & E5). rewrite Hd in E5.
  destruct E5 as (_ & _ & _ & E5). rewrite E5 in He. case_decide; [done|]. by rewrite c_run_snoc.
Qed.

Lemma in_deltas i os m :
  In m (topic_deltas (c_new i) os) ->
  exists o1 o2, os = o1 ++ CPartialTopicSync :: o2 /\ (c_get_partial_topic_sync (c_run i o1)).2 = Some m.
Proof.
  induction os as [|o os IH] using rev_ind; [done|].
  rewrite topic_deltas_snoc, in_app_iff. intros [Hin|Hin].
  - destruct (IH Hin) as (o1 & o2 & -> & Hm). exists o1, (o2 ++ [o]). split; [|done]. by rewrite <- app_assoc.
  - destruct (is_topic_round o) eqn:Hr; [|done]. destruct o; try discriminate Hr.
    exists os, []. split; [done|].
    destruct (c_get_partial_topic_sync (c_run i os)).2; [|done]. destruct Hin as [->|[]]. done.
Qed.

Lemma topic_sent_le i os m t e :
  (topic_rounds os < u64_modulus)%N -> topic_sent i os m -> entries m !! t = Some e ->
  val e <> None /\
  exists cur, entries (topic_sync (c_run i os)) !! t = Some cur /\ entry_le e cur.
Proof.
  intros Hn [Hin|(o1 & o2 & -> & Hf)] He.
  - apply in_deltas in Hin as (o1 & o2 & -> & Hd).
    rewrite topic_rounds_app in Hn.
    apply (delta_entries i o1 m) in He; [|lia|done].
    assert (Hn2 : (topic_rounds ((o1 ++ [CPartialTopicSync]) ++ o2) < u64_modulus)%N).
    { rewrite <- app_assoc. cbn [app]. rewrite topic_rounds_app. done. }
    split.
    + rewrite topic_rounds_app in Hn2. destruct (sender_run i (o1 ++ [CPartialTopicSync]) ltac:(lia)) as [_ _ H3 _ _].
      apply H3 in He as [_ ->]. done.
    + destruct (sender_le i (o1 ++ [CPartialTopicSync]) o2 t e Hn2 He) as (cur & Hc & Hle).
      rewrite <- app_assoc in Hc. cbn [app] in Hc. eauto.
  - unfold c_get_full_topic_sync in Hf. case_decide; [done|]. injection Hf as <-.
    split; [|by apply sender_le].
    rewrite topic_rounds_app in Hn. destruct (sender_run i o1 ltac:(lia)) as [_ _ H3 _ _].
    apply H3 in He as [_ ->]. done.
Qed.

Lemma sender_cover i os1 os2 t cur :
  (topic_rounds (os1 ++ os2) < u64_modulus)%N ->
  entries (topic_sync (c_run i (os1 ++ os2))) !! t = Some cur ->
  entries (topic_sync (c_run i os1)) !! t = Some cur
  \/ exists d, In d (topic_deltas (c_run i os1) os2) /\ entries d !! t = Some cur.
Proof.
  revert cur. induction os2 as [|o os2 IH] using rev_ind; intros cur Hn Hc.
  { left. by rewrite app_nil_r in Hc. }
  rewrite app_assoc, topic_rounds_snoc in Hn. rewrite app_assoc, c_run_snoc in Hc.
  assert (Hn' : (topic_rounds (os1 ++ os2) < u64_modulus)%N) by (destruct (is_topic_round o); lia).
  assert (Hw : entries (topic_sync (c_run i (os1 ++ os2))) !! t = Some cur ->
     entries (topic_sync (c_run i os1)) !! t = Some cur
     \/ exists d, In d (topic_deltas (c_run i os1) (os2 ++ [o])) /\ entries d !! t = Some cur).
  { intros Hc'. destruct (IH cur Hn' Hc') as [?|(d & Hd & ?)]; [by left|right].
    exists d. split; [|done]. rewrite topic_deltas_app, in_app_iff. by left. }
  destruct (is_topic_round o) eqn:Hr.
  - destruct o; try discriminate Hr. cbn [c_step] in Hc.
    destruct (sender_run i _ Hn') as [H1 H2 H3 _ _].
    destruct (partial_topic_effect (c_run i (os1 ++ os2)) H2) as (_ & _ & _ & E4 & E5).
    destruct (decide (t ∈ topics_now (c_run i (os1 ++ os2)) <-> t ∈ previous_topics (c_run i (os1 ++ os2)))) as [Hiff|Hiff].
    { apply Hw. rewrite <- Hc, E4. rewrite decide_False by tauto. rewrite decide_False by tauto. done. }
    right. rewrite topic_deltas_app. 
    assert (Hrun : fold_left c_step os2 (c_run i os1) = c_run i (os1 ++ os2)).
    { unfold c_run. by rewrite fold_left_app. }
    rewrite Hrun. cbn [topic_deltas]. rewrite app_nil_r.
    destruct (c_get_partial_topic_sync (c_run i (os1 ++ os2))).2 as [d|] eqn:Ed.
    + exists d. split; [rewrite in_app_iff; right; by left|].
      destruct E5 as (_ & _ & _ & E5). rewrite E5. by rewrite decide_False.
    + exfalso. apply Hiff. by rewrite E5.
  - apply Hw. destruct (step_topic_frame (c_run i (os1 ++ os2)) o Hr) as [Hf _]. by rewrite Hf in Hc.
Qed.

(** The receiver. *)
Lemma step_peer_map s o b :
  ~ relinks b o ->
  be_topics <$> brokers (c_step s o) !! b =
  match o with
  | CApplyTopicSync b' m => if decide (b' = b) then (fun x => (vm_merge u32_gtb x m).1) <$> (be_topics <$> brokers s !! b)
                            else be_topics <$> brokers s !! b
  | _ => be_topics <$> brokers s !! b
  end.
Proof.
  intros Hr. destruct o; cbn [c_step relinks] in *.
  - by rewrite au_brokers.
  - by rewrite ru_brokers.
  - rewrite ab_brokers, lookup_insert_ne by done. done.
  - rewrite rb_brokers, lookup_delete_ne by done. done.
  - done.
  - done.
  - rewrite apply_user_sync_eq. pose proof (rus_frame (set_direct (vm_merge bid_gtb (direct s) m).1 s) (map fst (vm_merge bid_gtb (direct s) m).2)) as (_ & H1 & _).
    by rewrite H1.
  - destruct (brokers s !! b0) as [be|] eqn:Hb.
    + rewrite (apply_topic_eq _ _ _ _ Hb).
      pose proof (topic_changes_frame b0 (vm_merge u32_gtb (be_topics be) m).2
        (set_brokers (<[b0:=BrokerEntry (be_conn be) (vm_merge u32_gtb (be_topics be) m).1 (be_handle be)]> (brokers s)) s)) as Hf.
      cbn zeta in Hf. destruct Hf as (_ & _ & -> & _). cbn [set_brokers brokers].
      destruct (decide (b0 = b)) as [->|Hne].
      * rewrite lookup_insert, Hb. done.
      * by rewrite lookup_insert_ne.
    + unfold c_apply_topic_sync. rewrite Hb, rb_brokers.
      destruct (decide (b0 = b)) as [->|Hne].
      * by rewrite lookup_delete, Hb.
      * by rewrite lookup_delete_ne.
  - rewrite partial_user_direct. done.
  - pose proof (partial_topic_frame s) as Hf. cbn zeta in Hf. destruct Hf as (_ & _ & -> & _). done.
Qed.

(** What the receiver holds comes from the messages applied, and is at least as recent
    as each of them. *)
Lemma receiver_inv r rs0 b c h rs :
  (forall o, In o rs -> ~ relinks b o) ->
  exists R, be_topics <$> brokers (c_run r (rs0 ++ CAddBroker b c h :: rs)) !! b = Some R
  /\ (forall t e, entries R !! t = Some e -> exists m, In (CApplyTopicSync b m) rs /\ entries m !! t = Some e)
  /\ (forall m t e, In (CApplyTopicSync b m) rs -> entries m !! t = Some e -> 
       (forall m' e', In (CApplyTopicSync b m') rs -> entries m' !! t = Some e' -> val e' <> None) ->
       exists e', entries R !! t = Some e' /\ (ver e <= ver e')%N).
Proof.
  induction rs as [|o rs IH] using rev_ind; intros Hr.
  - exists (vm_new 0%N). rewrite c_run_snoc. cbn [c_step]. rewrite ab_brokers, lookup_insert.
    split_and!; [done|done|]. intros m t e [].
  - destruct IH as (R & HR & H1 & H2). { intros o' Ho'. apply Hr, in_app_iff. by left. }
    assert (Hrun : c_run r (rs0 ++ CAddBroker b c h :: rs ++ [o]) = c_step (c_run r (rs0 ++ CAddBroker b c h :: rs)) o).
    { rewrite <- c_run_snoc. by rewrite <- app_assoc. }
    rewrite Hrun, step_peer_map by (apply Hr, in_app_iff; right; by left).
    rewrite HR.
    assert (Hno : (forall m, o <> CApplyTopicSync b m) ->
      (forall t e, entries R !! t = Some e -> exists m, In (CApplyTopicSync b m) (rs ++ [o]) /\ entries m !! t = Some e)
      /\ (forall m t e, In (CApplyTopicSync b m) (rs ++ [o]) -> entries m !! t = Some e -> 
       (forall m' e', In (CApplyTopicSync b m') (rs ++ [o]) -> entries m' !! t = Some e' -> val e' <> None) ->
       exists e', entries R !! t = Some e' /\ (ver e <= ver e')%N)).
    { intros Hne. split.
      - intros t e He. destruct (H1 t e He) as (m & Hm & ?). exists m. rewrite in_app_iff. auto.
      - intros m t e Hm He Hall. apply in_app_iff in Hm as [Hm|[Hm|[]]]; [|by apply Hne in Hm].
        eapply H2; [done|done|]. intros m' e' Hm'. apply Hall. rewrite in_app_iff. by left. }
    destruct o as [| | | | | | |b' m| |]; try (exists R; split; [done|by apply Hno]).
    destruct (decide (b' = b)) as [->|Hne]; [|exists R; split; [done|]; apply Hno; congruence].
    cbn [fmap option_fmap option_map]. eexists. split; [done|]. split.
    + intros t e. rewrite merge_lookup. unfold lww.
      destruct (entries m !! t) as [rv|] eqn:Hm.
      * destruct (decide (remote_wins u32_gtb (cid m) (cid R) (entries R !! t) rv)) as [Hw|Hw].
        -- unfold taken. destruct (val rv) eqn:Hv; [|done]. intros [= <-]. exists m. rewrite in_app_iff. split; [right; by left|done].
        -- intros He. destruct (H1 t e He) as (m' & Hm' & ?). exists m'. rewrite in_app_iff. auto.
      * intros He. destruct (H1 t e He) as (m' & Hm' & ?). exists m'. rewrite in_app_iff. auto.
    + intros m' t e Hm' He Hall. rewrite merge_lookup.
      assert (Hold : In (CApplyTopicSync b m') rs -> exists e', entries R !! t = Some e' /\ (ver e <= ver e')%N).
      { intros Hin. eapply H2; [done|done|]. intros m'' e'' Hm''. apply Hall. rewrite in_app_iff. by left. }
      unfold lww. destruct (entries m !! t) as [rv|] eqn:Hm.
      * assert (Hv : val rv <> None). { eapply Hall; [|done]. rewrite in_app_iff. right. by left. }
        destruct (decide (remote_wins u32_gtb (cid m) (cid R) (entries R !! t) rv)) as [Hw|Hw].
        -- unfold taken. destruct (val rv) eqn:Hvr; [|done]. exists rv. split; [done|].
           apply in_app_iff in Hm' as [Hm'|[[= <-]|[]]].
           ++ destruct (Hold Hm') as (e' & HRe & Hle). rewrite HRe in Hw. cbn in Hw. lia.
           ++ rewrite He in Hm. injection Hm as ->. lia.
        -- apply in_app_iff in Hm' as [Hm'|[[= <-]|[]]].
           ++ by apply Hold.
           ++ rewrite He in Hm. injection Hm as ->.
              destruct (entries R !! t) as [lv|] eqn:HRe; [|by cbn in Hw].
              exists lv. split; [done|]. cbn in Hw. lia.
      * apply in_app_iff in Hm' as [Hm'|[[= <-]|[]]]; [by apply Hold|congruence].
Qed.

Lemma topic_sync_converges a os1 os2 r rs0 b c h rs t :
  (topic_rounds (os1 ++ os2) < u64_modulus)%N ->
  (forall o, In o rs -> ~ relinks b o) ->
  (forall m, In (CApplyTopicSync b m) rs -> topic_sent a (os1 ++ os2) m) ->
  (forall m, c_get_full_topic_sync (c_run a os1) = Some m \/ In m (topic_deltas (c_run a os1) os2) ->
     In (CApplyTopicSync b m) rs) ->
  In b (c_get_interested_by_topic (c_run r (rs0 ++ CAddBroker b c h :: rs)) [t] false).1
  <-> advertised a (os1 ++ os2) t.
Proof.
  intros Hn Hrel Hsent Hreq.
  destruct (receiver_inv r rs0 b c h rs Hrel) as (R & HR & H1 & H2).
  rewrite interested_brokers_view.
  assert (Hview : forall t, view (c_run r (rs0 ++ CAddBroker b c h :: rs)) b t = vm_get R t).
  { intros t'. unfold view. destruct (brokers (c_run r (rs0 ++ CAddBroker b c h :: rs)) !! b); cbn in HR; congruence. }
  assert (Heq : entries R !! t = entries (topic_sync (c_run a (os1 ++ os2))) !! t).
  { destruct (entries (topic_sync (c_run a (os1 ++ os2))) !! t) as [cur|] eqn:Hc.
    - assert (Hm : exists m, In (CApplyTopicSync b m) rs /\ entries m !! t = Some cur).
      { destruct (sender_cover a os1 os2 t cur Hn Hc) as [Hf|(d & Hd & He)].
        - exists (topic_sync (c_run a os1)). split; [|done]. apply Hreq. left.
          unfold c_get_full_topic_sync. rewrite decide_False; [done|]. intros He. by rewrite He in Hf.
        - exists d. split; [|done]. apply Hreq. by right. }
      destruct Hm as (m & Hm & He).
      destruct (H2 m t cur Hm He) as (e' & HRe & Hle).
      { intros m' e' Hm' He'. eapply topic_sent_le in He'; [|done|by apply Hsent]. by destruct He'. }
      rewrite HRe. destruct (H1 t e' HRe) as (m' & Hm' & He').
      eapply topic_sent_le in He'; [|done|by apply Hsent]. destruct He' as (_ & cur' & Hc' & Hle').
      rewrite Hc in Hc'. injection Hc' as <-. destruct Hle' as [?| -> ]; [lia|done].
    - destruct (entries R !! t) as [e|] eqn:HRe; [|done].
      destruct (H1 t e HRe) as (m' & Hm' & He').
      eapply topic_sent_le in He'; [|done|by apply Hsent]. destruct He' as (_ & cur' & Hc' & _). congruence. }
  unfold advertised. destruct (sender_run a _ Hn) as [_ _ _ _ H5]. rewrite H5, <- Heq.
  change (match entries R !! t with Some e => val e | None => None end) with (vm_get R t).
  split.
  - intros (_ & t' & [<-|[]] & Hv). by rewrite Hview in Hv.
  - intros Hv. split; [done|]. exists t. split; [by left|]. by rewrite Hview.
Qed.
