(** Users that come back to their broker again and again: what other brokers know of them. *)
From stdpp Require Import gmap fin_maps fin_sets list.
From Coq Require Import NArith ZArith Lia.
From Verif Require Import IdModel RelMapModel RelMapProofs VMapModel VMapSpec VMapProofs ConnModel ConnSpec ConnProofs ConnProofs2 ConnProofs3 ConnProofs4
  SyncSpec SyncModel DirSyncProofs TopicSyncProofs TopicModel TopicProofs MsgModel RouteModel RouteProofs TaskModel TaskProofs TaskOrder TaskHandles TaskIsolation TaskSync
  NetModel NetProofs NetOrigin NetDelivery NetComplete NetSynced NetSettle NetSettleDir ReturnSpec.

(** ** One broker's directory entry about one user *)
Section entry.
Variables (v : ukey) (b : bid).
(** [d] says that [v] is at [b]. *)
Definition says_home (d : direct_map) : Prop := exists k, entries d !! v = Some (VVal k (Some b)).
Definition quiet (s : conns) : Prop := says_home (direct s) /\ v ∉ modified (direct s).

Lemma rus_gone s us : v ∈ us -> vm_get (direct s) v = Some (identity s) -> ~ says_home (direct (remove_users s us)).
Proof.
  intros Hv Hg [k Hk]. pose proof (rus_get s us v) as H. rewrite decide_True in H by done. unfold vm_get in H. rewrite Hk in H. done.
Qed.

(** At the user's own broker. *)
Lemma op_home s o :
  identity s = b ->
  (forall e, entries (direct s) !! v = Some e -> val e = Some b \/ val e = None) ->
  (forall m e, o = CApplyUserSync m -> entries m !! v = Some e -> val e = Some b) ->
  (forall e, entries (direct (c_step s o)) !! v = Some e -> val e = Some b \/ val e = None)
  /\ (quiet (c_step s o) -> quiet s \/ (o = CPartialUserSync /\ says_home (direct s) /\ v ∈ modified (direct s))).
Proof.
  intros Hid Hs Happ. unfold quiet, says_home. destruct (decide (neutral o)) as [Hn|Hn].
  { rewrite neutral_direct by done. split; [done|]. intros H. by left. }
  destruct o; try (exfalso; by apply Hn); cbn [c_step] in *.
  - rewrite add_user_entries, add_user_modified. case_decide as Hd.
    + subst u. split; [intros e [= <-]; left; cbn; congruence|]. intros [_ H]. exfalso. apply H. by left.
    + split; [exact Hs|]. intros [H1 H2]. left. split; [done|]. intros H3. apply H2. by right.
  - rewrite ru_direct, rie_entries, rie_modified. case_decide as Hd.
    + split; [intros e [= <-]; by right|]. intros [[k ?] _]. done.
    + split; [exact Hs|]. intros [H1 H2]. left. split; [done|]. intros H3. apply H2. by left.
  - rewrite apply_user_sync_eq. set (s1 := set_direct (vm_merge bid_gtb (direct s) m).1 s). set (us := map fst (vm_merge bid_gtb (direct s) m).2).
    assert (Hin : v ∈ us <-> exists rv, entries m !! v = Some rv /\ remote_wins bid_gtb (cid m) (cid (direct s)) (entries (direct s) !! v) rv).
    { unfold us. rewrite elem_of_list_In, in_map_iff. split.
      - intros ([k x] & <- & Hx). apply merge_changes in Hx as (rv & Hr & _ & Hw). by exists rv.
      - intros (rv & Hr & Hw). exists (v, val rv). split; [done|]. apply merge_changes. by exists rv. }
    assert (Hent : entries (direct s1) !! v = lww bid_gtb (cid m) (cid (direct s)) (entries (direct s) !! v) (entries m !! v)) by (unfold s1; cbn; apply merge_lookup).
    destruct (decide (v ∈ us)) as [Hv|Hv].
    + pose proof Hv as Hv0. apply Hin in Hv as (rv & Hr & Hw). pose proof (Happ m rv eq_refl Hr) as Hb.
      assert (Hg : vm_get (direct s1) v = Some (identity s1)).
      { unfold vm_get. rewrite Hent, Hr. unfold lww. rewrite decide_True by done. unfold taken. rewrite Hb. cbn. by rewrite Hb, Hid. }
      split.
      * intros e He. pose proof (rus_get s1 us v) as H. rewrite decide_True in H by done. unfold vm_get in H. rewrite He in H. by right.
      * intros [H _]. exfalso. by apply (rus_gone s1 us Hv0 Hg).
    + rewrite rus_entries by (by left).
      assert (Hsame : entries (direct s1) !! v = entries (direct s) !! v).
      { rewrite Hent. destruct (entries m !! v) as [rv|] eqn:Hr; [|done]. cbn. rewrite decide_False; [done|]. intros Hw. apply Hv, Hin. eauto. }
      rewrite Hsame. split; [exact Hs|]. intros [H1 H2]. left. split; [done|]. intros H3. apply H2, rus_modified. unfold s1. cbn. apply merge_modified. split; [done|].
      intros (_ & rv & Hr & Hw). apply Hv, Hin. eauto.
  - rewrite partial_user_direct. cbn [fst set_direct direct]. rewrite diff_rest_lookup. split.
    + intros e. case_decide; [|apply Hs]. destruct (entries (direct s) !! v) as [[k [x|]]|] eqn:E; try done. intros [= <-]. by apply Hs.
    + intros [[k H1] _]. case_decide as Hd; [right|left].
      * split; [done|]. split; [|done]. exists k. destruct (entries (direct s) !! v) as [[k' [x|]]|]; try done.
      * split; [by exists k|done].
Qed.

(** At another broker. *)
Lemma op_away s o :
  identity s <> b ->
  (forall c ts h, o <> CAddUser v c ts h) ->
  (forall e, entries (direct s) !! v = Some e -> val e = Some b) ->
  (forall m e, o = CApplyUserSync m -> entries m !! v = Some e -> val e = Some b \/ val e = None) ->
  (forall e, entries (direct (c_step s o)) !! v = Some e -> val e = Some b)
  /\ (says_home (direct s) -> (forall m, o = CApplyUserSync m -> ~ says_gone v m) -> says_home (direct (c_step s o)))
  /\ (forall m, o = CApplyUserSync m -> says_home m -> says_home (direct (c_step s o))).
Proof.
  intros Hid Hadd Hs Happ. unfold says_home. destruct (decide (neutral o)) as [Hn|Hn].
  { rewrite neutral_direct by done. split_and!; auto. intros m ->. by cbn in Hn. }
  destruct o; try (exfalso; by apply Hn); cbn [c_step] in *.
  - rewrite add_user_entries, decide_False by (intros ->; by edestruct Hadd). split_and!; auto. done.
  - rewrite ru_direct, rie_entries. rewrite decide_False; [split_and!; auto; done|]. intros [-> Hg]. unfold vm_get in Hg.
    destruct (entries (direct s) !! v) as [e|] eqn:E; [|done]. rewrite (Hs e eq_refl) in Hg. congruence.
  - rewrite apply_user_sync_eq. set (s1 := set_direct (vm_merge bid_gtb (direct s) m).1 s). set (us := map fst (vm_merge bid_gtb (direct s) m).2).
    assert (Hent : entries (direct s1) !! v = lww bid_gtb (cid m) (cid (direct s)) (entries (direct s) !! v) (entries m !! v)) by (unfold s1; cbn; apply merge_lookup).
    assert (Hm1 : forall e, entries (direct s1) !! v = Some e -> val e = Some b).
    { intros e. rewrite Hent. unfold lww. destruct (entries m !! v) as [rv|] eqn:Hr; [|apply Hs]. case_decide; [|apply Hs].
      unfold taken. destruct (val rv) eqn:Hv; [|done]. intros [= <-]. destruct (Happ m rv eq_refl Hr) as [?|?]; congruence. }
    assert (Hout : entries (direct (remove_users s1 us)) !! v = entries (direct s1) !! v).
    { apply rus_entries. right. unfold vm_get. destruct (entries (direct s1) !! v) as [e|] eqn:E; [|done]. rewrite (Hm1 e eq_refl).
      intros [= Hb]. apply Hid. by rewrite Hb. }
    rewrite Hout. split; [done|]. split.
    + intros [k Hk] Hng. specialize (Hng m eq_refl). rewrite Hent. unfold lww. destruct (entries m !! v) as [rv|] eqn:Hr; [|by exists k].
      case_decide; [|by exists k]. destruct (Happ m rv eq_refl Hr) as [Hv|Hv].
      * unfold taken. rewrite Hv. destruct rv as [k' x]. cbn in Hv. subst x. by exists k'.
      * exfalso. apply Hng. destruct rv as [k' x]. cbn in Hv. subst x. by exists k'.
    + intros m' [= <-] [k Hk]. rewrite Hent, Hk. unfold lww. case_decide as Hw; [by exists k|].
      destruct (entries (direct s) !! v) as [[k' x]|] eqn:E; [|exfalso; by apply Hw]. exists k'. by rewrite (Hs _ eq_refl : x = Some b).
  - rewrite partial_user_direct. cbn [fst set_direct direct]. rewrite diff_rest_lookup.
    assert (Hx : (if decide (v ∈ modified (direct s)) then match entries (direct s) !! v with Some (VVal _ None) => None | x => x end else entries (direct s) !! v) = entries (direct s) !! v).
    { case_decide; [|done]. destruct (entries (direct s) !! v) as [[k [x|]]|] eqn:E; try done. by specialize (Hs _ eq_refl). }
    rewrite Hx. split_and!; auto. done.
Qed.
End entry.

(** ** The network *)
Section net.
Variable deser : bytes -> option message.
Variable dec_users : bytes -> option direct_map.
Variable dec_topics : bytes -> option topic_map.
Variable valid : N -> bool.
Variable enc_users : direct_map -> bytes.
Variable enc_topics : topic_map -> bytes.
Hypothesis Hcodec : faithful_sync deser dec_users dec_topics enc_users enc_topics.
Notation m_step := (m_step deser dec_users dec_topics valid).
Notation m_run := (m_run deser dec_users dec_topics valid).
Notation m_run_snoc := (m_run_snoc deser dec_users dec_topics valid).
Notation loop_frame := (loop_frame deser dec_users dec_topics valid).
Notation broker_at := (broker_at deser dec_users dec_topics valid).
Notation fresh_pair := (fresh_pair deser dec_users dec_topics valid).
Notation n_run := (n_run deser dec_users dec_topics valid enc_users enc_topics).
Notation wire := (wire enc_users enc_topics).
Notation net_inv := (net_inv deser dec_users dec_topics valid enc_users enc_topics).
Notation fine := (fine deser dec_users dec_topics valid).
Notation possible := (possible deser dec_users dec_topics valid enc_users enc_topics).
Notation sound := (sound deser dec_users dec_topics valid).
Notation frames_le := (frames_le deser dec_users dec_topics valid).
Notation run_extend := (run_extend deser dec_users dec_topics valid).
Notation run_other := (run_other deser dec_users dec_topics valid).
Notation broker_extend := (broker_extend deser dec_users dec_topics valid).
Notation joined := (joined deser dec_users dec_topics valid).
Notation at_rest := (at_rest deser dec_users dec_topics valid).
Notation not_overtaken := (not_overtaken deser dec_users dec_topics valid).
Notation stops_when_told := (stops_when_told deser dec_users dec_topics valid).
Notation identity_at := (identity_at deser dec_users dec_topics valid).
Notation conns_step := (conns_step deser dec_users dec_topics valid).
Notation conns_at n b := (m_conns (broker_at n b)).
Notation tasks_at n b := (m_tasks (broker_at n b)).

Section user.
Variables (v : ukey) (b : bid).
Notation says_home := (says_home v b).
Notation says_gone := (says_gone v).
Notation quiet := (quiet v b).

Lemma admitted_extend n b0 ev : admitted_at v b (extend n b0 ev) -> admitted_at v b n.
Proof. intros H x h hh c ts Hin. apply (H x h hh c ts). rewrite trace_extend. case_decide; [apply in_app_iff; by left|done]. Qed.
Lemma overtaken_extend n b0 ev : not_overtaken v b (extend n b0 ev) -> not_overtaken v b n.
Proof.
  intros H es1 h good es2 o y l op k He. destruct (decide (b0 = b)) as [->|Hne].
  - apply (H es1 h good (es2 ++ [ev]) o y l op k). rewrite trace_extend, decide_True, He by done. by rewrite <- app_assoc.
  - apply (H es1 h good es2 o y l op k). by rewrite trace_extend, decide_False.
Qed.
Lemma stops_extend a n b0 ev : stops_when_told a b (extend n b0 ev) -> stops_when_told a b n.
Proof.
  intros H es1 h good es2 t c He. destruct (decide (b0 = a)) as [->|Hne].
  - apply (H es1 h good (es2 ++ [ev]) t c). rewrite trace_extend, decide_True, He by done. by rewrite <- app_assoc.
  - apply (H es1 h good es2 t c). by rewrite trace_extend, decide_False.
Qed.

Lemma away_no_add n b0 h t c ts h' : admitted_at v b n -> b0 <> b -> tasks_at n b0 !! h = Some t -> ~ In (AAddUser v c ts h') (t_acts t).
Proof.
  intros Hs Hne Ht Hin. destruct (pending_authed deser dec_users dec_topics valid v n b0 h t c ts h' Ht Hin) as (hh & ts' & Hin'). by apply Hne, (Hs _ _ _ _ _ Hin').
Qed.

(** *** What is said about the user, and by whom *)
Definition right_for (x : bid) (e : vval bid) : Prop := val e = Some b \/ (x = b /\ val e = None).
Definition told_right (n : net) : Prop :=
  (forall x e, entries (direct (conns_at n x)) !! v = Some e -> right_for x e)
  /\ (forall x h t y d e, tasks_at n x !! h = Some t -> In y (t_acts t) -> carries y = Some (FUserSync d) -> entries d !! v = Some e -> right_for x e)
  /\ (forall x y d e, In y (m_sent (broker_at n x)) -> e_frame (s_what y) = FUserSync d -> entries d !! v = Some e -> right_for x e)
  /\ (forall x h t d e, tasks_at n x !! h = Some t -> In (AApplyUserSync d) (t_acts t) -> entries d !! v = Some e ->
        val e = Some b \/ (val e = None /\ x <> b /\ exists c, t_owner t = OBroker b c)).

(** What an action sends or is going to send about the user. *)
Lemma made_right n x h o a l op k (good : bool) s' nxt sends d e :
  told_right n -> tasks_at n x !! h = Some (Task o (a :: l) op k) -> act_step (fun _ => good) (conns_at n x) a = (s', nxt, sends) ->
  (exists y, In y nxt /\ carries y = Some (FUserSync d)) \/ (exists y, In y sends /\ e_frame y = FUserSync d) ->
  entries d !! v = Some e -> right_for x e.
Proof.
  intros (T1 & T2 & _) Ht Ha Hy He. destruct (act_step_carries _ _ _ _ _ _ _ Ha Hy) as [Hc|[?|[(_ & d' & _ & ?)|[(_ & d' & Hd & Heq)|[(_ & d' & _ & ?)|(_ & d' & Hd & Heq)]]]]]; try done.
  - eapply T2; [exact Ht|by left|exact Hc|exact He].
  - injection Heq as ->. unfold c_get_full_user_sync in Hd. case_decide; [done|]. injection Hd as <-. by apply T1.
  - injection Heq as ->. apply partial_out in Hd. subst d'. rewrite diff_delta_lookup in He. case_decide; [|done]. by apply T1.
Qed.

Lemma step_owner_net n b0 ev h t t' : tasks_at n b0 !! h = Some t -> tasks_at (extend n b0 ev) b0 !! h = Some t' -> t_owner t' = t_owner t.
Proof.
  intros Ht Ht'. rewrite run_extend in Ht'. destruct (step_owner deser dec_users dec_topics valid b0 (trace n b0) ev h t Ht) as (t2 & Ht2 & Ho). congruence.
Qed.

Lemma told_extend_right n b0 ev :
  net_inv n -> sound n -> possible n b0 ev -> admitted_at v b (extend n b0 ev) -> told_right n -> told_right (extend n b0 ev).
Proof.
  intros Hi (S1 & _) Hp Hadm HT. pose proof (admitted_extend _ _ _ Hadm) as Hadm0. pose proof HT as (T1 & T2 & T3 & T4).
  split; [|split; [|split]].
  - intros x e He. destruct (decide (b0 = x)) as [->|Hne]; [|rewrite run_other in He by done; by apply T1].
    destruct (conns_step n x ev) as [Heq|(h & good & o & a & l & op & k & cop & -> & Ht & Ha & Heq)]; rewrite Heq in He; [by apply T1|].
    assert (Happ : forall m e', cop = CApplyUserSync m -> entries m !! v = Some e' -> val e' = Some b \/ (val e' = None /\ x <> b)).
    { intros m e' -> He'. destruct a; cbn in Ha; try done. injection Ha as ->. destruct (T4 x h _ m e' Ht ltac:(by left) He') as [?|(? & ? & _)]; auto. }
    destruct (decide (x = b)) as [->|Hxb].
    + destruct (op_home v b (conns_at n b) cop) as [H _]; [apply identity_at| | |].
      * intros e' He'. destruct (T1 _ _ He') as [?|[_ ?]]; auto.
      * intros m e' Hm He'. destruct (Happ m e' Hm He') as [?|[_ ?]]; done.
      * destruct (H e He) as [?|?]; [by left|by right].
    + left. destruct (op_away v b (conns_at n x) cop) as [H _]; [by rewrite identity_at| | | |by apply H].
      * intros c ts h' ->. destruct a; cbn in Ha; try done. injection Ha as -> -> -> ->. eapply (away_no_add n x h); [exact Hadm0|exact Hxb|exact Ht|by left].
      * intros e' He'. destruct (T1 _ _ He') as [?|[? _]]; done.
      * intros m e' Hm He'. destruct (Happ m e' Hm He') as [?|[? _]]; auto.
  - intros x h t y d e Ht Hy Hc He. destruct (decide (b0 = x)) as [->|Hne]; [|rewrite run_other in Ht by done; by eapply T2].
    rewrite broker_extend, decide_True in Ht by done.
    destruct (acts_new _ _ _ _ _ _ _ _ _ Ht Hy) as [(t0 & Ht0 & Hy0)|[Hst|[(raw & hk & t0 & -> & Ht0 & Hy0)|(good & o & a & l & op & k & s' & nxt & sends & -> & Ht0 & Ha & Hy0)]]].
    + by eapply T2.
    + exfalso. by eapply started_carries.
    + apply loop_frame_carries in Hy0. congruence.
    + eapply made_right; [exact HT|exact Ht0|exact Ha|left; eauto|exact He].
  - intros x y d e Hy Hf He. destruct (decide (b0 = x)) as [->|Hne]; [|rewrite run_other in Hy by done; by eapply T3].
    rewrite broker_extend, decide_True in Hy by done.
    destruct (sent_new _ _ _ _ _ _ _ Hy) as [Hy0|(h & good & o & a & l & op & k & s' & nxt & sends & -> & Ht0 & Ha & Hy0)].
    + by eapply T3.
    + eapply made_right; [exact HT|exact Ht0|exact Ha|right; eauto|exact He].
  - intros x h t d e Ht Hy He. destruct (decide (b0 = x)) as [->|Hne]; [|rewrite run_other in Ht by done; by eapply T4].
    pose proof Ht as Ht'. rewrite broker_extend, decide_True in Ht by done.
    destruct (acts_new _ _ _ _ _ _ _ _ _ Ht Hy) as [(t0 & Ht0 & Hy0)|[Hst|[(raw & hk & t0 & -> & Ht0 & Hy0)|(good & o & a & l & op & k & s' & nxt & sends & -> & Ht0 & Ha & Hy0)]]].
    + rewrite (step_owner_net n x ev h t0 t Ht0 Ht'). by eapply T4.
    + exfalso. by eapply started_apply.
    + rewrite (step_owner_net n x _ h t0 t Ht0 Ht').
      apply possible_frame in Hp as [(u & c & t1 & Ht1 & Ho & _)|(a & c & t1 & y & Hl & Ht1 & Hx & Hk & ->)]; rewrite Ht0 in Ht1; injection Ht1 as <-.
      * rewrite Ho in Hy0. cbn [TaskModel.loop_frame] in Hy0. by apply user_no_apply in Hy0.
      * apply sent_on_elem in Hx as [Hx _].
        destruct (delivered_acts _ _ _ _ _ _ Hcodec n x h hk a c t0 y (AApplyUserSync d) Hi S1 Hl Ht0 Hx Hk Hy0 eq_refl) as [(d0 & d' & _ & ? & _)|(d0 & d' & Hfr & Hyy & He' & _)]; [done|].
        injection Hyy as <-. rewrite He' in He. destruct (T3 a y d0 e Hx Hfr He) as [?|[-> ?]]; [by left|right]. split; [done|].
        destruct (proj1 Hi _ _ _ _ Hl) as (Hab & _ & ca & ta & Hta & Hoa). split; [done|]. exists ca. congruence.
    + exfalso. by eapply act_step_no_apply.
Qed.

Lemma told_empty : told_right (Net ∅ ∅).
Proof.
  split; [|split; [|split]].
  - intros x e. unfold NetModel.broker_at, trace. cbn. by rewrite !lookup_empty.
  - intros x h t y d e. unfold NetModel.broker_at, trace. cbn. by rewrite !lookup_empty.
  - intros x y d e. unfold NetModel.broker_at, trace. cbn. by rewrite !lookup_empty.
  - intros x h t d e. unfold NetModel.broker_at, trace. cbn. by rewrite !lookup_empty.
Qed.

(** *** Nothing untrue is on its way out *)
Definition in_hand_true (n : net) : Prop :=
  quiet (conns_at n b) ->
  forall h t y d, tasks_at n b !! h = Some t -> In y (t_acts t) -> carries y = Some (FUserSync d) -> ~ says_gone d.

(** What a step of the user's broker sends or prepares, if nothing untrue is on its way out. *)
Lemma made_true n h o a l op k (good : bool) s' nxt sends d :
  quiet (conns_at n b) -> in_hand_true n -> tasks_at n b !! h = Some (Task o (a :: l) op k) -> act_step (fun _ => good) (conns_at n b) a = (s', nxt, sends) ->
  (exists y, In y nxt /\ carries y = Some (FUserSync d)) \/ (exists y, In y sends /\ e_frame y = FUserSync d) -> ~ says_gone d.
Proof.
  intros Hq HJ Ht Ha Hy [j Hj]. pose proof Hq as [[k0 Hk0] Hm].
  destruct (act_step_carries _ _ _ _ _ _ _ Ha Hy) as [Hc|[?|[(_ & d' & _ & ?)|[(_ & d' & Hd & Heq)|[(_ & d' & _ & ?)|(_ & d' & Hd & Heq)]]]]]; try done.
  - eapply (HJ Hq h _ a d Ht); [by left|exact Hc|]. by exists j.
  - injection Heq as ->. unfold c_get_full_user_sync in Hd. case_decide; [done|]. injection Hd as <-. congruence.
  - injection Heq as ->. apply partial_out in Hd. subst d'. rewrite diff_delta_lookup, decide_False in Hj by done. done.
Qed.

Lemma in_hand_extend n b0 ev :
  told_right n -> admitted_at v b (extend n b0 ev) -> not_overtaken v b (extend n b0 ev) -> in_hand_true n -> in_hand_true (extend n b0 ev).
Proof.
  intros HT Hadm Hno HJ Hq' h t y d Ht Hy Hc. destruct (decide (b0 = b)) as [->|Hne]; [|rewrite run_other in Hq', Ht by done; by eapply HJ].
  assert (Hcase : quiet (conns_at n b) \/ (says_home (direct (conns_at n b)) /\ exists h1 good o l op k, ev = ERun h1 good /\ tasks_at n b !! h1 = Some (Task o (APartialUserSync :: l) op k))).
  { destruct (conns_step n b ev) as [Heq|(h1 & good & o & a & l & op & k & cop & -> & Ht1 & Ha & Heq)]; rewrite Heq in Hq'; [by left|].
    pose proof HT as (T1 & _ & _ & T4).
    destruct (op_home v b (conns_at n b) cop) as [_ H]; [apply identity_at| | |].
    - intros e' He'. destruct (T1 _ _ He') as [?|[_ ?]]; auto.
    - intros m e' -> He'. destruct a; cbn in Ha; try done. injection Ha as ->. destruct (T4 b h1 _ m e' Ht1 ltac:(by left) He') as [?|(_ & ? & _)]; done.
    - destruct (H Hq') as [?|(-> & ? & _)]; [by left|right]. split; [done|]. destruct a; cbn in Ha; try done. eauto 10. }
  rewrite broker_extend, decide_True in Ht by done.
  destruct Hcase as [Hq|([k0 Hk0] & h1 & good1 & o1 & l1 & op1 & k1 & -> & Ht1)].
  - destruct (acts_new _ _ _ _ _ _ _ _ _ Ht Hy) as [(t0 & Ht0 & Hy0)|[Hst|[(raw & hk & t0 & -> & Ht0 & Hy0)|(good & o & a & l & op & k & s' & nxt & sends & -> & Ht0 & Ha & Hy0)]]].
    + by eapply (HJ Hq).
    + exfalso. by eapply started_carries.
    + apply loop_frame_carries in Hy0. congruence.
    + eapply made_true; [exact Hq|exact HJ|exact Ht0|exact Ha|left; eauto].
  - assert (Hpol : ~ sending_gone v (broker_at n b)).
    { eapply (Hno (trace n b) h1 good1 [] o1 APartialUserSync l1 op1 k1); [by rewrite trace_extend, decide_True|exact Ht1|done]. }
    destruct (acts_new _ _ _ _ _ _ _ _ _ Ht Hy) as [(t0 & Ht0 & Hy0)|[Hst|[(raw & hk & t0 & ? & Ht0 & Hy0)|(good & o & a & l & op & k & s' & nxt & sends & Heq & Ht0 & Ha & Hy0)]]].
    + intros Hg. apply Hpol. by exists h, t0, y, d.
    + exfalso. by eapply started_carries.
    + done.
    + injection Heq as <- <-. rewrite Ht1 in Ht0. injection Ht0 as <- <- <- <- <-. cbn [act_step] in Ha.
      destruct (c_get_partial_user_sync (conns_at n b)) as [s1 [d1|]] eqn:E; injection Ha as <- <- <-; [|done]. destruct Hy0 as [<-|[]]. cbn in Hc. injection Hc as <-.
      assert (Hd : (c_get_partial_user_sync (conns_at n b)).2 = Some d1) by (by rewrite E). apply partial_out in Hd. subst d1.
      intros [j Hj]. rewrite diff_delta_lookup in Hj. case_decide; congruence.
Qed.

(** *** The last word *)
Section peer.
Variable a : bid.
Definition home_frame (f : frame) : Prop := exists d, f = FUserSync d /\ says_home d.
Definition gone_frame (f : frame) : Prop := exists d, f = FUserSync d /\ says_gone d.

Definition last_word (n : net) (cb ha : N) : Prop :=
  about_to a cb home_frame false (broker_at n b)
  \/ exists t, tasks_at n a !! ha = Some t /\
     ((exists j x, t_frames t <= j /\ sent_on (broker_at n b) cb !! j = Some x /\ home_frame (e_frame (s_what x))
         /\ forall j' x', j < j' -> sent_on (broker_at n b) cb !! j' = Some x' -> ~ gone_frame (e_frame (s_what x')))
      \/ ((forall j x, t_frames t <= j -> sent_on (broker_at n b) cb !! j = Some x -> ~ gone_frame (e_frame (s_what x)))
          /\ (forall d, In (AApplyUserSync d) (t_acts t) -> ~ says_gone d)
          /\ (exists ca, registered (conns_at n a) ha (OBroker b ca))
          /\ (says_home (direct (conns_at n a)) \/ exists d, In (AApplyUserSync d) (t_acts t) /\ says_home d))).

Definition informed (n : net) : Prop :=
  forall cb ha, n_links n !! (b, cb) = Some (a, ha) -> c_get_broker_connection (conns_at n b) a = Some cb -> live (broker_at n a) ha ->
  quiet (conns_at n b) -> last_word n cb ha.

Lemma home_not_gone d : says_home d -> ~ says_gone d.
Proof. intros [k Hk] [j Hj]. congruence. Qed.

(** A loop that is busy and was not told to stop is the registered one. *)
Lemma busy_loop n x h t y c : fine n -> tasks_at n x !! h = Some t -> t_owner t = OBroker y c -> t_acts t <> [] -> ~ In h (aborted (conns_at n x)) -> registered (conns_at n x) h (OBroker y c).
Proof.
  intros Hf Ht Ho Hne Hab. destruct (loops_known_run deser dec_users dec_topics valid x (trace n x)) as (HA & _ & _).
  destruct (HA h t Ht) as [Hu|[Hl|?]]; [by rewrite Ho| | |done].
  - rewrite <- Ho. eapply (busy_registered deser dec_users dec_topics valid x (trace n x)); [apply Hf|by right|exact Ht|exact Hne].
  - rewrite <- Ho. eapply (busy_registered deser dec_users dec_topics valid x (trace n x)); [apply Hf| |exact Ht|exact Hne]. left.
    unfold live_handles in Hl. apply in_app_iff in Hl as [Hl|Hl].
    + apply in_map_iff in Hl as ([u [c1 h1]] & Heq & Hin). cbn in Heq. subst h1. exists (OUser u c1). cbn. by apply elem_of_list_In, elem_of_map_to_list in Hin.
    + apply in_map_iff in Hl as ([y1 [c1 tm h1]] & Heq & Hin). cbn in Heq. subst h1. exists (OBroker y1 c1), tm. by apply elem_of_list_In, elem_of_map_to_list in Hin.
Qed.

(** What the user's broker sends while nothing untrue is on its way out. *)
Lemma sent_true n ev cb :
  quiet (conns_at n b) -> in_hand_true n ->
  exists l, sent_on (broker_at (extend n b ev) b) cb = sent_on (broker_at n b) cb ++ l /\ forall x, In x l -> ~ gone_frame (e_frame (s_what x)).
Proof.
  intros Hq HJ. rewrite broker_extend, decide_True by done. set (m := broker_at n b) in *.
  assert (Hnone : sent_on m cb = sent_on m cb ++ [] /\ forall x, In x [] -> ~ gone_frame (e_frame (s_what x))) by (split; [by rewrite app_nil_r|done]).
  destruct ev as [h1 h2 w c1 ts|h1 h2 b1 c1|h2|h2 w|h1 raw hk|h1|h1 good|h1]; cbn [TaskModel.m_step].
  - case_decide; by exists [].
  - case_decide; by exists [].
  - destruct (m_tasks m !! h2); by exists [].
  - destruct (m_tasks m !! h2); by exists [].
  - destruct (m_tasks m !! h1) as [[o [|? ?] [|] k]|]; try (by exists []). destruct (loop_frame o raw hk); by exists [].
  - destruct (m_tasks m !! h1) as [[o [|? ?] [|] k]|]; by exists [].
  - destruct (m_tasks m !! h1) as [[o [|y l] op k]|] eqn:E; try (by exists []).
    destruct (act_step (fun _ => good) (m_conns m) y) as [[s' nxt] sends] eqn:Ea. rewrite sent_on_app. eexists. split; [reflexivity|].
    intros x Hx (d & Hd & Hg). apply elem_of_list_In, elem_of_list_filter in Hx as [_ Hx]. apply elem_of_list_In, in_map_iff in Hx as (em & <- & Hem). cbn in Hd.
    eapply (made_true n h1 o y l op k good s' nxt sends d); [exact Hq|exact HJ|exact E|exact Ea|right; eauto|exact Hg].
  - destruct (m_tasks m !! h1) as [[o l op k]|]; [|by exists []]. case_decide; by exists [].
Qed.

Lemma later_true (l0 l : list sent) j x : (forall x, In x l -> ~ gone_frame (e_frame (s_what x))) -> length l0 <= j -> (l0 ++ l) !! j = Some x -> ~ gone_frame (e_frame (s_what x)).
Proof. intros Hl Hj Hx. rewrite lookup_app_r in Hx by done. apply Hl. apply elem_of_list_lookup_2 in Hx. by apply elem_of_list_In. Qed.

Lemma informed_extend n b0 ev :
  net_inv n -> sound n -> frames_le n -> possible n b0 ev -> fine (extend n b0 ev) ->
  admitted_at v b (extend n b0 ev) -> not_overtaken v b (extend n b0 ev) -> stops_when_told a b (extend n b0 ev) ->
  told_right n -> in_hand_true n -> informed n -> informed (extend n b0 ev).
Proof.
  intros Hi Hs Hfl Hp Hf Hadm Hno Hst HT HJ HP cb ha Hl Hc' Hlive Hq'. pose proof (admitted_extend _ _ _ Hadm) as Hadm0. set (n' := extend n b0 ev) in *.
  change (n_links n !! (b, cb) = Some (a, ha)) in Hl. pose proof Hi as (I0 & I2 & _).
  destruct (I0 _ _ _ _ Hl) as (Hab & _ & ca & ta & Hta & Hoa). specialize (Hfl _ _ _ _ _ Hl Hta).
  pose proof HT as (T1 & _ & _ & T4).
  destruct (decide (c_get_broker_connection (conns_at n b) a = Some cb)) as [Hc|Hc].
  2:{ left. destruct (decide (b0 = b)) as [->|Hnb]; [by apply conns_extend_reg|]. unfold n' in Hc'. by rewrite run_other in Hc'. }
  assert (Hlm : live (broker_at n a) ha).
  { destruct (decide (b0 = a)) as [->|Hna0]; [|unfold n' in Hlive; by rewrite run_other in Hlive]. unfold n' in Hlive. rewrite run_extend in Hlive. eapply live_back; [|exact Hlive]. by exists ta. }
  destruct (decide (b0 = b)) as [->|Hnb].
  - (* a step of the user's broker *)
    assert (Ha : broker_at n' a = broker_at n a) by (by apply run_other).
    assert (Hcase : quiet (conns_at n b) \/ about_to a cb home_frame false (broker_at n' b)).
    { unfold n'. destruct (conns_step n b ev) as [Heq|(h1 & good & o & y & l & op & k & cop & -> & Ht1 & Hy & Heq)]; [left; unfold n' in Hq'; by rewrite Heq in Hq'|].
      unfold n' in Hq'. rewrite Heq in Hq'. destruct (op_home v b (conns_at n b) cop) as [_ H]; [apply identity_at| | |].
      - intros e' He'. destruct (T1 _ _ He') as [?|[_ ?]]; auto.
      - intros m e' -> He'. destruct y; cbn in Hy; try done. injection Hy as ->. destruct (T4 b h1 _ m e' Ht1 ltac:(by left) He') as [?|(_ & ? & _)]; done.
      - destruct (H Hq') as [?|(-> & [k1 Hk1] & Hm)]; [by left|right]. destruct y; cbn in Hy; try done.
        destruct (partial_in_out _ _ _ Hm Hk1) as (d & Hd1 & Hd2). rewrite run_extend.
        eapply (delta_tells deser dec_users dec_topics valid a cb home_frame false b (trace n b) _ h1 good o l op k (FUserSync d)); [done|exact Ht1| |exists d; split; [done|by exists k1]].
        change (m_run b (trace n b)) with (broker_at n b). by rewrite Hd1. }
    destruct Hcase as [Hq|Hab']; [|by left].
    destruct (sent_true n ev cb Hq HJ) as (l & Hsl & Hlt). fold n' in Hsl.
    destruct (HP cb ha Hl Hc Hlm Hq) as [Hto|(t & Ht & Hw)].
    + assert (Hfull : full_ok home_frame false (conns_at n b)).
      { destruct Hq as [[k Hk] _]. exists (direct (conns_at n b)). split; [|eexists; split; [done|by exists k]]. unfold c_get_full_user_sync. rewrite decide_False; [done|].
        intros He. by rewrite He in Hk. }
      pose proof Hc' as Hc''. unfold n' in Hc''. rewrite run_extend in Hc''.
      destruct (sender_step deser dec_users dec_topics valid a cb home_frame false b (trace n b) ev (length (sent_on (broker_at n b) cb)) Hto Hfull Hc) as [Hto'|(j & x & Hj & Hx & Hg)];
        [by rewrite Hc''|done|left; unfold n'; by rewrite run_extend|]. right. exists ta. rewrite Ha. split; [done|]. left.
      rewrite <- run_extend in Hx. fold n' in Hx. exists j, x. split; [lia|]. split; [done|]. split; [done|].
      intros j' x' Hjj Hx'. rewrite Hsl in Hx'. eapply later_true; [exact Hlt| |exact Hx']. lia.
    + right. exists t. rewrite Ha. split; [done|]. rewrite Hta in Ht. injection Ht as <-. destruct Hw as [(j & x & Hj & Hx & Hg & Hlast)|(W1 & W2 & W3 & W4)].
      * left. exists j, x. rewrite Hsl. split; [done|]. split; [by apply lookup_app_l_Some|]. split; [done|]. intros j' x' Hjj Hx'.
        destruct (decide (j' < length (sent_on (broker_at n b) cb))) as [Hlt'|Hge].
        -- rewrite lookup_app_l in Hx' by done. by eapply Hlast.
        -- eapply later_true; [exact Hlt| |exact Hx']. lia.
      * right. split; [|done]. intros j x Hj Hx. rewrite Hsl in Hx.
        destruct (decide (j < length (sent_on (broker_at n b) cb))) as [Hlt'|Hge].
        -- rewrite lookup_app_l in Hx by done. by eapply W1.
        -- eapply later_true; [exact Hlt| |exact Hx]. lia.
  - assert (Hb : broker_at n' b = broker_at n b) by (by apply run_other). rewrite Hb in Hq'.
    destruct (decide (b0 = a)) as [->|Hna].
    2:{ assert (Ha : broker_at n' a = broker_at n a) by (by apply run_other). unfold last_word. rewrite Ha, Hb. by apply HP. }
    (* a step of the other broker *)
    pose proof Hlive as Hlive'. unfold n' in Hlive'. rewrite run_extend in Hlive'.
    destruct (loop_step deser dec_users dec_topics valid a (trace n a) ev ha ta Hta Hlive') as (t2 & Ht2 & Hstep).
    rewrite <- run_extend in Ht2. fold n' in Ht2.
    destruct (HP cb ha Hl Hc Hlm Hq') as [Hto|(t & Ht & Hw)]; [left; by rewrite Hb|]. rewrite Hta in Ht. injection Ht as <-.
    right. exists t2. split; [done|]. rewrite Hb.
    (* a frame that the loop receives *)
    assert (Hfr : forall raw hk, ev = EFrame ha raw hk -> exists x, sent_on (broker_at n b) cb !! t_frames ta = Some x /\ hook_passes hk /\ raw = wire (e_frame (s_what x))).
    { intros raw hk ->. apply possible_frame in Hp as [(u & c & t1 & Ht1 & Ho1 & _)|(a1 & c & t1 & x1 & Hl1 & Ht1 & Hx1 & Hk & ->)]; rewrite Hta in Ht1; injection Ht1 as <-; [congruence|].
      destruct (I2 _ _ _ _ _ _ Hl Hl1) as [<- <-]. eauto. }
    destruct Hw as [(j & x & Hj & Hx & Hg & Hlast)|(W1 & W2 & [ca' W3] & W4)].
    + destruct Hstep as [[Hfrm _]|(raw & hk & -> & Hnil & Hfrm & Hacts)].
      { left. exists j, x. rewrite Hfrm. done. }
      destruct (decide (j = t_frames ta)) as [->|Hjne].
      2:{ left. exists j, x. split; [lia|done]. }
      right. destruct (Hfr _ _ eq_refl) as (x1 & Hx1 & Hk & ->). rewrite Hx in Hx1. injection Hx1 as <-. destruct Hg as (d & Hd & Hhome). rewrite Hoa in Hacts. cbn [TaskModel.loop_frame] in Hacts.
      rewrite Hd in Hacts. destruct (user_frame_acts deser dec_users dec_topics enc_users enc_topics Hcodec b d hk Hk) as (d' & Heq & He & _). rewrite Heq in Hacts. cbn in Hacts.
      assert (Hhome' : says_home d') by (destruct Hhome as [k1 Hk1]; exists k1; by rewrite He).
      split; [|split; [|split]].
      * intros j' x' Hj' Hx'. apply (Hlast j' x'); [lia|done].
      * intros d1 Hin. rewrite Hacts in Hin. destruct Hin as [[= <-]|[]]. by apply home_not_gone.
      * exists ca. assert (Ho2 : t_owner t2 = OBroker b ca) by (rewrite (step_owner_net n a _ ha ta t2 Hta Ht2); done). rewrite <- Ho2.
        eapply (busy_registered deser dec_users dec_topics valid a (trace n' a)); [apply Hf|exact Hlive|exact Ht2|by rewrite Hacts].
      * right. exists d'. split; [rewrite Hacts; by left|done].
    + right. split; [|split; [|split]].
      * intros j x Hj Hx. apply (W1 j x); [|done]. destruct Hstep as [[Hfrm _]|(raw & hk & _ & _ & Hfrm & _)]; lia.
      * intros d Hin Hg. pose proof Ht2 as Ht2'. unfold n' in Ht2'. rewrite broker_extend, decide_True in Ht2' by done.
        destruct (acts_new _ _ _ _ _ _ _ _ _ Ht2' Hin) as [(t0 & Ht0 & Hy0)|[Hst'|[(raw & hk & t0 & -> & Ht0 & Hy0)|(good & o & y & l & op & k & s' & nxt & sends & -> & Ht0 & Hy & Hy0)]]].
        -- rewrite Hta in Ht0. injection Ht0 as <-. by apply (W2 d).
        -- by eapply started_apply.
        -- rewrite Hta in Ht0. injection Ht0 as <-. destruct (Hfr _ _ eq_refl) as (x1 & Hx1 & Hk & ->).
           pose proof (sent_on_elem _ _ _ _ Hx1) as [Hx2 _]. destruct Hs as (S1 & _).
           destruct (delivered_acts _ _ _ _ _ _ Hcodec n a ha hk b cb ta x1 (AApplyUserSync d) Hi S1 Hl Hta Hx2 Hk Hy0 eq_refl) as [(d0 & d' & _ & ? & _)|(d0 & d' & Hfr' & Hyy & He' & _)]; [done|].
           injection Hyy as <-. apply (W1 (t_frames ta) x1); [lia|done|]. exists d0. split; [done|]. destruct Hg as [k1 Hk1]. exists k1. by rewrite <- He'.
        -- by eapply act_step_no_apply.
      * exists ca'. unfold n'. rewrite run_extend. apply stays_registered; [exact W3|exact Hlive'].
      * (* the directory, or the application that is due *)
        assert (Hkeep : forall m h1 good o l op k, ev = ERun h1 good -> tasks_at n a !! h1 = Some (Task o (AApplyUserSync m :: l) op k) -> ~ says_gone m).
        { intros m h1 good o l op k -> Ht1 Hg. pose proof Hg as [k1 Hk1].
          destruct (T4 a h1 _ m _ Ht1 ltac:(by left) Hk1) as [?|(_ & _ & c1 & Ho1)]; [done|].
          assert (Hna : ~ In h1 (aborted (conns_at n a))) by (eapply (Hst (trace n a) h1 good [] _ c1); [unfold n'; by rewrite trace_extend, decide_True|exact Ht1|exact Ho1]).
          pose proof (busy_loop n a h1 _ b c1 ltac:(by eapply fine_extend) Ht1 Ho1 ltac:(done) Hna) as Hr1. destruct Hr1 as [tm1 Hr1], W3 as [tm2 W3].
          rewrite Hr1 in W3. injection W3 as -> -> ->. rewrite Hta in Ht1. injection Ht1 as ->. apply (W2 m); [by left|done]. }
        assert (Hop : forall h1 good o y l op k cop, ev = ERun h1 good -> tasks_at n a !! h1 = Some (Task o (y :: l) op k) -> act_op y = Some cop ->
          (says_home (direct (conns_at n a)) -> says_home (direct (c_step (conns_at n a) cop))) /\ (forall m, cop = CApplyUserSync m -> says_home m -> says_home (direct (c_step (conns_at n a) cop)))).
        { intros h1 good o y l op k cop -> Ht1 Hy. destruct (op_away v b (conns_at n a) cop) as (_ & K2 & K3).
          - rewrite identity_at. done.
          - intros c ts h' ->. destruct y; cbn in Hy; try done. injection Hy as -> -> -> ->. eapply (away_no_add n a h1); [exact Hadm0|done|exact Ht1|by left].
          - intros e' He'. destruct (T1 _ _ He') as [?|[? _]]; done.
          - intros m e' -> He'. destruct y; cbn in Hy; try done. injection Hy as ->. destruct (T4 a h1 _ m e' Ht1 ltac:(by left) He') as [?|(? & _)]; auto.
          - split; [|exact K3]. intros Hh. apply K2; [done|]. intros m ->. destruct y; cbn in Hy; try done. injection Hy as ->. by eapply Hkeep. }
        destruct W4 as [Hhome|(d & Hd & Hhome)].
        -- left. unfold n'. destruct (conns_step n a ev) as [Heq|(h1 & good & o & y & l & op & k & cop & Hev & Ht1 & Hy & Heq)]; rewrite Heq; [done|].
           by apply (Hop _ _ _ _ _ _ _ _ Hev Ht1 Hy).
        -- destruct Hstep as [[_ Hac]|(raw & hk & -> & Hnil & _)]; [|by rewrite Hnil in Hd].
           destruct (Hac _ Hd) as [Hx2|(good & l & -> & Hl2)]; [right; by exists d|left].
           destruct ta as [ow ac op k]. cbn in Hl2. subst ac. unfold n'. rewrite broker_extend, decide_True by done.
           rewrite (m_step_run deser dec_users dec_topics valid _ _ _ _ _ _ _ _ Hta). cbn [act_op].
           by apply (proj2 (Hop _ _ _ _ _ _ _ _ eq_refl Hta eq_refl) d).
Qed.

Lemma informed_linked n x hx hhx cx y hy hhy cy :
  x <> y -> fresh_pair n x hx hhx cx -> fresh_pair n y hy hhy cy ->
  informed (extend (extend n x (EBrokerAuthed hx hhx y cx)) y (EBrokerAuthed hy hhy x cy)) -> informed (linked_up n x hx hhx cx y hy hhy cy).
Proof.
  intros Hne Hx Hy HP. set (n1 := extend _ y _) in *.
  intros cb' ha' Hl Hc Hlive. unfold linked_up in Hl. fold n1 in Hl. cbn [n_links] in Hl.
  change (c_get_broker_connection (conns_at n1 b) a = Some cb') in Hc.
  assert (Hfresh : forall z w c, (z = x /\ c = cx \/ z = y /\ c = cy) -> c_get_broker_connection (conns_at n1 z) w <> Some c).
  { intros z w c Hz Hc1.
    assert (Hsame : conns_at n1 z = conns_at n z).
    { unfold n1. rewrite broker_extend. case_decide; subst.
      - rewrite run_other by done. cbn [TaskModel.m_step]. by destruct (decide _).
      - rewrite broker_extend. case_decide; [|done]. subst. cbn [TaskModel.m_step]. by destruct (decide _). }
    rewrite Hsame in Hc1. assert (Hfr : c ∉ authed_conns (trace n z)) by (destruct Hz as [[-> ->]|[-> ->]]; [apply Hx|apply Hy]). apply Hfr.
    unfold c_get_broker_connection in Hc1. destruct (brokers (conns_at n z) !! w) as [be|] eqn:E; [|done]. cbn in Hc1. injection Hc1 as <-.
    destruct (reg_run deser dec_users dec_topics valid z (trace n z)) as [[_ Hr] _]. destruct (Hr _ _ E) as (hh & Hin).
    apply elem_of_list_In, in_concat. exists [be_conn be]. split; [|by left]. apply in_map_iff. eexists. split; [|exact Hin]. done. }
  apply lookup_insert_Some in Hl as [[Heq Hv]|[_ Hl]].
  { injection Heq as <- <-. exfalso. eapply Hfresh; [|exact Hc]. by left. }
  apply lookup_insert_Some in Hl as [[Heq Hv]|[_ Hl]].
  { injection Heq as <- <-. exfalso. eapply Hfresh; [|exact Hc]. by right. }
  by apply (HP cb' ha').
Qed.

Lemma informed_run es :
  hooks_pass es -> let n := n_run es in fine n -> admitted_at v b n -> not_overtaken v b n -> stops_when_told a b n ->
  told_right n /\ in_hand_true n /\ informed n.
Proof.
  intros Hh n Hf. subst n.
  destruct (net_induct2 deser dec_users dec_topics valid enc_users enc_topics Hcodec
    (fun n => admitted_at v b n -> not_overtaken v b n -> stops_when_told a b n -> told_right n /\ in_hand_true n /\ informed n) es Hh Hf) as (_ & _ & HP); [| | |exact HP].
  - intros _ _ _. split; [apply told_empty|]. split.
    + intros [[k Hk] _]. unfold NetModel.broker_at, trace in Hk. cbn in Hk. by rewrite !lookup_empty in Hk.
    + intros cb ha Hl. cbn in Hl. by rewrite lookup_empty in Hl.
  - intros n b0 ev Hi Hs Hfl IH Hp Hfe Hadm Hno Hst.
    destruct IH as (HT & HJ & HP); [by eapply admitted_extend|by eapply overtaken_extend|by eapply stops_extend|].
    split; [by apply told_extend_right|]. split; [by apply in_hand_extend|by apply informed_extend].
  - intros n x hx hhx cx y hy hhy cy Hi Hs _ Hne Hx Hy Hfl HP Hadm Hno Hst. destruct (HP Hadm Hno Hst) as (HT & HJ & HPi).
    split; [exact HT|]. split; [exact HJ|]. by apply informed_linked.
Qed.

Lemma returning_known es :
  hooks_pass es -> let n := n_run es in fine n -> at_rest n -> joined n a b -> admitted_at v b n -> not_overtaken v b n -> stops_when_told a b n ->
  (c_get_partial_user_sync (conns_at n b)).2 = None -> (exists c, c_get_user_connection (conns_at n b) v = Some c) ->
  c_get_broker_identifier_of_user (conns_at n a) v = Some b.
Proof.
  intros Hh n Hf [Hr1 Hr2] Hj Hadm Hno Hst Hnone Hc.
  pose proof (inv_run deser dec_users dec_topics valid enc_users enc_topics es) as Hi. fold n in Hi.
  destruct (informed_run es Hh Hf Hadm Hno Hst) as (_ & _ & HP). fold n in HP.
  assert (Hq : quiet (conns_at n b)).
  { apply state_directory in Hc. unfold c_get_broker_identifier_of_user, vm_get in Hc.
    destruct (entries (direct (conns_at n b)) !! v) as [[k x]|] eqn:E; [|done]. cbn in Hc. subst x. split; [by exists k|].
    intros Hm. destruct (partial_in_out _ _ _ Hm E) as (d & Hd & _). congruence. }
  destruct (joined_live deser dec_users dec_topics valid enc_users enc_topics n a b Hi Hj) as (ca & cb & ha & R & Hcb & Hl & HR & Hlive).
  destruct (HP cb ha Hl Hcb Hlive Hq) as [(h & t & x & Ht & _ & Hx & _)|(t & Ht & Hw)]; [by rewrite (Hr1 _ _ _ Ht) in Hx|].
  destruct (loop_run deser dec_users dec_topics valid a (trace n a) (proj1 (Hf a))) as [_ Hlr].
  destruct (Hlr ha (OBroker b ca)) as (t' & Ht' & _ & Hop); [by exists R|]. change (tasks_at n a !! ha = Some t') in Ht'. rewrite Ht in Ht'. injection Ht' as <-.
  assert (Hopen : t_open t = true) by (destruct Hop as [Hop|(y & Hy & _)]; [done|rewrite (Hr1 _ _ _ Ht) in Hy; done]).
  destruct Hw as [(j & x & Hj' & Hx & _)|(_ & _ & _ & [[k Hk]|(d & Hd & _)])].
  - exfalso. rewrite (Hr2 _ _ _ _ _ Hl Ht Hopen) in Hj'. apply lookup_lt_Some in Hx. lia.
  - unfold c_get_broker_identifier_of_user, vm_get. by rewrite Hk.
  - by rewrite (Hr1 _ _ _ Ht) in Hd.
Qed.
End peer.
End user.
End net.
