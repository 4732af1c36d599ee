(** Brokers that list each other become linked in time: the time. *)
From stdpp Require Import gmap fin_maps fin_sets list.
From Coq Require Import NArith ZArith Lia.
From Verif Require Import IdModel RelMapModel VMapModel VMapSpec ConnModel ConnSpec ConnProofs ConnProofs2 ConnProofs3
  TopicModel MsgModel RouteModel TaskModel TaskProofs TaskOrder TaskHandles TaskSync TaskCheck
  NetModel NetProofs NetOrigin NetSettle NetSettleDir NetSettleAll NetStay LinkSpec LinkProofs DialModel IdProofs ShakeProofs MeshModel MeshSpec MeshProofs
  BusySpec BusyProofs ClockModel ClockProofs ClockProofs2 PaceModel PaceProofs.

Section pace.
Variable deser : bytes -> option message.
Variable dec_users : bytes -> option direct_map.
Variable dec_topics : bytes -> option topic_map.
Variable valid : N -> bool.
Variable enc_users : direct_map -> bytes.
Variable enc_topics : topic_map -> bytes.
Variable delay limit : N.
Notation broker_at := (broker_at deser dec_users dec_topics valid).
Notation n_run := (n_run deser dec_users dec_topics valid enc_users enc_topics).
Notation n_run_snoc := (n_run_snoc deser dec_users dec_topics valid enc_users enc_topics).
Notation fresh_pair := (fresh_pair deser dec_users dec_topics valid).
Notation tasks_at n b := (m_tasks (broker_at n b)).
Notation idle := (idle deser dec_users dec_topics valid).
Notation clock_step := (clock_step deser dec_users dec_topics valid enc_users enc_topics delay).
Notation clock_run := (clock_run deser dec_users dec_topics valid enc_users enc_topics delay).
Notation clock_snoc := (clock_snoc deser dec_users dec_topics valid enc_users enc_topics delay).
Notation may_pass := (may_pass deser dec_users dec_topics valid enc_users enc_topics delay limit).
Notation pace_step := (pace_step deser dec_users dec_topics valid enc_users enc_topics delay limit).
Notation pace_run := (pace_run deser dec_users dec_topics valid enc_users enc_topics delay limit).
Notation pace_snoc := (pace_snoc deser dec_users dec_topics valid enc_users enc_topics delay limit).
Notation pace_ok_run := (pace_ok_run deser dec_users dec_topics valid enc_users enc_topics delay limit).
Notation clk s := (clock_run (pa_hist s)).
Notation now s := (ck_now (clock_run (pa_hist s))).
Notation evs s := (ck_events (clock_run (pa_hist s))).
Notation net_of s := (n_run (ck_events (clock_run (pa_hist s)))).

(** What one event adds, and how late it gets. *)
Lemma hist_step s e :
  (pa_hist (pace_step s e) = pa_hist s \/ exists c, pa_hist (pace_step s e) = pa_hist s ++ [c])
  /\ (now (pace_step s e) = now s \/ may_pass s (now (pace_step s e)) = true)
  /\ (evs (pace_step s e) = evs s \/ exists e', evs (pace_step s e) = evs s ++ [e']).
Proof.
  assert (H0 : forall b d, (pa_hist (Pace (pa_hist s) b d) = pa_hist s \/ exists c, pa_hist (Pace (pa_hist s) b d) = pa_hist s ++ [c])
    /\ (now (Pace (pa_hist s) b d) = now s \/ may_pass s (now (Pace (pa_hist s) b d)) = true)
    /\ (evs (Pace (pa_hist s) b d) = evs s \/ exists e', evs (Pace (pa_hist s) b d) = evs s ++ [e'])).
  { intros b d. cbn [pa_hist]. split; [by left|]. split; by left. }
  assert (H0' : (pa_hist s = pa_hist s \/ exists c, pa_hist s = pa_hist s ++ [c]) /\ (now s = now s \/ may_pass s (now s) = true) /\ (evs s = evs s \/ exists e', evs s = evs s ++ [e'])).
  { split; [by left|]. split; by left. }
  assert (H1 : forall c d, ck_now (clock_step (clk s) c) = now s \/ may_pass s (ck_now (clock_step (clk s) c)) = true ->
    (pa_hist (Pace (pa_hist s ++ [c]) (pa_beat s) d) = pa_hist s \/ exists c', pa_hist (Pace (pa_hist s ++ [c]) (pa_beat s) d) = pa_hist s ++ [c'])
    /\ (now (Pace (pa_hist s ++ [c]) (pa_beat s) d) = now s \/ may_pass s (now (Pace (pa_hist s ++ [c]) (pa_beat s) d)) = true)
    /\ (evs (Pace (pa_hist s ++ [c]) (pa_beat s) d) = evs s \/ exists e', evs (Pace (pa_hist s ++ [c]) (pa_beat s) d) = evs s ++ [e'])).
  { intros c d Hn. cbn [pa_hist]. rewrite clock_snoc. split; [right; by eexists|]. split; [exact Hn|].
    destruct (clock_events deser dec_users dec_topics valid enc_users enc_topics delay (clk s) c) as [?|(e' & ? & _)]; [by left|right; by exists e']. }
  destruct e as [x|x others|x|x|x hx hhx cx y hy hhy cy t|x y t|e]; cbn [PaceModel.pace_step].
  - by destruct (pa_beat s !! x).
  - by destruct (pa_beat s !! x) as [[]|].
  - by destruct (pa_beat s !! x) as [[]|].
  - destruct (pa_beat s !! x) as [[|w]|]; try done. by destruct (w <=? _)%N.
  - case_decide; [|done]. apply H1. by left.
  - apply H0.
  - assert (Hnt : (forall d, e <> CTick d) -> ck_now (clock_step (clk s) e) = now s).
    { intros Hn. destruct e as [b h|b|b h|e|d]; cbn [ClockModel.clock_step]; unfold begins.
      - destruct (ck_sync _ !! b); [done|]. by destruct (tasks_at _ b !! h).
      - destruct (ck_sync _ !! b) as [[h|w]|]; try done. by destruct (idle _ b h).
      - destruct (ck_sync _ !! b) as [[h'|w]|]; try done. destruct (w <=? _)%N; [|done]. by destruct (tasks_at _ b !! h).
      - by destruct e as [| | | |? []].
      - by destruct (Hn d). }
    destruct e as [b h|b|b h|e|d]; try (apply H1; left; by apply Hnt).
    + destruct e; try (apply H1; left; by apply Hnt). exact H0'.
    + destruct (may_pass s (ck_now (clk s) + d)%N) eqn:E; [|exact H0']. apply H1. right. cbn [ClockModel.clock_step].
      pose proof E as [[E1 _]%andb_prop _]%andb_prop. rewrite E1. exact E.
Qed.

Lemma hist_later p q : p `prefix_of` q -> pa_hist (pace_run p) `prefix_of` pa_hist (pace_run q).
Proof.
  intros Hpq. apply (between_ind (fun r => pa_hist (pace_run p) `prefix_of` pa_hist (pace_run r)) p q); [done| |done|done].
  intros r e _ _ Hr. rewrite pace_snoc. destruct (hist_step (pace_run r) e) as ([->|[c ->]] & _); [done|]. by apply prefix_app_r.
Qed.
Lemma pace_later p q : p `prefix_of` q -> evs (pace_run p) `prefix_of` evs (pace_run q) /\ (now (pace_run p) <= now (pace_run q))%N.
Proof. intros Hpq. destruct (clock_later deser dec_users dec_topics valid enc_users enc_topics delay _ _ (hist_later _ _ Hpq)) as (H1 & H2 & _). done. Qed.

(** A handshake, at the moment it happens. *)
Lemma link_moment p e a h hh b c : trace (n_run (p ++ [e])) a = trace (n_run p) a ++ [EBrokerAuthed h hh b c] ->
  c ∉ authed_conns (trace (n_run p) a) /\ tasks_at (n_run (p ++ [e])) a !! hh = Some (Task OOther (broker_connected b c h) false 0).
Proof.
  intros Htr. assert (Hf : fresh_pair (n_run p) a h hh c).
  { assert (Hsame : forall (l : list event) x, l <> l ++ [x]) by (intros l x Hl; apply (f_equal length) in Hl; rewrite app_length in Hl; cbn in Hl; lia).
    rewrite n_run_snoc in Htr. destruct e as [b' h' hh' u c' ts|x hx hhx cx y hy hhy cy|b' h' raw hk|a' c' hk|b' ev]; cbn [n_step] in Htr.
    - case_decide; [|by apply Hsame in Htr]. rewrite trace_extend in Htr. case_decide; [|by apply Hsame in Htr]. apply app_inj_tail in Htr as [_ ?]. done.
    - case_decide as Hd; [|by apply Hsame in Htr]. destruct Hd as (Hne & Fx & Fy).
      match type of Htr with context [Net (n_trace ?n2) ?l] => change (trace (Net (n_trace n2) l) a) with (trace n2 a) in Htr end.
      rewrite !trace_extend in Htr. repeat case_decide; subst; try done; try (by apply Hsame in Htr); apply app_inj_tail in Htr as [_ [= <- <- <- <-]]; done.
    - repeat case_match; try (by apply Hsame in Htr); rewrite trace_extend in Htr; case_decide; try (by apply Hsame in Htr); by apply app_inj_tail in Htr as [_ ?].
    - repeat case_match; try (by apply Hsame in Htr); rewrite trace_extend in Htr; case_decide; try (by apply Hsame in Htr); by apply app_inj_tail in Htr as [_ ?].
    - destruct (receives_nothing ev) eqn:E; [|by apply Hsame in Htr]. rewrite trace_extend in Htr. case_decide; [|by apply Hsame in Htr]. apply app_inj_tail in Htr as [_ ->]. done. }
  split; [by destruct Hf as (_ & _ & _ & ?)|]. unfold NetModel.broker_at. rewrite Htr, (m_run_snoc deser dec_users dec_topics valid).
  destruct Hf as (F1 & F2 & F3 & _). unfold NetModel.broker_at in F2, F3. cbn [TaskModel.m_step]. rewrite decide_True by done. cbn. by rewrite lookup_insert.
Qed.

Section pair.
Hypothesis Hcodec : faithful_sync deser dec_users dec_topics enc_users enc_topics.
Hypothesis Hlimit : (limit + delay < 10)%N.
Variables a b : bid.
Hypothesis Hab : a <> b.
Hypothesis Hdir : bid_gtb a b = false.
Notation in_phase := (in_phase deser dec_users dec_topics valid).
Notation apart_at := (apart_at deser dec_users dec_topics valid enc_users enc_topics delay a b).
Notation together_at := (together_at deser dec_users dec_topics valid enc_users enc_topics delay a b).
Notation together := (together deser dec_users dec_topics valid enc_users enc_topics delay a b).
Notation sound := (sound deser dec_users dec_topics valid enc_users enc_topics delay a b).
Notation pair_step := (pair_step deser dec_users dec_topics valid enc_users enc_topics delay limit Hcodec Hlimit a b Hab Hdir).
Notation tied := (tied deser dec_users dec_topics valid).

Lemma sound_back s e : sound (pace_step s e) -> sound s.
Proof.
  intros Hs. destruct (hist_step s e) as (_ & _ & [He|[e' He]]); unfold PaceProofs.sound in *; rewrite He in Hs; [done|].
  by apply (sound_less deser dec_users dec_topics valid enc_users enc_topics Hcodec a b _ e').
Qed.
Lemma sound_before p q : p `prefix_of` q -> sound (pace_run q) -> sound (pace_run p).
Proof.
  intros [l ->]. induction l as [|e l IH] using rev_ind; [by rewrite app_nil_r|]. rewrite app_assoc, pace_snoc. intros Hs. apply IH. by eapply sound_back.
Qed.
Lemma start_apart : apart_at (pace_run []).
Proof.
  assert (Ht : forall x h, tasks_at (n_run []) x !! h = None) by done.
  assert (Hb : forall x y, brokers (m_conns (broker_at (n_run []) x)) !! y = None) by done.
  split; [|split; [|by intros t ?%elem_of_nil]].
  - split; [intros h t H; by rewrite Ht in H|]. split; [apply Hb|]. intros h t c h' H. by rewrite Ht in H.
  - split; [intros h t H; by rewrite Ht in H|]. split; [apply Hb|]. intros h t c h' H. by rewrite Ht in H.
Qed.
Lemma pair_run ps : sound (pace_run ps) -> apart_at (pace_run ps) \/ together (pace_run ps).
Proof.
  induction ps as [|e ps IH] using rev_ind; [intros _; left; apply start_apart|]. rewrite pace_snoc. intros Hs.
  destruct (pair_step (pace_run ps) e (pace_ok_run ps) Hs) as (P1 & P2 & _). destruct (IH (sound_back _ _ Hs)) as [Ha|(ha & hha & ca & hb & hhb & cb & Ht)]; [by apply P1|].
  right. exists ha, hha, ca, hb, hhb, cb. by apply P2.
Qed.
Lemma together_later p q ha hha ca hb hhb cb : p `prefix_of` q -> sound (pace_run q) ->
  together_at (pace_run p) ha hha ca hb hhb cb -> together_at (pace_run q) ha hha ca hb hhb cb.
Proof.
  intros Hpq Hs Ht. apply (between_ind (fun r => together_at (pace_run r) ha hha ca hb hhb cb) p q); [done| |done|done].
  intros r e _ Hr IH. pose proof (sound_before _ _ Hr Hs) as Hs'. rewrite pace_snoc in Hs' |- *. by apply (pair_step (pace_run r) e (pace_ok_run r) Hs').
Qed.

(** No second link. *)
Lemma no_new_step r e : together (pace_run r) ->
  (forall h hh c, In (EBrokerAuthed h hh b c) (trace (net_of (pace_step (pace_run r) e)) a) -> In (EBrokerAuthed h hh b c) (trace (net_of (pace_run r)) a))
  /\ (forall h hh c, In (EBrokerAuthed h hh a c) (trace (net_of (pace_step (pace_run r) e)) b) -> In (EBrokerAuthed h hh a c) (trace (net_of (pace_run r)) b)).
Proof.
  intros (ha & hha & ca & hb & hhb & cb & Hno & _). pose proof (pace_ok_run r) as (_ & I2 & _). set (s := pace_run r) in *.
  assert (Hup : forall s', (evs s' = evs s \/ exists e', evs s' = evs s ++ [e'] /\ other_link a b e') ->
    (forall h hh c, In (EBrokerAuthed h hh b c) (trace (net_of s') a) -> In (EBrokerAuthed h hh b c) (trace (net_of s) a))
    /\ (forall h hh c, In (EBrokerAuthed h hh a c) (trace (net_of s') b) -> In (EBrokerAuthed h hh a c) (trace (net_of s) b))).
  { intros s' [->|(e' & -> & Ho)]; [done|]. split; intros h hh c Hin.
    - destruct (link_by_up deser dec_users dec_topics valid enc_users enc_topics _ _ _ _ _ _ _ Hin) as [?|[(? & ? & ? & ->)|(? & ? & ? & ->)]]; [done| |]; cbn in Ho; tauto.
    - destruct (link_by_up deser dec_users dec_topics valid enc_users enc_topics _ _ _ _ _ _ _ Hin) as [?|[(? & ? & ? & ->)|(? & ? & ? & ->)]]; [done| |]; cbn in Ho; tauto. }
  apply Hup. clear Hup.
  assert (Hplain : forall c bt d, (forall x hx hhx cx y hy hhy cy, c <> CNet (NUp x hx hhx cx y hy hhy cy)) ->
    evs (Pace (pa_hist s ++ [c]) bt d) = evs s \/ exists e', evs (Pace (pa_hist s ++ [c]) bt d) = evs s ++ [e'] /\ other_link a b e').
  { intros c bt d Hne. cbn [pa_hist]. rewrite clock_snoc. destruct (clock_events deser dec_users dec_topics valid enc_users enc_topics delay (clk s) c) as [?|(e' & He & Hx)]; [by left|right].
    exists e'. split; [done|]. destruct Hx as [->|(? & ? & ->)]; [|done]. destruct e'; cbn; try done. by edestruct Hne. }
  destruct e as [x|x others|x|x|x hx hhx cx y hy hhy cy t|x y t|e]; cbn [PaceModel.pace_step].
  - left. by destruct (pa_beat s !! x).
  - left. by destruct (pa_beat s !! x) as [[]|].
  - left. by destruct (pa_beat s !! x) as [[]|].
  - left. destruct (pa_beat s !! x) as [[|w]|]; try done. by destruct (w <=? _)%N.
  - case_decide as Hd; [|by left]. destruct Hd as (Hin & Hne & _). right. eexists. split; [cbn [pa_hist]; rewrite clock_snoc; reflexivity|]. cbn. split.
    + intros [-> ->]. by apply Hno in Hin.
    + intros [-> ->]. destruct (I2 _ _ _ Hin) as (_ & Hg & _). destruct (bid_gtb_total a b Hab); congruence.
  - by left.
  - destruct e as [p h|p|p h|e|d]; try (by apply Hplain).
    + destruct e; try (by apply Hplain). by left.
    + destruct (may_pass s _); [by apply Hplain|by left].
Qed.
Lemma no_new_link p q : p `prefix_of` q -> sound (pace_run q) -> together (pace_run p) ->
  (forall h hh c, In (EBrokerAuthed h hh b c) (trace (net_of (pace_run q)) a) -> In (EBrokerAuthed h hh b c) (trace (net_of (pace_run p)) a))
  /\ (forall h hh c, In (EBrokerAuthed h hh a c) (trace (net_of (pace_run q)) b) -> In (EBrokerAuthed h hh a c) (trace (net_of (pace_run p)) b)).
Proof.
  intros Hpq Hs (ha & hha & ca & hb & hhb & cb & Ht).
  apply (between_ind (fun r => (forall h hh c, In (EBrokerAuthed h hh b c) (trace (net_of (pace_run r)) a) -> In (EBrokerAuthed h hh b c) (trace (net_of (pace_run p)) a))
    /\ (forall h hh c, In (EBrokerAuthed h hh a c) (trace (net_of (pace_run r)) b) -> In (EBrokerAuthed h hh a c) (trace (net_of (pace_run p)) b))) p q); [done| |done|done].
  intros r e Hr Hr' [I1 I2]. rewrite pace_snoc.
  destruct (no_new_step r e) as [J1 J2].
  { exists ha, hha, ca, hb, hhb, cb. apply (together_later p r); [done| |done]. eapply sound_before; [|exact Hs]. etrans; [|exact Hr']. by apply prefix_app_r. }
  split; intros h hh c Hin; [apply (I1 h hh c), J1, Hin|apply (I2 h hh c), J2, Hin].
Qed.

(** One link at most. *)
Lemma apart_together s : apart_at s -> together s -> False.
Proof.
  intros ((_ & A1 & A2) & _) (ha & hha & ca & hb & hhb & cb & _ & (_ & [Ht|[t Hr]] & _) & _); [|congruence]. by apply (A2 _ _ ca ha Ht); left.
Qed.
Lemma apart_new es e x y h hh c : in_phase (n_run (es ++ [e])) x y Apart -> In (EBrokerAuthed h hh y c) (trace (n_run (es ++ [e])) x) -> In (EBrokerAuthed h hh y c) (trace (n_run es) x).
Proof.
  intros (_ & _ & Hno) Hin. destruct (event_moment deser dec_users dec_topics valid enc_users enc_topics _ x _ Hin) as (p & e0 & [l Hl] & Htr).
  destruct l as [|z l _] using rev_ind.
  - rewrite app_nil_r in Hl. apply app_inj_tail in Hl as [-> ->]. destruct (link_moment _ _ _ _ _ _ _ Htr) as [_ Ht]. exfalso. by apply (Hno _ _ c h Ht); left.
  - rewrite app_assoc in Hl. apply app_inj_tail in Hl as [-> _].
    destruct (trace_later deser dec_users dec_topics valid enc_users enc_topics (p ++ [e0]) ((p ++ [e0]) ++ l) x) as [k ->]; [by apply prefix_app_r|].
    rewrite Htr. apply in_app_iff. left. apply in_app_iff. right. by left.
Qed.
Definition none_yet (s : pace) : Prop :=
  (forall h hh c, ~ In (EBrokerAuthed h hh b c) (trace (net_of s) a)) /\ (forall h hh c, ~ In (EBrokerAuthed h hh a c) (trace (net_of s) b)).
Lemma apart_none ps : sound (pace_run ps) -> apart_at (pace_run ps) -> none_yet (pace_run ps).
Proof.
  induction ps as [|e ps IH] using rev_ind; [intros _ _; split; intros ? ? ? H; exact H|]. intros Hs Ha. rewrite pace_snoc in Hs, Ha |- *. pose proof (sound_back _ _ Hs) as Hs0.
  destruct (pair_run ps Hs0) as [Ha0|(ha & hha & ca & hb & hhb & cb & Ht)].
  - destruct (IH Hs0 Ha0) as [N1 N2]. destruct (hist_step (pace_run ps) e) as (_ & _ & [He|[e' He]]); [unfold none_yet; by rewrite He|].
    destruct Ha as (A1 & A2 & _). unfold none_yet. rewrite He in A1, A2 |- *. split; intros h hh c Hin; [apply (N1 h hh c)|apply (N2 h hh c)]; by eapply apart_new.
  - exfalso. apply (apart_together _ Ha). exists ha, hha, ca, hb, hhb, cb. by apply (pair_step (pace_run ps) e (pace_ok_run ps) Hs).
Qed.
Lemma one_by_up es e x y : (forall h hh c, ~ In (EBrokerAuthed h hh y c) (trace (n_run es) x)) -> x <> y -> linked_once x y (n_run (es ++ [e])).
Proof.
  intros Hno Hne h hh c h' hh' c' H1 H2.
  destruct (link_by_up deser dec_users dec_topics valid enc_users enc_topics _ _ _ _ _ _ _ H1) as [?%Hno|[(? & ? & ? & ->)|(? & ? & ? & ->)]]; [done| |];
  destruct (link_by_up deser dec_users dec_topics valid enc_users enc_topics _ _ _ _ _ _ _ H2) as [?%Hno|[(? & ? & ? & He)|(? & ? & ? & He)]]; try done; congruence.
Qed.
Lemma once_run ps : sound (pace_run ps) -> linked_once a b (net_of (pace_run ps)) /\ linked_once b a (net_of (pace_run ps)).
Proof.
  induction ps as [|e ps IH] using rev_ind; [intros _; split; by intros ? ? ? ? ? ? H|]. rewrite pace_snoc. intros Hs. pose proof (sound_back _ _ Hs) as Hs0. specialize (IH Hs0).
  destruct (pair_run ps Hs0) as [Ha0|Ht].
  - destruct (apart_none ps Hs0 Ha0) as [N1 N2]. destruct (hist_step (pace_run ps) e) as (_ & _ & [He|[e' He]]); rewrite He; [done|]. split; by apply one_by_up.
  - destruct (no_new_step ps e Ht) as [J1 J2]. destruct IH as [I1 I2]. split; intros h hh c h' hh' c' H1 H2; [eapply I1; by apply J1|eapply I2; by apply J2].
Qed.

(** Once the handlers of both ends have had their time, both ends are registered. *)
Lemma one_registered es0 es x y h hh c q : es0 `prefix_of` es ->
  (forall w k t, tasks_at (n_run es0) w !! k = Some t -> t_owner t = OOther -> idle (n_run es) w k = true) ->
  n_links (n_run es0) !! (x, c) = Some q -> q.1 = y -> in_phase (n_run es) x y (Linked h hh c) ->
  registered (m_conns (broker_at (n_run es) x)) h (OBroker y c).
Proof.
  intros Hle Hidle Hl Hq (_ & [Ht|Hr] & _); [exfalso|done].
  assert (Hin : In (EBrokerAuthed h hh y c) (trace (n_run es) x)).
  { eapply (add_origin deser dec_users dec_topics valid enc_users enc_topics es x y hh _ c h); [exact Ht|]. by left. }
  destruct (event_moment deser dec_users dec_topics valid enc_users enc_topics es x _ Hin) as (p & e & Hp & Htr).
  destruct (link_moment p e x h hh y c Htr) as (Hnew & Htk).
  assert (Hcmp : p ++ [e] `prefix_of` es0 \/ es0 `prefix_of` p).
  { destruct (prefix_weak_total _ _ _ Hp Hle) as [?|[l Hl']]; [by left|]. destruct l as [|z l' _] using rev_ind; [left; exists []; by rewrite app_nil_r in Hl' |- *|].
    right. rewrite app_assoc in Hl'. apply app_inj_tail in Hl' as [-> _]. by apply prefix_app_r. }
  destruct Hcmp as [Hb|Ha].
  - destruct (task_later deser dec_users dec_topics valid enc_users enc_topics _ _ _ _ _ Hb Htk) as (t' & Ht' & Ho' & _).
    assert (Hi : idle (n_run es) x hh = true) by (by apply (Hidle _ _ _ Ht')). apply (idle_acts deser dec_users dec_topics valid _ _ _ _ Ht) in Hi. done.
  - apply Hnew. destruct q as [y' h1]. pose proof (inv_run deser dec_users dec_topics valid enc_users enc_topics es0) as (I0 & _). destruct (I0 _ _ _ _ Hl) as (_ & (k & hx & Hk) & _).
    destruct (trace_later deser dec_users dec_topics valid enc_users enc_topics es0 p x Ha) as [l Hl']. rewrite Hl'. unfold authed_conns.
    apply elem_of_list_In, in_concat. exists [c]. split; [|by left]. apply in_map_iff. exists (EBrokerAuthed k hx y' c). split; [done|]. apply in_app_iff. by left.
Qed.
Lemma together_tied p q ha hha ca hb hhb cb : p `prefix_of` q -> sound (pace_run q) -> (now (pace_run p) + delay < now (pace_run q))%N ->
  together_at (pace_run p) ha hha ca hb hhb cb -> tied (net_of (pace_run q)) a ca ha b cb hb.
Proof.
  intros Hpq Hs Hlt Ht. pose proof (together_later p q _ _ _ _ _ _ Hpq Hs Ht) as (_ & F1 & F2 & L1 & L2). destruct Ht as (_ & _ & _ & M1 & M2).
  destruct (pace_later _ _ Hpq) as [He _].
  assert (Hidle : forall w k t, tasks_at (net_of (pace_run p)) w !! k = Some t -> t_owner t = OOther -> idle (net_of (pace_run q)) w k = true).
  { intros w k t Hk Ho. eapply (old_done deser dec_users dec_topics valid enc_users enc_topics delay); [by apply hist_later|done|exact Hk|done]. }
  pose proof (one_registered _ _ a b ha hha ca (b, hb) He Hidle M1 eq_refl F1) as R1. pose proof (one_registered _ _ b a hb hhb cb (a, ha) He Hidle M2 eq_refl F2) as R2.
  destruct (registered_task deser dec_users dec_topics valid a (trace (net_of (pace_run q)) a) ha (OBroker b ca) R1) as [Ta _].
  destruct (registered_task deser dec_users dec_topics valid b (trace (net_of (pace_run q)) b) hb (OBroker a cb) R2) as [Tb _].
  destruct R1 as [t1 R1], R2 as [t2 R2]. unfold BusySpec.tied, c_get_broker_connection. rewrite R1, R2. done.
Qed.

(** ** From the list to the link *)
Section listed.
Variables (ps1 l : list pevent).
Notation T := (now (pace_run ps1)).
Hypothesis Hrun : pa_beat (pace_run ps1) !! a <> None.
Hypothesis Hretry : ~ In (PRetry a) l.
Hypothesis Hnames : forall others, In (PList a others) l -> b ∈ others.
Hypothesis Hfail : forall t, ~ In (PFail a b t) l.
Notation ps2 := (ps1 ++ l).

Lemma in_later p e : ps1 `prefix_of` p -> p ++ [e] `prefix_of` ps2 -> In e l.
Proof.
  intros [m ->] [k Hk]. rewrite <- !app_assoc in Hk. apply app_inv_head in Hk. rewrite Hk. apply in_app_iff. right. by left.
Qed.

Definition list_came (ps : list pevent) : Prop := exists p others t0,
  ps1 `prefix_of` p /\ p ++ [PList a others] `prefix_of` ps /\ pa_beat (pace_run p) !! a = Some (Asking t0) /\ (now (pace_run p) <= T + 20 + delay)%N.
Definition waits (ps : list pevent) : Prop :=
  list_came ps \/ (exists t, pa_beat (pace_run ps) !! a = Some (Asking t) /\ (t <= T + 10)%N) \/ (exists w, pa_beat (pace_run ps) !! a = Some (Resting w) /\ (w <= T + 10)%N).

Lemma beat_step s e : pa_beat (pace_step s e) !! a = pa_beat s !! a
  \/ e = PStart a /\ pa_beat s !! a = None
  \/ (exists others t, e = PList a others /\ pa_beat s !! a = Some (Asking t))
  \/ e = PRetry a
  \/ (exists w, e = PWake a /\ pa_beat s !! a = Some (Resting w) /\ (w <= now s)%N /\ pa_beat (pace_step s e) !! a = Some (Asking (now s))).
Proof.
  destruct e as [x|x others|x|x|x hx hhx cx y hy hhy cy t|x y t|e]; cbn [PaceModel.pace_step].
  - destruct (decide (x = a)) as [->|Hne]; [destruct (pa_beat s !! a) eqn:E; [by left|right; by left]|]. left. destruct (pa_beat s !! x); [done|]. cbn [pa_beat]. by rewrite lookup_insert_ne.
  - destruct (decide (x = a)) as [->|Hne].
    + destruct (pa_beat s !! a) as [[t|w]|] eqn:E; [|by left|by left]. right. right. left. eauto.
    + left. destruct (pa_beat s !! x) as [[t|w]|]; try done. cbn [pa_beat]. by rewrite lookup_insert_ne.
  - destruct (decide (x = a)) as [->|Hne]; [by right; right; right; left|]. left. destruct (pa_beat s !! x) as [[t|w]|]; try done. cbn [pa_beat]. by rewrite lookup_insert_ne.
  - destruct (decide (x = a)) as [->|Hne].
    + destruct (pa_beat s !! a) as [[t|w]|] eqn:E; [by left| |by left]. destruct (w <=? ck_now (clk s))%N eqn:Hw; [|by left]. do 4 right. exists w. apply N.leb_le in Hw.
      cbn [pa_beat]. by rewrite lookup_insert.
    + left. destruct (pa_beat s !! x) as [[t|w]|]; try done. destruct (w <=? _)%N; [|done]. cbn [pa_beat]. by rewrite lookup_insert_ne.
  - left. by case_decide.
  - by left.
  - left. destruct e as [p h|p|p h|e|d]; try done; [by destruct e|]. by destruct (may_pass s _).
Qed.
Lemma list_in_time : (T + 20 + delay < now (pace_run ps2))%N -> list_came ps2.
Proof.
  intros Hlt. assert (Hw : waits ps2).
  { apply (between_ind waits ps1 ps2); [| |by apply prefix_app_r|done].
    - destruct (pace_ok_run ps1) as (I1 & _). right. destruct (pa_beat (pace_run ps1) !! a) as [[t|w]|] eqn:E; [left|right|done]; pose proof (I1 _ _ E) as HI; cbn in HI.
      + exists t. split; [done|lia].
      + exists w. split; [done|lia].
    - intros p e Hp Hp' Hst. pose proof (in_later p e Hp Hp') as Hin.
      destruct Hst as [(p0 & others & t0 & J1 & J2 & J3)|Hst]; [left; exists p0, others, t0; split; [done|]; split; [by apply prefix_app_r|done]|].
      destruct (pace_ok_run p) as (I1 & _). unfold waits. rewrite pace_snoc.
      destruct (beat_step (pace_run p) e) as [Hb|[[-> Hb]|[(others & t & -> & Hb)|[->|(w & -> & Hb & Hw & Hb')]]]].
      + right. by rewrite Hb.
      + destruct Hst as [(t & Ht & _)|(w & Hw & _)]; congruence.
      + left. exists p, others, t. split; [done|]. split; [done|]. split; [done|]. destruct Hst as [(t' & Ht & Hle)|(w & Hw & _)]; [|congruence]. pose proof (I1 _ _ Ht) as HI. cbn in HI. lia.
      + done.
      + right. left. exists (now (pace_run p)). split; [done|]. destruct Hst as [(t' & Ht & Hle)|(w' & Hw' & Hle)]; [congruence|]. pose proof (I1 _ _ Hw') as HI. cbn in HI. lia. }
  destruct Hw as [?|[(t & Ht & Hle)|(w & Ht & Hle)]]; [done| |]; destruct (pace_ok_run ps2) as (I1 & _); specialize (I1 _ _ Ht); cbn in I1; lia.
Qed.

Lemma link_in_time : sound (pace_run ps2) -> (T + 20 + delay + limit < now (pace_run ps2))%N ->
  exists q ha hha ca hb hhb cb, ps1 `prefix_of` q /\ q `prefix_of` ps2 /\ (now (pace_run q) <= T + 20 + delay + limit)%N /\ together_at (pace_run q) ha hha ca hb hhb cb.
Proof.
  intros Hs Hlt. destruct list_in_time as (p & others & t0 & Hp & Hp' & Hb & Hle); [lia|]. set (t := now (pace_run p)) in *.
  pose proof (in_later p _ Hp Hp') as Hin. pose proof (Hnames _ Hin) as Ho.
  assert (Hp2 : p `prefix_of` ps2) by (etrans; [|exact Hp']; by apply prefix_app_r).
  set (came := fun ps => exists q ha hha ca hb hhb cb, ps1 `prefix_of` q /\ q `prefix_of` ps /\ (now (pace_run q) <= t + limit)%N /\ together_at (pace_run q) ha hha ca hb hhb cb).
  assert (Hst : came ps2 \/ (apart_at (pace_run ps2) /\ (a, b, t) ∈ pa_dials (pace_run ps2))).
  { apply (between_ind (fun ps => came ps \/ (apart_at (pace_run ps) /\ (a, b, t) ∈ pa_dials (pace_run ps))) (p ++ [PList a others]) ps2); [| |done|done].
    - destruct (pair_run p (sound_before _ _ Hp2 Hs)) as [Ha|(ha & hha & ca & hb & hhb & cb & Ht)].
      + pose proof (sound_before _ _ Hp' Hs) as Hs'. rewrite pace_snoc in Hs'. destruct (pair_step (pace_run p) (PList a others) (pace_ok_run p) Hs') as (P1 & _ & _ & P4).
        pose proof (P4 others t0 Ha eq_refl Hb Ho) as Hd. rewrite <- pace_snoc in Hd, P1. destruct (P1 Ha) as [Ha'|(ha & hha & ca & hb & hhb & cb & Hno & _)]; [by right|].
        by apply Hno in Hd.
      + left. exists p, ha, hha, ca, hb, hhb, cb. split; [done|]. split; [by apply prefix_app_r|]. split; [lia|done].
    - intros q e Hq Hq' [(q0 & ha & hha & ca & hb & hhb & cb & J1 & J2 & J3)|[Ha Hd]].
      { left. exists q0, ha, hha, ca, hb, hhb, cb. split; [done|]. split; [by apply prefix_app_r|done]. }
      assert (Hq1 : ps1 `prefix_of` q) by (etrans; [exact Hp|]; etrans; [|exact Hq]; by apply prefix_app_r).
      pose proof (in_later q e Hq1 Hq') as Hine.
      pose proof (sound_before _ _ Hq' Hs) as Hs'. rewrite pace_snoc in Hs'. destruct (pair_step (pace_run q) e (pace_ok_run q) Hs') as (P1 & _ & P3 & _).
      assert (Hne : e <> PFail a b t) by (intros ->; by apply (Hfail t)).
      assert (Hnow : (now (pace_step (pace_run q) e) <= t + limit)%N).
      { destruct (pace_ok_run q) as (_ & I2 & _). destruct (I2 _ _ _ Hd) as (J1 & _).
        destruct (hist_step (pace_run q) e) as (_ & [->|[_ Hm]%andb_prop] & _); [lia|]. rewrite forallb_forall in Hm. specialize (Hm (a, b, t)). cbn [snd] in Hm.
        apply N.leb_le, Hm. by apply elem_of_list_In. }
      assert (Htog : together (pace_step (pace_run q) e) -> came (q ++ [e])).
      { intros (ha & hha & ca & hb & hhb & cb & Ht). exists (q ++ [e]), ha, hha, ca, hb, hhb, cb. rewrite pace_snoc. split; [by apply prefix_app_r|]. split; [done|]. done. }
      destruct (P3 t Ha Hd Hne) as [Hd'|Ht]; [|left; by apply Htog]. destruct (P1 Ha) as [Ha'|Ht]; [|left; by apply Htog]. right. rewrite pace_snoc. done. }
  destruct Hst as [(q & ha & hha & ca & hb & hhb & cb & J1 & J2 & J3 & J4)|[_ Hd]].
  - exists q, ha, hha, ca, hb, hhb, cb. split; [done|]. split; [done|]. split; [lia|done].
  - destruct (pace_ok_run ps2) as (_ & I2 & _). destruct (I2 _ _ _ Hd) as (J1 & _). lia.
Qed.
End listed.
End pair.
End pace.
