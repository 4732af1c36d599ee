(** Brokers that list each other become linked in time. *)
From stdpp Require Import gmap fin_maps fin_sets list.
From Coq Require Import NArith ZArith Lia.
From Verif Require Import IdModel RelMapModel VMapModel VMapSpec ConnModel ConnSpec ConnProofs ConnProofs2 ConnProofs3
  TopicModel MsgModel RouteModel TaskModel TaskProofs TaskOrder TaskHandles TaskSync TaskCheck
  NetModel NetProofs NetOrigin NetSettle NetSettleDir NetSettleAll NetStay LinkSpec LinkProofs DialModel IdProofs ShakeProofs MeshModel MeshSpec MeshProofs
  BusySpec BusyProofs ClockModel ClockProofs ClockProofs2 PaceModel.

Lemma over_sub x y l : y ∈ over x l -> y ∈ l.
Proof. induction l as [|z l IH]; cbn; [done|]. case_decide; set_solver. Qed.
Lemma over_other x y l : y <> x -> y ∈ l -> y ∈ over x l.
Proof. induction l as [|z l IH]; cbn; [done|]. case_decide; set_solver. Qed.

Section pace.
Variable deser : bytes -> option message.
Variable dec_users : bytes -> option direct_map.
Variable dec_topics : bytes -> option topic_map.
Variable valid : N -> bool.
Variable enc_users : direct_map -> bytes.
Variable enc_topics : topic_map -> bytes.
Variable delay limit : N.
Notation m_run := (m_run deser dec_users dec_topics valid).
Notation broker_at := (broker_at deser dec_users dec_topics valid).
Notation n_run := (n_run deser dec_users dec_topics valid enc_users enc_topics).
Notation n_run_snoc := (n_run_snoc deser dec_users dec_topics valid enc_users enc_topics).
Notation fresh_pair := (fresh_pair deser dec_users dec_topics valid).
Notation tasks_at n b := (m_tasks (broker_at n b)).
Notation idle := (idle deser dec_users dec_topics valid).
Notation clock_step := (clock_step deser dec_users dec_topics valid enc_users enc_topics delay).
Notation clock_run := (clock_run deser dec_users dec_topics valid enc_users enc_topics delay).
Notation clock_snoc := (clock_snoc deser dec_users dec_topics valid enc_users enc_topics delay).
Notation clock_ok_run := (clock_ok_run deser dec_users dec_topics valid enc_users enc_topics delay).
Notation may_pass := (may_pass deser dec_users dec_topics valid enc_users enc_topics delay limit).
Notation pace_step := (pace_step deser dec_users dec_topics valid enc_users enc_topics delay limit).
Notation pace_run := (pace_run deser dec_users dec_topics valid enc_users enc_topics delay limit).
Notation clk s := (clock_run (pa_hist s)).
Notation now s := (ck_now (clock_run (pa_hist s))).
Notation evs s := (ck_events (clock_run (pa_hist s))).
Notation net_of s := (n_run (ck_events (clock_run (pa_hist s)))).

Lemma pace_snoc ps e : pace_run (ps ++ [e]) = pace_step (pace_run ps) e.
Proof. unfold PaceModel.pace_run. by rewrite fold_left_app. Qed.

(** Who sees a new link. *)
Lemma link_by_up es e a h hh b c : In (EBrokerAuthed h hh b c) (trace (n_run (es ++ [e])) a) ->
  In (EBrokerAuthed h hh b c) (trace (n_run es) a)
  \/ (exists hb hhb cb, e = NUp a h hh c b hb hhb cb) \/ (exists hb hhb cb, e = NUp b hb hhb cb a h hh c).
Proof.
  rewrite n_run_snoc. destruct e as [b' h' hh' u c' ts|x hx hhx cx y hy hhy cy|b' h' raw hk|a' c' hk|b' ev]; cbn [n_step].
  - case_decide; [|tauto]. rewrite trace_extend. case_decide; [|tauto]. intros [?|[?|[]]]%in_app_iff; [tauto|done].
  - case_decide as Hd; [|tauto].
    match goal with |- context [Net (n_trace ?n2) _] => change (trace (Net (n_trace n2) _) a) with (trace n2 a) end.
    rewrite !trace_extend. repeat case_decide; subst; rewrite ?in_app_iff; cbn; intros Hin.
    + by destruct Hd.
    + destruct Hin as [?|[[= -> -> -> ->]|[]]]; [tauto|]. right. right. eauto.
    + destruct Hin as [?|[[= -> -> -> ->]|[]]]; [tauto|]. right. left. eauto.
    + tauto.
  - repeat case_match; try tauto; rewrite trace_extend; case_decide; try tauto; intros [?|[?|[]]]%in_app_iff; try tauto; done.
  - repeat case_match; try tauto; rewrite trace_extend; case_decide; try tauto; intros [?|[?|[]]]%in_app_iff; try tauto; done.
  - destruct (receives_nothing ev) eqn:E; [|tauto]. rewrite trace_extend. case_decide; [|tauto]. intros [?|[->|[]]]%in_app_iff; [tauto|done].
Qed.

(** What one event on the clock adds. *)
Lemma clock_events s e : ck_events (clock_step s e) = ck_events s
  \/ exists e', ck_events (clock_step s e) = ck_events s ++ [e'] /\ (e = CNet e' \/ exists b h, e' = NStep b (ESync h)).
Proof.
  assert (Hb : forall b h, ck_events (begins deser dec_users dec_topics valid enc_users enc_topics s b h) = ck_events s
     \/ exists e', ck_events (begins deser dec_users dec_topics valid enc_users enc_topics s b h) = ck_events s ++ [e'] /\ (e = CNet e' \/ exists b h, e' = NStep b (ESync h))).
  { intros b h. unfold begins. destruct (tasks_at (n_run (ck_events s)) b !! h); [by left|]. right. eexists. split; [reflexivity|]. right. eauto. }
  destruct e as [b h|b|b h|e|d]; cbn [ClockModel.clock_step].
  - destruct (ck_sync s !! b); [by left|apply Hb].
  - destruct (ck_sync s !! b) as [[h|w]|]; try (by left). destruct (idle _ b h); by left.
  - destruct (ck_sync s !! b) as [[h'|w]|]; try (by left). destruct (w <=? ck_now s)%N; [apply Hb|by left].
  - destruct e as [| | | |b []]; try (by left); right; eexists; (split; [reflexivity|by left]).
  - destruct (may_be _ _ _ _ _ _ _ _ _); by left.
Qed.

Definition since (x : beat_task) : N := match x with Asking t => t | Resting w => w end.

(** The heartbeat task of [a] had started a round at [t], and 10 s later at the earliest began what it is doing now. *)
Definition began (s : pace) (a : bid) (t : N) : Prop := exists x, pa_beat s !! a = Some x /\ (t + 10 <= since x)%N.

Definition pace_ok (s : pace) : Prop :=
  (forall b x, pa_beat s !! b = Some x -> match x with
      | Asking t => (t <= now s <= t + 10 + delay)%N
      | Resting w => (now s <= w <= now s + 10)%N
      end)
  /\ (forall a b t, (a, b, t) ∈ pa_dials s -> (t <= now s <= t + limit)%N /\ bid_gtb a b = false /\ began s a t)
  /\ (forall a h hh b c, In (EBrokerAuthed h hh b c) (trace (net_of s) a) -> bid_gtb a b = false -> a <> b ->
        exists u es t tk, In (u, es) (ck_past (clk s)) /\ tasks_at (n_run es) a !! hh = Some tk /\ t_owner tk = OOther /\ (u <= t + limit)%N /\ began s a t).

(** The heartbeat tasks move on. *)
Lemma ok_beat s a x0 x d : pace_ok s -> pa_beat s !! a = x0 -> match x0 with Some y => (since y <= since x)%N | None => True end ->
  match x with Asking t => (t <= now s <= t + 10 + delay)%N | Resting w => (now s <= w <= now s + 10)%N end ->
  (forall p q t, (p, q, t) ∈ d -> (p, q, t) ∈ pa_dials s \/ p = a /\ t = now s /\ bid_gtb p q = false /\ (now s + 10 <= since x)%N) ->
  pace_ok (Pace (pa_hist s) (<[a := x]> (pa_beat s)) d).
Proof.
  intros (I1 & I2 & I3) Hx0 Hm Hx Hd.
  assert (Hb : forall b t, began s b t -> began (Pace (pa_hist s) (<[a := x]> (pa_beat s)) d) b t).
  { intros b t (y & Hy & Ht). unfold began. cbn [pa_beat]. destruct (decide (b = a)) as [->|Hne].
    - exists x. rewrite lookup_insert. split; [done|]. rewrite Hy in Hx0. subst x0. lia.
    - exists y. by rewrite lookup_insert_ne. }
  split; [|split].
  - cbn [pa_beat pa_hist]. intros b y [[<- <-]|[_ Hy]]%lookup_insert_Some; [exact Hx|exact (I1 _ _ Hy)].
  - cbn [pa_dials pa_hist]. intros p q t Hin. destruct (Hd _ _ _ Hin) as [Hin'|(-> & -> & Hg & Hs)].
    + destruct (I2 _ _ _ Hin') as (J1 & J2 & J3). split; [done|]. split; [done|by apply Hb].
    + split; [lia|]. split; [done|]. exists x. cbn [pa_beat]. by rewrite lookup_insert.
  - cbn [pa_hist]. intros p h hh q c Hin Hg Hne. destruct (I3 _ _ _ _ _ Hin Hg Hne) as (u & es & t & tk & J1 & J2 & J3 & J4 & J5).
    exists u, es, t, tk. repeat (split; [done|]). by apply Hb.
Qed.

(** Something happens. *)
Lemma ok_hist s e d : pace_ok s ->
  (now (Pace (pa_hist s ++ [e]) (pa_beat s) d) = now s \/ may_pass s (now (Pace (pa_hist s ++ [e]) (pa_beat s) d)) = true) ->
  (forall x, x ∈ d -> x ∈ pa_dials s) ->
  (forall a h hh b c, In (EBrokerAuthed h hh b c) (trace (net_of (Pace (pa_hist s ++ [e]) (pa_beat s) d)) a) -> bid_gtb a b = false -> a <> b ->
     In (EBrokerAuthed h hh b c) (trace (net_of s) a)
     \/ exists t es, In (now s, es) (ck_past (clock_run (pa_hist s ++ [e]))) /\ (exists tk, tasks_at (n_run es) a !! hh = Some tk /\ t_owner tk = OOther) /\ (a, b, t) ∈ pa_dials s) ->
  pace_ok (Pace (pa_hist s ++ [e]) (pa_beat s) d).
Proof.
  intros (I1 & I2 & I3) Ht Hd Hn. set (s' := Pace (pa_hist s ++ [e]) (pa_beat s) d) in *.
  destruct (clock_later deser dec_users dec_topics valid enc_users enc_topics delay (pa_hist s) (pa_hist s ++ [e])) as (_ & Hle & Hpast); [by apply prefix_app_r|].
  change (now s <= now s')%N in Hle.
  assert (Hm : now s' = now s \/ (forall b x, pa_beat s !! b = Some x -> match x with Asking t => (now s' <= t + 10 + delay)%N | Resting w => (now s' <= w)%N end)
     /\ forall p q t, (p, q, t) ∈ pa_dials s -> (now s' <= t + limit)%N).
  { destruct Ht as [?|[[_ H1]%andb_prop H2]%andb_prop]; [by left|right]. split.
    - intros b x Hx. rewrite forallb_forall in H1. specialize (H1 (b, x)). cbn [snd] in H1.
      assert (Hi : In (b, x) (map_to_list (pa_beat s))) by (by apply elem_of_list_In, elem_of_map_to_list).
      specialize (H1 Hi). destruct x; by apply N.leb_le in H1.
    - intros p q t Hin. rewrite forallb_forall in H2. specialize (H2 (p, q, t)). cbn [snd] in H2. apply N.leb_le, H2. by apply elem_of_list_In. }
  split; [|split].
  - intros b x Hx. specialize (I1 _ _ Hx). destruct Hm as [->|[Hm _]]; [done|]. specialize (Hm _ _ Hx). destruct x; lia.
  - intros p q t Hin. apply Hd in Hin. destruct (I2 _ _ _ Hin) as (J1 & J2 & J3). split; [|done].
    destruct Hm as [->|[_ Hm]]; [done|]. specialize (Hm _ _ _ Hin). lia.
  - intros p h hh q c Hin Hg Hne. destruct (Hn _ _ _ _ _ Hin Hg Hne) as [Hin'|(t & es & J1 & (tk & J2 & J3) & J4)].
    + destruct (I3 _ _ _ _ _ Hin' Hg Hne) as (u & es & t & tk & J1 & J2). exists u, es, t, tk. split; [by apply Hpast|done].
    + destruct (I2 _ _ _ J4) as (K1 & _ & K3). exists (now s), es, t, tk. do 3 (split; [done|]). split; [lia|done].
Qed.

Lemma up_handler es a h hh c b hb hhb cb : a <> b -> fresh_pair (n_run es) a h hh c -> fresh_pair (n_run es) b hb hhb cb ->
  tasks_at (n_run (es ++ [NUp a h hh c b hb hhb cb])) a !! hh = Some (Task OOther (broker_connected b c h) false 0)
  /\ tasks_at (n_run (es ++ [NUp a h hh c b hb hhb cb])) b !! hhb = Some (Task OOther (broker_connected a cb hb) false 0).
Proof.
  intros Hne Fa Fb. rewrite n_run_snoc. cbn [n_step]. rewrite decide_True by done. cbv zeta.
  match goal with |- context [Net (n_trace ?n2) ?l] => change (broker_at (Net (n_trace n2) l)) with (broker_at n2) end.
  destruct Fa as (F1 & F2 & F3 & _), Fb as (G1 & G2 & G3 & _). split.
  - rewrite (broker_extend deser dec_users dec_topics valid), decide_False by done.
    rewrite (broker_extend deser dec_users dec_topics valid), decide_True by done. cbn [TaskModel.m_step]. rewrite decide_True by done. cbn. by rewrite lookup_insert.
  - rewrite (broker_extend deser dec_users dec_topics valid), decide_True by done.
    rewrite (broker_extend deser dec_users dec_topics valid), decide_False by done. cbn [TaskModel.m_step]. rewrite decide_True by done. cbn. by rewrite lookup_insert.
Qed.

Lemma pace_ok_step s e : pace_ok s -> pace_ok (pace_step s e).
Proof.
  intros Hok. pose proof Hok as (I1 & I2 & I3). destruct e as [a|a others|a|a|a ha hha ca b hb hhb cb t|a b t|e]; cbn [PaceModel.pace_step].
  - destruct (pa_beat s !! a) eqn:E; [done|]. eapply ok_beat; [done|exact E|done|lia|]. by left.
  - destruct (pa_beat s !! a) as [[t|w]|] eqn:E; try done. specialize (I1 _ _ E). cbn in I1. eapply ok_beat; [done|exact E|cbn [since]; lia|lia|].
    intros p q t' Hin. apply elem_of_app in Hin as [Hin|Hin]; [by left|right]. apply elem_of_list_In, in_map_iff in Hin as (z & [= <- <- <-] & Hz).
    split; [done|]. split; [done|]. cbn [since]. split; [|lia]. apply elem_of_list_In, elem_of_elements in Hz. by apply dials_spec in Hz as (_ & _ & Hz).
  - destruct (pa_beat s !! a) as [[t|w]|] eqn:E; try done. specialize (I1 _ _ E). cbn in I1. eapply ok_beat; [done|exact E|cbn [since]; lia|lia|]. by left.
  - destruct (pa_beat s !! a) as [[t|w]|] eqn:E; try done. destruct (w <=? ck_now _)%N eqn:Hw; [|done]. apply N.leb_le in Hw. specialize (I1 _ _ E). cbn in I1.
    eapply ok_beat; [done|exact E|cbn [since]; lia|lia|]. by left.
  - case_decide as Hd; [|done]. destruct Hd as (Hin & Hne & Fa & Fb). apply ok_hist; [done| |intros x; apply over_sub|].
    + left. cbn [pa_hist]. by rewrite clock_snoc.
    + cbn [pa_hist]. rewrite clock_snoc. cbn [ClockModel.clock_step happens ck_events ck_past]. intros p h hh q c Hp Hg Hpq.
      destruct (up_handler _ _ _ _ _ _ _ _ _ Hne Fa Fb) as [U1 U2].
      destruct (link_by_up _ _ _ _ _ _ _ Hp) as [?|[(hb' & hhb' & cb' & [= <- <- <- <- <- _ _ _])|(hb' & hhb' & cb' & [= <- _ _ _ <- _ _ _])]]; [by left| |].
      * right. exists t, (evs s ++ [NUp a ha hha ca b hb hhb cb]). split; [apply in_app_iff; right; by left|]. split; [by eexists|done].
      * destruct (I2 _ _ _ Hin) as (_ & Hg' & _). destruct (bid_gtb_total a b Hne) as [?|?]; congruence.
  - destruct Hok as (_ & J2 & J3). split; [exact I1|]. split; [|exact J3]. cbn [pa_dials pa_hist]. intros p q t' Hin. apply over_sub in Hin. by apply (I2 _ _ _ Hin).
  - assert (Hplain : (forall x hx hhx cx y hy hhy cy, e <> CNet (NUp x hx hhx cx y hy hhy cy)) ->
      (now (Pace (pa_hist s ++ [e]) (pa_beat s) (pa_dials s)) = now s \/ may_pass s (now (Pace (pa_hist s ++ [e]) (pa_beat s) (pa_dials s))) = true) ->
      pace_ok (Pace (pa_hist s ++ [e]) (pa_beat s) (pa_dials s))).
    { intros Hne Hnow. apply ok_hist; [done|done|done|]. cbn [pa_hist]. rewrite clock_snoc. intros p h hh q c Hp Hg Hpq. left.
      destruct (clock_events (clk s) e) as [He|(e' & He & He')]; rewrite He in Hp; [done|].
      destruct (link_by_up _ _ _ _ _ _ _ Hp) as [?|[(? & ? & ? & ->)|(? & ? & ? & ->)]]; [done| |]; destruct He' as [->|(? & ? & [=])]; by edestruct Hne. }
    assert (Hnt : (forall d, e <> CTick d) -> now (Pace (pa_hist s ++ [e]) (pa_beat s) (pa_dials s)) = now s).
    { intros Hn. cbn [pa_hist]. rewrite clock_snoc. destruct e as [b h|b|b h|e|d]; cbn [ClockModel.clock_step]; unfold begins.
      - destruct (ck_sync _ !! b); [done|]. by destruct (tasks_at _ b !! h).
      - destruct (ck_sync _ !! b) as [[h|w]|]; try done. by destruct (idle _ b h).
      - destruct (ck_sync _ !! b) as [[h'|w]|]; try done. destruct (w <=? _)%N; [|done]. by destruct (tasks_at _ b !! h).
      - by destruct e as [| | | |? []].
      - by destruct (Hn d). }
    destruct e as [b h|b|b h|e|d]; try (apply Hplain; [done|left; by apply Hnt]).
    + destruct e; try (apply Hplain; [done|left; by apply Hnt]). done.
    + destruct (may_pass s (ck_now (clk s) + d)%N) eqn:E; [|done]. apply Hplain; [done|right]. cbn [pa_hist]. rewrite clock_snoc. cbn [ClockModel.clock_step].
      pose proof E as [[E1 _]%andb_prop _]%andb_prop. rewrite E1. exact E.
Qed.

Lemma pace_ok_run ps : pace_ok (pace_run ps).
Proof. induction ps as [|e ps IH] using rev_ind; [by split; [|split; [by intros a b t ?%elem_of_nil|]]|]. rewrite pace_snoc. by apply pace_ok_step. Qed.

(** A registration that is still to come was begun by a handshake. *)
Lemma add_origin es a b h t c h' : tasks_at (n_run es) a !! h = Some t -> In (AAddBroker b c h') (t_acts t) -> In (EBrokerAuthed h' h b c) (trace (n_run es) a).
Proof.
  revert h t c h'. induction es as [|e es IH] using rev_ind; intros h t c h' Ht Hy; [done|].
  destruct (step_at deser dec_users dec_topics valid enc_users enc_topics es e a) as [Heq|(ev & Htr & Heq)]; rewrite Heq in Ht.
  - pose proof (trace_later deser dec_users dec_topics valid enc_users enc_topics es (es ++ [e]) a) as [l Hl]; [by apply prefix_app_r|].
    rewrite Hl. apply in_app_iff. left. by eapply IH.
  - rewrite Htr. rewrite (m_run_snoc deser dec_users dec_topics valid) in Ht. apply in_app_iff.
    destruct (add_new deser dec_users dec_topics valid b _ ev _ _ _ _ Ht Hy) as [(t0 & Ht0 & Hy0)| ->]; [left; by eapply IH|right; by left].
Qed.

(** When a list comes in, nothing is left of the round before. *)
Lemma prompt_list s a b t0 : (limit + delay < 10)%N -> pace_ok s -> bid_gtb a b = false -> a <> b -> pa_beat s !! a = Some (Asking t0) ->
  (forall t, (a, b, t) ∉ pa_dials s) /\ (forall h t c h', tasks_at (net_of s) a !! h = Some t -> ~ In (AAddBroker b c h') (t_acts t)).
Proof.
  intros Hl (I1 & I2 & I3) Hg Hne Hb. pose proof (I1 _ _ Hb) as Ht0. cbn in Ht0. split.
  - intros t Hin. destruct (I2 _ _ _ Hin) as (J1 & _ & (x & Hx & J2)). rewrite Hb in Hx. injection Hx as <-. cbn [since] in J2. lia.
  - intros h t c h' Ht Hy. pose proof (add_origin _ _ _ _ _ _ _ Ht Hy) as Hin.
    destruct (I3 _ _ _ _ _ Hin Hg Hne) as (u & es & t1 & tk & J1 & J2 & J3 & J4 & (x & Hx & J5)). rewrite Hb in Hx. injection Hx as <-. cbn [since] in J5.
    destruct (clock_ok_run (pa_hist s)) as (_ & K2 & _). destruct (K2 _ _ J1) as [_ [?|Hi]]; [lia|].
    specialize (Hi a h (other_in deser dec_users dec_topics valid _ _ _ _ J2 J3)). apply (idle_acts deser dec_users dec_topics valid _ _ _ _ Ht) in Hi. rewrite Hi in Hy. destruct Hy.
Qed.

(** ** Two brokers, of which [a] dials *)
Section pair.
Hypothesis Hcodec : faithful_sync deser dec_users dec_topics enc_users enc_topics.
Hypothesis Hlimit : (limit + delay < 10)%N.
Variables a b : bid.
Hypothesis Hab : a <> b.
Hypothesis Hdir : bid_gtb a b = false.
Notation in_phase := (in_phase deser dec_users dec_topics valid).
Notation unbroken_since := (unbroken_since deser dec_users dec_topics valid).

Definition apart_at (s : pace) : Prop :=
  in_phase (net_of s) a b Apart /\ in_phase (net_of s) b a Apart /\ (forall t, (a, b, t) ∈ pa_dials s -> forall t', (a, b, t') ∉ over (a, b, t) (pa_dials s)).
Definition together_at (s : pace) (ha hha ca hb hhb cb : N) : Prop :=
  (forall t, (a, b, t) ∉ pa_dials s) /\ in_phase (net_of s) a b (Linked ha hha ca) /\ in_phase (net_of s) b a (Linked hb hhb cb)
  /\ n_links (net_of s) !! (a, ca) = Some (b, hb) /\ n_links (net_of s) !! (b, cb) = Some (a, ha).
Definition together (s : pace) : Prop := exists ha hha ca hb hhb cb, together_at s ha hha ca hb hhb cb.

(** Nothing is refused or breaks. *)
Definition sound (s : pace) : Prop :=
  hooks_pass (evs s) /\ hooks_accept (evs s) /\ unbroken_since a b (n_run []) (net_of s) /\ unbroken_since b a (n_run []) (net_of s).

Lemma prefix_start n x : prefix_at (n_run []) n x.
Proof. exists (trace n x). done. Qed.
Lemma sound_less p e : hooks_pass (p ++ [e]) /\ hooks_accept (p ++ [e]) /\ unbroken_since a b (n_run []) (n_run (p ++ [e])) /\ unbroken_since b a (n_run []) (n_run (p ++ [e])) ->
  hooks_pass p /\ hooks_accept p /\ unbroken_since a b (n_run []) (n_run p) /\ unbroken_since b a (n_run []) (n_run p).
Proof.
  intros (H1 & H2 & H3 & H4). destruct (hooks_app _ _ H1 H2) as [G1 G2]. do 2 (split; [done|]).
  split; [by apply (phase_net deser dec_users dec_topics valid enc_users enc_topics Hcodec (n_run []) p e a b Apart H1 H2 (prefix_start _ _) H3)|].
  by apply (phase_net deser dec_users dec_topics valid enc_users enc_topics Hcodec (n_run []) p e b a Apart H1 H2 (prefix_start _ _) H4).
Qed.

(** The state of the two depends on the network and the dials of [b] by [a]. *)
Lemma same_net s s' : evs s' = evs s ->
  (apart_at s -> (forall t, (a, b, t) ∈ pa_dials s' -> forall t', (a, b, t') ∉ over (a, b, t) (pa_dials s')) -> apart_at s')
  /\ (forall ha hha ca hb hhb cb, together_at s ha hha ca hb hhb cb -> (forall t, (a, b, t) ∉ pa_dials s') -> together_at s' ha hha ca hb hhb cb).
Proof.
  intros He. split.
  - intros (A1 & A2 & _) Hd. unfold apart_at. rewrite He. done.
  - intros ha hha ca hb hhb cb (_ & T) Hd. unfold together_at. rewrite He. done.
Qed.

(** An event that does not link the two. *)
Lemma other_event s s' e : evs s' = evs s ++ [e] -> other_link a b e -> sound s' ->
  (apart_at s -> (forall t, (a, b, t) ∈ pa_dials s' -> forall t', (a, b, t') ∉ over (a, b, t) (pa_dials s')) -> apart_at s')
  /\ (forall ha hha ca hb hhb cb, together_at s ha hha ca hb hhb cb -> (forall t, (a, b, t) ∉ pa_dials s') -> together_at s' ha hha ca hb hhb cb).
Proof.
  intros He Ho (H1 & H2 & H3 & H4). unfold apart_at, together_at. rewrite He in H1, H2, H3, H4 |- *.
  assert (Pa : forall f, in_phase (net_of s) a b f -> in_phase (n_run (evs s ++ [e])) a b f).
  { intros f. by apply (phase_net deser dec_users dec_topics valid enc_users enc_topics Hcodec (n_run []) (evs s) e a b f H1 H2 (prefix_start _ _) H3). }
  assert (Pb : forall f, in_phase (net_of s) b a f -> in_phase (n_run (evs s ++ [e])) b a f).
  { intros f. apply (phase_net deser dec_users dec_topics valid enc_users enc_topics Hcodec (n_run []) (evs s) e b a f H1 H2 (prefix_start _ _) H4). by apply other_link_sym. }
  split.
  - intros (A1 & A2 & _) Hd. split; [by apply Pa|]. split; [by apply Pb|done].
  - intros ha hha ca hb hhb cb (_ & T1 & T2 & T3 & T4) Hd. split; [done|]. split; [by apply Pa|]. split; [by apply Pb|].
    split; by apply (links_net deser dec_users dec_topics valid enc_users enc_topics Hcodec).
Qed.

Lemma over_twice x y l : (x ∈ l -> forall t, (a, b, t) ∉ over x l) -> x ∈ over y l -> forall t, (a, b, t) ∉ over x (over y l).
Proof.
  induction l as [|z l IH]; cbn [over]; [by intros _ ?%elem_of_nil|]. destruct (decide (z = y)) as [->|Hy].
  - intros H Hx t Hin. assert (Hx' : x ∈ y :: l) by set_solver. specialize (H Hx'). destruct (decide (y = x)) as [->|Hyx].
    + apply over_sub in Hin. by apply (H t).
    + apply (H t). apply elem_of_cons. by right.
  - cbn [over]. destruct (decide (z = x)) as [->|Hzx].
    + intros H _ t Hin. apply over_sub in Hin. by apply (H (elem_of_list_here _ _) t).
    + intros H Hx t Hin. apply elem_of_cons in Hx as [->|Hx]; [done|]. pose proof (over_sub _ _ _ Hx) as Hxl.
      assert (Hxz : x ∈ z :: l) by (by apply elem_of_list_further). specialize (H Hxz). apply elem_of_cons in Hin as [Hz|Hin].
      * apply (H t). rewrite Hz. apply elem_of_list_here.
      * apply (IH (fun _ t' Ht' => H t' (elem_of_list_further _ _ _ Ht')) Hx t Hin).
Qed.
Lemma over_app x l l' : x ∉ l -> over x (l ++ l') = l ++ over x l'.
Proof. induction l as [|z l IH]; cbn; [done|]. rewrite not_elem_of_cons. intros [H1 H2]. rewrite decide_False by done. by rewrite IH. Qed.
Lemma over_app_none l l' x : (forall t, (a, b, t) ∉ l') -> (x ∈ l -> forall t, (a, b, t) ∉ over x l) -> x ∈ l -> forall t, (a, b, t) ∉ over x (l ++ l').
Proof.
  intros Hn. induction l as [|z l IH]; cbn [over app]; [by intros _ ?%elem_of_nil|]. destruct (decide (z = x)) as [->|Hzx].
  - intros H Hx t. rewrite not_elem_of_app. split; [by apply H|done].
  - intros H Hx t. specialize (H Hx). apply elem_of_cons in Hx as [->|Hx]; [done|]. rewrite not_elem_of_cons. split.
    + intros <-. apply (H t). apply elem_of_list_here.
    + apply IH; [|done]. intros _ t' Ht'. apply (H t'). by apply elem_of_list_further.
Qed.
Lemma new_dials (x y z : bid) (t t' : N) (l : gset bid) : (x, y, t) ∈ map (fun b => (z, b, t')) (elements l) <-> x = z /\ t = t' /\ y ∈ l.
Proof.
  rewrite elem_of_list_In, in_map_iff. split.
  - intros (w & [= <- <- <-] & Hw). split; [done|]. split; [done|]. by apply elem_of_elements, elem_of_list_In.
  - intros (-> & -> & Hy). exists y. split; [done|]. by apply elem_of_list_In, elem_of_elements.
Qed.
Lemma new_once (x : bid) (t : N) (l : gset bid) t1 : forall t', (a, b, t') ∉ over (a, b, t1) (map (fun y => (x, y, t)) (elements l)) \/ t1 <> t.
Proof.
  intros t'. destruct (decide (t1 = t)) as [->|]; [left|by right].
  assert (Hnd : NoDup (map (fun y => (x, y, t)) (elements l))) by (apply NoDup_fmap_2; [intros ? ? [=]; done|apply NoDup_elements]).
  assert (Hall : forall p q t2, (p, q, t2) ∈ map (fun y => (x, y, t)) (elements l) -> t2 = t) by (intros p q t2 Hin; by apply new_dials in Hin as (_ & -> & _)).
  revert Hnd Hall. generalize (map (fun y => (x, y, t)) (elements l)). intros l' Hnd Hall Hin.
  pose proof (Hall _ _ _ (over_sub _ _ _ Hin)) as ->. clear Hall. induction l' as [|z l' IH]; cbn [over] in Hin; [by apply elem_of_nil in Hin|].
  apply NoDup_cons in Hnd as [Hz Hnd]. destruct (decide (z = (a, b, t))) as [->|Hne]; [done|]. apply elem_of_cons in Hin as [<-|Hin]; [done|by apply IH].
Qed.

(** One event. *)
Lemma pair_step s e : pace_ok s -> sound (pace_step s e) ->
  (apart_at s -> apart_at (pace_step s e) \/ together (pace_step s e))
  /\ (forall ha hha ca hb hhb cb, together_at s ha hha ca hb hhb cb -> together_at (pace_step s e) ha hha ca hb hhb cb)
  /\ (forall t, apart_at s -> (a, b, t) ∈ pa_dials s -> e <> PFail a b t -> (a, b, t) ∈ pa_dials (pace_step s e) \/ together (pace_step s e))
  /\ (forall others t0, apart_at s -> e = PList a others -> pa_beat s !! a = Some (Asking t0) -> b ∈ others -> (a, b, now s) ∈ pa_dials (pace_step s e)).
Proof.
  intros Hok Hs.
  (* nothing happens in the network, and no dial of the two begins or ends *)
  assert (Hsame : forall s', evs s' = evs s -> pa_dials s' = pa_dials s ->
    (apart_at s -> apart_at s' \/ together s') /\ (forall ha hha ca hb hhb cb, together_at s ha hha ca hb hhb cb -> together_at s' ha hha ca hb hhb cb)
    /\ (forall t, apart_at s -> (a, b, t) ∈ pa_dials s -> (a, b, t) ∈ pa_dials s' \/ together s')).
  { intros s' He Hd. destruct (same_net s s' He) as [S1 S2]. rewrite Hd in S1, S2. split; [|split].
    - intros Ha. left. apply S1; [done|]. by destruct Ha as (_ & _ & Ha).
    - intros ha hha ca hb hhb cb Ht. apply S2; [done|]. by destruct Ht.
    - intros t _ Hin. left. by rewrite Hd. }
  (* something else happens in the network *)
  assert (Hother : forall s' e', evs s' = evs s ++ [e'] -> other_link a b e' -> pa_dials s' = pa_dials s -> sound s' ->
    (apart_at s -> apart_at s' \/ together s') /\ (forall ha hha ca hb hhb cb, together_at s ha hha ca hb hhb cb -> together_at s' ha hha ca hb hhb cb)
    /\ (forall t, apart_at s -> (a, b, t) ∈ pa_dials s -> (a, b, t) ∈ pa_dials s' \/ together s')).
  { intros s' e' He Ho Hd Hs'. destruct (other_event s s' e' He Ho Hs') as [S1 S2]. rewrite Hd in S1, S2. split; [|split].
    - intros Ha. left. apply S1; [done|]. by destruct Ha as (_ & _ & Ha).
    - intros ha hha ca hb hhb cb Ht. apply S2; [done|]. by destruct Ht.
    - intros t _ Hin. left. by rewrite Hd. }
  assert (Hfin : forall s', (apart_at s -> apart_at s' \/ together s') /\ (forall ha hha ca hb hhb cb, together_at s ha hha ca hb hhb cb -> together_at s' ha hha ca hb hhb cb)
    /\ (forall t, apart_at s -> (a, b, t) ∈ pa_dials s -> (a, b, t) ∈ pa_dials s' \/ together s') -> (forall others, e <> PList a others) ->
    (apart_at s -> apart_at s' \/ together s') /\ (forall ha hha ca hb hhb cb, together_at s ha hha ca hb hhb cb -> together_at s' ha hha ca hb hhb cb)
    /\ (forall t, apart_at s -> (a, b, t) ∈ pa_dials s -> e <> PFail a b t -> (a, b, t) ∈ pa_dials s' \/ together s')
    /\ (forall others t0, apart_at s -> e = PList a others -> pa_beat s !! a = Some (Asking t0) -> b ∈ others -> (a, b, now s) ∈ pa_dials s')).
  { intros s' (J1 & J2 & J3) Hne. split; [done|]. split; [done|]. split; [intros t Ha Hin _; by apply J3|]. intros others t0 _ He. by destruct (Hne others). }
  destruct e as [x|x others|x|x|x hx hhx cx y hy hhy cy t|x y t|e]; cbn [PaceModel.pace_step] in Hs |- *.
  - apply Hfin; [|done]. destruct (pa_beat s !! x); by apply Hsame.
  - destruct (pa_beat s !! x) as [[t0|w]|] eqn:Hb.
    2,3: destruct (Hsame s eq_refl eq_refl) as (J1 & J2 & J3); split; [done|]; split; [done|]; split; [intros t Ha Hin _; by apply J3|]; intros others' t0 _ [= <- <-] Hb'; congruence.
    set (s' := Pace _ _ _). destruct (same_net s s' eq_refl) as [S1 S2].
    assert (Hnew : forall t, (a, b, t) ∈ pa_dials s' -> (a, b, t) ∈ pa_dials s \/ x = a /\ t = now s /\ b ∉ connected_to (broker_at (net_of s) a)).
    { intros t [?|Hin]%elem_of_app; [by left|right]. apply new_dials in Hin as (<- & -> & Hin). by apply dials_spec in Hin as (_ & Hin & _). }
    split; [|split; [|split]].
    + intros Ha. left. apply S1; [done|]. intros t Hin t'. destruct (decide (x = a)) as [->|Hne].
      * destruct (prompt_list s a b t0 Hlimit Hok Hdir Hab Hb) as [Hno _]. cbn [s' pa_dials]. rewrite over_app by apply Hno. rewrite not_elem_of_app. split; [apply Hno|].
        destruct (Hnew t Hin) as [?|(_ & -> & _)]; [by apply Hno in H|]. destruct (new_once a (now s) (dials a others (connected_to (broker_at (net_of s) a))) (now s) t') as [?|?]; done.
      * destruct (Hnew t Hin) as [Hin'|(-> & _)]; [|done]. cbn [s' pa_dials]. apply over_app_none; [| |done].
        -- intros t1 H1. apply new_dials in H1 as (<- & _). done.
        -- intros _. destruct Ha as (_ & _ & Ha). by apply Ha.
    + intros ha hha ca hb hhb cb Ht. apply S2; [done|]. intros t Hin. destruct (Hnew t Hin) as [Hin'|(-> & -> & Hc)]; [by destruct Ht as (Ht & _); apply Ht in Hin'|].
      destruct (prompt_list s a b t0 Hlimit Hok Hdir Hab Hb) as [_ Hno]. destruct Ht as (_ & (_ & [Htk|[tm Hr]] & _) & _).
      * eapply Hno; [exact Htk|]. by left.
      * apply Hc. unfold connected_to. apply elem_of_dom. by eexists.
    + intros t _ Hin _. left. apply elem_of_app. by left.
    + intros others' t1 Ha [= -> ->] _ Ho. apply elem_of_app. right. apply new_dials. split; [done|]. split; [done|]. apply dials_spec. split; [done|]. split; [|done].
      destruct Ha as ((_ & Hbr & _) & _). unfold connected_to. rewrite elem_of_dom, Hbr. by intros [? ?].
  - apply Hfin; [|done]. destruct (pa_beat s !! x) as [[t0|w]|]; by apply Hsame.
  - apply Hfin; [|done]. destruct (pa_beat s !! x) as [[t0|w]|]; try (by apply Hsame). destruct (w <=? _)%N; by apply Hsame.
  - apply Hfin; [|done]. case_decide as Hd; [|by apply Hsame]. destruct Hd as (Hin & Hne & Fx & Fy). set (s' := Pace _ _ _) in *.
    assert (He : evs s' = evs s ++ [NUp x hx hhx cx y hy hhy cy]) by (cbn [s' pa_hist]; by rewrite clock_snoc).
    destruct (decide (x = a /\ y = b)) as [[-> ->]|Hn1].
    + assert (Hup : apart_at s -> together s').
      { intros (A1 & A2 & A3). destruct Hs as (H1 & H2 & H3 & H4). exists hx, hhx, cx, hy, hhy, cy. unfold together_at. rewrite He in H1, H2 |- *.
        edestruct phase_up as (P1 & P2 & P3 & P4); [exact H1|exact H2|exact Hne|exact Fx|exact Fy|exact A1|exact A2|]. split; [|done]. cbn [s' pa_dials]. by apply A3. }
      split; [intros Ha; right; by apply Hup|]. split; [|intros t' Ha _; right; by apply Hup].
      intros ha hha ca hb hhb cb (Hno & _). by apply Hno in Hin.
    + assert (Hn2 : ~ (x = b /\ y = a)).
      { intros [-> ->]. destruct Hok as (_ & I2 & _). destruct (I2 _ _ _ Hin) as (_ & Hg & _). destruct (bid_gtb_total a b Hab); congruence. }
      destruct (other_event s s' _ He (conj Hn1 Hn2) Hs) as [S1 S2]. split; [|split].
      * intros Ha. left. apply S1; [done|]. cbn [s' pa_dials]. intros t' Hin' t1. apply over_twice; [|done]. intros _. destruct Ha as (_ & _ & Ha). apply Ha. by apply over_sub in Hin'.
      * intros ha hha ca hb hhb cb Ht. apply S2; [done|]. cbn [s' pa_dials]. intros t' Hin'. apply over_sub in Hin'. destruct Ht as (Ht & _). by apply Ht in Hin'.
      * intros t' _ Hin'. left. cbn [s' pa_dials]. apply over_other; [|done]. intros [= <- <- <-]. tauto.
  - set (s' := Pace _ _ _) in *. destruct (same_net s s' eq_refl) as [S1 S2]. split; [|split; [|split]].
    + intros Ha. left. apply S1; [done|]. cbn [s' pa_dials]. intros t' Hin' t1. apply over_twice; [|done]. intros _. destruct Ha as (_ & _ & Ha). apply Ha. by apply over_sub in Hin'.
    + intros ha hha ca hb hhb cb Ht. apply S2; [done|]. cbn [s' pa_dials]. intros t' Hin'. apply over_sub in Hin'. destruct Ht as (Ht & _). by apply Ht in Hin'.
    + intros t' _ Hin' Hne. left. cbn [s' pa_dials]. apply over_other; [|done]. congruence.
    + done.
  - apply Hfin; [|done].
    assert (Hc : forall s', s' = Pace (pa_hist s ++ [e]) (pa_beat s) (pa_dials s) -> (forall p hp hhp cp q hq hhq cq, e <> CNet (NUp p hp hhp cp q hq hhq cq)) -> sound s' ->
      (apart_at s -> apart_at s' \/ together s') /\ (forall ha hha ca hb hhb cb, together_at s ha hha ca hb hhb cb -> together_at s' ha hha ca hb hhb cb)
      /\ (forall t, apart_at s -> (a, b, t) ∈ pa_dials s -> (a, b, t) ∈ pa_dials s' \/ together s')).
    { intros s' Heq Hne Hs'.
      assert (He : evs s' = ck_events (clock_step (clk s) e)) by (rewrite Heq; cbn [pa_hist]; by rewrite clock_snoc).
      assert (Hd : pa_dials s' = pa_dials s) by (by rewrite Heq). clear Heq.
      destruct (clock_events (clk s) e) as [He'|(e' & He' & Hx)]; rewrite He' in He; [by apply Hsame|]. apply (Hother s' e'); [done| |done|done].
      destruct Hx as [->|(? & ? & ->)]; [|done]. destruct e'; cbn; try done. by edestruct Hne. }
    destruct e as [p h|p|p h|e|d]; try (by apply Hc).
    + destruct e; try (by apply Hc). by apply Hsame.
    + destruct (may_pass s _); [by apply Hc|by apply Hsame].
Qed.
End pair.
End pace.
