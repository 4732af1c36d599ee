(** Proofs: news is announced within a period of the sync task (continued). *)
From stdpp Require Import gmap fin_maps fin_sets list.
From Coq Require Import NArith ZArith Lia.
From Verif Require Import IdModel RelMapModel RelMapProofs VMapModel VMapSpec VMapProofs ConnModel ConnSpec ConnProofs ConnProofs2 ConnProofs3 ConnProofs4
  SyncSpec SyncModel DirSyncProofs TopicSyncProofs TopicModel TopicProofs MsgModel RouteModel RouteProofs TaskModel TaskProofs TaskOrder TaskHandles TaskIsolation TaskSync
  NetModel NetProofs NetOrigin NetDelivery NetComplete NetSynced NetConcurrent NetRest NetSettle NetSettleDir LinkSpec BusySpec BusyProofs BusyProofs2 BusyProofs3 ClockModel ClockProofs.

(** ** What tells *)
Lemma relays_topic a t x : relays x -> tells_topic a t x -> x = ARemoveBroker a.
Proof. destruct x; cbn; try done; try (by intros [? ->]); by intros _ ->. Qed.
Lemma relays_user a v x : relays x -> tells_user a v x -> x = ARemoveBroker a.
Proof. destruct x; cbn; try done; try (by intros [? ->]); by intros _ ->. Qed.
Lemma next_topic a t ok s x s' nxt sends y : act_step ok s x = (s', nxt, sends) -> topic_quiet t s ->
  (tells_topic a t x -> x = ARemoveBroker a) -> In y nxt -> tells_topic a t y -> y = ARemoveBroker a.
Proof.
  intros Heq HK Hx Hy Htl.
  destruct x as [w raw only|ts raw only|w f0|w cw f0|p f0|p cb f0|f0|w|p|w cw ts h'|p cb h'|w ts|w ts|d|p d|p|p| |]; cbn [act_step] in Heq;
    try (injection Heq as <- <- <-; done).
  - eapply relays_topic; [|exact Htl]. exact (relays_step ok s (ADirect w raw only) s' nxt sends y Heq I Hy).
  - eapply relays_topic; [|exact Htl]. exact (relays_step ok s (ABroadcast ts raw only) s' nxt sends y Heq I Hy).
  - injection Heq as <- <- <-. destruct (c_get_user_connection s w); [|done]. by destruct Hy as [<-|[]].
  - destruct (ok cw); injection Heq as <- <- <-; [done|]. by destruct Hy as [<-|[]].
  - injection Heq as <- <- <-. destruct (c_get_broker_connection s p); [|done]. destruct Hy as [<-|[]]. specialize (Hx Htl). done.
  - destruct (ok cb); injection Heq as <- <- <-; [done|]. destruct Hy as [<-|[]]. cbn in Htl. by subst p.
  - injection Heq as <- <- <-. apply in_map_iff in Hy as (p & <- & _). destruct f0; cbn in Htl, Hx; try done. destruct Htl as [_ Htl]. by specialize (Hx Htl).
  - injection Heq as <- <- <-. destruct (c_get_full_topic_sync s); [|done]. destruct Hy as [<-|[]]. cbn in Htl, Hx. destruct Htl as [-> _]. by specialize (Hx eq_refl).
  - injection Heq as <- <- <-. destruct (c_get_full_user_sync s); [|done]. by destruct Hy as [<-|[]].
  - unfold topic_quiet in HK. destruct (c_get_partial_topic_sync s) as [s1 [d|]]; injection Heq as <- <- <-; [|done]. destruct Hy as [<-|[]]. cbn in Htl.
    rewrite (HK d eq_refl) in Htl. by destruct Htl.
  - destruct (c_get_partial_user_sync s) as [s1 [d|]]; injection Heq as <- <- <-; [|done]. by destruct Hy as [<-|[]].
Qed.
Lemma next_user a v ok s x s' nxt sends y : act_step ok s x = (s', nxt, sends) -> user_quiet v s ->
  (tells_user a v x -> x = ARemoveBroker a) -> In y nxt -> tells_user a v y -> y = ARemoveBroker a.
Proof.
  intros Heq HK Hx Hy Htl.
  destruct x as [w raw only|ts raw only|w f0|w cw f0|p f0|p cb f0|f0|w|p|w cw ts h'|p cb h'|w ts|w ts|d|p d|p|p| |]; cbn [act_step] in Heq;
    try (injection Heq as <- <- <-; done).
  - eapply relays_user; [|exact Htl]. exact (relays_step ok s (ADirect w raw only) s' nxt sends y Heq I Hy).
  - eapply relays_user; [|exact Htl]. exact (relays_step ok s (ABroadcast ts raw only) s' nxt sends y Heq I Hy).
  - injection Heq as <- <- <-. destruct (c_get_user_connection s w); [|done]. by destruct Hy as [<-|[]].
  - destruct (ok cw); injection Heq as <- <- <-; [done|]. by destruct Hy as [<-|[]].
  - injection Heq as <- <- <-. destruct (c_get_broker_connection s p); [|done]. destruct Hy as [<-|[]]. specialize (Hx Htl). done.
  - destruct (ok cb); injection Heq as <- <- <-; [done|]. destruct Hy as [<-|[]]. cbn in Htl. by subst p.
  - injection Heq as <- <- <-. apply in_map_iff in Hy as (p & <- & _). destruct f0; cbn in Htl, Hx; try done. destruct Htl as [_ Htl]. by specialize (Hx Htl).
  - injection Heq as <- <- <-. destruct (c_get_full_topic_sync s); [|done]. by destruct Hy as [<-|[]].
  - injection Heq as <- <- <-. destruct (c_get_full_user_sync s); [|done]. destruct Hy as [<-|[]]. cbn in Htl, Hx. destruct Htl as [-> _]. by specialize (Hx eq_refl).
  - destruct (c_get_partial_topic_sync s) as [s1 [d|]]; injection Heq as <- <- <-; [|done]. by destruct Hy as [<-|[]].
  - unfold user_quiet in HK. destruct (c_get_partial_user_sync s) as [s1 [d|]]; injection Heq as <- <- <-; [|done]. destruct Hy as [<-|[]]. cbn in Htl.
    rewrite (HK d eq_refl) in Htl. by destruct Htl.
Qed.
Lemma start_topic valid a t e y : started valid e y -> (forall h hh c, e <> EBrokerAuthed h hh a c) -> tells_topic a t y -> y = ARemoveBroker a.
Proof.
  intros Hs Hno Htl. destruct e as [h1 h2 w c1 ts|h1 h2 b1 c1|h2|h2 w|h1 raw hk|h1|h1 good|h1]; cbn in Hs; try done.
  - by destruct Hs as [<-|[<-|[<-|[]]]].
  - assert (b1 <> a) by (intros ->; by eapply Hno). by destruct Hs as [<-|[<-|[<-|[]]]]; cbn in Htl.
  - by destruct Hs as [<-|[<-|[]]].
  - by subst y.
  - destruct Hs as ([?|p ?|] & Hs); cbn in Hs; [by destruct Hs as [<-|[]]| |done]. destruct Hs as [<-|[]]. cbn in Htl. by subst.
Qed.
Lemma start_user valid a v e y : started valid e y -> (forall h hh c, e <> EBrokerAuthed h hh a c) -> tells_user a v y -> y = ARemoveBroker a.
Proof.
  intros Hs Hno Htl. destruct e as [h1 h2 w c1 ts|h1 h2 b1 c1|h2|h2 w|h1 raw hk|h1|h1 good|h1]; cbn in Hs; try done.
  - by destruct Hs as [<-|[<-|[<-|[]]]].
  - assert (b1 <> a) by (intros ->; by eapply Hno). by destruct Hs as [<-|[<-|[<-|[]]]]; cbn in Htl.
  - by destruct Hs as [<-|[<-|[]]].
  - by subst y.
  - destruct Hs as ([?|p ?|] & Hs); cbn in Hs; [by destruct Hs as [<-|[]]| |done]. destruct Hs as [<-|[]]. cbn in Htl. by subst.
Qed.

Section clock.
Variable deser : bytes -> option message.
Variable dec_users : bytes -> option direct_map.
Variable dec_topics : bytes -> option topic_map.
Variable valid : N -> bool.
Variable enc_users : direct_map -> bytes.
Variable enc_topics : topic_map -> bytes.
Hypothesis Hcodec : faithful_sync deser dec_users dec_topics enc_users enc_topics.
Variable delay : N.
Notation m_step := (m_step deser dec_users dec_topics valid).
Notation m_run := (m_run deser dec_users dec_topics valid).
Notation m_run_snoc := (m_run_snoc deser dec_users dec_topics valid).
Notation broker_at := (broker_at deser dec_users dec_topics valid).
Notation n_run := (n_run deser dec_users dec_topics valid enc_users enc_topics).
Notation n_run_snoc := (n_run_snoc deser dec_users dec_topics valid enc_users enc_topics).
Notation fine := (fine deser dec_users dec_topics valid).
Notation step_at := (step_at deser dec_users dec_topics valid enc_users enc_topics).
Notation task_later := (task_later deser dec_users dec_topics valid enc_users enc_topics).
Notation trace_later := (trace_later deser dec_users dec_topics valid enc_users enc_topics).
Notation subscribed_at := (subscribed_at deser dec_users dec_topics valid).
Notation user_told := (user_told deser dec_users dec_topics valid).
Notation topic_told := (topic_told deser dec_users dec_topics valid).
Notation conns_at n b := (m_conns (broker_at n b)).
Notation tasks_at n b := (m_tasks (broker_at n b)).
Notation idle := (idle deser dec_users dec_topics valid).
Notation other_tasks := (other_tasks deser dec_users dec_topics valid).
Notation clock_step := (clock_step deser dec_users dec_topics valid enc_users enc_topics delay).
Notation clock_run := (clock_run deser dec_users dec_topics valid enc_users enc_topics delay).
Notation begins := (begins deser dec_users dec_topics valid enc_users enc_topics).
Notation may_be := (may_be deser dec_users dec_topics valid enc_users enc_topics delay).

(** ** The clock *)
Lemma clock_snoc cs e : clock_run (cs ++ [e]) = clock_step (clock_run cs) e.
Proof. unfold ClockModel.clock_run. by rewrite fold_left_app. Qed.

Lemma clock_later_step s e : ck_events s `prefix_of` ck_events (clock_step s e) /\ (ck_now s <= ck_now (clock_step s e))%N /\ (forall x, In x (ck_past s) -> In x (ck_past (clock_step s e))).
Proof.
  assert (H0 : ck_events s `prefix_of` ck_events s /\ (ck_now s <= ck_now s)%N /\ (forall x, In x (ck_past s) -> In x (ck_past s))) by (split; [done|split; [lia|done]]).
  assert (H1 : forall e sy, ck_events s `prefix_of` ck_events (happens s e sy) /\ (ck_now s <= ck_now (happens s e sy))%N /\ (forall x, In x (ck_past s) -> In x (ck_past (happens s e sy)))).
  { intros e' sy. cbn. split; [by apply prefix_app_r|]. split; [lia|]. intros x Hx. apply in_app_iff. by left. }
  assert (H2 : forall b h, ck_events s `prefix_of` ck_events (begins s b h) /\ (ck_now s <= ck_now (begins s b h))%N /\ (forall x, In x (ck_past s) -> In x (ck_past (begins s b h)))).
  { intros b h. unfold ClockModel.begins. destruct (tasks_at (n_run (ck_events s)) b !! h); [done|apply H1]. }
  destruct e as [b h|b|b h|e|d]; cbn [ClockModel.clock_step].
  - destruct (ck_sync s !! b); [done|apply H2].
  - destruct (ck_sync s !! b) as [[h|w]|]; try done. destruct (idle _ b h); done.
  - destruct (ck_sync s !! b) as [[h'|w]|]; try done. destruct (w <=? ck_now s)%N; [apply H2|done].
  - destruct e as [| | | |b [| | | | | | |]]; try apply H1; done.
  - destruct (may_be s (ck_now s + d)%N); [|done]. cbn. split; [done|]. split; [lia|done].
Qed.
Lemma clock_later cs1 cs2 : cs1 `prefix_of` cs2 ->
  ck_events (clock_run cs1) `prefix_of` ck_events (clock_run cs2) /\ (ck_now (clock_run cs1) <= ck_now (clock_run cs2))%N
  /\ (forall x, In x (ck_past (clock_run cs1)) -> In x (ck_past (clock_run cs2))).
Proof.
  intros H. apply (between_ind (fun cs => ck_events (clock_run cs1) `prefix_of` ck_events (clock_run cs) /\ (ck_now (clock_run cs1) <= ck_now (clock_run cs))%N
    /\ (forall x, In x (ck_past (clock_run cs1)) -> In x (ck_past (clock_run cs)))) cs1 cs2); [| |done|done].
  - split; [done|split; [lia|done]].
  - intros p e _ _ (I1 & I2 & I3). rewrite clock_snoc. destruct (clock_later_step (clock_run p) e) as (J1 & J2 & J3).
    split; [etrans; [exact I1|exact J1]|]. split; [lia|]. intros x Hx. by apply J3, I3.
Qed.

Lemma other_in n b h t : tasks_at n b !! h = Some t -> t_owner t = OOther -> In (b, h) (other_tasks n).
Proof.
  intros Ht Ho. destruct (task_here deser dec_users dec_topics valid n b h t Ht) as [tr Htr]. unfold ClockModel.other_tasks. apply in_flat_map.
  exists (b, tr). split; [by apply elem_of_list_In, elem_of_map_to_list|]. cbn [fst]. apply elem_of_list_In, elem_of_list_omap.
  exists (h, t). split; [by apply elem_of_map_to_list|]. cbn. by rewrite Ho.
Qed.
Lemma other_of n b h : In (b, h) (other_tasks n) -> exists t, tasks_at n b !! h = Some t /\ t_owner t = OOther.
Proof.
  unfold ClockModel.other_tasks. intros ([b' tr] & Hb & Hin)%in_flat_map. cbn [fst] in Hin. apply elem_of_list_In, elem_of_list_omap in Hin as ([h' t] & Ht & He).
  cbn in He. apply elem_of_map_to_list in Ht. destruct (t_owner t) eqn:Ho; try done. injection He as <- <-. by exists t.
Qed.
Lemma idle_acts n b h t : tasks_at n b !! h = Some t -> idle n b h = true <-> t_acts t = [].
Proof. intros Ht. unfold ClockModel.idle. rewrite Ht. by destruct t as [o [|? ?] op k]. Qed.
Lemma idle_later p q b h t : p `prefix_of` q -> tasks_at (n_run p) b !! h = Some t -> t_owner t = OOther -> idle (n_run p) b h = true -> idle (n_run q) b h = true.
Proof.
  intros Hpq Ht Ho Hi. pose proof (proj1 (idle_acts _ _ _ _ Ht) Hi) as Ha.
  assert (Hq : tasks_at (n_run q) b !! h = Some t).
  { apply (between_ind (fun r => tasks_at (n_run r) b !! h = Some t) p q); [done| |done|done]. intros r e _ _ Hr.
    destruct (step_at r e b) as [->|(ev & _ & ->)]; [done|]. by apply (finished_step deser dec_users dec_topics valid). }
  by apply (idle_acts _ _ _ _ Hq).
Qed.

(** What always holds. *)
Definition clock_ok (s : clock) : Prop :=
  (exists t, In (t, ck_events s) (ck_past s) /\ (t <= ck_now s)%N)
  /\ (forall t es, In (t, es) (ck_past s) -> es `prefix_of` ck_events s
        /\ ((ck_now s <= t + delay)%N \/ forall b h, In (b, h) (other_tasks (n_run es)) -> idle (n_run (ck_events s)) b h = true))
  /\ (forall b x, ck_sync s !! b = Some x -> match x with
        | Asleep w => (ck_now s <= w <= ck_now s + 10)%N
        | InRound h => exists t, tasks_at (n_run (ck_events s)) b !! h = Some t /\ t_owner t = OOther
        end).

Lemma round_begins p b h : tasks_at (n_run p) b !! h = None -> tasks_at (n_run (p ++ [NStep b (ESync h)])) b !! h = Some (Task OOther sync_round false 0).
Proof.
  intros Hn. rewrite n_run_snoc. cbn [n_step receives_nothing]. rewrite (broker_extend deser dec_users dec_topics valid), decide_True by done.
  cbn [TaskModel.m_step]. rewrite Hn. cbn. by rewrite lookup_insert.
Qed.

Lemma ok_happens s e sy : clock_ok s ->
  (forall b x, sy !! b = Some x -> match x with
        | Asleep w => (ck_now s <= w <= ck_now s + 10)%N
        | InRound h => exists t, tasks_at (n_run (ck_events s ++ [e])) b !! h = Some t /\ t_owner t = OOther
        end) -> clock_ok (happens s e sy).
Proof.
  intros (I1 & I2 & I3) Hsy. split; [|split].
  - exists (ck_now s). cbn. split; [|lia]. apply in_app_iff. right. by left.
  - cbn. intros t es [Hin|[[= <- <-]|[]]]%in_app_iff; [|split; [done|left; lia]]. destruct (I2 _ _ Hin) as [Hp [?|Hi]]; (split; [by apply prefix_app_r|]); [by left|right].
    intros b h Hbh. specialize (Hi b h Hbh). destruct (other_of _ _ _ Hbh) as (t0 & Ht0 & Ho0). destruct (task_later _ _ _ _ _ Hp Ht0) as (t1 & Ht1 & Ho1 & _).
    apply (idle_later (ck_events s) (ck_events s ++ [e]) b h t1); [by apply prefix_app_r|exact Ht1|congruence|done].
  - exact Hsy.
Qed.
Lemma ok_begins s b h : clock_ok s -> clock_ok (begins s b h).
Proof.
  intros Hok. unfold ClockModel.begins. destruct (tasks_at (n_run (ck_events s)) b !! h) eqn:E; [done|]. apply ok_happens; [done|]. destruct Hok as (_ & _ & I3).
  intros b' x [[<- <-]|[_ Hx]]%lookup_insert_Some; [eexists; split; [by apply round_begins|done]|]. specialize (I3 _ _ Hx). destruct x; [|done].
  destruct I3 as (t & Ht & Ho). destruct (task_later (ck_events s) (ck_events s ++ [NStep b (ESync h)]) b' h0 t) as (t1 & Ht1 & Ho1 & _); [by apply prefix_app_r|done|].
  exists t1. split; [done|congruence].
Qed.
Lemma ok_net s e : clock_ok s -> clock_ok (happens s e (ck_sync s)).
Proof.
  intros Hok. apply ok_happens; [done|]. destruct Hok as (_ & _ & I3). intros b' x Hx. specialize (I3 _ _ Hx). destruct x; [|done].
  destruct I3 as (t & Ht & Ho). destruct (task_later (ck_events s) (ck_events s ++ [e]) b' h t) as (t1 & Ht1 & Ho1 & _); [by apply prefix_app_r|done|].
  exists t1. split; [done|congruence].
Qed.
Lemma may_sync s now : may_be s now = true -> forall b x, ck_sync s !! b = Some x -> match x with Asleep w => (now <= w)%N | InRound h => idle (n_run (ck_events s)) b h = false end.
Proof.
  intros [H1 _]%andb_prop b x Hx. rewrite forallb_forall in H1. specialize (H1 (b, x)). cbn in H1. destruct x as [h|w].
  - apply negb_true_iff, H1. by apply elem_of_list_In, elem_of_map_to_list.
  - apply N.leb_le, H1. by apply elem_of_list_In, elem_of_map_to_list.
Qed.
Lemma may_past s now : may_be s now = true -> forall t es, In (t, es) (ck_past s) ->
  (now <= t + delay)%N \/ forall b h, In (b, h) (other_tasks (n_run es)) -> idle (n_run (ck_events s)) b h = true.
Proof.
  intros [_ H1]%andb_prop t es Hin. rewrite forallb_forall in H1. specialize (H1 _ Hin). cbn in H1. apply orb_prop in H1 as [H1|H1]; [left; by apply N.leb_le|right].
  intros b h Hbh. rewrite forallb_forall in H1. by specialize (H1 _ Hbh).
Qed.

Lemma clock_ok_run cs : clock_ok (clock_run cs).
Proof.
  induction cs as [|e cs IH] using rev_ind.
  { split; [exists 0%N; cbn; split; [by left|lia]|]. split; [|done]. cbn. intros t es [[= <- <-]|[]]. split; [done|left; lia]. }
  rewrite clock_snoc. set (s := clock_run cs) in *. clearbody s. destruct e as [b h|b|b h|e|d]; cbn [ClockModel.clock_step].
  - destruct (ck_sync s !! b); [done|by apply ok_begins].
  - destruct (ck_sync s !! b) as [[h|w]|]; try done. destruct (idle _ b h); [|done]. destruct IH as (I1 & I2 & I3). split; [done|]. split; [done|]. cbn.
    intros b' x [[<- <-]|[_ Hx]]%lookup_insert_Some; [lia|by apply I3].
  - destruct (ck_sync s !! b) as [[h'|w]|]; try done. destruct (w <=? ck_now s)%N; [by apply ok_begins|done].
  - destruct e as [| | | |b [| | | | | | |]]; try (by apply ok_net); done.
  - destruct (may_be s (ck_now s + d)%N) eqn:Hm; [|done]. destruct IH as ((t0 & I1 & I1') & I2 & I3). split; [|split]; cbn.
    + exists t0. split; [done|lia].
    + intros t es Hin. destruct (I2 _ _ Hin) as [Hp _]. split; [done|]. by apply (may_past s).
    + intros b x Hx. pose proof (may_sync _ _ Hm b x Hx) as Hs. specialize (I3 b x Hx). destruct x; [done|lia].
Qed.

(** What was begun by an earlier moment is finished [delay] later. *)
Lemma old_done cs1 cs2 b h t : cs1 `prefix_of` cs2 -> (ck_now (clock_run cs1) + delay < ck_now (clock_run cs2))%N ->
  tasks_at (n_run (ck_events (clock_run cs1))) b !! h = Some t -> t_owner t = OOther -> idle (n_run (ck_events (clock_run cs2))) b h = true.
Proof.
  intros H12 Hlt Ht Ho. destruct (clock_ok_run cs1) as ((t0 & I1 & I1') & _). destruct (clock_ok_run cs2) as (_ & I2 & _).
  destruct (clock_later _ _ H12) as (_ & _ & Hin). destruct (I2 _ _ (Hin _ I1)) as [_ [?|Hi]]; [lia|]. apply Hi. by eapply other_in.
Qed.

(** The moment just before the clock goes past [T]. *)
Lemma crossing cs1 cs2 T : cs1 `prefix_of` cs2 -> (ck_now (clock_run cs1) <= T)%N -> (T < ck_now (clock_run cs2))%N ->
  exists cs d, cs1 `prefix_of` cs /\ cs ++ [CTick d] `prefix_of` cs2 /\ (ck_now (clock_run cs) <= T < ck_now (clock_run cs) + d)%N
    /\ may_be (clock_run cs) (ck_now (clock_run cs) + d)%N = true.
Proof.
  intros H12 H1 H2.
  assert (HI : (ck_now (clock_run cs2) <= T)%N \/ exists cs d, cs1 `prefix_of` cs /\ cs ++ [CTick d] `prefix_of` cs2 /\ (ck_now (clock_run cs) <= T < ck_now (clock_run cs) + d)%N
    /\ may_be (clock_run cs) (ck_now (clock_run cs) + d)%N = true); [|destruct HI as [?|?]; [lia|done]].
  apply (between_ind (fun q => (ck_now (clock_run q) <= T)%N \/ exists cs d, cs1 `prefix_of` cs /\ cs ++ [CTick d] `prefix_of` cs2 /\ (ck_now (clock_run cs) <= T < ck_now (clock_run cs) + d)%N
    /\ may_be (clock_run cs) (ck_now (clock_run cs) + d)%N = true) cs1 cs2); [by left| |done|done].
  intros q e Hq Hqe [IH|IH]; [|by right]. rewrite clock_snoc.
  assert (Hsame : forall e', ck_now (clock_step (clock_run q) e') = ck_now (clock_run q) \/ exists d, e' = CTick d /\ may_be (clock_run q) (ck_now (clock_run q) + d)%N = true
    /\ ck_now (clock_step (clock_run q) e') = (ck_now (clock_run q) + d)%N).
  { intros e'. set (s := clock_run q) in *. clearbody s.
    assert (Hb : forall b h, ck_now (begins s b h) = ck_now s) by (intros b h; unfold ClockModel.begins; by destruct (tasks_at _ b !! h)).
    destruct e' as [b h|b|b h|e'|d]; cbn [ClockModel.clock_step].
    - left. destruct (ck_sync s !! b); [done|apply Hb].
    - left. destruct (ck_sync s !! b) as [[h|w]|]; try done. by destruct (idle _ b h).
    - left. destruct (ck_sync s !! b) as [[h'|w]|]; try done. destruct (w <=? ck_now s)%N; [apply Hb|done].
    - left. destruct e' as [| | | |b [| | | | | | |]]; done.
    - destruct (may_be s (ck_now s + d)%N) eqn:E; [right|by left]. exists d. done. }
  destruct (Hsame e) as [->|(d & -> & Hm & ->)]; [by left|]. destruct (decide (ck_now (clock_run q) + d <= T)%N); [by left|right].
  exists q, d. split; [done|]. split; [done|]. split; [lia|done].
Qed.

(** ** A round begins and ends in time *)
Section round.
Variables (b : bid) (cs1 : list cevent).
Notation s1 := (clock_run cs1).
Notation T := (ck_now s1).
Hypothesis Hrun : ck_sync s1 !! b <> None.
(** A round that began after [cs1] is over. *)
Definition round_over (cs : list cevent) : Prop := exists p h t,
  ck_events s1 `prefix_of` p /\ p ++ [NStep b (ESync h)] `prefix_of` ck_events (clock_run cs)
  /\ tasks_at (n_run p) b !! h = None /\ tasks_at (n_run (ck_events (clock_run cs))) b !! h = Some t /\ t_acts t = []
  /\ (ck_now (clock_run cs) <= T + 10 + 2 * delay)%N.
Definition stage (cs : list cevent) : Prop :=
  (exists cs', cs1 `prefix_of` cs' /\ cs' `prefix_of` cs /\ round_over cs')
  \/ (exists h t, ck_sync (clock_run cs) !! b = Some (InRound h) /\ tasks_at (n_run (ck_events s1)) b !! h = Some t /\ t_owner t = OOther /\ (ck_now (clock_run cs) <= T + delay)%N)
  \/ (exists w, ck_sync (clock_run cs) !! b = Some (Asleep w) /\ (w <= T + delay + 10)%N)
  \/ (exists h p t, ck_sync (clock_run cs) !! b = Some (InRound h) /\ ck_events s1 `prefix_of` p /\ p ++ [NStep b (ESync h)] `prefix_of` ck_events (clock_run cs)
      /\ tasks_at (n_run p) b !! h = None /\ In (t, p ++ [NStep b (ESync h)]) (ck_past (clock_run cs)) /\ (t <= T + delay + 10)%N /\ (ck_now (clock_run cs) <= T + 10 + 2 * delay)%N).

(** The sync task of [b] after one event. *)
Lemma sync_step s e : 
  (ck_sync (clock_step s e) !! b = ck_sync s !! b
     /\ (ck_now (clock_step s e) = ck_now s \/ may_be s (ck_now (clock_step s e)) = true))
  \/ (exists h, ck_sync s !! b = None /\ ck_sync (clock_step s e) !! b = Some (InRound h))
  \/ (exists h, ck_sync s !! b = Some (InRound h) /\ idle (n_run (ck_events s)) b h = true /\ ck_now (clock_step s e) = ck_now s
        /\ ck_sync (clock_step s e) !! b = Some (Asleep (ck_now s + 10)%N))
  \/ (exists w h, ck_sync s !! b = Some (Asleep w) /\ tasks_at (n_run (ck_events s)) b !! h = None
        /\ clock_step s e = happens s (NStep b (ESync h)) (<[b := InRound h]> (ck_sync s))).
Proof.
  destruct e as [b' h|b'|b' h|e|d]; cbn [ClockModel.clock_step].
  - destruct (ck_sync s !! b') as [x|] eqn:E; [left; split; [done|by left]|]. unfold ClockModel.begins.
    destruct (tasks_at (n_run (ck_events s)) b' !! h) eqn:Eh; [left; split; [done|by left]|]. cbn. destruct (decide (b' = b)) as [->|Hne].
    + right. left. exists h. by rewrite lookup_insert.
    + left. rewrite lookup_insert_ne by done. split; [done|by left].
  - destruct (ck_sync s !! b') as [[h|w]|] eqn:E; try (left; split; [done|by left]). destruct (idle (n_run (ck_events s)) b' h) eqn:Ei; [|left; split; [done|by left]].
    destruct (decide (b' = b)) as [->|Hne].
    + right. right. left. exists h. cbn. by rewrite lookup_insert.
    + left. cbn. rewrite lookup_insert_ne by done. split; [done|by left].
  - destruct (ck_sync s !! b') as [[h'|w]|] eqn:E; try (left; split; [done|by left]). destruct (w <=? ck_now s)%N; [|left; split; [done|by left]].
    unfold ClockModel.begins. destruct (tasks_at (n_run (ck_events s)) b' !! h) eqn:Eh; [left; split; [done|by left]|]. destruct (decide (b' = b)) as [->|Hne].
    + right. right. right. by exists w, h.
    + left. cbn. rewrite lookup_insert_ne by done. split; [done|by left].
  - left. destruct e as [| | | |b' [| | | | | | |]]; (split; [done|by left]).
  - left. destruct (may_be s (ck_now s + d)%N) eqn:Hm; [|split; [done|by left]]. cbn. split; [done|by right].
Qed.

Lemma stage_step cs e : cs1 `prefix_of` cs -> stage cs -> stage (cs ++ [e]).
Proof.
  intros Hcs Hst. destruct (clock_later _ _ Hcs) as (Hev & Hnow & Hpast).
  assert (Hl : cs `prefix_of` cs ++ [e]) by (by apply prefix_app_r).
  destruct (clock_later _ _ Hl) as (Hev' & Hnow' & Hpast').
  destruct Hst as [(cs' & H1 & H2 & H3)|Hst].
  { left. exists cs'. split; [done|]. split; [etrans; [exact H2|exact Hl]|done]. }
  destruct (clock_ok_run cs) as (_ & _ & I3). destruct (clock_ok_run cs1) as ((t1 & It1 & It1') & _).
  pose proof (sync_step (clock_run cs) e) as Hs. rewrite <- clock_snoc in Hs.
  destruct Hst as [(h & t & Hsy & Ht & Ho & Hn)|[(w & Hsy & Hw)|(h & p & t & Hsy & Hp1 & Hp2 & Hnone & Hin & Ht & Hn)]]; rewrite Hsy in Hs.
  - destruct Hs as [[Hs Hm]|[(h' & Hs & _)|[(h' & Hs & Hi & Hsame & Hs')|(w & h' & Hs & _)]]]; try done.
    + right. left. exists h, t. split; [done|]. split; [done|]. split; [done|]. destruct Hm as [->|Hm]; [done|].
      assert (Hni : idle (n_run (ck_events (clock_run cs))) b h = false) by exact (may_sync _ _ Hm b _ Hsy). destruct (may_past _ _ Hm _ _ (Hpast _ It1)) as [?|Hid]; [lia|].
      rewrite (Hid b h) in Hni; [done|]. by eapply other_in.
    + right. right. left. eexists. split; [exact Hs'|]. lia.
  - destruct Hs as [[Hs Hm]|[(h' & Hs & _)|[(h' & Hs & _)|(w' & h' & Hs & Hn & Heq)]]]; try done.
    + right. right. left. by exists w.
    + assert (Hb : (ck_now (clock_run cs) <= w <= ck_now (clock_run cs) + 10)%N) by exact (I3 _ _ Hsy). right. right. right. exists h', (ck_events (clock_run cs)), (ck_now (clock_run cs)). rewrite Heq. cbn [happens ck_sync ck_events ck_past ck_now].
      rewrite lookup_insert. split; [done|]. split; [done|]. split; [done|]. split; [done|]. split; [apply in_app_iff; right; by left|]. lia.
  - destruct Hs as [[Hs Hm]|[(h' & Hs & _)|[(h' & Hs & Hi & Hsame & Hs')|(w & h' & Hs & _)]]]; try done.
    + right. right. right. exists h, p, t. split; [done|]. split; [done|]. split; [etrans; [exact Hp2|exact Hev']|]. split; [done|].
      split; [by apply Hpast'|]. split; [done|]. destruct Hm as [->|Hm]; [done|].
      assert (Hni : idle (n_run (ck_events (clock_run cs))) b h = false) by exact (may_sync _ _ Hm b _ Hsy). destruct (may_past _ _ Hm _ _ Hin) as [?|Hid]; [lia|].
      rewrite (Hid b h) in Hni; [done|]. eapply other_in; [by apply round_begins|done].
    + injection Hs as <-. left. exists cs. split; [done|]. split; [done|]. exists p, h.
      destruct (I3 _ _ Hsy) as (th & Hth & _). exists th. repeat (split; [done|]). split; [by eapply idle_acts|lia].
Qed.

Lemma round_in_time cs2 : cs1 `prefix_of` cs2 -> (T + 10 + 2 * delay < ck_now (clock_run cs2))%N ->
  exists cs', cs1 `prefix_of` cs' /\ cs' `prefix_of` cs2 /\ round_over cs'.
Proof.
  intros H12 Hlt.
  assert (Hst : stage cs2).
  { apply (between_ind stage cs1 cs2); [| |done|done].
    - destruct (clock_ok_run cs1) as (_ & _ & I3). destruct (ck_sync s1 !! b) as [[h|w]|] eqn:E; [| |done].
      + destruct (I3 _ _ E) as (t & Ht & Ho). right. left. exists h, t. repeat (split; [done|]). lia.
      + pose proof (I3 _ _ E) as Hb. cbn in Hb. right. right. left. exists w. split; [done|lia].
    - intros p e Hp _. by apply stage_step. }
  destruct (clock_ok_run cs2) as (_ & _ & I3).
  destruct Hst as [?|[(h & t & _ & _ & _ & ?)|[(w & Hsy & ?)|(h & p & t & _ & _ & _ & _ & _ & _ & ?)]]]; [done|lia| |lia].
  pose proof (I3 _ _ Hsy) as Hb. cbn in Hb. lia.
Qed.
End round.

(** ** Telling *)
Lemma link_is_new p e a b h hh c : trace (n_run (p ++ [e])) b = trace (n_run p) b ++ [EBrokerAuthed h hh a c] -> ~ In (EBrokerAuthed h hh a c) (trace (n_run p) b).
Proof.
  intros Htr Hin.
  assert (Hc : c ∈ authed_conns (trace (n_run p) b)).
  { unfold authed_conns. apply elem_of_list_In, in_concat. eexists. split; [by apply in_map|]. by left. }
  assert (Hsame : forall (l : list event) x, l <> l ++ [x]) by (intros l x Hl; apply (f_equal length) in Hl; rewrite app_length in Hl; cbn in Hl; lia).
  rewrite n_run_snoc in Htr. destruct e as [b' h' hh' u c' ts|a' ha hha ca b' hb hhb cb|b' h' raw hk|a' c' hk|b' ev]; cbn [n_step] in Htr.
  - case_decide; [|by apply Hsame in Htr]. rewrite trace_extend in Htr. case_decide; [|by apply Hsame in Htr]. apply app_inj_tail in Htr as [_ ?]. done.
  - case_decide as Hd; [|by apply Hsame in Htr]. destruct Hd as (Hne & (_ & _ & _ & Hfa) & (_ & _ & _ & Hfb)).
    unfold trace in Htr at 1. cbn [n_trace] in Htr. fold (trace (extend (extend (n_run p) a' (EBrokerAuthed ha hha b' ca)) b' (EBrokerAuthed hb hhb a' cb)) b) in Htr.
    rewrite !trace_extend in Htr. repeat case_decide; subst; try done; try (by apply Hsame in Htr); apply app_inj_tail in Htr as [_ [=]]; by subst.
  - destruct (tasks_at (n_run p) b' !! h') as [[[] ? ? ?]|]; try (by apply Hsame in Htr). rewrite trace_extend in Htr. case_decide; [|by apply Hsame in Htr]. by apply app_inj_tail in Htr as [_ ?].
  - destruct (n_links (n_run p) !! (a', c')) as [[b' h']|]; [|by apply Hsame in Htr]. destruct (tasks_at (n_run p) b' !! h') as [t|]; [|by apply Hsame in Htr].
    destruct (sent_on _ c' !! t_frames t); [|by apply Hsame in Htr]. rewrite trace_extend in Htr. case_decide; [|by apply Hsame in Htr]. by apply app_inj_tail in Htr as [_ ?].
  - destruct (receives_nothing ev) eqn:Er; [|by apply Hsame in Htr]. rewrite trace_extend in Htr. case_decide; [|by apply Hsame in Htr]. apply app_inj_tail in Htr as [_ ->]. done.
Qed.

Lemma event_moment es b ev : In ev (trace (n_run es) b) -> exists p e, p ++ [e] `prefix_of` es /\ trace (n_run (p ++ [e])) b = trace (n_run p) b ++ [ev].
Proof.
  induction es as [|e es IH] using rev_ind; [done|]. intros Hin.
  assert (Hold : In ev (trace (n_run es) b) -> exists p e0, p ++ [e0] `prefix_of` es ++ [e] /\ trace (n_run (p ++ [e0])) b = trace (n_run p) b ++ [ev]).
  { intros H. destruct (IH H) as (p & e0 & Hp & Ht). exists p, e0. split; [by apply prefix_app_r|done]. }
  pose proof (trace_step deser dec_users dec_topics valid enc_users enc_topics (n_run es) e b) as Hs. rewrite <- n_run_snoc in Hs.
  destruct Hs as [Hs|[ev' Hs]]; [rewrite Hs in Hin; by apply Hold|]. rewrite Hs in Hin. apply in_app_iff in Hin as [Hin|[->|[]]]; [by apply Hold|].
  exists es, e. done.
Qed.
Lemma user_is_new p e b h hh v c ts : trace (n_run (p ++ [e])) b = trace (n_run p) b ++ [EUserAuthed h hh v c ts] ->
  e = NUser b h hh v c ts /\ fresh_pair deser dec_users dec_topics valid (n_run p) b h hh c.
Proof.
  intros Htr.
  assert (Hsame : forall (l : list event) x, l <> l ++ [x]) by (intros l x Hl; apply (f_equal length) in Hl; rewrite app_length in Hl; cbn in Hl; lia).
  rewrite n_run_snoc in Htr. destruct e as [b' h' hh' u c' ts'|a' ha hha ca b' hb hhb cb|b' h' raw hk|a' c' hk|b' ev]; cbn [n_step] in Htr.
  - case_decide as Hd; [|by apply Hsame in Htr]. rewrite trace_extend in Htr. case_decide; [|by apply Hsame in Htr]. subst b'. apply app_inj_tail in Htr as [_ [= -> -> -> -> ->]]. done.
  - case_decide as Hd; [|by apply Hsame in Htr].
    unfold trace in Htr at 1. cbn [n_trace] in Htr. fold (trace (extend (extend (n_run p) a' (EBrokerAuthed ha hha b' ca)) b' (EBrokerAuthed hb hhb a' cb)) b) in Htr.
    destruct Hd as (Hne & _). rewrite !trace_extend in Htr. repeat case_decide; subst; try done; try (by apply Hsame in Htr); by apply app_inj_tail in Htr as [_ [=]].
  - destruct (tasks_at (n_run p) b' !! h') as [[[] ? ? ?]|]; try (by apply Hsame in Htr). rewrite trace_extend in Htr. case_decide; [|by apply Hsame in Htr]. by apply app_inj_tail in Htr as [_ ?].
  - destruct (n_links (n_run p) !! (a', c')) as [[b' h']|]; [|by apply Hsame in Htr]. destruct (tasks_at (n_run p) b' !! h') as [t|]; [|by apply Hsame in Htr].
    destruct (sent_on _ c' !! t_frames t); [|by apply Hsame in Htr]. rewrite trace_extend in Htr. case_decide; [|by apply Hsame in Htr]. by apply app_inj_tail in Htr as [_ ?].
  - destruct (receives_nothing ev) eqn:Er; [|by apply Hsame in Htr]. rewrite trace_extend in Htr. case_decide; [|by apply Hsame in Htr]. apply app_inj_tail in Htr as [_ ->]. done.
Qed.

Section told.
Variables (a b : bid) (cs1 cs2 : list cevent).
Hypothesis H12 : cs1 `prefix_of` cs2.
Notation es1 := (ck_events (clock_run cs1)).
Notation es2 := (ck_events (clock_run cs2)).
Hypothesis Hlinks : forall h hh c, In (EBrokerAuthed h hh a c) (trace (n_run es2) b) -> In (EBrokerAuthed h hh a c) (trace (n_run es1) b).
Hypothesis Hends : forall h t, tasks_at (n_run es2) b !! h = Some t -> ~ In (ARemoveBroker a) (t_acts t).

(** Once the news is drawn up at [cs'], the tasks of that moment are the last to tell. *)
Lemma told_later (tells : act -> Prop) (K : conns -> Prop) cs' :
  (forall x, relays x -> tells x -> x = ARemoveBroker a) ->
  (forall ok s x s' nxt sends y, act_step ok s x = (s', nxt, sends) -> K s -> (tells x -> x = ARemoveBroker a) -> In y nxt -> tells y -> y = ARemoveBroker a) ->
  (forall e y, started valid e y -> (forall h hh c, e <> EBrokerAuthed h hh a c) -> tells y -> y = ARemoveBroker a) ->
  cs1 `prefix_of` cs' -> cs' `prefix_of` cs2 -> (ck_now (clock_run cs') + delay < ck_now (clock_run cs2))%N ->
  (forall p, ck_events (clock_run cs') `prefix_of` p -> p `prefix_of` es2 -> K (conns_at (n_run p) b)) ->
  forall h t x, tasks_at (n_run es2) b !! h = Some t -> In x (t_acts t) -> ~ tells x.
Proof.
  intros Hrel Hnext Hstart H1 H2 Hlt HK h t x Ht Hx Htl.
  destruct (clock_later _ _ H1) as (P1 & _). destruct (clock_later _ _ H2) as (P2 & _).
  destruct (quiet_after deser dec_users dec_topics valid enc_users enc_topics a b tells K Hrel Hnext Hstart (ck_events (clock_run cs')) es2 P2 HK) with (h := h) (t := t) (x := x) as [->|(t0 & Ht0 & Ho0)]; try done.
  - intros p e h' hh' c' Hp Hpe Htr. apply (link_is_new p e a b h' hh' c' Htr).
    assert (Hin : In (EBrokerAuthed h' hh' a c') (trace (n_run es2) b)).
    { destruct (trace_later _ _ b Hpe) as [l ->]. rewrite Htr. apply in_app_iff. left. apply in_app_iff. right. by left. }
    apply Hlinks in Hin. assert (Hp1 : es1 `prefix_of` p) by (etrans; [exact P1|exact Hp]). destruct (trace_later _ _ b Hp1) as [l ->]. apply in_app_iff. by left.
  - by apply (Hends h t).
  - pose proof (old_done _ _ b h t0 H2 Hlt Ht0 Ho0) as Hi. apply (idle_acts _ _ _ _ Ht) in Hi. by rewrite Hi in Hx.
Qed.

Lemma topic_in_time t : fine (n_run es2) -> ck_sync (clock_run cs1) !! b <> None ->
  (forall es, es1 `prefix_of` es -> es `prefix_of` es2 -> exists v, subscribed_at (n_run es) b v t) ->
  (ck_now (clock_run cs1) + 10 + 3 * delay < ck_now (clock_run cs2))%N -> topic_told (n_run es2) b a t.
Proof.
  intros Hf Hrun Hsub Hlt. destruct (round_in_time b cs1 Hrun cs2 H12) as (cs' & H1 & H2 & p & h & th & Hp1 & Hp2 & Hnone & Hth & Hnil & Hn'); [lia|].
  destruct (clock_later _ _ H1) as (P1 & _). destruct (clock_later _ _ H2) as (P2 & _).
  assert (Hp0 : es1 `prefix_of` p ++ [NStep b (ESync h)]) by (etrans; [exact Hp1|by apply prefix_app_r]).
  assert (Hnow : forall q, es1 `prefix_of` q -> q `prefix_of` es2 -> t ∈ topics_now (conns_at (n_run q) b)).
  { intros q Hq1 Hq2. apply subscribed_now. by apply Hsub. }
  assert (Hfq : forall q, q `prefix_of` es2 -> fine (n_run q)) by (intros q Hq; by eapply fine_before).
  assert (Hstep : forall q e, es1 `prefix_of` q -> q ++ [e] `prefix_of` es2 -> t ∈ previous_topics (conns_at (n_run q) b) -> t ∈ previous_topics (conns_at (n_run (q ++ [e])) b)).
  { intros q e Hq Hqe. apply topic_prev_step; [by apply Hfq|]. apply Hnow; [done|]. etrans; [|exact Hqe]. by apply prefix_app_r. }
  assert (HJ : t ∈ previous_topics (conns_at (n_run (ck_events (clock_run cs'))) b)).
  { apply (round_draws deser dec_users dec_topics valid enc_users enc_topics (fun s => t ∈ previous_topics s) APartialTopicSync CPartialTopicSync b p h _ th Hp2 Hnone Hth Hnil); [right; by left|done| |].
    - intros q e Hq Hqe. assert (Hq1 : es1 `prefix_of` q) by (etrans; [exact Hp0|exact Hq]).
      assert (Hq2 : q `prefix_of` es2) by (etrans; [|exact P2]; etrans; [|exact Hqe]; by apply prefix_app_r).
      cbn [c_step]. destruct (topic_state deser dec_users dec_topics valid b (trace (n_run q) b) (proj2 (Hfq q Hq2 b))) as (_ & Hmod & _).
      destruct (partial_topic_effect _ Hmod) as (E1 & _). change (m_run b (trace (n_run q) b)) with (broker_at (n_run q) b) in *. rewrite E1. by apply Hnow.
    - intros q e Hq Hqe. apply Hstep; [etrans; [exact Hp0|exact Hq]|etrans; [exact Hqe|exact P2]]. }
  assert (HK : forall q, ck_events (clock_run cs') `prefix_of` q -> q `prefix_of` es2 -> topic_quiet t (conns_at (n_run q) b)).
  { intros q Hq1 Hq2. apply (quiet_topic deser dec_users dec_topics valid enc_users enc_topics); [by apply Hfq|apply Hnow; [etrans; [exact P1|exact Hq1]|done]|].
    revert q Hq1 Hq2. apply (between_ind (fun q => t ∈ previous_topics (conns_at (n_run q) b))); [done|]. intros q e Hq Hqe. apply Hstep; [etrans; [exact P1|exact Hq]|done]. }
  split; [by apply HK|].
  apply (told_later (tells_topic a t) (topic_quiet t) cs'); try done; [apply relays_topic|apply next_topic|apply start_topic|lia].
Qed.

(** ** Arrivals *)
Section arrival.
Variables (v : ukey) (c h hh : N) (ts : list N).
Hypothesis Hadm : In (EUserAuthed h hh v c ts) (trace (n_run es1) b).
Hypothesis Hc2 : c_get_user_connection (conns_at (n_run es2) b) v = Some c.
Notation connected q := (c_get_user_connection (conns_at (n_run q) b) v = Some c).

(** The handler draws up the news after it has added the user. *)
Lemma handler_draws (J : conns -> Prop) (part : act) (cop : conn_op) :
  In part [APartialTopicSync; APartialUserSync] -> act_op part = Some cop ->
  (forall q e, q ++ [e] `prefix_of` es2 -> connected q -> J (c_step (conns_at (n_run q) b) cop)) ->
  (forall q e, q ++ [e] `prefix_of` es2 -> connected q -> connected (q ++ [e]) -> J (conns_at (n_run q) b) -> J (conns_at (n_run (q ++ [e])) b)) ->
  (ck_now (clock_run cs1) + delay < ck_now (clock_run cs2))%N ->
  exists cs', cs1 `prefix_of` cs' /\ cs' `prefix_of` cs2 /\ (ck_now (clock_run cs') <= ck_now (clock_run cs1) + delay)%N
    /\ connected (ck_events (clock_run cs')) /\ J (conns_at (n_run (ck_events (clock_run cs'))) b).
Proof.
  intros Hpart Hop HJp HJs Hlt. destruct (crossing cs1 cs2 (ck_now (clock_run cs1) + delay)%N H12) as (cs' & d & H1 & H2' & Hn & Hm); [lia|done|].
  assert (H2 : cs' `prefix_of` cs2) by (etrans; [|exact H2']; by apply prefix_app_r).
  destruct (clock_later _ _ H1) as (P1 & _ & Hpast). destruct (clock_later _ _ H2) as (P2 & _). destruct (clock_later _ _ H12) as (P12 & _).
  exists cs'. split; [done|]. split; [done|]. split; [lia|].
  destruct (event_moment es1 b _ Hadm) as (p & e & Hpe & Htr). destruct (user_is_new _ _ _ _ _ _ _ _ Htr) as [-> Hfr].
  set (p0 := p ++ [NUser b h hh v c ts]) in *.
  pose (Inv := fun q => exists t, tasks_at (n_run q) b !! hh = Some t /\ t_owner t = OOther
    /\ (t_acts t = user_connected valid v c ts h \/ connected q /\ (In part (t_acts t) \/ J (conns_at (n_run q) b)))).
  assert (HI : forall q, p0 `prefix_of` q -> q `prefix_of` es2 -> Inv q).
  { apply (between_ind Inv).
    - exists (Task OOther (user_connected valid v c ts h) false 0). split; [|split; [done|by left]]. unfold p0. rewrite n_run_snoc. cbn [n_step]. rewrite decide_True by done.
      rewrite (broker_extend deser dec_users dec_topics valid), decide_True by done. destruct Hfr as (Hne & F1 & F2 & _). cbn [TaskModel.m_step]. rewrite decide_True by done. cbn. by rewrite lookup_insert.
    - intros q e Hq Hqe (t & Ht & Ho & Hcase). assert (Hqs : q `prefix_of` es2) by (etrans; [|exact Hqe]; by apply prefix_app_r).
      assert (Hkeep : connected q -> connected (q ++ [e])).
      { intros Hcq. eapply (user_between deser dec_users dec_topics valid enc_users enc_topics q es2); [done|exact Hcq|exact Hc2|by apply prefix_app_r|done]. }
      destruct (step_at q e b) as [Heq|(ev & _ & Heq)].
      { exists t. rewrite Heq. split; [done|]. split; [done|]. done. }
      destruct (others_step deser dec_users dec_topics valid b (trace (n_run q) b) ev hh t Ht Ho) as [Hsame|(x & l & op & k & good & -> & ->)].
      + exists t. split; [by rewrite Heq|]. split; [done|]. destruct Hcase as [?|(Hcq & [Hin|HJ])]; [by left|right; split; [by apply Hkeep|by left]|].
        right. split; [by apply Hkeep|]. right. by apply HJs; [| |apply Hkeep|].
      + pose proof (m_step_run deser dec_users dec_topics valid (broker_at (n_run q) b) hh good OOther x l op k Ht) as Hconn.
        destruct (act_step (fun _ => good) (conns_at (n_run q) b) x) as [[s' nxt] sends] eqn:Ea.
        assert (Ht' : tasks_at (n_run (q ++ [e])) b !! hh = Some (Task OOther (nxt ++ l) op k)).
        { rewrite Heq, m_run_snoc. fold (broker_at (n_run q) b). cbn [TaskModel.m_step]. rewrite Ht, Ea. cbn. by rewrite lookup_insert. }
        assert (Hcs : conns_at (n_run (q ++ [e])) b = match act_op x with Some cop => c_step (conns_at (n_run q) b) cop | None => conns_at (n_run q) b end).
        { rewrite Heq, m_run_snoc. fold (broker_at (n_run q) b). exact Hconn. }
        eexists. split; [exact Ht'|]. split; [done|]. right. cbn [t_acts] in Hcase |- *. destruct Hcase as [Hacts|(Hcq & [Hin|HJ])].
        * unfold user_connected in Hacts. injection Hacts as -> ->. cbn in Ea. injection Ea as <- <- <-. split; [|by left].
          rewrite Hcs. cbn [act_op c_step]. unfold c_get_user_connection. by rewrite au_users, lookup_insert.
        * split; [by apply Hkeep|]. destruct Hin as [->|Hin]; [right|left; apply in_app_iff; by right]. rewrite Hcs, Hop. by apply (HJp q e).
        * split; [by apply Hkeep|]. right. by apply HJs; [| |apply Hkeep|]. }
  assert (Hp0 : p0 `prefix_of` ck_events (clock_run cs')) by (etrans; [exact Hpe|exact P1]).
  destruct (HI _ Hp0 P2) as (t & Ht & Ho & Hcase).
  destruct (HI es1 Hpe P12) as (t1 & Ht1 & Ho1 & _).
  destruct (clock_ok_run cs1) as ((t0 & It1 & It1') & _).
  assert (Hid : idle (n_run (ck_events (clock_run cs'))) b hh = true).
  { destruct (may_past _ _ Hm _ _ (Hpast _ It1)) as [?|Hid]; [lia|]. apply Hid. by eapply other_in. }
  apply (idle_acts _ _ _ _ Ht) in Hid. rewrite Hid in Hcase. destruct Hcase as [?|(Hcq & [Hin|HJ])]; [done|done|]. done.
Qed.

Lemma user_in_time : hooks_pass es2 -> fine (n_run es2) -> admitted_once (n_run es2) v ->
  (ck_now (clock_run cs1) + 2 * delay < ck_now (clock_run cs2))%N -> user_told (n_run es2) b a v.
Proof.
  intros Hh Hf Hone Hlt. pose proof (once_solo deser dec_users dec_topics valid enc_users enc_topics v b es2 Hone ltac:(eauto)) as Hs.
  assert (Hstep : forall q e, q ++ [e] `prefix_of` es2 -> connected q -> connected (q ++ [e]) -> v ∉ modified (direct (conns_at (n_run q) b)) -> v ∉ modified (direct (conns_at (n_run (q ++ [e])) b))).
  { intros q e Hqe Hcq Hcq' Hm. assert (Hqs : q `prefix_of` es2) by (etrans; [|exact Hqe]; by apply prefix_app_r).
    apply (user_mod_step deser dec_users dec_topics valid enc_users enc_topics Hcodec q e b v c); [by eapply hooks_before|by eapply fine_before| |exact Hcq|exact Hcq'|exact Hm].
    by eapply solo_before. }
  destruct (handler_draws (fun s => v ∉ modified (direct s)) APartialUserSync CPartialUserSync) as (cs' & H1 & H2 & Hn & Hcc & HJ); [right; by left|done| |done|lia|].
  { intros q e _ _. cbn [c_step]. unfold c_get_partial_user_sync. pose proof (diff_rest_modified (direct (conns_at (n_run q) b))) as Hl.
    destruct (vm_diff (direct (conns_at (n_run q) b))) as [d0 m0]. cbn in Hl |- *. rewrite Hl. apply not_elem_of_empty. }
  destruct (clock_later _ _ H2) as (P2 & _).
  pose proof (user_between deser dec_users dec_topics valid enc_users enc_topics _ _ _ _ _ P2 Hcc Hc2) as Hcon.
  assert (HK : forall q, ck_events (clock_run cs') `prefix_of` q -> q `prefix_of` es2 -> user_quiet v (conns_at (n_run q) b)).
  { intros q Hq1 Hq2. apply quiet_user. revert q Hq1 Hq2. apply (between_ind (fun q => v ∉ modified (direct (conns_at (n_run q) b)))); [done|]. intros q e Hq Hqe.
    apply Hstep; [done|apply Hcon; [done|etrans; [|exact Hqe]; by apply prefix_app_r]|apply Hcon; [etrans; [exact Hq|by apply prefix_app_r]|done]]. }
  split; [by apply HK|].
  apply (told_later (tells_user a v) (user_quiet v) cs'); try done; [apply relays_user|apply next_user|apply start_user|lia].
Qed.

Lemma first_topic_in_time t : fine (n_run es2) ->
  (forall es, es `prefix_of` es2 -> connected es -> subscribed_at (n_run es) b v t) ->
  (ck_now (clock_run cs1) + 2 * delay < ck_now (clock_run cs2))%N -> topic_told (n_run es2) b a t.
Proof.
  intros Hf Hsub Hlt.
  assert (Hnow : forall q, q `prefix_of` es2 -> connected q -> t ∈ topics_now (conns_at (n_run q) b)).
  { intros q Hq1 Hq2. apply subscribed_now. exists v. by apply Hsub. }
  assert (Hfq : forall q, q `prefix_of` es2 -> fine (n_run q)) by (intros q Hq; by eapply fine_before).
  assert (Hstep : forall q e, q ++ [e] `prefix_of` es2 -> connected q -> connected (q ++ [e]) -> t ∈ previous_topics (conns_at (n_run q) b) -> t ∈ previous_topics (conns_at (n_run (q ++ [e])) b)).
  { intros q e Hqe Hcq _. apply topic_prev_step; [by apply Hfq|]. apply Hnow; [|done]. etrans; [|exact Hqe]. by apply prefix_app_r. }
  destruct (handler_draws (fun s => t ∈ previous_topics s) APartialTopicSync CPartialTopicSync) as (cs' & H1 & H2 & Hn & Hcc & HJ); [by left|done| |done|lia|].
  { intros q e Hqe Hcq. assert (Hq2 : q `prefix_of` es2) by (etrans; [|exact Hqe]; by apply prefix_app_r).
    cbn [c_step]. destruct (topic_state deser dec_users dec_topics valid b (trace (n_run q) b) (proj2 (Hfq q Hq2 b))) as (_ & Hmod & _).
    destruct (partial_topic_effect _ Hmod) as (E1 & _). change (m_run b (trace (n_run q) b)) with (broker_at (n_run q) b) in *. rewrite E1. by apply Hnow. }
  destruct (clock_later _ _ H2) as (P2 & _).
  pose proof (user_between deser dec_users dec_topics valid enc_users enc_topics _ _ _ _ _ P2 Hcc Hc2) as Hcon.
  assert (HK : forall q, ck_events (clock_run cs') `prefix_of` q -> q `prefix_of` es2 -> topic_quiet t (conns_at (n_run q) b)).
  { intros q Hq1 Hq2. apply (quiet_topic deser dec_users dec_topics valid enc_users enc_topics); [by apply Hfq|by apply Hnow, Hcon|].
    revert q Hq1 Hq2. apply (between_ind (fun q => t ∈ previous_topics (conns_at (n_run q) b))); [done|]. intros q e Hq Hqe.
    apply Hstep; [done|apply Hcon; [done|etrans; [|exact Hqe]; by apply prefix_app_r]|apply Hcon; [etrans; [exact Hq|by apply prefix_app_r]|done]]. }
  split; [by apply HK|].
  apply (told_later (tells_topic a t) (topic_quiet t) cs'); try done; [apply relays_topic|apply next_topic|apply start_topic|lia].
Qed.
End arrival.
End told.
End clock.
