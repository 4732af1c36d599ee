(** From any state, brokers that finish what they have begun and receive what is on their
    links come to rest; from rest, every broker can go through a round of synchronisation. *)
From stdpp Require Import gmap fin_maps fin_sets list.
From Coq Require Import NArith ZArith Lia.
From Verif Require Import IdModel VMapModel ConnModel TopicModel MsgModel RouteModel TaskModel TaskProofs TaskOrder TaskHandles TaskSync
  NetModel NetProofs NetOrigin NetDelivery NetComplete NetSynced NetSettle NetSettleDir NetSettleAll NetRounds ConnProofs3.

(** ** Actions come to an end *)
Definition rank (a : act) : nat :=
  match a with
  | ASendUser _ _ _ | ASendBroker _ _ _ => 1
  | ALookupUser _ _ | ALookupBroker _ _ => 2
  | ADirect _ _ _ | ABroadcast _ _ _ | ASendBrokers _ | AFullTopicSync _ | AFullUserSync _ => 3
  | APartialTopicSync | APartialUserSync => 4
  | _ => 0
  end.
Lemma rank_step s a s' nxt sends : act_step (fun _ => true) s a = (s', nxt, sends) -> Forall (fun x => rank x < rank a) nxt.
Proof.
  intros Heq. destruct a; cbn [act_step] in Heq; try (by injection Heq as _ <- _; constructor).
  - injection Heq as _ <- _. unfold direct_next. destruct (c_get_broker_identifier_of_user s recipient); [|constructor]. case_decide; [|destruct to_user_only]; repeat constructor.
  - injection Heq as _ <- _. unfold broadcast_next. destruct (c_get_interested_by_topic s topics to_users_only) as [bs us].
    apply Forall_app. split; apply Forall_map, Forall_true; intros; cbn; lia.
  - injection Heq as _ <- _. destruct (c_get_user_connection s u); repeat constructor.
  - injection Heq as _ <- _. destruct (c_get_broker_connection s b); repeat constructor.
  - injection Heq as _ <- _. apply Forall_map, Forall_true. intros; cbn; lia.
  - injection Heq as _ <- _. destruct (c_get_full_topic_sync s); repeat constructor.
  - injection Heq as _ <- _. destruct (c_get_full_user_sync s); repeat constructor.
  - destruct (c_get_partial_topic_sync s) as [s1 [m|]]; injection Heq as _ <- _; repeat constructor.
  - destruct (c_get_partial_user_sync s) as [s1 [m|]]; injection Heq as _ <- _; repeat constructor.
Qed.

(** What a broker does with a frame from another broker concerns its own users only. *)
Definition inward (a : act) : Prop :=
  match a with
  | ADirect _ _ only | ABroadcast _ _ only => only = true
  | ALookupUser _ _ | ASendUser _ _ _ | ARemoveUser _ | ARemoveBroker _ | AApplyUserSync _ | AApplyTopicSync _ _ => True
  | _ => False
  end.
Definition to_user (e : emission) : Prop := exists v, e_to e = inl v.
Lemma inward_step s a s' nxt sends :
  inward a -> act_step (fun _ => true) s a = (s', nxt, sends) -> Forall inward nxt /\ Forall to_user sends.
Proof.
  intros Hi Heq. destruct a; cbn in Hi; try done; cbn [act_step] in Heq; try (by injection Heq as _ <- <-; split; constructor).
  - subst. injection Heq as _ <- <-. split; [|constructor]. unfold direct_next. destruct (c_get_broker_identifier_of_user s recipient); [|constructor]. case_decide; by repeat constructor.
  - subst. injection Heq as _ <- <-. split; [|constructor]. unfold broadcast_next.
    assert (Hb : (c_get_interested_by_topic s topics true).1 = []).
    { unfold c_get_interested_by_topic. cbn [fst]. rewrite fold_const. by rewrite elements_empty. }
    destruct (c_get_interested_by_topic s topics true) as [bs us]. cbn in Hb. subst bs. cbn. by apply Forall_map, Forall_true.
  - injection Heq as _ <- <-. split; [|constructor]. destruct (c_get_user_connection s u); by repeat constructor.
  - injection Heq as _ <- <-. split; [constructor|]. constructor; [|constructor]. by eexists.
Qed.

Section net.
Variable deser : bytes -> option message.
Variable dec_users : bytes -> option direct_map.
Variable dec_topics : bytes -> option topic_map.
Variable valid : N -> bool.
Variable enc_users : direct_map -> bytes.
Variable enc_topics : topic_map -> bytes.
Notation m_step := (m_step deser dec_users dec_topics valid).
Notation m_run := (m_run deser dec_users dec_topics valid).
Notation m_run_snoc := (m_run_snoc deser dec_users dec_topics valid).
Notation loop_frame := (loop_frame deser dec_users dec_topics valid).
Notation broker_frame := (broker_frame deser dec_users dec_topics).
Notation broker_at := (broker_at deser dec_users dec_topics valid).
Notation n_step := (n_step deser dec_users dec_topics valid enc_users enc_topics).
Notation n_run := (n_run deser dec_users dec_topics valid enc_users enc_topics).
Notation n_run_snoc := (n_run_snoc deser dec_users dec_topics valid enc_users enc_topics).
Notation wire := (wire enc_users enc_topics).
Notation inv_run := (inv_run deser dec_users dec_topics valid enc_users enc_topics).
Notation loop_of := (loop_of deser dec_users dec_topics valid).
Notation conns_at n b := (m_conns (broker_at n b)).
Notation tasks_at n b := (m_tasks (broker_at n b)).
Notation sent_at n b := (m_sent (broker_at n b)).
Notation at_rest := (at_rest deser dec_users dec_topics valid).
Notation sync_starts := (sync_starts deser dec_users dec_topics valid enc_users enc_topics).
Notation prompt := (prompt deser dec_users dec_topics valid).
Notation extend_self := (extend_self deser dec_users dec_topics valid).
Notation extend_other := (extend_other deser dec_users dec_topics valid).

Lemma broker_frame_inward b raw : Forall inward (broker_frame b raw no_hook).1.
Proof.
  unfold RouteModel.broker_frame, no_hook. destruct (deser raw) as [m|]; [|by repeat constructor]. destruct m; try (by repeat constructor).
  - destruct (dec_users payload); by repeat constructor.
  - destruct (dec_topics payload); by repeat constructor.
Qed.

(** ** Loops start only after registration *)
Definition all_prompt (n : net) : Prop := forall b, prompt b (trace n b).
Lemma prompt_snoc i es e :
  prompt i es -> (forall h, (exists raw hk, e = EFrame h raw hk) \/ e = ERecvErr h -> ~ unregistered (m_run i es) h) -> prompt i (es ++ [e]).
Proof.
  intros Hp He es1 e' es2 h Heq Hh. destruct (rev_case es2) as [->|(es3 & x & ->)].
  - apply app_inj_tail in Heq as [<- <-]. by apply He.
  - rewrite app_comm_cons, app_assoc in Heq. apply app_inj_tail in Heq as [-> _]. by apply (Hp es1 e' es3 h).
Qed.
Lemma prompt_extend n b e :
  all_prompt n -> (forall h, (exists raw hk, e = EFrame h raw hk) \/ e = ERecvErr h -> ~ unregistered (broker_at n b) h) -> all_prompt (extend n b e).
Proof.
  intros Hp He b'. rewrite trace_extend. case_decide; [subst b'|done]. by apply prompt_snoc.
Qed.
Lemma prompt_run n b h : all_prompt n -> all_prompt (extend n b (ERun h true)).
Proof. intros Hp. apply prompt_extend; [done|]. intros h' [(? & ? & ?)|?]; done. Qed.

(** ** One task finishes *)
Section drain.
Variable P : act -> Prop.
Variable Q : emission -> Prop.
Hypothesis HPQ : forall s a s' nxt sends, P a -> act_step (fun _ => true) s a = (s', nxt, sends) -> Forall P nxt /\ Forall Q sends.

(** Runs of one task leave everything else of the network as it is. *)
Definition drained (n n' : net) (b : bid) (h : N) (t : task) (rest : list act) : Prop :=
  tasks_at n' b !! h = Some (Task (t_owner t) rest (t_open t) (t_frames t))
  /\ (forall h2, h2 <> h -> tasks_at n' b !! h2 = tasks_at n b !! h2)
  /\ (forall d, d <> b -> broker_at n' d = broker_at n d)
  /\ n_links n' = n_links n
  /\ (exists l, sent_at n' b = sent_at n b ++ map (Sent h (t_frames t)) l /\ Forall Q l)
  /\ (all_prompt n -> all_prompt n')
  /\ (forall d, is_Some (n_trace n' !! d) <-> is_Some (n_trace n !! d)).

Lemma task_here n b h t : tasks_at n b !! h = Some t -> is_Some (n_trace n !! b).
Proof.
  intros Ht. destruct (n_trace n !! b) eqn:E; [by eexists|]. unfold NetModel.broker_at, trace in Ht. rewrite E in Ht. cbn in Ht. by rewrite lookup_empty in Ht.
Qed.

Lemma drain_prefix k : forall es b h t pre rest,
  tasks_at (n_run es) b !! h = Some t -> t_acts t = pre ++ rest -> Forall P pre -> Forall (fun a => rank a < k) pre ->
  exists es2, Forall calm es2 /\ drained (n_run es) (n_run (es ++ es2)) b h t rest.
Proof.
  induction k as [|k IHk]; intros es b h t pre rest Ht Ha HP Hr.
  { destruct pre as [|a pre]; [|apply Forall_cons in Hr as [Hr _]; lia].
    exists []. rewrite app_nil_r. split; [constructor|]. split_and!; try done.
    - rewrite Ht. destruct t; cbn in *; by subst.
    - exists []. cbn. by rewrite app_nil_r. }
  revert es t Ht Ha HP Hr. induction pre as [|a pre IHp]; intros es t Ht Ha HP Hr.
  { exists []. rewrite app_nil_r. split; [constructor|]. split_and!; try done.
    - rewrite Ht. destruct t; cbn in *; by subst.
    - exists []. cbn. by rewrite app_nil_r. }
  apply Forall_cons in HP as [HPa HP], Hr as [Hra Hr].
  destruct (act_step (fun _ => true) (conns_at (n_run es) b) a) as [[s' nxt] sends] eqn:Hst.
  destruct (HPQ _ _ _ _ _ HPa Hst) as [HPn HQs]. pose proof (rank_step _ _ _ _ _ Hst) as Hrn.
  set (e := NStep b (ERun h true)).
  assert (Hn : n_run (es ++ [e]) = extend (n_run es) b (ERun h true)) by (by rewrite n_run_snoc).
  set (t1 := Task (t_owner t) (nxt ++ pre ++ rest) (t_open t) (t_frames t)).
  assert (Hm : broker_at (n_run (es ++ [e])) b = Machine s' (<[h := t1]> (tasks_at (n_run es) b))
        (sent_at (n_run es) b ++ map (Sent h (t_frames t)) sends) (m_rcvd (broker_at (n_run es) b))).
  { rewrite Hn, extend_self. cbn [TaskModel.m_step]. rewrite Ht. destruct t as [o l op fr]. cbn in Ha. subst l. cbn [app]. by rewrite Hst. }
  destruct (IHk (es ++ [e]) b h t1 nxt (pre ++ rest)) as (es2 & Hc2 & A1 & A2 & A3 & A4 & (l2 & A5 & A5') & A6 & A7); [|done|done| |].
  { rewrite Hm. cbn [m_tasks]. by rewrite lookup_insert. }
  { eapply Forall_impl; [exact Hrn|]. cbn. intros; lia. }
  destruct (IHp ((es ++ [e]) ++ es2) (Task (t_owner t) (pre ++ rest) (t_open t) (t_frames t))) as (es3 & Hc3 & B1 & B2 & B3 & B4 & (l3 & B5 & B5') & B6 & B7);
    [exact A1|done|done|done|]. cbn [t_owner t_open t_frames t1] in *.
  exists (e :: es2 ++ es3). replace (es ++ e :: es2 ++ es3) with (((es ++ [e]) ++ es2) ++ es3) by (by rewrite <- !app_assoc).
  split; [constructor; [done|by apply Forall_app]|]. split_and!.
  - done.
  - intros h2 Hne. rewrite B2, A2, Hm by done. cbn [m_tasks]. by rewrite lookup_insert_ne.
  - intros d Hd. rewrite B3, A3, Hn by done. by rewrite extend_other.
  - rewrite B4, A4, Hn. done.
  - exists (sends ++ l2 ++ l3). split; [|by repeat (apply Forall_app; split)]. rewrite B5, A5, Hm. cbn [m_sent]. by rewrite !map_app, <- !app_assoc.
  - intros Hp. apply B6, A6. rewrite Hn. by apply prompt_run.
  - intros d. rewrite B7, A7, Hn. cbn. destruct (decide (d = b)) as [->|Hd]; [rewrite lookup_insert|by rewrite lookup_insert_ne]. split; [|eauto]. intros _. by eapply task_here.
Qed.

Lemma drain_task es b h t :
  tasks_at (n_run es) b !! h = Some t -> Forall P (t_acts t) -> exists es2, Forall calm es2 /\ drained (n_run es) (n_run (es ++ es2)) b h t [].
Proof.
  intros Ht HP. apply (drain_prefix 5 es b h t (t_acts t) []); [done|by rewrite app_nil_r|done|]. apply Forall_true. intros a. destruct a; cbn; lia.
Qed.
End drain.

(** ** All tasks finish *)
Definition idle (n : net) (b : bid) (h : N) : Prop := forall t, tasks_at n b !! h = Some t -> t_acts t = [].
Definition link_read (n : net) (d : bid) (c : N) : Prop :=
  forall b h t, n_links n !! (d, c) = Some (b, h) -> tasks_at n b !! h = Some t -> t_open t = true -> t_frames t = length (sent_on (broker_at n d) c).

(** What every stage keeps. *)
Definition onward (n n' : net) : Prop :=
  n_links n' = n_links n /\ (all_prompt n -> all_prompt n')
  /\ (forall d, is_Some (n_trace n' !! d) <-> is_Some (n_trace n !! d))
  /\ (forall b h, tasks_at n b !! h = None -> tasks_at n' b !! h = None).
Lemma onward_refl n : onward n n.
Proof. by split_and!. Qed.
Lemma onward_trans n1 n2 n3 : onward n1 n2 -> onward n2 n3 -> onward n1 n3.
Proof.
  intros (A1 & A2 & A3 & A4) (B1 & B2 & B3 & B4). split_and!; [by rewrite B1|auto| |auto]. intros d. by rewrite B3, A3.
Qed.
Lemma drained_onward Q n n' b h t rest : tasks_at n b !! h = Some t -> drained Q n n' b h t rest -> onward n n'.
Proof.
  intros Ht (A1 & A2 & A3 & A4 & _ & A6 & A7). split_and!; try done. intros b' h' Hn.
  destruct (decide (b' = b)) as [->|Hb]; [|by rewrite A3]. destruct (decide (h' = h)) as [->|Hh]; [congruence|by rewrite A2].
Qed.

Lemma drain_list (l : list (bid * N)) es : exists es2, Forall calm es2
  /\ (forall b h, (b, h) ∈ l -> idle (n_run (es ++ es2)) b h) /\ (forall b h, idle (n_run es) b h -> idle (n_run (es ++ es2)) b h)
  /\ onward (n_run es) (n_run (es ++ es2)).
Proof.
  induction l as [|[b h] l (es2 & Hc2 & Hl2 & Hk2 & Ho2)].
  { exists []. rewrite app_nil_r. split; [constructor|]. split; [intros b h Hb; by apply elem_of_nil in Hb|]. split; [done|apply onward_refl]. }
  destruct (tasks_at (n_run (es ++ es2)) b !! h) as [t|] eqn:Et.
  - destruct (drain_task (fun _ => True) (fun _ => True)) with (es := es ++ es2) (b := b) (h := h) (t := t) as (es3 & Hc3 & Hd3).
    { intros s a s' nxt sends _ _. split; by apply Forall_true. } { done. } { by apply Forall_true. }
    pose proof (drained_onward _ _ _ _ _ _ _ Et Hd3) as Ho3. destruct Hd3 as (Ht3 & Hs3 & Hx3 & _).
    rewrite <- app_assoc in Ht3, Hs3, Hx3, Ho3.
    assert (Hkeep : forall b' h', idle (n_run (es ++ es2)) b' h' \/ (b' = b /\ h' = h) -> idle (n_run (es ++ es2 ++ es3)) b' h').
    { intros b' h' Hi t' Ht'. destruct (decide (b' = b)) as [->|Hb].
      - destruct (decide (h' = h)) as [->|Hh]; [rewrite Ht3 in Ht'; by injection Ht' as <-|].
        rewrite Hs3 in Ht' by done. destruct Hi as [Hi|[_ ?]]; [by apply Hi|done].
      - rewrite Hx3 in Ht' by done. destruct Hi as [Hi|[? _]]; [by apply Hi|done]. }
    exists (es2 ++ es3). split; [by apply Forall_app|]. split; [|split; [|by eapply onward_trans]].
    + intros b' h' Hin. apply elem_of_cons in Hin as [[= -> ->]|Hin]; apply Hkeep; [by right|]. left. by apply Hl2.
    + intros b' h' Hi. apply Hkeep. left. by apply Hk2.
  - exists es2. split; [done|]. split; [|by split]. intros b' h' Hin. apply elem_of_cons in Hin as [[= -> ->]|Hin]; [|by apply Hl2].
    intros t Ht. congruence.
Qed.

Lemma drain_all es : exists es2, Forall calm es2 /\ (forall b h, idle (n_run (es ++ es2)) b h) /\ onward (n_run es) (n_run (es ++ es2)).
Proof.
  set (l := concat (map (fun p => map (fun q => (p.1, q.1)) (map_to_list (tasks_at (n_run es) p.1))) (map_to_list (n_trace (n_run es))))).
  destruct (drain_list l es) as (es2 & Hc2 & Hl2 & _ & Ho2). exists es2. split; [done|]. split; [|done]. intros b h.
  destruct (decide ((b, h) ∈ l)) as [Hin|Hni]; [by apply Hl2|]. intros t Ht. exfalso. apply Hni.
  destruct (tasks_at (n_run es) b !! h) as [t0|] eqn:E0; [|apply Ho2 in E0; congruence].
  unfold l. apply elem_of_list_In, in_concat. exists (map (fun q => (b, q.1)) (map_to_list (tasks_at (n_run es) b))). split.
  - apply in_map_iff. destruct (task_here _ _ _ _ E0) as [tr Etr]. exists (b, tr). split; [done|]. by apply elem_of_list_In, elem_of_map_to_list.
  - apply in_map_iff. exists (h, t0). split; [done|]. by apply elem_of_list_In, elem_of_map_to_list.
Qed.

(** ** Links are read to their end *)
Lemma frames_rcvd i es h t : m_tasks (m_run i es) !! h = Some t -> t_frames t = 0 \/ exists raw hk, In (Rcvd h (t_frames t) raw hk) (m_rcvd (m_run i es)).
Proof.
  revert h t. induction es as [|e es IH] using rev_ind; intros h t Ht; [cbn in Ht; by rewrite lookup_empty in Ht|].
  rewrite m_run_snoc in *. set (m := m_run i es) in *.
  destruct e as [h1 hh u c ts|h1 hh b c|hh|hh u|h1 raw hk|h1|h1 good|h1]; cbn [TaskModel.m_step] in *.
  - case_decide; [|by apply IH]. cbn in *. rewrite !lookup_insert_Some in Ht. destruct Ht as [[-> <-]|[_ [[-> <-]|[_ Ht]]]]; [by left|by left|by apply IH].
  - case_decide; [|by apply IH]. cbn in *. rewrite !lookup_insert_Some in Ht. destruct Ht as [[-> <-]|[_ [[-> <-]|[_ Ht]]]]; [by left|by left|by apply IH].
  - destruct (m_tasks m !! hh); [by apply IH|]. cbn in *. rewrite lookup_insert_Some in Ht. destruct Ht as [[-> <-]|[_ Ht]]; [by left|by apply IH].
  - destruct (m_tasks m !! hh); [by apply IH|]. cbn in *. rewrite lookup_insert_Some in Ht. destruct Ht as [[-> <-]|[_ Ht]]; [by left|by apply IH].
  - destruct (m_tasks m !! h1) as [[o [|? ?] [|] n]|] eqn:E; try by apply IH. destruct (loop_frame o raw hk) as [acts go]. cbn in *.
    rewrite lookup_insert_Some in Ht. destruct Ht as [[-> <-]|[_ Ht]].
    + right. exists raw, hk. apply in_app_iff. right. by left.
    + destruct (IH _ _ Ht) as [?|(r' & k' & Hin)]; [by left|]. right. exists r', k'. apply in_app_iff. by left.
  - destruct (m_tasks m !! h1) as [[o [|? ?] [|] n]|] eqn:E; try by apply IH. cbn in *.
    rewrite lookup_insert_Some in Ht. destruct Ht as [[-> <-]|[_ Ht]]; [exact (IH _ _ E)|by apply IH].
  - destruct (m_tasks m !! h1) as [[o [|a l] op n]|] eqn:E; try by apply IH.
    destruct (act_step (fun _ => good) (m_conns m) a) as [[s' nxt] sends]. cbn in *.
    rewrite lookup_insert_Some in Ht. destruct Ht as [[-> <-]|[_ Ht]]; [exact (IH _ _ E)|by apply IH].
  - destruct (m_tasks m !! h1) as [[o l op n]|] eqn:E; [|by apply IH]. case_decide; [|by apply IH]. cbn in *.
    rewrite lookup_insert_Some in Ht. destruct Ht as [[-> <-]|[_ Ht]]; [exact (IH _ _ E)|by apply IH].
Qed.

Lemma frames_sent es d c b h t : n_links (n_run es) !! (d, c) = Some (b, h) -> tasks_at (n_run es) b !! h = Some t ->
  t_frames t <= length (sent_on (broker_at (n_run es) d) c).
Proof.
  intros El Et. destruct (frames_rcvd _ _ _ _ Et) as [H0|(raw & hk & Hr)]; [lia|].
  destruct (inv_run es) as (I0 & I2 & I3 & _). destruct (I0 _ _ _ _ El) as (_ & _ & cb & Hlo).
  destruct (I3 b _ d cb Hr Hlo) as (a1 & c1 & y & Hl1 & Hy & _). cbn [r_task r_frame] in Hl1, Hy.
  destruct (I2 _ _ _ _ _ _ El Hl1) as [<- <-]. apply lookup_lt_Some in Hy. lia.
Qed.

Lemma link_quiet es b h k (l : list emission) c d hd s : Forall to_user l ->
  n_links (n_run es) !! (b, c) = Some (d, hd) -> sent_at (n_run es) b = s ++ map (Sent h k) l ->
  sent_on (broker_at (n_run es) b) c = filter (fun x => e_conn (s_what x) = c) s.
Proof.
  intros Hu El Hs. unfold sent_on. rewrite Hs, filter_app, (filter_none _ (map (Sent h k) l)); [by rewrite app_nil_r|].
  intros x Hc Hin. apply elem_of_list_In in Hin.
  assert (Hx : In x (sent_at (n_run es) b)) by (rewrite Hs; apply in_app_iff; by right).
  pose proof (link_target deser dec_users dec_topics valid enc_users enc_topics _ _ _ _ _ _ El Hx Hc) as Hto.
  apply in_map_iff in Hin as (e & <- & He). destruct (proj1 (List.Forall_forall _ _) Hu _ He) as [v Hv]. cbn in Hto. congruence.
Qed.

Lemma read_link d c es : (forall b h, idle (n_run es) b h) ->
  exists es2, Forall calm es2 /\ (forall b h, idle (n_run (es ++ es2)) b h) /\ link_read (n_run (es ++ es2)) d c
    /\ (forall d' c', link_read (n_run es) d' c' -> link_read (n_run (es ++ es2)) d' c') /\ onward (n_run es) (n_run (es ++ es2)).
Proof.
  intros Hidle.
  assert (Hnil : link_read (n_run es) d c -> exists es2, Forall calm es2 /\ (forall b h, idle (n_run (es ++ es2)) b h) /\ link_read (n_run (es ++ es2)) d c
    /\ (forall d' c', link_read (n_run es) d' c' -> link_read (n_run (es ++ es2)) d' c') /\ onward (n_run es) (n_run (es ++ es2))).
  { intros Hr. exists []. rewrite app_nil_r. split; [constructor|]. split; [done|]. split; [done|]. split; [done|apply onward_refl]. }
  destruct (n_links (n_run es) !! (d, c)) as [[b h]|] eqn:El; [|apply Hnil; intros ? ? ? ?; congruence].
  destruct (tasks_at (n_run es) b !! h) as [t|] eqn:Et; [|apply Hnil; intros ? ? ? ?; congruence].
  destruct (t_open t) eqn:Eop; [|apply Hnil; intros ? ? ? ?; congruence].
  clear Hnil. remember (length (sent_on (broker_at (n_run es) d) c) - t_frames t) as w eqn:Hw. revert es t Hidle El Et Eop Hw.
  induction w as [|w IH]; intros es t Hidle El Et Eop Hw; pose proof (frames_sent es d c b h t El Et) as Hle.
  { exists []. rewrite app_nil_r. split; [constructor|]. split; [done|]. split; [|split; [done|apply onward_refl]].
    intros b' h' t' El' Et' _. rewrite El in El'. injection El' as <- <-. rewrite Et in Et'. injection Et' as <-. lia. }
  destruct (lookup_lt_is_Some_2 (sent_on (broker_at (n_run es) d) c) (t_frames t) ltac:(lia)) as [x Hx].
  set (e := NDeliver d c no_hook). set (raw := wire (e_frame (s_what x))).
  assert (Hn : n_run (es ++ [e]) = extend (n_run es) b (EFrame h raw no_hook)).
  { rewrite n_run_snoc. unfold e. cbn [NetModel.n_step]. by rewrite El, Et, Hx. }
  destruct (inv_run es) as (I0 & I2 & _). destruct (I0 _ _ _ _ El) as (_ & _ & cb & t1 & Ht1 & Ho1). rewrite Et in Ht1. injection Ht1 as <-.
  pose proof (Hidle _ _ _ Et) as Ha0.
  pose proof (broker_frame_inward d raw) as Hin. destruct (broker_frame d raw no_hook) as [acts go] eqn:Ebf. cbn [fst] in Hin.
  set (t1 := Task (t_owner t) acts go (S (t_frames t))).
  assert (Hm : broker_at (n_run (es ++ [e])) b
    = Machine (conns_at (n_run es) b) (<[h := t1]> (tasks_at (n_run es) b))
        (sent_at (n_run es) b) (m_rcvd (broker_at (n_run es) b) ++ [Rcvd h (S (t_frames t)) raw no_hook])).
  { rewrite Hn, extend_self. cbn [TaskModel.m_step]. rewrite Et. destruct t as [o l op k]. cbn in Ha0, Eop, Ho1. subst l op o. cbn [TaskModel.loop_frame]. by rewrite Ebf. }
  assert (Et2 : tasks_at (n_run (es ++ [e])) b !! h = Some t1) by (rewrite Hm; cbn [m_tasks]; by rewrite lookup_insert).
  assert (Hon1 : onward (n_run es) (n_run (es ++ [e]))).
  { split_and!.
    - by rewrite Hn.
    - intros Hp. rewrite Hn. apply prompt_extend; [done|]. intros h' _ (h2 & t2 & Ht2 & Hi2). by rewrite (Hidle _ _ _ Ht2) in Hi2.
    - intros d'. rewrite Hn. cbn. destruct (decide (d' = b)) as [->|Hd]; [rewrite lookup_insert|by rewrite lookup_insert_ne]. split; [|eauto]. intros _. by eapply task_here.
    - intros b' h' Hnone. destruct (decide (b' = b)) as [->|Hb]; [|rewrite Hn; by rewrite extend_other].
      rewrite Hm. cbn [m_tasks]. rewrite lookup_insert_ne; [done|]. congruence. }
  destruct (drain_task inward to_user inward_step (es ++ [e]) b h t1 Et2 Hin) as (es2 & Hc2 & Hd2).
  pose proof (drained_onward _ _ _ _ _ _ _ Et2 Hd2) as Hon2. pose proof (onward_trans _ _ _ Hon1 Hon2) as Hon. clear Hon1 Hon2.
  destruct Hd2 as (Ht3 & Hs3 & Ho3 & _ & (l3 & Hse3 & Hu3) & _). cbn [t_owner t_open t_frames t_acts t1] in Ht3, Hse3.
  rewrite <- app_assoc in Ht3, Hs3, Ho3, Hse3, Hon. cbn [app] in Ht3, Hs3, Ho3, Hse3, Hon. rewrite Hm in Hse3. cbn [m_sent m_conns] in Hse3.
  pose proof (proj1 Hon) as Hl3.
  assert (Hso : forall d' c' x', n_links (n_run es) !! (d', c') = Some x' -> sent_on (broker_at (n_run (es ++ e :: es2)) d') c' = sent_on (broker_at (n_run es) d') c').
  { intros d' c' [b' h'] El'. destruct (decide (d' = b)) as [->|Hd].
    - assert (El3 : n_links (n_run (es ++ e :: es2)) !! (b, c') = Some (b', h')) by (by rewrite Hl3).
      exact (link_quiet (es ++ e :: es2) b h (S (t_frames t)) l3 c' b' h' _ Hu3 El3 Hse3).
    - unfold sent_on. rewrite Ho3 by done. by rewrite Hn, extend_other. }
  assert (Htk : forall b' h', (b' = b /\ h' = h) \/ tasks_at (n_run (es ++ e :: es2)) b' !! h' = tasks_at (n_run es) b' !! h').
  { intros b' h'. destruct (decide (b' = b)) as [->|Hb'].
    - destruct (decide (h' = h)) as [->|Hh']; [by left|right]. rewrite Hs3 by done. rewrite Hm. cbn [m_tasks]. by rewrite lookup_insert_ne.
    - right. rewrite Ho3 by done. rewrite Hn. by rewrite extend_other. }
  assert (Hi2 : forall b' h', idle (n_run (es ++ e :: es2)) b' h').
  { intros b' h' t' Ht'. destruct (Htk b' h') as [[-> ->]|Heq]; [rewrite Ht3 in Ht'; by injection Ht' as <-|]. rewrite Heq in Ht'. by eapply Hidle. }
  assert (Hlr : forall d' c', (d', c') <> (d, c) -> link_read (n_run es) d' c' -> link_read (n_run (es ++ e :: es2)) d' c').
  { intros d' c' Hne Hlr b' h' t' El' Et' Hop'. rewrite Hl3 in El'. rewrite (Hso _ _ _ El').
    destruct (Htk b' h') as [[-> ->]|Heq]; [destruct (I2 _ _ _ _ _ _ El' El) as [-> ->]; done|].
    rewrite Heq in Et'. exact (Hlr _ _ _ El' Et' Hop'). }
  destruct go.
  - destruct (IH (es ++ e :: es2) (Task (t_owner t) [] true (S (t_frames t)))) as (es3 & Hc3 & Hi3 & Hr3 & Hk3 & Hon3).
    + done.
    + by rewrite Hl3.
    + done.
    + done.
    + rewrite (Hso d c _ El). cbn [t_frames]. lia.
    + exists (e :: es2 ++ es3). rewrite <- app_assoc in Hi3, Hr3, Hk3, Hon3. cbn [app] in Hi3, Hr3, Hk3, Hon3.
      split; [constructor; [done|by apply Forall_app]|]. split; [done|]. split; [done|]. split; [|by eapply onward_trans].
      intros d' c' Hl. destruct (decide ((d', c') = (d, c))) as [[= -> ->]|Hne]; [done|]. apply Hk3. by apply Hlr.
  - exists (e :: es2). split; [by constructor|]. split; [done|].
    assert (Hme : link_read (n_run (es ++ e :: es2)) d c).
    { intros b' h' t' El' Et' Hop'. rewrite Hl3, El in El'. injection El' as <- <-. rewrite Ht3 in Et'. by injection Et' as <-. }
    split; [done|]. split; [|done]. intros d' c' Hl. destruct (decide ((d', c') = (d, c))) as [[= -> ->]|Hne]; [done|]. by apply Hlr.
Qed.

Lemma read_list (l : list (bid * N)) es : (forall b h, idle (n_run es) b h) ->
  exists es2, Forall calm es2 /\ (forall b h, idle (n_run (es ++ es2)) b h) /\ (forall d c, (d, c) ∈ l -> link_read (n_run (es ++ es2)) d c)
    /\ onward (n_run es) (n_run (es ++ es2)).
Proof.
  intros Hidle. induction l as [|[d c] l (es2 & Hc2 & Hi2 & Hl2 & Ho2)].
  { exists []. rewrite app_nil_r. split; [constructor|]. split; [done|]. split; [intros d c Hin; by apply elem_of_nil in Hin|apply onward_refl]. }
  destruct (read_link d c (es ++ es2)) as (es3 & Hc3 & Hi3 & Hr3 & Hk3 & Ho3); [done|].
  rewrite <- app_assoc in Hi3, Hr3, Hk3, Ho3. exists (es2 ++ es3). split; [by apply Forall_app|]. split; [done|]. split; [|by eapply onward_trans].
  intros d' c' Hin. apply elem_of_cons in Hin as [[= -> ->]|Hin]; [done|]. apply Hk3. by apply Hl2.
Qed.

Lemma comes_to_rest es : exists es2, Forall calm es2 /\ at_rest (n_run (es ++ es2)) /\ onward (n_run es) (n_run (es ++ es2)).
Proof.
  destruct (drain_all es) as (es2 & Hc2 & Hi2 & Ho2).
  destruct (read_list (map fst (map_to_list (n_links (n_run es)))) (es ++ es2) Hi2) as (es3 & Hc3 & Hi3 & Hr3 & Ho3).
  rewrite <- app_assoc in Hi3, Hr3, Ho3. pose proof (onward_trans _ _ _ Ho2 Ho3) as Ho. exists (es2 ++ es3). split; [by apply Forall_app|]. split; [|done].
  split; [intros b h t; apply Hi3|]. intros d c b h t El Et Hop. eapply Hr3; [|exact El|exact Et|exact Hop].
  rewrite (proj1 Ho) in El. apply elem_of_list_In, in_map_iff. exists (d, c, (b, h)). split; [done|].
  by apply elem_of_list_In, elem_of_map_to_list.
Qed.

(** ** A round of synchronisation *)
Lemma fresh_handle (m : machine) : exists h, m_tasks m !! h = None.
Proof. exists (fresh (dom (m_tasks m))). apply not_elem_of_dom, is_fresh. Qed.

Lemma start_all (l : list bid) es : exists r, Forall tidy r /\ (forall b, b ∈ l -> sync_starts es r b)
  /\ (forall d, is_Some (n_trace (n_run (es ++ r)) !! d) <-> d ∈ l \/ is_Some (n_trace (n_run es) !! d))
  /\ (all_prompt (n_run es) -> all_prompt (n_run (es ++ r))).
Proof.
  induction l as [|b l (r & Hr & Hs & Hd & Hp)].
  { exists []. rewrite app_nil_r. split; [constructor|]. split; [intros b Hb; by apply elem_of_nil in Hb|]. split; [|done].
    intros d. rewrite elem_of_nil. tauto. }
  destruct (fresh_handle (broker_at (n_run (es ++ r)) b)) as [hh Hh]. exists (r ++ [NStep b (ESync hh)]).
  assert (Hn : n_run (es ++ r ++ [NStep b (ESync hh)]) = extend (n_run (es ++ r)) b (ESync hh)).
  { rewrite app_assoc, n_run_snoc. done. }
  split; [apply Forall_app; split; [done|by repeat constructor]|]. split; [|split].
  - intros b' Hb'. apply elem_of_cons in Hb' as [->|Hb'].
    + exists r, hh, []. done.
    + destruct (Hs b' Hb') as (r1 & h' & r2 & -> & Hf). exists r1, h', (r2 ++ [NStep b (ESync hh)]). split; [by rewrite <- app_assoc|done].
  - intros d. rewrite Hn. cbn. rewrite elem_of_cons. destruct (decide (d = b)) as [->|Hne]; [rewrite lookup_insert; split; eauto|].
    rewrite lookup_insert_ne by done. rewrite Hd. split; [tauto|]. intros [[?|?]|?]; [done|tauto|tauto].
  - intros Hpp. rewrite Hn. apply prompt_extend; [by apply Hp|]. intros h' [(? & ? & ?)|?]; done.
Qed.

Lemma round_exists es : exists r, Forall tidy r /\ at_rest (n_run (es ++ r))
  /\ (forall b, takes_part (n_run es) b -> sync_starts es r b)
  /\ (forall b, takes_part (n_run (es ++ r)) b <-> takes_part (n_run es) b)
  /\ (all_prompt (n_run es) -> all_prompt (n_run (es ++ r))).
Proof.
  set (l := (map_to_list (n_trace (n_run es))).*1).
  assert (Hl : forall b, b ∈ l <-> takes_part (n_run es) b).
  { intros b. unfold l, takes_part. rewrite elem_of_list_fmap. split.
    - intros ([b' tr] & -> & Hin). apply elem_of_map_to_list in Hin. cbn. by eexists.
    - intros [tr Htr]. exists (b, tr). split; [done|]. by apply elem_of_map_to_list. }
  destruct (start_all l es) as (r & Hr & Hs & Hd & Hp).
  destruct (comes_to_rest (es ++ r)) as (r' & Hr' & Hrest & Ho1 & Ho2 & Ho3 & _).
  exists (r ++ r'). rewrite app_assoc. split; [apply Forall_app; split; [done|]|].
  { eapply Forall_impl; [exact Hr'|]. apply calm_tidy. }
  split; [done|]. split; [|split; [|auto]].
  - intros b Hb. destruct (Hs b (proj2 (Hl b) Hb)) as (r1 & h' & r2 & -> & Hf). exists r1, h', (r2 ++ r'). split; [by rewrite <- app_assoc|done].
  - intros b. unfold takes_part. rewrite Ho3, Hd, Hl. unfold takes_part. tauto.
Qed.
End net.
