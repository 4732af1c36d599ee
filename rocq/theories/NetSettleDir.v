(** Where a user is, as known to all brokers of a network once nothing is under way. *)
From stdpp Require Import gmap fin_maps fin_sets list.
From Coq Require Import NArith ZArith Lia.
From Verif Require Import IdModel RelMapModel RelMapProofs VMapModel VMapSpec VMapProofs ConnModel ConnSpec ConnProofs ConnProofs2 ConnProofs3 ConnProofs4
  SyncSpec SyncModel DirSyncProofs TopicSyncProofs TopicModel TopicProofs MsgModel RouteModel RouteProofs TaskModel TaskProofs TaskOrder TaskHandles TaskIsolation TaskSync
  NetModel NetProofs NetOrigin NetDelivery NetComplete NetSynced NetSettle.

(** ** One broker's directory entry about one user *)
Lemma rus_entries s us v :
  v ∉ us \/ vm_get (direct s) v <> Some (identity s) -> entries (direct (remove_users s us)) !! v = entries (direct s) !! v.
Proof.
  revert s. induction us as [|u us IH]; intros s Hv; [done|]. rewrite remove_users_cons.
  assert (Hd : entries (direct (c_remove_user s u)) !! v = entries (direct s) !! v).
  { rewrite ru_direct, rie_entries. case_decide as H; [|done]. destruct H as [-> H]. destruct Hv as [Hv|Hv]; [|done]. exfalso. apply Hv. left. }
  rewrite IH; [done|]. rewrite ru_identity. destruct Hv as [Hv|Hv]; [left; set_solver|right]. unfold vm_get in *. by rewrite Hd.
Qed.
Lemma rus_modified s us v : v ∈ modified (direct s) -> v ∈ modified (direct (remove_users s us)).
Proof.
  revert s. induction us as [|u us IH]; intros s Hv; [done|]. rewrite remove_users_cons. apply IH. rewrite ru_direct. apply rie_modified. by left.
Qed.

Lemma op_clean s o v :
  (forall c ts h, o <> CAddUser v c ts h) -> (forall m, o = CApplyUserSync m -> entries m !! v = None) ->
  entries (direct s) !! v = None -> entries (direct (c_step s o)) !! v = None.
Proof.
  intros Hadd Happ Hs. destruct (decide (neutral o)) as [Hn|Hn]; [by rewrite neutral_direct|].
  destruct o; try (exfalso; by apply Hn).
  - cbn [c_step]. rewrite add_user_entries. case_decide; [subst; by edestruct Hadd|done].
  - cbn [c_step]. rewrite ru_direct, rie_entries. case_decide as H; [|done]. destruct H as [-> H]. unfold vm_get in H. by rewrite Hs in H.
  - cbn [c_step]. rewrite apply_user_sync_eq.
    assert (Hm : entries (vm_merge bid_gtb (direct s) m).1 !! v = None) by (rewrite merge_lookup, Hs, (Happ m eq_refl); done).
    rewrite rus_entries; [exact Hm|]. right. unfold vm_get. cbn. by rewrite Hm.
  - rewrite partial_direct, diff_rest_lookup, Hs. by case_decide.
Qed.

Section entry.
Variables (v : ukey) (b : bid).
Definition home : vval bid := VVal 1 (Some b).

Lemma op_keeps s o :
  (forall c ts h, o <> CAddUser v c ts h) -> (forall m e, o = CApplyUserSync m -> entries m !! v = Some e -> e = home) ->
  (forall e, entries (direct s) !! v = Some e -> e = home) -> identity s <> b \/ users (c_step s o) !! v <> None ->
  (forall e, entries (direct (c_step s o)) !! v = Some e -> e = home)
  /\ (entries (direct s) !! v = Some home -> entries (direct (c_step s o)) !! v = Some home)
  /\ (forall m, o = CApplyUserSync m -> entries m !! v = Some home -> entries (direct (c_step s o)) !! v = Some home)
  /\ (identity s = b -> v ∈ modified (direct s) -> v ∈ modified (direct (c_step s o)) \/ o = CPartialUserSync).
Proof.
  intros Hadd Happ Hs Hkept. destruct (decide (neutral o)) as [Hn|Hn].
  { rewrite neutral_direct by done. split_and!; auto. intros m ->. by cbn in Hn. }
  destruct o; try (exfalso; by apply Hn); cbn [c_step] in *.
  - assert (Hne : u <> v) by (intros ->; by edestruct Hadd). rewrite add_user_entries, add_user_modified, decide_False by done. split_and!; auto. done.
  - rewrite ru_direct, rie_entries, rie_modified.
    rewrite decide_False; [split_and!; auto; done|]. intros [-> Hg]. rewrite ru_users, lookup_delete in Hkept. destruct Hkept as [Hk|Hk]; [|done].
    unfold vm_get in Hg. destruct (entries (direct s) !! v) as [e|] eqn:He; [|done]. rewrite (Hs e eq_refl) in Hg. cbn in Hg. injection Hg as ->. done.
  - rewrite apply_user_sync_eq in *. set (s1 := set_direct (vm_merge bid_gtb (direct s) m).1 s) in *. set (us := map fst (vm_merge bid_gtb (direct s) m).2) in *.
    assert (Hm1 : forall e, entries (direct s1) !! v = Some e -> e = home).
    { intros e. unfold s1. cbn. rewrite merge_lookup. unfold lww. destruct (entries m !! v) as [rv|] eqn:Hr; [|apply Hs].
      rewrite (Happ m rv eq_refl Hr). case_decide; [|apply Hs]. cbn. by intros [= <-]. }
    assert (Hm2 : entries (direct s) !! v = Some home \/ entries m !! v = Some home -> entries (direct s1) !! v = Some home).
    { intros He. unfold s1. cbn. rewrite merge_lookup. unfold lww. destruct (entries m !! v) as [rv|] eqn:Hr; [|by destruct He].
      rewrite (Happ m rv eq_refl Hr). case_decide as Hw; [done|]. destruct (entries (direct s) !! v) as [l|] eqn:Hl; [by rewrite (Hs l eq_refl)|].
      exfalso. apply Hw. cbn. done. }
    assert (Hout : v ∉ us \/ vm_get (direct s1) v <> Some (identity s1)).
    { destruct Hkept as [Hk|Hk].
      - right. unfold vm_get. destruct (entries (direct s1) !! v) as [e|] eqn:He; [|done]. rewrite (Hm1 e eq_refl). cbn. congruence.
      - left. intros Hin. apply Hk. rewrite rus_users. by rewrite decide_True. }
    rewrite (rus_entries s1 us v Hout). split_and!; [done|auto| |].
    + intros m' Heq. injection Heq as <-. auto.
    + intros Hid Hv. left. apply rus_modified. unfold s1. cbn. apply merge_modified. split; [done|]. intros (_ & rv & Hr & Hw).
      destruct Hkept as [Hk|Hk]; [done|]. apply Hk. rewrite rus_users, decide_True; [done|]. unfold us. apply elem_of_list_In, in_map_iff.
      exists (v, val rv). split; [done|]. apply merge_changes. eauto.
  - rewrite partial_user_direct. cbn [fst set_direct direct]. rewrite diff_rest_lookup.
    assert (Hx : (match entries (direct s) !! v with Some (VVal _ None) => None | x => x end) = entries (direct s) !! v).
    { destruct (entries (direct s) !! v) as [e|] eqn:He; [|done]. by rewrite (Hs e eq_refl). }
    rewrite Hx. assert (Hc : (if decide (v ∈ modified (direct s)) then entries (direct s) !! v else entries (direct s) !! v) = entries (direct s) !! v) by (by case_decide).
    rewrite Hc. split_and!; auto. done.
Qed.
End entry.

(** ** What a step of a broker adds *)
Section machine.
Variable deser : bytes -> option message.
Variable dec_users : bytes -> option direct_map.
Variable dec_topics : bytes -> option topic_map.
Variable valid : N -> bool.
Notation m_step := (m_step deser dec_users dec_topics valid).
Notation m_run := (m_run deser dec_users dec_topics valid).
Notation loop_frame := (loop_frame deser dec_users dec_topics valid).

(** The actions a new task starts with. *)
Definition started (e : event) (y : act) : Prop :=
  match e with
  | EUserAuthed h _ u c ts => In y (user_connected valid u c ts h)
  | EBrokerAuthed h _ b c => In y (broker_connected b c h)
  | ESync _ => In y sync_round
  | EKick _ u => y = ARemoveUser u
  | ERecvErr _ => exists o, In y (loop_error o)
  | _ => False
  end.

Lemma acts_new m e h t y :
  m_tasks (m_step m e) !! h = Some t -> In y (t_acts t) ->
  (exists t0, m_tasks m !! h = Some t0 /\ In y (t_acts t0)) \/ started e y
  \/ (exists raw hk t0, e = EFrame h raw hk /\ m_tasks m !! h = Some t0 /\ In y (loop_frame (t_owner t0) raw hk).1)
  \/ (exists good o a l op n s' nxt sends, e = ERun h good /\ m_tasks m !! h = Some (Task o (a :: l) op n)
       /\ act_step (fun _ => good) (m_conns m) a = (s', nxt, sends) /\ In y nxt).
Proof.
  intros Ht Hin.
  assert (Hold : m_tasks m !! h = Some t -> (exists t0, m_tasks m !! h = Some t0 /\ In y (t_acts t0)) \/ started e y
     \/ (exists raw hk t0, e = EFrame h raw hk /\ m_tasks m !! h = Some t0 /\ In y (loop_frame (t_owner t0) raw hk).1)
     \/ (exists good o a l op n s' nxt sends, e = ERun h good /\ m_tasks m !! h = Some (Task o (a :: l) op n)
       /\ act_step (fun _ => good) (m_conns m) a = (s', nxt, sends) /\ In y nxt)) by eauto.
  destruct e as [h1 h2 w c1 ts|h1 h2 b1 c1|h2|h2 w|h1 raw hk|h1|h1 good|h1]; cbn [TaskModel.m_step] in Ht.
  - case_decide; [|by apply Hold]. cbn in Ht. apply lookup_insert_Some in Ht as [[<- <-]|[_ Ht]]; [by right; left|].
    apply lookup_insert_Some in Ht as [[<- <-]|[_ Ht]]; [done|by apply Hold].
  - case_decide; [|by apply Hold]. cbn in Ht. apply lookup_insert_Some in Ht as [[<- <-]|[_ Ht]]; [by right; left|].
    apply lookup_insert_Some in Ht as [[<- <-]|[_ Ht]]; [done|by apply Hold].
  - destruct (m_tasks m !! h2); [by apply Hold|]. cbn in Ht. apply lookup_insert_Some in Ht as [[<- <-]|[_ Ht]]; [by right; left|by apply Hold].
  - destruct (m_tasks m !! h2); [by apply Hold|]. cbn in Ht. apply lookup_insert_Some in Ht as [[<- <-]|[_ Ht]]; [|by apply Hold].
    right; left. destruct Hin as [<-|[]]. done.
  - destruct (m_tasks m !! h1) as [[o [|? ?] [|] n]|] eqn:E; try (by apply Hold).
    destruct (loop_frame o raw hk) as [acts go] eqn:El. cbn in Ht. apply lookup_insert_Some in Ht as [[<- <-]|[_ Ht]]; [|by apply Hold].
    right. right. left. exists raw, hk, (Task o [] true n). split; [done|]. split; [done|]. cbn. by rewrite El.
  - destruct (m_tasks m !! h1) as [[o [|? ?] [|] n]|] eqn:E; try (by apply Hold). cbn in Ht.
    apply lookup_insert_Some in Ht as [[<- <-]|[_ Ht]]; [|by apply Hold]. right. left. by exists o.
  - destruct (m_tasks m !! h1) as [[o [|a l] op n]|] eqn:E; try (by apply Hold).
    destruct (act_step (fun _ => good) (m_conns m) a) as [[s' nxt] sends] eqn:Ea. cbn in Ht.
    apply lookup_insert_Some in Ht as [[<- <-]|[_ Ht]]; [|by apply Hold]. cbn [t_acts] in Hin. apply in_app_iff in Hin as [Hin|Hin].
    + right. right. right. eauto 15.
    + left. eexists. split; [exact E|]. by right.
  - destruct (m_tasks m !! h1) as [[o l op n]|] eqn:E; [|by apply Hold]. case_decide; [|by apply Hold]. cbn in Ht.
    apply lookup_insert_Some in Ht as [[<- <-]|[_ Ht]]; [done|by apply Hold].
Qed.

Lemma sent_new m e y :
  In y (m_sent (m_step m e)) -> In y (m_sent m)
  \/ (exists h good o a l op n s' nxt sends, e = ERun h good /\ m_tasks m !! h = Some (Task o (a :: l) op n)
       /\ act_step (fun _ => good) (m_conns m) a = (s', nxt, sends) /\ In (s_what y) sends).
Proof.
  destruct e as [h1 h2 w c1 ts|h1 h2 b1 c1|h2|h2 w|h1 raw hk|h1|h1 good|h1]; cbn [TaskModel.m_step].
  - case_decide; by left.
  - case_decide; by left.
  - destruct (m_tasks m !! h2); by left.
  - destruct (m_tasks m !! h2); by left.
  - destruct (m_tasks m !! h1) as [[o [|? ?] [|] n]|] eqn:E; try by left. destruct (loop_frame o raw hk). by left.
  - destruct (m_tasks m !! h1) as [[o [|? ?] [|] n]|] eqn:E; by left.
  - destruct (m_tasks m !! h1) as [[o [|a l] op n]|] eqn:E; try by left.
    destruct (act_step (fun _ => good) (m_conns m) a) as [[s' nxt] sends] eqn:Ea. cbn. intros Hin. apply in_app_iff in Hin as [?|Hin]; [by left|].
    apply in_map_iff in Hin as (em & <- & Hem). right. eauto 15.
  - destruct (m_tasks m !! h1) as [[o l op n]|] eqn:E; [|by left]. case_decide; by left.
Qed.

Lemma started_carries e y f : started e y -> carries y = Some f -> False.
Proof.
  destruct e; cbn; try done.
  - by intros [<-|[<-|[<-|[]]]].
  - by intros [<-|[<-|[<-|[]]]].
  - by intros [<-|[<-|[]]].
  - by intros ->.
  - intros [[u c|b c|] Hin]; cbn in Hin; try done; by destruct Hin as [<-|[]].
Qed.
Lemma started_apply e y : started e y -> is_apply y = true -> False.
Proof.
  destruct e; cbn; try done.
  - by intros [<-|[<-|[<-|[]]]].
  - by intros [<-|[<-|[<-|[]]]].
  - by intros [<-|[<-|[]]].
  - by intros ->.
  - intros [[u c|b c|] Hin]; cbn in Hin; try done; by destruct Hin as [<-|[]].
Qed.
End machine.

(** ** The network *)
Section net.
Variable deser : bytes -> option message.
Variable dec_users : bytes -> option direct_map.
Variable dec_topics : bytes -> option topic_map.
Variable valid : N -> bool.
Variable enc_users : direct_map -> bytes.
Variable enc_topics : topic_map -> bytes.
Hypothesis Hcodec : faithful_sync deser dec_users dec_topics enc_users enc_topics.
Notation m_step := (m_step deser dec_users dec_topics valid).
Notation m_run := (m_run deser dec_users dec_topics valid).
Notation m_run_snoc := (m_run_snoc deser dec_users dec_topics valid).
Notation loop_frame := (loop_frame deser dec_users dec_topics valid).
Notation broker_at := (broker_at deser dec_users dec_topics valid).
Notation fresh_pair := (fresh_pair deser dec_users dec_topics valid).
Notation n_run := (n_run deser dec_users dec_topics valid enc_users enc_topics).
Notation wire := (wire enc_users enc_topics).
Notation net_inv := (net_inv deser dec_users dec_topics valid enc_users enc_topics).
Notation fine := (fine deser dec_users dec_topics valid).
Notation possible := (possible deser dec_users dec_topics valid enc_users enc_topics).
Notation sound := (sound deser dec_users dec_topics valid).
Notation frames_le := (frames_le deser dec_users dec_topics valid).
Notation run_extend := (run_extend deser dec_users dec_topics valid).
Notation run_other := (run_other deser dec_users dec_topics valid).
Notation broker_extend := (broker_extend deser dec_users dec_topics valid).
Notation cov := (cov deser dec_users dec_topics valid).
Notation joined := (joined deser dec_users dec_topics valid).
Notation at_rest := (at_rest deser dec_users dec_topics valid).
Notation conns_at n b := (m_conns (broker_at n b)).
Notation tasks_at n b := (m_tasks (broker_at n b)).

Section user.
Variables (v : ukey) (b : bid).
Notation home := (home b).

(** An entry about [v] that broker's machine holds, has pending, or has sent. *)
Definition about (m : machine) (e : vval bid) : Prop :=
  entries (direct (m_conns m)) !! v = Some e
  \/ (exists h t y d, m_tasks m !! h = Some t /\ In y (t_acts t) /\ (carries y = Some (FUserSync d) \/ y = AApplyUserSync d) /\ entries d !! v = Some e)
  \/ (exists y d, In y (m_sent m) /\ e_frame (s_what y) = FUserSync d /\ entries d !! v = Some e).
Definition only (E : vval bid -> Prop) (n : net) : Prop := forall x e, about (broker_at n x) e -> E e.

Lemma made_about m a (good : bool) s' nxt sends h o l op k d e :
  m_tasks m !! h = Some (Task o (a :: l) op k) -> act_step (fun _ => good) (m_conns m) a = (s', nxt, sends) ->
  (exists y, In y nxt /\ carries y = Some (FUserSync d)) \/ (exists y, In y sends /\ e_frame y = FUserSync d) ->
  entries d !! v = Some e -> about m e.
Proof.
  intros Ht Ha Hy He. destruct (act_step_carries _ _ _ _ _ _ _ Ha Hy) as [Hc|[?|[(_ & d' & _ & ?)|[(_ & d' & Hd & Heq)|[(_ & d' & _ & ?)|(_ & d' & Hd & Heq)]]]]]; try done.
  - right. left. exists h, (Task o (a :: l) op k), a, d. split; [done|]. split; [by left|]. auto.
  - injection Heq as ->. unfold c_get_full_user_sync in Hd. case_decide; [done|]. injection Hd as <-. by left.
  - injection Heq as ->. apply partial_out in Hd. subst d'. rewrite diff_delta_lookup in He. case_decide; [|done]. by left.
Qed.

Lemma about_step n b0 ev e :
  net_inv n -> sound n -> possible n b0 ev ->
  about (broker_at (extend n b0 ev) b0) e -> (exists x, about (broker_at n x) e) \/ entries (direct (conns_at (extend n b0 ev) b0)) !! v = Some e.
Proof.
  intros Hi (S1 & _) Hp [Hab|[(h & t & y & d & Ht & Hy & Hc & He)|(y & d & Hy & Hf & He)]]; [by right|left|left].
  - rewrite broker_extend, decide_True in Ht by done.
    destruct (acts_new _ _ _ _ _ _ _ _ _ Ht Hy) as [(t0 & Ht0 & Hy0)|[Hst|[(raw & hk & t0 & -> & Ht0 & Hy0)|(good & o & a & l & op & k & s' & nxt & sends & -> & Ht0 & Ha & Hy0)]]].
    + exists b0. right. left. eauto 10.
    + exfalso. destruct Hc as [Hc| ->]; [by eapply started_carries|by eapply started_apply].
    + destruct Hc as [Hc| ->]; [by apply loop_frame_carries in Hy0; rewrite Hy0 in Hc|].
      apply possible_frame in Hp as [(u & c & t1 & Ht1 & Ho & _)|(a & c & t1 & x & Hl & Ht1 & Hx & Hk & ->)]; rewrite Ht0 in Ht1; injection Ht1 as <-.
      * rewrite Ho in Hy0. cbn [TaskModel.loop_frame] in Hy0. by apply user_no_apply in Hy0.
      * apply sent_on_elem in Hx as [Hx _].
        destruct (delivered_acts _ _ _ _ _ _ Hcodec n b0 h hk a c t0 x (AApplyUserSync d) Hi S1 Hl Ht0 Hx Hk Hy0 eq_refl) as [(d0 & d' & _ & ? & _)|(d0 & d' & Hfr & Hyy & He' & _)]; [done|].
        injection Hyy as <-. rewrite He' in He. exists a. right. right. eauto.
    + exists b0. destruct Hc as [Hc| ->]; [|exfalso; by eapply act_step_no_apply].
      eapply made_about; [exact Ht0|exact Ha|left; eauto|exact He].
  - rewrite broker_extend, decide_True in Hy by done. exists b0.
    destruct (sent_new _ _ _ _ _ _ _ Hy) as [Hy0|(h & good & o & a & l & op & k & s' & nxt & sends & -> & Ht0 & Ha & Hy0)].
    + right. right. eauto.
    + eapply made_about; [exact Ht0|exact Ha|right; eauto|exact He].
Qed.

Lemma only_extend E n b0 ev :
  net_inv n -> sound n -> possible n b0 ev -> only E n -> (forall e, entries (direct (conns_at (extend n b0 ev) b0)) !! v = Some e -> E e) ->
  only E (extend n b0 ev).
Proof.
  intros Hi Hs Hp Hn Hd x e Hab. destruct (decide (b0 = x)) as [<-|Hne].
  - destruct (about_step n b0 ev e Hi Hs Hp Hab) as [[x Hx]|Hx]; [by eapply Hn|by apply Hd].
  - rewrite run_other in Hab by done. by eapply Hn.
Qed.
Lemma only_direct E n x e : only E n -> entries (direct (conns_at n x)) !! v = Some e -> E e.
Proof. intros Hn He. apply (Hn x). by left. Qed.
Lemma only_apply E n x h o d l op k e : only E n -> tasks_at n x !! h = Some (Task o (AApplyUserSync d :: l) op k) -> entries d !! v = Some e -> E e.
Proof. intros Hn Ht He. apply (Hn x). right. left. eexists h, _, _, d. split; [exact Ht|]. split; [by left|]. auto. Qed.

(** *** Admissions *)
Definition is_admission (ev : event) : Prop := match ev with EUserAuthed _ _ u _ _ => u = v | _ => False end.
(** [v] was admitted at most once, and if so at [b]. *)
Definition solo (n : net) : Prop :=
  forall x i ev, trace n x !! i = Some ev -> is_admission ev -> x = b /\ forall j ev', trace n b !! j = Some ev' -> is_admission ev' -> j = i.

Lemma solo_extend n b0 ev : solo (extend n b0 ev) -> solo n.
Proof.
  intros Hs x i e He Ha.
  assert (Hx : forall y k e', trace n y !! k = Some e' -> trace (extend n b0 ev) y !! k = Some e').
  { intros y k e' Hk. rewrite trace_extend. case_decide; [|done]. subst. by apply lookup_app_l_Some. }
  destruct (Hs x i e (Hx _ _ _ He) Ha) as [-> Hu]. split; [done|]. intros j ev' Hj Ha'. by apply (Hu j ev'); [apply Hx|].
Qed.

Lemma in_lookup {A} (x : A) l : In x l -> exists i, l !! i = Some x.
Proof. intros H. apply elem_of_list_In, elem_of_list_lookup in H. exact H. Qed.

(** All admissions of [v] are one and the same event. *)
Lemma solo_unique n x h c h' c' :
  solo n -> authed_user (trace n x) v c h -> authed_user (trace n b) v c' h' -> x = b /\ h = h' /\ c = c'.
Proof.
  intros Hs (hh & ts & H1) (hh' & ts' & H2). apply in_lookup in H1 as [i Hi], H2 as [j Hj].
  destruct (Hs x i _ Hi eq_refl) as [-> Hu]. specialize (Hu j _ Hj eq_refl). subst j. rewrite Hi in Hj. by injection Hj as -> _ -> _.
Qed.

(** A pending registration of [v] stems from its admission. *)
Lemma pending_authed n x h t c ts h' : tasks_at n x !! h = Some t -> In (AAddUser v c ts h') (t_acts t) -> authed_user (trace n x) v c h'.
Proof.
  intros Ht Hin. destruct (reg_run deser dec_users dec_topics valid x (trace n x)) as [_ Hp]. specialize (Hp h t Ht).
  rewrite Forall_forall in Hp. apply (Hp (AAddUser v c ts h')). by apply elem_of_list_In.
Qed.
Lemma registered_authed n x c h : users (conns_at n x) !! v = Some (c, h) -> authed_user (trace n x) v c h.
Proof. intros Hu. destruct (reg_run deser dec_users dec_topics valid x (trace n x)) as [[Hp _] _]. by apply Hp. Qed.

Definition no_add (n : net) : Prop := forall h t c ts h', tasks_at n b !! h = Some t -> ~ In (AAddUser v c ts h') (t_acts t).

Lemma act_step_no_add ok s a s' nxt sends y : act_step ok s a = (s', nxt, sends) -> In y nxt -> match y with AAddUser _ _ _ _ => False | _ => True end.
Proof.
  intros Heq Hy. destruct (act_step_adds ok s a s' nxt sends Heq) as [Hn _]. destruct y; try done.
  assert (Hh : In h (adds nxt)) by (apply adds_in; eexists _, _; split; [exact Hy|reflexivity]). by rewrite Hn in Hh.
Qed.

Lemma no_add_extend n b0 ev : solo (extend n b0 ev) -> (exists c h, authed_user (trace n b) v c h) -> no_add n -> no_add (extend n b0 ev).
Proof.
  intros Hs (c0 & h0 & hh0 & ts0 & Hin0) Hn h t c ts h' Ht Hin. destruct (decide (b0 = b)) as [->|Hne]; [|rewrite run_other in Ht by done; by eapply Hn].
  rewrite broker_extend, decide_True in Ht by done.
  destruct (acts_new _ _ _ _ _ _ _ _ _ Ht Hin) as [(t0 & Ht0 & Hy0)|[Hst|[(raw & hk & t0 & -> & Ht0 & Hy0)|(good & o & a & l & op & k & s' & nxt & sends & -> & Ht0 & Ha & Hy0)]]].
  - by eapply Hn.
  - destruct ev; cbn in Hst; try done.
    + destruct Hst as [Heq|[?|[?|[]]]]; try done. injection Heq as -> -> _ ->. apply in_lookup in Hin0 as [i Hi].
      destruct (Hs b (length (trace n b)) (EUserAuthed h' hh v c ts1)) as [_ Hu].
      { rewrite trace_extend, decide_True by done. by rewrite lookup_app_r, Nat.sub_diag by lia. }
      { done. }
      specialize (Hu i _ ltac:(rewrite trace_extend, decide_True by done; apply lookup_app_l_Some; exact Hi) eq_refl).
      apply lookup_lt_Some in Hi. lia.
    + destruct Hst as [?|[?|[?|[]]]]; done.
    + destruct Hst as [?|[?|[]]]; done.
    + destruct Hst as [[u1 c1|b1 c1|] Hl]; cbn in Hl; try done; destruct Hl as [?|[]]; done.
  - pose proof (loop_frame_adds deser dec_users dec_topics valid (t_owner t0) raw hk) as Hl.
    assert (Hh : In h' (adds (loop_frame (t_owner t0) raw hk).1)) by (apply adds_in; eexists _, _; split; [exact Hy0|reflexivity]). by rewrite Hl in Hh.
  - by apply (act_step_no_add _ _ _ _ _ _ _ Ha) in Hy0.
Qed.

(** *** The three phases: not heard of, connected, and gone *)
Definition d_in (d : direct_map) : Prop := entries d !! v = Some home.
Definition d_G (f : frame) : Prop := exists d, f = FUserSync d /\ d_in d.
Definition d_App (x : act) : Prop := exists d, x = AApplyUserSync d /\ d_in d.
Definition d_A (s : conns) : Prop := d_in (direct s).

Definition covered (n : net) : Prop :=
  forall cb a ha, n_links n !! (b, cb) = Some (a, ha) -> c_get_broker_connection (conns_at n b) a = Some cb -> live (broker_at n a) ha ->
  v ∈ modified (direct (conns_at n b)) \/ cov false d_G d_App d_A n b cb a ha.

Definition clean (n : net) : Prop := only (fun _ => False) n.
Definition up (n : net) : Prop :=
  only (fun e => e = home) n /\ users (conns_at n b) !! v <> None /\ d_in (direct (conns_at n b)) /\ no_add n /\ covered n.
Definition gone (n : net) : Prop := (exists c h, authed_user (trace n b) v c h) /\ users (conns_at n b) !! v = None /\ no_add n.

Lemma op_users s o : (forall c ts h, o <> CAddUser v c ts h) -> users s !! v = None -> users (c_step s o) !! v = None.
Proof.
  intros Hadd Hu. destruct o; cbn [c_step].
  - rewrite au_users, lookup_insert_ne; [done|]. intros ->. by edestruct Hadd.
  - rewrite ru_users. by apply lookup_delete_None; right.
  - by rewrite ab_users.
  - by rewrite rb_users.
  - done.
  - done.
  - rewrite apply_user_sync_eq. destruct (aborts_users_sub (set_direct (vm_merge bid_gtb (direct s) m).1 s) (map fst (vm_merge bid_gtb (direct s) m).2) v) as [->| ->]; done.
  - by destruct (apply_topic_frame s b0 m) as (_ & -> & _).
  - by rewrite partial_user_direct.
  - pose proof (partial_topic_frame s) as Hf. cbn zeta in Hf. by destruct Hf as (_ & -> & _).
Qed.

(** The operation performed by a step is not the registration of [v], unless that was due. *)
Lemma op_not_add n b0 h o a l op k cop :
  tasks_at n b0 !! h = Some (Task o (a :: l) op k) -> act_op a = Some cop ->
  (forall h' t c ts h1, tasks_at n b0 !! h' = Some t -> ~ In (AAddUser v c ts h1) (t_acts t)) -> forall c ts h', cop <> CAddUser v c ts h'.
Proof.
  intros Ht Ha Hn c ts h' ->. destruct a; cbn in Ha; try done. injection Ha as -> -> -> ->. eapply (Hn h); [exact Ht|by left].
Qed.

Lemma elsewhere_no_add n b0 : solo n -> b0 <> b -> forall h' t c ts h1, tasks_at n b0 !! h' = Some t -> ~ In (AAddUser v c ts h1) (t_acts t).
Proof.
  intros Hs Hne h' t c ts h1 Ht Hin. destruct (pending_authed n b0 h' t c ts h1 Ht Hin) as (hh & ts' & Hin').
  apply in_lookup in Hin' as [i Hi]. destruct (Hs b0 i _ Hi eq_refl) as [-> _]. done.
Qed.

Lemma conns_step n b0 ev :
  conns_at (extend n b0 ev) b0 = conns_at n b0
  \/ exists h good o a l op k c, ev = ERun h good /\ tasks_at n b0 !! h = Some (Task o (a :: l) op k) /\ act_op a = Some c
       /\ conns_at (extend n b0 ev) b0 = c_step (conns_at n b0) c.
Proof. rewrite broker_extend, decide_True by done. apply m_step_op. Qed.

Lemma identity_at n x : identity (conns_at n x) = x.
Proof. apply state_identity. Qed.

(** From not heard of. *)
Lemma clean_extend n b0 ev :
  net_inv n -> sound n -> possible n b0 ev -> solo (extend n b0 ev) -> clean n -> clean (extend n b0 ev) \/ up (extend n b0 ev).
Proof.
  intros Hi Hs Hp Hsolo Hcl. pose proof (solo_extend _ _ _ Hsolo) as Hsolo0.
  assert (Hd : forall x, entries (direct (conns_at n x)) !! v = None).
  { intros x. destruct (entries (direct (conns_at n x)) !! v) as [e|] eqn:He; [|done]. exfalso. by eapply (only_direct _ _ _ _ Hcl). }
  destruct (conns_step n b0 ev) as [Heq|(h & good & o & a & l & op & k & cop & -> & Ht & Ha & Heq)].
  { left. apply only_extend; try done. intros e. rewrite Heq, Hd. done. }
  assert (Hcase : (exists c ts h', a = AAddUser v c ts h') \/ ~ exists c ts h', a = AAddUser v c ts h').
  { destruct a as [| | | | | | | | |w c ts h'| | | | | | | | |]; try (right; intros (? & ? & ? & ?); done).
    destruct (decide (w = v)) as [->|Hne]; [left; eauto|right]. intros (? & ? & ? & [= ? ? ? ?]). done. }
  destruct Hcase as [Hadd|Hadd].
  - destruct Hadd as (c & ts & h' & ->). cbn in Ha. injection Ha as <-. cbn [c_step] in Heq. right.
    assert (b0 = b) as ->.
    { destruct (decide (b0 = b)) as [|Hne]; [done|]. exfalso. eapply (elsewhere_no_add n b0 Hsolo0 Hne h); [exact Ht|by left]. }
    assert (Hnew : entries (direct (conns_at (extend n b (ERun h good)) b)) !! v = Some home).
    { rewrite Heq, add_user_entries, decide_True by done. unfold wver. by rewrite Hd, identity_at. }
    assert (Hus : users (conns_at (extend n b (ERun h good)) b) !! v = Some (c, h')) by (rewrite Heq, au_users; by rewrite lookup_insert).
    split; [|split; [|split; [|split]]].
    + apply only_extend; try done; [|intros e; rewrite Hnew; by intros [= <-]]. intros x e Hab. exfalso. by eapply Hcl.
    + by rewrite Hus.
    + exact Hnew.
    + intros h1 t1 c1 ts1 h1' Ht1 Hin1. pose proof (pending_authed _ _ _ _ _ _ _ Ht1 Hin1) as Hau1. pose proof (registered_authed _ _ _ _ Hus) as Hau.
      destruct (solo_unique _ _ _ _ _ _ Hsolo Hau1 Hau) as (_ & -> & ->).
      rewrite run_extend in Hus, Ht1. eapply (registered_not_pending deser dec_users dec_topics valid b (trace n b ++ [ERun h good]) h' (OUser v c)).
      * exact Hus.
      * exists h1, t1. split; [exact Ht1|]. apply adds_in. eexists _, _. split; [exact Hin1|reflexivity].
    + intros cb a ha _ _ _. left. rewrite Heq. apply add_user_modified. by left.
  - left. apply only_extend; try done. intros e. rewrite Heq, op_clean; [done| | |done].
    + intros c ts h' ->. apply Hadd. destruct a; cbn in Ha; try done. injection Ha as -> -> -> ->. eauto.
    + intros m ->. destruct a; cbn in Ha; try done. injection Ha as ->. destruct (entries m !! v) as [e'|] eqn:He'; [|done]. exfalso. by eapply (only_apply _ _ _ _ _ _ _ _ _ _ Hcl).
Qed.

(** From gone. *)
Lemma gone_extend n b0 ev : solo (extend n b0 ev) -> gone n -> gone (extend n b0 ev).
Proof.
  intros Hsolo ((c0 & h0 & Hau) & Hu & Hn). split; [|split].
  - exists c0, h0. destruct Hau as (hh & ts & Hin). exists hh, ts. rewrite trace_extend. case_decide; [|done]. apply in_app_iff. by left.
  - destruct (decide (b0 = b)) as [->|Hne]; [|by rewrite run_other].
    destruct (conns_step n b ev) as [Heq|(h & good & o & a & l & op & k & cop & -> & Ht & Ha & Heq)]; rewrite Heq; [done|].
    apply op_users; [|done]. by eapply op_not_add.
  - apply no_add_extend; eauto.
Qed.

(** From connected. *)
Lemma up_extend n b0 ev :
  net_inv n -> sound n -> frames_le n -> possible n b0 ev -> fine (extend n b0 ev) -> solo (extend n b0 ev) ->
  up n -> up (extend n b0 ev) \/ gone (extend n b0 ev).
Proof.
  intros Hi Hs Hfl Hp Hf Hsolo (Hon & Hu & Hd & Hna & Hcov). pose proof (solo_extend _ _ _ Hsolo) as Hsolo0. set (n' := extend n b0 ev) in *.
  assert (Hau : exists c h, authed_user (trace n b) v c h).
  { destruct (users (conns_at n b) !! v) as [[c h]|] eqn:E; [|done]. exists c, h. by eapply registered_authed. }
  assert (Hna' : no_add n') by (by apply no_add_extend).
  destruct (users (conns_at n' b) !! v) as [[c0 h0]|] eqn:Eu.
  2:{ right. split; [|done]. destruct Hau as (c1 & h1 & hh & ts & Hin). exists c1, h1, hh, ts. unfold n'. rewrite trace_extend. case_decide; [|done]. apply in_app_iff. by left. }
  left.
  assert (Hnoadd : forall h' t c ts h1, tasks_at n b0 !! h' = Some t -> ~ In (AAddUser v c ts h1) (t_acts t)).
  { destruct (decide (b0 = b)) as [->|Hne]; [exact Hna|by apply elsewhere_no_add]. }
  assert (Hkeep : (forall e, entries (direct (conns_at n' b0)) !! v = Some e -> e = home)
    /\ (d_in (direct (conns_at n b0)) -> d_in (direct (conns_at n' b0)))
    /\ (b0 = b -> v ∈ modified (direct (conns_at n b0)) -> v ∈ modified (direct (conns_at n' b0))
         \/ exists h good o l op k, ev = ERun h good /\ tasks_at n b0 !! h = Some (Task o (APartialUserSync :: l) op k))).
  { unfold n'. destruct (conns_step n b0 ev) as [Heq|(h & good & o & a & l & op & k & cop & -> & Ht & Ha & Heq)].
    { rewrite Heq. split_and!; auto. intros e He. by apply (only_direct _ n b0 e Hon). }
    assert (Hk : identity (conns_at n b0) <> b \/ users (c_step (conns_at n b0) cop) !! v <> None).
    { rewrite identity_at. destruct (decide (b0 = b)) as [->|Hne]; [right|by left]. rewrite <- Heq. unfold n' in Eu. by rewrite Eu. }
    destruct (op_keeps v b (conns_at n b0) cop) as (K1 & K2 & _ & K4); [by eapply op_not_add| | |exact Hk|].
    { intros m e -> He. destruct a; cbn in Ha; try done. injection Ha as ->. exact (only_apply _ n b0 _ _ _ _ _ _ e Hon Ht He). }
    { intros e He. exact (only_direct _ n b0 e Hon He). }
    rewrite Heq. split; [exact K1|]. split; [exact K2|]. intros -> Hm. rewrite identity_at in K4. destruct (K4 eq_refl Hm) as [?|Hc]; [by left|right].
    subst cop. destruct a; cbn in Ha; try done. eauto 10. }
  destruct Hkeep as (K1 & K2 & K3).
  assert (Hd' : d_in (direct (conns_at n' b))).
  { destruct (decide (b0 = b)) as [->|Hne]; [by apply K2|]. unfold n'. by rewrite run_other. }
  split; [by apply only_extend|]. split; [by rewrite Eu|]. split; [done|]. split; [done|].
  intros cb a ha Hl Hc' Hlive. change (n_links n !! (b, cb) = Some (a, ha)) in Hl.
  destruct (proj1 Hi _ _ _ _ Hl) as (Hab & _ & ca & ta & Hta & Hoa).
  destruct (decide (c_get_broker_connection (conns_at n b) a = Some cb)) as [Hc|Hc].
  2:{ right. right. right. right. destruct (decide (b0 = b)) as [->|Hnb]; [by apply conns_extend_reg|]. unfold n' in Hc'. by rewrite run_other in Hc'. }
  assert (Hlm : live (broker_at n a) ha).
  { destruct (decide (b0 = a)) as [->|Hna0]; [|unfold n' in Hlive; by rewrite run_other in Hlive]. unfold n' in Hlive. rewrite run_extend in Hlive. eapply live_back; [|exact Hlive]. by exists ta. }
  destruct (Hcov cb a ha Hl Hc Hlm) as [Hm|Hcv].
  - destruct (decide (b0 = b)) as [->|Hnb]; [|left; unfold n'; by rewrite run_other].
    destruct (K3 eq_refl Hm) as [?|(h & good & o & l & op & k & -> & Ht)]; [by left|right]. right. right. right.
    destruct (partial_in_out _ _ _ Hm Hd) as (d & Hd1 & Hd2). unfold n'. rewrite run_extend.
    eapply (delta_tells deser dec_users dec_topics valid a cb d_G false b (trace n b) _ h good o l op k (FUserSync d)); [done|exact Ht| |by exists d].
    change (m_run b (trace n b)) with (broker_at n b). by rewrite Hd1.
  - right. apply (cov_step deser dec_users dec_topics valid enc_users enc_topics false d_G d_App d_A n b0 ev b cb a ha); try done.
    + exists (direct (conns_at n b)). split; [|by eexists]. unfold c_get_full_user_sync. rewrite decide_False; [done|]. intros He. unfold d_in in Hd. by rewrite He in Hd.
    + intros f hk (d & -> & Hin) Hk. destruct (user_frame_acts deser dec_users dec_topics enc_users enc_topics Hcodec b d hk Hk) as (d' & Heq & He & _). rewrite Heq.
      eexists. split; [by left|]. exists d'. split; [done|]. unfold d_in. by rewrite He.
    + (* applying it at the other end *)
      intros x c (d & -> & Hin) _. eexists. split; [reflexivity|]. unfold d_A, d_in.
      destruct (op_keeps v b (conns_at n a) (CApplyUserSync d)) as (_ & _ & K & _); [done| | | |by apply (K d)].
      * intros m e [= <-] He. unfold d_in in Hin. congruence.
      * intros e He. exact (only_direct _ n a e Hon He).
      * left. rewrite identity_at. congruence.
    + intros HA. destruct (decide (b0 = a)) as [->|Hne]; [by apply K2|]. unfold d_A. by rewrite run_other.
Qed.

Definition phase (n : net) : Prop := clean n \/ up n \/ gone n.
Lemma phase_empty : phase (Net ∅ ∅).
Proof.
  left. intros x e Hab. unfold NetModel.broker_at, trace in Hab. cbn in Hab. rewrite lookup_empty in Hab. cbn in Hab.
  destruct Hab as [Hab|[(h & t & _ & _ & Hab & _)|(y & d & [] & _)]]; cbn in Hab; by rewrite lookup_empty in Hab.
Qed.
Lemma phase_extend n b0 ev :
  net_inv n -> sound n -> frames_le n -> possible n b0 ev -> fine (extend n b0 ev) -> solo (extend n b0 ev) -> phase n -> phase (extend n b0 ev).
Proof.
  intros Hi Hs Hfl Hp Hfe Hsolo [Hc|[Hu|Hg]].
  - destruct (clean_extend n b0 ev Hi Hs Hp Hsolo Hc); unfold phase; auto.
  - destruct (up_extend n b0 ev Hi Hs Hfl Hp Hfe Hsolo Hu); unfold phase; auto.
  - right. right. by apply gone_extend.
Qed.
Lemma phase_linked n a ha hha ca b' hb hhb cb :
  a <> b' -> fresh_pair n a ha hha ca -> fresh_pair n b' hb hhb cb ->
  phase (extend (extend n a (EBrokerAuthed ha hha b' ca)) b' (EBrokerAuthed hb hhb a cb)) -> phase (linked_up n a ha hha ca b' hb hhb cb).
Proof.
  intros Hne Ha Hb HP. set (n1 := extend _ b' _) in *.
  destruct HP as [Hc|[(U1 & U2 & U3 & U4 & U5)|Hg]]; [left; exact Hc| |right; right; exact Hg].
  right. left. split; [exact U1|]. split; [exact U2|]. split; [exact U3|]. split; [exact U4|].
  intros cb' a' ha' Hl Hc Hlive. unfold linked_up in Hl. fold n1 in Hl. cbn [n_links] in Hl.
  change (c_get_broker_connection (conns_at n1 b) a' = Some cb') in Hc.
  assert (Hfresh : forall x y c, (x = a /\ c = ca \/ x = b' /\ c = cb) -> c_get_broker_connection (conns_at n1 x) y <> Some c).
  { intros x y c Hx Hc1.
    assert (Hsame : conns_at n1 x = conns_at n x).
    { unfold n1. rewrite broker_extend. case_decide; subst.
      - rewrite run_other by done. cbn [TaskModel.m_step]. by destruct (decide _).
      - rewrite broker_extend. case_decide; [|done]. subst. cbn [TaskModel.m_step]. by destruct (decide _). }
    rewrite Hsame in Hc1. assert (Hfr : c ∉ authed_conns (trace n x)) by (destruct Hx as [[-> ->]|[-> ->]]; [apply Ha|apply Hb]). apply Hfr.
    unfold c_get_broker_connection in Hc1. destruct (brokers (conns_at n x) !! y) as [be|] eqn:E; [|done]. cbn in Hc1. injection Hc1 as <-.
    destruct (reg_run deser dec_users dec_topics valid x (trace n x)) as [[_ Hr] _]. destruct (Hr _ _ E) as (hh & Hin).
    apply elem_of_list_In, in_concat. exists [be_conn be]. split; [|by left]. apply in_map_iff. eexists. split; [|exact Hin]. done. }
  apply lookup_insert_Some in Hl as [[Heq Hv]|[_ Hl]].
  { injection Heq as <- <-. exfalso. eapply Hfresh; [|exact Hc]. by left. }
  apply lookup_insert_Some in Hl as [[Heq Hv]|[_ Hl]].
  { injection Heq as <- <-. exfalso. eapply Hfresh; [|exact Hc]. by right. }
  by apply (U5 cb' a' ha').
Qed.

Lemma phases es : hooks_pass es -> fine (n_run es) -> solo (n_run es) -> phase (n_run es).
Proof.
  intros Hh Hf Hsolo. revert Hsolo.
  destruct (net_induct2 deser dec_users dec_topics valid enc_users enc_topics Hcodec (fun n => solo n -> phase n) es Hh Hf) as (_ & _ & HP); [| | |exact HP].
  - intros _. apply phase_empty.
  - intros n b0 ev Hi Hs Hfl IH Hp Hfe Hsolo. apply phase_extend; try done. by apply IH, (solo_extend _ _ _ Hsolo).
  - intros n a ha hha ca b' hb hhb cb Hi Hs _ Hne Ha Hb Hfl HP Hsolo. apply phase_linked; try done. by apply HP.
Qed.

Lemma solo_directory es a :
  hooks_pass es -> let n := n_run es in fine n -> at_rest n -> joined n a b -> solo n ->
  (c_get_partial_user_sync (conns_at n b)).2 = None -> (exists c, c_get_user_connection (conns_at n b) v = Some c) ->
  c_get_broker_identifier_of_user (conns_at n a) v = Some b.
Proof.
  intros Hh n Hf Hr Hj Hsolo Hnone Hc.
  pose proof (inv_run deser dec_users dec_topics valid enc_users enc_topics es) as Hi. fold n in Hi.
  pose proof (phases es Hh Hf Hsolo) as Hph. fold n in Hph. destruct Hph as [Hcl|[(U1 & U2 & U3 & U4 & U5)|(_ & Hg & _)]].
  - exfalso. apply state_directory in Hc. unfold c_get_broker_identifier_of_user, vm_get in Hc.
    destruct (entries (direct (conns_at n b)) !! v) as [e|] eqn:E; [|done]. by apply (only_direct _ n b e Hcl).
  - destruct (joined_live deser dec_users dec_topics valid enc_users enc_topics n a b Hi Hj) as (ca & cb & ha & R & Hcb & Hl & HR & Hlive).
    destruct (U5 _ _ _ Hl Hcb Hlive) as [Hm|Hcov].
    + exfalso. destruct (partial_in_out _ _ _ Hm U3) as (d & Hd & _). congruence.
    + apply (rest_cov deser dec_users dec_topics valid _ _ _ _ _ _ _ _ _ _ _ Hf Hr Hl HR) in Hcov. unfold d_A, d_in in Hcov.
      unfold c_get_broker_identifier_of_user, vm_get. by rewrite Hcov.
  - exfalso. destruct Hc as [c Hc]. unfold c_get_user_connection in Hc. by rewrite Hg in Hc.
Qed.
End user.

(** Users admitted at most once in the whole network, whether anywhere or at one broker. *)
Definition admitted_once (n : net) (v : ukey) : Prop :=
  forall x i h hh c ts y j h' hh' c' ts',
    trace n x !! i = Some (EUserAuthed h hh v c ts) -> trace n y !! j = Some (EUserAuthed h' hh' v c' ts') -> x = y /\ i = j.

Lemma directory_settles es a b v :
  hooks_pass es -> let n := n_run es in fine n -> at_rest n -> joined n a b -> admitted_once n v ->
  (c_get_partial_user_sync (conns_at n b)).2 = None -> (exists c, c_get_user_connection (conns_at n b) v = Some c) ->
  c_get_broker_identifier_of_user (conns_at n a) v = Some b.
Proof.
  intros Hh n Hf Hr Hj Hone Hnone Hc. apply solo_directory; try done. intros x i ev Hx Hadm.
  destruct ev as [h hh u c ts| | | | | | |]; try done. cbn in Hadm. subst u.
  assert (Hb : exists j h' hh' c' ts', trace n b !! j = Some (EUserAuthed h' hh' v c' ts')).
  { destruct Hc as [c1 Hc]. unfold c_get_user_connection in Hc. destruct (users (m_conns (broker_at n b)) !! v) as [[c2 h2]|] eqn:E; [|done].
    destruct (registered_authed v n b c2 h2 E) as (hh' & ts' & Hin). apply in_lookup in Hin as [j Hj']. eauto 10. }
  destruct Hb as (j & h' & hh' & c' & ts' & Hj'). destruct (Hone _ _ _ _ _ _ _ _ _ _ _ _ Hx Hj') as [-> _]. split; [done|].
  intros k ev' Hk Hadm'. destruct ev' as [h2 hh2 u2 c2 ts2| | | | | | |]; try done. cbn in Hadm'. subst u2.
  by destruct (Hone _ _ _ _ _ _ _ _ _ _ _ _ Hk Hx).
Qed.
End net.
