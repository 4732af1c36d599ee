(** Proofs: a user that moves to another broker is found there. *)
From stdpp Require Import gmap fin_maps fin_sets list.
From Coq Require Import NArith ZArith Lia.
From Verif Require Import IdModel RelMapModel RelMapProofs VMapModel VMapSpec VMapProofs ConnModel ConnSpec ConnProofs ConnProofs2 ConnProofs3 ConnProofs4
  SyncSpec SyncModel DirSyncProofs TopicSyncProofs TopicModel TopicProofs MsgModel RouteModel RouteProofs TaskModel TaskProofs TaskOrder TaskHandles TaskIsolation TaskSync
  NetModel NetProofs NetOrigin NetDelivery NetComplete NetSynced NetSettle NetSettleDir FifoProofs BusyProofs MoveSpec.

(** ** What an operation does to the record about one user *)
Lemma rus_tomb s us v :
  entries (direct (remove_users s us)) !! v = entries (direct s) !! v
  \/ v ∈ us /\ vm_get (direct s) v = Some (identity s) /\ exists k, entries (direct (remove_users s us)) !! v = Some (VVal k None).
Proof.
  revert s. induction us as [|u us IH]; intros s; [by left|]. rewrite remove_users_cons.
  destruct (decide (u = v /\ vm_get (direct s) u = Some (identity s))) as [[-> Hg]|Hn].
  - right. split; [left|]. split; [done|].
    assert (Hd : entries (direct (c_remove_user s v)) !! v = Some (VVal (wver (direct s) v) None)) by (rewrite ru_direct, rie_entries; by rewrite decide_True).
    exists (wver (direct s) v). rewrite rus_entries; [done|]. right. unfold vm_get. by rewrite Hd.
  - assert (Hd : entries (direct (c_remove_user s u)) !! v = entries (direct s) !! v).
    { rewrite ru_direct, rie_entries. case_decide as H; [|done]. destruct H as [-> H]. by destruct Hn. }
    destruct (IH (c_remove_user s u)) as [IH1|(H1 & H2 & H3)]; [left; congruence|right]. rewrite ru_identity in H2. split; [by right|]. split; [|done].
    unfold vm_get in *. by rewrite Hd in H2.
Qed.
Lemma rus_mod_back s us v : v ∈ modified (direct (remove_users s us)) -> v ∈ modified (direct s) \/ v ∈ us /\ vm_get (direct s) v = Some (identity s).
Proof.
  revert s. induction us as [|u us IH]; intros s Hv; [by left|]. rewrite remove_users_cons in Hv.
  destruct (IH _ Hv) as [H|[H1 H2]].
  - rewrite ru_direct, rie_modified in H. destruct H as [?|[-> ?]]; [by left|right]. split; [left|done].
  - right. split; [by right|]. rewrite ru_identity in H2. unfold vm_get in *. rewrite ru_direct, rie_entries in H2. case_decide as H; [done|done].
Qed.

(** What is on record after an operation that does not remove the user. *)
Definition next_record (s : conns) (o : conn_op) (v : ukey) : option (vval bid) :=
  match o with
  | CApplyUserSync m => lww bid_gtb (cid m) (cid (direct s)) (entries (direct s) !! v) (entries m !! v)
  | CPartialUserSync => if decide (v ∈ modified (direct s)) then match entries (direct s) !! v with Some (VVal _ None) => None | x => x end else entries (direct s) !! v
  | _ => entries (direct s) !! v
  end.
Lemma op_record s o v :
  (forall c ts h, o <> CAddUser v c ts h) ->
  entries (direct (c_step s o)) !! v = next_record s o v
    /\ (v ∈ modified (direct (c_step s o)) -> v ∈ modified (direct s))
    /\ (v ∈ modified (direct s) -> v ∈ modified (direct (c_step s o)) \/ o = CPartialUserSync \/ users (c_step s o) !! v = None)
  \/ users (c_step s o) !! v = None /\ vm_get (direct (c_step s o)) v = None /\ exists e, next_record s o v = Some e /\ val e = Some (identity s).
Proof.
  intros Hadd. destruct (decide (neutral o)) as [Hn|Hn].
  { left. rewrite neutral_direct by done. split; [by destruct o|]. auto. }
  destruct o; try (exfalso; by apply Hn); cbn [c_step next_record] in *.
  - left. assert (Hne : u <> v) by (intros ->; by edestruct Hadd). split; [rewrite add_user_entries, decide_False; done|]. rewrite add_user_modified. split; [|auto]. intros [?|?]; [by subst|done].
  - destruct (decide (u = v /\ vm_get (direct s) u = Some (identity s))) as [[-> Hg]|Hne].
    + right. split; [rewrite ru_users; by rewrite lookup_delete|]. unfold vm_get in *. rewrite ru_direct, rie_entries, decide_True by done. split; [done|].
      destruct (entries (direct s) !! v) as [e|]; [|done]. eauto.
    + left. rewrite ru_direct, rie_entries, rie_modified, decide_False by done. split; [done|]. split; [|auto]. intros [?|?]; [done|by destruct Hne].
  - rewrite apply_user_sync_eq. set (s1 := set_direct (vm_merge bid_gtb (direct s) m).1 s). set (us := map fst (vm_merge bid_gtb (direct s) m).2).
    assert (Hm : entries (direct s1) !! v = lww bid_gtb (cid m) (cid (direct s)) (entries (direct s) !! v) (entries m !! v)) by (unfold s1; cbn; by rewrite merge_lookup).
    destruct (decide (v ∈ us /\ vm_get (direct s1) v = Some (identity s1))) as [[Hin Hg]|Hno].
    + right. split; [rewrite rus_users; by rewrite decide_True|]. split.
      * destruct (rus_tomb s1 us v) as [H|(_ & _ & k & H)]; [|unfold vm_get; by rewrite H].
        exfalso. revert Hin Hg H. clearbody us s1. clear. revert s1. induction us as [|u us IH]; intros s Hin Hg H; [by apply elem_of_nil in Hin|].
        rewrite remove_users_cons in H. destruct (decide (u = v)) as [->|Hne].
        { assert (Hd : entries (direct (c_remove_user s v)) !! v = Some (VVal (wver (direct s) v) None)) by (rewrite ru_direct, rie_entries; by rewrite decide_True).
          rewrite rus_entries in H; [|right; unfold vm_get; by rewrite Hd]. rewrite Hd in H. unfold vm_get in Hg. by rewrite <- H in Hg. }
        assert (Hd : entries (direct (c_remove_user s u)) !! v = entries (direct s) !! v) by (rewrite ru_direct, rie_entries; rewrite decide_False; [done|tauto]).
        apply (IH (c_remove_user s u)); [set_solver| |congruence]. rewrite ru_identity. unfold vm_get in *. by rewrite Hd.
      * rewrite <- Hm. unfold vm_get in Hg. destruct (entries (direct s1) !! v) as [e|]; [|done]. exists e. done.
    + left. split; [|split].
      * rewrite <- Hm. apply rus_entries. destruct (decide (v ∈ us)); [right|by left]. intros Hg. by apply Hno.
      * intros H. apply rus_mod_back in H as [H|H]; [|by destruct Hno]. unfold s1 in H. cbn in H. by apply merge_modified in H as [? _].
      * intros Hv. destruct (decide (v ∈ us)) as [Hin|Hin]; [right; right; rewrite rus_users; by rewrite decide_True|]. left. apply rus_modified. unfold s1. cbn.
        apply merge_modified. split; [done|]. intros (_ & rv & Hr & Hw). apply Hin. unfold us. apply elem_of_list_In, in_map_iff. exists (v, val rv). split; [done|]. apply merge_changes. eauto.
  - left. rewrite partial_user_direct. cbn [fst set_direct direct]. rewrite diff_rest_lookup. split; [done|]. split; [|auto].
    rewrite diff_rest_modified. set_solver.
Qed.

(** ** The record before and after the move *)
Definition old_of (r : option (N * bid)) : option (vval bid) := match r with Some (k, b0) => Some (VVal k (Some b0)) | None => None end.
Definition new_of (r : option (N * bid)) (b : bid) : vval bid := VVal (match r with Some (k, _) => u64_succ k | None => 1 end) (Some b).
Definition goes_on (r : option (N * bid)) (b : bid) : Prop := forall k b0, r = Some (k, b0) -> (k + 1 < u64_modulus)%N /\ b0 <> b.

Section record.
Variables (r : option (N * bid)) (b : bid).
Hypothesis Hgo : goes_on r b.
Definition is_old (e : vval bid) : Prop := old_of r = Some e.
Definition is_rec (e : vval bid) : Prop := is_old e \/ e = new_of r b.

Lemma old_lower e : is_old e -> (ver e < ver (new_of r b))%N.
Proof.
  unfold is_old, old_of, new_of. destruct r as [[k b0]|]; [|done]. intros [= <-]. cbn [ver]. destruct (Hgo k b0 eq_refl) as [Hk _].
  unfold u64_succ. rewrite N.mod_small by done. lia.
Qed.
Lemma old_taken e : is_old e -> taken e = Some e.
Proof. unfold is_old, old_of. destruct r as [[k b0]|]; [|done]. by intros [= <-]. Qed.
Lemma old_elsewhere e : is_old e -> val e <> Some b.
Proof. unfold is_old, old_of. destruct r as [[k b0]|]; [|done]. intros [= <-]. cbn. destruct (Hgo k b0 eq_refl) as [_ Hne]. congruence. Qed.
Lemma rec_taken e : is_rec e -> taken e = Some e.
Proof. intros [He| ->]; [by apply old_taken|done]. Qed.

Lemma lww_rec rid sid l rr :
  (forall e, l = Some e -> is_rec e) -> (forall e, rr = Some e -> is_rec e) -> forall e, lww bid_gtb rid sid l rr = Some e -> is_rec e.
Proof.
  intros Hl Hr e. unfold lww. destruct rr as [rv|]; [|apply Hl]. case_decide; [|apply Hl]. rewrite rec_taken by (by apply Hr). intros [= <-]. by apply Hr.
Qed.
Lemma lww_new_kept rid sid rr : (forall e, rr = Some e -> is_rec e) -> lww bid_gtb rid sid (Some (new_of r b)) rr = Some (new_of r b).
Proof.
  intros Hr. unfold lww. destruct rr as [rv|]; [|done]. case_decide as Hw; [|done]. destruct (Hr rv eq_refl) as [Ho| ->]; [|done].
  exfalso. pose proof (old_lower rv Ho) as Hlt. cbn [remote_wins] in Hw. lia.
Qed.
Lemma lww_new_taken rid sid l : (forall e, l = Some e -> is_rec e) -> lww bid_gtb rid sid l (Some (new_of r b)) = Some (new_of r b).
Proof.
  intros Hl. unfold lww. case_decide as Hw; [done|]. destruct l as [e|]; [|exfalso; by apply Hw]. destruct (Hl e eq_refl) as [Ho| ->]; [|done].
  exfalso. apply Hw. left. by apply old_lower.
Qed.
Lemma lww_old_kept rid sid rr : (forall e, rr = Some e -> is_old e) -> lww bid_gtb rid sid (old_of r) rr = old_of r.
Proof.
  intros Hr. unfold lww. destruct rr as [rv|]; [|done]. case_decide; [|done]. rewrite old_taken by (by apply Hr). symmetry. by apply (Hr rv).
Qed.
Lemma lww_old rid sid l rr : (forall e, l = Some e -> is_old e) -> (forall e, rr = Some e -> is_old e) -> forall e, lww bid_gtb rid sid l rr = Some e -> is_old e.
Proof.
  intros Hl Hr e. unfold lww. destruct rr as [rv|]; [|apply Hl]. case_decide; [|apply Hl]. rewrite old_taken by (by apply Hr). intros [= <-]. by apply Hr.
Qed.

(** The same for the record after an operation. *)
Section op.
Variables (s : conns) (o : conn_op) (v : ukey).
Lemma partial_same : (forall e, entries (direct s) !! v = Some e -> is_rec e) -> next_record s CPartialUserSync v = entries (direct s) !! v.
Proof.
  intros Hl. cbn [next_record]. case_decide; [|done]. destruct (entries (direct s) !! v) as [[k [w|]]|]; [done| |done].
  exfalso. pose proof (rec_taken _ (Hl _ eq_refl)) as Hx. by cbn in Hx.
Qed.
Lemma next_rec : (forall e, entries (direct s) !! v = Some e -> is_rec e) -> (forall m e, o = CApplyUserSync m -> entries m !! v = Some e -> is_rec e) ->
  (forall e, next_record s o v = Some e -> is_rec e)
  /\ (entries (direct s) !! v = Some (new_of r b) -> next_record s o v = Some (new_of r b))
  /\ (forall m, o = CApplyUserSync m -> entries m !! v = Some (new_of r b) -> next_record s o v = Some (new_of r b)).
Proof.
  intros Hl Hr. destruct o; try (split; [exact Hl|split; [done|done]]).
  - cbn [next_record]. split; [|split].
    + apply lww_rec; [exact Hl|]. exact (fun e => Hr _ e eq_refl).
    + intros ->. apply lww_new_kept. exact (fun e => Hr _ e eq_refl).
    + intros m' [= <-] ->. by apply lww_new_taken.
  - rewrite partial_same by done. done.
Qed.
Lemma next_old : (forall e, entries (direct s) !! v = Some e -> is_old e) -> (forall m e, o = CApplyUserSync m -> entries m !! v = Some e -> is_old e) ->
  (forall e, next_record s o v = Some e -> is_old e) /\ (entries (direct s) !! v = old_of r -> next_record s o v = old_of r).
Proof.
  intros Hl Hr. destruct o; try (split; [exact Hl|done]).
  - cbn [next_record]. split; [apply lww_old; [exact Hl|]; exact (fun e => Hr _ e eq_refl)|]. intros ->. apply lww_old_kept. exact (fun e => Hr _ e eq_refl).
  - rewrite partial_same by (intros e He; left; by apply Hl). done.
Qed.
End op.
End record.

(** ** Steps of a broker *)
Section machine.
Variable deser : bytes -> option message.
Variable dec_users : bytes -> option direct_map.
Variable dec_topics : bytes -> option topic_map.
Variable valid : N -> bool.
Notation m_step := (m_step deser dec_users dec_topics valid).
Notation loop_frame := (loop_frame deser dec_users dec_topics valid).

(** Loops that are open now were open before. *)
Lemma step_opened m e h t0 t :
  m_tasks m !! h = Some t0 -> m_tasks (m_step m e) !! h = Some t -> t_open t = true -> t_open t0 = true.
Proof.
  intros H0 Ht Ho. destruct e as [h1 h2 w c1 ts|h1 h2 b1 c1|h2|h2 w|h1 raw hk|h1|h1 good|h1]; cbn [TaskModel.m_step] in Ht.
  - case_decide as Hd; [|congruence]. destruct Hd as (_ & Hn1 & Hn2). cbn in Ht.
    apply lookup_insert_Some in Ht as [[<- _]|[_ Ht]]; [congruence|]. apply lookup_insert_Some in Ht as [[<- _]|[_ Ht]]; congruence.
  - case_decide as Hd; [|congruence]. destruct Hd as (_ & Hn1 & Hn2). cbn in Ht.
    apply lookup_insert_Some in Ht as [[<- _]|[_ Ht]]; [congruence|]. apply lookup_insert_Some in Ht as [[<- _]|[_ Ht]]; congruence.
  - destruct (m_tasks m !! h2) eqn:E; [congruence|]. cbn in Ht. apply lookup_insert_Some in Ht as [[<- _]|[_ Ht]]; congruence.
  - destruct (m_tasks m !! h2) eqn:E; [congruence|]. cbn in Ht. apply lookup_insert_Some in Ht as [[<- _]|[_ Ht]]; congruence.
  - destruct (m_tasks m !! h1) as [[o [|? ?] [|] k]|] eqn:E; try congruence. destruct (loop_frame o raw hk) as [acts go]. cbn in Ht.
    apply lookup_insert_Some in Ht as [[<- <-]|[_ Ht]]; [|congruence]. rewrite E in H0. by injection H0 as <-.
  - destruct (m_tasks m !! h1) as [[o [|? ?] [|] k]|] eqn:E; try congruence. cbn in Ht.
    apply lookup_insert_Some in Ht as [[<- <-]|[_ Ht]]; [|congruence]. done.
  - destruct (m_tasks m !! h1) as [[o [|a l] op k]|] eqn:E; try congruence. destruct (act_step (fun _ => good) (m_conns m) a) as [[s' nxt] sends]. cbn in Ht.
    apply lookup_insert_Some in Ht as [[<- <-]|[_ Ht]]; [|congruence]. rewrite E in H0. by injection H0 as <-.
  - destruct (m_tasks m !! h1) as [[o l op k]|] eqn:E; [|congruence]. case_decide; [|congruence]. cbn in Ht.
    apply lookup_insert_Some in Ht as [[<- <-]|[_ Ht]]; [|congruence]. done.
Qed.

(** What a step sends comes after everything sent before. *)
Lemma sent_added m e :
  exists l, m_sent (m_step m e) = m_sent m ++ l
  /\ forall y, In y l -> exists h good o a l0 op n s' nxt sends, e = ERun h good /\ m_tasks m !! h = Some (Task o (a :: l0) op n)
       /\ act_step (fun _ => good) (m_conns m) a = (s', nxt, sends) /\ In (s_what y) sends.
Proof.
  destruct e as [h1 h2 w c1 ts|h1 h2 b1 c1|h2|h2 w|h1 raw hk|h1|h1 good|h1]; cbn [TaskModel.m_step].
  - exists []. case_decide; by rewrite app_nil_r.
  - exists []. case_decide; by rewrite app_nil_r.
  - exists []. destruct (m_tasks m !! h2); by rewrite app_nil_r.
  - exists []. destruct (m_tasks m !! h2); by rewrite app_nil_r.
  - exists []. rewrite app_nil_r. destruct (m_tasks m !! h1) as [[o [|? ?] [|] k]|]; try done. by destruct (loop_frame o raw hk).
  - exists []. rewrite app_nil_r. by destruct (m_tasks m !! h1) as [[o [|? ?] [|] k]|].
  - destruct (m_tasks m !! h1) as [[o [|a l] op k]|] eqn:E; try (exists []; by rewrite app_nil_r).
    destruct (act_step (fun _ => good) (m_conns m) a) as [[s' nxt] sends] eqn:Ea. cbn. exists (map (Sent h1 k) sends). split; [done|].
    intros y Hy. apply in_map_iff in Hy as (x & <- & Hx). exists h1, good, o, a, l, op, k, s', nxt, sends. done.
  - exists []. rewrite app_nil_r. destruct (m_tasks m !! h1) as [[o l op k]|]; [by case_decide|done].
Qed.

(** A frame that a loop does something about was received by an open loop with nothing else to do. *)
Lemma frame_acts m h raw hk t y :
  m_tasks (m_step m (EFrame h raw hk)) !! h = Some t -> In y (t_acts t) ->
  (exists t0, m_tasks m !! h = Some t0 /\ In y (t_acts t0))
  \/ exists o k, m_tasks m !! h = Some (Task o [] true k) /\ In y (loop_frame o raw hk).1.
Proof.
  cbn [TaskModel.m_step]. intros Ht Hy. destruct (m_tasks m !! h) as [[o [|? ?] [|] k]|] eqn:E; try (left; rewrite E in Ht; by eauto).
  destruct (loop_frame o raw hk) as [acts go] eqn:El. cbn in Ht. rewrite lookup_insert in Ht. injection Ht as <-. right. exists o, k. by rewrite El.
Qed.
End machine.

Section net.
Variable deser : bytes -> option message.
Variable dec_users : bytes -> option direct_map.
Variable dec_topics : bytes -> option topic_map.
Variable valid : N -> bool.
Variable enc_users : direct_map -> bytes.
Variable enc_topics : topic_map -> bytes.
Hypothesis Hcodec : faithful_sync deser dec_users dec_topics enc_users enc_topics.
Notation m_step := (m_step deser dec_users dec_topics valid).
Notation m_run := (m_run deser dec_users dec_topics valid).
Notation m_run_snoc := (m_run_snoc deser dec_users dec_topics valid).
Notation loop_frame := (loop_frame deser dec_users dec_topics valid).
Notation broker_at := (broker_at deser dec_users dec_topics valid).
Notation fresh_pair := (fresh_pair deser dec_users dec_topics valid).
Notation n_run := (n_run deser dec_users dec_topics valid enc_users enc_topics).
Notation n_run_snoc := (n_run_snoc deser dec_users dec_topics valid enc_users enc_topics).
Notation wire := (wire enc_users enc_topics).
Notation net_inv := (net_inv deser dec_users dec_topics valid enc_users enc_topics).
Notation inv_run := (inv_run deser dec_users dec_topics valid enc_users enc_topics).
Notation fine := (fine deser dec_users dec_topics valid).
Notation possible := (possible deser dec_users dec_topics valid enc_users enc_topics).
Notation sound := (sound deser dec_users dec_topics valid).
Notation frames_le := (frames_le deser dec_users dec_topics valid).
Notation run_extend := (run_extend deser dec_users dec_topics valid).
Notation run_other := (run_other deser dec_users dec_topics valid).
Notation broker_extend := (broker_extend deser dec_users dec_topics valid).
Notation conns_step := (conns_step deser dec_users dec_topics valid).
Notation identity_at := (identity_at deser dec_users dec_topics valid).
Notation cov := (cov deser dec_users dec_topics valid).
Notation joined := (joined deser dec_users dec_topics valid).
Notation at_rest := (at_rest deser dec_users dec_topics valid).
Notation record_at := (record_at deser dec_users dec_topics valid).
Notation on_record := (on_record deser dec_users dec_topics valid).
Notation kept_until_heard := (kept_until_heard deser dec_users dec_topics valid enc_users enc_topics).
Notation conns_at n b := (m_conns (broker_at n b)).
Notation tasks_at n b := (m_tasks (broker_at n b)).

(** *** Induction from a moment on *)
Lemma net_facts es : hooks_pass es -> fine (n_run es) -> net_inv (n_run es) /\ sound (n_run es) /\ frames_le (n_run es).
Proof.
  intros Hh Hf. split; [apply inv_run|].
  destruct (net_induct2 deser dec_users dec_topics valid enc_users enc_topics Hcodec (fun _ => True) es Hh Hf) as (H1 & H2 & _); done.
Qed.
Lemma net_induct_from (P K : net -> Prop) es0 es :
  es0 `prefix_of` es -> hooks_pass es -> fine (n_run es) -> (forall p, es0 `prefix_of` p -> p `prefix_of` es -> K (n_run p)) ->
  P (n_run es0) ->
  (forall n b e, net_inv n -> sound n -> frames_le n -> P n -> possible n b e -> fine (extend n b e) -> K (extend n b e) -> P (extend n b e)) ->
  (forall n a ha hha ca b hb hhb cb, a <> b -> fresh_pair n a ha hha ca -> fresh_pair n b hb hhb cb ->
     P (extend (extend n a (EBrokerAuthed ha hha b ca)) b (EBrokerAuthed hb hhb a cb)) -> P (linked_up n a ha hha ca b hb hhb cb)) ->
  (forall n a ha hha ca b hb hhb cb, fresh_pair n a ha hha ca -> fresh_pair n b hb hhb cb -> K (linked_up n a ha hha ca b hb hhb cb) ->
     K (extend n a (EBrokerAuthed ha hha b ca)) /\ K (extend (extend n a (EBrokerAuthed ha hha b ca)) b (EBrokerAuthed hb hhb a cb))) ->
  P (n_run es).
Proof.
  intros [l ->] Hh Hf HK H0 Hext Hup HKup. induction l as [|e l IH] using rev_ind; [by rewrite app_nil_r|].
  rewrite app_assoc in Hh, Hf, HK |- *. set (es := es0 ++ l) in *. assert (Hpre : es0 `prefix_of` es) by (by apply prefix_app_r).
  assert (Hh' : hooks_pass es).
  { destruct Hh as [H1 H2]. split; [intros a c hk Hin; apply (H1 a c)|intros b h raw hk Hin; apply (H2 b h raw)]; apply in_app_iff; by left. }
  assert (HKn : K (n_run (es ++ [e]))) by (apply HK; [by apply prefix_app_r|done]).
  rewrite n_run_snoc in *. assert (Hf' : fine (n_run es)) by (eapply fine_back; [|exact Hf]; intros b; apply trace_step).
  assert (IHP : P (n_run es)) by (apply IH; [done|done|]; intros p Hp1 Hp2; apply HK; [done|]; etrans; [exact Hp2|by apply prefix_app_r]).
  clear IH. destruct (net_facts es Hh' Hf') as (Hi & Hs & Hfl). set (n := n_run es) in *.
  assert (He : In e (es ++ [e])) by (apply in_app_iff; right; by left).
  destruct e as [b h hh u c ts|a ha hha ca b hb hhb cb|b h raw hk|a c hk|b e]; cbn [NetModel.n_step] in *.
  - case_decide as Hd; [|done]. apply Hext; [done|done|done|done|by constructor|done|done].
  - case_decide as Hd; [|done]. destruct Hd as (Hne & Ha & Hb). fold (linked_up n a ha hha ca b hb hhb cb) in *.
    destruct (HKup n a ha hha ca b hb hhb cb Ha Hb HKn) as [HK1 HK2].
    set (n1 := extend n a (EBrokerAuthed ha hha b ca)) in *.
    assert (Hfn1 : fine (extend n1 b (EBrokerAuthed hb hhb a cb))) by (intros b'; exact (Hf b')).
    assert (Hfn : fine n1) by (by eapply fine_extend).
    assert (Hp1 : possible n a (EBrokerAuthed ha hha b ca)) by (by constructor).
    assert (Hi1 : net_inv n1). { apply inv_extend; [done| |done]. cbn. intros c' [<-|[]]. apply Ha. }
    assert (Hs1 : sound n1) by (by apply (sound_extend deser dec_users dec_topics valid enc_users enc_topics Hcodec)).
    assert (Hfl1 : frames_le n1) by (by apply (frames_le_extend deser dec_users dec_topics valid enc_users enc_topics)).
    apply Hup; try done. apply Hext; [done|done|done| | |done|done].
    + apply Hext; [done|done|done|done|done|done|done].
    + constructor; [done|]. destruct Hb as (Hb1 & Hb2 & Hb3 & Hb4). unfold NetModel.fresh_pair.
      assert (Htb : trace (extend n a (EBrokerAuthed ha hha b ca)) b = trace n b) by (rewrite trace_extend; by rewrite decide_False).
      unfold NetModel.broker_at in *. rewrite Htb. done.
  - destruct (tasks_at n b !! h) as [[[u c|b' c|] acts op k]|] eqn:E; try done.
    apply Hext; [done|done|done|done| |done|done]. eapply p_frame; [exact E|done|]. destruct Hh as [_ H2]. by apply (H2 b h raw).
  - destruct (n_links n !! (a, c)) as [[b h]|] eqn:El; [|done].
    destruct (tasks_at n b !! h) as [t|] eqn:Et; [|done].
    destruct (sent_on (broker_at n a) c !! t_frames t) as [x|] eqn:Ex; [|done].
    apply Hext; [done|done|done|done| |done|done]. eapply p_deliver; [exact El|exact Et|exact Ex|]. destruct Hh as [H1 _]. by apply (H1 a c).
  - destruct (receives_nothing e) eqn:Hr; [|done]. apply Hext; [done|done|done|done|by constructor|done|done].
Qed.

Section user.
Variable v : ukey.

(** *** What is said about [v] anywhere: on record, about to be sent or applied, or not yet read *)
Definition held (m : machine) (e : vval bid) : Prop :=
  entries (direct (m_conns m)) !! v = Some e
  \/ exists h t y d, m_tasks m !! h = Some t /\ In y (t_acts t) /\ (carries y = Some (FUserSync d) \/ y = AApplyUserSync d) /\ entries d !! v = Some e.
Definition unread (n : net) (e : vval bid) : Prop :=
  exists x c a h t i y d, n_links n !! (x, c) = Some (a, h) /\ tasks_at n a !! h = Some t /\ t_open t = true /\ t_frames t <= i
    /\ sent_on (broker_at n x) c !! i = Some y /\ e_frame (s_what y) = FUserSync d /\ entries d !! v = Some e.
Definition said (n : net) (e : vval bid) : Prop := (exists x, held (broker_at n x) e) \/ unread n e.
Definition all_said (E : vval bid -> Prop) (n : net) : Prop := forall e, said n e -> E e.

Lemma made_held m a (good : bool) s' nxt sends h o l op k d e :
  m_tasks m !! h = Some (Task o (a :: l) op k) -> act_step (fun _ => good) (m_conns m) a = (s', nxt, sends) ->
  (exists y, In y nxt /\ carries y = Some (FUserSync d)) \/ (exists y, In y sends /\ e_frame y = FUserSync d) ->
  entries d !! v = Some e -> held m e.
Proof.
  intros Ht Ha Hy He. destruct (act_step_carries _ _ _ _ _ _ _ Ha Hy) as [Hc|[?|[(_ & d' & _ & ?)|[(_ & d' & Hd & Heq)|[(_ & d' & _ & ?)|(_ & d' & Hd & Heq)]]]]]; try done.
  - right. exists h, (Task o (a :: l) op k), a, d. split; [done|]. split; [by left|]. auto.
  - injection Heq as ->. unfold c_get_full_user_sync in Hd. case_decide; [done|]. injection Hd as <-. by left.
  - injection Heq as ->. apply partial_out in Hd. subst d'. rewrite diff_delta_lookup in He. case_decide; [|done]. by left.
Qed.

Lemma said_step n b0 ev e :
  net_inv n -> sound n -> possible n b0 ev ->
  said (extend n b0 ev) e -> said n e \/ entries (direct (conns_at (extend n b0 ev) b0)) !! v = Some e.
Proof.
  intros Hi (S1 & _) Hp [[x Hx]|(x & c & a & h & t & i & y & d & Hl & Ht & Ho & Hle & Hy & Hf & He)].
  - destruct (decide (b0 = x)) as [<-|Hne]; [|left; left; exists x; by rewrite run_other in Hx].
    destruct Hx as [Hx|(h & t & y & d & Ht & Hy & Hc & He)]; [by right|left].
    rewrite broker_extend, decide_True in Ht by done.
    destruct (acts_new _ _ _ _ _ _ _ _ _ Ht Hy) as [(t0 & Ht0 & Hy0)|[Hst|[(raw & hk & t0 & -> & Ht0 & Hy0)|(good & o & a & l & op & k & s' & nxt & sends & -> & Ht0 & Ha & Hy0)]]].
    + left. exists b0. right. eauto 10.
    + exfalso. destruct Hc as [Hc| ->]; [by eapply started_carries|by eapply started_apply].
    + destruct (frame_acts _ _ _ _ _ _ _ _ _ _ Ht Hy) as [(t1 & Ht1 & Hy1)|(o & k & Ht1 & Hy1)]; [left; exists b0; right; eauto 10|].
      rewrite Ht0 in Ht1. injection Ht1 as ->. clear Hy0. cbn [t_owner] in *.
      destruct Hc as [Hc| ->]; [by apply loop_frame_carries in Hy1; rewrite Hy1 in Hc|].
      apply possible_frame in Hp as [(u & c & t1 & Ht1 & Ho & _)|(a & c & t1 & x & Hl & Ht1 & Hx & Hk & ->)]; rewrite Ht0 in Ht1; injection Ht1 as <-.
      * cbn in Ho. subst o. cbn [TaskModel.loop_frame] in Hy1. by apply user_no_apply in Hy1.
      * pose proof (sent_on_elem _ _ _ _ Hx) as [Hx' _].
        destruct (delivered_acts _ _ _ _ _ _ Hcodec n b0 h hk a c _ x (AApplyUserSync d) Hi S1 Hl Ht0 Hx' Hk Hy1 eq_refl) as [(d0 & d' & _ & ? & _)|(d0 & d' & Hfr & Hyy & He' & _)]; [done|].
        injection Hyy as <-. rewrite He' in He. right. eexists a, c, b0, h, _, _, x, d0. split; [done|]. split; [exact Ht0|]. split; [done|]. split; [|split; [exact Hx|done]]. done.
    + left. exists b0. destruct Hc as [Hc| ->]; [|exfalso; by eapply act_step_no_apply].
      eapply made_held; [exact Ht0|exact Ha|left; eauto|exact He].
  - left. change (n_links n !! (x, c) = Some (a, h)) in Hl. destruct (proj1 Hi _ _ _ _ Hl) as (Hax & _ & ca & t0 & Ht0 & Ho0).
    assert (Hback : t_open t0 = true /\ t_frames t0 <= t_frames t).
    { destruct (decide (b0 = a)) as [->|Hne]; [|rewrite run_other in Ht by done; rewrite Ht0 in Ht; by injection Ht as ->].
      rewrite broker_extend, decide_True in Ht by done. split; [by eapply step_opened|].
      destruct (step_frames deser dec_users dec_topics valid _ _ _ _ _ Ht0 Ht) as [->|[-> _]]; lia. }
    destruct Hback as [Ho1 Hle1].
    destruct (decide (b0 = x)) as [->|Hne].
    2:{ right. rewrite run_other in Hy by done. exists x, c, a, h, t0, i, y, d. repeat (split; [done||lia|]). done. }
    rewrite broker_extend, decide_True in Hy by done. destruct (sent_added deser dec_users dec_topics valid (broker_at n x) ev) as (l & Hl' & Hnew).
    unfold sent_on in Hy. rewrite Hl', filter_app in Hy. apply lookup_app_Some in Hy as [Hy|[_ Hy]].
    + right. exists x, c, a, h, t0, i, y, d. repeat (split; [done||lia|]). done.
    + left. exists x. apply elem_of_list_lookup_2, elem_of_list_filter in Hy as [_ Hy]. apply elem_of_list_In in Hy.
      destruct (Hnew y Hy) as (h1 & good & o & a1 & l0 & op & k & s' & nxt & sends & -> & Ht1 & Ha & Hin).
      eapply made_held; [exact Ht1|exact Ha|right; eauto|exact He].
Qed.

Lemma all_said_extend E n b0 ev :
  net_inv n -> sound n -> possible n b0 ev -> all_said E n -> (forall e, entries (direct (conns_at (extend n b0 ev) b0)) !! v = Some e -> E e) ->
  all_said E (extend n b0 ev).
Proof. intros Hi Hs Hp Hn Hd e Hab. destruct (said_step n b0 ev e Hi Hs Hp Hab) as [Hx|Hx]; [by apply Hn|by apply Hd]. Qed.
Lemma all_said_direct E n x e : all_said E n -> entries (direct (conns_at n x)) !! v = Some e -> E e.
Proof. intros Hn He. apply Hn. left. exists x. by left. Qed.
Lemma all_said_apply E n x h o d l op k e : all_said E n -> tasks_at n x !! h = Some (Task o (AApplyUserSync d :: l) op k) -> entries d !! v = Some e -> E e.
Proof. intros Hn Ht He. apply Hn. left. exists x. right. eexists h, _, _, d. split; [exact Ht|]. split; [by left|]. auto. Qed.
Lemma all_said_less (E F : vval bid -> Prop) n : (forall e, E e -> F e) -> all_said E n -> all_said F n.
Proof. intros HEF Hn e He. by apply HEF, Hn. Qed.

(** New links carry nothing yet. *)
Lemma linked_conns n a ha hha ca b' hb hhb cb x :
  conns_at (extend (extend n a (EBrokerAuthed ha hha b' ca)) b' (EBrokerAuthed hb hhb a cb)) x = conns_at n x
  /\ m_sent (broker_at (extend (extend n a (EBrokerAuthed ha hha b' ca)) b' (EBrokerAuthed hb hhb a cb)) x) = m_sent (broker_at n x).
Proof.
  assert (H : forall n y h hh z c, conns_at (extend n y (EBrokerAuthed h hh z c)) x = conns_at n x /\ m_sent (broker_at (extend n y (EBrokerAuthed h hh z c)) x) = m_sent (broker_at n x)).
  { intros n' y h hh z c. rewrite broker_extend. case_decide; [|done]. subst. cbn [TaskModel.m_step]. by case_decide. }
  destruct (H (extend n a (EBrokerAuthed ha hha b' ca)) b' hb hhb a cb) as [-> ->]. apply H.
Qed.
Lemma fresh_unsent n x h hh c : fresh_pair n x h hh c -> sent_on (broker_at n x) c = [].
Proof.
  intros (_ & _ & _ & Hc). destruct (sent_on (broker_at n x) c) as [|y l] eqn:E; [done|exfalso].
  assert (Hy : sent_on (broker_at n x) c !! 0 = Some y) by (by rewrite E). apply sent_on_elem in Hy as [Hy <-].
  pose proof (sent_authed deser dec_users dec_topics valid x (trace n x) y Hy) as Ha. apply Hc.
  destruct (e_to (s_what y)) as [u|z].
  - destruct Ha as (h0 & hh0 & ts & Hin). apply elem_of_list_In, in_concat. exists [e_conn (s_what y)]. split; [|by left]. apply in_map_iff. eexists. split; [|exact Hin]. done.
  - destruct Ha as (h0 & hh0 & Hin). apply elem_of_list_In, in_concat. exists [e_conn (s_what y)]. split; [|by left]. apply in_map_iff. eexists. split; [|exact Hin]. done.
Qed.
Lemma all_said_linked E n a ha hha ca b' hb hhb cb :
  fresh_pair n a ha hha ca -> fresh_pair n b' hb hhb cb ->
  all_said E (extend (extend n a (EBrokerAuthed ha hha b' ca)) b' (EBrokerAuthed hb hhb a cb)) -> all_said E (linked_up n a ha hha ca b' hb hhb cb).
Proof.
  intros Ha Hb Hn e [Hx|(x & c & a1 & h & t & i & y & d & Hl & Ht & Ho & Hle & Hy & Hf & He)]; [apply Hn; by left|].
  set (n1 := extend (extend n a (EBrokerAuthed ha hha b' ca)) b' (EBrokerAuthed hb hhb a cb)) in *. change (sent_on (broker_at n1 x) c !! i = Some y) in Hy.
  unfold linked_up in Hl. fold n1 in Hl. cbn [n_links] in Hl.
  apply lookup_insert_Some in Hl as [[Heq Hv]|[_ Hl]].
  { injection Heq as <- <-. exfalso. unfold sent_on, n1 in Hy. rewrite (proj2 (linked_conns n a ha hha ca b' hb hhb cb a)) in Hy.
    change (sent_on (broker_at n a) ca !! i = Some y) in Hy. by rewrite (fresh_unsent _ _ _ _ _ Ha) in Hy. }
  apply lookup_insert_Some in Hl as [[Heq Hv]|[_ Hl]].
  { injection Heq as <- <-. exfalso. unfold sent_on, n1 in Hy. rewrite (proj2 (linked_conns n a ha hha ca b' hb hhb cb b')) in Hy.
    change (sent_on (broker_at n b') cb !! i = Some y) in Hy. by rewrite (fresh_unsent _ _ _ _ _ Hb) in Hy. }
  apply Hn. right. exists x, c, a1, h, t, i, y, d. done.
Qed.

(** ** The move *)
Section move.
Variables (b : bid) (r : option (N * bid)) (n0 : net).
Hypothesis Hgo : goes_on r b.
Notation new := (new_of r b).

(** *** Admissions since the beginning *)
Definition since (n : net) (x : bid) : list event := drop (length (trace n0 x)) (trace n x).
Definition grown (n : net) : Prop := forall x, length (trace n0 x) <= length (trace n x).
Definition admitted_since (n : net) (x : bid) (c h : N) : Prop := exists hh ts, In (EUserAuthed h hh v c ts) (since n x).
Definition pend (n : net) : Prop :=
  forall x h t c ts h', tasks_at n x !! h = Some t -> In (AAddUser v c ts h') (t_acts t) -> admitted_since n x c h'.

Lemma since_extend n b0 ev x : grown n -> since (extend n b0 ev) x = if decide (b0 = x) then since n x ++ [ev] else since n x.
Proof. intros Hg. unfold since. rewrite trace_extend. case_decide; [|done]. subst. rewrite drop_app_le; [done|apply Hg]. Qed.
Lemma grown_extend n b0 ev : grown n -> grown (extend n b0 ev).
Proof. intros Hg x. rewrite trace_extend. case_decide; [|apply Hg]. rewrite app_length. specialize (Hg x). lia. Qed.
Lemma admitted_extend n b0 ev x c h : grown n -> admitted_since n x c h -> admitted_since (extend n b0 ev) x c h.
Proof. intros Hg (hh & ts & Hin). exists hh, ts. rewrite since_extend by done. case_decide; [|done]. apply in_app_iff. by left. Qed.
Lemma moved_extend n b0 ev : moved_to v b n0 (extend n b0 ev) -> moved_to v b n0 n.
Proof.
  intros Hs x i h hh c ts He Hi.
  assert (Hx : forall y k e', trace n y !! k = Some e' -> trace (extend n b0 ev) y !! k = Some e').
  { intros y k e' Hk. rewrite trace_extend. case_decide; [|done]. subst. by apply lookup_app_l_Some. }
  destruct (Hs x i h hh c ts (Hx _ _ _ He) Hi) as [-> Hu]. split; [done|]. intros j h' hh' c' ts' Hj. apply (Hu j h' hh' c' ts'). by apply Hx.
Qed.
Lemma since_lookup n x ev : In ev (since n x) -> exists i, trace n x !! i = Some ev /\ length (trace n0 x) <= i.
Proof. intros Hin. apply in_lookup in Hin as [i Hi]. unfold since in Hi. rewrite lookup_drop in Hi. eexists. split; [exact Hi|lia]. Qed.
Lemma moved_unique n x c h c' h' :
  moved_to v b n0 n -> admitted_since n x c h -> admitted_since n b c' h' -> x = b /\ h = h' /\ c = c'.
Proof.
  intros Hs (hh & ts & H1) (hh' & ts' & H2). apply since_lookup in H1 as (i & Hi & Hi'), H2 as (j & Hj & Hj').
  destruct (Hs x i _ _ _ _ Hi Hi') as [-> Hu]. specialize (Hu j _ _ _ _ Hj Hj'). subst j. rewrite Hi in Hj. by injection Hj as -> _ -> _.
Qed.
Lemma moved_where n x c h : moved_to v b n0 n -> admitted_since n x c h -> x = b.
Proof. intros Hs (hh & ts & H1). apply since_lookup in H1 as (i & Hi & Hi'). by destruct (Hs x i _ _ _ _ Hi Hi') as [-> _]. Qed.

(** A pending registration is that of an admission. *)
Lemma pend_step n b0 ev h t c ts h' :
  tasks_at (extend n b0 ev) b0 !! h = Some t -> In (AAddUser v c ts h') (t_acts t) ->
  (exists t0, tasks_at n b0 !! h = Some t0 /\ In (AAddUser v c ts h') (t_acts t0)) \/ exists hh ts', ev = EUserAuthed h' hh v c ts'.
Proof.
  intros Ht Hin. rewrite broker_extend, decide_True in Ht by done.
  destruct (acts_new _ _ _ _ _ _ _ _ _ Ht Hin) as [Hold|[Hst|[(raw & hk & t0 & -> & Ht0 & Hy0)|(good & o & a & l & op & k & s' & nxt & sends & -> & Ht0 & Ha & Hy0)]]]; [by left|right| |].
  - destruct ev; cbn in Hst; try done.
    + destruct Hst as [Heq|[?|[?|[]]]]; try done. injection Heq as -> -> _ ->. eauto.
    + destruct Hst as [?|[?|[?|[]]]]; done.
    + destruct Hst as [?|[?|[]]]; done.
    + destruct Hst as [[u1 c1|b1 c1|] Hl]; cbn in Hl; try done; destruct Hl as [?|[]]; done.
  - exfalso. pose proof (loop_frame_adds deser dec_users dec_topics valid (t_owner t0) raw hk) as Hl.
    assert (Hh : In h' (adds (loop_frame (t_owner t0) raw hk).1)) by (apply adds_in; eexists _, _; split; [exact Hy0|reflexivity]). by rewrite Hl in Hh.
  - exfalso. by apply (act_step_no_add _ _ _ _ _ _ _ Ha) in Hy0.
Qed.
Lemma pend_extend n b0 ev : grown n -> pend n -> pend (extend n b0 ev).
Proof.
  intros Hg Hp x h t c ts h' Ht Hin. destruct (decide (b0 = x)) as [<-|Hne].
  - destruct (pend_step n b0 ev h t c ts h' Ht Hin) as [(t0 & Ht0 & Hin0)|(hh & ts' & ->)]; [by apply admitted_extend, (Hp b0 h t0 c ts)|].
    exists hh, ts'. rewrite since_extend, decide_True by done. apply in_app_iff. right. by left.
  - rewrite run_other in Ht by done. by apply admitted_extend, (Hp x h t c ts).
Qed.
Definition no_adds (n : net) (x : bid) : Prop := forall h t c ts h', tasks_at n x !! h = Some t -> ~ In (AAddUser v c ts h') (t_acts t).
Lemma no_adds_elsewhere n x : moved_to v b n0 n -> pend n -> x <> b -> no_adds n x.
Proof. intros Hs Hp Hne h t c ts h' Ht Hin. apply Hne. eapply moved_where; [done|]. by eapply Hp. Qed.
Lemma no_adds_extend n b0 ev : grown n -> moved_to v b n0 (extend n b0 ev) -> (exists c h, admitted_since n b c h) -> no_adds n b -> no_adds (extend n b0 ev) b.
Proof.
  intros Hg Hs (c0 & h0 & hh0 & ts0 & Hin0) Hn h t c ts h' Ht Hin. destruct (decide (b0 = b)) as [->|Hne]; [|rewrite run_other in Ht by done; by eapply Hn].
  destruct (pend_step n b ev h t c ts h' Ht Hin) as [(t0 & Ht0 & Hy0)|(hh & ts' & ->)]; [by eapply Hn|].
  apply since_lookup in Hin0 as (i & Hi & Hi').
  assert (Hlen : length (trace n0 b) <= length (trace n b)) by apply Hg.
  destruct (Hs b (length (trace n b)) h' hh c ts') as [_ Hu]; [|done|].
  { rewrite trace_extend, decide_True by done. by rewrite lookup_app_r, Nat.sub_diag by lia. }
  specialize (Hu i h0 hh0 c0 ts0 ltac:(rewrite trace_extend, decide_True by done; by apply lookup_app_l_Some) Hi'). apply lookup_lt_Some in Hi. lia.
Qed.

(** *** Not heard of yet, connected, and gone *)
Definition d_in (d : direct_map) : Prop := entries d !! v = Some new.
Definition d_G (f : frame) : Prop := exists d, f = FUserSync d /\ d_in d.
Definition d_App (x : act) : Prop := exists d, x = AApplyUserSync d /\ d_in d.
Definition d_A (s : conns) : Prop := d_in (direct s).
Definition covered (n : net) : Prop :=
  forall cb a ha, n_links n !! (b, cb) = Some (a, ha) -> c_get_broker_connection (conns_at n b) a = Some cb -> live (broker_at n a) ha ->
  v ∈ modified (direct (conns_at n b)) \/ cov false d_G d_App d_A n b cb a ha.

Definition before (n : net) : Prop :=
  all_said (is_old r) n /\ record_at v n b = old_of r /\ (r <> None -> v ∉ modified (direct (conns_at n b))).
Definition there (n : net) : Prop :=
  all_said (is_rec r b) n /\ (exists c h, admitted_since n b c h) /\ users (conns_at n b) !! v <> None /\ record_at v n b = Some new /\ no_adds n b /\ covered n.
Definition gone (n : net) : Prop := (exists c h, admitted_since n b c h) /\ users (conns_at n b) !! v = None /\ no_adds n b.
(** The broker where [v] was keeps it until it has heard. *)
Definition keeps (n : net) : Prop :=
  forall k b0, r = Some (k, b0) -> users (conns_at n b0) !! v <> None \/ vm_get (direct (conns_at n b0)) v = Some b.

Lemma old_kept n b0 e : keeps n -> is_old r e -> val e = Some b0 -> users (conns_at n b0) !! v = None -> vm_get (direct (conns_at n b0)) v = None -> False.
Proof.
  intros Hk He Hv Hu Hg. unfold is_old, old_of in He. destruct r as [[k b1]|] eqn:Er; [|done]. injection He as <-. cbn in Hv. injection Hv as ->.
  destruct (Hk k b0 Er) as [?|Hx]; [done|]. by rewrite Hg in Hx.
Qed.

Lemma not_adding n b0 h o a l op k cop :
  tasks_at n b0 !! h = Some (Task o (a :: l) op k) -> act_op a = Some cop -> no_adds n b0 -> forall c ts h', cop <> CAddUser v c ts h'.
Proof. intros Ht Ha Hn c ts h' ->. destruct a; cbn in Ha; try done. injection Ha as -> -> -> ->. eapply (Hn h); [exact Ht|by left]. Qed.

Lemma before_extend n b0 ev :
  net_inv n -> sound n -> possible n b0 ev -> grown n -> pend n -> moved_to v b n0 (extend n b0 ev) -> keeps (extend n b0 ev) ->
  before n -> before (extend n b0 ev) \/ there (extend n b0 ev).
Proof.
  intros Hi Hs Hp Hg Hpd Hmv Hk (Hon & Hrec & Hmod). pose proof (moved_extend _ _ _ Hmv) as Hmv0.
  destruct (conns_step n b0 ev) as [Heq|(h & good & o & a & l & op & k & cop & -> & Ht & Ha & Heq)].
  { left. split; [|split].
    - apply all_said_extend; try done. intros e. rewrite Heq. intros He. by eapply (all_said_direct _ n b0 e Hon).
    - unfold MoveSpec.record_at in *. destruct (decide (b0 = b)) as [->|Hne]; [by rewrite Heq|by rewrite run_other].
    - destruct (decide (b0 = b)) as [->|Hne]; [by rewrite Heq|by rewrite run_other]. }
  assert (Hcase : (exists c ts h', a = AAddUser v c ts h') \/ ~ exists c ts h', a = AAddUser v c ts h').
  { destruct a as [| | | | | | | | |w c ts h'| | | | | | | | |]; try (right; intros (? & ? & ? & ?); done).
    destruct (decide (w = v)) as [->|Hne]; [left; eauto|right]. intros (? & ? & ? & [= ? ? ? ?]). done. }
  destruct Hcase as [Hadd|Hadd].
  - destruct Hadd as (c & ts & h' & ->). cbn in Ha. injection Ha as <-. cbn [c_step] in Heq. right.
    assert (Hau : admitted_since n b0 c h') by (eapply Hpd; [exact Ht|by left]).
    assert (b0 = b) as -> by (by eapply moved_where).
    assert (Hnew : record_at v (extend n b (ERun h good)) b = Some new).
    { unfold MoveSpec.record_at in *. rewrite Heq, add_user_entries, decide_True by done. unfold wver, new_of. rewrite Hrec, identity_at.
      unfold old_of in *. destruct r as [[k1 b1]|]; [|done]. rewrite decide_False by (by apply Hmod). done. }
    assert (Hus : users (conns_at (extend n b (ERun h good)) b) !! v = Some (c, h')) by (rewrite Heq, au_users; by rewrite lookup_insert).
    split; [|split; [|split; [|split; [|split]]]].
    + apply all_said_extend; try done; [|intros e He; right; unfold MoveSpec.record_at in Hnew; congruence]. eapply all_said_less; [|exact Hon]. intros e He. by left.
    + exists c, h'. by apply admitted_extend.
    + by rewrite Hus.
    + exact Hnew.
    + intros h1 t1 c1 ts1 h1' Ht1 Hin1. pose proof (pend_extend n b (ERun h good) Hg Hpd b h1 t1 c1 ts1 h1' Ht1 Hin1) as Hau1.
      destruct (moved_unique _ _ _ _ _ _ Hmv Hau1 (admitted_extend _ _ _ _ _ _ Hg Hau)) as (_ & -> & ->).
      rewrite run_extend in Hus, Ht1. eapply (registered_not_pending deser dec_users dec_topics valid b (trace n b ++ [ERun h good]) h' (OUser v c)).
      * exact Hus.
      * exists h1, t1. split; [exact Ht1|]. apply adds_in. eexists _, _. split; [exact Hin1|reflexivity].
    + intros cb a ha _ _ _. left. rewrite Heq. apply add_user_modified. by left.
  - left.
    assert (Hna : forall c ts h', cop <> CAddUser v c ts h').
    { intros c ts h' ->. apply Hadd. destruct a; cbn in Ha; try done. injection Ha as -> -> -> ->. eauto. }
    destruct (next_old r b Hgo (conns_at n b0) cop v) as [N1 N2].
    { intros e He. by eapply (all_said_direct _ n b0 e Hon). }
    { intros m e -> He. destruct a; cbn in Ha; try done. injection Ha as ->. exact (all_said_apply _ n b0 _ _ _ _ _ _ e Hon Ht He). }
    destruct (op_record (conns_at n b0) cop v Hna) as [(R1 & R2 & _)|(R1 & R2 & e & Hne & Hve)].
    2:{ exfalso. rewrite <- Heq in R1, R2. rewrite identity_at in Hve. by apply (old_kept _ b0 e Hk (N1 e Hne) Hve). }
    rewrite <- Heq in R1, R2. split; [|split].
    + apply all_said_extend; try done. intros e He. apply N1. congruence.
    + unfold MoveSpec.record_at in *. destruct (decide (b0 = b)) as [->|Hne]; [|by rewrite run_other]. rewrite R1. by apply N2.
    + intros Hr. destruct (decide (b0 = b)) as [->|Hne]; [|rewrite run_other by done; by apply Hmod]. intros Hin. by apply Hmod, R2.
Qed.

Lemma gone_extend n b0 ev : grown n -> moved_to v b n0 (extend n b0 ev) -> gone n -> gone (extend n b0 ev).
Proof.
  intros Hg Hmv ((c0 & h0 & Hau) & Hu & Hn). split; [|split].
  - exists c0, h0. by apply admitted_extend.
  - destruct (decide (b0 = b)) as [->|Hne]; [|by rewrite run_other].
    destruct (conns_step n b ev) as [Heq|(h & good & o & a & l & op & k & cop & -> & Ht & Ha & Heq)]; rewrite Heq; [done|].
    apply op_users; [|done]. by eapply not_adding.
  - apply no_adds_extend; eauto.
Qed.

Lemma there_extend n b0 ev :
  net_inv n -> sound n -> frames_le n -> possible n b0 ev -> fine (extend n b0 ev) -> grown n -> pend n -> moved_to v b n0 (extend n b0 ev) -> keeps (extend n b0 ev) ->
  there n -> there (extend n b0 ev) \/ gone (extend n b0 ev).
Proof.
  intros Hi Hs Hfl Hp Hf Hg Hpd Hmv Hk (Hon & Hau & Hu & Hd & Hna & Hcov). pose proof (moved_extend _ _ _ Hmv) as Hmv0. set (n' := extend n b0 ev) in *.
  assert (Hna' : no_adds n' b) by (by apply no_adds_extend).
  assert (Hau' : exists c h, admitted_since n' b c h) by (destruct Hau as (c & h & Hau); exists c, h; by apply admitted_extend).
  destruct (users (conns_at n' b) !! v) as [[c0 h0]|] eqn:Eu; [left|by right].
  assert (Hnoadd : no_adds n b0) by (destruct (decide (b0 = b)) as [->|Hne]; [exact Hna|by apply no_adds_elsewhere]).
  assert (Hkeep : (forall e, entries (direct (conns_at n' b0)) !! v = Some e -> is_rec r b e)
    /\ (d_in (direct (conns_at n b0)) -> d_in (direct (conns_at n' b0)))
    /\ (b0 = b -> v ∈ modified (direct (conns_at n b0)) -> v ∈ modified (direct (conns_at n' b0))
         \/ exists h good o l op k, ev = ERun h good /\ tasks_at n b0 !! h = Some (Task o (APartialUserSync :: l) op k))).
  { unfold n' in *. destruct (conns_step n b0 ev) as [Heq|(h & good & o & a & l & op & k & cop & -> & Ht & Ha & Heq)].
    { rewrite Heq. split_and!; auto. intros e He. by apply (all_said_direct _ n b0 e Hon). }
    destruct (next_rec r b Hgo (conns_at n b0) cop v) as (N1 & N2 & _).
    { intros e He. exact (all_said_direct _ n b0 e Hon He). }
    { intros m e -> He. destruct a; cbn in Ha; try done. injection Ha as ->. exact (all_said_apply _ n b0 _ _ _ _ _ _ e Hon Ht He). }
    destruct (op_record (conns_at n b0) cop v) as [(R1 & R2 & R3)|(R1 & R2 & e & Hne & Hve)]; [by eapply not_adding| |].
    2:{ exfalso. rewrite <- Heq in R1, R2. rewrite identity_at in Hve. destruct (N1 e Hne) as [Ho| ->]; [by apply (old_kept _ b0 e Hk Ho Hve)|].
        cbn in Hve. injection Hve as <-. congruence. }
    rewrite <- Heq in R1, R2, R3. split; [intros e He; apply N1; congruence|]. split; [unfold d_in; rewrite R1; exact N2|].
    intros -> Hm. destruct (R3 Hm) as [?|[Hc|Hc]]; [by left| |congruence]. right. subst cop. destruct a; cbn in Ha; try done. eauto 10. }
  destruct Hkeep as (K1 & K2 & K3).
  assert (Hd' : record_at v n' b = Some new).
  { unfold MoveSpec.record_at in *. destruct (decide (b0 = b)) as [->|Hne]; [by apply K2|]. unfold n'. by rewrite run_other. }
  split; [by apply all_said_extend|]. split; [done|]. split; [by rewrite Eu|]. split; [done|]. split; [done|].
  intros cb a ha Hl Hc' Hlive. change (n_links n !! (b, cb) = Some (a, ha)) in Hl.
  destruct (proj1 Hi _ _ _ _ Hl) as (Hab & _ & ca & ta & Hta & Hoa).
  destruct (decide (c_get_broker_connection (conns_at n b) a = Some cb)) as [Hc|Hc].
  2:{ right. right. right. right. destruct (decide (b0 = b)) as [->|Hnb]; [by apply conns_extend_reg|]. unfold n' in Hc'. by rewrite run_other in Hc'. }
  assert (Hlm : live (broker_at n a) ha).
  { destruct (decide (b0 = a)) as [->|Hna0]; [|unfold n' in Hlive; by rewrite run_other in Hlive]. unfold n' in Hlive. rewrite run_extend in Hlive. eapply live_back; [|exact Hlive]. by exists ta. }
  destruct (Hcov cb a ha Hl Hc Hlm) as [Hm|Hcv].
  - destruct (decide (b0 = b)) as [->|Hnb]; [|left; unfold n'; by rewrite run_other].
    destruct (K3 eq_refl Hm) as [?|(h & good & o & l & op & k & -> & Ht)]; [by left|right]. right. right. right.
    destruct (partial_in_out _ _ _ Hm Hd) as (d & Hd1 & Hd2). unfold n'. rewrite run_extend.
    eapply (delta_tells deser dec_users dec_topics valid a cb d_G false b (trace n b) _ h good o l op k (FUserSync d)); [done|exact Ht| |by exists d].
    change (m_run b (trace n b)) with (broker_at n b). by rewrite Hd1.
  - right. apply (cov_step deser dec_users dec_topics valid enc_users enc_topics false d_G d_App d_A n b0 ev b cb a ha); try done.
    + exists (direct (conns_at n b)). split; [|by eexists]. unfold c_get_full_user_sync. rewrite decide_False; [done|]. intros He. unfold MoveSpec.record_at in Hd. by rewrite He in Hd.
    + intros f hk (d & -> & Hin) Hkk. destruct (user_frame_acts deser dec_users dec_topics enc_users enc_topics Hcodec b d hk Hkk) as (d' & Heq & He & _). rewrite Heq.
      eexists. split; [by left|]. exists d'. split; [done|]. unfold d_in. by rewrite He.
    + (* applying it at the other end *)
      intros x c (d & -> & Hin) _. eexists. split; [reflexivity|]. unfold d_A, d_in.
      destruct (next_rec r b Hgo (conns_at n a) (CApplyUserSync d) v) as (_ & _ & N3).
      { intros e He. exact (all_said_direct _ n a e Hon He). }
      { intros m e [= <-] He. right. unfold d_in in Hin. congruence. }
      specialize (N3 d eq_refl Hin).
      destruct (op_record (conns_at n a) (CApplyUserSync d) v) as [(R1 & _)|(_ & _ & e & Hne & Hve)]; [done|congruence|].
      exfalso. rewrite N3 in Hne. injection Hne as <-. rewrite identity_at in Hve. cbn in Hve. congruence.
    + intros HA. destruct (decide (b0 = a)) as [->|Hne]; [by apply K2|]. unfold d_A. by rewrite run_other.
Qed.

Definition stage (n : net) : Prop := grown n /\ pend n /\ (before n \/ there n \/ gone n).
Lemma stage_extend n b0 ev :
  net_inv n -> sound n -> frames_le n -> stage n -> possible n b0 ev -> fine (extend n b0 ev) -> moved_to v b n0 (extend n b0 ev) /\ keeps (extend n b0 ev) -> stage (extend n b0 ev).
Proof.
  intros Hi Hs Hfl (Hg & Hpd & Hph) Hp Hfe [Hmv Hk]. split; [by apply grown_extend|]. split; [by apply pend_extend|]. destruct Hph as [Hc|[Hu|Hgn]].
  - destruct (before_extend n b0 ev Hi Hs Hp Hg Hpd Hmv Hk Hc); auto.
  - destruct (there_extend n b0 ev Hi Hs Hfl Hp Hfe Hg Hpd Hmv Hk Hu); auto.
  - right. right. by apply gone_extend.
Qed.
Lemma stage_linked n a ha hha ca b' hb hhb cb :
  a <> b' -> fresh_pair n a ha hha ca -> fresh_pair n b' hb hhb cb ->
  stage (extend (extend n a (EBrokerAuthed ha hha b' ca)) b' (EBrokerAuthed hb hhb a cb)) -> stage (linked_up n a ha hha ca b' hb hhb cb).
Proof.
  intros Hne Ha Hb (Hg & Hpd & Hph). split; [exact Hg|]. split; [exact Hpd|].
  set (n1 := extend _ b' _) in *.
  destruct Hph as [(B1 & B2 & B3)|[(U1 & U2 & U3 & U4 & U5 & U6)|Hgn]]; [left| |right; right; exact Hgn].
  { split; [by apply all_said_linked|]. split; [exact B2|exact B3]. }
  right. left. split; [by apply all_said_linked|]. split; [exact U2|]. split; [exact U3|]. split; [exact U4|]. split; [exact U5|].
  intros cb' a' ha' Hl Hc Hlive. unfold linked_up in Hl. fold n1 in Hl. cbn [n_links] in Hl.
  change (c_get_broker_connection (conns_at n1 b) a' = Some cb') in Hc.
  assert (Hfresh : forall x y c, (x = a /\ c = ca \/ x = b' /\ c = cb) -> c_get_broker_connection (conns_at n1 x) y <> Some c).
  { intros x y c Hx Hc1. unfold n1 in Hc1. rewrite (proj1 (linked_conns n a ha hha ca b' hb hhb cb x)) in Hc1.
    assert (Hfr : c ∉ authed_conns (trace n x)) by (destruct Hx as [[-> ->]|[-> ->]]; [apply Ha|apply Hb]). apply Hfr.
    unfold c_get_broker_connection in Hc1. destruct (brokers (conns_at n x) !! y) as [be|] eqn:E; [|done]. cbn in Hc1. injection Hc1 as <-.
    destruct (reg_run deser dec_users dec_topics valid x (trace n x)) as [[_ Hr] _]. destruct (Hr _ _ E) as (hh & Hin).
    apply elem_of_list_In, in_concat. exists [be_conn be]. split; [|by left]. apply in_map_iff. eexists. split; [|exact Hin]. done. }
  apply lookup_insert_Some in Hl as [[Heq Hv]|[_ Hl]].
  { injection Heq as <- <-. exfalso. eapply Hfresh; [|exact Hc]. by left. }
  apply lookup_insert_Some in Hl as [[Heq Hv]|[_ Hl]].
  { injection Heq as <- <-. exfalso. eapply Hfresh; [|exact Hc]. by right. }
  by apply (U6 cb' a' ha').
Qed.
End move.
End user.

(** ** The theorem *)
Lemma rest_unsaid v n (E : vval bid -> Prop) : at_rest n -> (forall x e, record_at v n x = Some e -> E e) -> all_said v E n.
Proof.
  intros [Hr1 Hr2] HE e [[x [Hx|(h & t & y & d & Ht & Hy & _)]]|(x & c & a & h & t & i & y & d & Hl & Ht & Ho & Hle & Hy & _)].
  - by apply (HE x).
  - by rewrite (Hr1 _ _ _ Ht) in Hy.
  - exfalso. apply lookup_lt_Some in Hy. rewrite (Hr2 _ _ _ _ _ Hl Ht Ho) in Hle. lia.
Qed.

Lemma move_stages v b r es0 es :
  es0 `prefix_of` es -> hooks_pass es -> let n0 := n_run es0 in let n := n_run es in
  fine n -> at_rest n0 -> on_record v r n0 -> record_at v n0 b = old_of r -> (c_get_partial_user_sync (conns_at n0 b)).2 = None ->
  goes_on r b -> (forall k b0, r = Some (k, b0) -> kept_until_heard v b0 b es0 es) -> moved_to v b n0 n ->
  stage v b r n0 n.
Proof.
  intros Hpre Hh n0 n Hf Hr Hon Hb Hnone Hgo Hkept Hmv.
  apply (net_induct_from (stage v b r n0) (fun m => moved_to v b n0 m /\ keeps v b r m) es0 es Hpre Hh Hf).
  - intros p Hp1 Hp2. split.
    + intros x i h hh c ts Hi Hle.
      assert (Hx : forall y k e', trace (n_run p) y !! k = Some e' -> trace n y !! k = Some e').
      { intros y k e' Hk. eapply prefix_lookup; [exact Hk|]. by apply trace_later. }
      destruct (Hmv x i h hh c ts (Hx _ _ _ Hi) Hle) as [-> Hu]. split; [done|]. intros j h' hh' c' ts' Hj. apply (Hu j h' hh' c' ts'). by apply Hx.
    + intros k b0 Hk. destruct (Hkept k b0 Hk p Hp1 Hp2) as [[c Hc]|Hc]; [left|right; exact Hc]. unfold c_get_user_connection in Hc. by destruct (users _ !! v).
  - split; [intros x; done|]. split; [intros x h t c ts h' Ht Hin; by rewrite (proj1 Hr _ _ _ Ht) in Hin|]. left. split; [|split; [done|]].
    + apply rest_unsaid; [done|]. intros x e He. destruct (Hon x e He) as (k & b0 & -> & ->). done.
    + intros Hr' Hin. unfold old_of in Hb. destruct r as [[k b0]|]; [|done]. destruct (partial_in_out _ _ _ Hin Hb) as (d & Hd & _). fold n0 in Hd. congruence.
  - intros n1 b1 e Hi Hs Hfl Hst Hp Hfe HK. by apply stage_extend.
  - intros n1 a ha hha ca b' hb hhb cb Hne Ha Hb' Hst. by apply stage_linked.
  - intros n1 a ha hha ca b' hb hhb cb Ha Hb' [Hm Hk].
    change (moved_to v b n0 (extend (extend n1 a (EBrokerAuthed ha hha b' ca)) b' (EBrokerAuthed hb hhb a cb))) in Hm.
    split; (split; [try done; by eapply moved_extend|]).
    + intros k b0 Hkb. destruct (Hk k b0 Hkb) as [H|H]; [left|right]; change (broker_at (linked_up n1 a ha hha ca b' hb hhb cb) b0) with (broker_at (extend (extend n1 a (EBrokerAuthed ha hha b' ca)) b' (EBrokerAuthed hb hhb a cb)) b0) in H;
        rewrite (proj1 (linked_conns n1 a ha hha ca b' hb hhb cb b0)) in H; rewrite broker_extend; case_decide; try done; subst; cbn [TaskModel.m_step]; by case_decide.
    + exact Hk.
Qed.

Lemma move_settles v b r es0 es x :
  es0 `prefix_of` es -> hooks_pass es -> let n0 := n_run es0 in let n := n_run es in
  fine n -> at_rest n0 -> on_record v r n0 -> record_at v n0 b = old_of r -> (c_get_partial_user_sync (conns_at n0 b)).2 = None ->
  goes_on r b -> (forall k b0, r = Some (k, b0) -> kept_until_heard v b0 b es0 es) -> moved_to v b n0 n ->
  at_rest n -> (c_get_partial_user_sync (conns_at n b)).2 = None -> (exists c, c_get_user_connection (conns_at n b) v = Some c) ->
  x = b \/ joined n x b -> record_at v n x = Some (new_of r b).
Proof.
  intros Hpre Hh n0 n Hf Hr0 Hon Hb Hnone0 Hgo Hkept Hmv Hr Hnone Hc Hx.
  destruct (move_stages v b r es0 es Hpre Hh Hf Hr0 Hon Hb Hnone0 Hgo Hkept Hmv) as (_ & _ & Hst). fold n0 n in Hst.
  pose proof (inv_run es) as Hi. fold n in Hi.
  destruct Hst as [(B1 & B2 & _)|[(U1 & U2 & U3 & U4 & U5 & U6)|(_ & Hg & _)]].
  - exfalso. apply state_directory in Hc. unfold c_get_broker_identifier_of_user, vm_get in Hc. unfold MoveSpec.record_at in B2. rewrite B2 in Hc.
    unfold old_of in Hc. destruct r as [[k b0]|]; [|done]. cbn in Hc. injection Hc as ->. by destruct (Hgo k b eq_refl) as [_ ?].
  - destruct Hx as [->|Hj]; [done|].
    destruct (joined_live deser dec_users dec_topics valid enc_users enc_topics n x b Hi Hj) as (ca & cb & ha & R & Hcb & Hl & HR & Hlive).
    destruct (U6 _ _ _ Hl Hcb Hlive) as [Hm|Hcov].
    + exfalso. destruct (partial_in_out _ _ _ Hm U4) as (d & Hd & _). congruence.
    + by apply (rest_cov deser dec_users dec_topics valid _ _ _ _ _ _ _ _ _ _ _ Hf Hr Hl HR) in Hcov.
  - exfalso. destruct Hc as [c Hc]. unfold c_get_user_connection in Hc. by rewrite Hg in Hc.
Qed.

Notation travels := (travels deser dec_users dec_topics valid enc_users enc_topics).
Notation settled_with := (settled_with deser dec_users dec_topics valid).

Lemma fine_prefix p q : p `prefix_of` q -> fine (n_run q) -> fine (n_run p).
Proof.
  intros [l ->]. induction l as [|e l IH] using rev_ind; [by rewrite app_nil_r|]. rewrite app_assoc, n_run_snoc. intros Hf. apply IH.
  eapply fine_back; [|exact Hf]. intros b. apply trace_step.
Qed.
Lemma hooks_prefix (p q : list nevent) : p `prefix_of` q -> hooks_pass q -> hooks_pass p.
Proof. intros [l ->] [H1 H2]. split; [intros a c hk Hin; apply (H1 a c)|intros b h raw hk Hin; apply (H2 b h raw)]; apply in_app_iff; by left. Qed.

Lemma settled_agree v r b n : settled_with v b n -> (forall x, x = b \/ joined n x b -> record_at v n x = Some (new_of r b)) ->
  on_record v (Some (ver (new_of r b), b)) n.
Proof.
  intros (_ & _ & _ & Hall) H x e He. destruct (Hall x) as [Hx|[Hx|Hx]]; [| |congruence].
  - rewrite (H x (or_introl Hx)) in He. injection He as <-. eauto.
  - rewrite (H x (or_intror Hx)) in He. injection He as <-. eauto.
Qed.

Lemma travels_record v es k b :
  travels v es k b -> (k < u64_modulus)%N -> hooks_pass es -> fine (n_run es) ->
  settled_with v b (n_run es) /\ on_record v (Some (k, b)) (n_run es)
  /\ forall x, x = b \/ joined (n_run es) x b -> record_at v (n_run es) x = Some (VVal k (Some b)).
Proof.
  induction 1 as [es0 es b Hpre Hr0 Hno Hnone Hmv Hset|es0 k b0 es b Htr IH Hpre Hne Hj Hnone Hkept Hmv Hset]; intros Hk Hh Hf.
  - pose proof Hset as (Hr & Hc & Hn & _).
    assert (H : forall x, x = b \/ joined (n_run es) x b -> record_at v (n_run es) x = Some (new_of None b)).
    { intros x. apply (move_settles v b None es0 es x); try done. intros y e He. by rewrite Hno in He. }
    split; [done|]. split; [exact (settled_agree v None b _ Hset H)|exact H].
  - pose proof Hset as (Hr & Hc & Hn & _).
    destruct IH as ((Hr0 & _) & Hon & Hrec); [lia|by eapply hooks_prefix|by eapply fine_prefix|].
    assert (Hsucc : u64_succ k = (k + 1)%N) by (unfold u64_succ; by rewrite N.mod_small).
    assert (H : forall x, x = b \/ joined (n_run es) x b -> record_at v (n_run es) x = Some (new_of (Some (k, b0)) b)).
    { intros x. apply (move_settles v b (Some (k, b0)) es0 es x); try done.
      - apply Hrec. by right.
      - intros k' b' [= <- <-]. split; [done|]. congruence.
      - intros k' b' [= <- <-]. done. }
    split; [done|]. pose proof (settled_agree v (Some (k, b0)) b _ Hset H) as Ha. cbn [new_of ver] in Ha. unfold new_of in H. rewrite Hsucc in Ha, H.
    split; [exact Ha|exact H].
Qed.

Lemma travels_found v es k b :
  travels v es k b -> (k < u64_modulus)%N -> hooks_pass es -> fine (n_run es) ->
  (forall x, joined (n_run es) x b -> c_get_broker_identifier_of_user (conns_at (n_run es) x) v = Some b)
  /\ (forall x c, c_get_user_connection (conns_at (n_run es) x) v = Some c -> x = b).
Proof.
  intros Htr Hk Hh Hf. destruct (travels_record v es k b Htr Hk Hh Hf) as ((_ & _ & _ & Hall) & Hon & Hrec).
  assert (Hd : forall x, joined (n_run es) x b -> c_get_broker_identifier_of_user (conns_at (n_run es) x) v = Some b).
  { intros x Hj. specialize (Hrec x (or_intror Hj)). unfold MoveSpec.record_at in Hrec. unfold c_get_broker_identifier_of_user, vm_get. by rewrite Hrec. }
  split; [exact Hd|]. intros x c Hc. destruct (Hall x) as [Hx|[Hx|Hx]]; [done| |].
  - assert (Hs : c_get_broker_identifier_of_user (conns_at (n_run es) x) v = Some x) by (apply state_directory; by exists c). rewrite (Hd x Hx) in Hs. by injection Hs.
  - exfalso. assert (Hs : c_get_broker_identifier_of_user (conns_at (n_run es) x) v = Some x) by (apply state_directory; by exists c).
    unfold MoveSpec.record_at in Hx. unfold c_get_broker_identifier_of_user, vm_get in Hs. by rewrite Hx in Hs.
Qed.
End net.
