(** Complete delivery: what a single publication causes in a network where nothing else is
    going on. *)
From stdpp Require Import gmap fin_maps list.
From Coq Require Import NArith Lia.
From Verif Require Import IdModel VMapModel ConnModel ConnProofs3 TopicModel MsgModel RouteModel RouteProofs TaskModel TaskProofs TaskOrder
  NetModel NetProofs NetOrigin.

(** ** What routing actions send when every send succeeds and the state does not change *)
Definition routing (a : act) : bool :=
  match a with ADirect _ _ _ | ABroadcast _ _ _ | ALookupUser _ _ | ASendUser _ _ _ | ALookupBroker _ _ | ASendBroker _ _ _ => true | _ => false end.

Definition good_send (c : N) : bool := true.

Definition em1 (s : conns) (a : act) : list emission :=
  match a with
  | ALookupUser u f => emit_user good_send s f u
  | ALookupBroker b f => emit_broker good_send s f b
  | ASendUser u c f => [Emit (inl u) c f]
  | ASendBroker b c f => [Emit (inr b) c f]
  | _ => []
  end.
Definition em (s : conns) (a : act) : list emission :=
  match a with
  | ADirect u raw only => concat (map (em1 s) (direct_next s u raw only))
  | ABroadcast ts raw only => concat (map (em1 s) (broadcast_next s ts raw only))
  | _ => em1 s a
  end.
Definition ems (s : conns) (l : list act) : list emission := concat (map (em s) l).

Lemma em_em1 s l : Forall (fun a => match a with ADirect _ _ _ | ABroadcast _ _ _ => False | _ => True end) l ->
  concat (map (em1 s) l) = ems s l.
Proof. unfold ems. induction 1 as [|a l Ha _ IH]; [done|]. cbn. rewrite IH. by destruct a. Qed.

Lemma direct_next_low s u raw only :
  Forall (fun a => routing a = true /\ match a with ADirect _ _ _ | ABroadcast _ _ _ => False | _ => True end) (direct_next s u raw only).
Proof.
  unfold direct_next. destruct (c_get_broker_identifier_of_user s u); [|constructor]. case_decide; [by repeat constructor|].
  destruct only; by repeat constructor.
Qed.
Lemma broadcast_next_low s ts raw only :
  Forall (fun a => routing a = true /\ match a with ADirect _ _ _ | ABroadcast _ _ _ => False | _ => True end) (broadcast_next s ts raw only).
Proof.
  unfold broadcast_next. destruct (c_get_interested_by_topic s ts only). apply Forall_app. split; apply Forall_map, Forall_true; done.
Qed.

Lemma routing_step s a : routing a = true ->
  exists nxt sends, act_step (fun _ => true) s a = (s, nxt, sends) /\ Forall (fun a => routing a = true) nxt /\ sends ++ ems s nxt = em s a.
Proof.
  intros Hr. destruct a as [u raw only|ts raw only|u f|u c f|b f|b c f|f|u|b|u c ts h'|b c h'|u ts|u ts|d|b d|b|b| |]; try done; cbn [act_step].
  - eexists _, _. split; [reflexivity|]. pose proof (direct_next_low s u raw only) as Hl. rewrite Forall_and in Hl. destruct Hl as [H1 H2].
    split; [done|]. cbn [app em]. by rewrite em_em1.
  - eexists _, _. split; [reflexivity|]. pose proof (broadcast_next_low s ts raw only) as Hl. rewrite Forall_and in Hl. destruct Hl as [H1 H2].
    split; [done|]. cbn [app em]. by rewrite em_em1.
  - eexists _, _. split; [reflexivity|]. cbn [em em1]. unfold emit_user. destruct (c_get_user_connection s u); cbn; (split; [by repeat constructor|done]).
  - eexists _, _. split; [reflexivity|]. cbn. split; [by repeat constructor|done].
  - eexists _, _. split; [reflexivity|]. cbn [em em1]. unfold emit_broker. destruct (c_get_broker_connection s b); cbn; (split; [by repeat constructor|done]).
  - eexists _, _. split; [reflexivity|]. cbn. split; [by repeat constructor|done].
Qed.

Lemma ems_broadcast s ts raw only : ems s [ABroadcast ts raw only] = (exec good_send depth s [ABroadcast ts raw only]).2.
Proof.
  rewrite (exec_broadcast good_send 5) by lia. cbn zeta. cbn [snd]. unfold ems. cbn [map concat em]. rewrite app_nil_r. unfold broadcast_next.
  destruct (c_get_interested_by_topic s ts only) as [bs us]. cbn [fst snd]. rewrite map_app, concat_app, !map_map. done.
Qed.
Lemma ems_direct s u raw only :
  ems s [ADirect u raw only] =
  match c_get_broker_identifier_of_user s u with
  | Some b => if decide (b = identity s) then emit_user good_send s (FRelay raw) u else if only then [] else emit_broker good_send s (FRelay raw) b
  | None => []
  end.
Proof.
  unfold ems. cbn [map concat em]. rewrite app_nil_r. unfold direct_next. destruct (c_get_broker_identifier_of_user s u); [|done].
  case_decide; [cbn; by rewrite app_nil_r|]. destruct only; cbn; [done|by rewrite app_nil_r].
Qed.

(** ** The setting *)
Definition calm (e : nevent) : Prop :=
  match e with
  | NDeliver _ _ hk => hk = no_hook
  | NStep _ (ERun _ true) => True
  | _ => False
  end.

Section complete.
Variable deser : bytes -> option message.
Variable dec_users : bytes -> option direct_map.
Variable dec_topics : bytes -> option topic_map.
Variable valid : N -> bool.
Variable enc_users : direct_map -> bytes.
Variable enc_topics : topic_map -> bytes.
Notation m_step := (m_step deser dec_users dec_topics valid).
Notation m_run := (m_run deser dec_users dec_topics valid).
Notation broker_at := (broker_at deser dec_users dec_topics valid).
Notation n_step := (n_step deser dec_users dec_topics valid enc_users enc_topics).
Notation n_run := (n_run deser dec_users dec_topics valid enc_users enc_topics).
Notation wire := (wire enc_users enc_topics).
Notation loop_of := (loop_of deser dec_users dec_topics valid).
Notation inv_run := (inv_run deser dec_users dec_topics valid enc_users enc_topics).
Notation n_run_snoc := (n_run_snoc deser dec_users dec_topics valid enc_users enc_topics).
Notation conns_at n b := (m_conns (broker_at n b)).
Notation tasks_at n b := (m_tasks (broker_at n b)).
Notation sent_at n b := (m_sent (broker_at n b)).

(** Nothing is going on: no task has anything left to do, and every frame sent on a
    connection whose other end is still being read has been received. *)
Definition at_rest (n : net) : Prop :=
  (forall b h t, tasks_at n b !! h = Some t -> t_acts t = [])
  /\ (forall a c b h t, n_links n !! (a, c) = Some (b, h) -> tasks_at n b !! h = Some t -> t_open t = true ->
        t_frames t = length (sent_on (broker_at n a) c)).

Variable es0 : list nevent.
Notation n0 := (n_run es0).
Hypothesis Hrest : at_rest n0.
(** The publishing session and the frame. *)
Variables (a : bid) (h : N) (u : ukey) (cu : N) (k0 : nat) (raw : bytes).
Hypothesis Hpub : tasks_at n0 a !! h = Some (Task (OUser u cu) [] true k0).
(** What the frame makes the publisher's broker and other brokers do. *)
Variables (A0 AB : act).
Hypothesis HA0 : user_frame deser valid u raw no_hook = ([A0], true).
Hypothesis HAB : forall b, broker_frame deser dec_users dec_topics b raw no_hook = ([AB], true).
Hypothesis HrA0 : routing A0 = true.
Hypothesis HrAB : routing AB = true.
Hypothesis HoA : forall s, NoDup (map e_to (ems s [A0])).
Hypothesis HfA : forall s e, In e (ems s [A0]) -> e_frame e = FRelay raw.
Hypothesis HuB : forall s e, In e (ems s [AB]) -> exists v, e_to e = inl v.

Definition Ea := ems (conns_at n0 a) [A0].
Definition Eb b := ems (conns_at n0 b) [AB].

Definition origin_state (n : net) (S : list emission) : Prop :=
  exists acts, conns_at n a = conns_at n0 a
    /\ tasks_at n a = <[h := Task (OUser u cu) acts true (1 + k0)]> (tasks_at n0 a)
    /\ sent_at n a = sent_at n0 a ++ map (Sent h (1 + k0)) S
    /\ Forall (fun x => routing x = true) acts /\ S ++ ems (conns_at n0 a) acts = Ea.

Definition same_broker (n : net) (b : bid) : Prop :=
  conns_at n b = conns_at n0 b /\ tasks_at n b = tasks_at n0 b /\ sent_at n b = sent_at n0 b.

Definition reached_broker (n : net) (Sa : list emission) (b : bid) : Prop :=
  exists c hb o k acts Sb,
    n_links n0 !! (a, c) = Some (b, hb) /\ tasks_at n0 b !! hb = Some (Task o [] true k)
    /\ In c (map e_conn Sa)
    /\ conns_at n b = conns_at n0 b
    /\ tasks_at n b = <[hb := Task o acts true (1 + k)]> (tasks_at n0 b)
    /\ sent_at n b = sent_at n0 b ++ map (Sent hb (1 + k)) Sb
    /\ Forall (fun x => routing x = true) acts /\ Sb ++ ems (conns_at n0 b) acts = Eb b.

Definition cinv (n : net) : Prop :=
  n_links n = n_links n0
  /\ exists Sa, origin_state n Sa /\ forall b, b <> a -> same_broker n b \/ reached_broker n Sa b.

Lemma run_step m h' t rest x : m_tasks m !! h' = Some t -> t_acts t = x :: rest -> routing x = true ->
  exists nxt sends, m_step m (ERun h' true)
    = Machine (m_conns m) (<[h' := Task (t_owner t) (nxt ++ rest) (t_open t) (t_frames t)]> (m_tasks m)) (m_sent m ++ map (Sent h' (t_frames t)) sends) (m_rcvd m)
    /\ Forall (fun a => routing a = true) nxt /\ sends ++ ems (m_conns m) nxt = em (m_conns m) x.
Proof.
  intros Ht Ha Hr. destruct (routing_step (m_conns m) x Hr) as (nxt & sends & Hs & Hn & He).
  exists nxt, sends. split; [|done]. cbn [TaskModel.m_step]. rewrite Ht. destruct t as [o l op n]. cbn in Ha. subst l. by rewrite Hs.
Qed.

Lemma run_idle m h' t g : m_tasks m !! h' = Some t -> t_acts t = [] -> m_step m (ERun h' g) = m.
Proof. intros Ht Ha. cbn [TaskModel.m_step]. rewrite Ht. destruct t as [o l op n]. cbn in Ha. by subst l. Qed.
Lemma run_none m h' g : m_tasks m !! h' = None -> m_step m (ERun h' g) = m.
Proof. intros Ht. cbn [TaskModel.m_step]. by rewrite Ht. Qed.

Lemma extend_other n b e b' : b <> b' -> broker_at (extend n b e) b' = broker_at n b'.
Proof. intros. rewrite broker_extend. by rewrite decide_False. Qed.
Lemma extend_self n b e : broker_at (extend n b e) b = m_step (broker_at n b) e.
Proof. rewrite broker_extend. by rewrite decide_True. Qed.

Lemma same_broker_ext n n' b : broker_at n' b = broker_at n b -> same_broker n b -> same_broker n' b.
Proof. unfold same_broker. by intros ->. Qed.
Lemma reached_broker_ext n n' Sa Sa' b : broker_at n' b = broker_at n b -> (forall c, In c (map e_conn Sa) -> In c (map e_conn Sa')) ->
  reached_broker n Sa b -> reached_broker n' Sa' b.
Proof.
  intros Heq Hs (c & hb & o & k & acts & Sb & H1 & H2 & H3 & H4 & H5 & H6 & H7).
  exists c, hb, o, k, acts, Sb. rewrite Heq. split; [done|]. split; [done|]. split; [by apply Hs|]. done.
Qed.

(** A step that changes no broker's state keeps the invariant. *)
Lemma cinv_noop n b e : m_step (broker_at n b) e = broker_at n b -> cinv n -> cinv (extend n b e).
Proof.
  intros Hno (Hl & Sa & Ho & Hb).
  assert (Heq : forall b', broker_at (extend n b e) b' = broker_at n b').
  { intros b'. rewrite broker_extend. case_decide; [by subst|done]. }
  split; [done|]. exists Sa. split; [unfold origin_state in *; by rewrite Heq|].
  intros b' Hne. destruct (Hb b' Hne) as [Hs|Hr]; [left; exact (same_broker_ext n _ b' (Heq b') Hs)|right; exact (reached_broker_ext n _ Sa Sa b' (Heq b') (fun _ Hx => Hx) Hr)].
Qed.

Lemma cinv_start : cinv (n_run (es0 ++ [NPublish a h raw no_hook])).
Proof.
  rewrite n_run_snoc. cbn [NetModel.n_step]. rewrite Hpub. split; [done|]. exists []. split.
  - exists [A0]. rewrite extend_self. cbn [TaskModel.m_step]. rewrite Hpub. cbn [loop_frame]. rewrite HA0. cbn [m_conns m_tasks m_sent].
    split; [done|]. split; [done|]. split; [cbn [map]; by rewrite app_nil_r|]. split; [by repeat constructor|done].
  - intros b Hne. left. unfold same_broker. by rewrite extend_other.
Qed.

Lemma cinv_run_step n b h' : cinv n -> cinv (extend n b (ERun h' true)).
Proof.
  intros Hc. destruct (tasks_at n b !! h') as [t|] eqn:Et; [|by apply cinv_noop; [apply run_none|]].
  destruct (t_acts t) as [|x rest] eqn:Ea0; [by apply cinv_noop; [eapply run_idle|]|].
  destruct Hc as (Hl & Sa & Ho & Hb). split; [done|].
  destruct (decide (b = a)) as [->|Hne].
  - destruct Ho as (acts & Hco & Hta & Hse & Hro & Hem).
    assert (Hh : h' = h).
    { destruct (decide (h' = h)) as [|Hn]; [done|]. rewrite Hta, lookup_insert_ne in Et by done.
      destruct Hrest as [Hr _]. rewrite (Hr _ _ _ Et) in Ea0. done. }
    subst h'. rewrite Hta, lookup_insert in Et. injection Et as <-. cbn in Ea0. subst acts.
    apply Forall_cons in Hro as [Hrx Hro].
    assert (Et : tasks_at n a !! h = Some (Task (OUser u cu) (x :: rest) true (1 + k0))) by (by rewrite Hta, lookup_insert).
    destruct (run_step (broker_at n a) h _ rest x Et eq_refl Hrx) as (nxt & sends & Hst & Hn & He).
    exists (Sa ++ sends). split.
    + exists (nxt ++ rest). rewrite extend_self, Hst. cbn [m_conns m_tasks m_sent t_owner t_open t_frames]. split; [done|]. split.
      { rewrite Hta. by rewrite insert_insert. }
      split; [rewrite Hse, map_app; by rewrite app_assoc|]. split; [by apply Forall_app|].
      rewrite <- Hem. unfold ems in *. rewrite map_app, concat_app. cbn [map concat]. rewrite Hco in He. rewrite <- He.
      by rewrite <- !app_assoc.
    + intros b' Hb'. destruct (Hb b' Hb') as [Hs|Hr].
      * left. eapply same_broker_ext; [|exact Hs]. by rewrite extend_other.
      * right. eapply reached_broker_ext; [| |exact Hr]; [by rewrite extend_other|].
        intros c0. rewrite map_app, in_app_iff. by left.
  - exists Sa. split; [unfold origin_state in *; by rewrite extend_other|].
    intros b' Hb'. destruct (decide (b' = b)) as [->|Hbb]; [|destruct (Hb b' Hb') as [Hs|Hr];
      [left; eapply same_broker_ext; [|exact Hs]; by rewrite extend_other|right; eapply reached_broker_ext; [| |exact Hr]; [by rewrite extend_other|done]]].
    destruct (Hb b Hne) as [Hs|Hr].
    + exfalso. destruct Hs as (_ & Hta & _). rewrite Hta in Et. destruct Hrest as [Hr _]. rewrite (Hr _ _ _ Et) in Ea0. done.
    + right. destruct Hr as (c & hb & o & k & acts & Sb & Hli & Ht0 & Hin & Hco & Hta & Hse & Hro & Hem).
      assert (Hh : h' = hb).
      { destruct (decide (h' = hb)) as [|Hn]; [done|]. rewrite Hta, lookup_insert_ne in Et by done.
        destruct Hrest as [Hr _]. rewrite (Hr _ _ _ Et) in Ea0. done. }
      subst h'. rewrite Hta, lookup_insert in Et. injection Et as <-. cbn in Ea0. subst acts.
      apply Forall_cons in Hro as [Hrx Hro].
      assert (Et : tasks_at n b !! hb = Some (Task o (x :: rest) true (1 + k))) by (by rewrite Hta, lookup_insert).
      destruct (run_step (broker_at n b) hb _ rest x Et eq_refl Hrx) as (nxt & sends & Hst & Hn & He).
      exists c, hb, o, k, (nxt ++ rest), (Sb ++ sends). split; [done|]. split; [done|]. split; [done|].
      rewrite extend_self, Hst. cbn [m_conns m_tasks m_sent t_owner t_open t_frames]. split; [done|]. split.
      { rewrite Hta. by rewrite insert_insert. }
      split; [rewrite Hse, map_app; by rewrite app_assoc|]. split; [by apply Forall_app|].
      rewrite <- Hem. unfold ems in *. rewrite map_app, concat_app. cbn [map concat]. rewrite Hco in He. rewrite <- He.
      by rewrite <- !app_assoc.
Qed.

Lemma filter_nil_conn c h' k' (l : list emission) : (forall e, In e l -> e_conn e = c -> False) -> filter (fun x => e_conn (s_what x) = c) (map (Sent h' k') l) = [].
Proof.
  induction l as [|e l IH]; [done|]. intros Hn. cbn [map]. rewrite filter_cons_False; [apply IH; intros e' He'; apply Hn; by right|].
  cbn. intros Hc. by apply (Hn e (or_introl eq_refl)).
Qed.

(** What the origin has sent on a link, beyond what was there before. *)
Lemma origin_sent_on n Sa c : origin_state n Sa ->
  sent_on (broker_at n a) c = sent_on (broker_at n0 a) c ++ filter (fun x => e_conn (s_what x) = c) (map (Sent h (1 + k0)) Sa).
Proof. intros (acts & _ & _ & Hse & _). unfold sent_on. by rewrite Hse, filter_app. Qed.

Lemma reached_sent_on es n Sa b c d hd : n = n_run es -> n_links n !! (b, c) = Some (d, hd) -> n_links n = n_links n0 ->
  reached_broker n Sa b -> sent_on (broker_at n b) c = sent_on (broker_at n0 b) c.
Proof.
  intros -> Hl Hll (c' & hb & o & k & acts & Sb & _ & _ & _ & _ & _ & Hse & _ & Hem). unfold sent_on.
  rewrite Hse, filter_app. rewrite <- (app_nil_r (filter _ (sent_at n0 b))) at 2. f_equal.
  destruct (filter (fun x => e_conn (s_what x) = c) (map (Sent hb (1 + k)) Sb)) as [|x l] eqn:Ef; [done|exfalso].
  assert (Hx : x ∈ filter (fun x => e_conn (s_what x) = c) (map (Sent hb (1 + k)) Sb)) by (rewrite Ef; left).
  apply elem_of_list_filter in Hx as [Hcx Hx]. apply elem_of_list_In in Hx.
  assert (Hto : e_to (s_what x) = inr d).
  { eapply (link_target deser dec_users dec_topics valid enc_users enc_topics es b c d hd); [done| |done]. rewrite Hse, in_app_iff. by right. }
  apply in_map_iff in Hx as (e & <- & He). cbn in Hto.
  destruct (HuB (conns_at n0 b) e) as [v Hv]; [|congruence]. change (In e (Eb b)). rewrite <- Hem, in_app_iff. by left.
Qed.

(** Two copies sent by the origin to the same peer are the same copy. *)
Lemma origin_once n Sa j k x y : origin_state n Sa -> Sa !! j = Some x -> Sa !! k = Some y -> e_to x = e_to y -> j = k.
Proof.
  intros (acts & _ & _ & _ & _ & Hem) Hx Hy Hto. pose proof (HoA (conns_at n0 a)) as Hnd. change (NoDup (map e_to Ea)) in Hnd. rewrite <- Hem, map_app in Hnd.
  apply NoDup_app in Hnd as (Hnd & _). eapply (NoDup_lookup _ _ _ (e_to x)); [exact Hnd| |].
  - change (map e_to Sa) with (e_to <$> Sa). by rewrite list_lookup_fmap, Hx.
  - change (map e_to Sa) with (e_to <$> Sa). by rewrite list_lookup_fmap, Hy, Hto.
Qed.

Lemma origin_on_conn es n Sa c b hb : n = n_run es -> n_links n !! (a, c) = Some (b, hb) -> origin_state n Sa ->
  length (filter (fun x => e_conn (s_what x) = c) (map (Sent h (1 + k0)) Sa)) <= 1.
Proof.
  intros -> Hl Ho. destruct (filter (fun x => e_conn (s_what x) = c) (map (Sent h (1 + k0)) Sa)) as [|x [|y l]] eqn:Ef; [cbn; lia|cbn; lia|exfalso].
  assert (Hx : filter (fun x => e_conn (s_what x) = c) (map (Sent h (1 + k0)) Sa) !! 0 = Some x) by (by rewrite Ef).
  assert (Hy : filter (fun x => e_conn (s_what x) = c) (map (Sent h (1 + k0)) Sa) !! 1 = Some y) by (by rewrite Ef).
  destruct (filter_indices (fun x => e_conn (s_what x) = c) _ 0 1 x y ltac:(lia) Hx Hy) as (j & k & Hjk & Hj & Hk).
  assert (Hto : forall z i, map (Sent h (1 + k0)) Sa !! i = Some z -> e_conn (s_what z) = c -> e_to (s_what z) = inr b).
  { intros z i Hz Hc. eapply (link_target deser dec_users dec_topics valid enc_users enc_topics es a c b hb); [done| |done].
    destruct Ho as (acts & _ & _ & -> & _). rewrite in_app_iff. right. by apply elem_of_list_In, elem_of_list_lookup_2 with i. }
  apply elem_of_list_lookup_2, elem_of_list_filter in Hx as [Hcx _]. apply elem_of_list_lookup_2, elem_of_list_filter in Hy as [Hcy _].
  pose proof (Hto _ _ Hj Hcx) as Htx. pose proof (Hto _ _ Hk Hcy) as Hty.
  change (map (Sent h (1 + k0)) Sa) with (Sent h (1 + k0) <$> Sa) in Hj, Hk.
  rewrite list_lookup_fmap in Hj, Hk. destruct (Sa !! j) as [ej|] eqn:Ej; [|done]. destruct (Sa !! k) as [ek|] eqn:Ek; [|done].
  cbn in Hj, Hk. injection Hj as <-. injection Hk as <-. cbn in Htx, Hty.
  pose proof (origin_once _ _ j k _ _ Ho Ej Ek ltac:(congruence)). lia.
Qed.

Lemma frame_closed m h' raw' hk t : m_tasks m !! h' = Some t -> t_open t = false -> m_step m (EFrame h' raw' hk) = m.
Proof. intros Ht Hop. cbn [TaskModel.m_step]. rewrite Ht. destruct t as [o [|? ?] [|] n]; done. Qed.
Lemma frame_busy m h' raw' hk t : m_tasks m !! h' = Some t -> t_acts t <> [] -> m_step m (EFrame h' raw' hk) = m.
Proof. intros Ht Hop. cbn [TaskModel.m_step]. rewrite Ht. destruct t as [o [|? ?] [|] n]; done. Qed.

Lemma cinv_deliver es d c : cinv (n_run es) -> cinv (n_step (n_run es) (NDeliver d c no_hook)).
Proof.
  intros Hc. cbn [NetModel.n_step]. set (n := n_run es) in *.
  destruct (n_links n !! (d, c)) as [[b h']|] eqn:El; [|done].
  destruct (tasks_at n b !! h') as [t|] eqn:Et; [|done].
  destruct (sent_on (broker_at n d) c !! t_frames t) as [x|] eqn:Ex; [|done].
  destruct (t_open t) eqn:Eop; [|apply cinv_noop; [by eapply frame_closed|done]].
  pose proof Hc as (Hl & Sa & Ho & Hb).
  destruct (inv_run es) as (I0 & I2 & _ & _). fold n in I0, I2. destruct (I0 _ _ _ _ El) as (Hdb & _ & cb & t1 & Ht1 & Ho1).
  rewrite Et in Ht1. injection Ht1 as <-.
  assert (El0 : n_links n0 !! (d, c) = Some (b, h')) by by rewrite <- Hl.
  destruct Hrest as [Hr1 Hr2].
  (* the sender is not the origin: it has sent nothing new on links *)
  destruct (decide (d = a)) as [->|Hda].
  2: { exfalso.
    assert (Hsame : sent_on (broker_at n d) c = sent_on (broker_at n0 d) c).
    { destruct (Hb d Hda) as [(_ & _ & Hs)|Hrb]; [unfold sent_on; by rewrite Hs|]. by eapply (reached_sent_on es). }
    assert (Ht0 : tasks_at n0 b !! h' = Some t).
    { destruct (decide (b = a)) as [->|Hba].
      - destruct Ho as (acts & _ & Hta & _). rewrite Hta in Et.
        destruct (decide (h = h')) as [<-|Hn]; [|by rewrite lookup_insert_ne in Et].
        rewrite lookup_insert in Et. injection Et as <-. done.
      - destruct (Hb b Hba) as [(_ & Hta & _)|(c' & hb & o & k & acts & Sb & Hli & _ & _ & _ & Hta & _)]; [by rewrite <- Hta|].
        rewrite Hta in Et. destruct (decide (hb = h')) as [->|Hn]; [|by rewrite lookup_insert_ne in Et].
        destruct (I2 _ _ _ _ _ _ El ltac:(rewrite Hl; exact Hli)) as [-> _]. done. }
    rewrite Hsame, (Hr2 _ _ _ _ _ El0 Ht0 Eop) in Ex. apply lookup_lt_Some in Ex. lia. }
  (* the sender is the origin *)
  assert (Hab : b <> a) by congruence.
  rewrite (origin_sent_on n Sa c Ho) in Ex.
  pose proof (origin_on_conn es n Sa c b h' eq_refl El Ho) as Hone.
  destruct (Hb b Hab) as [(Hco & Hta & Hse)|Hrb].
  - rewrite Hta in Et. rewrite lookup_app_r in Ex by (rewrite (Hr2 _ _ _ _ _ El0 Et Eop); lia).
    rewrite (Hr2 _ _ _ _ _ El0 Et Eop), Nat.sub_diag in Ex.
    apply elem_of_list_lookup_2, elem_of_list_filter in Ex as [Hcx Hx]. apply elem_of_list_In, in_map_iff in Hx as (e & <- & He). cbn in Hcx.
    assert (Hfr : e_frame e = FRelay raw).
    { apply (HfA (conns_at n0 a)). change (In e Ea). destruct Ho as (acts & _ & _ & _ & _ & <-). rewrite in_app_iff. by left. }
    split; [done|]. exists Sa. split; [unfold origin_state in *; by rewrite extend_other|].
    intros b' Hb'. destruct (decide (b' = b)) as [->|Hbb]; [|destruct (Hb b' Hb') as [Hs|Hr];
      [left; eapply same_broker_ext; [|exact Hs]; by rewrite extend_other|right; eapply reached_broker_ext; [| |exact Hr]; [by rewrite extend_other|done]]].
    right. destruct t as [o acts op k]. cbn in Ho1, Eop. subst o op. pose proof (Hr1 _ _ _ Et) as Hacts. cbn in Hacts. subst acts.
    exists c, h', (OBroker a cb), k, [AB], []. split; [done|]. split; [done|]. split; [subst c; by apply in_map|].
    rewrite extend_self. cbn [TaskModel.m_step]. rewrite Hta, Et. cbn [loop_frame s_what]. rewrite Hfr. cbn [NetModel.wire]. rewrite HAB. cbn [m_conns m_tasks m_sent].
    split; [done|]. split; [done|]. split; [rewrite Hse; cbn; by rewrite app_nil_r|]. split; [by repeat constructor|done].
  - exfalso. destruct Hrb as (c' & hb & o & k & acts & Sb & Hli & Ht0 & Hin & Hco & Hta & Hse & Hro & Hem).
    destruct (decide (hb = h')) as [->|Hn].
    + destruct (I2 _ _ _ _ _ _ El ltac:(rewrite Hl; exact Hli)) as [_ <-].
      rewrite Hta, lookup_insert in Et. injection Et as <-. cbn [t_frames] in Ex.
      pose proof (Hr2 _ _ _ _ _ El0 Ht0 eq_refl) as Hk. cbn [t_frames] in Hk.
      apply lookup_lt_Some in Ex. rewrite app_length in Ex. lia.
    + rewrite Hta, lookup_insert_ne in Et by done.
      rewrite lookup_app_r in Ex by (rewrite (Hr2 _ _ _ _ _ El0 Et Eop); lia).
      rewrite (Hr2 _ _ _ _ _ El0 Et Eop), Nat.sub_diag in Ex.
      apply elem_of_list_lookup_2, elem_of_list_filter in Ex as [Hcx Hx]. apply elem_of_list_In, in_map_iff in Hx as (e & <- & He). cbn in Hcx.
      apply in_map_iff in Hin as (e' & Hce' & He').
      assert (Hsent : forall z, In z Sa -> In (Sent h (1 + k0) z) (sent_at n a)).
      { intros z Hz. destruct Ho as (acts' & _ & _ & -> & _). rewrite in_app_iff. right. by apply in_map. }
      assert (Hte : e_to e = inr b).
      { apply (link_target deser dec_users dec_topics valid enc_users enc_topics es a c b h' (Sent h (1 + k0) e) El (Hsent _ He) Hcx). }
      assert (Hte' : e_to e' = inr b).
      { apply (link_target deser dec_users dec_topics valid enc_users enc_topics es a c' b hb (Sent h (1 + k0) e') ltac:(rewrite <- Hli, <- Hl; done) (Hsent _ He') Hce'). }
      apply elem_of_list_In, elem_of_list_lookup_1 in He as [j Hj]. apply elem_of_list_In, elem_of_list_lookup_1 in He' as [j' Hj'].
      pose proof (origin_once _ _ _ _ _ _ Ho Hj Hj' ltac:(congruence)) as ->. rewrite Hj in Hj'. injection Hj' as <-.
      assert (Hcc : c' = c) by congruence. rewrite Hcc in Hli. congruence.
Qed.

Lemma cinv_all es1 : Forall calm es1 -> cinv (n_run (es0 ++ NPublish a h raw no_hook :: es1)).
Proof.
  induction es1 as [|e es1 IH] using rev_ind; intros Hc; [apply cinv_start|].
  apply Forall_app in Hc as [Hc He]. apply Forall_cons in He as [He _]. specialize (IH Hc).
  replace (es0 ++ NPublish a h raw no_hook :: es1 ++ [e]) with ((es0 ++ NPublish a h raw no_hook :: es1) ++ [e]) by (by rewrite <- app_assoc).
  rewrite n_run_snoc. destruct e as [| | |d c hk|b e]; try done.
  - cbn in He. subst hk. by apply cinv_deliver.
  - destruct e as [| | | | | |h' [|]|]; try done. cbn [NetModel.n_step receives_nothing]. by apply cinv_run_step.
Qed.

(** When everything has come to rest again. *)
Lemma complete_run es1 :
  Forall calm es1 -> at_rest (n_run (es0 ++ NPublish a h raw no_hook :: es1)) ->
  let n' := n_run (es0 ++ NPublish a h raw no_hook :: es1) in
  sent_at n' a = sent_at n0 a ++ map (Sent h (1 + k0)) Ea
  /\ (forall b, b <> a -> (exists hb k, sent_at n' b = sent_at n0 b ++ map (Sent hb k) (Eb b)) \/ sent_at n' b = sent_at n0 b)
  /\ (forall b c hb t, b <> a -> In (Emit (inr b) c (FRelay raw)) Ea -> n_links n0 !! (a, c) = Some (b, hb) ->
        tasks_at n0 b !! hb = Some t -> t_open t = true ->
        exists hb' k, sent_at n' b = sent_at n0 b ++ map (Sent hb' k) (Eb b)).
Proof.
  intros Hcalm [Hq1 Hq2] n'. pose proof (cinv_all es1 Hcalm) as (Hl & Sa & Ho & Hb). fold n' in Hl, Ho, Hb, Hq1, Hq2.
  assert (HSa : Sa = Ea).
  { destruct Ho as (acts & _ & Hta & _ & _ & Hem). pose proof (Hq1 a h) as Hq. rewrite Hta, lookup_insert in Hq. specialize (Hq _ eq_refl). cbn in Hq. subst acts.
    unfold ems in Hem. cbn in Hem. by rewrite app_nil_r in Hem. }
  subst Sa.
  assert (Hdone : forall b, reached_broker n' Ea b -> exists hb k, sent_at n' b = sent_at n0 b ++ map (Sent hb k) (Eb b)).
  { intros b (c & hb & o & k & acts & Sb & _ & _ & _ & _ & Hta & Hse & _ & Hem). exists hb, (1 + k).
    pose proof (Hq1 b hb) as Hq. rewrite Hta, lookup_insert in Hq. specialize (Hq _ eq_refl). cbn in Hq. subst acts.
    unfold ems in Hem. cbn in Hem. rewrite app_nil_r in Hem. by rewrite Hse, Hem. }
  split; [by destruct Ho as (acts & _ & _ & Hse & _)|]. split.
  - intros b Hne. destruct (Hb b Hne) as [(_ & _ & Hs)|Hr]; [by right|left; by apply Hdone].
  - intros b c hb t Hne Hin Hli Ht Hop. destruct (Hb b Hne) as [(_ & Hta & _)|Hr]; [exfalso|by apply Hdone].
    assert (El : n_links n' !! (a, c) = Some (b, hb)) by by rewrite Hl.
    assert (Et : tasks_at n' b !! hb = Some t) by by rewrite Hta.
    pose proof (Hq2 _ _ _ _ _ El Et Hop) as Hfr. destruct Hrest as [_ Hr2]. rewrite (Hr2 _ _ _ _ _ Hli Ht Hop) in Hfr.
    rewrite (origin_sent_on _ _ c Ho), app_length in Hfr.
    assert (Hf : Sent h (1 + k0) (Emit (inr b) c (FRelay raw)) ∈ filter (fun x => e_conn (s_what x) = c) (map (Sent h (1 + k0)) Ea)).
    { apply elem_of_list_filter. split; [done|]. apply elem_of_list_In. by apply in_map. }
    apply elem_of_list_lookup_1 in Hf as [j Hj]. apply lookup_lt_Some in Hj. lia.
Qed.

(** ** Everything does come to rest: a calm continuation exists *)
Definition wt1 (x : act) : nat := match x with ALookupUser _ _ | ALookupBroker _ _ => 2 | ASendUser _ _ _ | ASendBroker _ _ _ => 1 | _ => 0 end.
Definition wt (s : conns) (x : act) : nat :=
  match x with
  | ADirect r w only => 1 + sum_list_with wt1 (direct_next s r w only)
  | ABroadcast ts w only => 1 + sum_list_with wt1 (broadcast_next s ts w only)
  | _ => wt1 x
  end.
Definition wts (s : conns) (l : list act) : nat := sum_list_with (wt s) l.

Lemma wt_low s l : Forall (fun x => match x with ADirect _ _ _ | ABroadcast _ _ _ => False | _ => True end) l -> wts s l = sum_list_with wt1 l.
Proof. unfold wts. induction 1 as [|x l Hx _ IH]; [done|]. cbn. rewrite IH. by destruct x. Qed.

Lemma wt_step s x nxt sends : routing x = true -> act_step (fun _ => true) s x = (s, nxt, sends) -> wts s nxt < wt s x.
Proof.
  intros Hr. destruct x as [r w only|ts w only|v f|v c f|b f|b c f|f|v|b|v c ts h'|b c h'|v ts|v ts|d|b d|b|b| |]; try done; cbn [act_step].
  - intros [= <- <-]. pose proof (direct_next_low s r w only) as Hl. rewrite Forall_and in Hl. destruct Hl as [_ H2]. rewrite (wt_low s _ H2). cbn [wt]. lia.
  - intros [= <- <-]. pose proof (broadcast_next_low s ts w only) as Hl. rewrite Forall_and in Hl. destruct Hl as [_ H2]. rewrite (wt_low s _ H2). cbn [wt]. lia.
  - intros [= <- <-]. destruct (c_get_user_connection s v); cbn; lia.
  - intros [= <- <-]. cbn. lia.
  - intros [= <- <-]. destruct (c_get_broker_connection s b); cbn; lia.
  - intros [= <- <-]. cbn. lia.
Qed.

Lemma wts_app s l l' : wts s (l ++ l') = wts s l + wts s l'.
Proof. unfold wts. induction l as [|x l IH]; [done|]. cbn. rewrite IH. lia. Qed.

Notation after es1 := (n_run (es0 ++ NPublish a h raw no_hook :: es1)).
Lemma after_app es1 es2 : es0 ++ NPublish a h raw no_hook :: es1 ++ es2 = (es0 ++ NPublish a h raw no_hook :: es1) ++ es2.
Proof. by rewrite <- app_assoc. Qed.

Lemma cinv_routing n b h' t : cinv n -> tasks_at n b !! h' = Some t -> Forall (fun x => routing x = true) (t_acts t).
Proof.
  intros (_ & Sa & Ho & Hb) Ht. destruct Hrest as [Hr _].
  assert (H0 : tasks_at n0 b !! h' = Some t -> Forall (fun x => routing x = true) (t_acts t)) by (intros H0; rewrite (Hr _ _ _ H0); constructor).
  destruct (decide (b = a)) as [->|Hne].
  - destruct Ho as (acts & _ & Hta & _ & Hro & _). rewrite Hta in Ht. destruct (decide (h = h')) as [<-|Hn].
    + rewrite lookup_insert in Ht. by injection Ht as <-.
    + rewrite lookup_insert_ne in Ht by done. by apply H0.
  - destruct (Hb b Hne) as [(_ & Hta & _)|(c & hb & o & k & acts & Sb & _ & _ & _ & _ & Hta & _ & Hro & _)]; [rewrite Hta in Ht; by apply H0|].
    rewrite Hta in Ht. destruct (decide (hb = h')) as [<-|Hn].
    + rewrite lookup_insert in Ht. by injection Ht as <-.
    + rewrite lookup_insert_ne in Ht by done. by apply H0.
Qed.

(** A task performs all its actions. *)
Lemma drain es1 b h' t : Forall calm es1 -> tasks_at (after es1) b !! h' = Some t ->
  exists es2, Forall calm es2
    /\ tasks_at (after (es1 ++ es2)) b !! h' = Some (Task (t_owner t) [] (t_open t) (t_frames t))
    /\ (forall h2, h2 <> h' -> tasks_at (after (es1 ++ es2)) b !! h2 = tasks_at (after es1) b !! h2)
    /\ (forall d, d <> b -> broker_at (after (es1 ++ es2)) d = broker_at (after es1) d).
Proof.
  remember (wts (conns_at (after es1) b) (t_acts t)) as w eqn:Hw. revert es1 t Hw.
  induction w as [w IH] using lt_wf_ind. intros es1 t Hw Hcalm Ht.
  destruct (t_acts t) as [|x rest] eqn:Ea0.
  { exists []. rewrite app_nil_r. split; [constructor|]. split; [rewrite Ht; destruct t; cbn in *; by subst|]. done. }
  pose proof (cinv_routing _ _ _ _ (cinv_all es1 Hcalm) Ht) as Hro. rewrite Ea0 in Hro. apply Forall_cons in Hro as [Hrx _].
  destruct (routing_step (conns_at (after es1) b) x Hrx) as (nxt & sends & Hst & _ & _).
  pose proof (wt_step _ _ _ _ Hrx Hst) as Hlt.
  set (e := NStep b (ERun h' true)).
  assert (Hn : after (es1 ++ [e]) = extend (after es1) b (ERun h' true)).
  { rewrite after_app, n_run_snoc. done. }
  assert (Hm : broker_at (after (es1 ++ [e])) b
    = Machine (conns_at (after es1) b) (<[h' := Task (t_owner t) (nxt ++ rest) (t_open t) (t_frames t)]> (tasks_at (after es1) b))
        (sent_at (after es1) b ++ map (Sent h' (t_frames t)) sends) (m_rcvd (broker_at (after es1) b))).
  { rewrite Hn, extend_self. cbn [TaskModel.m_step]. rewrite Ht. destruct t as [o l op k]. cbn in Ea0. subst l. by rewrite Hst. }
  destruct (IH (wts (conns_at (after (es1 ++ [e])) b) (nxt ++ rest))) with (es1 := es1 ++ [e]) (t := Task (t_owner t) (nxt ++ rest) (t_open t) (t_frames t))
    as (es2 & Hc2 & Ht2 & Hs2 & Ho2).
  - rewrite Hm. cbn [m_conns]. rewrite Hw, wts_app. unfold wts in *. cbn [sum_list_with]. lia.
  - done.
  - apply Forall_app. split; [done|]. by repeat constructor.
  - rewrite Hm. cbn [m_tasks]. by rewrite lookup_insert.
  - exists (e :: es2). replace (es1 ++ e :: es2) with ((es1 ++ [e]) ++ es2) by (by rewrite <- app_assoc).
    split; [by constructor|]. split; [done|]. split.
    + intros h2 Hne. rewrite Hs2 by done. rewrite Hm. cbn [m_tasks]. by rewrite lookup_insert_ne.
    + intros d Hd. rewrite Ho2 by done. rewrite Hn. by rewrite extend_other.
Qed.

(** Links not coming from the origin carry nothing new. *)
Lemma other_link_read es1 d c b h' t : Forall calm es1 -> d <> a -> n_links (after es1) !! (d, c) = Some (b, h') ->
  tasks_at (after es1) b !! h' = Some t -> t_open t = true -> t_frames t = length (sent_on (broker_at (after es1) d) c).
Proof.
  intros Hcalm Hda El Et Eop. pose proof (cinv_all es1 Hcalm) as (Hl & Sa & Ho & Hb).
  destruct (inv_run (es0 ++ NPublish a h raw no_hook :: es1)) as (I0 & I2 & _ & _). set (n := after es1) in *.
  destruct (I0 _ _ _ _ El) as (Hdb & _ & cb & t1 & Ht1 & Ho1). rewrite Et in Ht1. injection Ht1 as <-.
  assert (El0 : n_links n0 !! (d, c) = Some (b, h')) by by rewrite <- Hl.
  destruct Hrest as [Hr1 Hr2].
  assert (Hsame : sent_on (broker_at n d) c = sent_on (broker_at n0 d) c).
  { destruct (Hb d Hda) as [(_ & _ & Hs)|Hrb]; [unfold sent_on; by rewrite Hs|]. by eapply (reached_sent_on (es0 ++ NPublish a h raw no_hook :: es1)). }
  assert (Ht0 : tasks_at n0 b !! h' = Some t).
  { destruct (decide (b = a)) as [->|Hba].
    - destruct Ho as (acts & _ & Hta & _). rewrite Hta in Et.
      destruct (decide (h = h')) as [<-|Hn]; [|by rewrite lookup_insert_ne in Et].
      rewrite lookup_insert in Et. injection Et as <-. done.
    - destruct (Hb b Hba) as [(_ & Hta & _)|(c' & hb & o & k & acts & Sb & Hli & _ & _ & _ & Hta & _)]; [by rewrite <- Hta|].
      rewrite Hta in Et. destruct (decide (hb = h')) as [->|Hn]; [|by rewrite lookup_insert_ne in Et].
      destruct (I2 _ _ _ _ _ _ El ltac:(rewrite Hl; exact Hli)) as [-> _]. done. }
  rewrite Hsame. exact (Hr2 _ _ _ _ _ El0 Ht0 Eop).
Qed.

Definition settled (n : net) (b : bid) : Prop :=
  (forall h' t, tasks_at n b !! h' = Some t -> t_acts t = [])
  /\ (forall d c h' t, n_links n !! (d, c) = Some (b, h') -> tasks_at n b !! h' = Some t -> t_open t = true ->
        t_frames t = length (sent_on (broker_at n d) c)).

Lemma settled_all n : (forall b, settled n b) -> at_rest n.
Proof. intros Hs. split; [intros b; apply (Hs b)|]. intros d c b. destruct (Hs b) as [_ H2]. exact (H2 d c). Qed.

(** A copy for broker [b] among what the origin sent, and the links to [b]. *)
Lemma origin_link_conn es1 Sa c b hb e : n_links (after es1) !! (a, c) = Some (b, hb) -> origin_state (after es1) Sa -> In e Sa -> e_conn e = c -> e_to e = inr b.
Proof.
  intros Hl Ho He Hc.
  apply (link_target deser dec_users dec_topics valid enc_users enc_topics (es0 ++ NPublish a h raw no_hook :: es1) a c b hb (Sent h (1 + k0) e) Hl); [|done].
  destruct Ho as (acts & _ & _ & -> & _). rewrite in_app_iff. right. by apply in_map.
Qed.

Lemma reached_settled es1 Sa b : Forall calm es1 -> b <> a -> origin_state (after es1) Sa -> n_links (after es1) = n_links n0 ->
  reached_broker (after es1) Sa b -> (forall h' t, tasks_at (after es1) b !! h' = Some t -> t_acts t = []) -> settled (after es1) b.
Proof.
  intros Hcalm Hne Ho Hl Hr Hidle. split; [done|]. intros d c h' t El Et Eop.
  destruct (decide (d = a)) as [->|Hda]; [|by eapply other_link_read].
  destruct Hr as (c' & hb & o & k & acts & Sb & Hli & Ht0 & Hin & Hco & Hta & _).
  destruct (inv_run (es0 ++ NPublish a h raw no_hook :: es1)) as (_ & I2 & _ & _).
  pose proof (origin_on_conn _ _ Sa c b h' eq_refl El Ho) as Hone.
  rewrite (origin_sent_on _ Sa c Ho), app_length. destruct Hrest as [_ Hr2].
  assert (El0 : n_links n0 !! (a, c) = Some (b, h')) by by rewrite <- Hl.
  apply in_map_iff in Hin as (e' & Hce' & He').
  destruct (decide (hb = h')) as [->|Hn].
  - destruct (I2 _ _ _ _ _ _ El ltac:(rewrite Hl; exact Hli)) as [_ <-].
    rewrite Hta, lookup_insert in Et. injection Et as <-. cbn [t_frames].
    pose proof (Hr2 _ _ _ _ _ El0 Ht0 eq_refl) as Hk. cbn [t_frames] in Hk. rewrite <- Hk.
    assert (Hf : Sent h (1 + k0) e' ∈ filter (fun x => e_conn (s_what x) = c) (map (Sent h (1 + k0)) Sa)).
    { apply elem_of_list_filter. split; [done|]. apply elem_of_list_In. by apply in_map. }
    apply elem_of_list_lookup_1 in Hf as [j Hj]. apply lookup_lt_Some in Hj. lia.
  - rewrite Hta, lookup_insert_ne in Et by done. rewrite (Hr2 _ _ _ _ _ El0 Et Eop).
    rewrite (filter_nil_conn c); [cbn; lia|]. intros e He Hc.
    pose proof (origin_link_conn es1 Sa c b h' e El Ho He Hc) as Hte.
    pose proof (origin_link_conn es1 Sa c' b hb e' ltac:(by rewrite Hl) Ho He' Hce') as Hte'.
    apply elem_of_list_In, elem_of_list_lookup_1 in He as [j Hj]. apply elem_of_list_In, elem_of_list_lookup_1 in He' as [j' Hj'].
    pose proof (origin_once _ _ _ _ _ _ Ho Hj Hj' ltac:(congruence)) as ->. rewrite Hj in Hj'. injection Hj' as <-.
    assert (Hcc : c' = c) by congruence. rewrite Hcc in Hli. congruence.
Qed.

Lemma same_settled es1 Sa b : Forall calm es1 -> b <> a -> origin_state (after es1) Sa -> n_links (after es1) = n_links n0 ->
  same_broker (after es1) b ->
  (forall e hb t, In e Sa -> n_links (after es1) !! (a, e_conn e) = Some (b, hb) -> tasks_at (after es1) b !! hb = Some t -> t_open t = false) ->
  settled (after es1) b.
Proof.
  intros Hcalm Hne Ho Hl (_ & Hta & _) Hclosed. destruct Hrest as [Hr1 Hr2]. split; [intros h' t Ht; rewrite Hta in Ht; by eapply Hr1|].
  intros d c h' t El Et Eop. destruct (decide (d = a)) as [->|Hda]; [|by eapply other_link_read].
  rewrite (origin_sent_on _ Sa c Ho), (filter_nil_conn c).
  - rewrite app_nil_r. rewrite Hta in Et. rewrite Hl in El. exact (Hr2 _ _ _ _ _ El Et Eop).
  - intros e He <-. rewrite (Hclosed e h' t He El Et) in Eop. done.
Qed.

Lemma settle_one es1 b : Forall calm es1 -> b <> a -> exists es2, Forall calm es2
  /\ settled (after (es1 ++ es2)) b /\ (forall d, d <> b -> broker_at (after (es1 ++ es2)) d = broker_at (after es1) d).
Proof.
  intros Hcalm Hne.
  (* a broker that has received the frame finishes *)
  assert (Hreach : forall es1 Sa, Forall calm es1 -> origin_state (after es1) Sa -> reached_broker (after es1) Sa b -> exists es2, Forall calm es2
    /\ settled (after (es1 ++ es2)) b /\ (forall d, d <> b -> broker_at (after (es1 ++ es2)) d = broker_at (after es1) d)).
  { clear es1 Hcalm. intros es1 Sa Hcalm Ho Hr. pose proof Hr as (c & hb & o & k & acts & Sb & Hli & Ht0 & Hin & Hco & Hta & _).
    assert (Et : tasks_at (after es1) b !! hb = Some (Task o acts true (1 + k))) by (by rewrite Hta, lookup_insert).
    destruct (drain es1 b hb _ Hcalm Et) as (es2 & Hc2 & Ht2 & Hs2 & Ho2). cbn [t_owner t_open t_frames] in Ht2.
    exists es2. split; [done|]. split; [|done].
    assert (Hc12 : Forall calm (es1 ++ es2)) by by apply Forall_app.
    pose proof (cinv_all _ Hc12) as (Hl & Sa' & Ho' & Hb').
    destruct (Hb' b Hne) as [(_ & Hta' & _)|Hr'].
    { exfalso. rewrite Hta', Ht0 in Ht2. injection Ht2 as Hk. lia. }
    apply (reached_settled _ Sa'); [done|done|done|done|done|].
    intros h' t Ht. destruct (decide (h' = hb)) as [->|Hn]; [rewrite Ht2 in Ht; by injection Ht as <-|].
    rewrite Hs2, Hta, lookup_insert_ne in Ht by done. destruct Hrest as [Hr1 _]. by eapply Hr1. }
  pose proof (cinv_all es1 Hcalm) as (Hl & Sa & Ho & Hb).
  destruct (Hb b Hne) as [Hsame|Hr]; [|by apply (Hreach es1 Sa)].
  (* it has not: is there a copy on a link that is still being read? *)
  destruct (filter (fun e => e_to e = inr b) Sa) as [|e l] eqn:Ef.
  { exists []. rewrite app_nil_r. split; [constructor|]. split; [|done]. apply (same_settled es1 Sa); [done|done|done|done|done|].
    intros e hb t He Hlk _. exfalso. pose proof (origin_link_conn es1 Sa _ b hb e Hlk Ho He eq_refl) as Hte.
    assert (Hin : e ∈ filter (fun e => e_to e = inr b) Sa) by (apply elem_of_list_filter; split; [done|by apply elem_of_list_In]).
    rewrite Ef in Hin. by apply elem_of_nil in Hin. }
  assert (Hin : e ∈ filter (fun e => e_to e = inr b) Sa) by (rewrite Ef; left).
  apply elem_of_list_filter in Hin as [Hte He]. apply elem_of_list_In in He.
  assert (Huniq : forall e', In e' Sa -> e_to e' = inr b -> e' = e).
  { intros e' He' Hte'. apply elem_of_list_In, elem_of_list_lookup_1 in He as [j Hj]. apply elem_of_list_In, elem_of_list_lookup_1 in He' as [j' Hj'].
    pose proof (origin_once _ _ _ _ _ _ Ho Hj Hj' ltac:(congruence)) as ->. congruence. }
  assert (Hstay : (forall hb t, n_links (after es1) !! (a, e_conn e) = Some (b, hb) -> tasks_at (after es1) b !! hb = Some t -> t_open t = false) ->
    exists es2, Forall calm es2 /\ settled (after (es1 ++ es2)) b /\ (forall d, d <> b -> broker_at (after (es1 ++ es2)) d = broker_at (after es1) d)).
  { intros Hcl. exists []. rewrite app_nil_r. split; [constructor|]. split; [|done]. apply (same_settled es1 Sa); [done|done|done|done|done|].
    intros e' hb t He' Hlk Ht. pose proof (origin_link_conn es1 Sa _ b hb e' Hlk Ho He' eq_refl) as Hte'.
    rewrite (Huniq e' He' Hte') in Hlk. by eapply Hcl. }
  destruct (n_links (after es1) !! (a, e_conn e)) as [[b' hb]|] eqn:El; [|apply Hstay; intros ? ? [=]].
  assert (b' = b) as ->. { pose proof (origin_link_conn es1 Sa _ b' hb e El Ho He eq_refl). congruence. }
  destruct (tasks_at (after es1) b !! hb) as [t|] eqn:Et; [|apply Hstay; intros ? ? [= <-]; rewrite Et; intros [=]].
  destruct (t_open t) eqn:Eop; [|apply Hstay; intros ? ? [= <-]; rewrite Et; intros [= <-]; done].
  (* deliver it *)
  set (d := NDeliver a (e_conn e) no_hook).
  assert (Hcd : Forall calm (es1 ++ [d])) by (apply Forall_app; split; [done|by repeat constructor]).
  pose proof Hsame as (_ & Hta & _). destruct Hrest as [Hr1 Hr2].
  assert (Et0 : tasks_at n0 b !! hb = Some t) by by rewrite <- Hta.
  assert (Hx : exists x, sent_on (broker_at (after es1) a) (e_conn e) !! t_frames t = Some x).
  { apply lookup_lt_is_Some_2. rewrite (origin_sent_on _ Sa _ Ho), app_length.
    rewrite (Hr2 _ _ _ _ _ ltac:(by rewrite <- Hl) Et0 Eop).
    assert (Hf : Sent h (1 + k0) e ∈ filter (fun x => e_conn (s_what x) = e_conn e) (map (Sent h (1 + k0)) Sa)).
    { apply elem_of_list_filter. split; [done|]. apply elem_of_list_In. by apply in_map. }
    apply elem_of_list_lookup_1 in Hf as [j Hj]. apply lookup_lt_Some in Hj. lia. }
  destruct Hx as [x Hx].
  assert (Hn : after (es1 ++ [d]) = extend (after es1) b (EFrame hb (wire (e_frame (s_what x))) no_hook)).
  { rewrite after_app, n_run_snoc. unfold d. cbn [NetModel.n_step]. by rewrite El, Et, Hx. }
  pose proof (cinv_all _ Hcd) as (_ & Sa' & Ho' & Hb').
  assert (Hreached : reached_broker (after (es1 ++ [d])) Sa' b).
  { destruct (Hb' b Hne) as [(_ & Hta' & _)|Hr']; [exfalso|done].
    rewrite Hn, extend_self in Hta'. cbn [TaskModel.m_step] in Hta'. rewrite Et in Hta'.
    pose proof (Hr1 _ _ _ Et0) as Hacts. destruct t as [o acts op k]. cbn in Hacts, Eop. subst acts op.
    destruct (loop_frame deser dec_users dec_topics valid o (wire (e_frame (s_what x))) no_hook) as [acts go].
    cbn [m_tasks] in Hta'. apply (f_equal (fun m => m !! hb)) in Hta'. rewrite lookup_insert, Et0 in Hta'. injection Hta' as _ _ Hk. lia. }
  destruct (Hreach (es1 ++ [d]) Sa' Hcd Ho' Hreached) as (es2 & Hc2 & Hs2 & Ho2).
  exists (d :: es2). replace (es1 ++ d :: es2) with ((es1 ++ [d]) ++ es2) by (by rewrite <- app_assoc).
  split; [by constructor|]. split; [done|]. intros d' Hd'. rewrite Ho2 by done. rewrite Hn. by rewrite extend_other.
Qed.

Lemma settle_list (l : list bid) es1 : Forall calm es1 -> ~ a ∈ l -> exists es2, Forall calm es2
  /\ (forall b, b ∈ l -> settled (after (es1 ++ es2)) b) /\ (forall d, ~ d ∈ l -> broker_at (after (es1 ++ es2)) d = broker_at (after es1) d).
Proof.
  revert es1. induction l as [|b l IH]; intros es1 Hcalm Ha.
  { exists []. rewrite app_nil_r. split; [constructor|]. split; [intros b Hb; by apply elem_of_nil in Hb|done]. }
  apply not_elem_of_cons in Ha as [Hab Ha]. destruct (IH es1 Hcalm Ha) as (es2 & Hc2 & Hs2 & Ho2).
  assert (Hc12 : Forall calm (es1 ++ es2)) by by apply Forall_app.
  destruct (settle_one (es1 ++ es2) b Hc12 ltac:(done)) as (es3 & Hc3 & Hs3 & Ho3).
  exists (es2 ++ es3). rewrite app_assoc. split; [by apply Forall_app|]. split.
  - intros b' Hb'. destruct (decide (b' = b)) as [->|Hn]; [done|].
    apply elem_of_cons in Hb' as [?|Hb']; [done|]. destruct (Hs2 b' Hb') as [S1 S2]. split.
    + intros h' t Ht. rewrite Ho3 in Ht by done. by eapply S1.
    + intros d c h' t El Et Eop. rewrite Ho3 in Et by done.
      destruct (decide (d = a)) as [->|Hda].
      * rewrite Ho3 by done. eapply S2; [|done|done]. rewrite <- El. 
        pose proof (cinv_all _ Hc12) as (-> & _).
        pose proof (cinv_all ((es1 ++ es2) ++ es3) ltac:(by apply Forall_app)) as (-> & _). done.
      * eapply other_link_read; [by apply Forall_app|done|done| |done]. by rewrite Ho3.
  - intros d Hd. apply not_elem_of_cons in Hd as [Hd1 Hd2]. rewrite Ho3 by done. by apply Ho2.
Qed.

Lemma progress es1 : Forall calm es1 -> exists es2, Forall calm es2 /\ at_rest (after (es1 ++ es2)).
Proof.
  intros Hcalm.
  (* the origin first *)
  assert (Horig : exists es2, Forall calm es2 /\ forall h' t, tasks_at (after (es1 ++ es2)) a !! h' = Some t -> t_acts t = []).
  { pose proof (cinv_all es1 Hcalm) as (_ & Sa & (acts & _ & Hta & _) & _).
    assert (Et : tasks_at (after es1) a !! h = Some (Task (OUser u cu) acts true (1 + k0))) by (by rewrite Hta, lookup_insert).
    destruct (drain es1 a h _ Hcalm Et) as (es2 & Hc2 & Ht2 & Hs2 & _). exists es2. split; [done|].
    intros h' t Ht. destruct (decide (h' = h)) as [->|Hn]; [rewrite Ht2 in Ht; by injection Ht as <-|].
    rewrite Hs2, Hta, lookup_insert_ne in Ht by done. destruct Hrest as [Hr1 _]. by eapply Hr1. }
  destruct Horig as (es2 & Hc2 & Hidle). assert (Hc12 : Forall calm (es1 ++ es2)) by by apply Forall_app.
  (* then every broker that is linked or has tasks *)
  set (l := filter (fun b => b <> a) (map (fun p => p.1.1) (map_to_list (n_links n0)) ++ map (fun p => p.2.1) (map_to_list (n_links n0)) ++ map fst (map_to_list (n_trace n0)))).
  destruct (settle_list l (es1 ++ es2) Hc12) as (es3 & Hc3 & Hs3 & Ho3).
  { intros Hin. apply elem_of_list_filter in Hin as [? _]. done. }
  exists (es2 ++ es3). split; [by apply Forall_app|]. rewrite app_assoc.
  assert (Hc123 : Forall calm ((es1 ++ es2) ++ es3)) by by apply Forall_app.
  assert (Hla : ~ a ∈ l) by (intros Hin; by apply elem_of_list_filter in Hin as [? _]).
  apply settled_all. intros b. destruct (decide (b = a)) as [->|Hba].
  { split; [intros h' t Ht; rewrite Ho3 in Ht by done; by eapply Hidle|].
    intros d c h' t El Et Eop. eapply other_link_read; [done| |done|done|done].
    destruct (inv_run (es0 ++ NPublish a h raw no_hook :: (es1 ++ es2) ++ es3)) as (I0 & _). by destruct (I0 _ _ _ _ El). }
  destruct (decide (b ∈ l)) as [Hin|Hnin]; [by apply Hs3|].
  pose proof (cinv_all _ Hc123) as (Hl & Sa & Ho & Hb).
  assert (Hno : forall d c hb, n_links n0 !! (d, c) <> Some (b, hb)).
  { intros d c hb El. apply Hnin. apply elem_of_list_filter. split; [done|]. rewrite !elem_of_app. right. left.
    apply elem_of_list_In, in_map_iff. exists (d, c, (b, hb)). split; [done|]. by apply elem_of_list_In, elem_of_map_to_list. }
  destruct (Hb b Hba) as [Hsame|(c & hb & o & k & acts & Sb & Hli & _)]; [|by apply Hno in Hli].
  apply (same_settled _ Sa); [done|done|done|done|done|]. intros e hb t _ Hlk. rewrite Hl in Hlk. by apply Hno in Hlk.
Qed.
End complete.
