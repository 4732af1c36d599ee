(** Boolean checks for the hypotheses about networks, used by the examples. *)
From stdpp Require Import gmap fin_maps list.
From Coq Require Import NArith Lia.
From Verif Require Import IdModel RelMapModel VMapModel ConnModel ConnSpec ConnProofs ConnProofs2 ConnProofs3 TopicModel MsgModel RouteModel
  TaskModel TaskProofs TaskOrder NetModel NetProofs NetOrigin NetComplete NetSynced.

Section check.
Variable deser : bytes -> option message.
Variable dec_users : bytes -> option direct_map.
Variable dec_topics : bytes -> option topic_map.
Variable valid : N -> bool.
Notation broker_at := (broker_at deser dec_users dec_topics valid).
Notation conns_at n b := (m_conns (broker_at n b)).
Notation tasks_at n b := (m_tasks (broker_at n b)).

Definition is_idle (t : task) : bool := match t_acts t with [] => true | _ => false end.

Definition rest_b (n : net) : bool :=
  forallb (fun '(b, _) => forallb (fun '(_, t) => is_idle t) (map_to_list (tasks_at n b))) (map_to_list (n_trace n))
  && forallb (fun '(a, c, (b, h)) =>
       match tasks_at n b !! h with
       | Some t => if t_open t then Nat.eqb (t_frames t) (length (sent_on (broker_at n a) c)) else true
       | None => true
       end) (map_to_list (n_links n)).

Lemma forallb_map {K A} `{Countable K} (f : K -> A -> bool) (m : gmap K A) k x :
  forallb (fun '(k, x) => f k x) (map_to_list m) = true -> m !! k = Some x -> f k x = true.
Proof.
  intros Hf Hk. rewrite forallb_forall in Hf. apply (Hf (k, x)). by apply elem_of_list_In, elem_of_map_to_list.
Qed.

Lemma untouched n b : n_trace n !! b = None -> broker_at n b = m_init b.
Proof. unfold NetModel.broker_at, trace. by intros ->. Qed.

Lemma rest_check n : rest_b n = true -> at_rest deser dec_users dec_topics valid n.
Proof.
  intros Hb. apply andb_prop in Hb as [H1 H2]. split.
  - intros b h t Ht. destruct (n_trace n !! b) as [es|] eqn:E.
    + apply (forallb_map (fun b _ => forallb (fun '(_, t) => is_idle t) (map_to_list (tasks_at n b))) _ _ _ H1) in E.
      apply (forallb_map (fun _ t => is_idle t) _ _ _ E) in Ht. unfold is_idle in Ht. by destruct (t_acts t).
    + rewrite (untouched _ _ E) in Ht. cbn in Ht. by rewrite lookup_empty in Ht.
  - intros a c b h t Hl Ht Hop. rewrite forallb_forall in H2. specialize (H2 (a, c, (b, h))).
    rewrite <- elem_of_list_In, elem_of_map_to_list in H2. specialize (H2 Hl). cbn in H2. rewrite Ht, Hop in H2. by apply Nat.eqb_eq.
Qed.

Definition user_known_b (n : net) (a b : bid) (v : ukey) : bool :=
  bool_decide (c_get_broker_identifier_of_user (conns_at n a) v = Some b)
  && match c_get_broker_connection (conns_at n a) b with
     | Some cl =>
         match n_links n !! (a, cl) with
         | Some (b', hb) => bool_decide (b' = b) && match tasks_at n b !! hb with Some t => t_open t | None => false end
         | None => false
         end
     | None => false
     end.
Definition sub_known_b (n : net) (a b : bid) (t : N) (vs : gset ukey) : bool :=
  forallb (fun v => (bool_decide (b = a) || bool_decide (b ∈ (c_get_interested_by_topic (conns_at n a) [t] false).1))
    && valid t && match c_get_user_connection (conns_at n b) v with Some _ => true | None => false end) (elements vs).

Definition sync_b (n : net) (a : bid) : bool :=
  forallb (fun '(b, _) =>
    (bool_decide (b = a) || forallb (fun '(v, _) => user_known_b n a b v) (map_to_list (users (conns_at n b))))
    && forallb (fun '(t, vs) => sub_known_b n a b t vs) (map_to_list (value_to_keys (bm_users (conns_at n b))))) (map_to_list (n_trace n)).

Lemma subscribed_keys n b v t : subscribed_at deser dec_users dec_topics valid n b v t ->
  exists vs, value_to_keys (bm_users (conns_at n b)) !! t = Some vs /\ v ∈ vs.
Proof.
  intros Hs. apply interested_users in Hs as (t' & [<-|[]] & Hf); [|apply state_idx].
  pose proof (state_idx deser dec_users dec_topics valid n b) as [Hi _].
  apply (RelMapProofs.inv_agree _ Hi) in Hf. unfold RelMapProofs.bwd in Hf.
  destruct (value_to_keys (bm_users (conns_at n b)) !! t) as [vs|]; [by exists vs|cbn in Hf; set_solver].
Qed.

Lemma sync_check n a : sync_b n a = true -> synchronised deser dec_users dec_topics valid n a.
Proof.
  intros Hb.
  assert (Hall : forall b es, n_trace n !! b = Some es ->
    (b = a \/ forall v c, c_get_user_connection (conns_at n b) v = Some c -> user_known_b n a b v = true)
    /\ forall t vs, value_to_keys (bm_users (conns_at n b)) !! t = Some vs -> sub_known_b n a b t vs = true).
  { intros b es Hbe. unfold sync_b in Hb.
    apply (forallb_map (fun b _ => (bool_decide (b = a) || forallb (fun '(v, _) => user_known_b n a b v) (map_to_list (users (conns_at n b))))
      && forallb (fun '(t, vs) => sub_known_b n a b t vs) (map_to_list (value_to_keys (bm_users (conns_at n b))))) _ _ _ Hb) in Hbe.
    apply andb_prop in Hbe as [H1 H2]. split.
    - apply orb_prop in H1 as [H1|H1]; [left; by apply bool_decide_eq_true in H1|right]. intros v c Hc.
      unfold c_get_user_connection in Hc. destruct (users (conns_at n b) !! v) as [p|] eqn:Eu; [|done].
      exact (forallb_map (fun v _ => user_known_b n a b v) _ _ _ H1 Eu).
    - intros t vs Hvs. exact (forallb_map (fun t vs => sub_known_b n a b t vs) _ _ _ H2 Hvs). }
  assert (Hsub : forall b v t, subscribed_at deser dec_users dec_topics valid n b v t ->
    (b = a \/ In b (c_get_interested_by_topic (conns_at n a) [t] false).1) /\ valid t = true /\ exists c, c_get_user_connection (conns_at n b) v = Some c).
  { intros b v t Hs. destruct (subscribed_keys _ _ _ _ Hs) as (vs & Hvs & Hv). destruct (n_trace n !! b) as [es|] eqn:E.
    - destruct (Hall b es E) as [_ Hk]. specialize (Hk t vs Hvs). unfold sub_known_b in Hk. rewrite forallb_forall in Hk.
      specialize (Hk v). rewrite <- elem_of_list_In, elem_of_elements in Hk. specialize (Hk Hv).
      apply andb_prop in Hk as [Hk H3]. apply andb_prop in Hk as [H1 H2]. split; [|split; [done|]].
      + apply orb_prop in H1 as [H1|H1]; apply bool_decide_eq_true in H1; [by left|right; by apply elem_of_list_In].
      + destruct (c_get_user_connection (conns_at n b) v); [eauto|done].
    - rewrite (untouched _ _ E) in Hvs. cbn in Hvs. by rewrite lookup_empty in Hvs. }
  split; [|split].
  - intros b v c Hne Hc. destruct (n_trace n !! b) as [es|] eqn:E.
    + destruct (Hall b es E) as [[->|Hu] _]; [done|]. specialize (Hu v c Hc). unfold user_known_b in Hu.
      apply andb_prop in Hu as [H1 H2]. apply bool_decide_eq_true in H1. split; [done|].
      destruct (c_get_broker_connection (conns_at n a) b) as [cl|]; [|done].
      destruct (n_links n !! (a, cl)) as [[b' hb]|] eqn:El; [|done]. apply andb_prop in H2 as [H2 H3]. apply bool_decide_eq_true in H2. subst b'.
      destruct (tasks_at n b !! hb) as [t|] eqn:Et; [|done]. exists cl, hb, t. done.
    + rewrite (untouched _ _ E) in Hc. unfold c_get_user_connection in Hc. cbn in Hc. by rewrite lookup_empty in Hc.
  - intros b v t Hne Hs. by destruct (Hsub b v t Hs) as [[?|?] _].
  - intros b v t Hs. by destruct (Hsub b v t Hs) as [_ ?].
Qed.
End check.
