(** Complete delivery with any number of overlapping publications. *)
From stdpp Require Import gmap fin_maps list.
From Coq Require Import NArith Lia.
From Verif Require Import IdModel VMapModel ConnModel ConnSpec ConnProofs ConnProofs2 ConnProofs3 TopicModel TopicProofs MsgModel RouteModel RouteProofs
  TaskModel TaskProofs TaskOrder NetModel NetProofs NetOrigin NetComplete NetSynced.

(** The frame an action is about. *)
Definition act_raw (x : act) : option bytes :=
  match x with
  | ADirect _ raw _ | ABroadcast _ raw _ => Some raw
  | ALookupUser _ (FRelay raw) | ASendUser _ _ (FRelay raw) | ALookupBroker _ (FRelay raw) | ASendBroker _ _ (FRelay raw) => Some raw
  | _ => None
  end.

Section concurrent.
Variable deser : bytes -> option message.
Variable dec_users : bytes -> option direct_map.
Variable dec_topics : bytes -> option topic_map.
Variable valid : N -> bool.
Variable enc_users : direct_map -> bytes.
Variable enc_topics : topic_map -> bytes.
Notation m_step := (m_step deser dec_users dec_topics valid).
Notation m_run := (m_run deser dec_users dec_topics valid).
Notation m_run_snoc := (m_run_snoc deser dec_users dec_topics valid).
Notation broker_at := (broker_at deser dec_users dec_topics valid).
Notation n_step := (n_step deser dec_users dec_topics valid enc_users enc_topics).
Notation n_run := (n_run deser dec_users dec_topics valid enc_users enc_topics).
Notation n_run_snoc := (n_run_snoc deser dec_users dec_topics valid enc_users enc_topics).
Notation wire := (wire enc_users enc_topics).
Notation loop_of := (loop_of deser dec_users dec_topics valid).
Notation inv_run := (inv_run deser dec_users dec_topics valid enc_users enc_topics).
Notation comes_from := (comes_from deser dec_users dec_topics valid).
Notation at_rest := (at_rest deser dec_users dec_topics valid).
Notation synchronised := (synchronised deser dec_users dec_topics valid).
Notation subscribed_at := (subscribed_at deser dec_users dec_topics valid).
Notation loop_frame := (loop_frame deser dec_users dec_topics valid).
Notation conns_at n b := (m_conns (broker_at n b)).
Notation tasks_at n b := (m_tasks (broker_at n b)).
Notation sent_at n b := (m_sent (broker_at n b)).

(** A direct message, or a broadcast with at least one known topic. *)
Definition good_raw (raw : bytes) : Prop :=
  (exists r body, deser raw = Some (MDirect r body))
  \/ (exists ts body, deser raw = Some (MBroadcast ts body) /\ exists t, In t ts /\ valid t = true).

(** Nothing but publications, deliveries over links, and steps of tasks whose sends succeed. *)
Definition quiet (e : nevent) : Prop :=
  match e with NPublish _ _ raw hk => hk = no_hook /\ good_raw raw | _ => calm e end.

(** ** One broker *)
(** Frames are numbered consecutively and once. *)
Lemma rcvd_le i es r t : In r (m_rcvd (m_run i es)) -> m_tasks (m_run i es) !! r_task r = Some t -> r_frame r <= t_frames t.
Proof.
  revert t. induction es as [|e es IH] using rev_ind; [done|]. intros t Hin Ht. rewrite m_run_snoc in Hin, Ht.
  set (m := m_run i es) in *.
  assert (Hfr : forall h t' t0, m_tasks m !! h = Some t0 -> m_tasks (m_step m e) !! h = Some t' -> t_frames t0 <= t_frames t').
  { clear. intros h t' t0 H0 H1. destruct e as [h1 hh u c ts|h1 hh b c|hh|hh u|h1 raw hk|h1|h1 good|h1]; cbn [TaskModel.m_step] in H1.
    - case_decide as Hd; [|rewrite H0 in H1; by injection H1 as <-]. destruct Hd as (_ & Ha & Hb). cbn in H1.
      rewrite !lookup_insert_ne in H1 by congruence. rewrite H0 in H1. by injection H1 as <-.
    - case_decide as Hd; [|rewrite H0 in H1; by injection H1 as <-]. destruct Hd as (_ & Ha & Hb). cbn in H1.
      rewrite !lookup_insert_ne in H1 by congruence. rewrite H0 in H1. by injection H1 as <-.
    - destruct (m_tasks m !! hh) eqn:E; [rewrite H0 in H1; by injection H1 as <-|]. cbn in H1. rewrite lookup_insert_ne in H1 by congruence.
      rewrite H0 in H1. by injection H1 as <-.
    - destruct (m_tasks m !! hh) eqn:E; [rewrite H0 in H1; by injection H1 as <-|]. cbn in H1. rewrite lookup_insert_ne in H1 by congruence.
      rewrite H0 in H1. by injection H1 as <-.
    - destruct (m_tasks m !! h1) as [[o [|? ?] [|] n]|] eqn:E; try (rewrite H0 in H1; by injection H1 as <-).
      destruct (loop_frame o raw hk) as [acts go]. cbn in H1. destruct (decide (h = h1)) as [->|Hne].
      + rewrite lookup_insert in H1. injection H1 as <-. rewrite E in H0. injection H0 as <-. cbn. lia.
      + rewrite lookup_insert_ne in H1 by done. rewrite H0 in H1. by injection H1 as <-.
    - destruct (m_tasks m !! h1) as [[o [|? ?] [|] n]|] eqn:E; try (rewrite H0 in H1; by injection H1 as <-).
      cbn in H1. destruct (decide (h = h1)) as [->|Hne].
      + rewrite lookup_insert in H1. injection H1 as <-. rewrite E in H0. injection H0 as <-. done.
      + rewrite lookup_insert_ne in H1 by done. rewrite H0 in H1. by injection H1 as <-.
    - destruct (m_tasks m !! h1) as [[o [|a rest] op n]|] eqn:E; try (rewrite H0 in H1; by injection H1 as <-).
      destruct (act_step (fun _ => good) (m_conns m) a) as [[s' nxt] sends]. cbn in H1. destruct (decide (h = h1)) as [->|Hne].
      + rewrite lookup_insert in H1. injection H1 as <-. rewrite E in H0. injection H0 as <-. done.
      + rewrite lookup_insert_ne in H1 by done. rewrite H0 in H1. by injection H1 as <-.
    - destruct (m_tasks m !! h1) as [[o l op n]|] eqn:E; [|rewrite H0 in H1; by injection H1 as <-].
      case_decide; [|rewrite H0 in H1; by injection H1 as <-]. cbn in H1. destruct (decide (h = h1)) as [->|Hne].
      + rewrite lookup_insert in H1. injection H1 as <-. rewrite E in H0. injection H0 as <-. done.
      + rewrite lookup_insert_ne in H1 by done. rewrite H0 in H1. by injection H1 as <-. }
  assert (Hold : In r (m_rcvd m) -> r_frame r <= t_frames t).
  { intros Hr. destruct (rcvd_task deser dec_users dec_topics valid i es r Hr) as [t0 Ht0].
    pose proof (IH t0 Hr Ht0). pose proof (Hfr _ _ _ Ht0 Ht). lia. }
  destruct (step_rcvd deser dec_users dec_topics valid m e) as [Heq|(h & raw & hk & t0 & -> & Ht0 & Heq)]; rewrite Heq in Hin; [by apply Hold|].
  apply in_app_iff in Hin as [Hin|[<-|[]]]; [by apply Hold|]. cbn [r_task r_frame] in *.
  (* the frame just received *)
  cbn [TaskModel.m_step] in Ht, Heq. rewrite Ht0 in Ht, Heq. destruct t0 as [o [|? ?] [|] n].
  - destruct (loop_frame o raw hk) as [acts go]. cbn in Ht. rewrite lookup_insert in Ht. injection Ht as <-. cbn. lia.
  - exfalso. apply (f_equal length) in Heq. rewrite app_length in Heq. cbn in Heq. lia.
  - exfalso. apply (f_equal length) in Heq. rewrite app_length in Heq. cbn in Heq. lia.
  - exfalso. apply (f_equal length) in Heq. rewrite app_length in Heq. cbn in Heq. lia.
Qed.

Lemma rcvd_unique i es r r' : In r (m_rcvd (m_run i es)) -> In r' (m_rcvd (m_run i es)) -> r_task r = r_task r' -> r_frame r = r_frame r' -> r = r'.
Proof.
  induction es as [|e es IH] using rev_ind; [done|]. rewrite m_run_snoc. intros Hr Hr' Ht Hf.
  destruct (step_rcvd deser dec_users dec_topics valid (m_run i es) e) as [Heq|(h & raw & hk & t0 & -> & Ht0 & Heq)]; rewrite Heq in Hr, Hr'; [by apply IH|].
  apply in_app_iff in Hr as [Hr|[<-|[]]]; apply in_app_iff in Hr' as [Hr'|[<-|[]]]; [by apply IH| | |done]; cbn [r_task r_frame] in *.
  - rewrite <- Ht in Ht0. pose proof (rcvd_le i es r t0 Hr Ht0). lia.
  - rewrite Ht in Ht0. pose proof (rcvd_le i es r' t0 Hr' Ht0). lia.
Qed.

Lemma sent_le i es x t : In x (m_sent (m_run i es)) -> m_tasks (m_run i es) !! s_task x = Some t -> s_frame x <= t_frames t.
Proof. intros Hx Ht. destruct (order_run deser dec_users dec_topics valid i es) as (Ho & _ & _). destruct (Ho _ _ Ht) as (_ & _ & Hs). by destruct (Hs x Hx eq_refl). Qed.

(** What a loop does with a good frame. *)
Definition plan (o : owner) (raw : bytes) : list act := (loop_frame o raw no_hook).1.
Definition gact (x : act) : Prop := routing x = true /\ exists raw, act_raw x = Some raw /\ good_raw raw.

Lemma good_frame o raw : o <> OOther -> good_raw raw -> exists x, loop_frame o raw no_hook = ([x], true) /\ routing x = true /\ act_raw x = Some raw.
Proof.
  intros Ho [(r & body & Hd)|(ts & body & Hd & Hv)]; destruct o as [u c|b c|]; [| |done| | |done]; cbn [TaskModel.loop_frame].
  - unfold user_frame. rewrite Hd. eexists. split; [reflexivity|done].
  - unfold broker_frame. rewrite Hd. eexists. split; [reflexivity|done].
  - unfold user_frame. rewrite Hd. cbn [no_hook]. unfold no_hook. apply prune_ok in Hv. destruct (prune valid ts) as [l g]. cbn in Hv. subst g.
    eexists. split; [reflexivity|done].
  - unfold broker_frame. rewrite Hd. eexists. split; [reflexivity|done].
Qed.

Lemma gact_next s x nxt sends : gact x -> act_step (fun _ => true) s x = (s, nxt, sends) ->
  Forall gact nxt /\ Forall (fun e => exists raw, e_frame e = FRelay raw /\ good_raw raw) sends.
Proof.
  intros (Hr & raw & Ha & Hg). destruct x as [r w only|ts w only|v f|v c f|b f|b c f|f|v|b|v c ts h'|b c h'|v ts|v ts|d|b d|b|b| |]; try done; cbn [act_step].
  - intros [= <- <-]. split; [|constructor]. cbn in Ha. injection Ha as ->. unfold direct_next. destruct (c_get_broker_identifier_of_user s r); [|constructor].
    case_decide; [constructor; [split; [done|by exists raw]|constructor]|]. destruct only; [constructor|]. constructor; [split; [done|by exists raw]|constructor].
  - intros [= <- <-]. split; [|constructor]. cbn in Ha. injection Ha as ->. unfold broadcast_next. destruct (c_get_interested_by_topic s ts only) as [bs us].
    apply Forall_app. split; apply Forall_map, Forall_true; intros; (split; [done|by exists raw]).
  - intros [= <- <-]. split; [|constructor]. destruct (c_get_user_connection s v); [|constructor]. constructor; [|constructor].
    destruct f; try done. split; [done|by exists raw].
  - intros [= <- <-]. split; [constructor|]. constructor; [|constructor]. destruct f; try done. cbn in Ha. injection Ha as ->. by exists raw.
  - intros [= <- <-]. split; [|constructor]. destruct (c_get_broker_connection s b); [|constructor]. constructor; [|constructor].
    destruct f; try done. split; [done|by exists raw].
  - intros [= <- <-]. split; [constructor|]. constructor; [|constructor]. destruct f; try done. cbn in Ha. injection Ha as ->. by exists raw.
Qed.

(** State of one broker relative to where it started. *)
Definition frame_done (m : machine) (h : N) (t : task) (k : nat) (raw : bytes) : Prop :=
  In (Rcvd h k raw no_hook) (m_rcvd m) /\ good_raw raw
  /\ (forall e, In e (ems (m_conns m) (plan (t_owner t) raw)) -> In (Sent h k e) (m_sent m) \/ (k = t_frames t /\ In e (ems (m_conns m) (t_acts t))))
  /\ (forall e, In (Sent h k e) (m_sent m) -> In e (ems (m_conns m) (plan (t_owner t) raw)))
  /\ (k = t_frames t -> forall e, In e (ems (m_conns m) (t_acts t)) -> In e (ems (m_conns m) (plan (t_owner t) raw))).

Definition minv (m0 m : machine) : Prop :=
  m_conns m = m_conns m0
  /\ (forall h t, m_tasks m !! h = Some t -> exists t0, m_tasks m0 !! h = Some t0 /\ t_owner t = t_owner t0 /\ t_open t = t_open t0
        /\ t_frames t0 <= t_frames t /\ Forall gact (t_acts t) /\ (t_frames t = t_frames t0 -> t_acts t = [])
        /\ (forall k, t_frames t0 < k <= t_frames t -> exists raw, frame_done m h t k raw))
  /\ (forall h t0, m_tasks m0 !! h = Some t0 -> is_Some (m_tasks m !! h))
  /\ (exists new, m_sent m = m_sent m0 ++ new /\ Forall (fun x => exists raw, e_frame (s_what x) = FRelay raw /\ good_raw raw) new)
  /\ (forall x t, In x (m_sent m) -> m_tasks m !! s_task x = Some t -> s_frame x <= t_frames t)
  /\ (forall r t0, In r (m_rcvd m) -> m_tasks m0 !! r_task r = Some t0 -> r_frame r <= t_frames t0 -> In r (m_rcvd m0)).

Lemma minv_start m : (forall h t, m_tasks m !! h = Some t -> t_acts t = []) ->
  (forall x t, In x (m_sent m) -> m_tasks m !! s_task x = Some t -> s_frame x <= t_frames t) -> minv m m.
Proof.
  intros Hidle Hle. split; [done|]. split; [|split; [intros h t0 ->; eauto|split; [|split; done]]].
  - intros h t Ht. exists t. rewrite (Hidle _ _ Ht). repeat split; try done. intros k Hk. lia.
  - exists []. split; [by rewrite app_nil_r|constructor].
Qed.

Lemma minv_run m0 m h : minv m0 m -> minv m0 (m_step m (ERun h true)).
Proof.
  intros (Hc & Ht & Hk & (new & Hs & Hn) & Hle & Hro). cbn [TaskModel.m_step].
  destruct (m_tasks m !! h) as [[o [|x rest] op k]|] eqn:E; try by (split; [done|split; [done|split; [done|split; [by exists new|split; done]]]]).
  destruct (Ht _ _ E) as (t0 & E0 & Ho & Hop & Hfr & Hg & Hz & Hd). cbn in Ho, Hop, Hfr, Hg, Hz, Hd. subst o op.
  apply Forall_cons in Hg as [Hgx Hg]. pose proof Hgx as [Hrx _].
  destruct (routing_step (m_conns m) x Hrx) as (nxt & sends & Hst & _ & Hem). destruct (gact_next _ _ _ _ Hgx Hst) as [Hgn Hgs].
  rewrite Hst. split; [done|]. cbn [m_conns m_tasks m_sent m_rcvd]. split; [|split; [|split; [|split]]].
  - intros h' t'. destruct (decide (h' = h)) as [->|Hne].
    + rewrite lookup_insert. intros [= <-]. exists t0. cbn. split; [done|]. split; [done|]. split; [done|]. split; [done|].
      split; [by apply Forall_app|]. split; [intros Hk0; by specialize (Hz Hk0)|].
      intros k' Hk'. destruct (Hd k' Hk') as (raw & Hr & Hgr & H1 & H2 & H3). cbn [t_owner t_acts t_frames] in H1, H2, H3. exists raw.
      assert (Hsp : ems (m_conns m) (x :: rest) = sends ++ ems (m_conns m) (nxt ++ rest)).
      { unfold ems in *. cbn [map concat]. rewrite map_app, concat_app, <- Hem. by rewrite app_assoc. }
      split; [done|]. split; [done|]. unfold frame_done. cbn [m_conns m_sent t_owner t_acts t_frames]. split; [|split].
      * intros e He. destruct (H1 e He) as [H|[-> H]]; [left; apply in_app_iff; by left|].
        rewrite Hsp in H. apply in_app_iff in H as [H|H]; [left; apply in_app_iff; right; by apply in_map|by right].
      * intros e He. apply in_app_iff in He as [He|He]; [by apply H2|]. apply in_map_iff in He as (e' & [= <- <-] & He).
        apply H3; [done|]. rewrite Hsp. apply in_app_iff. by left.
      * intros -> e He. apply H3; [done|]. rewrite Hsp. apply in_app_iff. by right.
    + rewrite lookup_insert_ne by done. intros Ht'. destruct (Ht _ _ Ht') as (t1 & E1 & Ho1 & Hop1 & Hfr1 & Hg1 & Hz1 & Hd1).
      exists t1. do 6 (split; [done|]). intros k' Hk'. destruct (Hd1 k' Hk') as (raw & Hr & Hgr & H1 & H2 & H3). exists raw.
      split; [done|]. split; [done|]. cbn [m_conns m_sent]. split; [|split; [|done]].
      * intros e He. destruct (H1 e He) as [H|H]; [left; apply in_app_iff; by left|by right].
      * intros e He. apply in_app_iff in He as [He|He]; [by apply H2|]. apply in_map_iff in He as (e' & [= ? ? ?] & He). done.
  - intros h' t1 H1. destruct (decide (h' = h)) as [->|Hne]; [rewrite lookup_insert; eauto|]. rewrite lookup_insert_ne by done. by eapply Hk.
  - exists (new ++ map (Sent h k) sends). split; [by rewrite Hs, app_assoc|]. apply Forall_app. split; [done|]. apply Forall_map. exact Hgs.
  - intros x' t' Hx' Ht'. apply in_app_iff in Hx' as [Hx'|Hx'].
    + destruct (decide (s_task x' = h)) as [Heq|Hne].
      * rewrite Heq, lookup_insert in Ht'. injection Ht' as <-. cbn. rewrite <- Heq in E. exact (Hle _ _ Hx' E).
      * rewrite lookup_insert_ne in Ht' by done. by apply Hle.
    + apply in_map_iff in Hx' as (e' & <- & _). cbn [s_task s_frame] in *. rewrite lookup_insert in Ht'. injection Ht' as <-. done.
  - exact Hro.
Qed.

Lemma minv_frame m0 m h raw t : minv m0 m -> m_tasks m !! h = Some t -> t_owner t <> OOther -> good_raw raw ->
  (forall k raw' hk, In (Rcvd h k raw' hk) (m_rcvd m) -> k <= t_frames t) -> minv m0 (m_step m (EFrame h raw no_hook)).
Proof.
  intros (Hc & Ht & Hk & (new & Hs & Hn) & Hle & Hro) E Hno Hg Hrl. cbn [TaskModel.m_step]. rewrite E.
  destruct t as [o [|? ?] [|] k]; try by (split; [done|split; [done|split; [done|split; [by exists new|split; done]]]]).
  destruct (good_frame o raw Hno Hg) as (x & Hlf & Hrx & Harx). rewrite Hlf.
  destruct (Ht _ _ E) as (t0 & E0 & Ho & Hop & Hfr & _ & _ & Hd). cbn in Ho, Hop, Hfr, Hd. subst o.
  split; [done|]. cbn [m_conns m_tasks m_sent m_rcvd]. split; [|split; [|split; [|split]]].
  - intros h' t'. destruct (decide (h' = h)) as [->|Hne].
    + rewrite lookup_insert. intros [= <-]. exists t0. cbn. split; [done|]. split; [done|]. split; [done|]. split; [lia|].
      split; [constructor; [split; [done|by exists raw]|constructor]|]. split; [intros; lia|].
      intros k' Hk'. destruct (decide (k' = S k)) as [->|Hne'].
      * exists raw. split; [apply in_app_iff; right; by left|]. split; [done|]. cbn [m_conns m_sent t_owner t_acts t_frames].
        unfold plan. rewrite Hlf. cbn [fst]. split; [|split; [|done]]; [by right|].
        intros e He. exfalso. pose proof (Hle _ _ He E) as Hx. cbn in Hx. lia.
      * destruct (Hd k') as (raw' & Hr & Hgr & H1 & H2 & H3); [lia|]. exists raw'. cbn [t_owner t_acts t_frames] in H1, H2, H3.
        split; [apply in_app_iff; by left|]. split; [done|]. cbn [m_conns m_sent t_owner t_acts t_frames]. split; [|split; [done|]].
        -- intros e He. destruct (H1 e He) as [H|[_ H]]; [by left|by cbn in H].
        -- intros Heq. lia.
    + rewrite lookup_insert_ne by done. intros Ht'. destruct (Ht _ _ Ht') as (t1 & E1 & Ho1 & Hop1 & Hfr1 & Hg1 & Hz1 & Hd1).
      exists t1. do 6 (split; [done|]). intros k' Hk'. destruct (Hd1 k' Hk') as (raw' & Hr & Hgr & H1). exists raw'.
      split; [apply in_app_iff; by left|]. split; [done|]. exact H1.
  - intros h' t1 H1. destruct (decide (h' = h)) as [->|Hne]; [rewrite lookup_insert; eauto|]. rewrite lookup_insert_ne by done. by eapply Hk.
  - by exists new.
  - intros x' t' Hx' Ht'. destruct (decide (s_task x' = h)) as [Heq|Hne].
    + rewrite Heq, lookup_insert in Ht'. injection Ht' as <-. cbn. rewrite <- Heq in E. pose proof (Hle _ _ Hx' E) as Hx. cbn in Hx. lia.
    + rewrite lookup_insert_ne in Ht' by done. by apply Hle.
  - intros r t1 Hr H1 Hf. apply in_app_iff in Hr as [Hr|[<-|[]]]; [by eapply Hro|]. cbn in H1, Hf. rewrite E0 in H1. injection H1 as <-. lia.
Qed.

(** ** The network *)
Section run.
Variable es0 : list nevent.
Notation n0 := (n_run es0).
Hypothesis Hrest : at_rest n0.

Definition ninv (n : net) : Prop := n_links n = n_links n0 /\ forall b, minv (broker_at n0 b) (broker_at n b).

Lemma ninv_start : ninv n0.
Proof.
  split; [done|]. intros b. apply minv_start; [intros h t; apply (proj1 Hrest b h t)|]. intros x t. apply sent_le.
Qed.

Lemma ninv_extend n b e : ninv n -> minv (broker_at n0 b) (m_step (broker_at n b) e) -> ninv (extend n b e).
Proof.
  intros [Hl Hb] Hm. split; [done|]. intros b'. rewrite broker_extend. case_decide as Hd; [by subst|done].
Qed.

Lemma rcvd_le_at n b h t : tasks_at n b !! h = Some t -> forall k raw hk, In (Rcvd h k raw hk) (m_rcvd (broker_at n b)) -> k <= t_frames t.
Proof. intros Ht k raw hk Hin. exact (rcvd_le b (trace n b) (Rcvd h k raw hk) t Hin Ht). Qed.

Lemma ninv_step es e : ninv (n_run es) -> quiet e -> ninv (n_step (n_run es) e).
Proof.
  intros Hi He. destruct e as [| |b h raw hk|d c hk|b e]; try done; cbn [NetModel.n_step].
  - destruct He as [-> Hg]. destruct (tasks_at (n_run es) b !! h) as [[[u c|b' c|] acts op k]|] eqn:E; try done.
    apply ninv_extend; [done|]. destruct Hi as [_ Hb]. eapply minv_frame; [apply Hb|exact E|done|done|]. by eapply rcvd_le_at.
  - cbn in He. subst hk. destruct (n_links (n_run es) !! (d, c)) as [[b h]|] eqn:El; [|done].
    destruct (tasks_at (n_run es) b !! h) as [t|] eqn:Et; [|done].
    destruct (sent_on (broker_at (n_run es) d) c !! t_frames t) as [x|] eqn:Ex; [|done].
    pose proof Hi as [Hl Hb]. apply ninv_extend; [done|]. destruct (t_open t) eqn:Eop; [|erewrite frame_closed by done; apply Hb].
    destruct (Hb b) as (_ & Ht & _). destruct (Ht _ _ Et) as (t0 & E0 & Ho & Hop & Hfr & _).
    destruct (inv_run es) as (I0 & _). destruct (I0 _ _ _ _ El) as (_ & _ & cb & t1 & Ht1 & Ho1). rewrite Et in Ht1. injection Ht1 as <-.
    destruct Hrest as [_ Hr2]. rewrite Hl in El. pose proof (Hr2 _ _ _ _ _ El E0 ltac:(congruence)) as Hlen.
    destruct (Hb d) as (_ & _ & _ & (new & Hs & Hn) & _).
    unfold sent_on in Ex. rewrite Hs, filter_app in Ex. fold (sent_on (broker_at n0 d) c) in Ex.
    rewrite lookup_app_r in Ex by lia. apply elem_of_list_lookup_2, elem_of_list_filter in Ex as [_ Hx].
    rewrite Forall_forall in Hn. destruct (Hn x) as (raw & Hf & Hg); [done|].
    rewrite Hf. cbn [NetModel.wire]. eapply minv_frame; [apply Hb|exact Et|congruence|done|]. by eapply rcvd_le_at.
  - destruct e as [| | | | | |h' [|]|]; try done. cbn [receives_nothing]. apply ninv_extend; [done|]. apply minv_run, Hi.
Qed.

Lemma ninv_all es1 : Forall quiet es1 -> ninv (n_run (es0 ++ es1)).
Proof.
  induction es1 as [|e es1 IH] using rev_ind; intros Hq; [rewrite app_nil_r; apply ninv_start|].
  apply Forall_app in Hq as [Hq He]. apply Forall_cons in He as [He _]. rewrite app_assoc, n_run_snoc. apply ninv_step; [by apply IH|done].
Qed.

(** ** When everything has come to rest *)
Variable es1 : list nevent.
Notation n' := (n_run (es0 ++ es1)).
Hypothesis Hquiet : Forall quiet es1.
Hypothesis Hrest' : at_rest n'.

Lemma conns_same b : conns_at n' b = conns_at n0 b.
Proof. destruct (ninv_all es1 Hquiet) as [_ Hb]. by destruct (Hb b) as (? & _). Qed.

(** Every new frame of a loop has been dealt with completely. *)
Lemma frame_finished b h t0 k raw hk o : tasks_at n0 b !! h = Some t0 -> t_frames t0 < k -> In (Rcvd h k raw hk) (m_rcvd (broker_at n' b)) -> t_owner t0 = o ->
  good_raw raw /\ forall e, In (Sent h k e) (sent_at n' b) <-> In e (ems (conns_at n0 b) (plan o raw)).
Proof.
  intros E0 Hk Hr <-. destruct (ninv_all es1 Hquiet) as [_ Hb]. destruct (Hb b) as (Hc & Ht & Hx & _).
  destruct (Hx _ _ E0) as [t Et]. destruct (Ht _ _ Et) as (t0' & E0' & Ho & _ & _ & _ & _ & Hd). rewrite E0 in E0'. injection E0' as <-.
  pose proof (rcvd_le_at _ _ _ _ Et _ _ _ Hr) as Hle.
  destruct (Hd k ltac:(lia)) as (raw' & Hr' & Hg & H1 & H2 & _).
  pose proof (rcvd_unique b _ _ _ Hr Hr' eq_refl eq_refl) as Heq. injection Heq as <- _.
  rewrite Ho, Hc in *. split; [done|]. intros e. split; [apply H2|]. intros He. destruct (H1 e He) as [?|[_ Hp]]; [done|].
  rewrite (proj1 Hrest' _ _ _ Et) in Hp. by cbn in Hp.
Qed.

(** Every frame up to the last has been received. *)
Lemma frame_received b h t0 t k : tasks_at n0 b !! h = Some t0 -> tasks_at n' b !! h = Some t -> t_frames t0 < k <= t_frames t ->
  exists raw, In (Rcvd h k raw no_hook) (m_rcvd (broker_at n' b)).
Proof.
  intros E0 Et Hk. destruct (ninv_all es1 Hquiet) as [_ Hb]. destruct (Hb b) as (Hc & Ht & _).
  destruct (Ht _ _ Et) as (t0' & E0' & _ & _ & _ & _ & _ & Hd). rewrite E0 in E0'. injection E0' as <-.
  destruct (Hd k Hk) as (raw & Hr & _). by exists raw.
Qed.

Lemma sent_grows b : exists new, sent_at n' b = sent_at n0 b ++ new.
Proof. destruct (ninv_all es1 Hquiet) as [_ Hb]. destruct (Hb b) as (_ & _ & _ & (new & Hs & _) & _). by exists new. Qed.

(** A frame sent over a link while handling a new publication is a new frame there. *)
Lemma link_frame a c b hb t0 k h y j : tasks_at n0 a !! h = Some t0 -> t_frames t0 < k -> s_task y = h -> s_frame y = k ->
  n_links n' !! (a, c) = Some (b, hb) -> sent_on (broker_at n' a) c !! j = Some y ->
  exists tb0, tasks_at n0 b !! hb = Some tb0 /\ (exists cb, t_owner tb0 = OBroker a cb) /\ (t_open tb0 = true -> t_frames tb0 < S j).
Proof.
  intros E0 Hk Hty Hfy El Ey. destruct (inv_run (es0 ++ es1)) as (I0 & _). destruct (I0 _ _ _ _ El) as (_ & _ & cb & t1 & Ht1 & Ho1).
  destruct (ninv_all es1 Hquiet) as [Hl Hb]. destruct (Hb b) as (_ & Ht & _). destruct (Ht _ _ Ht1) as (tb0 & Etb & Ho & _).
  exists tb0. split; [done|]. split; [exists cb; congruence|]. intros Hop. rewrite Hl in El.
  rewrite (proj2 Hrest _ _ _ _ _ El Etb Hop). destruct (decide (j < length (sent_on (broker_at n0 a) c))) as [Hlt|]; [exfalso|lia].
  destruct (sent_grows a) as [new Hn]. unfold sent_on in Ey. rewrite Hn, filter_app in Ey. fold (sent_on (broker_at n0 a) c) in Ey.
  rewrite lookup_app_l in Ey by done. apply sent_on_in in Ey as [Hin _].
  pose proof (sent_le a (trace n0 a) y t0 Hin) as Hle. rewrite Hty in Hle. specialize (Hle E0). lia.
Qed.

Section publication.
(** A frame accepted from user [u]'s session since. *)
Variables (a : bid) (h : N) (u : ukey) (cu : N) (t0 : task) (k : nat) (raw : bytes) (hk : hook).
Hypothesis Hpub : tasks_at n0 a !! h = Some t0.
Hypothesis Hown : t_owner t0 = OUser u cu.
Hypothesis Hnew : t_frames t0 < k.
Hypothesis Hrcvd : In (Rcvd h k raw hk) (m_rcvd (broker_at n' a)).

Lemma copy_here e v : In e (ems (conns_at n0 a) (plan (OUser u cu) raw)) -> e_to e = inl v ->
  exists x, In x (sent_at n' a) /\ s_what x = e /\ comes_from n' a x a h k.
Proof.
  intros He _. exists (Sent h k e). destruct (frame_finished _ _ _ _ _ _ _ Hpub Hnew Hrcvd Hown) as [_ Hf].
  split; [by apply Hf|]. split; [done|].
  destruct (ninv_all es1 Hquiet) as [_ Hb]. destruct (Hb a) as (_ & Ht & Hx & _). destruct (Hx _ _ Hpub) as [t Et].
  destruct (Ht _ _ Et) as (t0' & E0' & Ho & _). rewrite Hpub in E0'. injection E0' as <-.
  apply (from_here _ _ _ _ _ _ (Sent h k e) u cu). exists t. split; [done|congruence].
Qed.

Lemma copy_there b c hb tb e v : In (Emit (inr b) c (FRelay raw)) (ems (conns_at n0 a) (plan (OUser u cu) raw)) ->
  n_links n0 !! (a, c) = Some (b, hb) -> tasks_at n0 b !! hb = Some tb -> t_open tb = true ->
  (forall cb, In e (ems (conns_at n0 b) (plan (OBroker a cb) raw))) -> e_to e = inl v ->
  exists x, In x (sent_at n' b) /\ s_what x = e /\ comes_from n' b x a h k.
Proof.
  intros He El Etb Hop Heb _. destruct (frame_finished _ _ _ _ _ _ _ Hpub Hnew Hrcvd Hown) as [_ Hf]. apply Hf in He.
  destruct (ninv_all es1 Hquiet) as [Hl Hb].
  assert (Hon : Sent h k (Emit (inr b) c (FRelay raw)) ∈ sent_on (broker_at n' a) c).
  { apply elem_of_list_filter. split; [done|]. by apply elem_of_list_In. }
  apply elem_of_list_lookup_1 in Hon as [j Hj].
  assert (El' : n_links n' !! (a, c) = Some (b, hb)) by by rewrite Hl.
  destruct (link_frame a c b hb t0 k h (Sent h k (Emit (inr b) c (FRelay raw))) j Hpub Hnew eq_refl eq_refl El' Hj) as (tb0 & Etb0 & (cb & Hob) & Hlt).
  rewrite Etb in Etb0. injection Etb0 as <-. specialize (Hlt Hop).
  destruct (Hb b) as (_ & Ht & Hx & _). destruct (Hx _ _ Etb) as [t Et]. destruct (Ht _ _ Et) as (tb' & E' & Ho' & Hop' & _). rewrite Etb in E'. injection E' as <-.
  pose proof (proj2 Hrest' _ _ _ _ _ El' Et ltac:(congruence)) as Hfr. pose proof (lookup_lt_Some _ _ _ Hj) as Hjl.
  destruct (frame_received b hb tb t (S j) Etb Et ltac:(lia)) as (raw' & Hr').
  destruct (inv_run (es0 ++ es1)) as (_ & I2 & I3 & _).
  assert (Hlo : loop_of n' b hb (OBroker a cb)) by (exists t; split; [done|congruence]).
  destruct (I3 b _ a cb Hr' Hlo) as (a1 & c1 & y & Hl1 & Hy & Hw). cbn [r_task r_frame r_raw] in Hl1, Hy, Hw.
  destruct (I2 _ _ _ _ _ _ El' Hl1) as [<- <-]. cbn in Hy. rewrite Nat.sub_0_r, Hj in Hy. injection Hy as <-. cbn in Hw. subst raw'.
  destruct (frame_finished _ _ _ _ _ _ _ Etb Hlt Hr' Hob) as [_ Hfb].
  exists (Sent hb (S j) e). split; [apply Hfb; apply Heb|]. split; [done|].
  apply (from_link _ _ _ _ n' b (Sent hb (S j) e) a c (Sent h k (Emit (inr b) c (FRelay raw)))); [done|]. cbn. by rewrite Nat.sub_0_r.
Qed.

(** Copies of the publication sent to users are copies its routing asks for. *)
Lemma copy_why b x v :
  In x (sent_at n' b) -> e_to (s_what x) = inl v -> comes_from n' b x a h k ->
  (b = a /\ In (s_what x) (ems (conns_at n0 a) (plan (OUser u cu) raw)))
  \/ exists cb, In (s_what x) (ems (conns_at n0 b) (plan (OBroker a cb) raw)).
Proof.
  intros Hx Hv Hcf. destruct (frame_finished _ _ _ _ _ _ _ Hpub Hnew Hrcvd Hown) as [_ Hf].
  remember a as a1 eqn:Ha in Hcf. remember h as h1 eqn:Hh1 in Hcf. remember k as k1 eqn:Hk1 in Hcf.
  destruct Hcf as [u1 c1 Hlo|a1 c y El Ey].
  - left. subst b. split; [done|]. apply Hf. rewrite <- Hh1, <- Hk1. by destruct x.
  - right. subst a1. destruct (inv_run (es0 ++ es1)) as (I0 & I2 & I3 & _).
    destruct (link_frame a c b (s_task x) t0 k h y _ Hpub Hnew Hh1 Hk1 El Ey) as (tb & Etb & (cb & Hob) & Hlt).
    exists cb. destruct (to_user_relay deser dec_users dec_topics valid b _ x v Hx Hv) as [rx Hrx].
    destruct (relay_received deser dec_users dec_topics valid b _ x rx Hx Hrx) as (hk' & m0 & msg & Hr & _).
    pose proof (rcvd_frame_pos deser dec_users dec_topics valid b _ _ Hr) as Hpos. cbn in Hpos.
    destruct (ninv_all es1 Hquiet) as [_ Hb]. destruct (Hb b) as (_ & Ht & Hxx & _). destruct (Hxx _ _ Etb) as [t Et].
    destruct (Ht _ _ Et) as (tb' & E' & Ho' & Hop' & _). rewrite Etb in E'. injection E' as <-.
    assert (Hlo : loop_of n' b (s_task x) (OBroker a cb)) by (exists t; split; [done|congruence]).
    destruct (I3 b _ a cb Hr Hlo) as (a2 & c2 & y2 & Hl2 & Hy2 & Hw2). cbn [r_task r_frame r_raw] in Hl2, Hy2, Hw2.
    destruct (I2 _ _ _ _ _ _ El Hl2) as [<- <-]. rewrite Ey in Hy2. injection Hy2 as <-.
    pose proof (sent_on_in _ _ _ _ Ey) as [Hiny Hcy].
    assert (Hyw : In (s_what y) (ems (conns_at n0 a) (plan (OUser u cu) raw))).
    { apply Hf. replace (Sent h k (s_what y)) with y; [done|]. destruct y; cbn in *; by subst. }
    assert (Hraw : e_frame (s_what y) = FRelay raw).
    { pose proof (link_target deser dec_users dec_topics valid enc_users enc_topics _ _ _ _ _ _ El Hiny Hcy) as Hto.
      destruct (prov_run deser dec_users dec_topics valid a (trace n' a)) as [_ Hps]. rewrite Forall_forall in Hps.
      destruct (sent_grows a) as [new Hn].
      destruct (Hb a) as (_ & _ & _ & (new' & Hs' & Hn') & _).
      assert (Hynew : y ∈ new').
      { pose proof Hiny as Hiny'. rewrite Hs' in Hiny'. apply in_app_iff in Hiny' as [Hold|Hnw]; [exfalso|by apply elem_of_list_In].
        pose proof (sent_le a (trace n0 a) y t0 Hold) as Hle. rewrite Hh1 in Hle. specialize (Hle Hpub). lia. }
      rewrite Forall_forall in Hn'. destruct (Hn' y Hynew) as (ry & Hry & _).
      destruct (relay_received deser dec_users dec_topics valid a _ y ry Hiny Hry) as (hky & m0y & msgy & Hry' & _).
      rewrite Hh1, Hk1 in Hry'. pose proof (rcvd_unique a _ _ _ Hrcvd Hry' eq_refl eq_refl) as Heq. injection Heq as <- _. done. }
    rewrite Hraw in Hw2. cbn in Hw2. subst rx.
    assert (Hnewx : t_frames tb < s_frame x).
    { destruct (decide (t_frames tb < s_frame x)) as [|Hold]; [done|exfalso].
      destruct (Hb b) as (_ & _ & _ & _ & _ & Hro). pose proof (Hro _ _ Hr Etb ltac:(cbn; lia)) as Hr0.
      destruct (inv_run es0) as (_ & J2 & J3 & _).
      assert (Hlo0 : loop_of n0 b (s_task x) (OBroker a cb)) by (exists tb; done).
      destruct (J3 b _ a cb Hr0 Hlo0) as (a3 & c3 & y3 & Hl3 & Hy3 & _). cbn [r_task r_frame] in Hl3, Hy3.
      assert (El0 : n_links n0 !! (a, c) = Some (b, s_task x)) by (destruct (ninv_all es1 Hquiet) as [Hl _]; by rewrite <- Hl).
      destruct (J2 _ _ _ _ _ _ El0 Hl3) as [<- <-].
      destruct (sent_grows a) as [new Hn]. unfold sent_on in Ey. rewrite Hn, filter_app in Ey. fold (sent_on (broker_at n0 a) c) in Ey.
      rewrite (lookup_app_l_Some _ _ _ _ Hy3) in Ey. injection Ey as ->.
      apply sent_on_in in Hy3 as [Hold3 _]. pose proof (sent_le a (trace n0 a) y t0 Hold3) as Hle. rewrite Hh1 in Hle. specialize (Hle Hpub). lia. }
    destruct (frame_finished _ _ _ _ _ _ _ Etb Hnewx Hr Hob) as [_ Hfb]. apply Hfb. by destruct x.
Qed.
End publication.
End run.

(** ** The two kinds of publication *)
Lemma quiet_hooks es0 es1 : hooks_keep_sync es0 -> Forall quiet es1 -> hooks_keep_sync (es0 ++ es1).
Proof.
  intros Hh Hq d c hk Hin. apply in_app_iff in Hin as [Hin|Hin]; [by eapply Hh|]. rewrite Forall_forall in Hq.
  apply elem_of_list_In in Hin. specialize (Hq _ Hin). cbn in Hq. subst hk. intros m msg [[p ->]|[p ->]] [= <-]; done.
Qed.

Definition sent_once (n : net) (b : bid) (v : ukey) (a : bid) (h : N) (k : nat) (c : N) (raw : bytes) : Prop :=
  exists j x, sent_at n b !! j = Some x /\ s_what x = Emit (inl v) c (FRelay raw) /\ comes_from n b x a h k
    /\ forall j' x', sent_at n b !! j' = Some x' -> e_to (s_what x') = inl v -> comes_from n b x' a h k -> j' = j.
Definition sent_never (n : net) (b : bid) (v : ukey) (a : bid) (h : N) (k : nat) : Prop :=
  forall x, In x (sent_at n b) -> e_to (s_what x) = inl v -> ~ comes_from n b x a h k.

Lemma once_unique es b x v c raw a h k : sync_codec deser enc_users enc_topics -> hooks_keep_sync es ->
  In x (sent_at (n_run es) b) -> s_what x = Emit (inl v) c (FRelay raw) -> comes_from (n_run es) b x a h k -> sent_once (n_run es) b v a h k c raw.
Proof.
  intros Hcod Hh Hx Hw Hcf. apply elem_of_list_In, elem_of_list_lookup_1 in Hx as [j Hj]. exists j, x. do 3 (split; [done|]).
  assert (Hv : e_to (s_what x) = inl v) by by rewrite Hw.
  intros j' x' Hj' Hv' Hcf'. destruct (Nat.lt_trichotomy j' j) as [Hlt|[?|Hlt]]; [exfalso|done|exfalso].
  - exact (no_duplicates deser dec_users dec_topics valid enc_users enc_topics Hcod es b v j' j x' x a h k Hh Hlt Hj' Hj Hv' Hv Hcf' Hcf).
  - exact (no_duplicates deser dec_users dec_topics valid enc_users enc_topics Hcod es b v j j' x x' a h k Hh Hlt Hj Hj' Hv Hv' Hcf Hcf').
Qed.

Lemma broadcast_concurrent es0 es1 a h u cu t0 k raw hk ts body :
  let n := n_run es0 in
  let n' := n_run (es0 ++ es1) in
  sync_codec deser enc_users enc_topics -> hooks_keep_sync es0 ->
  at_rest n -> synchronised n a -> Forall quiet es1 -> at_rest n' ->
  tasks_at n a !! h = Some t0 -> t_owner t0 = OUser u cu -> t_frames t0 < k -> In (Rcvd h k raw hk) (m_rcvd (broker_at n' a)) ->
  deser raw = Some (MBroadcast ts body) ->
  forall b v,
    ((exists t, In t ts /\ subscribed_at n b v t) -> exists c, c_get_user_connection (conns_at n b) v = Some c /\ sent_once n' b v a h k c raw)
    /\ (~ (exists t, In t ts /\ subscribed_at n b v t) -> sent_never n' b v a h k).
Proof.
  intros n n' Hcod Hh0 Hrest (Hs1 & Hs2 & Hs3) Hq Hrest' Hpub Hown Hnew Hr Hd b v.
  pose proof (quiet_hooks es0 es1 Hh0 Hq) as Hh.
  destruct (frame_finished es0 Hrest es1 Hq Hrest' _ _ _ _ _ _ _ Hpub Hnew Hr Hown) as [Hg _].
  assert (Hval : exists t, In t ts /\ valid t = true).
  { destruct Hg as [(r & bd & Hd')|(ts' & bd & Hd' & Hv)]; rewrite Hd in Hd'; [done|]. by injection Hd' as <- _. }
  set (ts' := (prune valid ts).1).
  assert (HA0 : plan (OUser u cu) raw = [ABroadcast ts' raw false]).
  { unfold plan. cbn [TaskModel.loop_frame]. unfold user_frame. rewrite Hd. unfold no_hook. apply prune_ok in Hval. unfold ts'. destruct (prune valid ts) as [l g]. cbn in Hval. by rewrite Hval. }
  assert (HAB : forall b' c', plan (OBroker b' c') raw = [ABroadcast ts raw true]).
  { intros b' c'. unfold plan. cbn [TaskModel.loop_frame]. unfold broker_frame. rewrite Hd. done. }
  split.
  - intros (t & Ht & Hsub). destruct (Hs3 _ _ _ Hsub) as (Hvt & c & Hc). exists c. split; [done|].
    assert (Hx : exists x, In x (sent_at n' b) /\ s_what x = Emit (inl v) c (FRelay raw) /\ comes_from n' b x a h k); [|destruct Hx as (x & H1 & H2 & H3); by eapply once_unique].
    destruct (decide (b = a)) as [->|Hne].
    + apply (copy_here es0 Hrest es1 Hq Hrest' a h u cu t0 k raw hk Hpub Hown Hnew Hr (Emit (inl v) c (FRelay raw)) v); [|done].
      rewrite HA0, ems_broadcast, broadcast_emissions. right. exists v, c. split; [|done].
      apply interested_split. exists t. split; [by apply prune_in|done].
    + destruct (Hs1 b v c Hne Hc) as (_ & cl & hb & tb & Hcl & Hlk & Htb & Hop).
      apply (copy_there es0 Hrest es1 Hq Hrest' a h u cu t0 k raw hk Hpub Hown Hnew Hr b cl hb tb (Emit (inl v) c (FRelay raw)) v); [|done|done|done| |done].
      * rewrite HA0, ems_broadcast, broadcast_emissions. left. exists b, cl. split; [|done].
        apply interested_brokers_split. exists t. split; [by apply prune_in|]. by eapply Hs2.
      * intros cb. rewrite HAB, ems_broadcast, broadcast_emissions. right. exists v, c. split; [|done]. apply interested_split. eauto.
  - intros Hno x Hx Hv Hcf.
    destruct (copy_why es0 Hrest es1 Hq Hrest' a h u cu t0 k raw hk Hpub Hown Hnew Hr b x v Hx Hv Hcf) as [(-> & He)|(cb & He)];
      [rewrite HA0 in He|rewrite HAB in He]; rewrite ems_broadcast, broadcast_emissions in He;
      (destruct He as [(b' & c & _ & _ & _ & He)|(u' & c & Hin & _ & _ & He)]; rewrite He in Hv; [done|]; cbn in Hv; injection Hv as ->);
      apply interested_split in Hin as (t & Ht & Hsub); apply Hno; exists t; (split; [|done]); [by apply prune_in in Ht as [Ht _]|done].
Qed.

Lemma direct_concurrent es0 es1 a h u cu t0 k raw hk r body :
  let n := n_run es0 in
  let n' := n_run (es0 ++ es1) in
  sync_codec deser enc_users enc_topics -> hooks_keep_sync es0 ->
  at_rest n -> synchronised n a -> Forall quiet es1 -> at_rest n' ->
  tasks_at n a !! h = Some t0 -> t_owner t0 = OUser u cu -> t_frames t0 < k -> In (Rcvd h k raw hk) (m_rcvd (broker_at n' a)) ->
  deser raw = Some (MDirect r body) ->
  forall b v,
    (forall c, v = r -> c_get_user_connection (conns_at n b) v = Some c -> sent_once n' b v a h k c raw)
    /\ (v <> r \/ c_get_user_connection (conns_at n b) v = None -> sent_never n' b v a h k).
Proof.
  intros n n' Hcod Hh0 Hrest (Hs1 & Hs2 & Hs3) Hq Hrest' Hpub Hown Hnew Hr Hd b v.
  pose proof (quiet_hooks es0 es1 Hh0 Hq) as Hh.
  assert (HA0 : plan (OUser u cu) raw = [ADirect r raw false]).
  { unfold plan. cbn [TaskModel.loop_frame]. unfold user_frame. rewrite Hd. done. }
  assert (HAB : forall b' c', plan (OBroker b' c') raw = [ADirect r raw true]).
  { intros b' c'. unfold plan. cbn [TaskModel.loop_frame]. unfold broker_frame. rewrite Hd. done. }
  assert (Hloc : forall b' c o, c_get_user_connection (conns_at n b') r = Some c -> In (Emit (inl r) c (FRelay raw)) (ems (conns_at n b') [ADirect r raw o])).
  { intros b' c o Hc. rewrite ems_direct. rewrite (proj2 (state_directory deser dec_users dec_topics valid n b' r)) by eauto.
    rewrite decide_True by (by rewrite state_identity). unfold emit_user. rewrite Hc. by left. }
  assert (Hin : forall b' o e, In e (ems (conns_at n b') [ADirect r raw o]) -> e_to e = inl v -> v = r /\ exists c, c_get_user_connection (conns_at n b') v = Some c).
  { intros b' o e. rewrite ems_direct. destruct (c_get_broker_identifier_of_user (conns_at n b') r) as [b2|]; [|done]. case_decide.
    - unfold emit_user. destruct (c_get_user_connection (conns_at n b') r) as [c|] eqn:Ec; [|done]. intros [<-|[]]. cbn. intros [= <-]. eauto.
    - destruct o; [done|]. unfold emit_broker. destruct (c_get_broker_connection (conns_at n b') b2); [|done]. intros [<-|[]]. done. }
  split.
  - intros c -> Hc.
    assert (Hx : exists x, In x (sent_at n' b) /\ s_what x = Emit (inl r) c (FRelay raw) /\ comes_from n' b x a h k); [|destruct Hx as (x & H1 & H2 & H3); by eapply once_unique].
    destruct (decide (b = a)) as [->|Hne].
    + apply (copy_here es0 Hrest es1 Hq Hrest' a h u cu t0 k raw hk Hpub Hown Hnew Hr (Emit (inl r) c (FRelay raw)) r); [|done].
      rewrite HA0. by apply Hloc.
    + destruct (Hs1 b r c Hne Hc) as (Hdir & cl & hb & tb & Hcl & Hlk & Htb & Hop).
      apply (copy_there es0 Hrest es1 Hq Hrest' a h u cu t0 k raw hk Hpub Hown Hnew Hr b cl hb tb (Emit (inl r) c (FRelay raw)) r); [|done|done|done| |done].
      * rewrite HA0, ems_direct. fold n. rewrite Hdir. rewrite decide_False by (rewrite state_identity; done). unfold emit_broker. rewrite Hcl. by left.
      * intros cb. rewrite HAB. by apply Hloc.
  - intros Hno x Hx Hv Hcf.
    destruct (copy_why es0 Hrest es1 Hq Hrest' a h u cu t0 k raw hk Hpub Hown Hnew Hr b x v Hx Hv Hcf) as [(-> & He)|(cb & He)];
      [rewrite HA0 in He|rewrite HAB in He]; fold n in He; destruct (Hin _ _ _ He Hv) as [-> (c & Hc)]; (destruct Hno as [?|?]; [done|congruence]).
Qed.

(** ** Coming to rest *)
Section progress.
Variable es0 : list nevent.
Notation n0 := (n_run es0).
Hypothesis Hrest : at_rest n0.
Notation after es := (n_run (es0 ++ es)).
Notation ninv_all := (ninv_all es0 Hrest).

Definition idle (n : net) (b : bid) (h : N) : Prop := forall t, tasks_at n b !! h = Some t -> t_acts t = [].
Definition link_read (n : net) (d : bid) (c : N) : Prop :=
  forall b h t, n_links n !! (d, c) = Some (b, h) -> tasks_at n b !! h = Some t -> t_open t = true -> t_frames t = length (sent_on (broker_at n d) c).

Lemma calm_quiet e : calm e -> quiet e.
Proof. by destruct e. Qed.
Lemma calm_quiets es : Forall calm es -> Forall quiet es.
Proof. intros H. eapply Forall_impl; [exact H|]. apply calm_quiet. Qed.

Lemma ems_broker_users s b c raw e : good_raw raw -> In e (ems s (plan (OBroker b c) raw)) -> exists v, e_to e = inl v.
Proof.
  intros Hg. unfold plan. cbn [TaskModel.loop_frame]. unfold broker_frame, no_hook. destruct Hg as [(r & body & Hd)|(ts & body & Hd & _)]; rewrite Hd; cbn [fst].
  - rewrite ems_direct. destruct (c_get_broker_identifier_of_user s r) as [b'|]; [|done]. case_decide; [|done].
    unfold emit_user. destruct (c_get_user_connection s r) as [c'|]; [|done]. intros [<-|[]]. by exists r.
  - rewrite ems_broadcast, broadcast_emissions. intros [(b' & c' & Hin & _)|(u' & c' & _ & _ & _ & ->)]; [|by exists u'].
    unfold c_get_interested_by_topic in Hin. cbn [fst] in Hin. rewrite fold_const in Hin. by rewrite elements_empty in Hin.
Qed.

Lemma drain_task es1 b h t : Forall quiet es1 -> tasks_at (after es1) b !! h = Some t ->
  exists es2, Forall calm es2
    /\ tasks_at (after (es1 ++ es2)) b !! h = Some (Task (t_owner t) [] (t_open t) (t_frames t))
    /\ (forall h2, h2 <> h -> tasks_at (after (es1 ++ es2)) b !! h2 = tasks_at (after es1) b !! h2)
    /\ (forall d, d <> b -> broker_at (after (es1 ++ es2)) d = broker_at (after es1) d)
    /\ sent_at (after (es1 ++ es2)) b = sent_at (after es1) b ++ map (Sent h (t_frames t)) (ems (conns_at (after es1) b) (t_acts t)).
Proof.
  remember (wts (conns_at (after es1) b) (t_acts t)) as w eqn:Hw. revert es1 t Hw.
  induction w as [w IH] using lt_wf_ind. intros es1 t Hw Hq Ht.
  destruct (t_acts t) as [|x rest] eqn:Ea0.
  { exists []. rewrite app_nil_r. split; [constructor|]. split; [rewrite Ht; destruct t; cbn in *; by subst|]. cbn. by rewrite app_nil_r. }
  destruct (ninv_all es1 Hq) as [_ Hb]. destruct (Hb b) as (_ & Htt & _). destruct (Htt _ _ Ht) as (t0 & _ & _ & _ & _ & Hg & _).
  rewrite Ea0 in Hg. apply Forall_cons in Hg as [[Hrx _] _].
  destruct (routing_step (conns_at (after es1) b) x Hrx) as (nxt & sends & Hst & _ & Hem).
  pose proof (wt_step _ _ _ _ Hrx Hst) as Hlt.
  set (e := NStep b (ERun h true)).
  assert (Hn : after (es1 ++ [e]) = extend (after es1) b (ERun h true)).
  { rewrite app_assoc, n_run_snoc. done. }
  assert (Hm : broker_at (after (es1 ++ [e])) b
    = Machine (conns_at (after es1) b) (<[h := Task (t_owner t) (nxt ++ rest) (t_open t) (t_frames t)]> (tasks_at (after es1) b))
        (sent_at (after es1) b ++ map (Sent h (t_frames t)) sends) (m_rcvd (broker_at (after es1) b))).
  { rewrite Hn, extend_self. cbn [TaskModel.m_step]. rewrite Ht. destruct t as [o l op k]. cbn in Ea0. subst l. by rewrite Hst. }
  destruct (IH (wts (conns_at (after (es1 ++ [e])) b) (nxt ++ rest))) with (es1 := es1 ++ [e]) (t := Task (t_owner t) (nxt ++ rest) (t_open t) (t_frames t))
    as (es2 & Hc2 & Ht2 & Hs2 & Ho2 & Hse2).
  - rewrite Hm. cbn [m_conns]. rewrite Hw, wts_app. unfold wts in *. cbn [sum_list_with]. lia.
  - done.
  - apply Forall_app. split; [done|]. by repeat constructor.
  - rewrite Hm. cbn [m_tasks]. by rewrite lookup_insert.
  - exists (e :: es2). replace (es1 ++ e :: es2) with ((es1 ++ [e]) ++ es2) by (by rewrite <- app_assoc).
    split; [by constructor|]. split; [done|]. split; [|split].
    + intros h2 Hne. rewrite Hs2 by done. rewrite Hm. cbn [m_tasks]. by rewrite lookup_insert_ne.
    + intros d Hd. rewrite Ho2 by done. rewrite Hn. by rewrite extend_other.
    + rewrite Hse2, Hm. cbn [m_sent m_conns t_frames t_acts]. rewrite <- app_assoc, <- map_app. do 2 f_equal.
      unfold ems in *. cbn [map concat]. rewrite map_app, concat_app, <- Hem. by rewrite app_assoc.
Qed.

(** All tasks finish what they are doing. *)
Lemma drain_list (l : list (bid * N)) es1 : Forall quiet es1 -> exists es2, Forall calm es2
  /\ (forall b h, (b, h) ∈ l -> idle (after (es1 ++ es2)) b h) /\ (forall b h, idle (after es1) b h -> idle (after (es1 ++ es2)) b h).
Proof.
  revert es1. induction l as [|[b h] l IH]; intros es1 Hq.
  { exists []. rewrite app_nil_r. split; [constructor|]. split; [intros b h Hb; by apply elem_of_nil in Hb|done]. }
  destruct (IH es1 Hq) as (es2 & Hc2 & Hl2 & Hk2).
  assert (Hq2 : Forall quiet (es1 ++ es2)) by (apply Forall_app; split; [done|by apply calm_quiets]).
  destruct (tasks_at (after (es1 ++ es2)) b !! h) as [t|] eqn:Et.
  - destruct (drain_task (es1 ++ es2) b h t Hq2 Et) as (es3 & Hc3 & Ht3 & Hs3 & Ho3 & _).
    assert (Hkeep : forall b' h', idle (after (es1 ++ es2)) b' h' \/ (b' = b /\ h' = h) -> idle (after (es1 ++ es2 ++ es3)) b' h').
    { intros b' h' Hi t' Ht'. rewrite (app_assoc es1 es2 es3) in Ht'. destruct (decide (b' = b)) as [->|Hb].
      - destruct (decide (h' = h)) as [->|Hh]; [rewrite Ht3 in Ht'; by injection Ht' as <-|].
        rewrite Hs3 in Ht' by done. destruct Hi as [Hi|[_ ?]]; [by apply Hi|done].
      - rewrite Ho3 in Ht' by done. destruct Hi as [Hi|[? _]]; [by apply Hi|done]. }
    exists (es2 ++ es3). split; [by apply Forall_app|]. split.
    + intros b' h' Hin. apply elem_of_cons in Hin as [[= -> ->]|Hin]; apply Hkeep; [by right|]. left. by apply Hl2.
    + intros b' h' Hi. apply Hkeep. left. by apply Hk2.
  - exists es2. split; [done|]. split; [|done]. intros b' h' Hin. apply elem_of_cons in Hin as [[= -> ->]|Hin]; [|by apply Hl2].
    intros t Ht. congruence.
Qed.

Lemma drain_all es1 : Forall quiet es1 -> exists es2, Forall calm es2 /\ forall b h, idle (after (es1 ++ es2)) b h.
Proof.
  intros Hq. set (l := concat (map (fun p => map (fun q => (p.1, q.1)) (map_to_list (tasks_at n0 p.1))) (map_to_list (n_trace n0)))).
  destruct (drain_list l es1 Hq) as (es2 & Hc2 & Hl2 & _). exists es2. split; [done|]. intros b h.
  destruct (decide ((b, h) ∈ l)) as [Hin|Hni]; [by apply Hl2|]. intros t Ht. exfalso. apply Hni.
  assert (Hq2 : Forall quiet (es1 ++ es2)) by (apply Forall_app; split; [done|by apply calm_quiets]).
  destruct (ninv_all _ Hq2) as [_ Hb]. destruct (Hb b) as (_ & Htt & _). destruct (Htt _ _ Ht) as (t0 & Ht0 & _).
  unfold l. apply elem_of_list_In, in_concat. exists (map (fun q => (b, q.1)) (map_to_list (tasks_at n0 b))). split.
  - apply in_map_iff. destruct (n_trace n0 !! b) as [tr|] eqn:Etr.
    + exists (b, tr). split; [done|]. by apply elem_of_list_In, elem_of_map_to_list.
    + exfalso. unfold NetModel.broker_at, trace in Ht0. rewrite Etr in Ht0. cbn in Ht0. by rewrite lookup_empty in Ht0.
  - apply in_map_iff. exists (h, t0). split; [done|]. by apply elem_of_list_In, elem_of_map_to_list.
Qed.

(** What a broker's loop does with a frame from another broker is not seen on any link. *)
Lemma link_quiet es b h k (l : list emission) c d hd s : (forall e, In e l -> exists v, e_to e = inl v) ->
  n_links (n_run es) !! (b, c) = Some (d, hd) -> sent_at (n_run es) b = s ++ map (Sent h k) l ->
  sent_on (broker_at (n_run es) b) c = filter (fun x => e_conn (s_what x) = c) s.
Proof.
  intros Hu El Hs. unfold sent_on. rewrite Hs, filter_app, (filter_none _ (map (Sent h k) l)); [by rewrite app_nil_r|].
  intros x Hc Hin. apply elem_of_list_In in Hin.
  assert (Hx : In x (sent_at (n_run es) b)) by (rewrite Hs; apply in_app_iff; by right).
  pose proof (link_target deser dec_users dec_topics valid enc_users enc_topics _ _ _ _ _ _ El Hx Hc) as Hto.
  apply in_map_iff in Hin as (e & <- & He). destruct (Hu e He) as [v Hv]. cbn in Hto. congruence.
Qed.

Lemma frames_le es1 d c b h t : Forall quiet es1 -> n_links (after es1) !! (d, c) = Some (b, h) -> tasks_at (after es1) b !! h = Some t ->
  t_open t = true -> t_frames t <= length (sent_on (broker_at (after es1) d) c).
Proof.
  intros Hq El Et Hop. destruct (ninv_all es1 Hq) as [Hl Hb]. destruct (Hb b) as (_ & Htt & _). destruct (Htt _ _ Et) as (t0 & E0 & Ho & Hop0 & Hfr & _ & _ & Hd).
  destruct (decide (t_frames t = t_frames t0)) as [Heq|Hne].
  - rewrite Heq. rewrite Hl in El. rewrite (proj2 Hrest _ _ _ _ _ El E0 ltac:(congruence)).
    destruct (Hb d) as (_ & _ & _ & (new & Hs & _) & _). unfold sent_on. rewrite Hs, filter_app, app_length. lia.
  - destruct (Hd (t_frames t) ltac:(lia)) as (raw & Hr & _).
    destruct (inv_run (es0 ++ es1)) as (I0 & I2 & I3 & _). destruct (I0 _ _ _ _ El) as (_ & _ & cb & Hlo).
    destruct (I3 b _ d cb Hr Hlo) as (a1 & c1 & y & Hl1 & Hy & _). cbn [r_task r_frame] in Hl1, Hy.
    destruct (I2 _ _ _ _ _ _ El Hl1) as [<- <-]. apply lookup_lt_Some in Hy. lia.
Qed.

(** One link is read to its end. *)
Lemma read_link d c es1 : Forall quiet es1 -> (forall b h, idle (after es1) b h) ->
  exists es2, Forall calm es2 /\ (forall b h, idle (after (es1 ++ es2)) b h) /\ link_read (after (es1 ++ es2)) d c
    /\ forall d' c', link_read (after es1) d' c' -> link_read (after (es1 ++ es2)) d' c'.
Proof.
  intros Hq Hidle.
  destruct (n_links (after es1) !! (d, c)) as [[b h]|] eqn:El; [|exists []; rewrite app_nil_r; split; [constructor|split; [done|split; [|done]]]; intros ? ? ?; congruence].
  destruct (tasks_at (after es1) b !! h) as [t|] eqn:Et; [|exists []; rewrite app_nil_r; split; [constructor|split; [done|split; [|done]]]; intros ? ? ?; congruence].
  destruct (t_open t) eqn:Eop; [|exists []; rewrite app_nil_r; split; [constructor|split; [done|split; [|done]]]; intros ? ? ?; congruence].
  remember (length (sent_on (broker_at (after es1) d) c) - t_frames t) as w eqn:Hw. revert es1 t Hq Hidle El Et Eop Hw.
  induction w as [|w IH]; intros es1 t Hq Hidle El Et Eop Hw; pose proof (frames_le es1 d c b h t Hq El Et Eop) as Hle.
  { exists []. rewrite app_nil_r. split; [constructor|]. split; [done|]. split; [|done].
    intros b' h' t' El' Et' _. rewrite El in El'. injection El' as <- <-. rewrite Et in Et'. injection Et' as <-. lia. }
  destruct (lookup_lt_is_Some_2 (sent_on (broker_at (after es1) d) c) (t_frames t) ltac:(lia)) as [x Hx].
  set (e := NDeliver d c no_hook).
  assert (Hn : after (es1 ++ [e]) = extend (after es1) b (EFrame h (wire (e_frame (s_what x))) no_hook)).
  { rewrite app_assoc, n_run_snoc. unfold e. cbn [NetModel.n_step]. by rewrite El, Et, Hx. }
  assert (Hqe : Forall quiet (es1 ++ [e])) by (apply Forall_app; split; [done|by repeat constructor]).
  destruct (ninv_all es1 Hq) as [Hl Hb].
  (* the frame is a good one *)
  assert (Hgood : exists raw, e_frame (s_what x) = FRelay raw /\ good_raw raw).
  { destruct (Hb b) as (_ & Htt & _). destruct (Htt _ _ Et) as (t0 & E0 & Ho & Hop0 & Hfr & _).
    pose proof El as El0. rewrite Hl in El0. pose proof (proj2 Hrest _ _ _ _ _ El0 E0 ltac:(congruence)) as Hlen.
    destruct (Hb d) as (_ & _ & _ & (new & Hs & Hnw) & _).
    unfold sent_on in Hx. rewrite Hs, filter_app in Hx. fold (sent_on (broker_at n0 d) c) in Hx.
    rewrite lookup_app_r in Hx by lia. apply elem_of_list_lookup_2, elem_of_list_filter in Hx as [_ Hx].
    rewrite Forall_forall in Hnw. by apply Hnw. }
  destruct Hgood as (raw & Hfx & Hg). rewrite Hfx in Hn. cbn [NetModel.wire] in Hn.
  destruct (inv_run (es0 ++ es1)) as (I0 & I2 & _). destruct (I0 _ _ _ _ El) as (_ & _ & cb & t1 & Ht1 & Ho1). rewrite Et in Ht1. injection Ht1 as <-.
  destruct (good_frame (t_owner t) raw) as (act & Hlf & _ & _); [congruence|done|].
  pose proof (Hidle _ _ _ Et) as Ha0.
  assert (Hm : broker_at (after (es1 ++ [e])) b
    = Machine (conns_at (after es1) b) (<[h := Task (t_owner t) [act] true (S (t_frames t))]> (tasks_at (after es1) b))
        (sent_at (after es1) b) (m_rcvd (broker_at (after es1) b) ++ [Rcvd h (S (t_frames t)) raw no_hook])).
  { rewrite Hn, extend_self. cbn [TaskModel.m_step]. rewrite Et. destruct t as [o l op k]. cbn in Ha0, Eop, Hlf. subst l op. by rewrite Hlf. }
  assert (Et2 : tasks_at (after (es1 ++ [e])) b !! h = Some (Task (t_owner t) [act] true (S (t_frames t)))) by (rewrite Hm; cbn [m_tasks]; by rewrite lookup_insert).
  destruct (drain_task (es1 ++ [e]) b h _ Hqe Et2) as (es2 & Hc2 & Ht3 & Hs3 & Ho3 & Hse3). cbn [t_owner t_open t_frames t_acts] in Ht3, Hse3.
  rewrite <- app_assoc in Ht3, Hs3, Ho3, Hse3. cbn [app] in Ht3, Hs3, Ho3, Hse3. rewrite Hm in Hse3. cbn [m_sent m_conns] in Hse3.
  assert (Hqs : Forall quiet (es1 ++ e :: es2)) by (apply Forall_app; split; [done|constructor; [done|by apply calm_quiets]]).
  destruct (ninv_all _ Hqs) as [Hl3 _].
  assert (Hso : forall d' c' x', n_links (after es1) !! (d', c') = Some x' -> sent_on (broker_at (after (es1 ++ e :: es2)) d') c' = sent_on (broker_at (after es1) d') c').
  { intros d' c' [b' h'] El'. destruct (decide (d' = b)) as [->|Hd].
    - assert (El3 : n_links (after (es1 ++ e :: es2)) !! (b, c') = Some (b', h')) by (by rewrite Hl3, <- Hl).
      apply (link_quiet (es0 ++ es1 ++ e :: es2) b h (S (t_frames t)) (ems (conns_at (after es1) b) [act]) c' b' h'); [|exact El3|exact Hse3].
      intros e' He'. apply (ems_broker_users (conns_at (after es1) b) d cb raw); [done|]. unfold plan. rewrite Ho1 in Hlf. by rewrite Hlf.
    - unfold sent_on. rewrite Ho3 by done. by rewrite Hn, extend_other. }
  assert (Htk : forall b' h', (b' = b /\ h' = h) \/ tasks_at (after (es1 ++ e :: es2)) b' !! h' = tasks_at (after es1) b' !! h').
  { intros b' h'. destruct (decide (b' = b)) as [->|Hb'].
    - destruct (decide (h' = h)) as [->|Hh']; [by left|right]. rewrite Hs3 by done. rewrite Hm. cbn [m_tasks]. by rewrite lookup_insert_ne.
    - right. rewrite Ho3 by done. rewrite Hn. by rewrite extend_other. }
  destruct (IH (es1 ++ e :: es2) (Task (t_owner t) [] true (S (t_frames t)))) as (es3 & Hc3 & Hi3 & Hr3 & Hk3).
  - done.
  - intros b' h' t' Ht'. destruct (Htk b' h') as [[-> ->]|Heq]; [rewrite Ht3 in Ht'; by injection Ht' as <-|]. rewrite Heq in Ht'. by eapply Hidle.
  - by rewrite Hl3, <- Hl.
  - done.
  - done.
  - rewrite (Hso d c _ El). cbn [t_frames]. lia.
  - exists (e :: es2 ++ es3). rewrite <- app_assoc in Hi3, Hr3, Hk3. cbn [app] in Hi3, Hr3, Hk3.
    split; [constructor; [done|by apply Forall_app]|]. split; [done|]. split; [done|].
    intros d' c' Hlr. destruct (decide ((d', c') = (d, c))) as [[= -> ->]|Hne]; [done|]. apply Hk3.
    intros b' h' t' El' Et' Hop'. rewrite Hl3, <- Hl in El'. rewrite (Hso _ _ _ El').
    destruct (Htk b' h') as [[-> ->]|Heq]; [destruct (I2 _ _ _ _ _ _ El' El) as [-> ->]; done|].
    rewrite Heq in Et'. exact (Hlr _ _ _ El' Et' Hop').
Qed.

Lemma read_list (l : list (bid * N)) es1 : Forall quiet es1 -> (forall b h, idle (after es1) b h) ->
  exists es2, Forall calm es2 /\ (forall b h, idle (after (es1 ++ es2)) b h) /\ forall d c, (d, c) ∈ l -> link_read (after (es1 ++ es2)) d c.
Proof.
  induction l as [|[d c] l IH]; intros Hq Hidle.
  { exists []. rewrite app_nil_r. split; [constructor|]. split; [done|]. intros d c Hin. by apply elem_of_nil in Hin. }
  destruct (IH Hq Hidle) as (es2 & Hc2 & Hi2 & Hl2).
  destruct (read_link d c (es1 ++ es2)) as (es3 & Hc3 & Hi3 & Hr3 & Hk3); [apply Forall_app; split; [done|by apply calm_quiets]|done|].
  rewrite <- app_assoc in Hi3, Hr3, Hk3. exists (es2 ++ es3). split; [by apply Forall_app|]. split; [done|].
  intros d' c' Hin. apply elem_of_cons in Hin as [[= -> ->]|Hin]; [done|]. apply Hk3. by apply Hl2.
Qed.

Lemma concurrent_finishes es1 : Forall quiet es1 -> exists es2, Forall calm es2 /\ at_rest (after (es1 ++ es2)).
Proof.
  intros Hq. destruct (drain_all es1 Hq) as (es2 & Hc2 & Hi2).
  assert (Hq2 : Forall quiet (es1 ++ es2)) by (apply Forall_app; split; [done|by apply calm_quiets]).
  destruct (read_list (map fst (map_to_list (n_links n0))) (es1 ++ es2) Hq2 Hi2) as (es3 & Hc3 & Hi3 & Hr3).
  rewrite <- app_assoc in Hi3, Hr3. exists (es2 ++ es3). split; [by apply Forall_app|]. split; [intros b h t; apply Hi3|].
  intros d c b h t El Et Hop. eapply Hr3; [|exact El|exact Et|exact Hop].
  assert (Hq3 : Forall quiet (es1 ++ es2 ++ es3)) by (apply Forall_app; split; [done|]; apply Forall_app; split; by apply calm_quiets).
  destruct (ninv_all _ Hq3) as [Hl _]. rewrite Hl in El. apply elem_of_list_In, in_map_iff. exists (d, c, (b, h)). split; [done|].
  by apply elem_of_list_In, elem_of_map_to_list.
Qed.
End progress.
End concurrent.
