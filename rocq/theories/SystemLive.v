(** Proofs about the whole system: what the network sees of it, and that users who log in are connected. *)
From stdpp Require Import gmap list.
From Coq Require Import NArith Lia.
From Verif Require Import IdModel RelMapModel VMapModel ConnModel ConnSpec TopicModel MsgModel DiscModel AuthModel AuthSpec LoginModel LoginSpec LoginProofs
  RouteModel TaskModel TaskProofs TaskOrder TaskHandles NetModel NetProofs NetOrigin NetDelivery NetComplete NetSynced NetSettle NetSettleDir
  StaySpec NetStay SystemModel SystemSpec SystemProofs.

(** * Connected at rest *)
Section rest.
Variable deser : bytes -> option message.
Variable dec_users : bytes -> option direct_map.
Variable dec_topics : bytes -> option topic_map.
Variable valid : N -> bool.
Variable enc_users : direct_map -> bytes.
Variable enc_topics : topic_map -> bytes.
Hypothesis Hcodec : faithful_sync deser dec_users dec_topics enc_users enc_topics.
Notation broker_at := (broker_at deser dec_users dec_topics valid).
Notation n_run := (n_run deser dec_users dec_topics valid enc_users enc_topics).
Notation fine := (fine deser dec_users dec_topics valid).
Notation at_rest := (at_rest deser dec_users dec_topics valid).
Notation subscribed_at := (subscribed_at deser dec_users dec_topics valid).

Lemma once_solo n v b x xx c ts : In (EUserAuthed x xx v c ts) (trace n b) -> admitted_once n v -> solo v b n.
Proof.
  intros Hin Hone y i ev Hy Hadm. apply in_lookup in Hin as [j Hj]. destruct ev as [h hh u c1 ts1| | | | | | |]; try done. cbn in Hadm. subst u.
  destruct (Hone _ _ _ _ _ _ _ _ _ _ _ _ Hy Hj) as [-> ->]. split; [done|]. intros k ev' Hk Hadm'.
  destruct ev' as [h' hh' u c2 ts2| | | | | | |]; try done. cbn in Hadm'. subst u. by destruct (Hone _ _ _ _ _ _ _ _ _ _ _ _ Hk Hj).
Qed.
Lemma connected_at_rest es b v x xx c ts :
  hooks_pass es -> let n := n_run es in fine n -> at_rest n -> admitted_once n v -> undisturbed deser dec_users dec_topics valid v b n ->
  In (EUserAuthed x xx v c ts) (trace n b) ->
  c_get_user_connection (m_conns (broker_at n b)) v = Some c
  /\ (forall t, In t ts -> valid t = true -> subscribed_at n b v t)
  /\ exists k, m_tasks (broker_at n b) !! x = Some (Task (OUser v c) [] true k).
Proof.
  intros Hh n Hf [Hr _] Hone Hun Hin.
  destruct (staying_run deser dec_users dec_topics valid enc_users enc_topics Hcodec v b es Hh Hf (once_solo _ _ _ _ _ _ _ Hin Hone) Hun) as [_ Hheld].
  destruct (Hheld x xx c ts Hin) as [(acts & k & Ht) [Hp|[Hu Hs]]]; [specialize (Hr _ _ _ Hp); done|].
  split; [unfold c_get_user_connection; fold n in Hu; by rewrite Hu|]. split; [exact Hs|]. exists k. specialize (Hr _ _ _ Ht) as Ha. cbn in Ha. by subst acts.
Qed.
End rest.

Section sys.
Context {pk : Type} `{EqDecision pk}.
Variable pk_deser : bytes -> option pk.
Variable pk_ser : pk -> option bytes.
Variable verify : pk -> bytes -> bytes -> bool.
Variable debug global redis : bool.
Variable u_key : N -> bytes.
Variable u_sign : N -> bytes -> bytes.
Variable u_topics : N -> list N.
Variable deser : bytes -> option message.
Variable dec_users : bytes -> option direct_map.
Variable dec_topics : bytes -> option topic_map.
Variable valid : N -> bool.
Variable enc_users : direct_map -> bytes.
Variable enc_topics : topic_map -> bytes.
Notation l_step := (l_step pk_deser pk_ser verify debug global redis u_key u_sign u_topics).
Notation l_run := (l_run pk_deser pk_ser verify debug global redis u_key u_sign u_topics).
Notation l_admits := (l_admits pk_deser pk_ser verify debug global redis u_key u_sign u_topics).
Notation n_step := (n_step deser dec_users dec_topics valid enc_users enc_topics).
Notation n_run := (n_run deser dec_users dec_topics valid enc_users enc_topics).
Notation s_step := (s_step pk_deser pk_ser verify debug global redis u_key u_sign u_topics deser dec_users dec_topics valid enc_users enc_topics).
Notation s_run := (s_run pk_deser pk_ser verify debug global redis u_key u_sign u_topics deser dec_users dec_topics valid enc_users enc_topics).
Notation net_of := (net_of pk_deser pk_ser verify debug global redis u_key u_sign u_topics).
Notation net_events := (net_events pk_deser pk_ser verify debug global redis u_key u_sign u_topics).
Notation broker_at := (broker_at deser dec_users dec_topics valid).
Notation fresh_pair := (fresh_pair deser dec_users dec_topics valid).

(** * What the network sees *)
Lemma s_net_of s es : s_net (fold_left s_step es s) = fold_left n_step (net_of (s_login s) es) (s_net s).
Proof.
  revert s. induction es as [|e es IH]; intros s; [done|]. cbn [fold_left]. rewrite IH. destruct e as [e h hh|e].
  - cbn. destruct (l_step (s_login s) e) as [l r]. cbn. by destruct (register e r h hh).
  - by destruct e.
Qed.
Lemma s_net_events es : s_net (s_run es) = n_run (net_events es).
Proof. apply s_net_of. Qed.
Definition no_user (e : nevent) : Prop := match e with NUser _ _ _ _ _ _ => False | _ => True end.
Lemma net_of_app l es ns : Forall no_user ns -> net_of l (es ++ map SNet ns) = net_of l es ++ ns.
Proof.
  intros Hns. revert l. induction es as [|e es IH]; intros l; cbn [app].
  - induction Hns as [|e ns He _ IHn]; [done|]. destruct e; [done|..]; cbn; by rewrite IHn.
  - destruct e as [e h hh|e]; cbn; [by rewrite IH, app_assoc|]. destruct e; cbn; by rewrite IH.
Qed.
Lemma net_events_app es ns : Forall no_user ns -> net_events (es ++ map SNet ns) = net_events es ++ ns.
Proof. apply net_of_app. Qed.

(** * A login that succeeds registers the user *)
Lemma logins_split es ls1 e ls2 : logins es = ls1 ++ e :: ls2 -> exists es1 x xx es2, es = es1 ++ SLogin e x xx :: es2 /\ logins es1 = ls1.
Proof.
  revert ls1. induction es as [|y es IH]; intros ls1; [by destruct ls1|]. destruct y as [e' h hh|y]; cbn.
  - destruct ls1 as [|e1 ls1]; cbn; intros Heq; injection Heq as -> Heq.
    + by exists [], h, hh, es.
    + destruct (IH _ Heq) as (es1 & x & xx & es2 & -> & <-). by exists (SLogin e1 h hh :: es1), x, xx, es2.
  - intros Heq. destruct (IH _ Heq) as (es1 & x & xx & es2 & -> & <-). by exists (SNet y :: es1), x, xx, es2.
Qed.
Lemma trace_fold ns n b e : In e (trace n b) -> In e (trace (fold_left n_step ns n) b).
Proof.
  revert n. induction ns as [|x ns IH]; intros n Hin; [done|]. cbn. apply IH.
  destruct (trace_step deser dec_users dec_topics valid enc_users enc_topics n x b) as [->|[ev ->]]; [done|apply in_app_iff; by left].
Qed.
Lemma login_registers es ls1 ls2 c b k ts :
  logins es = ls1 ++ LBrokerTopics c :: ls2 -> l_admits ls1 (LBrokerTopics c) = Some (b, k, ts) ->
  (forall es1 x xx es2, es = es1 ++ SLogin (LBrokerTopics c) x xx :: es2 -> fresh_pair (s_net (s_run es1)) b x xx c) ->
  exists x xx, In (SLogin (LBrokerTopics c) x xx) es /\ In (EUserAuthed x xx k c ts) (trace (s_net (s_run es)) b).
Proof.
  intros Hl Ha Hfresh. destruct (logins_split _ _ _ _ Hl) as (es1 & x & xx & es2 & -> & <-). exists x, xx.
  split; [apply in_app_iff; right; by left|]. specialize (Hfresh es1 x xx es2 eq_refl).
  unfold SystemModel.s_run. rewrite fold_left_app. cbn [fold_left]. rewrite s_net_of. apply trace_fold.
  change (fold_left s_step es1 _) with (s_run es1).
  unfold LoginModel.l_admits in Ha. rewrite <- (s_login_run pk_deser pk_ser verify debug global redis u_key u_sign u_topics deser dec_users dec_topics valid enc_users enc_topics) in Ha.
  cbn. destruct (l_step (s_login (s_run es1)) (LBrokerTopics c)) as [l r]. cbn in Ha |- *. rewrite Ha. cbn.
  rewrite decide_True by done. rewrite trace_extend, decide_True by done. apply in_app_iff. right. by left.
Qed.
End sys.
