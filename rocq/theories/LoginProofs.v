(** Lemmas on whole logins. *)
From stdpp Require Import gmap list.
From Coq Require Import NArith Lia.
From Verif Require Import IdModel MsgModel DiscModel DiscSpec DiscProofs DiscProofs2 DiscProofs3 AuthModel AuthSpec AuthProofs LoginModel LoginSpec.

Section login.
Context {pk : Type} `{EqDecision pk}.
Variable pk_deser : bytes -> option pk.
Variable pk_ser : pk -> option bytes.
Variable verify : pk -> bytes -> bytes -> bool.
Variable debug global redis : bool.
Variable u_key : N -> bytes.
Variable u_sign : N -> bytes -> bytes.
Variable u_topics : N -> list N.
Notation a_step := (a_step pk_deser pk_ser verify debug global redis).
Notation a_run := (a_run pk_deser pk_ser verify debug global redis).
Notation a_admits := (a_admits pk_deser pk_ser verify debug global redis).
Notation act := (act pk_deser pk_ser verify debug global redis).
Notation l_act := (l_act pk_deser pk_ser verify debug global redis u_key u_sign u_topics).
Notation l_step := (l_step pk_deser pk_ser verify debug global redis u_key u_sign u_topics).
Notation l_run := (l_run pk_deser pk_ser verify debug global redis u_key u_sign u_topics).
Notation l_admits := (l_admits pk_deser pk_ser verify debug global redis u_key u_sign u_topics).
Notation d_answer := (d_answer global redis).
Notation d_whitelisted := (d_whitelisted global redis).
Notation d_least := (d_least global redis).
Notation d_issue_ok := (d_issue_ok global redis).
Notation request := (request u_key u_sign).

Lemma l_run_snoc es e : l_run (es ++ [e]) = (l_step (l_run es) e).1.
Proof. unfold LoginModel.l_run. by rewrite fold_left_app. Qed.

(** * Sending changes the queue only *)
Lemma m_say_w h m l : l_w (m_say h m l) = l_w l.
Proof. unfold m_say. by destruct (l_mconns l !! h). Qed.
Lemma m_say_users h m l : l_users (m_say h m l) = l_users l.
Proof. unfold m_say. by destruct (l_mconns l !! h). Qed.
Lemma m_say_bconns h m l : l_bconns (m_say h m l) = l_bconns l.
Proof. unfold m_say. by destruct (l_mconns l !! h). Qed.
Lemma m_say_fm h m l : l_foreign_m (m_say h m l) = l_foreign_m l.
Proof. unfold m_say. by destruct (l_mconns l !! h). Qed.
Lemma m_say_fb h m l : l_foreign_b (m_say h m l) = l_foreign_b l.
Proof. unfold m_say. by destruct (l_mconns l !! h). Qed.
Lemma m_say_gm h m l : l_gone_m (m_say h m l) = l_gone_m l.
Proof. unfold m_say. by destruct (l_mconns l !! h). Qed.
Lemma m_say_gb h m l : l_gone_b (m_say h m l) = l_gone_b l.
Proof. unfold m_say. by destruct (l_mconns l !! h). Qed.
Lemma m_say_ne h m l h' : h' <> h -> l_mconns (m_say h m l) !! h' = l_mconns l !! h'.
Proof. intros Hn. unfold m_say. destruct (l_mconns l !! h); [|done]. cbn. by rewrite lookup_insert_ne. Qed.
Lemma m_say_eq h m l c : l_mconns l !! h = Some c -> l_mconns (m_say h m l) !! h = Some (MConn (mc_in c) (mc_out c ++ [m])).
Proof. intros Hc. unfold m_say. rewrite Hc. cbn. by rewrite lookup_insert. Qed.
Lemma b_say_w h m l : l_w (b_say h m l) = l_w l.
Proof. unfold b_say. by destruct (l_bconns l !! h). Qed.
Lemma b_say_users h m l : l_users (b_say h m l) = l_users l.
Proof. unfold b_say. by destruct (l_bconns l !! h). Qed.
Lemma b_say_mconns h m l : l_mconns (b_say h m l) = l_mconns l.
Proof. unfold b_say. by destruct (l_bconns l !! h). Qed.
Lemma b_say_fm h m l : l_foreign_m (b_say h m l) = l_foreign_m l.
Proof. unfold b_say. by destruct (l_bconns l !! h). Qed.
Lemma b_say_fb h m l : l_foreign_b (b_say h m l) = l_foreign_b l.
Proof. unfold b_say. by destruct (l_bconns l !! h). Qed.
Lemma b_say_gm h m l : l_gone_m (b_say h m l) = l_gone_m l.
Proof. unfold b_say. by destruct (l_bconns l !! h). Qed.
Lemma b_say_gb h m l : l_gone_b (b_say h m l) = l_gone_b l.
Proof. unfold b_say. by destruct (l_bconns l !! h). Qed.
Lemma b_say_ne h m l h' : h' <> h -> l_bconns (b_say h m l) !! h' = l_bconns l !! h'.
Proof. intros Hn. unfold b_say. destruct (l_bconns l !! h); [|done]. cbn. by rewrite lookup_insert_ne. Qed.
Lemma b_say_eq h m l c : l_bconns l !! h = Some c -> l_bconns (b_say h m l) !! h = Some (BConn (bc_broker c) (bc_in c) (bc_out c ++ [m])).
Proof. intros Hc. unfold b_say. rewrite Hc. cbn. by rewrite lookup_insert. Qed.

Lemma m_done_w h l : l_w (m_done h l) = l_w l.
Proof. unfold m_done. destruct (w_marshal (l_w l) !! h) as [[]|]; try done. apply m_say_w. Qed.
Lemma m_done_users h l : l_users (m_done h l) = l_users l.
Proof. unfold m_done. destruct (w_marshal (l_w l) !! h) as [[]|]; try done. apply m_say_users. Qed.
Lemma m_done_fm h l : l_foreign_m (m_done h l) = l_foreign_m l.
Proof. unfold m_done. destruct (w_marshal (l_w l) !! h) as [[]|]; try done. apply m_say_fm. Qed.
Lemma m_done_fb h l : l_foreign_b (m_done h l) = l_foreign_b l.
Proof. unfold m_done. destruct (w_marshal (l_w l) !! h) as [[]|]; try done. apply m_say_fb. Qed.
Lemma m_done_gm h l : l_gone_m (m_done h l) = l_gone_m l.
Proof. unfold m_done. destruct (w_marshal (l_w l) !! h) as [[]|]; try done. apply m_say_gm. Qed.
Lemma m_done_gb h l : l_gone_b (m_done h l) = l_gone_b l.
Proof. unfold m_done. destruct (w_marshal (l_w l) !! h) as [[]|]; try done. apply m_say_gb. Qed.
Lemma m_done_bconns h l : l_bconns (m_done h l) = l_bconns l.
Proof. unfold m_done. destruct (w_marshal (l_w l) !! h) as [[]|]; try done. apply m_say_bconns. Qed.
Lemma m_done_ne h l h' : h' <> h -> l_mconns (m_done h l) !! h' = l_mconns l !! h'.
Proof. intros Hn. unfold m_done. destruct (w_marshal (l_w l) !! h) as [[]|]; try done. by apply m_say_ne. Qed.
Lemma b_done_w h l : l_w (b_done h l) = l_w l.
Proof. unfold b_done. destruct (w_broker (l_w l) !! h) as [[]|]; try done. apply b_say_w. Qed.
Lemma b_done_users h l : l_users (b_done h l) = l_users l.
Proof. unfold b_done. destruct (w_broker (l_w l) !! h) as [[]|]; try done. apply b_say_users. Qed.
Lemma b_done_fm h l : l_foreign_m (b_done h l) = l_foreign_m l.
Proof. unfold b_done. destruct (w_broker (l_w l) !! h) as [[]|]; try done. apply b_say_fm. Qed.
Lemma b_done_fb h l : l_foreign_b (b_done h l) = l_foreign_b l.
Proof. unfold b_done. destruct (w_broker (l_w l) !! h) as [[]|]; try done. apply b_say_fb. Qed.
Lemma b_done_gm h l : l_gone_m (b_done h l) = l_gone_m l.
Proof. unfold b_done. destruct (w_broker (l_w l) !! h) as [[]|]; try done. apply b_say_gm. Qed.
Lemma b_done_gb h l : l_gone_b (b_done h l) = l_gone_b l.
Proof. unfold b_done. destruct (w_broker (l_w l) !! h) as [[]|]; try done. apply b_say_gb. Qed.
Lemma b_done_mconns h l : l_mconns (b_done h l) = l_mconns l.
Proof. unfold b_done. destruct (w_broker (l_w l) !! h) as [[]|]; try done. apply b_say_mconns. Qed.
Lemma b_done_ne h l h' : h' <> h -> l_bconns (b_done h l) !! h' = l_bconns l !! h'.
Proof. intros Hn. unfold b_done. destruct (w_broker (l_w l) !! h) as [[]|]; try done. by apply b_say_ne. Qed.

(** * The step of AuthModel.v made by an event *)
Definition under (l : lworld) (e : lev) : option aev :=
  if broken_off l e then None else
  match e with
  | LMarshalRecv h now =>
      match w_marshal (l_w l) !! h, l_mconns l !! h with None, Some (MConn (m :: _) _) => Some (AMarshalRecv h now m) | _, _ => None end
  | LMarshalWhitelist h => match w_marshal (l_w l) !! h with Some (MChecked _ _) => Some (AMarshalWhitelist h) | _ => None end
  | LMarshalPlace h now => match w_marshal (l_w l) !! h with Some (MAllowed _) => Some (AMarshalPlace h now) | _ => None end
  | LMarshalIssue h now p => match w_marshal (l_w l) !! h with Some (MPlaced _ _) => Some (AMarshalIssue h now p) | _ => None end
  | LBrokerRecv hb =>
      match w_broker (l_w l) !! hb, l_bconns l !! hb with None, Some (BConn b (m :: _) _) => Some (ABrokerRecv hb b m) | _, _ => None end
  | LBrokerValidate hb now => match w_broker (l_w l) !! hb with Some (BValidate _ _) => Some (ABrokerValidate hb now) | _ => None end
  | LBrokerTopics hb =>
      match w_broker (l_w l) !! hb, l_bconns l !! hb with Some (BTopics _ _), Some (BConn _ (m :: _) _) => Some (ABrokerTopics hb m) | _, _ => None end
  | LClean now => Some (AClean now)
  | LHeartbeat n1 n2 b n ttl => Some (AHeartbeat n1 n2 b n ttl)
  | LSetWhitelist us => Some (ASetWhitelist us)
  | _ => None
  end.
Lemma l_w_step l e : l_w (l_step l e).1 = match under l e with Some a => (a_step (l_w l) a).1 | None => l_w l end.
Proof.
  unfold LoginModel.l_step, under. destruct (broken_off l e); [done|].
  destruct e as [u h now|u|u hb b|u|u|h now|h|h now|h now p|hb|hb now|hb|h|hb|h|hb b|h m|hb m|now|n1 n2 b n ttl|us]; cbn [LoginModel.l_act].
  - by destruct (l_users l !! u) as [[]|], (l_mconns l !! h) as [[]|].
  - destruct (l_users l !! u) as [[]|]; try done. by destruct (l_mconns l !! h) as [[i [|m o]]|].
  - destruct (l_users l !! u) as [[]|], (l_bconns l !! hb) as [[]|]; try done. by case_decide.
  - destruct (l_users l !! u) as [[]|]; try done. destruct (l_bconns l !! hb) as [[b i [|m o]]|]; try done. by destruct (read_accept m).
  - by destruct (l_users l !! u) as [[]|].
  - destruct (w_marshal (l_w l) !! h) as [[]|], (l_mconns l !! h) as [[[|m i] o]|]; try done.
    cbn [fst]. by rewrite m_done_w.
  - destruct (w_marshal (l_w l) !! h) as [[]|]; try done.
    cbn [fst]. by rewrite m_done_w.
  - destruct (w_marshal (l_w l) !! h) as [[]|]; try done.
    cbn [fst]. by rewrite m_done_w.
  - destruct (w_marshal (l_w l) !! h) as [[]|]; try done. cbn [fst]. by rewrite m_say_w.
  - destruct (w_broker (l_w l) !! hb) as [[]|], (l_bconns l !! hb) as [[b' [|m i] o]|]; try done.
    cbn [fst]. by rewrite b_done_w.
  - destruct (w_broker (l_w l) !! hb) as [[]|]; try done. cbn [fst]. by rewrite b_say_w.
  - destruct (w_broker (l_w l) !! hb) as [[]|], (l_bconns l !! hb) as [[b' [|m i] o]|]; try done.
    cbn [fst]. match goal with |- l_w (if ?x then _ else _) = _ => destruct x end; [done|]. by rewrite b_say_w.
  - done.
  - done.
  - by destruct (l_mconns l !! h).
  - by destruct (l_bconns l !! hb).
  - destruct (l_mconns l !! h); [|done]. by case_decide.
  - destruct (l_bconns l !! hb); [|done]. by case_decide.
  - done.
  - done.
  - done.
Qed.
(** The registration, too, is that of AuthModel.v. *)
Lemma l_out_step l e : (l_step l e).2 = match e, under l e with LBrokerTopics _, Some a => (a_step (l_w l) a).2 | _, _ => None end.
Proof.
  unfold LoginModel.l_step, under. destruct (broken_off l e) eqn:Eb; [destruct e; try reflexivity; cbn [snd]; by rewrite ?Eb|].
  destruct e as [u h now|u|u hb b|u|u|h now|h|h now|h now p|hb|hb now|hb|h|hb|h|hb b|h m|hb m|now|n1 n2 b n ttl|us]; cbn [LoginModel.l_act].
  - by destruct (l_users l !! u) as [[]|], (l_mconns l !! h) as [[]|].
  - destruct (l_users l !! u) as [[]|]; try done. by destruct (l_mconns l !! h) as [[i [|m o]]|].
  - destruct (l_users l !! u) as [[]|], (l_bconns l !! hb) as [[]|]; try done. by case_decide.
  - destruct (l_users l !! u) as [[]|]; try done. destruct (l_bconns l !! hb) as [[b i [|m o]]|]; try done. by destruct (read_accept m).
  - by destruct (l_users l !! u) as [[]|].
  - by destruct (w_marshal (l_w l) !! h) as [[]|], (l_mconns l !! h) as [[[|m i] o]|].
  - by destruct (w_marshal (l_w l) !! h) as [[]|].
  - by destruct (w_marshal (l_w l) !! h) as [[]|].
  - by destruct (w_marshal (l_w l) !! h) as [[]|].
  - by destruct (w_broker (l_w l) !! hb) as [[]|], (l_bconns l !! hb) as [[b' [|m i] o]|].
  - by destruct (w_broker (l_w l) !! hb) as [[]|].
  - rewrite Eb. by destruct (w_broker (l_w l) !! hb) as [[]|], (l_bconns l !! hb) as [[b' [|m i] o]|].
  - done.
  - done.
  - by destruct (l_mconns l !! h).
  - by destruct (l_bconns l !! hb).
  - destruct (l_mconns l !! h); [|done]. by case_decide.
  - destruct (l_bconns l !! hb); [|done]. by case_decide.
  - done.
  - done.
  - done.
Qed.

(** The history of AuthModel.v. *)
Fixpoint trace_from (l : lworld) (es : list lev) : list aev :=
  match es with
  | [] => []
  | e :: es' => match under l e with Some a => [a] | None => [] end ++ trace_from (l_step l e).1 es'
  end.
Definition trace (es : list lev) : list aev := trace_from lworld0 es.
Lemma trace_from_app l es1 es2 : trace_from l (es1 ++ es2) = trace_from l es1 ++ trace_from (fold_left (fun l e => (l_step l e).1) es1 l) es2.
Proof. revert l; induction es1 as [|e es1 IH]; intros l; cbn; [done|]. by rewrite IH, app_assoc. Qed.
Lemma trace_snoc es e : trace (es ++ [e]) = trace es ++ match under (l_run es) e with Some a => [a] | None => [] end.
Proof. unfold trace. rewrite trace_from_app. cbn. by rewrite app_nil_r. Qed.
Lemma l_w_run es : l_w (l_run es) = a_run (trace es).
Proof.
  induction es as [|e es IH] using rev_ind; [done|]. rewrite l_run_snoc, l_w_step, trace_snoc.
  destruct (under (l_run es) e) as [a|]; [|by rewrite app_nil_r]. by rewrite a_run_snoc, IH.
Qed.
End login.
