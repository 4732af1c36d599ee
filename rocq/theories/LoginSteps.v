(** What one event of a login changes, and where things come from. *)
From stdpp Require Import gmap list.
From Coq Require Import NArith Lia.
From Verif Require Import IdModel MsgModel DiscModel DiscSpec DiscProofs DiscProofs2 DiscProofs3 AuthModel AuthSpec AuthProofs LoginModel LoginSpec LoginProofs.

Ltac say := rewrite ?m_say_w, ?m_say_users, ?m_say_bconns, ?m_say_fm, ?m_say_fb, ?m_say_gm, ?m_say_gb,
  ?b_say_w, ?b_say_users, ?b_say_mconns, ?b_say_fm, ?b_say_fb, ?b_say_gm, ?b_say_gb,
  ?m_done_w, ?m_done_users, ?m_done_bconns, ?m_done_fm, ?m_done_fb, ?m_done_gm, ?m_done_gb,
  ?b_done_w, ?b_done_users, ?b_done_mconns, ?b_done_fm, ?b_done_fb, ?b_done_gm, ?b_done_gb.
(** Case analysis on one step. *)
Ltac lcases l e :=
  unfold LoginModel.l_step; destruct (broken_off l e); [try done|];
  destruct e as [u' h' now|u'|u' hb' b'|u'|u'|h' now|h'|h' now|h' now p'|hb'|hb' now|hb'|h'|hb'|h'|hb' b'|h' m'|hb' m'|now|n1 n2 b' n ttl|us]; cbn [LoginModel.l_act];
  repeat match goal with
  | |- context [match l_users l !! ?x with _ => _ end] => destruct (l_users l !! x) as [[]|] eqn:?
  | |- context [match l_mconns l !! ?x with _ => _ end] => destruct (l_mconns l !! x) as [[[|? ?] [|? ?]]|] eqn:?
  | |- context [match l_bconns l !! ?x with _ => _ end] => destruct (l_bconns l !! x) as [[? [|? ?] [|? ?]]|] eqn:?
  | |- context [match w_marshal (l_w l) !! ?x with _ => _ end] => destruct (w_marshal (l_w l) !! x) as [[]|] eqn:?
  | |- context [match w_broker (l_w l) !! ?x with _ => _ end] => destruct (w_broker (l_w l) !! x) as [[]|] eqn:?
  | |- context [decide ?x] => destruct (decide x)
  | |- context [if read_accept ?x then _ else _] => destruct (read_accept x) eqn:?
  end; try done; cbn [fst];
  try match goal with |- context [if (AuthModel.a_step ?a ?b ?c ?d ?e ?f ?g ?h).2 then _ else _] => destruct (AuthModel.a_step a b c d e f g h).2 end.

Section login.
Context {pk : Type} `{EqDecision pk}.
Variable pk_deser : bytes -> option pk.
Variable pk_ser : pk -> option bytes.
Variable verify : pk -> bytes -> bytes -> bool.
Variable debug global redis : bool.
Variable u_key : N -> bytes.
Variable u_sign : N -> bytes -> bytes.
Variable u_topics : N -> list N.
Notation a_step := (a_step pk_deser pk_ser verify debug global redis).
Notation a_run := (a_run pk_deser pk_ser verify debug global redis).
Notation act := (act pk_deser pk_ser verify debug global redis).
Notation l_act := (l_act pk_deser pk_ser verify debug global redis u_key u_sign u_topics).
Notation l_step := (l_step pk_deser pk_ser verify debug global redis u_key u_sign u_topics).
Notation l_run := (l_run pk_deser pk_ser verify debug global redis u_key u_sign u_topics).
Notation l_admits := (l_admits pk_deser pk_ser verify debug global redis u_key u_sign u_topics).
Notation d_answer := (d_answer global redis).
Notation d_whitelisted := (d_whitelisted global redis).
Notation d_least := (d_least global redis).
Notation d_issue_ok := (d_issue_ok global redis).
Notation request := (request u_key u_sign).
Notation l_w_step := (l_w_step pk_deser pk_ser verify debug global redis u_key u_sign u_topics).

Definition u_actor (e : lev) : option N :=
  match e with LStart u _ _ | LUserPermit u | LDial u _ _ | LUserAccepted u | LGiveUp u => Some u | _ => None end.

Lemma gone_m_step l e : (forall h, e <> LDropM h) -> l_gone_m (l_step l e).1 = l_gone_m l.
Proof. intros He. lcases l e; say; try done. by destruct (He h'). Qed.
Lemma gone_b_step l e : (forall h, e <> LDropB h) -> l_gone_b (l_step l e).1 = l_gone_b l.
Proof. intros He. lcases l e; say; try done. by destruct (He hb'). Qed.
Lemma gone_m_other l e h : e <> LDropM h -> h ∈ l_gone_m (l_step l e).1 <-> h ∈ l_gone_m l.
Proof. intros He. lcases l e; say; try done. cbn. set_solver. Qed.
Lemma gone_b_other l e h : e <> LDropB h -> h ∈ l_gone_b (l_step l e).1 <-> h ∈ l_gone_b l.
Proof. intros He. lcases l e; say; try done. cbn. set_solver. Qed.
Lemma foreign_m_other l e h : e <> LForeignM h -> h ∈ l_foreign_m (l_step l e).1 <-> h ∈ l_foreign_m l.
Proof. intros He. lcases l e; say; try done. cbn. set_solver. Qed.
Lemma foreign_b_other l e h : (forall b, e <> LForeignB h b) -> h ∈ l_foreign_b (l_step l e).1 <-> h ∈ l_foreign_b l.
Proof. intros He. lcases l e; say; try done. cbn. specialize (He b'). set_solver. Qed.
Lemma users_other l e u : u_actor e <> Some u -> l_users (l_step l e).1 !! u = l_users l !! u.
Proof. intros He. lcases l e; say; try done; cbn in *; by rewrite lookup_insert_ne by congruence. Qed.
Lemma mconns_other l e h :
  m_handler e <> Some h -> (forall u now, e <> LStart u h now) -> e <> LForeignM h ->
  (forall u, e = LUserPermit u -> l_users l !! u <> Some (UWaitMarshal h)) -> h ∉ l_foreign_m l ->
  l_mconns (l_step l e).1 !! h = l_mconns l !! h.
Proof.
  intros H1 H2 H3 H4 H5. lcases l e; say; try done; cbn in *.
  all: try (assert (h' <> h) by (intros ->; first [by destruct (H2 u' now)|by destruct (H4 u')|by destruct H1|by destruct H3|by destruct H5]);
    rewrite ?m_done_ne, ?m_say_ne by done; cbn; rewrite ?lookup_insert_ne by done; done).
  all: rewrite lookup_insert_ne; [done|]; intros ->; by apply (H4 u' eq_refl).
Qed.
Lemma bconns_other l e h :
  b_handler e <> Some h -> (forall u b, e <> LDial u h b) -> (forall b, e <> LForeignB h b) ->
  (forall u, e = LUserAccepted u -> l_users l !! u <> Some (UWaitBroker h)) -> h ∉ l_foreign_b l ->
  l_bconns (l_step l e).1 !! h = l_bconns l !! h.
Proof.
  intros H1 H2 H3 H4 H5. lcases l e; say; try done; cbn in *.
  all: try (assert (hb' <> h) by (intros ->; first [by destruct (H2 u' b')|by destruct H1|by destruct (H3 b')|by destruct H5]);
    rewrite ?b_done_ne, ?b_say_ne by done; cbn; rewrite ?lookup_insert_ne by done; done).
  all: rewrite lookup_insert_ne; [done|]; intros ->; by apply (H4 u' eq_refl).
Qed.
Lemma under_actors l e a : under l e = Some a -> m_actor a = m_handler e /\ b_actor a = b_handler e.
Proof.
  unfold under. destruct (broken_off l e); [done|].
  destruct e as [u' h' now|u'|u' hb' b'|u'|u'|h' now|h'|h' now|h' now p'|hb'|hb' now|hb'|h'|hb'|h'|hb' b'|h' m'|hb' m'|now|n1 n2 b' n ttl|us];
  repeat match goal with
  | |- context [match l_mconns l !! ?x with _ => _ end] => destruct (l_mconns l !! x) as [[[|? ?] [|? ?]]|]
  | |- context [match l_bconns l !! ?x with _ => _ end] => destruct (l_bconns l !! x) as [[? [|? ?] [|? ?]]|]
  | |- context [match w_marshal (l_w l) !! ?x with _ => _ end] => destruct (w_marshal (l_w l) !! x) as [[]|]
  | |- context [match w_broker (l_w l) !! ?x with _ => _ end] => destruct (w_broker (l_w l) !! x) as [[]|]
  end; try done; by intros [= <-].
Qed.
Lemma w_marshal_other l e h : m_handler e <> Some h -> w_marshal (l_w (l_step l e).1) !! h = w_marshal (l_w l) !! h.
Proof.
  intros He. rewrite l_w_step. destruct (under l e) as [a|] eqn:E; [|done]. apply under_actors in E as [E _].
  apply m_step_other. congruence.
Qed.
Lemma w_broker_other l e h : b_handler e <> Some h -> w_broker (l_w (l_step l e).1) !! h = w_broker (l_w l) !! h.
Proof.
  intros He. rewrite l_w_step. destruct (under l e) as [a|] eqn:E; [|done]. apply under_actors in E as [_ E].
  apply b_step_other. congruence.
Qed.

End login.
