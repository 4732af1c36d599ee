(** What one event of a login changes, and where things come from. *)
From stdpp Require Import gmap list.
From Coq Require Import NArith Lia.
From Verif Require Import IdModel MsgModel DiscModel DiscSpec DiscProofs DiscProofs2 DiscProofs3 AuthModel AuthSpec AuthProofs LoginModel LoginSpec LoginProofs LoginSteps.

Section login.
Context {pk : Type} `{EqDecision pk}.
Variable pk_deser : bytes -> option pk.
Variable pk_ser : pk -> option bytes.
Variable verify : pk -> bytes -> bytes -> bool.
Variable debug global redis : bool.
Variable u_key : N -> bytes.
Variable u_sign : N -> bytes -> bytes.
Variable u_topics : N -> list N.
Notation a_step := (a_step pk_deser pk_ser verify debug global redis).
Notation a_run := (a_run pk_deser pk_ser verify debug global redis).
Notation act := (act pk_deser pk_ser verify debug global redis).
Notation l_act := (l_act pk_deser pk_ser verify debug global redis u_key u_sign u_topics).
Notation l_step := (l_step pk_deser pk_ser verify debug global redis u_key u_sign u_topics).
Notation l_run := (l_run pk_deser pk_ser verify debug global redis u_key u_sign u_topics).
Notation l_admits := (l_admits pk_deser pk_ser verify debug global redis u_key u_sign u_topics).
Notation d_answer := (d_answer global redis).
Notation d_whitelisted := (d_whitelisted global redis).
Notation d_least := (d_least global redis).
Notation d_issue_ok := (d_issue_ok global redis).
Notation request := (request u_key u_sign).
Notation l_w_step := (l_w_step pk_deser pk_ser verify debug global redis u_key u_sign u_topics).

(** * Where things come from *)
Lemma read_grant_inv m ep p : read_grant m = Some (ep, p) -> m = MAuthResponse p ep /\ (1 < p)%N.
Proof. destruct m; cbn; try done. destruct (N.ltb_spec 1 permit); [|done]. by intros [= <- <-]. Qed.
Lemma read_accept_inv m : read_accept m = true -> exists ctx, m = MAuthResponse 1 ctx.
Proof. destruct m; cbn; try done. intros ->%N.eqb_eq. eauto. Qed.

Lemma user_step l e u s : l_users (l_step l e).1 !! u = Some s ->
  l_users l !! u = Some s \/
  match s with
  | UWaitMarshal h => exists now, e = LStart u h now /\ l_mconns l !! h = None /\ (l_users l !! u = None \/ l_users l !! u = Some UFailed)
  | UGranted ep p => e = LUserPermit u /\ exists h c, l_users l !! u = Some (UWaitMarshal h) /\ l_mconns l !! h = Some c
      /\ In (MAuthResponse p ep) (mc_out c) /\ (1 < p)%N
  | UWaitBroker hb => exists b ep p, e = LDial u hb b /\ l_users l !! u = Some (UGranted ep p) /\ l_bconns l !! hb = None /\ bpub b = ep
  | UConnected hb => e = LUserAccepted u /\ l_users l !! u = Some (UWaitBroker hb)
      /\ exists c ctx, l_bconns l !! hb = Some c /\ In (MAuthResponse 1 ctx) (bc_out c)
  | UFailed => True
  end.
Proof.
  destruct (decide (u_actor e = Some u)) as [Ha|Ha]; [|rewrite users_other by done; by left].
  lcases l e; say; cbn in *; try done; try (by left); injection Ha as ->; rewrite lookup_insert; intros [= <-]; right; eauto 10.
  all: try (match goal with |- context [read_grant ?m] => destruct (read_grant m) as [[ep p]|] eqn:Er end; [|done]; apply read_grant_inv in Er as [-> ?];
    split; [done|]; eexists _, _; split; [done|]; split; [done|]; split; [by left|done]).
  all: match goal with Hr : read_accept _ = true |- _ => apply read_accept_inv in Hr as [ctx ->] end;
    split; [done|]; split; [done|]; eexists _, ctx; split; [done|by left].
Qed.

Lemma m_say_out h m l h' c m' : l_mconns (m_say h m l) !! h' = Some c -> In m' (mc_out c) ->
  (exists c0, l_mconns l !! h' = Some c0 /\ In m' (mc_out c0)) \/ (h' = h /\ m' = m).
Proof.
  destruct (decide (h' = h)) as [->|Hn]; [|rewrite m_say_ne by done; eauto].
  destruct (l_mconns l !! h) as [c0|] eqn:E.
  - rewrite (m_say_eq _ _ _ _ E). intros [= <-]. cbn. rewrite in_app_iff. intros [Hi|[->|[]]]; eauto.
  - unfold m_say. rewrite E. rewrite E. done.
Qed.
Lemma m_done_out h l h' c m' : l_mconns (m_done h l) !! h' = Some c -> In m' (mc_out c) ->
  (exists c0, l_mconns l !! h' = Some c0 /\ In m' (mc_out c0)) \/ (h' = h /\ m' = refusal).
Proof. unfold m_done. destruct (w_marshal (l_w l) !! h) as [[]|]; eauto using m_say_out. Qed.
Lemma b_say_out h m l h' c m' : l_bconns (b_say h m l) !! h' = Some c -> In m' (bc_out c) ->
  (exists c0, l_bconns l !! h' = Some c0 /\ In m' (bc_out c0)) \/ (h' = h /\ m' = m).
Proof.
  destruct (decide (h' = h)) as [->|Hn]; [|rewrite b_say_ne by done; eauto].
  destruct (l_bconns l !! h) as [c0|] eqn:E.
  - rewrite (b_say_eq _ _ _ _ E). intros [= <-]. cbn. rewrite in_app_iff. intros [Hi|[->|[]]]; eauto.
  - unfold b_say. rewrite E. rewrite E. done.
Qed.
Lemma b_say_in h m l h' c : l_bconns (b_say h m l) !! h' = Some c ->
  exists c0, l_bconns l !! h' = Some c0 /\ bc_in c0 = bc_in c /\ bc_broker c0 = bc_broker c.
Proof.
  destruct (decide (h' = h)) as [->|Hn]; [|rewrite b_say_ne by done; eauto].
  destruct (l_bconns l !! h) as [c0|] eqn:E.
  - rewrite (b_say_eq _ _ _ _ E). intros [= <-]. eauto.
  - unfold b_say. rewrite E. rewrite E. done.
Qed.
Lemma b_done_out h l h' c m' : l_bconns (b_done h l) !! h' = Some c -> In m' (bc_out c) ->
  (exists c0, l_bconns l !! h' = Some c0 /\ In m' (bc_out c0)) \/ (h' = h /\ m' = refusal).
Proof. unfold b_done. destruct (w_broker (l_w l) !! h) as [[]|]; eauto using b_say_out. Qed.
Lemma b_done_in h l h' c : l_bconns (b_done h l) !! h' = Some c ->
  exists c0, l_bconns l !! h' = Some c0 /\ bc_in c0 = bc_in c /\ bc_broker c0 = bc_broker c.
Proof. unfold b_done. destruct (w_broker (l_w l) !! h) as [[]|]; eauto using b_say_in. Qed.

Definition m_touches (e : lev) : bool :=
  match e with LStart _ _ _ | LUserPermit _ | LMarshalRecv _ _ | LMarshalWhitelist _ | LMarshalPlace _ _ | LMarshalIssue _ _ _ | LForeignM _ | LSendM _ _ => true | _ => false end.
Lemma mconns_same l e : m_touches e = false -> l_mconns (l_step l e).1 = l_mconns l.
Proof. intros He. lcases l e; say; done. Qed.

(** What the marshal says. *)
Lemma m_out_step l e h c m : l_mconns (l_step l e).1 !! h = Some c -> In m (mc_out c) ->
  (exists c0, l_mconns l !! h = Some c0 /\ In m (mc_out c0)) \/ m = refusal
  \/ (exists t p key b, e = LMarshalIssue h t p /\ m = MAuthResponse p (bpub b) /\ w_marshal (l_w l) !! h = Some (MPlaced key b)
       /\ h ∉ l_gone_m l /\ d_issue_ok (w_disc (l_w l)) p = true).
Proof.
  destruct (m_touches e) eqn:Et; [|rewrite mconns_same by done; eauto].
  unfold LoginModel.l_step. destruct (broken_off l e) eqn:Eb; [by eauto|].
  destruct e as [u' h' now|u'|u' hb' b'|u'|u'|h' now|h'|h' now|h' now p'|hb'|hb' now|hb'|h'|hb'|h'|hb' b'|h' m'|hb' m'|now|n1 n2 b' n ttl|us]; try done; cbn [LoginModel.l_act].
  - destruct (l_users l !! u') as [[]|] eqn:Eu, (l_mconns l !! h') eqn:Ec; cbn [fst]; try (by eauto); cbn;
    (destruct (decide (h' = h)) as [->|Hne]; [rewrite lookup_insert|rewrite lookup_insert_ne by done; by eauto]); intros [= <-] [].
  - destruct (l_users l !! u') as [[]|] eqn:Eu; cbn [fst]; try (by eauto).
    destruct (l_mconns l !! h0) as [[i0 [|m0 o0]]|] eqn:Ec; cbn [fst]; try (by eauto). cbn.
    destruct (decide (h0 = h)) as [->|Hne]; [rewrite lookup_insert|rewrite lookup_insert_ne by done; by eauto]. intros [= <-]; cbn; intros Hin; left; eexists; (split; [exact Ec|]); cbn; auto.
  - destruct (w_marshal (l_w l) !! h') as [s0|], (l_mconns l !! h') as [[[|m0 i0] o0]|] eqn:Ec; cbn [fst]; try (by eauto).
    intros Hc Hin. apply (m_done_out _ _ _ _ _ Hc) in Hin as [(c0 & Hc0 & Hin)|[-> ->]]; [|by auto]. left. revert Hc0 Hin. unfold LoginModel.act. cbn.
    destruct (decide (h' = h)) as [->|Hne]; [rewrite lookup_insert|rewrite lookup_insert_ne by done; by eauto]. intros [= <-] Hin. rewrite Ec. eexists; split; [done|]. cbn; auto.
  - destruct (w_marshal (l_w l) !! h') as [[]|]; cbn [fst]; try (by eauto).
    intros Hc Hin. apply (m_done_out _ _ _ _ _ Hc) in Hin as [(c0 & Hc0 & Hin)|[-> ->]]; [|by auto]. left. by exists c0.
  - destruct (w_marshal (l_w l) !! h') as [[]|]; cbn [fst]; try (by eauto).
    intros Hc Hin. apply (m_done_out _ _ _ _ _ Hc) in Hin as [(c0 & Hc0 & Hin)|[-> ->]]; [|by auto]. left. by exists c0.
  - destruct (w_marshal (l_w l) !! h') as [[]|] eqn:Ew; cbn [fst]; try (by eauto).
    intros Hc Hin. apply (m_say_out _ _ _ _ _ _ Hc) in Hin as [(c0 & Hc0 & Hin)|[-> ->]]; [left; by exists c0|].
    destruct (d_issue_ok (w_disc (l_w l)) p') eqn:Ei; [|by auto]. right. right. apply bool_decide_eq_false in Eb. eauto 10.
  - destruct (l_mconns l !! h'); cbn [fst]; [by eauto|]. cbn.
    destruct (decide (h' = h)) as [->|Hne]; [rewrite lookup_insert|rewrite lookup_insert_ne by done; by eauto]. intros [= <-] [].
  - destruct (l_mconns l !! h') as [c0|] eqn:Ec; cbn [fst]; [|by eauto]. case_decide; cbn; [|by eauto].
    destruct (decide (h' = h)) as [->|Hne]; [rewrite lookup_insert|rewrite lookup_insert_ne by done; by eauto]. intros [= <-]. cbn. left. eauto.
Qed.

Definition b_touches (e : lev) : bool :=
  match e with LDial _ _ _ | LUserAccepted _ | LBrokerRecv _ | LBrokerValidate _ _ | LBrokerTopics _ | LForeignB _ _ | LSendB _ _ => true | _ => false end.
Lemma bconns_same l e : b_touches e = false -> l_bconns (l_step l e).1 = l_bconns l.
Proof. intros He. lcases l e; say; done. Qed.

(** What is said to a broker. *)
Lemma b_in_step l e h c m : l_bconns (l_step l e).1 !! h = Some c -> In m (bc_in c) ->
  (exists c0, l_bconns l !! h = Some c0 /\ bc_broker c0 = bc_broker c /\ In m (bc_in c0))
  \/ (exists u ep p, e = LDial u h (bc_broker c) /\ m = MAuthWithPermit p /\ l_users l !! u = Some (UGranted ep p) /\ l_bconns l !! h = None /\ bpub (bc_broker c) = ep)
  \/ (exists u, e = LUserAccepted u /\ m = MSubscribe (u_topics u) /\ l_users l !! u = Some (UWaitBroker h) /\ l_users (l_step l e).1 !! u = Some (UConnected h)
       /\ (exists c0 ctx, l_bconns l !! h = Some c0 /\ bc_broker c0 = bc_broker c /\ In (MAuthResponse 1 ctx) (bc_out c0)))
  \/ (e = LSendB h m /\ h ∈ l_foreign_b l).
Proof.
  destruct (b_touches e) eqn:Et; [|rewrite bconns_same by done; eauto].
  unfold LoginModel.l_step. destruct (broken_off l e); [by eauto|].
  destruct e as [u' h' now|u'|u' hb' b'|u'|u'|h' now|h'|h' now|h' now p'|hb'|hb' now|hb'|h'|hb'|h'|hb' b'|h' m'|hb' m'|now|n1 n2 b' n ttl|us]; try done; cbn [LoginModel.l_act].
  - destruct (l_users l !! u') as [[]|] eqn:Eu, (l_bconns l !! hb') eqn:Ec; cbn [fst]; try (by eauto). case_decide; cbn; [|by eauto].
    destruct (decide (hb' = h)) as [->|Hne]; [rewrite lookup_insert|rewrite lookup_insert_ne by done; by eauto].
    intros [= <-] [<-|[]]. right. left. eauto 12.
  - destruct (l_users l !! u') as [[]|] eqn:Eu; cbn [fst]; try (by eauto).
    destruct (l_bconns l !! hb) as [[b0 i0 [|m0 o0]]|] eqn:Ec; cbn [fst]; try (by eauto).
    destruct (read_accept m0) eqn:Er; cbn;
    (destruct (decide (hb = h)) as [->|Hne]; [rewrite lookup_insert|rewrite lookup_insert_ne by done; by eauto]); intros [= <-]; cbn; rewrite ?in_app_iff.
    + apply read_accept_inv in Er as [ctx ->]. intros [Hin|[<-|[]]]; [left; eauto|]. right. right. left. exists u'.
      split; [done|]. split; [done|]. split; [done|]. split; [by rewrite lookup_insert|]. eexists _, ctx. split; [exact Ec|]. split; [done|by left].
    + intros Hin. left. eauto.
  - destruct (w_broker (l_w l) !! hb') as [s0|], (l_bconns l !! hb') as [[b0 [|m0 i0] o0]|] eqn:Ec; cbn [fst]; try (by eauto).
    intros (c0 & Hc0 & <- & <-)%b_done_in Hin. left. revert Hc0 Hin. unfold LoginModel.act. cbn.
    destruct (decide (hb' = h)) as [->|Hne]; [rewrite lookup_insert|rewrite lookup_insert_ne by done; by eauto]. intros [= <-] Hin. rewrite Ec. eexists; split; [done|]. cbn; auto.
  - destruct (w_broker (l_w l) !! hb') as [[]|]; cbn [fst]; try (by eauto).
    intros (c0 & Hc0 & <- & <-)%b_say_in Hin. left. eauto.
  - destruct (w_broker (l_w l) !! hb') as [[]|], (l_bconns l !! hb') as [[b0 [|m0 i0] o0]|] eqn:Ec; cbn [fst]; try (by eauto).
    destruct (a_step (l_w l) (ABrokerTopics hb' m0)).2; [unfold LoginModel.act; cbn; intros Hc0 Hin|intros (c0 & Hc0 & <- & <-)%b_say_in Hin];
      left; revert Hc0 Hin; unfold LoginModel.act; cbn;
      (destruct (decide (hb' = h)) as [->|Hne]; [rewrite lookup_insert|rewrite lookup_insert_ne by done; by eauto]); intros [= <-] Hin; rewrite Ec; eexists; (split; [done|]); cbn in *; auto.
  - destruct (l_bconns l !! hb'); cbn [fst]; [by eauto|]. cbn.
    destruct (decide (hb' = h)) as [->|Hne]; [rewrite lookup_insert|rewrite lookup_insert_ne by done; by eauto]. intros [= <-] [].
  - destruct (l_bconns l !! hb') as [c0|] eqn:Ec; cbn [fst]; [|by eauto]. case_decide; cbn; [|by eauto].
    destruct (decide (hb' = h)) as [->|Hne]; [rewrite lookup_insert|rewrite lookup_insert_ne by done; by eauto]. intros [= <-]. cbn. rewrite in_app_iff.
    intros [Hin|[<-|[]]]; [left; eauto|]. right. right. right. done.
Qed.
(** What a broker says. *)
Lemma b_out_step l e h c m : l_bconns (l_step l e).1 !! h = Some c -> In m (bc_out c) ->
  (exists c0, l_bconns l !! h = Some c0 /\ bc_broker c0 = bc_broker c /\ In m (bc_out c0)) \/ m = refusal
  \/ (exists t b p k, e = LBrokerValidate h t /\ m = MAuthResponse 1 [] /\ w_broker (l_w l) !! h = Some (BValidate b p)
       /\ h ∉ l_gone_b l /\ d_answer (w_disc (l_w l)) (DTake t b p) = Some k).
Proof.
  destruct (b_touches e) eqn:Et; [|rewrite bconns_same by done; eauto].
  unfold LoginModel.l_step. destruct (broken_off l e) eqn:Eb; [by eauto|].
  destruct e as [u' h' now|u'|u' hb' b'|u'|u'|h' now|h'|h' now|h' now p'|hb'|hb' now|hb'|h'|hb'|h'|hb' b'|h' m'|hb' m'|now|n1 n2 b' n ttl|us]; try done; cbn [LoginModel.l_act].
  - destruct (l_users l !! u') as [[]|] eqn:Eu, (l_bconns l !! hb') eqn:Ec; cbn [fst]; try (by eauto). case_decide; cbn; [|by eauto].
    destruct (decide (hb' = h)) as [->|Hne]; [rewrite lookup_insert|rewrite lookup_insert_ne by done; by eauto]. intros [= <-] [].
  - destruct (l_users l !! u') as [[]|] eqn:Eu; cbn [fst]; try (by eauto).
    destruct (l_bconns l !! hb) as [[b0 i0 [|m0 o0]]|] eqn:Ec; cbn [fst]; try (by eauto).
    destruct (read_accept m0) eqn:Er; cbn;
    (destruct (decide (hb = h)) as [->|Hne]; [rewrite lookup_insert|rewrite lookup_insert_ne by done; by eauto]); intros [= <-]; cbn; intros Hin; left; eexists; (split; [exact Ec|]); cbn; auto.
  - destruct (w_broker (l_w l) !! hb') as [s0|], (l_bconns l !! hb') as [[b0 [|m0 i0] o0]|] eqn:Ec; cbn [fst]; try (by eauto).
    intros Hc Hin. destruct (b_done_in _ _ _ _ Hc) as (c1 & Hc1 & _ & Hb).
    apply (b_done_out _ _ _ _ _ Hc) in Hin as [(c0 & Hc0 & Hin)|[-> ->]]; [|by auto]. assert (c1 = c0) as -> by congruence. rewrite <- Hb. left. revert Hc0 Hin. unfold LoginModel.act. cbn.
    destruct (decide (hb' = h)) as [->|Hne]; [rewrite lookup_insert|rewrite lookup_insert_ne by done; by eauto]. intros [= <-] Hin. rewrite Ec. eexists; split; [done|]. cbn; auto.
  - destruct (w_broker (l_w l) !! hb') as [[]|] eqn:Ew; cbn [fst]; try (by eauto).
    intros Hc Hin. destruct (b_say_in _ _ _ _ _ Hc) as (c1 & Hc1 & _ & Hb).
    apply (b_say_out _ _ _ _ _ _ Hc) in Hin as [(c0 & Hc0 & Hin)|[-> ->]]; [left; eexists; split; [exact Hc0|]; split; [congruence|done]|].
    destruct (d_answer (w_disc (l_w l)) (DTake now b permit)) eqn:Ed; [|by auto]. right. right. apply bool_decide_eq_false in Eb. eauto 10.
  - destruct (w_broker (l_w l) !! hb') as [[]|], (l_bconns l !! hb') as [[b0 [|m0 i0] o0]|] eqn:Ec; cbn [fst]; try (by eauto).
    destruct (a_step (l_w l) (ABrokerTopics hb' m0)).2.
    + unfold LoginModel.act. cbn. destruct (decide (hb' = h)) as [->|Hne]; [rewrite lookup_insert|rewrite lookup_insert_ne by done; by eauto].
      intros [= <-] Hin. left. rewrite Ec. eexists; split; [done|]. cbn in *; auto.
    + intros Hc Hin. destruct (b_say_in _ _ _ _ _ Hc) as (c1 & Hc1 & _ & Hb).
      apply (b_say_out _ _ _ _ _ _ Hc) in Hin as [(c0 & Hc0 & Hin)|[-> ->]]; [|by auto]. assert (c1 = c0) as -> by congruence. rewrite <- Hb. left. revert Hc0 Hin. unfold LoginModel.act. cbn.
      destruct (decide (hb' = h)) as [->|Hne]; [rewrite lookup_insert|rewrite lookup_insert_ne by done; by eauto]. intros [= <-] Hin. rewrite Ec. eexists; split; [done|]. cbn; auto.
  - destruct (l_bconns l !! hb'); cbn [fst]; [by eauto|]. cbn.
    destruct (decide (hb' = h)) as [->|Hne]; [rewrite lookup_insert|rewrite lookup_insert_ne by done; by eauto]. intros [= <-] [].
  - destruct (l_bconns l !! hb') as [c0|] eqn:Ec; cbn [fst]; [|by eauto]. case_decide; cbn; [|by eauto].
    destruct (decide (hb' = h)) as [->|Hne]; [rewrite lookup_insert|rewrite lookup_insert_ne by done; by eauto]. intros [= <-]. cbn. left. eauto.
Qed.
(** What a broker is about to validate. *)
Lemma b_val_step l e h b p : w_broker (l_w (l_step l e).1) !! h = Some (BValidate b p) ->
  w_broker (l_w l) !! h = Some (BValidate b p)
  \/ (e = LBrokerRecv h /\ exists c, l_bconns l !! h = Some c /\ bc_broker c = b /\ In (MAuthWithPermit p) (bc_in c)).
Proof.
  destruct (decide (b_handler e = Some h)) as [He|He]; [|rewrite w_broker_other by done; by left].
  rewrite l_w_step. unfold under. destruct (broken_off l e); [by left|].
  destruct e; try done; injection He as ->.
  - destruct (w_broker (l_w l) !! h) as [s|] eqn:Es; [rewrite Es; by left|].
    destruct (l_bconns l !! h) as [[b0 [|m0 i0] o0]|] eqn:Ec; try (rewrite Es; by left).
    cbn [AuthModel.a_step]. rewrite Es. destruct m0; cbn; rewrite lookup_insert; try done. intros [= <- <-]. right. split; [done|]. eexists. split; [done|]. split; [done|]. by left.
  - destruct (w_broker (l_w l) !! h) as [[b1 p1| |]|] eqn:Es; try (rewrite Es; by left).
    cbn [AuthModel.a_step]. rewrite Es. destruct (d_answer _ _) as [k|]; [destruct (pk_deser k)|]; cbn; by rewrite lookup_insert.
  - destruct (w_broker (l_w l) !! h) as [[]|] eqn:Es; try (rewrite Es; by left).
    destruct (l_bconns l !! h) as [[b9 [|m0 i0] o0]|] eqn:Ec; try (rewrite Es; by left).
    cbn [AuthModel.a_step]. rewrite Es. destruct m0; cbn; by rewrite lookup_insert.
Qed.
End login.
