(** What it means that a client reports success, and where registrations come from. *)
From stdpp Require Import gmap list.
From Coq Require Import NArith Lia.
From Verif Require Import IdModel MsgModel DiscModel DiscSpec DiscProofs DiscProofs2 DiscProofs3 AuthModel AuthSpec AuthProofs LoginModel LoginSpec LoginProofs LoginSteps LoginOrigin LoginComplete.

Section login.
Context {pk : Type} `{EqDecision pk}.
Variable pk_deser : bytes -> option pk.
Variable pk_ser : pk -> option bytes.
Variable verify : pk -> bytes -> bytes -> bool.
Variable debug global redis : bool.
Variable u_key : N -> bytes.
Variable u_sign : N -> bytes -> bytes.
Variable u_topics : N -> list N.
Notation a_step := (a_step pk_deser pk_ser verify debug global redis).
Notation a_run := (a_run pk_deser pk_ser verify debug global redis).
Notation act := (act pk_deser pk_ser verify debug global redis).
Notation l_act := (l_act pk_deser pk_ser verify debug global redis u_key u_sign u_topics).
Notation l_step := (l_step pk_deser pk_ser verify debug global redis u_key u_sign u_topics).
Notation l_run := (l_run pk_deser pk_ser verify debug global redis u_key u_sign u_topics).
Notation l_admits := (l_admits pk_deser pk_ser verify debug global redis u_key u_sign u_topics).
Notation d_answer := (d_answer global redis).
Notation d_whitelisted := (d_whitelisted global redis).
Notation d_least := (d_least global redis).
Notation d_issue_ok := (d_issue_ok global redis).
Notation request := (request u_key u_sign).
Notation l_w_step := (l_w_step pk_deser pk_ser verify debug global redis u_key u_sign u_topics).

Notation l_run_snoc := (l_run_snoc pk_deser pk_ser verify debug global redis u_key u_sign u_topics).
Notation opened := (opened pk_deser pk_ser verify debug global redis u_key u_sign u_topics).
Notation dialled := (dialled pk_deser pk_ser verify debug global redis u_key u_sign u_topics).
Notation issued_on := (issued_on pk_deser pk_ser verify debug global redis u_key u_sign u_topics).
Notation asked := (asked pk_deser pk_ser verify debug global redis u_key u_sign u_topics).
Notation validated_on := (validated_on pk_deser pk_ser verify debug global redis u_key u_sign u_topics).
Notation trace := (trace pk_deser pk_ser verify debug global redis u_key u_sign u_topics).
Notation good_request := (good_request pk_deser verify debug).

Lemma opened_app es l u h now : opened es u h now -> opened (es ++ l) u h now.
Proof. intros (es1 & es2 & -> & ?). exists es1, (es2 ++ l). split; [by rewrite <- app_assoc|done]. Qed.
Lemma dialled_app es l u h b p : dialled es u h b p -> dialled (es ++ l) u h b p.
Proof. intros (es1 & es2 & -> & ?). exists es1, (es2 ++ l). split; [by rewrite <- app_assoc|done]. Qed.
Lemma issued_on_app es l h p k b : issued_on es h p k b -> issued_on (es ++ l) h p k b.
Proof. intros (es1 & t & es2 & -> & ?). exists es1, t, (es2 ++ l). split; [by rewrite <- app_assoc|done]. Qed.
Lemma validated_on_app es l h p k b : validated_on es h b p k -> validated_on (es ++ l) h b p k.
Proof. intros (es1 & t & es2 & -> & ?). exists es1, t, (es2 ++ l). split; [by rewrite <- app_assoc|done]. Qed.

(** Connections stay. *)
Lemma mconns_stay l e h : l_mconns l !! h <> None -> l_mconns (l_step l e).1 !! h <> None.
Proof.
  intros Hn. destruct (m_touches e) eqn:Et; [|by rewrite mconns_same].
  assert (Hins : forall h' c (m : gmap N mconn), m !! h <> None -> <[h' := c]> m !! h <> None).
  { intros h' c m Hm. destruct (decide (h' = h)) as [->|Hne]; [by rewrite lookup_insert|by rewrite lookup_insert_ne]. }
  assert (Hsay : forall h' m l', l_mconns l' !! h <> None -> l_mconns (m_say h' m l') !! h <> None).
  { intros h' m l' Hl. unfold m_say. destruct (l_mconns l' !! h'); [by apply Hins|done]. }
  assert (Hdone : forall h' l', l_mconns l' !! h <> None -> l_mconns (m_done h' l') !! h <> None).
  { intros h' l' Hl. unfold m_done. destruct (w_marshal (l_w l') !! h') as [[]|]; try done. by apply Hsay. }
  lcases l e; say; cbn in *; try done; try (by apply Hins); try (apply Hdone); try (apply Hsay); cbn; try done; by apply Hins.
Qed.
Lemma bconns_stay_at l e h c : l_bconns l !! h = Some c -> exists c', l_bconns (l_step l e).1 !! h = Some c' /\ bc_broker c' = bc_broker c.
Proof.
  intros Hn. destruct (b_touches e) eqn:Et; [|rewrite bconns_same by done; eauto].
  set (P := fun m : gmap N bconn => exists c', m !! h = Some c' /\ bc_broker c' = bc_broker c).
  assert (Hins : forall h' c1 (m : gmap N bconn), P m -> (h' = h -> bc_broker c1 = bc_broker c) -> P (<[h' := c1]> m)).
  { intros h' c1 m (c' & Hc' & Hb) Hm. unfold P. destruct (decide (h' = h)) as [->|Hne]; [rewrite lookup_insert; eauto|rewrite lookup_insert_ne by done; eauto]. }
  assert (Hsay : forall h' m l', P (l_bconns l') -> P (l_bconns (b_say h' m l'))).
  { intros h' m l' Hl. unfold b_say. destruct (l_bconns l' !! h') as [c1|] eqn:E; [|done]. apply Hins; [done|]. intros ->. destruct Hl as (c' & Hc' & <-). cbn. by simplify_eq. }
  assert (Hdone : forall h' l', P (l_bconns l') -> P (l_bconns (b_done h' l'))).
  { intros h' l' Hl. unfold b_done. destruct (w_broker (l_w l') !! h') as [[]|]; try done. by apply Hsay. }
  assert (H0 : P (l_bconns l)) by (unfold P; eauto).
  change (P (l_bconns (l_step l e).1)).
  lcases l e; say; cbn in *; try done; try (apply Hdone); try (apply Hsay); cbn; try done; apply Hins; try done; intros ->; simplify_eq; done.
Qed.
Lemma bconns_stay l e h : l_bconns l !! h <> None -> l_bconns (l_step l e).1 !! h <> None.
Proof.
  destruct (l_bconns l !! h) as [c|] eqn:E; [|done]. intros _. destruct (bconns_stay_at l e h c E) as (c' & -> & _). done.
Qed.
Lemma mconns_stay_run es l h : l_mconns (l_run es) !! h <> None -> l_mconns (l_run (es ++ l)) !! h <> None.
Proof.
  intros Hn. induction l as [|e l IH] using rev_ind; [by rewrite app_nil_r|]. rewrite app_assoc, l_run_snoc. by apply mconns_stay.
Qed.
Lemma bconns_stay_run es l h : l_bconns (l_run es) !! h <> None -> l_bconns (l_run (es ++ l)) !! h <> None.
Proof.
  intros Hn. induction l as [|e l IH] using rev_ind; [by rewrite app_nil_r|]. rewrite app_assoc, l_run_snoc. by apply bconns_stay.
Qed.
Lemma bconns_stay_at_run es l h c : l_bconns (l_run es) !! h = Some c -> exists c', l_bconns (l_run (es ++ l)) !! h = Some c' /\ bc_broker c' = bc_broker c.
Proof.
  intros Hn. induction l as [|e l IH] using rev_ind; [rewrite app_nil_r; eauto|]. rewrite app_assoc, l_run_snoc. destruct IH as (c' & Hc' & <-). by apply bconns_stay_at.
Qed.
Lemma start_opens l u h now : l_mconns l !! h = None -> l_users l !! u = None \/ l_users l !! u = Some UFailed ->
  l_mconns (l_step l (LStart u h now)).1 !! h = Some (MConn [request u now] []).
Proof. intros Hc [Hu|Hu]; unfold LoginModel.l_step; cbn; rewrite Hu, Hc; cbn; by rewrite lookup_insert. Qed.
Lemma dial_opens l u h b p : l_bconns l !! h = None -> l_users l !! u = Some (UGranted (bpub b) p) ->
  l_bconns (l_step l (LDial u h b)).1 !! h = Some (BConn b [MAuthWithPermit p] []).
Proof. intros Hc Hu; unfold LoginModel.l_step; cbn; rewrite Hu, Hc, decide_True by done; cbn; by rewrite lookup_insert. Qed.

Lemma two_splits {A} (l1 : list A) x l2 k1 y k2 : l1 ++ x :: l2 = k1 ++ y :: k2 ->
  (l1 = k1 /\ x = y /\ l2 = k2) \/ (exists m, k1 = l1 ++ x :: m) \/ (exists m, l1 = k1 ++ y :: m).
Proof.
  intros Heq. destruct (app_eq_inv _ _ _ _ Heq) as [(m & H1 & H2)|(m & H1 & H2)]; destruct m as [|z m]; cbn in *.
  - rewrite app_nil_r in H1. injection H2 as -> ->. auto.
  - injection H2 as <- ->. right. right. by exists m.
  - rewrite app_nil_r in H1. injection H2 as -> ->. auto.
  - injection H2 as <- ->. right. left. by exists m.
Qed.
Lemma opened_unique es u h now u' now' : opened es u h now -> opened es u' h now' -> u = u' /\ now = now'.
Proof.
  intros (a1 & a2 & -> & Ha & Hu) (b1 & b2 & Heq & Hb & Hu'). apply two_splits in Heq as [(-> & Heq & _)|[[m ->]|[m ->]]]; [by injection Heq| |]; exfalso.
  - assert (Hx : l_mconns (l_run ((a1 ++ [LStart u h now]) ++ m)) !! h <> None) by (apply mconns_stay_run; rewrite l_run_snoc, start_opens; done).
    apply Hx. by rewrite <- app_assoc.
  - assert (Hx : l_mconns (l_run ((b1 ++ [LStart u' h now']) ++ m)) !! h <> None) by (apply mconns_stay_run; rewrite l_run_snoc, start_opens; done).
    apply Hx. by rewrite <- app_assoc.
Qed.
Lemma dialled_unique es u h b p u' b' p' : dialled es u h b p -> dialled es u' h b' p' -> u = u' /\ b = b' /\ p = p'.
Proof.
  intros (a1 & a2 & -> & Ha & Hu) (b1 & b2 & Heq & Hb & Hu'). apply two_splits in Heq as [(-> & Heq & _)|[[m ->]|[m ->]]].
  - injection Heq as -> ->. rewrite Hu in Hu'. by injection Hu' as ->.
  - exfalso. assert (Hx : l_bconns (l_run ((a1 ++ [LDial u h b]) ++ m)) !! h <> None) by (apply bconns_stay_run; rewrite l_run_snoc, (dial_opens _ _ _ _ p); done).
    apply Hx. by rewrite <- app_assoc.
  - exfalso. assert (Hx : l_bconns (l_run ((b1 ++ [LDial u' h b']) ++ m)) !! h <> None) by (apply bconns_stay_run; rewrite l_run_snoc, (dial_opens _ _ _ _ p'); done).
    apply Hx. by rewrite <- app_assoc.
Qed.

(** * Single steps *)
Lemma m_in_step l e h c m : l_mconns (l_step l e).1 !! h = Some c -> In m (mc_in c) ->
  (exists c0, l_mconns l !! h = Some c0 /\ In m (mc_in c0))
  \/ (exists u now, e = LStart u h now /\ m = request u now /\ l_mconns l !! h = None /\ (l_users l !! u = None \/ l_users l !! u = Some UFailed))
  \/ (e = LSendM h m /\ h ∈ l_foreign_m l).
Proof.
  assert (Hsay : forall h' m' l', l_mconns (m_say h' m' l') !! h = Some c -> exists c0, l_mconns l' !! h = Some c0 /\ mc_in c0 = mc_in c).
  { intros h' m' l'. unfold m_say. destruct (l_mconns l' !! h') as [c0|] eqn:Ec; [|eauto]. cbn.
    destruct (decide (h' = h)) as [->|Hne]; [rewrite lookup_insert; intros [= <-]; eauto|rewrite lookup_insert_ne by done; eauto]. }
  assert (Hdone : forall h' l', l_mconns (m_done h' l') !! h = Some c -> exists c0, l_mconns l' !! h = Some c0 /\ mc_in c0 = mc_in c).
  { intros h' l'. unfold m_done. destruct (w_marshal (l_w l') !! h') as [[]|]; eauto. }
  destruct (m_touches e) eqn:Et; [|rewrite mconns_same by done; eauto].
  unfold LoginModel.l_step. destruct (broken_off l e); [by eauto|].
  destruct e as [u' h' now|u'|u' hb' b'|u'|u'|h' now|h'|h' now|h' now p'|hb'|hb' now|hb'|h'|hb'|h'|hb' b'|h' m'|hb' m'|now|n1 n2 b' n ttl|us]; try done; cbn [LoginModel.l_act].
  - destruct (l_users l !! u') as [[]|] eqn:Eu, (l_mconns l !! h') eqn:Ec; cbn [fst]; try (by eauto); cbn;
    (destruct (decide (h' = h)) as [->|Hne]; [rewrite lookup_insert|rewrite lookup_insert_ne by done; by eauto]); intros [= <-] [<-|[]]; right; left; eauto 10.
  - destruct (l_users l !! u') as [[]|] eqn:Eu; cbn [fst]; try (by eauto).
    destruct (l_mconns l !! h0) as [[i0 [|m0 o0]]|] eqn:Ec; cbn [fst]; try (by eauto). cbn.
    destruct (decide (h0 = h)) as [->|Hne]; [rewrite lookup_insert|rewrite lookup_insert_ne by done; by eauto]. intros [= <-]; cbn; intros Hin; left; eexists; (split; [exact Ec|]); cbn; auto.
  - destruct (w_marshal (l_w l) !! h') as [s0|], (l_mconns l !! h') as [[[|m0 i0] o0]|] eqn:Ec; cbn [fst]; try (by eauto).
    intros (c0 & Hc0 & <-)%Hdone Hin. left. revert Hc0 Hin. unfold LoginModel.act. cbn.
    destruct (decide (h' = h)) as [->|Hne]; [rewrite lookup_insert|rewrite lookup_insert_ne by done; by eauto]. intros [= <-] Hin. rewrite Ec. eexists; split; [done|]. cbn; auto.
  - destruct (w_marshal (l_w l) !! h') as [[]|]; cbn [fst]; try (by eauto).
    intros (c0 & Hc0 & <-)%Hdone Hin. left. by exists c0.
  - destruct (w_marshal (l_w l) !! h') as [[]|]; cbn [fst]; try (by eauto).
    intros (c0 & Hc0 & <-)%Hdone Hin. left. by exists c0.
  - destruct (w_marshal (l_w l) !! h') as [[]|] eqn:Ew; cbn [fst]; try (by eauto).
    intros (c0 & Hc0 & <-)%Hsay Hin. left. by exists c0.
  - destruct (l_mconns l !! h'); cbn [fst]; [by eauto|]. cbn.
    destruct (decide (h' = h)) as [->|Hne]; [rewrite lookup_insert|rewrite lookup_insert_ne by done; by eauto]. intros [= <-] [].
  - destruct (l_mconns l !! h') as [c0|] eqn:Ec; cbn [fst]; [|by eauto]. case_decide; cbn; [|by eauto].
    destruct (decide (h' = h)) as [->|Hne]; [rewrite lookup_insert|rewrite lookup_insert_ne by done; by eauto]. intros [= <-]. cbn. rewrite in_app_iff.
    intros [Hin|[<-|[]]]; [left; eauto|]. right. right. done.
Qed.
Lemma foreign_m_step l e h : h ∈ l_foreign_m (l_step l e).1 ->
  h ∈ l_foreign_m l \/ (e = LForeignM h /\ l_mconns l !! h = None /\ l_mconns (l_step l e).1 !! h <> None).
Proof.
  intros Hf. destruct e as [u' h' now|u'|u' hb' b'|u'|u'|h' now|h'|h' now|h' now p'|hb'|hb' now|hb'|h'|hb'|h'|hb' b'|h' m'|hb' m'|now|n1 n2 b' n ttl|us];
    try (left; rewrite foreign_m_other in Hf by done; exact Hf).
  destruct (decide (h' = h)) as [->|Hne]; [|left; rewrite foreign_m_other in Hf; [exact Hf|]; by intros [= ?]].
  revert Hf. unfold LoginModel.l_step. cbn. destruct (l_mconns l !! h) eqn:E; cbn; [by left|]. intros _. right. by rewrite lookup_insert.
Qed.
Lemma foreign_b_step l e h : h ∈ l_foreign_b (l_step l e).1 ->
  h ∈ l_foreign_b l \/ ((exists b, e = LForeignB h b) /\ l_bconns l !! h = None /\ l_bconns (l_step l e).1 !! h <> None).
Proof.
  intros Hf. destruct e as [u' h' now|u'|u' hb' b'|u'|u'|h' now|h'|h' now|h' now p'|hb'|hb' now|hb'|h'|hb'|h'|hb' b'|h' m'|hb' m'|now|n1 n2 b' n ttl|us];
    try (left; rewrite foreign_b_other in Hf by done; exact Hf).
  destruct (decide (hb' = h)) as [->|Hne]; [|left; rewrite foreign_b_other in Hf; [exact Hf|]; by intros b [= ? ?]].
  revert Hf. unfold LoginModel.l_step. cbn. destruct (l_bconns l !! h) eqn:E; cbn; [by left|]. intros _. right. rewrite lookup_insert. eauto.
Qed.
Lemma foreign_m_grow l e h : h ∈ l_foreign_m l -> h ∈ l_foreign_m (l_step l e).1.
Proof. intros Hf. lcases l e; say; try done. cbn. set_solver. Qed.
Lemma foreign_b_grow l e h : h ∈ l_foreign_b l -> h ∈ l_foreign_b (l_step l e).1.
Proof. intros Hf. lcases l e; say; try done. cbn. set_solver. Qed.
Lemma connected_stays l e u hb : l_users l !! u = Some (UConnected hb) -> l_users (l_step l e).1 !! u = Some (UConnected hb).
Proof.
  intros Hu. destruct (decide (u_actor e = Some u)) as [Ha|Ha]; [|by rewrite users_other].
  unfold LoginModel.l_step. destruct (broken_off l e); [done|]. destruct e; try done; injection Ha as ->; cbn; by rewrite Hu.
Qed.
Lemma snoc_split {A} (es : list A) e es1 x es2 : es ++ [e] = es1 ++ x :: es2 -> (es = es1 /\ e = x /\ es2 = []) \/ (exists m, es2 = m ++ [e] /\ es = es1 ++ x :: m).
Proof.
  destruct es2 as [|y es2 _] using rev_ind.
  - intros [-> Heq]%app_inj_tail. auto.
  - rewrite app_comm_cons, app_assoc. intros [-> ->]%app_inj_tail. eauto.
Qed.
Lemma opened_snoc es e u h now : opened (es ++ [e]) u h now ->
  opened es u h now \/ (e = LStart u h now /\ l_mconns (l_run es) !! h = None).
Proof.
  intros (es1 & es2 & Heq & Hc & Hu). apply snoc_split in Heq as [(-> & -> & _)|(m & -> & ->)]; [by right|]. left. by exists es1, m.
Qed.
Lemma dialled_snoc es e u h b p : dialled (es ++ [e]) u h b p ->
  dialled es u h b p \/ (e = LDial u h b /\ l_bconns (l_run es) !! h = None).
Proof.
  intros (es1 & es2 & Heq & Hc & Hu). apply snoc_split in Heq as [(-> & -> & _)|(m & -> & ->)]; [by right|]. left. by exists es1, m.
Qed.
Lemma opened_conn es u h now : opened es u h now -> l_mconns (l_run es) !! h <> None.
Proof.
  intros (es1 & es2 & -> & Hc & Hu). replace (es1 ++ LStart u h now :: es2) with ((es1 ++ [LStart u h now]) ++ es2) by (by rewrite <- app_assoc).
  apply mconns_stay_run. rewrite l_run_snoc, start_opens; done.
Qed.
Lemma dialled_conn es u h b p : dialled es u h b p -> l_bconns (l_run es) !! h <> None.
Proof.
  intros (es1 & es2 & -> & Hc & Hu). replace (es1 ++ LDial u h b :: es2) with ((es1 ++ [LDial u h b]) ++ es2) by (by rewrite <- app_assoc).
  apply bconns_stay_run. rewrite l_run_snoc, (dial_opens _ _ _ _ p); done.
Qed.

Lemma dialled_broker es u h b p c : dialled es u h b p -> l_bconns (l_run es) !! h = Some c -> bc_broker c = b.
Proof.
  intros (es1 & es2 & -> & Hc & Hu). replace (es1 ++ LDial u h b :: es2) with ((es1 ++ [LDial u h b]) ++ es2) by (by rewrite <- app_assoc).
  destruct (bconns_stay_at_run (es1 ++ [LDial u h b]) es2 h (BConn b [MAuthWithPermit p] [])) as (c' & -> & Hb); [by rewrite l_run_snoc, (dial_opens _ _ _ _ p)|].
  intros [= ->]. done.
Qed.

(** * The past *)
Record past (es : list lev) : Prop := {
  q_in : forall h c m, l_mconns (l_run es) !! h = Some c -> In m (mc_in c) ->
    (exists u now, opened es u h now /\ m = request u now) \/ (In (LSendM h m) es /\ h ∈ l_foreign_m (l_run es));
  q_foreign_m : forall h, h ∈ l_foreign_m (l_run es) -> l_mconns (l_run es) !! h <> None /\ forall u now, ~ opened es u h now;
  q_out : forall h c p ctx, l_mconns (l_run es) !! h = Some c -> In (MAuthResponse p ctx) (mc_out c) -> (0 < p)%N ->
    exists k b, issued_on es h p k b /\ ctx = bpub b;
  q_bin : forall hb c m, l_bconns (l_run es) !! hb = Some c -> In m (bc_in c) ->
    (exists u p, dialled es u hb (bc_broker c) p /\ (m = MAuthWithPermit p \/ (m = MSubscribe (u_topics u) /\ l_users (l_run es) !! u = Some (UConnected hb))))
    \/ (In (LSendB hb m) es /\ hb ∈ l_foreign_b (l_run es));
  q_foreign_b : forall hb, hb ∈ l_foreign_b (l_run es) -> l_bconns (l_run es) !! hb <> None /\ forall u b p, ~ dialled es u hb b p;
  q_bout : forall hb c ctx, l_bconns (l_run es) !! hb = Some c -> In (MAuthResponse 1 ctx) (bc_out c) -> exists b p k, validated_on es hb b p k;
  q_val : forall hb b p, w_broker (l_w (l_run es)) !! hb = Some (BValidate b p) ->
    (exists u, dialled es u hb b p) \/ (In (LSendB hb (MAuthWithPermit p)) es /\ hb ∈ l_foreign_b (l_run es));
  q_user : forall u s, l_users (l_run es) !! u = Some s ->
    match s with
    | UWaitMarshal h => exists now, opened es u h now
    | UGranted ep p => exists h now k b, opened es u h now /\ issued_on es h p k b /\ ep = bpub b
    | UWaitBroker hb => exists b p, dialled es u hb b p
    | UConnected hb => exists b p, dialled es u hb b p /\ exists b' p' k, validated_on es hb b' p' k
    | UFailed => True
    end;
}.
Lemma past_run es : past es.
Proof.
  induction es as [|e es IH] using rev_ind.
  { split; cbn; try (intros *; rewrite lookup_empty; done); set_solver. }
  destruct IH as [P1 P2 P3 P4 P5 P6 P7 P8].
  assert (Hsnd : forall (x : lev), In x es -> In x (es ++ [e])) by (intros; apply in_app_iff; by left).
  assert (Hlast : In e (es ++ [e])) by (apply in_app_iff; right; by left).
  split.
  - intros h c m. rewrite l_run_snoc. intros Hc Hin.
    apply (m_in_step _ _ _ _ _ Hc) in Hin as [(c0 & Hc0 & Hin)|[(u & now & -> & -> & Hn & Hu)|[-> Hf]]].
    + destruct (P1 _ _ _ Hc0 Hin) as [(u & now & Ho & ->)|[Hs Hf]]; [left; eauto using opened_app|right]. split; [by apply Hsnd|by apply foreign_m_grow].
    + left. exists u, now. split; [|done]. by exists es, [].
    + right. split; [done|by apply foreign_m_grow].
  - intros h. rewrite l_run_snoc. intros Hf. apply foreign_m_step in Hf as [Hf|(-> & Hn & Hs)].
    + destruct (P2 h Hf) as [Hc Ho]. split; [by apply mconns_stay|]. intros u now [Ho'|[_ Hn]]%opened_snoc; [by eapply Ho|done].
    + split; [done|]. intros u now [Ho|[Ho _]]%opened_snoc; [by apply opened_conn in Ho|done].
  - intros h c p ctx. rewrite l_run_snoc. intros Hc Hin Hp.
    apply (m_out_step _ _ _ _ _ _ _ _ _ _ _ _ _ _ Hc) in Hin as [(c0 & Hc0 & Hin)|[Hin|(t & p' & key & b & -> & [= <- ->] & Hw & Hg & Hi)]].
    + destruct (P3 _ _ _ _ Hc0 Hin Hp) as (k & b & Hi & ->). exists k, b. split; [by apply issued_on_app|done].
    + injection Hin as ->. lia.
    + exists key, b. split; [|done]. by exists es, t, [].
  - intros hb c m. rewrite l_run_snoc. intros Hc Hin.
    apply (b_in_step _ _ _ _ _ _ _ _ _ _ _ _ _ _ Hc) in Hin as [(c0 & Hc0 & Hbr & Hin)|[(u & ep & p & -> & -> & Hu & Hno & <-)|[(u & -> & -> & Hu & Hnow & c0 & ctx & Hc0 & Hbr & Hout)|[-> Hf]]]].
    + destruct (P4 _ _ _ Hc0 Hin) as [(u & p & Hd & Hm)|[Hs Hf]].
      * left. rewrite <- Hbr. exists u, p. split; [by apply dialled_app|]. destruct Hm as [->|[-> Hu]]; [by left|right]. split; [done|by apply connected_stays].
      * right. split; [by apply Hsnd|by apply foreign_b_grow].
    + left. exists u, p. split; [|by left]. by exists es, [].
    + left. destruct (P8 _ _ Hu) as (b & p & Hd). exists u, p. pose proof (dialled_broker _ _ _ _ _ _ Hd Hc0) as Hb0.
      split; [|by right]. rewrite <- Hbr, Hb0. by apply dialled_app.
    + right. split; [done|by apply foreign_b_grow].
  - intros h. rewrite l_run_snoc. intros Hf. apply foreign_b_step in Hf as [Hf|((b & ->) & Hn & Hs)].
    + destruct (P5 h Hf) as [Hc Ho]. split; [by apply bconns_stay|]. intros u b p [Ho'|[_ Hn]]%dialled_snoc; [by eapply Ho|done].
    + split; [done|]. intros u b' p [Ho|[Ho _]]%dialled_snoc; [by apply dialled_conn in Ho|done].
  - intros hb c ctx. rewrite l_run_snoc. intros Hc Hin.
    apply (b_out_step _ _ _ _ _ _ _ _ _ _ _ _ _ _ Hc) in Hin as [(c0 & Hc0 & _ & Hin)|[Hin|(t & b & p & k & -> & _ & Hw & Hg & Ha)]].
    + destruct (P6 _ _ _ Hc0 Hin) as (b & p & k & Hv). exists b, p, k. by apply validated_on_app.
    + done.
    + exists b, p, k. by exists es, t, [].
  - intros hb b p. rewrite l_run_snoc. intros Hb. apply b_val_step in Hb as [Hb|(-> & c & Hc & <- & Hin)].
    + destruct (P7 _ _ _ Hb) as [[u Hd]|[Hs Hf]]; [left; exists u; by apply dialled_app|right]. split; [by apply Hsnd|by apply foreign_b_grow].
    + destruct (P4 _ _ _ Hc Hin) as [(u & p' & Hd & [[= <-]|[? _]])|[Hs Hf]]; [left; exists u; by apply dialled_app|done|right]. split; [by apply Hsnd|by apply foreign_b_grow].
  - intros u s. rewrite l_run_snoc. intros Hu. apply user_step in Hu as [Hu|Hnew].
    + specialize (P8 _ _ Hu). destruct s; try done.
      * destruct P8 as (now & Ho). eauto using opened_app.
      * destruct P8 as (h & now & k & b & Ho & Hi & ->). eauto 10 using opened_app, issued_on_app.
      * destruct P8 as (b & p & Hd). eauto using dialled_app.
      * destruct P8 as (b & p & Hd & b' & p' & k & Hv). exists b, p. split; [by apply dialled_app|]. exists b', p', k. by apply validated_on_app.
    + destruct s; try done.
      * destruct Hnew as (now & -> & Hn & Hu). exists now. by exists es, [].
      * destruct Hnew as (-> & h & c & Hu & Hc & Hin & Hp). destruct (P8 _ _ Hu) as (now & Ho). destruct (P3 _ _ _ _ Hc Hin) as (k & b & Hi & ->); [lia|].
        exists h, now, k, b. split; [by apply opened_app|]. split; [by apply issued_on_app|done].
      * destruct Hnew as (b & ep & p & -> & Hu & Hn & <-). exists b, p. by exists es, [].
      * destruct Hnew as (-> & Hu & c & ctx & Hc & Hin). destruct (P8 _ _ Hu) as (b & p & Hd). exists b, p. split; [by apply dialled_app|].
        destruct (P6 _ _ _ Hc Hin) as (b' & p' & k & Hv). exists b', p', k. by apply validated_on_app.
Qed.

End login.
