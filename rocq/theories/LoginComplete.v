(** An honest login that nothing breaks off succeeds, whatever others do. *)
From stdpp Require Import gmap list.
From Coq Require Import NArith Lia.
From Verif Require Import IdModel MsgModel DiscModel DiscSpec DiscProofs DiscProofs2 DiscProofs3 AuthModel AuthSpec AuthProofs LoginModel LoginSpec LoginProofs LoginSteps LoginOrigin.

Section login.
Context {pk : Type} `{EqDecision pk}.
Variable pk_deser : bytes -> option pk.
Variable pk_ser : pk -> option bytes.
Variable verify : pk -> bytes -> bytes -> bool.
Variable debug global redis : bool.
Variable u_key : N -> bytes.
Variable u_sign : N -> bytes -> bytes.
Variable u_topics : N -> list N.
Notation a_step := (a_step pk_deser pk_ser verify debug global redis).
Notation a_run := (a_run pk_deser pk_ser verify debug global redis).
Notation act := (act pk_deser pk_ser verify debug global redis).
Notation l_act := (l_act pk_deser pk_ser verify debug global redis u_key u_sign u_topics).
Notation l_step := (l_step pk_deser pk_ser verify debug global redis u_key u_sign u_topics).
Notation l_run := (l_run pk_deser pk_ser verify debug global redis u_key u_sign u_topics).
Notation l_admits := (l_admits pk_deser pk_ser verify debug global redis u_key u_sign u_topics).
Notation d_answer := (d_answer global redis).
Notation d_whitelisted := (d_whitelisted global redis).
Notation d_least := (d_least global redis).
Notation d_issue_ok := (d_issue_ok global redis).
Notation request := (request u_key u_sign).
Notation l_w_step := (l_w_step pk_deser pk_ser verify debug global redis u_key u_sign u_topics).

Notation l_run_snoc := (l_run_snoc pk_deser pk_ser verify debug global redis u_key u_sign u_topics).

Section one.
Variable u h hb permit : N.
Hypothesis Hpermit : (1 < permit)%N.

(** Nobody but user [u] has the permit; nobody else uses its connections. *)
Record secret (l : lworld) : Prop := {
  s_m : forall u', l_users l !! u' = Some (UWaitMarshal h) -> u' = u;
  s_b : forall u', l_users l !! u' = Some (UWaitBroker hb) -> u' = u;
  s_g : forall u' ep, l_users l !! u' = Some (UGranted ep permit) -> u' = u;
  s_out : forall h' c ctx, l_mconns l !! h' = Some c -> In (MAuthResponse permit ctx) (mc_out c) -> h' = h;
  s_in : forall h' c, l_bconns l !! h' = Some c -> In (MAuthWithPermit permit) (bc_in c) -> h' = hb;
  s_val : forall h' b', w_broker (l_w l) !! h' = Some (BValidate b' permit) -> h' = hb;
}.
(** Events that do not give the permit away. *)
Definition keeps (e : lev) : Prop :=
  (forall h' t, e = LMarshalIssue h' t permit -> h' = h) /\ (forall h', e <> LSendB h' (MAuthWithPermit permit))
  /\ (concerns u h hb e = false \/ match e with LStart u' h' _ => u' = u | LDial u' hb' _ => u' = u /\ hb' = hb | _ => True end).
Lemma secret_step l e : keeps e -> secret l -> secret (l_step l e).1.
Proof.
  intros (Hi & Hs & Hk) [S1 S2 S3 S4 S5 S6]. split.
  - intros u' Hu. apply user_step in Hu as [Hu|(now & -> & _)]; [by apply S1|]. destruct Hk as [Hk|Hk]; [|done]. cbn in Hk. by rewrite (bool_decide_true (h = h)), orb_true_r in Hk.
  - intros u' Hu. apply user_step in Hu as [Hu|(b & ep & p & -> & _)]; [by apply S2|]. destruct Hk as [Hk|[Hk _]]; [|done]. cbn in Hk. by rewrite (bool_decide_true (hb = hb)), orb_true_r in Hk.
  - intros u' ep Hu. apply user_step in Hu as [Hu|(-> & h' & c & Hu & Hc & Hin & _)]; [by apply (S3 _ ep)|]. assert (h' = h) as -> by (by eapply S4). by apply S1.
  - intros h' c ctx Hc Hin. apply (m_out_step _ _ _ _ _ _ _ _ _ _ _ _ _ _ Hc) in Hin as [(c0 & Hc0 & Hin)|[Hin|(t & p & key & b & -> & [= <- _] & _)]].
    + by eapply S4.
    + unfold refusal in Hin. injection Hin as ? _. lia.
    + by apply (Hi h' t).
  - intros h' c Hc Hin. apply (b_in_step _ _ _ _ _ _ _ _ _ _ _ _ _ _ Hc) in Hin as [(c0 & Hc0 & _ & Hin)|[(u' & ep & p & -> & [= <-] & Hu & _)|[(u' & _ & ? & _)|[-> _]]]].
    + by eapply S5.
    + apply S3 in Hu as ->. destruct Hk as [Hk|[_ Hk]]; [|done]. cbn in Hk. by rewrite bool_decide_true in Hk.
    + done.
    + by destruct (Hs h').
  - intros h' b' Hb. apply b_val_step in Hb as [Hb|(-> & c & Hc & _ & Hin)]; [by eapply S6|by eapply S5].
Qed.
Lemma secret0 : secret lworld0.
Proof. split; cbn; intros *; rewrite lookup_empty; done. Qed.

(** * The permit stays *)
Variable b : bid.
Variable t3 : N.
Definition holds (os : list dop) : Prop :=
  if redis then r_keys (r_run global os) !! permit_key global b permit = Some (u_key u, t3 + 30)%N
  else e_permits (e_run global os) !! permit = Some (PermitRow (if global then [] else bid_print b) (u_key u) (t3 + 30)).
Definition harmless (o : dop) : Prop :=
  match o with DIssue _ _ p _ _ | DTake _ _ p => p <> permit | DPrune t => (t <= t3 + 30)%N | _ => True end.
Lemma holds_step os o : harmless o -> holds os -> holds (os ++ [o]).
Proof.
  unfold holds. intros Ho. destruct redis.
  - intros Hh. rewrite r_run_snoc, r_step_permit. destruct o as [now b' p' ttl key|now|n b' p'|n1 n2 b' n ttl|now|l]; try done; cbn in Ho;
    rewrite decide_False; try done; intros Heq; by apply permit_key_num_inj in Heq.
  - intros Hh. rewrite e_run_snoc, e_step_permit, Hh. destruct o as [now b' p' ttl key|now|n b' p'|n1 n2 b' n ttl|now|l]; try done; cbn in Ho.
    + by rewrite decide_False.
    + cbn. destruct (N.ltb_spec (t3 + 30) now); [lia|done].
    + by rewrite decide_False.
Qed.
Lemma holds_answer os t : (permit < 2 ^ 32)%N -> (t < t3 + 30)%N -> holds os -> d_answer os (DTake t b permit) = Some (u_key u).
Proof.
  intros Hp Ht. unfold holds, AuthModel.d_answer. destruct redis.
  - intros Hh. apply r_take_answer. eauto.
  - intros Hh. apply e_take_answer. split; [done|]. eexists. split; [exact Hh|]. split; [done|]. cbn. destruct global; auto.
Qed.
Lemma holds_issue os : d_issue_ok os permit = true -> holds (os ++ [DIssue t3 b permit 30 (u_key u)]).
Proof.
  unfold holds, AuthModel.d_issue_ok. destruct redis.
  - intros _. rewrite r_run_snoc, r_step_permit, decide_True by done. done.
  - intros Hn%bool_decide_eq_true. by rewrite e_run_snoc, e_step_permit, decide_True, Hn by done.
Qed.

(** What an event adds to the statements of the discovery service. *)
Lemma l_disc_step l e : exists ops, w_disc (l_w (l_step l e).1) = w_disc (l_w l) ++ ops
  /\ forall o, In o ops ->
     match o with
     | DIssue now b' p _ k => exists h', e = LMarshalIssue h' now p /\ w_marshal (l_w l) !! h' = Some (MPlaced k b')
         /\ h' ∉ l_gone_m l /\ d_issue_ok (w_disc (l_w l)) p = true
     | DTake now b' p => exists h', e = LBrokerValidate h' now /\ w_broker (l_w l) !! h' = Some (BValidate b' p)
     | DPrune t => e = LClean t \/ exists h', e = LMarshalPlace h' t
     | _ => True
     end.
Proof.
  rewrite l_w_step. destruct (under l e) as [a|] eqn:E; [|exists []; split; [by rewrite app_nil_r|by intros ? []]].
  rewrite disc_step. unfold under in E. destruct (broken_off l e) eqn:Eb; [done|].
  assert (Hnil : forall P : dop -> Prop, exists ops, w_disc (l_w l) = w_disc (l_w l) ++ ops /\ forall o, In o ops -> P o)
    by (intros P; exists []; split; [by rewrite app_nil_r|by intros ? []]).
  destruct e as [u' h' now|u'|u' hb' b'|u'|u'|h' now|h'|h' now|h' now p'|hb'|hb' now|hb'|h'|hb'|h'|hb' b'|h' m'|hb' m'|now|n1 n2 b' n ttl|us]; try done.
  - destruct (w_marshal (l_w l) !! h'), (l_mconns l !! h') as [[[|? ?] ?]|]; try done. injection E as <-. apply Hnil.
  - destruct (w_marshal (l_w l) !! h') as [[]|]; try done. injection E as <-. apply Hnil.
  - destruct (w_marshal (l_w l) !! h') as [[]|] eqn:Ew; try done. injection E as <-. rewrite Ew. eexists. split; [done|]. intros o [<-|[<-|[]]]; eauto.
  - destruct (w_marshal (l_w l) !! h') as [[]|] eqn:Ew; try done. injection E as <-. rewrite Ew. destruct (d_issue_ok _ _) eqn:Ei; [|apply Hnil]. eexists. split; [done|]. intros o [<-|[]]. apply bool_decide_eq_false in Eb. eauto 10.
  - destruct (w_broker (l_w l) !! hb'), (l_bconns l !! hb') as [[? [|? ?] ?]|]; try done. injection E as <-. apply Hnil.
  - destruct (w_broker (l_w l) !! hb') as [[]|] eqn:Ew; try done. injection E as <-. rewrite Ew. eexists. split; [done|]. intros o [<-|[]]; eauto.
  - destruct (w_broker (l_w l) !! hb') as [[]|], (l_bconns l !! hb') as [[? [|? ?] ?]|]; try done; injection E as <-; apply Hnil.
  - injection E as <-. eexists. split; [done|]. intros o [<-|[]]; eauto.
  - injection E as <-. eexists. split; [done|]. intros o [<-|[]]; eauto.
  - injection E as <-. eexists. split; [done|]. intros o [<-|[]]; eauto.
Qed.
Lemma holds_app os ops : (forall o, In o ops -> harmless o) -> holds os -> holds (os ++ ops).
Proof.
  revert os. induction ops as [|o ops IH]; intros os Ho Hh; [by rewrite app_nil_r|].
  replace (os ++ o :: ops) with ((os ++ [o]) ++ ops) by (by rewrite <- app_assoc).
  apply IH; [intros; apply Ho; by right|]. apply holds_step; [apply Ho; by left|done].
Qed.
(** An event keeps the permit. *)
Lemma holds_event l e :
  secret l -> (forall h' t, e <> LMarshalIssue h' t permit) -> (forall t, e <> LBrokerValidate hb t) ->
  (forall t, e = LClean t -> (t <= t3 + 30)%N) -> (forall h' t, e = LMarshalPlace h' t -> (t <= t3 + 30)%N) ->
  holds (w_disc (l_w l)) -> holds (w_disc (l_w (l_step l e).1)).
Proof.
  intros Hs H1 H2 H3 H4 Hh. destruct (l_disc_step l e) as (ops & -> & Hops). apply holds_app; [|done].
  intros o Ho. specialize (Hops o Ho). destruct o; cbn; try done.
  - destruct Hops as (h' & He & _). intros ->. by destruct (H1 h' now).
  - destruct Hops as [He|[h' He]]; eauto.
  - destruct Hops as (h' & He & Hb). intros ->. apply (s_val _ Hs) in Hb as ->. by destruct (H2 now).
Qed.
(** The number was not issued before. *)
Definition unissued (l : lworld) : Prop := forall now b' ttl k, ~ In (DIssue now b' permit ttl k) (w_disc (l_w l)).
Lemma unissued_step l e : (forall h' t, e <> LMarshalIssue h' t permit) -> unissued l -> unissued (l_step l e).1.
Proof.
  intros He Hn now b' ttl k. destruct (l_disc_step l e) as (ops & -> & Hops). rewrite in_app_iff. intros [Hin|Hin]; [by eapply Hn|].
  specialize (Hops _ Hin). destruct Hops as (h' & -> & _). by destruct (He h' now).
Qed.
Lemma unissued_ok l : unissued l -> d_issue_ok (w_disc (l_w l)) permit = true.
Proof.
  intros Hn. unfold AuthModel.d_issue_ok. destruct redis; [done|]. apply bool_decide_eq_true.
  destruct (e_permits _ !! permit) as [r|] eqn:E; [|done]. apply e_origin in E as (os1 & now & b' & ttl & os2 & Heq & _).
  destruct (Hn now b' ttl (pr_key r)). rewrite Heq, in_app_iff. right. by left.
Qed.

(** * The stages of a login *)
Variable p : pk.
Variable canon : bytes.
Variable t0 t1 t2 t4 : N.
Notation L := (login u h hb b t0 t1 t2 t3 permit t4).
Notation key := (u_key u).

Definition at_user (k : nat) : option ustate :=
  match k with
  | 0 => None | 1 | 2 | 3 | 4 | 5 => Some (UWaitMarshal h) | 6 => Some (UGranted (bpub b) permit)
  | 7 | 8 | 9 => Some (UWaitBroker hb) | _ => Some (UConnected hb)
  end.
Definition at_mconn (k : nat) : option mconn :=
  match k with 0 => None | 1 => Some (MConn [request u t0] []) | 5 => Some (MConn [] [MAuthResponse permit (bpub b)]) | _ => Some (MConn [] []) end.
Definition at_bconn (k : nat) : option bconn :=
  match k with
  | 0 | 1 | 2 | 3 | 4 | 5 | 6 => None | 7 => Some (BConn b [MAuthWithPermit permit] []) | 8 => Some (BConn b [] [])
  | 9 => Some (BConn b [] [MAuthResponse 1 []]) | 10 => Some (BConn b [MSubscribe (u_topics u)] []) | _ => Some (BConn b [] [])
  end.
Definition at_marshal (k : nat) : option mstate :=
  match k with 0 | 1 => None | 2 => Some (MChecked key canon) | 3 => Some (MAllowed key) | 4 => Some (MPlaced key b) | _ => Some MEnded end.
Definition at_broker (k : nat) : option bstate :=
  match k with
  | 0 | 1 | 2 | 3 | 4 | 5 | 6 | 7 => None | 8 => Some (BValidate b permit) | 9 | 10 => Some (BTopics b key) | _ => Some BEnded
  end.
Definition at_disc (k : nat) (l : lworld) : Prop :=
  match k with 0 | 1 | 2 | 3 | 4 => unissued l | 5 | 6 | 7 | 8 => holds (w_disc (l_w l)) | _ => True end.
Record stage (k : nat) (l : lworld) : Prop := {
  g_secret : secret l;
  g_gone_m : h ∉ l_gone_m l; g_gone_b : hb ∉ l_gone_b l;
  g_foreign_m : h ∉ l_foreign_m l; g_foreign_b : hb ∉ l_foreign_b l;
  g_user : l_users l !! u = at_user k;
  g_mconn : l_mconns l !! h = at_mconn k;
  g_bconn : l_bconns l !! hb = at_bconn k;
  g_marshal : w_marshal (l_w l) !! h = at_marshal k;
  g_broker : w_broker (l_w l) !! hb = at_broker k;
  g_disc : at_disc k l;
}.
Lemma stage0 : stage 0 lworld0.
Proof. split; try (cbn; by rewrite ?lookup_empty); try apply secret0; try (cbn; set_solver). intros n b' ttl k'. by intros []. Qed.

Lemma concerns_false e : concerns u h hb e = false ->
  u_actor e <> Some u /\ m_handler e <> Some h /\ b_handler e <> Some hb /\ e <> LDropM h /\ e <> LDropB hb /\ e <> LForeignM h
  /\ (forall b', e <> LForeignB hb b') /\ (forall u' now, e <> LStart u' h now) /\ (forall u' b', e <> LDial u' hb b').
Proof.
  destruct e; cbn; rewrite ?orb_false_iff, ?bool_decide_eq_false; intros He; repeat split; intros; try congruence; destruct He; congruence.
Qed.

(** Other events leave it at its stage. *)
Lemma stage_other k l e :
  concerns u h hb e = false -> keeps e ->
  (5 <= k <= 8 -> (forall t, e = LClean t -> (t <= t3 + 30)%N) /\ (forall h' t, e = LMarshalPlace h' t -> (t <= t3 + 30)%N)) ->
  stage k l -> stage k (l_step l e).1.
Proof.
  intros Hc Hk Hcl [Hs G1 G2 G3 G4 G5 G6 G7 G8 G9 G10].
  apply concerns_false in Hc as (C1 & C2 & C3 & C4 & C5 & C6 & C7 & C8 & C9).
  assert (Hni : forall h' t, e <> LMarshalIssue h' t permit).
  { intros h' t He. assert (h' = h) as -> by (by apply (proj1 Hk h' t)). subst e. by apply C2. }
  split.
  - by apply secret_step.
  - by rewrite gone_m_other.
  - by rewrite gone_b_other.
  - by rewrite foreign_m_other.
  - by rewrite foreign_b_other.
  - by rewrite users_other.
  - rewrite mconns_other; try done. intros u' -> Hu. apply (s_m _ Hs) in Hu as ->. by apply C1.
  - rewrite bconns_other; try done. intros u' -> Hu. apply (s_b _ Hs) in Hu as ->. by apply C1.
  - by rewrite w_marshal_other.
  - by rewrite w_broker_other.
  - assert (Hu : unissued l -> unissued (l_step l e).1) by (by apply unissued_step).
    assert (Hh : 5 <= k <= 8 -> holds (w_disc (l_w l)) -> holds (w_disc (l_w (l_step l e).1))).
    { intros Hle. destruct (Hcl Hle) as [Hc1 Hc2]. apply holds_event; try done. intros t ->. by apply C3. }
    destruct k as [|[|[|[|[|[|[|[|[|k]]]]]]]]]; cbn in *; auto; apply Hh; try done; lia.
Qed.

(** Its own events take it to the next stage. *)
Lemma stage_own k l e :
  L !! k = Some e -> stage k l ->
  pk_deser key = Some p -> pk_ser p = Some canon -> (forall m, verify p m (u_sign u m) = true) -> age_ok debug t1 t0 = true ->
  (k = 2 -> d_whitelisted (w_disc (l_w l)) canon = true) ->
  (k = 3 -> d_least (w_disc (l_w l)) t2 = Some b) ->
  (permit < 2 ^ 32)%N -> (t4 < t3 + 30)%N ->
  stage (S k) (l_step l e).1 /\ (k = 10 -> (l_step l e).2 = Some (b, key, u_topics u)).
Proof.
  intros HL [Hs G1 G2 G3 G4 G5 G6 G7 G8 G9 G10] Hd Hser Hver Hage Hwl Hle Hp32 Ht4.
  assert (Hin : In e L) by (by apply elem_of_list_In, elem_of_list_lookup_2 with k).
  assert (Hkeep : keeps e).
  { unfold login in Hin. cbn in Hin. repeat split.
    - intros h' t ->. intuition congruence.
    - intros h' ->. intuition congruence.
    - right. intuition (subst; auto). }
  assert (Hb : broken_off l e = false).
  { unfold login in Hin. cbn in Hin. unfold broken_off. intuition (subst; cbn; try apply bool_decide_eq_false; done). }
  assert (Hs' : secret (l_step l e).1) by (by apply secret_step).
  assert (G1' : h ∉ l_gone_m (l_step l e).1) by (rewrite gone_m_other; [done|intros ->; cbn in Hin; intuition congruence]).
  assert (G2' : hb ∉ l_gone_b (l_step l e).1) by (rewrite gone_b_other; [done|intros ->; cbn in Hin; intuition congruence]).
  assert (G3' : h ∉ l_foreign_m (l_step l e).1) by (rewrite foreign_m_other; [done|intros ->; cbn in Hin; intuition congruence]).
  assert (G4' : hb ∉ l_foreign_b (l_step l e).1) by (rewrite foreign_b_other; [done|intros b0 ->; cbn in Hin; intuition congruence]).
  assert (Hun : (forall t, e <> LMarshalIssue h t permit) -> unissued l -> unissued (l_step l e).1).
  { intros He. apply unissued_step. intros h' t He'. assert (h' = h) as -> by (by apply (proj1 Hkeep h' t)). by apply (He t). }
  assert (Hho : (forall t, e <> LMarshalIssue h t permit) -> (forall t, e <> LBrokerValidate hb t) -> (forall t, e <> LMarshalPlace h t) ->
    holds (w_disc (l_w l)) -> holds (w_disc (l_w (l_step l e).1))).
  { intros He1 He2 He3. apply holds_event; try done.
    - intros h' t He'. assert (h' = h) as -> by (by apply (proj1 Hkeep h' t)). by apply (He1 t).
    - intros t ->. cbn in Hin. intuition congruence.
    - intros h' t ->. cbn in Hin. assert (h' = h) as -> by intuition congruence. by destruct (He3 t). }
  assert (Hmake : forall k', l_users (l_step l e).1 !! u = at_user k' -> l_mconns (l_step l e).1 !! h = at_mconn k' -> l_bconns (l_step l e).1 !! hb = at_bconn k' ->
    w_marshal (l_w (l_step l e).1) !! h = at_marshal k' -> w_broker (l_w (l_step l e).1) !! hb = at_broker k' -> at_disc k' (l_step l e).1 -> stage k' (l_step l e).1) by (by intros; split).
  destruct k as [|[|[|[|[|[|[|[|[|[|[|k]]]]]]]]]]]; try (injection HL as <-); try done;
    cbn [at_user at_mconn at_bconn at_marshal at_broker at_disc] in *; (split; [|try done]).
  - apply Hmake.
    all: unfold LoginModel.l_step; rewrite ?Hb; cbn [LoginModel.l_act]; rewrite ?G5, ?G6; cbn; rewrite ?lookup_insert; try done.
  - (* the request is received *)
    assert (Hreq : check_request pk_deser verify debug ns_user t1 (request u t0) = Some (p, key)).
    { apply check_request_spec. exists t0, (u_sign u (signed_bytes ns_user t0)). split; [done|]. split; [done|]. split; [apply Hver|done]. }
    assert (Hw : (a_step (l_w l) (AMarshalRecv h t1 (request u t0))).1 = set_m h (MChecked key canon) (l_w l)).
    { cbn [AuthModel.a_step]. by rewrite G8, Hreq, Hser. }
    apply Hmake.
    + by rewrite users_other.
    + unfold LoginModel.l_step. rewrite Hb. cbn [LoginModel.l_act]. rewrite G6, G8. cbn [fst]. unfold m_done, LoginModel.act. cbn [l_w set_lw set_mconn].
      rewrite Hw. cbn. by rewrite !lookup_insert; cbn; rewrite lookup_insert.
    + by rewrite bconns_other.
    + rewrite l_w_step. unfold under. rewrite Hb, G8, G6, Hw. cbn. by rewrite lookup_insert.
    + by rewrite w_broker_other.
    + by apply Hun.
  - (* the whitelist *)
    assert (Hw : (a_step (l_w l) (AMarshalWhitelist h)).1 = set_m h (MAllowed key) (l_w l)).
    { cbn [AuthModel.a_step]. by rewrite G8, Hwl. }
    apply Hmake.
    + by rewrite users_other.
    + unfold LoginModel.l_step. rewrite Hb. cbn [LoginModel.l_act]. rewrite G8. cbn [fst]. unfold m_done, LoginModel.act. cbn [l_w set_lw].
      rewrite Hw. cbn. by rewrite !lookup_insert; cbn; rewrite G6.
    + by rewrite bconns_other.
    + rewrite l_w_step. unfold under. rewrite Hb, G8, Hw. cbn. by rewrite lookup_insert.
    + by rewrite w_broker_other.
    + by apply Hun.
  - (* the broker *)
    assert (Hw : w_marshal (a_step (l_w l) (AMarshalPlace h t2)).1 !! h = Some (MPlaced key b)).
    { cbn [AuthModel.a_step]. rewrite G8, Hle by done. cbn. by rewrite lookup_insert. }
    apply Hmake.
    + by rewrite users_other.
    + unfold LoginModel.l_step. rewrite Hb. cbn [LoginModel.l_act]. rewrite G8. cbn [fst]. unfold m_done, LoginModel.act. cbn [l_w set_lw].
      rewrite Hw. cbn. done.
    + by rewrite bconns_other.
    + rewrite l_w_step. unfold under. by rewrite Hb, G8, Hw.
    + by rewrite w_broker_other.
    + by apply Hun.
  - (* the permit *)
    assert (Hok : d_issue_ok (w_disc (l_w l)) permit = true) by (by apply unissued_ok).
    assert (Hw : (a_step (l_w l) (AMarshalIssue h t3 permit)).1 = set_m h MEnded (log_d (DIssue t3 b permit 30 key) (l_w l))).
    { cbn [AuthModel.a_step]. by rewrite G8, Hok. }
    apply Hmake.
    + by rewrite users_other.
    + unfold LoginModel.l_step. rewrite Hb. cbn [LoginModel.l_act]. rewrite G8, Hok. cbn [fst]. by rewrite (m_say_eq _ _ (act _ _) _ G6).
    + by rewrite bconns_other.
    + rewrite l_w_step. unfold under. rewrite Hb, G8, Hw. cbn. by rewrite lookup_insert.
    + by rewrite w_broker_other.
    + cbn [at_disc]. rewrite l_w_step. unfold under. rewrite Hb, G8, Hw. cbn. by apply holds_issue.
  - (* the marshal's answer *)
    assert (Hg : read_grant (MAuthResponse permit (bpub b)) = Some (bpub b, permit)).
    { cbn. destruct (N.ltb_spec 1 permit); [done|lia]. }
    apply Hmake.
    + unfold LoginModel.l_step. rewrite Hb. cbn [LoginModel.l_act]. rewrite G5, G6, Hg. cbn. by rewrite lookup_insert.
    + unfold LoginModel.l_step. rewrite Hb. cbn [LoginModel.l_act]. rewrite G5, G6. cbn. by rewrite lookup_insert.
    + rewrite bconns_other; done.
    + by rewrite w_marshal_other.
    + by rewrite w_broker_other.
    + by apply Hho.
  - (* the connection to the broker *)
    apply Hmake.
    + unfold LoginModel.l_step. rewrite Hb. cbn [LoginModel.l_act]. rewrite G5, G7, decide_True by done. cbn. by rewrite lookup_insert.
    + rewrite mconns_other; done.
    + unfold LoginModel.l_step. rewrite Hb. cbn [LoginModel.l_act]. rewrite G5, G7, decide_True by done. cbn. by rewrite lookup_insert.
    + by rewrite w_marshal_other.
    + by rewrite w_broker_other.
    + by apply Hho.
  - (* the permit is received *)
    assert (Hw : (a_step (l_w l) (ABrokerRecv hb b (MAuthWithPermit permit))).1 = set_b hb (BValidate b permit) (l_w l)).
    { cbn [AuthModel.a_step]. by rewrite G9. }
    apply Hmake.
    + by rewrite users_other.
    + rewrite mconns_other; done.
    + unfold LoginModel.l_step. rewrite Hb. cbn [LoginModel.l_act]. rewrite G9, G7. cbn [fst]. unfold b_done, LoginModel.act. cbn [l_w set_lw set_bconn].
      rewrite Hw. cbn. by rewrite !lookup_insert; cbn; rewrite lookup_insert.
    + by rewrite w_marshal_other.
    + rewrite l_w_step. unfold under. rewrite Hb, G9, G7, Hw. cbn. by rewrite lookup_insert.
    + by apply Hho.
  - (* and validated *)
    assert (Ha : d_answer (w_disc (l_w l)) (DTake t4 b permit) = Some key) by (by apply holds_answer).
    apply Hmake.
    + by rewrite users_other.
    + rewrite mconns_other; done.
    + unfold LoginModel.l_step. rewrite Hb. cbn [LoginModel.l_act]. rewrite G9, Ha. cbn [fst]. by rewrite (b_say_eq _ _ (act _ _) _ G7).
    + by rewrite w_marshal_other.
    + rewrite l_w_step. unfold under. rewrite Hb, G9. cbn [AuthModel.a_step]. rewrite G9, Ha, Hd. cbn. by rewrite lookup_insert.
    + done.
  - (* the broker's answer *)
    apply Hmake.
    + unfold LoginModel.l_step. rewrite Hb. cbn [LoginModel.l_act]. rewrite G5, G7. cbn. by rewrite lookup_insert.
    + rewrite mconns_other; done.
    + unfold LoginModel.l_step. rewrite Hb. cbn [LoginModel.l_act]. rewrite G5, G7. cbn. by rewrite lookup_insert.
    + by rewrite w_marshal_other.
    + by rewrite w_broker_other.
    + done.
  - (* the topics *)
    apply Hmake.
    + by rewrite users_other.
    + rewrite mconns_other; done.
    + unfold LoginModel.l_step. rewrite Hb. cbn [LoginModel.l_act]. rewrite G9, G7. cbn [fst].
      assert (Hr : (a_step (l_w l) (ABrokerTopics hb (MSubscribe (u_topics u)))).2 = Some (b, key, u_topics u)) by (cbn [AuthModel.a_step]; by rewrite G9).
      rewrite Hr. cbn. by rewrite lookup_insert.
    + by rewrite w_marshal_other.
    + rewrite l_w_step. unfold under. rewrite Hb, G9, G7. cbn [AuthModel.a_step]. rewrite G9. cbn. by rewrite lookup_insert.
    + done.
  - intros _. rewrite l_out_step. unfold under. rewrite Hb, G9, G7. cbn [AuthModel.a_step]. by rewrite G9.
Qed.

(** * Every prefix is at some stage *)
Variable es : list lev.
Hypothesis Hes : List.filter (concerns u h hb) es = L.
Hypothesis Hd : pk_deser key = Some p.
Hypothesis Hser : pk_ser p = Some canon.
Hypothesis Hver : forall m, verify p m (u_sign u m) = true.
Hypothesis Hage : age_ok debug t1 t0 = true.
Hypothesis Hwl : forall es1 es2, es = es1 ++ LMarshalWhitelist h :: es2 -> d_whitelisted (w_disc (l_w (l_run es1))) canon = true.
Hypothesis Hle : forall es1 es2, es = es1 ++ LMarshalPlace h t2 :: es2 -> d_least (w_disc (l_w (l_run es1))) t2 = Some b.
Hypothesis Hp32 : (permit < 2 ^ 32)%N.
Hypothesis Hone : forall h' t, In (LMarshalIssue h' t permit) es -> h' = h.
Hypothesis Hguess : forall h', ~ In (LSendB h' (MAuthWithPermit permit)) es.
Hypothesis Hclean : forall es1 es2 es3, es = es1 ++ LMarshalIssue h t3 permit :: es2 ++ LBrokerValidate hb t4 :: es3 ->
  forall t, In (LClean t) es2 \/ (exists h', In (LMarshalPlace h' t) es2) -> (t <= t3 + 30)%N.
Hypothesis Ht4 : (t4 < t3 + 30)%N.

Lemma stage_prefix pre post : es = pre ++ post ->
  stage (length (List.filter (concerns u h hb) pre)) (l_run pre)
  /\ forall e post', post = e :: post' -> concerns u h hb e = true -> L !! length (List.filter (concerns u h hb) pre) = Some e.
Proof.
  revert post. induction pre as [|e pre IH] using rev_ind; intros post Heq.
  - split; [apply stage0|]. intros e post' -> Hc. cbn in Heq. rewrite <- Hes, Heq. cbn. by rewrite Hc.
  - assert (Heq' : es = pre ++ e :: post) by (by rewrite Heq, <- app_assoc).
    destruct (IH (e :: post) Heq') as [Hst Hnext]. clear IH.
    split.
    2:{ intros e' post' -> Hc. rewrite <- Hes, Heq, (List.filter_app _ _ (e' :: post')). cbn [List.filter]. rewrite Hc. by apply list_lookup_middle. }
    rewrite List.filter_app, app_length, l_run_snoc. cbn [List.filter].
    assert (Hin : In e es) by (rewrite Heq', in_app_iff; right; by left).
    destruct (concerns u h hb e) eqn:Hc.
    + rewrite Nat.add_1_r. pose proof (Hnext e post eq_refl Hc) as HLk.
      refine (proj1 (stage_own _ _ _ HLk Hst Hd Hser Hver Hage _ _ Hp32 Ht4)); intros Hk; rewrite Hk in HLk; injection HLk as <-.
      * by apply (Hwl pre post).
      * by apply (Hle pre post).
    + rewrite Nat.add_0_r. apply stage_other; try done.
      * split; [intros h' t ->; by eapply Hone|]. split; [|by left]. intros h' ->. by eapply Hguess.
      * intros Hk.
        assert (Hi : In (LMarshalIssue h t3 permit) pre /\ In (LBrokerValidate hb t4) post).
        { assert (HL : List.filter (concerns u h hb) pre ++ List.filter (concerns u h hb) post = L).
          { rewrite <- Hes, Heq', List.filter_app. cbn. by rewrite Hc. }
          assert (H1 : L !! 4 = Some (LMarshalIssue h t3 permit)) by done. assert (H2 : L !! 8 = Some (LBrokerValidate hb t4)) by done.
          rewrite <- HL in H1, H2. rewrite lookup_app_l in H1 by lia. rewrite lookup_app_r in H2 by lia.
          apply elem_of_list_lookup_2, elem_of_list_In, filter_In in H1 as [H1 _]. apply elem_of_list_lookup_2, elem_of_list_In, filter_In in H2 as [H2 _]. done. }
        destruct Hi as [(a1 & a2 & ->)%in_split (c1 & c2 & ->)%in_split].
        assert (Hall : forall t, In (LClean t) (a2 ++ e :: c1) \/ (exists h', In (LMarshalPlace h' t) (a2 ++ e :: c1)) -> (t <= t3 + 30)%N).
        { apply (Hclean a1 (a2 ++ e :: c1) c2). rewrite Heq'. by rewrite <- !app_assoc. }
        split; [intros t ->; apply Hall; left|intros h' t ->; apply Hall; right; exists h']; apply in_app_iff; right; by left.
Qed.

Lemma login_succeeds :
  (exists es1 es2, es = es1 ++ LBrokerTopics hb :: es2 /\ l_admits es1 (LBrokerTopics hb) = Some (b, key, u_topics u))
  /\ l_users (l_run es) !! u = Some (UConnected hb).
Proof.
  assert (Hall : stage 11 (l_run es)).
  { destruct (stage_prefix es [] (eq_sym (app_nil_r es))) as [H _]. by rewrite Hes in H. }
  split; [|by rewrite (g_user _ _ Hall)].
  assert (Hin : In (LBrokerTopics hb) es).
  { assert (HL : L !! 10 = Some (LBrokerTopics hb)) by done. rewrite <- Hes in HL. by apply elem_of_list_lookup_2, elem_of_list_In, filter_In in HL as [HL _]. }
  apply in_split in Hin as (es1 & es2 & Heq). exists es1, es2. split; [done|].
  destruct (stage_prefix es1 _ Heq) as [Hst Hnext].
  assert (Hc : concerns u h hb (LBrokerTopics hb) = true) by (cbn; by apply bool_decide_eq_true).
  specialize (Hnext _ _ eq_refl Hc). remember (length (List.filter (concerns u h hb) es1)) as k eqn:Hk.
  destruct k as [|[|[|[|[|[|[|[|[|[|[|k]]]]]]]]]]]; try discriminate Hnext.
  refine (proj2 (stage_own _ _ _ Hnext Hst Hd Hser Hver Hage _ _ Hp32 Ht4) eq_refl); done.
Qed.
End one.
End login.
