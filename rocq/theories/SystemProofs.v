(** Proofs about the whole system: its two halves, who is registered, who reads and who writes. *)
From stdpp Require Import gmap list.
From Coq Require Import NArith Lia.
From Verif Require Import IdModel VMapModel ConnModel ConnSpec TopicModel MsgModel DiscModel AuthModel AuthSpec AuthProofs LoginModel LoginSpec LoginProofs
  LoginSteps LoginOrigin LoginComplete LoginSound LoginClaims RouteModel TaskModel TaskProofs TaskOrder NetModel NetProofs NetOrigin NetDelivery SystemModel SystemSpec.

(** * A receive loop of a user has been authenticated *)
Section loops.
Variable deser : bytes -> option message.
Variable dec_users : bytes -> option direct_map.
Variable dec_topics : bytes -> option topic_map.
Variable valid : N -> bool.
Notation m_run := (m_run deser dec_users dec_topics valid).
Notation m_step := (m_step deser dec_users dec_topics valid).
Lemma loop_step m e h t u c : m_tasks (m_step m e) !! h = Some t -> t_owner t = OUser u c ->
  (exists t', m_tasks m !! h = Some t' /\ t_owner t' = OUser u c) \/ exists hh ts, e = EUserAuthed h hh u c ts.
Proof.
  assert (Hins : forall (ms : gmap N task) h1 t1, <[h1 := t1]> ms !! h = Some t -> t_owner t = OUser u c ->
    (t_owner t1 = OUser u c /\ h1 = h) \/ (exists t', ms !! h = Some t' /\ t_owner t' = OUser u c)).
  { intros ms h1 t1. destruct (decide (h1 = h)) as [->|Hn]; [rewrite lookup_insert; intros [= ->]; by left|].
    rewrite lookup_insert_ne by done. right. by eauto. }
  intros Ht Ho. destruct e as [h1 hh1 u1 c1 ts1|h1 hh1 b1 c1|hh1|hh1 u1|h1 raw hk|h1|h1 good|h1]; cbn [TaskModel.m_step] in Ht.
  - case_decide; [|by left; eauto]. cbn in Ht. apply Hins in Ht as [[??]|(t2 & Ht2 & Ho2)]; [done| |done].
    destruct (decide (h1 = h)) as [->|Hn]; [|rewrite lookup_insert_ne in Ht2 by done; by left; eauto].
    rewrite lookup_insert in Ht2. injection Ht2 as <-. injection Ho2 as -> ->. right. by eauto.
  - case_decide; [|by left; eauto]. cbn in Ht. apply Hins in Ht as [[??]|(t2 & Ht2 & Ho2)]; [done| |done].
    destruct (decide (h1 = h)) as [->|Hn]; [|rewrite lookup_insert_ne in Ht2 by done; by left; eauto].
    rewrite lookup_insert in Ht2. by injection Ht2 as <-.
  - destruct (m_tasks m !! hh1) eqn:E; [by left; eauto|]. cbn in Ht. apply Hins in Ht as [[??]|?]; [done|by left|done].
  - destruct (m_tasks m !! hh1) eqn:E; [by left; eauto|]. cbn in Ht. apply Hins in Ht as [[??]|?]; [done|by left|done].
  - destruct (m_tasks m !! h1) as [[o [|] [] n]|] eqn:E; try (by left; eauto).
    destruct (loop_frame _ _ _ _ _ _ _) as [acts go]. cbn in Ht. apply Hins in Ht as [[Ho1 ->]|?]; [|by left|done]. left. eauto.
  - destruct (m_tasks m !! h1) as [[o [|] [] n]|] eqn:E; try (by left; eauto).
    cbn in Ht. apply Hins in Ht as [[Ho1 ->]|?]; [|by left|done]. left. eauto.
  - destruct (m_tasks m !! h1) as [[o [|a rest] op n]|] eqn:E; try (by left; eauto).
    destruct (act_step _ _ _) as [[s' nxt] em]. cbn in Ht. apply Hins in Ht as [[Ho1 ->]|?]; [|by left|done]. left. eauto.
  - destruct (m_tasks m !! h1) as [[o acts op n]|] eqn:E; [|by left; eauto]. case_decide; [|by left; eauto].
    cbn in Ht. apply Hins in Ht as [[Ho1 ->]|?]; [|by left|done]. left. eauto.
Qed.
Lemma loop_authed i es h t u c : m_tasks (m_run i es) !! h = Some t -> t_owner t = OUser u c -> exists hh ts, In (EUserAuthed h hh u c ts) es.
Proof.
  revert t. induction es as [|e es IH] using rev_ind; intros t; [done|]. unfold TaskModel.m_run. rewrite fold_left_app. cbn [fold_left]. intros Ht Ho.
  destruct (loop_step _ _ _ _ _ _ Ht Ho) as [(t' & Ht' & Ho')|(hh & ts & ->)].
  - destruct (IH _ Ht' Ho') as (hh & ts & Hin). exists hh, ts. apply in_app_iff. by left.
  - exists hh, ts. apply in_app_iff. right. by left.
Qed.
End loops.

Section sys.
Context {pk : Type} `{EqDecision pk}.
Variable pk_deser : bytes -> option pk.
Variable pk_ser : pk -> option bytes.
Variable verify : pk -> bytes -> bytes -> bool.
Variable debug global redis : bool.
Variable u_key : N -> bytes.
Variable u_sign : N -> bytes -> bytes.
Variable u_topics : N -> list N.
Variable deser : bytes -> option message.
Variable dec_users : bytes -> option direct_map.
Variable dec_topics : bytes -> option topic_map.
Variable valid : N -> bool.
Variable enc_users : direct_map -> bytes.
Variable enc_topics : topic_map -> bytes.
Notation l_step := (l_step pk_deser pk_ser verify debug global redis u_key u_sign u_topics).
Notation l_run := (l_run pk_deser pk_ser verify debug global redis u_key u_sign u_topics).
Notation l_admits := (l_admits pk_deser pk_ser verify debug global redis u_key u_sign u_topics).
Notation l_run_snoc := (l_run_snoc pk_deser pk_ser verify debug global redis u_key u_sign u_topics).
Notation l_w_step := (l_w_step pk_deser pk_ser verify debug global redis u_key u_sign u_topics).
Notation n_step := (n_step deser dec_users dec_topics valid enc_users enc_topics).
Notation n_run := (n_run deser dec_users dec_topics valid enc_users enc_topics).
Notation s_step := (s_step pk_deser pk_ser verify debug global redis u_key u_sign u_topics deser dec_users dec_topics valid enc_users enc_topics).
Notation s_run := (s_run pk_deser pk_ser verify debug global redis u_key u_sign u_topics deser dec_users dec_topics valid enc_users enc_topics).
Notation opened := (opened pk_deser pk_ser verify debug global redis u_key u_sign u_topics).
Notation dialled := (dialled pk_deser pk_ser verify debug global redis u_key u_sign u_topics).
Notation issued_on := (issued_on pk_deser pk_ser verify debug global redis u_key u_sign u_topics).
Notation asked := (asked pk_deser pk_ser verify debug global redis u_key u_sign u_topics).
Notation validated_on := (validated_on pk_deser pk_ser verify debug global redis u_key u_sign u_topics).
Notation cleared := (cleared pk_deser pk_ser verify debug global redis u_key u_sign u_topics).
Notation admitted := (admitted pk_deser pk_ser verify debug global redis u_key u_sign u_topics).
Notation kept := (kept pk_deser pk_ser verify debug global redis u_key u_sign u_topics).
Notation broker_at := (broker_at deser dec_users dec_topics valid).
Notation loop_of := (loop_of deser dec_users dec_topics valid).
Notation comes_from := (comes_from deser dec_users dec_topics valid).

(** * Whitelisting *)
Lemma cleared_app ls l h k : cleared ls h k -> cleared (ls ++ l) h k.
Proof. intros (ls1 & ls2 & q & canon & -> & ?). exists ls1, (ls2 ++ l), q, canon. by rewrite <- app_assoc. Qed.
Lemma checked_step l e h k canon : w_marshal (l_w (l_step l e).1) !! h = Some (MChecked k canon) ->
  w_marshal (l_w l) !! h = Some (MChecked k canon) \/ exists q, pk_deser k = Some q /\ pk_ser q = Some canon.
Proof.
  destruct (decide (m_handler e = Some h)) as [He|He]; [|rewrite w_marshal_other by done; by eauto].
  rewrite l_w_step. unfold under. destruct (broken_off l e); [by eauto|].
  destruct e; try done; injection He as ->.
  - destruct (w_marshal (l_w l) !! h) as [s0|] eqn:Es; [rewrite Es; by eauto|].
    destruct (l_mconns l !! h) as [[[|m0 i0] o0]|] eqn:Ec; try (rewrite Es; by eauto).
    cbn [AuthModel.a_step]. rewrite Es. destruct (check_request _ _ _ ns_user now m0) as [[q key]|] eqn:Eq; [|cbn; by rewrite lookup_insert].
    destruct (pk_ser q) eqn:Ep; cbn; rewrite lookup_insert; [|done]. intros [= -> ->]. right.
    apply check_request_spec in Eq as (ts & sig & _ & Hd & _). by exists q.
  - destruct (w_marshal (l_w l) !! h) as [s0|] eqn:Es; [|by rewrite Es]. destruct s0; try (rewrite Es; by eauto).
    cbn [AuthModel.a_step]. rewrite Es. cbn. rewrite lookup_insert. by case_match.
  - destruct (w_marshal (l_w l) !! h) as [s0|] eqn:Es; [|by rewrite Es]. destruct s0; try (rewrite Es; by eauto).
    cbn [AuthModel.a_step]. rewrite Es. cbn. rewrite lookup_insert. by case_match.
  - destruct (w_marshal (l_w l) !! h) as [s0|] eqn:Es; [|by rewrite Es]. destruct s0; try (rewrite Es; by eauto).
    cbn [AuthModel.a_step]. rewrite Es. destruct (d_issue_ok _ _); cbn; by rewrite lookup_insert.
Qed.
Lemma checked_run ls h k canon : w_marshal (l_w (l_run ls)) !! h = Some (MChecked k canon) -> exists q, pk_deser k = Some q /\ pk_ser q = Some canon.
Proof. induction ls as [|e ls IH] using rev_ind; [done|]. rewrite l_run_snoc. intros [?|?]%checked_step; auto. Qed.
Definition past_whitelist (s : mstate) (k : bytes) : Prop := s = MAllowed k \/ exists b, s = MPlaced k b.
Lemma past_whitelist_step l e h s k : w_marshal (l_w (l_step l e).1) !! h = Some s -> past_whitelist s k ->
  (exists s0, w_marshal (l_w l) !! h = Some s0 /\ past_whitelist s0 k)
  \/ (exists canon, e = LMarshalWhitelist h /\ w_marshal (l_w l) !! h = Some (MChecked k canon) /\ d_whitelisted global redis (w_disc (l_w l)) canon = true).
Proof.
  unfold past_whitelist.
  destruct (decide (m_handler e = Some h)) as [He|He]; [|rewrite w_marshal_other by done; by eauto].
  rewrite l_w_step. unfold under. destruct (broken_off l e); [by eauto|].
  destruct e; try done; injection He as ->.
  - destruct (w_marshal (l_w l) !! h) as [s0|] eqn:Es; [rewrite Es; by eauto|].
    destruct (l_mconns l !! h) as [[[|m0 i0] o0]|] eqn:Ec; try (rewrite Es; by eauto).
    cbn [AuthModel.a_step]. rewrite Es. destruct (check_request _ _ _ ns_user now m0) as [[q key]|] eqn:Eq; [|cbn; rewrite lookup_insert; intros [= <-] [?|[??]]; done].
    destruct (pk_ser q) eqn:Ep; cbn; rewrite lookup_insert; intros [= <-] [?|[??]]; done.
  - destruct (w_marshal (l_w l) !! h) as [s0|] eqn:Es; [|by rewrite Es]. destruct s0; try (rewrite Es; by eauto).
    cbn [AuthModel.a_step]. rewrite Es. cbn. rewrite lookup_insert. case_match eqn:Ew; intros [= <-] [Hk|[? Hk]]; try done.
    injection Hk as ->. right. by eauto.
  - destruct (w_marshal (l_w l) !! h) as [s0|] eqn:Es; [|by rewrite Es]. destruct s0; try (rewrite Es; by eauto).
    cbn [AuthModel.a_step]. rewrite Es. cbn. rewrite lookup_insert. case_match eqn:Ew; intros [= <-] [Hk|[? Hk]]; try done.
    injection Hk as -> ->. left. eauto.
  - destruct (w_marshal (l_w l) !! h) as [s0|] eqn:Es; [|by rewrite Es]. destruct s0; try (rewrite Es; by eauto).
    cbn [AuthModel.a_step]. rewrite Es. destruct (d_issue_ok _ _); cbn; rewrite lookup_insert; intros [= <-] [?|[??]]; done.
Qed.
Lemma past_whitelist_run ls h s k : w_marshal (l_w (l_run ls)) !! h = Some s -> past_whitelist s k -> cleared ls h k.
Proof.
  revert s. induction ls as [|e ls IH] using rev_ind; intros s; [done|]. rewrite l_run_snoc. intros Hs Hp.
  destruct (past_whitelist_step _ _ _ _ _ Hs Hp) as [(s0 & Hs0 & Hp0)|(canon & -> & Hc & Hw)]; [by eapply cleared_app, IH|].
  destruct (checked_run _ _ _ _ Hc) as (q & Hd & Hq). by exists ls, [], q, canon.
Qed.
Lemma issued_cleared ls h p k b : issued_on ls h p k b -> cleared ls h k.
Proof. intros (ls1 & t & ls2 & -> & Hw & _). apply cleared_app. eapply past_whitelist_run; [exact Hw|]. right. by eexists. Qed.
Lemma admits_admitted ls1 ls2 c b k ts : l_admits ls1 (LBrokerTopics c) = Some (b, k, ts) -> admitted (ls1 ++ LBrokerTopics c :: ls2) c b k ts.
Proof.
  intros Ha. destruct (registered_means pk_deser pk_ser verify debug global redis u_key u_sign u_topics _ _ _ _ _ Ha) as (hb & p & h & b0 & [= <-] & Hv & Hi & Hg & Hk & _).
  exists ls1, ls2, p, h, b0. split; [done|]. split; [done|]. split; [done|]. split; [by eapply issued_cleared|]. done.
Qed.
Lemma admitted_app ls l c b k ts : admitted ls c b k ts -> admitted (ls ++ l) c b k ts.
Proof. intros (ls1 & ls2 & p & h & b0 & -> & ?). exists ls1, (ls2 ++ l), p, h, b0. by rewrite <- app_assoc. Qed.

(** * The two halves *)
Lemma s_run_snoc es e : s_run (es ++ [e]) = s_step (s_run es) e.
Proof. unfold SystemModel.s_run. by rewrite fold_left_app. Qed.
Lemma logins_app es1 es2 : logins (es1 ++ es2) = logins es1 ++ logins es2.
Proof. apply flat_map_app. Qed.
Lemma s_login_run es : s_login (s_run es) = l_run (logins es).
Proof.
  induction es as [|e es IH] using rev_ind; [done|]. rewrite s_run_snoc, logins_app. destruct e as [e h hh|e]; cbn [logins flat_map app].
  - rewrite l_run_snoc, <- IH. cbn. by destruct (l_step _ _).
  - rewrite app_nil_r, <- IH. by destruct e.
Qed.
(** The network of a run is that of events among which users appear only where a login has
    registered them, and the others are those of the run. *)
Definition matches (es : list sev) (e : nevent) : Prop :=
  match e with
  | NUser b h hh k c ts => admitted (logins es) c b k ts
  | e => In (SNet e) es
  end.
Lemma matches_snoc es e x : matches es x -> matches (es ++ [e]) x.
Proof.
  destruct x; cbn; try (intros; apply in_app_iff; by left). intros Ha. rewrite logins_app. by apply admitted_app.
Qed.
Lemma s_net_run es : exists ns, s_net (s_run es) = n_run ns /\ forall e, In e ns -> matches es e.
Proof.
  induction es as [|e es (ns & Hn & Hm)] using rev_ind; [by exists []|]. rewrite s_run_snoc.
  assert (Hkeep : forall n, s_net (s_step (s_run es) e) = n -> n = s_net (s_run es) -> exists ns, s_net (s_step (s_run es) e) = n_run ns /\ forall x, In x ns -> matches (es ++ [e]) x).
  { intros n -> ->. exists ns. split; [done|]. intros x Hx. by apply matches_snoc, Hm. }
  assert (Hadd : forall x, s_net (s_step (s_run es) e) = n_step (s_net (s_run es)) x -> matches (es ++ [e]) x -> exists ns, s_net (s_step (s_run es) e) = n_run ns /\ forall x, In x ns -> matches (es ++ [e]) x).
  { intros x -> Hx. exists (ns ++ [x]). rewrite Hn. split; [unfold NetModel.n_run; by rewrite fold_left_app|].
    intros y [Hy|[<-|[]]]%in_app_iff; [by apply matches_snoc, Hm|done]. }
  destruct e as [e h hh|e].
  - destruct (register e (l_step (s_login (s_run es)) e).2 h hh) as [x|] eqn:Er.
    + apply (Hadd x); [cbn; destruct (l_step _ _) as [l r]; cbn in Er |- *; by rewrite Er|].
      unfold register in Er. destruct e; try done. destruct (l_step _ _).2 as [[[b key] topics]|] eqn:Es; [|done]. injection Er as <-. cbn [matches].
      rewrite logins_app. cbn. apply admits_admitted. unfold LoginModel.l_admits. by rewrite <- s_login_run.
    + eapply Hkeep; [done|]. cbn. destruct (l_step _ _) as [l r]. cbn in Er |- *. by rewrite Er.
  - destruct e as [b h hh u c ts| | | |]; [by eapply Hkeep|..]; eapply Hadd; try done; cbn; apply in_app_iff; right; by left.
Qed.

(** * Who is registered *)
Lemma only_own_admitted ls c b k ts : admitted ls c b k ts -> kept ls k ->
  exists u p, k = u_key u /\ ts = u_topics u /\ dialled ls u c b p /\ l_users (l_run ls) !! u = Some (UConnected c).
Proof.
  intros (ls1 & ls2 & p & h & b0 & -> & Ha & _) (Hforge & Hguess & Hone).
  destruct (only_own pk_deser pk_ser verify debug global redis u_key u_sign u_topics _ _ _ _ _ Ha) as (u & hb & p' & [= <-] & -> & -> & Hd & Hu).
  - intros h1 ts1 sig q Hin. apply (Hforge h1). apply in_app_iff. by left.
  - intros u h1 now p1 b1 hb Ho Hi Hin. apply (Hguess u h1 now p1 b1 hb); [by apply opened_app|by apply issued_on_app|apply in_app_iff; by left].
  - intros p1 h1 h2 k1 k2 b1 b2 H1 H2. eapply Hone; by apply issued_on_app.
  - exists u, p'. split; [done|]. split; [done|]. split; [by apply dialled_app|].
    revert Hu. generalize (LBrokerTopics c :: ls2). intros l Hu. induction l as [|e l IH] using rev_ind; [by rewrite app_nil_r|].
    rewrite app_assoc, l_run_snoc. by apply connected_stays.
Qed.

(** * Who reads, who writes *)
Hypothesis Hcodec : sync_codec deser enc_users enc_topics.
Lemma hooks_of es ns : (forall a c hk, In (SNet (NDeliver a c hk)) es -> hook_keeps_sync hk) -> (forall e, In e ns -> matches es e) -> hooks_keep_sync ns.
Proof. intros Hh Hm a c hk Hin. apply (Hh a c). exact (Hm _ Hin). Qed.
Lemma loop_admitted es a h v cv : loop_of (s_net (s_run es)) a h (OUser v cv) -> exists ts, admitted (logins es) cv a v ts.
Proof.
  destruct (s_net_run es) as (ns & Hn & Hm). rewrite Hn. intros (t & Ht & Ho). destruct (loop_authed _ _ _ _ _ _ _ _ _ _ Ht Ho) as (hh & ts & Hin).
  exists ts. apply (Hm (NUser a h hh v cv ts)). by eapply user_event.
Qed.
Lemma system_delivery es b x u c f : (forall a c hk, In (SNet (NDeliver a c hk)) es -> hook_keeps_sync hk) ->
  In x (m_sent (broker_at (s_net (s_run es)) b)) -> s_what x = Emit (inl u) c f ->
  (exists ts, admitted (logins es) c b u ts)
  /\ exists a h k v cv tsv raw hk, f = FRelay raw /\ admitted (logins es) cv a v tsv /\ loop_of (s_net (s_run es)) a h (OUser v cv)
       /\ comes_from (s_net (s_run es)) b x a h k /\ In (Rcvd h k raw hk) (m_rcvd (broker_at (s_net (s_run es)) a)) /\ In (SNet (NPublish a h raw hk)) es.
Proof.
  intros Hh Hin Hw. pose proof (loop_admitted es) as Hla. destruct (s_net_run es) as (ns & Hn & Hm). rewrite Hn in Hin, Hla |- *.
  destruct (network_delivery deser dec_users dec_topics valid enc_users enc_topics Hcodec ns b x u c f (hooks_of _ _ Hh Hm) Hin Hw)
    as ((h1 & hh1 & ts & Hu & _) & raw & -> & (a & h & k & v & cv & hk & Hf & Hl & Hr & Hp) & _).
  split; [exists ts; exact (Hm _ Hu)|]. destruct (Hla _ _ _ _ Hl) as [tsv Hv]. exists a, h, k, v, cv, tsv, raw, hk. repeat (split; [done|]). exact (Hm _ Hp).
Qed.
End sys.
