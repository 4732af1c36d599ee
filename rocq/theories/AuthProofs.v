(** Lemmas on authentication. *)
From stdpp Require Import gmap fin_maps list.
From Coq Require Import NArith Lia.
From Verif Require Import IdModel IdProofs MsgModel DecModel DiscModel DiscSpec DiscProofs DiscProofs2 AuthModel AuthSpec.

(** ** Timestamps *)
Lemma age_ok_debug now ts : age_ok true now ts = true <-> (ts <= now <= ts + 5)%N.
Proof. unfold age_ok. rewrite andb_true_iff, !N.leb_le. lia. Qed.
Lemma age_ok_release now ts :
  (5 <= now < 2 ^ 64)%N -> (ts < 2 ^ 64)%N -> age_ok false now ts = true <-> (ts <= now <= ts + 5)%N.
Proof.
  intros Hn Ht. unfold age_ok. rewrite N.leb_le.
  destruct (N.le_gt_cases ts now) as [Hle|Hgt].
  - replace (now + 2 ^ 64 - ts)%N with ((now - ts) + 1 * 2 ^ 64)%N by lia.
    rewrite N.mod_add by lia. rewrite N.mod_small by lia. lia.
  - rewrite N.mod_small by lia. lia.
Qed.

Lemma le_bytes_length k n : length (le_bytes k n) = k.
Proof. revert n; induction k; intros n; cbn; [done|]. by rewrite IHk. Qed.
Lemma le_bytes_inj k n m : (n < 256 ^ N.of_nat k)%N -> (m < 256 ^ N.of_nat k)%N -> le_bytes k n = le_bytes k m -> n = m.
Proof.
  revert n m; induction k as [|k IH]; intros n m Hn Hm.
  - cbn in Hn, Hm. lia.
  - cbn [le_bytes]. intros Heq. assert (Heq1 : (n mod 256 = m mod 256)%N) by congruence.
    assert (Heq2 : le_bytes k (n / 256) = le_bytes k (m / 256)) by congruence.
    assert (Hp : (256 ^ N.of_nat (S k) = 256 * 256 ^ N.of_nat k)%N) by (rewrite Nat2N.inj_succ, N.pow_succ_r'; done).
    rewrite Hp in Hn, Hm.
    apply IH in Heq2.
    + rewrite (N.div_mod n 256), (N.div_mod m 256) by lia. by rewrite Heq1, Heq2.
    + apply N.div_lt_upper_bound; lia.
    + apply N.div_lt_upper_bound; lia.
Qed.
Lemma le8_inj n m : (n < 2 ^ 64)%N -> (m < 2 ^ 64)%N -> le8 n = le8 m -> n = m.
Proof. intros Hn Hm. apply le_bytes_inj; [exact Hn|exact Hm]. Qed.

Lemma filter_insert_drop {K V} `{Countable K} (P : K * V -> Prop) {Pdec : forall x, Decision (P x)} (m : gmap K V) i x y :
  m !! i = Some x -> P (i, x) -> ~ P (i, y) -> S (size (filter P (<[i := y]> m))) = size (filter P m).
Proof.
  intros Hm Hp Hn. rewrite map_filter_insert_False by done. by apply (filter_delete_drop P m i x).
Qed.

Section auth.
Context {pk : Type} `{EqDecision pk}.
Variable pk_deser : bytes -> option pk.
Variable pk_ser : pk -> option bytes.
Variable verify : pk -> bytes -> bytes -> bool.
Variable debug : bool.
Notation check_request := (check_request pk_deser verify debug).
Notation good_request := (good_request pk_deser verify debug).

Lemma check_request_spec ns now m p key : check_request ns now m = Some (p, key) <-> good_request ns now p key m.
Proof.
  unfold AuthModel.check_request, AuthSpec.good_request, signed_bytes. split.
  - destruct m as [ts k sig| | | | | | | |]; try done. destruct (pk_deser k) as [q|] eqn:Ed; [|done].
    destruct (verify q _ sig && _) eqn:E; [|done]. intros [= -> ->]. apply andb_prop in E as [? ?]. by exists ts, sig.
  - intros (ts & sig & -> & -> & -> & ->). done.
Qed.

Section users.
Variable global redis : bool.
Notation a_step := (a_step pk_deser pk_ser verify debug global redis).
Notation a_run := (a_run pk_deser pk_ser verify debug global redis).
Notation a_admits := (a_admits pk_deser pk_ser verify debug global redis).
Notation allowed := (allowed pk_deser pk_ser verify debug global redis).
Notation granted := (granted pk_deser pk_ser verify debug global redis).
Notation requested := (requested pk_deser pk_ser verify debug).
Notation d_answer := (d_answer global redis).
Notation admissions := (admissions pk_deser pk_ser verify debug global redis).

Lemma a_run_snoc es e : a_run (es ++ [e]) = (a_step (a_run es) e).1.
Proof. unfold AuthModel.a_run. by rewrite fold_left_app. Qed.

Lemma requested_app es l h key canon : requested es h key canon -> requested (es ++ l) h key canon.
Proof. intros (es1 & now & m & p & es2 & -> & ?). exists es1, now, m, p, (es2 ++ l). split; [by rewrite <- app_assoc|done]. Qed.
Lemma allowed_app es l h key : allowed es h key -> allowed (es ++ l) h key.
Proof. intros (es1 & canon & es2 & -> & ?). exists es1, canon, (es2 ++ l). split; [by rewrite <- app_assoc|done]. Qed.
Lemma granted_app es l h key : granted es h key -> granted (es ++ l) h key.
Proof. intros (es1 & now & p & es2 & -> & ?). exists es1, now, p, (es2 ++ l). split; [by rewrite <- app_assoc|done]. Qed.

(** What the state of a marshal's handler tells about the past. *)
Definition m_past (es : list aev) (h : N) (s : option mstate) : Prop :=
  match s with
  | None => forall now m, ~ In (AMarshalRecv h now m) es
  | Some (MChecked key canon) => requested es h key canon
  | Some (MAllowed key) | Some (MPlaced key _) => allowed es h key
  | Some MEnded => True
  end.

(** The effect of a step on the marshal's handlers: only one changes. *)
Definition m_actor (e : aev) : option N :=
  match e with AMarshalRecv h _ _ | AMarshalWhitelist h | AMarshalPlace h _ | AMarshalIssue h _ _ => Some h | _ => None end.

Lemma m_step_other w e h : m_actor e <> Some h -> w_marshal (a_step w e).1 !! h = w_marshal w !! h.
Proof.
  intros Hne. destruct e as [h' now m|h'|h' now|h' now p|h' b m|h' now|h' m|now|n1 n2 b n ttl|l]; cbn in Hne; cbn [AuthModel.a_step]; try done.
  - destruct (w_marshal w !! h') eqn:E; [done|]. destruct (check_request ns_user now m) as [[p key]|]; [destruct (pk_ser p)|]; cbn; rewrite lookup_insert_ne by congruence; done.
  - destruct (w_marshal w !! h') as [[]|] eqn:E; try done. cbn. by rewrite lookup_insert_ne by congruence.
  - destruct (w_marshal w !! h') as [[]|] eqn:E; try done. cbn. by rewrite lookup_insert_ne by congruence.
  - destruct (w_marshal w !! h') as [[]|] eqn:E; try done. destruct (d_issue_ok _ _ _ _); cbn; by rewrite lookup_insert_ne by congruence.
  - destruct (w_broker w !! h'); [by destruct m|]. by destruct m.
  - destruct (w_broker w !! h') as [[]|]; try done. destruct (AuthModel.d_answer _ _ _ _); [|done]. by destruct (pk_deser _).
  - destruct (w_broker w !! h') as [[]|]; try done. by destruct m.
Qed.

Lemma m_past_weaken es e h s : (forall now m, e <> AMarshalRecv h now m) -> m_past es h s -> m_past (es ++ [e]) h s.
Proof.
  intros He. destruct s as [[]|]; cbn; auto using requested_app, allowed_app.
  intros Hn now m Hin. rewrite in_app_iff in Hin. destruct Hin as [Hin|[Hin|[]]]; [by eapply Hn|by eapply He].
Qed.

Lemma m_past_run es h : m_past es h (w_marshal (a_run es) !! h).
Proof.
  revert h. induction es as [|e es IH] using rev_ind; intros h; [cbn; rewrite lookup_empty; cbn; tauto|].
  rewrite a_run_snoc. destruct (decide (m_actor e = Some h)) as [Ha|Ha].
  2:{ rewrite m_step_other by done. apply m_past_weaken; [|apply IH]. intros now m ->. by apply Ha. }
  specialize (IH h).
  destruct e as [h' now m|h'|h' now|h' now p|h' b m|h' now|h' m|now|n1 n2 b n ttl|l]; try done; injection Ha as ->; cbn [AuthModel.a_step].
  - destruct (w_marshal (a_run es) !! h) as [s|] eqn:E.
    { cbn [fst]. rewrite E. destruct s; cbn in *; auto using requested_app, allowed_app. }
    destruct (check_request ns_user now m) as [[p key]|] eqn:Ec; [destruct (pk_ser p) as [canon|] eqn:Es|]; cbn; rewrite lookup_insert; cbn; try done.
    exists es, now, m, p, []. split; [done|]. split; [exact IH|]. split; [by apply check_request_spec|done].
  - destruct (w_marshal (a_run es) !! h) as [[key canon|key|key b|]|] eqn:E; cbn [fst]; try (rewrite E; by apply m_past_weaken).
    cbn. rewrite lookup_insert. destruct (d_whitelisted _ _ _ _) eqn:Ew; [|done]. cbn. exists es, canon, []. done.
  - destruct (w_marshal (a_run es) !! h) as [[key canon|key|key b|]|] eqn:E; cbn [fst]; try (rewrite E; by apply m_past_weaken).
    cbn. rewrite lookup_insert. destruct (d_least _ _ _ _); [|done]. cbn in *. by apply allowed_app.
  - destruct (w_marshal (a_run es) !! h) as [[key canon|key|key b|]|] eqn:E; cbn [fst]; try (rewrite E; by apply m_past_weaken).
    destruct (d_issue_ok _ _ _ _); cbn; by rewrite lookup_insert.
Qed.

(** Permits are issued by marshals only: distinct connections account for all of them. *)
Lemma disc_step w e : w_disc (a_step w e).1 =
  match e with
  | AMarshalPlace h now => match w_marshal w !! h with Some (MAllowed _) => w_disc w ++ [DPruneBrokers now; DPrune now] | _ => w_disc w end
  | AMarshalIssue h now permit =>
      match w_marshal w !! h with
      | Some (MPlaced key b) => if d_issue_ok global redis (w_disc w) permit then w_disc w ++ [DIssue now b permit 30 key] else w_disc w
      | _ => w_disc w end
  | ABrokerValidate h now => match w_broker w !! h with Some (BValidate b permit) => w_disc w ++ [DTake now b permit] | _ => w_disc w end
  | AClean now => w_disc w ++ [DPrune now]
  | AHeartbeat now1 now2 b n ttl => w_disc w ++ [DHeartbeat now1 now2 b n ttl]
  | ASetWhitelist users => w_disc w ++ [DSetWhitelist users]
  | _ => w_disc w
  end.
Proof.
  destruct e as [h' now m|h'|h' now|h' now p|h' b m|h' now|h' m|now|n1 n2 b n ttl|l]; cbn [AuthModel.a_step]; try done.
  - destruct (w_marshal w !! h'); [done|]. destruct (check_request ns_user now m) as [[p key]|]; [by destruct (pk_ser p)|done].
  - by destruct (w_marshal w !! h') as [[]|].
  - destruct (w_marshal w !! h') as [[]|]; try done. cbn. by rewrite <- app_assoc.
  - destruct (w_marshal w !! h') as [[]|]; try done. by destruct (d_issue_ok _ _ _ _).
  - destruct (w_broker w !! h'); [by destruct m|]. by destruct m.
  - destruct (w_broker w !! h') as [[]|]; try done. destruct (AuthModel.d_answer _ _ _ _); [|done]. by destruct (pk_deser _).
  - destruct (w_broker w !! h') as [[]|]; try done. by destruct m.
Qed.

Lemma issued_app k l1 l2 : issued k (l1 ++ l2) = issued k l1 + issued k l2.
Proof. unfold issued. by rewrite List.filter_app, app_length. Qed.

Lemma grants es key :
  exists hs, NoDup hs /\ length hs = issued key (w_disc (a_run es))
    /\ forall h, h ∈ hs -> granted es h key /\ w_marshal (a_run es) !! h = Some MEnded.
Proof.
  induction es as [|e es IH] using rev_ind; [exists []; split; [constructor|split; [done|by intros ? ?%elem_of_nil]]|].
  destruct IH as (hs & Hnd & Hlen & Hhs).
  assert (Hended : forall h, w_marshal (a_run es) !! h = Some MEnded -> w_marshal (a_run (es ++ [e])) !! h = Some MEnded).
  { intros h Hh. rewrite a_run_snoc. destruct (decide (m_actor e = Some h)) as [Ha|Ha]; [|by rewrite m_step_other].
    destruct e; try done; injection Ha as ->; cbn [AuthModel.a_step]; by rewrite Hh. }
  assert (Hkeep : issued key (w_disc (a_run (es ++ [e]))) = issued key (w_disc (a_run es)) ->
     exists hs, NoDup hs /\ length hs = issued key (w_disc (a_run (es ++ [e])))
    /\ forall h, h ∈ hs -> granted (es ++ [e]) h key /\ w_marshal (a_run (es ++ [e])) !! h = Some MEnded).
  { intros Hi. exists hs. split; [done|]. split; [lia|]. intros h Hh. destruct (Hhs h Hh). split; [by apply granted_app|auto]. }
  revert Hkeep. rewrite a_run_snoc, disc_step. intros Hkeep.
  destruct e as [h' now m|h'|h' now|h' now p|h' b m|h' now|h' m|now|n1 n2 b n ttl|l]; try (apply Hkeep; by rewrite ?issued_app, ?Nat.add_0_r).
  - apply Hkeep. destruct (w_marshal (a_run es) !! h') as [[]|]; try done. rewrite issued_app. cbn. lia.
  - destruct (w_marshal (a_run es) !! h') as [[k' canon|k'|k' b|]|] eqn:E; try by apply Hkeep.
    destruct (d_issue_ok _ _ _ _) eqn:Eok; [|by apply Hkeep]. rewrite issued_app in *.
    destruct (decide (k' = key)) as [->|Hne].
    2:{ apply Hkeep. assert (Hone : issued key [DIssue now b p 30 k'] = 0) by (unfold issued; cbn; by rewrite bool_decide_false).
        rewrite Hone. lia. }
    exists (h' :: hs). split; [|split].
    + constructor; [|done]. intros Hin. destruct (Hhs h' Hin) as [_ Hx]. congruence.
    + assert (Hone : issued key [DIssue now b p 30 key] = 1) by (unfold issued; cbn; by rewrite bool_decide_true).
      rewrite Hone, Nat.add_1_r. cbn [length]. by f_equal.
    + intros h Hh. apply elem_of_cons in Hh as [->|Hh].
      * split.
        -- exists es, now, p, []. split; [done|]. pose proof (m_past_run es h') as Hp. by rewrite E in Hp.
        -- cbn [AuthModel.a_step]. rewrite E, Eok. cbn. by rewrite lookup_insert.
      * destruct (Hhs h Hh) as [Hg Hx]. split; [by apply granted_app|]. specialize (Hended h Hx). by rewrite a_run_snoc in Hended.
  - apply Hkeep. destruct (w_broker (a_run es) !! h') as [[]|]; try done. rewrite issued_app. cbn. lia.
Qed.

Lemma d_count k os : accepted d_answer k os <= issued k os.
Proof.
  unfold AuthModel.d_answer. destruct redis.
  - exact (Nat.le_trans _ _ _ (Nat.le_add_r _ _) (r_count global k os)).
  - exact (Nat.le_trans _ _ _ (Nat.le_add_r _ _) (e_count global k os)).
Qed.

Lemma accepted_take k os o : accepted d_answer k (os ++ [o]) = accepted d_answer k os + (if decide (d_answer os o = Some k) then 1 else 0).
Proof. apply accepted_snoc. Qed.
Lemma d_answer_take os o k : d_answer os o = Some k -> exists now b p, o = DTake now b p.
Proof.
  unfold AuthModel.d_answer. destruct redis; [unfold r_answer|unfold e_answer]; destruct o as [ |  | now b p| | |]; cbn; try done; intros _; by exists now, b, p.
Qed.
Lemma accepted_other k os o : (forall now b p, o <> DTake now b p) -> accepted d_answer k (os ++ [o]) = accepted d_answer k os.
Proof. intros Hn. rewrite accepted_take, decide_False; [lia|]. intros Ha. apply d_answer_take in Ha as (n & b & p & ->). by eapply Hn. Qed.

Lemma admissions_from_snoc key pre es e :
  admissions_from pk_deser pk_ser verify debug global redis key pre (es ++ [e]) = admissions_from pk_deser pk_ser verify debug global redis key pre es
   + (match a_admits (pre ++ es) e with Some (_, k, _) => if decide (k = key) then 1 else 0 | None => 0 end).
Proof.
  revert pre; induction es as [|x es IH]; intros pre; cbn [admissions_from app].
  - rewrite app_nil_r. lia.
  - rewrite IH, <- app_assoc. cbn [app]. lia.
Qed.
Lemma admissions_snoc key es e :
  admissions key (es ++ [e]) = admissions key es + (match a_admits es e with Some (_, k, _) => if decide (k = key) then 1 else 0 | None => 0 end).
Proof. apply (admissions_from_snoc key [] es e). Qed.

(** The key a broker's handler has obtained. *)
Definition bkey (s : bstate) : option bytes := match s with BTopics _ k => Some k | _ => None end.
Definition bholds (key : bytes) (kv : N * bstate) : Prop := bkey kv.2 = Some key.
Global Instance bholds_dec key kv : Decision (bholds key kv).
Proof. unfold bholds. apply _. Defined.

Lemma admit_count es key :
  admissions key es + size (filter (bholds key) (w_broker (a_run es))) <= accepted d_answer key (w_disc (a_run es)).
Proof.
  induction es as [|e es IH] using rev_ind; [cbn; rewrite map_filter_empty, map_size_empty; cbn; lia|].
  rewrite admissions_snoc, a_run_snoc. unfold AuthModel.a_admits.
  set (w := a_run es) in *.
  assert (Hsame : w_broker (a_step w e).1 = w_broker w -> accepted d_answer key (w_disc (a_step w e).1) = accepted d_answer key (w_disc w) ->
    (a_step w e).2 = None ->
    admissions key es + match (a_step w e).2 with Some (_, k, _) => if decide (k = key) then 1 else 0 | None => 0 end
     + size (filter (bholds key) (w_broker (a_step w e).1)) <= accepted d_answer key (w_disc (a_step w e).1)).
  { intros -> -> ->. lia. }
  destruct e as [h' now m|h'|h' now|h' now p|h' b m|h' now|h' m|now|n1 n2 b n ttl|l].
  - apply Hsame; [|by rewrite disc_step|]; cbn [AuthModel.a_step]; (destruct (w_marshal w !! h'); [done|]); (destruct (check_request ns_user now m) as [[p key']|]; [by destruct (pk_ser p)|done]).
  - apply Hsame; [|by rewrite disc_step|]; cbn [AuthModel.a_step]; by destruct (w_marshal w !! h') as [[]|].
  - apply Hsame; [cbn [AuthModel.a_step]; by destruct (w_marshal w !! h') as [[]|]| |cbn [AuthModel.a_step]; by destruct (w_marshal w !! h') as [[]|]].
    rewrite disc_step. destruct (w_marshal w !! h') as [[]|]; try done.
    change ([DPruneBrokers now; DPrune now]) with ([DPruneBrokers now] ++ [DPrune now]). rewrite app_assoc, !accepted_other by done. done.
  - apply Hsame; [cbn [AuthModel.a_step]; destruct (w_marshal w !! h') as [[]|]; try done; by destruct (d_issue_ok _ _ _ _)| |cbn [AuthModel.a_step]; destruct (w_marshal w !! h') as [[]|]; try done; by destruct (d_issue_ok _ _ _ _)].
    rewrite disc_step. destruct (w_marshal w !! h') as [[]|]; try done. destruct (d_issue_ok _ _ _ _); [|done]. by rewrite accepted_other.
  - cbn [AuthModel.a_step]. destruct (w_broker w !! h') eqn:E; [destruct m; cbn [fst snd]; lia|].
    assert (Hi : forall s, bkey s = None -> size (filter (bholds key) (<[h' := s]> (w_broker w))) <= size (filter (bholds key) (w_broker w))).
    { intros s Hs. pose proof (filter_insert_le (bholds key) (w_broker w) h' s) as Hle. rewrite decide_False in Hle; [lia|]. unfold bholds; cbn. congruence. }
    destruct m; cbn [fst snd]; unfold set_b; cbn [w_disc w_broker]; match goal with |- context [ <[h' := ?s]> _ ] => specialize (Hi s eq_refl) end; lia.
  - rewrite disc_step. cbn [AuthModel.a_step]. destruct (w_broker w !! h') as [[b p| |]|] eqn:E; cbn [fst snd]; try lia.
    rewrite accepted_take. destruct (d_answer (w_disc w) (DTake now b p)) as [k|] eqn:Ea.
    + pose proof (filter_insert_le (bholds key) (w_broker w) h' (BTopics b k)) as Hle.
      pose proof (filter_insert_le (bholds key) (w_broker w) h' BEnded) as Hle'.
      rewrite decide_False in Hle' by (unfold bholds; cbn; congruence).
      destruct (pk_deser k); cbn [fst snd set_b w_broker log_d set_disc].
      * destruct (decide (bholds key (h', BTopics b k))) as [Hb|Hb]; unfold bholds in Hb; cbn in Hb.
        -- rewrite decide_True by done. lia.
        -- lia.
      * lia.
    + pose proof (filter_insert_le (bholds key) (w_broker w) h' BEnded) as Hle'.
      rewrite decide_False in Hle' by (unfold bholds; cbn; congruence).
      cbn [fst snd set_b w_broker log_d set_disc]. lia.
  - rewrite disc_step. cbn [AuthModel.a_step]. destruct (w_broker w !! h') as [[|b k|]|] eqn:E; cbn [fst snd]; try lia.
    assert (Hmain : (if decide (k = key) then 1 else 0) + size (filter (bholds key) (<[h' := BEnded]> (w_broker w))) <= size (filter (bholds key) (w_broker w))).
    { case_decide as Hk.
      - subst k. rewrite <- (filter_insert_drop (bholds key) (w_broker w) h' (BTopics b key) BEnded E); [lia|done|unfold bholds; cbn; congruence].
      - pose proof (filter_insert_le (bholds key) (w_broker w) h' BEnded) as Hle'. rewrite decide_False in Hle' by (unfold bholds; cbn; congruence). lia. }
    destruct m; cbn [fst snd set_b w_broker]; lia.
  - apply Hsame; try done. rewrite disc_step. by rewrite accepted_other.
  - apply Hsame; try done. rewrite disc_step. by rewrite accepted_other.
  - apply Hsame; try done. rewrite disc_step. by rewrite accepted_other.
Qed.

Lemma admissions_granted es key :
  exists hs, NoDup hs /\ length hs = admissions key es /\ forall h, h ∈ hs -> granted es h key.
Proof.
  destruct (grants es key) as (hs & Hnd & Hlen & Hhs).
  pose proof (admit_count es key) as H1. pose proof (d_count key (w_disc (a_run es))) as H2.
  exists (take (admissions key es) hs). split; [|split].
  - rewrite <- (take_drop (admissions key es) hs) in Hnd. by apply NoDup_app in Hnd as [? _].
  - rewrite take_length. lia.
  - intros h Hh. apply Hhs. rewrite <- (take_drop (admissions key es) hs). apply elem_of_app. by left.
Qed.

Lemma issue_origin es now b p ttl k : In (DIssue now b p ttl k) (w_disc (a_run es)) ->
  exists h es1 es2, es = es1 ++ AMarshalIssue h now p :: es2 /\ allowed es1 h k
    /\ w_marshal (a_run es1) !! h = Some (MPlaced k b).
Proof.
  induction es as [|e es IH] using rev_ind; [done|].
  rewrite a_run_snoc, disc_step.
  assert (Hrec : In (DIssue now b p ttl k) (w_disc (a_run es)) -> exists h es1 es2, es ++ [e] = es1 ++ AMarshalIssue h now p :: es2 /\ allowed es1 h k
     /\ w_marshal (a_run es1) !! h = Some (MPlaced k b)).
  { intros H. destruct (IH H) as (h & es1 & es2 & -> & ? & ?). exists h, es1, (es2 ++ [e]). split; [by rewrite <- app_assoc|done]. }
  destruct e as [h' now' m|h'|h' now'|h' now' p'|h' b' m|h' now'|h' m|now'|n1 n2 b' n ttl'|l]; try exact Hrec.
  - destruct (w_marshal (a_run es) !! h') as [[]|]; try exact Hrec. rewrite in_app_iff. intros [H|[H|[H|[]]]]; [by apply Hrec|done|done].
  - destruct (w_marshal (a_run es) !! h') as [[| |k' b'|]|] eqn:E; try exact Hrec.
    destruct (d_issue_ok _ _ _ _); [|exact Hrec]. rewrite in_app_iff. intros [H|[H|[]]]; [by apply Hrec|].
    injection H as -> -> -> _ ->. exists h', es, []. split; [done|]. split; [|done]. pose proof (m_past_run es h') as Hp. by rewrite E in Hp.
  - destruct (w_broker (a_run es) !! h') as [[]|]; try exact Hrec. rewrite in_app_iff. intros [H|[H|[]]]; [by apply Hrec|done].
  - rewrite in_app_iff. intros [H|[H|[]]]; [by apply Hrec|done].
  - rewrite in_app_iff. intros [H|[H|[]]]; [by apply Hrec|done].
  - rewrite in_app_iff. intros [H|[H|[]]]; [by apply Hrec|done].
Qed.

Lemma d_answer_reason os now b p k : d_answer os (DTake now b p) = Some k ->
  exists os1 now0 b0 os2 ttl, os = os1 ++ DIssue now0 b0 p ttl k :: os2 /\ (global = true \/ bid_print b0 = bid_print b)
    /\ (if redis then (now < now0 + ttl)%N else forall t, In (DPrune t) os2 -> (t <= now0 + ttl)%N).
Proof.
  unfold AuthModel.d_answer. destruct redis.
  - intros H. apply r_accept_reason in H as (os1 & n0 & b0 & ttl & os2 & -> & Hg & Hlt & _). by exists os1, n0, b0, os2, ttl.
  - intros H. apply e_accept_reason in H as (os1 & n0 & b0 & ttl & os2 & -> & Hg & Hlt & _). by exists os1, n0, b0, os2, ttl.
Qed.

(** What one step adds to the history of the discovery service. *)
Lemma disc_new w e : exists l, w_disc (a_step w e).1 = w_disc w ++ l
  /\ (forall t, e = AClean t -> In (DPrune t) l)
  /\ (forall now b p ttl k, In (DIssue now b p ttl k) l ->
        ttl = 30%N /\ l = [DIssue now b p ttl k] /\ exists h, e = AMarshalIssue h now p /\ w_marshal w !! h = Some (MPlaced k b)).
Proof.
  rewrite disc_step.
  assert (Hnil : (forall t, e <> AClean t) -> exists l, w_disc w = w_disc w ++ l /\ (forall t, e = AClean t -> In (DPrune t) l)
    /\ (forall now b p ttl k, In (DIssue now b p ttl k) l ->
        ttl = 30%N /\ l = [DIssue now b p ttl k] /\ exists h, e = AMarshalIssue h now p /\ w_marshal w !! h = Some (MPlaced k b))).
  { intros Hn. exists []. split; [by rewrite app_nil_r|]. split; [intros t Ht; by destruct (Hn t)|intros ? ? ? ? ? []]. }
  destruct e as [h' now m|h'|h' now|h' now p|h' b m|h' now|h' m|now|n1 n2 b n ttl|l]; try (apply Hnil; intros t Ht; discriminate Ht).
  - destruct (w_marshal w !! h') as [[]|]; try (apply Hnil; intros t Ht; discriminate Ht).
    eexists. split; [reflexivity|]. split; [intros t Ht; discriminate Ht|]. intros ? ? ? ? ? [H|[H|[]]]; discriminate H.
  - destruct (w_marshal w !! h') as [[| |k b|]|] eqn:E; try (apply Hnil; intros t Ht; discriminate Ht).
    destruct (d_issue_ok _ _ _ _); [|apply Hnil; intros t Ht; discriminate Ht].
    eexists. split; [reflexivity|]. split; [intros t Ht; discriminate Ht|]. intros ? ? ? ? ? [H|[]]. injection H as -> -> -> <- ->.
    split; [done|]. split; [done|]. exists h'. done.
  - destruct (w_broker w !! h') as [[]|]; try (apply Hnil; intros t Ht; discriminate Ht).
    eexists. split; [reflexivity|]. split; [intros t Ht; discriminate Ht|]. intros ? ? ? ? ? [H|[]]; discriminate H.
  - eexists. split; [reflexivity|]. split; [intros t [= ->]; by left|]. intros ? ? ? ? ? [H|[]]; discriminate H.
  - eexists. split; [reflexivity|]. split; [intros t Ht; discriminate Ht|]. intros ? ? ? ? ? [H|[]]; discriminate H.
  - eexists. split; [reflexivity|]. split; [intros t Ht; discriminate Ht|]. intros ? ? ? ? ? [H|[]]; discriminate H.
Qed.

(** A permit in the history was issued by a marshal, for thirty seconds; the clean-ups since are
    in the history since. *)
Lemma issue_origin_at es os1 now b p ttl k os2 : w_disc (a_run es) = os1 ++ DIssue now b p ttl k :: os2 ->
  ttl = 30%N /\ exists h es1 es2, es = es1 ++ AMarshalIssue h now p :: es2 /\ allowed es1 h k
    /\ w_marshal (a_run es1) !! h = Some (MPlaced k b)
    /\ (forall t, In (AClean t) es2 -> In (DPrune t) os2).
Proof.
  revert os2. induction es as [|e es IH] using rev_ind; intros os2; [intros H; by destruct os1|].
  rewrite a_run_snoc. destruct (disc_new (a_run es) e) as (l & -> & Hc & Hi). intros Heq.
  assert (Hcases : (exists l', os2 = l' ++ l /\ w_disc (a_run es) = os1 ++ DIssue now b p ttl k :: l') \/ In (DIssue now b p ttl k) l).
  { apply app_eq_inv in Heq as [(l' & H1 & H2)|(l' & H1 & H2)].
    - destruct l' as [|x l']; [right; rewrite app_nil_r in H1; cbn in H2; rewrite <- H2; by left|].
      cbn in H2. injection H2 as <- ->. left. by exists l'.
    - right. rewrite H2, in_app_iff. right. by left. }
  destruct Hcases as [(l' & -> & Hold)|Hin].
  - destruct (IH l' Hold) as (Ht & h & es1 & es2 & -> & Hal & Hm & Hcl). split; [done|].
    exists h, es1, (es2 ++ [e]). split; [by rewrite <- app_assoc|]. split; [done|]. split; [done|].
    intros t Hin. apply in_app_iff in Hin as [Hin|[Hin|[]]]; apply in_app_iff; [left; by apply Hcl|right; by apply Hc].
  - destruct (Hi _ _ _ _ _ Hin) as (Ht & _ & h & -> & Hm). split; [done|].
    exists h, es, []. split; [done|]. split; [pose proof (m_past_run es h) as Hp; by rewrite Hm in Hp|]. split; [done|]. intros t [].
Qed.

(** What a broker's handler tells about the past. *)
Definition b_past (es : list aev) (h : N) (s : option bstate) : Prop :=
  match s with
  | Some (BValidate b p) => In (ABrokerRecv h b (MAuthWithPermit p)) es
  | Some (BTopics b k) => exists es1 now p es2, es = es1 ++ ABrokerValidate h now :: es2
      /\ In (ABrokerRecv h b (MAuthWithPermit p)) es1
      /\ d_answer (w_disc (a_run es1)) (DTake now b p) = Some k
  | _ => True
  end.
Lemma b_past_app es e h s : b_past es h s -> b_past (es ++ [e]) h s.
Proof.
  destruct s as [[b p|b k|]|]; cbn; [rewrite in_app_iff; by left| |done|done].
  intros (es1 & now & p & es2 & -> & ?). exists es1, now, p, (es2 ++ [e]). split; [by rewrite <- app_assoc|done].
Qed.
Definition b_actor (e : aev) : option N :=
  match e with ABrokerRecv h _ _ | ABrokerValidate h _ | ABrokerTopics h _ => Some h | _ => None end.
Lemma b_step_other w e h : b_actor e <> Some h -> w_broker (a_step w e).1 !! h = w_broker w !! h.
Proof.
  intros Hne. destruct e as [h' now m|h'|h' now|h' now p|h' b m|h' now|h' m|now|n1 n2 b n ttl|l]; cbn in Hne; cbn [AuthModel.a_step]; try done.
  - destruct (w_marshal w !! h') eqn:E; [done|]. destruct (check_request ns_user now m) as [[p key]|]; [by destruct (pk_ser p)|done].
  - by destruct (w_marshal w !! h') as [[]|] eqn:E.
  - by destruct (w_marshal w !! h') as [[]|] eqn:E.
  - destruct (w_marshal w !! h') as [[]|] eqn:E; try done. by destruct (d_issue_ok _ _ _ _).
  - destruct (w_broker w !! h'); [by destruct m|]. destruct m; cbn; by rewrite lookup_insert_ne by congruence.
  - destruct (w_broker w !! h') as [[]|]; try done. destruct (AuthModel.d_answer _ _ _ _); [destruct (pk_deser _)|]; cbn; by rewrite lookup_insert_ne by congruence.
  - destruct (w_broker w !! h') as [[]|]; try done. destruct m; cbn; by rewrite lookup_insert_ne by congruence.
Qed.
Lemma b_past_run es h : b_past es h (w_broker (a_run es) !! h).
Proof.
  revert h. induction es as [|e es IH] using rev_ind; intros h; [cbn; by rewrite lookup_empty|].
  rewrite a_run_snoc. destruct (decide (b_actor e = Some h)) as [Ha|Ha].
  2:{ rewrite b_step_other by done. by apply b_past_app. }
  specialize (IH h).
  destruct e as [h' now m|h'|h' now|h' now p|h' b m|h' now|h' m|now|n1 n2 b n ttl|l]; try done; injection Ha as ->; cbn [AuthModel.a_step].
  - destruct (w_broker (a_run es) !! h) as [s|] eqn:E.
    + assert (Heq : w_broker (match m with MAuthWithPermit _ | _ => (a_run es, @None (bid * bytes * list N)) end).1 !! h = Some s) by (destruct m; exact E).
      rewrite <- E in IH. destruct m; cbn [fst]; by apply b_past_app.
    + destruct m; cbn; rewrite lookup_insert; cbn; try done. rewrite in_app_iff. right. by left.
  - destruct (w_broker (a_run es) !! h) as [[b p|b k|]|] eqn:E; cbn [fst]; try (rewrite E; by apply b_past_app).
    destruct (d_answer (w_disc (a_run es)) (DTake now b p)) as [k|] eqn:Ea; [destruct (pk_deser k)|]; cbn; rewrite lookup_insert; cbn; try done.
    exists es, now, p, []. done.
  - destruct (w_broker (a_run es) !! h) as [[b p|b k|]|] eqn:E; cbn [fst]; try (rewrite E; by apply b_past_app).
    destruct m; cbn; by rewrite lookup_insert.
Qed.

Lemma admitted_past es e b k topics :
  a_admits es e = Some (b, k, topics) ->
  exists es1 hb now p es2, es = es1 ++ ABrokerValidate hb now :: es2 /\ In (ABrokerRecv hb b (MAuthWithPermit p)) es1
    /\ e = ABrokerTopics hb (MSubscribe topics)
    /\ d_answer (w_disc (a_run es1)) (DTake now b p) = Some k
    /\ exists h now0 es3 es4 b0, es1 = es3 ++ AMarshalIssue h now0 p :: es4 /\ allowed es3 h k
      /\ w_marshal (a_run es3) !! h = Some (MPlaced k b0) /\ (global = true \/ bid_print b0 = bid_print b)
      /\ (if redis then (now < now0 + 30)%N else forall t, In (AClean t) es4 -> (t <= now0 + 30)%N).
Proof.
  unfold AuthModel.a_admits. destruct e as [h' now m|h'|h' now|h' now p|h' b' m|h' now|h' m|now|n1 n2 b' n ttl|l]; cbn [AuthModel.a_step].
  - destruct (w_marshal (a_run es) !! h'); [done|]. destruct (check_request ns_user now m) as [[p key']|]; [by destruct (pk_ser p)|done].
  - by destruct (w_marshal (a_run es) !! h') as [[]|].
  - by destruct (w_marshal (a_run es) !! h') as [[]|].
  - destruct (w_marshal (a_run es) !! h') as [[]|]; try done. by destruct (d_issue_ok _ _ _ _).
  - destruct (w_broker (a_run es) !! h'); by destruct m.
  - destruct (w_broker (a_run es) !! h') as [[]|]; try done. destruct (AuthModel.d_answer _ _ _ _); [|done]. by destruct (pk_deser _).
  - destruct (w_broker (a_run es) !! h') as [[|b' k'|]|] eqn:E; try done. destruct m; try done. cbn. intros [= -> -> ->].
    pose proof (b_past_run es h') as Hp. rewrite E in Hp. destruct Hp as (es1 & now & p & es2 & -> & Hrecv & Ha).
    exists es1, h', now, p, es2. split; [done|]. split; [done|]. split; [done|]. split; [done|].
    apply d_answer_reason in Ha as (os1 & now0 & b0 & os2 & ttl & Hd & Hg & Hlt).
    apply issue_origin_at in Hd as (-> & h & es3 & es4 & -> & Hal & Hm & Hcl). exists h, now0, es3, es4, b0.
    split; [done|]. split; [done|]. split; [done|]. split; [done|]. revert Hlt Hcl. clear. destruct redis; [done|]. intros Hlt Hcl t Ht. apply Hlt. by apply Hcl.
  - done.
  - done.
  - done.
Qed.
End users.
End auth.
