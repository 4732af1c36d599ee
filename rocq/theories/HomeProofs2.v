(** Proofs: a user that logs in at brokers that know where it is, is found. *)
From stdpp Require Import gmap fin_maps fin_sets list.
From Coq Require Import NArith ZArith Lia.
From Verif Require Import IdModel IdProofs RelMapModel RelMapProofs VMapModel VMapSpec VMapProofs ConnModel ConnSpec ConnProofs ConnProofs2 ConnProofs3 ConnProofs4
  SyncSpec SyncModel DirSyncProofs DirSeqProofs TopicSyncProofs TopicModel TopicProofs MsgModel RouteModel RouteProofs TaskModel TaskProofs TaskOrder TaskHandles TaskIsolation TaskSync
  NetModel NetProofs NetOrigin NetDelivery NetComplete NetSynced NetSettle NetSettleDir FifoProofs BusyProofs MoveSpec MoveProofs LinkupProofs2 HomeSpec HomeProofs InformSpec.

Section net.
Variable deser : bytes -> option message.
Variable dec_users : bytes -> option direct_map.
Variable dec_topics : bytes -> option topic_map.
Variable valid : N -> bool.
Variable enc_users : direct_map -> bytes.
Variable enc_topics : topic_map -> bytes.
Hypothesis Hcodec : faithful_sync deser dec_users dec_topics enc_users enc_topics.
Notation m_step := (m_step deser dec_users dec_topics valid).
Notation m_run := (m_run deser dec_users dec_topics valid).
Notation broker_at := (broker_at deser dec_users dec_topics valid).
Notation fresh_pair := (fresh_pair deser dec_users dec_topics valid).
Notation n_run := (n_run deser dec_users dec_topics valid enc_users enc_topics).
Notation n_run_snoc := (n_run_snoc deser dec_users dec_topics valid enc_users enc_topics).
Notation net_inv := (net_inv deser dec_users dec_topics valid enc_users enc_topics).
Notation inv_run := (inv_run deser dec_users dec_topics valid enc_users enc_topics).
Notation fine := (fine deser dec_users dec_topics valid).
Notation possible := (possible deser dec_users dec_topics valid enc_users enc_topics).
Notation sound := (sound deser dec_users dec_topics valid).
Notation frames_le := (frames_le deser dec_users dec_topics valid).
Notation run_extend := (run_extend deser dec_users dec_topics valid).
Notation run_other := (run_other deser dec_users dec_topics valid).
Notation broker_extend := (broker_extend deser dec_users dec_topics valid).
Notation conns_step := (conns_step deser dec_users dec_topics valid).
Notation identity_at := (identity_at deser dec_users dec_topics valid).
Notation joined := (joined deser dec_users dec_topics valid).
Notation at_rest := (at_rest deser dec_users dec_topics valid).
Notation record_at := (record_at deser dec_users dec_topics valid).
Notation never_lost := (never_lost deser dec_users dec_topics valid).
Notation below_wrap := (below_wrap deser dec_users dec_topics valid).
Notation all_announced := (all_announced deser dec_users dec_topics valid).
Notation said := (said deser dec_users dec_topics valid).
Notation all_said := (all_said deser dec_users dec_topics valid).
Notation never := (never deser dec_users dec_topics valid).
Notation backed := (backed deser dec_users dec_topics valid).
Notation takes_on := (takes_on deser dec_users dec_topics valid).
Notation informed := (informed deser dec_users dec_topics valid enc_users enc_topics).
Notation conns_at n b := (m_conns (broker_at n b)).
Notation tasks_at n b := (m_tasks (broker_at n b)).

(** *** Induction with what is known of each step *)
Lemma net_induct_steps (P K : net -> Prop) (S : net -> net -> Prop) es :
  hooks_pass es -> fine (n_run es) -> (forall p, p `prefix_of` es -> K (n_run p)) -> (forall p e, p ++ [e] `prefix_of` es -> S (n_run p) (n_run (p ++ [e]))) ->
  P (n_run []) ->
  (forall n b e, net_inv n -> sound n -> frames_le n -> P n -> possible n b e -> fine (extend n b e) -> K (extend n b e) -> S n (extend n b e) -> P (extend n b e)) ->
  (forall n a ha hha ca b hb hhb cb, a <> b -> fresh_pair n a ha hha ca -> fresh_pair n b hb hhb cb ->
     P (extend (extend n a (EBrokerAuthed ha hha b ca)) b (EBrokerAuthed hb hhb a cb)) -> P (linked_up n a ha hha ca b hb hhb cb)) ->
  (forall n a ha hha ca b hb hhb cb, fresh_pair n a ha hha ca -> fresh_pair n b hb hhb cb -> K (linked_up n a ha hha ca b hb hhb cb) ->
     K (extend n a (EBrokerAuthed ha hha b ca)) /\ K (extend (extend n a (EBrokerAuthed ha hha b ca)) b (EBrokerAuthed hb hhb a cb))) ->
  (forall n a ha hha b ca, S n (extend n a (EBrokerAuthed ha hha b ca))) ->
  P (n_run es).
Proof.
  intros Hh Hf HK HS H0 Hext Hup HKup HSup. induction es as [|e es IH] using rev_ind; [done|].
  assert (Hh' : hooks_pass es).
  { destruct Hh as [H1 H2]. split; [intros a c hk Hin; apply (H1 a c)|intros b h raw hk Hin; apply (H2 b h raw)]; apply in_app_iff; by left. }
  assert (HKn : K (n_run (es ++ [e]))) by (by apply HK).
  assert (HSn : S (n_run es) (n_run (es ++ [e]))) by (by apply HS).
  rewrite n_run_snoc in *. assert (Hf' : fine (n_run es)) by (eapply fine_back; [|exact Hf]; intros b; apply trace_step).
  assert (IHP : P (n_run es)).
  { apply IH; [done|done| |]; [intros p Hp; apply HK|intros p e0 Hp; apply HS]; (etrans; [exact Hp|by apply prefix_app_r]). }
  clear IH. destruct (net_facts deser dec_users dec_topics valid enc_users enc_topics Hcodec es Hh' Hf') as (Hi & Hs & Hfl). set (n := n_run es) in *.
  assert (He : In e (es ++ [e])) by (apply in_app_iff; right; by left).
  destruct e as [b h hh u c ts|a ha hha ca b hb hhb cb|b h raw hk|a c hk|b e]; cbn [NetModel.n_step] in *.
  - case_decide as Hd; [|done]. apply Hext; [done|done|done|done|by constructor|done|done|done].
  - case_decide as Hd; [|done]. destruct Hd as (Hne & Ha & Hb). fold (linked_up n a ha hha ca b hb hhb cb) in *.
    destruct (HKup n a ha hha ca b hb hhb cb Ha Hb HKn) as [HK1 HK2].
    pose proof (HSup n a ha hha b ca) as HS1. pose proof (HSup (extend n a (EBrokerAuthed ha hha b ca)) b hb hhb a cb) as HS2.
    set (n1 := extend n a (EBrokerAuthed ha hha b ca)) in *.
    assert (Hfn1 : fine (extend n1 b (EBrokerAuthed hb hhb a cb))) by (intros b'; exact (Hf b')).
    assert (Hfn : fine n1) by (by eapply fine_extend).
    assert (Hp1 : possible n a (EBrokerAuthed ha hha b ca)) by (by constructor).
    assert (Hi1 : net_inv n1). { apply inv_extend; [done| |done]. cbn. intros c' [<-|[]]. apply Ha. }
    assert (Hs1 : sound n1) by (by apply (sound_extend deser dec_users dec_topics valid enc_users enc_topics Hcodec)).
    assert (Hfl1 : frames_le n1) by (by apply (frames_le_extend deser dec_users dec_topics valid enc_users enc_topics)).
    apply Hup; try done. apply Hext; [done|done|done| | |done|done|done].
    + apply Hext; done.
    + constructor; [done|]. destruct Hb as (Hb1 & Hb2 & Hb3 & Hb4). unfold NetModel.fresh_pair.
      assert (Htb : trace (extend n a (EBrokerAuthed ha hha b ca)) b = trace n b) by (rewrite trace_extend; by rewrite decide_False).
      unfold NetModel.broker_at in *. rewrite Htb. done.
  - destruct (tasks_at n b !! h) as [[[u c|b' c|] acts op k]|] eqn:E; try done.
    apply Hext; [done|done|done|done| |done|done|done]. eapply p_frame; [exact E|done|]. destruct Hh as [_ H2]. by apply (H2 b h raw).
  - destruct (n_links n !! (a, c)) as [[b h]|] eqn:El; [|done].
    destruct (tasks_at n b !! h) as [t|] eqn:Et; [|done].
    destruct (sent_on (broker_at n a) c !! t_frames t) as [x|] eqn:Ex; [|done].
    apply Hext; [done|done|done|done| |done|done|done]. eapply p_deliver; [exact El|exact Et|exact Ex|]. destruct Hh as [H1 _]. by apply (H1 a c).
  - destruct (receives_nothing e) eqn:Hr; [|done]. apply Hext; [done|done|done|done|by constructor|done|done|done].
Qed.

Section user.
Variable v : ukey.
Definition one_meaning (n : net) : Prop := forall e e', said v n e -> said v n e' -> ver e = ver e' -> e = e'.
Definition knows_newest (n : net) (b : bid) : Prop :=
  forall z e, record_at v n z = Some e -> exists e', record_at v n b = Some e' /\ (ver e <= ver e')%N.
Definition step_ok (n n' : net) : Prop := forall b, takes_on v b n n' -> knows_newest n b.

(** What is new on record at a broker: it was said before, or the broker took the user on. *)
Lemma record_new n b0 ev e' :
  never v (extend n b0 ev) -> all_said v (backed v n) n -> record_at v (extend n b0 ev) b0 = Some e' ->
  said v n e' \/ takes_on v b0 n (extend n b0 ev) /\ val e' = Some b0 /\ ver e' = match record_at v n b0 with Some e => (ver e + 1)%N | None => 1%N end.
Proof.
  intros [Hlost Hwrap] Hs. unfold MoveSpec.record_at.
  destruct (conns_step n b0 ev) as [Heq|(h & gd & o & a & l & op & k & cop & -> & Ht & Ha & Heq)].
  { rewrite Heq. intros He. left. left. exists b0. by left. }
  intros He. destruct (decide (entries (direct (conns_at n b0)) !! v = Some e')) as [Hsame|Hnew]; [left; left; exists b0; by left|].
  assert (Hval : forall e, entries (direct (conns_at n b0)) !! v = Some e -> val e <> None).
  { intros e He0. by destruct (Hs e (or_introl (ex_intro _ b0 (or_introl He0)))). }
  assert (Hwr : forall e, entries (direct (conns_at n b0)) !! v = Some e -> (ver e + 1 < u64_modulus)%N).
  { intros e He0. apply (Hwrap b0 (trace n b0) e); [|done]. rewrite trace_extend, decide_True by done. by apply prefix_app_r. }
  assert (Happ : forall m e, cop = CApplyUserSync m -> entries m !! v = Some e -> val e <> None /\ (val e = Some (identity (conns_at n b0)) -> entries (direct (conns_at n b0)) !! v <> None)).
  { intros m e -> He0. destruct a; cbn in Ha; try done. injection Ha as ->.
    destruct (all_said_apply deser dec_users dec_topics valid v (backed v n) n b0 h o m l op k e Hs Ht He0) as [H1 H2]. split; [done|].
    rewrite identity_at. intros Hv. destruct (H2 _ Hv) as (e1 & He1 & _). unfold MoveSpec.record_at in He1. congruence. }
  assert (Hl : vm_get (direct (conns_at n b0)) v <> None -> vm_get (direct (c_step (conns_at n b0) cop)) v <> None).
  { rewrite <- Heq. intros Hg. pose proof (Hlost b0 (trace n b0) (trace n b0 ++ [ERun h gd])) as H. rewrite trace_extend, decide_True in H by done.
    rewrite run_extend. apply H; [by apply prefix_app_r|done|exact Hg]. }
  assert (Hx : (exists c ts h, cop = CAddUser v c ts h) \/ (forall c ts h, cop <> CAddUser v c ts h)).
  { destruct cop; try (right; done). destruct (decide (u = v)) as [->|Hne]; [left; eauto|right]. intros c' ts' h'. congruence. }
  destruct Hx as [(c & ts & h' & ->)|Hna].
  - assert (Ht' : takes_on v b0 n (extend n b0 (ERun h gd)) /\ val e' = Some b0).
    { assert (Hv : val e' = Some b0). { rewrite Heq in He. cbn [c_step] in He. rewrite add_user_entries, decide_True in He by done. injection He as <-. cbn. by rewrite identity_at. }
      split; [|done]. exists e'. unfold MoveSpec.record_at. split; [exact He|]. split; [done|]. exact Hnew. }
    right. destruct Ht' as [Ht1 Ht2]. split; [done|]. split; [done|].
    rewrite Heq in He. cbn [c_step] in He. rewrite add_user_entries, decide_True in He by done. injection He as <-. cbn [ver]. unfold wver.
    destruct (entries (direct (conns_at n b0)) !! v) as [e|] eqn:Er; [|done]. case_decide as Hm.
    + exfalso. destruct (proj1 (proj2 (dir_ok_at deser dec_users dec_topics valid n b0)) v Hm) as (k0 & [Hk|Hk]); rewrite Er in Hk; injection Hk as ->; [by apply (Hval _ eq_refl)|].
      apply Hnew. unfold wver. rewrite Er, decide_True by done. done.
    + unfold u64_succ. rewrite N.mod_small; [done|]. by apply Hwr.
  - left. destruct (home_cases v (conns_at n b0) cop) as [(c & ts & h' & ->)|(_ & Hr & _)]; [eauto using dir_inv_at, dir_ok_at..| |].
    all: try (by edestruct Hna).
    rewrite Heq, Hr in He. destruct cop; cbn [next_record] in He; try done.
    + unfold lww in He. destruct (entries m !! v) as [rv|] eqn:Em; [|done]. case_decide; [|done]. unfold taken in He. destruct (val rv); [|done]. injection He as <-.
      left. exists b0. right. destruct a; cbn in Ha; try done. injection Ha as ->. eexists h, _, _, m. split; [exact Ht|]. split; [by left|]. auto.
    + exfalso. apply Hnew. case_decide; [|done]. by destruct (entries (direct (conns_at n b0)) !! v) as [[k0 [b|]]|].
Qed.

Lemma meaning_extend n b0 ev :
  net_inv n -> sound n -> possible n b0 ev -> never v (extend n b0 ev) -> all_said v (backed v n) n -> step_ok n (extend n b0 ev) ->
  one_meaning n -> one_meaning (extend n b0 ev).
Proof.
  intros Hi Hso Hp Hn Hs Hst Hom.
  assert (Hnew : forall e, said v (extend n b0 ev) e -> said v n e \/ val e = Some b0 /\ (forall e', said v n e' -> (ver e' < ver e)%N) /\ record_at v (extend n b0 ev) b0 = Some e).
  { intros e He. destruct (said_step deser dec_users dec_topics valid enc_users enc_topics Hcodec v n b0 ev e Hi Hso Hp He) as [?|Hr]; [by left|].
    destruct (record_new n b0 ev e Hn Hs Hr) as [?|(Hto & Hv & Hk)]; [by left|right]. split; [done|]. split; [|exact Hr].
    intros e' He'. destruct (Hs e' He') as [Hne Hb]. destruct (val e') as [y|]; [|done]. destruct (Hb y eq_refl) as (e1 & He1 & Hle).
    destruct (Hst b0 Hto y e1 He1) as (e2 & He2 & Hle2). rewrite He2 in Hk. lia. }
  intros e e' He He' Hk. destruct (Hnew e He) as [Ho|(Hv & Hgt & Hr)]; destruct (Hnew e' He') as [Ho'|(Hv' & Hgt' & Hr')].
  - by apply Hom.
  - specialize (Hgt' e Ho). lia.
  - specialize (Hgt e' Ho'). lia.
  - congruence.
Qed.

Definition knowing (n : net) : Prop := all_said v (backed v n) n /\ one_meaning n.
Lemma knowing_run es : hooks_pass es -> fine (n_run es) -> never v (n_run es) -> informed v es -> knowing (n_run es).
Proof.
  intros Hh Hf Hn Hin. apply (net_induct_steps knowing (never v) step_ok es); [exact Hh|exact Hf|..].
  - intros p Hp. apply (never_less _ _ _ _ _ _ (n_run es)); [|done]. intros x. by apply trace_later.
  - intros p e Hp b Hto z e0 He0. by apply (Hin p e Hp b Hto z).
  - destruct (good_run deser dec_users dec_topics valid enc_users enc_topics Hcodec v []) as [Hg _].
    + split; intros ? **; done.
    + eapply fine_prefix; [apply prefix_nil|exact Hf].
    + apply (never_less _ _ _ _ _ _ (n_run es)); [|done]. intros x. apply trace_later. apply prefix_nil.
    + split; [exact Hg|]. intros e e' He. exfalso.
      assert (H0 : forall x, broker_at (Net ∅ ∅) x = m_init x) by (intros x; unfold NetModel.broker_at, trace; cbn [n_trace]; by rewrite lookup_empty).
      change (n_run []) with (Net ∅ ∅) in He. destruct He as [[x [Hx|(h & t & y & d & Ht & _)]]|(x & c & a & h & t & i & y & d & Hl & _)].
      * rewrite H0 in Hx. change ((∅ : gmap ukey (vval bid)) !! v = Some e) in Hx. by rewrite lookup_empty in Hx.
      * rewrite H0 in Ht. change ((∅ : gmap N task) !! h = Some t) in Ht. by rewrite lookup_empty in Ht.
      * cbn [n_links] in Hl. by rewrite lookup_empty in Hl.
  - intros n b e Hi Hso Hfl [Hs Hom] Hp Hfe HK Hst. split; [by apply (backed_extend deser dec_users dec_topics valid enc_users enc_topics Hcodec)|by apply meaning_extend].
  - intros n a ha hha ca b hb hhb cb Hne Ha Hb [Hs Hom]. split; [by apply all_said_linked|].
    assert (Hsd : forall e, said v (linked_up n a ha hha ca b hb hhb cb) e -> said v (extend (extend n a (EBrokerAuthed ha hha b ca)) b (EBrokerAuthed hb hhb a cb)) e).
    { set (n2 := extend (extend n a (EBrokerAuthed ha hha b ca)) b (EBrokerAuthed hb hhb a cb)) in *. intros e He.
      exact (all_said_linked deser dec_users dec_topics valid v (said v n2) n a ha hha ca b hb hhb cb Ha Hb (fun e0 H0 => H0) e He). }
    intros e e' He He'. apply Hom; by apply Hsd.
  - intros n a ha hha ca b hb hhb cb Ha Hb HK. change (never v (extend (extend n a (EBrokerAuthed ha hha b ca)) b (EBrokerAuthed hb hhb a cb))) in HK.
    split; [by eapply never_extend|exact HK].
  - intros n a ha hha b ca x (e & He & _ & Hne). exfalso. apply Hne. unfold MoveSpec.record_at in *. rewrite broker_extend in He. case_decide; [|done]. subst.
    cbn [TaskModel.m_step] in He. by case_decide.
Qed.

(** Whoever is named, there is a broker that has the user and whose record is at least as new. *)
Lemma chain n : knowing n -> below_wrap v n -> forall k x z, record_at v n x = Some (VVal k (Some z)) ->
  exists y k', record_at v n y = Some (VVal k' (Some y)) /\ (k <= k')%N /\ (k = k' -> y = z).
Proof.
  intros [Hs Hom] Hw k. induction k as [k IH] using (well_founded_induction (N.gt_wf u64_modulus)). intros x z Hx.
  assert (Hsx : said v n (VVal k (Some z))) by (left; exists x; by left).
  destruct (Hs _ Hsx) as [_ Hb]. destruct (Hb z eq_refl) as ([k1 o1] & Hz & Hle). cbn in Hle.
  assert (Hsz : said v n (VVal k1 o1)) by (left; exists z; by left).
  destruct (Hs _ Hsz) as [Hv1 _]. cbn in Hv1. destruct o1 as [z1|]; [|done].
  destruct (decide (k = k1)) as [<-|Hk].
  - pose proof (Hom _ _ Hsx Hsz eq_refl) as Heq. injection Heq as <-. exists z, k. split; [done|]. split; [lia|done].
  - destruct (IH k1) with (x := z) (z := z1) as (y & k' & Hy & Hk' & _); [|done|].
    + split; [lia|]. pose proof (Hw z (trace n z) _ ltac:(done) Hz) as H. cbn in H. lia.
    + exists y, k'. split; [done|]. split; [lia|]. lia.
Qed.
End user.

Lemma informed_found v es x y :
  hooks_pass es -> let n := n_run es in fine n -> never_lost v n -> below_wrap v n -> informed v es -> at_rest n -> joined n x y -> all_announced n y ->
  forall c, c_get_user_connection (conns_at n y) v = Some c -> (forall z c', c_get_user_connection (conns_at n z) v = Some c' -> z = y) ->
  c_get_broker_identifier_of_user (conns_at n x) v = Some y.
Proof.
  intros Hh n Hf Hn1 Hn2 Hin Hr Hj Hann c Hc Honly. pose proof (knowing_run v es Hh Hf (conj Hn1 Hn2) Hin) as Hkn. fold n in Hkn.
  destruct (heeds_at_rest deser dec_users dec_topics valid enc_users enc_topics Hcodec v es x y Hh Hf Hn1 Hn2 Hr Hj Hann c Hc) as (k & Hk & e & He & Hcase). fold n in Hk, He.
  assert (Hse : said v n e) by (left; exists x; by left). destruct (proj1 Hkn _ Hse) as [Hv _]. destruct e as [k' [z|]]; [|done].
  destruct (chain v n Hkn Hn2 k' x z He) as (y' & k2 & Hy' & Hle & Heq).
  assert (y' = y) as ->.
  { assert (Hd : c_get_broker_identifier_of_user (conns_at n y') v = Some y') by (unfold c_get_broker_identifier_of_user, vm_get; unfold MoveSpec.record_at in Hy'; by rewrite Hy').
    apply state_directory in Hd as [c' Hc']. by apply (Honly y' c'). }
  rewrite Hk in Hy'. injection Hy' as <-. cbn in Hcase. unfold c_get_broker_identifier_of_user, vm_get. rewrite He. cbn. f_equal. symmetry. apply Heq. lia.
Qed.
End net.
