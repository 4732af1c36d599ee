(** Proofs: a user that logged in at several brokers is left with one of any two linked brokers. *)
From stdpp Require Import gmap fin_maps fin_sets list.
From Coq Require Import NArith ZArith Lia.
From Verif Require Import IdModel IdProofs RelMapModel RelMapProofs VMapModel VMapSpec VMapProofs ConnModel ConnSpec ConnProofs ConnProofs2 ConnProofs3 ConnProofs4
  SyncSpec SyncModel DirSyncProofs DirSeqProofs TopicSyncProofs TopicModel TopicProofs MsgModel RouteModel RouteProofs TaskModel TaskProofs TaskOrder TaskHandles TaskIsolation TaskSync
  NetModel NetProofs NetOrigin NetDelivery NetComplete NetSynced NetSettle NetSettleDir FifoProofs BusyProofs MoveSpec MoveProofs LinkupProofs2 HomeSpec.

(** ** One operation *)
Section op.
Variables (v : ukey) (s : conns) (o : conn_op).
Notation s' := (c_step s o).
Notation rec x := (entries (direct x) !! v).
Hypothesis Hdi : dir_inv s.
Hypothesis Hdo : dir_ok s.
Hypothesis Hval : forall e, rec s = Some e -> val e <> None.
Hypothesis Hwrap : forall e, rec s = Some e -> (ver e + 1 < u64_modulus)%N.
Hypothesis Happ : forall m e, o = CApplyUserSync m -> entries m !! v = Some e -> val e <> None /\ (val e = Some (identity s) -> rec s <> None).
Hypothesis Hlost : vm_get (direct s) v <> None -> vm_get (direct s') v <> None.

Lemma home_cases :
  (exists c ts h, o = CAddUser v c ts h)
  \/ (forall c ts h, o <> CAddUser v c ts h) /\ rec s' = next_record s o v /\ (v ∈ modified (direct s) -> v ∈ modified (direct s') \/ o = CPartialUserSync \/ users s' !! v = None).
Proof.
  assert (Hd : (exists c ts h, o = CAddUser v c ts h) \/ (forall c ts h, o <> CAddUser v c ts h)).
  { destruct o; try (right; done). destruct (decide (u = v)) as [->|Hne]; [left; eauto|right]. intros c' ts' h'. congruence. }
  destruct Hd as [Hd|Hd]; [by left|right]. split; [done|]. destruct (op_record s o v Hd) as [(R1 & _ & R3)|(R1 & R2 & e & Hne & Hve)]; [done|exfalso].
  destruct (rec s) as [e0|] eqn:Er.
  { apply Hlost; [|done]. unfold vm_get. rewrite Er. by apply Hval. }
  destruct o; cbn [next_record] in Hne; try congruence.
  - rewrite Er in Hne. unfold lww in Hne. destruct (entries m !! v) as [rv|] eqn:Em; [|done]. destruct (Happ m rv eq_refl Em) as [H1 H2].
    case_decide; [|done]. unfold taken in Hne. destruct (val rv) eqn:Ev; [|done]. injection Hne as <-. apply H2; [|done]. congruence.
  - rewrite Er in Hne. by case_decide.
Qed.

Lemma home_rec e' : rec s' = Some e' ->
  rec s = Some e' \/ (exists m, o = CApplyUserSync m /\ entries m !! v = Some e') \/ val e' = Some (identity s).
Proof.
  intros He. destruct home_cases as [(c & ts & h & Ho)|(Hna & Hr & _)].
  - right. right. rewrite Ho in He. cbn [c_step] in He. rewrite add_user_entries, decide_True in He by done. by injection He as <-.
  - rewrite Hr in He. destruct o; cbn [next_record] in He; try by left.
    + unfold lww in He. destruct (entries m !! v) as [rv|] eqn:Em; [|by left]. case_decide; [|by left]. unfold taken in He. destruct (val rv); [|done].
      injection He as <-. right. left. eauto.
    + case_decide; [|by left]. left. by destruct (rec s) as [[k [b|]]|].
Qed.

Lemma home_grows e : rec s = Some e ->
  exists e', rec s' = Some e' /\ ((ver e < ver e')%N \/ ver e = ver e' /\ (users s !! v = None -> users s' !! v = None)).
Proof.
  intros He. destruct home_cases as [(c & ts & h & Ho)|(Hna & Hr & _)].
  - rewrite Ho. cbn [c_step]. rewrite add_user_entries, decide_True by done. eexists. split; [done|]. cbn [ver]. unfold wver. rewrite He. case_decide as Hm.
    + right. split; [done|]. intros Hu. exfalso. destruct (proj1 (proj2 Hdo) v Hm) as (k & [Hk|Hk]); rewrite He in Hk; injection Hk as ->; [by apply (Hval _ He)|].
      destruct (proj1 (proj2 Hdi v)) as [x Hx]; [unfold vm_get; by rewrite He|]. by rewrite Hu in Hx.
    + left. unfold u64_succ. rewrite N.mod_small by (by apply Hwrap). lia.
  - rewrite Hr. pose proof (op_users v s o Hna) as Hu.
    destruct o; cbn [next_record]; try (exists e; split; [done|]; right; done).
    + unfold lww. destruct (entries m !! v) as [rv|] eqn:Em; [|exists e; auto]. case_decide as Hw; [|exists e; auto].
      destruct (Happ m rv eq_refl Em) as [H1 _]. unfold taken. destruct (val rv) eqn:Ev; [|done]. exists rv. split; [done|]. rewrite He in Hw. cbn in Hw.
      destruct Hw as [Hw|[Hw Hg]]; [by left|right]. split; [done|]. intros _. cbn [c_step]. rewrite apply_users, Em, decide_True; [done|]. rewrite He. right. done.
    + exists e. split; [|auto]. pose proof (Hval e He) as Hv. rewrite He. case_decide; [|done]. by destruct e as [k [b|]].
Qed.

Lemma home_stays : users s' !! v <> None ->
  v ∈ modified (direct s') \/ users s !! v <> None /\ rec s' = rec s /\ (v ∈ modified (direct s) -> o = CPartialUserSync).
Proof.
  intros Hu'. destruct home_cases as [(c & ts & h & Ho)|(Hna & Hr & Hm)].
  - left. rewrite Ho. cbn [c_step]. rewrite add_user_modified. by left.
  - assert (Hu : users s !! v <> None) by (intros Hu; by apply Hu', op_users).
    destruct (decide (v ∈ modified (direct s'))) as [?|Hnm]; [by left|right]. split; [done|]. split.
    + rewrite Hr. destruct o; cbn [next_record]; try done.
      * unfold lww. destruct (entries m !! v) as [rv|] eqn:Em; [|done]. case_decide as Hw; [|done]. exfalso. apply Hu'. cbn [c_step]. rewrite apply_users, Em. by rewrite decide_True.
      * case_decide; [|done]. destruct (rec s) as [[k [b|]]|] eqn:Er; try done. exfalso. by apply (Hval _ eq_refl).
    + intros Hms. destruct (Hm Hms) as [?|[?|?]]; done.
Qed.
End op.

(** Hearing of a claim: what is on record afterwards is newer, or as new, and then the claimant's identity decides. *)
Definition heeds (v : ukey) (y a : bid) (k : N) (s : conns) : Prop :=
  exists e, entries (direct s) !! v = Some e /\ ((k < ver e)%N \/ ver e = k /\ (bid_gtb y a = true -> users s !! v = None)).
Lemma apply_heeds v y k s m :
  dir_inv s -> entries m !! v = Some (VVal k (Some y)) -> cid m = y -> y <> identity s -> heeds v y (identity s) k (c_apply_user_sync s m).
Proof.
  intros [Hc _] He Hm Hne. destruct (apply_user_sync_dent s m v) as (H1 & _); [intros rv; rewrite He; intros [= <-]; cbn; congruence|].
  unfold heeds. rewrite H1, apply_users, He, Hc, Hm. unfold lww. destruct (decide (remote_wins bid_gtb y (identity s) (entries (direct s) !! v) (VVal k (Some y)))) as [Hw|Hw].
  - eexists. split; [reflexivity|]. right. split; [done|]. done.
  - destruct (entries (direct s) !! v) as [lv|]; [|by exfalso; apply Hw; cbn]. exists lv. split; [done|]. cbn in Hw.
    destruct (N.lt_trichotomy (ver lv) k) as [H|[H|H]]; [exfalso; auto|right; split; [done|]|by left]. intros Hg. exfalso. auto.
Qed.

(** ** The network *)
Section net.
Variable deser : bytes -> option message.
Variable dec_users : bytes -> option direct_map.
Variable dec_topics : bytes -> option topic_map.
Variable valid : N -> bool.
Variable enc_users : direct_map -> bytes.
Variable enc_topics : topic_map -> bytes.
Hypothesis Hcodec : faithful_sync deser dec_users dec_topics enc_users enc_topics.
Notation m_step := (m_step deser dec_users dec_topics valid).
Notation m_run := (m_run deser dec_users dec_topics valid).
Notation broker_at := (broker_at deser dec_users dec_topics valid).
Notation fresh_pair := (fresh_pair deser dec_users dec_topics valid).
Notation n_run := (n_run deser dec_users dec_topics valid enc_users enc_topics).
Notation net_inv := (net_inv deser dec_users dec_topics valid enc_users enc_topics).
Notation inv_run := (inv_run deser dec_users dec_topics valid enc_users enc_topics).
Notation fine := (fine deser dec_users dec_topics valid).
Notation possible := (possible deser dec_users dec_topics valid enc_users enc_topics).
Notation sound := (sound deser dec_users dec_topics valid).
Notation frames_le := (frames_le deser dec_users dec_topics valid).
Notation run_extend := (run_extend deser dec_users dec_topics valid).
Notation run_other := (run_other deser dec_users dec_topics valid).
Notation broker_extend := (broker_extend deser dec_users dec_topics valid).
Notation conns_step := (conns_step deser dec_users dec_topics valid).
Notation identity_at := (identity_at deser dec_users dec_topics valid).
Notation cov := (cov deser dec_users dec_topics valid).
Notation joined := (joined deser dec_users dec_topics valid).
Notation at_rest := (at_rest deser dec_users dec_topics valid).
Notation record_at := (record_at deser dec_users dec_topics valid).
Notation never_lost := (never_lost deser dec_users dec_topics valid).
Notation below_wrap := (below_wrap deser dec_users dec_topics valid).
Notation all_announced := (all_announced deser dec_users dec_topics valid).
Notation all_said := (all_said deser dec_users dec_topics valid).
Notation conns_at n b := (m_conns (broker_at n b)).
Notation tasks_at n b := (m_tasks (broker_at n b)).

Lemma dir_inv_at n x : dir_inv (conns_at n x).
Proof. unfold NetModel.broker_at. destruct (machine_history deser dec_users dec_topics valid x (trace n x)) as [os ->]. apply run_dir. Qed.
Lemma dir_ok_at n x : dir_ok (conns_at n x).
Proof. unfold NetModel.broker_at. destruct (machine_history deser dec_users dec_topics valid x (trace n x)) as [os ->]. apply run_dir_ok. Qed.

Section user.
Variable v : ukey.
Definition never (n : net) : Prop := never_lost v n /\ below_wrap v n.
Lemma never_less n n' : (forall x, trace n x `prefix_of` trace n' x) -> never n' -> never n.
Proof.
  intros Hp [H1 H2]. split.
  - intros x l l' Hl Hl'. apply (H1 x l l' Hl). by etrans.
  - intros x l e Hl. apply (H2 x l e). by etrans.
Qed.
Lemma never_extend n b0 ev : never (extend n b0 ev) -> never n.
Proof. apply never_less. intros x. rewrite trace_extend. case_decide; [by apply prefix_app_r|done]. Qed.

(** Nobody notes that [v] has gone, and of a broker named somewhere the record is at least as new. *)
Definition backed (n : net) (e : vval bid) : Prop :=
  val e <> None /\ forall y, val e = Some y -> exists e', record_at v n y = Some e' /\ (ver e <= ver e')%N.
Definition claim (y : bid) (k : N) (d : direct_map) : Prop := entries d !! v = Some (VVal k (Some y)) /\ cid d = y.
Definition c_G (y : bid) (k : N) (f : frame) : Prop := exists d, f = FUserSync d /\ claim y k d.
Definition c_App (y : bid) (k : N) (x : act) : Prop := exists d, x = AApplyUserSync d /\ claim y k d.
Definition told_all (n : net) : Prop :=
  forall y k, users (conns_at n y) !! v <> None -> record_at v n y = Some (VVal k (Some y)) ->
  forall cb a ha, n_links n !! (y, cb) = Some (a, ha) -> c_get_broker_connection (conns_at n y) a = Some cb -> live (broker_at n a) ha ->
    v ∈ modified (direct (conns_at n y)) \/ cov false (c_G y k) (c_App y k) (heeds v y a k) n y cb a ha.
Definition good (n : net) : Prop := all_said v (backed n) n /\ told_all n.

(** One step of one broker. *)
Lemma step_facts n b0 ev :
  never (extend n b0 ev) -> all_said v (backed n) n -> let n' := extend n b0 ev in
  (forall e', record_at v n' b0 = Some e' -> (said deser dec_users dec_topics valid v n e') \/ val e' = Some b0)
  /\ (forall e, record_at v n b0 = Some e -> exists e', record_at v n' b0 = Some e'
        /\ ((ver e < ver e')%N \/ ver e = ver e' /\ (users (conns_at n b0) !! v = None -> users (conns_at n' b0) !! v = None)))
  /\ (users (conns_at n' b0) !! v <> None -> v ∈ modified (direct (conns_at n' b0))
        \/ users (conns_at n b0) !! v <> None /\ record_at v n' b0 = record_at v n b0
           /\ (v ∈ modified (direct (conns_at n b0)) -> exists h good o l op k, ev = ERun h good /\ tasks_at n b0 !! h = Some (Task o (APartialUserSync :: l) op k))).
Proof.
  intros [Hlost Hwrap] Hs n'. unfold MoveSpec.record_at.
  destruct (conns_step n b0 ev) as [Heq|(h & gd & o & a & l & op & k & cop & -> & Ht & Ha & Heq)].
  { unfold n'. rewrite Heq. split_and!.
    - intros e' He. left. left. exists b0. by left.
    - intros e He. exists e. auto.
    - intros Hu. destruct (decide (v ∈ modified (direct (conns_at n b0)))); [by left|right]. split; [done|]. split; [done|]. intros ?. done. }
  assert (Hval : forall e, entries (direct (conns_at n b0)) !! v = Some e -> val e <> None).
  { intros e He. by destruct (Hs e (or_introl (ex_intro _ b0 (or_introl He)))). }
  assert (Hwr : forall e, entries (direct (conns_at n b0)) !! v = Some e -> (ver e + 1 < u64_modulus)%N).
  { intros e He. apply (Hwrap b0 (trace n b0) e); [|done]. rewrite trace_extend, decide_True by done. by apply prefix_app_r. }
  assert (Happ : forall m e, cop = CApplyUserSync m -> entries m !! v = Some e -> val e <> None /\ (val e = Some (identity (conns_at n b0)) -> entries (direct (conns_at n b0)) !! v <> None)).
  { intros m e -> He. destruct a; cbn in Ha; try done. injection Ha as ->.
    destruct (all_said_apply deser dec_users dec_topics valid v (backed n) n b0 h o m l op k e Hs Ht He) as [H1 H2]. split; [done|].
    rewrite identity_at. intros Hv. destruct (H2 _ Hv) as (e' & He' & _). unfold MoveSpec.record_at in He'. congruence. }
  assert (Hl : vm_get (direct (conns_at n b0)) v <> None -> vm_get (direct (c_step (conns_at n b0) cop)) v <> None).
  { rewrite <- Heq. intros Hg. pose proof (Hlost b0 (trace n b0) (trace n b0 ++ [ERun h gd])) as H. rewrite trace_extend, decide_True in H by done.
    rewrite run_extend. apply H; [by apply prefix_app_r|done|exact Hg]. }
  unfold n'. rewrite Heq. split_and!.
  - intros e' He. assert (Hx := He); eapply (home_rec v (conns_at n b0) cop) in Hx; eauto using dir_inv_at, dir_ok_at; destruct Hx as [H|[(m & -> & Hm)|H]].
    + left. left. exists b0. by left.
    + left. left. exists b0. right. destruct a; cbn in Ha; try done. injection Ha as ->. eexists h, _, _, m. split; [exact Ht|]. split; [by left|]. auto.
    + right. by rewrite identity_at in H.
  - intros e He. eapply (home_grows v (conns_at n b0) cop); eauto using dir_inv_at, dir_ok_at.
  - intros Hu. assert (Hx := Hu); eapply (home_stays v (conns_at n b0) cop) in Hx; eauto using dir_inv_at, dir_ok_at; destruct Hx as [H|(H1 & H2 & H3)]; [by left|right]. split; [done|]. split; [done|].
    intros Hm. specialize (H3 Hm). subst cop. destruct a; cbn in Ha; try done. eauto 10.
Qed.

Lemma record_grows n b0 ev : never (extend n b0 ev) -> all_said v (backed n) n ->
  forall x e, record_at v n x = Some e -> exists e', record_at v (extend n b0 ev) x = Some e'
    /\ ((ver e < ver e')%N \/ ver e = ver e' /\ (users (conns_at n x) !! v = None -> users (conns_at (extend n b0 ev) x) !! v = None)).
Proof.
  intros Hn Hs x e He. destruct (decide (b0 = x)) as [<-|Hne]; [by apply step_facts|]. exists e. unfold MoveSpec.record_at in *. rewrite run_other by done. auto.
Qed.

Lemma backed_extend n b0 ev :
  net_inv n -> sound n -> possible n b0 ev -> never (extend n b0 ev) -> all_said v (backed n) n -> all_said v (backed (extend n b0 ev)) (extend n b0 ev).
Proof.
  intros Hi Hso Hp Hn Hs. pose proof (record_grows n b0 ev Hn Hs) as Hg. destruct (step_facts n b0 ev Hn Hs) as (F1 & _).
  assert (Hold : forall e, backed n e -> backed (extend n b0 ev) e).
  { intros e [H1 H2]. split; [done|]. intros y Hy. destruct (H2 y Hy) as (e' & He' & Hle). destruct (Hg y e' He') as (e2 & He2 & Hc). exists e2. split; [done|]. lia. }
  apply (all_said_extend deser dec_users dec_topics valid enc_users enc_topics Hcodec); try done.
  - intros e He. by apply Hold, Hs.
  - intros e He. destruct (F1 e He) as [Hsd|Hv]; [by apply Hold, Hs|]. split; [congruence|]. intros y. rewrite Hv. intros [= <-]. exists e. split; [exact He|lia].
Qed.

Lemma good_extend n b0 ev :
  net_inv n -> sound n -> frames_le n -> good n -> possible n b0 ev -> fine (extend n b0 ev) -> never (extend n b0 ev) -> good (extend n b0 ev).
Proof.
  intros Hi Hso Hfl [Hs Hta] Hp Hf Hn. split; [by apply backed_extend|]. set (n' := extend n b0 ev) in *.
  intros y k Hu Hr cb a ha Hl Hc' Hlive. change (n_links n !! (y, cb) = Some (a, ha)) in Hl.
  destruct (step_facts n b0 ev Hn Hs) as (_ & _ & F3). fold n' in F3.
  destruct (proj1 Hi _ _ _ _ Hl) as (Hab & _ & ca & ta & Hta' & Hoa).
  (* the sender before *)
  assert (Hsend : v ∈ modified (direct (conns_at n' y)) \/ users (conns_at n y) !! v <> None /\ record_at v n y = Some (VVal k (Some y))
    /\ (v ∈ modified (direct (conns_at n y)) -> v ∈ modified (direct (conns_at n' y)) \/ b0 = y /\ exists h good o l op k, ev = ERun h good /\ tasks_at n b0 !! h = Some (Task o (APartialUserSync :: l) op k))).
  { destruct (decide (b0 = y)) as [->|Hne].
    - destruct (F3 Hu) as [?|(H1 & H2 & H3)]; [by left|right]. split; [done|]. split; [congruence|]. intros Hm. right. auto.
    - right. unfold MoveSpec.record_at, n' in *. rewrite run_other in Hu, Hr |- * by done. auto. }
  destruct Hsend as [?|(Hu0 & Hr0 & Hm0)]; [by left|].
  destruct (decide (c_get_broker_connection (conns_at n y) a = Some cb)) as [Hc|Hc].
  2:{ right. right. right. right. destruct (decide (b0 = y)) as [->|Hnb]; [by apply conns_extend_reg|]. unfold n' in Hc'. by rewrite run_other in Hc'. }
  assert (Hlm : live (broker_at n a) ha).
  { destruct (decide (b0 = a)) as [->|Hna0]; [|unfold n' in Hlive; by rewrite run_other in Hlive]. unfold n' in Hlive. rewrite run_extend in Hlive. eapply live_back; [|exact Hlive]. by exists ta. }
  assert (Hcid : cid (direct (conns_at n y)) = y) by (destruct (dir_inv_at n y) as [-> _]; apply identity_at).
  destruct (Hta y k Hu0 Hr0 cb a ha Hl Hc Hlm) as [Hm|Hcv].
  - destruct (Hm0 Hm) as [?|(-> & h & gd & o & l & op & k' & -> & Ht)]; [by left|right]. right. right. right.
    destruct (partial_in_out _ _ _ Hm Hr0) as (d & Hd1 & Hd2). unfold n'. rewrite run_extend.
    eapply (delta_tells deser dec_users dec_topics valid a cb (c_G y k) false y (trace n y) _ h gd o l op k' (FUserSync d)); [done|exact Ht| |exists d; split; [done|]; split; [done|]].
    + change (m_run y (trace n y)) with (broker_at n y). by rewrite Hd1.
    + apply partial_out in Hd1. subst d. by rewrite diff_delta_cid.
  - right. apply (cov_step deser dec_users dec_topics valid enc_users enc_topics false (c_G y k) (c_App y k) (heeds v y a k) n b0 ev y cb a ha); try done.
    + exists (direct (conns_at n y)). split; [|by eexists]. unfold c_get_full_user_sync. rewrite decide_False; [done|]. intros He. unfold MoveSpec.record_at in Hr0. by rewrite He in Hr0.
    + intros f hk (d & -> & Hin & Hcd) Hkk. destruct (user_frame_acts deser dec_users dec_topics enc_users enc_topics Hcodec y d hk Hkk) as (d' & Heq & He & Hcd'). rewrite Heq.
      eexists. split; [by left|]. exists d'. split; [done|]. split; congruence.
    + intros x c (d & -> & Hin & Hcd) _. eexists. split; [reflexivity|]. cbn [c_step]. pose proof (identity_at n a) as Hid.
      pose proof (apply_heeds v y k (conns_at n a) d (dir_inv_at n a) Hin Hcd) as H. rewrite Hid in H. apply H. congruence.
    + intros (e & He & Hcase). destruct (record_grows n b0 ev Hn Hs a e He) as (e' & He' & Hc2). exists e'. split; [exact He'|]. fold n' in Hc2.
      destruct Hcase as [?|[Hk Hg]]; [left; lia|]. destruct Hc2 as [?|[Hk2 Hg2]]; [left; lia|right]. split; [congruence|]. auto.
Qed.

Lemma good_linked n a ha hha ca b' hb hhb cb :
  a <> b' -> fresh_pair n a ha hha ca -> fresh_pair n b' hb hhb cb ->
  good (extend (extend n a (EBrokerAuthed ha hha b' ca)) b' (EBrokerAuthed hb hhb a cb)) -> good (linked_up n a ha hha ca b' hb hhb cb).
Proof.
  intros Hne Ha Hb [Hs Hta]. set (n1 := extend _ b' _) in *. split; [by apply all_said_linked|].
  intros y k Hu Hr cb' a' ha' Hl Hc Hlive. unfold linked_up in Hl. fold n1 in Hl. cbn [n_links] in Hl.
  change (c_get_broker_connection (conns_at n1 y) a' = Some cb') in Hc.
  assert (Hfresh : forall x z c, (x = a /\ c = ca \/ x = b' /\ c = cb) -> c_get_broker_connection (conns_at n1 x) z <> Some c).
  { intros x z c Hx Hc1. unfold n1 in Hc1. rewrite (proj1 (linked_conns deser dec_users dec_topics valid n a ha hha ca b' hb hhb cb x)) in Hc1.
    assert (Hfr : c ∉ authed_conns (trace n x)) by (destruct Hx as [[-> ->]|[-> ->]]; [apply Ha|apply Hb]). apply Hfr.
    unfold c_get_broker_connection in Hc1. destruct (brokers (conns_at n x) !! z) as [be|] eqn:E; [|done]. cbn in Hc1. injection Hc1 as <-.
    destruct (reg_run deser dec_users dec_topics valid x (trace n x)) as [[_ Hrg] _]. destruct (Hrg _ _ E) as (hh & Hin).
    apply elem_of_list_In, in_concat. exists [be_conn be]. split; [|by left]. apply in_map_iff. eexists. split; [|exact Hin]. done. }
  apply lookup_insert_Some in Hl as [[Heq Hv]|[_ Hl]].
  { injection Heq as <- <-. exfalso. eapply Hfresh; [|exact Hc]. by left. }
  apply lookup_insert_Some in Hl as [[Heq Hv]|[_ Hl]].
  { injection Heq as <- <-. exfalso. eapply Hfresh; [|exact Hc]. by right. }
  by apply (Hta y k Hu Hr cb' a' ha').
Qed.

Lemma good_run es : hooks_pass es -> fine (n_run es) -> never (n_run es) -> good (n_run es).
Proof.
  intros Hh Hf Hn. apply (net_induct_from deser dec_users dec_topics valid enc_users enc_topics Hcodec good never [] es); try done.
  - apply prefix_nil.
  - intros p _ Hp. apply (never_less _ (n_run es)); [|done]. intros x. by apply trace_later.
  - assert (H0 : forall x, broker_at (Net ∅ ∅) x = m_init x) by (intros x; unfold NetModel.broker_at, trace; cbn [n_trace]; by rewrite lookup_empty).
    change (n_run []) with (Net ∅ ∅). split.
    + intros e [[x [Hx|(h & t & y & d & Ht & _)]]|(x & c & a & h & t & i & y & d & Hl & _)].
      * rewrite H0 in Hx. change ((∅ : gmap ukey (vval bid)) !! v = Some e) in Hx. by rewrite lookup_empty in Hx.
      * rewrite H0 in Ht. change ((∅ : gmap N task) !! h = Some t) in Ht. by rewrite lookup_empty in Ht.
      * cbn [n_links] in Hl. by rewrite lookup_empty in Hl.
    + intros y k Hu. rewrite H0 in Hu. exfalso. apply Hu. apply lookup_empty.
  - intros n b e Hi Hso Hfl Hg Hp Hfe HK. by apply good_extend.
  - intros n a ha hha ca b hb hhb cb Hne Ha Hb Hg. by apply good_linked.
  - intros n a ha hha ca b hb hhb cb Ha Hb HK. change (never (extend (extend n a (EBrokerAuthed ha hha b ca)) b (EBrokerAuthed hb hhb a cb))) in HK.
    split; [by eapply never_extend|exact HK].
Qed.
End user.

(** ** At rest *)
Lemma heeds_at_rest v es x y :
  hooks_pass es -> let n := n_run es in fine n -> never_lost v n -> below_wrap v n -> at_rest n -> joined n x y -> all_announced n y ->
  forall c, c_get_user_connection (conns_at n y) v = Some c -> exists k, record_at v n y = Some (VVal k (Some y)) /\ heeds v y x k (conns_at n x).
Proof.
  intros Hh n Hf Hn1 Hn2 Hr Hj Hann c Hc. destruct (good_run v es Hh Hf (conj Hn1 Hn2)) as [_ Hta]. fold n in Hta.
  pose proof (inv_run es) as Hi. fold n in Hi.
  assert (Hd : c_get_broker_identifier_of_user (conns_at n y) v = Some y) by (apply state_directory; by exists c).
  assert (Hrec : exists k, record_at v n y = Some (VVal k (Some y))).
  { unfold c_get_broker_identifier_of_user, vm_get in Hd. unfold MoveSpec.record_at. destruct (entries (direct (conns_at n y)) !! v) as [[k [b|]]|]; try done. cbn in Hd. injection Hd as ->. eauto. }
  destruct Hrec as [k Hrec]. exists k. split; [done|].
  destruct (joined_live deser dec_users dec_topics valid enc_users enc_topics n x y Hi Hj) as (ca & cb & ha & R & Hcb & Hl & HR & Hlive).
  assert (Hu : users (conns_at n y) !! v <> None) by (unfold c_get_user_connection in Hc; by destruct (users (conns_at n y) !! v)).
  destruct (Hta y k Hu Hrec _ _ _ Hl Hcb Hlive) as [Hm|Hcov].
  - exfalso. destruct (partial_in_out _ _ _ Hm Hrec) as (d & Hd1 & _). unfold HomeSpec.all_announced in Hann. congruence.
  - by apply (rest_cov deser dec_users dec_topics valid _ _ _ _ _ _ _ _ _ _ _ Hf Hr Hl HR) in Hcov.
Qed.

Lemma one_home v es x y :
  hooks_pass es -> let n := n_run es in fine n -> never_lost v n -> below_wrap v n -> at_rest n -> x <> y -> joined n x y -> joined n y x ->
  all_announced n x -> all_announced n y ->
  forall c c', c_get_user_connection (conns_at n x) v = Some c -> c_get_user_connection (conns_at n y) v = Some c' -> False.
Proof.
  intros Hh n Hf Hn1 Hn2 Hr Hne Hj Hj' Hax Hay c c' Hc Hc'.
  destruct (heeds_at_rest v es x y Hh Hf Hn1 Hn2 Hr Hj Hay c' Hc') as (k & Hk & e & He & Hcase).
  destruct (heeds_at_rest v es y x Hh Hf Hn1 Hn2 Hr Hj' Hax c Hc) as (k' & Hk' & e' & He' & Hcase'). fold n in Hk, He, Hcase, Hk', He', Hcase'.
  unfold MoveSpec.record_at in Hk, Hk'. rewrite Hk' in He. injection He as <-. rewrite Hk in He'. injection He' as <-. cbn [ver] in Hcase, Hcase'.
  unfold c_get_user_connection in Hc, Hc'. destruct (users (conns_at n x) !! v) eqn:Ex; [|done]. destruct (users (conns_at n y) !! v) eqn:Ey; [|done].
  destruct Hcase as [H|[H Hg]]; destruct Hcase' as [H'|[H' Hg']]; try lia.
  assert (Hgt : bid_gtb y x = true \/ bid_gtb x y = true). { destruct (bid_gtb y x) eqn:E; [by left|right]. pose proof (gtb_negb y x ltac:(congruence)) as H2. rewrite E in H2. by destruct (bid_gtb x y). }
  destruct Hgt as [H2|H2]; [by specialize (Hg H2)|by specialize (Hg' H2)].
Qed.
End net.
