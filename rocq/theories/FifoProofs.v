(** Proofs: a reader gets the messages of each session in order and none twice. *)
From stdpp Require Import gmap fin_maps list.
From Coq Require Import NArith Lia.
From Verif Require Import IdModel VMapModel ConnModel TopicModel MsgModel RouteModel TaskModel TaskProofs TaskOrder NetModel NetProofs NetOrigin FifoSpec.

(** ** Lists *)
Lemma sublist_omap {A B} (f : A -> option B) (l k : list A) : l `sublist_of` k -> omap f l `sublist_of` omap f k.
Proof. induction 1; cbn; [done| |]; destruct (f x); try done; by constructor. Qed.
Lemma submseteq_omap {A B} (f : A -> option B) (l k : list A) : l ⊆+ k -> omap f l ⊆+ omap f k.
Proof.
  induction 1; cbn; [done|..].
  - destruct (f x); [by constructor|done].
  - destruct (f x), (f y); try done. constructor.
  - destruct (f x); [by constructor|done].
  - by etrans.
Qed.
Lemma zip_map {A B C} (f : A -> B) (g : A -> C) l : zip (map f l) (map g l) = map (fun x => (f x, g x)) l.
Proof. induction l as [|x l IH]; cbn; [done|by rewrite IH]. Qed.
Lemma filter_map_comm {A B} (f : A -> B) (P : B -> Prop) `{!forall x, Decision (P x)} l :
  filter P (map f l) = map f (filter (fun x => P (f x)) l).
Proof. induction l as [|x l IH]; [done|]. cbn [map]. rewrite !filter_cons. case_decide; cbn [map]; by rewrite IH. Qed.
Lemma choose_all {A B} (R : A -> B -> Prop) (l : list A) : (forall x, In x l -> exists y, R x y) -> exists k, Forall2 R l k.
Proof.
  induction l as [|x l IH]; intros H; [by exists []|]. destruct (H x) as [y Hy]; [by left|]. destruct IH as [k Hk]; [intros; apply H; by right|].
  exists (y :: k). by constructor.
Qed.

(** Picking elements by increasing positions gives a part of the list in the same order. *)
Lemma pick_sublist {A} (R : list A) (l : list (nat * A)) :
  (forall p q x y, p < q -> l !! p = Some x -> l !! q = Some y -> x.1 < y.1) -> (forall x, In x l -> R !! x.1 = Some x.2) ->
  map snd l `sublist_of` R.
Proof.
  revert l. induction R as [|r R IH]; intros l Hinc Hin.
  { destruct l as [|x l]; [constructor|]. specialize (Hin x (or_introl eq_refl)). by rewrite lookup_nil in Hin. }
  assert (Hshift : forall l', (forall p q x y, p < q -> l' !! p = Some x -> l' !! q = Some y -> x.1 < y.1) ->
    (forall x, In x l' -> 0 < x.1 /\ (r :: R) !! x.1 = Some x.2) -> map snd l' `sublist_of` R).
  { intros l' Hi' Hl'. replace (map snd l') with (map snd (map (fun x : nat * A => (pred x.1, x.2)) l')) by (rewrite map_map; done). apply IH.
    - intros p q x y Hpq Hx Hy. rewrite list_lookup_fmap in Hx, Hy. apply fmap_Some in Hx as (x' & Hx & ->). apply fmap_Some in Hy as (y' & Hy & ->). cbn.
      pose proof (Hi' p q x' y' Hpq Hx Hy). destruct (Hl' x'); [apply elem_of_list_In; by eapply elem_of_list_lookup_2|]. lia.
    - intros x Hx. apply in_map_iff in Hx as (x' & <- & Hx). destruct (Hl' x' Hx) as [Hp Hlk]. cbn. destruct (x'.1); [lia|done]. }
  destruct l as [|[[|i] y] l]; [apply sublist_nil_l| |].
  - pose proof (Hin (0, y) (or_introl eq_refl)) as Hy. cbn in Hy. injection Hy as <-. cbn. constructor. apply Hshift.
    + intros p q x z Hpq Hx Hz. by apply (Hinc (S p) (S q) x z); [lia| |].
    + intros x Hx. split; [|apply Hin; by right]. apply elem_of_list_In, elem_of_list_lookup in Hx as [p Hp]. apply (Hinc 0 (S p) (0, r) x); [lia|done|done].
  - constructor. apply Hshift; [done|]. intros x Hx. split; [|by apply Hin]. destruct Hx as [<-|Hx]; [cbn; lia|].
    apply elem_of_list_In, elem_of_list_lookup in Hx as [p Hp]. pose proof (Hinc 0 (S p) (S i, y) x ltac:(lia) eq_refl Hp) as H. cbn in H. lia.
Qed.
(** Picking by different positions gives no element more often than it is there. *)
Lemma pick_submseteq (R : list bytes) (l : list (nat * bytes)) :
  (forall p q x y, p < q -> l !! p = Some x -> l !! q = Some y -> x.1 <> y.1) -> (forall x, In x l -> R !! x.1 = Some x.2) ->
  map snd l ⊆+ R.
Proof.
  intros Hd Hin. set (f := fun i => default [] (R !! i)).
  assert (Hl : map snd l = map f (map fst l)).
  { rewrite map_map. apply map_ext_in. intros x Hx. unfold f. by rewrite (Hin x Hx). }
  assert (Hseq : map f (seq 0 (length R)) = R).
  { apply list_eq. intros i. change (map f (seq 0 (length R))) with (f <$> seq 0 (length R)). rewrite list_lookup_fmap. destruct (decide (i < length R)) as [Hi|Hi].
    - rewrite lookup_seq_lt by done. cbn. unfold f. destruct (lookup_lt_is_Some_2 R i Hi) as [x Hx]. by rewrite Hx.
    - rewrite lookup_seq_ge by lia. rewrite lookup_ge_None_2; [done|lia]. }
  rewrite Hl, <- Hseq at 1. apply (fmap_submseteq f). apply NoDup_submseteq.
  - apply NoDup_alt. intros p q i Hp Hq. change (map fst l) with (fst <$> l) in Hp, Hq. rewrite list_lookup_fmap in Hp, Hq.
    apply fmap_Some in Hp as (x & Hx & ->). apply fmap_Some in Hq as (y & Hy & Heq).
    destruct (lt_eq_lt_dec p q) as [[Hlt|?]|Hlt]; [by destruct (Hd _ _ _ _ Hlt Hx Hy)|done|by destruct (Hd _ _ _ _ Hlt Hy Hx)].
  - intros i Hi. apply elem_of_list_In, in_map_iff in Hi as (x & <- & Hx). apply elem_of_seq. split; [lia|]. cbn. apply lookup_lt_Some with x.2. by apply Hin.
Qed.

Section proofs.
Variable deser : bytes -> option message.
Variable dec_users : bytes -> option direct_map.
Variable dec_topics : bytes -> option topic_map.
Variable valid : N -> bool.
Variable enc_users : direct_map -> bytes.
Variable enc_topics : topic_map -> bytes.
Notation m_step := (m_step deser dec_users dec_topics valid).
Notation m_run := (m_run deser dec_users dec_topics valid).
Notation broker_at := (broker_at deser dec_users dec_topics valid).
Notation n_step := (n_step deser dec_users dec_topics valid enc_users enc_topics).
Notation n_run := (n_run deser dec_users dec_topics valid enc_users enc_topics).
Notation loop_of := (loop_of deser dec_users dec_topics valid).
Notation inv_run := (inv_run deser dec_users dec_topics valid enc_users enc_topics).
Notation n_run_snoc := (n_run_snoc deser dec_users dec_topics valid enc_users enc_topics).
Notation comes_from := (comes_from deser dec_users dec_topics valid).

(** ** Frames are numbered as received *)
Definition got (m : machine) (h : N) : list rcvd := filter (fun r => r_task r = h) (m_rcvd m).
Definition frames (m : machine) (h : N) : nat := match m_tasks m !! h with Some t => t_frames t | None => 0 end.
Definition numbered (m : machine) : Prop := forall h, map r_frame (got m h) = seq 1 (frames m h).

Lemma numbered_same m m' : m_rcvd m' = m_rcvd m -> (forall h, frames m' h = frames m h) -> numbered m -> numbered m'.
Proof. intros Hr Hf Hn h. unfold got. rewrite Hr, Hf. apply Hn. Qed.
Lemma frames_set m h t h' : frames (set_task m h t) h' = if decide (h = h') then t_frames t else frames m h'.
Proof. unfold frames, set_task. cbn [m_tasks]. case_decide as Hd; [subst; by rewrite lookup_insert|by rewrite lookup_insert_ne]. Qed.
Lemma numbered_step m e : numbered m -> numbered (m_step m e).
Proof.
  intros Hn. destruct e as [h hh u c ts|h hh b c|hh|hh u|h raw hk|h|h good|h]; cbn [TaskModel.m_step].
  - case_decide as Hd; [|done]. destruct Hd as (Hne & H1 & H2). apply (numbered_same m); [done| |done]. intros h'. rewrite !frames_set. unfold frames.
    case_decide; [subst; by rewrite H2|]. case_decide; [subst; by rewrite H1|done].
  - case_decide as Hd; [|done]. destruct Hd as (Hne & H1 & H2). apply (numbered_same m); [done| |done]. intros h'. rewrite !frames_set. unfold frames.
    case_decide; [subst; by rewrite H2|]. case_decide; [subst; by rewrite H1|done].
  - destruct (m_tasks m !! hh) eqn:E; [done|]. apply (numbered_same m); [done| |done]. intros h'. rewrite frames_set. unfold frames. case_decide; [subst; by rewrite E|done].
  - destruct (m_tasks m !! hh) eqn:E; [done|]. apply (numbered_same m); [done| |done]. intros h'. rewrite frames_set. unfold frames. case_decide; [subst; by rewrite E|done].
  - destruct (m_tasks m !! h) as [[o [|? ?] [|] n]|] eqn:E; try done. destruct (loop_frame deser dec_users dec_topics valid o raw hk) as [acts go].
    intros h'. unfold got, frames. cbn [m_rcvd m_tasks]. rewrite filter_app. specialize (Hn h'). unfold got, frames in Hn. rewrite map_app, Hn.
    destruct (decide (h = h')) as [<-|Hne].
    + rewrite lookup_insert, E. cbn [t_frames]. rewrite filter_cons_True by done. rewrite filter_nil. cbn [map r_frame]. by rewrite seq_S.
    + rewrite lookup_insert_ne by done. rewrite filter_cons_False by done. rewrite filter_nil. cbn [map]. by rewrite app_nil_r.
  - destruct (m_tasks m !! h) as [[o [|? ?] [|] n]|] eqn:E; try done. apply (numbered_same m); [done| |done]. intros h'. rewrite frames_set. unfold frames.
    case_decide; [subst; by rewrite E|done].
  - destruct (m_tasks m !! h) as [[o [|a acts] op n]|] eqn:E; try done. destruct (act_step (fun _ => good) (m_conns m) a) as [[s' nxt] es].
    apply (numbered_same m); [done| |done]. intros h'. unfold frames. cbn [m_tasks].
    destruct (decide (h = h')) as [<-|Hne]; [by rewrite lookup_insert, E|by rewrite lookup_insert_ne].
  - destruct (m_tasks m !! h) as [[o acts op n]|] eqn:E; try done. case_decide; [|done]. apply (numbered_same m); [done| |done]. intros h'. rewrite frames_set. unfold frames.
    case_decide; [subst; by rewrite E|done].
Qed.
Lemma numbered_run i es : numbered (m_run i es).
Proof.
  induction es as [|e es IH] using rev_ind; [|unfold TaskModel.m_run; rewrite fold_left_app; by apply numbered_step].
  intros h. unfold got, frames. cbn. by rewrite lookup_empty.
Qed.
Lemma numbered_lookup n b h k raw hk :
  In (Rcvd h k raw hk) (m_rcvd (broker_at n b)) -> map r_raw (got (broker_at n b) h) !! pred k = Some raw.
Proof.
  intros Hin. pose proof (numbered_run b (trace n b) h) as Hn. fold (broker_at n b) in Hn.
  assert (Hg : In (Rcvd h k raw hk) (got (broker_at n b) h)) by (apply elem_of_list_In, elem_of_list_filter; split; [done|by apply elem_of_list_In]).
  apply elem_of_list_In, elem_of_list_lookup in Hg as [i Hi].
  assert (Hk : map r_frame (got (broker_at n b) h) !! i = Some k) by (change (map r_frame) with (fmap (M := list) r_frame); rewrite list_lookup_fmap, Hi; done).
  rewrite Hn in Hk. apply lookup_seq in Hk as [-> _]. cbn [Nat.add pred]. change (map r_raw) with (fmap (M := list) r_raw). rewrite list_lookup_fmap, Hi. done.
Qed.

(** ** What a session's loop received was published, in the same order *)
Definition pub_ok (es : list nevent) (n : net) : Prop :=
  forall a h, (forall t, m_tasks (broker_at n a) !! h = Some t -> exists u c, t_owner t = OUser u c) ->
    map r_raw (got (broker_at n a) h) `sublist_of` published es a h.
Lemma published_snoc es e a h : published (es ++ [e]) a h = published es a h ++ published [e] a h.
Proof. unfold published. by rewrite omap_app. Qed.
Lemma pub_extend es n b e (new : list nevent) :
  pub_ok es n ->
  (forall h raw hk t, e = EFrame h raw hk -> m_tasks (broker_at n b) !! h = Some t ->
     (exists u c, t_owner t = OUser u c) -> published new b h = [raw]) ->
  pub_ok (es ++ new) (extend n b e).
Proof.
  intros Hi Hf a h Ho.
  assert (Ho' : forall t, m_tasks (broker_at n a) !! h = Some t -> exists u c, t_owner t = OUser u c).
  { intros t Ht. destruct (loop_of_extend deser dec_users dec_topics valid n b e a h (t_owner t)) as (t' & Ht' & Heq); [by exists t|].
    destruct (Ho t' Ht') as (u & c & H). exists u, c. congruence. }
  specialize (Hi a h Ho'). assert (Hp : published (es ++ new) a h = published es a h ++ published new a h) by (unfold published; by rewrite omap_app). rewrite Hp.
  assert (Hold : map r_raw (got (broker_at n a) h) `sublist_of` published es a h ++ published new a h) by (by apply sublist_inserts_r).
  rewrite broker_extend. case_decide as Hd; [subst a|done].
  destruct (step_rcvd deser dec_users dec_topics valid (broker_at n b) e) as [Heq|(h' & raw & hk & t & -> & Ht & Heq)]; unfold got; rewrite Heq; [done|].
  rewrite filter_app. destruct (decide (h' = h)) as [->|Hne].
  - rewrite filter_cons_True, filter_nil by done. rewrite map_app. cbn [map r_raw]. rewrite (Hf h raw hk t eq_refl Ht (Ho' t Ht)). by apply sublist_app.
  - rewrite filter_cons_False, filter_nil, app_nil_r by done. done.
Qed.
Lemma pub_mono es n new : pub_ok es n -> pub_ok (es ++ new) n.
Proof. intros Hi a h Ho. unfold published. rewrite omap_app. apply sublist_inserts_r. by apply Hi. Qed.
Lemma pub_run es : pub_ok es (n_run es).
Proof.
  induction es as [|e es IH] using rev_ind.
  { intros a h _. unfold NetModel.broker_at, trace. cbn. rewrite lookup_empty. cbn. constructor. }
  rewrite n_run_snoc. pose proof (inv_run es) as (I0 & _). set (n := n_run es) in *.
  destruct e as [b h hh u c ts|a ha hha ca b hb hhb cb|b h raw hk|a c hk|b e]; cbn [NetModel.n_step].
  - case_decide; [|by apply pub_mono]. by apply pub_extend.
  - case_decide; [|by apply pub_mono]. set (n0 := extend n a (EBrokerAuthed ha hha b ca)).
    assert (H0 : pub_ok es n0) by (rewrite <- (app_nil_r es); by apply pub_extend).
    assert (H1 : pub_ok (es ++ [NUp a ha hha ca b hb hhb cb]) (extend n0 b (EBrokerAuthed hb hhb a cb))) by by apply pub_extend.
    exact H1.
  - destruct (m_tasks (broker_at n b) !! h) as [[[u c|b' c|] acts op k]|] eqn:E; try by apply pub_mono.
    apply pub_extend; [done|]. intros h' raw' hk' t [= <- <- <-] _ _. unfold published. cbn. by rewrite decide_True.
  - destruct (n_links n !! (a, c)) as [[b h]|] eqn:El; [|by apply pub_mono].
    destruct (m_tasks (broker_at n b) !! h) as [t|] eqn:Et; [|by apply pub_mono].
    destruct (sent_on (broker_at n a) c !! t_frames t) as [x|] eqn:Ex; [|by apply pub_mono].
    apply pub_extend; [done|]. intros h' raw' hk' t' [= <- <- <-] Ht' (u & c' & Ho). rewrite Et in Ht'. injection Ht' as <-.
    destruct (I0 _ _ _ _ El) as (_ & _ & cb & t1 & Ht1 & Ho1). rewrite Et in Ht1. injection Ht1 as <-. congruence.
  - destruct (receives_nothing e) eqn:Hn; [|by apply pub_mono]. apply pub_extend; [done|]. intros. by subst.
Qed.

(** ** What a connection carries *)
Hypothesis Hcodec : sync_codec deser enc_users enc_topics.
Lemma carried es b c v :
  hooks_keep_sync es ->
  (forall x, In x (sent_on (broker_at (n_run es) b) c) -> exists raw, s_what x = Emit (inl v) c (FRelay raw)) ->
  exists T : list (bid * N * nat * bytes),
    Forall2 (fun x t => s_what x = Emit (inl v) c (FRelay t.2)) (sent_on (broker_at (n_run es) b) c) T
    /\ forall a h, let mine := map snd (filter (fun t => t.1.1 = (a, h)) T) in
       mine ⊆+ published es a h /\ (linked_once (n_run es) a b -> mine `sublist_of` published es a h).
Proof.
  intros Hh Hrel. set (L := sent_on (broker_at (n_run es) b) c) in *.
  destruct (choose_all (fun x (t : bid * N * nat * bytes) => s_what x = Emit (inl v) c (FRelay t.2)
    /\ comes_from (n_run es) b x t.1.1.1 t.1.1.2 t.1.2 /\ (exists u cu, loop_of (n_run es) t.1.1.1 t.1.1.2 (OUser u cu))
    /\ exists hk, In (Rcvd t.1.1.2 t.1.2 t.2 hk) (m_rcvd (broker_at (n_run es) t.1.1.1))) L) as [T HT].
  { intros x Hx. destruct (Hrel x Hx) as [raw Hw]. apply elem_of_list_In, elem_of_list_filter in Hx as [_ Hx]. apply elem_of_list_In in Hx.
    destruct (delivered_origin deser dec_users dec_topics valid enc_users enc_topics Hcodec es b x v raw Hh Hx) as (a & h & k & u & cu & hk & H1 & H2 & H3 & _); [by rewrite Hw|by rewrite Hw|].
    exists (a, h, k, raw). cbn. split; [done|]. split; [done|]. split; [by exists u, cu|by exists hk]. }
  exists T. split; [eapply Forall2_impl; [exact HT|]; by intros x t [? _]|].
  intros a h mine. set (F := filter (fun t : bid * N * nat * bytes => t.1.1 = (a, h)) T) in *.
  destruct (decide (F = [])) as [EF|EF]; [unfold mine; rewrite EF; split; [apply submseteq_nil_l|intros; apply sublist_nil_l]|].
  assert (Ht0 : exists t0, In t0 F) by (destruct F as [|t0 ?]; [done|exists t0; by left]). destruct Ht0 as [t0 Ht0].
  assert (HF : forall t, In t F -> t.1.1 = (a, h) /\ exists x, In x L /\ s_what x = Emit (inl v) c (FRelay t.2)
    /\ comes_from (n_run es) b x a h t.1.2 /\ (exists u cu, loop_of (n_run es) a h (OUser u cu))
    /\ exists hk, In (Rcvd h t.1.2 t.2 hk) (m_rcvd (broker_at (n_run es) a))).
  { intros t Ht. apply elem_of_list_In, elem_of_list_filter in Ht as [Hs Ht]. split; [done|]. apply elem_of_list_lookup in Ht as [p Hp].
    destruct (Forall2_lookup_r _ _ _ _ _ HT Hp) as (x & Hx & Hw & Hc & Hl & Hr). exists x. split; [apply elem_of_list_In; by eapply elem_of_list_lookup_2|].
    rewrite Hs in Hc, Hl, Hr. done. }
  set (R := map r_raw (got (broker_at (n_run es) a) h)).
  assert (HR : R `sublist_of` published es a h).
  { apply pub_run. intros t Ht. destruct (HF t0) as (_ & x & _ & _ & _ & (u & cu & t' & Ht' & Ho) & _); [done|].
    exists u, cu. congruence. }
  set (l := map (fun t : bid * N * nat * bytes => (pred t.1.2, t.2)) F).
  assert (Hmine : mine = map snd l) by (unfold mine, l; by rewrite map_map).
  assert (Hlook : forall x, In x l -> R !! x.1 = Some x.2).
  { intros x Hx. apply in_map_iff in Hx as (t & <- & Ht). cbn. destruct (HF t Ht) as (_ & x & _ & _ & _ & _ & hk & Hr). by eapply numbered_lookup. }
  assert (Hpos : forall t, In t F -> 0 < t.1.2).
  { intros t Ht. destruct (HF t Ht) as (_ & x & _ & _ & _ & _ & hk & Hr). pose proof (numbered_run a (trace (n_run es) a) h) as Hn.
    assert (Hg : In t.1.2 (map r_frame (got (broker_at (n_run es) a) h))).
    { apply in_map_iff. exists (Rcvd h t.1.2 t.2 hk). split; [done|]. apply elem_of_list_In, elem_of_list_filter. split; [done|by apply elem_of_list_In]. }
    unfold NetModel.broker_at in Hg. rewrite Hn in Hg. apply in_seq in Hg. lia. }
  assert (Hpair : forall p q x y, p < q -> l !! p = Some x -> l !! q = Some y ->
    exists j k xs ys i i', j < k /\ m_sent (broker_at (n_run es) b) !! j = Some xs /\ m_sent (broker_at (n_run es) b) !! k = Some ys
      /\ e_to (s_what xs) = inl v /\ e_to (s_what ys) = inl v /\ e_conn (s_what xs) = c /\ e_conn (s_what ys) = c
      /\ comes_from (n_run es) b xs a h i /\ comes_from (n_run es) b ys a h i' /\ x.1 = pred i /\ y.1 = pred i' /\ 0 < i /\ 0 < i').
  { intros p q x y Hpq Hx Hy. unfold l in Hx, Hy. change (map ?f F) with (f <$> F) in Hx, Hy. rewrite list_lookup_fmap in Hx, Hy.
    apply fmap_Some in Hx as (tx & Hx & ->). apply fmap_Some in Hy as (ty & Hy & ->).
    pose proof (Hpos tx ltac:(apply elem_of_list_In; by eapply elem_of_list_lookup_2)) as Hpx.
    pose proof (Hpos ty ltac:(apply elem_of_list_In; by eapply elem_of_list_lookup_2)) as Hpy.
    destruct (filter_index _ _ _ _ Hx) as (_ & _ & Hsx). destruct (filter_index _ _ _ _ Hy) as (_ & _ & Hsy).
    destruct (filter_indices _ _ _ _ _ _ Hpq Hx Hy) as (p' & q' & Hpq' & Hx' & Hy').
    destruct (Forall2_lookup_r _ _ _ _ _ HT Hx') as (xs & Hxs & Hwx & Hcx & _). destruct (Forall2_lookup_r _ _ _ _ _ HT Hy') as (ys & Hys & Hwy & Hcy & _).
    destruct (filter_indices _ _ _ _ _ _ Hpq' Hxs Hys) as (j & k & Hjk & Hj & Hk).
    rewrite Hsx in Hcx. rewrite Hsy in Hcy. cbn in Hcx, Hcy.
    exists j, k, xs, ys, tx.1.2, ty.1.2. rewrite Hwx, Hwy. done. }
  split.
  - etrans; [|by apply sublist_submseteq]. rewrite Hmine. apply pick_submseteq; [|done]. intros p q x y Hpq Hx Hy.
    destruct (Hpair p q x y Hpq Hx Hy) as (j & k & xs & ys & i & i' & Hjk & Hj & Hk & Htx & Hty & _ & _ & Hcx & Hcy & -> & -> & Hi & Hi').
    intros Heq. assert (i = i') as <- by lia.
    exact (no_duplicates deser dec_users dec_topics valid enc_users enc_topics Hcodec es b v j k xs ys a h i Hh Hjk Hj Hk Htx Hty Hcx Hcy).
  - intros Hone. etrans; [|exact HR]. rewrite Hmine. apply pick_sublist; [|done]. intros p q x y Hpq Hx Hy.
    destruct (Hpair p q x y Hpq Hx Hy) as (j & k & xs & ys & i & i' & Hjk & Hj & Hk & Htx & Hty & Hex & Hey & Hcx & Hcy & -> & -> & Hi & Hi').
    pose proof (order_one_link deser dec_users dec_topics valid enc_users enc_topics Hcodec es b c j k xs ys a h i i' Hh Hjk Hj Hk (ex_intro _ v Htx) Hex Hey Hcx Hcy Hone). lia.
Qed.
End proofs.
