(** Proofs: in a synchronised network nothing a session publishes for a reader is missing from what it gets. *)
From stdpp Require Import gmap fin_maps list.
From Coq Require Import NArith Lia.
From Verif Require Import IdModel VMapModel ConnModel TopicModel MsgModel RouteModel TaskModel TaskProofs TaskOrder NetModel NetProofs NetOrigin
  NetComplete NetSynced NetConcurrent FifoSpec FifoProofs.

(** Picking exactly the elements with a property, by increasing positions. *)
Lemma pick_filter {A} (P : A -> bool) (R : list A) (l : list (nat * A)) :
  (forall p q x y, p < q -> l !! p = Some x -> l !! q = Some y -> x.1 < y.1) ->
  (forall x, In x l -> R !! x.1 = Some x.2 /\ P x.2 = true) ->
  (forall i x, R !! i = Some x -> P x = true -> In (i, x) l) ->
  map snd l = List.filter P R.
Proof.
  revert l. induction R as [|r R IH]; intros l Hinc Hin Hall.
  { destruct l as [|x l]; [done|]. destruct (Hin x (or_introl eq_refl)) as [Hx _]. by rewrite lookup_nil in Hx. }
  assert (Hshift : forall l', (forall p q x y, p < q -> l' !! p = Some x -> l' !! q = Some y -> x.1 < y.1) ->
    (forall x, In x l' -> 0 < x.1 /\ (r :: R) !! x.1 = Some x.2 /\ P x.2 = true) ->
    (forall i x, R !! i = Some x -> P x = true -> In (S i, x) l') -> map snd l' = List.filter P R).
  { intros l' Hi' Hl' Ha'. replace (map snd l') with (map snd (map (fun x : nat * A => (pred x.1, x.2)) l')) by (rewrite map_map; done). apply IH.
    - intros p q x y Hpq Hx Hy. change (map ?f l') with (f <$> l') in Hx, Hy. rewrite list_lookup_fmap in Hx, Hy. apply fmap_Some in Hx as (x' & Hx & ->). apply fmap_Some in Hy as (y' & Hy & ->). cbn.
      pose proof (Hi' p q x' y' Hpq Hx Hy). destruct (Hl' x'); [apply elem_of_list_In; by eapply elem_of_list_lookup_2|]. lia.
    - intros x Hx. apply in_map_iff in Hx as (x' & <- & Hx). destruct (Hl' x' Hx) as (Hp & Hlk & HP). cbn. split; [|done]. destruct (x'.1); [lia|done].
    - intros i x Hx HP. apply in_map_iff. exists (S i, x). split; [done|by apply Ha']. }
  cbn [List.filter]. destruct (P r) eqn:HP.
  - pose proof (Hall 0 r eq_refl HP) as H0. destruct l as [|[i y] l]; [done|].
    assert ((i, y) = (0, r)) as [= -> ->].
    { apply elem_of_list_In, elem_of_list_lookup in H0 as [[|p] Hp]; [cbn in Hp; congruence|].
      pose proof (Hinc 0 (S p) (i, y) (0, r) ltac:(lia) eq_refl Hp) as Hlt. cbn in Hlt. lia. }
    cbn [map snd]. f_equal. apply Hshift.
    + intros p q x z Hpq Hx Hz. by apply (Hinc (S p) (S q) x z); [lia| |].
    + intros x Hx. destruct (Hin x (or_intror Hx)) as [Hlk HPx]. split; [|done]. apply elem_of_list_In, elem_of_list_lookup in Hx as [p Hp].
      apply (Hinc 0 (S p) (0, r) x); [lia|done|done].
    + intros i x Hx HPx. destruct (Hall (S i) x Hx HPx) as [Heq|?]; [by injection Heq|done].
  - apply Hshift; [done| |intros i x Hx HPx; by apply (Hall (S i))].
    intros x Hx. destruct (Hin x Hx) as [Hlk HPx]. split; [|done]. destruct (x.1) as [|i] eqn:E; [|lia]. cbn in Hlk. injection Hlk as Hlk. congruence.
Qed.

Section complete.
Variable deser : bytes -> option message.
Variable dec_users : bytes -> option direct_map.
Variable dec_topics : bytes -> option topic_map.
Variable valid : N -> bool.
Variable enc_users : direct_map -> bytes.
Variable enc_topics : topic_map -> bytes.
Notation m_step := (m_step deser dec_users dec_topics valid).
Notation m_run := (m_run deser dec_users dec_topics valid).
Notation broker_at := (broker_at deser dec_users dec_topics valid).
Notation n_step := (n_step deser dec_users dec_topics valid enc_users enc_topics).
Notation n_run := (n_run deser dec_users dec_topics valid enc_users enc_topics).
Notation n_run_snoc := (n_run_snoc deser dec_users dec_topics valid enc_users enc_topics).
Notation loop_of := (loop_of deser dec_users dec_topics valid).
Notation inv_run := (inv_run deser dec_users dec_topics valid enc_users enc_topics).
Notation comes_from := (comes_from deser dec_users dec_topics valid).
Notation at_rest := (at_rest deser dec_users dec_topics valid).
Notation synchronised := (synchronised deser dec_users dec_topics valid).
Notation subscribed_at := (subscribed_at deser dec_users dec_topics valid).
Notation quiet := (quiet deser valid).
Notation minv := (minv deser dec_users dec_topics valid).
Notation conns_at n b := (m_conns (broker_at n b)).
Notation tasks_at n b := (m_tasks (broker_at n b)).
Notation sent_at n b := (m_sent (broker_at n b)).

Lemma origin_unique es b x a h k a' h' k' : comes_from (n_run es) b x a h k -> comes_from (n_run es) b x a' h' k' -> (a, h, k) = (a', h', k').
Proof.
  intros H1 H2. destruct (inv_run es) as (I0 & I2 & _).
  destruct H1 as [u c (t & Ht & Ho)|a c y El Ey]; destruct H2 as [u' c' (t' & Ht' & Ho')|a' c' y' El' Ey'].
  - done.
  - destruct (I0 _ _ _ _ El') as (_ & _ & cb & t1 & Ht1 & Ho1). congruence.
  - destruct (I0 _ _ _ _ El) as (_ & _ & cb & t1 & Ht1 & Ho1). congruence.
  - destruct (I2 _ _ _ _ _ _ El El') as [<- <-]. by rewrite Ey in Ey'; injection Ey' as <-.
Qed.

(** ** What is sent after a moment of rest *)
Definition news (m0 m : machine) : Prop :=
  (exists new, m_sent m = m_sent m0 ++ new
    /\ forall x, In x new -> exists t0, m_tasks m0 !! s_task x = Some t0 /\ t_open t0 = true /\ t_frames t0 < s_frame x)
  /\ forall h t0 t, m_tasks m0 !! h = Some t0 -> t_open t0 = false -> m_tasks m !! h = Some t -> t_frames t = t_frames t0.
Lemma news_start m : news m m.
Proof. split; [exists []; split; [by rewrite app_nil_r|done]|]. intros h t0 t H0 _ Ht. rewrite H0 in Ht. by injection Ht as <-. Qed.
Lemma news_run m0 m h : minv m0 m -> news m0 m -> news m0 (m_step m (ERun h true)).
Proof.
  intros (_ & Ht & _) [(new & Hs & Hn) Hcl]. cbn [TaskModel.m_step].
  destruct (m_tasks m !! h) as [[o [|x rest] op k]|] eqn:E; try by (split; [by exists new|done]).
  destruct (Ht _ _ E) as (t0 & E0 & Ho & Hop & Hfr & _ & Hz & _). cbn [t_owner t_open t_frames t_acts] in Ho, Hop, Hfr, Hz.
  destruct (act_step (fun _ => true) (m_conns m) x) as [[s' nxt] es]. cbn [m_sent m_tasks]. split.
  - exists (new ++ map (Sent h k) es). split; [by rewrite Hs, app_assoc|]. intros y Hy. apply in_app_iff in Hy as [Hy|Hy]; [by apply Hn|].
    apply in_map_iff in Hy as (e & <- & _). cbn [s_task s_frame]. exists t0. split; [done|]. destruct (decide (k = t_frames t0)) as [Heq|Hne]; [by specialize (Hz Heq)|].
    split; [|lia]. destruct (t_open t0) eqn:Eo; [done|]. pose proof (Hcl _ _ _ E0 Eo E) as Hk. by cbn in Hk.
  - intros h' t1 t H1 Ho1 H. cbn [m_tasks] in H. destruct (decide (h' = h)) as [->|Hne]; [|rewrite lookup_insert_ne in H by done; by eapply Hcl].
    rewrite lookup_insert in H. injection H as <-. cbn [t_frames]. exact (Hcl _ _ _ H1 Ho1 E).
Qed.
Lemma news_frame m0 m h raw hk : minv m0 m -> news m0 m -> news m0 (m_step m (EFrame h raw hk)).
Proof.
  intros (_ & Ht & _) [Hs Hcl]. cbn [TaskModel.m_step].
  destruct (m_tasks m !! h) as [[o [|x rest] [|] k]|] eqn:E; try by split.
  destruct (loop_frame deser dec_users dec_topics valid o raw hk) as [acts go]. split; [done|]. cbn [m_tasks].
  intros h' t1 t H1 Ho1 H. destruct (decide (h' = h)) as [->|Hne]; [|rewrite lookup_insert_ne in H by done; by eapply Hcl].
  destruct (Ht _ _ E) as (t0 & E0 & _ & Hop & _). cbn in Hop. congruence.
Qed.

Section run.
Variable es0 : list nevent.
Notation n0 := (n_run es0).
Hypothesis Hrest : at_rest n0.
Notation ninv := (ninv deser dec_users dec_topics valid enc_users enc_topics es0).
Notation ninv_all := (ninv_all deser dec_users dec_topics valid enc_users enc_topics es0 Hrest).

Lemma news_extend n b e : (forall b', news (broker_at n0 b') (broker_at n b')) -> news (broker_at n0 b) (m_step (broker_at n b) e) ->
  forall b', news (broker_at n0 b') (broker_at (extend n b e) b').
Proof. intros Hn He b'. rewrite broker_extend. case_decide; [by subst|done]. Qed.
Lemma news_all es1 : Forall quiet es1 -> forall b, news (broker_at n0 b) (broker_at (n_run (es0 ++ es1)) b).
Proof.
  induction es1 as [|e es1 IH] using rev_ind; intros Hq; [rewrite app_nil_r; intros b; apply news_start|].
  apply Forall_app in Hq as [Hq He]. apply Forall_cons in He as [He _]. specialize (IH Hq). destruct (ninv_all es1 Hq) as [_ Hm].
  rewrite app_assoc, n_run_snoc. set (n := n_run (es0 ++ es1)) in *.
  destruct e as [| |b h raw hk|d c hk|b e]; try done; cbn [NetModel.n_step].
  - destruct (tasks_at n b !! h) as [[[u c|b' c|] acts op k]|]; try done. apply news_extend; [done|]. by apply news_frame.
  - destruct (n_links n !! (d, c)) as [[b h]|]; [|done]. destruct (tasks_at n b !! h) as [t|]; [|done].
    destruct (sent_on (broker_at n d) c !! t_frames t) as [x|]; [|done]. apply news_extend; [done|]. by apply news_frame.
  - destruct e as [| | | | | |h' [|]|]; try done. cbn [receives_nothing]. apply news_extend; [done|]. by apply news_run.
Qed.

Variable es1 : list nevent.
Notation n' := (n_run (es0 ++ es1)).
Hypothesis Hquiet : Forall quiet es1.

(** New copies come from new frames. *)
Lemma sent_split b : exists new, sent_at n' b = sent_at n0 b ++ new
  /\ forall x, In x new -> exists t0, tasks_at n0 b !! s_task x = Some t0 /\ t_open t0 = true /\ t_frames t0 < s_frame x.
Proof. apply (news_all es1 Hquiet b). Qed.
Lemma new_frame b x a h k t0 : In x (drop (length (sent_at n0 b)) (sent_at n' b)) -> comes_from n' b x a h k ->
  tasks_at n0 a !! h = Some t0 -> t_frames t0 < k.
Proof.
  intros Hx Hc H0. destruct (sent_split b) as (new & Hs & Hn). rewrite Hs, drop_app in Hx. destruct (Hn x Hx) as (tx & Htx & Hop & Hlt).
  destruct Hc as [u c _|a c y El Ey]; [rewrite H0 in Htx; by injection Htx as <-|].
  destruct (ninv_all es1 Hquiet) as [Hl _]. rewrite Hl in El. pose proof (proj2 Hrest _ _ _ _ _ El Htx Hop) as Hlen.
  destruct (sent_split a) as (newa & Hsa & Hna). unfold sent_on in Ey. rewrite Hsa, filter_app in Ey. fold (sent_on (broker_at n0 a) c) in Ey.
  rewrite lookup_app_r in Ey by lia. apply elem_of_list_lookup_2, elem_of_list_filter in Ey as [_ Hy]. apply elem_of_list_In in Hy.
  destruct (Hna y Hy) as (ty & Hty & _ & Hy'). rewrite H0 in Hty. by injection Hty as <-.
Qed.
(** Old copies come from old frames. *)
Lemma loop_before b h o : loop_of n0 b h o -> loop_of n' b h o.
Proof.
  intros (t & Ht & Ho). destruct (ninv_all es1 Hquiet) as [_ Hb]. destruct (Hb b) as (_ & Hts & Hx & _). destruct (Hx _ _ Ht) as [t' Ht'].
  destruct (Hts _ _ Ht') as (t0 & H0 & Ho' & _). rewrite Ht in H0. injection H0 as <-. exists t'. split; [done|congruence].
Qed.
Lemma came_from b x a h k : comes_from n0 b x a h k -> comes_from n' b x a h k.
Proof.
  intros [u c Hl|a' c y El Ey]; [by eapply from_here, loop_before|]. destruct (ninv_all es1 Hquiet) as [Hl _]. apply (from_link _ _ _ _ n' b x a' c y); [by rewrite Hl|].
  destruct (sent_split a') as (new & Hs & _). unfold sent_on in *. rewrite Hs, filter_app. by apply lookup_app_l_Some.
Qed.
Lemma old_frame b x v a h k t0 : sync_codec deser enc_users enc_topics -> hooks_keep_sync es0 ->
  In x (sent_at n0 b) -> e_to (s_what x) = inl v -> comes_from n' b x a h k -> tasks_at n0 a !! h = Some t0 -> k <= t_frames t0.
Proof.
  intros Hcod Hh Hx Hv Hc H0. destruct (to_user_relay deser dec_users dec_topics valid b _ x v Hx Hv) as [raw Hraw].
  destruct (delivered_origin deser dec_users dec_topics valid enc_users enc_topics Hcod es0 b x v raw Hh Hx Hv Hraw) as (a1 & h1 & k1 & u & cu & hk & Hc1 & (t1 & Ht1 & _) & Hr & _).
  assert (Heq := origin_unique (es0 ++ es1) b x _ _ _ _ _ _ Hc (came_from _ _ _ _ _ Hc1)). injection Heq as <- <- <-.
  rewrite H0 in Ht1. injection Ht1 as <-. exact (rcvd_le deser dec_users dec_topics valid a (trace n0 a) _ t0 Hr H0).
Qed.
End run.

(** ** What a session's loop received *)
Lemma got_received n a h i raw : map r_raw (got (broker_at n a) h) !! i = Some raw -> exists hk, In (Rcvd h (S i) raw hk) (m_rcvd (broker_at n a)).
Proof.
  intros Hi. change (map r_raw) with (fmap (M := list) r_raw) in Hi. rewrite list_lookup_fmap in Hi. apply fmap_Some in Hi as (r & Hr & ->).
  pose proof (numbered_run deser dec_users dec_topics valid a (trace n a) h) as Hn. fold (broker_at n a) in Hn.
  assert (Hk : map r_frame (got (broker_at n a) h) !! i = Some (r_frame r)) by (change (map r_frame) with (fmap (M := list) r_frame); rewrite list_lookup_fmap, Hr; done).
  rewrite Hn in Hk. apply lookup_seq in Hk as [Hk _]. apply elem_of_list_lookup_2, elem_of_list_filter in Hr as [Hh Hr].
  exists (r_hook r). apply elem_of_list_In. destruct r as [h' k' raw' hk']. cbn in *. by subst.
Qed.
Lemma got_length n a h t : tasks_at n a !! h = Some t -> length (got (broker_at n a) h) = t_frames t.
Proof.
  intros Ht. pose proof (numbered_run deser dec_users dec_topics valid a (trace n a) h) as Hn. fold (broker_at n a) in Hn.
  rewrite <- (map_length r_frame), Hn, seq_length. unfold frames. by rewrite Ht.
Qed.

Hypothesis Hcodec : sync_codec deser enc_users enc_topics.
Lemma carried_all es0 es1 b c v :
  let n := n_run es0 in let n' := n_run (es0 ++ es1) in
  hooks_keep_sync es0 -> at_rest n -> Forall quiet es1 -> at_rest n' ->
  c_get_user_connection (conns_at n b) v = Some c ->
  (forall x, In x (sent_on (broker_at n' b) c) -> exists raw, s_what x = Emit (inl v) c (FRelay raw)) ->
  exists T : list (bid * N * nat * bytes),
    Forall2 (fun x t => s_what x = Emit (inl v) c (FRelay t.2)) (drop (length (sent_on (broker_at n b) c)) (sent_on (broker_at n' b) c)) T
    /\ forall a h u cu t0, synchronised n a -> linked_once n a b -> tasks_at n a !! h = Some t0 -> t_owner t0 = OUser u cu ->
       forall P : bytes -> bool,
       (forall raw, P raw = true <-> match deser raw with
          | Some (MDirect r _) => r = v
          | Some (MBroadcast ts _) => exists t, In t ts /\ subscribed_at n b v t
          | _ => False end) ->
       map snd (filter (fun t => t.1.1 = (a, h)) T) = List.filter P (accepted (broker_at n a) (broker_at n' a) h).
Proof.
  intros n n' Hh0 Hrest Hq Hrest' Hconn Hrel. pose proof (quiet_hooks deser valid es0 es1 Hh0 Hq) as Hh.
  destruct (sent_split es0 Hrest es1 Hq b) as (newb & Hsb & _).
  assert (Hon : sent_on (broker_at n' b) c = sent_on (broker_at n b) c ++ filter (fun x => e_conn (s_what x) = c) newb) by (unfold sent_on, n', n; rewrite Hsb; apply filter_app).
  rewrite Hon, drop_app. set (L := filter (fun x => e_conn (s_what x) = c) newb) in *.
  destruct (choose_all (fun x (t : bid * N * nat * bytes) => s_what x = Emit (inl v) c (FRelay t.2)
    /\ comes_from n' b x t.1.1.1 t.1.1.2 t.1.2 /\ exists hk, In (Rcvd t.1.1.2 t.1.2 t.2 hk) (m_rcvd (broker_at n' t.1.1.1))) L) as [T HT].
  { intros x Hx. destruct (Hrel x) as [raw Hw]; [rewrite Hon; apply in_app_iff; by right|].
    apply elem_of_list_In, elem_of_list_filter in Hx as [_ Hx]. apply elem_of_list_In in Hx.
    assert (Hx' : In x (sent_at n' b)) by (unfold n'; rewrite Hsb; apply in_app_iff; by right).
    destruct (delivered_origin deser dec_users dec_topics valid enc_users enc_topics Hcodec (es0 ++ es1) b x v raw Hh Hx') as (a & h & k & u & cu & hk & H1 & H2 & H3 & _); [by rewrite Hw|by rewrite Hw|].
    exists (a, h, k, raw). cbn. split; [done|]. split; [done|]. by exists hk. }
  exists T. split; [eapply Forall2_impl; [exact HT|]; by intros x t [? _]|].
  intros a h u cu t0 Hsyn Hone Ht0 Hown P HP. set (F := filter (fun t : bid * N * nat * bytes => t.1.1 = (a, h)) T) in *.
  set (f0 := t_frames t0).
  assert (HF : forall t, In t F -> t.1.1 = (a, h) /\ f0 < t.1.2 /\ exists x, In x L /\ s_what x = Emit (inl v) c (FRelay t.2)
    /\ comes_from n' b x a h t.1.2 /\ exists hk, In (Rcvd h t.1.2 t.2 hk) (m_rcvd (broker_at n' a))).
  { intros t Ht. apply elem_of_list_In, elem_of_list_filter in Ht as [Hs Ht]. split; [done|]. apply elem_of_list_lookup in Ht as [p Hp].
    destruct (Forall2_lookup_r _ _ _ _ _ HT Hp) as (x & Hx & Hw & Hc & Hr). apply elem_of_list_lookup_2, elem_of_list_In in Hx.
    rewrite Hs in Hc, Hr. cbn [fst snd] in Hc, Hr. split; [|by exists x].
    apply (new_frame es0 Hrest es1 Hq b x a h t.1.2 t0); [|done|done]. rewrite Hsb, drop_app. apply elem_of_list_In, elem_of_list_filter in Hx as [_ Hx]. by apply elem_of_list_In. }
  set (R := accepted (broker_at n a) (broker_at n' a) h).
  assert (HR : forall i, R !! i = map r_raw (got (broker_at n' a) h) !! (f0 + i)).
  { intros i. unfold R, accepted. fold (got (broker_at n a) h) (got (broker_at n' a) h). unfold n. rewrite (got_length (n_run es0) a h t0 Ht0). fold n f0.
    change (map r_raw) with (fmap (M := list) r_raw). rewrite fmap_drop. by rewrite lookup_drop. }
  set (l := map (fun t : bid * N * nat * bytes => (t.1.2 - S f0, t.2)) F).
  replace (map snd F) with (map snd l) by (unfold l; by rewrite map_map).
  assert (Hmeant : forall k raw hk, f0 < k -> In (Rcvd h k raw hk) (m_rcvd (broker_at n' a)) ->
    (P raw = true -> sent_once deser dec_users dec_topics valid n' b v a h k c raw) /\ (P raw <> true -> sent_never deser dec_users dec_topics valid n' b v a h k)).
  { intros k raw hk Hk Hr. specialize (HP raw).
    destruct (frame_finished deser dec_users dec_topics valid enc_users enc_topics es0 Hrest es1 Hq Hrest' a h t0 k raw hk (OUser u cu) Ht0 Hk Hr Hown) as [Hg _].
    destruct Hg as [(r & body & Hd)|(ts & body & Hd & _)]; rewrite Hd in HP.
    - destruct (direct_concurrent deser dec_users dec_topics valid enc_users enc_topics es0 es1 a h u cu t0 k raw hk r body Hcodec Hh0 Hrest Hsyn Hq Hrest' Ht0 Hown Hk Hr Hd b v) as [H1 H2].
      split; [intros Hp; apply H1; [symmetry; by apply HP|done]|]. intros Hp. apply H2. left. intros ->. by apply Hp, HP.
    - destruct (broadcast_concurrent deser dec_users dec_topics valid enc_users enc_topics es0 es1 a h u cu t0 k raw hk ts body Hcodec Hh0 Hrest Hsyn Hq Hrest' Ht0 Hown Hk Hr Hd b v) as [H1 H2].
      split; [|intros Hp; apply H2; intros Hm; apply Hp; apply HP; exact Hm]. intros Hp. destruct (H1 (proj1 HP Hp)) as (c' & Hc' & Ho). fold n in Hc'. rewrite Hconn in Hc'. by injection Hc' as <-. }
  assert (Hlook : forall x, In x l -> R !! x.1 = Some x.2 /\ P x.2 = true).
  { intros x Hx. apply in_map_iff in Hx as (t & <- & Ht). cbn [fst snd]. destruct (HF t Ht) as (_ & Hlt & x & Hx & Hw & Hc & hk & Hr). split.
    - rewrite HR. replace (f0 + (t.1.2 - S f0)) with (pred t.1.2) by lia. by eapply numbered_lookup.
    - destruct (Hmeant _ _ _ Hlt Hr) as [_ Hnever]. destruct (P t.2) eqn:Ep; [done|exfalso]. apply (Hnever ltac:(done) x); [|by rewrite Hw|done].
      unfold n'. rewrite Hsb. apply in_app_iff. right. apply elem_of_list_In, elem_of_list_filter in Hx as [_ Hx]. by apply elem_of_list_In. }
  apply pick_filter; [|done|].
  - intros p q x y Hpq Hx Hy. unfold l in Hx, Hy. change (map ?f F) with (f <$> F) in Hx, Hy. rewrite list_lookup_fmap in Hx, Hy.
    apply fmap_Some in Hx as (tx & Hx & ->). apply fmap_Some in Hy as (ty & Hy & ->).
    destruct (HF tx) as (_ & Hltx & _); [apply elem_of_list_In; by eapply elem_of_list_lookup_2|].
    destruct (HF ty) as (_ & Hlty & _); [apply elem_of_list_In; by eapply elem_of_list_lookup_2|].
    destruct (filter_index _ _ _ _ Hx) as (_ & _ & Hsx). destruct (filter_index _ _ _ _ Hy) as (_ & _ & Hsy).
    destruct (filter_indices _ _ _ _ _ _ Hpq Hx Hy) as (p' & q' & Hpq' & Hx' & Hy').
    destruct (Forall2_lookup_r _ _ _ _ _ HT Hx') as (xs & Hxs & Hwx & Hcx & _). destruct (Forall2_lookup_r _ _ _ _ _ HT Hy') as (ys & Hys & Hwy & Hcy & _).
    destruct (filter_indices _ _ _ _ _ _ Hpq' Hxs Hys) as (j & k & Hjk & Hj & Hk).
    rewrite Hsx in Hcx. rewrite Hsy in Hcy. cbn [fst snd] in *.
    assert (Hj' : sent_at n' b !! (length (sent_at n b) + j) = Some xs) by (unfold n'; rewrite Hsb, lookup_app_r by (unfold n; lia); by rewrite Nat.add_comm, Nat.add_sub).
    assert (Hk' : sent_at n' b !! (length (sent_at n b) + k) = Some ys) by (unfold n'; rewrite Hsb, lookup_app_r by (unfold n; lia); by rewrite Nat.add_comm, Nat.add_sub).
    assert (Hone' : linked_once n' a b).
    { destruct (ninv_all deser dec_users dec_topics valid enc_users enc_topics es0 Hrest es1 Hq) as [Hl _]. intros c1 h1 c2 h2. unfold n'. rewrite Hl. apply Hone. }
    pose proof (order_one_link deser dec_users dec_topics valid enc_users enc_topics Hcodec (es0 ++ es1) b c _ _ xs ys a h tx.1.2 ty.1.2 Hh ltac:(apply Nat.add_lt_mono_l; exact Hjk) Hj' Hk'
      ltac:(exists v; by rewrite Hwx) ltac:(by rewrite Hwx) ltac:(by rewrite Hwy) Hcx Hcy Hone') as Hlt. lia.
  - intros i raw Hi Hp. rewrite HR in Hi. destruct (got_received _ _ _ _ _ Hi) as [hk Hr].
    destruct (Hmeant (S (f0 + i)) raw hk ltac:(lia) Hr) as [Honce _]. destruct (Honce Hp) as (j & x & Hj & Hw & Hc & _).
    apply elem_of_list_lookup_2, elem_of_list_In in Hj.
    assert (Hx : In x L).
    { unfold n' in Hj. rewrite Hsb in Hj. apply in_app_iff in Hj as [Hold|Hnew].
      - pose proof (old_frame es0 Hrest es1 Hq b x v a h _ t0 Hcodec Hh0 Hold ltac:(by rewrite Hw) Hc Ht0) as Hle. unfold f0 in Hle. lia.
      - apply elem_of_list_In, elem_of_list_filter. rewrite Hw. split; [done|by apply elem_of_list_In]. }
    apply elem_of_list_In, elem_of_list_lookup in Hx as [p Hp'].
    destruct (Forall2_lookup_l _ _ _ _ _ HT Hp') as (t & Ht & Hw' & Hc' & _).
    assert (Heq := origin_unique (es0 ++ es1) b x _ _ _ _ _ _ Hc Hc'). injection Heq as Ha Hb Hk.
    apply in_map_iff. exists t. rewrite Hw in Hw'. injection Hw' as Hraw. split; [rewrite <- Hk, <- Hraw; f_equal; lia|].
    apply elem_of_list_In, elem_of_list_filter. split; [|by eapply elem_of_list_lookup_2]. destruct t as [[[ta th] tk] tr]. cbn in *. by subst.
Qed.
End complete.
