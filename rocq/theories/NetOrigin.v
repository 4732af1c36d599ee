(** Origins of delivered frames in the network, absence of duplicates, order. *)
From stdpp Require Import gmap fin_maps list.
From Coq Require Import NArith Lia.
From Verif Require Import IdModel VMapModel ConnModel TopicModel MsgModel RouteModel TaskModel TaskProofs TaskOrder NetModel NetProofs.

(** Sync messages stay sync messages: the codec does not confuse them with others, and the
    hook does not turn them into something else. *)
Definition sync_codec (deser : bytes -> option message) (enc_users : direct_map -> bytes) (enc_topics : topic_map -> bytes) : Prop :=
  (forall m, exists p, deser (enc_users m) = Some (MUserSync p)) /\ (forall m, exists p, deser (enc_topics m) = Some (MTopicSync p)).
Definition hook_keeps_sync (hk : hook) : Prop :=
  forall m msg, (exists p, m = MUserSync p) \/ (exists p, m = MTopicSync p) -> hk m = HProcess msg ->
    (forall r body, msg <> MDirect r body) /\ (forall ts body, msg <> MBroadcast ts body).
Definition hooks_keep_sync (es : list nevent) : Prop := forall a c hk, In (NDeliver a c hk) es -> hook_keeps_sync hk.

Lemma rev_case {A} (l : list A) : l = [] \/ exists l' x, l = l' ++ [x].
Proof. induction l as [|x l _] using rev_ind; eauto. Qed.

Section proofs.
Variable deser : bytes -> option message.
Variable dec_users : bytes -> option direct_map.
Variable dec_topics : bytes -> option topic_map.
Variable valid : N -> bool.
Variable enc_users : direct_map -> bytes.
Variable enc_topics : topic_map -> bytes.
Notation m_step := (m_step deser dec_users dec_topics valid).
Notation m_run := (m_run deser dec_users dec_topics valid).
Notation broker_at := (broker_at deser dec_users dec_topics valid).
Notation n_step := (n_step deser dec_users dec_topics valid enc_users enc_topics).
Notation n_run := (n_run deser dec_users dec_topics valid enc_users enc_topics).
Notation wire := (wire enc_users enc_topics).
Notation loop_of := (loop_of deser dec_users dec_topics valid).
Notation inv_run := (inv_run deser dec_users dec_topics valid enc_users enc_topics).
Notation n_run_snoc := (n_run_snoc deser dec_users dec_topics valid enc_users enc_topics).

(** The copy [x] sent by broker [b] comes from frame [k] of the session [h] at broker [a]. *)
Inductive comes_from (n : net) (b : bid) (x : sent) : bid -> N -> nat -> Prop :=
  | from_here u c : loop_of n b (s_task x) (OUser u c) -> comes_from n b x b (s_task x) (s_frame x)
  | from_link a c y : n_links n !! (a, c) = Some (b, s_task x) -> sent_on (broker_at n a) c !! (s_frame x - 1) = Some y ->
      comes_from n b x a (s_task y) (s_frame y).

(** ** Where received frames come from *)
Definition rcv_ok (es : list nevent) (n : net) : Prop :=
  forall b r, In r (m_rcvd (broker_at n b)) ->
    (exists u c, loop_of n b (r_task r) (OUser u c) /\ In (NPublish b (r_task r) (r_raw r) (r_hook r)) es)
    \/ (exists a cb a' c, loop_of n b (r_task r) (OBroker a cb) /\ In (NDeliver a' c (r_hook r)) es).

Lemma rcv_mono es e n : rcv_ok es n -> rcv_ok (es ++ [e]) n.
Proof.
  intros Hi b r Hr. destruct (Hi b r Hr) as [(u & c & H1 & H2)|(a & cb & a' & c & H1 & H2)]; [left|right].
  - exists u, c. split; [done|]. apply in_app_iff. by left.
  - exists a, cb, a', c. split; [done|]. apply in_app_iff. by left.
Qed.

Lemma rcv_extend es n b e :
  rcv_ok es n ->
  (forall h raw hk t, e = EFrame h raw hk -> m_tasks (broker_at n b) !! h = Some t ->
     (exists u c, t_owner t = OUser u c /\ In (NPublish b h raw hk) es) \/ (exists a cb a' c, t_owner t = OBroker a cb /\ In (NDeliver a' c hk) es)) ->
  rcv_ok es (extend n b e).
Proof.
  intros Hi Hf b' r Hin. rewrite broker_extend in Hin.
  assert (Hold : In r (m_rcvd (broker_at n b')) ->
    (exists u c, loop_of (extend n b e) b' (r_task r) (OUser u c) /\ In (NPublish b' (r_task r) (r_raw r) (r_hook r)) es)
    \/ (exists a cb a' c, loop_of (extend n b e) b' (r_task r) (OBroker a cb) /\ In (NDeliver a' c (r_hook r)) es)).
  { intros Hr. destruct (Hi b' r Hr) as [(u & c & H1 & H2)|(a & cb & a' & c & H1 & H2)]; [left; exists u, c|right; exists a, cb, a', c];
      (split; [by apply loop_of_extend|done]). }
  case_decide as Hd; [subst b'|by apply Hold].
  destruct (step_rcvd deser dec_users dec_topics valid (broker_at n b) e) as [Heq|(h & raw & hk & t & -> & Ht & Heq)]; rewrite Heq in Hin; [by apply Hold|].
  apply in_app_iff in Hin as [Hin|[<-|[]]]; [by apply Hold|]. cbn [r_task r_raw r_hook].
  destruct (Hf h raw hk t eq_refl Ht) as [(u & c & Ho & H2)|(a & cb & a' & c & Ho & H2)]; [left; exists u, c|right; exists a, cb, a', c];
    (split; [apply loop_of_extend; by exists t|done]).
Qed.

Lemma rcv_run es : rcv_ok es (n_run es).
Proof.
  induction es as [|e es IH] using rev_ind.
  { intros b r. unfold NetModel.broker_at, trace. cbn. by rewrite lookup_empty. }
  rewrite n_run_snoc. apply (rcv_mono _ e) in IH. pose proof (inv_run es) as (I0 & _). set (n := n_run es) in *.
  assert (He : In e (es ++ [e])) by (apply in_app_iff; right; by left).
  destruct e as [b h hh u c ts|a ha hha ca b hb hhb cb|b h raw hk|a c hk|b e]; cbn [NetModel.n_step].
  - case_decide; [|done]. by apply rcv_extend.
  - case_decide; [|done]. set (n0 := extend n a (EBrokerAuthed ha hha b ca)).
    assert (H0 : rcv_ok (es ++ [NUp a ha hha ca b hb hhb cb]) n0) by by apply rcv_extend.
    assert (H1 : rcv_ok (es ++ [NUp a ha hha ca b hb hhb cb]) (extend n0 b (EBrokerAuthed hb hhb a cb))) by by apply rcv_extend.
    exact H1.
  - destruct (m_tasks (broker_at n b) !! h) as [[[u c|b' c|] acts op k]|] eqn:E; try done.
    apply rcv_extend; [done|]. intros h' raw' hk' t [= <- <- <-] Ht. rewrite E in Ht. injection Ht as <-. left. by exists u, c.
  - destruct (n_links n !! (a, c)) as [[b h]|] eqn:El; [|done].
    destruct (m_tasks (broker_at n b) !! h) as [t|] eqn:Et; [|done].
    destruct (sent_on (broker_at n a) c !! t_frames t) as [x|] eqn:Ex; [|done].
    apply rcv_extend; [done|]. intros h' raw' hk' t' [= <- <- <-] Ht'. rewrite Et in Ht'. injection Ht' as <-.
    right. destruct (I0 _ _ _ _ El) as (_ & _ & cb & t1 & Ht1 & Ho1). rewrite Et in Ht1. injection Ht1 as <-.
    by exists a, cb, a, c.
  - destruct (receives_nothing e) eqn:Hn; [|done]. apply rcv_extend; [done|]. intros. by subst.
Qed.

(** What an end of a link sends on it is addressed to the broker at the other end. *)
Lemma link_target es a c b h x :
  n_links (n_run es) !! (a, c) = Some (b, h) -> In x (m_sent (broker_at (n_run es) a)) -> e_conn (s_what x) = c ->
  e_to (s_what x) = inr b.
Proof.
  intros Hl Hx Hc. destruct (inv_run es) as (I0 & _ & _ & I4). destruct (I0 _ _ _ _ Hl) as (_ & (ha & hh & Hin) & _).
  pose proof (sent_authed deser dec_users dec_topics valid a _ x Hx) as Ha. rewrite Hc in Ha.
  destruct (e_to (s_what x)) as [u|b'].
  - destruct Ha as (h' & hh' & ts & Hin').
    pose proof (authed_unique _ _ _ c (I4 a) Hin Hin' (or_introl eq_refl) (or_introl eq_refl)). done.
  - destruct Ha as (h' & hh' & Hin').
    pose proof (authed_unique _ _ _ c (I4 a) Hin Hin' (or_introl eq_refl) (or_introl eq_refl)) as Heq. by injection Heq as -> -> ->.
Qed.

Lemma sent_on_in m c k y : sent_on m c !! k = Some y -> In y (m_sent m) /\ e_conn (s_what y) = c.
Proof. intros Hy. apply elem_of_list_lookup_2, elem_of_list_filter in Hy as [Hc Hin]. split; [by apply elem_of_list_In|done]. Qed.

(** Only relayed frames are delivered to users. *)
Lemma to_user_relay i es x u : In x (m_sent (m_run i es)) -> e_to (s_what x) = inl u -> exists raw, e_frame (s_what x) = FRelay raw.
Proof.
  intros Hin He. destruct (prov_run deser dec_users dec_topics valid i es) as [_ Hs].
  rewrite Forall_forall in Hs. specialize (Hs x (proj2 (elem_of_list_In _ _) Hin)). unfold sent_ok in Hs.
  destruct (s_what x) as [[u'|b] c [raw|m|m]]; cbn in *; try done. eauto.
Qed.

Hypothesis Hcodec : sync_codec deser enc_users enc_topics.

(** The frame behind a link whose copy was delivered is itself a relayed frame, with the same bytes. *)
Lemma link_relay es b x a cb raw :
  hooks_keep_sync es ->
  In x (m_sent (broker_at (n_run es) b)) -> e_frame (s_what x) = FRelay raw -> loop_of (n_run es) b (s_task x) (OBroker a cb) ->
  exists a' c y, n_links (n_run es) !! (a', c) = Some (b, s_task x) /\ sent_on (broker_at (n_run es) a') c !! (s_frame x - 1) = Some y
    /\ s_what y = Emit (inr b) c (FRelay raw) /\ 1 <= s_frame x.
Proof.
  intros Hh Hin Hf Hlo. destruct (relay_received deser dec_users dec_topics valid b _ x raw Hin Hf) as (hk & m0 & msg & Hr & Hd & Hk & Hmsg).
  destruct (inv_run es) as (_ & _ & I3 & _). destruct (I3 b _ a cb Hr Hlo) as (a' & c & y & Hl & Hy & Hw). cbn [r_task r_frame r_raw] in Hl, Hy, Hw.
  exists a', c, y. split; [done|]. split; [done|]. split; [|by apply (rcvd_frame_pos deser dec_users dec_topics valid) in Hr].
  destruct (sent_on_in _ _ _ _ Hy) as [Hiny Hcy]. pose proof (link_target es _ _ _ _ _ Hl Hiny Hcy) as Hto.
  assert (Hks : hook_keeps_sync hk).
  { destruct (rcv_run es b _ Hr) as [(u & c' & H1 & _)|(a1 & cb1 & a2 & c2 & _ & H2)].
    - destruct Hlo as (t & Ht & Ho), H1 as (t' & Ht' & Ho'). cbn in Ht'. congruence.
    - by eapply Hh. }
  destruct (s_what y) as [to cy fy]. cbn in Hcy, Hto, Hw. subst cy to. f_equal.
  destruct fy as [raw'|m|m]; cbn in Hw; [congruence| |]; exfalso.
  - destruct Hcodec as [Hc _]. destruct (Hc m) as [p Hp]. rewrite Hw, Hd in Hp. injection Hp as ->.
    destruct (Hks _ msg (or_introl (ex_intro _ p eq_refl)) Hk) as [Hn1 Hn2].
    destruct Hmsg as [(r & body & ->)|(ts & body & ->)]; [by eapply Hn1|by eapply Hn2].
  - destruct Hcodec as [_ Hc]. destruct (Hc m) as [p Hp]. rewrite Hw, Hd in Hp. injection Hp as ->.
    destruct (Hks _ msg (or_intror (ex_intro _ p eq_refl)) Hk) as [Hn1 Hn2].
    destruct Hmsg as [(r & body & ->)|(ts & body & ->)]; [by eapply Hn1|by eapply Hn2].
Qed.

(** ** Origin *)
Lemma delivered_origin es b x u raw :
  hooks_keep_sync es ->
  In x (m_sent (broker_at (n_run es) b)) -> e_to (s_what x) = inl u -> e_frame (s_what x) = FRelay raw ->
  exists a h k v cv hk, comes_from (n_run es) b x a h k /\ loop_of (n_run es) a h (OUser v cv)
    /\ In (Rcvd h k raw hk) (m_rcvd (broker_at (n_run es) a)) /\ In (NPublish a h raw hk) es.
Proof.
  intros Hh Hin Hto Hf. destruct (relay_received deser dec_users dec_topics valid b _ x raw Hin Hf) as (hk & m0 & msg & Hr & Hd & Hk & Hmsg).
  destruct (rcv_run es b _ Hr) as [(v & cv & H1 & H2)|(a & cb & a' & c & H1 & H2)]; cbn [r_task r_frame r_raw r_hook] in *.
  - exists b, (s_task x), (s_frame x), v, cv, hk. split; [by econstructor|]. done.
  - destruct (link_relay es b x a cb raw Hh Hin Hf H1) as (a1 & c1 & y & Hl & Hy & Hw & Hpos).
    destruct (sent_on_in _ _ _ _ Hy) as [Hiny Hcy].
    destruct (relay_to_broker deser dec_users dec_topics valid a1 _ y b c1 raw Hiny Hw) as (v & cv & t & Ht & Ho).
    assert (Hfy : e_frame (s_what y) = FRelay raw) by (by rewrite Hw).
    destruct (relay_received deser dec_users dec_topics valid a1 _ y raw Hiny Hfy) as (hk' & m0' & msg' & Hr' & _).
    exists a1, (s_task y), (s_frame y), v, cv, hk'. split; [by econstructor|]. split; [by exists t|]. split; [done|].
    destruct (rcv_run es a1 _ Hr') as [(v' & cv' & H3 & H4)|(a2 & cb2 & a3 & c3 & H3 & _)]; [done|].
    destruct H3 as (t' & Ht' & Ho'). cbn in Ht'. unfold NetModel.broker_at in Ht'. congruence.
Qed.

(** ** No duplicates *)
Lemma no_duplicates es b u j k x y a h i :
  hooks_keep_sync es -> j < k ->
  m_sent (broker_at (n_run es) b) !! j = Some x -> m_sent (broker_at (n_run es) b) !! k = Some y ->
  e_to (s_what x) = inl u -> e_to (s_what y) = inl u ->
  comes_from (n_run es) b x a h i -> ~ comes_from (n_run es) b y a h i.
Proof.
  intros Hh Hjk Hx Hy Hux Huy Hcx Hcy.
  assert (Hinx : In x (m_sent (broker_at (n_run es) b))) by by apply elem_of_list_In, elem_of_list_lookup_2 with j.
  assert (Hiny : In y (m_sent (broker_at (n_run es) b))) by by apply elem_of_list_In, elem_of_list_lookup_2 with k.
  destruct (to_user_relay _ _ _ _ Hinx Hux) as [rx Hrx]. destruct (to_user_relay _ _ _ _ Hiny Huy) as [ry Hry].
  destruct (inv_run es) as (I0 & I2 & _).
  assert (Hsame : s_task x = s_task y -> s_frame x = s_frame y -> False).
  { intros Ht Hf. apply (frame_once deser dec_users dec_topics valid b (trace (n_run es) b) j k x y Hjk Hx Hy Ht Hf).
    - by rewrite Hrx.
    - by rewrite Hry.
    - by rewrite Hux, Huy. }
  inversion Hcx as [u1 c1 Hlx E1 E2 E3|a1 c1 x' Hlx Hsx E1 E2 E3]; subst; inversion Hcy as [u2 c2 Hly E4 E5 E6|a2 c2 y' Hly Hsy E4 E5 E6]; subst.
  - by apply Hsame.
  - by destruct (I0 _ _ _ _ Hly) as (? & _).
  - by destruct (I0 _ _ _ _ Hlx) as (? & _).
  - destruct (I0 _ _ _ _ Hlx) as (_ & _ & cbx & Hlox). destruct (I0 _ _ _ _ Hly) as (_ & _ & cby & Hloy).
    destruct (link_relay es b x a cbx rx Hh Hinx Hrx Hlox) as (ax & cx & x'' & Hlx' & Hsx' & Hwx & Hpx).
    destruct (I2 _ _ _ _ _ _ Hlx Hlx') as [<- <-]. rewrite Hsx in Hsx'. injection Hsx' as <-.
    destruct (link_relay es b y a cby ry Hh Hiny Hry Hloy) as (ay & cy & y'' & Hly' & Hsy' & Hwy & Hpy).
    destruct (I2 _ _ _ _ _ _ Hly Hly') as [<- <-]. rewrite Hsy in Hsy'. injection Hsy' as <-.
    assert (Hdiff : forall j' k', j' < k' -> m_sent (broker_at (n_run es) a) !! j' = Some x' -> m_sent (broker_at (n_run es) a) !! k' = Some y' -> False).
    { intros j' k' Hjk' Hj' Hk'. apply (frame_once deser dec_users dec_topics valid a (trace (n_run es) a) j' k' x' y' Hjk' Hj' Hk'); try congruence; rewrite ?Hwx, ?Hwy; done. }
    assert (Hdiff' : forall j' k', j' < k' -> m_sent (broker_at (n_run es) a) !! j' = Some y' -> m_sent (broker_at (n_run es) a) !! k' = Some x' -> False).
    { intros j' k' Hjk' Hj' Hk'. apply (frame_once deser dec_users dec_topics valid a (trace (n_run es) a) j' k' y' x' Hjk' Hj' Hk'); try congruence; rewrite ?Hwx, ?Hwy; done. }
    assert (Hc : c1 = c2).
    { destruct (filter_index _ _ _ _ Hsx) as (j' & Hj' & Hcj). destruct (filter_index _ _ _ _ Hsy) as (k' & Hk' & Hck).
      destruct (lt_eq_lt_dec j' k') as [[Hlt|Heq]|Hlt]; [by destruct (Hdiff _ _ Hlt Hj' Hk')| |by destruct (Hdiff' _ _ Hlt Hk' Hj')].
      subst k'. rewrite Hj' in Hk'. injection Hk' as <-. congruence. }
    subst c2. rewrite Hlx in Hly. injection Hly as Htask.
    destruct (lt_eq_lt_dec (s_frame x - 1) (s_frame y - 1)) as [[Hlt|Heq]|Hlt].
    + destruct (filter_indices _ _ _ _ _ _ Hlt Hsx Hsy) as (j' & k' & Hjk' & Hj' & Hk'). by eapply Hdiff.
    + apply Hsame; [done|lia].
    + destruct (filter_indices _ _ _ _ _ _ Hlt Hsy Hsx) as (j' & k' & Hjk' & Hj' & Hk'). by eapply Hdiff'.
Qed.

(** ** Order *)
Lemma order_same_path es b c j k x y a h i i' :
  hooks_keep_sync es -> j < k ->
  m_sent (broker_at (n_run es) b) !! j = Some x -> m_sent (broker_at (n_run es) b) !! k = Some y ->
  (exists u, e_to (s_what x) = inl u) -> e_conn (s_what x) = c -> e_conn (s_what y) = c ->
  comes_from (n_run es) b x a h i -> comes_from (n_run es) b y a h i' ->
  s_task x = s_task y -> i < i'.
Proof.
  intros Hh Hjk Hx Hy [u Hux] Hcx Hcy Hox Hoy Ht.
  assert (Hinx : In x (m_sent (broker_at (n_run es) b))) by by apply elem_of_list_In, elem_of_list_lookup_2 with j.
  assert (Hiny : In y (m_sent (broker_at (n_run es) b))) by by apply elem_of_list_In, elem_of_list_lookup_2 with k.
  destruct (inv_run es) as (I0 & I2 & _ & I4).
  assert (Huy : e_to (s_what y) = inl u).
  { rewrite <- Hux. symmetry. apply (sent_same_target deser dec_users dec_topics valid b _ x y (I4 b) Hinx Hiny). congruence. }
  destruct (to_user_relay _ _ _ _ Hinx Hux) as [rx Hrx]. destruct (to_user_relay _ _ _ _ Hiny Huy) as [ry Hry].
  assert (Hlt : s_frame x < s_frame y).
  { apply (loop_order deser dec_users dec_topics valid b (trace (n_run es) b) j k x y (I4 b) Hjk Hx Hy Ht); [congruence|by rewrite Hrx|by rewrite Hry]. }
  inversion Hox as [u1 c1 Hlx E1 E2 E3|a1 c1 x' Hlx Hsx E1 E2 E3]; subst; inversion Hoy as [u2 c2 Hly E4 E5 E6|a2 c2 y' Hly Hsy E4 E5 E6]; subst.
  - done.
  - by destruct (I0 _ _ _ _ Hly) as (? & _).
  - by destruct (I0 _ _ _ _ Hlx) as (? & _).
  - destruct (I0 _ _ _ _ Hlx) as (_ & _ & cbx & Hlox). destruct (I0 _ _ _ _ Hly) as (_ & _ & cby & Hloy).
    destruct (link_relay es b x a cbx rx Hh Hinx Hrx Hlox) as (ax & cx & x'' & Hlx' & Hsx' & Hwx & Hpx).
    destruct (I2 _ _ _ _ _ _ Hlx Hlx') as [<- <-]. rewrite Hsx in Hsx'. injection Hsx' as <-.
    destruct (link_relay es b y a cby ry Hh Hiny Hry Hloy) as (ay & cy & y'' & Hly' & Hsy' & Hwy & Hpy).
    destruct (I2 _ _ _ _ _ _ Hly Hly') as [<- <-]. rewrite Hsy in Hsy'. injection Hsy' as <-.
    rewrite <- Ht in Hly. destruct (I2 _ _ _ _ _ _ Hlx Hly) as [_ <-].
    assert (Hlt' : s_frame x - 1 < s_frame y - 1) by lia.
    destruct (filter_indices _ _ _ _ _ _ Hlt' Hsx Hsy) as (j' & k' & Hjk' & Hj' & Hk').
    apply (loop_order deser dec_users dec_topics valid a (trace (n_run es) a) j' k' x' y' (I4 a) Hjk' Hj' Hk'); [congruence| | |];
      rewrite ?Hwx, ?Hwy; done.
Qed.

Lemma order_one_link es b c j k x y a h i i' :
  hooks_keep_sync es -> j < k ->
  m_sent (broker_at (n_run es) b) !! j = Some x -> m_sent (broker_at (n_run es) b) !! k = Some y ->
  (exists u, e_to (s_what x) = inl u) -> e_conn (s_what x) = c -> e_conn (s_what y) = c ->
  comes_from (n_run es) b x a h i -> comes_from (n_run es) b y a h i' ->
  (forall c1 h1 c2 h2, n_links (n_run es) !! (a, c1) = Some (b, h1) -> n_links (n_run es) !! (a, c2) = Some (b, h2) -> c1 = c2) ->
  i < i'.
Proof.
  intros Hh Hjk Hx Hy Hu Hcx Hcy Hox Hoy Hone.
  apply (order_same_path es b c j k x y a h i i' Hh Hjk Hx Hy Hu Hcx Hcy Hox Hoy).
  destruct (inv_run es) as (I0 & _).
  inversion Hox as [u1 c1 Hlx E1 E2 E3|a1 c1 x' Hlx Hsx E1 E2 E3]; subst; inversion Hoy as [u2 c2 Hly E4 E5 E6|a2 c2 y' Hly Hsy E4 E5 E6]; subst.
  - done.
  - by destruct (I0 _ _ _ _ Hly) as (? & _).
  - by destruct (I0 _ _ _ _ Hlx) as (? & _).
  - rewrite (Hone _ _ _ _ Hlx Hly) in Hlx. rewrite Hlx in Hly. by injection Hly.
Qed.

(** ** Back to the events of the network *)
Lemma trace_step n e b : trace (n_step n e) b = trace n b \/ exists ev, trace (n_step n e) b = trace n b ++ [ev].
Proof.
  assert (Hx : forall b' ev, trace (extend n b' ev) b = trace n b \/ exists ev', trace (extend n b' ev) b = trace n b ++ [ev']).
  { intros b' ev. rewrite trace_extend. case_decide; eauto. }
  destruct e as [b' h hh u c ts|a ha hha ca b' hb hhb cb|b' h raw hk|a c hk|b' e]; cbn [NetModel.n_step].
  - case_decide; auto.
  - case_decide as Hd; [|auto]. destruct Hd as (Hne & _).
    change (trace (extend (extend n a (EBrokerAuthed ha hha b' ca)) b' (EBrokerAuthed hb hhb a cb)) b = trace n b
      \/ exists ev, trace (extend (extend n a (EBrokerAuthed ha hha b' ca)) b' (EBrokerAuthed hb hhb a cb)) b = trace n b ++ [ev]).
    rewrite trace_extend. case_decide as Hb'.
    + subst b'. rewrite trace_extend, decide_False by done. eauto.
    + apply Hx.
  - destruct (m_tasks (broker_at n b') !! h) as [[[u c|b'' c|] acts op k]|]; auto.
  - destruct (n_links n !! (a, c)) as [[b' h]|]; [|auto]. destruct (m_tasks (broker_at n b') !! h) as [t|]; [|auto].
    destruct (sent_on (broker_at n a) c !! t_frames t); auto.
  - destruct (receives_nothing e); auto.
Qed.

Lemma trace_prefix es b t1 t2 : trace (n_run es) b = t1 ++ t2 -> exists es1 es2, es = es1 ++ es2 /\ trace (n_run es1) b = t1.
Proof.
  revert t2. induction es as [|e es IH] using rev_ind; intros t2 Ht.
  - exists [], []. split; [done|]. unfold trace in *. cbn in *. rewrite lookup_empty in *. cbn in *. by destruct t1.
  - destruct (rev_case t2) as [->|(t2' & ev & ->)].
    + rewrite app_nil_r in Ht. exists (es ++ [e]), []. by rewrite app_nil_r.
    + assert (Hp : exists t2'', trace (n_run es) b = t1 ++ t2'').
      { rewrite n_run_snoc in Ht. destruct (trace_step (n_run es) e b) as [Heq|[ev' Heq]]; rewrite Heq in Ht; [by eexists|].
        rewrite app_assoc in Ht. apply app_inj_tail in Ht as [-> _]. by eexists. }
      destruct Hp as [t2'' Hp]. destruct (IH _ Hp) as (es1 & es2 & -> & Hes1). exists es1, (es2 ++ [e]). by rewrite app_assoc.
Qed.
End proofs.
