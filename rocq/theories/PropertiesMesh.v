(** Property theorems: brokers that list each other become linked (C84).

    [mesh_run es0 ms]: the network with history [es0], in which no dial is under way, followed by
    [ms]: rounds of the heartbeat tasks, the ends of the dials they start, and anything else that
    happens in the network. [idle_at n a]: no task of broker [a] has anything left to do.
    [get_to_know]: what is assumed about a pair of brokers (MeshSpec.v). *)
From stdpp Require Import gmap fin_maps list countable.
From Coq Require Import NArith Lia.
From Verif Require Import IdModel IdProofs RelMapModel VMapModel ConnModel ConnSpec ConnProofs3 TopicModel MsgModel RouteModel
  TaskModel TaskProofs TaskOrder TaskHandles TaskIsolation TaskGuarded TaskCheck TaskSync NetModel NetProofs NetOrigin NetComplete NetSynced NetConcurrent NetDelivery NetCheck
  NetSettle NetSettleDir NetSettleAll LinkSpec LinkProofs DialModel MeshModel MeshSpec MeshProofs PropertiesNet PropertiesSettle PropertiesLink.

(** * C84 *)
(** Whatever happened to the two before — links that broke, dials that crossed —, if [a] and [b]
    have got to know each other since and have nothing left to do, they are linked. *)
Theorem C84_listed_brokers_joined :
  forall deser dec_users dec_topics valid enc_users enc_topics es0 ms a b,
  faithful_sync deser dec_users dec_topics enc_users enc_topics ->
  let s := mesh_run deser dec_users dec_topics valid enc_users enc_topics es0 ms in
  let n := n_run deser dec_users dec_topics valid enc_users enc_topics (me_events s) in
  hooks_pass (me_events s) -> hooks_accept (me_events s) -> a <> b ->
  get_to_know deser dec_users dec_topics valid enc_users enc_topics es0 ms a b ->
  idle_at deser dec_users dec_topics valid n a -> idle_at deser dec_users dec_topics valid n b ->
  joined deser dec_users dec_topics valid n a b.
Proof.
  intros deser dec_users dec_topics valid enc_users enc_topics es0 ms a b Hc s n Hh Hac Hab (Ia & Ib & Hst & Ua & Ub & x & y & Hxy & Hdir & Hp & Hnf & Hl & Hnd) Ja Jb.
  destruct (mesh_hooks deser dec_users dec_topics valid enc_users enc_topics es0 ms Hh Hac) as [Hh0 Hac0].
  destruct Hxy as [[= -> ->]|[= -> ->]].
  - by apply (mesh_joined deser dec_users dec_topics valid enc_users enc_topics Hc es0 a b Hab Hdir ms).
  - assert (Hsym : forall es u v, hooks_pass es -> hooks_accept es -> joined deser dec_users dec_topics valid (n_run deser dec_users dec_topics valid enc_users enc_topics es) u v ->
      joined deser dec_users dec_topics valid (n_run deser dec_users dec_topics valid enc_users enc_topics es) v u).
    { intros es u v H1 H2. apply joined_sym. by apply paired_run0. }
    apply Hsym; [done|done|].
    apply (mesh_joined deser dec_users dec_topics valid enc_users enc_topics Hc es0 b a (not_eq_sym Hab) Hdir ms); try done.
    + destruct Hst as [Hst|[H1 H2]]; [left; by apply Hsym|by right].
    + destruct Hl as [Hl|Hl]; [left; by apply Hsym|by right].
Qed.
Print Assumptions C84_listed_brokers_joined.

(** Nor are they linked more than once in the meantime (two links may cost them both, C82): at
    any moment, whether or not the dialling broker [a] was given [b]'s name. *)
Theorem C84_linked_at_most_once :
  forall deser dec_users dec_topics valid enc_users enc_topics es0 ms a b,
  faithful_sync deser dec_users dec_topics enc_users enc_topics ->
  let n0 := n_run deser dec_users dec_topics valid enc_users enc_topics es0 in
  let s := mesh_run deser dec_users dec_topics valid enc_users enc_topics es0 ms in
  let n := n_run deser dec_users dec_topics valid enc_users enc_topics (me_events s) in
  hooks_pass (me_events s) -> hooks_accept (me_events s) -> a <> b -> bid_gtb a b = false ->
  idle_at deser dec_users dec_topics valid n0 a -> idle_at deser dec_users dec_topics valid n0 b ->
  joined deser dec_users dec_topics valid n0 a b \/ unlinked deser dec_users dec_topics valid n0 a b ->
  unbroken_since deser dec_users dec_topics valid a b n0 n -> unbroken_since deser dec_users dec_topics valid b a n0 n ->
  prompt_rounds deser dec_users dec_topics valid enc_users enc_topics es0 ms a b -> ~ In (MFail a b) ms ->
  links_made a b (me_events s) <= S (links_made a b es0).
Proof. intros. by apply mesh_once. Qed.
Print Assumptions C84_linked_at_most_once.

(** Hence a network of brokers that have got to know each other is synchronised: what C64 assumes
    about links comes about by itself. *)
Theorem C84_mesh_synchronised :
  forall deser dec_users dec_topics valid enc_users enc_topics es0 ms a,
  faithful_sync deser dec_users dec_topics enc_users enc_topics ->
  let s := mesh_run deser dec_users dec_topics valid enc_users enc_topics es0 ms in
  let n := n_run deser dec_users dec_topics valid enc_users enc_topics (me_events s) in
  hooks_pass (me_events s) -> hooks_accept (me_events s) ->
  fine deser dec_users dec_topics valid n ->
  (forall b, subscribes_connected deser dec_users dec_topics valid b (trace n b)) ->
  at_rest deser dec_users dec_topics valid n ->
  (forall b v c, b <> a -> c_get_user_connection (m_conns (broker_at deser dec_users dec_topics valid n b)) v = Some c ->
     get_to_know deser dec_users dec_topics valid enc_users enc_topics es0 ms a b /\ nothing_due deser dec_users dec_topics valid n b /\ admitted_once n v) ->
  synchronised deser dec_users dec_topics valid n a.
Proof.
  intros deser dec_users dec_topics valid enc_users enc_topics es0 ms a Hc s n Hh Hac Hf Hsc Hr Hk.
  apply (C64_settled_is_synchronised deser dec_users dec_topics valid enc_users enc_topics (me_events s) a Hc Hh Hf Hsc Hr).
  intros b v c Hne Hu. destruct (Hk b v c Hne Hu) as (Hg & Hd & Ho). split; [|done].
  apply (C84_listed_brokers_joined deser dec_users dec_topics valid enc_users enc_topics es0 ms a b Hc Hh Hac (not_eq_sym Hne) Hg); intros h t Ht; by eapply Hr.
Qed.
Print Assumptions C84_mesh_synchronised.

(** End to end: what is published at [a] on a topic then reaches every user subscribed to it, at
    whatever broker, exactly once, and nobody else. *)
Theorem C84_mesh_broadcast_complete :
  forall deser dec_users dec_topics valid enc_users enc_topics es0 ms es1 a h u cu k0 raw ts body,
  faithful_sync deser dec_users dec_topics enc_users enc_topics ->
  let s := mesh_run deser dec_users dec_topics valid enc_users enc_topics es0 ms in
  let n := n_run deser dec_users dec_topics valid enc_users enc_topics (me_events s) in
  let n' := n_run deser dec_users dec_topics valid enc_users enc_topics (me_events s ++ NPublish a h raw no_hook :: es1) in
  hooks_pass (me_events s) -> hooks_accept (me_events s) ->
  fine deser dec_users dec_topics valid n ->
  (forall b, subscribes_connected deser dec_users dec_topics valid b (trace n b)) ->
  at_rest deser dec_users dec_topics valid n ->
  (forall b v c, b <> a -> c_get_user_connection (m_conns (broker_at deser dec_users dec_topics valid n b)) v = Some c ->
     get_to_know deser dec_users dec_topics valid enc_users enc_topics es0 ms a b /\ nothing_due deser dec_users dec_topics valid n b /\ admitted_once n v) ->
  deser raw = Some (MBroadcast ts body) -> (exists t, In t ts /\ valid t = true) ->
  m_tasks (broker_at deser dec_users dec_topics valid n a) !! h = Some (Task (OUser u cu) [] true k0) ->
  Forall calm es1 -> at_rest deser dec_users dec_topics valid n' ->
  forall b v,
    ((exists t, In t ts /\ subscribed_at deser dec_users dec_topics valid n b v t) ->
       exists x c, copies deser dec_users dec_topics valid n n' b v = [x]
         /\ c_get_user_connection (m_conns (broker_at deser dec_users dec_topics valid n b)) v = Some c
         /\ s_what x = Emit (inl v) c (FRelay raw))
    /\ (~ (exists t, In t ts /\ subscribed_at deser dec_users dec_topics valid n b v t) ->
       copies deser dec_users dec_topics valid n n' b v = []).
Proof.
  intros deser dec_users dec_topics valid enc_users enc_topics es0 ms es1 a h u cu k0 raw ts body Hc s n n' Hh Hac Hf Hsc Hr Hk Hd Hv Ht Hcalm Hr'.
  eapply C26_broadcast_complete; try done. by eapply C84_mesh_synchronised.
Qed.
Print Assumptions C84_mesh_broadcast_complete.

(** * Boolean checks *)
Notation mx_run := (mesh_run nx_deser nx_dec_users nx_dec_topics nx_valid nx_enc_users nx_enc_topics).
Notation mx_step := (mesh_step nx_deser nx_dec_users nx_dec_topics nx_valid nx_enc_users nx_enc_topics).
Notation mx_idle := (idle_at nx_deser nx_dec_users nx_dec_topics nx_valid).
Notation mx_unlinked := (unlinked nx_deser nx_dec_users nx_dec_topics nx_valid).
Notation mx_since := (unbroken_since nx_deser nx_dec_users nx_dec_topics nx_valid).
Notation mx_prompt := (prompt_rounds nx_deser nx_dec_users nx_dec_topics nx_valid nx_enc_users nx_enc_topics).
Notation mx_know := (get_to_know nx_deser nx_dec_users nx_dec_topics nx_valid nx_enc_users nx_enc_topics).

Definition idle_b (m : machine) : bool := forallb (fun p => match t_acts p.2 with [] => true | _ => false end) (map_to_list (m_tasks m)).
Lemma idle_check n a : idle_b (nx_at n a) = true -> mx_idle n a.
Proof.
  intros H h t Ht. unfold idle_b in H. rewrite forallb_forall in H. specialize (H (h, t)). rewrite <- elem_of_list_In, elem_of_map_to_list in H.
  specialize (H Ht). cbn in H. by destruct (t_acts t).
Qed.
Lemma since_check a p n0 n es :
  trace n a = trace n0 a ++ es ->
  all_ev nx_deser nx_dec_users nx_dec_topics nx_valid (unbroken_b p) (m_run nx_deser nx_dec_users nx_dec_topics nx_valid a (trace n0 a)) es = true -> mx_since a p n0 n.
Proof.
  intros He H es1 e es2 Ht. rewrite He in Ht. apply app_inv_head in Ht. subst es. apply all_ev_split in H. revert H.
  unfold m_run. rewrite fold_left_app. generalize (fold_left (m_step nx_deser nx_dec_users nx_dec_topics nx_valid) es1 (fold_left (m_step nx_deser nx_dec_users nx_dec_topics nx_valid) (trace n0 a) (m_init a))).
  intros m H. destruct e as [| | | | |h|h good|]; cbn in H |- *; try done.
  - intros t c Htk Ho. rewrite Htk in H. destruct t as [o acts op k]. cbn in Ho. subst o. by apply bool_decide_eq_true in H.
  - intros t c f l Htk Ha. rewrite Htk in H. destruct t as [o acts op k]. cbn in Ha. subst acts. apply orb_prop in H as [H|H]; [done|]. by apply bool_decide_eq_true in H.
Qed.
Definition adds_b (b : bid) (y : act) : bool := match y with AAddBroker b' _ _ => bool_decide (b' = b) | _ => false end.
Definition prompt_now (a b : bid) (s : mesh) : bool :=
  bool_decide ((a, b) ∉ me_dialing s)
  && forallb (fun p => forallb (fun y => negb (adds_b b y)) (t_acts p.2)) (map_to_list (m_tasks (nx_at (nx_run (me_events s)) a))).
Fixpoint prompt_b (a b : bid) (s : mesh) (ms : list mevent) : bool :=
  match ms with
  | [] => true
  | m :: ms' => match m with MBeat x _ => if decide (x = a) then prompt_now a b s else true | _ => true end && prompt_b a b (mx_step s m) ms'
  end.
Lemma prompt_rounds_check es0 ms a b : prompt_b a b (Mesh es0 []) ms = true -> mx_prompt es0 ms a b.
Proof.
  intros H ms1 others ms2 ->.
  assert (Hg : forall s, prompt_b a b s (ms1 ++ MBeat a others :: ms2) = true -> prompt_now a b (fold_left mx_step ms1 s) = true).
  { clear H. induction ms1 as [|m ms1 IH]; intros s H; cbn [app prompt_b fold_left] in *; apply andb_prop in H as [H1 H2]; [by rewrite decide_True in H1|by apply IH]. }
  specialize (Hg _ H). fold (mx_run es0 ms1) in Hg. cbv zeta. revert Hg. generalize (mx_run es0 ms1). intros s Hg. apply andb_prop in Hg as [H1 H2].
  apply bool_decide_eq_true in H1. split; [done|]. intros h t c h' Ht Hin. rewrite forallb_forall in H2. specialize (H2 (h, t)).
  rewrite <- elem_of_list_In, elem_of_map_to_list in H2. specialize (H2 Ht). cbn in H2. rewrite forallb_forall in H2. specialize (H2 _ Hin). cbn in H2.
  rewrite bool_decide_eq_true_2 in H2 by done. done.
Qed.

Lemma fails_check a b ms : forallb (fun m => match m with MFail x y => negb (bool_decide (x = a /\ y = b)) | _ => true end) ms = true -> ~ In (MFail a b) ms.
Proof. intros H Hin. rewrite forallb_forall in H. specialize (H _ Hin). cbn in H. by rewrite bool_decide_eq_true_2 in H. Qed.
Lemma listed_check ms a b : existsb (fun m => match m with MBeat x others => bool_decide (x = a /\ b ∈ others) | _ => false end) ms = true -> listed ms a b.
Proof. intros H. apply existsb_exists in H as (m & Hin & H). destruct m as [x others| | |]; try done. apply bool_decide_eq_true in H as [-> H]. by exists others. Qed.

(** * Examples *)
(** Users at A and B, which do not know of each other; then a round at B, which is not the one to
    dial, two at A, the second once the link is registered, and the rest of PropertiesNet.v's
    network. *)
Definition mx_users : list nevent :=
  NUser nA 1 2 [1]%N 101 [7]%N :: goes nA 2 6
  ++ NUser nB 1 2 [2]%N 101 [7]%N :: goes nB 2 6
  ++ NUser nB 3 4 [3]%N 103 [9]%N :: goes nB 4 6.
Definition mx_meet : list mevent :=
  [MBeat nB {[nA]}; MBeat nA {[nB]}; MDial nA 5 6 105 nB 5 6 105] ++ map MNet (goes nA 6 8) ++ MBeat nA {[nB]} :: map MNet (goes nB 6 8
  ++ [NDeliver nA 105 no_hook] ++ goes nB 5 2 ++ [NDeliver nA 105 no_hook] ++ goes nB 5 2
  ++ [NDeliver nB 105 no_hook] ++ goes nA 5 2 ++ [NDeliver nB 105 no_hook] ++ goes nA 5 2).
Lemma mx_meet_events : mx_run mx_users mx_meet = Mesh nx_setup [].
Proof. vm_compute. reflexivity. Qed.
Lemma mx_meet_know : mx_know mx_users mx_meet nA nB.
Proof.
  unfold get_to_know. rewrite mx_meet_events. cbn [me_events me_dialing].
  split; [apply idle_check; vm_compute; reflexivity|]. split; [apply idle_check; vm_compute; reflexivity|].
  split; [right; split; vm_compute; reflexivity|].
  split; [eapply (since_check _ _ _ _ (drop 7 (trace (nx_run nx_setup) nA))); vm_compute; reflexivity|].
  split; [eapply (since_check _ _ _ _ (drop 14 (trace (nx_run nx_setup) nB))); vm_compute; reflexivity|].
  exists nA, nB. split; [by left|]. split; [vm_compute; reflexivity|]. split; [apply prompt_rounds_check; vm_compute; reflexivity|].
  split; [apply fails_check; vm_compute; reflexivity|]. split; [right; apply listed_check; vm_compute; reflexivity|by apply not_elem_of_nil].
Qed.
Example C84_example :
  faithful_sync nx_deser nx_dec_users nx_dec_topics nx_enc_users nx_enc_topics
  /\ me_events (mx_run mx_users mx_meet) = nx_setup /\ hooks_pass nx_setup /\ hooks_accept nx_setup /\ nA <> nB
  /\ mx_know mx_users mx_meet nA nB /\ mx_idle (nx_run nx_setup) nA /\ mx_idle (nx_run nx_setup) nB
  /\ links_made nA nB mx_users = 0 /\ links_made nA nB nx_setup = 1
  /\ fine nx_deser nx_dec_users nx_dec_topics nx_valid (nx_run nx_setup)
  /\ (forall b, subscribes_connected nx_deser nx_dec_users nx_dec_topics nx_valid b (trace (nx_run nx_setup) b))
  /\ nx_rest (nx_run nx_setup)
  /\ (forall b v c, b <> nA -> c_get_user_connection (m_conns (nx_at (nx_run nx_setup) b)) v = Some c ->
        mx_know mx_users mx_meet nA b /\ nx_due (nx_run nx_setup) b /\ admitted_once (nx_run nx_setup) v)
  /\ subscribed_at nx_deser nx_dec_users nx_dec_topics nx_valid (nx_run nx_setup) nB [3]%N 9.
Proof.
  split; [exact nx_faithful|]. split; [by rewrite mx_meet_events|]. split; [exact (plain_pass _ lx_plain)|]. split; [exact (plain_accepts _ lx_plain)|]. split; [done|].
  split; [exact mx_meet_know|]. split; [apply idle_check; vm_compute; reflexivity|]. split; [apply idle_check; vm_compute; reflexivity|].
  split; [vm_compute; reflexivity|]. split; [vm_compute; reflexivity|]. split; [exact nx_setup_fine|]. split; [exact nx_setup_subs|]. split; [exact nx_setup_rest|].
  split; [|vm_compute; left; reflexivity].
  intros b v c Hne Hu. assert (b = nB) as ->.
  { apply user_somewhere in Hu as [[l Hl] _]. apply key_among in Hl.
    assert (Hk : (map_to_list (n_trace (nx_run nx_setup))).*1 = [nA; nB] \/ (map_to_list (n_trace (nx_run nx_setup))).*1 = [nB; nA]) by (vm_compute; tauto).
    destruct Hk as [Hk|Hk]; rewrite Hk in Hl; clear - Hl Hne; set_solver. }
  split; [exact mx_meet_know|]. split; [exact nx_setup_due|]. by apply (proj2 nx_setup_settled nB v c).
Qed.

(** After the dials that crossed (C82) both brokers are without a link; the next round links them. *)
Definition mx_again : list mevent := MBeat nA {[nB]} :: MDial nA 7 8 107 nB 7 8 107 :: map MNet (goes nA 8 3 ++ goes nB 8 3).
Example C84_recovery_example :
  mx_unlinked (nx_run lx_crossed) nA nB /\ mx_know lx_crossed mx_again nA nB
  /\ links_made nA nB lx_crossed = 2 /\ links_made nA nB (me_events (mx_run lx_crossed mx_again)) = 3
  /\ nx_joined (nx_run (me_events (mx_run lx_crossed mx_again))) nA nB.
Proof.
  assert (Hk : mx_know lx_crossed mx_again nA nB).
  { split; [apply idle_check; vm_compute; reflexivity|]. split; [apply idle_check; vm_compute; reflexivity|].
    split; [right; split; vm_compute; reflexivity|].
    split; [eapply (since_check _ _ _ _ (drop (length (trace (nx_run lx_crossed) nA)) (trace (nx_run (me_events (mx_run lx_crossed mx_again))) nA))); vm_compute; reflexivity|].
    split; [eapply (since_check _ _ _ _ (drop (length (trace (nx_run lx_crossed) nB)) (trace (nx_run (me_events (mx_run lx_crossed mx_again))) nB))); vm_compute; reflexivity|].
    exists nA, nB. split; [by left|]. split; [vm_compute; reflexivity|]. split; [apply prompt_rounds_check; vm_compute; reflexivity|].
    split; [apply fails_check; vm_compute; reflexivity|]. split; [right; apply listed_check; vm_compute; reflexivity|].
    assert (Hd : me_dialing (mx_run lx_crossed mx_again) = []) by (vm_compute; reflexivity). rewrite Hd. apply not_elem_of_nil. }
  split; [split; vm_compute; reflexivity|]. split; [exact Hk|]. split; [vm_compute; reflexivity|]. split; [vm_compute; reflexivity|].
  assert (Hpl : plain_b (me_events (mx_run lx_crossed mx_again))) by (unfold plain_b; vm_compute; repeat constructor).
  apply (C84_listed_brokers_joined nx_deser nx_dec_users nx_dec_topics nx_valid nx_enc_users nx_enc_topics lx_crossed mx_again nA nB nx_faithful (plain_pass _ Hpl) (plain_accepts _ Hpl) ltac:(done) Hk); apply idle_check; vm_compute; reflexivity.
Qed.

(** ** Rounds that begin while a dial is under way *)
(** Two rounds at A start two dials of B; both succeed. Nothing else differs from
    C84_listed_brokers_joined's assumptions except that one broker stops what the other then fails
    to receive ([own_failures]); in the end the brokers are not linked. *)
Definition mx_eager : list mevent :=
  [MBeat nA {[nB]}; MBeat nA {[nB]}; MDial nA 1 2 101 nB 1 2 101; MDial nA 3 4 103 nB 3 4 103] ++ map MNet (drop 2 lx_crossed).
Theorem C84_eager_rounds_refuted :
  mx_run [] mx_eager = Mesh lx_crossed []
  /\ own_failures lx_crossed /\ plain_b lx_crossed
  /\ mx_idle (nx_run []) nA /\ mx_idle (nx_run []) nB /\ mx_unlinked (nx_run []) nA nB
  /\ bid_gtb nA nB = false /\ listed mx_eager nA nB /\ ~ In (MFail nA nB) mx_eager
  /\ ~ mx_prompt [] mx_eager nA nB
  /\ nx_rest (nx_run lx_crossed) /\ mx_unlinked (nx_run lx_crossed) nA nB.
Proof.
  split; [vm_compute; reflexivity|]. split; [apply own_check; vm_compute; reflexivity|]. split; [unfold plain_b; vm_compute; repeat constructor|].
  split; [apply idle_check; vm_compute; reflexivity|]. split; [apply idle_check; vm_compute; reflexivity|]. split; [split; vm_compute; reflexivity|].
  split; [vm_compute; reflexivity|]. split; [apply listed_check; vm_compute; reflexivity|]. split; [apply fails_check; vm_compute; reflexivity|].
  split; [|split; [apply rest_check; vm_compute; reflexivity|split; vm_compute; reflexivity]].
  intros Hp. destruct (Hp [MBeat nA {[nB]}] {[nB]} (drop 2 mx_eager)) as [Hp1 _]; [vm_compute; reflexivity|]. apply Hp1.
  assert (Hd : me_dialing (mx_run [] [MBeat nA {[nB]}]) = [(nA, nB)]) by (vm_compute; reflexivity). rewrite Hd. by apply elem_of_list_singleton.
Qed.
Print Assumptions C84_eager_rounds_refuted.
