(** Property theorems: users that log in at several brokers, in whatever order and at whatever
    moments (NetModel.v). PropertiesMove.v (C90) is about users that move when everybody has heard
    where they are.

    Hypotheses as in PropertiesSettle.v. [never_lost]: a broker that could once say where the user
    is always could (rightly or wrongly). It fails when a broker notes that the user has gone, or
    hears such a note. Without it the first theorem is false ([C95_two_homes_refuted]). *)
From stdpp Require Import gmap fin_maps list countable.
From Coq Require Import NArith Lia.
From Verif Require Import IdModel RelMapModel VMapModel ConnModel ConnSpec ConnProofs3 TopicModel MsgModel RouteModel
  TaskModel TaskProofs TaskOrder TaskHandles TaskGuarded TaskCheck TaskSync NetModel NetProofs NetOrigin NetComplete NetSynced NetConcurrent NetDelivery NetCheck
  NetSettle NetSettleDir NetSettleAll ReturnSpec ReturnProofs MoveSpec MoveProofs HomeSpec HomeProofs PropertiesNet PropertiesSettle PropertiesReturn PropertiesMove.

(** * C95: a user that logged in at several brokers is left with one of any two linked ones *)
Theorem C95_one_of_two_linked_brokers :
  forall deser dec_users dec_topics valid enc_users enc_topics es v x y,
  faithful_sync deser dec_users dec_topics enc_users enc_topics -> hooks_pass es ->
  let n := n_run deser dec_users dec_topics valid enc_users enc_topics es in
  fine deser dec_users dec_topics valid n ->
  never_lost deser dec_users dec_topics valid v n -> below_wrap deser dec_users dec_topics valid v n ->
  (* everything is said and done *)
  at_rest deser dec_users dec_topics valid n ->
  x <> y -> joined deser dec_users dec_topics valid n x y -> joined deser dec_users dec_topics valid n y x ->
  all_announced deser dec_users dec_topics valid n x -> all_announced deser dec_users dec_topics valid n y ->
  c_get_user_connection (m_conns (broker_at deser dec_users dec_topics valid n x)) v = None
  \/ c_get_user_connection (m_conns (broker_at deser dec_users dec_topics valid n y)) v = None.
Proof.
  intros deser dec_users dec_topics valid enc_users enc_topics es v x y Hcodec Hh n Hf H1 H2 Hr Hne Hj Hj' Hx Hy.
  destruct (c_get_user_connection (m_conns (broker_at deser dec_users dec_topics valid n x)) v) as [c|] eqn:E; [|by left].
  destruct (c_get_user_connection (m_conns (broker_at deser dec_users dec_topics valid n y)) v) as [c'|] eqn:E'; [|by right].
  exfalso. exact (one_home deser dec_users dec_topics valid enc_users enc_topics Hcodec v es x y Hh Hf H1 H2 Hr Hne Hj Hj' Hx Hy c c' E E').
Qed.
Print Assumptions C95_one_of_two_linked_brokers.

(** A broker linked with the user's broker says that the user is there, or names another broker
    and has a version number on record that is at least as high as that of the user's broker. *)
Theorem C95_nothing_older :
  forall deser dec_users dec_topics valid enc_users enc_topics es v x y c,
  faithful_sync deser dec_users dec_topics enc_users enc_topics -> hooks_pass es ->
  let n := n_run deser dec_users dec_topics valid enc_users enc_topics es in
  fine deser dec_users dec_topics valid n ->
  never_lost deser dec_users dec_topics valid v n -> below_wrap deser dec_users dec_topics valid v n ->
  at_rest deser dec_users dec_topics valid n ->
  joined deser dec_users dec_topics valid n x y -> all_announced deser dec_users dec_topics valid n y ->
  c_get_user_connection (m_conns (broker_at deser dec_users dec_topics valid n y)) v = Some c ->
  c_get_broker_identifier_of_user (m_conns (broker_at deser dec_users dec_topics valid n x)) v = Some y
  \/ exists k k' z, record_at deser dec_users dec_topics valid v n y = Some (VVal k (Some y))
       /\ record_at deser dec_users dec_topics valid v n x = Some (VVal k' (Some z)) /\ z <> y /\ (k <= k')%N.
Proof.
  intros deser dec_users dec_topics valid enc_users enc_topics es v x y c Hcodec Hh n Hf H1 H2 Hr Hj Hy Hc.
  destruct (heeds_at_rest deser dec_users dec_topics valid enc_users enc_topics Hcodec v es x y Hh Hf H1 H2 Hr Hj Hy c Hc) as (k & Hk & e & He & Hcase).
  destruct (good_run deser dec_users dec_topics valid enc_users enc_topics Hcodec v es Hh Hf (conj H1 H2)) as [Hs _]. fold n in Hk, He, Hs.
  destruct (Hs e) as [Hv _]; [left; exists x; by left|]. destruct e as [k' [z|]]; [|done]. destruct (decide (z = y)) as [->|Hz].
  - left. unfold c_get_broker_identifier_of_user, vm_get. by rewrite He.
  - right. exists k, k', z. split; [done|]. split; [exact He|]. split; [done|]. cbn in Hcase. lia.
Qed.
Print Assumptions C95_nothing_older.

(** * Boolean checks *)
Notation nx_mrun := (m_run nx_deser nx_dec_users nx_dec_topics nx_valid).
Notation nx_mstep := (m_step nx_deser nx_dec_users nx_dec_topics nx_valid).
Notation nx_lost := (never_lost nx_deser nx_dec_users nx_dec_topics nx_valid).
Notation nx_below := (below_wrap nx_deser nx_dec_users nx_dec_topics nx_valid).
Notation nx_announced := (all_announced nx_deser nx_dec_users nx_dec_topics nx_valid).
Definition says (v : ukey) (m : machine) : bool := negb (isn (c_get_broker_identifier_of_user (m_conns m) v)).
Definition low (v : ukey) (m : machine) : bool := match entries (direct (m_conns m)) !! v with Some e => (ver e + 1 <? u64_modulus)%N | None => true end.
Fixpoint lost_b (v : ukey) (m : machine) (l : list event) : bool :=
  low v m && match l with [] => true | e :: l => (negb (says v m) || says v (nx_mstep m e)) && lost_b v (nx_mstep m e) l end.
Lemma lost_sound v l : forall m, lost_b v m l = true ->
  (forall p q, p `prefix_of` q -> q `prefix_of` l -> says v (fold_left nx_mstep p m) = true -> says v (fold_left nx_mstep q m) = true)
  /\ forall p, p `prefix_of` l -> low v (fold_left nx_mstep p m) = true.
Proof.
  induction l as [|e l IH]; intros m Hb; cbn [lost_b] in Hb; apply andb_prop in Hb as [Hlow Hb].
  - split; [intros p q Hpq Hq|intros p Hq]; apply prefix_nil_inv in Hq; subst; [|done]. apply prefix_nil_inv in Hpq. by subst.
  - apply andb_prop in Hb as [Hs Hb]. destruct (IH _ Hb) as [I1 I2]. split.
    + intros p q Hpq Hq Hp. destruct q as [|e' q]; [apply prefix_nil_inv in Hpq; by subst|]. pose proof (prefix_cons_inv_1 _ _ _ _ Hq) as ->. apply prefix_cons_inv_2 in Hq.
      cbn [fold_left]. destruct p as [|e' p].
      * apply (I1 [] q); [apply prefix_nil|done|]. cbn [fold_left] in Hp |- *. rewrite Hp in Hs. done.
      * pose proof (prefix_cons_inv_1 _ _ _ _ Hpq) as ->. apply prefix_cons_inv_2 in Hpq. exact (I1 p q Hpq Hq Hp).
    + intros [|e' p] Hq; [done|]. pose proof (prefix_cons_inv_1 _ _ _ _ Hq) as ->. apply prefix_cons_inv_2 in Hq. by apply I2.
Qed.
Definition never_b (v : ukey) (n : net) : bool := forallb (fun '(x, l) => lost_b v (m_init x) l) (map_to_list (n_trace n)).
Lemma never_at v n : never_b v n = true -> forall x, lost_b v (m_init x) (trace n x) = true.
Proof.
  intros H x. unfold trace. destruct (n_trace n !! x) as [l|] eqn:E; [|reflexivity].
  exact (forallb_map (fun x l => lost_b v (m_init x) l) _ _ _ H E).
Qed.
Lemma never_check v n : never_b v n = true -> nx_lost v n /\ nx_below v n.
Proof.
  intros H. pose proof (never_at v n H) as Hx.
  assert (Hsays : forall m, says v m = true <-> c_get_broker_identifier_of_user (m_conns m) v <> None).
  { intros m. unfold says. destruct (c_get_broker_identifier_of_user (m_conns m) v); cbn; split; done. }
  split.
  - intros x l l' Hl Hl' Hs. apply Hsays. destruct (lost_sound v _ _ (Hx x)) as [I1 _]. exact (I1 l l' Hl Hl' (proj2 (Hsays _) Hs)).
  - intros x l e Hl He. destruct (lost_sound v _ _ (Hx x)) as [_ I2]. specialize (I2 l Hl). unfold low in I2.
    change (fold_left nx_mstep l (m_init x)) with (nx_mrun x l) in I2. rewrite He in I2. by apply N.ltb_lt in I2.
Qed.
Definition announced_b (n : net) : bool := forallb (fun '(x, _) => isn (c_get_partial_user_sync (m_conns (nx_at n x))).2) (map_to_list (n_trace n)).
Lemma announced_check n : announced_b n = true -> forall x, nx_announced n x.
Proof.
  intros H x. unfold all_announced. destruct (n_trace n !! x) as [l|] eqn:E.
  - apply (forallb_map (fun x _ => isn (c_get_partial_user_sync (m_conns (nx_at n x))).2) _ _ _ H) in E. by destruct (c_get_partial_user_sync (m_conns (nx_at n x))).2.
  - rewrite (untouched _ _ _ _ _ _ E). reflexivity.
Qed.

Definition quiet_b (v : ukey) (n0 n : net) : bool :=
  forallb (fun '(x, l) => forallb (fun e => match e with EUserAuthed _ _ u _ _ => negb (bool_decide (u = v)) | _ => true end) (drop (length (trace n0 x)) l)) (map_to_list (n_trace n)).
Lemma quiet_since v n0 n x h hh c ts : In (EUserAuthed h hh v c ts) (drop (length (trace n0 x)) (trace n x)) -> quiet_b v n0 n = true -> False.
Proof.
  intros Hin H. unfold trace at 2 in Hin. destruct (n_trace n !! x) as [l|] eqn:E; [|cbn in Hin; by rewrite drop_nil in Hin].
  apply (forallb_map (fun x l => forallb (fun e => match e with EUserAuthed _ _ u _ _ => negb (bool_decide (u = v)) | _ => true end) (drop (length (trace n0 x)) l)) _ _ _ H) in E.
  rewrite forallb_forall in E. apply E in Hin. cbn in Hin. by rewrite bool_decide_eq_true_2 in Hin.
Qed.

(** * Examples *)
(** Three brokers, each linked with the others. User 3 logs in at A and at B, which have not heard
    of the other login; A announces it first. *)
Definition hm_start : list nevent :=
  NUp nA 5 6 105 nB 5 6 105 :: goes nA 6 8 ++ goes nB 6 8
  ++ NUp nA 7 8 107 nC 7 8 107 :: goes nA 8 8 ++ goes nC 8 8
  ++ NUp nB 9 10 109 nC 9 10 109 :: goes nB 10 8 ++ goes nC 10 8
  ++ passes nA nB 5 105 3 ++ passes nB nA 5 105 3 ++ passes nA nC 7 107 3 ++ passes nC nA 7 107 3 ++ passes nB nC 9 109 3 ++ passes nC nB 9 109 3.
Definition hm_twice : list nevent :=
  hm_start ++ NUser nA 11 12 [3]%N 111 [9]%N :: goes nA 12 24 ++ NUser nB 13 14 [3]%N 113 [9]%N :: goes nB 14 24
  ++ passes nA nC 7 107 3 ++ passes nB nC 9 109 3 ++ passes nA nB 5 105 3 ++ passes nB nA 5 105 3
  ++ NStep nA (ECancel 11) :: NStep nA (ESync 30) :: goes nA 30 24 ++ passes nA nB 5 105 3 ++ passes nA nC 7 107 3.
(** Then it logs in at C too. *)
Definition hm_thrice : list nevent :=
  hm_twice ++ NUser nC 15 16 [3]%N 115 [9]%N :: goes nC 16 24 ++ passes nC nA 7 107 3 ++ passes nC nB 9 109 3
  ++ NStep nB (ECancel 13) :: NStep nB (ESync 31) :: goes nB 31 24 ++ passes nB nA 5 105 3 ++ passes nB nC 9 109 3.

Lemma hm_at_B z c : c_get_user_connection (m_conns (nx_at (nx_run hm_twice) z)) [3]%N = Some c -> z = nB.
Proof.
  intros Hc. apply (users_check (fun b v => bool_decide (b = nB))) in Hc; [|vm_compute; reflexivity]. by apply bool_decide_eq_true in Hc.
Qed.
(** The hypotheses hold after the two logins and after the third one; B has the user first, then
    C has. *)
Example C95_nonvacuous :
  faithful_sync nx_deser nx_dec_users nx_dec_topics nx_enc_users nx_enc_topics /\ hooks_pass hm_thrice
  /\ fine nx_deser nx_dec_users nx_dec_topics nx_valid (nx_run hm_thrice)
  /\ nx_lost [3]%N (nx_run hm_thrice) /\ nx_below [3]%N (nx_run hm_thrice)
  /\ nx_rest (nx_run hm_twice) /\ nx_rest (nx_run hm_thrice)
  /\ (forall x, nx_announced (nx_run hm_twice) x) /\ (forall x, nx_announced (nx_run hm_thrice) x)
  /\ nx_joined (nx_run hm_thrice) nA nC /\ nx_joined (nx_run hm_thrice) nC nA /\ nx_joined (nx_run hm_thrice) nB nC /\ nx_joined (nx_run hm_thrice) nC nB
  /\ c_get_user_connection (m_conns (nx_at (nx_run hm_twice) nB)) [3]%N = Some 113%N
  /\ c_get_user_connection (m_conns (nx_at (nx_run hm_thrice) nC)) [3]%N = Some 115%N
  /\ length (admissions (nx_run hm_thrice) [3]%N) = 3.
Proof.
  split; [exact nx_faithful|]. split; [apply plain_pass; unfold plain_b; vm_compute; repeat constructor|].
  split; [apply fine_check; vm_compute; reflexivity|].
  pose proof (never_check [3]%N (nx_run hm_thrice) ltac:(vm_compute; reflexivity)) as [H1 H2]. split; [exact H1|]. split; [exact H2|].
  split; [apply rest_check; vm_compute; reflexivity|]. split; [apply rest_check; vm_compute; reflexivity|].
  split; [apply announced_check; vm_compute; reflexivity|]. split; [apply announced_check; vm_compute; reflexivity|].
  split; [apply joined_check; vm_compute; reflexivity|]. split; [apply joined_check; vm_compute; reflexivity|].
  split; [apply joined_check; vm_compute; reflexivity|]. split; [apply joined_check; vm_compute; reflexivity|].
  split; [vm_compute; reflexivity|]. split; [vm_compute; reflexivity|]. vm_compute; reflexivity.
Qed.

(** * C95: what goes wrong otherwise *)
(** As in [C90_farewell_refuted]: user 3 leaves B, which notices, and comes to C; A hears of C's
    claim first and then of B's note, and forgets the user. Then the user logs in at A too. *)
Definition hm_homes : list nevent :=
  fw_run ++ NUser nA 13 14 [3]%N 113 [9]%N :: goes nA 14 24 ++ passes nA nB 5 105 3 ++ passes nA nC 7 107 3.
(** All hypotheses but [never_lost] hold: everything is said and done, and the user is connected
    to both A and C. *)
Theorem C95_two_homes_refuted :
  ~ (forall deser dec_users dec_topics valid enc_users enc_topics es v x y,
  faithful_sync deser dec_users dec_topics enc_users enc_topics -> hooks_pass es ->
  let n := n_run deser dec_users dec_topics valid enc_users enc_topics es in
  fine deser dec_users dec_topics valid n ->
  at_rest deser dec_users dec_topics valid n ->
  x <> y -> joined deser dec_users dec_topics valid n x y -> joined deser dec_users dec_topics valid n y x ->
  (forall z, all_announced deser dec_users dec_topics valid n z) ->
  c_get_user_connection (m_conns (broker_at deser dec_users dec_topics valid n x)) v = None
  \/ c_get_user_connection (m_conns (broker_at deser dec_users dec_topics valid n y)) v = None).
Proof.
  intros H.
  assert (E : c_get_user_connection (m_conns (nx_at (nx_run hm_homes) nA)) [3]%N = None \/ c_get_user_connection (m_conns (nx_at (nx_run hm_homes) nC)) [3]%N = None).
  { apply (H _ _ _ _ _ _ hm_homes [3]%N nA nC nx_faithful).
    - apply plain_pass. unfold plain_b. vm_compute. repeat constructor.
    - apply fine_check. vm_compute. reflexivity.
    - apply rest_check. vm_compute. reflexivity.
    - discriminate.
    - apply joined_check. vm_compute. reflexivity.
    - apply joined_check. vm_compute. reflexivity.
    - apply announced_check. vm_compute. reflexivity. }
  destruct E as [E|E]; vm_compute in E; discriminate E.
Qed.
Print Assumptions C95_two_homes_refuted.

(** After the two logins at the same moment the user is connected to B alone, but C says that it
    is at A: both claims bear the version number 1, and to C, whose identity is greater than
    those of A and B, the first one counts. *)
Theorem C95_found_refuted :
  ~ (forall deser dec_users dec_topics valid enc_users enc_topics es v x y c,
  faithful_sync deser dec_users dec_topics enc_users enc_topics -> hooks_pass es ->
  let n := n_run deser dec_users dec_topics valid enc_users enc_topics es in
  fine deser dec_users dec_topics valid n ->
  never_lost deser dec_users dec_topics valid v n -> below_wrap deser dec_users dec_topics valid v n ->
  at_rest deser dec_users dec_topics valid n ->
  joined deser dec_users dec_topics valid n x y -> joined deser dec_users dec_topics valid n y x ->
  (forall z, all_announced deser dec_users dec_topics valid n z) ->
  c_get_user_connection (m_conns (broker_at deser dec_users dec_topics valid n y)) v = Some c ->
  (forall z c', c_get_user_connection (m_conns (broker_at deser dec_users dec_topics valid n z)) v = Some c' -> z = y) ->
  c_get_broker_identifier_of_user (m_conns (broker_at deser dec_users dec_topics valid n x)) v = Some y).
Proof.
  intros H. pose proof (never_check [3]%N (nx_run hm_twice) ltac:(vm_compute; reflexivity)) as [H1 H2].
  assert (E : c_get_broker_identifier_of_user (m_conns (nx_at (nx_run hm_twice) nC)) [3]%N = Some nB).
  { eapply (H _ _ _ _ _ _ hm_twice [3]%N nC nB 113%N nx_faithful).
    - apply plain_pass. unfold plain_b. vm_compute. repeat constructor.
    - apply fine_check. vm_compute. reflexivity.
    - exact H1.
    - exact H2.
    - apply rest_check. vm_compute. reflexivity.
    - apply joined_check. vm_compute. reflexivity.
    - apply joined_check. vm_compute. reflexivity.
    - apply announced_check. vm_compute. reflexivity.
    - vm_compute. reflexivity.
    - exact hm_at_B. }
  vm_compute in E. discriminate E.
Qed.
Print Assumptions C95_found_refuted.

(** Then the link between A and C is lost and set up again. C tells A that the user is at A; A
    believes it, C's identity being the greater one, finds that it has no such user, and notes
    that the user has gone; B hears of it and closes its connection with the user. *)
Definition hm_relink : list nevent :=
  hm_twice ++ NStep nA (ERecvErr 7) :: goes nA 7 3 ++ NStep nC (ERecvErr 7) :: goes nC 7 3
  ++ NUp nA 27 28 127 nC 27 28 127 :: goes nA 28 8 ++ goes nC 28 8 ++ passes nC nA 27 127 3 ++ passes nA nC 27 127 3
  ++ NStep nA (ESync 32) :: goes nA 32 24 ++ passes nA nB 5 105 3 ++ passes nA nC 27 127 3
  ++ NStep nB (ECancel 13) :: NStep nB (ESync 33) :: goes nB 33 24 ++ passes nB nA 5 105 3 ++ passes nB nC 9 109 3.
Lemma hm_quiet x h hh c ts : ~ In (EUserAuthed h hh [3]%N c ts) (drop (length (trace (nx_run hm_twice) x)) (trace (nx_run hm_relink) x)).
Proof.
  assert (Hq : quiet_b [3]%N (nx_run hm_twice) (nx_run hm_relink) = true) by (vm_compute; reflexivity).
  generalize dependent (nx_run hm_relink). generalize (nx_run hm_twice). intros n0 n Hq Hin. exact (quiet_since _ _ _ _ _ _ _ _ Hin Hq).
Qed.
(** So a user that is connected to one broker, with everything said and done, may lose its
    connection although nothing goes wrong at its broker and it logs in nowhere else. *)
Theorem C95_relink_disconnects_refuted :
  ~ (forall deser dec_users dec_topics valid enc_users enc_topics es0 es v b c,
  faithful_sync deser dec_users dec_topics enc_users enc_topics -> es0 `prefix_of` es -> hooks_pass es ->
  let n0 := n_run deser dec_users dec_topics valid enc_users enc_topics es0 in
  let n := n_run deser dec_users dec_topics valid enc_users enc_topics es in
  fine deser dec_users dec_topics valid n ->
  never_lost deser dec_users dec_topics valid v n0 -> at_rest deser dec_users dec_topics valid n0 ->
  (forall z, all_announced deser dec_users dec_topics valid n0 z) ->
  c_get_user_connection (m_conns (broker_at deser dec_users dec_topics valid n0 b)) v = Some c ->
  (forall z c', c_get_user_connection (m_conns (broker_at deser dec_users dec_topics valid n0 z)) v = Some c' -> z = b) ->
  (* since then *)
  (forall x h hh c' ts, ~ In (EUserAuthed h hh v c' ts) (drop (length (trace n0 x)) (trace n x))) -> untroubled b n0 n ->
  at_rest deser dec_users dec_topics valid n ->
  exists c', c_get_user_connection (m_conns (broker_at deser dec_users dec_topics valid n b)) v = Some c').
Proof.
  intros H. pose proof (never_check [3]%N (nx_run hm_twice) ltac:(vm_compute; reflexivity)) as [H1 _].
  assert (E : exists c', c_get_user_connection (m_conns (nx_at (nx_run hm_relink) nB)) [3]%N = Some c').
  { eapply (H _ _ _ _ _ _ hm_twice hm_relink [3]%N nB 113%N nx_faithful).
    - eexists. reflexivity.
    - apply plain_pass. unfold plain_b. vm_compute. repeat constructor.
    - apply fine_check. vm_compute. reflexivity.
    - exact H1.
    - apply rest_check. vm_compute. reflexivity.
    - apply announced_check. vm_compute. reflexivity.
    - vm_compute. reflexivity.
    - exact hm_at_B.
    - exact hm_quiet.
    - apply untroubled_check. vm_compute. reflexivity.
    - apply rest_check. vm_compute. reflexivity. }
  destruct E as [c E]. vm_compute in E. discriminate E.
Qed.
Print Assumptions C95_relink_disconnects_refuted.
