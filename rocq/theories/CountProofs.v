(** Proofs about the byte counters. *)
From stdpp Require Import gmap list.
From Coq Require Import NArith Lia.
From Verif Require Import IdModel WireModel WireSpec WireProofs CountModel CountSpec.

(** * Doubles *)
Lemma size_pow n : (0 < n)%N -> (2 ^ (N.size n - 1) <= n < 2 ^ N.size n)%N.
Proof.
  intros Hn. split; [|apply N.size_gt]. rewrite N.size_log2 by lia.
  replace (N.succ (N.log2 n) - 1)%N with (N.log2 n) by lia. by apply N.log2_spec.
Qed.
Lemma f64_exact n : (n <= 2 ^ 53)%N -> f64_round n = n.
Proof.
  intros Hn. destruct (decide (n = 2 ^ 53)%N) as [->|Hne]; [by vm_compute|].
  unfold f64_round. destruct (N.leb_spec (N.size n) 53) as [|Hs]; [done|].
  assert (0 < n)%N by (destruct n; [cbn in Hs; lia|lia]).
  pose proof (size_pow n ltac:(done)) as [H1 _].
  assert (2 ^ 53 <= 2 ^ (N.size n - 1))%N by (apply N.pow_le_mono_r; lia). lia.
Qed.
Definition is_f64 (x : N) : Prop := exists q e, x = (q * 2 ^ e)%N /\ (q <= 2 ^ 53)%N.
Lemma big_parts n : (53 < N.size n)%N ->
  let s := (N.size n - 53)%N in (0 < s)%N /\ (2 ^ 52 <= n / 2 ^ s < 2 ^ 53)%N.
Proof.
  intros Hs s. assert (0 < n)%N by (destruct n; [cbn in Hs; lia|lia]).
  pose proof (size_pow n ltac:(done)) as [H1 H2]. split; [unfold s; lia|].
  assert (E1 : (2 ^ (N.size n - 1) = 2 ^ 52 * 2 ^ s)%N) by (rewrite <- N.pow_add_r; f_equal; unfold s; lia).
  assert (E2 : (2 ^ N.size n = 2 ^ s * 2 ^ 53)%N) by (rewrite <- N.pow_add_r; f_equal; unfold s; lia).
  rewrite E1 in H1. rewrite E2 in H2. assert (Hp : (2 ^ s <> 0)%N) by (apply N.pow_nonzero; lia). split.
  - apply N.div_le_lower_bound; [done|]. lia.
  - by apply N.div_lt_upper_bound.
Qed.
Lemma f64_round_is n : is_f64 (f64_round n).
Proof.
  unfold f64_round. destruct (N.leb_spec (N.size n) 53) as [Hs|Hs].
  - exists n, 0%N. split; [cbn; lia|]. pose proof (N.size_gt n). assert (2 ^ N.size n <= 2 ^ 53)%N by (apply N.pow_le_mono_r; lia). lia.
  - destruct (big_parts n Hs) as (_ & _ & Hq). cbv zeta. eexists _, _. split; [reflexivity|].
    destruct (_ || _); lia.
Qed.
Lemma f64_round_ge x n : is_f64 x -> (x <= n)%N -> (x <= f64_round n)%N.
Proof.
  intros (q & e & -> & Hq) Hle. unfold f64_round. destruct (N.leb_spec (N.size n) 53) as [Hs|Hs]; [done|].
  destruct (big_parts n Hs) as (Hs0 & HQ & _). cbv zeta. set (s := (N.size n - 53)%N) in *.
  assert (Hp : (2 ^ s <> 0)%N) by (apply N.pow_nonzero; lia).
  assert (Hle2 : (q * 2 ^ e <= n / 2 ^ s * 2 ^ s)%N).
  { destruct (N.le_gt_cases s e) as [Hse|Hse].
    - assert (E : (2 ^ e = 2 ^ (e - s) * 2 ^ s)%N) by (rewrite <- N.pow_add_r; f_equal; lia).
      rewrite E in *. rewrite N.mul_assoc in *. apply N.mul_le_mono_r. apply N.div_le_lower_bound; [done|]. lia.
    - assert (E : (2 ^ s = 2 ^ (s - 1 - e) * 2 ^ e * 2)%N).
      { rewrite <- N.pow_add_r. change 2%N with (2 ^ 1)%N at 3. rewrite <- N.pow_add_r. f_equal. lia. }
      assert (1 <= 2 ^ (s - 1 - e))%N by (pose proof (N.pow_nonzero 2 (s - 1 - e) ltac:(lia)); lia).
      transitivity (2 ^ 52 * 2 ^ s)%N; [|by apply N.mul_le_mono_r].
      rewrite E. transitivity (2 ^ 53 * 2 ^ e)%N; [by apply N.mul_le_mono_r|].
      change (2 ^ 53)%N with (2 ^ 52 * 2)%N. nia. }
  destruct (_ || _); nia.
Qed.

(** * Sums *)
Lemma volume_app a b : volume (a ++ b) = (volume a + volume b)%N.
Proof. unfold volume. induction a as [|m a IH]; [done|]. cbn [app fold_right]. rewrite IH. lia. Qed.
Lemma sum_seq_change (f g : nat -> N) d i a k :
  (forall j, j <> i -> g j = f j) -> (g i = f i + d)%N -> a <= i < a + k ->
  fold_right (fun j x => (g j + x)%N) 0%N (seq a k) = (fold_right (fun j x => (f j + x)%N) 0%N (seq a k) + d)%N.
Proof.
  intros Hne Hi. revert a. induction k as [|k IH]; intros a Hr; [lia|]. cbn [seq fold_right].
  destruct (decide (a = i)) as [->|Ha].
  - rewrite Hi. assert (E : forall b l, i < b -> fold_right (fun j x => (g j + x)%N) 0%N (seq b l) = fold_right (fun j x => (f j + x)%N) 0%N (seq b l)).
    { intros b l. revert b. induction l as [|l IHl]; intros b Hb; [done|]. cbn [seq fold_right]. rewrite Hne by lia. rewrite IHl by lia. done. }
    rewrite E by lia. lia.
  - rewrite Hne by done. rewrite IH by lia. lia.
Qed.
Lemma sum_lines_change ls sel (f g : nat -> N) d i x :
  ls !! i = Some x -> (forall j, j <> i -> g j = f j) -> (g i = f i + d)%N ->
  sum_lines ls sel g = (sum_lines ls sel f + if sel x then d else 0)%N.
Proof.
  intros Hx Hne Hi. unfold sum_lines.
  apply (sum_seq_change (fun j => match ls !! j with Some x => if sel x then f j else 0 | None => 0 end)%N
           (fun j => match ls !! j with Some x => if sel x then g j else 0 | None => 0 end)%N _ i).
  - intros j Hj. by rewrite (Hne j Hj).
  - rewrite Hx. destruct (sel x); lia.
  - apply lookup_lt_Some in Hx. lia.
Qed.
Lemma sum_lines_ext ls sel (f g : nat -> N) :
  (forall i x, ls !! i = Some x -> f i = g i) -> sum_lines ls sel f = sum_lines ls sel g.
Proof.
  intros H. unfold sum_lines. induction (seq 0 (length ls)) as [|i l IH]; [done|]. cbn [fold_right]. rewrite IH.
  destruct (ls !! i) as [x|] eqn:E; [|done]. by rewrite (H i x E).
Qed.
Lemma sum_lines_0 ls sel : sum_lines ls sel (fun _ => 0%N) = 0%N.
Proof.
  unfold sum_lines. induction (seq 0 (length ls)) as [|i l IH]; [done|]. cbn [fold_right]. rewrite IH.
  destruct (ls !! i) as [x|]; [|done]. by destruct (sel x).
Qed.

(** * Parts of frames *)
Lemma stream_one m : (blen m < 2 ^ 32)%N -> stream_of [m] = frame m.
Proof. intros H. rewrite stream_frames; [|by repeat constructor]. cbn [flat_map]. by rewrite app_nil_r. Qed.
Lemma unfinished_nil : unfinished [].
Proof. intros m Hm [k E]. rewrite stream_one in E by done. discriminate. Qed.
Lemma unfinished_part m r part : (blen m < 2 ^ 32)%N -> part ++ r = frame m -> r <> [] -> unfinished part.
Proof.
  intros Hm E Hr m' Hm' [k ->]. rewrite stream_one in E by done. rewrite <- app_assoc in E.
  unfold frame in E. rewrite <- app_assoc in E. apply app_inj_1 in E as [E1 E2]; [|done].
  assert (blen m' = blen m) as Eb by (rewrite <- (u32_roundtrip (blen m')), <- (u32_roundtrip (blen m)) by done; by rewrite E1).
  apply (f_equal length) in E2. rewrite !app_length in E2. unfold blen in Eb. destruct r; [done|]. cbn in E2. lia.
Qed.
Lemma unfinished_short t : length t < 4 -> unfinished t.
Proof. intros Hl m Hm [k ->]. rewrite stream_one, app_length, frame_len in Hl by done. lia. Qed.
Lemma unfinished_head h got : length h = 4 -> length got < N.to_nat (be_u32 h) -> unfinished (h ++ got).
Proof.
  intros Hh Hg m Hm [k E]. rewrite stream_one in E by done. unfold frame in E. rewrite <- app_assoc in E.
  apply app_inj_1 in E as [-> ->]; [|by rewrite Hh]. rewrite u32_roundtrip in Hg by done.
  rewrite app_length in Hg. unfold blen in Hg. lia.
Qed.

(** * The sender of one line *)
Definition sc (c : conn) (len : N) (o : list out) (w : list bytes) : Prop :=
  exists part rest, passed o ++ c_wbuf c = flat_map frame w ++ part /\ sends o = w ++ rest
    /\ Forall (fun m => (blen m < 2 ^ 32)%N) w
    /\ match c_sp c with
       | SWrite r => exists m, part ++ r = frame m /\ r <> [] /\ (blen m < 2 ^ 32)%N /\ len = blen m /\ rest = m :: msgs (c_sq c)
       | SStop => unfinished part
       | _ => part = [] /\ rest = msgs (c_sq c)
       end.

Lemma sc_new cap : sc (conn_new cap) 0 [] [].
Proof. exists [], []. split; [done|]. split; [done|]. split; [constructor|]. done. Qed.

Lemma sc_quiet c c' len o x w :
  sc c len o w -> c_wbuf c' = c_wbuf c -> c_sp c' = c_sp c -> c_sq c' = c_sq c ->
  sends x = [] -> passed x = [] -> sc c' len (o ++ x) w.
Proof.
  intros (part & rest & H1 & H2 & H3 & H4) E1 E2 E3 X1 X2. exists part, rest.
  rewrite passed_app, sends_app, X1, X2, !app_nil_r, E1, E2, E3. auto.
Qed.
Lemma soft_sends q : sends (soft_errs q) = [].
Proof. induction q as [|[m|k] q IH]; cbn; auto. Qed.
Lemma sstop_sc c len len' o w : sc c len o w -> sc (sstop c).1 len' (o ++ (sstop c).2) w.
Proof.
  intros (part & rest & H1 & H2 & H3 & H4). exists part, rest. cbn [sstop fst snd c_wbuf c_sp].
  destruct (soft_errs_quiet (c_sq c)) as (_ & Q2 & _).
  assert (P0 : passed (match c_sp c with SSoft k => [OSoftErr k] | _ => [] end) = []) by (by destruct (c_sp c)).
  assert (S0 : sends (match c_sp c with SSoft k => [OSoftErr k] | _ => [] end) = []) by (by destruct (c_sp c)).
  rewrite !passed_app, !sends_app, Q2, soft_sends, P0, S0, !app_nil_r. split; [done|]. split; [done|]. split; [done|].
  destruct (c_sp c) as [|r| |k|]; try (destruct H4 as [-> _]; apply unfinished_nil); [|done].
  destruct H4 as (m & Hm & Hr & Hb & _). by eapply unfinished_part.
Qed.

Lemma sc_step c len o w e :
  sc c len o w ->
  let c' := (cstep c e).1 in let o' := o ++ (cstep c e).2 in
  exists w', sc c' (len_after c len e) o' w'
    /\ (if wrote_one c c' e then exists m, w' = w ++ [m] /\ len = blen m else w' = w).
Proof.
  intros Hinv. cbv zeta.
  destruct e as [m|k| |n| |n| | |n| | | | | |]; cbn [cstep len_after wrote_one].
  - exists w. split; [|done]. unfold enqueue. destruct (c_sopen c); [destruct (room _ _)|]; cbn [fst snd].
    2-3: by eapply sc_quiet.
    destruct Hinv as (part & rest & H1 & H2 & H3 & H4). exists part, (rest ++ [m]).
    cbn [c_wbuf c_sp c_sq]. rewrite passed_app, sends_app. change (passed [OSendOk m]) with (@nil N).
    change (sends [OSendOk m]) with [m]. rewrite app_nil_r, H2, app_assoc. split; [done|]. split; [done|]. split; [done|].
    rewrite msgs_app. change (msgs [IMsg m]) with [m].
    destruct (c_sp c) as [|r| |k|]; try (by destruct H4 as [-> ->]); [|done].
    destruct H4 as (m0 & ? & ? & ? & ? & ->). exists m0. by rewrite <- app_comm_cons.
  - exists w. split; [|done]. unfold enqueue. destruct (c_sopen c); [destruct (room _ _)|]; cbn [fst snd].
    2-3: by eapply sc_quiet.
    destruct Hinv as (part & rest & H1 & H2 & H3 & H4). exists part, rest.
    cbn [c_wbuf c_sp c_sq]. rewrite passed_app, sends_app. change (passed [OSoftStart k]) with (@nil N).
    change (sends [OSoftStart k]) with (@nil bytes). rewrite !app_nil_r, H2. split; [done|]. split; [done|]. split; [done|].
    rewrite msgs_app. change (msgs [ISoft k]) with (@nil bytes). by rewrite app_nil_r.
  - exists w. split; [|done]. destruct (c_sp c) eqn:Esp; try (cbn [fst snd]; rewrite app_nil_r; exact Hinv).
    destruct Hinv as (part & rest & H1 & H2 & H3 & H4). rewrite Esp in H4. destruct H4 as [-> ->].
    destruct (c_sq c) as [|[m|k] q] eqn:Eq.
    + cbn [fst snd]. rewrite app_nil_r. exists [], (msgs (c_sq c)). rewrite Esp, Eq. auto.
    + change (msgs (IMsg m :: q)) with (m :: msgs q) in H2. destruct (fits_u32 m) eqn:Ef.
      * cbn [fst snd set_sp c_cap c_sq c_sopen c_wbuf c_wire c_rp c_rq c_ropen]. rewrite app_nil_r.
        exists [], (m :: msgs q). cbn [c_wbuf c_sp c_sq]. split; [done|]. split; [done|]. split; [done|].
        apply N.ltb_lt in Ef. exists m. done.
      * match goal with |- sc (sstop ?cc).1 _ _ _ => set (c' := cc) end.
        apply sstop_sc with (c := set_sp c' SStop) (len := len).
        exists [], (m :: msgs q). cbn. split; [done|]. split; [done|]. split; [done|]. apply unfinished_nil.
    + cbn [fst snd]. rewrite app_nil_r. exists [], (msgs q). cbn [c_wbuf c_sp c_sq]. done.
  - destruct (c_sp c) as [|r| |k|] eqn:Esp; try (cbn [fst snd]; rewrite app_nil_r; exists w; by destruct (c_sp c)).
    cbn [fst snd c_sp]. rewrite app_nil_r.
    destruct Hinv as (part & rest & H1 & H2 & H3 & H4). rewrite Esp in H4. destruct H4 as (m & Hm & Hr & Hb & Hlen & ->).
    destruct (drop n r) as [|x rest'] eqn:Ed.
    + exists (w ++ [m]). split; [|by exists m]. exists [], (msgs (c_sq c)). cbn [c_wbuf c_sp c_sq].
      assert (Et : take n r = r) by (rewrite <- (take_drop n r) at 2; by rewrite Ed, app_nil_r).
      rewrite Et, app_assoc, H1, flat_map_app'. cbn [flat_map]. rewrite <- app_assoc, Hm, !app_nil_r.
      split; [done|]. split; [by rewrite H2, <- app_assoc|]. split; [|done]. apply Forall_app. split; [done|]. by repeat constructor.
    + exists w. split; [|done]. exists (part ++ take n r), (m :: msgs (c_sq c)). cbn [c_wbuf c_sp c_sq].
      rewrite app_assoc, H1, <- app_assoc. split; [done|]. split; [done|]. split; [done|].
      exists m. rewrite <- app_assoc, <- Ed, take_drop. split; [done|]. rewrite Ed. done.
  - exists w. split; [|done]. destruct (c_sp c) eqn:Esp; try (cbn [fst snd]; rewrite app_nil_r; exact Hinv); by eapply sstop_sc.
  - exists w. split; [|done]. destruct Hinv as (part & rest & H1 & H2 & H3 & H4). cbn [fst snd].
    exists part, rest. rewrite passed_app, sends_app. change (sends [OPassed (take n (c_wbuf c))]) with (@nil bytes).
    cbn [passed flat_map c_wbuf c_sp c_sq]. rewrite !app_nil_r, <- app_assoc, take_drop. done.
  - exists w. split; [|done]. destruct (c_sp c) eqn:Esp; try (cbn [fst snd]; rewrite app_nil_r; exact Hinv).
    destruct Hinv as (part & rest & H1 & H2 & H3 & H4). rewrite Esp in H4. cbn [fst snd].
    exists part, rest. rewrite passed_app, sends_app. change (sends [OPassed (c_wbuf c)]) with (@nil bytes).
    cbn [passed flat_map c_wbuf c_sp c_sq]. rewrite !app_nil_r. done.
  - exists w. split; [|done]. destruct (c_sp c) eqn:Esp; try (cbn [fst snd]; rewrite app_nil_r; exact Hinv).
    destruct Hinv as (part & rest & H1 & H2 & H3 & H4). rewrite Esp in H4. cbn [fst snd].
    exists part, rest. rewrite passed_app, sends_app. change (sends [OSoftOk k]) with (@nil bytes).
    cbn [passed flat_map set_sp c_wbuf c_sp c_sq]. rewrite !app_nil_r. done.
  - exists w. split; [|done]. cbn [fst snd]. eapply sc_quiet; eauto; cbn [sends omap list_omap passed flat_map]; repeat case_match; reflexivity.
  - exists w. split; [|done]. destruct (c_rp c); cbn [fst snd]; by eapply sc_quiet.
  - exists w. split; [|done]. destruct (c_rp c); cbn [fst snd]; by eapply sc_quiet.
  - exists w. split; [|done]. destruct (c_rp c); [..|destruct (c_ropen c); [destruct (room _ _)|]|]; cbn [fst snd]; by eapply sc_quiet.
  - exists w. split; [|done]. destruct (c_rq c); cbn [fst snd]; eapply sc_quiet; eauto; by destruct (c_rp c).
  - exists w. split; [|done]. by eapply sstop_sc.
  - exists w. split; [|done]. cbn [fst snd]. by eapply sc_quiet.
Qed.

(** * The receiver of one line *)
Definition over (p : rphase) : list bytes := match p with RPush m => [m] | _ => [] end.
Definition rpart (p : rphase) (t : bytes) : Prop :=
  match p with
  | RHead got => t = got /\ length got < 4
  | RWait n => length t = 4 /\ be_u32 t = n /\ (n <= max_message_size)%N
  | RBody n got => (n <= max_message_size)%N /\ length got < N.to_nat n /\ exists h, t = h ++ got /\ length h = 4 /\ be_u32 h = n
  | RPush _ => t = []
  | RStop => unfinished t \/ (length t = 4 /\ be_u32 t = 0%N)
  end.
Lemma rpart_stop p t : rpart p t -> unfinished t \/ (length t = 4 /\ be_u32 t = 0%N).
Proof.
  destruct p as [got|n|n got|m|]; cbn [rpart].
  - intros [-> H]. left. by apply unfinished_short.
  - intros (H1 & H2 & H3). destruct (decide (n = 0%N)) as [->|Hn]; [by right|]. left.
    rewrite <- (app_nil_r t). apply unfinished_head; [done|]. cbn. lia.
  - intros (H1 & H2 & h & -> & H3 & H4). left. apply unfinished_head; [done|]. by rewrite H4.
  - intros ->. left. apply unfinished_nil.
  - done.
Qed.

Definition rc (c : conn) (o : list out) (r : list bytes) : Prop :=
  passed o = reads o ++ c_wire c
  /\ exists rd t, reads o = flat_map rframe rd ++ t /\ Forall rgood rd /\ rd.*2 = r
     /\ recvs o ++ c_rq c ++ over (c_rp c) `prefix_of` r
     /\ (c_rp c <> RStop -> recvs o ++ c_rq c ++ over (c_rp c) = r) /\ rpart (c_rp c) t.

Lemma rc_new cap : rc (conn_new cap) [] [].
Proof. split; [done|]. exists [], []. split; [done|]. split; [constructor|]. cbn. split; [done|]. split; [done|]. split; [done|]. split; [done|lia]. Qed.

Lemma rc_quiet c c' o x r :
  rc c o r -> c_wire c' = c_wire c -> c_rp c' = c_rp c -> c_rq c' = c_rq c ->
  reads x = [] -> passed x = [] -> recvs x = [] -> rc c' (o ++ x) r.
Proof.
  intros (Hb & rd & t & H1 & H2 & H3 & H4 & H5 & H6) E1 E2 E3 X1 X2 X3. split.
  - by rewrite passed_app, reads_app, X1, X2, !app_nil_r, E1.
  - exists rd, t. rewrite reads_app, recvs_app, X1, X3, !app_nil_r, E2, E3. done.
Qed.
Lemma rc_sstop c o r : rc c o r -> rc (sstop c).1 (o ++ (sstop c).2) r.
Proof.
  intros H. destruct (soft_errs_quiet (c_sq c)) as (Q1 & Q2 & Q3 & Q4).
  eapply rc_quiet; [exact H|done|done|done|..]; cbn [sstop snd]; rewrite ?reads_app, ?passed_app, ?recvs_app, ?Q2, ?Q3, ?Q4; by destruct (c_sp c).
Qed.

Lemma rtake_parts p l t :
  rpart p t -> p <> RStop -> length l <= rwants p -> l <> [] ->
  match rtake p l with
  | RPush m => exists h n got, p = RBody n got /\ n = blen m /\ t ++ l = h ++ m /\ length h = 4 /\ be_u32 h = blen m /\ (blen m <= max_message_size)%N
  | p' => rpart p' (t ++ l) /\ over p = []
  end.
Proof.
  intros Ht Hs Hl Hne. assert (0 < length l) by (destruct l; [done|cbn; lia]).
  destruct p as [got|n|n got|m|]; cbn [rwants rpart] in *; try lia.
  - destruct Ht as (-> & Hg). cbn [rtake rsettle]. destruct (decide (length (got ++ l) = 4)) as [E|E].
    + destruct (be_u32 (got ++ l) <=? max_message_size)%N eqn:Em.
      * apply N.leb_le in Em. done.
      * apply N.leb_gt in Em. cbn [rpart]. split; [|done]. left.
        rewrite <- (app_nil_r (got ++ l)). apply unfinished_head; [done|]. cbn. lia.
    + cbn [rpart]. rewrite app_length in *. split; [split; [done|lia]|done].
  - destruct Ht as (Hn & Hg & h & -> & Hh & Hb). cbn [rtake rsettle].
    destruct (decide (length (got ++ l) = N.to_nat n)) as [E|E].
    + assert (blen (got ++ l) = n) as Eb by (unfold blen; lia).
      exists h, n, got. rewrite Eb, <- app_assoc. auto 10.
    + cbn [rpart]. rewrite app_length in *. split; [|done]. split; [done|]. split; [lia|]. exists h. by rewrite <- app_assoc.
Qed.
Lemma rtake_none p t : rpart p t -> rtake p [] = p.
Proof.
  destruct p as [got|n|n got|m|]; cbn [rpart rtake]; try done.
  - intros (_ & H). cbn [rsettle]. rewrite app_nil_r. by rewrite decide_False by lia.
  - intros (_ & H & _). cbn [rsettle]. rewrite app_nil_r. by rewrite decide_False by lia.
Qed.

Lemma read_one_same c c' : c_rp c' = c_rp c -> read_one c c' = None.
Proof. intros E. unfold read_one. rewrite E. by destruct (c_rp c). Qed.

Lemma rc_step c o r e :
  rc c o r ->
  let c' := (cstep c e).1 in let o' := o ++ (cstep c e).2 in
  exists r', rc c' o' r'
    /\ match read_one c c' with Some n => exists m, r' = r ++ [m] /\ n = blen m | None => r' = r end.
Proof.
  intros Hinv. cbv zeta.
  assert (Hsame : forall c' x, rc c' (o ++ x) r -> c_rp c' = c_rp c ->
    exists r', rc c' (o ++ x) r' /\ match read_one c c' with Some n => exists m, r' = r ++ [m] /\ n = blen m | None => r' = r end).
  { intros c' x H E. exists r. split; [done|]. by rewrite read_one_same. }
  destruct e as [m|k| |n| |n| | |n| | | | | |]; cbn [cstep].
  - unfold enqueue. destruct (c_sopen c); [destruct (room _ _)|]; cbn [fst snd]; apply Hsame; try done; by eapply rc_quiet.
  - unfold enqueue. destruct (c_sopen c); [destruct (room _ _)|]; cbn [fst snd]; apply Hsame; try done; by eapply rc_quiet.
  - destruct (c_sp c) eqn:Esp; try (cbn [fst snd]; apply Hsame; [by rewrite app_nil_r|done]).
    destruct (c_sq c) as [|[m|k] q] eqn:Eq; [|destruct (fits_u32 m)|]; cbn [fst snd]; apply Hsame; try done;
      try (by eapply rc_quiet).
    match goal with |- rc (fst (sstop ?cc)) _ _ => apply (rc_sstop cc) | |- rc _ _ _ => idtac end.
    exact Hinv.
  - destruct (c_sp c); cbn [fst snd]; apply Hsame; try done; by eapply rc_quiet.
  - destruct (c_sp c); cbn [fst snd]; apply Hsame; try done; try (by rewrite app_nil_r); by apply rc_sstop.
  - cbn [fst snd]. apply Hsame; [|done]. destruct Hinv as (Hb & rd & t & H1 & H2 & H3 & H4 & H5 & H6). split; cbn [c_wire c_rp c_rq].
    + rewrite passed_app, reads_app. cbn [passed reads flat_map]. by rewrite !app_nil_r, Hb, <- app_assoc.
    + exists rd, t. rewrite reads_app, recvs_app. cbn [reads flat_map recvs omap list_omap]. by rewrite !app_nil_r.
  - destruct (c_sp c); cbn [fst snd]; apply Hsame; try done; try (by rewrite app_nil_r).
    destruct Hinv as (Hb & rd & t & H1 & H2 & H3 & H4 & H5 & H6). split; cbn [c_wire c_rp c_rq].
    + rewrite passed_app, reads_app. cbn [passed reads flat_map]. by rewrite !app_nil_r, Hb, <- app_assoc.
    + exists rd, t. rewrite reads_app, recvs_app. cbn [reads flat_map recvs omap list_omap]. by rewrite !app_nil_r.
  - destruct (c_sp c); cbn [fst snd]; apply Hsame; try done; by eapply rc_quiet.
  - destruct Hinv as (Hb & rd & t & H1 & H2 & H3 & H4 & H5 & H6). cbn [fst snd].
    set (k := rwants (c_rp c) `min` n). set (l := take k (c_wire c)).
    set (xs := match c_rp c with RHead _ => _ | _ => _ end).
    assert (X1 : reads (ORead l :: xs) = l).
    { cbn [reads flat_map]. assert (reads xs = []) as E. { subst xs. repeat case_match; reflexivity. }
      unfold reads in E. rewrite E. apply app_nil_r. }
    assert (X2 : passed (ORead l :: xs) = []).
    { subst xs. cbn [passed flat_map]. repeat case_match; reflexivity. }
    assert (X3 : recvs (ORead l :: xs) = []).
    { subst xs. cbn [recvs omap list_omap]. repeat case_match; reflexivity. }
    assert (Hbytes : passed (o ++ ORead l :: xs) = reads (o ++ ORead l :: xs) ++ drop k (c_wire c)).
    { rewrite passed_app, reads_app, X1, X2, app_nil_r, Hb, <- app_assoc. unfold l. by rewrite take_drop. }
    assert (Hl : length l <= rwants (c_rp c)). { unfold l, k. rewrite take_length. lia. }
    unfold read_one. cbn [c_rp]. destruct (decide (l = [])) as [El|El].
    { exists r. rewrite El, (rtake_none _ _ H6). split; [|by destruct (c_rp c)]. split; [by rewrite <- El|].
      exists rd, t. rewrite <- El at 1 2 3. cbn [c_rp c_rq]. rewrite reads_app, recvs_app, X1, X3, El, !app_nil_r. done. }
    assert (Es : c_rp c <> RStop).
    { intros Es. rewrite Es in Hl. cbn [rwants] in Hl. destruct l; [done|cbn in Hl; lia]. }
    pose proof (rtake_parts _ l _ H6 Es Hl El) as Hc. specialize (H5 Es).
    destruct (rtake (c_rp c) l) as [got'|n'|n' got'|m'|] eqn:Er.
    1-3,5: exists r; (split; [|by destruct (c_rp c)]); (split; [exact Hbytes|]); destruct Hc as [Hc Ho];
      exists rd, (t ++ l); cbn [c_rp c_rq over]; rewrite reads_app, recvs_app, X1, X3, app_nil_r, H1, <- app_assoc;
      (split; [done|]); rewrite Ho in *; done.
    destruct Hc as (h & n0 & got & Ep & -> & Et & Hh & Hbh & Hm). exists (r ++ [m']). rewrite Ep in *. split; [|by exists m'].
    cbn [over] in *. split; [exact Hbytes|].
    exists (rd ++ [(h, m')]), []. cbn [c_rp c_rq over rpart]. rewrite reads_app, recvs_app, X1, X3, app_nil_r, H1, flat_map_app', fmap_app.
    cbn [flat_map fmap list_fmap snd]. unfold rframe at 3. cbn [fst snd]. rewrite !app_nil_r, <- app_assoc, Et. rewrite app_nil_r in H5.
    split; [done|]. split. { apply Forall_app. split; [done|]. constructor; [|done]. done. }
    split; [by rewrite H3|]. rewrite app_assoc, H5. done.
  - destruct (c_rp c) eqn:Ep; cbn [fst snd]; try (by apply Hsame; [rewrite app_nil_r|]);
      (exists r; rewrite app_nil_r; destruct Hinv as (Hb & rd & t & H1 & H2 & H3 & H4 & H5 & H6);
       split; [|unfold read_one; rewrite Ep; by cbn [set_rp c_rp]]);
      (split; [exact Hb|]); exists rd, t; cbn [set_rp c_rp c_rq]; rewrite Ep in *;
      (split; [done|]); (split; [done|]); (split; [done|]); (split; [done|]); (split; [done|]); by eapply rpart_stop.
  - destruct (c_rp c) as [got|n|n got|m|] eqn:Ep; cbn [fst snd]; try (by apply Hsame; [rewrite app_nil_r|]).
    destruct Hinv as (Hb & rd & t & H1 & H2 & H3 & H4 & H5 & H6). rewrite Ep in *. cbn [rpart over] in *.
    destruct H6 as (Ht & Hbt & Hn). specialize (H5 ltac:(done)). rewrite app_nil_r in *.
    unfold read_one. rewrite Ep. cbn [rsettle set_rp c_rp length]. destruct (decide (0 = N.to_nat n)) as [E|E].
    + exists (r ++ [[]]). split; [|exists []; split; [done|]; unfold blen; cbn; lia]. split; [exact Hb|].
      exists (rd ++ [(t, [])]), []. cbn [c_rp c_rq over rpart]. rewrite flat_map_app', fmap_app.
      cbn [flat_map fmap list_fmap snd]. unfold rframe at 2. cbn [fst snd]. rewrite !app_nil_r.
      split; [done|]. split. { apply Forall_app. split; [done|]. constructor; [|done]. split; [done|]. cbn [fst snd]. change (blen []) with 0%N. split; lia. }
      split; [by rewrite H3|]. cbn [set_rp c_rp c_rq over rpart]. rewrite app_assoc, H5. done.
    + exists r. split; [|done]. split; [exact Hb|]. exists rd, t. cbn [set_rp c_rp c_rq over rpart length]. rewrite app_nil_r.
      split; [done|]. split; [done|]. split; [done|]. split; [done|]. split; [done|]. split; [done|]. split; [lia|]. exists t. rewrite app_nil_r. done.
  - destruct (c_rp c) as [got|n|n got|m|] eqn:Ep; cbn [fst snd]; try (by apply Hsame; [rewrite app_nil_r|]).
    destruct Hinv as (Hb & rd & t & H1 & H2 & H3 & H4 & H5 & H6). rewrite Ep in *. cbn [rpart over] in *.
    unfold read_one. rewrite Ep. exists r. split; [|by destruct (c_rp _)].
    destruct (c_ropen c); [destruct (room _ _)|]; cbn [fst snd]; rewrite app_nil_r.
    + split; [exact Hb|]. exists rd, t. cbn [c_rp c_rq over rpart]. rewrite app_nil_r. specialize (H5 ltac:(done)). subst t.
      split; [done|]. split; [done|]. split; [done|]. rewrite H5. split; [done|]. split; [done|]. split; [done|cbn; lia].
    + split; [exact Hb|]. exists rd, t. rewrite Ep. cbn [over rpart]. done.
    + split; [exact Hb|]. exists rd, t. cbn [set_rp c_rp c_rq over rpart]. split; [done|]. split; [done|]. split; [done|].
      rewrite app_nil_r. split; [|split; [done|]].
      * rewrite app_assoc in H4. by eapply prefix_app_l.
      * subst t. left. apply unfinished_nil.
  - destruct (c_rq c) as [|m q] eqn:Eq; cbn [fst snd].
    + apply Hsame; [|done]. eapply rc_quiet; [exact Hinv|done|done|done|..]; by destruct (c_rp c).
    + apply Hsame; [|done]. destruct Hinv as (Hb & rd & t & H1 & H2 & H3 & H4 & H5 & H6). split; cbn [c_wire c_rp c_rq].
      * rewrite passed_app, reads_app. cbn [passed reads flat_map]. by rewrite !app_nil_r.
      * exists rd, t. rewrite reads_app, recvs_app. cbn [reads flat_map]. change (recvs [ORecv m]) with [m].
        rewrite app_nil_r, Eq in *. rewrite <- app_assoc. done.
  - apply Hsame; [by apply rc_sstop|done].
  - cbn [fst snd]. exists r. rewrite app_nil_r. destruct Hinv as (Hb & rd & t & H1 & H2 & H3 & H4 & H5 & H6).
    split; [|unfold read_one; cbn [c_rp]; by destruct (c_rp c)].
    split; [exact Hb|]. exists rd, t. cbn [c_rp c_rq over]. split; [done|]. split; [done|]. split; [done|].
    rewrite app_nil_r. split; [by eapply prefix_app_l|]. split; [done|]. by eapply rpart_stop.
Qed.
