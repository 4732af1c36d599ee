(** More proofs about the byte counters: all lines of all processes. *)
From stdpp Require Import gmap list.
From Coq Require Import NArith Lia.
From Verif Require Import IdModel WireModel WireSpec WireProofs CountModel CountSpec CountProofs.

Lemma f_run_snoc ls es e : f_run ls (es ++ [e]) = f_step (f_run ls es) e.
Proof. unfold f_run. by rewrite fold_left_app. Qed.
Lemma seen_same cap i es e :
  seen cap i (es ++ [(i, e)]) = ((cstep (seen cap i es).1 e).1, (seen cap i es).2 ++ (cstep (seen cap i es).1 e).2).
Proof.
  unfold seen, on_line. rewrite omap_app. cbn [omap list_omap fst snd]. rewrite decide_True by done.
  rewrite crun_app. destruct (crun _ _) as [c1 o1]. cbn [crun fst snd]. destruct (cstep c1 e) as [c2 o2]. cbn [fst snd]. by rewrite app_nil_r.
Qed.
Lemma seen_other cap i j es e : j <> i -> seen cap i (es ++ [(j, e)]) = seen cap i es.
Proof.
  intros Hne. unfold seen, on_line. rewrite omap_app. cbn [omap list_omap fst snd]. rewrite decide_False by done. by rewrite app_nil_r.
Qed.
Lemma gauge_add_at g p x q : gauge (gauge_add g p x) q = if decide (p = q) then f64_add (gauge g p) x else gauge g q.
Proof.
  unfold gauge_add, gauge. case_decide as Hd.
  - subst q. by rewrite lookup_insert.
  - by rewrite lookup_insert_ne.
Qed.

Record tally (ls : list (N * N * option nat)) (es : list (nat * event)) (W R : nat -> list bytes) : Prop := {
  ta_len : length (f_lines (f_run ls es)) = length ls;
  ta_line : forall i x, ls !! i = Some x -> exists l, f_lines (f_run ls es) !! i = Some l
    /\ l_from l = x.1.1 /\ l_to l = x.1.2 /\ l_conn l = (seen x.2 i es).1
    /\ sc (l_conn l) (l_len l) (seen x.2 i es).2 (W i) /\ rc (l_conn l) (seen x.2 i es).2 (R i);
  ta_sent : forall p, (sum_lines ls (from_p p) (fun i => volume (W i)) <= 2 ^ 53)%N ->
    gauge (f_sent (f_run ls es)) p = sum_lines ls (from_p p) (fun i => volume (W i));
  ta_recv : forall p, (sum_lines ls (to_p p) (fun i => volume (R i)) <= 2 ^ 53)%N ->
    gauge (f_recv (f_run ls es)) p = sum_lines ls (to_p p) (fun i => volume (R i));
}.

(** One counter, one message more on line [i]. *)
Lemma count_one ls (sel : N -> N * N * option nat -> bool) key W W' i x g m :
  (forall p x, sel p x = (key x =? p)%N) -> ls !! i = Some x ->
  (forall p, (sum_lines ls (sel p) (fun i => volume (W i)) <= 2 ^ 53)%N -> gauge g p = sum_lines ls (sel p) (fun i => volume (W i))) ->
  (forall j, j <> i -> W' j = W j) -> W' i = W i ++ [m] ->
  forall p, (sum_lines ls (sel p) (fun i => volume (W' i)) <= 2 ^ 53)%N ->
    gauge (gauge_add g (key x) (blen m)) p = sum_lines ls (sel p) (fun i => volume (W' i)).
Proof.
  intros Hsel Hx Hg Hne Hi p Hle.
  assert (E : forall q, sum_lines ls (sel q) (fun i => volume (W' i)) = (sum_lines ls (sel q) (fun i => volume (W i)) + if sel q x then blen m else 0)%N).
  { intros q. apply (sum_lines_change ls (sel q) _ _ (blen m) i x Hx).
    - intros j Hj. by rewrite Hne.
    - rewrite Hi, volume_app. cbn. lia. }
  rewrite E in *. rewrite Hsel in *. rewrite gauge_add_at. case_decide as Hd.
  - subst p. rewrite N.eqb_refl in *. rewrite Hg by lia. unfold f64_add. by apply f64_exact.
  - destruct (N.eqb_spec (key x) p); [done|]. rewrite N.add_0_r in *. by apply Hg.
Qed.

Lemma tally_new ls : tally ls [] (fun _ => []) (fun _ => []).
Proof.
  split.
  - unfold f_run, fleet_new. cbn. by rewrite map_length.
  - intros i x Hx. exists (Line x.1.1 x.1.2 (conn_new x.2) 0). unfold f_run, fleet_new. cbn [fold_left f_lines].
    rewrite list_lookup_fmap, Hx. cbn. do 4 (split; [done|]). split; [apply sc_new|apply rc_new].
  - intros p _. cbn [volume fold_right]. by rewrite sum_lines_0.
  - intros p _. cbn [volume fold_right]. by rewrite sum_lines_0.
Qed.

Lemma tally_step ls es W R ie : tally ls es W R -> exists W' R', tally ls (es ++ [ie]) W' R'.
Proof.
  destruct ie as [i e]. intros [Hlen Hline Hsent Hrecv]. 
  destruct (ls !! i) as [x|] eqn:Hx.
  2: { exists W, R. assert (Hno : f_run ls (es ++ [(i, e)]) = f_run ls es).
    { rewrite f_run_snoc. unfold f_step. cbn [fst snd]. apply lookup_ge_None in Hx. rewrite lookup_ge_None_2; [done|]. by rewrite Hlen. }
    split; rewrite ?Hno; try done. intros j y Hy. rewrite seen_other by congruence. by apply Hline. }
  destruct (Hline i x Hx) as (l & Hl & Hf & Ht & Hc & Hs & Hr).
  destruct (sc_step _ _ _ _ e Hs) as (w' & Hs' & Hw). destruct (rc_step _ _ _ e Hr) as (r' & Hr' & Hrr). cbv zeta in *.
  set (c' := (cstep (l_conn l) e).1) in *.
  exists (fun j => if decide (j = i) then w' else W j), (fun j => if decide (j = i) then r' else R j).
  assert (Hrun : f_run ls (es ++ [(i, e)]) = Fleet (<[i := Line (l_from l) (l_to l) c' (len_after (l_conn l) (l_len l) e)]> (f_lines (f_run ls es)))
     (if wrote_one (l_conn l) c' e then gauge_add (f_sent (f_run ls es)) (l_from l) (l_len l) else f_sent (f_run ls es))
     (match read_one (l_conn l) c' with Some n => gauge_add (f_recv (f_run ls es)) (l_to l) n | None => f_recv (f_run ls es) end)).
  { rewrite f_run_snoc. unfold f_step. cbn [fst snd]. by rewrite Hl. }
  split; rewrite ?Hrun; clear Hrun; cbn [f_lines f_sent f_recv].
  - by rewrite insert_length.
  - intros j y Hy. destruct (decide (j = i)) as [->|Hne].
    + assert (y = x) as -> by congruence. eexists. split; [apply list_lookup_insert; by apply lookup_lt_Some in Hl|].
      cbn [l_from l_to l_conn l_len]. rewrite seen_same, <- Hc. cbn [fst snd]. auto 10.
    + rewrite list_lookup_insert_ne by done. rewrite seen_other by done. by apply Hline.
  - destruct (wrote_one (l_conn l) c' e).
    + destruct Hw as (m & -> & Hm). rewrite Hm, Hf.
      apply (count_one ls from_p (fun x => x.1.1) W _ i x _ m ltac:(done) Hx Hsent).
      * intros j Hj. by rewrite decide_False.
      * by rewrite decide_True.
    + intros p. assert (E : sum_lines ls (from_p p) (fun j => volume (if decide (j = i) then w' else W j)) = sum_lines ls (from_p p) (fun j => volume (W j))).
      { apply sum_lines_ext. intros j y _. case_decide as Hd; [by rewrite Hd, Hw|done]. }
      rewrite E. apply Hsent.
  - destruct (read_one (l_conn l) c').
    + destruct Hrr as (m & -> & ->). rewrite Ht.
      apply (count_one ls to_p (fun x => x.1.2) R _ i x _ m ltac:(done) Hx Hrecv).
      * intros j Hj. by rewrite decide_False.
      * by rewrite decide_True.
    + intros p. assert (E : sum_lines ls (to_p p) (fun j => volume (if decide (j = i) then r' else R j)) = sum_lines ls (to_p p) (fun j => volume (R j))).
      { apply sum_lines_ext. intros j y _. case_decide as Hd; [by rewrite Hd, Hrr|done]. }
      rewrite E. apply Hrecv.
Qed.
Lemma tally_run ls es : exists W R, tally ls es W R.
Proof.
  induction es as [|e es (W & R & IH)] using rev_ind; [eexists _, _; apply tally_new|]. by eapply tally_step.
Qed.

(** * What the two ends of a line have counted *)
Lemma sc_written c len o w : sc c len o w -> written (c, o) w.
Proof.
  intros (part & rest & H1 & H2 & H3 & H4). split; cbn [fst snd]; [exists rest; done|].
  exists part. rewrite stream_frames by done. split; [done|].
  destruct (c_sp c) as [|r| |k|]; try (destruct H4 as [-> _]; apply unfinished_nil); [|done].
  destruct H4 as (m & Hm & Hr & Hb & _). by eapply unfinished_part.
Qed.

Lemma frames_same rd t ms x :
  Forall rgood rd -> Forall (fun m => (blen m < 2 ^ 32)%N) ms ->
  flat_map frame ms = flat_map rframe rd ++ t ++ x ->
  exists ms', ms = rd.*2 ++ ms' /\ flat_map rframe rd = flat_map frame rd.*2 /\ flat_map frame ms' = t ++ x.
Proof.
  intros Hrd Hms E. destruct (frames_agree rd t ms x Hrd Hms E) as [ms' ->]. exists ms'. split; [done|].
  rewrite flat_map_app' in E. apply app_inj_1 in E as [-> ->]; [done|].
  assert (Hl : forall rd, Forall rgood rd -> length (flat_map frame rd.*2) = length (flat_map rframe rd)).
  { clear. induction 1 as [|[h m] rd (Hh & _) _ IH]; [done|]. rewrite fmap_cons. cbn [flat_map snd]. cbn [fst] in Hh.
    rewrite !app_length, frame_len, IH. unfold rframe at 2. cbn [fst snd]. rewrite app_length, Hh. lia. }
  by apply Hl.
Qed.

Lemma rc_arrived cap i es r : rc (seen cap i es).1 (seen cap i es).2 r -> arrived (seen cap i es) r.
Proof.
  intros (Hb & rd & t & H1 & H2 & <- & H4 & H5 & H6).
  destruct (conn_inv cap (on_line i es)) as [[(d & rest & D1 & D2 & D3 & _) _] _].
  change (crun (conn_new cap) (on_line i es)) with (seen cap i es) in *.
  rewrite Hb, H1, <- !app_assoc in D2.
  destruct (frames_same rd t _ _ H2 D3 D2) as (ms' & Em & Er & Et).
  split; [by eapply prefix_app_l|]. exists t.
  assert (Hsmall : Forall (fun m => (blen m < 2 ^ 32)%N) rd.*2) by (rewrite Em in D3; by apply Forall_app in D3 as [? _]).
  rewrite stream_frames by done. rewrite <- Er. split; [done|].
  apply rpart_stop in H6 as [?|[Hl Hz]]; [by left|]. right. rewrite stream_one by done.
  destruct ms' as [|m ms']; [destruct t; [done|discriminate Et]|]. cbn [flat_map] in Et. unfold frame at 1 in Et. rewrite <- !app_assoc in Et.
  apply app_inj_1 in Et as [Et _]; [|by rewrite Hl]. rewrite <- Et in Hz. rewrite u32_roundtrip in Hz.
  - rewrite <- Et, Hz. done.
  - rewrite Em in D3. apply Forall_app in D3 as [_ D3]. by inversion D3.
Qed.

Lemma rest_all cap i es len w r :
  sc (seen cap i es).1 len (seen cap i es).2 w -> rc (seen cap i es).1 (seen cap i es).2 r -> at_rest (seen cap i es).1 ->
  w = sends (seen cap i es).2 /\ r = sends (seen cap i es).2.
Proof.
  intros (part & rest & S1 & S2 & S3 & S4) (Hb & rd & t & R1 & R2 & <- & R4 & R5 & R6) (A1 & A2 & A3 & A4 & A5).
  rewrite A2, A1 in S4. destruct S4 as [-> ->]. change (msgs []) with (@nil bytes) in S2. rewrite app_nil_r in S2.
  rewrite A5 in R6. destruct R6 as [-> _]. rewrite A4, app_nil_r in Hb. rewrite Hb, A3, R1, !app_nil_r in S1.
  split; [done|]. rewrite S2.
  destruct (frames_same rd [] w [] R2 S3 ltac:(by rewrite !app_nil_r)) as (ms' & -> & _ & E).
  destruct ms' as [|m ms']; [by rewrite app_nil_r|discriminate E].
Qed.

(** * Counters never fall *)
Definition gauges_ok (s : fleet) : Prop := (forall p, is_f64 (gauge (f_sent s) p)) /\ (forall p, is_f64 (gauge (f_recv s) p)).
Lemma gauge_add_ok g p x : (forall q, is_f64 (gauge g q)) -> forall q, is_f64 (gauge (gauge_add g p x) q) /\ (gauge g q <= gauge (gauge_add g p x) q)%N.
Proof.
  intros Hg q. rewrite gauge_add_at. case_decide as Hd; [|split; [done|lia]]. subst q. unfold f64_add.
  split; [apply f64_round_is|]. apply f64_round_ge; [done|lia].
Qed.
Lemma f_step_ok s ie : gauges_ok s -> gauges_ok (f_step s ie)
  /\ (forall p, gauge (f_sent s) p <= gauge (f_sent (f_step s ie)) p)%N /\ (forall p, gauge (f_recv s) p <= gauge (f_recv (f_step s ie)) p)%N.
Proof.
  intros [Hs Hr]. unfold f_step. destruct (f_lines s !! ie.1) as [l|]; [|split; [done|split; intros; lia]].
  cbv zeta. split; [split|split]; cbn [f_sent f_recv].
  - destruct (wrote_one _ _ _); [|done]. intros p. by apply gauge_add_ok.
  - destruct (read_one _ _); [|done]. intros p. by apply gauge_add_ok.
  - destruct (wrote_one _ _ _); [|intros; lia]. intros p. by apply gauge_add_ok.
  - destruct (read_one _ _); [|intros; lia]. intros p. by apply gauge_add_ok.
Qed.
Lemma never_falls ls es es' p :
  (gauge (f_sent (f_run ls es)) p <= gauge (f_sent (f_run ls (es ++ es'))) p)%N
  /\ (gauge (f_recv (f_run ls es)) p <= gauge (f_recv (f_run ls (es ++ es'))) p)%N.
Proof.
  assert (Hok : forall es, gauges_ok (f_run ls es)).
  { intros l. induction l as [|e l IH] using rev_ind.
    - split; intros q; exists 0%N, 0%N; by vm_compute.
    - rewrite f_run_snoc. by apply f_step_ok. }
  induction es' as [|e es' [IH1 IH2]] using rev_ind; [rewrite app_nil_r; lia|].
  rewrite app_assoc, f_run_snoc. destruct (f_step_ok (f_run ls (es ++ es')) e (Hok _)) as (_ & H1 & H2).
  specialize (H1 p). specialize (H2 p). lia.
Qed.

(** * Past 2^53 *)
Definition one_message (m : bytes) : list (nat * event) :=
  [(0, ESend m); (0, ETake); (0, EWrite (4 + length m)); (0, EFlushed)].
Definition lone : list (N * N * option nat) := [(0%N, 1%N, None)].
(** The line is idle, has passed on [ms], and the counter stands at [g]. *)
Definition standing (es : list (nat * event)) (ms : list bytes) (g : N) : Prop :=
  exists wire len recv, f_run lone es = Fleet [Line 0 1 (Conn None [] true SIdle [] wire (RHead []) [] true) len] recv ∅
    /\ gauge recv 0 = g /\ sends (seen None 0 es).2 = ms /\ passed (seen None 0 es).2 = flat_map frame ms
    /\ (seen None 0 es).1 = Conn None [] true SIdle [] wire (RHead []) [] true.

Lemma standing_one es ms g m :
  (blen m < 2 ^ 32)%N -> standing es ms g -> standing (es ++ one_message m) (ms ++ [m]) (f64_add g (blen m)).
Proof.
  intros Hm (wire & len & sent & Hrun & Hg & Hs & Hp & Hc). unfold one_message.
  change [(0, ESend m); (0, ETake); (0, EWrite (4 + length m)); (0, EFlushed)]
    with ([(0, ESend m)] ++ [(0, ETake)] ++ [(0, EWrite (4 + length m))] ++ [(0, EFlushed)]).
  exists (wire ++ frame m), (blen m), (gauge_add sent 0 (blen m)).
  assert (Ef : fits_u32 m = true) by (by apply N.ltb_lt).
  assert (Ed : drop (4 + length m) (frame m) = []) by (apply drop_ge; by rewrite frame_len).
  assert (Et : take (4 + length m) (frame m) = frame m) by (apply take_ge; by rewrite frame_len).
  set (c0 := Conn None [] true SIdle [] wire (RHead []) [] true) in *.
  set (c1 := Conn None [IMsg m] true SIdle [] wire (RHead []) [] true).
  set (c2 := Conn None [] true (SWrite (frame m)) [] wire (RHead []) [] true).
  set (c3 := Conn None [] true SFlush (frame m) wire (RHead []) [] true).
  set (c4 := Conn None [] true SIdle [] (wire ++ frame m) (RHead []) [] true).
  assert (S1 : cstep c0 (ESend m) = (c1, [OSendOk m])) by done.
  assert (S2 : cstep c1 ETake = (c2, [])).
  { unfold c1. cbn [cstep c_sp c_sq]. by rewrite Ef. }
  assert (S3 : cstep c2 (EWrite (4 + length m)) = (c3, [])).
  { unfold c2. cbn [cstep c_sp]. rewrite Ed, Et. done. }
  assert (S4 : cstep c3 EFlushed = (c4, [OPassed (frame m)])) by done.
  split.
  - rewrite !app_assoc, !f_run_snoc, Hrun.
    assert (F1 : f_step (Fleet [Line 0 1 c0 len] sent ∅) (0, ESend m) = Fleet [Line 0 1 c1 len] sent ∅) by done.
    assert (F2 : f_step (Fleet [Line 0 1 c1 len] sent ∅) (0, ETake) = Fleet [Line 0 1 c2 (blen m)] sent ∅).
    { unfold f_step. cbn [f_lines fst snd lookup list_lookup l_conn l_from l_to l_len]. rewrite S2. done. }
    assert (F3 : f_step (Fleet [Line 0 1 c2 (blen m)] sent ∅) (0, EWrite (4 + length m)) = Fleet [Line 0 1 c3 (blen m)] (gauge_add sent 0 (blen m)) ∅).
    { unfold f_step. cbn [f_lines fst snd lookup list_lookup l_conn l_from l_to l_len]. rewrite S3. done. }
    rewrite F1, F2, F3. done.
  - split; [rewrite gauge_add_at, decide_True by done; by rewrite Hg|].
    rewrite !app_assoc, !seen_same, Hc. fold c0. rewrite S1. cbn [fst snd]. rewrite S2. cbn [fst snd]. rewrite S3. cbn [fst snd]. rewrite S4. cbn [fst snd].
    rewrite !sends_app, !passed_app, Hs, Hp. cbn [sends passed omap list_omap flat_map]. rewrite !app_nil_r, flat_map_app'. cbn [flat_map]. by rewrite app_nil_r.
Qed.

Definition many (m : bytes) (k : nat) : list (nat * event) := concat (replicate k (one_message m)).
Lemma many_S m k : many m (S k) = many m k ++ one_message m.
Proof.
  unfold many. rewrite replicate_S_end, concat_app. cbn [concat]. by rewrite app_nil_r.
Qed.
Lemma standing_many es ms g m k :
  (blen m < 2 ^ 32)%N -> standing es ms g -> (g + N.of_nat k * blen m <= 2 ^ 53)%N ->
  standing (es ++ many m k) (ms ++ replicate k m) (g + N.of_nat k * blen m).
Proof.
  intros Hm Hst. induction k as [|k IH]; intros Hle.
  - unfold many. cbn [replicate concat]. rewrite !app_nil_r. replace (g + N.of_nat 0 * blen m)%N with g by lia. done.
  - rewrite many_S, replicate_S_end, !app_assoc.
    assert (E : (g + N.of_nat (S k) * blen m = f64_add (g + N.of_nat k * blen m) (blen m))%N).
    { unfold f64_add. rewrite f64_exact; lia. }
    rewrite E. apply standing_one; [done|]. apply IH. lia.
Qed.
Lemma standing_stuck es ms x k :
  standing es ms (2 ^ 53) -> standing (es ++ many [x] k) (ms ++ replicate k [x]) (2 ^ 53).
Proof.
  intros Hst. induction k as [|k IH].
  - unfold many. cbn [replicate concat]. by rewrite !app_nil_r.
  - rewrite many_S, replicate_S_end, !app_assoc.
    change (2 ^ 53)%N with (f64_add (2 ^ 53) (blen [x])) at 1. apply standing_one; [by vm_compute|]. exact IH.
Qed.
Lemma volume_replicate m k : volume (replicate k m) = (N.of_nat k * blen m)%N.
Proof. induction k as [|k IH]; [done|]. cbn [replicate]. change (volume (m :: replicate k m)) with (blen m + volume (replicate k m))%N. rewrite IH. lia. Qed.

Lemma stuck n : exists es ms,
  sends (seen None 0 es).2 = ms /\ passed (seen None 0 es).2 = flat_map frame ms
  /\ Forall (fun m => (blen m <= size_limit)%N) ms
  /\ volume ms = (2 ^ 53 + N.of_nat n)%N /\ gauge (f_sent (f_run lone es)) 0 = (2 ^ 53)%N.
Proof.
  assert (Hbig : exists m : bytes, blen m = (2 ^ 28)%N).
  { exists (replicate (N.to_nat (2 ^ 28)) 0%N). unfold blen. rewrite replicate_length. apply N2Nat.id. }
  destruct Hbig as [m Hm].
  assert (Hk : exists k, N.of_nat k = (2 ^ 25)%N) by (exists (N.to_nat (2 ^ 25)); apply N2Nat.id).
  destruct Hk as [k Hk].
  assert (H0 : standing [] [] 0). { exists [], 0%N, ∅. done. }
  assert (E : (0 + N.of_nat k * blen m = 2 ^ 53)%N) by (rewrite Hk, Hm; by vm_compute).
  assert (H1 : standing ([] ++ many m k) ([] ++ replicate k m) (2 ^ 53)).
  { rewrite <- E. apply standing_many; [rewrite Hm; by vm_compute|done|]. rewrite E. reflexivity. }
  pose proof (standing_stuck _ _ 7%N n H1) as (wire & len & sent & Hrun & Hg & Hs & Hp & _).
  eexists _, _. split; [exact Hs|]. split; [exact Hp|]. split; [|split].
  - apply Forall_app. split; [apply Forall_app; split; [constructor|]|]; apply Forall_replicate; [rewrite Hm|]; by vm_compute.
  - rewrite !volume_app, !volume_replicate. rewrite <- E. change (blen [7%N]) with 1%N. change (volume []) with 0%N. lia.
  - rewrite Hrun. exact Hg.
Qed.
