(** Proofs about framing and connections. *)
From stdpp Require Import list gmap.
From Coq Require Import NArith Lia.
From Verif Require Import IdModel WireModel WireSpec.

(** * Lengths *)

Lemma max_eq : max_message_size = size_limit.
Proof. reflexivity. Qed.

Lemma u32_roundtrip n : (n < 2 ^ 32)%N -> be_u32 (u32_be n) = n.
Proof.
  intros H. unfold be_u32, u32_be. cbn [fold_left].
  change (2 ^ 32)%N with 4294967296%N in H.
  change (2 ^ 24)%N with 16777216%N. change (2 ^ 16)%N with 65536%N.
  change (2 ^ 8)%N with 256%N.
  rewrite (N.mod_small (n / 16777216) 256).
  2:{ apply N.div_lt_upper_bound; lia. }
  pose proof (N.div_mod n 256 ltac:(lia)) as H0.
  pose proof (N.div_mod (n / 256) 256 ltac:(lia)) as H1.
  pose proof (N.div_mod (n / 65536) 256 ltac:(lia)) as H2.
  rewrite N.div_div in H1 by lia. rewrite N.div_div in H2 by lia.
  change (256 * 256)%N with 65536%N in H1. change (65536 * 256)%N with 16777216%N in H2.
  lia.
Qed.

Lemma u32_be_len n : length (u32_be n) = 4.
Proof. reflexivity. Qed.

Lemma frame_len m : length (frame m) = 4 + length m.
Proof. reflexivity. Qed.

Lemma blen_nat m : N.to_nat (blen m) = length m.
Proof. unfold blen. lia. Qed.

Lemma stream_frames ms :
  Forall (fun m => (blen m < 2 ^ 32)%N) ms -> stream_of ms = flat_map frame ms.
Proof.
  induction 1 as [|m ms H _ IH]; [reflexivity|].
  cbn [stream_of flat_map]. unfold stream_of in IH. rewrite IH. unfold frame, u32_be.
  change (2 ^ 24)%N with 16777216%N. change (2 ^ 16)%N with 65536%N.
  change (2 ^ 8)%N with 256%N. change (2 ^ 32)%N with 4294967296%N in H.
  rewrite (N.mod_small (blen m / 16777216) 256); [reflexivity|].
  apply N.div_lt_upper_bound; lia.
Qed.

(** * Reading in pieces is reading at once *)

Lemma rtake_app p l1 l2 :
  length (l1 ++ l2) <= rwants p ->
  l2 <> [] ->
  rtake p (l1 ++ l2) = rtake (rtake p l1) l2.
Proof.
  intros Hl H2. rewrite app_length in Hl.
  assert (0 < length l2) by (destruct l2; [done|cbn; lia]).
  destruct p as [got|n|n got|m|]; cbn [rtake rwants] in *; [|lia|  |reflexivity|reflexivity].
  - cbn [rsettle]. rewrite (decide_False (P := length (got ++ l1) = 4))
      by (rewrite app_length; lia).
    cbn [rtake rsettle]. rewrite app_assoc. reflexivity.
  - cbn [rsettle]. rewrite (decide_False (P := length (got ++ l1) = N.to_nat n))
      by (rewrite app_length; lia).
    cbn [rtake rsettle]. rewrite app_assoc. reflexivity.
Qed.

(** * Whole streams *)

Lemma fold_rbyte_app s l1 l2 : fold_left rbyte (l1 ++ l2) s = fold_left rbyte l2 (fold_left rbyte l1 s).
Proof. apply fold_left_app. Qed.

(** Reading part of a header. *)
Lemma read_head acc got l :
  length got + length l < 4 ->
  fold_left rbyte l (RHead got, acc) = (RHead (got ++ l), acc).
Proof.
  revert got. induction l as [|b l IH]; intros got Hl; cbn [fold_left].
  - by rewrite app_nil_r.
  - cbn [length] in Hl. unfold rbyte at 2. cbn [fst snd rtake rsettle].
    rewrite decide_False by (rewrite app_length; cbn; lia).
    rewrite IH by (rewrite app_length; cbn; lia). by rewrite <- app_assoc.
Qed.

Lemma read_body acc n got l :
  length got + length l < N.to_nat n ->
  fold_left rbyte l (RBody n got, acc) = (RBody n (got ++ l), acc).
Proof.
  revert got. induction l as [|b l IH]; intros got Hl; cbn [fold_left].
  - by rewrite app_nil_r.
  - cbn [length] in Hl. unfold rbyte at 2. cbn [fst snd rtake rsettle].
    rewrite decide_False by (rewrite app_length; cbn; lia).
    rewrite IH by (rewrite app_length; cbn; lia). by rewrite <- app_assoc.
Qed.

Lemma read_header acc n :
  (n <= max_message_size)%N -> (0 < n)%N ->
  fold_left rbyte (u32_be n) (RHead [], acc) = (RBody n [], acc).
Proof.
  intros Hn H0.
  assert (Hn32 : (n < 2 ^ 32)%N).
  { change max_message_size with 536870911%N in Hn. change (2 ^ 32)%N with 4294967296%N. lia. }
  pose proof (u32_roundtrip n Hn32) as Hr.
  unfold u32_be in *. cbn [fold_left].
  unfold rbyte. cbn [fst snd rtake rsettle app length].
  repeat (rewrite (decide_False (P := 1 = 4)) by lia).
  repeat (rewrite (decide_False (P := 2 = 4)) by lia).
  repeat (rewrite (decide_False (P := 3 = 4)) by lia).
  cbn [fst snd rtake rsettle app length].
  repeat (rewrite (decide_False (P := 2 = 4)) by lia).
  cbn [fst snd rtake rsettle app length].
  repeat (rewrite (decide_False (P := 3 = 4)) by lia).
  cbn [fst snd rtake rsettle app length].
  rewrite (decide_True (P := 4 = 4)) by reflexivity.
  rewrite Hr. rewrite (proj2 (N.leb_le _ _) Hn).
  cbn [length]. rewrite decide_False by lia. reflexivity.
Qed.

Lemma read_header_0 acc :
  fold_left rbyte (u32_be 0) (RHead [], acc) = (RHead [], acc ++ [[]]).
Proof. reflexivity. Qed.

Lemma read_frame acc m :
  (blen m <= max_message_size)%N ->
  fold_left rbyte (frame m) (RHead [], acc) = (RHead [], acc ++ [m]).
Proof.
  intros Hm. unfold frame. rewrite fold_rbyte_app.
  destruct (decide (m = [])) as [->|Hne].
  - change (blen []) with 0%N. rewrite read_header_0. reflexivity.
  - destruct (exists_last Hne) as [m' [b ->]].
    rewrite read_header; [|done|unfold blen; rewrite app_length; cbn; lia].
    rewrite fold_rbyte_app.
    assert (Hl : N.to_nat (blen (m' ++ [b])) = S (length m')).
    { rewrite blen_nat, app_length. cbn. lia. }
    rewrite read_body by (rewrite Hl; cbn; lia).
    cbn [app fold_left]. unfold rbyte. cbn [fst snd rtake rsettle].
    rewrite decide_True by (rewrite Hl, app_length; cbn; lia). reflexivity.
Qed.

Lemma read_frames acc ms :
  Forall (fun m => (blen m <= max_message_size)%N) ms ->
  fold_left rbyte (flat_map frame ms) (RHead [], acc) = (RHead [], acc ++ ms).
Proof.
  intros H. revert acc. induction H as [|m ms Hm _ IH]; intros acc; cbn [flat_map].
  - by rewrite app_nil_r.
  - rewrite fold_rbyte_app, read_frame by done. rewrite IH, <- app_assoc. reflexivity.
Qed.

(** Part of a frame yields no message and leaves a read unfinished. *)
Lemma read_part acc m k :
  (blen m <= max_message_size)%N -> k < length (frame m) ->
  exists p, fold_left rbyte (take k (frame m)) (RHead [], acc) = (p, acc)
            /\ 0 < rwants p.
Proof.
  intros Hm Hk. rewrite frame_len in Hk. unfold frame.
  destruct (decide (k < 4)) as [Hk4|Hk4].
  - rewrite take_app_le by (rewrite u32_be_len; lia).
    eexists. rewrite read_head.
    + split; [reflexivity|]. cbn [rwants app]. rewrite take_length, u32_be_len. lia.
    + cbn [length]. rewrite take_length, u32_be_len. lia.
  - rewrite take_app_ge by (rewrite u32_be_len; lia). rewrite u32_be_len.
    rewrite fold_rbyte_app.
    assert (0 < length m) by lia.
    rewrite read_header; [|done|unfold blen; lia].
    eexists. rewrite read_body.
    + split; [reflexivity|]. cbn [rwants app]. rewrite take_length, blen_nat. lia.
    + cbn [length]. rewrite take_length, blen_nat. lia.
Qed.

Lemma read_cut acc ms k :
  Forall (fun m => (blen m <= max_message_size)%N) ms ->
  k < length (flat_map frame ms) ->
  exists j p,
    fold_left rbyte (take k (flat_map frame ms)) (RHead [], acc) = (p, acc ++ take j ms)
    /\ 0 < rwants p
    /\ j < length ms
    /\ length (flat_map frame (take j ms)) <= k < length (flat_map frame (take (S j) ms)).
Proof.
  intros H. revert acc k. induction H as [|m ms Hm _ IH]; intros acc k Hk; cbn [flat_map] in *.
  - cbn in Hk. lia.
  - rewrite app_length in Hk.
    destruct (decide (k < length (frame m))) as [Hl|Hl].
    + rewrite take_app_le by lia.
      destruct (read_part acc m k Hm Hl) as [p [Hp Hw]].
      exists 0, p. cbn [take]. rewrite app_nil_r. split_and!; try done.
      * cbn. lia.
      * cbn. lia.
      * cbn [flat_map]. rewrite take_0. cbn [flat_map]. rewrite app_nil_r. exact Hl.
    + rewrite take_app_ge by lia. rewrite fold_rbyte_app, read_frame by done.
      destruct (IH (acc ++ [m]) (k - length (frame m)) ltac:(lia))
        as (j & p & Hp & Hw & Hj & Hlen).
      exists (S j), p. rewrite Hp. cbn [firstn]. rewrite <- app_assoc.
      split_and!; try done; cbn [length flat_map]; try lia.
      * rewrite app_length. lia.
      * cbn [firstn] in *. cbn [flat_map]. rewrite app_length. lia.
Qed.

(** * The invariant of a connection *)

Lemma flat_map_app' {A B} (f : A -> list B) l1 l2 :
  flat_map f (l1 ++ l2) = flat_map f l1 ++ flat_map f l2.
Proof. apply flat_map_app. Qed.

(** Entries accepted into the queue, in order. *)
Definition items (o : list out) : list item :=
  omap (fun x => match x with
                 | OSendOk m => Some (IMsg m) | OSoftStart k => Some (ISoft k)
                 | _ => None end) o.
Definition msgs (q : list item) : list bytes :=
  omap (fun i => match i with IMsg m => Some m | ISoft _ => None end) q.

Lemma items_app o1 o2 : items (o1 ++ o2) = items o1 ++ items o2.
Proof. apply omap_app. Qed.
Lemma msgs_app q1 q2 : msgs (q1 ++ q2) = msgs q1 ++ msgs q2.
Proof. apply omap_app. Qed.
Lemma sends_app o1 o2 : sends (o1 ++ o2) = sends o1 ++ sends o2.
Proof. apply omap_app. Qed.
Lemma recvs_app o1 o2 : recvs (o1 ++ o2) = recvs o1 ++ recvs o2.
Proof. apply omap_app. Qed.
Lemma passed_app o1 o2 : passed (o1 ++ o2) = passed o1 ++ passed o2.
Proof. apply flat_map_app'. Qed.
Lemma reads_app o1 o2 : reads (o1 ++ o2) = reads o1 ++ reads o2.
Proof. apply flat_map_app'. Qed.
Lemma soft_starts_app o1 o2 : soft_starts (o1 ++ o2) = soft_starts o1 ++ soft_starts o2.
Proof. apply omap_app. Qed.

Lemma msgs_items o : msgs (items o) = sends o.
Proof.
  induction o as [|x o IH]; [reflexivity|].
  destruct x; cbn in *; unfold items, msgs, sends in *; cbn; rewrite ?IH; try reflexivity;
    exact IH.
Qed.

(** What the sender task still has in hand. *)
Definition in_hand (sp : sphase) : list item :=
  match sp with SSoft k => [ISoft k] | _ => [] end.
Definition unwritten (sp : sphase) : bytes :=
  match sp with SWrite r => r | _ => [] end.

Record sinv (c : conn) (o : list out) : Prop := SInv {
  si_done : exists (d : list item) (rest : bytes),
    d `prefix_of` items o
    /\ flat_map frame (msgs d) = passed o ++ c_wbuf c ++ rest
    /\ Forall (fun m => (blen m < 2 ^ 32)%N) (msgs d)
    /\ (c_sp c <> SStop ->
        items o = d ++ in_hand (c_sp c) ++ c_sq c /\ rest = unwritten (c_sp c));
  si_buf : match c_sp c with SIdle | SSoft _ => c_wbuf c = [] | _ => True end }.

(** Messages read: header and body. *)
Definition rframe (hm : bytes * bytes) : bytes := hm.1 ++ hm.2.
Definition rgood (hm : bytes * bytes) : Prop :=
  length hm.1 = 4 /\ be_u32 hm.1 = blen hm.2 /\ (blen hm.2 <= max_message_size)%N.

(** What the reader has read since the last complete message, by phase; [pend] is the
    message completed and not handed over. *)
Definition rtail (p : rphase) (pend : list bytes) (t : bytes) : Prop :=
  match p with
  | RHead got => pend = [] /\ t = got /\ length got < 4
  | RWait n => pend = [] /\ length t = 4 /\ be_u32 t = n /\ (n <= max_message_size)%N
  | RBody n got => pend = [] /\ (n <= max_message_size)%N /\ length got < N.to_nat n /\
      exists h, t = h ++ got /\ length h = 4 /\ be_u32 h = n
  | RPush m => pend = [m] /\ t = []
  | RStop => True
  end.

Record rinv (c : conn) (o : list out) : Prop := RInv {
  ri_bytes : passed o = reads o ++ c_wire c;
  ri_done : exists (rd : list (bytes * bytes)) (t : bytes) (pend : list bytes),
    reads o = flat_map rframe rd ++ t
    /\ Forall rgood rd
    /\ recvs o ++ c_rq c ++ pend `prefix_of` rd.*2
    /\ rtail (c_rp c) pend t
    /\ (c_rp c <> RStop -> recvs o ++ c_rq c ++ pend = rd.*2) }.

(** Frames read are frames written. *)
Lemma frames_agree rd t ms x :
  Forall rgood rd -> Forall (fun m => (blen m < 2 ^ 32)%N) ms ->
  flat_map frame ms = flat_map rframe rd ++ t ++ x ->
  rd.*2 `prefix_of` ms.
Proof.
  intros Hrd. revert ms. induction Hrd as [|[h m] rd (Hh & Hb & Hm) _ IH]; intros ms Hms E.
  - exists ms. reflexivity.
  - destruct Hms as [|m' ms Hm' Hms].
    { cbn in E. destruct h; cbn in *; [lia|discriminate]. }
    cbn [flat_map] in E. unfold rframe at 1, frame at 1 in E. cbn [fst snd] in *.
    rewrite <- !app_assoc in E.
    apply app_inj_1 in E as [Eh E]; [|rewrite Hh; reflexivity].
    subst h. rewrite u32_roundtrip in Hb by done.
    apply app_inj_1 in E as [<- E]; [|unfold blen in Hb; lia].
    destruct (IH ms Hms E) as [k ->]. cbn. by exists k.
Qed.

Lemma sinv_new cap : sinv (conn_new cap) [].
Proof.
  constructor; [|reflexivity].
  exists [], []. split_and!; [exists []; reflexivity|reflexivity|constructor|].
  intros _. split; reflexivity.
Qed.

Lemma rinv_new cap : rinv (conn_new cap) [].
Proof.
  constructor; [reflexivity|].
  exists [], [], []. split_and!;
    [reflexivity|constructor|exists []; reflexivity| |intros _; reflexivity].
  split_and!; [reflexivity|reflexivity|cbn; lia].
Qed.

(** Outputs that matter to neither invariant. *)
Lemma soft_errs_quiet q :
  items (soft_errs q) = [] /\ passed (soft_errs q) = [] /\ reads (soft_errs q) = []
  /\ recvs (soft_errs q) = [].
Proof.
  induction q as [|[m|k] q (IH1 & IH2 & IH3 & IH4)]; cbn; split_and!; auto.
Qed.

Lemma sstop_sinv c o : sinv c o -> sinv (sstop c).1 (o ++ (sstop c).2).
Proof.
  intros [(d & rest & H1 & H2 & H3 & H4) Hb].
  destruct (soft_errs_quiet (c_sq c)) as (Q1 & Q2 & Q3 & Q4).
  constructor; [|exact I].
  exists d, rest. cbn [sstop fst snd c_wbuf c_sp].
  rewrite items_app, passed_app, items_app, passed_app, Q1, Q2.
  assert (items (match c_sp c with SSoft k => [OSoftErr k] | _ => [] end) = []) as ->
    by (destruct (c_sp c); reflexivity).
  assert (passed (match c_sp c with SSoft k => [OSoftErr k] | _ => [] end) = []) as ->
    by (destruct (c_sp c); reflexivity).
  rewrite !app_nil_r. split_and!; try done.
Qed.

Lemma sstop_rinv c o : rinv c o -> rinv (sstop c).1 (o ++ (sstop c).2).
Proof.
  intros [Hb (rd & t & pend & H1 & H2 & H3 & H4 & H5)].
  destruct (soft_errs_quiet (c_sq c)) as (Q1 & Q2 & Q3 & Q4).
  assert (P0 : forall sp, passed (match sp with SSoft k => [OSoftErr k] | _ => [] end) = [])
    by (intros []; reflexivity).
  assert (R0 : forall sp, reads (match sp with SSoft k => [OSoftErr k] | _ => [] end) = [])
    by (intros []; reflexivity).
  assert (V0 : forall sp, recvs (match sp with SSoft k => [OSoftErr k] | _ => [] end) = [])
    by (intros []; reflexivity).
  constructor; cbn [sstop fst snd c_wire c_rp c_rq].
  - rewrite passed_app, reads_app, passed_app, reads_app, Q2, Q3, P0, R0, !app_nil_r. exact Hb.
  - exists rd, t, pend.
    rewrite reads_app, recvs_app, reads_app, recvs_app, Q3, Q4, R0, V0, !app_nil_r.
    split_and!; done.
Qed.

Lemma snoc_quiet_s c c' o x :
  sinv c o ->
  c_wbuf c' = c_wbuf c -> c_sp c' = c_sp c -> c_sq c' = c_sq c ->
  items x = [] -> passed x = [] -> sinv c' (o ++ x).
Proof.
  intros [(d & rest & H1 & H2 & H3 & H4) Hb] E1 E2 E3 X1 X2.
  constructor.
  - exists d, rest. rewrite items_app, passed_app, X1, X2, !app_nil_r, E1, E2, E3.
    split_and!; done.
  - by rewrite E1, E2.
Qed.

Lemma snoc_quiet_r c c' o x :
  rinv c o ->
  c_wire c' = c_wire c -> c_rp c' = c_rp c -> c_rq c' = c_rq c ->
  reads x = [] -> passed x = [] -> recvs x = [] -> rinv c' (o ++ x).
Proof.
  intros [Hb (rd & t & pend & H1 & H2 & H3 & H4 & H5)] E1 E2 E3 X1 X2 X3.
  constructor.
  - rewrite passed_app, reads_app, X1, X2, !app_nil_r, E1. done.
  - exists rd, t, pend. rewrite reads_app, recvs_app, X1, X3, !app_nil_r, E2, E3.
    split_and!; done.
Qed.

(** * The sender's half *)

Lemma take_drop_app {A} n (l r : list A) : (take n l ++ drop n l ++ r) = l ++ r.
Proof. rewrite app_assoc, take_drop. reflexivity. Qed.

Lemma cstep_sinv c e o : sinv c o -> sinv (cstep c e).1 (o ++ (cstep c e).2).
Proof.
  intros Hinv.
  destruct e as [m|k| |n| |n| | |n| | | | | |]; cbn [cstep].
  - (* ESend *)
    unfold enqueue. destruct (c_sopen c); [destruct (room _ _)|]; cbn [fst snd].
    2-3: eapply snoc_quiet_s; eauto.
    destruct Hinv as [(d & rest & H1 & H2 & H3 & H4) Hb]. constructor; [|exact Hb].
    exists d, rest. cbn [c_wbuf c_sp c_sq]. rewrite items_app, passed_app.
    change (items [OSendOk m]) with [IMsg m]. change (passed [OSendOk m]) with (@nil N).
    rewrite app_nil_r. split_and!; try done.
    + by apply prefix_app_r.
    + intros Hs. destruct (H4 Hs) as [-> ->]. rewrite <- !app_assoc. done.
  - (* ESoft *)
    unfold enqueue. destruct (c_sopen c); [destruct (room _ _)|]; cbn [fst snd].
    2-3: eapply snoc_quiet_s; eauto.
    destruct Hinv as [(d & rest & H1 & H2 & H3 & H4) Hb]. constructor; [|exact Hb].
    exists d, rest. cbn [c_wbuf c_sp c_sq]. rewrite items_app, passed_app.
    change (items [OSoftStart k]) with [ISoft k]. change (passed [OSoftStart k]) with (@nil N).
    rewrite app_nil_r. split_and!; try done.
    + by apply prefix_app_r.
    + intros Hs. destruct (H4 Hs) as [-> ->]. rewrite <- !app_assoc. done.
  - (* ETake *)
    destruct (c_sp c) eqn:Esp; try (cbn [fst snd]; rewrite app_nil_r; exact Hinv).
    destruct (c_sq c) as [|[m|k] q] eqn:Eq.
    + cbn [fst snd]. rewrite app_nil_r. exact Hinv.
    + destruct Hinv as [(d & rest & H1 & H2 & H3 & H4) Hb].
      rewrite Esp in *. destruct (H4 ltac:(done)) as [Hi ->]. cbn in Hi, Hb, H2.
      rewrite Eq in Hi.
      destruct (fits_u32 m) eqn:Ef.
      * cbn [fst snd set_sp c_cap c_sq c_sopen c_wbuf c_wire c_rp c_rq c_ropen].
        rewrite app_nil_r. constructor; [|exact I].
        exists (d ++ [IMsg m]), (frame m). cbn [c_wbuf c_sp c_sq unwritten in_hand].
        rewrite msgs_app. change (msgs [IMsg m]) with [m].
        rewrite flat_map_app'. cbn [flat_map]. rewrite app_nil_r.
        apply N.ltb_lt in Ef.
        split_and!.
        -- rewrite Hi. exists q. by rewrite <- app_assoc.
        -- rewrite H2, Hb, !app_nil_r. reflexivity.
        -- apply Forall_app. split; [exact H3|by constructor].
        -- intros _. rewrite Hi, <- app_assoc. done.
      * match goal with |- sinv (sstop ?cc).1 _ => set (c' := cc) end.
        apply sstop_sinv with (c := set_sp c' SStop).
        constructor; [|exact I].
        exists d, []. cbn. split_and!; try done.
    + destruct Hinv as [(d & rest & H1 & H2 & H3 & H4) Hb].
      rewrite Esp in *. destruct (H4 ltac:(done)) as [Hi ->]. cbn in Hi, Hb, H2.
      rewrite Eq in Hi. cbn [fst snd]. rewrite app_nil_r.
      constructor; [|exact Hb].
      exists d, []. cbn [c_wbuf c_sp c_sq]. split_and!; try done.
  - (* EWrite *)
    destruct (c_sp c) eqn:Esp; try (cbn [fst snd]; rewrite app_nil_r; exact Hinv).
    destruct Hinv as [(d & rest0 & H1 & H2 & H3 & H4) Hb].
    rewrite Esp in *. destruct (H4 ltac:(done)) as [Hi ->]. cbn [unwritten in_hand app] in *.
    cbn [fst snd]. rewrite app_nil_r.
    constructor; cbn [c_wbuf c_sp c_sq].
    + exists d, (drop n rest). split_and!; try done.
      * rewrite H2, <- app_assoc, take_drop. reflexivity.
      * intros _. destruct (drop n rest); done.
    + by destruct (drop n rest).
  - (* EWriteFail *)
    destruct (c_sp c) eqn:Esp; try (cbn [fst snd]; rewrite app_nil_r; exact Hinv);
      apply sstop_sinv; exact Hinv.
  - (* EPass *)
    destruct Hinv as [(d & rest & H1 & H2 & H3 & H4) Hb]. cbn [fst snd].
    constructor; cbn [c_wbuf c_sp c_sq].
    + exists d, rest. rewrite items_app, passed_app.
      change (items [OPassed (take n (c_wbuf c))]) with (@nil item).
      cbn [passed flat_map]. rewrite !app_nil_r. split_and!; try done.
      rewrite H2, <- app_assoc, (app_assoc (take n _)), take_drop. reflexivity.
    + destruct (c_sp c); try done; rewrite Hb; by destruct n.
  - (* EFlushed *)
    destruct (c_sp c) eqn:Esp; try (cbn [fst snd]; rewrite app_nil_r; exact Hinv).
    destruct Hinv as [(d & rest & H1 & H2 & H3 & H4) Hb]. cbn [fst snd].
    rewrite Esp in *. destruct (H4 ltac:(done)) as [Hi ->]. cbn [unwritten in_hand app] in *.
    constructor; [|reflexivity].
    exists d, []. cbn [c_wbuf c_sp c_sq]. rewrite items_app, passed_app.
    change (items [OPassed (c_wbuf c)]) with (@nil item).
    cbn [passed flat_map]. rewrite !app_nil_r in *. split_and!; try done.
  - (* ESoftDone *)
    destruct (c_sp c) eqn:Esp; try (cbn [fst snd]; rewrite app_nil_r; exact Hinv).
    destruct Hinv as [(d & rest & H1 & H2 & H3 & H4) Hb]. cbn [fst snd].
    rewrite Esp in *. destruct (H4 ltac:(done)) as [Hi ->]. cbn [unwritten in_hand app] in *.
    constructor; [|exact Hb].
    exists (d ++ [ISoft k]), []. cbn [set_sp c_wbuf c_sp c_sq]. rewrite items_app, passed_app.
    change (items [OSoftOk k]) with (@nil item). change (passed [OSoftOk k]) with (@nil N).
    rewrite msgs_app. change (msgs [ISoft k]) with (@nil bytes).
    rewrite !app_nil_r in *. split_and!; try done.
    + rewrite Hi. exists (c_sq c). by rewrite <- app_assoc.
    + intros _. rewrite Hi, <- app_assoc. done.
  - (* EReadSome *)
    cbn [fst snd]. eapply snoc_quiet_s; eauto; cbn [items omap list_omap passed flat_map];
      repeat case_match; reflexivity.
  - (* EReadFail *)
    destruct (c_rp c); cbn [fst snd]; eapply snoc_quiet_s; eauto.
  - destruct (c_rp c); cbn [fst snd]; eapply snoc_quiet_s; eauto.
  - destruct (c_rp c); [..|destruct (c_ropen c); [destruct (room _ _)|]|];
      cbn [fst snd]; eapply snoc_quiet_s; eauto.
  - destruct (c_rq c); cbn [fst snd]; eapply snoc_quiet_s; eauto; by destruct (c_rp c).
  - apply sstop_sinv; exact Hinv.
  - cbn [fst snd]. eapply snoc_quiet_s; eauto.
Qed.

(** * The receiver's half *)


Lemma rtake_cases p l pend t :
  rtail p pend t -> p <> RStop -> length l <= rwants p -> l <> [] ->
  match rtake p l with
  | RPush m => exists h, t ++ l = h ++ m /\ length h = 4 /\ be_u32 h = blen m /\
                 (blen m <= max_message_size)%N /\ pend = []
  | RStop => True
  | p' => rtail p' pend (t ++ l)
  end.
Proof.
  intros Ht Hs Hl Hne.
  assert (0 < length l) by (destruct l; [done|cbn; lia]).
  destruct p as [got|n|n got|m|]; cbn [rwants rtail] in *; try lia.
  - destruct Ht as (-> & -> & Hg). cbn [rtake rsettle].
    destruct (decide (length (got ++ l) = 4)) as [E|E].
    + destruct (be_u32 (got ++ l) <=? max_message_size)%N eqn:Em; [|exact I].
      apply N.leb_le in Em. cbn [rtail]. auto.
    + cbn [rtail]. rewrite app_length in *. split_and!; [done|done|lia].
  - destruct Ht as (-> & Hn & Hg & h & -> & Hh & Hb). cbn [rtake rsettle].
    destruct (decide (length (got ++ l) = N.to_nat n)) as [E|E].
    + assert (blen (got ++ l) = n) as Eb by (unfold blen; lia).
      exists h. rewrite Eb. rewrite <- app_assoc. auto.
    + cbn [rtail]. rewrite app_length in *. split_and!; [done|done|lia|].
      exists h. rewrite <- app_assoc. auto.
Qed.

Lemma rtake_nil p pend t : rtail p pend t -> rtake p [] = p.
Proof.
  destruct p as [got|n|n got|m|]; cbn [rtail rtake]; try done.
  - intros (_ & _ & H). cbn [rsettle]. rewrite app_nil_r.
    rewrite decide_False by lia. done.
  - intros (_ & _ & H & _). cbn [rsettle]. rewrite app_nil_r.
    rewrite decide_False by lia. done.
Qed.

Lemma cstep_rinv c e o : rinv c o -> rinv (cstep c e).1 (o ++ (cstep c e).2).
Proof.
  intros Hinv.
  destruct e as [m|k| |n| |n| | |n| | | | | |]; cbn [cstep].
  - unfold enqueue. destruct (c_sopen c); [destruct (room _ _)|]; cbn [fst snd];
      eapply snoc_quiet_r; eauto.
  - unfold enqueue. destruct (c_sopen c); [destruct (room _ _)|]; cbn [fst snd];
      eapply snoc_quiet_r; eauto.
  - destruct (c_sp c) eqn:Esp; try (cbn [fst snd]; rewrite app_nil_r; exact Hinv).
    destruct (c_sq c) as [|[m|k] q] eqn:Eq; [|destruct (fits_u32 m)|];
      [| |apply sstop_rinv|]; cbn [fst snd];
      try (eapply snoc_quiet_r; eauto; done).
    destruct Hinv as [A B]. constructor; [exact A|exact B].
  - destruct (c_sp c); cbn [fst snd]; eapply snoc_quiet_r; eauto.
  - destruct (c_sp c); try (cbn [fst snd]; rewrite app_nil_r; exact Hinv);
      apply sstop_rinv; exact Hinv.
  - (* EPass *)
    destruct Hinv as [Hb (rd & t & pend & H1 & H2 & H3 & H4 & H5)]. cbn [fst snd].
    constructor; cbn [c_wire c_rp c_rq].
    + rewrite passed_app, reads_app. cbn [passed reads flat_map].
      rewrite !app_nil_r, Hb, <- app_assoc. reflexivity.
    + exists rd, t, pend. rewrite reads_app, recvs_app.
      cbn [reads flat_map recvs omap list_omap]. rewrite !app_nil_r. split_and!; done.
  - (* EFlushed *)
    destruct (c_sp c); try (cbn [fst snd]; rewrite app_nil_r; exact Hinv).
    destruct Hinv as [Hb (rd & t & pend & H1 & H2 & H3 & H4 & H5)]. cbn [fst snd].
    constructor; cbn [c_wire c_rp c_rq].
    + rewrite passed_app, reads_app. cbn [passed reads flat_map].
      rewrite !app_nil_r, Hb, <- app_assoc. reflexivity.
    + exists rd, t, pend. rewrite reads_app, recvs_app.
      cbn [reads flat_map recvs omap list_omap]. rewrite !app_nil_r. split_and!; done.
  - destruct (c_sp c); cbn [fst snd]; eapply snoc_quiet_r; eauto.
  - (* EReadSome *)
    destruct Hinv as [Hb (rd & t & pend & H1 & H2 & H3 & H4 & H5)]. cbn [fst snd].
    set (k := rwants (c_rp c) `min` n). set (l := take k (c_wire c)).
    set (xs := match c_rp c with RHead _ => _ | _ => _ end).
    assert (X1 : reads (ORead l :: xs) = l).
    { cbn [reads flat_map]. assert (reads xs = []) as E.
      { subst xs. repeat case_match; reflexivity. }
      unfold reads in E. rewrite E. apply app_nil_r. }
    assert (X2 : passed (ORead l :: xs) = []).
    { subst xs. cbn [passed flat_map]. repeat case_match; reflexivity. }
    assert (X3 : recvs (ORead l :: xs) = []).
    { subst xs. cbn [recvs omap list_omap]. repeat case_match; reflexivity. }
    constructor; cbn [c_wire c_rp c_rq].
    + rewrite passed_app, reads_app, X1, X2, app_nil_r, Hb, <- app_assoc.
      unfold l. rewrite take_drop. reflexivity.
    + rewrite reads_app, recvs_app, X1, X3, app_nil_r.
      assert (c_rp c = RStop \/ c_rp c <> RStop) as [Es|Es]
        by (destruct (c_rp c); auto; right; discriminate).
      { rewrite Es. exists rd, (t ++ l), pend. cbn [rtake rtail].
        rewrite H1, app_assoc. split_and!; try done. }
      destruct (decide (l = [])) as [El|El].
      { rewrite El, app_nil_r. erewrite rtake_nil by exact H4.
        exists rd, t, pend. split_and!; done. }
      assert (Hl : length l <= rwants (c_rp c)).
      { unfold l, k. rewrite take_length. lia. }
      pose proof (rtake_cases _ l _ _ H4 Es Hl El) as Hc.
      destruct (rtake (c_rp c) l) as [got'|n'|n' got'|m'|] eqn:Er.
      * exists rd, (t ++ l), pend. rewrite H1, app_assoc. split_and!; try done.
        intros _. exact (H5 Es).
      * exists rd, (t ++ l), pend. rewrite H1, app_assoc. split_and!; try done.
        intros _. exact (H5 Es).
      * exists rd, (t ++ l), pend. rewrite H1, app_assoc. split_and!; try done.
        intros _. exact (H5 Es).
      * destruct Hc as (h & Et & Hh & Hbh & Hm & ->).
        exists (rd ++ [(h, m')]), [], [m'].
        rewrite flat_map_app'. cbn [flat_map]. unfold rframe at 2. cbn [fst snd].
        rewrite !app_nil_r, fmap_app. cbn [fmap list_fmap snd].
        pose proof (H5 Es) as E5. rewrite app_nil_r in E5.
        rewrite H1, <- app_assoc, Et.
        split_and!; try done.
        -- apply Forall_app. split; [done|]. constructor; [|done]. split_and!; done.
        -- rewrite <- E5, <- app_assoc. done.
        -- intros _. rewrite <- E5, <- app_assoc. done.
      * exists rd, (t ++ l), pend. rewrite H1, app_assoc. split_and!; try done.
  - (* EReadFail *)
    destruct (c_rp c) eqn:Ep; cbn [fst snd]; try (rewrite app_nil_r; exact Hinv);
      destruct Hinv as [Hb (rd & t & pend & H1 & H2 & H3 & H4 & H5)]; rewrite app_nil_r;
      (constructor; [exact Hb|]); exists rd, t, pend; cbn [set_rp c_rp c_rq];
      split_and!; try done.
  - (* EGrant *)
    destruct (c_rp c) as [got|n|n got|m|] eqn:Ep; cbn [fst snd];
      try (rewrite app_nil_r; exact Hinv).
    destruct Hinv as [Hb (rd & t & pend & H1 & H2 & H3 & H4 & H5)]; rewrite app_nil_r.
    rewrite Ep in *. cbn [rtail] in H4. destruct H4 as (-> & Ht & Hbt & Hn).
    constructor; [exact Hb|]. cbn [rsettle set_rp c_rp c_rq length].
    destruct (decide (0 = N.to_nat n)) as [E|E].
    + exists (rd ++ [(t, [])]), [], [[]].
      rewrite flat_map_app'. cbn [flat_map]. unfold rframe at 2. cbn [fst snd].
      rewrite !app_nil_r, fmap_app. cbn [fmap list_fmap snd].
      pose proof (H5 ltac:(done)) as E5. rewrite app_nil_r in E5.
      split_and!; try done.
      * apply Forall_app. split; [done|]. constructor; [|done]. split_and!; try done.
        cbn [fst snd]. rewrite Hbt. change (blen []) with 0%N. lia.
      * rewrite <- E5, <- app_assoc. done.
      * intros _. rewrite <- E5, <- app_assoc. done.
    + exists rd, t, []. split_and!; try done.
      * cbn [rtail length]. split_and!; [done|done|lia|]. exists t. rewrite app_nil_r. auto.
      * intros _. apply H5. done.
  - (* EPush *)
    destruct (c_rp c) as [got|n|n got|m|] eqn:Ep; cbn [fst snd];
      try (rewrite app_nil_r; exact Hinv).
    destruct (c_ropen c); [destruct (room _ _)|]; cbn [fst snd]; rewrite app_nil_r;
      [|exact Hinv|].
    + destruct Hinv as [Hb (rd & t & pend & H1 & H2 & H3 & H4 & H5)].
      rewrite Ep in *. cbn [rtail] in H4. destruct H4 as (-> & ->).
      constructor; [exact Hb|]. cbn [c_rp c_rq].
      exists rd, [], []. rewrite app_nil_r in H1.
      assert (recvs o ++ (c_rq c ++ [m]) ++ [] = rd.*2) as E5.
      { rewrite app_nil_r. apply H5. discriminate. }
      split_and!; [by rewrite app_nil_r|done|by rewrite E5| |done].
      cbn. split_and!; [done|done|lia].
    + destruct Hinv as [Hb (rd & t & pend & H1 & H2 & H3 & H4 & H5)].
      constructor; [exact Hb|]. exists rd, t, pend. cbn [set_rp c_rp c_rq].
      split_and!; done.
  - (* ERecv *)
    destruct (c_rq c) as [|m q] eqn:Eq; cbn [fst snd].
    + eapply snoc_quiet_r; eauto; by destruct (c_rp c).
    + destruct Hinv as [Hb (rd & t & pend & H1 & H2 & H3 & H4 & H5)].
      constructor; cbn [c_wire c_rp c_rq].
      * rewrite passed_app, reads_app. cbn [passed reads flat_map]. by rewrite !app_nil_r.
      * exists rd, t, pend. rewrite reads_app, recvs_app.
        cbn [reads flat_map]. change (recvs [ORecv m]) with [m]. rewrite app_nil_r.
        rewrite Eq in *. rewrite <- app_assoc. split_and!; done.
  - apply sstop_rinv; exact Hinv.
  - (* EDropReceiver *)
    destruct Hinv as [Hb (rd & t & pend & H1 & H2 & H3 & H4 & H5)]. cbn [fst snd].
    rewrite app_nil_r. constructor; [exact Hb|].
    exists rd, t, []. cbn [c_rp c_rq]. rewrite !app_nil_r. split_and!; try done.
    etrans; [|exact H3]. by apply prefix_app_r.
Qed.

(** * Runs *)

Lemma crun_app c es1 es2 :
  crun c (es1 ++ es2) =
  let '(c1, o1) := crun c es1 in let '(c2, o2) := crun c1 es2 in (c2, o1 ++ o2).
Proof.
  revert c. induction es1 as [|e es1 IH]; intros c; cbn [app crun].
  - destruct (crun c es2) as [c2 o2]. reflexivity.
  - destruct (cstep c e) as [c1 o1]. rewrite IH.
    destruct (crun c1 es1) as [c2 o2]. destruct (crun c2 es2) as [c3 o3].
    rewrite <- app_assoc. reflexivity.
Qed.

Lemma crun_inv c es o :
  sinv c o -> rinv c o ->
  sinv (crun c es).1 (o ++ (crun c es).2) /\ rinv (crun c es).1 (o ++ (crun c es).2).
Proof.
  revert c o. induction es as [|e es IH]; intros c o Hs Hr; cbn [crun].
  - rewrite app_nil_r. done.
  - pose proof (cstep_sinv c e o Hs) as Hs'. pose proof (cstep_rinv c e o Hr) as Hr'.
    destruct (cstep c e) as [c1 o1]. cbn [fst snd] in *.
    specialize (IH c1 (o ++ o1) Hs' Hr'). destruct (crun c1 es) as [c2 o2].
    cbn [fst snd] in *. rewrite app_assoc. exact IH.
Qed.

Lemma conn_inv cap es :
  sinv (crun (conn_new cap) es).1 (crun (conn_new cap) es).2 /\
  rinv (crun (conn_new cap) es).1 (crun (conn_new cap) es).2.
Proof. apply (crun_inv _ es [] (sinv_new cap) (rinv_new cap)). Qed.

Lemma recv_prefix cap es :
  recvs (crun (conn_new cap) es).2 `prefix_of` sends (crun (conn_new cap) es).2.
Proof.
  destruct (conn_inv cap es) as [[(d & rest & S1 & S2 & S3 & S4) Sb]
                                 [Hb (rd & t & pend & R1 & R2 & R3 & R4 & R5)]].
  set (o := (crun (conn_new cap) es).2) in *.
  set (c := (crun (conn_new cap) es).1) in *.
  assert (rd.*2 `prefix_of` msgs d) as Hp.
  { apply (frames_agree rd t (msgs d) (c_wire c ++ c_wbuf c ++ rest)); [done|done|].
    rewrite S2, Hb, R1, <- !app_assoc. reflexivity. }
  destruct S1 as [d' Hd].
  transitivity (rd.*2); [|transitivity (msgs d); [exact Hp|]].
  - etrans; [|exact R3]. by apply prefix_app_r.
  - rewrite <- msgs_items, Hd, msgs_app. by apply prefix_app_r.
Qed.

(** What reaches the transport is the stream of the accepted messages. *)
Lemma passed_prefix cap es :
  passed (crun (conn_new cap) es).2 `prefix_of`
  flat_map frame (sends (crun (conn_new cap) es).2).
Proof.
  destruct (conn_inv cap es) as [[(d & rest & S1 & S2 & S3 & S4) Sb] _].
  set (o := (crun (conn_new cap) es).2) in *.
  set (c := (crun (conn_new cap) es).1) in *.
  destruct S1 as [d' Hd].
  rewrite <- msgs_items, Hd, msgs_app, flat_map_app', S2, <- app_assoc.
  by apply prefix_app_r.
Qed.

Lemma items_soft o : omap (fun i => match i with ISoft k => Some k | _ => None end) (items o) = soft_starts o.
Proof.
  induction o as [|x o IH]; [reflexivity|].
  destruct x; unfold items, soft_starts in *; cbn; rewrite ?IH; try reflexivity; exact IH.
Qed.

Definition soft_of (i : item) : option nat := match i with ISoft k => Some k | _ => None end.

Lemma items_split (d q : list item) k (d' q' : list item) :
  NoDup (omap soft_of (d ++ ISoft k :: q)) ->
  d ++ ISoft k :: q = d' ++ ISoft k :: q' -> d = d'.
Proof.
  revert d'. induction d as [|i d IH]; intros [|i' d'] Hnd E; cbn in *.
  - done.
  - injection E as <- E. rewrite E in Hnd. cbn in Hnd.
    apply NoDup_cons in Hnd as [Hn _]. exfalso. apply Hn.
    rewrite omap_app. apply elem_of_app. right. cbn. left.
  - injection E as -> E. cbn in Hnd.
    apply NoDup_cons in Hnd as [Hn _]. exfalso. apply Hn.
    rewrite omap_app. apply elem_of_app. right. cbn. left.
  - injection E as -> E. f_equal. eapply IH; [|exact E].
    destruct (soft_of i'); [by apply NoDup_cons in Hnd as [_ ?]|done].
Qed.

(** The outputs of a run up to a given output are those of the run of a prefix of the
    events, for outputs produced alone by their event. *)
Lemma soft_ok_event c e x y k :
  (cstep c e).2 = x ++ OSoftOk k :: y ->
  x = [] /\ y = [] /\ e = ESoftDone /\ c_sp c = SSoft k.
Proof.
  assert (Hno : forall l, OSoftOk k ∉ l -> l = x ++ OSoftOk k :: y -> False).
  { intros l Hn ->. apply Hn. apply elem_of_app. right. left. }
  assert (Hse : forall q, OSoftOk k ∉ soft_errs q).
  { induction q as [|[m|j] q IH]; cbn; [apply not_elem_of_nil|exact IH|].
    rewrite not_elem_of_cons. split; [discriminate|exact IH]. }
  assert (Hst : forall cc, OSoftOk k ∉ (sstop cc).2).
  { intros cc. cbn [sstop snd]. rewrite elem_of_app. intros [H|H]; [by eapply Hse|].
    destruct (c_sp cc); set_solver. }
  assert (Hen : forall i ok er, ok <> OSoftOk k -> er <> OSoftOk k ->
                 OSoftOk k ∉ (enqueue c i ok er).2).
  { intros i ok er H1 H2. unfold enqueue.
    destruct (c_sopen c); [destruct (room _ _)|]; cbn [snd]; set_solver. }
  intros E.
  destruct e as [m|j| |n| |n| | |n| | | | | |]; cbn [cstep] in E.
  - exfalso. eapply Hno; [|exact E]. by apply Hen.
  - exfalso. eapply Hno; [|exact E]. by apply Hen.
  - exfalso. eapply Hno; [|exact E].
    destruct (c_sp c); try apply not_elem_of_nil.
    destruct (c_sq c) as [|[m|j] q]; try apply not_elem_of_nil.
    destruct (fits_u32 m); [apply not_elem_of_nil|apply Hst].
  - exfalso. eapply Hno; [|exact E]. destruct (c_sp c); apply not_elem_of_nil.
  - exfalso. eapply Hno; [|exact E]. destruct (c_sp c); try apply not_elem_of_nil; apply Hst.
  - exfalso. eapply Hno; [|exact E]. cbn [snd]. set_solver.
  - exfalso. eapply Hno; [|exact E]. destruct (c_sp c); cbn [snd]; set_solver.
  - destruct (c_sp c) eqn:Esp; cbn [snd] in E;
      try (exfalso; eapply Hno; [|exact E]; apply not_elem_of_nil).
    destruct x as [|a x]; cbn in E.
    + injection E as Ek Ey. subst. done.
    + injection E as Ea E. destruct x; discriminate.
  - exfalso. eapply Hno; [|exact E]. cbn [snd]. rewrite not_elem_of_cons.
    split; [done|]. repeat case_match; set_solver.
  - exfalso. eapply Hno; [|exact E]. destruct (c_rp c); apply not_elem_of_nil.
  - exfalso. eapply Hno; [|exact E]. destruct (c_rp c); apply not_elem_of_nil.
  - exfalso. eapply Hno; [|exact E].
    destruct (c_rp c); [..|destruct (c_ropen c); [destruct (room _ _)|]|]; apply not_elem_of_nil.
  - exfalso. eapply Hno; [|exact E].
    destruct (c_rq c); cbn [snd]; [destruct (c_rp c)|]; set_solver.
  - exfalso. eapply Hno; [|exact E]. apply Hst.
  - exfalso. eapply Hno; [|exact E]. apply not_elem_of_nil.
Qed.

Lemma run_cut c es o1 k o2 :
  (crun c es).2 = o1 ++ OSoftOk k :: o2 ->
  exists es1 es2, es = es1 ++ ESoftDone :: es2 /\ (crun c es1).2 = o1 /\
                  c_sp (crun c es1).1 = SSoft k.
Proof.
  revert c o1. induction es as [|e es IH]; intros c o1 E; cbn [crun] in E.
  - destruct o1; discriminate.
  - destruct (cstep c e) as [c1 x1] eqn:Es. destruct (crun c1 es) as [c2 x2] eqn:Er.
    cbn [snd] in E.
    apply app_eq_app in E as [l [[E1 E2]|[E1 E2]]].
    + (* the output is in x1, or at the start of x2 *)
      destruct l as [|a l].
      * rewrite app_nil_r in E1. cbn in E2. subst x1.
        destruct (IH c1 []) as (es1 & es2 & -> & H1 & H2).
        { rewrite Er. cbn. by rewrite <- E2. }
        exists (e :: es1), es2. cbn [crun app]. rewrite Es.
        destruct (crun c1 es1) as [c3 x3]. cbn [fst snd] in *. subst x3.
        rewrite app_nil_r. done.
      * cbn in E2. injection E2 as <- E2.
        destruct (soft_ok_event c e o1 l k) as (-> & -> & -> & Hp).
        { rewrite Es. exact E1. }
        exists [], es. done.
    + destruct (IH c1 l) as (es1 & es2 & -> & H1 & H2).
      { rewrite Er. cbn. done. }
      exists (e :: es1), es2. cbn [crun app]. rewrite Es.
      destruct (crun c1 es1) as [c3 x3]. cbn [fst snd] in *. subst. done.
Qed.

Lemma soft_close_flushed cap es o1 k o2 :
  (crun (conn_new cap) es).2 = o1 ++ OSoftOk k :: o2 ->
  NoDup (soft_starts o1) ->
  k ∈ soft_starts o1 /\
  forall o0 o0', o1 = o0 ++ OSoftStart k :: o0' ->
    stream_of (sends o0) `prefix_of` passed o1.
Proof.
  intros E Hnd.
  destruct (run_cut _ _ _ _ _ E) as (es1 & es2 & -> & H1 & H2).
  destruct (conn_inv cap es1) as [[(d & rest & S1 & S2 & S3 & S4) Sb] _].
  rewrite H1 in *. rewrite H2 in *.
  destruct (S4 ltac:(done)) as [Hi ->]. cbn [in_hand unwritten app] in *.
  rewrite Sb in S2. cbn [app] in S2. rewrite app_nil_r in S2.
  split.
  - rewrite <- items_soft, Hi, omap_app. apply elem_of_app. right. cbn. left.
  - intros o0 o0' E0.
    assert (d = items o0) as ->.
    { eapply (items_split d (c_sq (crun (conn_new cap) es1).1) k (items o0) (items o0')).
      - rewrite <- Hi. rewrite <- items_soft in Hnd. exact Hnd.
      - rewrite <- Hi, E0, items_app. reflexivity. }
    rewrite <- msgs_items, stream_frames, S2 by exact S3. reflexivity.
Qed.

(** * Oversized frames *)

Lemma oversized_stop acc h l :
  length h = 4 -> (max_message_size < be_u32 h)%N ->
  fold_left rbyte (h ++ l) (RHead [], acc) = (RStop, acc).
Proof.
  intros Hh Hn. rewrite fold_rbyte_app.
  destruct h as [|a [|b [|c [|d [|? ?]]]]]; cbn in Hh; try lia.
  change [a; b; c; d] with ([a; b; c] ++ [d]).
  rewrite (fold_rbyte_app (RHead [], acc) [a; b; c] [d]).
  rewrite read_head by (cbn; lia). cbn [app fold_left].
  assert (rbyte (RHead [a; b; c], acc) d = (RStop, acc)) as ->.
  { unfold rbyte. cbn [fst snd rtake rsettle app length].
    rewrite decide_True by reflexivity.
    assert ((be_u32 [a; b; c; d] <=? max_message_size)%N = false) as -> by (apply N.leb_gt; lia).
    reflexivity. }
  clear. induction l as [|x l IH]; [reflexivity|]. cbn [fold_left]. exact IH.
Qed.

(** Allocations asked for on a connection are within the limit. *)
Lemma cstep_allocs c e : Forall (fun n => (n <= max_message_size)%N) (allocs (cstep c e).2).
Proof.
  assert (Hse : forall q, allocs (soft_errs q) = []).
  { induction q as [|[m|j] q IH]; cbn; auto. }
  assert (Hst : forall cc, allocs (sstop cc).2 = []).
  { intros cc. cbn [sstop snd]. unfold allocs. rewrite omap_app.
    fold (allocs (soft_errs (c_sq cc))). rewrite Hse. by destruct (c_sp cc). }
  destruct e as [m|j| |n| |n| | |n| | | | | |]; cbn [cstep].
  - unfold enqueue. destruct (c_sopen c); [destruct (room _ _)|]; constructor.
  - unfold enqueue. destruct (c_sopen c); [destruct (room _ _)|]; constructor.
  - destruct (c_sp c); try constructor.
    destruct (c_sq c) as [|[m|j] q]; try constructor.
    destruct (fits_u32 m); [constructor|rewrite Hst; constructor].
  - destruct (c_sp c); constructor.
  - destruct (c_sp c); try constructor; rewrite Hst; constructor.
  - constructor.
  - destruct (c_sp c); constructor.
  - destruct (c_sp c); constructor.
  - cbn [snd]. cbn [allocs omap list_omap].
    destruct (c_rp c) as [got|k|k got|m|] eqn:Ep; try (cbn; constructor; fail).
    destruct (rtake (RHead got) _) as [| n' | | |] eqn:Er; cbn; constructor; [|constructor].
    cbn [rtake rsettle] in Er. destruct (decide (length (got ++ _) = 4)); [|discriminate].
    destruct (be_u32 _ <=? max_message_size)%N eqn:El; [|discriminate].
    injection Er as <-. by apply N.leb_le.
  - destruct (c_rp c); constructor.
  - destruct (c_rp c); constructor.
  - destruct (c_rp c); [..|destruct (c_ropen c); [destruct (room _ _)|]|]; constructor.
  - destruct (c_rq c); [destruct (c_rp c)|]; constructor.
  - rewrite Hst. constructor.
  - constructor.
Qed.

Lemma crun_allocs c es : Forall (fun n => (n <= max_message_size)%N) (allocs (crun c es).2).
Proof.
  revert c. induction es as [|e es IH]; intros c; cbn [crun]; [constructor|].
  pose proof (cstep_allocs c e) as H. destruct (cstep c e) as [c1 o1].
  specialize (IH c1). destruct (crun c1 es) as [c2 o2]. cbn [snd] in *.
  unfold allocs in *. rewrite omap_app. by apply Forall_app.
Qed.

(** Each message received has had exactly its size allocated. *)
Definition inprog (p : rphase) : list N :=
  match p with RWait n => [n] | RBody n _ => [n] | RPush m => [blen m] | _ => [] end.
Definition rshape (p : rphase) : Prop :=
  match p with
  | RHead got => length got < 4 | RBody n got => length got < N.to_nat n | _ => True
  end.

Record alinv (c : conn) (o : list out) : Prop := AlInv {
  al_pre : blen <$> (recvs o ++ c_rq c) `prefix_of` allocs o;
  al_eq : c_rp c <> RStop -> allocs o = (blen <$> (recvs o ++ c_rq c)) ++ inprog (c_rp c);
  al_shape : rshape (c_rp c) }.

Lemma allocs_app o1 o2 : allocs (o1 ++ o2) = allocs o1 ++ allocs o2.
Proof. apply omap_app. Qed.

Lemma alinv_same c c' o x :
  alinv c o -> c_rp c' = c_rp c -> c_rq c' = c_rq c -> allocs x = [] -> recvs x = [] ->
  alinv c' (o ++ x).
Proof.
  intros [A B C] E1 E2 X1 X2. constructor;
    rewrite ?allocs_app, ?recvs_app, ?X1, ?X2, ?app_nil_r, ?E1, ?E2; done.
Qed.

Lemma sstop_quiet c : allocs (sstop c).2 = [] /\ recvs (sstop c).2 = [].
Proof.
  assert (Hse : forall q, allocs (soft_errs q) = [] /\ recvs (soft_errs q) = []).
  { induction q as [|[m|j] q IH]; cbn; auto. }
  destruct (Hse (c_sq c)) as [A B].
  cbn [sstop snd]. rewrite allocs_app, recvs_app, A, B. by destruct (c_sp c).
Qed.

Lemma sstop_alinv c o : alinv c o -> alinv (sstop c).1 (o ++ (sstop c).2).
Proof.
  intros H. destruct (sstop_quiet c). by apply (alinv_same c).
Qed.

Lemma alinv_stop c c' o :
  alinv c o -> c_rp c' = RStop -> (exists k, c_rq c = c_rq c' ++ k) -> alinv c' o.
Proof.
  intros [A B C] E [k Ek]. constructor; rewrite ?E; try done.
  etrans; [|exact A]. rewrite Ek, app_assoc, (fmap_app blen (recvs o ++ c_rq c') k).
  by apply prefix_app_r.
Qed.

Lemma cstep_alinv c e o : alinv c o -> alinv (cstep c e).1 (o ++ (cstep c e).2).
Proof.
  intros Hinv.
  destruct e as [m|k| |n| |n| | |n| | | | | |]; cbn [cstep].
  - unfold enqueue. destruct (c_sopen c); [destruct (room _ _)|]; by apply (alinv_same c).
  - unfold enqueue. destruct (c_sopen c); [destruct (room _ _)|]; by apply (alinv_same c).
  - destruct (c_sp c); try (by apply (alinv_same c)).
    destruct (c_sq c) as [|[m|k] q]; [|destruct (fits_u32 m)|];
      try (by apply (alinv_same c)).
    apply sstop_alinv. destruct Hinv as [A B C]. by constructor.
  - destruct (c_sp c); by apply (alinv_same c).
  - destruct (c_sp c); try (by apply (alinv_same c)); by apply sstop_alinv.
  - by apply (alinv_same c).
  - destruct (c_sp c); by apply (alinv_same c).
  - destruct (c_sp c); by apply (alinv_same c).
  - (* EReadSome *)
    cbn [fst snd]. destruct Hinv as [A B C].
    set (k := rwants (c_rp c) `min` n).
    assert (Hl : length (take k (c_wire c)) <= rwants (c_rp c)) by (rewrite take_length; lia).
    generalize dependent (take k (c_wire c)). intros l Hl.
    destruct (c_rp c) as [got|w|w got|m|] eqn:Ep.
    + cbn [rtake]. cbn [rsettle].
      cbn [rwants rshape] in *.
      destruct (decide (length (got ++ l) = 4)) as [E4|E4].
      * destruct (be_u32 (got ++ l) <=? max_message_size)%N.
        -- constructor; cbn [c_rq c_rp]; rewrite ?allocs_app, ?recvs_app.
           ++ change (recvs [ORead l; OAlloc (be_u32 (got ++ l))]) with (@nil bytes).
              rewrite app_nil_r. by apply prefix_app_r.
           ++ intros _.
              change (recvs [ORead l; OAlloc (be_u32 (got ++ l))]) with (@nil bytes).
              change (allocs [ORead l; OAlloc (be_u32 (got ++ l))]) with [be_u32 (got ++ l)].
              rewrite (B ltac:(done)), !app_nil_r. done.
           ++ exact I.
        -- constructor; cbn [c_rq c_rp]; rewrite ?allocs_app, ?recvs_app; cbn; try done.
           by rewrite !app_nil_r.
      * constructor; cbn [c_rq c_rp]; rewrite ?allocs_app, ?recvs_app;
          change (recvs [ORead l]) with (@nil bytes);
          change (allocs [ORead l]) with (@nil N); rewrite ?app_nil_r; [done| |].
        -- intros _. rewrite (B ltac:(done)). cbn [inprog]. by rewrite ?app_nil_r.
        -- cbn [rshape]. rewrite app_length in E4 |- *. lia.
    + apply (alinv_same c); cbn [c_rq c_rp]; try done.
      by constructor; rewrite ?Ep.
    + cbn [rtake rsettle rwants rshape] in *.
      destruct (decide (length (got ++ l) = N.to_nat w)) as [E4|E4].
      * assert (blen (got ++ l) = w) as Hw by (unfold blen; lia).
        constructor; cbn [c_rq c_rp]; rewrite ?allocs_app, ?recvs_app;
          change (recvs [ORead l]) with (@nil bytes);
          change (allocs [ORead l]) with (@nil N); rewrite ?app_nil_r; try done.
        intros _. rewrite (B ltac:(done)). cbn [inprog]. by rewrite Hw.
      * constructor; cbn [c_rq c_rp]; rewrite ?allocs_app, ?recvs_app;
          change (recvs [ORead l]) with (@nil bytes);
          change (allocs [ORead l]) with (@nil N); rewrite ?app_nil_r; [done| |].
        -- intros _. rewrite (B ltac:(done)). cbn [inprog]. by rewrite ?app_nil_r.
        -- cbn [rshape]. rewrite app_length in E4 |- *. lia.
    + apply (alinv_same c); cbn [c_rq c_rp]; try done.
      by constructor; rewrite ?Ep.
    + apply (alinv_same c); cbn [c_rq c_rp]; try done.
      by constructor; rewrite ?Ep.
  - destruct (c_rp c) eqn:Ep; cbn [fst snd]; rewrite app_nil_r; try done;
      (eapply alinv_stop; [done|done|exists []; by rewrite app_nil_r]).
  - (* EGrant *)
    destruct (c_rp c) as [got|n|n got|m|] eqn:Ep; cbn [fst snd]; rewrite app_nil_r; try done.
    destruct Hinv as [A B C]. rewrite Ep in *. cbn [rsettle set_rp length].
    pose proof (B ltac:(done)) as E.
    destruct (decide (0 = N.to_nat n)) as [E0|E0].
    + assert (n = 0%N) as -> by lia. constructor; cbn [c_rp c_rq]; [exact A| |exact I].
      intros _. exact E.
    + constructor; cbn [c_rp c_rq]; [exact A|intros _; exact E|].
      change (0 < N.to_nat n). lia.
  - (* EPush *)
    destruct (c_rp c) as [got|n|n got|m|] eqn:Ep; cbn [fst snd];
      try (rewrite app_nil_r; done).
    destruct (c_ropen c); [destruct (room _ _)|]; cbn [fst snd]; rewrite app_nil_r; [|done|].
    + destruct Hinv as [A B C]. rewrite Ep in *. pose proof (B ltac:(done)) as E.
      cbn [inprog] in E.
      assert (allocs o = blen <$> (recvs o ++ c_rq c ++ [m])) as E'.
      { rewrite E, app_assoc, (fmap_app blen (_ ++ _)). done. }
      constructor; cbn [c_rp c_rq].
      * by rewrite E'.
      * intros _. cbn [inprog]. by rewrite app_nil_r.
      * cbn. lia.
    + eapply alinv_stop; [done|done|exists []; by rewrite app_nil_r].
  - (* ERecv *)
    destruct (c_rq c) as [|m q] eqn:Eq; cbn [fst snd].
    + apply (alinv_same c); try done; by destruct (c_rp c).
    + destruct Hinv as [A B C]. rewrite Eq in *.
      constructor; cbn [c_rp c_rq]; rewrite ?allocs_app, ?recvs_app;
          change (recvs [ORecv m]) with [m];
          change (allocs [ORecv m]) with (@nil N); rewrite ?app_nil_r;
          rewrite <- ?(app_assoc (recvs o) [m] q); done.
  - by apply sstop_alinv.
  - cbn [fst snd]. rewrite app_nil_r. eapply alinv_stop; [done|done|]. cbn. by eexists.
Qed.

Lemma crun_alinv c es o : alinv c o -> alinv (crun c es).1 (o ++ (crun c es).2).
Proof.
  revert c o. induction es as [|e es IH]; intros c o H; cbn [crun].
  - by rewrite app_nil_r.
  - pose proof (cstep_alinv c e o H) as H'.
    destruct (cstep c e) as [c1 o1]. cbn [fst snd] in *.
    specialize (IH c1 (o ++ o1) H'). destruct (crun c1 es) as [c2 o2].
    cbn [fst snd] in *. by rewrite app_assoc.
Qed.

Lemma recv_sizes cap es :
  blen <$> recvs (crun (conn_new cap) es).2 `prefix_of` allocs (crun (conn_new cap) es).2.
Proof.
  assert (alinv (conn_new cap) []) as H0.
  { constructor; [exists []; reflexivity|reflexivity|cbn; lia]. }
  destruct (crun_alinv _ es [] H0) as [A _ _]. cbn [app] in A.
  etrans; [|exact A]. rewrite fmap_app. by apply prefix_app_r.
Qed.

(** When nothing failed and nothing is under way, everything sent was received. *)
Lemma flat_map_frame_nil ms : length (flat_map frame ms) < 4 -> ms = [].
Proof.
  destruct ms as [|m ms]; [done|]. cbn [flat_map]. rewrite app_length, frame_len. lia.
Qed.

Lemma quiet_complete cap es got :
  let c := (crun (conn_new cap) es).1 in
  c_sp c = SIdle -> c_sq c = [] -> c_wire c = [] -> c_rp c = RHead got -> c_rq c = [] ->
  recvs (crun (conn_new cap) es).2 = sends (crun (conn_new cap) es).2.
Proof.
  intros c E1 E2 E3 E4 E5.
  destruct (conn_inv cap es) as [[(d & rest & S1 & S2 & S3 & S4) Sb]
                                 [Hb (rd & t & pend & R1 & R2 & R3 & R4 & R5)]].
  fold c in S1, S2, S3, S4, Sb, Hb, R3, R4, R5.
  set (o := (crun (conn_new cap) es).2) in *.
  rewrite E1 in *. rewrite E4 in *. rewrite E2, E3, E5, Sb in *.
  destruct (S4 ltac:(done)) as [Hi ->]. destruct R4 as (-> & -> & Hg).
  cbn [in_hand unwritten app] in *. rewrite app_nil_r in Hi, S2, Hb.
  pose proof (R5 ltac:(done)) as R. rewrite app_nil_r in R.
  assert (rd.*2 `prefix_of` msgs d) as [r Hr].
  { apply (frames_agree rd got (msgs d) []); [done|done|].
    rewrite S2, Hb, R1, app_nil_r. reflexivity. }
  assert (r = []) as ->.
  { apply flat_map_frame_nil.
    assert (Hlen : length (flat_map frame (msgs d)) =
                   length (flat_map rframe rd) + length got).
    { rewrite S2, Hb, R1, app_length. reflexivity. }
    rewrite Hr, flat_map_app', app_length in Hlen.
    assert (Hsame : length (flat_map frame rd.*2) = length (flat_map rframe rd)).
    { clear -R2. induction R2 as [|[h m] rd (Hh & _) _ IH]; [reflexivity|].
      rewrite fmap_cons. cbn [flat_map]. rewrite !app_length, IH.
      unfold rframe at 2. cbn [fst snd] in *. rewrite app_length, frame_len. lia. }
    lia. }
  rewrite app_nil_r in Hr. rewrite R, <- Hr, <- msgs_items, Hi. reflexivity.
Qed.

(** * A peer that announces too much *)

Definition peer_stream (cap : option nat) (l : bytes) : conn :=
  Conn cap [] false SStop [] l (RHead []) [] true.

Record evil (h l : bytes) (c : conn) (o : list out) : Prop := Evil {
  ev_s : c_sq c = [] /\ c_sopen c = false /\ c_sp c = SStop /\ c_wbuf c = [] /\ c_rq c = [];
  ev_r : (exists got h', c_rp c = RHead got /\ h = got ++ h' /\ h' <> [] /\ c_wire c = h' ++ l
            /\ reads o = got)
         \/ (c_rp c = RStop /\ length (reads o) <= 4);
  ev_o : allocs o = [] /\ recvs o = [] }.

Lemma evil_step h l c o e :
  length h = 4 -> (max_message_size < be_u32 h)%N ->
  evil h l c o -> evil h l (cstep c e).1 (o ++ (cstep c e).2).
Proof.
  intros Hh Hbig [(A1 & A2 & A3 & A4 & A5) B [C1 C2]].
  assert (Hsame : forall x, allocs x = [] -> recvs x = [] -> reads x = [] -> evil h l c (o ++ x)).
  { intros x X1 X2 X3. constructor; [done| |].
    - rewrite reads_app, X3, app_nil_r. exact B.
    - by rewrite allocs_app, recvs_app, C1, C2, X1, X2. }
  assert (Hstop : forall c', c_sq c' = [] -> c_sopen c' = false -> c_sp c' = SStop ->
            c_wbuf c' = [] -> c_rq c' = [] -> c_rp c' = RStop -> evil h l c' (o ++ [])).
  { intros c' E1 E2 E3 E4 E5 E6. rewrite app_nil_r. constructor; [done| |done].
    right. split; [done|]. destruct B as [(got & h' & _ & Eh & _ & _ & Er)|[_ Hl]]; [|done].
    rewrite Er. rewrite <- Hh, Eh, app_length. lia. }
  destruct e as [m|k| |n| |n| | |n| | | | | |]; cbn [cstep].
  - unfold enqueue. rewrite A2. by apply Hsame.
  - unfold enqueue. rewrite A2. by apply Hsame.
  - rewrite A3. by apply Hsame.
  - rewrite A3. by apply Hsame.
  - rewrite A3. by apply Hsame.
  - cbn [fst snd]. rewrite A4. rewrite take_nil, drop_nil, app_nil_r.
    destruct B as [B|B]; constructor; cbn [c_sq c_sopen c_sp c_wbuf c_rq c_rp c_wire];
      rewrite ?reads_app, ?allocs_app, ?recvs_app; cbn; rewrite ?app_nil_r; auto.
  - rewrite A3. by apply Hsame.
  - rewrite A3. by apply Hsame.
  - (* EReadSome *)
    cbn [fst snd]. destruct B as [(got & h' & Ep & Eh & Hne & Ew & Er)|[Ep Hl]].
    + rewrite Ep. cbn [rwants].
      assert (Hg : length got + length h' = 4) by (rewrite <- Hh, Eh, app_length; lia).
      replace (4 - length got) with (length h') by lia.
      rewrite Ew. set (k := length h' `min` n).
      rewrite take_app_le by lia. rewrite drop_app_le by lia.
      cbn [rtake rsettle].
      destruct (decide (length (got ++ take k h') = 4)) as [E4|E4].
      * assert (k = length h') as Ek by (rewrite app_length, take_length in E4; lia).
        rewrite Ek, firstn_all, <- Eh.
        assert ((be_u32 h <=? max_message_size)%N = false) as -> by (apply N.leb_gt; lia).
        constructor; cbn [c_sq c_sopen c_sp c_wbuf c_rq c_rp c_wire]; [done| |].
        -- right. split; [done|]. rewrite reads_app, Er. cbn. rewrite app_nil_r, app_length.
           lia.
        -- rewrite allocs_app, recvs_app, C1, C2. done.
      * constructor; cbn [c_sq c_sopen c_sp c_wbuf c_rq c_rp c_wire]; [done| |].
        -- left. exists (got ++ take k h'), (drop k h'). split_and!; try done.
           ++ by rewrite <- app_assoc, take_drop.
           ++ intros Hd. apply E4. rewrite app_length, take_length.
              assert (length (drop k h') = 0) as Hz by by rewrite Hd.
              rewrite drop_length in Hz. lia.
           ++ rewrite reads_app, Er. cbn. by rewrite app_nil_r.
        -- rewrite allocs_app, recvs_app, C1, C2. done.
    + rewrite Ep. cbn [rwants rtake Nat.min]. rewrite take_0, drop_0.
      constructor; cbn [c_sq c_sopen c_sp c_wbuf c_rq c_rp c_wire]; [done| |].
      * right. split; [done|]. rewrite reads_app. cbn. by rewrite app_nil_r.
      * rewrite allocs_app, recvs_app, C1, C2. done.
  - destruct (c_rp c); cbn [fst snd]; try (by apply Hsame); by apply Hstop.
  - destruct (c_rp c) eqn:Ep; cbn [fst snd]; try (by apply Hsame).
    destruct B as [(got & h' & Ep' & _)|[Ep' _]]; congruence.
  - destruct (c_rp c) eqn:Ep; cbn [fst snd]; try (by apply Hsame).
    destruct B as [(got & h' & Ep' & _)|[Ep' _]]; congruence.
  - rewrite A5. cbn [fst snd]. apply Hsame; by destruct (c_rp c).
  - unfold sstop. rewrite A1, A3. cbn [soft_errs flat_map app fst snd].
    rewrite app_nil_r. constructor; cbn [c_sq c_sopen c_sp c_wbuf c_rq c_rp c_wire]; done.
  - cbn [fst snd]. by apply Hstop.
Qed.

Lemma evil_run h l c o es :
  length h = 4 -> (max_message_size < be_u32 h)%N ->
  evil h l c o -> evil h l (crun c es).1 (o ++ (crun c es).2).
Proof.
  intros Hh Hbig. revert c o. induction es as [|e es IH]; intros c o H; cbn [crun].
  - by rewrite app_nil_r.
  - pose proof (evil_step h l c o e Hh Hbig H) as H'.
    destruct (cstep c e) as [c1 o1]. cbn [fst snd] in *.
    specialize (IH c1 (o ++ o1) H'). destruct (crun c1 es) as [c2 o2].
    cbn [fst snd] in *. by rewrite app_assoc.
Qed.

Lemma oversized_refused cap h l es :
  length h = 4 -> (size_limit < be_u32 h)%N ->
  let o := (crun (peer_stream cap (h ++ l)) es).2 in
  allocs o = [] /\ recvs o = [] /\ length (reads o) <= 4.
Proof.
  intros Hh Hbig o. rewrite <- max_eq in Hbig.
  assert (evil h l (peer_stream cap (h ++ l)) []) as H0.
  { constructor; [done| |done]. left. exists [], h. split_and!; try done.
    by destruct h. }
  destruct (evil_run h l _ [] es Hh Hbig H0) as [_ B [C1 C2]]. cbn [app] in B, C1, C2.
  split_and!; [exact C1|exact C2|].
  destruct B as [(got & h' & _ & Eh & _ & _ & Er)|[_ Hl]]; [|done].
  unfold o. rewrite Er. rewrite <- Hh, Eh, app_length. lia.
Qed.

(** * What the sender lets through *)

Lemma sender_lets_through m :
  (size_limit < blen m)%N -> (blen m < 2 ^ 32)%N ->
  let r := crun (conn_new None)
             [ESend m; ETake; EWrite (length (frame m)); EFlushed; EReadSome 4] in
  OSendOk m ∈ r.2 /\ passed r.2 = frame m /\ c_rp r.1 = RStop.
Proof.
  intros Hbig H32.
  cbn [crun cstep conn_new enqueue c_sopen c_cap room c_sq c_sp app c_wbuf c_wire c_rp c_rq
       c_ropen].
  unfold fits_u32. rewrite (proj2 (N.ltb_lt _ _) H32).
  cbn [set_sp c_sopen c_cap room c_sq c_sp app c_wbuf c_wire c_rp c_rq c_ropen].
  rewrite (firstn_all (frame m)), (drop_all (frame m)).
  cbn [c_sopen c_cap room c_sq c_sp app c_wbuf c_wire c_rp c_rq c_ropen rwants length Nat.sub
       Nat.min].
  assert (take 4 (frame m) = u32_be (blen m)) as -> by reflexivity.
  cbn [rtake app]. unfold rsettle. rewrite u32_be_len, decide_True by reflexivity.
  rewrite u32_roundtrip by exact H32.
  assert ((blen m <=? max_message_size)%N = false) as ->
    by (apply N.leb_gt; rewrite max_eq; exact Hbig).
  cbn [fst snd]. split_and!.
  - left.
  - cbn [passed flat_map app]. by rewrite app_nil_r.
  - reflexivity.
Qed.

Lemma zeros_len n : blen (replicate (N.to_nat n) 0%N) = n.
Proof. unfold blen. rewrite replicate_length. lia. Qed.
