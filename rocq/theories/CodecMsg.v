(** Every message comes back from its encoding (C45). *)
From stdpp Require Import list.
From Coq Require Import NArith ZArith Lia.
From Verif Require Import IdModel MsgModel AuthModel WireModel CodecModel CodecSafe CodecRound.
Local Open Scope N_scope.

(** The list pointed to from [r], written after [a0]. *)
Definition has_list (a0 a : arena) (r : place) (l : bytes) : Prop :=
  exists tp i, listed a r l tp i
    /\ (forall p k, room a0 p k -> p.1 <> tp.1 \/ 8 * p.2 + k <= 8 * i)
    /\ (tp = r \/ forall p k, room a0 p k -> p.1 <> tp.1 \/ 8 * p.2 + k <= 8 * tp.2).
(** From [a] to [a'] only the word at [r] changed, and fresh memory. *)
Record moved (a a' : arena) (r : place) (n : N) : Prop := {
  mv_wf : wf a -> wf a';
  mv_frame : forall p k, holds a p k -> apart p (blen k) r 8 -> holds a' p k;
  mv_rooms : forall p k, room a p k -> room a' p k;
  mv_bytes : all_bytes (asegs a') <= all_bytes (asegs a) + n;
  mv_segs : (length (ar_segs a') <= S (length (ar_segs a)))%nat;
}.
Lemma moved_put a r w : wf a -> room a r 8 ->
  moved a (put a r (le8 w)) r 0 /\ holds (put a r (le8 w)) r (le8 w) /\ length (ar_segs (put a r (le8 w))) = length (ar_segs a).
Proof.
  intros Hw Hr. assert (room a r (blen (le8 w))) as Hr' by (by rewrite le8_len).
  destruct (put_wf _ _ _ Hr' Hw) as (H1 & H2 & H3). split; [|split; [by apply put_same|done]]. constructor.
  - done.
  - intros p k Hp Hd. apply put_frame; [done|by rewrite le8_len|done].
  - intros p k Hp. by apply put_room.
  - rewrite H2. lia.
  - rewrite H3. lia.
Qed.
Lemma moved_list a r l : wf a -> room a r 8 ->
  moved a (put_list_raw a r l) r (blen l + 16) /\ has_list a (put_list_raw a r l) r l.
Proof.
  intros Hw Hr. destruct (put_list_spec a r l Hw Hr) as [H1 H2 H3 H4 H5 H6]. split; [|exact H6]. constructor; [done|done|done|lia|done].
Qed.
Lemma apart_sym p n q k : apart p n q k -> apart q k p n.
Proof. unfold apart. intros [H|[H|H]]; [left; congruence|by right; right|by right; left]. Qed.
Lemma has_list_kept a0 a a' r l r' n : has_list a0 a r l -> moved a a' r' n -> room a0 r' 8 -> apart r 8 r' 8 -> has_list a0 a' r l.
Proof.
  intros (tp & i & Hl & H1 & H2) [M1 M2 M3 M4 M5] Hr Hd. exists tp, i. split; [|done].
  eapply listed_frame; [exact Hl|exact M2|exact M3|done| |].
  - destruct H2 as [->|H2]; [done|]. apply apart_sym. destruct (H2 _ _ Hr) as [H|H]; [by left|right; by left].
  - apply apart_sym. destruct (H1 _ _ Hr) as [H|H]; [by left|right; by left].
Qed.
Lemma has_list_later a0 a1 a r l : has_list a1 a r l -> (forall p k, room a0 p k -> room a1 p k) -> has_list a0 a r l.
Proof.
  intros (tp & i & Hl & H1 & H2) Hr. exists tp, i. split; [done|]. split; [eauto|]. destruct H2 as [H2|H2]; [by left|right; eauto].
Qed.

(** The beginning of every message: root pointer, discriminant. *)
Record started (a : arena) (tag : N) : Prop := {
  st_ptr : holds a (0, 0) (le8 (mk_struct 0 1 1));
  st_tag : holds a (0, 1) (le8 tag);
  st_room : room a (0, 2) 8;
}.
Lemma started_kept a a' tag r n : started a tag -> moved a a' r n -> apart (0, 0) 8 r 8 -> apart (0, 1) 8 r 8 -> started a' tag.
Proof.
  intros [H1 H2 H3] [M1 M2 M3 M4 M5] A1 A2. constructor; [apply M2; [done|by rewrite le8_len]|apply M2; [done|by rewrite le8_len]|by apply M3].
Qed.

(** Reading the beginning. *)
Lemma reads_started a tag {A} (f : N -> option place -> rd A) k x :
  small a -> started a tag -> tag < 2 ^ 64 -> reads (f tag (Some (0, 2))) k x ->
  reads (rbind (bounds_check (asegs a) (0, 0) 1) (fun _ =>
         rbind (read_struct (asegs a) (Some (0, 0))) (fun s =>
         rbind (sr_word (asegs a) s) (fun w => f w (sr_ptr s 0))))) (k + 3) x.
Proof.
  intros Hs [H1 H2 H3] Ht Hf.
  eapply (reads_bind _ _ 1 (k + 2)); [apply reads_bounds; [|lia]| |lia].
  { apply holds_room in H1. rewrite le8_len in H1. done. }
  eapply (reads_bind _ _ 2 k _ (SR (0, 1) 1 1)); [| |lia].
  { apply (reads_struct a (0, 0) 1 1); [lia|lia|lia|done|]. cbn [fst snd].
    destruct H3 as (cap & g & Hg & Hl). exists cap, g. cbn [fst snd] in *. split; [done|lia]. }
  eapply (reads_bind _ _ 0 k _ tag); [|exact Hf|lia]. apply reads_field; [lia|done|done].
Qed.

Ltac conc := eexists _, _; split; [vm_compute; reflexivity|first [split; [vm_compute; discriminate|vm_compute; reflexivity] | vm_compute; discriminate]].

(** Messages that are a list. *)
Lemma root_started tag : tag < 2 ^ 64 -> started (init_root tag) tag /\ wf (init_root tag) /\ all_bytes (asegs (init_root tag)) = 24
  /\ length (ar_segs (init_root tag)) = 1%nat.
Proof.
  intros Ht. set (a := (init_struct arena_root (0, 0) 1 1).2).
  assert (init_root tag = put a (0, 1) (le8 tag)) as -> by reflexivity.
  assert (wf a) as Hw by (repeat constructor).
  destruct (moved_put a (0, 1) tag Hw) as (M & Hh & Hl); [conc|]. pose proof M as [M1 M2 M3 M4 M5].
  destruct (put_wf a (0, 1) (le8 tag)) as (P1 & P2 & P3); [rewrite le8_len; conc|done|].
  split_and!; [constructor| | |].
  - apply M2; [conc|]. right. left. vm_compute. discriminate.
  - done.
  - apply M3. conc.
  - done.
  - rewrite P2. reflexivity.
  - rewrite P3. reflexivity.
Qed.

Lemma small_of a b n : all_bytes (asegs a) <= b -> b < 2 ^ 31 -> (length (ar_segs a) <= n)%nat -> (n <= 3)%nat -> small a.
Proof. intros H1 H2 H3 H4. split; lia. Qed.
(** The limit suffices. *)
Lemma list_words a0 a r l : has_list a0 a r l -> 8 * words_of (blen l) <= all_bytes (asegs a).
Proof.
  intros (tp & i & [_ _ _ _ (cap & g & Hg & Hl)] & _). pose proof (seg_le _ _ _ (room_get _ _ _ _ Hg)). cbn [fst snd] in *. lia.
Qed.
Lemma decode_flatten a k m : wf a -> (1 <= length (ar_segs a))%nat -> small a -> reads (read_root (asegs a)) k m -> k <= 8 + all_bytes (asegs a) ->
  decode (flatten (asegs a)) = Some m.
Proof.
  intros Hw H1 [Hb Hn] Hr Hk. unfold decode, decode_run.
  assert (length (asegs a) = length (ar_segs a)) as Hlen by (unfold asegs; apply fmap_length).
  rewrite read_message_flatten; [|lia|done|lia].
  destruct (Hr (blen (flatten (asegs a)), 0)) as (s' & E & _); [|by rewrite E]. cbn [fst].
  rewrite flatten_header, blen_app, header_len. unfold all_bytes in Hk.
  generalize dependent (N.of_nat (length (asegs a)) / 2). intros. lia.
Qed.
Lemma segs_pos (a : arena) p n : room a p n -> (1 <= length (ar_segs a))%nat.
Proof. intros (cap & g & Hg & _). apply lookup_lt_Some in Hg. lia. Qed.

Definition single (tag : N) (l : bytes) : arena := put_list_raw (init_root tag) root_ptr l.
Lemma single_spec tag l : tag < 2 ^ 64 -> let a := single tag l in
  wf a /\ started a tag /\ has_list (init_root tag) a (0, 2) l /\ all_bytes (asegs a) <= blen l + 40 /\ (length (ar_segs a) <= 2)%nat.
Proof.
  intros Ht a. destruct (root_started tag Ht) as (Hst & Hw & Hb & Hn).
  destruct (moved_list (init_root tag) root_ptr l Hw (st_room _ _ Hst)) as [M HL]. pose proof M as [M1 M2 M3 M4 M5].
  fold (single tag l) in *. fold a in M1, M2, M3, M4, M5, HL, M. split_and!; [by apply M1| |done|lia|lia].
  eapply started_kept; [done|done| |]; right; left; vm_compute; discriminate.
Qed.

(** Messages that are a struct: [d] data words, [n] pointers. *)
Definition base (tag d n : N) : arena := (init_struct (init_root tag) root_ptr d n).2.
Record based (tag d n : N) : Prop := {
  ba_init : init_struct (init_root tag) root_ptr d n = ((0, 3), base tag d n);
  ba_wf : wf (base tag d n);
  ba_started : started (base tag d n) tag;
  ba_ptr : holds (base tag d n) (0, 2) (le8 (mk_struct 0 d n));
  ba_room : room (base tag d n) (0, 3) (8 * (d + n));
  ba_bytes : all_bytes (asegs (base tag d n)) = 24 + 8 * (d + n);
  ba_segs : length (ar_segs (base tag d n)) = 1%nat;
}.
Ltac based := constructor; [vm_compute; reflexivity|repeat constructor|constructor; conc|conc|conc|vm_compute; reflexivity|vm_compute; reflexivity].
Lemma based0 : based 0 1 2. Proof. based. Qed.
Lemma based1 : based 1 1 0. Proof. based. Qed.
Lemma based2 : based 2 1 1. Proof. based. Qed.
Lemma based3 : based 3 0 2. Proof. based. Qed.
Lemma based4 : based 4 0 2. Proof. based. Qed.

Ltac ap := first [left; vm_compute; discriminate | right; left; vm_compute; discriminate | right; right; vm_compute; discriminate].

Lemma sub_room a (p : place) n i k : room a p n -> 8 * i + k <= n -> room a (p.1, p.2 + i) k.
Proof. intros (cap & g & Hg & Hl) Hk. exists cap, g. cbn [fst snd]. split; [done|lia]. Qed.

(** Two lists, one after the other, and something in between. *)
Definition pair_of (a : arena) (r1 r2 : place) (l1 l2 : bytes) : arena := put_list_raw (put_list_raw a r1 l1) r2 l2.
Lemma pair_spec tag r1 r2 l1 l2 : based tag 0 2 -> tag < 2 ^ 64 -> r1 = (0, 3) -> r2 = (0, 4) -> let a := pair_of (base tag 0 2) r1 r2 l1 l2 in
  wf a /\ started a tag /\ holds a (0, 2) (le8 (mk_struct 0 0 2)) /\ room a (0, 3) 16
  /\ has_list (base tag 0 2) a r1 l1 /\ has_list (base tag 0 2) a r2 l2
  /\ all_bytes (asegs a) <= blen l1 + blen l2 + 72 /\ (length (ar_segs a) <= 3)%nat.
Proof.
  intros B Ht -> -> a. destruct B as [B1 B2 B3 B4 B5 B6 B7].
  pose proof (sub_room _ (0, 3) _ 0 8 B5 ltac:(lia)) as R1. pose proof (sub_room _ (0, 3) _ 1 8 B5 ltac:(lia)) as R2. cbn [fst snd] in R1, R2.
  change (3 + 0) with 3 in R1. change (3 + 1) with 4 in R2.
  destruct (moved_list (base tag 0 2) (0, 3) l1 B2 R1) as [M HL]. pose proof M as [M1 M2 M3 M4 M5].
  set (a1 := put_list_raw (base tag 0 2) (0, 3) l1) in *.
  destruct (moved_list a1 (0, 4) l2 (M1 B2) (M3 _ _ R2)) as [M' HL']. pose proof M' as [M1' M2' M3' M4' M5'].
  change (put_list_raw a1 (0, 4) l2) with a in *. split_and!.
  - by apply M1', M1.
  - eapply started_kept; [eapply started_kept; [exact B3|exact M|ap|ap]|exact M'|ap|ap].
  - apply M2'; [apply M2; [done|rewrite le8_len; ap]|rewrite le8_len; ap].
  - apply M3', M3. exact B5.
  - eapply has_list_kept; [exact HL|exact M'|exact R2|ap].
  - eapply has_list_later; [exact HL'|exact M3].
  - lia.
  - lia.
Qed.

(** Values a message can have in the code: 64-bit numbers, and a [String] is UTF-8. *)
Definition valid_msg (m : message) : Prop :=
  match m with
  | MAuthWithKey ts _ _ => ts < 2 ^ 64
  | MAuthWithPermit p => p < 2 ^ 64
  | MAuthResponse p c => p < 2 ^ 64 /\ utf8_ok c = true
  | _ => True
  end.
(** No list is too long for the format. *)
Definition fits (m : message) : Prop :=
  match m with
  | MAuthWithKey _ k s => blen k < 2 ^ 29 /\ blen s < 2 ^ 29
  | MAuthWithPermit _ => True
  | MAuthResponse _ c => blen c + 1 < 2 ^ 29
  | MDirect r b => blen r < 2 ^ 29 /\ blen b < 2 ^ 29
  | MBroadcast t b => blen t < 2 ^ 29 /\ blen b < 2 ^ 29
  | MSubscribe t | MUnsubscribe t => blen t < 2 ^ 29
  | MUserSync p | MTopicSync p => blen p < 2 ^ 29
  end.

Lemma put_list_some a r l a' : put_list (Some a) r l = Some a' -> blen l < 2 ^ 29 /\ a' = put_list_raw a r l.
Proof. unfold put_list. destruct (blen l <? 2 ^ 29) eqn:E; [|done]. apply N.ltb_lt in E. intros [= <-]. done. Qed.

(** The size on the wire. *)
Lemma flatten_size a n : all_bytes (asegs a) <= n -> (length (ar_segs a) <= 3)%nat -> blen (flatten (asegs a)) <= n + 16.
Proof.
  intros H1 H2. rewrite flatten_header, blen_app, header_len. unfold all_bytes in H1.
  assert (length (asegs a) = length (ar_segs a)) as -> by (unfold asegs; apply fmap_length).
  assert (N.of_nat (length (ar_segs a)) / 2 < 2) by (apply N.div_lt_upper_bound; lia).
  generalize dependent (N.of_nat (length (ar_segs a)) / 2). intros. lia.
Qed.

Section lists.
Context (a a0 : arena) (Hs : small a).
Lemma reads_data' r l : has_list a0 a r l -> room a r 8 -> blen l < 2 ^ 29 ->
  reads (read_data (asegs a) (Some r)) (1 + words_of (blen l)) l.
Proof. intros (tp & i & Hl & _) Hr Hb. by eapply reads_data. Qed.
Lemma reads_u8s' r l : has_list a0 a r l -> room a r 8 -> blen l < 2 ^ 29 ->
  reads (read_u8s (asegs a) (Some r)) (1 + words_of (blen l)) l.
Proof. intros (tp & i & Hl & _) Hr Hb. by eapply reads_u8s. Qed.
Lemma reads_text' r l : has_list a0 a r (l ++ [0]) -> room a r 8 -> blen l + 1 < 2 ^ 29 -> utf8_ok l = true ->
  reads (read_text (asegs a) (Some r)) (1 + words_of (blen l + 1)) l.
Proof. intros (tp & i & Hl & _) Hr Hb Hu. eapply reads_text; [done|done|done|lia|done]. Qed.
End lists.


Lemma reads_root a tag k m : small a -> started a tag -> tag < 2 ^ 64 -> reads (read_union (asegs a) tag (Some (0, 2))) k m ->
  reads (read_root (asegs a)) (k + 3) m.
Proof. intros Hs Hst Ht H. unfold read_root. exact (reads_started a tag (read_union (asegs a)) k m Hs Hst Ht H). Qed.
(** Decoding, given how the body reads. *)
Lemma decode_of a tag k m n : wf a -> started a tag -> tag < 2 ^ 64 -> all_bytes (asegs a) <= n -> n < 2 ^ 31 -> (length (ar_segs a) <= 3)%nat ->
  (small a -> reads (read_union (asegs a) tag (Some (0, 2))) k m) -> k <= 5 + all_bytes (asegs a) ->
  decode (flatten (asegs a)) = Some m /\ blen (flatten (asegs a)) <= n + 16.
Proof.
  intros Hw Hst Ht Hb Hn Hl Hr Hk. assert (small a) as Hs by (split; lia). split; [|by apply flatten_size].
  eapply decode_flatten; [done|eapply segs_pos, (st_room _ _ Hst)|done|eapply reads_root; [done|done|done|by apply Hr]|lia].
Qed.

Definition round (o : option arena) (m : message) (n : N) : Prop :=
  exists a, o = Some a /\ decode (flatten (asegs a)) = Some m /\ blen (flatten (asegs a)) <= n.
Lemma put_list_ok a r l : blen l < 2 ^ 29 -> put_list (Some a) r l = Some (put_list_raw a r l).
Proof. intros H. unfold put_list. apply N.ltb_lt in H. by rewrite H. Qed.


Lemma round_single tag l m : tag < 2 ^ 64 -> blen l < 2 ^ 29 ->
  (forall a, small a -> started a tag -> has_list (init_root tag) a (0, 2) l -> reads (read_union (asegs a) tag (Some (0, 2))) (1 + words_of (blen l)) m) ->
  round (put_list (Some (init_root tag)) root_ptr l) m (blen l + 56).
Proof.
  intros Ht Hl Hr. rewrite put_list_ok by done. exists (single tag l). split; [done|].
  destruct (single_spec tag l Ht) as (H1 & H2 & H3 & H4 & H5).
  replace (blen l + 56) with (blen l + 40 + 16) by lia.
  eapply decode_of; [done|done|done|done|lia|lia|intros Hs; by apply Hr|]. pose proof (list_words _ _ _ _ H3). lia.
Qed.
Lemma round_pair tag l1 l2 m : tag < 2 ^ 64 -> based tag 0 2 -> blen l1 < 2 ^ 29 -> blen l2 < 2 ^ 29 ->
  (forall a a0, small a -> holds a (0, 2) (le8 (mk_struct 0 0 2)) -> room a (0, 3) 16 ->
     has_list a0 a (0, 3) l1 -> has_list a0 a (0, 4) l2 ->
     reads (read_union (asegs a) tag (Some (0, 2))) (2 + (1 + words_of (blen l1)) + (1 + words_of (blen l2))) m) ->
  round (let '((s, i), a) := init_struct (init_root tag) root_ptr 0 2 in put_list (put_list (Some a) (s, i) l1) (s, i + 1)%N l2)
    m (blen l1 + blen l2 + 88).
Proof.
  intros Ht B Hl1 Hl2 Hr. rewrite (ba_init _ _ _ B). rewrite put_list_ok by done. change (3 + 1) with 4. rewrite put_list_ok by done.
  exists (pair_of (base tag 0 2) (0, 3) (0, 4) l1 l2). split; [done|].
  destruct (pair_spec tag (0, 3) (0, 4) l1 l2 B Ht eq_refl eq_refl) as (H1 & H2 & H3 & H4 & H5 & H6 & H7 & H8).
  replace (blen l1 + blen l2 + 88) with (blen l1 + blen l2 + 72 + 16) by lia.
  eapply decode_of; [done|done|done|done|lia|done|intros Hs; by eapply Hr|].
  pose proof (list_words _ _ _ _ H5). pose proof (list_words _ _ _ _ H6). lia.
Qed.

Lemma build_round m : valid_msg m -> fits m -> round (build m) m (msg_size m + 104).
Proof.
  assert (forall o m n n', round o m n -> n <= n' -> round o m n') as Hmono.
  { intros o m' n n' (a & H1 & H2 & H3) Hn. exists a. split_and!; [done|done|lia]. }
  intros Hv Hf. destruct m as [ts key sig|permit|permit context|recipient body|topics body|topics|topics|payload|payload];
    cbn [valid_msg fits msg_size] in *; unfold build.
  - (* AuthenticateWithKey *)
    destruct Hf as [Hk Hg]. rewrite (ba_init _ _ _ based0). cbn beta iota. change (3 + 1) with 4. change (3 + 2) with 5.
    rewrite put_list_ok by done. cbn beta iota. rewrite put_list_ok by done. destruct based0 as [_ B2 B3 B4 B5 B6 B7].
    set (a0 := base 0 1 2) in *.
    assert (room a0 (0, 3) 8) as R1 by (apply (sub_room _ (0, 3) _ 0 8 B5); lia).
    assert (room a0 (0, 4) 8) as R2 by (apply (sub_room _ (0, 3) _ 1 8 B5); lia).
    assert (room a0 (0, 5) 8) as R3 by (apply (sub_room _ (0, 3) _ 2 8 B5); lia).
    destruct (moved_list a0 (0, 4) key B2 R2) as [M HL]. pose proof M as [M1 M2 M3 M4 M5].
    set (a1 := put_list_raw a0 (0, 4) key) in *.
    destruct (moved_put a1 (0, 3) ts (M1 B2) (M3 _ _ R1)) as (P & HT & Hseg). pose proof P as [P1 P2 P3 P4 P5].
    set (a2 := put a1 (0, 3) (le8 ts)) in *.
    destruct (moved_list a2 (0, 5) sig (P1 (M1 B2)) (P3 _ _ (M3 _ _ R3))) as [Q HQ]. pose proof Q as [Q1 Q2 Q3 Q4 Q5].
    set (a := put_list_raw a2 (0, 5) sig) in *.
    assert (has_list a0 a (0, 4) key) as L1.
    { eapply has_list_kept; [eapply has_list_kept; [exact HL|exact P|exact R1|ap]|exact Q|exact R3|ap]. }
    assert (has_list a0 a (0, 5) sig) as L2.
    { eapply has_list_later; [exact HQ|]. intros p k Hp. by apply P3, M3. }
    assert (started a 0) as Hst.
    { eapply started_kept; [eapply started_kept; [eapply started_kept; [exact B3|exact M|ap|ap]|exact P|ap|ap]|exact Q|ap|ap]. }
    exists a. split; [done|]. replace (blen key + blen sig + 104) with (blen key + blen sig + 88 + 16) by lia.
    eapply (decode_of a 0 (3 + (1 + words_of (blen key)) + (1 + words_of (blen sig)))).
    { by apply Q1, P1, M1. } { done. } { lia. } { lia. } { lia. } { lia. }
    2:{ pose proof (list_words _ _ _ _ L1). pose proof (list_words _ _ _ _ L2). lia. }
    intros Hs. unfold read_union. change (0 mod 2 ^ 16) with 0. cbv iota.
    eapply (reads_bind _ _ 3 ((1 + words_of (blen key)) + (1 + words_of (blen sig))) _ (SR (0, 3) 1 2)); [| |lia].
    { apply (reads_struct a (0, 2) 1 2); [lia|lia|lia| |].
      - apply Q2; [apply P2; [apply M2; [done|rewrite le8_len; ap]|rewrite le8_len; ap]|rewrite le8_len; ap].
      - apply Q3, P3, M3. exact B5. }
    eapply (reads_bind _ _ (1 + words_of (blen key)) (1 + words_of (blen sig)) _ key); [| |lia].
    { eapply reads_data'; [done|exact L1|by apply Q3, P3, M3|done]. }
    eapply (reads_bind _ _ 0 (1 + words_of (blen sig)) _ ts); [| |lia].
    { apply reads_field; [lia|done|]. apply Q2; [done|rewrite le8_len; ap]. }
    eapply (reads_bind _ _ (1 + words_of (blen sig)) 0 _ sig); [|apply reads_ret|lia].
    eapply reads_data'; [done|exact L2|by apply Q3, P3, M3|done].
  - (* AuthenticateWithPermit *)
    rewrite (ba_init _ _ _ based1). destruct based1 as [_ B2 B3 B4 B5 B6 B7]. set (a0 := base 1 1 0) in *.
    destruct (moved_put a0 (0, 3) permit B2 B5) as (P & HT & Hseg). pose proof P as [P1 P2 P3 P4 P5].
    set (a := put a0 (0, 3) (le8 permit)) in *.
    assert (started a 1) as Hst by (eapply started_kept; [exact B3|exact P|ap|ap]).
    exists a. split; [done|]. replace (0 + 104) with (88 + 16) by lia.
    eapply (decode_of a 1 1); [by apply P1|done|lia|lia|lia|lia| |lia].
    intros Hs. unfold read_union. change (1 mod 2 ^ 16) with 1. cbv iota.
    eapply (reads_bind _ _ 1 0 _ (SR (0, 3) 1 0)); [| |lia].
    { apply (reads_struct a (0, 2) 1 0); [lia|lia|lia| |].
      - apply P2; [done|rewrite le8_len; ap].
      - apply P3. exact B5. }
    eapply (reads_bind _ _ 0 0 _ permit); [|apply reads_ret|lia]. apply reads_field; [lia|done|done].
  - (* AuthenticateResponse *)
    destruct Hv as [Hp Hu]. rewrite (ba_init _ _ _ based2). cbn beta iota. change (3 + 1) with 4.
    assert (blen (context ++ [0]) = blen context + 1) as Hlen by (by rewrite blen_app).
    rewrite put_list_ok by lia. destruct based2 as [_ B2 B3 B4 B5 B6 B7]. set (a0 := base 2 1 1) in *.
    assert (room a0 (0, 3) 8) as R1 by (apply (sub_room _ (0, 3) _ 0 8 B5); lia).
    assert (room a0 (0, 4) 8) as R2 by (apply (sub_room _ (0, 3) _ 1 8 B5); lia).
    destruct (moved_put a0 (0, 3) permit B2 R1) as (P & HT & Hseg). pose proof P as [P1 P2 P3 P4 P5].
    set (a1 := put a0 (0, 3) (le8 permit)) in *.
    destruct (moved_list a1 (0, 4) (context ++ [0]) (P1 B2) (P3 _ _ R2)) as [Q HQ]. pose proof Q as [Q1 Q2 Q3 Q4 Q5].
    set (a := put_list_raw a1 (0, 4) (context ++ [0])) in *.
    assert (started a 2) as Hst by (eapply started_kept; [eapply started_kept; [exact B3|exact P|ap|ap]|exact Q|ap|ap]).
    exists a. split; [done|]. replace (blen context + 104) with (blen context + 88 + 16) by lia.
    eapply (decode_of a 2 (2 + (1 + words_of (blen context + 1)))).
    { by apply Q1, P1. } { done. } { lia. } { lia. } { lia. } { lia. }
    2:{ pose proof (list_words _ _ _ _ HQ) as HW. rewrite Hlen in HW. lia. }
    intros Hs. unfold read_union. change (2 mod 2 ^ 16) with 2. cbv iota.
    eapply (reads_bind _ _ 2 (1 + words_of (blen context + 1)) _ (SR (0, 3) 1 1)); [| |lia].
    { apply (reads_struct a (0, 2) 1 1); [lia|lia|lia| |].
      - apply Q2; [apply P2; [done|rewrite le8_len; ap]|rewrite le8_len; ap].
      - apply Q3, P3. exact B5. }
    eapply (reads_bind _ _ 0 (1 + words_of (blen context + 1)) _ permit); [| |lia].
    { apply reads_field; [lia|done|]. apply Q2; [done|rewrite le8_len; ap]. }
    eapply (reads_bind _ _ (1 + words_of (blen context + 1)) 0 _ context); [|apply reads_ret|lia].
    eapply reads_text'; [done|exact HQ|by apply Q3, P3|done|done].
  - (* Direct *)
    destruct Hf as [Hr Hb]. eapply Hmono; [eapply round_pair; [lia|exact based3|done|done|]|lia].
    intros a a0 Hs Hh Hroom L1 L2. unfold read_union. change (3 mod 2 ^ 16) with 3. cbv iota.
    eapply (reads_bind _ _ 2 ((1 + words_of (blen recipient)) + (1 + words_of (blen body))) _ (SR (0, 3) 0 2)); [| |lia].
    { apply (reads_struct a (0, 2) 0 2); [lia|lia|lia|done|exact Hroom]. }
    eapply (reads_bind _ _ (1 + words_of (blen recipient)) (1 + words_of (blen body)) _ recipient); [| |lia].
    { eapply reads_data'; [done|exact L1|apply (sub_room _ (0, 3) _ 0 8 Hroom); lia|done]. }
    eapply (reads_bind _ _ (1 + words_of (blen body)) 0 _ body); [|apply reads_ret|lia].
    eapply reads_data'; [done|exact L2|apply (sub_room _ (0, 3) _ 1 8 Hroom); lia|done].
  - (* Broadcast *)
    destruct Hf as [Hr Hb]. eapply Hmono; [eapply round_pair; [lia|exact based4|done|done|]|lia].
    intros a a0 Hs Hh Hroom L1 L2. unfold read_union. change (4 mod 2 ^ 16) with 4. cbv iota.
    eapply (reads_bind _ _ 2 ((1 + words_of (blen topics)) + (1 + words_of (blen body))) _ (SR (0, 3) 0 2)); [| |lia].
    { apply (reads_struct a (0, 2) 0 2); [lia|lia|lia|done|exact Hroom]. }
    eapply (reads_bind _ _ (1 + words_of (blen topics)) (1 + words_of (blen body)) _ topics); [| |lia].
    { eapply reads_u8s'; [done|exact L1|apply (sub_room _ (0, 3) _ 0 8 Hroom); lia|done]. }
    eapply (reads_bind _ _ (1 + words_of (blen body)) 0 _ body); [|apply reads_ret|lia].
    eapply reads_data'; [done|exact L2|apply (sub_room _ (0, 3) _ 1 8 Hroom); lia|done].
  - eapply Hmono; [eapply round_single; [lia|done|]|lia]. intros a Hs [S1 S2 S3] HL. unfold read_union. change (5 mod 2 ^ 16) with 5. cbv iota.
    eapply (reads_bind _ _ (1 + words_of (blen topics)) 0 _ topics); [by eapply reads_u8s'|apply reads_ret|lia].
  - eapply Hmono; [eapply round_single; [lia|done|]|lia]. intros a Hs [S1 S2 S3] HL. unfold read_union. change (6 mod 2 ^ 16) with 6. cbv iota.
    eapply (reads_bind _ _ (1 + words_of (blen topics)) 0 _ topics); [by eapply reads_u8s'|apply reads_ret|lia].
  - eapply Hmono; [eapply round_single; [lia|done|]|lia]. intros a Hs [S1 S2 S3] HL. unfold read_union. change (7 mod 2 ^ 16) with 7. cbv iota.
    eapply (reads_bind _ _ (1 + words_of (blen payload)) 0 _ payload); [by eapply reads_data'|apply reads_ret|lia].
  - eapply Hmono; [eapply round_single; [lia|done|]|lia]. intros a Hs [S1 S2 S3] HL. unfold read_union. change (8 mod 2 ^ 16) with 8. cbv iota.
    eapply (reads_bind _ _ (1 + words_of (blen payload)) 0 _ payload); [by eapply reads_data'|apply reads_ret|lia].
Qed.

(** Encoding succeeds exactly if no list is too long. *)
Lemma build_some m : is_Some (build m) <-> fits m.
Proof.
  assert (forall o r l, is_Some (put_list o r l) <-> is_Some o /\ blen l < 2 ^ 29) as Hp.
  { intros [a|] r l; cbn [put_list]; [|split; [intros [? [=]]|intros [[? [=]] _]]].
    destruct (blen l <? 2 ^ 29) eqn:E.
    - apply N.ltb_lt in E. split; [intros _; split; [by eexists|done]|intros _; by eexists].
    - apply N.ltb_ge in E. split; [intros [? [=]]|intros [_ H]; lia]. }
  assert (forall a : arena, is_Some (Some a)) as Hs by (intros; by eexists).
  destruct m; unfold build, fits;
    rewrite ?(ba_init _ _ _ based0), ?(ba_init _ _ _ based1), ?(ba_init _ _ _ based2), ?(ba_init _ _ _ based3), ?(ba_init _ _ _ based4).
  1: { destruct (put_list (Some (base 0 1 2)) _ _) as [a|] eqn:E.
       - pose proof (proj1 (Hp _ _ _) (ex_intro _ _ E)) as [_ H1]. rewrite Hp. naive_solver.
       - split; [intros [? [=]]|]. intros [H1 _]. rewrite put_list_ok in E by done. discriminate. }
  all: rewrite ?Hp, ?blen_app; try (split; [done|intros; done]).
  all: try (change (blen [0]) with 1; naive_solver).
Qed.
Lemma encode_build m bs : encode m = Some bs <-> exists a, build m = Some a /\ bs = flatten (asegs a).
Proof.
  unfold encode, asegs. destruct (build m) as [a|]; cbn; [|naive_solver]. split.
  - intros [= <-]. by exists a.
  - intros (a' & [= <-] & ->). done.
Qed.

(** Bytes stay bytes. *)
Definition octets (l : bytes) : Prop := Forall (fun b => b < 256) l.
Definition octets_in (m : message) : Prop :=
  match m with
  | MAuthWithKey _ k s => octets k /\ octets s
  | MAuthWithPermit _ => True
  | MAuthResponse _ c => octets c
  | MDirect r b => octets r /\ octets b
  | MBroadcast t b => octets t /\ octets b
  | MSubscribe t | MUnsubscribe t => octets t
  | MUserSync p | MTopicSync p => octets p
  end.
Lemma octets_le k n : octets (le_bytes k n).
Proof. revert n. induction k as [|k IH]; intros n; cbn [le_bytes]; constructor; [apply N.mod_lt; lia|apply IH]. Qed.
Lemma octets_zeros n : octets (zeros n).
Proof. apply Forall_replicate. lia. Qed.
Lemma octets_overwrite o new l : octets new -> octets l -> octets (overwrite o new l).
Proof. intros H1 H2. unfold overwrite. apply Forall_app; split; [by apply Forall_take|]. apply Forall_app; split; [done|by apply Forall_drop]. Qed.
Definition octets_arena (a : arena) : Prop := Forall (fun s => octets s.2) (ar_segs a).
Lemma octets_put a p new : octets_arena a -> octets new -> octets_arena (put a p new).
Proof.
  intros Ha Hn. unfold put. destruct (seg_get a p.1) as [[cap mem]|] eqn:E; [|done]. unfold octets_arena. cbn [ar_segs].
  apply Forall_insert; [done|]. cbn [snd]. apply octets_overwrite; [done|]. exact (Forall_lookup_1 _ _ _ _ Ha E).
Qed.
Lemma octets_alloc_in a s n i a' : octets_arena a -> alloc_in a s n = Some (i, a') -> octets_arena a'.
Proof.
  intros Ha. unfold alloc_in. destruct (seg_get a s) as [[cap mem]|] eqn:E; [|done]. cbn zeta. destruct (_ <=? _); [|done].
  intros [= _ <-]. unfold octets_arena. cbn [ar_segs]. apply Forall_insert; [done|]. cbn [snd]. apply Forall_app; split; [|apply octets_zeros].
  exact (Forall_lookup_1 _ _ _ _ Ha E).
Qed.
Lemma octets_alloc a r n : octets_arena a -> octets_arena (alloc a r n).2.
Proof.
  intros Ha. unfold alloc. destruct (alloc_in a r.1 n) as [[i a']|] eqn:E; [by eapply octets_alloc_in|].
  destruct (alloc_anywhere a (n + 1)) as [[s i] a'] eqn:E'. cbn [snd]. apply octets_put; [|apply octets_le].
  unfold alloc_anywhere in E'. destruct (alloc_first _ _ _) as [[p a'']|] eqn:E2.
  - injection E' as -> <-. revert E2. generalize (seq 0 (length (ar_segs a))). intros ss. induction ss as [|s0 ss IH]; cbn [alloc_first]; [done|].
    destruct (alloc_in a (N.of_nat s0) (n + 1)) as [[i0 a0]|] eqn:E3; [|exact IH]. intros [= _ _ <-]. by eapply octets_alloc_in.
  - injection E' as _ _ <-. apply Forall_app; split; [done|]. constructor; [apply octets_zeros|constructor].
Qed.
Lemma octets_init_struct a r d n : octets_arena a -> octets_arena (init_struct a r d n).2.
Proof.
  intros Ha. unfold init_struct. pose proof (octets_alloc a r (d + n) Ha) as H. destruct (alloc a r (d + n)) as [[[s t] i] a'].
  cbn [snd] in *. apply octets_put; [done|apply octets_le].
Qed.
Lemma octets_put_list a r l : octets_arena a -> octets l -> octets_arena (put_list_raw a r l).
Proof.
  intros Ha Hl. unfold put_list_raw. pose proof (octets_alloc a r (words_of (blen l)) Ha) as H. destruct (alloc _ _ _) as [[[s t] i] a'].
  cbn [snd] in *. apply octets_put; [|done]. apply octets_put; [done|apply octets_le].
Qed.
Lemma octets_root tag : octets_arena (init_root tag).
Proof.
  unfold init_root. pose proof (octets_init_struct arena_root (0, 0) 1 1) as H. destruct (init_struct _ _ _ _) as [p a]. cbn [snd] in H.
  apply octets_put; [apply H|apply octets_le]. constructor; [apply octets_zeros|constructor].
Qed.
Lemma octets_flatten segs : Forall octets segs -> octets (flatten segs).
Proof.
  intros H. unfold flatten. repeat (apply Forall_app; split).
  - apply octets_le.
  - induction segs as [|s ss IH]; cbn [flat_map]; [constructor|]. apply Forall_app; split; [apply octets_le|apply IH; by inversion H].
  - destruct (Nat.even _); [apply octets_zeros|constructor].
  - induction H; cbn [concat]; [constructor|]. by apply Forall_app.
Qed.
Lemma build_octets m a : octets_in m -> build m = Some a -> octets_arena a.
Proof.
  assert (forall o r l a, (forall a, o = Some a -> octets_arena a) -> octets l -> put_list o r l = Some a -> octets_arena a) as Hp.
  { intros [a0|] r l a' H Hl; cbn [put_list]; [|done]. destruct (_ <? _); [|done]. intros [= <-]. apply octets_put_list; [by apply H|done]. }
  assert (forall tag d n, octets_arena (init_struct (init_root tag) root_ptr d n).2) as Hb by (intros; apply octets_init_struct, octets_root).
  pose proof octets_root as Hroot.
  destruct m as [ts key sig|permit|permit context|recipient body|topics body|topics|topics|payload|payload]; cbn [octets_in]; unfold build; intros Hm.
  - specialize (Hb 0 1 2). destruct (init_struct _ _ _ _) as [[s i] a0]. destruct Hm. cbn [snd] in Hb.
    destruct (put_list (Some a0) _ key) as [a1|] eqn:E; [|done].
    apply Hp in E; [|by intros ? [= <-]|done]. intros H'. eapply Hp; [|eassumption|exact H']. intros ? [= <-]. by apply octets_put; [|apply octets_le].
  - specialize (Hb 1 1 0). destruct (init_struct _ _ _ _) as [p a0]. cbn [snd] in Hb. intros [= <-]. by apply octets_put; [|apply octets_le].
  - specialize (Hb 2 1 1). destruct (init_struct _ _ _ _) as [[s i] a0]. cbn [snd] in Hb. apply Hp.
    + intros ? [= <-]. by apply octets_put; [|apply octets_le].
    + apply Forall_app; split; [done|]. repeat constructor.
  - specialize (Hb 3 0 2). destruct (init_struct _ _ _ _) as [[s i] a0]. destruct Hm. cbn [snd] in Hb. apply Hp; [|done].
    intros a1. apply Hp; [|done]. by intros ? [= <-].
  - specialize (Hb 4 0 2). destruct (init_struct _ _ _ _) as [[s i] a0]. destruct Hm. cbn [snd] in Hb. apply Hp; [|done].
    intros a1. apply Hp; [|done]. by intros ? [= <-].
  - apply Hp; [|done]. by intros ? [= <-].
  - apply Hp; [|done]. by intros ? [= <-].
  - apply Hp; [|done]. by intros ? [= <-].
  - apply Hp; [|done]. by intros ? [= <-].
Qed.

Lemma encode_decode m bs : valid_msg m -> encode m = Some bs -> decode bs = Some m /\ blen bs <= msg_size m + 104.
Proof.
  intros Hv He. apply encode_build in He as (a & Hb & ->). assert (fits m) as Hf by (apply build_some; by eexists).
  destruct (build_round m Hv Hf) as (a' & H1 & H2 & H3). rewrite Hb in H1. by injection H1 as <-.
Qed.
