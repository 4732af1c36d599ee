(** Decoding what was encoded (C45). *)
From stdpp Require Import list list_numbers.
From Coq Require Import NArith ZArith Lia.
From Verif Require Import IdModel MsgModel AuthModel WireModel CodecModel CodecSafe.
Local Open Scope N_scope.

(** * Bytes *)
Lemma le_bytes_len k n : length (le_bytes k n) = k.
Proof. revert n. induction k; intros n; cbn [le_bytes length]; [done|by rewrite IHk]. Qed.
Lemma le_val_bytes k : forall n, le_val (le_bytes k n) = n mod 256 ^ N.of_nat k.
Proof.
  induction k as [|k IH]; intros n.
  - cbn [le_bytes le_val foldr]. change (256 ^ N.of_nat 0) with 1. by rewrite N.mod_1_r.
  - cbn [le_bytes]. change (le_val (n mod 256 :: le_bytes k (n / 256))) with (n mod 256 + 256 * le_val (le_bytes k (n / 256))).
    rewrite IH. replace (N.of_nat (S k)) with (N.succ (N.of_nat k)) by lia. rewrite N.pow_succ_r'.
    rewrite N.mod_mul_r; [done|lia|]. apply N.pow_nonzero. lia.
Qed.
Lemma le8_len n : blen (le8 n) = 8.
Proof. unfold blen, le8. by rewrite le_bytes_len. Qed.
Lemma le8_val n : n < 2 ^ 64 -> le_val (le8 n) = n.
Proof. intros H. unfold le8. rewrite le_val_bytes. by apply N.mod_small. Qed.
Lemma le4_len n : blen (le4 n) = 4.
Proof. unfold blen, le4. by rewrite le_bytes_len. Qed.
Lemma le4_val n : n < 2 ^ 32 -> le_val (le4 n) = n.
Proof. intros H. unfold le4. rewrite le_val_bytes. by apply N.mod_small. Qed.
Lemma blen_zeros n : blen (zeros n) = n.
Proof. unfold blen, zeros. rewrite replicate_length. lia. Qed.

Lemma slice_lookup o n (l : bytes) i :
  slice o n l !! i = if (N.of_nat i <? n) then l !! (N.to_nat o + i)%nat else None.
Proof.
  unfold slice. destruct (N.of_nat i <? n) eqn:E.
  - apply N.ltb_lt in E. rewrite lookup_take by lia. by rewrite lookup_drop.
  - apply N.ltb_ge in E. rewrite lookup_take_ge by lia. done.
Qed.
Lemma blen_overwrite o new (l : bytes) : o + blen new <= blen l -> blen (overwrite o new l) = blen l.
Proof. unfold blen, overwrite. rewrite !app_length, take_length, drop_length. lia. Qed.
Lemma overwrite_lookup o new (l : bytes) i : o + blen new <= blen l ->
  overwrite o new l !! i =
    if (N.of_nat i <? o) then l !! i
    else if (N.of_nat i <? o + blen new) then new !! (i - N.to_nat o)%nat else l !! i.
Proof.
  unfold blen, overwrite. intros H. destruct (N.of_nat i <? o) eqn:E1.
  - apply N.ltb_lt in E1. rewrite lookup_app_l by (rewrite take_length; lia). by rewrite lookup_take by lia.
  - apply N.ltb_ge in E1. rewrite lookup_app_r by (rewrite take_length; lia).
    rewrite take_length. replace (N.to_nat o `min` length l)%nat with (N.to_nat o) by lia.
    destruct (N.of_nat i <? o + N.of_nat (length new)) eqn:E2.
    + apply N.ltb_lt in E2. by rewrite lookup_app_l by lia.
    + apply N.ltb_ge in E2. rewrite lookup_app_r by lia. rewrite lookup_drop. f_equal. lia.
Qed.
Lemma slice_overwrite o new (l : bytes) : o + blen new <= blen l -> slice o (blen new) (overwrite o new l) = new.
Proof.
  intros H. apply list_eq. intros i. rewrite slice_lookup. destruct (N.of_nat i <? blen new) eqn:E.
  - apply N.ltb_lt in E. rewrite overwrite_lookup by done.
    replace (N.of_nat (N.to_nat o + i) <? o) with false by (symmetry; apply N.ltb_ge; lia).
    replace (N.of_nat (N.to_nat o + i) <? o + blen new) with true by (symmetry; apply N.ltb_lt; lia).
    f_equal. lia.
  - apply N.ltb_ge in E. symmetry. apply lookup_ge_None. unfold blen in E. lia.
Qed.
Lemma slice_overwrite_other o new o' n (l : bytes) :
  o + blen new <= blen l -> o' + n <= o \/ o + blen new <= o' -> slice o' n (overwrite o new l) = slice o' n l.
Proof.
  intros H Hd. apply list_eq. intros i. rewrite !slice_lookup. destruct (N.of_nat i <? n) eqn:E; [|done].
  apply N.ltb_lt in E. rewrite overwrite_lookup by done.
  destruct (N.of_nat (N.to_nat o' + i) <? o) eqn:E1; [done|]. apply N.ltb_ge in E1.
  destruct (N.of_nat (N.to_nat o' + i) <? o + blen new) eqn:E2; [|done]. apply N.ltb_lt in E2. lia.
Qed.
Lemma slice_app_l o n (a b : bytes) : o + n <= blen a -> slice o n (a ++ b) = slice o n a.
Proof.
  intros H. apply list_eq. intros i. rewrite !slice_lookup. destruct (N.of_nat i <? n) eqn:E; [|done].
  apply N.ltb_lt in E. apply lookup_app_l. unfold blen in H. lia.
Qed.
Lemma slice_app_r n (a b : bytes) o : o = blen a -> n <= blen b -> slice o n (a ++ b) = slice 0 n b.
Proof.
  intros -> H. unfold slice. rewrite drop_app_ge by (unfold blen; lia).
  replace (N.to_nat (blen a) - length a)%nat with 0%nat by (unfold blen; lia). done.
Qed.
Lemma slice_all (l : bytes) : slice 0 (blen l) l = l.
Proof. unfold slice. rewrite drop_0. apply take_ge. unfold blen. lia. Qed.

(** * The arena *)
Definition room (a : arena) (p : place) (n : N) : Prop :=
  exists cap g, seg_get a p.1 = Some (cap, g) /\ 8 * p.2 + n <= blen g.
(** The bytes at [p]. *)
Definition holds (a : arena) (p : place) (l : bytes) : Prop :=
  exists cap g, seg_get a p.1 = Some (cap, g) /\ 8 * p.2 + blen l <= blen g /\ slice (8 * p.2) (blen l) g = l.
Definition apart (p : place) (n : N) (q : place) (k : N) : Prop :=
  p.1 <> q.1 \/ 8 * p.2 + n <= 8 * q.2 \/ 8 * q.2 + k <= 8 * p.2.
Definition asegs (a : arena) : list bytes := snd <$> ar_segs a.
Definition wf (a : arena) : Prop := Forall (fun g => blen g mod 8 = 0) (asegs a).

Lemma room_get (a : arena) (s : N) cap g : seg_get a s = Some (cap, g) -> asegs a !! N.to_nat s = Some g.
Proof. unfold seg_get, asegs. intros H. rewrite list_lookup_fmap, H. done. Qed.
Lemma holds_room a p l : holds a p l -> room a p (blen l).
Proof. intros (cap & g & H1 & H2 & _). by exists cap, g. Qed.

Lemma put_get a p new s : seg_get (put a p new) s =
  match seg_get a p.1 with
  | Some (cap, g) => if decide (s = p.1) then Some (cap, overwrite (8 * p.2) new g) else seg_get a s
  | None => seg_get a s
  end.
Proof.
  unfold put. destruct (seg_get a p.1) as [[cap g]|] eqn:E; [|done]. unfold seg_get in *. cbn [ar_segs].
  destruct (decide (s = p.1)) as [->|Hne].
  - apply list_lookup_insert. by apply lookup_lt_Some in E.
  - apply list_lookup_insert_ne. lia.
Qed.
Lemma put_room a p new q n : room a p (blen new) -> room a q n -> room (put a p new) q n.
Proof.
  intros (cap & g & Hg & Hl) (cap' & g' & Hg' & Hl'). unfold room. rewrite put_get, Hg.
  destruct (decide (q.1 = p.1)) as [He|Hne]; [|by exists cap', g'].
  exists cap, (overwrite (8 * p.2) new g). split; [done|]. rewrite blen_overwrite by done.
  rewrite He in Hg'. congruence.
Qed.
Lemma put_same a p new : room a p (blen new) -> holds (put a p new) p new.
Proof.
  intros (cap & g & Hg & Hl). unfold holds. rewrite put_get, Hg, decide_True by done.
  exists cap, (overwrite (8 * p.2) new g). rewrite blen_overwrite by done. split_and!; [done|done|by apply slice_overwrite].
Qed.
Lemma put_frame a p new q l : room a p (blen new) -> apart q (blen l) p (blen new) -> holds a q l -> holds (put a p new) q l.
Proof.
  intros (cap & g & Hg & Hl) Hd (cap' & g' & Hg' & Hl' & Hs). unfold holds. rewrite put_get, Hg.
  destruct (decide (q.1 = p.1)) as [He|Hne]; [|by exists cap', g'].
  rewrite He in Hg'. rewrite Hg in Hg'. injection Hg' as <- <-.
  exists cap, (overwrite (8 * p.2) new g). rewrite blen_overwrite by done. split_and!; [done|done|].
  rewrite slice_overwrite_other; [done|done|]. destruct Hd as [Hd|Hd]; [done|]. lia.
Qed.
Lemma insert_concat (l : list bytes) i x y : l !! i = Some x -> blen y = blen x -> blen (concat (<[i := y]> l)) = blen (concat l).
Proof.
  intros H Hb. rewrite <- (take_drop_middle l i x H) at 2. rewrite insert_take_drop by (by apply lookup_lt_Some in H).
  rewrite !concat_app. cbn [concat]. rewrite !blen_app. lia.
Qed.
Lemma asegs_insert a s cap g next : asegs (Arena (<[s := (cap, g)]> (ar_segs a)) next) = <[s := g]> (asegs a).
Proof. unfold asegs. cbn [ar_segs]. by rewrite (list_fmap_insert snd). Qed.
Lemma put_wf a p new : room a p (blen new) -> wf a ->
  wf (put a p new) /\ all_bytes (asegs (put a p new)) = all_bytes (asegs a)
  /\ length (ar_segs (put a p new)) = length (ar_segs a).
Proof.
  intros (cap & g & Hg & Hl) Hw. pose proof (room_get _ _ _ _ Hg) as Hs. unfold put, wf. rewrite Hg.
  rewrite asegs_insert. cbn [ar_segs]. rewrite insert_length. split_and!; [|by apply insert_concat with g; [|rewrite blen_overwrite]|done].
  apply Forall_insert; [done|]. rewrite blen_overwrite by done.
  apply (proj1 (Forall_lookup _ _) Hw _ _ Hs).
Qed.

(** [a'] is [a] with [n] zero words added at [(s, i)]. *)
Definition grown (a a' : arena) (s i n : N) : Prop :=
  (exists cap g, seg_get a s = Some (cap, g) /\ blen g = 8 * i
     /\ ar_segs a' = <[N.to_nat s := (cap, g ++ zeros (8 * n))]> (ar_segs a))
  \/ (exists cap, s = N.of_nat (length (ar_segs a)) /\ i = 0
     /\ ar_segs a' = ar_segs a ++ [(cap, zeros (8 * n))]).

Lemma grown_holds a a' s i n p l : grown a a' s i n -> holds a p l -> holds a' p l.
Proof.
  intros Hg (cap & g & Hp & Hl & Hs). unfold holds, seg_get in *. destruct Hg as [(cap' & g' & Hg & Hi & ->)|(cap' & Hs' & Hi & ->)].
  - destruct (decide (p.1 = s)) as [He|Hne].
    + subst s. unfold seg_get in Hg. rewrite Hp in Hg. injection Hg as <- <-. exists cap, (g ++ zeros (8 * n)).
      rewrite list_lookup_insert by (by apply lookup_lt_Some in Hp). rewrite blen_app. split_and!; [done|lia|].
      by rewrite slice_app_l.
    + exists cap, g. rewrite list_lookup_insert_ne by lia. done.
  - exists cap, g. rewrite lookup_app_l by (by apply lookup_lt_Some in Hp). done.
Qed.
Lemma grown_rooms a a' s i n p k : grown a a' s i n -> room a p k -> room a' p k.
Proof.
  intros Hg (cap & g & Hp & Hl). unfold room, seg_get in *. destruct Hg as [(cap' & g' & Hg & Hi & ->)|(cap' & Hs' & Hi & ->)].
  - destruct (decide (p.1 = s)) as [He|Hne].
    + subst s. unfold seg_get in Hg. rewrite Hp in Hg. injection Hg as <- <-. exists cap, (g ++ zeros (8 * n)).
      rewrite list_lookup_insert by (by apply lookup_lt_Some in Hp). rewrite blen_app. split; [done|lia].
    + exists cap, g. rewrite list_lookup_insert_ne by lia. done.
  - exists cap, g. rewrite lookup_app_l by (by apply lookup_lt_Some in Hp). done.
Qed.
Lemma grown_room a a' s i n : grown a a' s i n -> room a' (s, i) (8 * n).
Proof.
  unfold room, seg_get. intros [(cap & g & Hg & Hi & ->)|(cap & Hs & -> & ->)]; cbn [fst snd].
  - exists cap, (g ++ zeros (8 * n)). unfold seg_get in Hg.
    rewrite list_lookup_insert by (by apply lookup_lt_Some in Hg). rewrite blen_app, blen_zeros. split; [done|lia].
  - exists cap, (zeros (8 * n)). subst s. rewrite Nat2N.id, lookup_app_r, Nat.sub_diag by lia. rewrite blen_zeros. split; [done|lia].
Qed.
Lemma grown_fresh a a' s i n p k : grown a a' s i n -> room a p k -> p.1 <> s \/ 8 * p.2 + k <= 8 * i.
Proof.
  unfold room, seg_get. intros [(cap & g & Hg & Hi & _)|(cap & Hs & Hi & _)] (cap' & g' & Hp & Hl).
  - destruct (decide (p.1 = s)) as [He|]; [|by left]. right. rewrite He in Hp. unfold seg_get in Hg. rewrite Hp in Hg. injection Hg as <- <-. lia.
  - left. apply lookup_lt_Some in Hp. lia.
Qed.
Lemma grown_wf a a' s i n : grown a a' s i n -> wf a ->
  wf a' /\ all_bytes (asegs a') = all_bytes (asegs a) + 8 * n /\ (length (ar_segs a') <= S (length (ar_segs a)))%nat.
Proof.
  unfold wf, all_bytes, asegs. intros [(cap & g & Hg & Hi & ->)|(cap & Hs & -> & ->)] Hw.
  - pose proof (room_get _ _ _ _ Hg) as Hs. unfold asegs in Hs.
    rewrite (list_fmap_insert snd). cbn [snd]. rewrite insert_length. split_and!; [| |lia].
    + apply Forall_insert; [done|]. rewrite blen_app, blen_zeros, Hi. rewrite <- N.mul_add_distr_l, N.mul_comm. by apply N.mod_mul.
    + rewrite <- (take_drop_middle _ _ _ Hs) at 2.
      rewrite insert_take_drop by (by apply lookup_lt_Some in Hs).
      rewrite !concat_app. cbn [concat]. rewrite !blen_app, blen_zeros. lia.
  - rewrite fmap_app. cbn [fmap list_fmap snd]. rewrite app_length. cbn [length]. split_and!; [| |lia].
    + apply Forall_app. split; [done|]. constructor; [|constructor]. rewrite blen_zeros, N.mul_comm. by apply N.mod_mul.
    + rewrite concat_app. cbn [concat]. rewrite !blen_app, blen_zeros. change (blen []) with 0. lia.
Qed.

Lemma alloc_in_grown a s n i a' : wf a -> alloc_in a s n = Some (i, a') -> grown a a' s i n.
Proof.
  intros Hw. unfold alloc_in. destruct (seg_get a s) as [[cap g]|] eqn:E; [|done]. cbn zeta.
  destruct (_ <=? cap); [|done]. intros [= <- <-]. left. exists cap, g. split_and!; [done| |done].
  pose proof (proj1 (Forall_lookup _ _) Hw _ _ (room_get _ _ _ _ E)) as Hm. cbn beta in Hm.
  pose proof (N.div_mod (blen g) 8). lia.
Qed.
Lemma alloc_first_grown a n : wf a -> forall ss p a', alloc_first a ss n = Some (p, a') -> grown a a' p.1 p.2 n.
Proof.
  intros Hw. induction ss as [|s ss IH]; intros p a'; [done|]. cbn [alloc_first].
  destruct (alloc_in a (N.of_nat s) n) as [[i a1]|] eqn:E; [|apply IH]. intros [= <- <-]. by apply alloc_in_grown.
Qed.
Lemma alloc_anywhere_grown a n p a' : wf a -> alloc_anywhere a n = (p, a') -> grown a a' p.1 p.2 n.
Proof.
  intros Hw. unfold alloc_anywhere. destruct (alloc_first _ _ _) as [[q b]|] eqn:E.
  - intros [= <- <-]. by eapply alloc_first_grown.
  - intros [= <- <-]. right. by exists (N.max n (ar_next a)).
Qed.

(** What allocation provides: where the describing pointer goes ([tp]), where the object starts
    ([i]). *)
Record allocated (a : arena) (r : place) (n : N) (tp : place) (i : N) (a' : arena) : Prop := {
  al_wf : wf a';
  al_bytes : all_bytes (asegs a') <= all_bytes (asegs a) + 8 * (n + 1);
  al_segs : (length (ar_segs a') <= S (length (ar_segs a)))%nat;
  al_tag : room a' tp 8;
  al_room : room a' (tp.1, i) (8 * n);
  al_after : tp.2 + 1 <= i;
  al_link : tp = r \/ (holds a' r (le8 (mk_far tp.1 tp.2)) /\ i = tp.2 + 1 /\ (r.1 <> tp.1 \/ 8 * r.2 + 8 <= 8 * tp.2));
  al_frame : forall p l, holds a p l -> apart p (blen l) r 8 -> holds a' p l;
  al_rooms : forall p k, room a p k -> room a' p k;
  al_fresh : forall p k, room a p k -> p.1 <> tp.1 \/ 8 * p.2 + k <= 8 * i;
  al_fresh_tag : tp = r \/ forall p k, room a p k -> p.1 <> tp.1 \/ 8 * p.2 + k <= 8 * tp.2;
}.
Lemma alloc_spec a r n tp i a' : wf a -> room a r 8 -> alloc a r n = (tp, i, a') -> allocated a r n tp i a'.
Proof.
  intros Hw Hr. unfold alloc. destruct (alloc_in a r.1 n) as [[i' a1]|] eqn:E.
  - intros [= <- <- <-]. apply alloc_in_grown in E; [|done]. pose proof (grown_wf _ _ _ _ _ E Hw) as (H1 & H2 & H3).
    constructor.
    + done.
    + rewrite H2. lia.
    + done.
    + by eapply grown_rooms.
    + by eapply grown_room.
    + destruct (grown_fresh _ _ _ _ _ _ _ E Hr) as [H|H]; [done|lia].
    + by left.
    + intros p l Hp _. by eapply grown_holds.
    + intros p k Hp. by eapply grown_rooms.
    + intros p k Hp. by eapply grown_fresh.
    + by left.
  - destruct (alloc_anywhere a (n + 1)) as [[s j] a1] eqn:E1. intros [= <- <- <-].
    apply alloc_anywhere_grown in E1; [|done]. cbn [fst snd] in E1.
    pose proof (grown_wf _ _ _ _ _ E1 Hw) as (H1 & H2 & H3). pose proof (grown_rooms _ _ _ _ _ _ _ E1 Hr) as Hr1.
    assert (room a1 r (blen (le8 (mk_far s j)))) as Hr2 by (by rewrite le8_len).
    destruct (put_wf _ _ _ Hr2 H1) as (H4 & H5 & H6).
    pose proof (grown_room _ _ _ _ _ E1) as Hnew. pose proof (grown_fresh _ _ _ _ _ _ _ E1 Hr) as Hf.
    constructor; cbn [fst snd].
    + done.
    + rewrite H5, H2. lia.
    + by rewrite H6.
    + apply put_room; [done|]. destruct Hnew as (cap & g & Hg & Hl). exists cap, g. split; [done|]. cbn [snd] in *. lia.
    + apply put_room; [done|]. destruct Hnew as (cap & g & Hg & Hl). exists cap, g. split; [done|]. cbn [snd] in *. lia.
    + lia.
    + right. split; [by apply put_same|]. split; [done|]. done.
    + intros p l Hp Hd. apply put_frame; [done|by rewrite le8_len|]. by eapply grown_holds.
    + intros p k Hp. apply put_room; [done|]. by eapply grown_rooms.
    + intros p k Hp. destruct (grown_fresh _ _ _ _ _ _ _ E1 Hp) as [H|H]; [by left|right; lia].
    + right. intros p k Hp. by eapply grown_fresh.
Qed.

(** A list is where the pointer at [r] says, directly or by way of a far pointer. *)
Record listed (a : arena) (r : place) (l : bytes) (tp : place) (i : N) : Prop := {
  li_link : tp = r \/ holds a r (le8 (mk_far tp.1 tp.2));
  li_tag : holds a tp (le8 (mk_list (i - (tp.2 + 1)) 2 (blen l)));
  li_after : tp.2 + 1 <= i;
  li_body : holds a (tp.1, i) l;
  li_room : room a (tp.1, i) (8 * words_of (blen l));
}.
Lemma words_of_lt n : 8 * words_of n < n + 8.
Proof. unfold words_of. pose proof (N.mul_div_le (n + 7) 8 ltac:(done)). lia. Qed.

Record putted (a : arena) (r : place) (l : bytes) (a' : arena) : Prop := {
  pu_wf : wf a';
  pu_bytes : all_bytes (asegs a') <= all_bytes (asegs a) + blen l + 16;
  pu_segs : (length (ar_segs a') <= S (length (ar_segs a)))%nat;
  pu_frame : forall p k, holds a p k -> apart p (blen k) r 8 -> holds a' p k;
  pu_rooms : forall p k, room a p k -> room a' p k;
  pu_list : exists tp i, listed a' r l tp i
    /\ (forall p k, room a p k -> p.1 <> tp.1 \/ 8 * p.2 + k <= 8 * i)
    /\ (tp = r \/ forall p k, room a p k -> p.1 <> tp.1 \/ 8 * p.2 + k <= 8 * tp.2);
}.
Lemma put_list_spec a r l : wf a -> room a r 8 -> putted a r l (put_list_raw a r l).
Proof.
  intros Hw Hr. unfold put_list_raw. destruct (alloc a r (words_of (blen l))) as [[[s t] i] a1] eqn:E.
  apply alloc_spec in E; [|done|done]. destruct E as [H1 H2 H3 H4 H5 H6 H7 H8 H9 H10 H11]. cbn [fst snd] in *.
  set (w := mk_list (i - (t + 1)) 2 (blen l)).
  assert (room a1 (s, t) (blen (le8 w))) as Hr2 by (by rewrite le8_len).
  destruct (put_wf _ _ _ Hr2 H1) as (P1 & P2 & P3). set (a2 := put a1 (s, t) (le8 w)) in *.
  pose proof (words_of_ge (blen l)). pose proof (words_of_lt (blen l)).
  assert (room a2 (s, i) (8 * words_of (blen l))) as Hr3 by (by apply put_room).
  assert (room a2 (s, i) (blen l)) as Hr4.
  { destruct Hr3 as (cap & g & Hg & Hl). exists cap, g. split; [done|]. cbn [snd] in *. lia. }
  destruct (put_wf _ _ _ Hr4 P1) as (Q1 & Q2 & Q3).
  constructor.
  - done.
  - rewrite Q2, P2. lia.
  - rewrite Q3, P3. done.
  - intros p k Hp Hd. apply put_frame; [done| |].
    + destruct (H10 p (blen k) (holds_room _ _ _ Hp)) as [H'|H']; [by left|right; left; done].
    + apply put_frame; [done| |by apply H8]. rewrite le8_len. destruct H11 as [->|H11]; [done|].
      destruct (H11 p (blen k) (holds_room _ _ _ Hp)) as [H'|H']; [by left|right; left; done].
  - intros p k Hp. apply put_room; [done|]. apply put_room; [done|]. by apply H9.
  - exists (s, t), i. split; [|done].
    assert (holds (put a2 (s, i) l) (s, t) (le8 w)) as Htag.
    { apply put_frame; [done| |by apply put_same]. right. left. rewrite le8_len. cbn [snd]. lia. }
    constructor; cbn [fst snd].
    + destruct H7 as [->|(H7 & Hi & Hd)]; [by left|]. right.
      apply put_frame; [done| |apply put_frame; [done| |done]]; rewrite !le8_len.
      * destruct Hd as [Hd|Hd]; [by left|right; left; cbn [snd]; lia].
      * destruct Hd as [Hd|Hd]; [by left|right; left; cbn [snd]; lia].
    + done.
    + done.
    + by apply put_same.
    + by apply put_room.
Qed.

(** A list stays readable when another pointer is filled in later. *)
Lemma listed_frame a a' r l tp i r' : listed a r l tp i ->
  (forall p k, holds a p k -> apart p (blen k) r' 8 -> holds a' p k) -> (forall p k, room a p k -> room a' p k) ->
  apart r 8 r' 8 -> apart tp 8 r' 8 -> apart (tp.1, i) (blen l) r' 8 -> listed a' r l tp i.
Proof.
  intros [H1 H2 H3 H4 H5] Hf Hr A1 A2 A3. constructor.
  - destruct H1 as [->|H1]; [by left|]. right. apply Hf; [done|]. by rewrite le8_len.
  - apply Hf; [done|]. by rewrite le8_len.
  - done.
  - by apply Hf.
  - by apply Hr.
Qed.

(** * Reading back *)
(** [m] returns [x], taking at most [k] words from the read limit. *)
Definition reads {A} (m : rd A) (k : N) (x : A) : Prop :=
  forall s, k <= s.1 -> exists s', m s = (Ok x, s') /\ s.1 <= s'.1 + k.
Lemma reads_ret {A} (x : A) k : reads (rret x) k x.
Proof. intros s _. exists s. split; [done|lia]. Qed.
Lemma reads_bind {A B} (m : rd A) (f : A -> rd B) k1 k2 k x y :
  reads m k1 x -> reads (f x) k2 y -> k1 + k2 <= k -> reads (rbind m f) k y.
Proof.
  intros H1 H2 Hk s Hs. destruct (H1 s) as (s1 & E1 & L1); [lia|]. destruct (H2 s1) as (s2 & E2 & L2); [lia|].
  exists s2. unfold rbind. rewrite E1, E2. split; [done|lia].
Qed.

Section readback.
Variable a : arena.
Notation segs := (asegs a).

Lemma reads_get id cap g k : seg_get a id = Some (cap, g) -> reads (rget segs id) k g.
Proof.
  intros H. apply room_get in H. intros s _. exists s. unfold rget. rewrite H.
  replace (id <? N.of_nat (length segs)) with true; [split; [done|lia]|].
  symmetry. apply N.ltb_lt. apply lookup_lt_Some in H. lia.
Qed.
Lemma reads_can n k : n <= k -> reads (can_read n) k tt.
Proof.
  intros Hn s Hs. unfold can_read. replace (n <=? s.1) with true by (symmetry; apply N.leb_le; lia).
  eexists. split; [done|]. cbn [fst]. lia.
Qed.
Lemma reads_bounds p n k : room a p (8 * n) -> n <= k -> reads (bounds_check segs p n) k tt.
Proof.
  intros (cap & g & Hg & Hl) Hn. unfold bounds_check. eapply (reads_bind _ _ 0 k); [by apply reads_get with cap| |lia].
  replace (p.2 + n <=? blen g / 8) with true; [by apply reads_can|].
  symmetry. apply N.leb_le. apply N.div_le_lower_bound; lia.
Qed.
Lemma reads_offset id start off j k : room a (id, j) 0 -> (Z.of_N start + off = Z.of_N j)%Z -> reads (check_offset segs id start off) k j.
Proof.
  intros (cap & g & Hg & Hl) Hj. cbn [fst snd] in *. unfold check_offset.
  eapply (reads_bind _ _ 0 k); [by apply reads_get with cap| |lia]. cbn zeta. rewrite Hj.
  assert (j <= blen g / 8) by (apply N.div_le_lower_bound; lia).
  replace (0 <=? Z.of_N j)%Z with true by (symmetry; apply Z.leb_le; lia).
  replace (Z.of_N j <=? Z.of_N (blen g / 8))%Z with true by (symmetry; apply Z.leb_le; lia).
  cbn [andb]. rewrite N2Z.id. apply reads_ret.
Qed.
Lemma reads_bytes (p : place) o n l k : holds a p l -> o + n <= blen l -> reads (rbytes segs p.1 (8 * p.2 + o) n) k (slice o n l).
Proof.
  intros (cap & g & Hg & Hl & Hs) Hn. unfold rbytes. eapply (reads_bind _ _ 0 k); [by apply reads_get with cap| |lia].
  intros s _. replace (8 * p.2 + o + n <=? blen g) with true by (symmetry; apply N.leb_le; lia).
  exists (s.1, s.2 + n). split; [|cbn [fst]; lia]. do 2 f_equal. rewrite <- Hs. apply list_eq. intros i. rewrite !slice_lookup.
  destruct (N.of_nat i <? n) eqn:E; [|done]. apply N.ltb_lt in E.
  replace (N.of_nat (N.to_nat o + i) <? blen l) with true by (symmetry; apply N.ltb_lt; lia). f_equal. lia.
Qed.
Lemma reads_word p w k : w < 2 ^ 64 -> holds a p (le8 w) -> reads (rword segs p) k w.
Proof.
  intros Hw Hp. unfold rword. pose proof (reads_bytes p 0 8 _ 0 Hp) as H. rewrite N.add_0_r, le8_len in H.
  assert (slice 0 8 (le8 w) = le8 w) as Hs by (rewrite <- (le8_len w) at 1; apply slice_all). rewrite Hs in H.
  eapply (reads_bind _ _ 0 k _ (le8 w)); [apply H; lia| |lia]. rewrite (le8_val w Hw). apply reads_ret.
Qed.

(** The bounds that make the fields of pointers fit. *)
Definition small (a : arena) : Prop := all_bytes (asegs a) < 2 ^ 31 /\ (length (ar_segs a) <= 3)%nat.
Hypothesis Hsmall : small a.
Lemma small_room p n : room a p n -> 8 * p.2 + n < 2 ^ 31 /\ p.1 < 3.
Proof.
  intros (cap & g & Hg & Hl). destruct Hsmall as [H1 H2]. pose proof (room_get _ _ _ _ Hg) as Hs.
  pose proof (seg_le _ _ _ Hs). apply lookup_lt_Some in Hg. lia.
Qed.

Lemma fields_list off n : off < 2 ^ 29 -> n < 2 ^ 29 -> let w := mk_list off 2 n in
  w < 2 ^ 64 /\ w <> 0 /\ w_kind w = 1 /\ w_off w = Z.of_N off /\ w_list_size w = 2 /\ w_list_count w = n.
Proof.
  intros H1 H2 w. unfold w, mk_list. 
  assert (w_low (1 + 4 * off + 2 ^ 32 * (2 + 8 * n)) = 1 + 4 * off) as Hl.
  { unfold w_low. rewrite (N.mul_comm (2 ^ 32)), N.mod_add by lia. apply N.mod_small. lia. }
  assert (w_high (1 + 4 * off + 2 ^ 32 * (2 + 8 * n)) = 2 + 8 * n) as Hh.
  { unfold w_high. rewrite (N.mul_comm (2 ^ 32)), N.div_add by lia. rewrite N.div_small by lia. lia. }
  split_and!.
  - lia.
  - lia.
  - unfold w_kind. replace (1 + 4 * off + 2 ^ 32 * (2 + 8 * n)) with (1 + (off + 2 ^ 30 * (2 + 8 * n)) * 4) by lia.
    rewrite N.mod_add by lia. done.
  - unfold w_off. rewrite Hl. replace ((1 + 4 * off) / 4) with off.
    + destruct (Z.of_N off <? 2 ^ 29)%Z eqn:E; [done|]. lia.
    + rewrite (N.mul_comm 4), N.div_add by lia. done.
  - unfold w_list_size. rewrite Hh, (N.mul_comm 8), N.mod_add by lia. done.
  - unfold w_list_count. rewrite Hh, (N.mul_comm 8), N.div_add by lia. done.
Qed.
Lemma fields_far s i : s < 2 ^ 32 -> i < 2 ^ 29 -> let w := mk_far s i in
  w < 2 ^ 64 /\ w <> 0 /\ w_kind w = 2 /\ w_high w = s /\ w_far_pos w = i /\ w_far_double w = false.
Proof.
  intros H1 H2 w. unfold w, mk_far.
  split_and!.
  - lia.
  - lia.
  - unfold w_kind. replace (2 + 8 * i + 2 ^ 32 * s) with (2 + (2 * i + 2 ^ 30 * s) * 4) by lia.
    rewrite N.mod_add by lia. done.
  - unfold w_high. rewrite (N.mul_comm (2 ^ 32)), N.div_add by lia. rewrite N.div_small by lia. lia.
  - unfold w_far_pos, w_low. rewrite (N.mul_comm (2 ^ 32)), N.mod_add by lia. rewrite N.mod_small by lia.
    rewrite (N.mul_comm 8), N.div_add by lia. done.
  - unfold w_far_double. replace ((2 + 8 * i + 2 ^ 32 * s) / 4) with (2 * (i + 2 ^ 29 * s)).
    + rewrite <- N.negb_even, N.even_mul. done.
    + replace (2 + 8 * i + 2 ^ 32 * s) with (2 + (2 * (i + 2 ^ 29 * s)) * 4) by lia. rewrite N.div_add by lia. done.
Qed.

(** The pointer at [r] and the way from it to the list. *)
Lemma reads_ptr r l tp i : listed a r l tp i -> room a r 8 -> blen l < 2 ^ 29 ->
  exists w, w <> 0 /\ (forall k, reads (rword segs r) k w)
    /\ reads (follow segs r w) 1 ((tp.1, i), mk_list (i - (tp.2 + 1)) 2 (blen l)).
Proof.
  intros [H1 H2 H3 H4 H5] Hr Hl.
  destruct (small_room _ _ (holds_room _ _ _ H4)) as [B1 B2]. cbn [fst snd] in B1, B2.
  destruct (small_room _ _ (holds_room _ _ _ H2)) as [B3 _].
  destruct (fields_list (i - (tp.2 + 1)) (blen l)) as (F1 & F2 & F3 & F4 & F5 & F6); [lia|done|].
  set (w := mk_list (i - (tp.2 + 1)) 2 (blen l)) in *.
  assert (room a (tp.1, i) 0) as Hi.
  { destruct H4 as (cap & g & Hg & Hle & _). exists cap, g. split; [done|]. cbn [fst snd] in *. lia. }
  destruct H1 as [->|H1].
  - exists w. split; [done|]. split; [intros k; by apply reads_word|].
    unfold follow. rewrite F3. cbn [N.eqb]. change (1 =? 2) with false. cbn iota.
    eapply (reads_bind _ _ 0 1); [apply (reads_offset r.1 r.2 _ i 0 Hi)|apply reads_ret|lia].
    rewrite F4. lia.
  - destruct (fields_far tp.1 tp.2) as (G1 & G2 & G3 & G4 & G5 & G6); [lia|lia|].
    exists (mk_far tp.1 tp.2). split; [done|]. split; [intros k; by apply reads_word|].
    unfold follow. rewrite G3, G4, G5, G6. change (2 =? 2) with true. cbn iota zeta.
    eapply (reads_bind _ _ 0 1); [|  |lia].
    { apply (reads_offset tp.1 0 _ tp.2 0); [|lia]. destruct H2 as (cap & g & Hg & Hle & _). exists cap, g.
      split; [done|]. cbn [fst snd]. lia. }
    eapply (reads_bind _ _ 1 0); [apply reads_bounds; [|lia]| |lia].
    { apply holds_room in H2. rewrite le8_len in H2. destruct tp. done. }
    eapply (reads_bind _ _ 0 0); [| |lia].
    { apply (reads_word (tp.1, tp.2) w 0 F1). by destruct tp. }
    eapply (reads_bind _ _ 0 0); [apply (reads_offset tp.1 tp.2 _ i 0 Hi)|apply reads_ret|lia].
    rewrite F4. lia.
Qed.

Lemma reads_data r l tp i : listed a r l tp i -> room a r 8 -> blen l < 2 ^ 29 ->
  reads (read_data segs (Some r)) (1 + words_of (blen l)) l.
Proof.
  intros Hli Hr Hl. destruct (reads_ptr _ _ _ _ Hli Hr Hl) as (w & Hw & H1 & H2). cbn [read_data].
  destruct Hli as [L1 L2 L3 L4 L5].
  destruct (small_room _ _ (holds_room _ _ _ L4)) as [B1 B2]. cbn [fst snd] in B1, B2.
  destruct (fields_list (i - (tp.2 + 1)) (blen l)) as (F1 & F2 & F3 & F4 & F5 & F6); [lia|done|].
  eapply (reads_bind _ _ 0 _); [apply H1| |rewrite N.add_0_l; reflexivity].
  replace (w =? 0) with false by (symmetry; by apply N.eqb_neq).
  eapply (reads_bind _ _ 1 _); [apply H2| |reflexivity]. cbn beta iota zeta. rewrite F3, F5, F6. change ((1 =? 1) && (2 =? 2)) with true. cbn iota.
  eapply (reads_bind _ _ (words_of (blen l)) 0); [by apply reads_bounds| |lia].
  pose proof (reads_bytes _ 0 (blen l) _ 0 L4) as Hb. rewrite N.add_0_r, slice_all in Hb. apply Hb. lia.
Qed.
Lemma reads_text r l tp i : listed a r (l ++ [0]) tp i -> room a r 8 -> blen l < 2 ^ 29 - 1 -> utf8_ok l = true ->
  reads (read_text segs (Some r)) (1 + words_of (blen l + 1)) l.
Proof.
  intros Hli Hr Hl Hu. assert (blen (l ++ [0]) = blen l + 1) as Hlen by (by rewrite blen_app).
  destruct (reads_ptr _ _ _ _ Hli Hr) as (w & Hw & H1 & H2); [lia|]. cbn [read_text].
  destruct Hli as [L1 L2 L3 L4 L5].
  destruct (small_room _ _ (holds_room _ _ _ L4)) as [B1 B2]. cbn [fst snd] in B1, B2.
  destruct (fields_list (i - (tp.2 + 1)) (blen (l ++ [0]))) as (F1 & F2 & F3 & F4 & F5 & F6); [lia|lia|].
  eapply (reads_bind _ _ 0 _); [apply H1| |rewrite N.add_0_l; reflexivity].
  replace (w =? 0) with false by (symmetry; by apply N.eqb_neq).
  eapply (reads_bind _ _ 1 _); [apply H2| |reflexivity]. cbn beta iota zeta. rewrite F3, F5, F6. change ((1 =? 1) && (2 =? 2)) with true. cbn iota zeta.
  rewrite Hlen in *. eapply (reads_bind _ _ (words_of (blen l + 1)) 0); [by apply reads_bounds| |lia].
  replace (blen l + 1 =? 0) with false by (symmetry; apply N.eqb_neq; lia).
  replace (blen l + 1 - 1) with (blen l) by lia.
  eapply (reads_bind _ _ 0 0); [apply (reads_bytes _ (blen l) 1 _ 0 L4); rewrite Hlen; lia| |lia].
  rewrite slice_app_r by (try done; unfold blen; cbn; lia). change (slice 0 1 [0]) with [0].
  rewrite decide_True by done.
  eapply (reads_bind _ _ 0 0); [pose proof (reads_bytes _ 0 (blen l) _ 0 L4) as Hb; rewrite N.add_0_r in Hb; apply Hb; rewrite Hlen; lia| |lia].
  rewrite slice_app_l by lia. rewrite slice_all, Hu. apply reads_ret.
Qed.
Lemma reads_elems (p : place) l : holds a p l -> forall n o, (o + n = length l)%nat ->
  reads (read_elems segs p.1 (8 * p.2 + N.of_nat o) 1 n) 0 (drop o l).
Proof.
  intros Hp. induction n as [|n IH]; intros o Ho; cbn [read_elems].
  - rewrite drop_ge by lia. apply reads_ret.
  - eapply (reads_bind _ _ 0 0); [apply (reads_bytes p (N.of_nat o) 1 l 0 Hp); unfold blen; lia| |lia].
    eapply (reads_bind _ _ 0 0); [replace (8 * p.2 + N.of_nat o + 1) with (8 * p.2 + N.of_nat (S o)) by lia; apply IH; lia| |lia].
    destruct (lookup_lt_is_Some_2 l o) as [x Hx]; [lia|]. rewrite (drop_S _ _ _ Hx).
    replace (slice (N.of_nat o) 1 l) with [x]; [apply reads_ret|].
    unfold slice. rewrite Nat2N.id, (drop_S _ _ _ Hx). change (N.to_nat 1) with 1%nat. cbn [take]. by rewrite take_0.
Qed.
Lemma reads_u8s r l tp i : listed a r l tp i -> room a r 8 -> blen l < 2 ^ 29 ->
  reads (read_u8s segs (Some r)) (1 + words_of (blen l)) l.
Proof.
  intros Hli Hr Hl. destruct (reads_ptr _ _ _ _ Hli Hr Hl) as (w & Hw & H1 & H2). cbn [read_u8s].
  destruct Hli as [L1 L2 L3 L4 L5].
  destruct (small_room _ _ (holds_room _ _ _ L4)) as [B1 B2]. cbn [fst snd] in B1, B2.
  destruct (fields_list (i - (tp.2 + 1)) (blen l)) as (F1 & F2 & F3 & F4 & F5 & F6); [lia|done|].
  eapply (reads_bind _ _ 0 _); [apply H1| |rewrite N.add_0_l; reflexivity].
  replace (w =? 0) with false by (symmetry; by apply N.eqb_neq).
  eapply (reads_bind _ _ 1 _); [apply H2| |reflexivity]. cbn beta iota zeta. rewrite F3, F5, F6.
  change (1 =? 1) with true. change (2 =? 7) with false. change (2 =? 0) with false. cbn iota zeta.
  change (elem_bits 2) with 8. change (elem_bytes 2) with 1. change (1 =? 0) with false. cbn iota.
  replace ((blen l * 8 + 63) / 64) with (words_of (blen l)).
  2:{ unfold words_of. replace (blen l * 8 + 63) with (7 + 8 * (blen l + 7)) by lia. change 64 with (8 * 8).
      rewrite <- N.div_div by lia. rewrite (N.mul_comm 8 (blen l + 7)), N.div_add by lia. done. }
  eapply (reads_bind _ _ (words_of (blen l)) 0); [by apply reads_bounds| |lia].
  eapply (reads_bind _ _ 0 0); [apply reads_ret| |lia].
  pose proof (reads_elems _ l L4 (length l) 0 eq_refl) as He. cbn [fst snd] in He. change (N.of_nat 0) with 0 in He.
  rewrite N.add_0_r, drop_0 in He. unfold blen. rewrite Nat2N.id. exact He.
Qed.

Lemma fields_struct d n : d < 2 ^ 16 -> n < 2 ^ 16 -> 0 < d + n -> let w := mk_struct 0 d n in
  w < 2 ^ 64 /\ w <> 0 /\ w_kind w = 0 /\ w_off w = 0%Z /\ w_struct_data w = d /\ w_struct_ptrs w = n.
Proof.
  intros H1 H2 H3 w. unfold w, mk_struct.
  assert (w_high (4 * 0 + 2 ^ 32 * (d + 2 ^ 16 * n)) = d + 2 ^ 16 * n) as Hh.
  { unfold w_high. rewrite (N.mul_comm (2 ^ 32)), N.div_add by lia. done. }
  assert (w_low (4 * 0 + 2 ^ 32 * (d + 2 ^ 16 * n)) = 0) as Hl.
  { unfold w_low. rewrite (N.mul_comm (2 ^ 32)), N.mod_add by lia. done. }
  split_and!.
  - lia.
  - lia.
  - unfold w_kind. replace (4 * 0 + 2 ^ 32 * (d + 2 ^ 16 * n)) with (0 + 2 ^ 30 * (d + 2 ^ 16 * n) * 4) by lia.
    rewrite N.mod_add by lia. done.
  - unfold w_off. rewrite Hl. done.
  - unfold w_struct_data. rewrite Hh, (N.mul_comm (2 ^ 16)), N.mod_add by lia. by apply N.mod_small.
  - unfold w_struct_ptrs. rewrite Hh, (N.mul_comm (2 ^ 16)), N.div_add by lia. rewrite N.div_small by lia. lia.
Qed.
(** A struct right behind its pointer. *)
Lemma reads_struct (r : place) d n : d < 2 ^ 16 -> n < 2 ^ 16 -> 0 < d + n ->
  holds a r (le8 (mk_struct 0 d n)) -> room a (r.1, r.2 + 1) (8 * (d + n)) ->
  reads (read_struct segs (Some r)) (d + n) (SR (r.1, r.2 + 1) d n).
Proof.
  intros H1 H2 H3 Hh Hr. destruct (fields_struct d n H1 H2 H3) as (F1 & F2 & F3 & F4 & F5 & F6).
  set (w := mk_struct 0 d n) in *. cbn [read_struct].
  eapply (reads_bind _ _ 0 (d + n)); [by apply reads_word| |lia].
  replace (w =? 0) with false by (symmetry; by apply N.eqb_neq).
  eapply (reads_bind _ _ 0 (d + n) _ ((r.1, r.2 + 1), w)); [| |lia].
  - unfold follow. rewrite F3, F4. change (0 =? 2) with false. cbn iota.
    eapply (reads_bind _ _ 0 0 _ (r.2 + 1)); [|apply reads_ret|lia].
    apply reads_offset; [|lia]. destruct Hr as (cap & g & Hg & Hl). exists cap, g. split; [done|]. cbn [fst snd] in *. lia.
  - cbn beta iota zeta. rewrite F3, F5, F6. change (0 =? 0) with true. cbn iota.
    eapply (reads_bind _ _ (d + n) 0); [by apply reads_bounds|apply reads_ret|lia].
Qed.
Lemma reads_field (p : place) d n w : 0 < d -> w < 2 ^ 64 -> holds a p (le8 w) -> reads (sr_word segs (SR p d n)) 0 w.
Proof.
  intros Hd Hw Hp. unfold sr_word. cbn [sr_data sr_at]. replace (0 <? d) with true by (symmetry; by apply N.ltb_lt).
  by apply reads_word.
Qed.
End readback.

(** * The segment table *)
Lemma table_lookup (segs : list bytes) : forall i g (pre post : bytes), segs !! i = Some g ->
  slice (blen pre + 4 * N.of_nat i) 4 (pre ++ flat_map (fun m => le4 (blen m / 8)) segs ++ post) = le4 (blen g / 8).
Proof.
  induction segs as [|x segs IH]; intros i g pre post Hi; [done|]. cbn [flat_map].
  destruct i as [|i]; cbn in Hi.
  - injection Hi as ->. rewrite slice_app_r; [|lia|rewrite !blen_app, le4_len; lia]. rewrite <- app_assoc.
    rewrite slice_app_l by (rewrite le4_len; lia). rewrite <- (le4_len (blen g / 8)) at 1. apply slice_all.
  - specialize (IH i g (pre ++ le4 (blen x / 8)) post Hi). rewrite blen_app, le4_len in IH.
    rewrite <- (app_assoc pre), <- (app_assoc (le4 _)) in IH || idtac.
    replace (blen pre + 4 * N.of_nat (S i)) with (blen pre + 4 + 4 * N.of_nat i) by lia.
    rewrite <- IH. f_equal. by rewrite <- !app_assoc.
Qed.
Lemma flat_le4_len (segs : list bytes) : blen (flat_map (fun m : bytes => le4 (blen m / 8)) segs) = 4 * N.of_nat (length segs).
Proof. induction segs as [|x segs IH]; [done|]. cbn [flat_map length]. rewrite blen_app, le4_len, IH. lia. Qed.

Definition header (segs : list bytes) : bytes :=
  le4 (N.of_nat (length segs) - 1) ++ flat_map (fun m => le4 (blen m / 8)) segs
    ++ (if Nat.even (length segs) then zeros 4 else []).
Lemma flatten_header segs : flatten segs = header segs ++ concat segs.
Proof. unfold flatten, header. by rewrite <- !app_assoc. Qed.
Lemma header_len segs : blen (header segs) = 8 + 8 * (N.of_nat (length segs) / 2).
Proof.
  unfold header. rewrite !blen_app, le4_len, flat_le4_len.
  pose proof (Nat.div_mod (length segs) 2 ltac:(done)) as Hd.
  replace (N.of_nat (length segs) / 2) with (N.of_nat (length segs / 2)) by (rewrite Nat2N.inj_div; done).
  destruct (Nat.even (length segs)) eqn:E.
  - rewrite blen_zeros. apply Nat.even_spec in E as [k E]. rewrite E in *.
    replace (2 * k / 2)%nat with k by (rewrite Nat.mul_comm, Nat.div_mul; done). lia.
  - assert (Nat.odd (length segs) = true) as O by (by rewrite <- Nat.negb_even, E). apply Nat.odd_spec in O as [k O].
    rewrite O. replace ((2 * k + 1) / 2)%nat with k; [change (blen []) with 0; lia|].
    rewrite Nat.add_comm, Nat.mul_comm, Nat.div_add; done.
Qed.

Lemma read_table_flatten segs : (1 <= length segs < 512)%nat -> Forall (fun g => blen g / 8 < 2 ^ 32) segs ->
  read_table (flatten segs) = Some ((fun g => blen g / 8) <$> segs, concat segs).
Proof.
  intros Hn Hf. rewrite flatten_header. unfold read_table. rewrite blen_app. pose proof (header_len segs) as Hh.
  replace (blen (header segs) + blen (concat segs) <? 8) with false by (symmetry; apply N.ltb_ge; rewrite Hh; generalize (N.of_nat (length segs) / 2); intros; lia).
  assert (le_val (slice 0 4 (header segs ++ concat segs)) = N.of_nat (length segs) - 1) as Hc.
  { unfold header. rewrite <- !app_assoc. rewrite slice_app_l by (rewrite le4_len; lia).
    rewrite <- (le4_len (N.of_nat (length segs) - 1)) at 1. rewrite slice_all, le4_val; [done|lia]. }
  rewrite Hc. cbn zeta. replace (N.of_nat (length segs) - 1 + 1) with (N.of_nat (length segs)) by lia.
  rewrite (N.mod_small (N.of_nat (length segs))) by lia.
  replace (N.of_nat (length segs) =? 0) with false by (symmetry; apply N.eqb_neq; lia).
  replace (512 <=? N.of_nat (length segs)) with false by (symmetry; apply N.leb_gt; lia). cbn [orb].
  replace (blen (header segs) + blen (concat segs) <? 8 + 8 * (N.of_nat (length segs) / 2)) with false by (symmetry; apply N.ltb_ge; rewrite Hh; generalize (N.of_nat (length segs) / 2); intros; lia).
  f_equal. f_equal.
  - apply list_eq. intros i. rewrite Nat2N.id.
    change (map ?f (seq 0 (length segs))) with (f <$> seq 0 (length segs)). rewrite !list_lookup_fmap.
    destruct (decide (i < length segs)%nat) as [Hi|Hi].
    + destruct (lookup_lt_is_Some_2 segs i Hi) as [g Hg]. assert (seq 0 (length segs) !! i = Some i) as -> by (apply list_numbers.lookup_seq; lia). rewrite Hg. cbn [fmap option_fmap option_map].
      f_equal. unfold header. rewrite <- !app_assoc.
      pose proof (table_lookup segs i g (le4 (N.of_nat (length segs) - 1)) ((if Nat.even (length segs) then zeros 4 else []) ++ concat segs) Hg) as Ht.
      rewrite le4_len in Ht. rewrite Ht. apply le4_val. by apply (proj1 (Forall_lookup _ _) Hf i).
    + rewrite (lookup_ge_None_2 segs) by lia. rewrite lookup_ge_None_2; [done|]. rewrite seq_length. lia.
  - rewrite <- Hh. unfold blen. rewrite Nat2N.id. apply drop_app.
Qed.
Lemma split_segs_concat segs : Forall (fun g => blen g mod 8 = 0) segs -> split_segs ((fun g => blen g / 8) <$> segs) (concat segs) = segs.
Proof.
  induction 1 as [|g segs Hg Hf IH]; [done|]. cbn [fmap list_fmap split_segs concat].
  assert (8 * (blen g / 8) = blen g) as -> by (pose proof (N.div_mod (blen g) 8 ltac:(done)); lia).
  f_equal.
  - rewrite slice_app_l by lia. apply slice_all.
  - assert (N.to_nat (blen g) = length g) as -> by (unfold blen; lia). rewrite drop_app. exact IH.
Qed.
Lemma total_concat segs : Forall (fun g => blen g mod 8 = 0) segs -> 8 * total ((fun g => blen g / 8) <$> segs) = blen (concat segs).
Proof.
  induction 1 as [|g segs Hg Hf IH]; [done|]. cbn [fmap list_fmap total foldr concat]. rewrite blen_app, <- IH.
  pose proof (N.div_mod (blen g) 8 ltac:(done)). unfold total. lia.
Qed.
Lemma read_message_flatten segs : (1 <= length segs < 512)%nat -> Forall (fun g => blen g mod 8 = 0) segs -> all_bytes segs < 2 ^ 32 ->
  (read_message (flatten segs)).2 = Some segs.
Proof.
  intros Hn Hf Hs. unfold read_message. rewrite read_table_flatten; [|done|].
  - pose proof (total_concat _ Hf) as Ht. rewrite flatten_header, blen_app.
    replace (_ <? total _) with false by (symmetry; apply N.ltb_ge; lia). cbn [snd].
    replace (blen (concat segs) <? 8 * total _) with false by (symmetry; apply N.ltb_ge; lia).
    by rewrite split_segs_concat.
  - apply Forall_lookup. intros i g Hg. pose proof (seg_le _ _ _ Hg). apply N.div_lt_upper_bound; lia.
Qed.
