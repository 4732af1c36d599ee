(** Decoding arbitrary bytes (C46): no access outside the segments, bounded work, bounded
    results. *)
From stdpp Require Import list.
From Coq Require Import NArith ZArith Lia.
From Verif Require Import IdModel MsgModel WireModel CodecModel.
Local Open Scope N_scope.

Lemma blen_app (a b : bytes) : blen (a ++ b) = blen a + blen b.
Proof. unfold blen. rewrite app_length. lia. Qed.
Lemma blen_slice o n (l : bytes) : o + n <= blen l -> blen (slice o n l) = n.
Proof. unfold blen, slice. rewrite take_length, drop_length. lia. Qed.
Lemma blen_slice_le o n (l : bytes) : blen (slice o n l) <= n.
Proof. unfold blen, slice. rewrite take_length. lia. Qed.
Lemma blen_drop n (l : bytes) : blen (drop (N.to_nat n) l) = blen l - n.
Proof. unfold blen. rewrite drop_length. lia. Qed.

(** [m] never faults, its results satisfy [Q], it reads at most [k] bytes. *)
Definition spec {A} (m : rd A) (k : N) (Q : A -> Prop) : Prop :=
  forall s, (m s).1 <> Fault /\ (forall a, (m s).1 = Ok a -> Q a) /\ (m s).2.2 <= s.2 + k.

Lemma spec_ret {A} (a : A) k (Q : A -> Prop) : Q a -> spec (rret a) k Q.
Proof. intros H s. unfold rret. cbn. split_and!; [done|congruence|lia]. Qed.
Lemma spec_err {A} k (Q : A -> Prop) : spec rerr k Q.
Proof. intros s. unfold rerr. cbn. split_and!; [done|congruence|lia]. Qed.
Lemma spec_bind {A B} (m : rd A) (f : A -> rd B) k1 k2 k Q R :
  spec m k1 Q -> (forall a, Q a -> spec (f a) k2 R) -> k1 + k2 <= k -> spec (rbind m f) k R.
Proof.
  intros Hm Hf Hk s. destruct (Hm s) as (H1 & H2 & H3). unfold rbind. destruct (m s) as [[a| |] s'] eqn:E; cbn in *.
  - destruct (Hf a (H2 a eq_refl) s') as (H4 & H5 & H6). split_and!; [done|done|lia].
  - split_and!; [done|congruence|lia].
  - done.
Qed.
Lemma spec_mono {A} (m : rd A) k1 k2 (Q R : A -> Prop) :
  spec m k1 Q -> k1 <= k2 -> (forall a, Q a -> R a) -> spec m k2 R.
Proof. intros H Hk HQ s. destruct (H s) as (H1 & H2 & H3). split_and!; [done|auto|lia]. Qed.

Section safe.
Variable segs : list bytes.

Lemma spec_get id : spec (rget segs id) 0 (fun g => segs !! N.to_nat id = Some g).
Proof.
  intros s. unfold rget. destruct (id <? N.of_nat (length segs)) eqn:E; cbn.
  - apply N.ltb_lt in E. destruct (segs !! N.to_nat id) as [g|] eqn:Eg; cbn.
    + split_and!; [done|congruence|lia].
    + apply lookup_ge_None in Eg. lia.
  - split_and!; [done|congruence|lia].
Qed.
Lemma spec_can n : spec (can_read n) 0 (fun _ => True).
Proof. intros s. unfold can_read. destruct (n <=? s.1); cbn; split_and!; try done; try congruence; lia. Qed.

(** [n] words from [p] are inside their segment. *)
Definition inside (p : place) (n : N) : Prop :=
  exists g, segs !! N.to_nat p.1 = Some g /\ 8 * (p.2 + n) <= blen g.
Lemma inside_sub p n i k : inside p n -> i + k <= n -> inside (p.1, p.2 + i) k.
Proof. intros (g & Hg & Hl) Hk. exists g. cbn [fst snd]. split; [done|lia]. Qed.

Lemma spec_bounds p n : spec (bounds_check segs p n) 0 (fun _ => inside p n).
Proof.
  unfold bounds_check. eapply (spec_bind _ _ 0 0); [apply spec_get| |lia]. intros g Hg.
  destruct (p.2 + n <=? blen g / 8) eqn:E; [|apply spec_err].
  apply N.leb_le in E. eapply spec_mono; [apply spec_can|lia|]. intros _ _. exists g. split; [done|].
  pose proof (N.mul_div_le (blen g) 8). lia.
Qed.
Lemma spec_offset id start off : spec (check_offset segs id start off) 0 (fun _ => True).
Proof.
  unfold check_offset. eapply (spec_bind _ _ 0 0); [apply spec_get| |lia]. intros g _.
  destruct (_ && _); [by apply spec_ret|apply spec_err].
Qed.
Lemma spec_bytes id o n g :
  segs !! N.to_nat id = Some g -> o + n <= blen g -> spec (rbytes segs id o n) n (fun b => b = slice o n g).
Proof.
  intros Hg Hl. unfold rbytes. eapply (spec_bind _ _ 0 n); [apply spec_get| |lia]. cbn. intros g' Hg' s.
  assert (g' = g) as -> by congruence.
  rewrite (proj2 (N.leb_le _ _) Hl). cbn. split_and!; [done|congruence|lia].
Qed.
Lemma spec_word p : inside p 1 -> spec (rword segs p) 8 (fun _ => True).
Proof.
  intros (g & Hg & Hl). unfold rword.
  eapply (spec_bind _ _ 8 0); [eapply spec_bytes; [done|lia]| |lia]. intros b _. by apply spec_ret.
Qed.
Lemma spec_follow p w : spec (follow segs p w) 16 (fun _ => True).
Proof.
  unfold follow. destruct (w_kind w =? 2).
  - eapply (spec_bind _ _ 0 16); [apply spec_offset| |lia]. intros i _.
    eapply (spec_bind _ _ 0 16); [apply spec_bounds| |lia]. intros ? Hin; cbn beta in Hin.
    eapply (spec_bind _ _ 8 8); [apply spec_word| |lia].
    { apply (inside_sub (w_high w, i) _ 0 1) in Hin; [cbn [fst snd] in Hin; by rewrite N.add_0_r in Hin|destruct (w_far_double w); lia]. }
    intros pad _. destruct (w_far_double w).
    + eapply (spec_bind _ _ 8 0); [apply spec_word| |lia].
      { by apply (inside_sub (w_high w, i) _ 1 1) in Hin. }
      intros tag _. eapply (spec_bind _ _ 0 0); [apply spec_offset| |lia]. intros j _. by apply spec_ret.
    + eapply (spec_bind _ _ 0 8); [apply spec_offset| |lia]. intros j _. by apply spec_ret.
  - eapply (spec_bind _ _ 0 16); [apply spec_offset| |lia]. intros j _. by apply spec_ret.
Qed.

Definition ptr_ok (p : option place) : Prop := match p with Some p => inside p 1 | None => True end.
Definition sr_ok (s : sreader) : Prop := sr_data s + sr_ptrs s = 0 \/ inside (sr_at s) (sr_data s + sr_ptrs s).
Lemma spec_struct p : ptr_ok p -> spec (read_struct segs p) 24 sr_ok.
Proof.
  intros Hp. destruct p as [p|]; [|apply spec_ret; by left]. cbn [read_struct].
  eapply (spec_bind _ _ 8 16); [by apply spec_word| |lia]. intros w _.
  destruct (w =? 0); [apply spec_ret; by left|].
  eapply (spec_bind _ _ 16 0); [apply spec_follow| |lia]. intros [t tag] _.
  destruct (w_kind tag =? 0); [|apply spec_err].
  eapply (spec_bind _ _ 0 0); [apply spec_bounds| |lia]. intros ? Hin; cbn beta in Hin. apply spec_ret. by right.
Qed.
Lemma sr_ptr_ok s i : sr_ok s -> ptr_ok (sr_ptr s i).
Proof.
  intros Hs. unfold sr_ptr. destruct (i <? sr_ptrs s) eqn:E; [|done]. apply N.ltb_lt in E. cbn.
  destruct Hs as [Hs|Hs]; [lia|]. rewrite <- N.add_assoc. eapply inside_sub; [done|]. lia.
Qed.
Lemma spec_sr_word s : sr_ok s -> spec (sr_word segs s) 8 (fun _ => True).
Proof.
  intros Hs. unfold sr_word. destruct (0 <? sr_data s) eqn:E; [|by apply spec_ret]. apply N.ltb_lt in E.
  apply spec_word. destruct Hs as [Hs|Hs]; [lia|].
  apply (inside_sub _ _ 0 1) in Hs; [|lia]. rewrite N.add_0_r in Hs. by destruct (sr_at s).
Qed.

(** All the bytes there are. *)
Definition all_bytes : N := blen (concat segs).
Lemma seg_le id g : segs !! id = Some g -> blen g <= all_bytes.
Proof.
  intros H. apply elem_of_list_split_length in H as (l1 & l2 & H & _). unfold all_bytes.
  rewrite H, concat_app, blen_app. cbn [concat]. rewrite blen_app. lia.
Qed.

Lemma words_of_ge n : n <= 8 * words_of n.
Proof. unfold words_of. pose proof (N.div_mod (n + 7) 8). pose proof (N.mod_lt (n + 7) 8). lia. Qed.

Lemma spec_data p : ptr_ok p -> spec (read_data segs p) (24 + all_bytes) (fun b => blen b <= all_bytes).
Proof.
  intros Hp. destruct p as [p|]; [|apply spec_ret; unfold blen; cbn; lia]. cbn [read_data].
  eapply (spec_bind _ _ 8 (16 + all_bytes)); [by apply spec_word| |lia]. intros w _.
  destruct (w =? 0); [apply spec_ret; unfold blen; cbn; lia|].
  eapply (spec_bind _ _ 16 all_bytes); [apply spec_follow| |lia]. intros [t tag] _.
  destruct (_ && _); [|apply spec_err].
  eapply (spec_bind _ _ 0 all_bytes); [apply spec_bounds| |lia]. intros ? (g & Hg & Hl).
  pose proof (words_of_ge (w_list_count tag)). pose proof (seg_le _ _ Hg).
  eapply spec_mono; [eapply (spec_bytes _ _ _ g); [done|lia]|lia|]. intros b ->.
  pose proof (blen_slice_le (8 * t.2) (w_list_count tag) g). lia.
Qed.

Lemma spec_text p : ptr_ok p -> spec (read_text segs p) (24 + all_bytes) (fun b => blen b <= all_bytes).
Proof.
  intros Hp. destruct p as [p|]; [|apply spec_ret; unfold blen; cbn; lia]. cbn [read_text].
  eapply (spec_bind _ _ 8 (16 + all_bytes)); [by apply spec_word| |lia]. intros w _.
  destruct (w =? 0); [apply spec_ret; unfold blen; cbn; lia|].
  eapply (spec_bind _ _ 16 all_bytes); [apply spec_follow| |lia]. intros [t tag] _.
  destruct (_ && _); [|apply spec_err]. cbn zeta.
  eapply (spec_bind _ _ 0 all_bytes); [apply spec_bounds| |lia]. intros ? (g & Hg & Hl).
  destruct (w_list_count tag =? 0) eqn:En; [apply spec_err|]. apply N.eqb_neq in En.
  pose proof (words_of_ge (w_list_count tag)). pose proof (seg_le _ _ Hg).
  eapply (spec_bind _ _ 1 (w_list_count tag - 1)); [eapply (spec_bytes _ _ _ g); [done|lia]| |lia]. intros z _.
  destruct (decide _); [|apply spec_err].
  eapply (spec_bind _ _ (w_list_count tag - 1) 0); [eapply (spec_bytes _ _ _ g); [done|lia]| |lia]. intros b ->.
  destruct (utf8_ok _); [|apply spec_err]. apply spec_ret.
  pose proof (blen_slice_le (8 * t.2) (w_list_count tag - 1) g). lia.
Qed.

Lemma spec_elems id step g n : forall o,
  segs !! N.to_nat id = Some g -> (forall i, i < N.of_nat n -> o + i * step + 1 <= blen g) ->
  spec (read_elems segs id o step n) (N.of_nat n) (fun b => blen b <= N.of_nat n).
Proof.
  induction n as [|n IH]; intros o Hg Hl; cbn [read_elems].
  - apply spec_ret. unfold blen. cbn. lia.
  - eapply (spec_bind _ _ 1 (N.of_nat n)); [eapply (spec_bytes _ _ _ g); [done|specialize (Hl 0); lia]| |lia]. intros b ->.
    eapply (spec_bind _ _ (N.of_nat n) 0); [apply IH; [done|]| |lia].
    { intros i Hi. specialize (Hl (i + 1)). lia. }
    cbn beta. intros l Hle. apply spec_ret. rewrite blen_app. pose proof (blen_slice_le o 1 g). lia.
Qed.

Lemma elem_bits_bytes k : elem_bytes k <> 0 -> elem_bits k = 8 * elem_bytes k.
Proof. destruct k as [|[[[p|p|]|[p|p|]|]|[[p|p|]|[p|p|]|]|]]; cbn; done. Qed.

Lemma spec_u8s p : ptr_ok p -> spec (read_u8s segs p) (32 + all_bytes) (fun b => blen b <= all_bytes).
Proof.
  intros Hp. destruct p as [p|]; [|apply spec_ret; unfold blen; cbn; lia]. cbn [read_u8s].
  eapply (spec_bind _ _ 8 (24 + all_bytes)); [by apply spec_word| |lia]. intros w _.
  destruct (w =? 0); [apply spec_ret; unfold blen; cbn; lia|].
  eapply (spec_bind _ _ 16 (8 + all_bytes)); [apply spec_follow| |lia]. intros [t tag] _.
  destruct (w_kind tag =? 1); [|apply spec_err]. cbn zeta.
  destruct (w_list_size tag =? 7).
  - eapply (spec_bind _ _ 0 (8 + all_bytes)); [apply spec_bounds| |lia]. intros ? Hin; cbn beta in Hin.
    eapply (spec_bind _ _ 8 all_bytes); [apply spec_word| |lia].
    { apply (inside_sub _ _ 0 1) in Hin; [|lia]. rewrite N.add_0_r in Hin. by destruct t. }
    intros e _. destruct (w_kind e =? 0); [|apply spec_err]. cbn zeta.
    destruct (w_list_count tag <? _) eqn:Ec; [apply spec_err|]. apply N.ltb_ge in Ec.
    eapply (spec_bind _ _ 0 all_bytes (all_bytes) (fun _ => True)); [|intros _ _|lia].
    { destruct (_ =? 0); [apply spec_can|by apply spec_ret]. }
    destruct (w_struct_data e =? 0) eqn:Ed; [apply spec_err|]. apply N.eqb_neq in Ed.
    destruct Hin as (g & Hg & Hl). pose proof (seg_le _ _ Hg).
    set (cnt := w_tag_count e) in *. set (wpe := w_struct_data e + w_struct_ptrs e) in *. assert (1 <= wpe) by lia.
    assert (cnt <= cnt * wpe) by nia.
    eapply spec_mono; [eapply (spec_elems _ _ g); [done|]|lia|cbn beta; intros; lia].
    intros i Hi. assert ((i + 1) * wpe <= cnt * wpe) by (apply N.mul_le_mono_r; lia).
    assert (8 * (t.2 + 1) + i * (8 * wpe) + 1 <= 8 * (t.2 + 1 + (i + 1) * wpe)) by lia. lia.
  - eapply (spec_bind _ _ 0 (8 + all_bytes)); [apply spec_bounds| |lia]. intros ? (g & Hg & Hl).
    eapply (spec_bind _ _ 0 all_bytes _ (fun _ => True)); [|intros _ _|lia].
    { destruct (_ =? 0); [apply spec_can|by apply spec_ret]. }
    destruct (elem_bytes (w_list_size tag) =? 0) eqn:Ee; [apply spec_err|]. apply N.eqb_neq in Ee.
    rewrite (elem_bits_bytes _ Ee) in Hl. set (k := elem_bytes (w_list_size tag)) in *. set (n := w_list_count tag) in *.
    assert (n * k <= 8 * ((n * (8 * k) + 63) / 64)) as Hge.
    { pose proof (N.div_mod (n * (8 * k) + 63) 64). pose proof (N.mod_lt (n * (8 * k) + 63) 64). lia. }
    pose proof (seg_le _ _ Hg). assert (n <= n * k) by nia.
    eapply spec_mono; [eapply (spec_elems _ _ g); [done|]|lia|cbn beta; intros; lia].
    intros i Hi. assert ((i + 1) * k <= n * k) by (apply N.mul_le_mono_r; lia). lia.
Qed.

(** The bytes of variable length in a message. *)
Definition msg_size (m : message) : N :=
  match m with
  | MAuthWithKey _ k s => blen k + blen s
  | MAuthWithPermit _ => 0
  | MAuthResponse _ c => blen c
  | MDirect r b => blen r + blen b
  | MBroadcast t b => blen t + blen b
  | MSubscribe t | MUnsubscribe t => blen t
  | MUserSync p | MTopicSync p => blen p
  end.

Lemma spec_root : spec (read_root segs) (120 + 2 * all_bytes) (fun m => msg_size m <= 2 * all_bytes).
Proof.
  unfold read_root. eapply (spec_bind _ _ 0 (120 + 2 * all_bytes)); [apply spec_bounds| |lia]. intros ? Hin; cbn beta in Hin.
  eapply (spec_bind _ _ 24 (96 + 2 * all_bytes)); [by apply (spec_struct (Some (0, 0)))| |lia]. intros s Hs.
  eapply (spec_bind _ _ 8 (88 + 2 * all_bytes)); [by apply spec_sr_word| |lia]. intros w _. cbn zeta.
  pose proof (sr_ptr_ok s 0 Hs) as Hp. unfold read_union.
  destruct (w mod 2 ^ 16) as [|[[[[]|[]|]|[[]|[]|]|]|[[[]|[]|]|[[]|[]|]|]|]]; try apply spec_err.
  all: try (eapply (spec_bind _ _ 24 (64 + 2 * all_bytes)); [by apply spec_struct| |lia]; intros x Hx).
  all: try (eapply (spec_bind _ _ (32 + all_bytes) (32 + all_bytes)); [by first [apply spec_u8s | eapply spec_mono; [apply spec_data|lia|]]| |lia]; cbn beta; intros; apply spec_ret; cbn [msg_size]; lia).
  all: try (eapply (spec_bind _ _ (32 + all_bytes) (32 + all_bytes)); [by first [apply spec_u8s, sr_ptr_ok | eapply spec_mono; [apply spec_data, sr_ptr_ok|lia|]]| |lia]; cbn beta; intros b1 Hb1).
  all: try (eapply (spec_bind _ _ 8 (24 + all_bytes)); [by apply spec_sr_word| |lia]; intros ts _).
  all: try (eapply (spec_bind _ _ 8 (24 + 2 * all_bytes)); [by apply spec_sr_word| |lia]; intros permit _).
  all: try (eapply (spec_bind _ _ (24 + all_bytes) 0); [by first [apply spec_data, sr_ptr_ok | apply spec_text, sr_ptr_ok]| |lia]; cbn beta; intros b2 Hb2).
  all: try (apply spec_ret; cbn [msg_size]; lia).
Qed.
End safe.

(** The segments are pieces of the input. *)
Lemma split_concat sizes : forall l, blen (concat (split_segs sizes l)) <= blen l.
Proof.
  induction sizes as [|n ns IH]; intros l; cbn [split_segs concat]; [unfold blen; cbn; lia|].
  rewrite blen_app. specialize (IH (drop (N.to_nat (8 * n)) l)). rewrite blen_drop in IH.
  assert (blen (slice 0 (8 * n) l) <= N.min (8 * n) (blen l)).
  { unfold blen, slice. rewrite take_length, drop_length. lia. }
  lia.
Qed.
Lemma read_message_pieces l segs : (read_message l).2 = Some segs -> all_bytes segs <= blen l.
Proof.
  unfold read_message, read_table. destruct (blen l <? 8); [done|]. cbn zeta.
  destruct (_ || _); [done|]. destruct (blen l <? 8 + _) eqn:E; [done|].
  destruct (blen l <? total _); [done|]. cbn [snd]. destruct (blen (drop _ _) <? _); [done|]. intros Heq. injection Heq as <-.
  unfold all_bytes. etrans; [apply split_concat|]. rewrite blen_drop. lia.
Qed.

Lemma decode_run_spec l :
  (decode_run l).1 <> Fault
  /\ (decode_run l).2.2 <= 120 + 2 * blen l
  /\ (forall m, (decode_run l).1 = Ok m -> msg_size m <= 2 * blen l).
Proof.
  unfold decode_run. destruct (read_message l).2 as [segs|] eqn:E; [|cbn; split_and!; [done|lia|done]].
  apply read_message_pieces in E.
  destruct (spec_root segs (blen l, 0)) as (H1 & H2 & H3). cbn [snd] in *. split_and!; [done|lia|].
  intros m Hm. specialize (H2 m Hm). lia.
Qed.

(** Memory taken for the segments before their contents were seen. *)
Lemma read_message_memory l : (read_message l).1 <= 8 * blen l.
Proof.
  unfold read_message. destruct (read_table l) as [[sizes rest]|]; [|cbn [fst]; lia].
  destruct (blen l <? total sizes) eqn:E; [cbn [fst]; lia|]. apply N.ltb_ge in E. cbn [fst]. lia.
Qed.
