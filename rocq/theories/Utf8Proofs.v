(** The decoder's check accepts exactly the bytes of strings. *)
From stdpp Require Import list.
From Coq Require Import NArith Lia.
From Verif Require Import IdModel MsgModel WireModel CodecModel CodecSafe CodecRound CodecMsg Utf8Spec.
Local Open Scope N_scope.

Ltac ucmp :=
  repeat match goal with
  | |- context [?a <? ?b] => destruct (N.ltb_spec a b); try lia
  | |- context [?a <=? ?b] => destruct (N.leb_spec a b); try lia
  | |- context [?a =? ?b] => destruct (N.eqb_spec a b); try lia
  end.

Lemma dm a b : b <> 0 -> a = b * (a / b) + a mod b /\ a mod b < b.
Proof. intros Hb. split; [by apply N.div_mod|by apply N.mod_lt]. Qed.

Lemma utf8_ok_char n l : scalar n -> utf8_ok (utf8_char n ++ l) = utf8_ok l.
Proof.
  intros Hs. unfold scalar in Hs. unfold utf8_char.
  destruct (dm n 64 ltac:(lia)) as [E1 B1]. destruct (dm (n / 64) 64 ltac:(lia)) as [E2 B2].
  destruct (dm (n / 4096) 64 ltac:(lia)) as [E3 B3].
  assert (n / 64 / 64 = n / 4096) as D1 by (rewrite N.div_div by lia; reflexivity).
  assert (n / 4096 / 64 = n / 262144) as D2 by (rewrite N.div_div by lia; reflexivity).
  rewrite D1 in E2. rewrite D2 in E3.
  generalize dependent (n / 262144). generalize dependent (n / 4096 mod 64). generalize dependent (n / 4096).
  generalize dependent (n / 64 mod 64). generalize dependent (n / 64). generalize dependent (n mod 64).
  intros a Ha b E1 c Hc d Hd E2 e He f E3 _.
  destruct (N.ltb_spec n 128).
  { cbn [app utf8_ok]. by ucmp. }
  destruct (N.ltb_spec n 2048).
  { cbn [app utf8_ok]. unfold cont. ucmp; reflexivity. }
  destruct (N.ltb_spec n 65536).
  { cbn [app utf8_ok]. unfold cont. ucmp; reflexivity. }
  cbn [app utf8_ok]. unfold cont. ucmp; reflexivity.
Qed.

Lemma utf8_ok_utf8 cs : Forall scalar cs -> utf8_ok (utf8 cs) = true.
Proof.
  intros H. induction H as [|n cs Hn _ IH]; [reflexivity|].
  change (utf8 (n :: cs)) with (utf8_char n ++ utf8 cs). by rewrite utf8_ok_char.
Qed.

Lemma cont_iff b : cont b = true <-> 128 <= b /\ b <= 191.
Proof. unfold cont. rewrite andb_true_iff, !N.leb_le. reflexivity. Qed.

Lemma char2 a b : 194 <= a -> a <= 223 -> 128 <= b -> b <= 191 ->
  let n := (a - 192) * 64 + (b - 128) in scalar n /\ utf8_char n = [a; b].
Proof.
  intros Ha Ha' Hb Hb' n.
  assert (n / 64 = a - 192) as D1 by (symmetry; apply (N.div_unique _ _ _ (b - 128)); unfold n; lia).
  assert (n mod 64 = b - 128) as M1 by (symmetry; apply (N.mod_unique _ _ (a - 192)); unfold n; lia).
  split; [unfold scalar, n; lia|]. unfold utf8_char. rewrite D1, M1.
  rewrite (proj2 (N.ltb_ge n 0x80)) by (unfold n; lia). rewrite (proj2 (N.ltb_lt n 0x800)) by (unfold n; lia).
  f_equal; [lia|]. f_equal. lia.
Qed.

Lemma char3 a b c : 224 <= a -> a <= 239 -> 128 <= b -> b <= 191 -> 128 <= c -> c <= 191 ->
  (a = 224 -> 160 <= b) -> (a = 237 -> b <= 159) ->
  let n := (a - 224) * 4096 + (b - 128) * 64 + (c - 128) in scalar n /\ utf8_char n = [a; b; c].
Proof.
  intros Ha Ha' Hb Hb' Hc Hc' H1 H2 n.
  assert (n / 64 = (a - 224) * 64 + (b - 128)) as D1 by (symmetry; apply (N.div_unique _ _ _ (c - 128)); unfold n; lia).
  assert (n mod 64 = c - 128) as M1
    by (symmetry; apply (N.mod_unique _ _ ((a - 224) * 64 + (b - 128))); unfold n; lia).
  assert (n / 4096 = a - 224) as D2
    by (symmetry; apply (N.div_unique _ _ _ ((b - 128) * 64 + (c - 128))); unfold n; lia).
  assert (n / 64 mod 64 = b - 128) as M2
    by (rewrite D1; symmetry; apply (N.mod_unique _ _ (a - 224)); lia).
  split.
  { unfold scalar, n. destruct (N.le_gt_cases a 236); [left; lia|].
    destruct (N.eq_dec a 237) as [->|]; [left; specialize (H2 eq_refl); lia|right; lia]. }
  unfold utf8_char. rewrite D2, M1, M2.
  assert (2048 <= n) by (unfold n; destruct (N.eq_dec a 224) as [->|]; [specialize (H1 eq_refl)|]; lia).
  rewrite (proj2 (N.ltb_ge n 0x80)) by lia. rewrite (proj2 (N.ltb_ge n 0x800)) by lia.
  rewrite (proj2 (N.ltb_lt n 0x10000)) by (unfold n; lia).
  f_equal; [lia|]. f_equal; [lia|]. f_equal. lia.
Qed.

Lemma char4 a b c d : 240 <= a -> a <= 244 -> 128 <= b -> b <= 191 -> 128 <= c -> c <= 191 -> 128 <= d -> d <= 191 ->
  (a = 240 -> 144 <= b) -> (a = 244 -> b <= 143) ->
  let n := (a - 240) * 262144 + (b - 128) * 4096 + (c - 128) * 64 + (d - 128) in scalar n /\ utf8_char n = [a; b; c; d].
Proof.
  intros Ha Ha' Hb Hb' Hc Hc' Hd Hd' H1 H2 n.
  assert (n / 64 = (a - 240) * 4096 + (b - 128) * 64 + (c - 128)) as D1
    by (symmetry; apply (N.div_unique _ _ _ (d - 128)); unfold n; lia).
  assert (n mod 64 = d - 128) as M1
    by (symmetry; apply (N.mod_unique _ _ ((a - 240) * 4096 + (b - 128) * 64 + (c - 128))); unfold n; lia).
  assert (n / 4096 = (a - 240) * 64 + (b - 128)) as D2
    by (symmetry; apply (N.div_unique _ _ _ ((c - 128) * 64 + (d - 128))); unfold n; lia).
  assert (n / 262144 = a - 240) as D3
    by (symmetry; apply (N.div_unique _ _ _ ((b - 128) * 4096 + (c - 128) * 64 + (d - 128))); unfold n; lia).
  assert (n / 64 mod 64 = c - 128) as M2
    by (rewrite D1; symmetry; apply (N.mod_unique _ _ ((a - 240) * 64 + (b - 128))); lia).
  assert (n / 4096 mod 64 = b - 128) as M3
    by (rewrite D2; symmetry; apply (N.mod_unique _ _ (a - 240)); lia).
  assert (65536 <= n /\ n < 0x110000) as [L U].
  { unfold n. split; [destruct (N.eq_dec a 240) as [->|]; [specialize (H1 eq_refl)|]; lia|].
    destruct (N.eq_dec a 244) as [->|]; [specialize (H2 eq_refl)|]; lia. }
  split; [right; lia|]. unfold utf8_char. rewrite D3, M1, M2, M3.
  rewrite (proj2 (N.ltb_ge n 0x80)) by lia. rewrite (proj2 (N.ltb_ge n 0x800)) by lia.
  rewrite (proj2 (N.ltb_ge n 0x10000)) by lia.
  f_equal; [lia|]. f_equal; [lia|]. f_equal; [lia|]. f_equal. lia.
Qed.

Lemma text_cons n a bs : scalar n -> utf8_char n = a -> is_text bs -> is_text (a ++ bs).
Proof.
  intros Hn <- (cs & Hc & ->). exists (n :: cs). split; [by constructor|reflexivity].
Qed.

Lemma utf8_ok_text' m bs : (length bs <= m)%nat -> utf8_ok bs = true -> is_text bs.
Proof.
  revert bs. induction m as [|m IH]; intros bs Hm H.
  { destruct bs; [|cbn in Hm; lia]. exists []. split; [constructor|reflexivity]. }
  destruct bs as [|a l1]; [exists []; split; [constructor|reflexivity]|].
  cbn [utf8_ok] in H. cbn [length] in Hm.
  destruct (N.ltb_spec a 128) as [La|La].
  { apply (text_cons a [a]); [left; lia| |apply IH; [lia|done]].
    unfold utf8_char. by rewrite (proj2 (N.ltb_lt a 0x80)) by lia. }
  destruct ((194 <=? a) && (a <=? 223)) eqn:E2.
  { apply andb_true_iff in E2 as [A1 A2]. apply N.leb_le in A1, A2.
    destruct l1 as [|b l2]; [done|]. apply andb_true_iff in H as [Hb H]. apply cont_iff in Hb as [B1 B2].
    cbn [length] in Hm. destruct (char2 a b A1 A2 B1 B2) as [Hs Hc].
    apply (text_cons _ [a; b] l2 Hs Hc). apply IH; [lia|done]. }
  clear E2. destruct ((224 <=? a) && (a <=? 239)) eqn:E3.
  { apply andb_true_iff in E3 as [A1 A2]. apply N.leb_le in A1, A2.
    destruct l1 as [|b [|c l3]]; [done|done|].
    rewrite !andb_true_iff in H. destruct H as [[[[Hb Hc] X1] X2] H].
    apply cont_iff in Hb as [B1 B2]. apply cont_iff in Hc as [C1 C2]. cbn [length] in Hm.
    destruct (char3 a b c A1 A2 B1 B2 C1 C2) as [Hs Hch].
    - intros ->. by apply N.leb_le.
    - intros ->. by apply N.leb_le.
    - apply (text_cons _ [a; b; c] l3 Hs Hch). apply IH; [lia|done]. }
  clear E3. destruct ((240 <=? a) && (a <=? 244)) eqn:E4; [|done].
  apply andb_true_iff in E4 as [A1 A2]. apply N.leb_le in A1, A2.
  destruct l1 as [|b [|c [|d l4]]]; [done|done|done|].
  rewrite !andb_true_iff in H. destruct H as [[[[[Hb Hc] Hd] X1] X2] H].
  apply cont_iff in Hb as [B1 B2]. apply cont_iff in Hc as [C1 C2]. apply cont_iff in Hd as [D1 D2]. cbn [length] in Hm.
  destruct (char4 a b c d A1 A2 B1 B2 C1 C2 D1 D2) as [Hs Hch].
  - intros ->. by apply N.leb_le.
  - intros ->. by apply N.leb_le.
  - apply (text_cons _ [a; b; c; d] l4 Hs Hch). apply IH; [lia|done].
Qed.

Lemma utf8_ok_text bs : utf8_ok bs = true <-> is_text bs.
Proof.
  split; [by apply (utf8_ok_text' (length bs))|].
  intros (cs & H & ->). by apply utf8_ok_utf8.
Qed.

Lemma real_valid m : real_msg m <-> valid_msg m.
Proof. destruct m; cbn [real_msg valid_msg]; try done. by rewrite utf8_ok_text. Qed.

(** * What the decoder returns *)
Definition post {A} (m : rd A) (Q : A -> Prop) : Prop := forall s a, (m s).1 = Ok a -> Q a.

Lemma post_ret {A} (a : A) (Q : A -> Prop) : Q a -> post (rret a) Q.
Proof. intros H s b. unfold rret. cbn [fst]. congruence. Qed.
Lemma post_err {A} (Q : A -> Prop) : post rerr Q.
Proof. intros s b. unfold rerr. cbn [fst]. congruence. Qed.
Lemma post_bind {A B} (m : rd A) (f : A -> rd B) (Q : A -> Prop) R :
  post m Q -> (forall a, Q a -> post (f a) R) -> post (rbind m f) R.
Proof.
  intros Hm Hf s b. unfold rbind. destruct (m s) as [[a| |] s'] eqn:E; cbn [fst]; [|congruence|congruence].
  intros Hb. apply (Hf a) in Hb; [done|]. apply (Hm s). by rewrite E.
Qed.
Lemma post_any {A B} (m : rd A) (f : A -> rd B) R : (forall a, post (f a) R) -> post (rbind m f) R.
Proof. intros H. apply (post_bind _ _ (fun _ => True)); [done|]. intros a _. apply H. Qed.

Section decoded.
Variable segs : list bytes.
Hypothesis octs : Forall (Forall (fun b => b < 256)) segs.
Local Notation octets := (Forall (fun b : N => b < 256)).

Lemma post_rget id : post (rget segs id) octets.
Proof.
  unfold rget. destruct (_ <? _); [|apply post_err]. destruct (segs !! _) as [g|] eqn:E; [|by intros s a].
  apply post_ret. by eapply Forall_lookup_1.
Qed.
Lemma octets_slice o n l : octets l -> octets (slice o n l).
Proof. intros H. unfold slice. by apply Forall_take, Forall_drop. Qed.
Lemma post_rbytes id o n : post (rbytes segs id o n) (fun b => octets b /\ blen b = n).
Proof.
  unfold rbytes. eapply post_bind; [apply post_rget|]. intros g Hg s a.
  destruct (N.leb_spec (o + n) (blen g)); cbn [fst]; [|congruence]. intros [= <-].
  split; [by apply octets_slice|by apply blen_slice].
Qed.
Lemma le_val_lt l : octets l -> le_val l < 256 ^ blen l.
Proof.
  unfold blen. intros H. induction H as [|b l Hb H IH]; [cbn; lia|].
  change (le_val (b :: l)) with (b + 256 * le_val l). cbn [length]. rewrite Nat2N.inj_succ, N.pow_succ_r'. lia.
Qed.
Lemma post_rword p : post (rword segs p) (fun w => w < 2 ^ 64).
Proof.
  unfold rword. eapply post_bind; [apply post_rbytes|]. intros b [Hb Hl]. apply post_ret.
  apply le_val_lt in Hb. rewrite Hl in Hb. exact Hb.
Qed.
Lemma post_sr_word x : post (sr_word segs x) (fun w => w < 2 ^ 64).
Proof. unfold sr_word. destruct (_ <? _); [apply post_rword|apply post_ret; reflexivity]. Qed.

Lemma post_read_data p : post (read_data segs p) octets.
Proof.
  unfold read_data. destruct p as [p|]; [|apply post_ret; constructor]. apply post_any. intros w.
  destruct (w =? 0); [apply post_ret; constructor|]. apply post_any. intros [t tag]. destruct (_ && _); [|apply post_err].
  apply post_any. intros _. intros s a H. by apply post_rbytes in H as [H _].
Qed.
Lemma post_read_text p : post (read_text segs p) (fun c => octets c /\ is_text c).
Proof.
  assert (octets [] /\ is_text []) as E by (split; [constructor|exists []; split; [constructor|reflexivity]]).
  unfold read_text. destruct p as [p|]; [|by apply post_ret]. apply post_any. intros w.
  destruct (w =? 0); [by apply post_ret|]. apply post_any. intros [t tag]. destruct (_ && _); [|apply post_err].
  apply post_any. intros _. destruct (_ =? 0); [apply post_err|]. apply post_any. intros z.
  destruct (decide _); [|apply post_err]. eapply post_bind; [apply post_rbytes|]. intros b [Hb _].
  destruct (utf8_ok b) eqn:U; [|apply post_err]. apply post_ret. split; [done|by apply utf8_ok_text].
Qed.
Lemma post_read_elems id step n : forall o, post (read_elems segs id o step n) octets.
Proof.
  induction n as [|n IH]; intros o; cbn [read_elems]; [apply post_ret; constructor|].
  eapply post_bind; [apply post_rbytes|]. intros b [Hb _]. eapply post_bind; [apply IH|]. intros l Hl.
  apply post_ret. by apply Forall_app.
Qed.
Lemma post_read_u8s p : post (read_u8s segs p) octets.
Proof.
  unfold read_u8s. destruct p as [p|]; [|apply post_ret; constructor]. apply post_any. intros w.
  destruct (w =? 0); [apply post_ret; constructor|]. apply post_any. intros [t tag]. destruct (_ =? 1); [|apply post_err].
  destruct (_ =? 7).
  - apply post_any. intros _. apply post_any. intros e. destruct (_ =? 0); [|apply post_err].
    destruct (_ <? _); [apply post_err|]. apply post_any. intros _. destruct (_ =? 0); [apply post_err|]. apply post_read_elems.
  - apply post_any. intros _. apply post_any. intros _. destruct (_ =? 0); [apply post_err|]. apply post_read_elems.
Qed.

Lemma post_read_root : post (read_root segs) (fun m => real_msg m /\ octets_in m).
Proof.
  unfold read_root. apply post_any. intros _. apply post_any. intros x. apply post_any. intros w. unfold read_union.
  assert (forall y, post (read_union segs w y) (fun m => real_msg m /\ octets_in m)) as H; [|apply H].
  intros y. unfold read_union.
  repeat match goal with
  | |- post (match ?c with _ => _ end) _ => destruct c
  | |- post rerr _ => apply post_err
  end.
  all: repeat first
    [ eapply post_bind; [apply post_read_data|intros ? ?]
    | eapply post_bind; [apply post_read_text|intros ? [? ?]]
    | eapply post_bind; [apply post_read_u8s|intros ? ?]
    | eapply post_bind; [apply post_sr_word|intros ? ?]
    | apply post_any; intros ? ].
  all: apply post_ret; cbn [real_msg octets_in]; auto.
Qed.
End decoded.

Lemma decode_real l m : Forall (fun b => b < 256) l -> decode l = Some m -> real_msg m /\ octets_in m.
Proof.
  intros Hl. unfold decode, decode_run, read_message.
  destruct (read_table l) as [[sizes rest]|] eqn:E; [|done].
  destruct (_ <? _); [done|]. cbn [snd]. destruct (_ <? _); [done|].
  intros H. apply (post_read_root (split_segs sizes rest)) with (s := (blen l, 0)).
  - assert (Forall (fun b => b < 256) rest) as Hr.
    { revert E. unfold read_table. destruct (_ <? _); [done|]. destruct (_ || _); [done|]. destruct (_ <? _); [done|].
      intros [= _ <-]. by apply Forall_drop. }
    clear -Hr. revert rest Hr. induction sizes as [|n ns IH]; intros rest Hr; cbn [split_segs]; constructor.
    + by apply octets_slice.
    + by apply IH, Forall_drop.
  - by destruct (read_root (split_segs sizes rest) (blen l, 0)).1 as [m'| |]; [injection H as ->| |].
Qed.
