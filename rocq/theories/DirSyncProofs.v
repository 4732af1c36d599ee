(** Lemmas about user-directory synchronisation: effects of single operations, and two
    brokers under connects only. *)
From stdpp Require Import gmap fin_maps fin_sets list.
From Coq Require Import NArith Lia.
From Verif Require Import IdModel IdProofs RelMapModel VMapModel VMapSpec VMapProofs
  ConnModel ConnSpec ConnProofs ConnProofs2 SyncModel.

Notation dent s u := (entries (direct s) !! u) (only parsing).

(** * Effects on the directory of single operations *)

(** The version given to a local change. *)
Definition wver (m : direct_map) (u : ukey) : N :=
  match entries m !! u with
  | Some old => if decide (u ∈ modified m) then ver old else u64_succ (ver old)
  | None => 1
  end.

Lemma rie_entries (m : direct_map) u v u' :
  entries (vm_remove_if_equals m u v) !! u' =
  if decide (u = u' /\ vm_get m u = Some v) then Some (VVal (wver m u) None) else entries m !! u'.
Proof.
  unfold vm_remove_if_equals, vm_get, wver, vm_remove. destruct (entries m !! u) as [e|] eqn:He.
  - destruct (decide (val e = Some v)) as [Hv|Hv].
    + rewrite modify_local_lookup, He. destruct (decide (u = u' /\ val e = Some v)) as [[-> _]|Hne].
      * by rewrite decide_True.
      * rewrite decide_False; [done|]. tauto.
    + rewrite decide_False by tauto. done.
  - rewrite decide_False; [done|]. by intros [_ ?].
Qed.

Lemma rie_modified (m : direct_map) u v u' :
  u' ∈ modified (vm_remove_if_equals m u v) <-> u' ∈ modified m \/ (u = u' /\ vm_get m u = Some v).
Proof.
  unfold vm_remove_if_equals, vm_get, vm_remove. destruct (entries m !! u) as [e|] eqn:He.
  - destruct (decide (val e = Some v)) as [Hv|Hv]; cbn; set_solver.
  - split; [by left|]. by intros [?|[_ ?]].
Qed.

Lemma rie_cid (m : direct_map) u v : cid (vm_remove_if_equals m u v) = cid m.
Proof. unfold vm_remove_if_equals. destruct (entries m !! u); [|done]. by case_decide. Qed.

Lemma add_user_entries s u c ts h u' :
  dent (c_add_user s u c ts h) u' =
  if decide (u = u') then Some (VVal (wver (direct s) u) (Some (identity s))) else dent s u'.
Proof.
  rewrite au_direct. unfold vm_insert. rewrite modify_local_lookup.
  destruct (decide (u = u')) as [->|Hne].
  - f_equal. f_equal. rewrite rie_entries. unfold wver.
    destruct (decide (u' = u' /\ vm_get (direct s) u' = Some (identity s))) as [[_ Hg]|Hg].
    + cbn. rewrite decide_True; [done|]. apply rie_modified. right. done.
    + destruct (entries (direct s) !! u') as [e|]; [|done].
      destruct (decide (u' ∈ modified (direct s))) as [Hm|Hm].
      * rewrite decide_True; [done|]. apply rie_modified. by left.
      * rewrite decide_False; [done|]. rewrite rie_modified. tauto.
  - rewrite rie_entries. by rewrite decide_False by tauto.
Qed.

Lemma add_user_modified s u c ts h u' :
  u' ∈ modified (direct (c_add_user s u c ts h)) <-> u' = u \/ u' ∈ modified (direct s).
Proof.
  rewrite au_direct. unfold vm_insert. cbn.
  rewrite elem_of_union, elem_of_singleton, rie_modified. split; [|tauto].
  intros [->|[?|[-> _]]]; auto.
Qed.

(** Operations that do not touch the directory. *)
Definition neutral (o : conn_op) : Prop :=
  match o with
  | CAddUser _ _ _ _ | CRemoveUser _ | CApplyUserSync _ | CPartialUserSync => False
  | _ => True
  end.
Global Instance neutral_dec o : Decision (neutral o).
Proof. destruct o; cbn; apply _. Defined.
Lemma neutral_direct s o : neutral o -> direct (c_step s o) = direct s.
Proof.
  destruct o; try done; cbn [c_step]; intros _.
  - by rewrite ab_direct.
  - by rewrite rb_direct.
  - pose proof (apply_topic_frame s b m) as Hf. cbn zeta in Hf. by destruct Hf as (_ & _ & -> & _).
  - pose proof (partial_topic_frame s) as Hf. cbn zeta in Hf. by destruct Hf as (_ & _ & _ & -> & _).
Qed.

Lemma partial_direct s : direct (c_step s CPartialUserSync) = (vm_diff (direct s)).2.
Proof. cbn [c_step]. by rewrite partial_user_direct. Qed.

Lemma remove_users_direct s us :
  (forall u, u ∈ us -> vm_get (direct s) u <> Some (identity s)) -> direct (remove_users s us) = direct s.
Proof.
  revert s. induction us as [|u us IH]; intros s Hall; [done|].
  rewrite remove_users_cons.
  assert (Hd : direct (c_remove_user s u) = direct s).
  { rewrite ru_direct. apply vm_get_remove_if_none, Hall. set_solver. }
  rewrite IH; [done|]. intros u' Hu'. rewrite Hd, ru_identity. apply Hall. set_solver.
Qed.

Lemma apply_user_sync_direct s m :
  (forall u rv, entries m !! u = Some rv -> val rv <> Some (identity s)) ->
  direct (c_apply_user_sync s m) = (vm_merge bid_gtb (direct s) m).1.
Proof.
  intros Hno. rewrite apply_user_sync_eq. rewrite remove_users_direct; [done|].
  intros u Hu. apply elem_of_list_fmap in Hu as ([u' v] & -> & Hu). apply elem_of_list_In, merge_changes in Hu.
  destruct Hu as (rv & Hrv & -> & Hw). cbn [set_direct direct identity fst].
  unfold vm_get. rewrite merge_lookup, Hrv. unfold lww. rewrite decide_True by done.
  unfold taken. destruct (val rv) eqn:Hv; [|done]. rewrite Hv. rewrite <- Hv. by eapply Hno.
Qed.

(** [partial sync says None] means no unsent change. *)
Lemma partial_none s : vm_wf (direct s) ->
  (c_get_partial_user_sync s).2 = None <-> modified (direct s) = ∅.
Proof.
  intros Hwf. rewrite partial_user_direct. cbn [snd]. unfold vm_is_empty.
  case_bool_decide as He.
  - split; [|done]. intros _. apply set_eq. intros u. split; [|set_solver]. intros Hu.
    destruct (Hwf u Hu) as [e Hue]. exfalso.
    pose proof (diff_delta_lookup (direct s) u) as Hl. rewrite decide_True in Hl by done.
    rewrite He, Hue in Hl. done.
  - split; [done|]. intros Hm. exfalso. apply He. apply map_eq. intros u. rewrite diff_delta_lookup, Hm.
    rewrite decide_False by set_solver. by rewrite lookup_empty.
Qed.

Lemma partial_out s d : (c_get_partial_user_sync s).2 = Some d -> d = (vm_diff (direct s)).1.
Proof. rewrite partial_user_direct. cbn [snd]. by case_match; intros [= <-]. Qed.

Lemma partial_in_out s u e :
  u ∈ modified (direct s) -> dent s u = Some e ->
  exists d, (c_get_partial_user_sync s).2 = Some d /\ entries d !! u = Some e.
Proof.
  intros Hu He. rewrite partial_user_direct. cbn [snd].
  assert (Hd : entries (vm_diff (direct s)).1 !! u = Some e).
  { rewrite diff_delta_lookup. by rewrite decide_True. }
  unfold vm_is_empty. case_bool_decide as Hemp; [rewrite Hemp in Hd; done|]. eauto.
Qed.

(** Well-formedness of the directory. *)
Lemma rie_wf (m : direct_map) u v : vm_wf m -> vm_wf (vm_remove_if_equals m u v).
Proof. intros Hw. exact (step_wf bid_gtb m (VRemoveIfEq u v) Hw). Qed.
Lemma remove_users_wf s us : vm_wf (direct s) -> vm_wf (direct (remove_users s us)).
Proof.
  revert s. induction us as [|u us IH]; intros s Hw; [done|].
  rewrite remove_users_cons. apply IH. rewrite ru_direct. by apply rie_wf.
Qed.
Lemma c_step_wf s o : vm_wf (direct s) -> vm_wf (direct (c_step s o)).
Proof.
  intros Hw. destruct (decide (neutral o)) as [Hn|Hn].
  { by rewrite neutral_direct. }
  destruct o; try (exfalso; by apply Hn); cbn [c_step].
  - rewrite au_direct. apply modify_local_wf. by apply rie_wf.
  - rewrite ru_direct. by apply rie_wf.
  - rewrite apply_user_sync_eq. apply remove_users_wf. cbn. by apply merge_wf.
  - rewrite partial_user_direct. cbn. exact (step_wf bid_gtb (direct s) VDiff Hw).
Qed.

(** * Two brokers, users only connecting *)
Section two.
Variable ident : bool -> bid.
Hypothesis Hident : ident true <> ident false.

Lemma ident_neq x : ident x <> ident (negb x).
Proof. destruct x; [done|]. by apply not_eq_sym. Qed.

(** The identity that wins ties. *)
Definition hi : bid := if bid_gtb (ident true) (ident false) then ident true else ident false.

Lemma hi_gt x : bid_gtb (ident x) (ident (negb x)) = true <-> hi = ident x.
Proof.
  unfold hi. destruct (bid_gtb_total _ _ Hident) as [Hg|Hg]; pose proof (bid_gtb_asym _ _ Hg) as Hg'; destruct x; cbn [negb]; rewrite ?Hg, ?Hg'.
  - done.
  - split; [done|]. intros He. exfalso. by apply Hident.
  - split; [done|]. intros He. exfalso. apply Hident. done.
  - done.
Qed.
Lemma hi_other x : bid_gtb (ident x) (ident (negb x)) = false -> hi = ident (negb x).
Proof.
  intros Hf. apply hi_gt. rewrite negb_involutive.
  destruct (bid_gtb_total _ _ (ident_neq x)) as [Hg|Hg]; [congruence|done].
Qed.

(** The order in which directory entries supersede each other. *)
Definition ele (e e' : vval bid) : Prop :=
  (ver e < ver e')%N \/ (ver e = ver e' /\ (e = e' \/ val e' = Some hi)).
Lemma ele_refl e : ele e e.
Proof. right. auto. Qed.
Lemma ele_trans a b c : ele a b -> ele b c -> ele a c.
Proof.
  unfold ele. intros [H1|[H1 H1']] [H2|[H2 H2']]; try (left; lia).
  right. split; [lia|]. destruct H1' as [->|H1'], H2' as [->|H2']; auto.
Qed.
Lemma ele_antisym a b : ele a b -> ele b a -> a = b.
Proof.
  unfold ele. intros [H1|[H1 H1']] [H2|[H2 H2']]; try lia.
  destruct H1' as [?|H1']; [done|]. destruct H2' as [?|H2']; [done|].
  destruct a as [va xa], b as [vb xb]. cbn in *. congruence.
Qed.

Notation E s x u := (entries (direct (un_conns s x)) !! u) (only parsing).

Record two_inv (n : N) (s : unet bool) : Prop := {
  ti_dir : forall x, dir_inv (un_conns s x) /\ identity (un_conns s x) = ident x /\ vm_wf (direct (un_conns s x));
  ti_val : forall x u e, E s x u = Some e ->
     (ver e <= n)%N /\ (val e = Some (ident x) \/ val e = Some (ident (negb x)));
  ti_mod : forall x u, u ∈ modified (direct (un_conns s x)) -> exists e, E s x u = Some e /\ val e = Some (ident x);
  ti_self : forall x, un_link s x x = [];
  ti_msg : forall x m, In m (un_link s x (negb x)) -> cid m = ident x /\
     forall u e, entries m !! u = Some e -> val e = Some (ident x) /\ exists cur, E s x u = Some cur /\ ele e cur;
  ti_sent : forall x u e, E s x u = Some e -> val e = Some (ident x) -> u ∉ modified (direct (un_conns s x)) ->
     (exists m, In m (un_link s x (negb x)) /\ entries m !! u = Some e)
     \/ (exists cur, E s (negb x) u = Some cur /\ ele e cur);
  ti_other : forall x u e, E s x u = Some e -> val e = Some (ident (negb x)) ->
     exists cur, E s (negb x) u = Some cur /\ ele e cur;
}.

Definition quiet (o : conn_op) : Prop :=
  match o with CRemoveUser _ | CApplyUserSync _ | CPartialUserSync => False | _ => True end.

Lemma quiet_cases o : quiet o -> (exists u c ts h, o = CAddUser u c ts h) \/ neutral o.
Proof. destruct o; cbn; try done; eauto 10. Qed.

Lemma upd_eq {A} (f : bool -> A) x a : upd f x a x = a.
Proof. unfold upd. by rewrite decide_True. Qed.
Lemma upd_ne {A} (f : bool -> A) x y a : y <> x -> upd f x a y = f y.
Proof. intros. unfold upd. by rewrite decide_False. Qed.
Lemma negb_ne x : negb x <> x.
Proof. by destruct x. Qed.
Lemma ne_negb x y : y <> x -> y = negb x.
Proof. by destruct x, y. Qed.

Lemma two_mono n n' s : (n <= n')%N -> two_inv n s -> two_inv n' s.
Proof.
  intros Hn []. split; try done. intros x u e He. destruct (ti_val0 x u e He). split; [lia|done].
Qed.

(** A connect at [x] (or anything that leaves the directory alone). *)
Lemma two_local n s x o :
  (n + 1 < u64_modulus)%N -> quiet o -> two_inv n s -> two_inv (n + 1) (un_step s (ULocal x o)).
Proof.
  intros Hn Hq Hinv. pose proof Hinv as [Hd Hv Hm Hs Hmsg Hse Ho].
  cbn [un_step].
  assert (Hdir : forall y, dir_inv (upd (un_conns s) x (c_step (un_conns s x) o) y)
     /\ identity (upd (un_conns s) x (c_step (un_conns s x) o) y) = ident y
     /\ vm_wf (direct (upd (un_conns s) x (c_step (un_conns s x) o) y))).
  { intros y. destruct (decide (y = x)) as [->|Hne].
    - rewrite upd_eq. destruct (Hd x) as (H1 & H2 & H3). split_and!; [by apply step_dir| by rewrite step_identity|by apply c_step_wf].
    - rewrite upd_ne by done. apply Hd. }
  destruct (quiet_cases o Hq) as [(u & c & ts & h & ->)|Hneu].
  - (* a connect *)
    cbn [c_step] in *.
    assert (HE : forall y u', entries (direct (upd (un_conns s) x (c_add_user (un_conns s x) u c ts h) y)) !! u' =
       if decide (y = x /\ u' = u) then Some (VVal (wver (direct (un_conns s x)) u) (Some (ident x))) else E s y u').
    { intros y u'. destruct (decide (y = x)) as [->|Hne].
      - rewrite upd_eq, add_user_entries. destruct (Hd x) as (_ & -> & _).
        destruct (decide (u = u')) as [->|]; [by rewrite decide_True|]. rewrite decide_False; [done|]. intros [_ ?]; congruence.
      - rewrite upd_ne by done. rewrite decide_False; [done|]. tauto. }
    assert (HM : forall y u', u' ∈ modified (direct (upd (un_conns s) x (c_add_user (un_conns s x) u c ts h) y)) <->
       u' ∈ modified (direct (un_conns s y)) \/ (y = x /\ u' = u)).
    { intros y u'. destruct (decide (y = x)) as [->|Hne].
      - rewrite upd_eq, add_user_modified. tauto.
      - rewrite upd_ne by done. tauto. }
    assert (Hw : (1 <= wver (direct (un_conns s x)) u <= n + 1)%N \/ exists e, E s x u = Some e /\ wver (direct (un_conns s x)) u = ver e /\ u ∈ modified (direct (un_conns s x))).
    { unfold wver. destruct (E s x u) as [e|] eqn:He; [|left; lia].
      destruct (decide (u ∈ modified (direct (un_conns s x)))); [right; eauto|].
      left. destruct (Hv x u e He). rewrite u64_succ_small by lia. lia. }
    assert (Hmono : forall y u' e, E s y u' = Some e ->
       exists e', entries (direct (upd (un_conns s) x (c_add_user (un_conns s x) u c ts h) y)) !! u' = Some e' /\ ele e e').
    { intros y u' e He. rewrite HE. destruct (decide (y = x /\ u' = u)) as [[-> ->]|_]; [|eexists; split; [done|apply ele_refl]].
      eexists. split; [done|]. unfold wver. rewrite He.
      destruct (decide (u ∈ modified (direct (un_conns s x)))) as [Hmod|Hmod].
      - destruct (Hm x u Hmod) as (e' & He' & Hve). rewrite He in He'. injection He' as <-.
        right. cbn. split; [done|]. left. rewrite <- (vval_eta e), Hve. done.
      - left. cbn. destruct (Hv x u e He). rewrite u64_succ_small by lia. lia. }
    split; cbn [un_conns un_link].
    + exact Hdir.
    + intros y u' e. rewrite HE. destruct (decide (y = x /\ u' = u)) as [[-> ->]|_].
      * intros [= <-]. cbn. split; [|by left]. destruct Hw as [Hw|(e & He & -> & _)]; [lia|]. destruct (Hv x u e He). lia.
      * intros He. destruct (Hv y u' e He). split; [lia|done].
    + intros y u'. rewrite HM, HE. intros Hmod. destruct (decide (y = x /\ u' = u)) as [[-> ->]|Hc].
      * eexists. split; [done|]. done.
      * destruct Hmod as [Hmod|?]; [|done]. by apply Hm.
    + exact Hs.
    + intros y m Hin. destruct (Hmsg y m Hin) as [Hc Hen]. split; [done|].
      intros u' e He. destruct (Hen u' e He) as (Hval & cur & Hcur & Hle). split; [done|].
      destruct (Hmono y u' cur Hcur) as (e' & He' & Hle'). exists e'. split; [done|]. by eapply ele_trans.
    + intros y u' e. rewrite HE, HM. destruct (decide (y = x /\ u' = u)) as [[-> ->]|Hc].
      * intros _ _ Hno. exfalso. apply Hno. by right.
      * intros He Hval Hno. destruct (Hse y u' e He Hval) as [?|(cur & Hcur & Hle)]; [tauto|by left|right].
        destruct (Hmono (negb y) u' cur Hcur) as (e' & He' & Hle'). exists e'. split; [done|]. by eapply ele_trans.
    + intros y u' e. rewrite HE. destruct (decide (y = x /\ u' = u)) as [[-> ->]|Hc].
      * intros [= <-]. cbn. intros [= Hbad]. exfalso. by apply (ident_neq x).
      * intros He Hval. destruct (Ho y u' e He Hval) as (cur & Hcur & Hle).
        destruct (Hmono (negb y) u' cur Hcur) as (e' & He' & Hle'). exists e'. split; [done|]. by eapply ele_trans.
  - (* no change of the directory *)
    assert (Heq : forall y, direct (upd (un_conns s) x (c_step (un_conns s x) o) y) = direct (un_conns s y)).
    { intros y. destruct (decide (y = x)) as [->|Hne]; [rewrite upd_eq; by apply neutral_direct|by rewrite upd_ne]. }
    apply (two_mono n); [lia|].
    split; cbn [un_conns un_link].
    + exact Hdir.
    + intros y u e. rewrite Heq. apply Hv.
    + intros y u. rewrite Heq. apply Hm.
    + exact Hs.
    + intros y m Hin. destruct (Hmsg y m Hin) as [? Hen]. split; [done|]. intros u e He. rewrite Heq. by apply Hen.
    + intros y u e. rewrite !Heq. apply Hse.
    + intros y u e. rewrite !Heq. apply Ho.
Qed.

Lemma two_partial n s x : two_inv n s -> two_inv n (un_step s (UPartial x)).
Proof.
  intros Hinv. pose proof Hinv as [Hd Hv Hm Hs Hmsg Hse Ho].
  cbn [un_step].
  assert (HE : forall y u', entries (direct (upd (un_conns s) x (c_step (un_conns s x) CPartialUserSync) y)) !! u' = E s y u').
  { intros y u'. destruct (decide (y = x)) as [->|Hne]; [|by rewrite upd_ne].
    rewrite upd_eq, partial_direct, diff_rest_lookup. destruct (decide (u' ∈ modified (direct (un_conns s x)))); [|done].
    destruct (E s x u') as [[v [?|]]|] eqn:He; [done| |done]. destruct (Hv x u' _ He) as [_ [Hc|Hc]]; done. }
  assert (HM : forall y u', u' ∈ modified (direct (upd (un_conns s) x (c_step (un_conns s x) CPartialUserSync) y)) ->
     u' ∈ modified (direct (un_conns s y)) /\ y <> x).
  { intros y u'. destruct (decide (y = x)) as [->|Hne]; [|by rewrite upd_ne].
    rewrite upd_eq, partial_direct, diff_rest_modified. set_solver. }
  assert (HL : forall y m, In m (upd (un_link s) x (fun j => if decide (j = x) then un_link s x j
         else un_link s x j ++ option_list (c_get_partial_user_sync (un_conns s x)).2) y (negb y)) <->
     In m (un_link s y (negb y)) \/ (y = x /\ (c_get_partial_user_sync (un_conns s x)).2 = Some m)).
  { intros y m. destruct (decide (y = x)) as [->|Hne].
    - rewrite upd_eq, decide_False by apply negb_ne. rewrite in_app_iff.
      destruct (c_get_partial_user_sync (un_conns s x)).2 as [d|]; cbn; [|naive_solver]. split.
      + intros [?|[->|[]]]; auto.
      + intros [?|[_ [= ->]]]; auto.
    - rewrite upd_ne by done. tauto. }
  split; cbn [un_conns un_link].
  - intros y. destruct (decide (y = x)) as [->|Hne]; [|rewrite upd_ne by done; apply Hd].
    rewrite upd_eq. destruct (Hd x) as (H1 & H2 & H3). split_and!; [by apply step_dir| by rewrite step_identity|by apply c_step_wf].
  - intros y u' e. rewrite HE. apply Hv.
  - intros y u' Hmod. apply HM in Hmod as [Hmod _]. rewrite HE. by apply Hm.
  - intros y. destruct (decide (y = x)) as [->|Hne]; [rewrite upd_eq, decide_True by done|rewrite upd_ne by done]; apply Hs.
  - intros y m Hin. apply HL in Hin as [Hin|[-> Hout]].
    + destruct (Hmsg y m Hin) as [Hc Hen]. split; [done|]. intros u' e. rewrite HE. apply Hen.
    + apply partial_out in Hout as ->. split.
      { rewrite diff_delta_cid. destruct (Hd x) as ([H1 _] & H2 & _). congruence. }
      intros u' e. rewrite diff_delta_lookup, HE. destruct (decide (u' ∈ modified (direct (un_conns s x)))) as [Hmod|]; [|done].
      intros He. destruct (Hm x u' Hmod) as (e' & He' & Hval). rewrite He in He'. injection He' as <-.
      split; [done|]. exists e. split; [done|apply ele_refl].
  - intros y u' e. rewrite HE. intros He Hval Hno.
    destruct (decide (u' ∈ modified (direct (un_conns s y)))) as [Hmod|Hmod].
    + assert (y = x) as ->.
      { destruct (decide (y = x)); [done|]. exfalso. apply Hno. by rewrite upd_ne. }
      destruct (partial_in_out _ _ _ Hmod He) as (d & Hout & Hd').
      left. exists d. split; [|done]. apply HL. by right.
    + destruct (Hse y u' e He Hval Hmod) as [(m & Hin & Hme)|Hr].
      * left. exists m. split; [|done]. apply HL. by left.
      * right. by rewrite HE.
  - intros y u' e. rewrite !HE. apply Ho.
Qed.

(** A link loses or repeats messages only after they were handled. *)
Lemma two_deliver n s x y k : two_inv n s -> two_inv n (un_step s (UDeliver x y k)).
Proof.
  intros Hinv. pose proof Hinv as [Hd Hv Hm Hs Hmsg Hse Ho].
  cbn [un_step]. destruct (un_link s x y !! k) as [m|] eqn:Hk; [|done].
  assert (Hxy : y = negb x).
  { apply ne_negb. intros ->. rewrite Hs in Hk. done. }
  subst y. destruct (Hmsg x m) as [Hcid Hen]; [by eapply elem_of_list_In, elem_of_list_lookup_2|].
  set (y := negb x) in *.
  assert (Hny : x = negb y) by (subst y; by rewrite negb_involutive).
  destruct (Hd y) as (Hdir & Hidy & Hwf).
  assert (Hdirect : direct (c_step (un_conns s y) (CApplyUserSync m)) = (vm_merge bid_gtb (direct (un_conns s y)) m).1).
  { cbn [c_step]. apply apply_user_sync_direct. intros u rv Hrv. destruct (Hen u rv Hrv) as [-> _].
    rewrite Hidy. intros [= Hbad]. by apply (ident_neq x). }
  assert (Hcidy : cid (direct (un_conns s y)) = ident y) by (destruct Hdir as [-> _]; done).
  assert (HE : forall u, entries (direct (c_step (un_conns s y) (CApplyUserSync m))) !! u =
     lww bid_gtb (ident x) (ident y) (E s y u) (entries m !! u)).
  { intros u. by rewrite Hdirect, merge_lookup, Hcid, Hcidy. }
  (* the new entry dominates both the old one and the message *)
  assert (Hdom_old : forall u e, E s y u = Some e -> exists e', entries (direct (c_step (un_conns s y) (CApplyUserSync m))) !! u = Some e' /\ ele e e').
  { intros u e He. rewrite HE, He. unfold lww. destruct (entries m !! u) as [rv|] eqn:Hrv; [|eexists; split; [done|apply ele_refl]].
    destruct (decide (remote_wins bid_gtb (ident x) (ident y) (Some e) rv)) as [Hw|_]; [|eexists; split; [done|apply ele_refl]].
    destruct (Hen u rv Hrv) as [Hvrv _]. unfold taken. rewrite Hvrv. exists rv. split; [done|].
    destruct Hw as [Hw|[Hw Hg]]; [by left|]. right. split; [done|]. right. rewrite Hvrv. f_equal. symmetry. by apply hi_gt. }
  assert (Hdom_msg : forall u e, entries m !! u = Some e -> exists e', entries (direct (c_step (un_conns s y) (CApplyUserSync m))) !! u = Some e' /\ ele e e').
  { intros u e He. destruct (Hen u e He) as [Hve _]. rewrite HE, He. unfold lww.
    destruct (decide (remote_wins bid_gtb (ident x) (ident y) (E s y u) e)) as [Hw|Hw].
    { unfold taken. rewrite Hve. exists e. split; [done|apply ele_refl]. }
    destruct (E s y u) as [lv|] eqn:Hlv; [|exfalso; apply Hw; cbn; congruence].
    exists lv. split; [done|]. cbn in Hw. destruct (decide (ver lv = ver e)) as [Heq|Hne]; [|left; lia].
    right. split; [done|]. destruct (Hv y u lv Hlv) as [_ [Hl|Hl]].
    - right. rewrite Hl. f_equal. symmetry. apply hi_other. destruct (bid_gtb (ident x) (ident (negb x))) eqn:Hb; [|done]. exfalso. apply Hw. by right.
    - left. rewrite <- (vval_eta e), <- (vval_eta lv), Hl, Hve, Heq. by rewrite <- Hny. }
  assert (Hnew : forall u e, entries (direct (c_step (un_conns s y) (CApplyUserSync m))) !! u = Some e ->
     E s y u = Some e \/ (entries m !! u = Some e)).
  { intros u e. rewrite HE. unfold lww. destruct (entries m !! u) as [rv|] eqn:Hrv; [|by left].
    destruct (decide _); [|by left]. unfold taken. destruct (val rv); [|done]. by right. }
  assert (Hold : forall u e, entries (direct (c_step (un_conns s y) (CApplyUserSync m))) !! u = Some e ->
     u ∈ modified (direct (c_step (un_conns s y) (CApplyUserSync m))) -> E s y u = Some e).
  { intros u e. rewrite HE, Hdirect, merge_modified, Hcid, Hcidy. unfold lww.
    destruct (entries m !! u) as [rv|] eqn:Hrv; [|done].
    destruct (decide _) as [Hw|]; [|done]. intros _ [Hmod Hno]. exfalso. apply Hno.
    split; [by apply Hwf|]. eauto. }
  assert (Hcons : forall z u, z <> y -> entries (direct (upd (un_conns s) y (c_step (un_conns s y) (CApplyUserSync m)) z)) !! u = E s z u).
  { intros z u Hz. by rewrite upd_ne. }
  assert (HL : forall z m', In m' (upd2 (un_link s) x y (delete k (un_link s x y)) z (negb z)) -> In m' (un_link s z (negb z))).
  { intros z m'. unfold upd2. destruct (decide (z = x)) as [->|Hz]; [|by rewrite upd_ne].
    rewrite !upd_eq. intros Hin. apply elem_of_list_In. apply elem_of_list_In in Hin.
    rewrite delete_take_drop in Hin. apply elem_of_app in Hin as [Hin|Hin].
    - apply elem_of_list_lookup in Hin as [q Hq]. apply elem_of_list_lookup. exists q.
      apply lookup_take_Some in Hq. tauto.
    - apply elem_of_list_lookup in Hin as [q Hq]. rewrite lookup_drop in Hq. by eapply elem_of_list_lookup_2. }
  assert (HL' : forall z m', In m' (un_link s z (negb z)) ->
     In m' (upd2 (un_link s) x y (delete k (un_link s x y)) z (negb z)) \/ (z = x /\ m' = m)).
  { intros z m' Hin. unfold upd2. destruct (decide (z = x)) as [->|Hz]; [|rewrite upd_ne by done; by left].
    rewrite !upd_eq. fold y in Hin. apply elem_of_list_In, elem_of_list_lookup in Hin as [q Hq].
    destruct (decide (q = k)) as [->|Hqk]; [right; split; congruence|left].
    apply elem_of_list_In, elem_of_list_lookup.
    destruct (decide (q < k)) as [Hlt|Hge].
    - exists q. by rewrite lookup_delete_lt.
    - exists (q - 1). rewrite lookup_delete_ge by lia. by replace (S (q - 1)) with q by lia. }
  assert (Hm1 : forall z u e, E s z u = Some e ->
     exists e', entries (direct (upd (un_conns s) y (c_step (un_conns s y) (CApplyUserSync m)) z)) !! u = Some e' /\ ele e e').
  { intros z u e He. destruct (decide (z = y)) as [->|Hz].
    - rewrite upd_eq. by apply Hdom_old.
    - rewrite Hcons by done. exists e. split; [done|apply ele_refl]. }
  split; cbn [un_conns un_link].
  - intros z. destruct (decide (z = y)) as [->|Hz]; [|rewrite upd_ne by done; apply Hd].
    rewrite upd_eq. split_and!; [by apply step_dir| by rewrite step_identity|by apply c_step_wf].
  - intros z u e. destruct (decide (z = y)) as [->|Hz]; [|rewrite Hcons by done; apply Hv].
    rewrite upd_eq. intros He. destruct (Hnew u e He) as [He'|He']; [by apply (Hv y u)|].
    destruct (Hen u e He') as (Hve & cur & Hcur & Hle). destruct (Hv x u cur Hcur) as [Hn _].
    split; [destruct Hle; lia|]. right. by rewrite Hve, Hny.
  - intros z u. destruct (decide (z = y)) as [->|Hz]; [|rewrite upd_ne by done; apply Hm].
    rewrite upd_eq. intros Hmod.
    pose proof Hmod as Hmod'. rewrite Hdirect in Hmod'. apply merge_modified in Hmod' as [Hmod' _].
    destruct (Hm y u Hmod') as (e & He & Hve).
    destruct (Hdom_old u e He) as (e' & He' & _). pose proof (Hold u e' He' Hmod) as Heq.
    exists e'. split; [done|]. congruence.
  - intros z. unfold upd2. destruct (decide (z = x)) as [->|Hz].
    + rewrite upd_eq, upd_ne; [apply Hs|]. subst y. by destruct x.
    + rewrite upd_ne by done. apply Hs.
  - intros z m' Hin. apply HL in Hin. destruct (Hmsg z m' Hin) as [Hc Hen']. split; [done|].
    intros u e He. destruct (Hen' u e He) as (Hve & cur & Hcur & Hle). split; [done|].
    destruct (Hm1 z u cur Hcur) as (e' & He' & Hle'). exists e'. split; [done|]. by eapply ele_trans.
  - intros z u e He Hve Hno.
    destruct (decide (z = y)) as [->|Hz].
    + rewrite upd_eq in He, Hno.
      assert (Hold' : E s y u = Some e).
      { destruct (Hnew u e He) as [?|He']; [done|]. destruct (Hen u e He') as [Hve' _]. exfalso.
        rewrite Hve in Hve'. injection Hve' as Hbad. apply (ident_neq x). done. }
      assert (Hno' : u ∉ modified (direct (un_conns s y))).
      { intros Hmod. apply Hno. rewrite Hdirect, merge_modified. split; [done|].
        intros (_ & rv & Hrv & Hw). destruct (Hen u rv Hrv) as [Hvr _].
        rewrite HE, Hrv in He. unfold lww in He. rewrite Hcid, Hcidy in Hw. rewrite decide_True in He by done.
        unfold taken in He. rewrite Hvr in He. injection He as <-. rewrite Hve in Hvr. injection Hvr as Hbad. by apply (ident_neq x). }
      destruct (Hse y u e Hold' Hve Hno') as [(m' & Hin & Hme)|(cur & Hcur & Hle)].
      * left. exists m'. split; [|done]. destruct (HL' y m' Hin) as [?|[Hbad _]]; [done|]. exfalso. subst y. by destruct x.
      * right. destruct (Hm1 (negb y) u cur Hcur) as (e' & He' & Hle'). exists e'. split; [done|]. by eapply ele_trans.
    + rewrite Hcons in He by done. assert (z = x) as -> by (subst y; by destruct x, z).
      rewrite upd_ne in Hno by done.
      destruct (Hse x u e He Hve Hno) as [(m' & Hin & Hme)|(cur & Hcur & Hle)].
      * destruct (HL' x m' Hin) as [?|[_ ->]]; [left; eauto|right].
        fold y. rewrite upd_eq. by apply Hdom_msg.
      * right. destruct (Hm1 (negb x) u cur Hcur) as (e' & He' & Hle'). exists e'. split; [done|]. by eapply ele_trans.
  - intros z u e He Hve. destruct (decide (z = y)) as [->|Hz].
    + rewrite upd_eq in He. rewrite <- Hny in *. rewrite Hcons by (subst y; by destruct x).
      destruct (Hnew u e He) as [He'|He'].
      * specialize (Ho y u e He'). rewrite <- Hny in Ho. by apply Ho.
      * destruct (Hen u e He') as (_ & Hr). done.
    + rewrite Hcons in He by done.
      destruct (Ho z u e He Hve) as (cur & Hcur & Hle).
      destruct (Hm1 (negb z) u cur Hcur) as (e' & He' & Hle'). exists e'. split; [done|]. by eapply ele_trans.
Qed.

Lemma two_dup n s x y k : two_inv n s -> two_inv n (un_step s (UDup x y k)).
Proof.
  intros Hinv. pose proof Hinv as [Hd Hv Hm Hs Hmsg Hse Ho].
  cbn [un_step]. destruct (un_link s x y !! k) as [m|] eqn:Hk; [|done].
  assert (Hxy : y = negb x).
  { apply ne_negb. intros ->. rewrite Hs in Hk. done. }
  subst y.
  assert (Hin0 : In m (un_link s x (negb x))) by (by eapply elem_of_list_In, elem_of_list_lookup_2).
  assert (HL : forall z m', In m' (upd2 (un_link s) x (negb x) (un_link s x (negb x) ++ [m]) z (negb z)) <-> In m' (un_link s z (negb z))).
  { intros z m'. unfold upd2. destruct (decide (z = x)) as [->|Hz]; [|by rewrite upd_ne].
    rewrite !upd_eq, in_app_iff. split; [|by left]. by intros [?|[<-|[]]]. }
  split; cbn [un_conns un_link]; try done.
  - intros z. unfold upd2. destruct (decide (z = x)) as [->|Hz].
    + rewrite upd_eq, upd_ne; [apply Hs|]. by destruct x.
    + rewrite upd_ne by done. apply Hs.
  - intros z m' Hin. apply HL in Hin. by apply Hmsg.
  - intros z u e He Hve Hno. destruct (Hse z u e He Hve Hno) as [(m' & Hin & ?)|?]; [left|by right].
    exists m'. split; [by apply HL|done].
Qed.

(** Before the link comes up a broker only knows its own users. *)
Definition pre_op (o : conn_op) : Prop := quiet o \/ o = CPartialUserSync.

Lemma pre_run i os :
  (N.of_nat (length os) < u64_modulus)%N -> Forall pre_op os ->
  (forall u e, dent (c_run i os) u = Some e -> (ver e <= N.of_nat (length os))%N /\ val e = Some i)
  /\ vm_wf (direct (c_run i os)).
Proof.
  induction os as [|o os IH] using rev_ind; intros Hn Hall.
  { split; [done|]. intros u. cbn. set_solver. }
  rewrite app_length in *. cbn [length] in *. apply Forall_app in Hall as [Hall Ho]. apply Forall_inv in Ho.
  destruct IH as [IH1 IH2]; [lia|done|]. rewrite c_run_snoc.
  split; [|by apply c_step_wf]. intros u e.
  assert (Hold : dent (c_run i os) u = Some e -> (ver e <= N.of_nat (length os + 1))%N /\ val e = Some i).
  { intros He. destruct (IH1 u e He). split; [lia|done]. }
  destruct Ho as [Hq| -> ].
  - destruct (quiet_cases o Hq) as [(u' & c & ts & h & ->)|Hneu].
    + cbn [c_step]. rewrite add_user_entries, run_identity. destruct (decide (u' = u)) as [->|]; [|done].
      intros [= <-]. cbn. split; [|done]. unfold wver.
      destruct (entries (direct (c_run i os)) !! u) as [old|] eqn:Hu; [|lia].
      destruct (IH1 u old Hu). case_decide; [lia|]. rewrite u64_succ_small by lia. lia.
    + by rewrite neutral_direct.
  - rewrite partial_direct, diff_rest_lookup. destruct (decide _); [|done].
    destruct (entries (direct (c_run i os)) !! u) as [[v [x|]]|] eqn:Hu; [done|done|done].
Qed.

Lemma two_start (pre : bool -> list conn_op) n :
  (forall x, (N.of_nat (length (pre x)) <= n)%N) -> (n < u64_modulus)%N ->
  (forall x, Forall pre_op (pre x)) ->
  two_inv n (un_start (fun x => c_run (ident x) (pre x))).
Proof.
  intros Hl Hn Hpre.
  assert (HP : forall x, (forall u e, dent (c_run (ident x) (pre x)) u = Some e -> (ver e <= n)%N /\ val e = Some (ident x))
     /\ vm_wf (direct (c_run (ident x) (pre x)))).
  { intros x. specialize (Hl x). destruct (pre_run (ident x) (pre x)) as [H1 H2]; [lia|apply Hpre|].
    split; [|done]. intros u e He. destruct (H1 u e He). split; [lia|done]. }
  split; cbn [un_start un_conns un_link].
  - intros x. split_and!; [apply run_dir|apply run_identity|apply HP].
  - intros x u e He. apply HP in He as [? ?]. auto.
  - intros x u Hu. destruct (HP x) as [H1 H2]. destruct (H2 u Hu) as [e He]. exists e. split; [done|]. by apply H1 in He as [_ ?].
  - intros x. by rewrite decide_True.
  - intros x m. rewrite decide_False by (by destruct x). unfold c_get_full_user_sync. case_decide; [done|].
    intros [<-|[]]. split.
    + destruct (run_dir (ident x) (pre x)) as [-> _]. apply run_identity.
    + intros u e He. split; [by apply HP in He as [_ ?]|]. exists e. split; [done|apply ele_refl].
  - intros x u e He _ _. left. exists (direct (c_run (ident x) (pre x))). split; [|done].
    rewrite decide_False by (by destruct x). unfold c_get_full_user_sync.
    rewrite decide_False; [by left|]. intros Hemp. by rewrite Hemp in He.
  - intros x u e He Hv. apply HP in He as [_ Hv']. exfalso. rewrite Hv in Hv'. injection Hv' as Hbad.
    by apply (ident_neq x).
Qed.

(** Histories of the linked pair in which users only connect. *)
Definition connects_only (o : un_op bool) : Prop :=
  match o with ULocal _ o => quiet o | UFull _ _ => False | _ => True end.

Lemma un_run_snoc (f : bool -> conns) os o : un_run f (os ++ [o]) = un_step (un_run f os) o.
Proof. unfold un_run. by rewrite fold_left_app. Qed.

Lemma two_run (pre : bool -> list conn_op) os n :
  (forall x, (N.of_nat (length (pre x)) <= n)%N) -> (forall x, Forall pre_op (pre x)) ->
  Forall connects_only os -> (n + N.of_nat (length os) < u64_modulus)%N ->
  two_inv (n + N.of_nat (length os)) (un_run (fun x => c_run (ident x) (pre x)) os).
Proof.
  intros Hl Hpre. induction os as [|o os IH] using rev_ind; intros Hall Hn.
  { cbn. rewrite N.add_0_r in *. by apply two_start. }
  rewrite app_length in *. cbn [length] in *. apply Forall_app in Hall as [Hall Ho]. apply Forall_inv in Ho.
  specialize (IH Hall ltac:(lia)). rewrite un_run_snoc.
  replace (n + N.of_nat (length os + 1))%N with (n + N.of_nat (length os) + 1)%N in * by lia.
  destruct o as [x o|x|x y|x y k|x y k]; cbn in Ho.
  - apply two_local; [lia|done|done].
  - apply (two_mono (n + N.of_nat (length os))%N); [lia|]. by apply two_partial.
  - done.
  - apply (two_mono (n + N.of_nat (length os))%N); [lia|]. by apply two_deliver.
  - apply (two_mono (n + N.of_nat (length os))%N); [lia|]. by apply two_dup.
Qed.

Lemma two_agree n s : two_inv n s -> exchanged s ->
  forall u, entries (direct (un_conns s true)) !! u = entries (direct (un_conns s false)) !! u.
Proof.
  intros [Hd Hv Hm Hs Hmsg Hse Ho] [Hx1 Hx2] u.
  assert (Hle : forall x e, E s x u = Some e -> exists cur, E s (negb x) u = Some cur /\ ele e cur).
  { intros x e He. destruct (Hv x u e He) as [_ [Hve|Hve]].
    - destruct (Hse x u e He Hve) as [(m & Hin & _)|?]; [|by rewrite Hx2 in Hin|done].
      specialize (Hx1 x). apply partial_none in Hx1; [|by destruct (Hd x) as (_ & _ & ?)]. rewrite Hx1. set_solver.
    - by apply Ho. }
  destruct (E s true u) as [e|] eqn:He1.
  - destruct (Hle true e He1) as (cur & Hc & H1). cbn [negb] in Hc. rewrite Hc.
    destruct (Hle false cur Hc) as (cur' & Hc' & H2). cbn [negb] in Hc'. rewrite He1 in Hc'. injection Hc' as <-.
    f_equal. by apply ele_antisym.
  - destruct (E s false u) as [e|] eqn:He2; [|done].
    destruct (Hle false e He2) as (cur & Hc & _). cbn [negb] in Hc. congruence.
Qed.

(** Entries never disappear when users only connect. *)
Lemma present_step n s o x u :
  (n + 1 < u64_modulus)%N -> two_inv n s -> connects_only o ->
  is_Some (E s x u) -> is_Some (E (un_step s o) x u).
Proof.
  intros Hn Hinv Ho [e He]. pose proof Hinv as [Hd Hv Hm Hs Hmsg Hse Hot].
  destruct o as [y o|y|y z|y z k|y z k]; cbn in Ho; cbn [un_step]; cbn [un_conns].
  - destruct (decide (x = y)) as [->|Hne]; [|rewrite upd_ne by done; eauto]. rewrite upd_eq.
    destruct (quiet_cases o Ho) as [(u' & c & ts & h & ->)|Hneu].
    + cbn [c_step]. rewrite add_user_entries. case_decide; eauto.
    + rewrite neutral_direct by done. eauto.
  - destruct (decide (x = y)) as [->|Hne]; [|rewrite upd_ne by done; eauto].
    rewrite upd_eq, partial_direct, diff_rest_lookup, He.
    destruct (Hv y u e He) as [_ [Hve|Hve]]; destruct e as [v [?|]]; cbn in Hve; try done; case_decide; eauto.
  - done.
  - destruct (un_link s y z !! k) as [m|] eqn:Hk; [|eauto]. cbn [un_conns].
    destruct (decide (x = z)) as [->|Hne]; [|rewrite upd_ne by done; eauto]. rewrite upd_eq.
    assert (z = negb y) as ->.
    { apply ne_negb. intros ->. rewrite Hs in Hk. done. }
    destruct (Hmsg y m) as [Hcid Hen]; [by eapply elem_of_list_In, elem_of_list_lookup_2|].
    destruct (Hd (negb y)) as (Hdir & Hid & _).
    cbn [c_step]. rewrite apply_user_sync_direct.
    + rewrite merge_lookup, He. unfold lww. destruct (entries m !! u) as [rv|] eqn:Hrv; [|eauto].
      case_decide; [|eauto]. destruct (Hen u rv Hrv) as [Hvr _]. unfold taken. rewrite Hvr. eauto.
    + intros u' rv Hrv. destruct (Hen u' rv Hrv) as [-> _]. rewrite Hid. intros [= Hbad]. by apply (ident_neq y).
  - destruct (un_link s y z !! k) as [m|] eqn:Hk; eauto.
Qed.

(** Did [u] ever connect to one of the two brokers? *)
Definition ever_connected (pre : bool -> list conn_op) (os : list (un_op bool)) (u : ukey) : Prop :=
  exists x c ts h, In (CAddUser u c ts h) (pre x) \/ In (ULocal x (CAddUser u c ts h)) os.

Lemma pre_present i os u c ts h :
  (N.of_nat (length os) < u64_modulus)%N -> Forall pre_op os -> In (CAddUser u c ts h) os ->
  is_Some (dent (c_run i os) u).
Proof.
  induction os as [|o os IH] using rev_ind; intros Hn Hall Hin; [done|].
  rewrite app_length in *. cbn [length] in *. apply Forall_app in Hall as [Hall Ho]. apply Forall_inv in Ho.
  rewrite c_run_snoc. apply in_app_iff in Hin as [Hin|[ -> |[]]].
  - destruct (IH ltac:(lia) Hall Hin) as [e He].
    destruct Ho as [Hq| -> ].
    + destruct (quiet_cases o Hq) as [(u' & c' & ts' & h' & ->)|Hneu].
      * cbn [c_step]. rewrite add_user_entries. case_decide; eauto.
      * rewrite neutral_direct by done. eauto.
    + rewrite partial_direct, diff_rest_lookup, He.
      destruct (pre_run i os ltac:(lia) Hall) as [Hp _]. destruct (Hp u e He) as [_ Hv].
      destruct e as [v [?|]]; cbn in Hv; [|done]. case_decide; eauto.
  - cbn [c_step]. rewrite add_user_entries, decide_True by done. eauto.
Qed.

Lemma ever_present (pre : bool -> list conn_op) os n u :
  (forall x, (N.of_nat (length (pre x)) <= n)%N) -> (forall x, Forall pre_op (pre x)) ->
  Forall connects_only os -> (n + N.of_nat (length os) < u64_modulus)%N ->
  ever_connected pre os u ->
  exists x, is_Some (E (un_run (fun x => c_run (ident x) (pre x)) os) x u).
Proof.
  intros Hl Hpre Hall Hn (x & c & ts & h & Hin). exists x. revert Hall Hn Hin.
  induction os as [|o os IH] using rev_ind; intros Hall Hn Hin.
  { destruct Hin as [Hin|[]]. cbn. specialize (Hl x). cbn in Hn. eapply pre_present; [lia|apply Hpre|done]. }
  rewrite app_length in *. cbn [length] in *. apply Forall_app in Hall as [Hall Ho]. apply Forall_inv in Ho.
  rewrite un_run_snoc.
  assert (Hstep : (In (CAddUser u c ts h) (pre x) \/ In (ULocal x (CAddUser u c ts h)) os) ->
     is_Some (E (un_step (un_run (fun x => c_run (ident x) (pre x)) os) o) x u)).
  { intros Hin'. eapply present_step; [|apply (two_run pre os n); [done|done|done|lia]|done|].
    - lia.
    - apply IH; [done|lia|done]. }
  destruct Hin as [Hin|Hin]; [apply Hstep; by left|].
  apply in_app_iff in Hin as [Hin|[ -> |[]]]; [apply Hstep; by right|].
  cbn [un_step un_conns c_step]. rewrite upd_eq, add_user_entries, decide_True by done. eauto.
Qed.
End two.

(** C21. *)
Lemma two_brokers_agree ident (pre : bool -> list conn_op) os :
  ident true <> ident false ->
  (forall x, Forall pre_op (pre x)) -> Forall connects_only os ->
  (N.of_nat (length (pre true) + length (pre false) + length os) < u64_modulus)%N ->
  let s := un_run (fun x => c_run (ident x) (pre x)) os in
  exchanged s ->
  forall u, c_get_broker_identifier_of_user (un_conns s true) u = c_get_broker_identifier_of_user (un_conns s false) u.
Proof.
  intros Hid Hpre Hall Hn s Hx u.
  assert (Hinv : two_inv ident (N.of_nat (length (pre true) + length (pre false)) + N.of_nat (length os)) s).
  { apply two_run; [done| |done|done|lia]. intros []; lia. }
  unfold c_get_broker_identifier_of_user, vm_get. by rewrite (two_agree ident Hid _ _ Hinv Hx).
Qed.

(** C22. *)
Lemma two_brokers_one_connection ident (pre : bool -> list conn_op) os u :
  ident true <> ident false ->
  (forall x, Forall pre_op (pre x)) -> Forall connects_only os ->
  (N.of_nat (length (pre true) + length (pre false) + length os) < u64_modulus)%N ->
  let s := un_run (fun x => c_run (ident x) (pre x)) os in
  exchanged s -> ever_connected pre os u ->
  exists x, (exists c, c_get_user_connection (un_conns s x) u = Some c)
    /\ c_get_user_connection (un_conns s (negb x)) u = None
    /\ forall y, c_get_broker_identifier_of_user (un_conns s y) u = Some (ident x).
Proof.
  intros Hid Hpre Hall Hn s Hx Hever.
  assert (Hinv : two_inv ident (N.of_nat (length (pre true) + length (pre false)) + N.of_nat (length os)) s).
  { apply two_run; [done| |done|done|lia]. intros []; lia. }
  destruct (ever_present ident Hid pre os (N.of_nat (length (pre true) + length (pre false))) u) as (x0 & e & He);
    [intros []; lia|done|done|lia|done|]. fold s in He.
  assert (Heall : forall y, entries (direct (un_conns s y)) !! u = Some e).
  { pose proof (two_agree ident Hid _ _ Hinv Hx u) as Heq. destruct x0; intros []; congruence. }
  assert (Hval : exists x, val e = Some (ident x)).
  { destruct (ti_val _ _ _ Hinv x0 u e He) as [_ [?|?]]; eauto. }
  destruct Hval as [x Hval]. exists x.
  assert (Hget : forall y, c_get_broker_identifier_of_user (un_conns s y) u = Some (ident x)).
  { intros y. unfold c_get_broker_identifier_of_user, vm_get. by rewrite Heall. }
  split_and!; [| |done].
  - destruct (ti_dir _ _ _ Hinv x) as ([_ Hd] & Hidx & _). specialize (Hd u). rewrite Hidx in Hd.
    unfold c_get_user_connection. destruct (proj1 Hd (Hget x)) as [[c h] ->]. eexists. done.
  - destruct (ti_dir _ _ _ Hinv (negb x)) as ([_ Hd] & Hidx & _). specialize (Hd u). rewrite Hidx in Hd.
    unfold c_get_user_connection. destruct (users (un_conns s (negb x)) !! u) as [[c h]|] eqn:Hu; [|done].
    exfalso. pose proof (proj2 Hd (ex_intro _ _ eq_refl)) as Hg.
    specialize (Hget (negb x)). unfold c_get_broker_identifier_of_user in Hget. rewrite Hg in Hget. injection Hget as Hbad.
    by apply (ident_neq ident Hid x).
Qed.

(** * Syncs without news (C23) *)
Lemma no_news_untouched i os m :
  bid_gtb (cid m) i = false ->
  (forall u e, entries m !! u = Some e -> dent (c_run i os) u = Some e) ->
  c_apply_user_sync (c_run i os) m = c_run i os.
Proof.
  intros Hg Hsub. destruct (run_dir i os) as [Hc _]. rewrite run_identity in Hc.
  assert (Hnow : forall u rv, entries m !! u = Some rv -> ~ remote_wins bid_gtb (cid m) (cid (direct (c_run i os))) (dent (c_run i os) u) rv).
  { intros u rv Hrv. rewrite (Hsub u rv Hrv), Hc. cbn. intros [?|[_ ?]]; [lia|congruence]. }
  assert (Hch : (vm_merge bid_gtb (direct (c_run i os)) m).2 = []).
  { destruct ((vm_merge bid_gtb (direct (c_run i os)) m).2) as [|[u v] l] eqn:Hl; [done|].
    assert (Hin : In (u, v) (vm_merge bid_gtb (direct (c_run i os)) m).2) by (rewrite Hl; by left).
    apply merge_changes in Hin as (rv & Hrv & _ & Hw). exfalso. by eapply Hnow. }
  assert (Hm : (vm_merge bid_gtb (direct (c_run i os)) m).1 = direct (c_run i os)).
  { apply vmap_ext.
    - intros u. rewrite merge_lookup. unfold lww. destruct (entries m !! u) as [rv|] eqn:Hrv; [|done].
      rewrite decide_False; [done|]. by apply Hnow.
    - intros u. rewrite merge_modified. split; [tauto|]. intros Hu. split; [done|].
      intros (_ & rv & Hrv & Hw). by eapply Hnow.
    - apply merge_cid. }
  rewrite apply_user_sync_eq, Hch, Hm. cbn. by destruct (c_run i os).
Qed.

(** With a greater sender, every listed user that is connected here is dropped. *)
Lemma no_news_kicks i os m u :
  bid_gtb (cid m) i = true ->
  (forall u e, entries m !! u = Some e -> dent (c_run i os) u = Some e) ->
  c_get_user_connection (c_apply_user_sync (c_run i os) m) u =
  if decide (is_Some (entries m !! u)) then None else c_get_user_connection (c_run i os) u.
Proof.
  intros Hg Hsub. unfold c_get_user_connection. rewrite apply_user_sync_users by apply run_dir.
  rewrite run_identity. destruct (decide (is_Some (entries m !! u))) as [[rv Hrv]|Hno].
  - rewrite decide_True; [done|]. unfold sync_overrides. rewrite Hrv, (Hsub u rv Hrv). cbn. by right.
  - rewrite decide_False; [done|]. unfold sync_overrides. intros Hw. apply Hno.
    destruct (entries m !! u); [eauto|done].
Qed.
