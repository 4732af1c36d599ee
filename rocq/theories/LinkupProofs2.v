(** Proofs: two brokers with any past agree after linking up (continued). *)
From stdpp Require Import gmap fin_maps fin_sets list.
From Coq Require Import NArith Lia.
From Verif Require Import IdModel IdProofs RelMapModel VMapModel VMapSpec VMapProofs ConnModel ConnSpec ConnProofs ConnProofs2 ConnProofs3 SyncModel DirSyncProofs
  NetSettleDir MoveProofs LinkupSpec LinkupProofs.

Definition file (s : conns) (v : ukey) : option (vval bid) * bool := (entries (direct s) !! v, bool_decide (v ∈ modified (direct s))).

Definition dir_ok (s : conns) : Prop :=
  cid (direct s) = identity s
  /\ (forall v, v ∈ modified (direct s) -> exists k, entries (direct s) !! v = Some (VVal k None) \/ entries (direct s) !! v = Some (VVal k (Some (identity s))))
  /\ (forall v k, entries (direct s) !! v = Some (VVal k None) -> v ∈ modified (direct s)).

Lemma rus_dir_ok s us : dir_ok s -> dir_ok (remove_users s us).
Proof.
  revert s. induction us as [|u us IH]; intros s Hs; [done|]. rewrite remove_users_cons. apply IH. destruct Hs as (H1 & H2 & H3).
  unfold dir_ok. rewrite ru_direct, ru_identity, rie_cid. split; [done|]. split.
  - intros v. rewrite rie_modified, rie_entries. intros Hv. case_decide as Hd; [eauto|]. destruct Hv as [Hv|Hv]; [by apply H2|done].
  - intros v k. rewrite rie_modified, rie_entries. case_decide as Hd; [auto|]. intros He. left. by eapply H3.
Qed.
Lemma merge_dir_ok s m : dir_ok s -> dir_ok (set_direct (vm_merge bid_gtb (direct s) m).1 s).
Proof.
  intros (H1 & H2 & H3). unfold dir_ok. cbn [direct identity set_direct]. rewrite merge_cid. split; [done|]. split.
  - intros v Hv. apply merge_modified in Hv as [Hv Hn]. rewrite merge_lookup. destruct (H2 v Hv) as (k & Hk).
    assert (Hl : lww bid_gtb (cid m) (cid (direct s)) (entries (direct s) !! v) (entries m !! v) = entries (direct s) !! v); [|rewrite Hl; eauto].
    unfold lww. destruct (entries m !! v) as [rv|] eqn:Er; [|done]. case_decide as Hw; [|done]. exfalso. apply Hn. split; [destruct Hk as [-> | ->]; eauto|eauto].
  - intros v k. rewrite merge_lookup. unfold lww. intros He. apply merge_modified. destruct (entries m !! v) as [rv|] eqn:Er.
    + case_decide as Hw; [|split; [by eapply H3|]; intros (_ & rv' & [= <-] & Hw'); done]. exfalso. unfold taken in He. destruct rv as [kr [x|]]; cbn in He; [|done]. by injection He.
    + split; [by eapply H3|]. intros (_ & rv' & ? & _). done.
Qed.
Lemma run_dir_ok i os : dir_ok (c_run i os).
Proof.
  unfold c_run. assert (H0 : dir_ok (c_new i)).
  { split; [done|]. split; [intros v Hv; cbn in Hv; set_solver|]. intros v k He. cbn in He. by rewrite lookup_empty in He. }
  revert H0. generalize (c_new i). induction os as [|o os IH]; intros s Hs; [done|]. cbn [fold_left]. apply IH. clear IH.
  destruct (decide (neutral o)) as [Hn|Hn].
  { unfold dir_ok. by rewrite neutral_direct, step_identity by done. }
  destruct o; try (exfalso; by apply Hn); cbn [c_step].
  - destruct Hs as (H1 & H2 & H3). unfold dir_ok. rewrite au_identity. split; [by rewrite au_direct; unfold vm_insert; cbn; rewrite rie_cid|]. split.
    + intros v. rewrite add_user_modified, add_user_entries. intros Hv. case_decide; [eauto|]. destruct Hv as [->|Hv]; [done|]. by apply H2.
    + intros v k. rewrite add_user_modified, add_user_entries. case_decide; [done|]. intros He. right. by eapply H3.
  - change (c_remove_user s u) with (remove_users s [u]). by apply rus_dir_ok.
  - rewrite apply_user_sync_eq. by apply rus_dir_ok, merge_dir_ok.
  - destruct Hs as (H1 & H2 & H3). rewrite partial_user_direct. cbn [fst]. unfold dir_ok. cbn [direct identity set_direct]. rewrite diff_rest_cid, diff_rest_modified. split; [done|]. split; [set_solver|].
    intros v k. rewrite diff_rest_lookup. case_decide as Hm.
    + destruct (entries (direct s) !! v) as [[? [?|]]|]; done.
    + intros He. exfalso. apply Hm. by eapply H3.
Qed.

Lemma dir_ok_sane s v : dir_ok s -> no_wrap s -> sane (identity s) (file s v).
Proof.
  intros (H1 & H2 & H3) Hw. split; [|split].
  - intros Hm. cbn in Hm. apply bool_decide_eq_true in Hm. by apply H2.
  - intros k He. cbn in He |- *. apply bool_decide_eq_true. by eapply H3.
  - intros e He. exact (Hw v e He).
Qed.

Lemma wins1_spec rid sid l rv : wins1 (bid_gtb rid sid) l rv = bool_decide (remote_wins bid_gtb rid sid l rv).
Proof.
  symmetry. destruct (wins1 (bid_gtb rid sid) l rv) eqn:E; [apply bool_decide_eq_true|apply bool_decide_eq_false]; unfold wins1 in E; destruct l as [lv|]; cbn.
  - apply orb_prop in E as [E|E]; [left; by apply N.ltb_lt|right]. apply andb_prop in E as [E1 E2]. split; [by apply N.eqb_eq|done].
  - by destruct (val rv).
  - apply orb_false_iff in E as [E1 E2]. intros [H|[H1 H2]]; [apply N.ltb_ge in E1; lia|]. rewrite H2, andb_true_r in E2. by apply N.eqb_neq in E2.
  - destruct (val rv); [done|]. intros H. by apply H.
Qed.

Lemma apply_file s m v : dir_ok s -> file (c_apply_user_sync s m) v = apply1 (identity s) (bid_gtb (cid m) (identity s)) (file s v) (entries m !! v).
Proof.
  intros Hs. pose proof Hs as (Hc & Hm & _). rewrite apply_user_sync_eq. set (s1 := set_direct (vm_merge bid_gtb (direct s) m).1 s). set (us := map fst (vm_merge bid_gtb (direct s) m).2).
  assert (Hus : v ∈ us <-> exists rv, entries m !! v = Some rv /\ remote_wins bid_gtb (cid m) (identity s) (entries (direct s) !! v) rv).
  { unfold us. rewrite elem_of_list_In, in_map_iff. split.
    - intros ([v' x] & Hv & Hin). cbn in Hv. subst v'. apply merge_changes in Hin as (rv & Hr & _ & Hw). rewrite Hc in Hw. eauto.
    - intros (rv & Hr & Hw). exists (v, val rv). split; [done|]. apply merge_changes. rewrite Hc. eauto. }
  assert (He : entries (direct s1) !! v = lww bid_gtb (cid m) (identity s) (entries (direct s) !! v) (entries m !! v)) by (unfold s1; cbn [direct set_direct]; by rewrite merge_lookup, Hc).
  assert (Hmod : v ∈ modified (direct s1) <-> v ∈ modified (direct s) /\ v ∉ us).
  { unfold s1. cbn [direct set_direct]. rewrite merge_modified, Hc, Hus. split; intros [Hv Hn]; (split; [done|]).
    - intros (rv & Hr & Hw). apply Hn. split; [|eauto]. destruct (Hm v Hv) as (k & [-> | ->]); eauto.
    - intros [_ H]. by apply Hn. }
  assert (Hid : identity s1 = identity s) by done.
  clearbody s1 us. unfold file, apply1. cbn [fst snd].
  destruct (entries m !! v) as [rv|] eqn:Er.
  - rewrite wins1_spec. destruct (decide (remote_wins bid_gtb (cid m) (identity s) (entries (direct s) !! v) rv)) as [Hw|Hw].
    + rewrite (bool_decide_eq_true_2 _ Hw). assert (Hin : v ∈ us) by (apply Hus; eauto). unfold lww in He. rewrite decide_True in He by done.
      assert (Hnm : v ∉ modified (direct s1)) by (rewrite Hmod; tauto).
      case_decide as Hself.
      * assert (Hg : vm_get (direct s1) v = Some (identity s1)) by (unfold vm_get; rewrite He, Hid; unfold taken; rewrite Hself; done).
        assert (Ht : taken rv = Some rv) by (unfold taken; by rewrite Hself). rewrite Ht in He.
        clear Hw Hus Hmod Er. revert s1 He Hid Hnm Hg. induction us as [|u us IH]; intros s1 He Hid Hnm Hg; [by apply elem_of_nil in Hin|].
        rewrite remove_users_cons. destruct (decide (u = v)) as [->|Hne].
        { assert (Hd : entries (direct (c_remove_user s1 v)) !! v = Some (VVal (u64_succ (ver rv)) None)).
          { rewrite ru_direct, rie_entries, decide_True by done. unfold wver. by rewrite He, decide_False. }
          rewrite rus_entries by (right; unfold vm_get; by rewrite Hd). rewrite Hd. f_equal. apply bool_decide_eq_true_2. apply rus_modified. rewrite ru_direct. apply rie_modified. auto. }
        apply IH; [set_solver| | | |].
        -- rewrite ru_direct, rie_entries, decide_False; [done|tauto].
        -- by rewrite ru_identity.
        -- rewrite ru_direct, rie_modified. tauto.
        -- rewrite ru_identity. unfold vm_get in *. rewrite ru_direct, rie_entries, decide_False; [done|tauto].
      * assert (Hg : vm_get (direct s1) v <> Some (identity s1)).
        { unfold vm_get. rewrite He, Hid. unfold taken. destruct (val rv) as [x|] eqn:Ev; [|done]. by rewrite Ev. }
        rewrite rus_entries by auto. rewrite He. f_equal. apply bool_decide_eq_false_2. intros Hmm. apply rus_mod_back in Hmm as [?|[_ ?]]; done.
    + rewrite (bool_decide_eq_false_2 _ Hw). assert (Hin : v ∉ us) by (rewrite Hus; intros (rv' & [= <-] & ?); done). unfold lww in He. rewrite decide_False in He by done.
      rewrite rus_entries by auto. rewrite He. f_equal. apply bool_decide_ext. split; [|intros ?; apply rus_modified, Hmod; done].
      intros Hmm. apply rus_mod_back in Hmm as [?|[? _]]; [by apply Hmod|done].
  - assert (Hin : v ∉ us) by (rewrite Hus; intros (rv' & ? & ?); done). cbn [lww] in He.
    rewrite rus_entries by auto. rewrite He. f_equal. apply bool_decide_ext. split; [|intros ?; apply rus_modified, Hmod; done].
    intros Hmm. apply rus_mod_back in Hmm as [?|[? _]]; [by apply Hmod|done].
Qed.
Lemma told_file s t m v : dir_ok s -> (forall m', m = Some m' -> cid m' = identity t) ->
  file (told s m) v = apply1 (identity s) (bid_gtb (identity t) (identity s)) (file s v) (match m with Some m => entries m !! v | None => None end).
Proof. intros Hs Hm. destruct m as [m|]; [|done]. cbn [told]. rewrite <- (Hm m eq_refl). by apply apply_file. Qed.
Lemma full_entries s v : match c_get_full_user_sync s with Some m => entries m !! v | None => None end = (file s v).1.
Proof. unfold c_get_full_user_sync. case_decide as He; [|done]. cbn. by rewrite He, lookup_empty. Qed.
Lemma full_cid s m : dir_ok s -> c_get_full_user_sync s = Some m -> cid m = identity s.
Proof. intros (Hc & _). unfold c_get_full_user_sync. case_decide; [done|]. by intros [= <-]. Qed.
Lemma partial_cid s m : dir_ok s -> (c_get_partial_user_sync s).2 = Some m -> cid m = identity s.
Proof. intros (Hc & _). rewrite partial_user_direct. cbn [snd]. destruct (vm_is_empty _); [done|]. intros [= <-]. by rewrite diff_delta_cid. Qed.
Lemma partial_file s v : file (c_get_partial_user_sync s).1 v = (diff1 (file s v)).1
  /\ match (c_get_partial_user_sync s).2 with Some m => entries m !! v | None => None end = (diff1 (file s v)).2.
Proof.
  rewrite partial_user_direct. cbn [fst snd]. unfold file, diff1. cbn [direct set_direct fst snd]. rewrite diff_rest_lookup, diff_rest_modified.
  assert (Hd : match (if vm_is_empty (vm_diff (direct s)).1 then None else Some (vm_diff (direct s)).1) with Some m => entries m !! v | None => None end
    = if decide (v ∈ modified (direct s)) then entries (direct s) !! v else None).
  { rewrite <- diff_delta_lookup. destruct (vm_is_empty (vm_diff (direct s)).1) eqn:E; [|done]. unfold vm_is_empty in E. apply bool_decide_eq_true in E. by rewrite E, lookup_empty. }
  rewrite Hd. assert (Hf : forall D : Decision (v ∈ (∅ : gset ukey)), @bool_decide (v ∈ (∅ : gset ukey)) D = false) by (intros D; apply bool_decide_eq_false_2; set_solver). rewrite Hf. clear Hd Hf.
  case_decide as Hm; [rewrite bool_decide_eq_true_2 by done|rewrite bool_decide_eq_false_2 by done]; done.
Qed.

(** ** The brokers after linking up are reachable states. *)
Definition op_of (m : option direct_map) : list conn_op := match m with Some m => [CApplyUserSync m] | None => [] end.
Lemma told_run i os m : told (c_run i os) m = c_run i (os ++ op_of m).
Proof. destruct m as [m|]; cbn [told op_of]; [|by rewrite app_nil_r]. unfold c_run. by rewrite fold_left_app. Qed.
Lemma partial_run i os : (c_get_partial_user_sync (c_run i os)).1 = c_run i (os ++ [CPartialUserSync]).
Proof. unfold c_run. by rewrite fold_left_app. Qed.
Lemma link_up_eq a b :
  link_up a b = (told (c_get_partial_user_sync (told a (c_get_full_user_sync b))).1 (c_get_partial_user_sync (told b (c_get_full_user_sync a))).2,
                 told (c_get_partial_user_sync (told b (c_get_full_user_sync a))).1 (c_get_partial_user_sync (told a (c_get_full_user_sync b))).2).
Proof. unfold link_up. by destruct (c_get_partial_user_sync (told a _)), (c_get_partial_user_sync (told b _)). Qed.
Lemma link_up_run i j osa osb : exists osa' osb', link_up (c_run i osa) (c_run j osb) = (c_run i (osa ++ osa'), c_run j (osb ++ osb')).
Proof.
  rewrite link_up_eq, !told_run, !partial_run, !told_run. rewrite <- !(assoc_L (++)). eauto.
Qed.

Lemma link_up_file i j osa osb v : i <> j -> let a := c_run i osa in let b := c_run j osb in
  (file (link_up a b).1 v, file (link_up a b).2 v) = link1 i j (bid_gtb i j) (bid_gtb j i) (file a v) (file b v).
Proof.
  intros Hne a b. pose proof (run_dir_ok i osa) as Ha. pose proof (run_dir_ok j osb) as Hb. fold a in Ha. fold b in Hb.
  assert (Hia : identity a = i) by apply run_identity. assert (Hib : identity b = j) by apply run_identity.
  rewrite link_up_eq. cbn [fst snd].
  set (ta := told a (c_get_full_user_sync b)). set (tb := told b (c_get_full_user_sync a)).
  assert (Hta : file ta v = apply1 i (bid_gtb j i) (file a v) (file b v).1).
  { unfold ta. rewrite (told_file a b) by (try done; intros m; by apply full_cid). by rewrite full_entries, Hia, Hib. }
  assert (Htb : file tb v = apply1 j (bid_gtb i j) (file b v) (file a v).1).
  { unfold tb. rewrite (told_file b a) by (try done; intros m; by apply full_cid). by rewrite full_entries, Hia, Hib. }
  assert (Ea : ta = c_run i (osa ++ op_of (c_get_full_user_sync b))) by apply told_run.
  assert (Eb : tb = c_run j (osb ++ op_of (c_get_full_user_sync a))) by apply told_run.
  assert (Hoa : dir_ok ta) by (rewrite Ea; apply run_dir_ok). assert (Hob : dir_ok tb) by (rewrite Eb; apply run_dir_ok).
  assert (Hita : identity ta = i) by (rewrite Ea; apply run_identity). assert (Hitb : identity tb = j) by (rewrite Eb; apply run_identity).
  assert (Hpa : dir_ok (c_get_partial_user_sync ta).1) by (rewrite Ea, partial_run; apply run_dir_ok).
  assert (Hpb : dir_ok (c_get_partial_user_sync tb).1) by (rewrite Eb, partial_run; apply run_dir_ok).
  assert (Hipa : identity (c_get_partial_user_sync ta).1 = i) by (rewrite Ea, partial_run; apply run_identity).
  assert (Hipb : identity (c_get_partial_user_sync tb).1 = j) by (rewrite Eb, partial_run; apply run_identity).
  clearbody ta tb. clear Ea Eb.
  rewrite (told_file (c_get_partial_user_sync ta).1 tb) by (try done; intros m; by apply partial_cid). rewrite (told_file (c_get_partial_user_sync tb).1 ta) by (try done; intros m; by apply partial_cid).
  rewrite !(proj1 (partial_file _ _)), !(proj2 (partial_file _ _)), Hta, Htb, Hita, Hitb, Hipa, Hipb.
  unfold link1. destruct (diff1 (apply1 i _ _ _)), (diff1 (apply1 j _ _ _)). done.
Qed.

Lemma gtb_negb i j : i <> j -> bid_gtb j i = negb (bid_gtb i j).
Proof.
  intros Hne. destruct (bid_gtb i j) eqn:E; [by apply bid_gtb_asym|]. destruct (bid_gtb_total i j Hne) as [H|H]; [congruence|done].
Qed.

Lemma link_up_agree i j osa osb : i <> j -> no_wrap (c_run i osa) -> no_wrap (c_run j osb) ->
  forall v, on_file (link_up (c_run i osa) (c_run j osb)).1 v = on_file (link_up (c_run i osa) (c_run j osb)).2 v.
Proof.
  intros Hne Hwa Hwb v. pose proof (link_up_file i j osa osb v Hne) as H. cbv zeta in H.
  pose proof (dir_ok_sane _ v (run_dir_ok i osa) Hwa) as Ha. pose proof (dir_ok_sane _ v (run_dir_ok j osb) Hwb) as Hb. rewrite run_identity in Ha, Hb.
  pose proof (link1_agree i j _ _ _ _ Hne (gtb_negb i j Hne) Ha Hb) as Hl. rewrite <- H in Hl. exact Hl.
Qed.

(** ** Who loses its connection *)
Lemma apply_users s m v : users (c_apply_user_sync s m) !! v
  = match entries m !! v with Some rv => if decide (remote_wins bid_gtb (cid m) (cid (direct s)) (entries (direct s) !! v) rv) then None else users s !! v | None => users s !! v end.
Proof.
  rewrite apply_user_sync_eq, rus_users. cbn [users set_direct].
  assert (Hus : v ∈ map fst (vm_merge bid_gtb (direct s) m).2 <-> exists rv, entries m !! v = Some rv /\ remote_wins bid_gtb (cid m) (cid (direct s)) (entries (direct s) !! v) rv).
  { rewrite elem_of_list_In, in_map_iff. split.
    - intros ([v' x] & Hv & Hin). cbn in Hv. subst v'. apply merge_changes in Hin as (rv & Hr & _ & Hw). eauto.
    - intros (rv & Hr & Hw). exists (v, val rv). split; [done|]. apply merge_changes. eauto. }
  destruct (entries m !! v) as [rv|] eqn:Er.
  - destruct (decide (remote_wins bid_gtb (cid m) (cid (direct s)) (entries (direct s) !! v) rv)) as [Hw|Hw].
    + rewrite decide_True; [done|]. apply Hus. eauto.
    + rewrite decide_False; [done|]. rewrite Hus. intros (rv' & [= <-] & ?). done.
  - rewrite decide_False; [done|]. rewrite Hus. intros (rv' & ? & ?). done.
Qed.
Lemma told_users_none s m v : users s !! v = None -> users (told s m) !! v = None.
Proof. intros Hn. destruct m as [m|]; [|done]. cbn [told]. rewrite apply_users. destruct (entries m !! v); [|done]. by case_decide. Qed.
Lemma told_users_same s m v : match m with Some m => entries m !! v | None => None end = None -> users (told s m) !! v = users s !! v.
Proof. destruct m as [m|]; [|done]. cbn [told]. intros Hn. by rewrite apply_users, Hn. Qed.

Lemma connected_file i os v c : c_get_user_connection (c_run i os) v = Some c -> exists k, on_file (c_run i os) v = Some (VVal k (Some i)).
Proof.
  intros Hc. assert (Hd : c_get_broker_identifier_of_user (c_run i os) v = Some i) by (apply directory_iff_connected; eauto).
  unfold c_get_broker_identifier_of_user, vm_get in Hd. unfold on_file. destruct (entries (direct (c_run i os)) !! v) as [[k x]|]; [|done]. cbn in Hd. subst x. eauto.
Qed.

Lemma link_up_connection i j osa osb v c : i <> j -> no_wrap (c_run i osa) ->
  let a := c_run i osa in let b := c_run j osb in
  c_get_user_connection b v = Some c ->
  (overrules a b v -> c_get_user_connection (link_up a b).2 v = None) /\ (~ overrules a b v -> c_get_user_connection (link_up a b).2 v = Some c).
Proof.
  intros Hne Hwa a b Hc. destruct (connected_file j osb v c Hc) as (k & Hk). fold b in Hk.
  pose proof (run_dir_ok i osa) as Ha. pose proof (run_dir_ok j osb) as Hb. fold a in Ha. fold b in Hb.
  assert (Hia : identity a = i) by apply run_identity. assert (Hib : identity b = j) by apply run_identity.
  assert (Hov : overrules a b v <-> exists ea, on_file a v = Some ea /\ remote_wins bid_gtb i j (on_file b v) ea).
  { unfold overrules. rewrite Hk, Hia, Hib. split.
    - intros (ea & eb & E1 & [= <-] & H). exists ea. done.
    - intros (ea & E1 & H). exists ea. eexists. done. }
  assert (Hcb : cid (direct b) = j) by (destruct Hb as [-> _]; done).
  rewrite link_up_eq. cbn [snd]. unfold c_get_user_connection. split.
  - intros (ea & Ea & Hw)%Hov. rewrite told_users_none; [done|]. rewrite partial_user_direct. cbn [fst users set_direct].
    unfold c_get_full_user_sync. case_decide as He; [unfold on_file in Ea; by rewrite He, lookup_empty in Ea|]. cbn [told]. rewrite apply_users.
    unfold on_file in Ea. rewrite Ea. rewrite decide_True; [done|]. destruct Ha as [-> _]. by rewrite Hia, Hcb.
  - intros Hno. rewrite told_users_same.
    + rewrite partial_user_direct. cbn [fst users set_direct]. unfold c_get_full_user_sync. case_decide as He; [exact Hc|]. cbn [told]. rewrite apply_users.
      destruct (entries (direct a) !! v) as [ea|] eqn:Ea; [|exact Hc]. rewrite decide_False; [exact Hc|]. destruct Ha as [-> _]. rewrite Hia, Hcb. intros Hw. apply Hno, Hov. eauto.
    + rewrite (proj2 (partial_file _ v)), (told_file a b) by (try done; intros m; by apply full_cid). rewrite full_entries, Hia, Hib. unfold file at 2. cbn [fst].
      unfold on_file in Hk. rewrite Hk. cbn [apply1]. rewrite wins1_spec.
      assert (Hw : remote_wins bid_gtb j i (file a v).1 (VVal k (Some j))).
      { unfold file. cbn [fst]. destruct (entries (direct a) !! v) as [ea|] eqn:Ea; [|done]. cbn [remote_wins ver].
        assert (Hn : ~ remote_wins bid_gtb i j (on_file b v) ea) by (intros Hw; apply Hno, Hov; eauto). unfold on_file in Hn. rewrite Hk in Hn. cbn [remote_wins ver] in Hn.
        rewrite (gtb_negb i j Hne). destruct (bid_gtb i j); cbn [negb].
        - left. destruct (N.lt_trichotomy (ver ea) k) as [?|[?|?]]; [done|exfalso; apply Hn; auto|exfalso; apply Hn; auto].
        - destruct (N.lt_trichotomy (ver ea) k) as [?|[?|?]]; [by left|by right|exfalso; apply Hn; auto]. }
      rewrite (bool_decide_eq_true_2 _ Hw). cbn [val]. rewrite decide_False by congruence. done.
Qed.

Lemma link_up_claims i j osa osb : i <> j -> no_wrap (c_run i osa) -> no_wrap (c_run j osb) ->
  let ab := link_up (c_run i osa) (c_run j osb) in
  forall v, (c_get_broker_identifier_of_user ab.1 v = Some j <-> exists c, c_get_user_connection ab.2 v = Some c)
    /\ (c_get_broker_identifier_of_user ab.2 v = Some i <-> exists c, c_get_user_connection ab.1 v = Some c)
    /\ c_get_broker_identifier_of_user ab.1 v = c_get_broker_identifier_of_user ab.2 v.
Proof.
  intros Hne Hwa Hwb ab v. pose proof (link_up_agree i j osa osb Hne Hwa Hwb v) as Hag. fold ab in Hag.
  destruct (link_up_run i j osa osb) as (oa & ob & E). fold ab in E.
  assert (Hd : c_get_broker_identifier_of_user ab.1 v = c_get_broker_identifier_of_user ab.2 v) by (unfold c_get_broker_identifier_of_user, vm_get; unfold on_file in Hag; by rewrite Hag).
  split; [|split; [|done]].
  - rewrite Hd, E. cbn [snd]. apply directory_iff_connected.
  - rewrite <- Hd, E. cbn [fst]. apply directory_iff_connected.
Qed.

(** ** A user that logs in again afterwards stays *)
Lemma apply1_clean self gt p o : p.2 = false -> (forall e, o = Some e -> val e <> Some self) -> (apply1 self gt p o).2 = false.
Proof.
  intros Hp Ho. destruct o as [rv|]; [|done]. cbn [apply1]. destruct (wins1 gt p.1 rv); [|done]. by rewrite decide_False by (by apply Ho).
Qed.
Lemma apply1_own i gt p o : sane i p -> (apply1 i gt p o).2 = true -> forall e, (apply1 i gt p o).1 = Some e -> val e = None \/ val e = Some i.
Proof.
  intros (Hp & _ & _). assert (Hpp : p.2 = true -> forall e, p.1 = Some e -> val e = None \/ val e = Some i).
  { intros Hm e He. destruct (Hp Hm) as (k & [Hk|Hk]); rewrite Hk in He; injection He as <-; auto. }
  destruct o as [rv|]; [|done]. cbn [apply1]. destruct (wins1 gt p.1 rv); [|done]. case_decide; [|done]. cbn [fst snd]. intros _ e [= <-]. by left.
Qed.
Lemma link1_clean i j ij ji a b : i <> j -> sane i a -> (link1 i j ij ji a b).2.2 = false.
Proof.
  intros Hne Ha. unfold link1. destruct (diff1 (apply1 i ji a b.1)) as [a1 da] eqn:Ea. destruct (diff1 (apply1 j ij b a.1)) as [b1 db] eqn:Eb. cbn [snd].
  apply apply1_clean.
  - unfold diff1 in Eb. destruct ((apply1 j ij b a.1).2) eqn:E; injection Eb as <- <-; done.
  - intros e ->. unfold diff1 in Ea. destruct ((apply1 i ji a b.1).2) eqn:E; [|done]. injection Ea as _ Ed. destruct (apply1_own i ji a b.1 Ha E e Ed) as [-> | ->]; congruence.
Qed.
Lemma second_login i j osa osb v c ts h : i <> j -> no_wrap (c_run i osa) -> no_wrap (c_run j osb) ->
  let ab := link_up (c_run i osa) (c_run j osb) in no_wrap ab.1 ->
  c_get_user_connection (link_up ab.1 (c_add_user ab.2 v c ts h)).2 v = Some c.
Proof.
  intros Hne Hwa Hwb ab Hw. pose proof (link_up_agree i j osa osb Hne Hwa Hwb v) as Hag. fold ab in Hag.
  pose proof (link_up_file i j osa osb v Hne) as Hf. cbv zeta in Hf. fold ab in Hf.
  pose proof (dir_ok_sane _ v (run_dir_ok i osa) Hwa) as Ha. rewrite run_identity in Ha.
  pose proof (link1_clean i j (bid_gtb i j) (bid_gtb j i) _ (file (c_run j osb) v) Hne Ha) as Hcl. rewrite <- Hf in Hcl. cbn [snd] in Hcl.
  destruct (link_up_run i j osa osb) as (oa & ob & E). fold ab in E. clear Hf. clearbody ab. destruct ab as [a' b']. injection E as -> ->. cbn [fst snd] in *.
  change (c_add_user (c_run j (osb ++ ob)) v c ts h) with (c_step (c_run j (osb ++ ob)) (CAddUser v c ts h)).
  assert (Er : c_step (c_run j (osb ++ ob)) (CAddUser v c ts h) = c_run j ((osb ++ ob) ++ [CAddUser v c ts h])) by (unfold c_run; by rewrite (fold_left_app _ (osb ++ ob))).
  rewrite Er.
  refine (proj2 (link_up_connection i j (osa ++ oa) _ v c Hne Hw _) _).
  - rewrite <- Er. cbn [c_step]. unfold c_get_user_connection. rewrite au_users, lookup_insert. done.
  - intros (ea & eb & E1 & E2 & Hlt). rewrite <- Er in E2. cbn [c_step] in E2. unfold on_file in E2. rewrite add_user_entries, decide_True in E2 by done. injection E2 as <-. cbn [ver] in Hlt.
    rewrite Hag in E1. unfold on_file in E1. unfold wver in Hlt. rewrite E1 in Hlt. cbn in Hcl. apply bool_decide_eq_false in Hcl. rewrite decide_False in Hlt by done.
    assert (Hk := Hw v ea). rewrite Hag in Hk. specialize (Hk E1). rewrite succ_small in Hlt by done. lia.
Qed.
