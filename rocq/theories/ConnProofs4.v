(** A broker's routing interest is exactly the view of its topic map held for it. *)
From stdpp Require Import gmap fin_maps fin_sets.
From Coq Require Import NArith ZArith Lia.
From Verif Require Import IdModel IdProofs RelMapModel RelMapProofs VMapModel VMapSpec VMapProofs ConnModel ConnSpec ConnProofs ConnProofs2 ConnProofs3.

(** What the broker believes peer [b] wants. *)
Definition view (s : conns) (b : bid) (t : N) : option sub_status :=
  match brokers s !! b with Some be => vm_get (be_topics be) t | None => None end.

Definition view_inv (s : conns) : Prop :=
  forall b t, fwd (bm_brokers s) b t <-> view s b t = Some Subscribed.

Lemma topic_changes_fwd b l s t :
  NoDup (map fst l) ->
  fwd (bm_brokers (fold_left (c_apply_topic_change b) l s)) b t <->
  (In (t, Some Subscribed) l) \/ (fwd (bm_brokers s) b t /\ ~ In t (map fst l)).
Proof.
  revert s; induction l as [|[t' o] l IH]; intros s Hnd; cbn [fold_left map fst]; [cbn; tauto|].
  cbn [map] in Hnd. apply NoDup_cons in Hnd as [Hni Hnd]. rewrite IH by done. clear IH.
  unfold c_apply_topic_change; cbn [fst snd]. case_decide as Hd; cbn.
  - subst o. rewrite fwd_associate. split.
    + intros [H|[[H|H] H2]]; [tauto| |].
      * destruct (decide (t' = t)) as [->|Hne]; [tauto|]. right. split; [done|]. intros [?|?]; done.
      * destruct H as [_ [->|[]]]. tauto.
    + intros [[H|H]|[H H2]].
      * injection H as ->. right. split; [right; split; [done|by left]|].
        intros Hin. apply Hni. by apply elem_of_list_In.
      * tauto.
      * right. split; [tauto|]. intros ?; apply H2; tauto.
  - rewrite fwd_dissociate. split.
    + intros [H|[[H1 H2] H3]]; [tauto|]. right. split; [done|]. intros [->|?]; [|done]. apply H2. split; [done|by left].
    + intros [[[= -> ->]|H]|[H H2]]; [done|tauto|]. right. split; [|tauto]. split; [done|]. intros [_ [->|[]]]. apply H2. by left.
Qed.

Lemma step_view s o : dir_inv s -> view_inv s -> view_inv (c_step s o).
Proof.
  intros Hdir Hi b t. unfold view_inv, view in Hi.
  destruct o as [u' c ts h|u'|b' c h|b'|u' ts|u' ts|m|b' m| |]; cbn [c_step]; unfold view.
  - rewrite au_bm_brokers, au_brokers. apply Hi.
  - rewrite ru_bm_brokers, ru_brokers. apply Hi.
  - rewrite ab_bm_brokers, ab_brokers, fwd_remove, Hi. destruct (decide (b = b')) as [->|Hne].
    + rewrite lookup_insert. cbn. unfold vm_get; cbn. rewrite lookup_empty. naive_solver.
    + rewrite lookup_insert_ne by done. naive_solver.
  - rewrite rb_bm_brokers, rb_brokers, fwd_remove, Hi. destruct (decide (b = b')) as [->|Hne].
    + rewrite lookup_delete. naive_solver.
    + rewrite lookup_delete_ne by done. naive_solver.
  - apply Hi.
  - apply Hi.
  - rewrite apply_user_sync_eq. destruct (rus_frame (set_direct (vm_merge bid_gtb (direct s) m).1 s) (map fst (vm_merge bid_gtb (direct s) m).2)) as (_ & -> & -> & _). apply Hi.
  - destruct (brokers s !! b') as [be|] eqn:E.
    + rewrite (apply_topic_eq _ _ _ _ E).
      match goal with |- context [fold_left (c_apply_topic_change b') ?l ?s1] => pose proof (topic_changes_frame b' l s1) as (_ & _ & -> & _) end.
      cbn [brokers set_brokers].
      destruct (decide (b = b')) as [->|Hne].
      * rewrite lookup_insert. cbn [be_topics].
        rewrite topic_changes_fwd by apply merge_changes_nodup. cbn [bm_brokers set_brokers]. rewrite Hi, E.
        unfold vm_get. rewrite merge_lookup. rewrite merge_changes.
        assert (Hin : In t (map fst (vm_merge u32_gtb (be_topics be) m).2) <->
                 exists rv, entries m !! t = Some rv /\ remote_wins u32_gtb (cid m) (cid (be_topics be)) (entries (be_topics be) !! t) rv).
        { rewrite in_map_iff. split.
          - intros ([t' v] & Ht & Hm). cbn in Ht; subst t'. apply merge_changes in Hm as (rv & H1 & _ & H2). eauto.
          - intros (rv & H1 & H2). exists (t, val rv). split; [done|]. apply merge_changes. eauto. }
        rewrite Hin. unfold lww. destruct (entries m !! t) as [rv|] eqn:Em.
        -- case_decide as Hw.
           ++ unfold taken. split.
              ** intros [(rv' & [= <-] & Hs & _)|[_ Hno]]; [by rewrite <- Hs|]. exfalso. apply Hno. eauto.
              ** intros Hs. left. exists rv. split; [done|]. split; [|done]. destruct rv as [vr [st|]]; cbn in *; congruence.
           ++ split.
              ** intros [(rv' & [= <-] & _ & Hw')|[H1 _]]; [done|done].
              ** intros H1. right. split; [done|]. intros (rv' & [= <-] & Hw'). done.
        -- split.
           ++ intros [(rv' & ? & _)|[H1 _]]; done.
           ++ intros H1. right. split; [done|]. intros (rv' & ? & _). done.
      * rewrite topic_changes_fwd_other by done. rewrite lookup_insert_ne by done. apply Hi.
    + unfold c_apply_topic_sync. rewrite E, rb_bm_brokers, rb_brokers, fwd_remove, Hi. destruct (decide (b = b')) as [->|Hne].
      * rewrite lookup_delete. naive_solver.
      * rewrite lookup_delete_ne by done. naive_solver.
  - rewrite partial_user_direct. apply Hi.
  - destruct (partial_topic_frame s) as (_ & _ & -> & _ & _ & -> & _). apply Hi.
Qed.

Lemma run_view i os : view_inv (c_run i os).
Proof.
  induction os as [|o os IH] using rev_ind.
  - intros b t. unfold view; cbn. rewrite lookup_empty. unfold fwd; cbn. rewrite lookup_empty; cbn. set_solver.
  - rewrite c_run_snoc. apply step_view; [apply run_dir|done].
Qed.

Lemma interested_brokers_view i os ts tuo b :
  In b (c_get_interested_by_topic (c_run i os) ts tuo).1
  <-> tuo = false /\ exists t, In t ts /\ view (c_run i os) b t = Some Subscribed.
Proof.
  rewrite interested_brokers by apply run_idx. split; intros (H1 & t & Ht & Hf); (split; [done|]); exists t; (split; [done|]); by apply run_view.
Qed.
