(** Property theorems: two brokers, whatever happened to them before (crashes, restarts under
    the same identity, lost links, lost lists), link up and exchange their lists of users and
    the changes that follow (ConnModel.v). The pasts of the two are unrelated: any two lists of
    operations. In particular one of them may have just been started and the other remember
    users of its former life, since a broker that loses a link keeps the users of the other on
    record (connections/mod.rs 322-323). *)
From stdpp Require Import gmap fin_maps fin_sets list.
From Coq Require Import NArith Lia.
From Verif Require Import IdModel VMapModel ConnModel ConnSpec ConnProofs LinkupSpec LinkupProofs LinkupProofs2.

(** * C91: linking up puts right what brokers say about each other's users *)
(** Afterwards the two have the same on record about every user. *)
Theorem C91_records_agree :
  forall i j osa osb, i <> j -> no_wrap (c_run i osa) -> no_wrap (c_run j osb) ->
  let '(a, b) := link_up (c_run i osa) (c_run j osb) in
  forall v, on_file a v = on_file b v.
Proof.
  intros i j osa osb Hne Hwa Hwb. pose proof (link_up_agree i j osa osb Hne Hwa Hwb) as H.
  destruct (link_up (c_run i osa) (c_run j osb)) as [a b]. exact H.
Qed.
Print Assumptions C91_records_agree.

(** Each says of the other's users exactly what is the case, and they agree about all others. *)
Theorem C91_claims_exact :
  forall i j osa osb, i <> j -> no_wrap (c_run i osa) -> no_wrap (c_run j osb) ->
  let '(a, b) := link_up (c_run i osa) (c_run j osb) in
  forall v,
    (c_get_broker_identifier_of_user a v = Some j <-> exists c, c_get_user_connection b v = Some c)
    /\ (c_get_broker_identifier_of_user b v = Some i <-> exists c, c_get_user_connection a v = Some c)
    /\ c_get_broker_identifier_of_user a v = c_get_broker_identifier_of_user b v.
Proof.
  intros i j osa osb Hne Hwa Hwb. pose proof (link_up_claims i j osa osb Hne Hwa Hwb) as H. cbv zeta in H.
  destruct (link_up (c_run i osa) (c_run j osb)) as [a b]. exact H.
Qed.
Print Assumptions C91_claims_exact.

(** It costs exactly those users their connections about whom the other broker has a record
    that overrules the one about the connection. *)
Theorem C91_who_is_disconnected :
  forall i j osa osb v c, i <> j -> no_wrap (c_run i osa) ->
  let a := c_run i osa in let b := c_run j osb in
  c_get_user_connection b v = Some c ->
  (overrules a b v -> c_get_user_connection (link_up a b).2 v = None)
  /\ (~ overrules a b v -> c_get_user_connection (link_up a b).2 v = Some c).
Proof. exact link_up_connection. Qed.
Print Assumptions C91_who_is_disconnected.

(** A user that logs in after that stays, even if the two brokers link up again. *)
Theorem C91_second_login_stays :
  forall i j osa osb v c ts h, i <> j -> no_wrap (c_run i osa) -> no_wrap (c_run j osb) ->
  let '(a, b) := link_up (c_run i osa) (c_run j osb) in
  no_wrap a -> c_get_user_connection (link_up a (c_add_user b v c ts h)).2 v = Some c.
Proof.
  intros i j osa osb v c ts h Hne Hwa Hwb. pose proof (second_login i j osa osb v c ts h Hne Hwa Hwb) as H. cbv zeta in H.
  destruct (link_up (c_run i osa) (c_run j osb)) as [a b]. exact H.
Qed.
Print Assumptions C91_second_login_stays.

(** Broker J had users 1, 2 and 3, of whom 1 logged in twice and 2 came from broker I; I heard
    of that; then user 4 came to I. J is started again; users 1, 2 and 4 log in there; the two link up. *)
Definition lu_i : bid := Bid [1]%N [1]%N.
Definition lu_j : bid := Bid [2]%N [2]%N.
Definition lu_i_before : list conn_op := [CAddUser [2] 12 [] 12; CPartialUserSync]%N.
Definition lu_former : list conn_op :=
  (CAddUser [1] 21 [] 21 :: CPartialUserSync :: CAddUser [1] 22 [] 22 :: op_of (c_get_full_user_sync (c_run lu_i lu_i_before))
   ++ [CAddUser [2] 23 [] 23; CAddUser [3] 24 [] 24])%N.
Definition lu_osa : list conn_op := lu_i_before ++ op_of (c_get_full_user_sync (c_run lu_j lu_former)) ++ [CAddUser [4] 14 [] 14; CPartialUserSync]%N.
Definition lu_osb : list conn_op := [CAddUser [1] 31 [] 31; CAddUser [2] 32 [] 32; CAddUser [4] 34 [] 34]%N.
Definition wraps_b (s : conns) : bool := forallb (fun p => (ver p.2 + 1 <? u64_modulus)%N) (map_to_list (entries (direct s))).
Lemma wrap_check s : wraps_b s = true -> no_wrap s.
Proof.
  intros H v e He. unfold wraps_b in H. rewrite forallb_forall in H. apply N.ltb_lt. apply (H (v, e)). apply elem_of_list_In, elem_of_map_to_list. exact He.
Qed.
Example C91_nonvacuous :
  let a := c_run lu_i lu_osa in let b := c_run lu_j lu_osb in
  let '(a', b') := link_up a b in
  lu_i <> lu_j /\ no_wrap a /\ no_wrap b /\ no_wrap a'
  (* before *)
  /\ map (c_get_broker_identifier_of_user a) [[1]; [2]; [3]; [4]]%N = [Some lu_j; Some lu_j; Some lu_j; Some lu_i]
  /\ map (c_get_broker_identifier_of_user b) [[1]; [2]; [3]; [4]]%N = [Some lu_j; Some lu_j; None; Some lu_j]
  (* after: 1 and 2 have lost their connections, 3 is forgotten, 4 is at J *)
  /\ map (c_get_broker_identifier_of_user a') [[1]; [2]; [3]; [4]]%N = [None; None; None; Some lu_j]
  /\ map (c_get_user_connection b') [[1]; [2]; [3]; [4]]%N = [None; None; None; Some 34%N]
  /\ map (c_get_user_connection a') [[1]; [2]; [3]; [4]]%N = [None; None; None; None].
Proof.
  cbv zeta. assert (E : exists a' b', link_up (c_run lu_i lu_osa) (c_run lu_j lu_osb) = (a', b')) by (destruct (link_up _ _); eauto).
  destruct E as (a' & b' & E). rewrite E.
  assert (Ea : a' = (link_up (c_run lu_i lu_osa) (c_run lu_j lu_osb)).1) by (by rewrite E). assert (Eb : b' = (link_up (c_run lu_i lu_osa) (c_run lu_j lu_osb)).2) by (by rewrite E).
  clear E. subst a' b'. split; [discriminate|]. split; [apply wrap_check; vm_compute; reflexivity|]. split; [apply wrap_check; vm_compute; reflexivity|].
  split; [apply wrap_check; vm_compute; reflexivity|]. repeat split; vm_compute; reflexivity.
Qed.

(** * C91: what goes wrong otherwise *)
Definition logs_in (o : conn_op) : Prop := match o with CAddUser _ _ _ _ => True | _ => False end.
(** Users that came back to a broker that was started again lose their connections when it
    links up with a broker that remembers its former life, though they are connected nowhere
    else and the other broker says so too. *)
Theorem C91_restart_keeps_users_refuted :
  ~ (forall i j former fresh v c, i <> j -> Forall logs_in fresh ->
     let a := told (c_new i) (c_get_full_user_sync (c_run j former)) in
     let b := c_run j fresh in
     no_wrap a -> no_wrap b ->
     c_get_broker_identifier_of_user a v = Some j -> c_get_user_connection b v = Some c ->
     c_get_user_connection (link_up a b).2 v = Some c).
Proof.
  intros H. assert (E : c_get_user_connection (link_up (told (c_new lu_i) (c_get_full_user_sync (c_run lu_j lu_former))) (c_run lu_j lu_osb)).2 [1]%N = Some 31%N).
  { apply (H lu_i lu_j lu_former lu_osb [1]%N 31%N); [discriminate|repeat constructor|apply wrap_check; vm_compute; reflexivity|apply wrap_check; vm_compute; reflexivity|vm_compute; reflexivity|vm_compute; reflexivity]. }
  vm_compute in E. discriminate E.
Qed.
Print Assumptions C91_restart_keeps_users_refuted.

(** Until the two have linked up, the other broker says that the users of the former life are
    there, whether they came back or not. *)
Theorem C91_ghosts_before_linking_refuted :
  ~ (forall i j former v, i <> j ->
     let a := c_remove_broker (c_add_broker (told (c_new i) (c_get_full_user_sync (c_run j former))) j 1 1) j in
     c_get_broker_identifier_of_user a v <> Some j).
Proof. intros H. eapply (H lu_i lu_j lu_former [3]%N); [discriminate|]. vm_compute. reflexivity. Qed.
Print Assumptions C91_ghosts_before_linking_refuted.
