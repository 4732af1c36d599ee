(** Decision procedures for the scheduling hypotheses of TaskHandles.v and TaskGuarded.v,
    used by the examples. *)
From stdpp Require Import gmap list.
From Coq Require Import NArith.
From Verif Require Import IdModel VMapModel ConnModel TopicModel MsgModel RouteModel TaskModel TaskHandles TaskGuarded.

Section check.
Variable deser : bytes -> option message.
Variable dec_users : bytes -> option direct_map.
Variable dec_topics : bytes -> option topic_map.
Variable valid : N -> bool.
Notation m_step := (m_step deser dec_users dec_topics valid).
Notation m_run := (m_run deser dec_users dec_topics valid).

Definition pending (m : machine) : list N := concat (map (fun x => adds (t_acts x.2)) (map_to_list (m_tasks m))).
Lemma pending_unregistered m h : unregistered m h -> In h (pending m).
Proof.
  intros (hh & t & Ht & Hi). apply in_concat. eexists. split; [|exact Hi].
  apply in_map_iff. exists (hh, t). split; [done|]. by apply elem_of_list_In, elem_of_map_to_list.
Qed.

Definition prompt_ev (m : machine) (e : event) : bool :=
  match e with EFrame h _ _ | ERecvErr h => bool_decide (h ∉ pending m) | _ => true end.
Definition subs_ev (m : machine) (e : event) : bool :=
  match e with
  | ERun h _ =>
      match m_tasks m !! h with
      | Some (Task _ (ASubscribe u _ :: _) _ _) => match c_get_user_connection (m_conns m) u with Some _ => true | None => false end
      | _ => true
      end
  | _ => true
  end.
Fixpoint all_ev (p : machine -> event -> bool) (m : machine) (es : list event) : bool :=
  match es with [] => true | e :: es' => p m e && all_ev p (m_step m e) es' end.

Lemma all_ev_split p m es1 e es2 : all_ev p m (es1 ++ e :: es2) = true -> p (fold_left m_step es1 m) e = true.
Proof.
  revert m. induction es1 as [|x es1 IH]; intros m; cbn; intros H; apply andb_prop in H as [H1 H2]; [done|]. by apply IH.
Qed.

Lemma prompt_check i es : all_ev prompt_ev (m_init i) es = true -> prompt deser dec_users dec_topics valid i es.
Proof.
  intros H es1 e es2 h -> He Hu. apply all_ev_split in H. apply pending_unregistered, elem_of_list_In in Hu.
  destruct He as [(raw & hk & ->)| ->]; cbn in H; by apply bool_decide_eq_true in H.
Qed.
Lemma subs_check i es : all_ev subs_ev (m_init i) es = true -> subscribes_connected deser dec_users dec_topics valid i es.
Proof.
  intros H es1 h good es2 t u ts l -> Ht Ha. apply all_ev_split in H. cbn in H. unfold TaskModel.m_run in *. rewrite Ht in H.
  destruct t as [o acts op n]. cbn in Ha. subst acts. destruct (c_get_user_connection _ u) as [c|] eqn:E; [|done]. by exists c.
Qed.
End check.
