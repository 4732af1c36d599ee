(** Specification vocabulary: what does not end a user's session. *)
From stdpp Require Import gmap list.
From Coq Require Import NArith.
From Verif Require Import IdModel VMapModel ConnModel TopicModel MsgModel RouteModel TaskModel TaskOrder NetModel.

(** ** What does not end the session of user [v] at broker [b] *)
Section spec.
Variable deser : bytes -> option message.
Variable dec_users : bytes -> option direct_map.
Variable dec_topics : bytes -> option topic_map.
Variable valid : N -> bool.
(** The frame is a message for others, or a subscription; and the hook lets it pass or skips it. *)
Definition plain_frame (raw : bytes) (hk : hook) : Prop :=
  exists m, deser raw = Some m
    /\ (hk m = HSkip \/ (exists r body, hk m = HProcess (MDirect r body))
        \/ exists ts t, In t ts /\ valid t = true /\ ((exists body, hk m = HProcess (MBroadcast ts body)) \/ hk m = HProcess (MSubscribe ts))).
(** The broker is not asked to disconnect [v]; the connection of [v] does not break, no message to
    [v] fails to be sent, [v] sends nothing unexpected and does not unsubscribe; and no greater
    broker echoes the presence of [v] (see [C23_no_news_disconnects_refuted]). *)
Definition harmless (v : ukey) (b : bid) (m : machine) (e : event) : Prop :=
  match e with
  | EKick _ u => u <> v
  | ERecvErr h => forall t c, m_tasks m !! h = Some t -> t_owner t <> OUser v c
  | EFrame h raw hk => forall t c, m_tasks m !! h = Some t -> t_owner t = OUser v c -> plain_frame raw hk
  | ERun h good =>
      forall t a l, m_tasks m !! h = Some t -> t_acts t = a :: l ->
        match a with
        | ASendUser u _ _ => u = v -> good = true
        | AApplyUserSync d => entries d !! v <> None -> bid_gtb (cid d) b = false
        | _ => True
        end
  | _ => True
  end.
(** Every step broker [b] has made was harmless to [v]. *)
Definition undisturbed (v : ukey) (b : bid) (n : net) : Prop :=
  forall es1 e es2, trace n b = es1 ++ e :: es2 -> harmless v b (m_run deser dec_users dec_topics valid b es1) e.
End spec.

