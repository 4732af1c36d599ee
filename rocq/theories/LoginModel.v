(** Model of a whole login: the user's side of authentication
    (/repo/cdn-proto/src/connection/auth/user.rs 37-161, as called by
    /repo/cdn-client/src/lib.rs 79-126), the answers of marshal and broker
    (auth/mod.rs 15-30, auth/marshal.rs 49-147, auth/broker.rs 78-150) and the connections between
    them. Definitions only. The handlers of marshal and broker are those of AuthModel.v.

    Simplified: a connection is a pair of queues of messages that lose and reorder nothing;
    contexts of refusals are empty; a connection attempt succeeds at once or is not made; sending
    is immediate. What breaks a login off (time limits, lost connections) are the events
    [LDropM], [LDropB] and [LGiveUp], possible at any time. *)
From stdpp Require Import gmap list.
From Coq Require Import NArith.
From Verif Require Import IdModel MsgModel DiscModel AuthModel.

(** Where a user is in lib.rs 79-126: waiting for the marshal's answer on connection [h]
    (user.rs 80-84); given an endpoint and a permit; waiting for the broker's answer on connection
    [hb] (user.rs 129-133); connected; failed. *)
Inductive ustate :=
  | UWaitMarshal (h : N)
  | UGranted (endpoint : bytes) (permit : N)
  | UWaitBroker (hb : N)
  | UConnected (hb : N)
  | UFailed.

(** The two directions of a connection to the marshal ([m]) or to broker [b]. *)
Record mconn := MConn { mc_in : list message; mc_out : list message }.
Record bconn := BConn { bc_broker : bid; bc_in : list message; bc_out : list message }.

(** [l_foreign_m], [l_foreign_b]: the connections made by somebody who does not follow the protocol;
    [l_gone_m], [l_gone_b]: the handlers that were broken off. *)
Record lworld := LWorld {
  l_w : world;
  l_users : gmap N ustate;
  l_mconns : gmap N mconn;
  l_bconns : gmap N bconn;
  l_foreign_m : gset N;
  l_foreign_b : gset N;
  l_gone_m : gset N;
  l_gone_b : gset N;
}.
Definition lworld0 : lworld := LWorld world0 ∅ ∅ ∅ ∅ ∅ ∅ ∅.

Inductive lev :=
  (* lib.rs 90-101 and user.rs 42-77: user [u] connects to the marshal and sends its request *)
  | LStart (u h now : N)
  (* user.rs 80-106: it receives the marshal's answer *)
  | LUserPermit (u : N)
  (* lib.rs 104-108 and user.rs 120-127: it connects to broker [b] and sends its permit *)
  | LDial (u hb : N) (b : bid)
  (* user.rs 130-159: it receives the broker's answer and sends its topics *)
  | LUserAccepted (u : N)
  (* lib.rs 218-235: it gives up an attempt *)
  | LGiveUp (u : N)
  (* the steps of the marshal's handler of connection [h] *)
  | LMarshalRecv (h now : N)
  | LMarshalWhitelist (h : N)
  | LMarshalPlace (h now : N)
  | LMarshalIssue (h now permit : N)
  (* the steps of the broker's handler of connection [hb] *)
  | LBrokerRecv (hb : N)
  | LBrokerValidate (hb now : N)
  | LBrokerTopics (hb : N)
  (* handlers.rs 27-31, tasks/user/handler.rs 29-40: a handler is ended by a lost connection or its time limit *)
  | LDropM (h : N)
  | LDropB (hb : N)
  (* somebody else connects and sends anything *)
  | LForeignM (h : N)
  | LForeignB (hb : N) (b : bid)
  | LSendM (h : N) (m : message)
  | LSendB (hb : N) (m : message)
  (* statements of the discovery service by others *)
  | LClean (now : N)
  | LHeartbeat (now1 now2 : N) (b : bid) (n ttl : N)
  | LSetWhitelist (users : list bytes).

(** auth/mod.rs 19-25: a refusal. *)
Definition refusal : message := MAuthResponse 0 [].

Section login.
Context {pk : Type} `{EqDecision pk}.
Variable pk_deser : bytes -> option pk.
Variable pk_ser : pk -> option bytes.
Variable verify : pk -> bytes -> bytes -> bool.
Variable debug global redis : bool.
(** The users: serialised public key, signatures by the private key, topics. *)
Variable u_key : N -> bytes.
Variable u_sign : N -> bytes -> bytes.
Variable u_topics : N -> list N.
Notation a_step := (a_step pk_deser pk_ser verify debug global redis).
Notation d_answer := (d_answer global redis).
Notation d_issue_ok := (d_issue_ok global redis).

Definition set_lw w (l : lworld) : lworld := LWorld w (l_users l) (l_mconns l) (l_bconns l) (l_foreign_m l) (l_foreign_b l) (l_gone_m l) (l_gone_b l).
Definition set_user u s (l : lworld) : lworld := LWorld (l_w l) (<[u := s]> (l_users l)) (l_mconns l) (l_bconns l) (l_foreign_m l) (l_foreign_b l) (l_gone_m l) (l_gone_b l).
Definition set_mconn h c (l : lworld) : lworld := LWorld (l_w l) (l_users l) (<[h := c]> (l_mconns l)) (l_bconns l) (l_foreign_m l) (l_foreign_b l) (l_gone_m l) (l_gone_b l).
Definition set_bconn h c (l : lworld) : lworld := LWorld (l_w l) (l_users l) (l_mconns l) (<[h := c]> (l_bconns l)) (l_foreign_m l) (l_foreign_b l) (l_gone_m l) (l_gone_b l).
Definition add_foreign_m h (l : lworld) : lworld := LWorld (l_w l) (l_users l) (l_mconns l) (l_bconns l) ({[h]} ∪ l_foreign_m l) (l_foreign_b l) (l_gone_m l) (l_gone_b l).
Definition add_foreign_b h (l : lworld) : lworld := LWorld (l_w l) (l_users l) (l_mconns l) (l_bconns l) (l_foreign_m l) ({[h]} ∪ l_foreign_b l) (l_gone_m l) (l_gone_b l).

Definition add_gone_m h (l : lworld) : lworld := LWorld (l_w l) (l_users l) (l_mconns l) (l_bconns l) (l_foreign_m l) (l_foreign_b l) ({[h]} ∪ l_gone_m l) (l_gone_b l).
Definition add_gone_b h (l : lworld) : lworld := LWorld (l_w l) (l_users l) (l_mconns l) (l_bconns l) (l_foreign_m l) (l_foreign_b l) (l_gone_m l) ({[h]} ∪ l_gone_b l).

(** The marshal, the broker send [m] on a connection. *)
Definition m_say (h : N) (m : message) (l : lworld) : lworld :=
  match l_mconns l !! h with Some c => set_mconn h (MConn (mc_in c) (mc_out c ++ [m])) l | None => l end.
Definition b_say (h : N) (m : message) (l : lworld) : lworld :=
  match l_bconns l !! h with Some c => set_bconn h (BConn (bc_broker c) (bc_in c) (bc_out c ++ [m])) l | None => l end.
(** A handler that has ended has refused: auth/mod.rs 15-30. *)
Definition m_done (h : N) (l : lworld) : lworld :=
  match w_marshal (l_w l) !! h with Some MEnded => m_say h refusal l | _ => l end.
Definition b_done (h : N) (l : lworld) : lworld :=
  match w_broker (l_w l) !! h with Some BEnded => b_say h refusal l | _ => l end.
(** A step of a handler of AuthModel.v. *)
Definition act (e : aev) (l : lworld) : lworld := set_lw (a_step (l_w l) e).1 l.

(** user.rs 53-77: the request of user [u]. *)
Definition request (u now : N) : message := MAuthWithKey now (u_key u) (u_sign u (signed_bytes ns_user now)).
(** user.rs 86-106. *)
Definition read_grant (m : message) : option (bytes * N) :=
  match m with MAuthResponse permit context => if (1 <? permit)%N then Some (context, permit) else None | _ => None end.
(** user.rs 137-150. *)
Definition read_accept (m : message) : bool :=
  match m with MAuthResponse permit _ => (permit =? 1)%N | _ => false end.

(** The handler an event is a step of. *)
Definition m_handler (e : lev) : option N :=
  match e with LMarshalRecv h _ | LMarshalWhitelist h | LMarshalPlace h _ | LMarshalIssue h _ _ => Some h | _ => None end.
Definition b_handler (e : lev) : option N :=
  match e with LBrokerRecv h | LBrokerValidate h _ | LBrokerTopics h => Some h | _ => None end.
Definition broken_off (l : lworld) (e : lev) : bool :=
  match m_handler e, b_handler e with
  | Some h, _ => bool_decide (h ∈ l_gone_m l)
  | _, Some h => bool_decide (h ∈ l_gone_b l)
  | _, _ => false
  end.

(** A step and the user registered by it, if any (broker, key, topics); of handlers that
    were not broken off. *)
Definition l_act (l : lworld) (e : lev) : lworld * option (bid * bytes * list N) :=
  match e with
  | LStart u h now =>
      match l_users l !! u, l_mconns l !! h with
      | None, None | Some UFailed, None => (set_mconn h (MConn [request u now] []) (set_user u (UWaitMarshal h) l), None)
      | _, _ => (l, None)
      end
  | LUserPermit u =>
      match l_users l !! u with
      | Some (UWaitMarshal h) =>
          match l_mconns l !! h with
          | Some (MConn i (m :: o)) =>
              (set_user u (match read_grant m with Some (ep, p) => UGranted ep p | None => UFailed end) (set_mconn h (MConn i o) l), None)
          | _ => (l, None)
          end
      | _ => (l, None)
      end
  | LDial u hb b =>
      match l_users l !! u, l_bconns l !! hb with
      | Some (UGranted ep p), None =>
          if decide (bpub b = ep)
          then (set_bconn hb (BConn b [MAuthWithPermit p] []) (set_user u (UWaitBroker hb) l), None)
          else (l, None)
      | _, _ => (l, None)
      end
  | LUserAccepted u =>
      match l_users l !! u with
      | Some (UWaitBroker hb) =>
          match l_bconns l !! hb with
          | Some (BConn b i (m :: o)) =>
              if read_accept m
              then (set_user u (UConnected hb) (set_bconn hb (BConn b (i ++ [MSubscribe (u_topics u)]) o) l), None)
              else (set_user u UFailed (set_bconn hb (BConn b i o) l), None)
          | _ => (l, None)
          end
      | _ => (l, None)
      end
  | LGiveUp u =>
      match l_users l !! u with
      | Some (UWaitMarshal _) | Some (UGranted _ _) | Some (UWaitBroker _) => (set_user u UFailed l, None)
      | _ => (l, None)
      end
  | LMarshalRecv h now =>
      match w_marshal (l_w l) !! h, l_mconns l !! h with
      | None, Some (MConn (m :: i) o) =>
          let l' := act (AMarshalRecv h now m) (set_mconn h (MConn i o) l) in
          (m_done h l', None)
      | _, _ => (l, None)
      end
  | LMarshalWhitelist h =>
      match w_marshal (l_w l) !! h with
      | Some (MChecked _ _) =>
          let l' := act (AMarshalWhitelist h) l in
          (m_done h l', None)
      | _ => (l, None)
      end
  | LMarshalPlace h now =>
      match w_marshal (l_w l) !! h with
      | Some (MAllowed _) =>
          let l' := act (AMarshalPlace h now) l in
          (m_done h l', None)
      | _ => (l, None)
      end
  | LMarshalIssue h now permit =>
      match w_marshal (l_w l) !! h with
      | Some (MPlaced _ b) =>
          (m_say h (if d_issue_ok (w_disc (l_w l)) permit then MAuthResponse permit (bpub b) else refusal) (act (AMarshalIssue h now permit) l), None)
      | _ => (l, None)
      end
  | LBrokerRecv hb =>
      match w_broker (l_w l) !! hb, l_bconns l !! hb with
      | None, Some (BConn b (m :: i) o) =>
          let l' := act (ABrokerRecv hb b m) (set_bconn hb (BConn b i o) l) in
          (b_done hb l', None)
      | _, _ => (l, None)
      end
  | LBrokerValidate hb now =>
      match w_broker (l_w l) !! hb with
      | Some (BValidate b permit) =>
          (b_say hb (match d_answer (w_disc (l_w l)) (DTake now b permit) with Some _ => MAuthResponse 1 [] | None => refusal end)
             (act (ABrokerValidate hb now) l), None)
      | _ => (l, None)
      end
  | LBrokerTopics hb =>
      match w_broker (l_w l) !! hb, l_bconns l !! hb with
      | Some (BTopics _ _), Some (BConn b (m :: i) o) =>
          let l1 := set_bconn hb (BConn b i o) l in
          let r := (a_step (l_w l) (ABrokerTopics hb m)).2 in
          let l' := act (ABrokerTopics hb m) l1 in
          (if r then l' else b_say hb refusal l', r)
      | _, _ => (l, None)
      end
  | LDropM h => (add_gone_m h l, None)
  | LDropB hb => (add_gone_b hb l, None)
  | LForeignM h =>
      match l_mconns l !! h with None => (add_foreign_m h (set_mconn h (MConn [] []) l), None) | Some _ => (l, None) end
  | LForeignB hb b =>
      match l_bconns l !! hb with None => (add_foreign_b hb (set_bconn hb (BConn b [] []) l), None) | Some _ => (l, None) end
  | LSendM h m =>
      match l_mconns l !! h with
      | Some c => if decide (h ∈ l_foreign_m l) then (set_mconn h (MConn (mc_in c ++ [m]) (mc_out c)) l, None) else (l, None)
      | None => (l, None)
      end
  | LSendB hb m =>
      match l_bconns l !! hb with
      | Some c => if decide (hb ∈ l_foreign_b l) then (set_bconn hb (BConn (bc_broker c) (bc_in c ++ [m]) (bc_out c)) l, None) else (l, None)
      | None => (l, None)
      end
  | LClean now => (act (AClean now) l, None)
  | LHeartbeat now1 now2 b n ttl => (act (AHeartbeat now1 now2 b n ttl) l, None)
  | LSetWhitelist users => (act (ASetWhitelist users) l, None)
  end.
Definition l_step (l : lworld) (e : lev) : lworld * option (bid * bytes * list N) :=
  if broken_off l e then (l, None) else l_act l e.
Definition l_run (es : list lev) : lworld := fold_left (fun l e => (l_step l e).1) es lworld0.
(** The user registered by event [e] after history [es]. *)
Definition l_admits (es : list lev) (e : lev) : option (bid * bytes * list N) := (l_step (l_run es) e).2.
End login.
