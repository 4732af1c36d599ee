(** Model of the authentication protocols — /repo/cdn-proto/src/connection/auth/{mod,marshal,broker,user}.rs,
    the namespaces of /repo/cdn-proto/src/crypto/signature.rs 22-32, 118-131, 162-174, and the
    handlers that call them (/repo/cdn-marshal/src/handlers.rs 21-39,
    /repo/cdn-broker/src/tasks/user/handler.rs 26-40,
    /repo/cdn-broker/src/tasks/broker/handler.rs 30-63). Definitions only.

    Abstracted: the signature scheme. [pk_deser]/[pk_ser] are [Serializable::deserialize] and
    [serialize] of public keys, [verify p m s] is the scheme's verification of the
    namespaced message [m]; they are arbitrary functions. Clock readings are arguments, in whole
    seconds. Failures of the transport end a handshake and are represented by a
    handler taking no further steps; so does the 5 second time limit. Answers sent to
    users are not represented for the marshal and broker handlers. *)
From stdpp Require Import gmap list.
From Coq Require Import NArith.
From Verif Require Import IdModel MsgModel DiscModel.

(** [u64::to_le_bytes]. *)
Fixpoint le_bytes (k : nat) (n : N) : bytes :=
  match k with O => [] | S k' => (n mod 256)%N :: le_bytes k' (n / 256)%N end.
Definition le8 : N -> bytes := le_bytes 8.

(** signature.rs 26-31: "espresso-cdn-user-marshal-auth" and "espresso-cdn-broker-broker-auth". *)
Definition ns_user : bytes :=
  [101;115;112;114;101;115;115;111;45;99;100;110;45;117;115;101;114;45;109;97;114;115;104;97;108;45;97;117;116;104]%N.
Definition ns_broker : bytes :=
  [101;115;112;114;101;115;115;111;45;99;100;110;45;98;114;111;107;101;114;45;98;114;111;107;101;114;45;97;117;116;104]%N.
(** signature.rs 118-120, 162-164: the bytes that are signed. *)
Definition signed_bytes (ns : bytes) (ts : N) : bytes := ns ++ le8 ts.

(** marshal.rs 81, broker.rs 277: [timestamp.as_secs() - auth_message.timestamp > 5] on
    [u64], negated. In debug builds an underflow panics, which ends the handler; in release
    builds it wraps. *)
Definition age_ok (debug : bool) (now ts : N) : bool :=
  if debug then (ts <=? now)%N && (now - ts <=? 5)%N
  else ((now + 2 ^ 64 - ts) mod 2 ^ 64 <=? 5)%N.

Section auth.
Context {pk : Type} `{EqDecision pk}.
Variable pk_deser : bytes -> option pk.
Variable pk_ser : pk -> option bytes.
Variable verify : pk -> bytes -> bytes -> bool.
Variable debug : bool.

(** The checks made of a signed request, marshal.rs 57-83, broker.rs 255-279: type of message, public key,
    signature, age. *)
Definition check_request (ns : bytes) (now : N) (m : message) : option (pk * bytes) :=
  match m with
  | MAuthWithKey ts key sig =>
      match pk_deser key with
      | Some p => if verify p (signed_bytes ns ts) sig && age_ok debug now ts then Some (p, key) else None
      | None => None
      end
  | _ => None
  end.

(** * Users: marshal, discovery, brokers *)
Section users.
Variable global redis : bool.

(** The discovery service, as its history of statements (DiscModel.v). *)
Definition d_answer (h : list dop) (o : dop) : option bytes :=
  if redis then r_answer global h o else e_answer global h o.
Definition d_whitelisted (h : list dop) (key : bytes) : bool :=
  if redis then r_check_whitelist (r_run global h) key else e_check_whitelist (e_run global h) key.
Definition d_least (h : list dop) (now : N) : option bid :=
  if redis then r_least (r_run global h) now else (e_least (e_run global h) now).2.
Definition d_issue_ok (h : list dop) (permit : N) : bool :=
  if redis then true else bool_decide (e_permits (e_run global h) !! permit = None).

(** A marshal's handler of one connection: waiting for the request (initially), request
    checked, whitelist checked, broker chosen, ended. *)
Inductive mstate :=
  | MChecked (key canon : bytes)
  | MAllowed (key : bytes)
  | MPlaced (key : bytes) (b : bid)
  | MEnded.
(** A broker's handler of one user connection: waiting for the permit (initially), about to validate, waiting for the
    topics, ended. *)
Inductive bstate :=
  | BValidate (b : bid) (permit : N)
  | BTopics (b : bid) (key : bytes)
  | BEnded.

Record world := World {
  w_disc : list dop;
  w_marshal : gmap N mstate;
  w_broker : gmap N bstate;
}.
Definition world0 : world := World [] ∅ ∅.

(** Atomic steps. [h] numbers connections (each has its handler). *)
Inductive aev :=
  (* marshal.rs 49-88: a message arrives at marshal connection [h] *)
  | AMarshalRecv (h now : N) (m : message)
  (* marshal.rs 90-104 *)
  | AMarshalWhitelist (h : N)
  (* marshal.rs 106-119 *)
  | AMarshalPlace (h now : N)
  (* marshal.rs 121-138; the random number is an argument *)
  | AMarshalIssue (h now permit : N)
  (* auth/broker.rs 83-92: a message arrives at connection [h] of broker [b] *)
  | ABrokerRecv (h : N) (b : bid) (m : message)
  (* auth/broker.rs 95-131; [AClean] is the statement embedded.rs runs before *)
  | ABrokerValidate (h now : N)
  (* auth/broker.rs 134-150: the next message arrives *)
  | ABrokerTopics (h : N) (m : message)
  (* statements of the discovery service by others: clean-ups, heartbeats, setting the whitelist *)
  | AClean (now : N)
  | AHeartbeat (now1 now2 : N) (b : bid) (n ttl : N)
  | ASetWhitelist (users : list bytes).

Definition set_disc h (w : world) : world := World h (w_marshal w) (w_broker w).
Definition set_m h s (w : world) : world := World (w_disc w) (<[h := s]> (w_marshal w)) (w_broker w).
Definition set_b h s (w : world) : world := World (w_disc w) (w_marshal w) (<[h := s]> (w_broker w)).
Definition log_d o (w : world) : world := set_disc (w_disc w ++ [o]) w.

(** The result of a step: the user registered, if any (broker, key, topics). *)
Definition a_step (w : world) (e : aev) : world * option (bid * bytes * list N) :=
  match e with
  | AMarshalRecv h now m =>
      match w_marshal w !! h with
      | None =>
          match check_request ns_user now m with
          | Some (p, key) =>
              match pk_ser p with
              | Some canon => (set_m h (MChecked key canon) w, None)
              | None => (set_m h MEnded w, None)
              end
          | None => (set_m h MEnded w, None)
          end
      | Some _ => (w, None)
      end
  | AMarshalWhitelist h =>
      match w_marshal w !! h with
      | Some (MChecked key canon) =>
          (set_m h (if d_whitelisted (w_disc w) canon then MAllowed key else MEnded) w, None)
      | _ => (w, None)
      end
  | AMarshalPlace h now =>
      match w_marshal w !! h with
      | Some (MAllowed key) =>
          let w' := log_d (DPrune now) (log_d (DPruneBrokers now) w) in
          (set_m h (match d_least (w_disc w) now with Some b => MPlaced key b | None => MEnded end) w', None)
      | _ => (w, None)
      end
  | AMarshalIssue h now permit =>
      match w_marshal w !! h with
      | Some (MPlaced key b) =>
          if d_issue_ok (w_disc w) permit
          then (set_m h MEnded (log_d (DIssue now b permit 30 key) w), None)
          else (set_m h MEnded w, None)
      | _ => (w, None)
      end
  | ABrokerRecv h b m =>
      match w_broker w !! h, m with
      | None, MAuthWithPermit permit => (set_b h (BValidate b permit) w, None)
      | None, _ => (set_b h BEnded w, None)
      | Some _, _ => (w, None)
      end
  | ABrokerValidate h now =>
      match w_broker w !! h with
      | Some (BValidate b permit) =>
          let o := DTake now b permit in
          let w' := log_d o w in
          match d_answer (w_disc w) o with
          | Some key =>
              match pk_deser key with
              | Some _ => (set_b h (BTopics b key) w', None)
              | None => (set_b h BEnded w', None)
              end
          | None => (set_b h BEnded w', None)
          end
      | _ => (w, None)
      end
  | ABrokerTopics h m =>
      match w_broker w !! h with
      | Some (BTopics b key) =>
          match m with
          | MSubscribe topics => (set_b h BEnded w, Some (b, key, topics))
          | _ => (set_b h BEnded w, None)
          end
      | _ => (w, None)
      end
  | AClean now => (log_d (DPrune now) w, None)
  | AHeartbeat now1 now2 b n ttl => (log_d (DHeartbeat now1 now2 b n ttl) w, None)
  | ASetWhitelist users => (log_d (DSetWhitelist users) w, None)
  end.
Definition a_run (es : list aev) : world := fold_left (fun w e => (a_step w e).1) es world0.
(** The user registered by event [e] after history [es]. *)
Definition a_admits (es : list aev) (e : aev) : option (bid * bytes * list N) := (a_step (a_run es) e).2.
End users.

(** * Brokers among themselves *)
(** auth/broker.rs 243-300: [verify_broker]: the answer and whether it succeeded. *)
Definition verify_broker (our_pk : pk) (our_id : bid) (now : N) (m : message) : message * bool :=
  match check_request ns_broker now m with
  | Some (p, _) => if decide (p = our_pk) then (MAuthResponse 1 (bid_print our_id), true) else (MAuthResponse 0 [], false)
  | None => (MAuthResponse 0 [], false)
  end.

(** auth/broker.rs 204-232: the peer's answer to our request. *)
Definition read_response (m : message) : option bid :=
  match m with
  | MAuthResponse permit context => if (permit =? 1)%N then bid_parse context else None
  | _ => None
  end.

(** tasks/broker/handler.rs 41-52: the handshake. Outbound: [HRequest None], then [HResponse None], then
    [HVerify (Some id)]; inbound: [HVerify None], [HRequest (Some tt)]... The argument says what is
    already done. *)
Inductive hstate :=
  | HRequest (verified : bool)          (* about to send our request *)
  | HResponse (verified : bool)         (* waiting for the answer to it *)
  | HVerify (peer : option bid)         (* waiting for the peer's request *)
  | HDone (peer : bid)
  | HFailed.
Definition h_outbound : hstate := HRequest false.
Definition h_inbound : hstate := HVerify None.

(** auth/broker.rs 165-201: sending our request; [sign] is our signature of a byte string. *)
Definition h_send (our_key : bytes) (sign : bytes -> bytes) (s : hstate) (now : N) : option (hstate * message) :=
  match s with
  | HRequest v => Some (HResponse v, MAuthWithKey now our_key (sign (signed_bytes ns_broker now)))
  | _ => None
  end.
(** Receiving a message. *)
Definition h_recv (our_pk : pk) (our_id : bid) (s : hstate) (now : N) (m : message) : option (hstate * option message) :=
  match s with
  | HResponse v =>
      match read_response m with
      | Some id => Some (if v then HDone id else HVerify (Some id), None)
      | None => Some (HFailed, None)
      end
  | HVerify peer =>
      let (answer, ok) := verify_broker our_pk our_id now m in
      Some (if ok then match peer with Some id => HDone id | None => HRequest true end else HFailed, Some answer)
  | _ => None
  end.
End auth.
