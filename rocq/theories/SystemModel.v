(** Model of the whole system: the logins of LoginModel.v and the network of brokers of
    NetModel.v in one run. Definitions only.

    The two meet in /repo/cdn-broker/src/tasks/user/handler.rs 29-76: the handler of a user's
    connection runs the authentication (29-41; the steps of LoginModel.v) and, if it succeeds,
    goes on with the connection, the key and the topics it got from it (47-76; the event
    [NUser] of NetModel.v). There is no other way into the table of users.

    Simplified: the time between the last step of the authentication and the first of the
    registration is left out (nothing that the handler does depends on it); a registration whose
    task or connection names are taken does not happen (names are arbitrary, fresh ones exist). *)
From stdpp Require Import gmap list.
From Coq Require Import NArith.
From Verif Require Import IdModel VMapModel ConnModel TopicModel MsgModel DiscModel AuthModel LoginModel RouteModel TaskModel TaskOrder NetModel.

(** A step of a login ([h] and [hh] name the tasks of the connection, if it registers a user),
    or of the network. *)
Inductive sev :=
  | SLogin (e : lev) (h hh : N)
  | SNet (e : nevent).

(** The steps of the logins. *)
Definition logins (es : list sev) : list lev := flat_map (fun e => match e with SLogin e _ _ => [e] | SNet _ => [] end) es.

Record sys := Sys { s_login : lworld; s_net : net }.

Section sys.
Context {pk : Type} `{EqDecision pk}.
Variable pk_deser : bytes -> option pk.
Variable pk_ser : pk -> option bytes.
Variable verify : pk -> bytes -> bytes -> bool.
Variable debug global redis : bool.
Variable u_key : N -> bytes.
Variable u_sign : N -> bytes -> bytes.
Variable u_topics : N -> list N.
Variable deser : bytes -> option message.
Variable dec_users : bytes -> option direct_map.
Variable dec_topics : bytes -> option topic_map.
Variable valid : N -> bool.
Variable enc_users : direct_map -> bytes.
Variable enc_topics : topic_map -> bytes.
Notation l_step := (l_step pk_deser pk_ser verify debug global redis u_key u_sign u_topics).
Notation n_step := (n_step deser dec_users dec_topics valid enc_users enc_topics).

(** tasks/user/handler.rs 29-76: the connection whose handler finished authentication. *)
Definition register (e : lev) (r : option (bid * bytes * list N)) (h hh : N) : option nevent :=
  match e, r with
  | LBrokerTopics hb, Some (b, key, topics) => Some (NUser b h hh key hb topics)
  | _, _ => None
  end.

Definition s_step (s : sys) (e : sev) : sys :=
  match e with
  | SLogin e h hh =>
      let '(l, r) := l_step (s_login s) e in
      Sys l (match register e r h hh with Some x => n_step (s_net s) x | None => s_net s end)
  | SNet (NUser _ _ _ _ _ _) => s
  | SNet e => Sys (s_login s) (n_step (s_net s) e)
  end.
Definition s_run (es : list sev) : sys := fold_left s_step es (Sys lworld0 (Net ∅ ∅)).
End sys.
