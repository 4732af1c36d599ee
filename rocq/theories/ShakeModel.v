(** The broker handshake as a run: one broker against an arbitrary peer, and two brokers
    over a connection (two FIFO queues). The steps are those of AuthModel.v (tasks/broker/handler.rs 41-52).
    Definitions only. *)
From stdpp Require Import list.
From Coq Require Import NArith.
From Verif Require Import IdModel MsgModel AuthModel.

Section shake.
Context {pk : Type} `{EqDecision pk}.
Variable pk_deser : bytes -> option pk.
Variable verify : pk -> bytes -> bytes -> bool.
Variable debug : bool.
(** The deployment's broker key: public key, its bytes, signing. *)
Variable our_pk : pk.
Variable our_key : bytes.
Variable sign : bytes -> bytes.
Notation h_send := (h_send our_key sign).
Notation h_recv := (h_recv pk_deser verify debug our_pk).

(** One broker: what happens to it. *)
Inductive hev := HSendE (now : N) | HRecvE (now : N) (m : message).
(** New state and the message sent, if any; impossible events change nothing. *)
Definition h_step (id : bid) (s : hstate) (e : hev) : hstate * option message :=
  match e with
  | HSendE now => match h_send s now with Some (s', m) => (s', Some m) | None => (s, None) end
  | HRecvE now m => match h_recv id s now m with Some (s', r) => (s', r) | None => (s, None) end
  end.
Definition h_run (id : bid) (s : hstate) (es : list hev) : hstate := fold_left (fun s e => (h_step id s e).1) es s.
(** The messages sent. *)
Fixpoint h_sent (id : bid) (s : hstate) (es : list hev) : list message :=
  match es with
  | [] => []
  | e :: es' => option_list (h_step id s e).2 ++ h_sent id (h_step id s e).1 es'
  end.

(** Two brokers: the one that dialled ([true]) and the one that accepted ([false]), with the
    messages under way to each. *)
Record pair := Pair { p_out : hstate; p_in : hstate; to_out : list message; to_in : list message }.
Definition pair0 : pair := Pair h_outbound h_inbound [] [].

(** A side can move if it is to send, or is to receive and a message is there. *)
Definition can_move (s : hstate) (inbox : list message) : bool :=
  match s with
  | HRequest _ => true
  | HResponse _ | HVerify _ => match inbox with [] => false | _ => true end
  | _ => false
  end.
Definition move (id : bid) (s : hstate) (inbox : list message) (now : N) : hstate * list message * list message :=
  match s, inbox with
  | HRequest _, _ => let r := h_step id s (HSendE now) in (r.1, inbox, option_list r.2)
  | HResponse _, m :: inbox' | HVerify _, m :: inbox' =>
      let r := h_step id s (HRecvE now m) in (r.1, inbox', option_list r.2)
  | _, _ => (s, inbox, [])
  end.
Definition pair_step (id_out id_in : bid) (st : pair) (ev : bool * N) : pair :=
  if ev.1 then
    let '(s, inbox, sent) := move id_out (p_out st) (to_out st) ev.2 in
    Pair s (p_in st) inbox (to_in st ++ sent)
  else
    let '(s, inbox, sent) := move id_in (p_in st) (to_in st) ev.2 in
    Pair (p_out st) s (to_out st ++ sent) inbox.
Definition pair_run (id_out id_in : bid) (evs : list (bool * N)) : pair := fold_left (pair_step id_out id_in) evs pair0.
Definition pair_can (st : pair) (side : bool) : bool :=
  if side then can_move (p_out st) (to_out st) else can_move (p_in st) (to_in st).
(** The number of scheduled steps that did something. *)
Fixpoint effective_from (id_out id_in : bid) (st : pair) (evs : list (bool * N)) : nat :=
  match evs with
  | [] => 0
  | ev :: evs' => (if pair_can st ev.1 then 1 else 0) + effective_from id_out id_in (pair_step id_out id_in st ev) evs'
  end.
Definition effective id_out id_in evs := effective_from id_out id_in pair0 evs.
End shake.
