(** Model of the whitelist task of a broker over time, next to everything else that happens to the
    broker's connections and to the whitelist in the data base
    (/repo/cdn-broker/src/tasks/broker/whitelist.rs). Definitions only.

    DiscModel.v takes [set_whitelist] and [check_whitelist] for atomic. Here they are taken apart
    into the statements they consist of: SQLite commits every statement by itself, and
    [check_whitelist] is two statements (commands) in both data bases.

    Simplified: a check whose second statement is not needed (embedded.rs 372-374, redis.rs
    305-314) ends at its first; the answer reaches the caller in a later step. A call that fails
    is not executed. *)
From stdpp Require Import gmap list.
From Coq Require Import NArith.
From Verif Require Import IdModel ConnModel.

(** The whitelist: the table [whitelist] of SQLite, which may not exist; in Redis the set [whitelist],
    which exists iff it has members. *)
Notation wlist := (option (gset bytes)).

(** The statements of [set_whitelist]. SQLite (embedded.rs 325-354): DROP, CREATE, INSERT.
    Inserting nothing is a syntax error, inserting a key twice violates the primary key, and without
    a table there is an error; in these cases nothing is inserted. Redis (redis.rs 271-297): one
    transaction. *)
Inductive wset :=
  | SDrop
  | SCreate
  | SInsert (l : list bytes)
  | SReplace (l : list bytes).
Definition w_set (redis : bool) (w : wlist) (o : wset) : wlist :=
  match o with
  | SDrop => if redis then w else None
  | SCreate => if redis then w else match w with None => Some ∅ | Some s => Some s end
  | SInsert l =>
      if redis then w else
      match w with
      | None => None
      | Some s => if decide (l <> [] /\ NoDup l /\ Forall (fun k => k ∉ s) l) then Some (s ∪ list_to_set l) else Some s
      end
  | SReplace l => if redis then (match l with [] => None | _ => Some (list_to_set l) end) else w
  end.

(** [check_whitelist] (embedded.rs 360-396, redis.rs 303-326): is there a whitelist?
    Then, is the key on it? By then SQLite's table may have been dropped, which is an error; to Redis a set
    that does not exist has no members. *)
Definition q_exists (w : wlist) : bool := match w with None => false | Some _ => true end.
Definition q_member (redis : bool) (w : wlist) (k : bytes) : option bool :=
  match w with
  | None => if redis then Some false else None
  | Some s => Some (bool_decide (k ∈ s))
  end.
(** A check under way: its first statement said that there is a whitelist; or the result ([None]: an error). *)
Inductive check := Asked | Result (r : option bool).
Definition chk_first (w : wlist) (ok : bool) : check :=
  if ok then (if q_exists w then Asked else Result (Some true)) else Result None.
Definition chk_second (redis : bool) (w : wlist) (k : bytes) (ok : bool) : check :=
  Result (if ok then q_member redis w k else None).

(** The whitelist task (whitelist.rs 19-43): asleep since a time; or in a round, with the users
    to check after the current one, and the check of the current one. *)
Inductive wtask :=
  | WSleep
  | WNext (u : bytes) (todo : list bytes)
  | WCheck (u : bytes) (todo : list bytes) (c : check).
Definition w_next (todo : list bytes) : wtask := match todo with [] => WSleep | u :: todo => WNext u todo end.

Record white := White {
  w_list : wlist;
  w_conns : conns;
  w_task : wtask;
  w_since : N;                  (* the time of the task's last step *)
  w_others : gmap N (bytes * check);   (* checks by marshals *)
}.

Inductive wev :=
  | WWake (order : list bytes)  (* whitelist.rs 25-28, the users in the order of the hash map *)
  | WFirst (ok : bool)          (* 32-34: the first statement of the check; may fail *)
  | WSecond (ok : bool)         (* 32-34: the second statement *)
  | WAct                        (* 35-41: unwrap_or(true), remove_user *)
  | WOther (o : conn_op)        (* any other task of the broker *)
  | WSet (o : wset)             (* somebody sets the whitelist *)
  | WMFirst (m : N) (k : bytes) (ok : bool)   (* a marshal checks a key (auth/marshal.rs 91-94) *)
  | WMSecond (m : N) (ok : bool)
  | WPass.                      (* nothing; time passes *)

Section white.
Variable redis : bool.

Definition w_step (s : white) (te : N * wev) : white :=
  let '(t, e) := te in
  let task x := White (w_list s) (w_conns s) x t (w_others s) in
  match e with
  | WWake order =>
      match w_task s with
      | WSleep => if decide ((w_since s + 60 <= t)%N /\ order ≡ₚ c_all_users (w_conns s)) then task (w_next order) else s
      | _ => s
      end
  | WFirst ok => match w_task s with WNext u todo => task (WCheck u todo (chk_first (w_list s) ok)) | _ => s end
  | WSecond ok => match w_task s with WCheck u todo Asked => task (WCheck u todo (chk_second redis (w_list s) u ok)) | _ => s end
  | WAct =>
      match w_task s with
      | WCheck u todo (Result r) =>
          White (w_list s) (if default true r then w_conns s else c_remove_user (w_conns s) u) (w_next todo) t (w_others s)
      | _ => s
      end
  | WOther o => White (w_list s) (c_step (w_conns s) o) (w_task s) (w_since s) (w_others s)
  | WSet o => White (w_set redis (w_list s) o) (w_conns s) (w_task s) (w_since s) (w_others s)
  | WMFirst m k ok => White (w_list s) (w_conns s) (w_task s) (w_since s) (<[m := (k, chk_first (w_list s) ok)]> (w_others s))
  | WMSecond m ok =>
      match w_others s !! m with
      | Some (k, Asked) => White (w_list s) (w_conns s) (w_task s) (w_since s) (<[m := (k, chk_second redis (w_list s) k ok)]> (w_others s))
      | _ => s
      end
  | WPass => s
  end.
(** A broker that starts at time [t0] (lib.rs 281-282); the whitelist may exist already. *)
Definition w_init (b : bid) (w : wlist) (t0 : N) : white := White w (c_new b) WSleep t0 ∅.
Definition w_run (s : white) (es : list (N * wev)) : white := fold_left w_step es s.
End white.
