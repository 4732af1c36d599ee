(** Brokers, marshals and the users that log in, around one data base (DiscModel.v): who is sent
    where, and who is connected where, as time passes. Definitions only.

    A broker is reduced to the set of its users' keys: /repo/cdn-broker/src/connections/mod.rs
    127-130 ([num_users]) is the size of that map. Every statement of the data base is carried out
    at the moment of the event that makes it; checks of signatures and of the whitelist succeed
    (they are modelled in AuthModel.v and SigModel.v). [global-permits] is off. *)
From stdpp Require Import gmap list.
From Coq Require Import NArith.
From Verif Require Import IdModel DiscModel.

(** Which discovery service is in use: SQLite (embedded.rs) or Redis (redis.rs). *)
Inductive backend := Embedded | Redis.

(** The moment, in seconds; the statements the data base has carried out; each broker's users; the
    logins under way, with the broker that was settled on and for which a permit is to be issued; and,
    as a record for the theorems only, the brokers settled on so far. *)
Record world := World {
  w_now : N;
  w_hist : list dop;
  w_users : gmap bid (gset bytes);
  w_pend : gmap N bid;
  w_sent : list bid;
}.
Definition world_new : world := World 0 [] ∅ ∅ [].
Definition users_at (w : world) (b : bid) : gset bytes := default ∅ (w_users w !! b).

Inductive wev :=
  | WTick (d : N)                       (* time passes *)
  | WChoose (h : N)                     (* a marshal looks for a broker for the user of connection [h] *)
  | WIssue (h : N) (key : bytes) (permit : N)  (* it issues a permit for it; the number drawn *)
  | WPresent (b : bid) (permit : N)     (* a user presents a permit to a broker *)
  | WBeat (b : bid)                     (* a broker's heartbeat *)
  | WLeave (b : bid) (key : bytes).     (* a broker loses a user *)

(** What [get_with_least_connections] answers: embedded.rs 134-190, redis.rs 122-172. *)
Definition choice (be : backend) (hist : list dop) (now : N) : option bid :=
  match be with
  | Embedded => (e_least (e_run false hist) now).2
  | Redis => r_least (r_run false hist) now
  end.

(** Whether [issue_permit] succeeds: embedded.rs 231-278, redis.rs 207-240. *)
Definition issues (be : backend) (hist : list dop) (now : N) (b : bid) (permit : N) (key : bytes) : bool :=
  match be with
  | Embedded => (e_issue false (e_run false hist) now b permit 30 key).2
  | Redis => true
  end.

(** What [validate_permit] answers: embedded.rs 284-319, redis.rs 246-265. *)
Definition validates (be : backend) (hist : list dop) (now : N) (b : bid) (permit : N) : option bytes :=
  match be with
  | Embedded => e_answer false hist (DTake now b permit)
  | Redis => r_answer false hist (DTake now b permit)
  end.

(** /repo/cdn-proto/src/connection/auth/marshal.rs 105-117: find the broker, which also tidies the
    tables up (embedded.rs 135-150). Any number of marshals, and of users at each, may do so at the
    same time. *)
Definition choose (be : backend) (w : world) (h : N) : world :=
  match w_pend w !! h with
  | Some _ => w
  | None =>
      let now := w_now w in
      let tidy := w_hist w ++ [DPruneBrokers now; DPrune now] in
      match choice be (w_hist w) now with
      | Some b => World now tidy (w_users w) (<[h := b]> (w_pend w)) (w_sent w ++ [b])
      | None => World now tidy (w_users w) (w_pend w) (w_sent w)
      end
  end.

(** marshal.rs 119-148: issue a permit for that broker that is good for 30 s; the user is told
    both, or that it is refused if that fails. *)
Definition issue (be : backend) (w : world) (h : N) (key : bytes) (permit : N) : world :=
  match w_pend w !! h with
  | Some b =>
      let now := w_now w in
      World now (if issues be (w_hist w) now b permit key then w_hist w ++ [DIssue now b permit 30 key] else w_hist w)
        (w_users w) (delete h (w_pend w)) (w_sent w)
  | None => w
  end.

(** /repo/cdn-proto/src/connection/auth/broker.rs 94-129, then
    /repo/cdn-broker/src/connections/mod.rs 278-312 ([add_user]): a good permit makes its key one
    of the broker's users, once. *)
Definition present (be : backend) (w : world) (b : bid) (permit : N) : world :=
  let now := w_now w in
  let hist := w_hist w ++ [DPrune now] in
  World now (hist ++ [DTake now b permit])
    (match validates be hist now b permit with
     | Some key => <[b := {[ key ]} ∪ users_at w b]> (w_users w)
     | None => w_users w
     end) (w_pend w) (w_sent w).

(** /repo/cdn-broker/src/tasks/broker/heartbeat.rs 33-40: the number of users, for 60 s. *)
Definition beat (w : world) (b : bid) : world :=
  World (w_now w) (w_hist w ++ [DHeartbeat (w_now w) (w_now w) b (N.of_nat (size (users_at w b))) 60]) (w_users w) (w_pend w) (w_sent w).

(** /repo/cdn-broker/src/connections/mod.rs 330-352 ([remove_user]). *)
Definition leave (w : world) (b : bid) (key : bytes) : world :=
  World (w_now w) (w_hist w) (<[b := users_at w b ∖ {[ key ]}]> (w_users w)) (w_pend w) (w_sent w).

Definition w_step (be : backend) (w : world) (e : wev) : world :=
  match e with
  | WTick d => World (w_now w + d) (w_hist w) (w_users w) (w_pend w) (w_sent w)
  | WChoose h => choose be w h
  | WIssue h key permit => issue be w h key permit
  | WPresent b permit => present be w b permit
  | WBeat b => beat w b
  | WLeave b key => leave w b key
  end.
Definition w_run (be : backend) (es : list wev) : world := fold_left (w_step be) es world_new.
