(** Model of the two discovery back ends —
    /repo/cdn-proto/src/discovery/embedded.rs (SQLite; schema in
    /repo/cdn-proto/local_db/migrations.sql) and /repo/cdn-proto/src/discovery/redis.rs.
    Definitions only.

    Tables and keys are finite maps; every SQL statement / Redis command (and MULTI
    transaction) is one atomic step; the clock is an explicit argument, in seconds as a
    natural number (the code uses [f64] seconds for SQLite rows). Random permit numbers
    are arguments. Connection failures to the data base are not modelled (they only turn
    answers into errors). [global] is the cargo feature [global-permits] (off by default). *)
From stdpp Require Import gmap list.
From Coq Require Import NArith.
From Verif Require Import IdModel DecModel.

Section disc.
Variable global : bool.

(** * SQLite *)
Record broker_row := BrokerRow { br_conns : N; br_expiry : N }.
Record permit_row := PermitRow { pr_ident : bytes; pr_key : bytes; pr_expiry : N }.
(** migrations.sql: [brokers] has primary key [identifier], [permits] has primary key
    [permit]; the table [whitelist] may not exist. *)
Record edb := Edb {
  e_brokers : gmap bytes broker_row;
  e_permits : gmap N permit_row;
  e_whitelist : option (gset bytes);
}.
Definition edb_new : edb := Edb ∅ ∅ None.

(** embedded.rs 402-421: [prune], on either table. *)
Definition e_prune_brokers (s : edb) (now : N) : edb :=
  Edb (filter (fun kv => (br_expiry kv.2 <? now)%N = false) (e_brokers s)) (e_permits s) (e_whitelist s).
Definition e_prune_permits (s : edb) (now : N) : edb :=
  Edb (e_brokers s) (filter (fun kv => (pr_expiry kv.2 <? now)%N = false) (e_permits s)) (e_whitelist s).

(** embedded.rs 89-127: [perform_heartbeat] (clock readings [now1], [now2]); [false] when the
    number of connections does not fit in 32 bits. *)
Definition e_heartbeat (s : edb) (now1 now2 : N) (id : bid) (n ttl : N) : edb * bool :=
  let s := e_prune_brokers s now1 in
  if (n <? 2 ^ 32)%N
  then (Edb (<[bid_print id := BrokerRow n (now2 + ttl)]> (e_brokers s)) (e_permits s) (e_whitelist s), true)
  else (s, false).

(** One round of the search for the least loaded broker, embedded.rs 182-185, redis.rs
    163-166: strictly smaller totals win. *)
Definition least_step (acc : N * bytes) (x : bytes * N) : N * bytes :=
  if (x.2 <? acc.1)%N then (x.2, x.1) else acc.
(** embedded.rs 152-189; redis.rs 139-171. [u64::MAX] and the empty string to start with. *)
Definition least (l : list (bytes * N)) : option bid :=
  bid_parse (fold_left least_step l (2 ^ 64 - 1, [])%N).2.

(** embedded.rs 164-175: [COUNT(permit) ... WHERE identifier = ?]. *)
Definition e_count_permits (s : edb) (ident : bytes) : N :=
  N.of_nat (size (filter (fun kv : N * permit_row => pr_ident kv.2 = ident) (e_permits s))).

(** embedded.rs 134-190: [get_with_least_connections], run without interruption at one
    moment ([now]). *)
Definition e_least (s : edb) (now : N) : edb * option bid :=
  let s := e_prune_permits (e_prune_brokers s now) now in
  (s, least (map (fun kv => (kv.1, br_conns kv.2 + e_count_permits s kv.1)%N) (map_to_list (e_brokers s)))).

(** Parse every element; [None] (a panic in embedded.rs 216-218, an error in redis.rs 193-196) if one fails. *)
Fixpoint parse_all (l : list bytes) : option (list bid) :=
  match l with
  | [] => Some []
  | x :: l' =>
      match bid_parse x, parse_all l' with
      | Some b, Some r => Some (b :: r)
      | _, _ => None
      end
  end.

(** embedded.rs 196-225: [get_other_brokers]. *)
Definition e_other_brokers (s : edb) (now : N) (self : bid) : edb * option (gset bid) :=
  let s := e_prune_brokers s now in
  (s, (fun l => list_to_set l ∖ {[ self ]}) <$> parse_all (map fst (map_to_list (e_brokers s)))).

(** embedded.rs 231-278: [issue_permit]; the primary key makes the insertion fail if the
    number is taken. *)
Definition e_issue (s : edb) (now : N) (b : bid) (permit ttl : N) (key : bytes) : edb * bool :=
  match e_permits s !! permit with
  | Some _ => (s, false)
  | None =>
      (Edb (e_brokers s) (<[permit := PermitRow (if global then [] else bid_print b) key (now + ttl)]> (e_permits s)) (e_whitelist s), true)
  end.

(** embedded.rs 296-319: the second part of [validate_permit] (after [prune]): conversion to 32 bits
    and [DELETE ... RETURNING]. *)
Definition e_take (s : edb) (b : bid) (permit : N) : edb * option bytes :=
  if (permit <? 2 ^ 32)%N then
    match e_permits s !! permit with
    | Some r =>
        if decide (global = true \/ pr_ident r = bid_print b)
        then (Edb (e_brokers s) (delete permit (e_permits s)) (e_whitelist s), Some (pr_key r))
        else (s, None)
    | None => (s, None)
    end
  else (s, None).

(** embedded.rs 325-354: [set_whitelist]. The three statements are executed one after the
    other. Inserting nothing is a syntax error and repeating a key violates the primary
    key; both leave the freshly created table empty. *)
Definition e_set_whitelist (s : edb) (users : list bytes) : edb * bool :=
  if decide (users = [] \/ ~ NoDup users)
  then (Edb (e_brokers s) (e_permits s) (Some ∅), false)
  else (Edb (e_brokers s) (e_permits s) (Some (list_to_set users)), true).

(** embedded.rs 360-395: [check_whitelist]. *)
Definition e_check_whitelist (s : edb) (key : bytes) : bool :=
  match e_whitelist s with None => true | Some w => bool_decide (key ∈ w) end.

(** * Redis *)
(** String keys with value and time of expiry; the set [brokers] with per-member expiry
    (KeyDB's EXPIREMEMBER); the set [whitelist] (an empty set does not exist). *)
Record rdb := Rdb {
  r_keys : gmap bytes (bytes * N);
  r_brokers : gmap bytes N;
  r_whitelist : gset bytes;
}.
Definition rdb_new : rdb := Rdb ∅ ∅ ∅.

(** ASCII of "/num_connections", "/permits/" and "permits/". *)
Definition s_num_connections : bytes := [47;110;117;109;95;99;111;110;110;101;99;116;105;111;110;115]%N.
Definition s_permits : bytes := [47;112;101;114;109;105;116;115;47]%N.
Definition s_global_permits : bytes := [112;101;114;109;105;116;115;47]%N.

(** redis.rs 103: the key of the number of connections. *)
Definition conns_key (ident : bytes) : bytes := ident ++ s_num_connections.
(** redis.rs 218-226, 253-258: the key of a permit. *)
Definition permit_key (b : bid) (permit : N) : bytes :=
  if global then s_global_permits ++ dec permit else bid_print b ++ s_permits ++ dec permit.

(** A key is there until it expires. *)
Definition r_get (s : rdb) (now : N) (k : bytes) : option bytes :=
  match r_keys s !! k with
  | Some (v, exp) => if (now <? exp)%N then Some v else None
  | None => None
  end.
(** SMEMBERS brokers. *)
Definition r_members (s : rdb) (now : N) : list bytes :=
  map fst (filter (fun kv => (now <? kv.2)%N = true) (map_to_list (r_brokers s))).

(** redis.rs 81-116: [perform_heartbeat], one transaction. *)
Definition r_heartbeat (s : rdb) (now : N) (id : bid) (n ttl : N) : rdb :=
  Rdb (<[conns_key (bid_print id) := (dec n, (now + ttl)%N)]> (r_keys s))
      (<[bid_print id := (now + ttl)%N]> (r_brokers s)) (r_whitelist s).

(** redis.rs 141-162: the totals; GET of a missing key is an error. SCARD counts the members of
    the SET called "<broker>/permits", which nothing ever creates: always 0. *)
Fixpoint r_totals (s : rdb) (now : N) (l : list bytes) : option (list (bytes * N)) :=
  match l with
  | [] => Some []
  | x :: l' =>
      match r_get s now (conns_key x) with
      | Some v =>
          match undec v, r_totals s now l' with
          | Some n, Some r => Some ((x, n + 0)%N :: r)
          | _, _ => None
          end
      | None => None
      end
  end.
(** redis.rs 122-172: [get_with_least_connections], at one moment. *)
Definition r_least (s : rdb) (now : N) : option bid :=
  match r_members s now with
  | [] => None
  | l => match r_totals s now l with Some t => least t | None => None end
  end.

(** redis.rs 178-201: [get_other_brokers]. *)
Definition r_other_brokers (s : rdb) (now : N) (self : bid) : option (gset bid) :=
  list_to_set <$> parse_all (filter (fun x => x <> bid_print self) (r_members s now)).

(** redis.rs 207-240: [issue_permit]; SET overwrites. *)
Definition r_issue (s : rdb) (now : N) (b : bid) (permit ttl : N) (key : bytes) : rdb :=
  Rdb (<[permit_key b permit := (key, (now + ttl)%N)]> (r_keys s)) (r_brokers s) (r_whitelist s).

(** redis.rs 246-265: [validate_permit]: GETDEL. *)
Definition r_take (s : rdb) (now : N) (b : bid) (permit : N) : rdb * option bytes :=
  (Rdb (delete (permit_key b permit) (r_keys s)) (r_brokers s) (r_whitelist s), r_get s now (permit_key b permit)).

(** redis.rs 271-297: [set_whitelist], one transaction. *)
Definition r_set_whitelist (s : rdb) (users : list bytes) : rdb :=
  Rdb (r_keys s) (r_brokers s) (list_to_set users).
(** redis.rs 303-326: [check_whitelist]: SCARD, then SISMEMBER. *)
Definition r_check_whitelist (s : rdb) (key : bytes) : bool :=
  if decide (r_whitelist s = ∅) then true else bool_decide (key ∈ r_whitelist s).

(** * Histories: statements of any number of clients in any order *)
Inductive dop :=
  (* issue_permit *)
  | DIssue (now : N) (b : bid) (permit ttl : N) (key : bytes)
  (* embedded: the clean-up preceding a validation (or made by the marshal) *)
  | DPrune (now : N)
  (* validation of a permit; the clock matters to Redis only *)
  | DTake (now : N) (b : bid) (permit : N)
  (* heartbeat *)
  | DHeartbeat (now1 now2 : N) (b : bid) (n ttl : N)
  (* other statements of embedded.rs *)
  | DPruneBrokers (now : N)
  | DSetWhitelist (users : list bytes).

(** The answer of a step: the key of an accepted permit. *)
Definition e_step (s : edb) (o : dop) : edb * option bytes :=
  match o with
  | DIssue now b p ttl key => ((e_issue s now b p ttl key).1, None)
  | DPrune now => (e_prune_permits s now, None)
  | DTake _ b p => e_take s b p
  | DHeartbeat now1 now2 b n ttl => ((e_heartbeat s now1 now2 b n ttl).1, None)
  | DPruneBrokers now => (e_prune_brokers s now, None)
  | DSetWhitelist l => ((e_set_whitelist s l).1, None)
  end.
Definition r_step (s : rdb) (o : dop) : rdb * option bytes :=
  match o with
  | DIssue now b p ttl key => (r_issue s now b p ttl key, None)
  | DPrune _ | DPruneBrokers _ => (s, None)
  | DTake now b p => r_take s now b p
  | DHeartbeat _ now2 b n ttl => (r_heartbeat s now2 b n ttl, None)
  | DSetWhitelist l => (r_set_whitelist s l, None)
  end.
Definition e_run (os : list dop) : edb := fold_left (fun s o => (e_step s o).1) os edb_new.
Definition r_run (os : list dop) : rdb := fold_left (fun s o => (r_step s o).1) os rdb_new.
(** The answer to operation [o] after history [os]. *)
Definition e_answer (os : list dop) (o : dop) : option bytes := (e_step (e_run os) o).2.
Definition r_answer (os : list dop) (o : dop) : option bytes := (r_step (r_run os) o).2.
End disc.
