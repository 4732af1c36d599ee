(** Specification vocabulary for the discovery service, on histories. *)
From stdpp Require Import gmap list.
From Coq Require Import NArith.
From Verif Require Import IdModel DiscModel.

(** How many operations of a history were answered with key [k] ([ans]: the answer to an
    operation after a prefix). *)
Fixpoint accepted_from (ans : list dop -> dop -> option bytes) (k : bytes) (pre os : list dop) : nat :=
  match os with
  | [] => 0
  | o :: os' => (if decide (ans pre o = Some k) then 1 else 0) + accepted_from ans k (pre ++ [o]) os'
  end.
Definition accepted ans k os := accepted_from ans k [] os.

(** How many permits were issued for key [k]. *)
Definition issued_op (k : bytes) (o : dop) : bool :=
  match o with DIssue _ _ _ _ k' => bool_decide (k' = k) | _ => false end.
Definition issued (k : bytes) (os : list dop) : nat := length (List.filter (issued_op k) os).

(** The most recent successful heartbeat of the broker printed as [x]: its number of
    connections and the time at which it expires. Newest operation first. *)
Fixpoint last_beat_rev (limit : option N) (os : list dop) (x : bytes) : option (N * N) :=
  match os with
  | [] => None
  | DHeartbeat _ now b n ttl :: os' =>
      if bool_decide (bid_print b = x) && match limit with Some l => (n <? l)%N | None => true end
      then Some (n, (now + ttl)%N) else last_beat_rev limit os' x
  | _ :: os' => last_beat_rev limit os' x
  end.
Definition last_beat limit os x := last_beat_rev limit (rev os) x.

(** The clock readings of a history, in order. *)
Definition op_times (o : dop) : list N :=
  match o with
  | DIssue now _ _ _ _ | DPrune now | DTake now _ _ | DPruneBrokers now => [now]
  | DHeartbeat now1 now2 _ _ _ => [now1; now2]
  | DSetWhitelist _ => []
  end.
Definition times (os : list dop) : list N := concat (map op_times os).

(** Identifiers whose two parts contain no slash, as is the case for host:port endpoints. *)
Definition id_ok (b : bid) : Prop := ~ In slash (bpub b) /\ ~ In slash (bpriv b).
Definition ids_ok (os : list dop) : Prop := forall n1 n2 b n ttl, In (DHeartbeat n1 n2 b n ttl) os -> id_ok b.

(** The permits a broker would accept now. *)
Definition outstanding (global : bool) (os : list dop) (now : N) (x : bytes) (S : gset N) : Prop :=
  forall p b, bid_print b = x -> (p ∈ S <-> is_Some (e_answer global (os ++ [DPrune now]) (DTake now b p))).

(** The broker's last heartbeat, reporting [n] connections, has not expired. SQLite keeps
    a row up to and including its time of expiry, Redis drops a key at that time. *)
Definition e_alive (os : list dop) (now : N) (b : bid) (n : N) : Prop :=
  exists e, last_beat (Some (2 ^ 32)%N) os (bid_print b) = Some (n, e) /\ (now <= e)%N.

Definition r_alive (os : list dop) (now : N) (b : bid) (n : N) : Prop :=
  exists e, last_beat None os (bid_print b) = Some (n, e) /\ (now < e)%N.


(** The whitelist most recently set. *)
Fixpoint last_whitelist_rev (os : list dop) : option (list bytes) :=
  match os with [] => None | DSetWhitelist l :: _ => Some l | _ :: os' => last_whitelist_rev os' end.
Definition last_whitelist os := last_whitelist_rev (rev os).
