(** The byte counters, /repo/cdn-proto/src/connection/metrics.rs 14-22 ([BYTES_SENT], [BYTES_RECV]),
    of processes joined by any number of connections (WireModel.v). Definitions only.

    A counter is an IEEE double that only whole numbers are added to
    (/repo/cdn-proto/src/connection/protocols/mod.rs 345-348 and 388-391), so its value is a whole
    number; adding rounds to 53 significant bits, ties to even. Additions are atomic (prometheus
    repeats them until no other one came between). Registration of the counters succeeds. *)
From stdpp Require Import gmap list.
From Coq Require Import NArith.
From Verif Require Import IdModel WireModel.

(** The double nearest to a whole number. *)
Definition f64_round (n : N) : N :=
  if (N.size n <=? 53)%N then n
  else
    let s := (N.size n - 53)%N in
    let q := (n / 2 ^ s)%N in
    let r := (n mod 2 ^ s)%N in
    let half := (2 ^ (s - 1))%N in
    ((if (half <? r) || ((half =? r) && N.odd q) then q + 1 else q) * 2 ^ s)%N.
Definition f64_add (x y : N) : N := f64_round (x + y).

(** One direction of a connection between two processes: who sends, who receives; the length held
    by the [write_length_delimited] under way (mod.rs 359-363, the variable [message_len]). *)
Record line := Line { l_from : N; l_to : N; l_conn : conn; l_len : N }.

(** All of them, and the two counters of each process. *)
Record fleet := Fleet { f_lines : list line; f_sent : gmap N N; f_recv : gmap N N }.
Definition gauge (g : gmap N N) (p : N) : N := default 0%N (g !! p).
Definition gauge_add (g : gmap N N) (p x : N) : gmap N N := <[p := f64_add (gauge g p) x]> g.

Definition fleet_new (ls : list (N * N * option nat)) : fleet :=
  Fleet (map (fun x => Line x.1.1 x.1.2 (conn_new x.2) 0) ls) ∅ ∅.

(** mod.rs 359-363: the length is taken when the writing of a message starts. *)
Definition len_after (c : conn) (len : N) (e : event) : N :=
  match e, c_sp c, c_sq c with ETake, SIdle, IMsg m :: _ => blen m | _, _, _ => len end.
(** mod.rs 377-391: the last byte of the message was accepted. *)
Definition wrote_one (c c' : conn) (e : event) : bool :=
  match e, c_sp c, c_sp c' with EWrite _, SWrite _, SFlush => true | _, _, _ => false end.
(** mod.rs 333-348: the last byte of the message was read; [message_size] is what is added. *)
Definition read_one (c c' : conn) : option N :=
  match c_rp c, c_rp c' with
  | RBody n _, RPush _ | RWait n, RPush _ => Some n
  | _, _ => None
  end.

(** Something happens on line [i]. *)
Definition f_step (s : fleet) (ie : nat * event) : fleet :=
  match f_lines s !! ie.1 with
  | Some l =>
      let c := l_conn l in
      let c' := (cstep c ie.2).1 in
      Fleet (<[ie.1 := Line (l_from l) (l_to l) c' (len_after c (l_len l) ie.2)]> (f_lines s))
        (if wrote_one c c' ie.2 then gauge_add (f_sent s) (l_from l) (l_len l) else f_sent s)
        (match read_one c c' with Some n => gauge_add (f_recv s) (l_to l) n | None => f_recv s end)
  | None => s
  end.
Definition f_run (ls : list (N * N * option nat)) (es : list (nat * event)) : fleet := fold_left f_step es (fleet_new ls).
