(** Specification vocabulary: what a session published, and what a reader got from it. *)
From stdpp Require Import list.
From Coq Require Import NArith.
From Verif Require Import IdModel MsgModel TaskModel NetModel CodecModel.

(** The frames written by the session whose receive loop at broker [a] is [h], in order. *)
Definition published (es : list nevent) (a : bid) (h : N) : list bytes :=
  omap (fun e => match e with NPublish a' h' raw _ => if decide (a' = a /\ h' = h) then Some raw else None | _ => None end) es.
(** The messages in them. *)
Definition messages (l : list bytes) : list message := omap decode l.
(** The messages in [ms] whose source, as listed in [src], is the session [s]. *)
Definition from_session (src : list (bid * N)) (ms : list message) (s : bid * N) : list message :=
  map snd (filter (fun x => x.1 = s) (zip src ms)).
(** There has never been more than one link from [a] to [b]. *)
Definition linked_once (n : net) (a b : bid) : Prop :=
  forall c1 h1 c2 h2, n_links n !! (a, c1) = Some (b, h1) -> n_links n !! (a, c2) = Some (b, h2) -> c1 = c2.
(** The frames a broker has read from the connection of its receive loop [h] between two moments, in order. *)
Definition accepted (m m' : machine) (h : N) : list bytes :=
  let read := fun m => filter (fun r => r_task r = h) (m_rcvd m) in map r_raw (drop (length (read m)) (read m')).
