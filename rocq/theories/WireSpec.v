(** Vocabulary for stating what is seen on a connection: everything is read off the list of
    outputs of a run. *)
From stdpp Require Import list.
From Coq Require Import NArith.
From Verif Require Import IdModel WireModel.

(** The messages accepted by [send], the messages returned by [recv]. *)
Definition sends (o : list out) : list bytes :=
  omap (fun x => match x with OSendOk m => Some m | _ => None end) o.
Definition recvs (o : list out) : list bytes :=
  omap (fun x => match x with ORecv m => Some m | _ => None end) o.
(** The soft closes that entered the queue. *)
Definition soft_starts (o : list out) : list nat :=
  omap (fun x => match x with OSoftStart k => Some k | _ => None end) o.
(** All bytes passed to the transport, all bytes read from it, all allocations asked for. *)
Definition passed (o : list out) : bytes :=
  flat_map (fun x => match x with OPassed l => l | _ => [] end) o.
Definition reads (o : list out) : bytes :=
  flat_map (fun x => match x with ORead l => l | _ => [] end) o.
Definition allocs (o : list out) : list N :=
  omap (fun x => match x with OAlloc n => Some n | _ => None end) o.

(** The stream carrying these messages: for each, four bytes of big-endian length and the
    message. *)
Definition stream_of (ms : list bytes) : bytes :=
  flat_map (fun m => let n := blen m in
    [n / 16777216; n / 65536 mod 256; n / 256 mod 256; n mod 256]%N ++ m) ms.

(** The limit of the protocol. *)
Definition size_limit : N := 536870911.
