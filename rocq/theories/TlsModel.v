(** Model of the choice of certificates: what servers present and what clients accept. Definitions only.

    /repo/cdn-proto/src/crypto/tls.rs 47-155; its callers in /repo/cdn-broker/src/lib.rs 183-187, /repo/cdn-marshal/src/lib.rs and the [connect] of
    tcp_tls.rs and quic.rs; /repo/cdn-proto/src/crypto/rng.rs.

    Simplified: names, keys and file contents are arbitrary values; a certificate of an authority carries its name and public key; parsing succeeds or not as
    a given function says. [rustls] accepts a certificate if its issuer is a trusted authority, the signature verifies under the authority's key, and its
    name is the one asked for; expiry is left out. *)
From stdpp Require Import list.
From Coq Require Import NArith.
Local Open Scope N_scope.

Record authority := Authority { a_name : N; a_pub : N }.
Record cert := Cert { c_issuer : N; c_signed_by : N; c_san : N; c_is_ca : bool; c_pub : N }.

Section tls.
(** The public part of a private key. *)
Variable pub : N -> N.
(** Reading a file (nothing: it cannot be read). *)
Variable read : N -> option N.
(** Parsing the contents of files: a certificate, a private key. *)
Variable parse_cert : N -> option authority.
Variable parse_key : N -> option N.
(** The contents of the test authority, which are part of the source, and of the production authority's certificate (25-45). *)
Variable local_cert local_key prod_cert : N.

(** The name "espresso" (64, and tcp_tls.rs 93, quic.rs 87). *)
Definition espresso : N := 0.

(** 100-126 *)
Definition load_ca (cert_path key_path : option N) : option (N * N) :=
  match cert_path, key_path with
  | Some c, Some k =>
      match read c, read k with
      | Some c', Some k' => Some (c', k')
      | _, _ => None
      end
  | _, _ => Some (local_cert, local_key)
  end.

(** 52-91: a certificate in the authority's name, for the authority's key, signed with it. *)
Definition generate_cert (ca_cert ca_key : N) : option (cert * N) :=
  match parse_cert ca_cert, parse_key ca_key with
  | Some a, Some k => Some (Cert (a_name a) k espresso false (pub k), k)
  | _, _ => None
  end.

(** What a broker or marshal presents; nothing: it does not start. *)
Definition server_cert (cert_path key_path : option N) : option (cert * N) :=
  match load_ca cert_path key_path with Some (c, k) => generate_cert c k | None => None end.

(** 134-155 *)
Definition root_store (use_local : bool) : option authority := parse_cert (if use_local then local_cert else prod_cert).

(** What a client that dials [endpoint] accepts: tcp_tls.rs 80-97, quic.rs 70-90. The endpoint is not looked at. *)
Definition accepts (use_local : bool) (endpoint : N) (c : cert) : bool :=
  match root_store use_local with
  | Some a => (c_issuer c =? a_name a) && (pub (c_signed_by c) =? a_pub a) && (c_san c =? espresso) && negb (c_is_ca c)
  | None => false
  end.
End tls.

(** rng.rs 15-42: the generator is its seed; [fill_bytes] shifts it out, the least byte first; [next_u64] and [next_u32] leave it as it is. *)
Definition rng_u64 (s : N) : N * N := (s, s).
Definition rng_u32 (s : N) : N * N := (s mod 2 ^ 32, s).
Fixpoint rng_fill (n : nat) (s : N) : list N * N :=
  match n with
  | O => ([], s)
  | S n => let '(l, s') := rng_fill n (s / 256) in (s mod 256 :: l, s')
  end.
