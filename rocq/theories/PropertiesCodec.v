(** Properties of the message encoding (C45, C46). *)
From stdpp Require Import list.
From Coq Require Import NArith Lia.
From Verif Require Import IdModel MsgModel AuthModel WireModel WireSpec WireProofs CodecModel CodecSafe CodecRound CodecMsg
  Utf8Spec Utf8Proofs PropertiesWire.
Local Open Scope N_scope.

(** * C45 *)

(** Decoding what encoding gives returns the message: for every kind of message, numbers of 64
    bits and contexts that are the UTF-8 bytes of a string of Unicode characters (which Rust's types
    guarantee), and contents of any length that can be encoded at all. *)
Theorem C45_round_trip : forall m bs,
  match m with
  | MAuthWithKey ts _ _ => ts < 2 ^ 64
  | MAuthWithPermit p => p < 2 ^ 64
  | MAuthResponse p c => p < 2 ^ 64 /\ is_text c
  | _ => True
  end ->
  encode m = Some bs -> decode bs = Some m.
Proof. intros m bs Hv He. apply real_valid in Hv. exact (proj1 (encode_decode m bs Hv He)). Qed.
Print Assumptions C45_round_trip.

Definition some_context : bytes := [226; 130; 172; 33].   (* two characters, "€!" *)
Lemma some_context_text : is_text some_context.
Proof. exists [0x20AC; 0x21]. split; [repeat constructor|vm_compute; reflexivity]. Qed.
Example C45_round_trip_case :
  exists bs, encode (MAuthResponse 12 some_context) = Some bs /\ is_text some_context /\ decode bs = Some (MAuthResponse 12 some_context).
Proof. eexists. split; [vm_compute; reflexivity|]. split; [exact some_context_text|vm_compute; reflexivity]. Qed.
(** Three segments: the lists do not fit into the first one. *)
Example C45_segments_case :
  let m := MDirect (replicate 9000 1) (replicate 17000 2) in
  (length <$> ((fun a => ar_segs a) <$> build m)) = Some 3%nat /\ (encode m ≫= decode) = Some m.
Proof. split; vm_compute; reflexivity. Qed.
(** The decoder accepts exactly the bytes of strings as a context: all of them, and nothing else. *)
Theorem C45_context_is_text : forall p c bs,
  p < 2 ^ 64 -> encode (MAuthResponse p c) = Some bs -> octets c ->
  (is_text c <-> decode bs = Some (MAuthResponse p c)).
Proof.
  intros p c bs Hp He Hc. split.
  - intros Ht. by apply (C45_round_trip (MAuthResponse p c)).
  - intros Hd. apply decode_real in Hd as [[_ Ht] _]; [done|].
    apply encode_build in He as (a & Hb & ->). apply octets_flatten.
    unfold asegs. apply Forall_fmap. exact (build_octets (MAuthResponse p c) a Hc Hb).
Qed.
Print Assumptions C45_context_is_text.
(** Rust's [String] is needed: other contexts do not come back. *)
Example C45_not_utf8_case : (encode (MAuthResponse 12 [255]) ≫= decode) = None /\ is_Some (encode (MAuthResponse 12 [255])).
Proof. split; [vm_compute; reflexivity|]. eexists. vm_compute. reflexivity. Qed.

(** Encoding fails (the code panics) exactly for lists of 2^29 elements or more, a string
    counting one more. *)
Theorem C45_encodes_iff : forall m,
  (exists bs, encode m = Some bs) <->
  match m with
  | MAuthWithKey _ k s => blen k < 2 ^ 29 /\ blen s < 2 ^ 29
  | MAuthWithPermit _ => True
  | MAuthResponse _ c => blen c + 1 < 2 ^ 29
  | MDirect r b => blen r < 2 ^ 29 /\ blen b < 2 ^ 29
  | MBroadcast t b => blen t < 2 ^ 29 /\ blen b < 2 ^ 29
  | MSubscribe t | MUnsubscribe t => blen t < 2 ^ 29
  | MUserSync p | MTopicSync p => blen p < 2 ^ 29
  end.
Proof.
  intros m. change (match m with MAuthWithKey _ k s => _ | _ => _ end) with (fits m). rewrite <- build_some. split.
  - intros (bs & H). apply encode_build in H as (a & H & _). by eexists.
  - intros (a & H). eexists. apply encode_build. eexists. split; [exact H|reflexivity].
Qed.
Print Assumptions C45_encodes_iff.

Example C45_encodes_case : exists bs, encode (MBroadcast [0; 1] [9]) = Some bs.
Proof. apply C45_encodes_iff. split; vm_compute; reflexivity. Qed.

(** Two different messages have different encodings. *)
Theorem C45_encoding_injective : forall m1 m2 bs,
  real_msg m1 -> real_msg m2 -> encode m1 = Some bs -> encode m2 = Some bs -> m1 = m2.
Proof.
  intros m1 m2 bs V1%real_valid V2%real_valid E1 E2. apply encode_decode in E1 as [D1 _]; [|done]. apply encode_decode in E2 as [D2 _]; [|done].
  rewrite D1 in D2. by injection D2.
Qed.
Print Assumptions C45_encoding_injective.

Example C45_injective_case :
  real_msg (MSubscribe [1]) /\ real_msg (MUnsubscribe [1]) /\ encode (MSubscribe [1]) <> encode (MUnsubscribe [1]).
Proof. split_and!; [exact I|exact I|]. intros H. vm_compute in H. discriminate H. Qed.

(** The encoding is at most 104 bytes longer than the contents, and consists of bytes. *)
Theorem C45_encoding_size : forall m bs,
  real_msg m -> encode m = Some bs -> blen bs <= msg_size m + 104.
Proof. intros m bs Hv%real_valid He. exact (proj2 (encode_decode m bs Hv He)). Qed.
Print Assumptions C45_encoding_size.

Theorem C45_encoding_octets : forall m bs,
  octets_in m -> encode m = Some bs -> Forall (fun b => b < 256) bs.
Proof.
  intros m bs Hm He. apply encode_build in He as (a & Hb & ->). apply octets_flatten.
  unfold asegs. apply Forall_fmap. exact (build_octets m a Hm Hb).
Qed.
Print Assumptions C45_encoding_octets.

Example C45_size_case : exists bs, encode (MBroadcast [0; 1] [9; 200]) = Some bs /\ blen bs = 64 /\ Forall (fun b => b < 256) bs.
Proof. eexists. split; [vm_compute; reflexivity|]. split; [vm_compute; reflexivity|]. repeat constructor. Qed.

(** Messages whose contents stay 104 bytes below the frame limit survive encoding, framing,
    reading back and decoding, in order. *)
Theorem C45_through_a_stream : forall ms,
  Forall (fun m => real_msg m /\ msg_size m + 104 <= size_limit) ms ->
  exists bss, mapM encode ms = Some bss /\ mapM decode (read_stream (stream_of bss)).2 = Some ms.
Proof.
  intros ms H. assert (exists bss, Forall2 (fun m bs => encode m = Some bs) ms bss) as (bss & Hb).
  { induction H as [|m ms [Hv Hs] H IH]; [by exists []|]. destruct IH as (bss & IH).
    destruct (proj2 (C45_encodes_iff m)) as (bs & He); [|by exists (bs :: bss); constructor].
    change size_limit with 536870911 in Hs. change (2 ^ 29) with 536870912. destruct m; cbn [msg_size] in Hs; repeat split; lia. }
  exists bss. split; [by apply mapM_Some|]. rewrite C39_framing_lossless.
  - apply mapM_Some. induction Hb as [|m bs ms bss He Hb IH]; [constructor|]. inversion H as [|? ? [Hv Hs] H']; subst.
    apply real_valid in Hv. constructor; [|by apply IH]. by apply encode_decode.
  - induction Hb as [|m bs ms bss He Hb IH]; [constructor|]. inversion H as [|? ? [Hv Hs] H']; subst.
    apply real_valid in Hv. constructor; [|by apply IH]. apply encode_decode in He as [_ Hl]; [|done]. lia.
Qed.
Print Assumptions C45_through_a_stream.

Example C45_stream_case :
  Forall (fun m => real_msg m /\ msg_size m + 104 <= size_limit) [MSubscribe [0]; MDirect [1; 2] [3]; MAuthWithPermit 7].
Proof. repeat constructor; vm_compute; discriminate. Qed.

(** * C46 *)

(** For any bytes: decoding ends in a message or an error, every read is within the input (a read outside
    it is a [Fault] in the model), at most 120 + 2n bytes of the input are read counting repetitions, and a decoded message holds
    at most 2n bytes. *)
Theorem C46_decoding_is_safe : forall l : bytes,
  (decode_run l).1 <> Fault
  /\ (decode_run l).2.2 <= 120 + 2 * blen l
  /\ (forall m, decode l = Some m -> msg_size m <= 2 * blen l).
Proof.
  intros l. destruct (decode_run_spec l) as (H1 & H2 & H3). split_and!; [done|done|]. intros m. unfold decode.
  destruct (decode_run l).1 as [m'| |] eqn:E; [|done|done]. intros [= <-]. by apply H3.
Qed.
Print Assumptions C46_decoding_is_safe.

(** The memory taken for the segments before they are read is at most eight times the input. *)
Theorem C46_memory_bounded : forall l : bytes, (read_message l).1 <= 8 * blen l.
Proof. exact read_message_memory. Qed.
Print Assumptions C46_memory_bounded.

(** A hostile input: one segment, whose root pointer points outside of it. *)
Example C46_hostile_case : decode (le4 0 ++ le4 1 ++ le8 (mk_struct 5 1 1)) = None.
Proof. vm_compute. reflexivity. Qed.
(** Two pointers to the same bytes: a message larger than its encoding, within the bound. *)
Example C46_shared_case :
  let l := le4 0 ++ le4 8 ++ le8 (mk_struct 0 1 1) ++ le8 3 ++ le8 (mk_struct 0 0 2)
             ++ le8 (mk_list 1 2 24) ++ le8 (mk_list 0 2 24) ++ replicate 24 7 in
  decode l = Some (MDirect (replicate 24 7) (replicate 24 7)).
Proof. vm_compute. reflexivity. Qed.
(** The factor of eight is taken: 80 bytes announcing 80 words. *)
Example C46_memory_case :
  let l := le4 0 ++ le4 80 ++ zeros 72 in (read_message l).1 = 8 * blen l /\ decode l = None.
Proof. split; vm_compute; reflexivity. Qed.

(** Whatever bytes arrive, a decoded message is a value the code's types can hold: numbers of 64 bits,
    bytes, and a context that is a string (so a [String] made from it is well-formed). *)
Theorem C46_decoded_is_real : forall l m,
  Forall (fun b => b < 256) l -> decode l = Some m -> real_msg m /\ octets_in m.
Proof. exact decode_real. Qed.
Print Assumptions C46_decoded_is_real.

Example C46_decoded_real_case : exists l, Forall (fun b => b < 256) l /\ decode l = Some (MAuthResponse 12 some_context).
Proof.
  destruct (encode (MAuthResponse 12 some_context)) as [l|] eqn:E; [|vm_compute in E; discriminate].
  exists l. split.
  - apply (C45_encoding_octets _ _) in E; [done|]. repeat constructor.
  - apply C45_round_trip; [split; [reflexivity|exact some_context_text]|done].
Qed.
