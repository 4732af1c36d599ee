(** Lemmas on the network with the real encoding. *)
From stdpp Require Import list.
From Coq Require Import NArith Lia.
From Verif Require Import IdModel VMapModel ConnModel MsgModel RouteModel TaskModel NetModel NetOrigin NetSettle WireModel WireSpec
  CodecModel CodecSafe CodecRound CodecMsg PropertiesWire PropertiesCodec EndModel.

(** The contract of rkyv: maps become byte strings and come back. *)
Definition archived {K V C} `{countable.Countable K} (pack : vmap K V C -> bytes) (unpack : bytes -> option (vmap K V C)) : Prop :=
  forall d, octets (pack d) /\ exists d', unpack (pack d) = Some d' /\ entries d' = entries d /\ cid d' = cid d.

Section end_to_end.
Context (pack_users : direct_map -> bytes) (pack_topics : topic_map -> bytes).
Context (dec_users : bytes -> option direct_map) (dec_topics : bytes -> option topic_map).
Notation enc_users := (net_enc_users pack_users).
Notation enc_topics := (net_enc_topics pack_topics).

Lemma net_decode_octets l : octets l -> net_decode l = decode l.
Proof.
  intros H. unfold net_decode. destruct l as [|x [|t l]]; [done|done|]. inversion H as [|? ? Hx _]; subst.
  destruct (N.eqb_spec x 256) as [->|Hne]; [lia|done].
Qed.
Lemma net_decode_encode m bs : valid_msg m -> octets_in m -> encode m = Some bs -> net_decode bs = Some m.
Proof.
  intros Hv Ho He. rewrite net_decode_octets by (by apply (C45_encoding_octets m bs)). by apply encode_decode.
Qed.
Lemma net_faithful : archived pack_users dec_users -> archived pack_topics dec_topics ->
  faithful_sync net_decode dec_users dec_topics enc_users enc_topics.
Proof.
  intros Hu Ht. split; intros d.
  - destruct (Hu d) as (Ho & d' & Hd & He & Hc). exists (pack_users d), d'. split; [|done]. unfold net_enc_users.
    destruct (encode (MUserSync (pack_users d))) as [bs|] eqn:E; cbn [default from_option]; [|done]. by apply net_decode_encode.
  - destruct (Ht d) as (Ho & d' & Hd & He & Hc). exists (pack_topics d), d'. split; [|done]. unfold net_enc_topics.
    destruct (encode (MTopicSync (pack_topics d))) as [bs|] eqn:E; cbn [default from_option]; [|done]. by apply net_decode_encode.
Qed.
Lemma faithful_codec : archived pack_users dec_users -> archived pack_topics dec_topics -> sync_codec net_decode enc_users enc_topics.
Proof.
  intros Hu Ht. destruct (net_faithful Hu Ht) as [H1 H2].
  split; intros d; [destruct (H1 d) as (p & _ & H & _)|destruct (H2 d) as (p & _ & H & _)]; by exists p.
Qed.
Lemma small_encodes m : valid_msg m -> (msg_size m + 104 <= size_limit)%N -> exists bs, encode m = Some bs /\ decode bs = Some m /\ (blen bs <= size_limit)%N.
Proof.
  intros Hv Hs. destruct (proj2 (C45_encodes_iff m)) as (bs & He).
  { change size_limit with 536870911%N in Hs. change (2 ^ 29)%N with 536870912%N. destruct m; cbn [msg_size] in Hs; repeat split; lia. }
  exists bs. split; [done|]. destruct (encode_decode m bs Hv He) as [Hd Hl]. split; [done|]. lia.
Qed.
Lemma reads_one l x raw m : l = [x] -> e_frame (s_what x) = FRelay raw -> (blen raw <= size_limit)%N -> decode raw = Some m ->
  client_reads pack_users pack_topics l = Some [m].
Proof.
  intros -> Hx Hl Hd. unfold client_reads. cbn [map]. rewrite Hx. cbn [wire]. rewrite C39_framing_lossless by (by constructor).
  cbn. by rewrite Hd.
Qed.
(** Frames relayed to a user, each decodable and within the limit. *)
Lemma reads_all l : (forall x, In x l -> exists raw m, e_frame (s_what x) = FRelay raw /\ (blen raw <= size_limit)%N /\ decode raw = Some m) ->
  exists ms, client_reads pack_users pack_topics l = Some ms
    /\ Forall2 (fun x m => exists raw, e_frame (s_what x) = FRelay raw /\ decode raw = Some m) l ms.
Proof.
  intros H. unfold client_reads. rewrite C39_framing_lossless.
  - induction l as [|x l IH]; [by exists []|]. destruct (H x (or_introl eq_refl)) as (raw & m & Hx & _ & Hd).
    destruct IH as (ms & Hms & Hf); [intros y Hy; apply H; by right|]. exists (m :: ms). cbn [map]. split.
    + cbn [mapM]. rewrite Hx. cbn [wire]. rewrite Hd. cbn [mbind option_bind]. rewrite Hms. done.
    + constructor; [|done]. by exists raw.
  - apply List.Forall_forall. intros y Hy. apply in_map_iff in Hy as (x & <- & Hx). destruct (H x Hx) as (raw & m & -> & Hl & _). done.
Qed.
End end_to_end.
