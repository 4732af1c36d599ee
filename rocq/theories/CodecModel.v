(** Model of message encoding — /repo/cdn-proto/src/message.rs 109-313 with the schema
    /repo/cdn-proto/schema/messages.capnp. Definitions only.

    The work is done by the crate [capnp] 0.20.6 (Cargo.lock), whose source is not part of
    /repo. It is modelled from the Cap'n Proto encoding specification and the crate's
    behaviour: builder arena, segments, far pointers, segment table, bounds checks, read
    limit. The nesting limit (64) is left out: the schema nests three levels. A list of 2^29
    elements or more makes the builder panic. *)
From stdpp Require Import list.
From Coq Require Import NArith ZArith.
From Verif Require Import IdModel MsgModel AuthModel WireModel.

(** * Bytes *)
Definition zeros (n : N) : bytes := replicate (N.to_nat n) 0%N.
(** [n] bytes from offset [o]. *)
Definition slice (o n : N) (l : bytes) : bytes := take (N.to_nat n) (drop (N.to_nat o) l).
(** Replace the bytes from offset [o] by [new]. *)
Definition overwrite (o : N) (new l : bytes) : bytes :=
  take (N.to_nat o) l ++ new ++ drop (N.to_nat o + length new) l.
Definition le_val (l : bytes) : N := foldr (fun b a => b + 256 * a)%N 0%N l.
Definition le4 : N -> bytes := le_bytes 4.
(** Bytes rounded up to words. *)
Definition words_of (n : N) : N := ((n + 7) / 8)%N.

(** * Wire pointers: 64-bit words *)
(** Low half: kind in two bits, signed offset in 30. High half: two 16-bit sizes (struct) or
    element size in 3 bits and count in 29 (list). Far pointers: kind 2, "double" bit, position in 29 bits; high
    half: segment. *)
Definition w_low (w : N) : N := (w mod 2 ^ 32)%N.
Definition w_high (w : N) : N := (w / 2 ^ 32)%N.
Definition w_kind (w : N) : N := (w mod 4)%N.
Definition w_off (w : N) : Z :=
  let o := Z.of_N (w_low w / 4) in if (o <? 2 ^ 29)%Z then o else (o - 2 ^ 30)%Z.
Definition w_struct_data (w : N) : N := (w_high w mod 2 ^ 16)%N.
Definition w_struct_ptrs (w : N) : N := (w_high w / 2 ^ 16)%N.
Definition w_list_size (w : N) : N := (w_high w mod 8)%N.
Definition w_list_count (w : N) : N := (w_high w / 8)%N.
Definition w_far_double (w : N) : bool := N.odd (w / 4).
Definition w_far_pos (w : N) : N := (w_low w / 8)%N.
(** The tag in front of a list of structs: number of elements in place of the offset. *)
Definition w_tag_count (w : N) : N := (w_low w / 4)%N.

Definition mk_struct (off data ptrs : N) : N := (4 * off + 2 ^ 32 * (data + 2 ^ 16 * ptrs))%N.
Definition mk_list (off size count : N) : N := (1 + 4 * off + 2 ^ 32 * (size + 8 * count))%N.
Definition mk_far (seg pos : N) : N := (2 + 8 * pos + 2 ^ 32 * seg)%N.

(** * Building *)
(** Segments: capacity in words, and the memory handed out so far (zeroed). [ar_next]: size of
    the next segment (the crate's [HeapAllocator], growing heuristically from 1024 words). *)
Record arena := Arena { ar_segs : list (N * bytes); ar_next : N }.
(** A place: segment and word. *)
Definition place := (N * N)%type.

Definition grow (n next : N) : N := if (n <? 2 ^ 29 - next)%N then (next + n)%N else (2 ^ 29)%N.
Definition seg_get (a : arena) (s : N) : option (N * bytes) := ar_segs a !! N.to_nat s.
(** [BuilderArena::allocate]: in a given segment. *)
Definition alloc_in (a : arena) (s amount : N) : option (N * arena) :=
  match seg_get a s with
  | Some (cap, mem) =>
      let used := (blen mem / 8)%N in
      if (used + amount <=? cap)%N
      then Some (used, Arena (<[N.to_nat s := (cap, mem ++ zeros (8 * amount))]> (ar_segs a)) (ar_next a))
      else None
  | None => None
  end.
(** [allocate_anywhere]: the first segment with room, else a new one. *)
Fixpoint alloc_first (a : arena) (ss : list nat) (amount : N) : option (place * arena) :=
  match ss with
  | [] => None
  | s :: ss' =>
      match alloc_in a (N.of_nat s) amount with
      | Some (i, a') => Some ((N.of_nat s, i), a')
      | None => alloc_first a ss' amount
      end
  end.
Definition alloc_anywhere (a : arena) (amount : N) : place * arena :=
  match alloc_first a (seq 0 (length (ar_segs a))) amount with
  | Some r => r
  | None =>
      let size := N.max amount (ar_next a) in
      ((N.of_nat (length (ar_segs a)), 0%N),
       Arena (ar_segs a ++ [(size, zeros (8 * amount))]) (grow size (ar_next a)))
  end.

(** Writing into memory already handed out. *)
Definition put (a : arena) (p : place) (new : bytes) : arena :=
  match seg_get a p.1 with
  | Some (cap, mem) =>
      Arena (<[N.to_nat p.1 := (cap, overwrite (8 * p.2) new mem)]> (ar_segs a)) (ar_next a)
  | None => a
  end.

(** [wire_helpers::allocate]: room for an object referred to by the pointer at [r]; where the
    describing pointer goes, where the object starts, and the arena. If the segment of the pointer is
    full, a far pointer is left at [r] and the describing pointer is put in front of the object. *)
Definition alloc (a : arena) (r : place) (amount : N) : place * N * arena :=
  match alloc_in a r.1 amount with
  | Some (i, a') => (r, i, a')
  | None =>
      let '((s, i), a') := alloc_anywhere a (amount + 1) in
      ((s, i), (i + 1)%N, put a' r (le8 (mk_far s i)))
  end.

(** [init_struct_pointer]: the place of the struct's first word. *)
Definition init_struct (a : arena) (r : place) (data ptrs : N) : place * arena :=
  let '((s, t), i, a') := alloc a r (data + ptrs) in
  ((s, i), put a' (s, t) (le8 (mk_struct (i - (t + 1)) data ptrs))).

(** [set_data_pointer], [init_list_pointer] with its elements, for elements of one byte; the assertion on the
    number of elements is in [put_list]. *)
Definition put_list_raw (a : arena) (r : place) (l : bytes) : arena :=
  let '((s, t), i, a') := alloc a r (words_of (blen l)) in
  put (put a' (s, t) (le8 (mk_list (i - (t + 1)) 2 (blen l)))) (s, i) l.
Definition put_list (a : option arena) (r : place) (l : bytes) : option arena :=
  match a with
  | Some a => if (blen l <? 2 ^ 29)%N then Some (put_list_raw a r l) else None
  | None => None
  end.

(** [Builder::new_default] and [init_root]: root pointer, then a struct of one data word (the
    discriminant) and one pointer. *)
Definition arena_root : arena := Arena [(1024%N, zeros 8)] (grow 1024 1024).
Definition init_root (tag : N) : arena :=
  let '(p, a) := init_struct arena_root (0, 0)%N 1 1 in put a p (le8 tag).
(** The union's pointer. *)
Definition root_ptr : place := (0, 2)%N.

(** message.rs 116-204, up to the call that writes the segments. *)
Definition build (m : message) : option arena :=
  match m with
  | MAuthWithKey ts key sig =>
      let '((s, i), a) := init_struct (init_root 0) root_ptr 1 2 in
      match put_list (Some a) (s, i + 1)%N key with
      | Some a => put_list (Some (put a (s, i) (le8 ts))) (s, i + 2)%N sig
      | None => None
      end
  | MAuthWithPermit permit =>
      let '(p, a) := init_struct (init_root 1) root_ptr 1 0 in Some (put a p (le8 permit))
  | MAuthResponse permit context =>
      let '((s, i), a) := init_struct (init_root 2) root_ptr 1 1 in
      (* text is stored with a terminating zero *)
      put_list (Some (put a (s, i) (le8 permit))) (s, i + 1)%N (context ++ [0%N])
  | MDirect recipient body =>
      let '((s, i), a) := init_struct (init_root 3) root_ptr 0 2 in
      put_list (put_list (Some a) (s, i) recipient) (s, i + 1)%N body
  | MBroadcast topics body =>
      let '((s, i), a) := init_struct (init_root 4) root_ptr 0 2 in
      put_list (put_list (Some a) (s, i) topics) (s, i + 1)%N body
  | MSubscribe topics => put_list (Some (init_root 5)) root_ptr topics
  | MUnsubscribe topics => put_list (Some (init_root 6)) root_ptr topics
  | MUserSync payload => put_list (Some (init_root 7)) root_ptr payload
  | MTopicSync payload => put_list (Some (init_root 8)) root_ptr payload
  end.

(** [write_message_segments_to_words]: number of segments less one, their sizes in words,
    padding, the segments. *)
Definition flatten (segs : list bytes) : bytes :=
  le4 (N.of_nat (length segs) - 1) ++ flat_map (fun m => le4 (blen m / 8)) segs
    ++ (if Nat.even (length segs) then zeros 4 else []) ++ concat segs.

(** [Message::serialize]; [None]: panic. *)
Definition encode (m : message) : option bytes :=
  (fun a => flatten (map snd (ar_segs a))) <$> build m.

(** * Reading *)
(** [Fault]: memory outside the segment would be read (or an index assertion fails). *)
Inductive res (A : Type) := Ok (a : A) | Err | Fault.
Arguments Ok {A}. Arguments Err {A}. Arguments Fault {A}.
(** Words the read limiter still allows, bytes read from segments. *)
Definition rst := (N * N)%type.
Definition rd (A : Type) := rst -> res A * rst.
Definition rret {A} (a : A) : rd A := fun s => (Ok a, s).
Definition rerr {A} : rd A := fun s => (Err, s).
Definition rbind {A B} (m : rd A) (k : A -> rd B) : rd B :=
  fun s => match m s with
           | (Ok a, s') => k a s'
           | (Err, s') => (Err, s')
           | (Fault, s') => (Fault, s')
           end.
Notation "'let!' x := m 'in' k" := (rbind m (fun x => k)) (at level 200, x pattern, right associativity).

Section reader.
Variable segs : list bytes.

(** [get_segment]. *)
Definition rget (id : N) : rd bytes :=
  if (id <? N.of_nat (length segs))%N
  then match segs !! N.to_nat id with Some g => rret g | None => fun s => (Fault, s) end
  else rerr.
(** [ReadLimiter::can_read]. *)
Definition can_read (n : N) : rd unit :=
  fun s => if (n <=? s.1)%N then (Ok tt, (s.1 - n, s.2)%N) else (Err, s).
(** [contains_interval], by way of [bounds_check]. *)
Definition bounds_check (p : place) (n : N) : rd unit :=
  let! g := rget p.1 in
  if (p.2 + n <=? blen g / 8)%N then can_read n else rerr.
(** [check_offset]. *)
Definition check_offset (id start : N) (off : Z) : rd N :=
  let! g := rget id in
  let i := (Z.of_N start + off)%Z in
  if (0 <=? i)%Z && (i <=? Z.of_N (blen g / 8))%Z then rret (Z.to_N i) else rerr.

(** Reading memory: [n] bytes from byte offset [o] of segment [id]. *)
Definition rbytes (id o n : N) : rd bytes :=
  let! g := rget id in
  fun s => if (o + n <=? blen g)%N then (Ok (slice o n g), (s.1, s.2 + n)%N) else (Fault, s).
Definition rword (p : place) : rd N :=
  let! b := rbytes p.1 (8 * p.2) 8 in rret (le_val b).

(** [follow_fars]: where the object is, and the word that describes it. *)
Definition follow (p : place) (w : N) : rd (place * N) :=
  if (w_kind w =? 2)%N then
    let id := w_high w in
    let! i := check_offset id 0 (Z.of_N (w_far_pos w)) in
    let! _ := bounds_check (id, i) (if w_far_double w then 2 else 1) in
    let! pad := rword (id, i) in
    if w_far_double w then
      let! tag := rword (id, i + 1)%N in
      let! j := check_offset (w_high pad) 0 (Z.of_N (w_far_pos pad)) in
      rret ((w_high pad, j), tag)
    else
      let! j := check_offset id i (1 + w_off pad) in
      rret ((id, j), pad)
  else
    let! j := check_offset p.1 p.2 (1 + w_off w) in
    rret ((p.1, j), w).

(** A struct: its first word, the number of data words, the number of pointers. *)
Record sreader := SR { sr_at : place; sr_data : N; sr_ptrs : N }.
Definition sr_default : sreader := SR (0, 0)%N 0 0.

(** [read_struct_pointer]; [None] is the pointer of a field the struct does not have. *)
Definition read_struct (p : option place) : rd sreader :=
  match p with
  | None => rret sr_default
  | Some p =>
      let! w := rword p in
      if (w =? 0)%N then rret sr_default
      else
        let! (t, tag) := follow p w in
        if (w_kind tag =? 0)%N then
          let! _ := bounds_check t (w_struct_data tag + w_struct_ptrs tag) in
          rret (SR t (w_struct_data tag) (w_struct_ptrs tag))
        else rerr
  end.
(** [get_pointer_field], [get_data_field] at offset 0. *)
Definition sr_ptr (s : sreader) (i : N) : option place :=
  if (i <? sr_ptrs s)%N then Some ((sr_at s).1, (sr_at s).2 + sr_data s + i)%N else None.
Definition sr_word (s : sreader) : rd N :=
  if (0 <? sr_data s)%N then rword (sr_at s) else rret 0%N.

(** [read_data_pointer]. *)
Definition read_data (p : option place) : rd bytes :=
  match p with
  | None => rret []
  | Some p =>
      let! w := rword p in
      if (w =? 0)%N then rret []
      else
        let! (t, tag) := follow p w in
        if (w_kind tag =? 1)%N && (w_list_size tag =? 2)%N then
          let! _ := bounds_check t (words_of (w_list_count tag)) in
          rbytes t.1 (8 * t.2) (w_list_count tag)
        else rerr
  end.

(** [str::from_utf8]: well-formed byte sequences (Unicode, table 3-7). *)
Definition cont (b : N) : bool := (128 <=? b)%N && (b <=? 191)%N.
Fixpoint utf8_ok (l : bytes) : bool :=
  match l with
  | [] => true
  | a :: l1 =>
      if (a <? 128)%N then utf8_ok l1
      else if (194 <=? a)%N && (a <=? 223)%N then
        match l1 with b :: l2 => cont b && utf8_ok l2 | _ => false end
      else if (224 <=? a)%N && (a <=? 239)%N then
        match l1 with
        | b :: c :: l3 =>
            cont b && cont c && (if (a =? 224)%N then (160 <=? b)%N else true)
              && (if (a =? 237)%N then (b <=? 159)%N else true) && utf8_ok l3
        | _ => false
        end
      else if (240 <=? a)%N && (a <=? 244)%N then
        match l1 with
        | b :: c :: d :: l4 =>
            cont b && cont c && cont d && (if (a =? 240)%N then (144 <=? b)%N else true)
              && (if (a =? 244)%N then (b <=? 143)%N else true) && utf8_ok l4
        | _ => false
        end
      else false
  end.

(** [read_text_pointer], then [to_string]. *)
Definition read_text (p : option place) : rd bytes :=
  match p with
  | None => rret []
  | Some p =>
      let! w := rword p in
      if (w =? 0)%N then rret []
      else
        let! (t, tag) := follow p w in
        if (w_kind tag =? 1)%N && (w_list_size tag =? 2)%N then
          let n := w_list_count tag in
          let! _ := bounds_check t (words_of n) in
          if (n =? 0)%N then rerr
          else
            let! z := rbytes t.1 (8 * t.2 + (n - 1)) 1 in
            if decide (z = [0%N]) then
              let! b := rbytes t.1 (8 * t.2) (n - 1) in
              if utf8_ok b then rret b else rerr
            else rerr
        else rerr
  end.

(** The first byte of each of [n] elements of [step] bytes. *)
Fixpoint read_elems (id o step : N) (n : nat) : rd bytes :=
  match n with
  | O => rret []
  | S n' =>
      let! b := rbytes id o 1 in
      let! l := read_elems id (o + step) step n' in
      rret (b ++ l)
  end.

(** [read_list_pointer] for lists of [UInt8], then reading every element. Lists of larger elements and
    of structs with data are accepted; of each element the first byte is read. *)
Definition elem_bytes (size : N) : N :=
  match size with 2 => 1 | 3 => 2 | 4 => 4 | 5 => 8 | _ => 0 end%N.
Definition elem_bits (size : N) : N :=
  match size with 0 => 0 | 1 => 1 | 6 => 64 | _ => 8 * elem_bytes size end%N.
Definition read_u8s (p : option place) : rd bytes :=
  match p with
  | None => rret []
  | Some p =>
      let! w := rword p in
      if (w =? 0)%N then rret []
      else
        let! (t, tag) := follow p w in
        if (w_kind tag =? 1)%N then
          let n := w_list_count tag in
          if (w_list_size tag =? 7)%N then
            let! _ := bounds_check t (n + 1) in
            let! e := rword t in
            if (w_kind e =? 0)%N then
              let count := w_tag_count e in
              let wpe := (w_struct_data e + w_struct_ptrs e)%N in
              if (n <? count * wpe)%N then rerr
              else
                let! _ := (if (wpe =? 0)%N then can_read count else rret tt) in
                if (w_struct_data e =? 0)%N then rerr
                else read_elems t.1 (8 * (t.2 + 1)) (8 * wpe) (N.to_nat count)
            else rerr
          else
            let! _ := bounds_check t ((n * elem_bits (w_list_size tag) + 63) / 64) in
            let! _ := (if (w_list_size tag =? 0)%N then can_read n else rret tt) in
            (* the elements must hold at least 8 bits of data *)
            if (elem_bytes (w_list_size tag) =? 0)%N then rerr
            else read_elems t.1 (8 * t.2) (elem_bytes (w_list_size tag)) (N.to_nat n)
        else rerr
  end.

(** message.rs 223-310. *)
Definition read_union (w : N) (p : option place) : rd message :=
  match (w mod 2 ^ 16)%N with
  | 0%N =>
      let! x := read_struct p in
      let! key := read_data (sr_ptr x 0) in
      let! ts := sr_word x in
      let! sig := read_data (sr_ptr x 1) in
      rret (MAuthWithKey ts key sig)
  | 1%N => let! x := read_struct p in let! permit := sr_word x in rret (MAuthWithPermit permit)
  | 2%N =>
      let! x := read_struct p in
      let! permit := sr_word x in
      let! context := read_text (sr_ptr x 0) in
      rret (MAuthResponse permit context)
  | 3%N =>
      let! x := read_struct p in
      let! recipient := read_data (sr_ptr x 0) in
      let! body := read_data (sr_ptr x 1) in
      rret (MDirect recipient body)
  | 4%N =>
      let! x := read_struct p in
      let! topics := read_u8s (sr_ptr x 0) in
      let! body := read_data (sr_ptr x 1) in
      rret (MBroadcast topics body)
  | 5%N => let! topics := read_u8s p in rret (MSubscribe topics)
  | 6%N => let! topics := read_u8s p in rret (MUnsubscribe topics)
  | 7%N => let! b := read_data p in rret (MUserSync b)
  | 8%N => let! b := read_data p in rret (MTopicSync b)
  | _ => rerr
  end.
Definition read_root : rd message :=
  let! _ := bounds_check (0, 0)%N 1 in
  let! s := read_struct (Some (0, 0)%N) in
  let! w := sr_word s in
  read_union w (sr_ptr s 0).
End reader.

(** [read_segment_table]: sizes of the segments in words, and the rest of the input. *)
Definition read_table (l : bytes) : option (list N * bytes) :=
  if (blen l <? 8)%N then None
  else
    let count := ((le_val (slice 0 4 l) + 1) mod 2 ^ 32)%N in
    if (count =? 0)%N || (512 <=? count)%N then None
    else
      (* two 32-bit numbers at a time *)
      let extra := (8 * (count / 2))%N in
      if (blen l <? 8 + extra)%N then None
      else Some (map (fun i => le_val (slice (4 + 4 * N.of_nat i) 4 l)) (seq 0 (N.to_nat count)),
                 drop (N.to_nat (8 + extra)) l).

Fixpoint split_segs (sizes : list N) (l : bytes) : list bytes :=
  match sizes with
  | [] => []
  | n :: ns => slice 0 (8 * n) l :: split_segs ns (drop (N.to_nat (8 * n)) l)
  end.
Definition total (sizes : list N) : N := foldr N.add 0%N sizes.

(** [serialize::read_message] as called in message.rs 214-222: the limit in words is the input's length in
    bytes. The memory taken for the segments, and the segments. *)
Definition read_message (l : bytes) : N * option (list bytes) :=
  match read_table l with
  | Some (sizes, rest) =>
      if (blen l <? total sizes)%N then (0%N, None)
      else (8 * total sizes,
            if (blen rest <? 8 * total sizes)%N then None else Some (split_segs sizes rest))%N
  | None => (0%N, None)
  end.

(** [Message::deserialize], with the reader's final state. *)
Definition decode_run (l : bytes) : res message * rst :=
  match (read_message l).2 with
  | Some segs => read_root segs (blen l, 0%N)
  | None => (Err, (blen l, 0%N))
  end.
Definition decode (l : bytes) : option message :=
  match (decode_run l).1 with Ok m => Some m | _ => None end.
