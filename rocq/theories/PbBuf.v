(** /repo/internal/pb/hdr_vtproto.pb.go:21-137 and helpers.go:6-12 -- the encoder at the level of the buffer it stores into, index by index.
    (Pb.v's [marshal_fields] says only which bytes it stores.)  A buffer is the bytes of the slice dAtA; storing outside of it panics, and
    what a panicking call stored before is not recorded.  Messages are not nil. *)
From Verif Require Import Bytes GoErr Pb.

(** Go: d[i] = x *)
Definition store (d : bytes) (i : Z) (x : byte) : res bytes :=
  if (0 <=? i) && (i <? len d) then Ok (take i d ++ [x] ++ drop (i + 1) d) else Panic "index out of range".
(** Go: copy(d[i:], s) -- as much of s as there is room for *)
Definition copy_at (d : bytes) (i : Z) (s : bytes) : res bytes :=
  if (0 <=? i) && (i <=? len d) then Ok (take i d ++ take (len d - i) s ++ drop (i + len s) d) else Panic "slice bounds out of range".
(** the buffer and the index i: "what has been stored starts here" *)
Definition at_buf : Type := bytes * Z.

(** protohelpers.EncodeVarint v0.6.0: offset -= SizeOfVarint(v); base := offset;
    for v >= 1<<7 { dAtA[offset] = uint8(v&0x7f | 0x80); v >>= 7; offset++ }; dAtA[offset] = uint8(v); return base.
    10 rounds suffice for a uint64. *)
Fixpoint varint_stores (fuel : nat) (d : bytes) (offset v : Z) : res bytes :=
  match fuel with
  | O => Panic "varint: out of fuel"
  | S f => if 128 <=? v then d' <- store d offset (z2b (Z.lor (Z.land v 127) 128)) ;; varint_stores f d' (offset + 1) (Z.shiftr v 7)
           else store d offset (z2b v)
  end.
Definition buf_varint (v : Z) (s : at_buf) : res at_buf :=
  let base := snd s - size_varint (u64 v) in d <- varint_stores 10 (fst s) base (u64 v) ;; Ok (d, base).
(** "i -= len(x); copy(dAtA[i:], x)" *)
Definition buf_copy (x : bytes) (s : at_buf) : res at_buf :=
  let i := snd s - len x in d <- copy_at (fst s) i x ;; Ok (d, i).
(** "i--; dAtA[i] = tag" *)
Definition buf_tag (tag : Z) (s : at_buf) : res at_buf :=
  let i := snd s - 1 in d <- store (fst s) i (z2b tag) ;; Ok (d, i).

(** hdr_vtproto.pb.go:63-69, 70-76, 77-83, 122-128, 129-135 *)
Definition buf_field (tag : Z) (x : bytes) (s : at_buf) : res at_buf :=
  if 0 <? len x then s <- buf_copy x s ;; s <- buf_varint (len x) s ;; buf_tag tag s else Ok s.

(** hdr_vtproto.pb.go:110-137 WrappedKey.MarshalToSizedBufferVT: the buffer afterwards and the number of bytes *)
Definition wkey_to_sized (m : wkey) (d : bytes) : res (bytes * Z) :=
  s <- buf_copy (w_unk m) (d, len d) ;;
  s <- buf_field 18 (w_nonce m) s ;;
  s <- buf_field 10 (w_dkey m) s ;;
  Ok (fst s, len d - snd s).

(** hdr_vtproto.pb.go:51-62: the keys from the last to the first, each into dAtA[:i] *)
Fixpoint buf_keys (ks_rev : list wkey) (s : at_buf) : res at_buf :=
  match ks_rev with
  | [] => Ok s
  | k :: ks =>
      front <- slice (fst s) 0 (snd s) ;;
      '(front, size) <- wkey_to_sized k front ;;
      let s := (front ++ drop (snd s) (fst s), snd s - size) in
      s <- buf_varint size s ;;
      s <- buf_tag 42 s ;;
      buf_keys ks s
  end.

(** hdr_vtproto.pb.go:39-90 Header.MarshalToSizedBufferVT *)
Definition header_to_sized (m : header) (d : bytes) : res (bytes * Z) :=
  s <- buf_copy (h_unk m) (d, len d) ;;
  s <- buf_keys (rev (h_keys m)) s ;;
  s <- buf_field 34 (h_sender m) s ;;
  s <- buf_field 26 (h_pk m) s ;;
  s <- buf_field 18 (h_salt m) s ;;
  s <- (if h_chunk m =? 0 then Ok s else s <- buf_varint (h_chunk m) s ;; buf_tag 8 s) ;;
  Ok (fst s, len d - snd s).

(** hdr_vtproto.pb.go:34-37 Header.MarshalToVT, helpers.go:10-12 MarshalTo: into dAtA[:size], where dAtA has no spare capacity *)
Definition header_to (m : header) (d : bytes) : res (bytes * Z) :=
  let size := size_header m in
  front <- slice d 0 size ;;
  '(front, n) <- header_to_sized m front ;;
  Ok (front ++ drop size d, n).
(** hdr_vtproto.pb.go:105-108 WrappedKey.MarshalToVT *)
Definition wkey_to (m : wkey) (d : bytes) : res (bytes * Z) :=
  let size := size_wkey m in
  front <- slice d 0 size ;;
  '(front, n) <- wkey_to_sized m front ;;
  Ok (front ++ drop size d, n).
(** hdr_vtproto.pb.go:21-32 Header.MarshalVT: a new buffer of the right size *)
Definition header_marshal (m : header) : res bytes :=
  let size := size_header m in
  '(d, n) <- header_to_sized m (zeros size) ;;
  slice d 0 n.
(** hdr_vtproto.pb.go:92-103 WrappedKey.MarshalVT *)
Definition wkey_marshal (m : wkey) : res bytes :=
  let size := size_wkey m in
  '(d, n) <- wkey_to_sized m (zeros size) ;;
  slice d 0 n.
