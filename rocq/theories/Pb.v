(** /repo/internal/pb/hdr_vtproto.pb.go -- the protobuf codec of the file header -- and the three
    functions of vtprotobuf/protohelpers v0.6.0 it calls (EncodeVarint, SizeOfVarint, Skip; external,
    modelled from their published source). *)
From Verif Require Import Bytes GoErr.

(** /repo/internal/pb/hdr.proto:25-28, hdr.pb.go WrappedKey *)
Record wkey : Type := mkWkey { w_dkey : bytes; w_nonce : bytes; w_unk : bytes }.
(** /repo/internal/pb/hdr.proto:13-19, hdr.pb.go Header *)
Record header : Type := mkHeader {
  h_chunk : Z; h_salt : bytes; h_pk : bytes; h_sender : bytes; h_keys : list wkey; h_unk : bytes }.

Definition empty_wkey : wkey := mkWkey [] [] [].
Definition empty_header : header := mkHeader 0 [] [] [] [] [].

(** protohelpers.SizeOfVarint: (bits.Len64(x|1) + 6) / 7 *)
Definition size_varint (x : Z) : Z := (Z.log2 (Z.lor x 1) + 1 + 6) / 7.

(** protohelpers.EncodeVarint: the bytes stored at [offset-size, offset).
    10 rounds suffice for a uint64. *)
Fixpoint put_varint (fuel : nat) (v : Z) : bytes :=
  match fuel with
  | O => []
  | S f => if 128 <=? v then z2b (Z.lor (Z.land v 127) 128) :: put_varint f (Z.shiftr v 7)
           else [z2b v]
  end.
Definition encode_varint (v : Z) : bytes := put_varint 10 (u64 v).

(** hdr_vtproto.pb.go:148-151 and the same pattern at 152-159, 176-183 *)
Definition size_field (b : bytes) : Z :=
  if 0 <? len b then 1 + len b + size_varint (len b) else 0.

(** hdr_vtproto.pb.go:170-186 WrappedKey.SizeVT *)
Definition size_wkey (m : wkey) : Z := size_field (w_dkey m) + size_field (w_nonce m) + len (w_unk m).

(** hdr_vtproto.pb.go:160-165 *)
Fixpoint size_keys (ks : list wkey) : Z :=
  match ks with
  | [] => 0
  | k :: ks' => 1 + size_wkey k + size_varint (size_wkey k) + size_keys ks'
  end.

(** hdr_vtproto.pb.go:139-168 Header.SizeVT *)
Definition size_header (m : header) : Z :=
  (if h_chunk m =? 0 then 0 else 1 + size_varint (h_chunk m))
  + size_field (h_salt m) + size_field (h_pk m) + size_field (h_sender m)
  + size_keys (h_keys m) + len (h_unk m).

(** The marshaller fills its buffer from the end towards the front; [acc] is what has been stored so
    far, i.e. the buffer from index i on.  hdr_vtproto.pb.go:63-69 and the like:
    "if len(x) > 0 { i -= len(x); copy(dAtA[i:], x); i = EncodeVarint(dAtA, i, len(x)); i--; dAtA[i] = tag }" *)
Definition push_field (tag : Z) (b : bytes) (acc : bytes) : bytes :=
  if 0 <? len b then z2b tag :: encode_varint (len b) ++ b ++ acc else acc.

(** hdr_vtproto.pb.go:110-137 WrappedKey.MarshalToSizedBufferVT (contents stored) *)
Definition marshal_wkey (m : wkey) : bytes :=
  push_field 10 (w_dkey m) (push_field 18 (w_nonce m) (w_unk m)).

(** hdr_vtproto.pb.go:51-62: the keys, last one first *)
Fixpoint push_keys (ks_rev : list wkey) (acc : bytes) : bytes :=
  match ks_rev with
  | [] => acc
  | k :: ks => let m := marshal_wkey k in push_keys ks (z2b 42 :: encode_varint (len m) ++ m ++ acc)
  end.

(** hdr_vtproto.pb.go:39-90 Header.MarshalToSizedBufferVT (contents stored) *)
Definition marshal_fields (m : header) : bytes :=
  let a := h_unk m in
  let a := push_keys (rev (h_keys m)) a in
  let a := push_field 34 (h_sender m) a in
  let a := push_field 26 (h_pk m) a in
  let a := push_field 18 (h_salt m) a in
  if h_chunk m =? 0 then a else z2b 8 :: encode_varint (h_chunk m) ++ a.

(** hdr_vtproto.pb.go:34-37 MarshalToVT into a zeroed buffer of [size] bytes: storing below index 0 or
    writing more than the buffer holds panics; a short encoding is right-aligned.  helpers.go:10-12. *)
Definition marshal_to (m : header) (size : Z) : res bytes :=
  let a := marshal_fields m in
  if size_header m <=? size then
    if len a <=? size_header m then
      Ok (zeros (size_header m - len a) ++ a ++ zeros (size - size_header m))
    else Panic "marshal: index out of range"
  else Panic "marshal: slice bounds out of range".

(** ** Decoding *)

(** the inlined varint loops, hdr_vtproto.pb.go:193-207, 222-235, 241-254, ...: [bits] is the width of
    the accumulator (64 for wire/byteLen/msglen, 32 for ChunkSize); "x |= T(b&0x7F) << shift".
    The fuel (11 rounds: shift = 0,7,...,70) is never exhausted because of the shift >= 64 test. *)
Fixpoint get_varint (fuel : nat) (bits : Z) (d : bytes) (l idx shift acc : Z) : res (Z * Z) :=
  match fuel with
  | O => Panic "varint: out of fuel"
  | S f =>
      if 64 <=? shift then Fail (EMsg "proto: integer overflow")
      else if l <=? idx then Fail ErrUnexpectedEOF
      else
        b <- at_ d idx ;;
        let acc' := Z.lor acc (Z.shiftl (Z.land (b2z b) 127) shift mod 2 ^ bits) in
        if b2z b <? 128 then Ok (acc', idx + 1)
        else get_varint f bits d l (idx + 1) (shift + 7) acc'
  end.
Definition varint_at (bits : Z) (d : bytes) (idx : Z) : res (Z * Z) :=
  get_varint 11 bits d (len d) idx 0 0.

(** hdr_vtproto.pb.go:240-269 (and 274-303, 308-337, 342-366, 427-456, 461-490): a length-delimited field;
    returns the field's bytes and the index after it *)
Definition get_bytes (d : bytes) (idx : Z) : res (bytes * Z) :=
  '(v, idx1) <- varint_at 64 d idx ;;
  let byteLen := i64 v in
  if byteLen <? 0 then Fail (EMsg "proto: negative length found during unmarshaling")
  else
    let post := i64 (idx1 + byteLen) in
    if post <? 0 then Fail (EMsg "proto: negative length found during unmarshaling")
    else if len d <? post then Fail ErrUnexpectedEOF
    else
      b <- slice d idx1 post ;;
      Ok (b, post).

(** protohelpers.Skip: the number of bytes of the field starting at d[0] *)
Fixpoint skip_varint (fuel : nat) (d : bytes) (l idx shift : Z) : res Z :=
  match fuel with
  | O => Panic "varint: out of fuel"
  | S f =>
      if 64 <=? shift then Fail (EMsg "proto: integer overflow")
      else if l <=? idx then Fail ErrUnexpectedEOF
      else b <- at_ d idx ;;
           if b2z b <? 128 then Ok (idx + 1) else skip_varint f d l (idx + 1) (shift + 7)
  end.
Fixpoint skip_loop (fuel : nat) (d : bytes) (idx depth : Z) : res Z :=
  if len d <=? idx then Fail ErrUnexpectedEOF
  else
    match fuel with
    | O => Panic "skip: out of fuel"
    | S f =>
        '(wire, i1) <- varint_at 64 d idx ;;
        let wt := Z.land wire 7 in
        '(i2, depth2) <-
          (if wt =? 0 then i <- skip_varint 11 d (len d) i1 0 ;; Ok (i, depth)
           else if wt =? 1 then Ok (i64 (i1 + 8), depth)
           else if wt =? 2 then
             '(v, i) <- varint_at 64 d i1 ;;
             let length := i64 v in
             if length <? 0 then Fail (EMsg "proto: negative length found during unmarshaling")
             else Ok (i64 (i + length), depth)
           else if wt =? 3 then Ok (i1, depth + 1)
           else if wt =? 4 then
             if depth =? 0 then Fail (EMsg "proto: unexpected end of group") else Ok (i1, depth - 1)
           else if wt =? 5 then Ok (i64 (i1 + 4), depth)
           else Fail (EMsg "proto: illegal wireType")) ;;
        if i2 <? 0 then Fail (EMsg "proto: negative length found during unmarshaling")
        else if depth2 =? 0 then Ok i2
        else skip_loop f d i2 depth2
    end.
Definition skip (d : bytes) : res Z := skip_loop (length d) d 0 0.

(** the "default:" branch, hdr_vtproto.pb.go:372-386 and 491-505: returns the raw bytes of the unknown
    field starting at preIndex, and the index after it *)
Definition get_unknown (d : bytes) (pre : Z) : res (bytes * Z) :=
  rest <- slice d pre (len d) ;;
  skippy <- skip rest ;;
  if (skippy <? 0) || (i64 (pre + skippy) <? 0)
  then Fail (EMsg "proto: negative length found during unmarshaling")
  else if len d <? pre + skippy then Fail ErrUnexpectedEOF
  else b <- slice d pre (pre + skippy) ;; Ok (b, pre + skippy).

(** hdr_vtproto.pb.go:192-215: the tag: (field number, wire type, index after) *)
Definition get_tag (d : bytes) (idx : Z) : res (Z * Z * Z) :=
  '(wire, i1) <- varint_at 64 d idx ;;
  let fieldNum := i32 (Z.shiftr wire 3) in
  let wireType := Z.land wire 7 in
  if wireType =? 4 then Fail (EMsg "proto: wiretype end group for non-group")
  else if fieldNum <=? 0 then Fail (EMsg "proto: illegal tag")
  else Ok (fieldNum, wireType, i1).

(** hdr_vtproto.pb.go:394-512 WrappedKey.UnmarshalVT *)
Fixpoint unmarshal_wkey_loop (fuel : nat) (d : bytes) (idx : Z) (m : wkey) : res wkey :=
  if len d <=? idx then (if len d <? idx then Fail ErrUnexpectedEOF else Ok m)
  else
    match fuel with
    | O => Panic "unmarshal: out of fuel"
    | S f =>
        '(fieldNum, wireType, i1) <- get_tag d idx ;;
        if fieldNum =? 1 then
          if negb (wireType =? 2) then Fail (EMsg "proto: wrong wireType for field DKey")
          else '(b, i2) <- get_bytes d i1 ;;
               unmarshal_wkey_loop f d i2 (mkWkey b (w_nonce m) (w_unk m))
        else if fieldNum =? 2 then
          if negb (wireType =? 2) then Fail (EMsg "proto: wrong wireType for field Nonce")
          else '(b, i2) <- get_bytes d i1 ;;
               unmarshal_wkey_loop f d i2 (mkWkey (w_dkey m) b (w_unk m))
        else
          '(b, i2) <- get_unknown d idx ;;
          unmarshal_wkey_loop f d i2 (mkWkey (w_dkey m) (w_nonce m) (w_unk m ++ b))
    end.
Definition unmarshal_wkey (d : bytes) : res wkey := unmarshal_wkey_loop (length d) d 0 empty_wkey.

(** hdr_vtproto.pb.go:188-393 Header.UnmarshalVT (into a fresh Header, as at sign/encrypt.go:431-436).
    helpers.go:14-16. *)
Fixpoint unmarshal_header_loop (fuel : nat) (d : bytes) (idx : Z) (m : header) : res header :=
  if len d <=? idx then (if len d <? idx then Fail ErrUnexpectedEOF else Ok m)
  else
    match fuel with
    | O => Panic "unmarshal: out of fuel"
    | S f =>
        '(fieldNum, wireType, i1) <- get_tag d idx ;;
        if fieldNum =? 1 then
          if negb (wireType =? 0) then Fail (EMsg "proto: wrong wireType for field ChunkSize")
          else '(v, i2) <- varint_at 32 d i1 ;;
               unmarshal_header_loop f d i2
                 (mkHeader v (h_salt m) (h_pk m) (h_sender m) (h_keys m) (h_unk m))
        else if fieldNum =? 2 then
          if negb (wireType =? 2) then Fail (EMsg "proto: wrong wireType for field Salt")
          else '(b, i2) <- get_bytes d i1 ;;
               unmarshal_header_loop f d i2
                 (mkHeader (h_chunk m) b (h_pk m) (h_sender m) (h_keys m) (h_unk m))
        else if fieldNum =? 3 then
          if negb (wireType =? 2) then Fail (EMsg "proto: wrong wireType for field Pk")
          else '(b, i2) <- get_bytes d i1 ;;
               unmarshal_header_loop f d i2
                 (mkHeader (h_chunk m) (h_salt m) b (h_sender m) (h_keys m) (h_unk m))
        else if fieldNum =? 4 then
          if negb (wireType =? 2) then Fail (EMsg "proto: wrong wireType for field Sender")
          else '(b, i2) <- get_bytes d i1 ;;
               unmarshal_header_loop f d i2
                 (mkHeader (h_chunk m) (h_salt m) (h_pk m) b (h_keys m) (h_unk m))
        else if fieldNum =? 5 then
          if negb (wireType =? 2) then Fail (EMsg "proto: wrong wireType for field Keys")
          else '(b, i2) <- get_bytes d i1 ;;
               k <- unmarshal_wkey b ;;
               unmarshal_header_loop f d i2
                 (mkHeader (h_chunk m) (h_salt m) (h_pk m) (h_sender m) (h_keys m ++ [k]) (h_unk m))
        else
          '(b, i2) <- get_unknown d idx ;;
          unmarshal_header_loop f d i2
            (mkHeader (h_chunk m) (h_salt m) (h_pk m) (h_sender m) (h_keys m) (h_unk m ++ b))
    end.
Definition unmarshal_header (d : bytes) : res header :=
  unmarshal_header_loop (length d) d 0 empty_header.
