(** Specification of the header's wire format (protocol buffers, /repo/internal/pb/hdr.proto),
    written forwards from the protobuf encoding rules. *)
From Verif Require Import Bytes Pb.

(** base-128 varint, least significant group first, continuation bit on every byte but the last
    (10 groups suffice for 64 bits) *)
Fixpoint leb128 (groups : nat) (v : Z) : bytes :=
  match groups with
  | O => []
  | S g => if v <? 128 then [z2b v] else z2b (v mod 128 + 128) :: leb128 g (v / 128)
  end.
Definition varint (v : Z) : bytes := leb128 10 v.

(** a length-delimited field (wire type 2); proto3 omits empty ones *)
Definition pb_bytes (num : Z) (b : bytes) : bytes :=
  match b with [] => [] | _ => varint (num * 8 + 2) ++ varint (len b) ++ b end.
(** an element of a repeated message field (never omitted) *)
Definition pb_msg (num : Z) (b : bytes) : bytes := varint (num * 8 + 2) ++ varint (len b) ++ b.
(** an unsigned integer field (wire type 0); proto3 omits 0 *)
Definition pb_uint (num v : Z) : bytes := if v =? 0 then [] else varint (num * 8) ++ varint v.

(** message WrappedKey { bytes d_key = 1; bytes nonce = 2; } *)
Definition pb_wkey (k : wkey) : bytes := pb_bytes 1 (w_dkey k) ++ pb_bytes 2 (w_nonce k) ++ w_unk k.

(** message Header { uint32 chunk_size = 1; bytes salt = 2; bytes pk = 3; bytes sender = 4;
    repeated WrappedKey keys = 5; } *)
Definition pb_header (h : header) : bytes :=
  pb_uint 1 (h_chunk h) ++ pb_bytes 2 (h_salt h) ++ pb_bytes 3 (h_pk h) ++ pb_bytes 4 (h_sender h)
  ++ concat (map (fun k => pb_msg 5 (pb_wkey k)) (h_keys h)) ++ h_unk h.

(** values a Go program can hold: chunk size is a uint32, and slice lengths are far below 2^63 *)
Definition pb_small (h : header) : Prop :=
  0 <= h_chunk h < 2^32 /\ len (pb_header h) < 2^62.
(** no unknown fields *)
Definition pb_known (h : header) : Prop :=
  h_unk h = [] /\ Forall (fun k => w_unk k = []) (h_keys h).

(** all the bytes held by a decoded header *)
Fixpoint keys_bytes (ks : list wkey) : Z :=
  match ks with [] => 0 | k :: ks' => len (w_dkey k) + len (w_nonce k) + len (w_unk k) + keys_bytes ks' end.
Definition header_bytes (h : header) : Z :=
  len (h_salt h) + len (h_pk h) + len (h_sender h) + keys_bytes (h_keys h) + len (h_unk h).

(** ** The wire grammar: which byte strings the decoder accepts, and what they mean.
    A varint is a run of bytes >= 128 closed by a byte < 128, at most 10 bytes in all; it stands for the number
    with these base-128 digits (least significant first), reduced to the width of the variable it is read into. *)
Definition is_varint (b : bytes) : Prop :=
  exists ini last, b = ini ++ [last] /\ Forall (fun x => 128 <= b2z x) ini /\ b2z last < 128 /\ len b <= 10.
Fixpoint digits (b : bytes) : Z :=
  match b with [] => 0 | x :: r => b2z x mod 128 + 128 * digits r end.
Definition vval (b : bytes) : Z := digits b mod 2^64.

(** a tag: field number (the decoder keeps 32 bits of it, as a signed number) and wire type *)
Definition tag_num (t : bytes) : Z := i32 (vval t / 8).
Definition tag_wire (t : bytes) : Z := vval t mod 8.

(** [n] followed by [b] is a length-delimited value *)
Definition delimited (n b : bytes) : Prop := is_varint n /\ vval n = len b.

(** the value of a field of wire type [w] whose field number is unknown to the decoder *)
Inductive payload : Z -> bytes -> Prop :=
  | p_varint b : is_varint b -> payload 0 b
  | p_fixed64 b : len b = 8 -> payload 1 b
  | p_bytes n b : delimited n b -> payload 2 (n ++ b)
  | p_group fs e : group fs -> is_varint e -> tag_wire e = 4 -> payload 3 (fs ++ e)
  | p_fixed32 b : len b = 4 -> payload 5 b
with group : bytes -> Prop :=
  | g_nil : group []
  | g_field t p r : is_varint t -> payload (tag_wire t) p -> group r -> group (t ++ p ++ r).

(** [t] introduces a field *)
Definition field_tag (t : bytes) : Prop := is_varint t /\ 0 < tag_num t /\ tag_wire t <> 4.

(** [decodes_wkey m d m']: reading the fields [d] one after the other turns [m] into [m']:
    the last value of a field wins, unknown fields are collected byte for byte in order *)
Inductive decodes_wkey : wkey -> bytes -> wkey -> Prop :=
  | dw_done m : decodes_wkey m [] m
  | dw_dkey m t n b r m' : field_tag t -> tag_num t = 1 -> tag_wire t = 2 -> delimited n b ->
      decodes_wkey (mkWkey b (w_nonce m) (w_unk m)) r m' -> decodes_wkey m (t ++ n ++ b ++ r) m'
  | dw_nonce m t n b r m' : field_tag t -> tag_num t = 2 -> tag_wire t = 2 -> delimited n b ->
      decodes_wkey (mkWkey (w_dkey m) b (w_unk m)) r m' -> decodes_wkey m (t ++ n ++ b ++ r) m'
  | dw_other m t p r m' : field_tag t -> 2 < tag_num t -> payload (tag_wire t) p ->
      decodes_wkey (mkWkey (w_dkey m) (w_nonce m) (w_unk m ++ t ++ p)) r m' -> decodes_wkey m (t ++ p ++ r) m'.

Inductive decodes : header -> bytes -> header -> Prop :=
  | d_done m : decodes m [] m
  | d_chunk m t v r m' : field_tag t -> tag_num t = 1 -> tag_wire t = 0 -> is_varint v ->
      decodes (mkHeader (digits v mod 2^32) (h_salt m) (h_pk m) (h_sender m) (h_keys m) (h_unk m)) r m' ->
      decodes m (t ++ v ++ r) m'
  | d_salt m t n b r m' : field_tag t -> tag_num t = 2 -> tag_wire t = 2 -> delimited n b ->
      decodes (mkHeader (h_chunk m) b (h_pk m) (h_sender m) (h_keys m) (h_unk m)) r m' ->
      decodes m (t ++ n ++ b ++ r) m'
  | d_pk m t n b r m' : field_tag t -> tag_num t = 3 -> tag_wire t = 2 -> delimited n b ->
      decodes (mkHeader (h_chunk m) (h_salt m) b (h_sender m) (h_keys m) (h_unk m)) r m' ->
      decodes m (t ++ n ++ b ++ r) m'
  | d_sender m t n b r m' : field_tag t -> tag_num t = 4 -> tag_wire t = 2 -> delimited n b ->
      decodes (mkHeader (h_chunk m) (h_salt m) (h_pk m) b (h_keys m) (h_unk m)) r m' ->
      decodes m (t ++ n ++ b ++ r) m'
  | d_key m t n b k r m' : field_tag t -> tag_num t = 5 -> tag_wire t = 2 -> delimited n b ->
      decodes_wkey empty_wkey b k ->
      decodes (mkHeader (h_chunk m) (h_salt m) (h_pk m) (h_sender m) (h_keys m ++ [k]) (h_unk m)) r m' ->
      decodes m (t ++ n ++ b ++ r) m'
  | d_other m t p r m' : field_tag t -> 5 < tag_num t -> payload (tag_wire t) p ->
      decodes (mkHeader (h_chunk m) (h_salt m) (h_pk m) (h_sender m) (h_keys m) (h_unk m ++ t ++ p)) r m' ->
      decodes m (t ++ p ++ r) m'.

(** a sequence of well-formed fields whose numbers are above [n]: what a decoder that knows the fields 1..n
    keeps as unknown *)
Inductive unknown_fields (n : Z) : bytes -> Prop :=
  | u_nil : unknown_fields n []
  | u_field t p r : field_tag t -> n < tag_num t -> payload (tag_wire t) p -> unknown_fields n r ->
      unknown_fields n (t ++ p ++ r).
Definition pb_wellformed (h : header) : Prop :=
  unknown_fields 5 (h_unk h) /\ Forall (fun k => unknown_fields 2 (w_unk k)) (h_keys h).
