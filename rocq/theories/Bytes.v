(** Bytes, byte strings, Go integer conversions.
    Models the parts of Go itself (slices of bytes, encoding/binary.BigEndian, fixed-width
    integers) that /repo/sign/*.go and /repo/internal/pb/*.go use. *)
From Coq Require Export List ZArith Bool Lia Strings.Byte String.
Export ListNotations.
Open Scope Z_scope.
Open Scope list_scope.
Notation length := List.length (only parsing).
Notation concat := List.concat (only parsing).

Notation byte := Byte.byte (only parsing).
Notation bytes := (list Byte.byte).

(** numeric value of a byte, 0..255 *)
Definition b2z (b : byte) : Z := Z.of_N (Byte.to_N b).

(** byte(z): Go conversion, keeps the low 8 bits *)
Definition z2b (z : Z) : byte :=
  match Byte.of_N (Z.to_N (z mod 256)) with Some b => b | None => x00 end.

(** len(s) *)
Definition len {A} (l : list A) : Z := Z.of_nat (length l).

(** s[:n] and s[n:] for an index given as an int.  Structural on the list so that a huge [n]
    costs nothing.  In Go an index above the capacity panics: wherever the code's index is not
    obviously in range the model checks it and yields [Panic] (see Encrypt.v, Decrypt.v). *)
Fixpoint take {A} (n : Z) (l : list A) : list A :=
  match l with
  | [] => []
  | x :: l' => if n <=? 0 then [] else x :: take (n - 1) l'
  end.

Fixpoint drop {A} (n : Z) (l : list A) : list A :=
  match l with
  | [] => []
  | x :: l' => if n <=? 0 then l else drop (n - 1) l'
  end.

(** n zero bytes: make([]byte, n) *)
Definition zeros (n : Z) : bytes := repeat x00 (Z.to_nat n).

(** byte-string equality: bytes.Equal, bytes.Compare(..)==0, subtle.ConstantTimeCompare(..)==1 *)
Fixpoint beq (a b : bytes) : bool :=
  match a, b with
  | [], [] => true
  | x :: a', y :: b' => Byte.eqb x y && beq a' b'
  | _, _ => false
  end.

(** Go fixed-width arithmetic *)
Definition u32 (z : Z) : Z := z mod 2^32.
Definition u64 (z : Z) : Z := z mod 2^64.
Definition i32 (z : Z) : Z := (z + 2^31) mod 2^32 - 2^31.
Definition i64 (z : Z) : Z := (z + 2^63) mod 2^64 - 2^63.

(** binary.BigEndian.PutUint32 / Uint32 *)
Definition be32 (z : Z) : bytes :=
  [z2b (z / 2^24); z2b (z / 2^16); z2b (z / 2^8); z2b z].
Definition unbe32 (l : bytes) : Z :=
  match l with
  | a :: b :: c :: d :: _ => b2z a * 2^24 + b2z b * 2^16 + b2z c * 2^8 + b2z d
  | _ => 0
  end.

(** binary.BigEndian.PutUint64 *)
Definition be64 (z : Z) : bytes := be32 (z / 2^32) ++ be32 z.

(** little-endian value of a byte string; inverse: [n] little-endian bytes of z *)
Fixpoint unle (l : bytes) : Z :=
  match l with [] => 0 | b :: l' => b2z b + 256 * unle l' end.
Fixpoint le (n : nat) (z : Z) : bytes :=
  match n with O => [] | S n' => z2b z :: le n' (z / 256) end.

(** string constants: []byte("...") *)
Definition str (s : string) : bytes := String.list_byte_of_string s.
