(** /repo/sign/keys.go: key objects, hashing, clamping, curve conversion.
    (Serialization is in KeyFiles.v.) *)
From Verif Require Import Bytes GoErr Crypto.

(** keys.go:49-59.  [pk_ck] is the cache filled by ToCurve25519PK (None = nil). *)
Record pubkey : Type := mkPub {
  pk_Pk : bytes; pk_comment : bytes; pk_ck : option bytes; pk_hash : bytes }.
(** keys.go:38-46.  Simplification: the pointer to the public key is never nil (every constructor sets it). *)
Record privkey : Type := mkPriv { sk_Sk : bytes; sk_ck : option bytes; sk_pk : pubkey }.

(** keys.go:62, 110-114 pkhash *)
Definition pkhash (C : crypto) (pk : bytes) : bytes := take 16 (sha256 C pk).

(** keys.go:395-405 makePublicKeyFromBytes(pk, b): Comment and the cached curve point are left as they are *)
Definition make_public_from_bytes (C : crypto) (pk : pubkey) (b : bytes) : res pubkey :=
  if negb (len b =? 32) then Fail (EMsg "public key is malformed")
  else Ok (mkPub b (pk_comment pk) (pk_ck pk) (pkhash C b)).

(** the zero value "var pk PublicKey" *)
Definition zero_pub : pubkey := mkPub [] [] None [].
(** the zero value "var sk PrivateKey" (its nil public key represented by [zero_pub]) *)
Definition zero_priv : privkey := mkPriv [] None zero_pub.

(** keys.go:161-180 makePrivateKeyFromBytes(sk, buf): Ed.PrivateKey.Public() is the last 32 bytes;
    the cached curve scalar is left as it is *)
Definition make_private_from_bytes (C : crypto) (sk : privkey) (buf : bytes) : res privkey :=
  if negb (len buf =? 64) then Fail (EMsg "private key is malformed")
  else let edpk := drop 32 buf in
       Ok (mkPriv buf (sk_ck sk) (mkPub edpk [] None (pkhash C edpk))).

(** keys.go:116-131 NewPrivateKey; Ed.GenerateKey reads a 32-byte seed from the random source *)
Definition new_private_key (C : crypto) (seed : bytes) : privkey :=
  let pkb := ed_public C seed in
  mkPriv (seed ++ pkb) None (mkPub pkb [] None (pkhash C pkb)).

(** k[i] = f(k[i]) *)
Fixpoint upd (i : nat) (f : byte -> byte) (l : bytes) : bytes :=
  match l, i with
  | [], _ => []
  | x :: l', O => f x :: l'
  | x :: l', S i' => x :: upd i' f l'
  end.

(** keys.go:520-525 clamp *)
Definition clamp (k : bytes) : bytes :=
  let k := upd 0 (fun b => z2b (Z.land (b2z b) 248)) k in
  let k := upd 31 (fun b => z2b (Z.land (b2z b) 127)) k in
  upd 31 (fun b => z2b (Z.lor (b2z b) 64)) k.

(** keys.go:196-209 ToCurve25519SK: (result, key object with its cache filled) *)
Definition to_curve_sk (C : crypto) (sk : privkey) : bytes * privkey :=
  match sk_ck sk with
  | Some c => (c, sk)
  | None =>
      let c := clamp (take 32 (sha512 C (take 32 (sk_Sk sk)))) in
      (c, mkPriv (sk_Sk sk) (Some c) (sk_pk sk))
  end.

(** keys.go:428 curve25519P *)
Definition curve_p : Z := 2^255 - 19.

(** extended Euclid: (g, x) with g = gcd(a,b) and a*x = g modulo b.  The fuel is enough for 256-bit
    numbers (proved in KeysProofs.v). *)
Fixpoint egcd (fuel : nat) (a b : Z) : option (Z * Z * Z) :=
  match fuel with
  | O => None
  | S f => if b =? 0 then Some (a, 1, 0)
           else match egcd f b (a mod b) with
                | Some (g, x, y) => Some (g, y, x - (a / b) * y)
                | None => None
                end
  end.

(** big.Int.ModInverse(g, n) for n > 0 (math/big, external): the inverse in [0,n), or None (nil; the
    receiver keeps its value) *)
Definition mod_inverse (g n : Z) : option Z :=
  let g := if g <? 0 then g mod n else g in
  match egcd 800 g n with
  | Some (d, x, _) => if d =? 1 then Some (x mod n) else None
  | None => None
  end.

(** big.Int.SetBytes: big-endian value;  big.Int.Bytes reversed into a 32-byte buffer *)
Definition unbe (l : bytes) : Z := unle (rev l).

(** keys.go:437-461, from the 32-byte Ed25519 key to the 32-byte Montgomery u coordinate *)
Definition curve_of (Pk : bytes) : bytes :=
  let bigEndianY := zeros (32 - len Pk) ++ rev Pk in
  let bigEndianY := upd 0 (fun b => z2b (Z.land (b2z b) 127)) bigEndianY in
  let y := unbe bigEndianY in
  let d := 1 - y in
  let denom := match mod_inverse d curve_p with Some i => i | None => d end in
  let u := ((y + 1) * denom) mod curve_p in
  le 32 u.

(** keys.go:430-465 ToCurve25519PK with its cache; a Pk longer than 32 bytes indexes out of range *)
Definition to_curve_pk (pk : pubkey) : res (bytes * pubkey) :=
  match pk_ck pk with
  | Some c => Ok (c, pk)
  | None =>
      if 32 <? len (pk_Pk pk) then Panic "index out of range"
      else let c := curve_of (pk_Pk pk) in
           Ok (c, mkPub (pk_Pk pk) (pk_comment pk) (Some c) (pk_hash pk))
  end.
