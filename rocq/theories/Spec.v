(** Specification of sigtool's encrypted file format and sessions, independent of the code's loops and
    buffers.  Sources: /repo/README.md "Encryption/Decryption" notes, /repo/sign/encrypt.go:15-58,
    /repo/sign/doc.go. *)
From Verif Require Import Bytes GoErr GoIO SpecIO Pb SpecPb Crypto Keys Sign Encrypt Decrypt.

(** ** Key objects as the library hands them out *)
(** [sk] is a key object for the Ed25519 seed [seed] (its lazily filled cache, if present, is right) *)
Record keypair (C : crypto) (seed : bytes) (sk : privkey) : Prop := {
  kp_seed : len seed = 32;
  kp_sk : sk_Sk sk = seed ++ ed_public C seed;
  kp_pk : pk_Pk (sk_pk sk) = ed_public C seed;
  kp_ck : sk_ck sk = None \/ sk_ck sk = Some (clamp (take 32 (sha512 C seed))) }.
(** [pk] is a public key object for the same seed *)
Record pubof (C : crypto) (seed : bytes) (pk : pubkey) : Prop := {
  po_seed : len seed = 32;
  po_pk : pk_Pk pk = ed_public C seed;
  po_ck : pk_ck pk = None \/ pk_ck pk = Some (curve_of (ed_public C seed)) }.

(** ** Sessions *)
(** AddRecipient for each key in turn, all successful *)
Fixpoint add_recipients (C : crypto) (e : encryptor) (pks : list pubkey) (g : rng) : option (encryptor * rng) :=
  match pks with
  | [] => Some (e, g)
  | pk :: pks' =>
      match add_recipient C e pk g with
      | (e', _, g', Ok _) => add_recipients C e' pks' g'
      | _ => None
      end
  end.

(** NewEncryptor(sender, blksize) then AddRecipient for each of [pks], all successful *)
Definition session (C : crypto) (sender : option privkey) (blksize : Z) (pks : list pubkey) (g : rng)
  (e : encryptor) (g' : rng) : Prop :=
  exists e0 g0, new_encryptor C sender blksize g = (Ok e0, g0) /\ add_recipients C e0 pks g0 = Some (e, g').

(** the chunk size a file gets: 4 MiB by default, at most 1 GiB *)
Definition chunk_of (blksize : Z) : Z := if blksize =? 0 then 4194304 else Z.min blksize (2^30).

(** ** File layout *)
(** 4-byte big-endian plaintext length; the top bit marks the last frame *)
Definition frame_word (pt : bytes) (last : bool) : bytes :=
  be32 (len pt + if last then 2147483648 else 0).
(** the AEAD nonce of frame number i: the counter in the first 4 bytes, then the last 8 of the base *)
Definition frame_nonce (base : bytes) (i : Z) : bytes := be32 i ++ drop 4 base.
Definition frame (C : crypto) (dk base : bytes) (i : Z) (last : bool) (pt : bytes) : bytes :=
  frame_word pt last ++ gcm_seal C dk (frame_nonce base i) pt (frame_word pt last).

(** frames i, i+1, ... for the given plaintext chunks; the last one carries the EOF mark *)
Fixpoint frames (C : crypto) (dk base : bytes) (i : Z) (cs : list bytes) : bytes :=
  match cs with
  | [] => []
  | [c] => frame C dk base i true c
  | c :: cs' => frame C dk base i false c ++ frames C dk base (i + 1) cs'
  end.

(** frames i, i+1, ... none of them marked as the last one *)
Fixpoint unmarked (C : crypto) (dk base : bytes) (i : Z) (cs : list bytes) : bytes :=
  match cs with [] => [] | c :: cs' => frame C dk base i false c ++ unmarked C dk base (i + 1) cs' end.

(** what the HMAC covers: every frame's length word and plaintext *)
Fixpoint mac_input (cs : list bytes) : bytes :=
  match cs with
  | [] => []
  | [c] => frame_word c true ++ c
  | c :: cs' => frame_word c false ++ c ++ mac_input cs'
  end.

(** splitting of a plaintext into chunks of n bytes with a last chunk satisfying [lastok] *)
Inductive chunked (n : Z) (lastok : Z -> Prop) : list bytes -> bytes -> Prop :=
| ch_last c : lastok (len c) -> chunked n lastok [c] c
| ch_more c cs s : len c = n -> chunked n lastok cs s -> chunked n lastok (c :: cs) (c ++ s).

(** Encrypt: the last chunk is shorter than n, possibly empty.
    Stream writer: the last chunk has 1..n bytes, unless nothing at all was written. *)
Definition encrypt_chunks (n : Z) : list bytes -> bytes -> Prop := chunked n (fun k => 0 <= k < n).
Definition stream_chunks (n : Z) (cs : list bytes) (s : bytes) : Prop :=
  chunked n (fun k => 0 < k <= n) cs s \/ (cs = [[]] /\ s = []).

(** data key, nonce base and HMAC key: HKDF-SHA512(root key, salt = header checksum, "Data Key Expansion") *)
Record file_keys : Type := mkFK { fk_base : bytes; fk_data : bytes; fk_mac : bytes }.
Definition derive_keys (C : crypto) (root cksum : bytes) : file_keys :=
  let k := hkdf_sha512 C root cksum (str "Data Key Expansion") 76 in
  mkFK (take 12 k) (take 32 (drop 12 k)) (drop 44 k).

(** fixed header and protobuf header *)
Definition full_header (h : header) : bytes :=
  str "SigTool" ++ [x03] ++ be32 (len (pb_header h)) ++ pb_header h.
Definition header_cksum (C : crypto) (h : header) : bytes := sha256 C (full_header h).
Definition keys_of (C : crypto) (h : header) (root : bytes) : file_keys := derive_keys C root (header_cksum C h).

(** everything after the header checksum *)
Definition body (C : crypto) (fk : file_keys) (cs : list bytes) (trailer : bytes) : bytes :=
  frames C (fk_data fk) (fk_base fk) 0 cs ++ trailer.
(** the whole file *)
Definition sigtool_file (C : crypto) (h : header) (root : bytes) (cs : list bytes) (trailer : bytes) : bytes :=
  full_header h ++ header_cksum C h ++ body C (keys_of C h root) cs trailer.

(** Ed25519 signature over SHA512("sigtool signed message" || m) *)
Definition signed_by (C : crypto) (pk m sig : bytes) : Prop :=
  len sig = 64 /\ ed_verify C pk (sha512 C (str "sigtool signed message" ++ m)) sig = true.

(** trailer: the sender's signature of the HMAC, or 64 random bytes *)
Definition good_trailer (C : crypto) (sender : option privkey) (fk : file_keys) (cs : list bytes) (tr : bytes) : Prop :=
  len tr = 64 /\
  forall sk, sender = Some sk ->
    tr = ed_sign C (sk_Sk sk) (sha512 C (str "sigtool signed message" ++ hmac_sha256 C (fk_mac fk) (mac_input cs))).

(** ** Recipient key wrapping *)
(** key-encryption key and nonce for the wrapped key with nonce [rnonce], given the X25519 shared secret *)
Definition wrap_keys (C : crypto) (shared salt rnonce : bytes) : bytes * bytes :=
  let k := hkdf_sha512 C shared (sha256 C (salt ++ rnonce)) (str "Receiver Key") 44 in
  (take 32 k, drop 32 k).
(** what private scalar [sc] with public key [pk] gets out of the wrapped key [w] of a header *)
Definition opens (C : crypto) (h : header) (sc pk : bytes) (w : wkey) : option bytes :=
  let '(kek, n) := wrap_keys C (x25519 C sc (h_pk h)) (h_salt h) (w_nonce w) in
  gcm_open C kek n (w_dkey w) pk.
(** the X25519 private scalar belonging to an Ed25519 seed *)
Definition scalar_of (C : crypto) (seed : bytes) : bytes := clamp (take 32 (sha512 C seed)).

(** no wrapped key of the header opens for this seed to anything but the root key (an AEAD accident
    otherwise: AES-GCM opening under a key and associated data it was not sealed with) *)
Definition no_accident (C : crypto) (h : header) (seed root : bytes) : Prop :=
  forall w k, In w (h_keys h) -> opens C h (scalar_of C seed) (ed_public C seed) w = Some k -> k = root.

(** ** Sender authentication *)
(** key and nonce of the encrypted sender field *)
Definition sender_keys (C : crypto) (root salt : bytes) : bytes * bytes :=
  let k := hkdf_sha512 C root salt (str "Sender Sig") 44 in (take 32 k, drop 32 k).
(** the 64 bytes found in the sender field by someone who knows the root key *)
Definition file_sender (C : crypto) (h : header) (root : bytes) : option bytes :=
  let '(k, n) := sender_keys C root (h_salt h) in gcm_open C k n (h_sender h) [].
(** what the sender signs: version, ephemeral key, salt, root key *)
Definition sender_message (C : crypto) (h : header) (root : bytes) : bytes :=
  sha256 C (str "SigTool" ++ [x03] ++ h_pk h ++ h_salt h ++ root).

(** ** What a decryptor may accept *)
Section Accept.
  Variables (C : crypto) (dk base : bytes) (chunk : Z).
  (** what the trailer must satisfy, given the MAC input and the 64 trailer bytes *)
  Variable trailer_ok : bytes -> bytes -> Prop.

  (** [c] is an authentic ciphertext of the non-empty plaintext [pt] as frame number i *)
  Definition frame_opens (i : Z) (last : bool) (c pt : bytes) : Prop :=
    0 < len pt <= chunk /\ len c = len pt + 16 /\
    gcm_open C dk (frame_nonce base i) c (frame_word pt last) = Some pt.

  (** [accepted i m s outs rest]: starting at frame i with [m] already under the MAC, the bytes [s] are
      accepted as a complete stream with plaintext chunks [outs], leaving [rest] unread.
      [ac_bare] is the case of encrypt.go:579-583: the four bytes 80 00 00 00 end the stream at once, with no
      authentication and no trailer. *)
  Inductive accepted : Z -> bytes -> bytes -> list bytes -> bytes -> Prop :=
  | ac_bare i m rest : accepted i m (frame_word [] true ++ rest) [] rest
  | ac_last i m c pt tr rest :
      frame_opens i true c pt -> len tr = 64 -> trailer_ok (m ++ frame_word pt true ++ pt) tr ->
      accepted i m (frame_word pt true ++ c ++ tr ++ rest) [pt] rest
  | ac_more i m c pt s outs rest :
      frame_opens i false c pt -> accepted (i + 1) (m ++ frame_word pt false ++ pt) s outs rest ->
      accepted i m (frame_word pt false ++ c ++ s) (pt :: outs) rest.

  (** [opened i s outs]: [s] starts with authentic frames i, i+1, ... of plaintexts [outs] *)
  Inductive opened : Z -> bytes -> list bytes -> Prop :=
  | op_nil i s : opened i s []
  | op_last i c pt s : frame_opens i true c pt -> opened i (frame_word pt true ++ c ++ s) [pt]
  | op_more i c pt s outs : frame_opens i false c pt -> opened (i + 1) s outs ->
      opened i (frame_word pt false ++ c ++ s) (pt :: outs).
End Accept.

(** No AEAD forgery in the received bytes [s]: whatever piece of [s] opens under the data key as frame number
    i is one of the frames [cs] the sender sealed under that number. *)
Definition no_forgery (C : crypto) (fk : file_keys) (cs : list bytes) (s : bytes) : Prop :=
  forall pre w c post i pt, s = pre ++ w ++ c ++ post -> len w = 4 ->
    gcm_open C (fk_data fk) (frame_nonce (fk_base fk) i) c w = Some pt ->
    exists j, nth_error cs j = Some pt /\ be32 (Z.of_nat j) = be32 i /\
              w = frame_word pt (Nat.eqb (S j) (length cs)).

(** ** What NewDecryptor may accept *)
(** [s] starts with a well-formed sigtool header that decodes to [h] with matching checksum [ck]; [rest]
    follows it *)
Definition valid_header (C : crypto) (s : bytes) (h : header) (ck rest : bytes) : Prop :=
  exists var, let fixed := str "SigTool" ++ [x03] ++ be32 (len var) in
    s = fixed ++ var ++ ck ++ rest /\ ck = sha256 C (fixed ++ var) /\ len ck = 32 /\
    32 <= len var <= 1048576 /\ unmarshal_header var = Ok h /\
    1 <= h_chunk h < 2^30 /\ len (h_salt h) = 32 /\ h_keys h <> [] /\
    Forall (fun w => 32 < len (w_dkey w)) (h_keys h).

(** ** A recipient opening a file *)
(** NewDecryptor(rd) then SetPrivateKey(sk, spk), both successful, give decryptor [d] *)
Definition opened_by (C : crypto) (rd : reader) (sk : privkey) (spk : option pubkey) (d : decryptor) : Prop :=
  exists d0 rd' sk', new_decryptor C rd = (Ok d0, rd') /\ set_private_key C d0 sk spk = (d, sk', Ok tt).

(** the sender key a recipient has to supply: the sender's public key for a signed file, anything for an
    anonymous one *)
Definition sender_matches (C : crypto) (sender : option privkey) (spk : option pubkey) : Prop :=
  match sender with
  | None => True
  | Some ssk => exists seed pk, keypair C seed ssk /\ spk = Some pk /\ pubof C seed pk
  end.

(** the root key which the private key of [seed] gets from a header: what the first wrapped key that opens
    contains *)
Definition unwraps (C : crypto) (h : header) (seed root : bytes) : Prop :=
  exists pre w post, h_keys h = pre ++ w :: post /\
    opens C h (scalar_of C seed) (ed_public C seed) w = Some root /\
    Forall (fun w => opens C h (scalar_of C seed) (ed_public C seed) w = None) pre.

(** the trailer check of a decryptor that was told sender [spk] *)
Definition trailer_check (C : crypto) (auth : bool) (spk : option pubkey) (hk data tr : bytes) : Prop :=
  auth = true -> exists pk, spk = Some pk /\ signed_by C (pk_Pk pk) (hmac_sha256 C hk data) tr.

(** the ephemeral key and the wrapped keys of the header have the lengths every produced header has, and the
    ephemeral key is no low-order point (X25519 refuses those): unwrapping never aborts *)
Definition regular (C : crypto) (h : header) (seed : bytes) : Prop :=
  len (h_pk h) = 32 /\ x25519 C (scalar_of C seed) (h_pk h) <> zeros 32 /\ Forall (fun w => len (w_dkey w) = 48) (h_keys h).
