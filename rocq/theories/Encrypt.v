(** /repo/sign/encrypt.go, encryption side. *)
From Verif Require Import Bytes GoErr GoIO Pb Crypto Keys Sign.

(** encrypt.go:83-103 *)
Definition sigtool_version : Z := 3.
Definition chunk_default : Z := 4 * 1048576.
Definition max_chunk : Z := 2^30.
Definition eof_bit : Z := 2^31.
Definition magic : bytes := str "SigTool".
Definition fixed_hdr_len : Z := 12.
Definition aes_key_size : Z := 32.
Definition aead_nonce_size : Z := 12.
Definition salt_size : Z := 32.
Definition rx_nonce_size : Z := 12.
Definition sha256_size : Z := 32.
Definition sig_size : Z := 64.
Definition wrap_receiver : bytes := str "Receiver Key".
Definition wrap_sender : bytes := str "Sender Sig".
Definition data_key_expansion : bytes := str "Data Key Expansion".

(** encrypt.go:105-125.  [e_buflen] is len(e.buf); its contents are only live inside one call.
    [e_ae] is the key of the AEAD (None = nil interface), [e_hmac] the HMAC key and the data written so far. *)
Record encryptor : Type := mkEnc {
  e_hdr : header;
  e_key : bytes;
  e_nonce : bytes;
  e_buflen : Z;
  e_ae : option bytes;
  e_hmac : option (bytes * bytes);
  e_encSK : bytes;
  e_sender : option privkey;
  e_auth : bool;
  e_started : bool;
  e_stream : bool }.

(** encrypt.go:863-871 expand *)
Definition expand (C : crypto) (n : Z) (shared salt ad : bytes) : bytes := hkdf_sha512 C shared salt ad n.

(** encrypt.go:873-881 newSender: (sk, pk); multiplication of the Basepoint cannot fail *)
Definition new_sender (C : crypto) (g : rng) : (bytes * bytes) * rng :=
  let '(r, g) := rand_buf 32 g in
  let csk := clamp r in
  ((csk, x25519 C csk basepoint), g).

(** encrypt.go:130-139 *)
Definition block_size (blksize : Z) : Z :=
  if blksize =? 0 then chunk_default
  else if max_chunk <? blksize then max_chunk
  else u32 blksize.

(** encrypt.go:658-664 and 732-738: what the sender signs *)
Definition sender_cksum (C : crypto) (pk salt key : bytes) : bytes :=
  sha256 C (magic ++ [z2b sigtool_version] ++ pk ++ salt ++ key).

(** encrypt.go:644-696 addSenderSig: the value of the header's Sender field, and e.auth *)
Definition add_sender_sig (C : crypto) (sender : option privkey) (pk salt key : bytes)
  : res (bytes * bool) :=
  '(sig, auth) <-
    match sender with
    | Some sk =>
        match sign_message C sk (sender_cksum C pk salt key) with
        | Ok s => Ok (sig_Sig s, true)
        | Fail e => Fail (EWrap "wrap: can't sign" e)
        | Panic w => Panic w
        end
    | None => Ok (zeros sig_size, false)
    end ;;
  let buf := expand C (aes_key_size + aead_nonce_size) key salt wrap_sender in
  let ekey := take aes_key_size buf in
  let nonce := drop aes_key_size buf in
  ae <- wrapf "senderId" (new_gcm ekey) ;;
  Ok (gcm_seal C ae nonce sig [], auth).

(** encrypt.go:127-167 NewEncryptor *)
Definition new_encryptor (C : crypto) (sk : option privkey) (blksize : Z) (g : rng)
  : res encryptor * rng :=
  let blksz := block_size blksize in
  let '((esk, epk), g) := new_sender C g in
  let '(key, g) := rand_buf aes_key_size g in
  let '(salt, g) := rand_buf salt_size g in
  (match add_sender_sig C sk epk salt key with
   | Ok (snd_, auth) =>
       Ok (mkEnc (mkHeader blksz salt epk snd_ [] []) key [] 0 None None esk sk auth false false)
   | Fail e => Fail (EWrap "encrypt" e)
   | Panic w => Panic w
   end, g).

(** encrypt.go:755-796 wrapKey: the wrapped key, the recipient object with its cache filled, and the
    random source *)
Definition wrap_key (C : crypto) (e : encryptor) (pk : pubkey) (g : rng) : res (wkey * pubkey) * rng :=
  match to_curve_pk pk with
  | Fail x => (Fail x, g)
  | Panic w => (Panic w, g)
  | Ok (rxPK, pk') =>
      match X25519 C (e_encSK e) rxPK with
      | Fail x => (Fail (EWrap "wrap" x), g)
      | Panic w => (Panic w, g)
      | Ok sekrit =>
          let '(rbuf, g) := rand_buf rx_nonce_size g in
          let shasum := sha256 C (h_salt (e_hdr e) ++ rbuf) in
          let buf := expand C (aes_key_size + rx_nonce_size) sekrit shasum wrap_receiver in
          let kek := take aes_key_size buf in
          let nonce := drop aes_key_size buf in
          (ae <- wrapf "wrap" (new_gcm kek) ;;
           Ok (mkWkey (gcm_seal C ae nonce (e_key e) (pk_Pk pk)) rbuf [], pk'), g)
      end
  end.

Definition e_with_hdr (e : encryptor) (h : header) : encryptor :=
  mkEnc h (e_key e) (e_nonce e) (e_buflen e) (e_ae e) (e_hmac e) (e_encSK e) (e_sender e)
        (e_auth e) (e_started e) (e_stream e).
Definition h_add_key (h : header) (w : wkey) : header :=
  mkHeader (h_chunk h) (h_salt h) (h_pk h) (h_sender h) (h_keys h ++ [w]) (h_unk h).

(** encrypt.go:169-181 AddRecipient.  The recipient object is also returned (its cache may have been
    filled; on an X25519 failure the cache is filled too). *)
Definition add_recipient (C : crypto) (e : encryptor) (pk : pubkey) (g : rng)
  : encryptor * pubkey * rng * res unit :=
  if e_started e then (e, pk, g, Fail ErrEncStarted)
  else
    match wrap_key C e pk g with
    | (Ok (w, pk'), g) => (e_with_hdr e (h_add_key (e_hdr e) w), pk', g, Ok tt)
    | (Fail x, g) =>
        (e, match to_curve_pk pk with Ok (_, pk') => pk' | _ => pk end, g, Fail x)
    | (Panic p, g) => (e, pk, g, Panic p)
    end.

(** encrypt.go:224-284 start: header assembly, key derivation, header output *)
Definition fixed_header (varSize : Z) : bytes :=
  magic ++ [z2b sigtool_version] ++ be32 (u32 varSize).

Definition enc_start (C : crypto) (e : encryptor) (w : writer) : encryptor * writer * res unit :=
  let varSize := size_header (e_hdr e) in
  match marshal_to (e_hdr e) varSize with
  | Fail x => (e, w, Fail (EWrap "encrypt: can't marshal header" x))
  | Panic p => (e, w, Panic p)
  | Ok varHdr =>
      let hdr := fixed_header varSize ++ varHdr in
      let cksum := sha256 C hdr in
      let buf := expand C (sha256_size + aes_key_size + aead_nonce_size) (e_key e) cksum data_key_expansion in
      let nonce := take aead_nonce_size buf in
      let buf := drop aead_nonce_size buf in
      let dkey := take aes_key_size buf in
      let hmackey := drop aes_key_size buf in
      let e1 := mkEnc (e_hdr e) (e_key e) nonce (e_buflen e) (e_ae e) (e_hmac e) (e_encSK e)
                      (e_sender e) (e_auth e) (e_started e) (e_stream e) in
      match new_gcm dkey with
      | Fail x => (e1, w, Fail (EWrap "encrypt" x))
      | Panic p => (e1, w, Panic p)
      | Ok ae =>
          let e2 := mkEnc (e_hdr e) (e_key e) nonce (e_buflen e) (Some ae) (e_hmac e) (e_encSK e)
                          (e_sender e) (e_auth e) (e_started e) (e_stream e) in
          match fullwrite (hdr ++ cksum) w with
          | (Some x, w') => (e2, w', Fail (EWrap "encrypt" x))
          | (None, w') =>
              (mkEnc (e_hdr e) (e_key e) nonce (u32 (h_chunk (e_hdr e) + 4 + gcm_overhead)) (Some ae)
                     (Some (hmackey, [])) (e_encSK e) (e_sender e) (e_auth e) true (e_stream e),
               w', Ok tt)
          end
      end
  end.

(** copy(nonce[:], src) into a zeroed 12-byte array, then PutUint32(nonce[:4], i): encrypt.go:300-303, 588-590 *)
Definition chunk_nonce (src : bytes) (i : Z) : bytes :=
  let n := take 12 src ++ zeros (12 - len (take 12 src)) in
  be32 i ++ drop 4 n.

(** encrypt.go:328-356 writeTrailer *)
Definition write_trailer (C : crypto) (e : encryptor) (w : writer) (g : rng)
  : writer * rng * res unit :=
  let '(tr, g) :=
    match e_auth e with
    | true =>
        (match e_hmac e, e_sender e with
         | Some (k, d), Some sk =>
             match sign_message C sk (hmac_sha256 C k d) with
             | Ok s => Ok (sig_Sig s)
             | Fail x => Fail (EWrap "encrypt: trailer" x)
             | Panic p => Panic p
             end
         | _, _ => Panic "nil pointer dereference"
         end, g)
    | false => let '(r, g) := rand_buf sig_size g in (Ok r, g)
    end in
  match tr with
  | Ok tr =>
      match fullwrite tr w with
      | (Some x, w') => (w', g, Fail (EWrap "encrypt: trailer" x))
      | (None, w') => (w', g, Ok tt)
      end
  | Fail x => (w, g, Fail x)
  | Panic p => (w, g, Panic p)
  end.

(** encrypt.go:286-326 encrypt: exactly one block *)
Definition enc_block (C : crypto) (e : encryptor) (pt : bytes) (w : writer) (i : Z) (eof : bool) (g : rng)
  : encryptor * writer * rng * res unit :=
  let z := u32 (len pt) in
  let z := if eof then Z.lor z eof_bit else z in
  match e_ae e, e_hmac e with
  | Some k, Some (hk, hd) =>
      let b := be32 z in
      let ct := gcm_seal C k (chunk_nonce (e_nonce e) i) pt b in
      (* the ciphertext must land inside e.buf: otherwise Seal allocates elsewhere and e.buf[:n] panics *)
      if e_buflen e <? len ct + 4 then (e, w, g, Panic "slice bounds out of range")
      else
        match fullwrite (b ++ ct) w with
        | (Some x, w') => (e, w', g, Fail (EWrap "encrypt" x))
        | (None, w') =>
            let e' := mkEnc (e_hdr e) (e_key e) (e_nonce e) (e_buflen e) (e_ae e)
                            (Some (hk, hd ++ b ++ pt)) (e_encSK e) (e_sender e) (e_auth e)
                            (e_started e) (e_stream e) in
            if eof then
              let '(w', g, r) := write_trailer C e' w' g in (e', w', g, r)
            else (e', w', g, Ok tt)
        end
  | _, _ => (e, w, g, Panic "nil pointer dereference")
  end.

(** total number of bytes a reader script still holds (bounds the number of loop rounds) *)
Fixpoint rd_size (r : reader) : nat :=
  match r with [] => O | (b, _) :: r' => (length b + rd_size r')%nat end.

(** encrypt.go:198-219: the read/encrypt loop.  Every round but the last consumes a full chunk, so the
    fuel [1 + bytes left] is never exhausted when ChunkSize >= 1 (it always is, see block_size). *)
Fixpoint enc_loop (C : crypto) (fuel : nat) (e : encryptor) (r : reader) (w : writer) (i : Z) (g : rng)
  : encryptor * reader * writer * rng * res unit :=
  match fuel with
  | O => (e, r, w, g, Panic "encrypt: out of fuel")
  | S f =>
      let '(b, err, r) := read_full r (h_chunk (e_hdr e)) in
      let eof := match err with
                 | None => Ok false
                 | Some IoEOF | Some ErrClosedPipe | Some ErrUnexpectedEOF => Ok true
                 | Some x => Fail (EWrap "encrypt: I/O read error" x)
                 end in
      match eof with
      | Ok eof =>
          let '(e, w, g, rs) := enc_block C e b w i eof g in
          match rs with
          | Ok _ => if eof then (e, r, w, g, Ok tt) else enc_loop C f e r w (u32 (i + 1)) g
          | x => (e, r, w, g, x)
          end
      | Fail x => (e, r, w, g, Fail x)
      | Panic p => (e, r, w, g, Panic p)
      end
  end.

(** encrypt.go:183-222 Encrypt *)
Definition encrypt (C : crypto) (e : encryptor) (r : reader) (w : writer) (g : rng)
  : encryptor * reader * writer * rng * res unit :=
  if e_stream e then (e, r, w, g, Fail ErrEncIsStream)
  else
    let '(e, w, rs) := if e_started e then (e, w, Ok tt) else enc_start C e w in
    match rs with
    | Ok _ =>
        let '(e, r, w, g, rs) := enc_loop C (S (rd_size r)) e r w 0 g in
        match rs with
        | Ok _ => match w_close w with
                  | (None, w) => (e, r, w, g, Ok tt)
                  | (Some x, w) => (e, r, w, g, Fail x)
                  end
        | x => (e, r, w, g, x)
        end
    | x => (e, r, w, g, x)
    end.
