(** /repo/sign/encrypt.go, decryption side. *)
From Verif Require Import Bytes GoErr GoIO Pb Crypto Keys Sign Encrypt.

(** encrypt.go:358-376.  [d_buf] is the content of the I/O buffer as far as it has been written
    (the rest is zero), [d_buflen] its length.  [d_ae]/[d_hmac] as in the encryptor. *)
Record decryptor : Type := mkDec {
  d_hdr : header;
  d_ae : option bytes;
  d_hmac : option (bytes * bytes);
  d_sender : option pubkey;
  d_rd : reader;
  d_buf : bytes;
  d_buflen : Z;
  d_nonce : bytes;
  d_key : option bytes;
  d_hdrsum : bytes;
  d_auth : bool;
  d_eof : bool;
  d_stream : bool }.

(** encrypt.go:453-458 *)
Fixpoint wkeys_sane (ks : list wkey) : bool :=
  match ks with
  | [] => true
  | k :: ks' => if len (w_dkey k) <=? aes_key_size then false else wkeys_sane ks'
  end.

(** encrypt.go:378-461 NewDecryptor; also returns the reader position on failure *)
Definition new_decryptor (C : crypto) (r : reader) : res decryptor * reader :=
  let '(b, err, r) := read_full r fixed_hdr_len in
  match err with
  | Some x => (Fail (EWrap "decrypt: err while reading header" x), r)
  | None =>
      if negb (beq (take 7 b) magic) then (Fail ErrNotSigTool, r)
      else if negb (b2z (nth 7 b x00) =? sigtool_version) then (Fail (EMsg "decrypt: Unsupported version"), r)
      else
        let varSize := unbe32 (drop 8 b) in
        if 1048576 <? varSize then (Fail ErrHeaderTooBig, r)
        else if varSize <? 32 then (Fail ErrHeaderTooSmall, r)
        else
          let '(varBuf, err, r) := read_full r (u32 (varSize + sha256_size)) in
          match err with
          | Some x => (Fail (EWrap "decrypt: error while reading header" x), r)
          | None =>
              let verify := drop varSize varBuf in
              let cksum := sha256 C (b ++ take varSize varBuf) in
              if negb (beq verify cksum) then (Fail ErrBadHeader, r)
              else
                match unmarshal_header (take varSize varBuf) with
                | Fail x => (Fail (EWrap "decrypt: decode error" x), r)
                | Panic p => (Panic p, r)
                | Ok h =>
                    if (h_chunk h =? 0) || (max_chunk <=? h_chunk h)
                    then (Fail (EMsg "decrypt: invalid chunkSize"), r)
                    else if negb (len (h_salt h) =? salt_size)
                    then (Fail (EMsg "decrypt: invalid nonce length"), r)
                    else if len (h_keys h) =? 0 then (Fail ErrNoWrappedKeys, r)
                    else if negb (wkeys_sane (h_keys h))
                    then (Fail (EMsg "decrypt: wrapped key: wrong-size encrypted key"), r)
                    else (Ok (mkDec h None None None r [] 0 [] None cksum false false false), r)
                end
          end
  end.

(** encrypt.go:798-845 unwrapKey: Ok None is "not for us" (nil, nil) *)
Definition unwrap_key (C : crypto) (h : header) (w : wkey) (sk : privkey) : res (option bytes) * privkey :=
  let '(ourSK, sk') := to_curve_sk C sk in
  (match X25519 C ourSK (h_pk h) with
   | Fail x => Fail (EWrap "unwrap" x)
   | Panic p => Panic p
   | Ok sekrit =>
       let shasum := sha256 C (h_salt h ++ w_nonce w) in
       let buf := expand C (aes_key_size + rx_nonce_size) sekrit shasum wrap_receiver in
       let kek := take aes_key_size buf in
       let nonce := drop aes_key_size buf in
       ae <- wrapf "wrap" (new_gcm kek) ;;
       if negb (len (w_dkey w) =? aes_key_size + gcm_overhead)
       then Fail (EMsg "unwrap: incorrect decrypt bytes")
       else Ok (gcm_open C ae nonce (w_dkey w) (pk_Pk (sk_pk sk)))
   end, sk').

(** encrypt.go:469-481: the first wrapped key that opens; an error on any earlier one aborts *)
Fixpoint find_key (C : crypto) (h : header) (ks : list wkey) (sk : privkey) : res bytes * privkey :=
  match ks with
  | [] => (Fail ErrBadKey, sk)
  | w :: ks' =>
      match unwrap_key C h w sk with
      | (Ok (Some key), sk') => (Ok key, sk')
      | (Ok None, sk') => find_key C h ks' sk'
      | (Fail x, sk') => (Fail (EWrap "decrypt: can't unwrap key" x), sk')
      | (Panic p, sk') => (Panic p, sk')
      end
  end.

(** encrypt.go:698-753 verifySender: Ok b where b tells that d.auth was set *)
Definition verify_sender (C : crypto) (h : header) (key : bytes) (senderPk : option pubkey) : res bool :=
  let buf := expand C (aead_nonce_size + aes_key_size) key (h_salt h) wrap_sender in
  let ekey := take aes_key_size buf in
  let nonce := drop aes_key_size buf in
  ae <- wrapf "unwrap" (new_gcm ekey) ;;
  match gcm_open C ae nonce (h_sender h) [] with
  | None => Fail (EWrap "unwrap: can't open sender info" (EMsg "cipher: message authentication failed"))
  | Some sig =>
      if beq (zeros sig_size) sig then Ok false
      else
        match senderPk with
        | None => Fail ErrNoSenderPK
        | Some pk =>
            ok <- verify_message C pk (sender_cksum C (h_pk h) (h_salt h) key) (mkSig sig []) ;;
            if negb ok then Fail ErrBadSender else Ok true
        end
  end.

(** encrypt.go:463-517 SetPrivateKey.  Note lines 475-476: key and sender are stored before the sender is
    verified, and d.auth is never reset. *)
Definition set_private_key (C : crypto) (d : decryptor) (sk : privkey) (senderPk : option pubkey)
  : decryptor * privkey * res unit :=
  match find_key C (d_hdr d) (h_keys (d_hdr d)) sk with
  | (Fail x, sk') => (d, sk', Fail x)
  | (Panic p, sk') => (d, sk', Panic p)
  | (Ok key, sk') =>
      let d1 auth := mkDec (d_hdr d) (d_ae d) (d_hmac d) senderPk (d_rd d) (d_buf d) (d_buflen d)
                           (d_nonce d) (Some key) (d_hdrsum d) auth (d_eof d) (d_stream d) in
      match verify_sender C (d_hdr d) key senderPk with
      | Fail x => (d1 (d_auth d), sk', Fail (EWrap "decrypt" x))
      | Panic p => (d1 (d_auth d), sk', Panic p)
      | Ok signed =>
          let auth := d_auth d || signed in
          let buf := expand C (sha256_size + aes_key_size + aead_nonce_size) key (d_hdrsum d) data_key_expansion in
          let nonce := take aead_nonce_size buf in
          let buf := drop aead_nonce_size buf in
          let dkey := take aes_key_size buf in
          let hmackey := drop aes_key_size buf in
          match new_gcm dkey with
          | Fail x => (mkDec (d_hdr d) (d_ae d) (Some (hmackey, [])) senderPk (d_rd d) (d_buf d) (d_buflen d)
                             nonce (Some key) (d_hdrsum d) auth (d_eof d) (d_stream d), sk', Fail (EWrap "decrypt" x))
          | Panic p => (d1 auth, sk', Panic p)
          | Ok ae =>
              (mkDec (d_hdr d) (Some ae) (Some (hmackey, [])) senderPk (d_rd d) []
                     (h_chunk (d_hdr d) + gcm_overhead) nonce (Some key) (d_hdrsum d) auth (d_eof d) (d_stream d),
               sk', Ok tt)
          end
      end
  end.

(** encrypt.go:519-523 AuthenticatedSender *)
Definition authenticated_sender (d : decryptor) : bool := d_auth d.

(** overwrite the start of the I/O buffer *)
Definition buf_put (got buf : bytes) : bytes := got ++ drop (len got) buf.

Definition d_with (d : decryptor) (hm : option (bytes * bytes)) (r : reader) (buf : bytes) : decryptor :=
  mkDec (d_hdr d) (d_ae d) hm (d_sender d) r buf (d_buflen d) (d_nonce d) (d_key d) (d_hdrsum d)
        (d_auth d) (d_eof d) (d_stream d).

(** encrypt.go:617-642 processTrailer, [m] = length of the chunk just decrypted *)
Definition process_trailer (C : crypto) (d : decryptor) (m : Z) : decryptor * res (Z * bool) :=
  let '(tr, err, r) := read_full (d_rd d) sig_size in
  let d' := d_with d (d_hmac d) r (d_buf d) in
  match err with
  | Some x => (d', Fail (EWrap "decrypt: premature EOF while reading trailer" x))
  | None =>
      if negb (d_auth d) then (d', Ok (m, true))
      else
        match d_hmac d, d_sender d with
        | Some (k, hd), Some pk =>
            match verify_message C pk (hmac_sha256 C k hd) (mkSig tr []) with
            | Ok true => (d', Ok (m, true))
            | Ok false => (d', Fail ErrBadTrailer)
            | Fail x => (d', Fail x)
            | Panic p => (d', Panic p)
            end
        | _, _ => (d', Panic "nil pointer dereference")
        end
  end.

(** encrypt.go:559-615 decrypt: one chunk.  The result (m, eof) says the plaintext is d.buf[:m]
    (m = 0 also stands for the nil slice of line 583). *)
Definition dec_chunk (C : crypto) (d : decryptor) (i : Z) : decryptor * res (Z * bool) :=
  match d_ae d with
  | None => (d, Panic "nil pointer dereference")         (* d.ae.Overhead(), line 561 *)
  | Some k =>
      let '(b, err, r) := read_full (d_rd d) 4 in
      let d1 := d_with d (d_hmac d) r (d_buf d) in
      if (match err with Some _ => true | None => false end) || (len b =? 0)
      then (d1, Fail (EMsg "decrypt: premature EOF while reading header block"))
      else
        let m := unbe32 b in
        let eof := 0 <? Z.land m eof_bit in
        let m := Z.land m (eof_bit - 1) in
        if h_chunk (d_hdr d) <? m then (d1, Fail (EMsg "decrypt: chunksize is too large"))
        else if m =? 0 then
          if negb eof then (d1, Fail (EMsg "decrypt: zero-sized chunk without EOF"))
          else (d1, Ok (0, true))
        else
          let nonce := chunk_nonce (d_nonce d) i in
          let z := u32 (m + gcm_overhead) in
          if d_buflen d <? z then (d1, Panic "slice bounds out of range")
          else
            let '(c, err, r) := read_full r z in
            let d2 := d_with d (d_hmac d) r (buf_put c (d_buf d)) in
            match err with
            | Some x => (d2, Fail (EWrap "decrypt: premature EOF while reading block" x))
            | None =>
                match gcm_open C k nonce c b with
                | None => (d_with d (d_hmac d) r (buf_put (zeros m) (d_buf d2)),
                           Fail (EWrap "decrypt: can't decrypt chunk" (EMsg "cipher: message authentication failed")))
                | Some pt =>
                    let buf' := buf_put pt (d_buf d2) in
                    if negb (u32 (len pt) =? m)
                    then (d_with d (d_hmac d) r buf', Fail (EMsg "decrypt: partial unsealed bytes"))
                    else
                      match d_hmac d with
                      | None => (d_with d None r buf', Panic "nil pointer dereference")
                      | Some (hk, hd) =>
                          let d3 := d_with d (Some (hk, hd ++ b ++ pt)) r buf' in
                          if eof then process_trailer C d3 m else (d3, Ok (m, false))
                      end
                end
            end
  end.

Definition d_set_eof (d : decryptor) (eof : bool) : decryptor :=
  mkDec (d_hdr d) (d_ae d) (d_hmac d) (d_sender d) (d_rd d) (d_buf d) (d_buflen d) (d_nonce d) (d_key d)
        (d_hdrsum d) (d_auth d) eof (d_stream d).

(** encrypt.go:539-556: the loop.  Every round consumes at least 4 bytes of the source, so the fuel
    [1 + bytes left] is never exhausted. *)
Fixpoint dec_loop (C : crypto) (fuel : nat) (d : decryptor) (w : writer) (i : Z) : decryptor * writer * res unit :=
  match fuel with
  | O => (d, w, Panic "decrypt: out of fuel")
  | S f =>
      match dec_chunk C d i with
      | (d, Ok (m, eof)) =>
          let c := take m (d_buf d) in
          let '(err, w) := if 0 <? m then fullwrite c w else (None, w) in
          match err with
          | Some x => (d, w, Fail (EWrap "decrypt" x))
          | None => if eof then (d_set_eof d true, w, Ok tt) else dec_loop C f d w (u32 (i + 1))
          end
      | (d, Fail x) => (d, w, Fail x)
      | (d, Panic p) => (d, w, Panic p)
      end
  end.

(** encrypt.go:525-557 Decrypt *)
Definition decrypt (C : crypto) (d : decryptor) (w : writer) : decryptor * writer * res unit :=
  match d_key d with
  | None => (d, w, Fail ErrNoKey)
  | Some _ =>
      if d_stream d then (d, w, Fail ErrDecStarted)
      else if d_eof d then (d, w, Fail IoEOF)
      else dec_loop C (S (rd_size (d_rd d))) d w 0
  end.
