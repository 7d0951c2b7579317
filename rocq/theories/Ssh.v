(** /repo/sign/ssh.go: OpenSSH keys. *)
From Verif Require Import Bytes GoErr Crypto Keys Base64 GoText.

(** ssh.go:107-120 parseString, and the identical function of golang.org/x/crypto/ssh *)
Definition parse_string (inp : bytes) : option (bytes * bytes) :=
  if len inp <? 4 then None
  else let length := unbe32 inp in
       let inp := drop 4 inp in
       if u32 (len inp) <? length then None
       else Some (take length inp, drop length inp).

(** golang.org/x/crypto/ssh.Unmarshal (external, v0.37.0 messages.go) for the structs used here: fields are uint32,
    string or []byte (both length-prefixed), or a final []byte `ssh:"rest"` *)
Inductive ssh_field : Type := FU32 | FString | FRest.
Inductive ssh_val : Type := VU32 (z : Z) | VBytes (b : bytes).
Fixpoint ssh_fields (fs : list ssh_field) (data : bytes) : option (list ssh_val * bytes) :=
  match fs with
  | [] => Some ([], data)
  | FU32 :: fs' =>
      if len data <? 4 then None
      else match ssh_fields fs' (drop 4 data) with Some (vs, r) => Some (VU32 (unbe32 data) :: vs, r) | None => None end
  | FString :: fs' =>
      match parse_string data with
      | Some (s, rest) => match ssh_fields fs' rest with Some (vs, r) => Some (VBytes s :: vs, r) | None => None end
      | None => None
      end
  | FRest :: fs' => match ssh_fields fs' [] with Some (vs, r) => Some (VBytes data :: vs, r) | None => None end
  end.
Definition ssh_unmarshal (fs : list ssh_field) (data : bytes) : option (list ssh_val) :=
  if len data =? 0 then None
  else match ssh_fields fs data with
       | Some (vs, []) => Some vs
       | _ => None
       end.
Definition err_ssh : goerr := EMsg "ssh: unmarshal error".

(** ssh.KeyAlgoED25519 *)
Definition algo_ed25519 : bytes := str "ssh-ed25519".

(** ssh.go:69-105 parseEncPubKey.  [Ok None] is the (nil, nil) returned for another algorithm. *)
Definition parse_enc_pubkey (C : crypto) (inp comm : bytes) : res (option pubkey) :=
  inp <- b64_decode inp ;;
  match parse_string inp with
  | None => Fail ErrKeyTooShort
  | Some (algo, inp) =>
      if negb (beq algo algo_ed25519) then Ok None
      else match ssh_unmarshal [FString; FRest] inp with
           | Some [VBytes key; VBytes rest] =>
               if 0 <? len rest then Fail ErrBadTrailers
               else pk <- make_public_from_bytes C zero_pub key ;;
                    Ok (Some (mkPub (pk_Pk pk) (trim_space comm) (pk_ck pk) (pk_hash pk)))
           | _ => Fail err_ssh
           end
  end.

(** ssh.go:59-67 parseSSHPublicKey *)
Definition parse_ssh_pubkey (C : crypto) (inp : bytes) : res (option pubkey) :=
  match split_blanks inp [] false with
  | [_; v1; v2] => parse_enc_pubkey C v1 v2
  | _ => Fail ErrBadPublicKey
  end.

(** ssh.go:124-137 parseAuthorizedKey *)
Definition parse_authorized_key (C : crypto) (inp : bytes) : res (option pubkey) :=
  let inp := trim_space inp in
  let i := match find_byte is_blank inp with Some i => i | None => len inp end in
  parse_enc_pubkey C (take i inp) (drop i inp).

(** ssh.go:185-201: the index i after scanning the options field ([i]: index of the head of [l]; [prev]: in[i-1]).
    The collected candidateOptions are never used.  If the loop is not broken out of, i is the last index. *)
Fixpoint opt_end (l : bytes) (i : Z) (prev : byte) (inq : bool) : Z :=
  match l with
  | [] => i - 1
  | b :: l' =>
      if negb inq && is_blank b then i
      else opt_end l' (i + 1) b (if Byte.eqb b x22 && ((i =? 0) || negb (Byte.eqb prev x5c)) then negb inq else inq)
  end.
(** ssh.go:202-204 *)
Fixpoint skip_blanks (s : bytes) : bytes :=
  match s with c :: s' => if is_blank c then skip_blanks s' else s | [] => [] end.

(** ssh.go:154-223: what one line contributes *)
Definition auth_line (C : crypto) (inp : bytes) : res (list pubkey) :=
  let inp := match find_byte (Byte.eqb x0d) inp with Some e => take e inp | None => inp end in
  let inp := trim_space inp in
  match inp with
  | [] => Ok []
  | x23 :: _ => Ok []
  | _ =>
      match find_byte is_blank inp with
      | None => Ok []
      | Some i =>
          match parse_authorized_key C (drop i inp) with
          | Ok (Some pk) => Ok [pk]
          | Ok None => Ok []
          | Panic w => Panic w
          | Fail _ =>
              let inp := skip_blanks (drop (opt_end inp 0 x00 false) inp) in
              match inp with
              | [] => Ok []
              | _ => match find_byte is_blank inp with
                     | None => Ok []
                     | Some i => match parse_authorized_key C (drop i inp) with
                                 | Ok (Some pk) => Ok [pk]
                                 | Panic w => Panic w
                                 | _ => Ok []
                                 end
                     end
              end
          end
      end
  end.

(** ssh.go:141-227 ParseAuthorizedKeys: the loop; each round takes one line.  The fuel is the input's length
    (each round consumes at least one byte). *)
Fixpoint auth_loop (C : crypto) (fuel : nat) (inp : bytes) (pka : list pubkey) : res (list pubkey) :=
  match fuel with
  | O => Ok pka
  | S f =>
      if len inp =? 0 then Ok pka
      else let '(line, rest) := match find_byte (Byte.eqb x0a) inp with
                                | Some e => (take e inp, drop (e + 1) inp)
                                | None => (inp, [])
                                end in
           ks <- auth_line C line ;; auth_loop C f rest (pka ++ ks)
  end.
Definition parse_authorized_keys (C : crypto) (inp : bytes) : res (list pubkey) :=
  auth_loop C (List.length inp) inp [].

(** what getpw is: None = nil (calling it panics); otherwise the outcome of calling it *)
Definition getpw_fn : Type := option (res bytes).
Definition call_getpw (f : getpw_fn) : res bytes :=
  match f with Some r => r | None => Panic "nil function call" end.

(** bcrypt_pbkdf.Key(password, salt, rounds, 48) with its parameter checks (external) *)
Definition bcrypt_key (C : crypto) (pw salt : bytes) (rounds : Z) : res bytes :=
  if rounds <? 1 then Fail (EMsg "bcrypt_pbkdf: number of rounds is too small")
  else if len pw =? 0 then Fail (EMsg "bcrypt_pbkdf: empty password")
  else if (len salt =? 0) || (2^20 <? len salt) then Fail (EMsg "bcrypt_pbkdf: bad salt size")
  else Ok (bcrypt_kdf C pw salt rounds).

(** ssh.go:358-384 extractBcryptIvBlock: (iv, AES key) *)
Definition extract_bcrypt (C : crypto) (pw kdfopts : bytes) : res (bytes * bytes) :=
  match ssh_unmarshal [FString; FU32] kdfopts with
  | Some [VBytes salt; VU32 rounds] =>
      k <- bcrypt_key C pw salt rounds ;; Ok (take 16 (drop 32 k), take 32 k)
  | _ => Fail err_ssh
  end.

(** ssh.go:336-340: padding bytes 1, 2, 3, ... *)
Fixpoint good_pad (pad : bytes) (i : Z) : bool :=
  match pad with [] => true | b :: pad' => (b2z b =? i + 1) && good_pad pad' (i + 1) end.

(** ssh.go:309-355: the decrypted private section *)
Definition open_section (C : crypto) (sect : bytes) (encrypted : bool) : res privkey :=
  match ssh_unmarshal [FU32; FU32; FString; FRest] sect with
  | Some [VU32 c1; VU32 c2; VBytes kt; VBytes rest] =>
      if negb (c1 =? c2) then Fail ErrIncorrectPassword
      else if negb (beq kt algo_ed25519) then Fail (EMsg "ssh: unhandled key type: %v")
      else match ssh_unmarshal [FString; FString; FString; FRest] rest with
           | Some [VBytes pub; VBytes priv; VBytes comment; VBytes pad] =>
               if negb (len priv =? 64) then Fail ErrBadLength
               else if negb (good_pad pad 0) then Fail ErrBadPadding
               else make_private_from_bytes C zero_priv priv
           | _ => Fail err_ssh
           end
  | _ => Fail (if encrypted then ErrIncorrectPassword else err_ssh)
  end.

(** ssh.go:229, 255: "openssh-key-v1" and a 0 byte *)
Definition openssh_magic : bytes := str "openssh-key-v1" ++ [x00].

(** ssh.go:254-307 parseOpenSSHPrivateKey.  [spare]: number of (zero) bytes between len(data) and cap(data): the slice
    expression data[0:15] may reach into them. *)
Definition parse_openssh_private (C : crypto) (data : bytes) (spare : Z) (getpw : getpw_fn) : res privkey :=
  if len data + spare <? len openssh_magic then Panic "slice bounds out of range"
  else if negb (beq openssh_magic (take (len openssh_magic) (data ++ zeros spare))) then Fail ErrBadFormat
  else if len data <? len openssh_magic then Panic "slice bounds out of range"
  else
    match ssh_unmarshal [FString; FString; FString; FU32; FString; FString] (drop (len openssh_magic) data) with
    | Some [VBytes cipher; VBytes kdf; VBytes kdfopts; VU32 numkeys; VBytes pubkey; VBytes block] =>
        if negb (numkeys =? 1) then Fail (EMsg "ssh: NumKeys must be 1: %d")
        else if beq kdf (str "bcrypt") && beq cipher (str "aes256-cbc") then
          pw <- call_getpw getpw ;;
          '(iv, key) <- extract_bcrypt C pw kdfopts ;;
          if negb (len block mod 16 =? 0) then Panic "crypto/cipher: input not full blocks"
          else open_section C (aes256_cbc_dec C key iv block) true
        else if beq kdf (str "bcrypt") && beq cipher (str "aes256-ctr") then
          pw <- call_getpw getpw ;;
          '(iv, key) <- extract_bcrypt C pw kdfopts ;;
          open_section C (aes256_ctr C key iv block) true
        else if beq kdf (str "none") && beq cipher (str "none") then open_section C block false
        else Fail (EMsg "ssh: unknown Cipher/KDF: %s:%s")
    | _ => Fail err_ssh
    end.

(** encoding/pem.Decode (external) of the first PEM block: its type, whether it has a DEK-Info header
    (x509.IsEncryptedPEMBlock), its bytes, and the spare capacity of that slice *)
Record pem_block : Type := mkPem { pem_type : bytes; pem_encrypted : bool; pem_bytes : bytes; pem_spare : Z }.

(** ssh.go:41-57 parseSSHPrivateKey, after pem.Decode *)
Definition parse_ssh_private (C : crypto) (block : option pem_block) (getpw : getpw_fn) : res privkey :=
  match block with
  | None => Fail ErrNoPEMFound
  | Some b =>
      if pem_encrypted b then Fail (EMsg "ssh: no support for legacy PEM encrypted keys")
      else if beq (pem_type b) (str "OPENSSH PRIVATE KEY") then parse_openssh_private C (pem_bytes b) (pem_spare b) getpw
      else Fail (EMsg "ssh: unsupported key type %q")
  end.
