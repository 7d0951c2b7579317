(** /repo/sign/keys.go, /repo/sign/sign.go: serialized keys and signatures. *)
From Verif Require Import Bytes GoErr GoIO Crypto Keys Sign Base64 GoText Ssh.

(** keys.go:77-94 serializedPrivKey, 97-101 serializedPubKey, 104-108 signature *)
Record spriv : Type := mkSpriv {
  sp_comment : bytes; sp_esk : bytes; sp_salt : bytes; sp_algo : bytes; sp_N : Z; sp_R : Z; sp_P : Z }.
Record spub : Type := mkSpub { su_comment : bytes; su_pk : bytes; su_hash : bytes }.
Record ssig : Type := mkSsig { ss_comment : bytes; ss_pkhash : bytes; ss_sig : bytes }.

(** External text codecs: gopkg.in/yaml.v2 and encoding/pem.
    [y_scalar s] is how yaml.Marshal writes the string s as a mapping value (plain, quoted, folded, ...), [y_int] an int;
    [y_priv], [y_pub], [y_sig] are yaml.Unmarshal into the three structs above (None = error). *)
Record ext : Type := mkExt {
  y_scalar : bytes -> bytes;
  y_int : Z -> bytes;
  y_priv : bytes -> option spriv;
  y_pub : bytes -> option spub;
  y_sig : bytes -> option ssig;
  pem_decode : bytes -> option pem_block }.

(** yaml.Marshal of a struct: its fields in order as "key: value\n"; "omitempty" fields are left out if "" or 0 *)
Definition y_field (k : string) (v : bytes) : bytes := str k ++ str ": " ++ v ++ [x0a].
Definition y_opt (E : ext) (k : string) (s : bytes) : bytes := if len s =? 0 then [] else y_field k (y_scalar E s).
Definition y_optint (E : ext) (k : string) (z : Z) : bytes := if z =? 0 then [] else y_field k (y_int E z).
Definition yaml_priv (E : ext) (r : spriv) : bytes :=
  y_opt E "comment" (sp_comment r) ++ y_field "esk" (y_scalar E (sp_esk r)) ++ y_opt E "salt" (sp_salt r) ++
  y_opt E "algo" (sp_algo r) ++ y_optint E "Z" (sp_N r) ++ y_optint E "r" (sp_R r) ++ y_optint E "p" (sp_P r).
Definition yaml_pub (E : ext) (r : spub) : bytes :=
  y_opt E "comment" (su_comment r) ++ y_field "pk" (y_scalar E (su_pk r)) ++ y_field "hash" (y_scalar E (su_hash r)).
Definition yaml_sig (E : ext) (r : ssig) : bytes :=
  y_opt E "comment" (ss_comment r) ++ y_opt E "pkhash" (ss_pkhash r) ++ y_field "signature" (y_scalar E (ss_sig r)).

(** keys.go:65-74 *)
Definition scrypt_N : Z := 2^19.
Definition scrypt_r : Z := 8.
Definition scrypt_p : Z := 1.
Definition sk_algo : bytes := str "scrypt-sha256".
(** cipher.AEAD.NonceSize() of GCM *)
Definition gcm_nonce_size : Z := 12.

(** keys.go:223-267 PrivateKey.MarshalBinary *)
Definition marshal_private (C : crypto) (E : ext) (sk : privkey) (comment pw : bytes) (g : rng) : res bytes * rng :=
  let pass := sha512 C pw in
  let '(salt, g) := rand_buf 32 g in
  match scrypt_key C pass salt scrypt_N scrypt_r scrypt_p with
  | Panic w => (Panic w, g)
  | Fail e => (Fail (EMsg "marshal: can't derive scrypt key: %s"), g)
  | Ok key =>
      match new_gcm key with
      | Panic w => (Panic w, g)
      | Fail e => (Fail (EMsg "marshal: %s"), g)
      | Ok ae =>
          let esk := gcm_seal C ae (take gcm_nonce_size salt) (sk_Sk sk) [] in
          (Ok (yaml_priv E (mkSpriv comment (b64_encode esk) (b64_encode salt) sk_algo scrypt_N scrypt_r scrypt_p)), g)
      end
  end.

(** keys.go:273 the text that selects the OpenSSH parser (bytes.Index(...) > 0) *)
Definition ssh_marker : bytes := str "OPENSSH PRIVATE KEY-".
Definition looks_openssh (b : bytes) : bool :=
  match index_sub ssh_marker b with Some i => 0 <? i | None => false end.

(** base64 DecodeString allocates len(s)/4*3 bytes: zero bytes between the length and the capacity of the result *)
Definition b64_spare (s out : bytes) : Z := len s / 4 * 3 - len out.

(** keys.go:272-341 PrivateKey.UnmarshalBinary: (the key object afterwards, error) *)
Definition unmarshal_private (C : crypto) (E : ext) (sk : privkey) (b : bytes) (getpw : getpw_fn) : privkey * res unit :=
  if looks_openssh b then
    match parse_ssh_private C (pem_decode E b) getpw with
    | Ok xk => (xk, Ok tt)
    | Fail e => (sk, Fail e)
    | Panic w => (sk, Panic w)
    end
  else
    let r :=
      pw <- match getpw with Some r => r | None => Ok [] end ;;
      let pwb := sha512 C pw in
      match y_priv E b with
      | None => Fail (EMsg "unmarshal priv key: can't parse YAML: %s")
      | Some ssk =>
          if (len (sp_salt ssk) =? 0) || (len (sp_esk ssk) =? 0) then Fail (EMsg "unmarshal priv key: not YAML format")
          else match b64_decode (sp_salt ssk) with
          | Panic w => Panic w | Fail _ => Fail (EMsg "unmarshal priv key: can't decode salt: %s")
          | Ok salt =>
          match b64_decode (sp_esk ssk) with
          | Panic w => Panic w | Fail _ => Fail (EMsg "unmarshal priv key: can't decode key: %s")
          | Ok esk =>
          match scrypt_key C pwb salt (sp_N ssk) (sp_R ssk) (sp_P ssk) with
          | Panic w => Panic w | Fail _ => Fail (EMsg "unmarshal priv key: can't derive key: %s")
          | Ok key =>
          match new_gcm key with
          | Panic w => Panic w | Fail _ => Fail (EMsg "unmarshal priv key: aes failure: %s")
          | Ok ae =>
              let full := salt ++ zeros (b64_spare (sp_salt ssk) salt) in
              if len full <? gcm_nonce_size then Panic "slice bounds out of range"
              else match gcm_open C ae (take gcm_nonce_size full) esk [] with
                   | None => Fail (EMsg "unmarshal priv key: wrong password")
                   | Some skb => make_private_from_bytes C sk skb
                   end
          end end end end
      end in
    match r with
    | Ok sk' => (sk', Ok tt)
    | Fail e => (sk, Fail e)
    | Panic w => (sk, Panic w)
    end.

(** keys.go:148-159 MakePrivateKey; ReadPrivateKey (135-146) is the same on the file's content *)
Definition make_private_key (C : crypto) (E : ext) (yml : bytes) (getpw : getpw_fn) : res privkey :=
  match unmarshal_private C E zero_priv yml getpw with
  | (sk, Ok _) => Ok sk
  | (_, Fail e) => Fail e
  | (_, Panic w) => Panic w
  end.
Definition read_private_key (C : crypto) (E : ext) (f : res bytes) (getpw : getpw_fn) : res privkey :=
  yml <- f ;; make_private_key C E yml getpw.

(** keys.go:473-482 PublicKey.MarshalBinary *)
Definition marshal_public (E : ext) (pk : pubkey) (comment : bytes) : bytes :=
  yaml_pub E (mkSpub comment (b64_encode (pk_Pk pk)) (b64_encode (pk_hash pk))).

(** keys.go:487-516 PublicKey.UnmarshalBinary: (the key object afterwards, error).  "*pk = *xk" with xk == nil panics. *)
Definition unmarshal_public (C : crypto) (E : ext) (pk : pubkey) (yml : bytes) : pubkey * res unit :=
  match parse_ssh_pubkey C yml with
  | Ok (Some xk) => (xk, Ok tt)
  | Ok None => (pk, Panic "nil pointer dereference")
  | Panic w => (pk, Panic w)
  | Fail _ =>
      match y_pub E yml with
      | None => (pk, Fail (EMsg "can't parse YAML: %s"))
      | Some spk =>
          if len (su_pk spk) =? 0 then (pk, Fail (EMsg "sign: not a YAML public key"))
          else match b64_decode (su_pk spk) with
               | Ok pkb => match make_public_from_bytes C pk pkb with
                           | Ok pk' => (pk', Ok tt)
                           | Fail e => (pk, Fail e)
                           | Panic w => (pk, Panic w)
                           end
               | Fail _ => (pk, Fail (EMsg "can't decode YAML:Pk: %s"))
               | Panic w => (pk, Panic w)
               end
      end
  end.

(** keys.go:362-370 MakePublicKey; ReadPublicKey (347-360) is the same on the file's content *)
Definition make_public_key (C : crypto) (E : ext) (yml : bytes) : res pubkey :=
  match unmarshal_public C E zero_pub yml with
  | (pk, Ok _) => Ok pk
  | (_, Fail e) => Fail e
  | (_, Panic w) => Panic w
  end.
Definition read_public_key (C : crypto) (E : ext) (f : res bytes) : res pubkey := yml <- f ;; make_public_key C E yml.

(** keys.go:373-393 MakePublicKeyFromString; [Ok None] is the (nil, nil) it returns for another OpenSSH algorithm *)
Definition make_public_from_string (C : crypto) (s : bytes) : res (option pubkey) :=
  match parse_enc_pubkey C s (str "command-line-pk") with
  | Ok r => Ok r
  | Panic w => Panic w
  | Fail _ => pkb <- b64_decode s ;; pk <- make_public_from_bytes C zero_pub pkb ;; Ok (Some pk)
  end.

(** sign.go:120-128 Signature.MarshalBinary *)
Definition marshal_signature (E : ext) (s : signature) (comment : bytes) : bytes :=
  yaml_sig E (mkSsig comment (b64_encode (sig_pkhash s)) (b64_encode (sig_Sig s))).

(** sign.go:93-118 makeSignature (UnmarshalBinary 132-135, ReadSignature 84-92): (the object afterwards, error) *)
Definition unmarshal_signature (E : ext) (s : signature) (b : bytes) : signature * res unit :=
  match y_sig E b with
  | None => (s, Fail (EMsg "can't parse YAML signature: %s"))
  | Some ss =>
      match b64_decode (ss_sig ss) with
      | Panic w => (s, Panic w)
      | Fail _ => (s, Fail (EMsg "can't decode Base64:Signature <%s>: %s"))
      | Ok sg =>
          match b64_decode (ss_pkhash ss) with
          | Panic w => (s, Panic w)
          | Fail _ => (s, Fail (EMsg "can't decode Base64:Pkhash <%s>: %s"))
          | Ok p => (mkSig sg p, Ok tt)
          end
      end
  end.
Definition zero_sig : signature := mkSig [] [].
Definition read_signature (E : ext) (f : res bytes) : res signature :=
  yml <- f ;;
  match unmarshal_signature E zero_sig yml with
  | (s, Ok _) => Ok s
  | (_, Fail e) => Fail e
  | (_, Panic w) => Panic w
  end.
