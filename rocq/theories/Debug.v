(** The debugging messages of package sign (sign.Debug, the --debug option of sigtool): /repo/sign/encrypt.go:280-281, 510-511, 892-911;
    /repo/src/sigtool.go:38, 82-84. *)
From Verif Require Import Bytes GoErr GoIO Pb Crypto Keys Encrypt Decrypt Stream SpecCalls Flags.

(** fmt's verb %x for a []byte: two lower-case digits for every byte *)
Definition hex_digit (d : Z) : byte := z2b (if d <? 10 then 48 + d else 87 + d).
Fixpoint hex (s : bytes) : bytes :=
  match s with [] => [] | b :: s' => hex_digit (b2z b / 16) :: hex_digit (b2z b mod 16) :: hex s' end.

(** encrypt.go:900-911 debug: what it writes to standard error; [level] is the variable _debug (encrypt.go:892-898).  The texts are never
    empty, so z[n-1] exists. *)
Definition debug (level : Z) (z : bytes) : bytes :=
  if level <=? 0 then []
  else if Byte.eqb (last z x00) x0a then z else z ++ [x0a].

(** encrypt.go:280, 510: the format and its four arguments *)
Definition debug_text (who : string) (cksum key nonce hmackey : bytes) : bytes :=
  str who ++ str ":" ++ [x0a; x09] ++ str "hdr-cksum: " ++ hex cksum ++ [x0a; x09] ++ str "aes-key: " ++ hex key ++
  [x0a; x09] ++ str "nonce: " ++ hex nonce ++ [x0a; x09] ++ str "hmac-key: " ++ hex hmackey ++ [x0a].

(** encrypt.go:224-284 start: the message comes last, when everything else has succeeded *)
Definition start_debug (C : crypto) (level : Z) (e : encryptor) (w : writer) : bytes :=
  match enc_start C e w with
  | (e', _, Ok _) =>
      match e_ae e', e_hmac e', marshal_to (e_hdr e) (size_header (e_hdr e)) with
      | Some dkey, Some (hmackey, _), Ok varHdr =>
          debug level (debug_text "encrypt" (sha256 C (fixed_header (size_header (e_hdr e)) ++ varHdr)) dkey (e_nonce e') hmackey)
      | _, _, _ => []
      end
  | _ => []
  end.
(** the calls that reach start: Encrypt (encrypt.go:186-196), NewStreamWriter (stream.go:37-41) *)
Definition estep_debug (C : crypto) (level : Z) (st : eobj) (c : ecall) : bytes :=
  let e := es_enc st in
  match c with
  | EEncrypt _ wr => if e_stream e then [] else if e_started e then [] else start_debug C level e wr
  | EStream wr => if e_started e then [] else start_debug C level e wr
  | _ => []
  end.
(** encrypt.go:464-517 SetPrivateKey: the message comes after everything that can fail *)
Definition dstep_debug (C : crypto) (level : Z) (st : dobj) (c : dcall) : bytes :=
  match c with
  | DSet sk spk =>
      match set_private_key C (ds_dec st) sk spk with
      | (d, _, Ok _) =>
          match d_ae d, d_hmac d with
          | Some dkey, Some (hmackey, _) => debug level (debug_text "decrypt" (d_hdrsum d) dkey (d_nonce d) hmackey)
          | _, _ => []
          end
      | _ => []
      end
  | _ => []
  end.
(** what each call of a history writes to standard error *)
Fixpoint ecalls_debug (C : crypto) (level : Z) (st : eobj) (cs : list ecall) : list bytes :=
  match cs with
  | [] => []
  | c :: cs' => estep_debug C level st c :: ecalls_debug C level (fst (estep C st c)) cs'
  end.
Fixpoint dcalls_debug (C : crypto) (level : Z) (st : dobj) (cs : list dcall) : list bytes :=
  match cs with
  | [] => []
  | c :: cs' => dstep_debug C level st c :: dcalls_debug C level (fst (dstep C st c)) cs'
  end.

(** sigtool.go:38, 82-84: the level a command runs at; None: the words do not parse *)
Definition debug_level (argv : list bytes) : option Z :=
  match parse_args main_flags false argv with
  | PGood s _ => Some (if get_bool s (str "debug") false then 1 else 0)
  | _ => None
  end.
