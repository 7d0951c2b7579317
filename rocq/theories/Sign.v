(** /repo/sign/sign.go: message and file signatures; /repo/sign/iomisc.go: file checksum. *)
From Verif Require Import Bytes GoErr Crypto Keys.

(** sign.go:34-37 *)
Record signature : Type := mkSig { sig_Sig : bytes; sig_pkhash : bytes }.

(** sign.go:45-48 and 167-170: what is actually signed/verified *)
Definition msg_digest (C : crypto) (ck : bytes) : bytes :=
  sha512 C (str "sigtool signed message" ++ ck).

(** sign.go:44-63 SignMessage (the comment argument is unused by the code) *)
Definition sign_message (C : crypto) (sk : privkey) (ck : bytes) : res signature :=
  s <- Ed_Sign C (sk_Sk sk) (msg_digest C ck) ;;
  Ok (mkSig s (pk_hash (sk_pk sk))).

(** sign.go:166-174 VerifyMessage *)
Definition verify_message (C : crypto) (pk : pubkey) (ck : bytes) (s : signature) : res bool :=
  Ed_Verify C (pk_Pk pk) (msg_digest C ck) (sig_Sig s).

(** sign.go:149-151 IsPKMatch *)
Definition is_pk_match (s : signature) (pk : pubkey) : bool := beq (pk_hash pk) (sig_pkhash s).

(** A file argument as os.Open and go-mmap's Reader (external) present it: it cannot be opened, or Reader maps it
    window by window (any number of windows of any size, in file order), hands each one to the callback and ends with
    an error or with the number of bytes handed over. *)
Inductive file_in : Type :=
| Unopenable (e : goerr)
| Opened (windows : list bytes) (rerr : option goerr).

(** iomisc.go:45-67 fileCksum with h = sha512.  [h] below is the byte string written to the hash so far (hash.Hash). *)
Definition file_cksum (C : crypto) (f : file_in) : res bytes :=
  match f with
  | Unopenable _ => Fail (EMsg "can't open %s: %s")
  | Opened windows rerr =>
      let h := fold_left (fun h b => h ++ b) windows [] in
      let sz := fold_left (fun n b => n + len b) windows 0 in
      match rerr with
      | Some e => Fail e
      | None => Ok (sha512 C (h ++ be64 sz))
      end
  end.

(** sign.go:70-78 SignFile *)
Definition sign_file (C : crypto) (sk : privkey) (f : file_in) : res signature :=
  ck <- file_cksum C f ;; sign_message C sk ck.

(** sign.go:155-162 VerifyFile *)
Definition verify_file (C : crypto) (pk : pubkey) (f : file_in) (s : signature) : res bool :=
  ck <- file_cksum C f ;; verify_message C pk ck s.
