(** Specification vocabulary for signatures of messages and files (C30, C31). *)
From Verif Require Import Bytes GoErr Crypto Keys Sign.

(** the 16-byte name of a public key carried by key objects and signatures *)
Definition named (C : crypto) (pk : pubkey) : Prop := pk_hash pk = take 16 (sha256 C (pk_Pk pk)).

(** the file can be opened and read, and holds [content] - however it is split into windows *)
Definition holds (f : file_in) (content : bytes) : Prop :=
  exists windows, f = Opened windows None /\ concat windows = content.
(** it cannot be opened, or reading it fails at some point *)
Definition unreadable (f : file_in) : Prop :=
  match f with Unopenable _ => True | Opened _ e => e <> None end.

(** what is hashed for a file: its content, then its size as a big-endian 64-bit number *)
Definition file_hash_input (content : bytes) : bytes := content ++ be64 (len content).
(** what is hashed for a message given to SignMessage/VerifyMessage *)
Definition msg_hash_input (m : bytes) : bytes := str "sigtool signed message" ++ m.
