(** Vocabulary of C93: the debugging messages, and what someone who reads them can do. *)
From Verif Require Import Bytes GoErr GoIO Crypto Spec.

(** lower-case hexadecimal *)
Definition digit (d : nat) : byte := nth d (str "0123456789abcdef") x00.
Inductive hexed : bytes -> bytes -> Prop :=
| hx_nil : hexed [] []
| hx_byte b s t hi lo : (hi < 16)%nat -> (lo < 16)%nat -> b2z b = 16 * Z.of_nat hi + Z.of_nat lo -> hexed s t ->
    hexed (b :: s) (digit hi :: digit lo :: t).
(** The message: five lines, the values in hexadecimal *)
Definition message (who : string) (cksum : bytes) (fk : file_keys) (t : bytes) : Prop :=
  exists a b c d, hexed cksum a /\ hexed (fk_data fk) b /\ hexed (fk_base fk) c /\ hexed (fk_mac fk) d /\
    t = str who ++ str ":" ++ [x0a] ++
        [x09] ++ str "hdr-cksum: " ++ a ++ [x0a] ++
        [x09] ++ str "aes-key: " ++ b ++ [x0a] ++
        [x09] ++ str "nonce: " ++ c ++ [x0a] ++
        [x09] ++ str "hmac-key: " ++ d ++ [x0a].

(** ** Somebody who has the text on standard error and the file, and no private key *)
Definition undigit (b : byte) : Z := if b2z b <? 58 then b2z b - 48 else b2z b - 87.
Fixpoint unhex (t : bytes) : bytes :=
  match t with a :: b :: t' => z2b (16 * undigit a + undigit b) :: unhex t' | _ => [] end.
(** data key and nonce as found in the message *)
Definition overheard_key (t : bytes) : bytes := unhex (take 64 (drop 96 t)).
Definition overheard_nonce (t : bytes) : bytes := unhex (take 24 (drop 169 t)).
(** open frame after frame with them *)
Fixpoint unseal (C : crypto) (key nonce : bytes) (i : Z) (fuel : nat) (s : bytes) : option bytes :=
  match fuel with
  | O => None
  | S f =>
      let word := take 4 s in
      let v := unbe32 word in
      let marked := 2^31 <=? v in
      let n := if marked then v - 2^31 else v in
      match gcm_open C key (frame_nonce nonce i) (take (n + 16) (drop 4 s)) word with
      | None => None
      | Some pt =>
          if marked then Some pt
          else match unseal C key nonce (i + 1) f (drop (n + 20) s) with Some r => Some (pt ++ r) | None => None end
      end
  end.
(** the frames begin after the 12 bytes of fixed header, the header and its checksum *)
Definition eavesdrop (C : crypto) (stderr file : bytes) : option bytes :=
  unseal C (overheard_key stderr) (overheard_nonce stderr) 0 (length file) (drop (12 + unbe32 (take 4 (drop 8 file)) + 32) file).
