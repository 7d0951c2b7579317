(** encoding/base64.StdEncoding (Go standard library, external), as used by keys.go:238-245, 289-303, 377-380,
    474-481, 505-509; sign.go:97-113, 120-124; ssh.go:71.  Written after its source (go 1.24 encoding/base64/base64.go). *)
From Verif Require Import Bytes GoErr.

Definition b64_alphabet : bytes := str "ABCDEFGHIJKLMNOPQRSTUVWXYZabcdefghijklmnopqrstuvwxyz0123456789+/".
Definition b64_char (d : Z) : byte := nth (Z.to_nat d) b64_alphabet x00.

(** Encoding.decodeMap: filled by "for i := 0; i < len(encoder); i++ { decodeMap[encoder[i]] = i }" *)
Fixpoint index_of (c : byte) (l : bytes) (i : Z) : option Z :=
  match l with
  | [] => None
  | x :: l' => if Byte.eqb x c then Some i else index_of c l' (i + 1)
  end.
Definition b64_val (c : byte) : option Z := index_of c b64_alphabet 0.

(** Encoding.EncodeToString *)
Fixpoint b64_encode (b : bytes) : bytes :=
  match b with
  | [] => []
  | [x] => let v := b2z x * 2^16 in [b64_char (v / 2^18 mod 64); b64_char (v / 2^12 mod 64); x3d; x3d]
  | [x; y] => let v := b2z x * 2^16 + b2z y * 2^8 in
      [b64_char (v / 2^18 mod 64); b64_char (v / 2^12 mod 64); b64_char (v / 2^6 mod 64); x3d]
  | x :: y :: z :: b' => let v := b2z x * 2^16 + b2z y * 2^8 + b2z z in
      [b64_char (v / 2^18 mod 64); b64_char (v / 2^12 mod 64); b64_char (v / 2^6 mod 64); b64_char (v mod 64)] ++ b64_encode b'
  end.

Definition is_crlf (c : byte) : bool := Byte.eqb c x0a || Byte.eqb c x0d.
(** "skip over newlines" *)
Fixpoint skip_nl (s : bytes) : bytes :=
  match s with c :: s' => if is_crlf c then skip_nl s' else s | [] => [] end.

(** Encoding.Decode/decodeQuantum for a non-strict, padded encoding.  [q]: the digits of the current quantum so far.
    The word-at-a-time fast paths of Decode compute the same.  On an error DecodeString also returns the bytes decoded so
    far; every caller here ignores them. *)
Fixpoint b64_dec (s : bytes) (q : list Z) : option bytes :=
  match s with
  | [] => match q with [] => Some [] | _ => None end
  | c :: s' =>
      match b64_val c with
      | Some d =>
          match q with
          | [d0; d1; d2] =>
              let v := d0 * 2^18 + d1 * 2^12 + d2 * 2^6 + d in
              match b64_dec s' [] with Some r => Some ([z2b (v / 2^16); z2b (v / 2^8); z2b v] ++ r) | None => None end
          | _ => b64_dec s' (q ++ [d])
          end
      | None =>
          if is_crlf c then b64_dec s' q
          else if negb (Byte.eqb c x3d) then None
          else match q with
               | [d0; d1] =>
                   match skip_nl s' with
                   | c' :: s'' => if negb (Byte.eqb c' x3d) then None
                                  else match skip_nl s'' with
                                       | [] => let v := d0 * 2^18 + d1 * 2^12 in Some [z2b (v / 2^16)]
                                       | _ => None
                                       end
                   | [] => None
                   end
               | [d0; d1; d2] =>
                   match skip_nl s' with
                   | [] => let v := d0 * 2^18 + d1 * 2^12 + d2 * 2^6 in Some [z2b (v / 2^16); z2b (v / 2^8)]
                   | _ => None
                   end
               | _ => None
               end
      end
  end.

(** Encoding.DecodeString (illegal base64 data at input byte ...) *)
Definition b64_decode (s : bytes) : res bytes :=
  match b64_dec s [] with Some b => Ok b | None => Fail (EMsg "illegal base64 data") end.
