(** The laws assumed of the external text codecs (yaml.v2). *)
From Verif Require Import Bytes GoErr Crypto Keys Base64 GoText Ssh KeyFiles.

Record ext_ok (E : ext) : Prop := {
  (* padded base64 text is written as it is (a plain scalar: no blanks, no indicator characters, not a number) *)
  ok_y_base64 : forall b, len b mod 3 <> 0 -> y_scalar E (b64_encode b) = b64_encode b;
  (* so are the algorithm name and the scrypt parameters *)
  ok_y_algo : y_scalar E (str "scrypt-sha256") = str "scrypt-sha256";
  ok_y_N : y_int E (2^19) = str "524288";
  ok_y_r : y_int E 8 = str "8";
  ok_y_p : y_int E 1 = str "1"
}.

(** yaml.Unmarshal reads back the records with the comment [c] (and base64 text in the other fields) that yaml.Marshal
    wrote.  (The theorems ask this of the comment in question: whether yaml.v2 does so for every string is not modelled.) *)
Definition yaml_keeps (E : ext) (c : bytes) : Prop :=
  (forall a b, let r := mkSpub c (b64_encode a) (b64_encode b) in y_pub E (yaml_pub E r) = Some r) /\
  (forall a b, let r := mkSsig c (b64_encode a) (b64_encode b) in y_sig E (yaml_sig E r) = Some r) /\
  (forall a b, let r := mkSpriv c (b64_encode a) (b64_encode b) (str "scrypt-sha256") (2^19) 8 1 in y_priv E (yaml_priv E r) = Some r).
