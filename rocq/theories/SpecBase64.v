(** Specification of the base64 text format of RFC 4648, independent of the decoder. *)
From Verif Require Import Bytes.

(** the alphabet of RFC 4648, table 1: upper case, lower case, digits, + and / *)
Definition rfc4648 : bytes := str "ABCDEFGHIJKLMNOPQRSTUVWXYZabcdefghijklmnopqrstuvwxyz0123456789+/".

(** [c] is the character of the 6-bit digit [d] *)
Definition digit (c : byte) (d : Z) : Prop := 0 <= d < 64 /\ nth_error rfc4648 (Z.to_nat d) = Some c.

(** [t] (without line breaks) is a base64 text of the byte string [b]: groups of four digits for three bytes, the last
    group possibly padded; the unused low bits of the last digit of a padded group are arbitrary (RFC 4648, 3.5) *)
Inductive b64_text : bytes -> bytes -> Prop :=
| bt_nil : b64_text [] []
| bt_quad : forall c0 c1 c2 c3 d0 d1 d2 d3 x y z t b,
    digit c0 d0 -> digit c1 d1 -> digit c2 d2 -> digit c3 d3 ->
    2^16 * b2z x + 2^8 * b2z y + b2z z = 2^18 * d0 + 2^12 * d1 + 2^6 * d2 + d3 ->
    b64_text t b -> b64_text (c0 :: c1 :: c2 :: c3 :: t) (x :: y :: z :: b)
| bt_two : forall c0 c1 c2 d0 d1 d2 x y,
    digit c0 d0 -> digit c1 d1 -> digit c2 d2 -> 2^8 * b2z x + b2z y = (2^12 * d0 + 2^6 * d1 + d2) / 2^2 ->
    b64_text [c0; c1; c2; x3d] [x; y]
| bt_one : forall c0 c1 d0 d1 x,
    digit c0 d0 -> digit c1 d1 -> b2z x = (2^6 * d0 + d1) / 2^4 -> b64_text [c0; c1; x3d; x3d] [x].

(** the text without its line breaks (LF and CR) *)
Definition unbroken (s : bytes) : bytes := filter (fun c => negb (Byte.eqb c x0a || Byte.eqb c x0d)) s.
