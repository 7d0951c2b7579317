(** Specification of "trimmed", independent of the model's [trim_space]: Unicode white space taken off both ends. *)
From Verif Require Import Bytes.
Local Notation concat := List.concat.

(** the code points with the White_Space property (Unicode, PropList.txt) *)
Definition white_points : list Z :=
  [9; 10; 11; 12; 13; 32; 133; 160; 5760; 8192; 8193; 8194; 8195; 8196; 8197; 8198; 8199; 8200; 8201; 8202; 8232; 8233; 8239; 8287; 12288].
(** UTF-8 (RFC 3629) of a code point below 2^16 *)
Definition utf8 (n : Z) : bytes :=
  if n <? 2^7 then [z2b n]
  else if n <? 2^11 then [z2b (192 + n / 2^6); z2b (128 + n mod 2^6)]
  else [z2b (224 + n / 2^12); z2b (128 + n / 2^6 mod 2^6); z2b (128 + n mod 2^6)].
Definition white (w : bytes) : Prop := exists n, In n white_points /\ w = utf8 n.

(** [t] is [s] without the white characters at both its ends *)
Definition trimmed (s t : bytes) : Prop :=
  exists ws ws', Forall white ws /\ Forall white ws' /\ s = concat ws ++ t ++ concat ws' /\
    (forall w r, white w -> t <> w ++ r) /\ (forall w r, white w -> t <> r ++ w).
