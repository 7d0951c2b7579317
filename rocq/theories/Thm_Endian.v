(** C05, C31: numbers in files and hashes, byte by byte. *)
From Verif Require Import Bytes BytesLemmas GoErr GoIO SpecIO Pb SpecPb Crypto Keys Sign SpecSign Encrypt Decrypt Spec.
Require Import ZifyBool.
Ltac Zify.zify_post_hook ::= Z.div_mod_to_equations.
Local Notation length := List.length.
Local Notation concat := List.concat.

(** ** Specification *)
(** the number a byte stands for; the number that bytes stand for, the first one weighing most *)
Definition value (b : byte) : Z := Z.of_N (Byte.to_N b).
Definition big_endian (l : bytes) : Z := fold_left (fun v b => 256 * v + value b) l 0.

Lemma value_range b : 0 <= value b < 256.
Proof. unfold value. pose proof (b2z_range b) as H. exact H. Qed.
Lemma value_z2b z : value (z2b z) = z mod 256.
Proof. apply b2z_z2b. Qed.

(** *** C05.  The length words: four bytes, the most significant first. *)
Theorem C05_big_endian : forall v, 0 <= v < 2 ^ 32 -> len (be32 v) = 4 /\ big_endian (be32 v) = v.
Proof. intros v Hv. split; [reflexivity|]. unfold big_endian, be32. cbn [fold_left]. rewrite !value_z2b. lia. Qed.
(** *** C05.  The word before a frame: the length of its plaintext, and in the top bit of its first byte whether it is the last one. *)
Theorem C05_frame_word : forall pt last, len pt < 2 ^ 31 -> exists a b c d, frame_word pt last = [a; b; c; d] /\
  (128 <= value a <-> last = true) /\ len pt = (value a mod 128) * 16777216 + value b * 65536 + value c * 256 + value d.
Proof.
  intros pt last H. pose proof (len_nonneg pt). unfold frame_word, be32. do 4 eexists. split; [reflexivity|]. rewrite !value_z2b. destruct last; split; try split; intros; try lia; try discriminate; auto.
Qed.
(** *** C05.  The number of a frame in its nonce: the first four bytes. *)
Theorem C05_frame_nonce : forall base i, len base = 12 -> 0 <= i < 2 ^ 32 ->
  len (frame_nonce base i) = 12 /\ big_endian (take 4 (frame_nonce base i)) = i /\ forall k, (4 <= k)%nat -> nth k (frame_nonce base i) x00 = nth k base x00.
Proof.
  intros base i L H. unfold frame_nonce. destruct (C05_big_endian i H) as [L4 V]. split; [rewrite len_app, len_drop; lia|]. split.
  - rewrite take_app_eq by (symmetry; exact L4). exact V.
  - intros k Hk. do 12 (destruct base as [|? base]; [discriminate L|]). do 4 (destruct k as [|k]; [lia|]). reflexivity.
Qed.
(** *** C31.  What is hashed of a file: its bytes, then its size in eight bytes, the most significant first. *)
Theorem C31_size_is_hashed : forall c, len c < 2 ^ 63 -> exists w, file_hash_input c = c ++ w /\ len w = 8 /\ big_endian w = len c.
Proof.
  intros c H. pose proof (len_nonneg c). exists (be64 (len c)). split; [reflexivity|]. split; [reflexivity|]. unfold big_endian, be64, be32. cbn [app fold_left]. rewrite !value_z2b. lia.
Qed.

Example C05_endian_instance :
  be32 (256 * 256 + 5) = [x00; x01; x00; x05] /\ frame_word (str "abc") true = [x80; x00; x00; x03] /\
  frame_nonce (str "nonce base!!") 258 = [x00; x00; x01; x02] ++ str "e base!!" /\ len (str "abc") < 2 ^ 31.
Proof. repeat split; reflexivity. Qed.
Print Assumptions C05_big_endian.
Print Assumptions C05_frame_word.
Print Assumptions C05_frame_nonce.
Print Assumptions C31_size_is_hashed.
