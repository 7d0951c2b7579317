(** Lemmas about Bytes.v *)
From Verif Require Import Bytes.
From Coq Require Import ZifyBool ZifyNat ZifyN.
Ltac Zify.zify_post_hook ::= Z.div_mod_to_equations.

Lemma b2z_range b : 0 <= b2z b < 256.
Proof.
  unfold b2z. pose proof (Byte.to_N_bounded b) as H. lia.
Qed.

Lemma z2b_b2z b : z2b (b2z b) = b.
Proof.
  unfold z2b. pose proof (b2z_range b) as H.
  rewrite Z.mod_small by lia. unfold b2z. rewrite N2Z.id.
  rewrite Byte.of_to_N. reflexivity.
Qed.

Lemma b2z_z2b z : b2z (z2b z) = z mod 256.
Proof.
  unfold z2b, b2z.
  assert (H: 0 <= z mod 256 < 256) by (apply Z.mod_pos_bound; lia).
  destruct (Byte.of_N (Z.to_N (z mod 256))) as [b|] eqn:E.
  - apply Byte.to_of_N in E. rewrite E. rewrite Z2N.id; lia.
  - exfalso. apply Byte.of_N_None_iff in E. lia.
Qed.

Lemma b2z_inj a b : b2z a = b2z b -> a = b.
Proof. intros H. rewrite <- (z2b_b2z a), <- (z2b_b2z b), H. reflexivity. Qed.

Lemma byte_eqb_refl b : Byte.eqb b b = true.
Proof. destruct (Byte.eqb b b) eqn:E; auto. pose proof (Byte.byte_dec_bl b b). 
  apply Byte.eqb_false in E. congruence. Qed.

Lemma beq_refl a : beq a a = true.
Proof. induction a as [|x a IH]; simpl; auto. rewrite byte_eqb_refl; auto. Qed.

Lemma beq_eq a b : beq a b = true -> a = b.
Proof.
  revert b; induction a as [|x a IH]; intros [|y b] H; simpl in H; try congruence.
  apply andb_prop in H as [H1 H2].
  apply Byte.byte_dec_bl in H1. f_equal; auto.
Qed.

Lemma beq_iff a b : beq a b = true <-> a = b.
Proof. split; [apply beq_eq | intros ->; apply beq_refl]. Qed.

Lemma beq_neq a b : beq a b = false <-> a <> b.
Proof.
  split.
  - intros H E. rewrite E, beq_refl in H. congruence.
  - intros H. destruct (beq a b) eqn:E; auto. apply beq_eq in E. contradiction.
Qed.

Lemma bytes_eq_dec (a b : bytes) : {a = b} + {a <> b}.
Proof. destruct (beq a b) eqn:E; [left; apply beq_eq|right; apply beq_neq]; auto. Qed.

(** ** len / take / drop *)
Section L.
Context {A : Type}.
Implicit Types l : list A.

Lemma len_nonneg l : 0 <= len l.
Proof. unfold len; lia. Qed.
Lemma len_nil : len (@nil A) = 0. Proof. reflexivity. Qed.
Lemma len_cons x l : len (x :: l) = 1 + len l.
Proof. unfold len; simpl length; lia. Qed.
Lemma len_app l1 l2 : len (l1 ++ l2) = len l1 + len l2.
Proof. unfold len; rewrite app_length; lia. Qed.
Lemma len_0_nil l : len l = 0 -> l = [].
Proof. destruct l; auto. rewrite len_cons. pose proof (len_nonneg l). lia. Qed.
Lemma len_0_nil_iff l : len l = 0 <-> l = [].
Proof. split; [apply len_0_nil| intros ->; reflexivity]. Qed.
Lemma len_pos l : l <> [] <-> 0 < len l.
Proof. split; intros H.
 - destruct l; try congruence. rewrite len_cons. pose proof (len_nonneg l). lia.
 - intros ->. rewrite len_nil in H. lia. Qed.
Lemma len_repeat (x:A) n : len (repeat x n) = Z.of_nat n.
Proof. unfold len. rewrite repeat_length. reflexivity. Qed.
Lemma len_rev l : len (rev l) = len l.
Proof. unfold len. rewrite rev_length. reflexivity. Qed.

Lemma take_firstn n l : take n l = firstn (Z.to_nat n) l.
Proof.
  revert n; induction l as [|x l IH]; intros n; simpl.
  - destruct (Z.to_nat n); reflexivity.
  - destruct (Z.leb_spec n 0).
    + replace (Z.to_nat n) with O by lia. reflexivity.
    + rewrite IH. replace (Z.to_nat n) with (S (Z.to_nat (n-1))) by lia. reflexivity.
Qed.
Lemma drop_skipn n l : drop n l = skipn (Z.to_nat n) l.
Proof.
  revert n; induction l as [|x l IH]; intros n; cbn [drop].
  - destruct (Z.to_nat n); reflexivity.
  - destruct (Z.leb_spec n 0).
    + replace (Z.to_nat n) with O by lia. reflexivity.
    + rewrite IH. replace (Z.to_nat n) with (S (Z.to_nat (n-1))) by lia. reflexivity.
Qed.

Lemma take_drop n l : take n l ++ drop n l = l.
Proof. rewrite take_firstn, drop_skipn. apply firstn_skipn. Qed.

Lemma len_take n l : 0 <= n -> len (take n l) = Z.min n (len l).
Proof. intros. rewrite take_firstn. unfold len. rewrite firstn_length. lia. Qed.
Lemma len_take_le n l : 0 <= n <= len l -> len (take n l) = n.
Proof. intros. rewrite len_take; lia. Qed.
Lemma len_take_ub n l : 0 <= n -> len (take n l) <= n.
Proof. intros. rewrite len_take; lia. Qed.
Lemma len_take_ub2 n l : len (take n l) <= len l.
Proof. rewrite take_firstn. unfold len. rewrite firstn_length. lia. Qed.
Lemma len_drop n l : 0 <= n <= len l -> len (drop n l) = len l - n.
Proof. intros. rewrite drop_skipn. unfold len in *. rewrite skipn_length. lia. Qed.
Lemma len_drop_gen n l : 0 <= n -> len (drop n l) = Z.max 0 (len l - n).
Proof. intros. rewrite drop_skipn. unfold len in *. rewrite skipn_length. lia. Qed.
Lemma take_0 l : take 0 l = [].
Proof. destruct l; reflexivity. Qed.
Lemma take_neg n l : n <= 0 -> take n l = [].
Proof. intros; rewrite take_firstn. replace (Z.to_nat n) with O by lia. reflexivity. Qed.
Lemma drop_0 l : drop 0 l = l.
Proof. destruct l; reflexivity. Qed.
Lemma drop_neg n l : n <= 0 -> drop n l = l.
Proof. intros; rewrite drop_skipn. replace (Z.to_nat n) with O by lia. reflexivity. Qed.
Lemma take_all n l : len l <= n -> take n l = l.
Proof. intros. rewrite take_firstn. apply firstn_all2. unfold len in *. lia. Qed.
Lemma drop_all n l : len l <= n -> drop n l = [].
Proof. intros. rewrite drop_skipn. apply skipn_all2. unfold len in *. lia. Qed.
Lemma take_app_l n l1 l2 : n <= len l1 -> take n (l1 ++ l2) = take n l1.
Proof.
  intros. rewrite !take_firstn, firstn_app. unfold len in *.
  replace (Z.to_nat n - length l1)%nat with O by lia. simpl. apply app_nil_r.
Qed.
Lemma take_app_r n l1 l2 : len l1 <= n -> take n (l1 ++ l2) = l1 ++ take (n - len l1) l2.
Proof.
  intros. rewrite !take_firstn, firstn_app. unfold len in *.
  rewrite firstn_all2 by lia. f_equal. f_equal. lia.
Qed.
Lemma drop_app_l n l1 l2 : n <= len l1 -> drop n (l1 ++ l2) = drop n l1 ++ l2.
Proof.
  intros. rewrite !drop_skipn, skipn_app. unfold len in *.
  replace (Z.to_nat n - length l1)%nat with O by lia. reflexivity.
Qed.
Lemma drop_app_r n l1 l2 : len l1 <= n -> drop n (l1 ++ l2) = drop (n - len l1) l2.
Proof.
  intros. rewrite !drop_skipn, skipn_app. unfold len in *.
  rewrite skipn_all2 by lia. simpl. f_equal. lia.
Qed.
Lemma take_app_exact l1 l2 : take (len l1) (l1 ++ l2) = l1.
Proof. rewrite take_app_l by lia. apply take_all; lia. Qed.
Lemma drop_app_exact l1 l2 : drop (len l1) (l1 ++ l2) = l2.
Proof. rewrite drop_app_r by lia. rewrite Z.sub_diag. apply drop_0. Qed.
Lemma take_app_eq n l1 l2 : n = len l1 -> take n (l1 ++ l2) = l1.
Proof. intros ->. apply take_app_exact. Qed.
Lemma drop_app_eq n l1 l2 : n = len l1 -> drop n (l1 ++ l2) = l2.
Proof. intros ->. apply drop_app_exact. Qed.
Lemma take_take n m l : n <= m -> take n (take m l) = take n l.
Proof.
  intros. rewrite !take_firstn. rewrite firstn_firstn. f_equal. lia.
Qed.
Lemma drop_drop n m l : 0 <= n -> 0 <= m -> drop n (drop m l) = drop (n + m) l.
Proof.
  revert m; induction l as [|x l IH]; intros m Hn Hm; cbn [drop]; auto.
  destruct (Z.leb_spec m 0).
  - assert (m = 0) by lia; subst. rewrite Z.add_0_r. reflexivity.
  - destruct (Z.leb_spec (n+m) 0); [lia|]. rewrite IH by lia. f_equal. lia.
Qed.
Lemma app_inj_len l1 l2 m1 m2 : len l1 = len m1 -> l1 ++ l2 = m1 ++ m2 -> l1 = m1 /\ l2 = m2.
Proof.
  intros HL H. split.
  - rewrite <- (take_app_exact l1 l2), <- (take_app_exact m1 m2), H, HL. reflexivity.
  - rewrite <- (drop_app_exact l1 l2), <- (drop_app_exact m1 m2), H, HL. reflexivity.
Qed.
Lemma app_inj_len_r l1 l2 m1 m2 : len l2 = len m2 -> l1 ++ l2 = m1 ++ m2 -> l1 = m1 /\ l2 = m2.
Proof.
  intros HL H. apply app_inj_len; auto.
  assert (E: len (l1++l2) = len (m1++m2)) by (rewrite H; auto).
  rewrite !len_app in E. lia.
Qed.
Lemma take_concat_len n l : 0 <= n -> len (take n l) + len (drop n l) = len l.
Proof. intros. rewrite <- (take_drop n l) at 3. rewrite len_app. lia. Qed.
End L.

Lemma len_map {A B} (f : A -> B) l : len (map f l) = len l.
Proof. unfold len. rewrite map_length. reflexivity. Qed.

Lemma len_zeros n : 0 <= n -> len (zeros n) = n.
Proof. intros. unfold zeros. rewrite len_repeat. lia. Qed.

(** ** big endian *)
Lemma len_be32 z : len (be32 z) = 4. Proof. reflexivity. Qed.
Lemma len_be64 z : len (be64 z) = 8. Proof. reflexivity. Qed.

Lemma unbe32_be32 z l : unbe32 (be32 z ++ l) = z mod 2^32.
Proof.
  unfold be32, unbe32; cbn [app]. rewrite !b2z_z2b.
  change (2^24) with 16777216; change (2^16) with 65536; change (2^8) with 256; change (2^32) with 4294967296.
  lia.
Qed.

Lemma unbe32_be32' z : unbe32 (be32 z) = z mod 2^32.
Proof. rewrite <- (app_nil_r (be32 z)). apply unbe32_be32. Qed.

Lemma be32_unbe32 l : len l = 4 -> be32 (unbe32 l) = l.
Proof.
  destruct l as [|a [|b [|c [|d [|? l]]]]]; intros H; 
    try (rewrite ?len_cons, ?len_nil in H; lia).
  - unfold be32, unbe32.
    pose proof (b2z_range a); pose proof (b2z_range b); pose proof (b2z_range c); pose proof (b2z_range d).
    change (2^24) with 16777216; change (2^16) with 65536; change (2^8) with 256.
    repeat f_equal; apply b2z_inj; rewrite b2z_z2b; lia.
  - rewrite !len_cons in H. pose proof (len_nonneg l). lia.
Qed.

Lemma unbe32_range l : 0 <= unbe32 l < 2^32.
Proof.
  unfold unbe32.
  change (2^24) with 16777216; change (2^16) with 65536; change (2^8) with 256; change (2^32) with 4294967296.
  destruct l as [|a [|b [|c [|d l]]]]; try lia.
  pose proof (b2z_range a); pose proof (b2z_range b); pose proof (b2z_range c); pose proof (b2z_range d). lia.
Qed.

Lemma be32_inj a b : 0 <= a < 2^32 -> 0 <= b < 2^32 -> be32 a = be32 b -> a = b.
Proof.
  intros Ha Hb H. apply (f_equal unbe32) in H. rewrite !unbe32_be32' in H.
  rewrite !Z.mod_small in H by lia. auto.
Qed.

Lemma be32_mod z : be32 (z mod 2^32) = be32 z.
Proof.
  rewrite <- unbe32_be32'. apply be32_unbe32. reflexivity.
Qed.

Lemma be64_inj a b : 0 <= a < 2^64 -> 0 <= b < 2^64 -> be64 a = be64 b -> a = b.
Proof.
  intros Ha Hb H. unfold be64 in H.
  apply app_inj_len in H as [H1 H2]; [|reflexivity].
  apply (f_equal unbe32) in H1, H2. rewrite !unbe32_be32' in H1, H2.
  change (2^32) with 4294967296 in *. change (2^64) with 18446744073709551616 in *. lia.
Qed.

Lemma len_le n z : len (le n z) = Z.of_nat n.
Proof. revert z; induction n as [|n IH]; intros z; cbn [le]; auto. rewrite len_cons, IH. lia. Qed.

Lemma unle_le n z : unle (le n z) = z mod 256 ^ Z.of_nat n.
Proof.
  revert z; induction n as [|n IH]; intros z; cbn [le unle].
  - simpl. rewrite Z.mod_1_r. reflexivity.
  - rewrite IH, b2z_z2b. rewrite Nat2Z.inj_succ, Z.pow_succ_r by lia.
    rewrite Z.rem_mul_r by lia. reflexivity.
Qed.

Lemma unle_range l : 0 <= unle l < 256 ^ len l.
Proof.
  induction l as [|b l IH]; cbn [unle].
  - change (256 ^ len (@nil Byte.byte)) with 1. lia.
  - rewrite len_cons. pose proof (len_nonneg l). pose proof (b2z_range b).
    rewrite Z.pow_add_r by lia. change (256^1) with 256. lia.
Qed.

Lemma le_unle l : le (length l) (unle l) = l.
Proof.
  induction l as [|b l IH]; cbn [le unle List.length]; auto.
  pose proof (b2z_range b). f_equal.
  - apply b2z_inj. rewrite b2z_z2b. lia.
  - replace ((b2z b + 256 * unle l) / 256) with (unle l) by lia. exact IH.
Qed.
