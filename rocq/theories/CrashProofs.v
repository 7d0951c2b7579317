From Verif Require Import Bytes BytesLemmas GoErr GoIO Crypto CryptoLaws Keys Sign SpecSign Base64 SpecBase64 Base64Proofs GoText TextProofs
  Ssh SpecSsh SshProofs SshKeyProofs KeyFiles ExtLaws IOProofs EncryptProofs Spec Thm_Ssh Thm_KeyFiles SpecCrash.
Require Import ZifyBool.
Local Notation length := List.length.

Lemma pow2_iff N : (N <=? 1) || negb (is_pow2 N) = false <-> power_of_2 N.
Proof.
  rewrite orb_false_iff, negb_false_iff, Z.leb_gt. unfold is_pow2, power_of_2. rewrite Z.eqb_eq. split.
  - intros (H1 & H). assert (0 < N) by lia. destruct (Z.log2_spec N ltac:(lia)) as (L & U). set (k := Z.log2 N) in *.
    assert (0 <= k) by apply Z.log2_nonneg. exists k. rewrite Z.pow_succ_r in U by lia.
    destruct (Z.eq_dec N (2^k)) as [E|Ne].
    + split; [|exact E]. destruct (Z.eq_dec k 0) as [E0|]; [rewrite E0 in E; change (2^0) with 1 in E; lia|lia].
    + exfalso. assert (B : Z.testbit (Z.land N (N - 1)) k = true).
      { rewrite Z.land_spec. unfold k at 1. rewrite (Z.bit_log2 N) by lia. cbn [andb]. replace k with (Z.log2 (N - 1)).
        - apply Z.bit_log2. lia.
        - apply Z.log2_unique; [lia|]. rewrite Z.pow_succ_r by lia. lia. }
      rewrite H, Z.bits_0 in B. discriminate B.
  - intros (k & Hk & ->). assert (2 <= 2^k) by (change 2 with (2^1) at 1; apply Z.pow_le_mono_r; lia). split; [lia|].
    replace (2^k - 1) with (Z.ones k) by (rewrite Z.ones_equiv; lia). rewrite Z.land_ones by lia. apply Z.mod_same. lia.
Qed.

Lemma quot_pos_lt a p r : 0 <= a -> 0 < p -> (Z.quot a p <? r) = (a <? r * p).
Proof.
  intros Ha Hp. rewrite Z.quot_div_nonneg by lia.
  destruct (Z.ltb_spec (a / p) r) as [L|L], (Z.ltb_spec a (r * p)) as [M|M]; try reflexivity; exfalso.
  - assert (r <= a / p) by (apply Z.div_le_lower_bound; lia). lia.
  - assert (a / p < r) by (apply Z.div_lt_upper_bound; lia). lia.
Qed.
Lemma quot_neg a p : 0 <= a -> p < 0 -> Z.quot a p = - (a / - p).
Proof. intros Ha Hp. rewrite <- (Z.opp_involutive p) at 1. rewrite Z.quot_opp_r by lia. rewrite Z.quot_div_nonneg by lia. reflexivity. Qed.

Lemma scrypt_cases C pw salt N r p :
  match scrypt_key C pw salt N r p with
  | Panic _ => scrypt_crash N r p
  | Ok k => scrypt_fits N r p /\ k = scrypt C pw salt N r p
  | Fail _ => ~ scrypt_crash N r p /\ ~ scrypt_fits N r p
  end.
Proof.
  unfold scrypt_key. destruct ((N <=? 1) || negb (is_pow2 N)) eqn:E0.
  { assert (H : ~ power_of_2 N) by (rewrite <- pow2_iff; congruence). unfold scrypt_crash, scrypt_fits. tauto. }
  apply pow2_iff in E0. assert (HN : 2 <= N) by (destruct E0 as (k & Hk & ->); change 2 with (2^1) at 1; apply Z.pow_le_mono_r; lia).
  assert (P30 : 2^30 = 1073741824) by reflexivity. assert (P48 : 2^48 = 281474976710656) by reflexivity. assert (P56 : 2^56 = 72057594037927936) by reflexivity.
  assert (P63 : 2^63 = 9223372036854775808) by reflexivity. assert (P64 : 2^64 = 18446744073709551616) by reflexivity.
  assert (Q1 : Z.quot max_int 128 = 2^56 - 1) by reflexivity. assert (Q2 : Z.quot max_int 256 = 2^55 - 1) by reflexivity. assert (P55 : 2^55 = 36028797018963968) by reflexivity.
  unfold scrypt_crash, scrypt_fits. rewrite Q1, Q2.
  assert (Small : 1 <= r -> 1 <= p -> r * p < 2^56 -> u64 (u64 r * u64 p) = r * p).
  { intros H1 H2 H3. unfold u64. rewrite (Z.mod_small r) by nia. rewrite (Z.mod_small p) by nia. apply Z.mod_small. nia. }
  destruct (Z.leb_spec (2^30) (u64 (u64 r * u64 p))) as [L|L].
  { split; intros (_ & H).
    - destruct H as [->|[(-> & _)|(H1 & H2 & H3 & H4)]].
      + unfold u64 at 1 3 in L. change (0 mod 2^64) with 0 in L. rewrite Z.mul_0_r in L. change (0 mod 2^64) with 0 in L. lia.
      + unfold u64 at 1 2 in L. change (0 mod 2^64) with 0 in L. rewrite Z.mul_0_l in L. change (0 mod 2^64) with 0 in L. lia.
      + rewrite Small in L by lia. lia.
    - destruct H as (H1 & H2 & H3 & H4). rewrite Small in L by lia. lia. }
  destruct (Z.eqb_spec p 0) as [->|Hp0]. { split; [exact E0|]. left. reflexivity. }
  destruct (Z.ltb_spec (Z.quot (2^56 - 1) p) r) as [L2|L2].
  { assert (Hpos : 1 <= p -> 2^56 <= r * p).
    { intros Hp. apply Z.ltb_lt in L2. rewrite quot_pos_lt in L2 by lia. apply Z.ltb_lt in L2. lia. }
    split; intros (_ & H).
    - destruct H as [H|[(-> & [H|H])|(H1 & H2 & H3 & H4)]]; [contradiction|specialize (Hpos ltac:(lia)); lia| |specialize (Hpos H2); lia].
      rewrite quot_neg in L2 by lia. rewrite Z.div_small in L2 by lia. lia.
    - destruct H as (H1 & H2 & H3 & H4). specialize (Hpos H2). lia. }
  assert (Hq : 1 <= r -> 1 <= p /\ r * p < 2^56).
  { intros Hr. destruct (Z_lt_ge_dec 0 p) as [Hp|Hp].
    - apply Z.ltb_ge in L2. rewrite quot_pos_lt in L2 by lia. apply Z.ltb_ge in L2. lia.
    - exfalso. rewrite quot_neg in L2 by lia. assert (0 <= (2^56 - 1) / - p) by (apply Z.div_pos; lia). lia. }
  destruct (Z.ltb_spec (2^55 - 1) r) as [L3|L3].
  { split; intros (_ & H); exfalso.
    - destruct H as [H|[(-> & _)|(H1 & H2 & H3 & H4)]]; [contradiction|lia|]. nia.
    - destruct H as (H1 & H2 & H3 & H4). nia. }
  destruct (Z.eqb_spec r 0) as [->|Hr0].
  { split; [exact E0|]. right. left. split; [reflexivity|]. destruct (Z_lt_ge_dec 0 p) as [Hp|Hp]; [left; lia|right].
    rewrite quot_neg in L2 by lia. destruct (Z_le_gt_dec p (- 2^56)) as [|G]; [assumption|exfalso].
    assert (1 <= (2^56 - 1) / - p) by (apply Z.div_le_lower_bound; lia). lia. }
  destruct (Z.ltb_spec (Z.quot (2^56 - 1) r) N) as [L4|L4].
  { split; intros (_ & H); exfalso.
    - destruct H as [H|[(-> & _)|(H1 & H2 & H3 & H4)]]; [contradiction|lia|]. apply Z.ltb_lt in L4. rewrite quot_pos_lt in L4 by lia. apply Z.ltb_lt in L4. nia.
    - destruct H as (H1 & H2 & H3 & H4). apply Z.ltb_lt in L4. rewrite quot_pos_lt in L4 by lia. apply Z.ltb_lt in L4. nia. }
  assert (Hr : 1 <= r).
  { destruct (Z_lt_ge_dec r 0) as [Hr|Hr]; [exfalso|lia]. rewrite quot_neg in L4 by lia. assert (0 <= (2^56 - 1) / - r) by (apply Z.div_pos; lia). lia. }
  destruct (Hq Hr) as (Hp & Hrp). rewrite Small in L by lia. apply Z.ltb_ge in L4. rewrite quot_pos_lt in L4 by lia. apply Z.ltb_ge in L4.
  destruct (Z.ltb_spec (2^48) (128 * N * r)) as [L5|L5].
  - split; [exact E0|]. right. right. repeat split; try lia.
  - repeat split; try lia. exact E0.
Qed.
