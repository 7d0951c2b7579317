(** Proofs about Keys.v: extended Euclid, the curve conversion, clamping. *)
From Verif Require Import Bytes BytesLemmas GoErr Crypto CryptoLaws Keys.
From Coq Require Import Znumtheory.
Require Import ZifyBool.
Ltac Zify.zify_post_hook ::= Z.div_mod_to_equations.
Local Notation length := List.length.
Local Notation concat := List.concat.

Lemma z2b_val z : 0 <= z < 256 -> b2z (z2b z) = z.
Proof. intros H. rewrite b2z_z2b. apply Z.mod_small. exact H. Qed.

Lemma egcd_correct f : forall a b g x y, egcd f a b = Some (g, x, y) -> 0 <= a -> 0 <= b ->
  g = a * x + b * y /\ (g | a) /\ (g | b) /\ 0 <= g.
Proof.
  induction f as [|f IH]; intros a b g x y H Ha Hb; cbn [egcd] in H; [discriminate H|].
  destruct (Z.eqb_spec b 0) as [->|Hb0].
  - injection H as <- <- <-. split; [ring|]. split; [apply Z.divide_refl|]. split; [apply Z.divide_0_r|exact Ha].
  - destruct (egcd f b (a mod b)) as [[[g' x'] y']|] eqn:E; [|discriminate H]. injection H as <- <- <-.
    pose proof (Z.mod_pos_bound a b ltac:(lia)) as Hm.
    destruct (IH _ _ _ _ _ E Hb ltac:(lia)) as (H1 & H2 & H3 & H4).
    pose proof (Z.div_mod a b Hb0) as Hd. split; [rewrite H1; replace (a mod b) with (a - b * (a / b)) by lia; ring|]. split; [|split; [exact H2|exact H4]].
    rewrite Hd. apply Z.divide_add_r; [apply Z.divide_mul_l; exact H2|exact H3].
Qed.

Lemma egcd_fuel k : forall f a b, 0 <= a -> 0 <= b < 2 ^ Z.of_nat k -> (2 * k + 2 <= f)%nat -> exists r, egcd f a b = Some r.
Proof.
  induction k as [|k IH]; intros f a b Ha Hb Hf.
  - destruct f as [|f]; [lia|]. cbn [egcd]. assert (b = 0) by (change (2 ^ Z.of_nat 0) with 1 in Hb; lia). subst. cbn. eauto.
  - destruct f as [|f]; [lia|]. cbn [egcd]. destruct (Z.eqb_spec b 0) as [->|Hb0]; [eauto|].
    destruct f as [|f]; [lia|]. cbn [egcd]. pose proof (Z.mod_pos_bound a b ltac:(lia)) as Hm.
    destruct (Z.eqb_spec (a mod b) 0) as [E|E]; [eauto|].
    assert (H2 : 2 * (b mod (a mod b)) < b).
    { set (r := a mod b) in *. pose proof (Z.mod_pos_bound b r ltac:(lia)). pose proof (Z.div_mod b r E).
      assert (1 <= b / r) by (apply Z.div_le_lower_bound; lia). nia. }
    pose proof (Z.mod_pos_bound b (a mod b) ltac:(lia)).
    destruct (IH f (a mod b) (b mod (a mod b)) ltac:(lia)) as (((g & x) & y) & ->).
    + split; [lia|]. rewrite Nat2Z.inj_succ, Z.pow_succ_r in Hb by lia. lia.
    + lia.
    + eauto.
Qed.

Lemma mod_inverse_spec g n : 1 < n < 2 ^ 256 -> Z.abs g < 2 ^ 256 ->
  match mod_inverse g n with
  | Some i => 0 <= i < n /\ (g * i) mod n = 1
  | None => ~ rel_prime g n
  end.
Proof.
  intros Hn Hg. unfold mod_inverse. set (g' := if g <? 0 then g mod n else g).
  assert (Hg' : 0 <= g' /\ g' mod n = g mod n).
  { unfold g'. destruct (Z.ltb_spec g 0); [|lia]. pose proof (Z.mod_pos_bound g n). rewrite Z.mod_mod by lia. lia. }
  destruct Hg' as (Hg0 & Hgm).
  destruct (egcd_fuel 256 800 g' n Hg0) as (((d & x) & y) & E); [split; [lia|]; change (2 ^ Z.of_nat 256) with (2 ^ 256); lia|lia|].
  rewrite E. destruct (egcd_correct _ _ _ _ _ _ E Hg0 ltac:(lia)) as (H1 & H2 & H3 & H4).
  destruct (Z.eqb_spec d 1) as [->|Hd].
  - split; [apply Z.mod_pos_bound; lia|]. rewrite Z.mul_mod_idemp_r by lia.
    rewrite <- Z.mul_mod_idemp_l, <- Hgm, Z.mul_mod_idemp_l by lia.
    replace (g' * x) with (1 + (-y) * n) by lia. rewrite Z.mod_add by lia. apply Z.mod_1_l. lia.
  - intros Hr. apply Hd. assert (Hdg : (d | g)).
    { assert (Hq : g = g' + n * (g / n - g' / n)).
      { pose proof (Z.div_mod g n ltac:(lia)). pose proof (Z.div_mod g' n ltac:(lia)). nia. }
      rewrite Hq. apply Z.divide_add_r; [exact H2|]. apply Z.divide_mul_l. exact H3. }
    destruct Hr as [_ _ Hr]. specialize (Hr d Hdg H3). apply Z.divide_1_r_nonneg in Hr; assumption.
Qed.

Lemma upd_last_unle l : forall i f, (length l = S i)%nat -> unle (upd i f l) = unle (take (Z.of_nat i) l) + 256 ^ Z.of_nat i * b2z (f (last l x00)).
Proof.
  induction l as [|b l IH]; intros i f Hl; [discriminate Hl|]. cbn in Hl. injection Hl as Hl.
  destruct i as [|i].
  - destruct l; [|discriminate Hl]. change (take (Z.of_nat 0) [b]) with (@nil byte). change (256 ^ Z.of_nat 0) with 1. cbn [upd unle last]. lia.
  - cbn [upd unle]. rewrite (IH i f) by exact Hl. rewrite Nat2Z.inj_succ, Z.pow_succ_r by lia.
    cbn [take]. destruct (Z.leb_spec (Z.succ (Z.of_nat i)) 0); [lia|]. cbn [unle].
    replace (Z.succ (Z.of_nat i) - 1) with (Z.of_nat i) by lia.
    destruct l as [|c l]; [discriminate Hl|]. change (last (b :: c :: l) x00) with (last (c :: l) x00). ring.
Qed.
Lemma unle_app a : forall b, unle (a ++ b) = unle a + 256 ^ len a * unle b.
Proof.
  induction a as [|x a IH]; intros b; cbn [app unle]; [change (len (@nil byte)) with 0; lia|].
  rewrite IH, len_cons. pose proof (len_nonneg a). rewrite Z.pow_add_r by lia. change (256 ^ 1) with 256. ring.
Qed.

(** value of a byte string as Go's SetBytes sees the reversed, masked key *)
Lemma masked_y Pk : len Pk = 32 ->
  unbe (upd 0 (fun b => z2b (Z.land (b2z b) 127)) (zeros (32 - len Pk) ++ rev Pk)) = unle Pk mod 2 ^ 255.
Proof.
  intros H. rewrite H. change (zeros (32 - 32)) with (@nil byte). cbn [app]. unfold unbe.
  assert (Hl : length Pk = 32%nat) by (unfold len in H; lia).
  assert (E : exists init b, Pk = init ++ [b] /\ length init = 31%nat).
  { destruct (exists_last (l := Pk)) as (init & b & ->); [destruct Pk; [discriminate Hl|congruence]|].
    exists init, b. split; [reflexivity|]. rewrite app_length in Hl. cbn in Hl. lia. }
  destruct E as (init & b & -> & Hi). rewrite rev_app_distr. cbn [rev app upd]. rewrite rev_involutive.
  rewrite !unle_app. assert (Li : len init = 31) by (unfold len; rewrite Hi; reflexivity). rewrite Li.
  pose proof (unle_range init) as Hr. rewrite Li in Hr. cbn [unle]. pose proof (b2z_range b) as Hb.
  rewrite z2b_val by (change 127 with (Z.ones 7); rewrite Z.land_ones by lia; pose proof (Z.mod_pos_bound (b2z b) (2 ^ 7)); lia).
  change 127 with (Z.ones 7). rewrite Z.land_ones by lia. change (2 ^ 7) with 128.
  replace (b2z b) with (b2z b mod 128 + 128 * (b2z b / 128)) at 2 by lia.
  set (q := b2z b / 128). set (r := b2z b mod 128). assert (0 <= r < 128) by (unfold r; lia).
  replace (unle init + 256 ^ 31 * (r + 128 * q + 256 * 0)) with (unle init + 256 ^ 31 * r + q * 2 ^ 255).
  2:{ change (2 ^ 255) with (256 ^ 31 * 128). ring. }
  rewrite Z.mod_add by lia. rewrite Z.mod_small; [ring|]. change (2 ^ 255) with (256 ^ 31 * 128). nia.
Qed.

Lemma curve_of_spec Pk : len Pk = 32 -> let y := unle Pk mod 2 ^ 255 in
  exists u, curve_of Pk = le 32 u /\ 0 <= u < curve_p /\
    (rel_prime (1 - y) curve_p -> (u * (1 - y)) mod curve_p = (1 + y) mod curve_p) /\
    ((1 - y) mod curve_p = 0 -> u = 0).
Proof.
  intros H y. unfold curve_of. rewrite masked_y by exact H. fold y.
  assert (Hy : 0 <= y < 2 ^ 255) by (apply Z.mod_pos_bound; lia).
  assert (Hp : 1 < curve_p < 2 ^ 256) by (unfold curve_p; lia).
  pose proof (mod_inverse_spec (1 - y) curve_p Hp ltac:(lia)) as Hm.
  eexists. split; [reflexivity|]. split; [apply Z.mod_pos_bound; lia|].
  destruct (mod_inverse (1 - y) curve_p) as [i|].
  - destruct Hm as (Hi & Hm). split.
    + intros _. rewrite Z.mul_mod_idemp_l by lia. replace ((y + 1) * i * (1 - y)) with ((1 + y) * ((1 - y) * i)) by ring.
      rewrite <- Z.mul_mod_idemp_r, Hm, Z.mul_1_r by lia. reflexivity.
    + intros E. exfalso. rewrite <- Z.mul_mod_idemp_l, E in Hm by lia. cbn in Hm. discriminate Hm.
  - split; [intros Hr; contradiction|]. intros E. rewrite <- Z.mul_mod_idemp_r, E, Z.mul_0_r by lia. reflexivity.
Qed.

Lemma land248 z : 0 <= z < 256 -> Z.land z 248 = 8 * (z / 8).
Proof.
  intros H. replace (Z.land z 248) with (Z.land z (Z.shiftl (Z.ones 5) 3)) by reflexivity.
  assert (E : Z.shiftl (Z.shiftr z 3) 3 = 8 * (z / 8)).
  { rewrite Z.shiftl_mul_pow2, Z.shiftr_div_pow2 by lia. change (2 ^ 3) with 8. lia. }
  rewrite <- E. apply Z.bits_inj'. intros n Hn. rewrite Z.land_spec.
  destruct (Z.ltb_spec n 3) as [L|L].
  - rewrite !Z.shiftl_spec_low by lia. apply andb_false_r.
  - rewrite !Z.shiftl_spec by lia. rewrite Z.shiftr_spec by lia. replace (n - 3 + 3) with n by lia.
    destruct (Z.ltb_spec (n - 3) 5) as [L2|L2].
    + rewrite Z.ones_spec_low by lia. apply andb_true_r.
    + rewrite (Z.bits_above_log2 z n); [reflexivity|lia|].
      destruct (Z.eq_dec z 0) as [->|Hz]; [cbn; lia|]. assert (Z.log2 z < 8) by (apply Z.log2_lt_pow2; lia). lia.
Qed.
Lemma land127_byte z : Z.land z 127 = z mod 128.
Proof. change 127 with (Z.ones 7). rewrite Z.land_ones by lia. reflexivity. Qed.
Lemma lor64 z : 0 <= z < 128 -> Z.lor z 64 = 64 + z mod 64.
Proof.
  intros H. assert (forall n : nat, (n < 128)%nat -> Z.lor (Z.of_nat n) 64 = 64 + Z.of_nat n mod 64) as A.
  { assert (B : forallb (fun n => Z.lor (Z.of_nat n) 64 =? 64 + Z.of_nat n mod 64) (seq 0 128) = true) by (vm_compute; reflexivity).
    intros n Hn. rewrite forallb_forall in B. apply Z.eqb_eq. apply B. apply in_seq. lia. }
  replace z with (Z.of_nat (Z.to_nat z)) by lia. apply A. lia.
Qed.

(** clamping a 32-byte scalar: bits 0,1,2 and 255 cleared, bit 254 set, the others kept *)
Lemma clamp_value k : len k = 32 -> len (clamp k) = 32 /\ unle (clamp k) = 2 ^ 254 + 8 * ((unle k mod 2 ^ 254) / 8).
Proof.
  intros H. assert (Hl : length k = 32%nat) by (unfold len in H; lia).
  destruct k as [|a k]; [discriminate Hl|]. cbn in Hl. injection Hl as Hl.
  assert (E : exists mid b, k = mid ++ [b] /\ length mid = 30%nat).
  { destruct (exists_last (l := k)) as (init & b & ->); [destruct k; [discriminate Hl|congruence]|].
    exists init, b. split; [reflexivity|]. rewrite app_length in Hl. cbn in Hl. lia. }
  destruct E as (mid & b & -> & Hm).
  assert (U : forall f x, upd 31 f (x :: mid ++ [b]) = x :: mid ++ [f b]).
  { intros f x. cbn [upd]. f_equal. do 30 (destruct mid as [|? mid]; [discriminate Hm|]). destruct mid; [|discriminate Hm]. reflexivity. }
  assert (U' : forall f x c, upd 31 f (x :: mid ++ [c]) = x :: mid ++ [f c]).
  { intros f x c. cbn [upd]. f_equal. clear U. do 30 (destruct mid as [|? mid]; [discriminate Hm|]). destruct mid; [|discriminate Hm]. reflexivity. }
  unfold clamp. change (upd 0 (fun b => z2b (Z.land (b2z b) 248)) (a :: mid ++ [b])) with (z2b (Z.land (b2z a) 248) :: mid ++ [b]).
  rewrite U, U'. assert (Lm : len mid = 30) by (unfold len; rewrite Hm; reflexivity).
  split; [rewrite len_cons, len_app, Lm; reflexivity|].
  cbn [unle]. rewrite !unle_app, Lm. cbn [unle]. pose proof (b2z_range a) as Ha. pose proof (b2z_range b) as Hb.
  pose proof (unle_range mid) as Hr. rewrite Lm in Hr.
  rewrite land248 by lia. rewrite (z2b_val (8 * (b2z a / 8))) by lia. rewrite land127_byte. rewrite (z2b_val (b2z b mod 128)) by lia.
  rewrite lor64 by lia. rewrite z2b_val by lia.
  set (A := b2z a) in *. set (B := b2z b) in *. set (M := unle mid) in *.
  assert (Em : (A + 256 * (M + 256 ^ 30 * (B + 256 * 0))) mod 2 ^ 254 = A + 256 * (M + 256 ^ 30 * (B mod 64))).
  { replace (A + 256 * (M + 256 ^ 30 * (B + 256 * 0))) with (A + 256 * (M + 256 ^ 30 * (B mod 64)) + (B / 64) * 2 ^ 254).
    2:{ replace (2 ^ 254) with (256 * 256 ^ 30 * 64) by reflexivity. replace B with (B mod 64 + 64 * (B / 64)) at 3 by lia. ring. }
    rewrite Z.mod_add by lia. apply Z.mod_small. replace (2 ^ 254) with (256 * 256 ^ 30 * 64) by reflexivity.
    assert (0 <= B mod 64 <= 63) by lia. set (b6 := B mod 64) in *. set (W := 256 ^ 30) in *. nia. }
  rewrite Em. replace (2 ^ 254) with (64 * (256 * 256 ^ 30)) by reflexivity.
  replace (B mod 128 mod 64) with (B mod 64) by lia.
  replace ((A + 256 * (M + 256 ^ 30 * (B mod 64))) / 8) with (A / 8 + 32 * (M + 256 ^ 30 * (B mod 64))).
  2:{ apply Z.div_unique_pos with (r := A mod 8); [lia|]. rewrite (Z.div_mod A 8) at 1 by lia. ring. }
  ring.
Qed.
