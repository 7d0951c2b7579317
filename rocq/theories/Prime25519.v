(** 2^255 - 19 is prime (Pocklington's criterion, with the certificate chain below), so that every number which is not a multiple of it is
    invertible modulo it.  Used for C41. *)
From Coq Require Import ZArith Znumtheory List Lia Permutation.
Import ListNotations.
Local Open Scope bool_scope.
Local Open Scope Z_scope.

(** ** Fermat *)
Definition prod (l : list Z) : Z := fold_right Z.mul 1 l.
Lemma prod_perm l l' : Permutation l l' -> prod l = prod l'.
Proof. unfold prod. induction 1; cbn; try congruence; try ring. Qed.
Lemma prod_scaled a r l : 0 < r -> (prod (map (fun x => (a * x) mod r) l)) mod r = (a ^ Z.of_nat (length l) * prod l) mod r.
Proof.
  intros Hr. induction l as [|x l IH]; [reflexivity|]. cbn [map prod fold_right length]. rewrite Nat2Z.inj_succ, Z.pow_succ_r by lia.
  fold (prod (map (fun x => (a * x) mod r) l)). fold (prod l).
  rewrite Z.mul_mod, IH by lia. rewrite Z.mod_mod by lia. rewrite <- Z.mul_mod by lia. f_equal. ring.
Qed.
Lemma prod_coprime r l : prime r -> (forall x, In x l -> 0 < x < r) -> rel_prime r (prod l).
Proof.
  intros Hr. induction l as [|x l IH]; intros Hx; cbn; [apply rel_prime_sym, rel_prime_1|]. apply rel_prime_mult.
  - apply rel_prime_sym, rel_prime_le_prime; [exact Hr|]. specialize (Hx x (or_introl eq_refl)). lia.
  - apply IH. intros y Hy. apply Hx. now right.
Qed.
Lemma fermat r a : prime r -> ~ (r | a) -> a ^ (r - 1) mod r = 1.
Proof.
  intros Hr Ha. pose proof (prime_ge_2 _ Hr) as H2. set (L := map Z.of_nat (seq 1 (Z.to_nat (r - 1)))).
  assert (HL : forall x, In x L <-> 0 < x < r).
  { intros x. unfold L. rewrite in_map_iff. split.
    - intros (k & <- & Hk). apply in_seq in Hk. lia.
    - intros Hx. exists (Z.to_nat x). split; [lia|]. apply in_seq. lia. }
  assert (Hlen : Z.of_nat (length L) = r - 1) by (unfold L; rewrite map_length, seq_length; lia).
  assert (NL : NoDup L).
  { unfold L. apply FinFun.Injective_map_NoDup; [intros i j; lia|apply seq_NoDup]. }
  set (f := fun x => (a * x) mod r).
  assert (cancel : forall x y, (a * x) mod r = (a * y) mod r -> (r | x - y)).
  { intros x y H. apply Gauss with a; [|apply rel_prime_sym; apply prime_rel_prime in Ha; [apply rel_prime_sym; exact Ha|exact Hr]].
    apply Z.mod_divide; [lia|]. replace (a * (x - y)) with (a * x - a * y) by ring. rewrite Zminus_mod, H, Z.sub_diag. reflexivity. }
  assert (P : Permutation (map f L) L).
  { apply NoDup_Permutation_bis.
    - assert (G : forall l, NoDup l -> (forall x, In x l -> 0 < x < r) -> NoDup (map f l)).
      { induction l as [|x l IH]; intros N B; cbn; constructor.
        - intros Hin. apply in_map_iff in Hin. destruct Hin as (y & Hy & Hin). inversion N as [|? ? N1 N2]; subst. unfold f in Hy. apply cancel in Hy.
          pose proof (B x (or_introl eq_refl)). pose proof (B y (or_intror Hin)). destruct Hy as [k Hk]. assert (k = 0) by nia. subst k.
          assert (y = x) by lia. subst y. contradiction.
        - inversion N; subst. apply IH; [assumption|]. intros y Hy. apply B. now right. }
      apply G; [exact NL|]. intros x. apply HL.
    - rewrite map_length. lia.
    - intros y Hy. apply in_map_iff in Hy. destruct Hy as (x & <- & Hx). apply HL in Hx. apply HL. unfold f.
      pose proof (Z.mod_pos_bound (a * x) r ltac:(lia)). destruct (Z.eq_dec ((a * x) mod r) 0) as [E|]; [|lia]. exfalso.
      specialize (cancel x 0). rewrite Z.mul_0_r, E, Z.mod_0_l, Z.sub_0_r in cancel by lia. specialize (cancel eq_refl). apply Z.divide_pos_le in cancel; lia. }
  pose proof (prod_scaled a r L ltac:(lia)) as S. fold f in S. rewrite (prod_perm _ _ P), Hlen in S.
  assert (D : (r | a ^ (r - 1) - 1)).
  { apply Gauss with (prod L); [|apply prod_coprime; [exact Hr|intros x; apply HL]]. apply Z.mod_divide; [lia|].
    replace (prod L * (a ^ (r - 1) - 1)) with (a ^ (r - 1) * prod L - prod L) by ring. rewrite Zminus_mod, <- S, Z.sub_diag. reflexivity. }
  destruct D as [k Hk]. replace (a ^ (r - 1)) with (1 + k * r) by lia. rewrite Z_mod_plus_full. apply Z.mod_small. lia.
Qed.

(** ** Pocklington *)
Lemma pow_mod1 r x k : 1 < r -> 0 <= k -> x mod r = 1 -> x ^ k mod r = 1.
Proof.
  intros Hr Hk H. revert k Hk. apply natlike_ind; [apply Z.mod_small; lia|]. intros k Hk IH. rewrite Z.pow_succ_r by lia.
  rewrite Z.mul_mod, H, IH by lia. apply Z.mod_small. lia.
Qed.
Lemma pock_step n a m q r : 1 < n -> prime q -> n - 1 = q * m -> 0 <= m -> a ^ (n - 1) mod n = 1 -> Z.gcd (a ^ m - 1) n = 1 ->
  prime r -> (r | n) -> (q | r - 1).
Proof.
  intros Hn Hq Hm Hm0 H1 H2 Hr Hd. pose proof (prime_ge_2 _ Hr) as R2. pose proof (prime_ge_2 _ Hq) as Q2.
  destruct (Zdivide_dec q (r - 1)) as [|Hno]; [assumption|exfalso]. apply prime_rel_prime in Hno; [|exact Hq].
  set (x := a ^ m) in *.
  assert (X1 : x ^ q mod r = 1).
  { unfold x. rewrite <- Z.pow_mul_r by lia. rewrite (Z.mul_comm m q), <- Hm. destruct Hd as [k Hk].
    assert (E : a ^ (n - 1) = n * (a ^ (n - 1) / n) + 1) by (pose proof (Z.div_mod (a ^ (n - 1)) n ltac:(lia)) as Z0; rewrite H1 in Z0; exact Z0).
    rewrite E, Hk. replace (k * r * (a ^ (k * r - 1) / (k * r)) + 1) with (1 + (k * (a ^ (k * r - 1) / (k * r))) * r) by ring.
    rewrite Z_mod_plus_full. apply Z.mod_small. lia. }
  assert (X2 : ~ (r | x)).
  { intros [k Hk]. rewrite Hk in X1. replace q with (Z.succ (q - 1)) in X1 by lia. rewrite Z.pow_succ_r in X1 by lia.
    replace (k * r * (k * r) ^ (q - 1)) with (k * (k * r) ^ (q - 1) * r) in X1 by ring. rewrite Z_mod_mult in X1. discriminate. }
  pose proof (fermat r x Hr X2) as X3.
  destruct (rel_prime_bezout _ _ Hno) as [u v Huv].
  set (U := u mod (r - 1) + (r - 1)). set (K := (U * q - 1) / (r - 1)).
  assert (HU : 1 <= U) by (pose proof (Z.mod_pos_bound u (r - 1) ltac:(lia)); unfold U; lia).
  assert (HK : U * q = 1 + (r - 1) * K).
  { unfold K. assert (Dv : (r - 1 | U * q - 1)).
    { exists (q - u / (r - 1) * q - v). unfold U. rewrite Z.mod_eq by lia. set (Q := u / (r - 1)) in *. clearbody Q. nia. }
    destruct Dv as [t Ht]. rewrite Ht, Z.div_mul by lia. lia. }
  assert (HK0 : 0 <= K) by nia.
  assert (A : x ^ (U * q) mod r = 1). { rewrite Z.mul_comm, Z.pow_mul_r by lia. apply pow_mod1; [lia|lia|exact X1]. }
  rewrite HK, Z.pow_add_r, Z.pow_1_r, Z.pow_mul_r in A by nia. rewrite Z.mul_mod, (pow_mod1 r (x ^ (r - 1)) K), Z.mul_1_r, Z.mod_mod in A by (lia || exact X3).
  assert (D : (r | x - 1)). { apply Z.mod_divide; [lia|]. rewrite Zminus_mod, A, (Z.mod_small 1) by lia. reflexivity. }
  assert (D1 : (r | 1)) by (rewrite <- H2; apply Z.gcd_greatest; assumption). apply Z.divide_pos_le in D1; lia.
Qed.

Lemma prime_factor n : 1 < n -> exists r, prime r /\ (r | n).
Proof.
  intros Hn. assert (0 <= n) as H0 by lia. revert Hn. pattern n. apply Z_lt_induction; [|exact H0]. clear n H0. intros n IH Hn.
  destruct (prime_dec n) as [Hp|Hp]; [exists n; split; [exact Hp|apply Z.divide_refl]|].
  destruct (not_prime_divide n Hn Hp) as (d & Hd & Hdn). destruct (IH d) as (r & Hr & Hrd); [lia|lia|]. exists r. split; [exact Hr|]. eapply Z.divide_trans; eauto.
Qed.
Lemma small_factor n : 1 < n -> ~ prime n -> exists r, prime r /\ (r | n) /\ r * r <= n.
Proof.
  intros Hn Hp. destruct (not_prime_divide n Hn Hp) as (d & Hd & e & He).
  destruct (Z_le_gt_dec (d * d) n) as [Hle|Hgt].
  - destruct (prime_factor d ltac:(lia)) as (r & Hr & Hrd). exists r. split; [exact Hr|]. split; [eapply Z.divide_trans; [exact Hrd|exists e; exact He]|].
    pose proof (prime_ge_2 _ Hr). apply Z.divide_pos_le in Hrd; [|lia]. apply Z.le_trans with (d * d); [|exact Hle]. apply Z.mul_le_mono_nonneg; lia.
  - assert (1 < e < d) as He1 by nia. destruct (prime_factor e ltac:(lia)) as (r & Hr & Hrd). exists r. split; [exact Hr|]. split; [eapply Z.divide_trans; [exact Hrd|exists d; lia]|].
    pose proof (prime_ge_2 _ Hr). apply Z.divide_pos_le in Hrd; [|lia]. apply Z.le_trans with (e * e); [apply Z.mul_le_mono_nonneg; lia|nia].
Qed.

(** a^e mod n by squaring.  The quotients are given, so that only multiplications are left to the kernel: [ws] lists the quotients of the
    squares and of the multiplications by a, in the order in which they are needed; every step is checked. *)
Definition redw (x n w : Z) : option Z := let s := x - w * n in if (0 <=? s) && (s <? n) then Some s else None.
Fixpoint pm (a n : Z) (e : positive) (ws : list Z) : option (Z * list Z) :=
  match e with
  | xH => Some (a, ws)
  | xO e' =>
      match pm a n e' ws with
      | Some (t, w :: ws') => match redw (t * t) n w with Some s => Some (s, ws') | None => None end
      | _ => None
      end
  | xI e' =>
      match pm a n e' ws with
      | Some (t, w :: w' :: ws') =>
          match redw (t * t) n w with
          | Some s => match redw (s * a) n w' with Some s' => Some (s', ws') | None => None end
          | None => None
          end
      | _ => None
      end
  end.
Lemma redw_ok x n w s : redw x n w = Some s -> s = x mod n.
Proof.
  unfold redw. cbv zeta. destruct (Z.leb_spec 0 (x - w * n)); [|discriminate]. destruct (Z.ltb_spec (x - w * n) n); [|discriminate]. cbn.
  intros H1. injection H1 as <-. apply Z.mod_unique with w; lia.
Qed.
Lemma pm_ok a n e : 0 <= a < n -> forall ws t ws', pm a n e ws = Some (t, ws') -> t = a ^ Zpos e mod n.
Proof.
  intros Hn. induction e as [e IH|e IH|]; intros ws t ws' H; cbn [pm] in H.
  - destruct (pm a n e ws) as [[t0 [|w [|w' ws0]]]|] eqn:E; try discriminate. apply IH in E. destruct (redw (t0 * t0) n w) as [s|] eqn:R; [|discriminate].
    destruct (redw (s * a) n w') as [s'|] eqn:R'; [|discriminate]. injection H as <- <-. apply redw_ok in R, R'. subst.
    rewrite Pos2Z.inj_xI. rewrite Z.pow_add_r, Z.pow_1_r, Z.pow_twice_r by lia. rewrite <- Z.mul_mod by lia. rewrite Z.mul_mod_idemp_l by lia. reflexivity.
  - destruct (pm a n e ws) as [[t0 [|w ws0]]|] eqn:E; try discriminate. apply IH in E. destruct (redw (t0 * t0) n w) as [s|] eqn:R; [|discriminate].
    injection H as <- <-. apply redw_ok in R. subst. rewrite Pos2Z.inj_xO. rewrite Z.pow_twice_r by lia. rewrite <- Z.mul_mod by lia. reflexivity.
  - injection H as <- <-. rewrite Z.pow_1_r. symmetry. apply Z.mod_small. exact Hn.
Qed.
(** Fermat's condition for n, and one certificate step for the prime factor q of n-1 with cofactor m *)
Definition fcert (n a : Z) (ws : list Z) : bool :=
  (1 <? a) && (a <? n) && match pm a n (Z.to_pos (n - 1)) ws with Some (t, _) => t =? 1 | None => false end.
Definition cert (n a q m : Z) (ws : list Z) : bool :=
  (1 <? m) && (q * m =? n - 1) && match pm a n (Z.to_pos m) ws with Some (t, _) => Z.gcd (t - 1) n =? 1 | None => false end.
Lemma cert_ok n a ws q m ws' r : fcert n a ws = true -> cert n a q m ws' = true -> prime q -> prime r -> (r | n) -> (q | r - 1).
Proof.
  unfold fcert, cert. destruct (pm a n (Z.to_pos (n - 1)) ws) as [[t l]|] eqn:E1; [|rewrite !Bool.andb_false_r; discriminate].
  destruct (pm a n (Z.to_pos m) ws') as [[t' l']|] eqn:E2; [|rewrite !Bool.andb_false_r; discriminate].
  rewrite !Bool.andb_true_iff, !Z.ltb_lt, !Z.eqb_eq. intros ((H1 & H2) & H4) ((H3 & H6) & H5) Hq Hr Hd.
  apply pm_ok in E1; [|lia]. apply pm_ok in E2; [|lia]. rewrite Z2Pos.id in E1, E2 by lia. subst t t'.
  apply (pock_step n a m q r); try assumption; try lia.
  rewrite Z.gcd_comm in H5. rewrite Z.gcd_comm. etransitivity; [|exact H5]. symmetry.
  replace (a ^ m mod n - 1) with (a ^ m - 1 + (- (a ^ m / n)) * n) by (rewrite Z.mod_eq by lia; ring). apply Z.gcd_add_mult_diag_r.
Qed.
Lemma fcert_gt n a ws : fcert n a ws = true -> 1 < n.
Proof. unfold fcert. rewrite !Bool.andb_true_iff, !Z.ltb_lt. lia. Qed.
Lemma pock1 n a ws q m ws' : fcert n a ws = true -> cert n a q m ws' = true -> prime q -> n < q * q -> prime n.
Proof.
  intros F H Hq Hlt. destruct (prime_dec n) as [|Hn]; [assumption|exfalso].
  pose proof (fcert_gt _ _ _ F) as Hn1.
  destruct (small_factor n Hn1 Hn) as (r & Hr & Hd & Hs). pose proof (cert_ok _ _ _ _ _ _ _ F H Hq Hr Hd) as D. pose proof (prime_ge_2 _ Hr). pose proof (prime_ge_2 _ Hq).
  apply Z.divide_pos_le in D; [|lia]. assert (q * q <= r * r) by (apply Z.mul_le_mono_nonneg; lia). lia.
Qed.
Lemma pock2 n a ws q m ws1 q' m' ws2 : fcert n a ws = true -> cert n a q m ws1 = true -> cert n a q' m' ws2 = true -> prime q -> prime q' -> q <> q' -> n < (q * q') * (q * q') -> prime n.
Proof.
  intros F H H' Hq Hq' Hne Hlt. destruct (prime_dec n) as [|Hn]; [assumption|exfalso].
  pose proof (fcert_gt _ _ _ F) as Hn1.
  destruct (small_factor n Hn1 Hn) as (r & Hr & Hd & Hs). pose proof (cert_ok _ _ _ _ _ _ _ F H Hq Hr Hd) as D. pose proof (cert_ok _ _ _ _ _ _ _ F H' Hq' Hr Hd) as D'.
  pose proof (prime_ge_2 _ Hr). pose proof (prime_ge_2 _ Hq). pose proof (prime_ge_2 _ Hq').
  assert (E : (q * q' | r - 1)).
  { destruct D as [t Ht]. rewrite Ht in *. assert (q' | t) as [s ->].
    - apply Gauss with q; [rewrite Z.mul_comm; exact D'|]. apply prime_rel_prime; [exact Hq'|]. intros X. apply prime_div_prime in X; auto.
    - exists s. ring. }
  apply Z.divide_pos_le in E; [|lia]. assert (0 < q * q') by nia. assert ((q * q') * (q * q') <= r * r) by (apply Z.mul_le_mono_nonneg; lia). lia.
Qed.
(** trial division up to b, for the small primes *)
Fixpoint trial (n d : Z) (k : nat) : bool := match k with O => true | S k' => negb (n mod d =? 0) && trial n (d + 1) k' end.
Lemma trial_ok n k : forall d, 0 < d -> trial n d k = true -> forall x, d <= x < d + Z.of_nat k -> ~ (x | n).
Proof.
  induction k as [|k IH]; intros d Hd H x Hx; [lia|]. cbn [trial] in H. apply Bool.andb_true_iff in H. destruct H as [H1 H2].
  destruct (Z.eq_dec x d) as [->|]; [|apply (IH (d + 1)); try assumption; lia]. intros D. apply Z.mod_divide in D; [|lia]. rewrite D in H1. discriminate.
Qed.
Lemma small_prime n (k : nat) : 1 < n -> n < (2 + Z.of_nat k) * (2 + Z.of_nat k) -> trial n 2 k = true -> prime n.
Proof.
  intros Hn Hk H. destruct (prime_dec n) as [|Hp]; [assumption|exfalso]. destruct (small_factor n Hn Hp) as (r & Hr & Hd & Hs).
  pose proof (prime_ge_2 _ Hr). apply (trial_ok n k 2 ltac:(lia) H r); [nia|exact Hd].
Qed.

Ltac triv k := apply (small_prime _ k); vm_compute; reflexivity.
Lemma p991 : prime 991. Proof. triv 30%nat. Qed.
Lemma p103 : prime 103. Proof. triv 9%nat. Qed.
Lemma p127 : prime 127. Proof. triv 10%nat. Qed.
Lemma p4153 : prime 4153. Proof. triv 63%nat. Qed.
Lemma p569003 : prime 569003. Proof. triv 753%nat. Qed.
Lemma p430751 : prime 430751. Proof. triv 655%nat. Qed.
Definition q1_w : list Z :=
[0; 0; 0; 0; 500; 7280336; 1; 7456332; 1896593; 1; 3322; 1; 1041952; 2925777; 0; 3434535; 205779; 1; 3515050; 344787; 73890; 0; 3194; 386860; 1;
1672097; 1; 256888; 3470711; 1; 4538409; 8574131].
Definition q1_w1 : list Z :=
[0; 0; 0; 0; 500; 1; 6092296; 1; 4571164; 1; 21599; 53551; 6277877; 1; 468071; 0; 567; 5078200].
Definition q1_w2 : list Z :=
[0; 0; 0; 0; 0; 128235; 6883626; 0; 7724746; 281918; 1; 5828028; 6125902; 105315; 1; 4377212; 4818938; 1; 16454; 0; 5193399; 8545764].
Lemma q1 : prime 8574133.
Proof. apply (pock2 _ 2 q1_w 991 8652 q1_w1 103 83244 q1_w2); [vm_compute; reflexivity|vm_compute; reflexivity|vm_compute; reflexivity|apply p991|apply p103|discriminate|vm_compute; reflexivity]. Qed.
Definition q2_w : list Z :=
[0; 0; 0; 0; 0; 0; 0; 9; 284295492895693; 0; 275758094055179; 1519757588030409; 1847280403589061; 773369056637739; 1; 572644564452909; 0;
503431636047184; 1; 849370995293977; 1655633836119701; 12534754351620; 1; 1235760164864112; 932197501025794; 1; 801711092642386; 1342340714748832; 1;
1308610995622412; 1; 794280497165165; 0; 796873227906792; 1; 229526494651166; 0; 53053440409930; 177207985900800; 0; 861467390729690; 864429340901971;
502865840146461; 1294168704642539; 5471294495315; 1; 119197646269096; 1152372181839647; 887104278804446; 0; 1247460400092810; 828348274780909; 1;
908271569201220; 1690441185370361; 169448166777771; 0; 1107080073217378; 1; 426136975099895; 1; 501225309989436; 435205383058446; 1; 1424511375154407;
1529486821174; 530444640676211; 85193734522271; 1170688015604799; 1; 210970359265512; 357357812425588; 0; 1919519569386761].
Definition q2_w1 : list Z :=
[0; 0; 0; 0; 0; 0; 2; 0; 920314958071172; 575131851900285; 0; 1458086505860193; 0; 446662734664136; 666670737639295; 1816664587145774;
100778426374213; 720471481685335; 1046314874568149; 27663020749752; 998775100878461; 1; 261275430339817; 351998656793099; 1232966499207536; 0;
1400365964004865; 982260639543366; 40862988108194; 1; 932557725746660; 228087889215254; 522704582871222; 1720890307650717; 0; 69185309437821].
Definition q2_w2 : list Z :=
[0; 0; 0; 0; 0; 0; 0; 9; 284295492895693; 0; 275758094055179; 1; 1166619674852310; 1; 1380400805183587; 1; 117065305877349; 0; 1321091186692593; 1;
909194381574220; 49645792294407; 1054772724053406; 299355199495; 0; 1733158629643266; 79022812739836; 0; 88932302274112; 1029650320722758;
172329690432796; 563850530332194; 1578106994494671; 391533969647063; 1; 1020670076851067; 1; 3492781189914; 0; 608160520515949; 504604666804580;
688546692896661; 63177088511839; 0; 1834955101739687; 226460718759342; 1; 168475133951706; 0; 186234965509593; 1; 251865964282952; 1282861287604675;
1; 909022928579780; 0; 1859393780627; 1; 792090246896294; 0; 49733298571023; 1; 1490722946492942; 902762998214125; 1; 2328866408184; 0;
1530524648703138].
Lemma q2 : prime 1919519569386763.
Proof. apply (pock2 _ 2 q2_w 8574133 223873314 q2_w1 127 15114327318006 q2_w2); [vm_compute; reflexivity|vm_compute; reflexivity|vm_compute; reflexivity|apply q1|apply p127|discriminate|vm_compute; reflexivity]. Qed.
Definition q3_w : list Z :=
[0; 0; 0; 0; 0; 396; 0; 2350775412; 785736; 0; 1754219930; 545797130; 0; 549438692; 1703127914; 2701450578; 0; 632099319; 0; 2362455163; 1567130886;
1; 911872809; 1; 1072143457; 1646534683; 1391423602; 1826872667; 1123354658; 230853494; 0; 1427116034; 1; 45901577; 1; 2065347198; 1277194667; 1;
1418118798; 935263960; 1; 80974547; 1; 1700743319; 1; 0].
Definition q3_w1 : list Z :=
[0; 0; 0; 0; 0; 0; 99; 36730865; 1832010389; 847589523; 1042858680; 0; 53963548; 29461863; 0; 103739217].
Lemma q3 : prime 2773320623.
Proof. apply (pock1 _ 2 q3_w 569003 4874 q3_w1); [vm_compute; reflexivity|vm_compute; reflexivity|apply p569003|vm_compute; reflexivity]. Qed.
Definition q4_w : list Z :=
[0; 0; 0; 0; 0; 0; 1023307800; 0; 60334482282; 44016036267; 58484299776; 0; 57268297405; 12756826618; 35286807850; 0; 94568513; 0; 2100594911; 0;
20291222; 16988179284; 0; 1721504603; 1; 1713915991; 1; 6972445518; 0; 33121097058; 0; 34659321963; 12753191858; 0; 48604313560; 13311175838; 0;
45713055218; 1; 2729455118; 0; 16808388394; 1; 63829003020; 1; 1563238743; 1; 39277899916; 0; 4920065176; 1174078952; 4087970915; 214911460; 0;
39887308736; 1; 0].
Definition q4_w1 : list Z :=
[0; 0; 0; 0; 0; 0].
Lemma q4 : prime 72106336199.
Proof. apply (pock1 _ 2 q4_w 2773320623 26 q4_w1); [vm_compute; reflexivity|vm_compute; reflexivity|apply q3|vm_compute; reflexivity]. Qed.
Definition q5_w : list Z :=
[0; 0; 0; 0; 0; 0; 0; 0; 1; 771851547816808051379443778815459; 6420572549171516046176593860100809; 14454001564635066427709881826409752; 0;
66667038788385923321419939364481488; 0; 178148288796372377917306101630794; 0; 8552422171130188577595559308880644; 0;
37261025307807933264450697912613892; 1; 10823015056886887261668044373608357; 30961174939432559984738738584029315; 9543413879590745612390818824318;
27212238786572118819693610976292909; 69975992857659901391358787752308146; 0; 74787050744880317833576541907568545; 3501328786420944314232241696768476;
0; 4287820144507981290238773629741760; 10226278690813587315934116632756463; 0; 1044899611988915660444025085319451; 3153807201582730232094456086824652;
60226900770985950026677686375097573; 1; 1326828326074791530425417056591862; 1701021976185506177894356976435511; 93353633572697574796185448788719;
1054064504601667130566811171705556; 1; 69026302003751009225611307952773600; 1; 69781463649847304357816206772195836; 1;
27996500884623667420435143924148067; 5968510588815754585755908646779; 0; 70113003024475757775321996533607535; 1; 51907389116803021176323769539678895;
1; 11601580802542513728843455057532828; 1; 72357066083977699180045520576918136; 22409465071039932274628202183641671; 0;
15305271081133729392291154179040386; 1; 21514288167744237820625522079784584; 1; 17494716985245889738608394253763934;
3979886340046577149477472973859038; 14806265558573926326230418156236496; 4397504359674470949521980787952437; 55162628674867767836158767029343180;
32605483465784016117553503132009; 12758722600370745817874675611869284; 1; 1846756431727114921091744224038; 45272519157345292864575956316452726; 0;
20579732548185144847843165374966669; 4762305316314568432722026018264011; 0; 24092145032727953446618184066549750; 1;
34318373942212199395003219355572734; 47870574823852477979934256300074948; 1; 37357633010522906255630588371906398; 35684537007819210446477302226859212;
32925545664710938880561163616926857; 27464786312888658465645388256308953; 2209959290896329926968232586479868; 0; 39082304778748024630635265073521629;
23661964636132084400830273272489444; 1; 54161801305016791008851152454125431; 0; 29429811143261687700386922218423166; 0;
7508593851077793733041036252813596; 1; 20391306206010426744923801599057214; 10202748745529044120012868028398902; 13376418938836448808762957671499329;
1; 72704344956274686391157189808741468; 302364135520944856992216994587885; 4639959436470582699670449009170714; 0; 1370746278981597104838003854674778;
0; 23517639847936053940406944463800117; 177600252585397726476178210550; 0; 24582053381158729977434470220931151; 1;
19657572562076469557474316752965809; 0; 46871660835054226711614059900940816; 0; 12891689845175253577576619877130907;
7068162831219294747801995350537192; 4634393333986200328317558958439351; 6339108082128186258628870511208919; 2121725399759020858020091640736503; 0;
10840480581745966524946195663216876; 0; 67525805175160481826139260838007654; 0; 24577573900302943555059758083120298;
14149097860841839966656012334961331; 65337045248252484567009413825884397; 1; 36538232735243827747936968108312857; 0;
4012974852631961865281658285116460; 1; 55843469365715368362468480707808829; 64722123699458232616333721538099691; 23505652512766148768956438460730507;
0; 31937654930793781474880405364272074; 49148595985399258001284529812579891; 0; 25087370692238060902812612345126444;
60219989501516724208633208855498423; 0; 7064383926149066980904322408680805; 0; 64475067684465982501133245190500532;
29494292283053263756425968565892500; 0; 3787671844928794520752214380275224; 0; 29180366642012458176251648635799663;
1448663039585902268113875523803170; 18836642410671318999831714378680293; 0; 22173856685880343095672505025355721; 10220417832788193175143522916513345;
6332473500919813117686273409683965; 189192821467613640865611178625034; 0; 29782901387501770244793987762945810; 1; 34439257595915159096607035353488936;
1; 1536463269165811910871648434114540; 1; 58067023597724373682423530826405469; 1; 29841474870263003462022108898837555;
61380860120709968955617829202648356; 75445702479781427272750846543864799; 0; 0].
Definition q5_w1 : list Z :=
[0; 0; 0; 0; 0; 0; 0; 1154635; 18390568088419540713180144552603353; 0; 0; 5845373972; 43884161760493446304720381539470685; 0;
39589236369298232014301996017866213; 1; 50306008181764098056474665348533242; 0; 34874600400109785010110741815565865;
66641755962130575733192416723226737; 0; 14259769805182405020291244956113789; 19821583851924905080392775313530784; 0;
54519448695864916869544937987946629; 1; 31993228866829677464604812351954812; 36856026726665311569831140646019472; 37558755042300401026910323427360228;
615760444218744780521983962460186; 1; 9915846538991804092978480448020986; 17579763701632442834351678143176982; 8629543046122224655388998502785386;
44271505154735219577410419876966371; 1; 51203725768512740208766088776196223; 49496801234080189199802786389654346; 0;
73418749640311588077528095093038375; 1; 2236470025910010689164230430725332; 1076222725761530537195566239847971; 1;
22809566161055617308630171418611432; 1; 18138563752825011389988221154025764; 3492398888294961303385950226589; 0; 8355422685563742011965376336700514;
31547866995117440496841778213199857; 0; 7351247849111252030066748547339441; 1; 15496460349782741374426957909312839;
7461042150057713313968240002043828; 1; 73140260026178284946026360103387949; 37386986428869317886938646893687; 44396450073493546711210718716058969; 0;
63361663935280002367080630589162172; 1; 2132879317460624957399322414670445; 0; 2299604436452138328132867476993393; 1;
19938355793717465847682208159383547; 189683712955438751293392766269164; 0; 20033851381388641281861481842955776; 1; 2715908353627319623031256456902274;
1; 69604568864888641168444927591077276; 37124984734424324294785152761527766; 25283313481485823676523318387740688; 1722670923328116432722926982379213;
1; 4752556248222889451123733574281160; 48803706555019381439432200266206036; 0; 23061994967837303253518528843825627; 1;
565476164982231476925123345839256; 1; 2532703817080747243557279080460146; 0; 68880706720798111363682571039351209; 47283457909877309068746210012120; 0;
61147586567349870743199647966593842; 26475140829181573416469200498415960; 8533707345012022015661890767769502; 57406289184049389055471778293765177;
97303796875390224746540460292342].
Definition q5_w2 : list Z :=
[0; 0; 0; 0; 0; 0; 0; 0; 0; 0; 22333898569616666233301874943846; 0; 4757662936215505821616864163966292; 1; 16398934252424649126653533786109182;
9637565565324590277499799172905; 47152617164750950816110072875178648; 0; 67568986676094842354364931032594417; 41779723483052284131646995553882959;
25690283279781925462357491746430220; 7172715354324441471112480629495949; 75286934900171286470942250889311390; 0; 50274371510426007619363184844720267;
4991879312832147931479257115555298; 0; 15488443025049722141408803208539531; 41535448420441652283712747056947218; 1;
70946339779746570380936224446865252; 21646281258356046232914624375633453; 1; 50661391893871398114692235583698166; 1;
16015270219093157098248793629473048; 1; 22028010213955304615493039172207790; 3732828046540648610302109530760569; 27270674028372827494899646569876536;
1; 3366355776061188034243615067714466; 1; 59760427481166743976746882210027530; 0; 60985972419062062554108059562076968;
65278955312290480399383751303759917; 64537695958193589242849175013924717; 1; 3703382977470784329224076264730596; 1;
15606896514359781547858717524762843; 0; 72728069814115748985706313500797071; 0; 16978035855646335567461361244854661;
43981062329240366730864826195895108; 51541886741340019136512639746900896; 41546137622548825785691560837559810; 1; 13150430261721952571788696740102147;
46092262745261076907919255531954377; 1; 9404826350863913576474848920923181; 20379235490451806978451029472432772; 1;
3051654934111266414989931816655564; 0; 44412250491230721600556686683939521; 8014858009165817772616195065605669; 1; 6275951709687876054961284726283620;
0; 60666913430211394359914775718410811; 0; 60004206227950015849506937725819859; 14657661357772689413988024815717315;
18410367797145501553099622800076327; 0; 35729597195829249480215295124392768; 0; 40675559201528291410302697699500631; 0;
73859608244518336930388315451382108; 3168609916979827292787075668946007; 1109535835027887164301713532047447; 0; 1636076745898060830721511862575393; 1;
37380499395710865784339313070180096; 0; 62146461625932859487820517310805626; 1; 53379237417233536669898103246009806; 1;
28494719350334821710855187277135; 1; 43956612259121893790028862077601868; 50831212217307820291731800866172155; 0; 5721194803247161494122231976213067;
10624319746075208369719210880264726; 1; 48464573310648184047262705302695063; 0; 9107108939887595441332590051368941; 1;
3314212668916818324193605780198765; 1; 56844713397191241517253738002107255; 1; 31246643805752947481173622292138943;
64298844006199517323494115037135119; 1; 17435492862474321177554204524212644; 3417527745666477043354550284310927; 564742994461708922959118019972795; 0;
24418430732548107656923082070771800; 30205915367152471560564481541778868; 62440531289881368778115168009631612; 35795014407915830545320948512247069;
42804976153695787927573973595351031].
Lemma q5 : prime 75445702479781427272750846543864801.
Proof. apply (pock2 _ 2 q5_w 1919519569386763 39304471641247389600 q5_w1 72106336199 1046311689884858398375200 q5_w2); [vm_compute; reflexivity|vm_compute; reflexivity|vm_compute; reflexivity|apply q2|apply q4|discriminate|vm_compute; reflexivity]. Qed.
Definition q6_w : list Z :=
[0; 0; 0; 0; 0; 0; 2; 2297617667469614; 16215276262549808; 0; 11668971563344286; 1; 1741677233341906; 8751638487034468; 0; 28484810365401956;
10624786681168116; 6305051505183370; 0; 6588384574251954; 1; 1049697935920162; 1; 4379967974361204; 10211201650324899; 44119264361236;
1969601785054110; 5838891459811251; 6425136008179783; 1; 404941567467301; 19113718992604922; 0; 12485300992841101; 95685957781602; 1;
14987108388391207; 25573870890368404; 1; 938016934469616; 25228026748990801; 1; 6474026457778824; 0; 27358160825687159; 1; 6455655652867942;
1902602817228783; 32849879620599; 20229641658156; 1; 29396145143536821; 8270546681548474; 0; 9499489410761639; 0; 5417497522896213; 1;
18035852501327565; 1776427905728336; 13134654378889598; 0; 24363959740742738; 1; 3493003373238072; 8982554315343478; 535847029705133; 1;
18237910116453405; 6873360797568134; 16800585881333476; 1; 159178039291990; 0; 9629545146812611; 0; 325926462127084; 31757755568855351; 0].
Definition q6_w1 : list Z :=
[0; 0; 0; 0; 0; 0; 9293; 16777319844740705; 0; 1206232414961664; 5290096; 0; 24450848839085414; 20096051131983798; 0; 21563714308684780;
11127895909929261; 1258427661565384; 1; 31128473595180826; 0; 31155302536731755; 0; 4062944024848219; 19392674721142903; 2016193400286476;
13559746835803430; 31548039169748776; 1; 25624381889706013; 0; 31704226760843056; 28860648685636282; 1; 258831884165329; 11047499862347396;
3170954069381326; 1; 31239337551771767; 1; 22489347310124394; 0; 9016535400976908; 0; 945966717768427; 8971961744138953; 15315975398106859; 0;
3108444444384516; 399853941064635; 19814042738057467].
Definition q6_w2 : list Z :=
[0; 0; 0; 0; 0; 0; 0; 0; 1; 574404416867403; 1; 4053819065637452; 182327680677254; 0; 29072189218727180; 29109843543571909; 1808428124199;
3610261513919; 1; 8540790782372363; 1; 9676572432431274; 0; 11500248028578424; 16896871243640; 2200824298080454; 24236037438892213; 0;
868841242611353; 22430204019254976; 0; 9541847810989373; 22494531700731045; 0; 1477567086243860; 7239310401573992; 1; 99118900507306; 0;
7820753280621594; 392008304404932; 0; 24342829610957425; 1; 1312946778381133; 0; 16635740558220327; 0; 9770834029214371; 455212385947506;
11865492998291721; 1; 1325553887576493; 5167156726786483; 1; 15069576284594748; 1; 243378753999965; 1; 29077878541935860; 0; 12870672541636747; 1;
26322373399541752; 202501474553947; 23365775435279490].
Lemma q6 : prime 31757755568855353.
Proof. apply (pock2 _ 2 q6_w 430751 73726481352 q6_w1 4153 7646943310584 q6_w2); [vm_compute; reflexivity|vm_compute; reflexivity|vm_compute; reflexivity|apply p430751|apply p4153|discriminate|vm_compute; reflexivity]. Qed.
Definition q7_w : list Z :=
[0; 0; 0; 0; 0; 0; 0; 0; 0; 0; 0; 120972119608987003153279868731392; 0; 0; 19820072076736430596633373692951265280000; 0; 13;
58255970412721229891146420851819062531515114256684725439977527483613283; 0; 7210500217019736954765312000000000000000000000000000000000000000000; 0;
1837918331352469542759342700570023340148462520648748458; 0; 32169012659232222171477816252962242928208533698336865163828637642325932; 0;
60762876902708069173353215232709893111321806733811011727729634729159762; 1; 12277840436278147552078235941909291386797414739826283931274334589850559;
42314394046789586056170298750879232160358089862891485603888972641663161; 21710380438899056550880882523674926494225350295417576107727986598290590;
19798618783829136171486191873600782604721514032784572898708673715876; 0; 10983192209076460054446017793408273434136413677685857763038802843373263; 1;
23491900193430169338230511734225025668169639839191002159248911146484986; 16301956864093628504845736357669873534101208890285929289259442799565959;
18653990918750600808612360746129714363898173638984590966165350393279350; 12299537625460495482982349962054085142636131948856479094255846475211712; 1;
33455794307058534349699099452135035631547869483784180548693450419640629; 1; 13407861953022192525515360583100287614807282997531869052634610591277547;
9895744573272907978855232803509158800319150480761000157671778538540126; 0; 8033460695878117978682157814213164973805128294136129073486315269504367;
62421644088358693936911425262377647468729093388932391762228498828112650; 1; 10476334811979286745128454916372050441218254793793167473885434271999; 1;
7085201081963547004621310899972178859872023860771231827852045034468135; 68440340906970955918417931053723558575222049878558585240858522205423169;
11828146406555963407498340128829463776682417463180776224064809712746281; 48832545950722327106968703327736863850574969650003431199148506143721019;
36861939861639844840537923220981521587023914033657788531785966527972743; 1; 460799712676213109078599451342233557917315491938000279079920491277712;
50617213936049451760329835836911741592497795996980314558122623020134983; 58541932392997918791223031950859155366939476409526318687194500761839941; 1;
5547462777500169565927641909138379308051443465979013509197324566949899; 4679495247749708940398787457383731194707330426653311931428906270043; 1;
39678770373559422596579463319250590625830746047139749136302791641803688; 48918679408647929858807711168237769945938890480377818395390656076058;
20270015162227650474628891148260579356256303269731097592470956378843819; 1; 19291467763439393379697012825514766470857113397243991465333874490444784;
0; 9051768168581972432163405109392940339915739697801007779071627092636820; 1; 3417225448573251921001132930162434598303621270105425556876147150244077;
0; 22399494592882042543902554642978965100103809181746779494520638581833091; 0; 623553127258191010267661426670430290743060163565932334090475961788185;
0; 42047305383552329065389796056815762550943742864003237672220601269223990; 37351722789103362668940185755106270232669358773146660799212701332751; 1;
2708476508838804249589949099719298802085741610587571089441447117111464; 44197117119290633377031165494278981764515687475426588704837601782045038;
71774233501415137551310396610848049247142192561497618457390729234601608; 14112459581707092939640859692748710450068367064333981774987523091351578;
64575215159836362129705064039367206784826146248576191872383259325906823; 1; 4572915496111179664466829702080790065530129308581421939194074943676294; 1;
23963198506766367137963966039786003000908810963594584026043144317441837; 1; 65895307646784238970239895550735878238511642629609966560317823288068543;
0; 40803378737067416663211678580442507687233016445292123198127626149838996; 59866762833570203175434000515249822549601329942551312020519837418097231;
57005081302268714801698546234972776314869806093151491323428495547953697; 0; 27518424714597413102697206502115825512699551663259261221121249077246810;
0; 9551948076959842891510470332262714253283633962413599332716018210125653; 360778415293969005705801296163636098162236537781129035199499132306740;
9430181412633308302369090861515989248311623145371347718497334293107443; 0; 65571943416938469255479411601748511730792281704222321973416381770238343;
2974546084503377822140264979843391113908922265568655747389898783873283; 0; 10121258988631170055541404046515158143788331349888057667878526217033304; 0;
73737974890897518168223147532165808207476750093432879294464560515998955; 1787950634365658153654330154255912436475972925692615714648232989906020;
1809276385711774710218255692895462635366600511830705055316713858574302; 72274636517047210161838838299878735250120768525623608106380555677685718;
5228596642548590016098930190954680176344709079463631583036695090938798; 0; 51060020534171794685584282432167144672638554553072715014847489029349633;
60426125612202497156279178589064942750986782791810584042274605146401314; 0; 23419692157139295054555845151613368684916370064009792113918481739433591;
1; 54913093733093612969366581165866566352462485209116707759985417376257652; 254891306720780509869741426372090695606780670421430349920818474074129;
24395001818199360422067713679030336823922742876405678629874593395479242; 0; 7806146165018804534415067879161295167772211605554400800640198240314978; 1;
4031371669511758950850958966633089684386084544731198578557291190533331; 48989114998133881404416340281097052230269767171664267672630033427453814;
49948616574140863307094976944462202404125119128835333674203821362283592; 0; 67379746146336772436161749568212698472383248773092431963790485755510136;
262210184031750876696797765134571590049688481748406003695408237355763; 1; 42619168813363208511569771229344720368800878184356190234174802364346600;
36042419023468748851774633018591694714022559042955013754783339510414922; 1; 38357087814665907553205985506817556556466234281380663820675817697685;
2054490854550004043435109074785812228341944816924729313276296655123045; 0; 13232758006208444345720219862250257234128812050464281343314571793103209; 1;
60956208494717683432460248057123300005601251056659714453610506712074619; 0; 40149096309118127213997439922872975442417757512317783437807047646245;
15595170895209547769612927135724892207903501454265940718031407643940816; 1; 25386090203252069367653233068459727876966959837785149403798707608172487;
30065718295822266451719898132227682018466458592985306181708548936033355; 0; 2228884361616086093427613451569548708055730289760187099865727586139650;
23285125403308380470383416164999034292220892981913724268462230195293900; 1; 4183159950413271118168392225946081851065827231450248947370501606024971; 0;
14736531286638278885720090194741522723331070025481028050784585999421828; 1; 16172766486373524657696927765600885080963931174646428545869017745296365;
574536141333813163093391742950352521009870550124385731868085988789261; 32981167837590044084749169926450407903106652686916958552151924181896775;
186785172558772210274367252790679558487493390513009926834740015802412; 9750558746421273302762830792121216567850454417159986856431552815467328; 1;
5840500141641999437648527675464338911007239932986456236668267583781266; 1; 39301252324459481579418729155774110222894688396232575053438175285137182;
26326657855907126762020450004385027141326385110646539089919402024375804; 61598997358771886415278808909434126551032141021131979569803533999630246; 0;
54713970963177961893633941986720736359083196720595683613558171200480570; 47055907312596119670687956905079191347877163758466819765741958644092488;
3903922497486305943250505062179823948379977500000116173285551520375885; 0; 1726398108083119293607719960521546980326915093268148449930472861177154; 0;
21315438351430399708104930606656756798581526204128113964567988105612710; 6661204782643783724431004700665695543913250632949648300870205227157078; 0;
2128749680658820876708751472661551308473451776483547920048762705303360; 0; 38994504129141477862489263227002511310986404755292057633218480429288697;
10200443964405263374477193169521791374057804632699074969941051690013979; 0; 11655658622364032248026464062988918771581240488161052647897854738043218;
0; 71731180039920755195125332058986143110171891105344164013431106692953042; 1; 8532530376207442838908600052975969544364712122659119761341473099186971;
0; 50343445169589278494538604964621957040215091220130653507444432013444491; 0;
25227886061119674363874196504779428799854682813747659235477659153368279; 25680637992447489071192952007863326554292677421672864360229368328581092; 1;
49867577052589130978741176213212340286056179110244373982448498353984776; 1; 235243008251855847210610737157342683541303875517121181365280221614701;
28789940552129682194269331551976940047273675348116793676043142061951660; 59296881028583316626831676975994717287783664200654190694060693610799398; 1;
20983041286165500748438900417097238458975886611191920694775996368946908; 0; 31444970278230530831318274809572508353950366721436080287693528769385449;
60795817038532388530360178431558183110585048974128011314699497629510960; 1; 13726807177803214659081602030408008390652924336307763597913592639358118;
1; 58058798015404739050734018980819848464408754805656062743531556660894685; 48938856667308888942624355463717991815067154273228352113491315633618401;
12870816924867846162084098234137951435307342672595096558197262363596630; 0; 5140758562585979055791049665407537319353845879731607293366928936885616; 1;
11094972334321931806445148125206173209973747906146395544921359416067551; 33870295289254028506715422887161685532169888246151617792962910941976914;
39989980041080771061275644487758303178711256876903170273588404384072084; 0; 60310433605375343872067667957542336166875856200022022268674156070877818;
50233898269122535370812160634506104455075601846484111811164957678358469; 8651403658354365950512056765192429737825676794868618449442577376825401;
35982803941836549659842499130715170932172820908007408695942123404234; 1; 18586254401148351430918545766482724117146762481066036309812130160383728;
1961714390498443651753169526208693906126937022712517607237233207781118; 1; 1978978753083165853099225530645222004750445483988463053387987985845528;
33972261718404280063673340839595905705713768357004220981264525938274862; 18418881480200043867775457049512580892214822982992595159394441733059180;
12702200694601453505239202275858468176110120495969652005968473932388169; 0; 20360068738140125222329236367141572554558562513965405662377333364984158;
49544241804659160793103366359854295507167628220698737886287838388225951; 45498249649029846458662985504298241629623034762092266108388774445501152;
69914132564657529175283645929703669329327703099547253569746754201316791; 0; 13411899947560115183484079215753935648547035869664103021514359236723637;
0; 2452442314225998891430317586871079545140067130406663002193373961404937; 47494543254306456634187540140861072791235376021289173464634916060199046;
32003358294293548892599931106146711970836946805186113339099717743176442; 0; 21379056306135275273325708198003470281839466641783601044892076334180742;
0; 16052855064384528883236921998346482887939627188593324033421069041470497; 0;
20184533769427912819897737153162732010371993733717002442764508563306352; 1; 2535939905633055274842257795578661222912280550149851472602374548352879;
2479658422397710330012625184756782827433614377674414740248090893697491; 15547228611654014879526983024514128680258670238207192227134483800540505; 1;
72997151196368212163867291943696326095350179520737102488885457689528488; 0; 25485718122048778271085901090265979735539922965771236383573219740865301;
1; 24866607006518221665135324002937712779832279637647723828696695609444891; 408931616702578686805731658412424481059421492054151328480712797574356;
55561032574510525980811946533517515656256250334454406765601612170092534; 963842533617200777529872551704294465739432868084547376299656793340100;
45767153534273230119803183689658394174119338888071527602437551725596302; 167103628847337613246572758524273435759611656344832892026571788439099; 0;
16242333221485528568737730070896367066067595414536627045880723545180511; 1; 24992220882262714322437353562598600958526235688608085836415601264907336;
29912142741516741350155381892749278457816209749525446195164178810557948; 0; 69331773680944754514479899069051023238760945605998461367209747882034063;
277373216641482299790271846460049521792773584236990480293728702306477; 1; 368959701487924463266308669569784906360314402777243949373113602645933; 1;
109455265207483659818413418817795214683932649600847222972059778418425; 441077490297523108627206925400765688143154304544580893889365941980825; 0;
4342725883462699043867697269710272833423358754433130601258583462353659; 1; 6127062636070650333990688129165719013659830969234889484435574740291113; 0;
67726003089308333261464090528900775589815482280723846227708062773712426; 1; 9824316317755554123047247899145102035332873170594852776744737142463890; 1;
5222246279459404665576241047898090692478386571859253637641639165886746; 1; 36775351250030877848164639147076042724576521526205588205425533355366493;
269936195459722907219766989625492426608213151971318212816958081951607; 19418448524276665747052227245036427285895855799940499090992660732473022;
1643960508141134817898618855031376917768182009896346667251303558838704; 6443519726964354495139817960529472990220475209256097696624859394997208;
11285811173470139117262896956251092048546541717293831227149243799562329; 14861702838074903264906061111788974840240051981959729610077689958679402;
61832199917972343505335105824854408023143002160785009623745373379282994; 4658327874170266419564586839390039408558184807215319299529653506976634; 0;
10579968766251134632235376680884874103471235872838135027142423675061509; 8429975111060670478121680428046347418402436421027935337414329474581678;
5898221249580279857824922382072543001249149679469856719359321253431428; 1; 17613641071183020145148214416641903888405823497618050899645221035535719;
65198324445574882092627146192950561993540215547731090022695844683255303; 2112387592073018181881607718924988042356042399183352913390511783172580;
13404900661597973067831858470613500072320094803448635251796984978466653; 0; 22924044650728617757396971204009796881211081587141699424277701838768201;
22951848373217863006414109126907227344045372337350067861248336289862118; 42534548157229523243002741611628512448258429692488065014277140876586930; 0;
10832498251425679016781839110970216819940761706072696669634841661605262; 1; 51426461045945709931077878611194005762970409335505083633698147530735675;
8903253263874559108534599510582667504951660227310517946829518866381336; 55556559845115457975148521832572028259277813177472938110199794949008877;
53281585358912367910938614804888727475825128082900755824917347259996377; 0; 38800816132401225529451228090368391754788439337644606770182468940869703;
0; 16913903377383365541471008720375076100281607505512412882213107737390954; 0; 2489973166222172503527044054888677101975995123480454727892653320615606;
0; 2248817020354517657164924343134695533604393810785619484516675222081187; 0; 26579824214367570016128428951672519200001873387857709159464209172852359;
63636243792248898978049848934871776725453460541267351666002764432887944; 1; 26204150234629772981539182269588321422057372947716439656909709259851712;
1; 61677378676448281631155529256291444843811171236668202924396310444121372; 323976351514297519352972091676551704304260822184369386738042145310;
485599897938050057910188990692368270303827751674994522361075006874988; 1; 62724783867015135270872863355045327579570637439264391614276737304857226;
5583991869711521878250766871642526098528744775747110816679283838593004; 49604639586718777852514068025287067812506951152709812861161191980584447;
24657234440875619818912855734834011426994283728303767461221500039340629; 63085919908666488397705547098528211924262849603331453152749747736732847;
104811842138609507853813718162029486478777092290370493566120674335887; 50825926346076221741035148037172378239993175562888091049653390941146409; 0;
42738091488618708585196030333883241738832486794588896120352483917557647; 2680537991116896444346222810526362411811769618968717346310989742934646;
65278385251038212909243676963413868554031372916388830518355303177304370; 51791010112017504347938927686146680973294750337136069882326296139115700;
1478647168215604472946047678028019808326951203928535054205802586400176; 0; 13072263769584759036951504788660681830372047370536091154590209563847902;
11333742375688510651235954358587379677829727484247174891072483671282299; 1; 553619627471757853402618358293982562180842736178066726090886863796111;
8078530712540965862095981174788483779182241512225866951052923026069233; 0; 74058212732561358302231226437062788676166966415465897661863160754340905].
Definition q7_w1 : list Z :=
[0; 0; 0; 0; 0; 0; 0; 0; 0; 0; 0; 0; 8313140759174391779718174581384026376896512; 610753;
1157159573946271223472362913079106073065108850241654650966611886786580; 24752366511444457889588512937582753344158343999700394018332682390794398;
61249970677330893116736242850468716450020030937707364335321785208211564; 1; 17123759091196427269329279244479739589582780847857044783382366549303249;
1; 4580709802609802649694377758614016532721444361670007055497436936751638; 33782054036747424839297698973719863258308066103519762821863724293689116; 1;
1581020839647386328200544932585097837298665051318182793897979002137636; 39202663809886529253829340683248242738319684636566099630114377491659839;
12998728410037856559383389039278423275684310698596745005302581405835765; 30076141997688162823997292473437509283637200505164518422086079105512196; 0;
17784719167843759080248451890735372301385571443822841055181066035614389; 24896385086509921744862841070624148716353885941463597992278476515437269; 0;
27864567034871860577519570032741016091881146573544984347461671156536517; 1531393189851146376704041272811734152287088311846553906206315285154993;
9459616343473491872186722402854785856365201024208269919546477494574811; 0; 60242627797371324493242166261969561603175924461237818479876146840370868; 1;
73390411519929622829017518506288214258016127354227274680845614202410503; 30158870963103383167930169422001574142469989357132966553994989329114467;
11957739327336786597327235324653976696163135693943667233022294295144470; 1; 3257932060404814781495536640905195592531124416747258221046633874827047; 0;
14733405230344411973430351538323323339765696225906193190308549361745885; 0; 580310620417641459525475974167622508573361579427654252832687893387446; 0;
7209031751886025387357323333454626263696774267179995147736760732841760; 1316475695001682542167986561671121258243376367067240650357315609133576; 1;
42313811444796023202370748919742865668703487680867558775908639694333434; 0; 213067984648652667888695575887775005151598457333840810512887737073155; 1;
10406702405973120440071808626391267550161248942626407204129970970994042; 0; 39500950871114295143440728316281270050926568457830745950227210798568014;
52313077441074672624183715521083514587340275789277486460515344096561948; 35153951393554941235147189430086615163186688036328760545643930766393754;
69205131942167348834494792891651398504143035842936485687543629456703339; 0; 20916417971994870950865063327153701769196849927945391536380516992940625;
1; 73930440481580744435799074345936864942051439576694983790330593887400308; 0; 124040740800502784159158201309001499428680217044235259742974989680252;
5502118735217848572772976548618763168088411846233689071287546854155947; 13043840599541018580168978240870359714695520357917785382636793627611607; 0;
46116359130776036980094470469002402379129588183396648892389458352352499; 0; 23273337411225795358767099616303026732747990835538151662667852410099132;
0; 43640975046147379448907198182990012079866321109616377133488698686605918; 48456997463544719867909454559928946468186936934237557375888140163916022;
0; 35966503527844003029378274477109145875613536457707873368619714971706678; 2146249219886269937556622963374904200622371454628674252860892787264945; 1;
789026550744237461417279879360768391737729621402180595280289091941320; 180545085764386863080941208067206450607736793694004694604330827698515;
27234178984970315423951535377792266809645071647881362967567485789275780; 1; 24762576096899098336158060060456886499967271944551491259875345372347245;
26415014557319269354969579381474410077524440398545516613213450453762340; 3332277669552274439986146704874254702288430677915795500904412771491518;
56587323233587066496277858691136475818689270052206261830675480492579315; 674962037541390138351376883722733609075421040135303444155864791234674; 1;
71968932079478055315296276992791203272264952216004335977554269019187034; 0; 9312156109758469703849824938210800892317925220974681000635591841851007;
47265243583904223145013619581696671836578883974948807760705274166544755; 0; 347749991847549650111835462083637654481009403032134019260908499036193;
67054075072251032263986933927948862439647103053025031552768932082185748; 41180981408973794870941102491021225379444826167519209874220736658769210;
2016134584357279112242983195126470851096276769161718543283169414290431; 1; 25427960548712934334171120286223613186118492328037670212715551496433161; 0;
41246440591215224387854183769107645143015597121762276314351387414069189; 13355489776682415329489866032965129616121053900198373837916608007368668;
246227579357851317075455987431865500671034366236726367794260962849371; 1; 14216775334734902284854741485048253965239136015444041419028832683728650;
40817667000119834925826402937336980610323989591027980675470980466773374; 1; 62357960439539771786128189601645106508750870812756374588267956349195311;
57153412699306839625973651182967669345816692900568340219861985411391345; 7972844923017628498152672707855687140746831316570683182453360606784238; 0;
54364411914724758443541641883992307341046508006289583044300701856578485; 6895402717148043514959193901617493506645197422235451317313759372319685;
22740888042010760031754550134738071144892501565620546614805772040026926; 636116976224624835242640782764911953451289397404194720929224986675347; 1;
4194169443988190489616816030318571095566643610675026899510492393227081; 1; 32676615189626696606969688926059182374810154778338336992834428126877671;
51201068624161522796693086448446449429537990654770489420832469529821372; 227634609924105556505695070201995370181179909042028064268988017474773;
1583446208157453459346846715429142593546838221267196059767629125539316; 0; 31561899298008145797706081370360994443202422805003922511586819844195260;
29903802025433582900323457948355307970738108896316002842234649276338173; 22354964892793509691491052911460174674276674138938529269381598747491505;
63634749964560386232307763292927082494068047116729103197086784769309071; 0; 4286990787593299595491906668542369805482750200496535850283039585344912; 0;
27073377783657990536289482450905791165106677081299306402268125540162761; 1; 21314219541077787215780681680441156076396487056065405556911207908716445;
65672347171621120193570498494865922817473758878848551752781865057494426; 1; 440904244309287667153166437186660481486210696506512803525611201829458;
1085655977620320063290744023886737844277678485243321116528451044092305; 19583668578362602228646318839586376954814896778387803256201842160079850; 1;
8689478828987572993110311928901123230866055973423086339394887392139136; 1; 1627932767411631588307233418054944401095146811406811485250101346226510; 1;
1523647730576110213594933186907281066440748405987681965224829732422963; 1; 19495699106117413293659228086568135897741783729818842181805022009766896; 0;
6450336405518695044013380563094093496530333780109494457729848819461479; 1; 6402583129307733717762468072347783353048882562596280557838598256236721;
18693690739884231610947064479541990446272770776452991158272783965359205; 1; 18552234429708552230906066971278449227825349130870566166955128734613604;
58155301079529712686891825227722310086196770252801774077643867699556862; 8868581067276729861581762215257052451582395780095799798314015796982351; 1;
6664360210452402490315611173150786364623480370785771235336876870711858; 17183246477998790248640666963798796068560927665391050837232183657209882;
4750010102766806230431803517511613170983253752263693371141295202694; 0; 58819197280462360685460293366817666672279025779735201958445338425775591;
8525961415556822751429961544556541119070489617166438859227337066592683; 25636448509019969165787955557011178289176544816317720794359896182483672; 1;
56054913101500797078504486632617290810907833942075047478446719477245190; 7729532211788723764370905299584102419029197451862948795978597123968739; 1;
48402889535132930508019078859868383743714294425918361666937282781272564; 1; 21330397041878268220440035344430235221085025770882907312885155271526734;
13566044117957799365699617454590743681062505894414847471459530730802467; 0; 27051543909748800298682990317910115598901721947196911740163252889717035;
25303934544211778746843941191839136442641794326079795919498942296824363; 1; 8836431135896618987616964895708495005000121305835174671583745728515123].
Definition q7_w2 : list Z :=
[0; 0; 0; 0; 0; 0; 0; 0; 0; 8512656137394577182431410771337243009942028288; 0; 2561684275200; 0; 0; 0; 0;
102467371008000000000000000000000000000000000000000000000000; 0; 371164651159808165400983588481091693635; 1;
4262674993773799533533699240708468128634963094464185434667761874014119; 18143587289050125767977689900501045773837977043260117814564810066436043; 1;
63458542844415164335216229899482196243286076030503152780970945240008096; 59627255597738566156799740026609168078407568243465654757358137289153076;
627745381325754442497075476999225412181173646579493360243781547939698; 7960781360856651752749365692786896667133053557948500690099814167819266;
48720757595702950075146957900204486194588114495674927661328555197215; 38302585919974654825485280451152159606543867676429579238199872940727908; 0;
36787739342753352107589747080403842065275653769146773713893696503122742; 5756481679797146544925137122895972201214948188522406109511293444383475; 0;
61460110500840716690255220157228499692068817594097923060258620473536245; 22952297896528144020492521859409864536299246106296303809659176314038256; 0;
5553078823130498968332045602453021193821602183372728709972833091833459; 7020748297576477784880183604811810467755285265139556599506493539071838; 0;
1725100829996085075367437219049846033308344599644718429434147598339291; 1; 34312502260849516958077012514358834793737543460054220498163898297645270; 1;
6911552375624445791792861968901330724903108455977387740499410964081368; 72501088484435075286163520742856620259400478128005245122787998598483869; 0;
16706264941653920863632658882349143392247247070894530551879003634950330; 1; 2418071242457765595376474598514246505041028867015229490148487837809007;
53316716581105146905469170668754011247910234115962745021818856322159652; 0; 55870458150683946299745524240185373298161254482339203716695438438851676;
3591598778273233859275883879126063349122140366922110806244878822161157; 48580241908510207260154961118608586220587252583547995432103635282298181;
38817070941844016058915390480002148493043335053593323005300824762859166; 14119726747647528164081479931723459862063861177405816780389281869593155; 0;
30815587280733643250041105088395330084860413188467218479908594305757085; 0; 958590281459581582680156320395609492949368619197261690893989552532345; 1;
7501089342389440815909347806102867507286607819773256535817963878767209; 2295303054832782034486238710773069867662058443651014565723731640745861;
61542949882172348414154067189686717802853892307373383126910636414935247; 1; 15095703858849585227885980964215479401370357312483633365450284756014241;
0; 47085520989371039005212519447427527275966889650806801910560144897299056; 0;
50130085594004427393085836015172964146894410659869333177222171952982494; 1; 1418797459522819885641826607010899978299587147881830599183567586307810;
434742548777267539534333054971121351999821831755500942390807545295684; 10059129446312911363373565217679896190398528303552905899198405444611562;
19101663989045133191950106730635560674394727173006600322947188930065904; 0; 34294081986389780931402210586517483736237771129763162822655815739603762;
103540622575938676059016019554891989325201767189776729675986810338211; 27478628697063483363330460893687062896223906090742478283472114458424468;
26242857090511369449059245462807566613674817655479695389541986503460563; 0; 19403043229643480776875340217832050067232034017987180609657053148317401;
6282991096917405216749329801969990592398580698151399263294697042234152; 1; 56517342704337465094775818431729554995994043323830135588289897048139570; 1;
9115123841135563815849593425546228236925516927929663793190621930781220; 0; 26446507241728187833553180855087839804821372665115605152528382757927426;
33580020811505637470294133085512619372102553587215549655956537083543373; 1; 6466801841996657428896631208084041059517207784861553840764673209317597;
39169536970051213743457698849846229105607886290354700441394359069697849; 45414157306990502002408896935826950788322349247365294008321164962536409; 1;
16614040618217599370634687679670720827792280958102986330279841850905126; 0; 44048346639215015767784025637928692292310842611920629720145435961672401;
18407055342061527371422982206049100561742520817634501234953705912826779; 13637678314137442237910097484853487361945875007658171166175087988546915; 1;
1054793312254409665037690179628840958057838319428793260388454438548164; 0; 845129671285476436096559381792308817324744580102406682725310437107250; 0;
70650882975553472897397231731746010162866413815386846776459688961550489; 0; 41898679999909819899108221036500703680921124079612942450645719783016941;
10297897752727980918155660395309836952600360865109554179506880490180482; 1; 18584279189102563467470894432549048583919962981139924451668160487196665;
462911053081652557797678612080336012762034924215028256466316006957040; 0; 1327299983446429216899676555414599454641562586940727875673275552795609;
39843332432454376754806475438115490701152593875894808079473591278074804; 0; 1023861869046493446201811338450250192920868579449989417718026993752305;
63462920142774075534567210143046175193140957787107434361180626998802387; 62085087531003457189310005286942933509270129939037336737671661295482072;
11899522828251852588179922434338520865115098988715008890118503573503374; 1; 47680304506222175656670832966443499256101131001945021483732446502990873;
0; 68640602487552615497749796433975482640335734162200513967839700610806627; 1;
53237687603097739691054700349204248171245618893033038783359973923477133; 35486722705130348454042547294574690395003792577596670703539066257790650;
70944034048152425683934430514250872728331555090822857097844739264577866; 21296478124256504167954727489286415218842394973237800453415545040332578; 0;
864459854194174670305185461511617105314044994244080377609662091701405; 13582487998454718440964697164442614521874223877998147737015963066224028; 0;
38410314281313849315116483227430512542655478349218750099771245299106438; 8112788547238244486618738615996273447289221238521497551449211288083750;
32957264074299565861300112877097163585517864418338575815582448530919411; 296812373554166271637739668749661116308152404923397188523716999503; 1;
28092136527362833752234814422722944818103786718841900645173500120942111; 0; 72585595583375059017590876858644258501602957772246542048166836592955246;
21458181215426498938515983199102415919851534964001192833895105017312081; 0; 10090150729592552016974218833518324351218721947013008505871497575301; 1;
27163848687113920347037302587470253030681865178581975543154152781589757; 1; 4217162545512420473710621479846817407034104118038984428513037672439;
177198831499735234924872551355552315088914728856868742213286385787187; 0; 7296381030559857543538957797536002255049708368958756914359142817881759;
34076634736683675642411972283163975072837212495408328235163776833671623; 508528778836680711546746357218642192208992310199993177788693085662571;
41237539983640550207930854919407507873202165107352054801832417060218858; 0; 6773836688634539177139116118096786467948087732316899022160668815381476;
17328497298733262035593070625909691473151375812922974022094981956116998; 483080109960676764856034580337617944006364030358965442249531299112; 1;
16223895192085809339090132512966431669730216979320233841912148404968608; 5993081986171393183317211136259171003410747375774124661732457459418621;
21512839110001834480871131779073100745964434455041458484354132010221379; 16325733859762968654696422449027246762815546369042382434472917366857734; 0;
5259765036422782602748421803381504775071703687124467025423116159424419; 1; 8490120616931877045522783343746120042029837083369090312864730582637113;
20800533385260055102317396632536633953334079889963620512406763710551193; 1; 30977995492217498715148634405380196220945110947393098513708856813712488;
5046395043768730027074259287697806479857406539233641772247677115887431; 1; 52642422384295629897407341473185674147193321550960372326256631302916289;
18730376974523132726341092739170724283557624690311993373073386652355867; 40269948116969832326797018189144346635725428866739792233499743337846057; 0;
43250250048410894389990313760968467372049547945131787505620468914644165; 0; 12198258414234077900454767049960193054678546172400270815372861445503140;
10151599433168254891998282896190916364605561876717959653804292472383461; 1; 1965186188093454778481795098102154928567648857072328518629768086040074; 1;
8303189455591387517962599607191971866083340690137127207414891644796186; 0; 1745346004463769655503910248406332590073323490277308739344779109288004; 1;
1242753337005274846688677186616379253791363703187099836895134043480088; 0; 46717700042813015975827281129666376591565338253332386484259261981915449; 1;
12230900635865409779661797466277272041205763957778884314090762363735246; 58209124970632598916485395595553955570663035436452194819497841781596867;
21409946799861857644115957559937935042631687721957722996427311391521059; 1; 64145434899003592272784710381996649571381185380462176137226946955885794;
907969712158183537081259080677206239649496569729653661819497953089384; 15783263564446072879653651487841505628008963922386768643810674445596387;
535837203547882969529711637986264232859993215630687187732695156935973; 1018576100886490964260580836356471142249458695978131065606091452902616; 1;
63970450665241497890050383537068393902505812232883103704495650635448166; 1; 56251545226967603132565021943801742605273443804721265953497094799656293;
875938153563708197873957899293475450948164551800929265037480201333211; 893870872535791979097530949623850080018167391203644553263028147497103;
315553453077425577823118341412817653323501549872888921874663622684775; 6350771661669431823632780489147883684128757265760407593559688060694800;
55130606186798499823838186237338234727149477243162955351321282690343689; 68379335006918651307664178731900843572374002083677234169178882191240209;
5389005336099916780939805228578833234130729322136056091501458279652966; 1; 17112581695250390691928340211187422770331517428040079269938546333541636; 1;
19665788098554523280658009416190607358603752511756300455104567542588299; 608408190136461235704832034339772649958875872117220230867396686534595;
24026437466518337969417847030784355836388248934041039978496267677875328; 46572315193745503389624453935963059078656928881992544471020850120249397;
67270362933609238353934363104670318750012024064497104787460386065068304; 1; 32272049719012149054142701497368233032305055658439253720662561035255238;
0; 17140300635800659056614844722659897808195831892343287944658784452745459; 0; 9282016818679278649778920241316901378417002641577640403790838152292928;
8458544415130356106568381749005199367641783956519590181201164573771243; 2485102140448777843493356568649666841863145585836587084996290483401708; 0;
27323148575118226967956922843743408928873028530917818789143600192219234; 0; 27288128055004048970531467518460187561456974597024987702436793895919938;
1; 17906904286545413242662397269702187519264799903664898117905148769253841; 0;
14179310425645695186759929346442960631138017823511928004064967712696048; 0; 5528411201934962285250421859842837812763601301530855260084927809228157; 1;
32518442628842347950682564055807831311132465212914846020005658778207; 0; 171644040446030909002604765691226538076997838865889849938184109223079;
53557978392830110145539963909483883371144164860129516474169430276472932; 0; 55197481797670963780316203437293977410297062296250004380077886759746955;
1; 35289303979828859275710389794427155576921029200089619563447699504629397; 0; 6838918569171556002620156067117177490239301752072735075840304500849521;
0; 4024652979375094988977476917471978862194320723990538738129699283349414; 0; 38102606484478549377641980059542451346965519329802291749974523412525405;
70973009506411511253681246937735697192708999083796729224840982362745090; 1; 8483759711569991944397761661640933208075801946168010525027564983921200; 0;
21355979975407281921384512304666274646752764716587209312365650074640842; 0; 11143643202517242791019947512463470702342051608043385598492984617799761;
288197179518737262813773564492595597013524166393192734453775758056890; 0; 3825295619168100879350715049577439096155146555406529487001154697314109; 0;
37645838364333667713000619011343603025248756485728848850611808577229652; 0; 47978860324377762574610751373900983291071511632459754443924360925722154;
1; 47351163486040859595437852989470572023737406832051790000624481051474026; 69979406653331868756013282769636823621716603829143129413987354168715911;
1; 2310195807312275395321761982598893940107429236684793364888342313403852].
Lemma q7 : prime 74058212732561358302231226437062788676166966415465897661863160754340907.
Proof. apply (pock2 _ 2 q7_w 75445702479781427272750846543864801 981609426360740691344999861639072106 q7_w1 31757755568855353 2331972502653487852620185443007392165117953542933313402 q7_w2); [vm_compute; reflexivity|vm_compute; reflexivity|vm_compute; reflexivity|apply q5|apply q6|discriminate|vm_compute; reflexivity]. Qed.
Definition q8_w : list Z :=
[0; 0; 0; 0; 0; 0; 0; 0; 0; 0; 0; 0; 0; 1; 0; 0; 0; 0; 0; 0; 0; 0; 0; 0; 551367670776701298155427; 0;
471414969316188648141848639006813204435988828222960066194344599217544846819; 0;
3407866525535113841503589958590043906304684900224015490269592213704318216751; 1;
57439662719915560291373545344443833537373646235871341729621994764941448309096; 1;
681753867153464181348223837870738304785322068099057849246025648789500588844; 1;
30140780313742161155396419962120358507516903967009827777469622225609662425203; 0;
2665846952031364783018773992346036109755330739932224151481272086967524792203; 1;
17532646752736644488336190803563533034752971851389345505774727054966930617267; 1;
15509559174461008539748278554160429396862810706560140114212042739307338367687; 0;
23928397935920379955512007785372125661117788988114052563415782363179742778646; 1;
29995918788439421885777272135886007940012791219569977310675264767072719019753; 0;
3560633884758025642783116627152126157595607415593531725726976969355407985118; 0;
53923294150705828565368826338412799648856659163320307707260385703557986631583; 1;
1235234172882584628249313673354012824984394170021116211577481021113809177623; 1;
10563484444000787080455850838234529262504645344155767667428917929153249540107; 1;
36064717420400496868797383468781490120752121379643404363755979831011341627; 0;
11943372357400507443348253884768913886339676427623192579885771269647908609; 0;
17118158802952081792840531496358459117685652362575403783107487690461445687328; 0;
24709034407036513893469611482550692409285213297551637500997077279735405725131; 1;
12444762835729318066524959310067099907997868637564430909268825779548056274978; 1;
16954911944722734197908026556333291998674323778836775915075824716386807986028; 1;
34352610009419735350854172045681890811915190498087363502535753245138100639; 1;
16826676613930557735903622366421311519038917592729858495351001711235484241060; 1;
92340478675085526800504084742116125932466276802044894788384080465255364319; 0;
35279873049037812512565726277712980084699254382477131464931400566541688700090; 1;
349835569185303571319079199780739689596192820108190978432828949262136140056; 1;
22993364852554380946801808245168976975102678898950562889380534963287142231; 1;
28830763700179775617594995080857797956077985964875443078573607651524637673933; 1;
2797055126514170144399362458386044168724273961344527254055236037515789445727; 0;
24862898105970042728676350278165755353319436010562400292967723280651932833644; 0;
36756802728729600531726087272816562406879448001401373929296461274828077918209; 0;
25353755948197279762666397291776098037850158119451351272397113091492710097640; 0;
17267853914048470939510667104009318908096613854289526590354665844674996902411; 1;
37878881788006300030445288744121134904456553040098412894109348162504968556389; 1;
32694241610420042422251861122951185903324893975318323855256164497065771498028; 0;
56545821938332486596338455774468401319511776608686621763375388645032594878943; 1;
10975799456395812507397241022480449687004406884192803978230173285558504202747; 1;
14955635226437396430402153010800040069223150184737950401518349924573864831844; 1;
35049064865463872774667179110117118820951907059508573811110802264654073965184; 1;
19447298753099445045266624378779526336736888194893200538196059327598470360114; 0;
34422222935773790789221719152985076944217531422821043890868592406458989673625; 0;
3416869186076979195408381920164290471325947390330921693883783041443971949873; 0;
31018060762638393180564791363989257063490167008424270573819926845480746465267; 1;
8244279646395915221718616788133255170661839671843952439445707160320597026071; 1;
45337650413438285128982086794934816107775610526918214602437431979162391244879; 0;
216993017772033689384262862465403142376815705483762393638856128480548642241; 0;
2101788537048623504834225826970024310125226859702642337824896622666847082892; 0;
8895849337796095116237439385236547701306024649220891067205138747842128736268; 1;
13843786319297051527352961814461373358019786972149774702532048394340819540301; 0;
28716442226719068658824201779832814513948555602308443333381501604034730554785; 1;
15216957295603043327804147114381741638021873737356048762723977611561914079952; 0;
6156117443938301231651341101675042404686267312950665644128134936757225832879; 1;
44858114661869234178148964399991575260353105293497282818833096525639392082426; 1;
36996289600990098088566976532462018208129054144927311919177150382540015711781; 1;
31225245210360363182548236512687958730695150534851041615263258511598342993015; 0;
2005854012335102823452386618730604052206372791465906569940142631229222519647; 0;
56394399093030582784116056142707547306765342825094149589393312074902729611212; 1;
17984292288347075365901105328956134908051212179861599288261440887958096603309; 0;
16889268194537246083546811622875068817563320444935747414666215946854964529888; 0;
20271194372806737709706397760980942583095928173480030371678826465406616475614; 1;
18470423755380768524759651161880168284709457176877077409454806328160800159350; 1;
741468330531982970754361881519117431185994018240333045173871706556405885482; 1;
88648929047477289487111243874596381586229783180417793915837448436614265660; 0;
8238681424565225299266751844842172828830319530783106852319391305803976409971; 0;
5125327568877541968277300888667609251811230513338575116327133334009327585; 0;
32810657055960282412915668423116061619604332494211937948208326053481635288382; 0;
42478910719567388165630751140420056710130867903138243429110777701021205997733; 0;
7441470672782062414033008806004242560997426410117646686610180934616964641086; 0;
33083944380557139164680023649838723823417951100109305745401915458196770814132; 0;
20495068566402154533996930702740369191874096542995655459154539015486809862467; 0;
5246741201056289111024866886637622140431735845501473962723609422724845124280; 0;
41443819575429813992847694542229700650807284257762212720407074675022320139488; 1;
20170950242698253405313267443962526660499144515278700862905154055998028682597; 1;
12174277950380678928359748829408470593476285554145203729363273671539020385; 0;
16517996319079680939035277194410652253408612898022229499751467114015036503646; 0;
1799340772909007023266297515174663813619483123011053940376182594260146381225; 0;
1754630476524522313018920235930529268257876301723027533041273703982110211587; 0;
10648461558475622927153850614471661281652948811336516426337006870186985945601; 0;
1034271305318001520074328570813269074977029292833347339148016836995778925998; 1;
13917576183450801434606887604435169071334650078203462365447956740147877245585; 0;
38067900130695651748110003085237792188281905433617146035129549670715134913379; 0;
53510761388665855266255731527967176842872209147895899016884270317280663115512; 1;
6452500134285685584051015625883191233017407451713898791845602875273639794769; 0;
44005011651842232519099550985716175337911880197539896439079776174424641785853; 1;
16634318873373543324650453488739661093720122227926540638555137294578033938741; 1;
21030035802856571126689419792466193616243153339009076325856992706267799199627; 0;
19919691482104424180167033635695001762613040171910525325451729788372670287925; 0;
51175435815910854108613489174731959111783900121188198938522937440608348970766; 1;
10775612208481536965979086827984598251291729169529850033485814369813776459165; 1;
34460336119800936063555219373758071689644608768054504466596342885380843124636; 0;
33308572655475613267824929524615447545158404722743749667789010782257256126453; 1;
57321461973078596589881473694837401284031183082609763144402973457167757206231; 1;
2651078701522913340909963445686884778469291602657480224658873678479077475073; 0;
55045489137399753797307129082151059155970630100215495574175533899729989412223; 1;
12705366735425338807878452228648570761259659756644484150720585876974500801978; 0;
1305356857864042216093128053004413470165559933737798444605362411755619934485; 1;
886911899320074462485655455831715172404507549133964813313089228843265065179; 0;
42822734160677456268782020039975479586999786062461677495271803848438877882926; 0;
17479270358499966951829612130829889493870552014460528968525281941893056375130; 1;
8269283905651079070705597456746497936400561552214083417079857293040528320240; 0;
57280462650310105513029781631875530915670216750908601058308989745216453440192; 1;
59263886623715842385250429463904328851837976803549306884465521943944998951; 0;
155437939264828345724351925613946908598813954555858217016461531934135824660; 0;
55610682512706337873978188305924908538426245872387794536059947164666703719215; 1;
48487395028909860930912657133367596061898400429307182406276295950004693233733; 0;
9491349428935541543091274868150239842983114647560533763528427765929777774290; 1;
33773739942223710330393727030435301779400832448402398536485359657839624976810; 0;
54045269050302048059152120362555340436145570186392158687151863763997198656325; 0;
282381374628920295336720119864987421737720455350748927113257984068709065777; 1;
15549584646399421811025348070478260725530196510919910901891089640209329113495; 0;
7619079073400264538558131946985180192059335542748408178470356216476381908686; 1;
5401452398078660195667632557630494837342912018018830410169340176934427160557; 1;
19581169453013039667607667664152337172343815417783051552108111633941763077640; 0;
2220394316333216009624907998909708589796079744530080656945614047445369212804; 0;
44055594435348127377724776487204696907507211677472191898013562979475015236604; 1;
12557451762293326913331157669484857331203261036770097494796029737875140579109; 0;
302875889030172730835508257261864954711796571589235523116062309692813122094; 1;
872432115734924987056177336061072530496776948103951588060341170229236816343; 0;
15027475222894196806802994833546260369442219777489806240295755017393755663346; 1;
43181665116713136698188955715367298198737136400026736929180695794292625843473; 1;
16744129403857983848880883224029527869202234408615216835714324570386937728630; 0;
37850068221095201532609376676004733302243943230204913968569519245682065798758; 0;
27783503836313571807364827048261448516099795568732763446431612612964542792142; 0;
19288325560055351098889800220833346942179413715957681929084313983125243625437; 1;
5379880503608603015662645011603275270871747347862936585646052422776881928169; 1;
2969883641676465715992858182867023188013124387053393547243056511855074948390; 1;
13371936354456643101186921399860507608603025770859856301392683399373286973561; 1;
7057754991910066312719021241026275583892148745792910899088197018028787708689; 0;
1421292872991446808646562041911757268817083506367382179209222248878657864297; 1;
16940990405518270736016949251736900332249812412177729217956439095135253022257; 0;
31901151257899211189622793396592987097555832481685917612352131763529641104; 1;
3581006348395142399199090156170830424737054952053116381839638324209366930550; 1;
57180090737190906568920278713407716585513430123483498344643325457052638228632; 1;
28397388997746788010120288781175245795404461247498157395448019787066029913299; 0;
36503755027782280052174913481232021732654902378845063409453609783886748585528; 0;
13237873840041991748115054468211995668817644001014138344461492588407372645449; 1;
22083802961553281552094008111795423171972614510877806518147529432230595158987; 0;
25108486629058182604762270031537733901708592328946374186925699484189209197230; 0;
3337776304540138305622174871086675732482979236034894874141310488944279510669; 1;
513862221556723360922574698963374218844709337260391032506806727898197464371; 1;
52940261889387949324894721141935558497499586075030821149194200714525062094852; 1;
8182224398707002008467721216908575577451536385589501723190639146609883214852; 1;
814837354505072890783862455537010697418578298349000146755849739960538568166; 0;
8013994009874995333984039403712644238391650748239393515630351795945873323694; 0;
9385496614479507187584469048759426146413506831694861778511263412886577289468; 1;
1492491473136353278865038247794101705871711909059171547512691974993202294582; 1;
12028168302554133967131361106541335711110597152217697072855604135757257361578; 1;
29859110114238887901715269932784988182246388782121032217376695927874080775770; 1;
12204559049162550310342150530237665829074927673651941421712830138095960084116; 1;
53376498681951113637923116555672486227874296169243416286995799017973545913985; 1;
880117603630724050700458535054791890545038521341248147989132133754900587260; 1;
7883022977623546853432583830024466241380435645787297700012473398221202950969; 1;
13479290758655103539274013111791317852558241150374412919600780887088754389195; 0;
21864989942314422257480581979992467344513913273228370487913995907076453880776; 0;
57837776185654502373325086475270774786881495982195931778083657348047190318992; 1;
32474809420744721242729531283519825114436460525674695294224115819169719552929; 1;
4248916381885951387519045188649244076209307491911607757082007758231270047393; 1;
40777322094351150943021912184370417759920186012382985939752721218442368815; 0;
1788129736276094883269277072266192172362686574469800587421772222119860461196; 0;
48961047126477420790218079424981091007995122616194173222455379438002112610048; 1;
3398899746887470391157670614969521676539078835291630453772772893246103953723; 0;
635446124032282505865965989614742290174211606865086957036102317609105133100; 0;
4668783131598041720440118816469797946176876587635082111330651932063688609895; 0;
662871824790663965045266821083179359229307001827533299905971075055140474104; 1;
8095492746796962504169350804592242480315270392527643371529363499693560158; 1;
51049375474192631807774339902978894389659290942252532444025867333186886931203; 1;
29584616252783592152710584921613924578248142612472545122836982004889720930990; 1;
49441934888995795846100201658037444048930550649111897559989518682795523584105; 0;
15307365246307946825888782069074061503845253185377170402705130973837581168725; 0;
736113097430203663969703056262875552398608309654522277504723814038480845259; 0;
2853835703775373041814430622580177504821342000060573621834843227735012260527; 0;
9968141293830594758694910010595223938172889029391105051455219086464298847516; 0;
23656856626744453021404170365714492677656079249781751917588656858403608676649; 0;
29002193769811042582141368991701903873985953348237497178160956160036688512245; 0;
16025805420470702356980109020037825944744827483279515371612276817194112396895; 1;
40313943010096725604978657066519115064450448772752759771083834588728587163151; 0;
10143059592201156448079252101130233593246221336884982653971847570617487538313; 0;
34269996010133816910242579591446204853061184422688904802319599167086009614733; 0;
50033084588199673911362795555644721796856196302409271924337780299531018011640; 0;
17753162181929155995660559730414894553899061379696090683567942518943299940293; 1;
45123333897517496002146365200501894166590825725174564979134498200985678548707; 0;
41056464178956021426237172540911978800556768914410975287109404695535889887707; 0;
22668687174690027022148091007487442172845448044866169660372733519085068395032; 1;
25903362345611556602350185493311707386778783350568718685551649468018491919741; 0;
35725605773954585153145063544328669121686136131410331139299338493408085414441; 0;
32157101960039852532919172217768695617160610907562041658670797021687981852936; 0;
43527744272610477221211999656933677195064112105245543227958281890375059869743; 1;
17830975233416458840558922693887061014927155157904067838837850249921974713727; 1;
2111490717563912097146416840835614257594110674041268261542899297758636914347; 0;
524289447139529778917793415707730929095413079782405100777026495409155843146; 1;
26517566816462354567069292143190799371166365182157201151564094938096265070317; 1;
16919805980330138813471674108096281338321907953621997941436402001618426624384; 1;
4430862675806366589999777138736540462055490873201406554485523486290739888683; 1;
814573483647853729916543883522152256717222885559289152403727339608340524824; 1;
118919125117368502699720766645318730207407478380822292918531151451510408665; 1;
12862865885897449683777373318762225905272488287763929343080205799553241388142; 0;
10605825627066352951803434514399964308762033143118146136327543324251785925598; 0;
33551778071489997975838705634357012806679398618112868929646474427764971831086; 0;
56274508726450328418800403730263863898771161063705210646891764198179012486912; 0;
162996856616292076201891652863387925010437948595685053996819233349703661271; 0;
5076815061863441977300191284933751533628984561378253438405334233103365032924; 1;
173118387392141024491143598253971343710024305382891046658014345443593318610; 0;
51991457958631342045856910769726130599711200470649081369015971756292366147018; 0;
25162183085703531035957969185654340311238534096717633862515072500407943831926; 1;
28624016607073208339502447522523985442656821711648186554217440658225591322018; 0;
2303228600572644604515441976407479583840467241749730231922181880756343400006; 0;
1443758593206892706073693312445564359926385478822933483050614370520783624271; 1;
411835771530711295269466736941711751549428244444664349807287502835999053759; 0;
9809639751662067775868092497712082155571803445972882665476354908580563145197; 0;
55555083487403914971962245366740448323310995147541568388744238947045138589601; 1;
7848548512452245011657322428155540755695092003728040721540142662848135844649; 0;
10457125170669700630404733762268851047827608662724064566027709665050957541279; 1;
47952287254136167527364817374228602055575478964344435742379624018542151779471; 1;
2625748989050924247962147908193502335475020836248935745885877350463653197723; 1;
489089368520581831981221823733181162067762272436095115864495588177096581; 0;
39441496655223303039759417915861689489363618844380879985731524478113090040804; 1;
6569948996693813866186563993342092115179788708656831190911845142749028474803; 0;
4890451554444173848410957734683484733226051917653238714885572708029795535170; 0;
18456520398370488039843537567843724983955339456682546302112090673107915846248; 1;
24560671024029498101409192014039894381796529323936523725532495340502637117851; 1;
73148946875973043763945049487472204489997368460169253866132612661368775116; 0;
7082043758824245724250220596714854179926743030333258907231048198507040482565; 0;
31303950045713125514061803103590566770527472272055125651918955958412523154392; 0;
510267628463283979229419957349098934725685364919538872042369683079085276097; 1;
19828752345965033556457973704773249036435263245855922458473013709663383726348; 1;
45144037633531199567604977608352691465566095671607702490554084595641157793117; 1;
32263100127185969989696863398217510727881883296173420030945626229160108472455; 0;
51378671528608940569087741980960467593970222348428561824640594976783518703756; 0;
24355948021092395447979661187192218210830508252954296606083603713466683562101; 1;
249926607672856961756551730160719850325956690093267497362037028807101497174; 0;
253336106856337575822702567059325284535630038361273611531628918011000249141; 0;
5588740563730558779593242541589981380428579260506075958851115525931187564087; 1;
15908618963214150858240814599460018417688716622806265845449828260147920293585; 0;
4156740446654141806491148504172307452323988466306753580168007149530713070092; 1;
18566237442335113046999040178649889375261089450630111591423940033251326048036; 1;
11395248118616388282373711563576680904769273097729715614726816996477730129580; 1;
11596236460477929545566178131854128722048574112252601996863912492986552378007; 0;
57488892892568471791421702514207109143894690784151447750986744052104094219481;
9106281343991085101820925239539015584070553017230308605775087286567541147175; 1;
25987193640288435910976862739541649081626749552148071297187051997361557318925; 0;
6690407189080634018507799843845558368979872843924222843531373839242004886244;
57896044618658097711785492504343953926634992332820282019728792003956564819947].
Definition q8_w1 : list Z :=
[0; 0; 0; 0; 0; 0; 0; 0; 0; 0; 0; 0; 42535295865117307932921825928971026432; 0; 45; 0;
3618502788666131106986593281521497120414687020801267626233049500247285302104;
2035407818624698747679958720855842130233261449200713039756090343889099084589; 0;
6533800445550465250799034157747312671530035450646038907133699743997849816392; 1;
590038059651765437572058142766407967583679313528560775747282836245157005982; 1;
1731074615247051634489172293683676124410868977223555680707173906843900652117;
43324204993500061597826158612414131961250850909546105626879919447147686421064;
3075446206036701470872393826992783401752763128678510908850634197157076446817;
14548071881403119631352764353181880382398089989767971878400320788394391368918; 0;
802028749036987574340757424989663227075669220565584140869463940457761020232;
27665405654990747157847101006816744579137975244959593346139654333549227807747].
Lemma q8 : prime 57896044618658097711785492504343953926634992332820282019728792003956564819949.
Proof. apply (pock1 _ 2 q8_w 74058212732561358302231226437062788676166966415465897661863160754340907 781764 q8_w1); [vm_compute; reflexivity|vm_compute; reflexivity|apply q7|vm_compute; reflexivity]. Qed.
Theorem p25519_prime : prime (2 ^ 255 - 19).
Proof. exact q8. Qed.
Print Assumptions p25519_prime.
