(** A concrete crypto record satisfying the laws of CryptoLaws.v.  It shows that the laws are consistent and
    lets the theorems' hypotheses be instantiated on concrete sessions.  It is of course not secure. *)
From Verif Require Import Bytes BytesLemmas GoErr GoIO Crypto Keys CryptoLaws.
Require Import ZifyBool.

(** (the masks keep everything cheap for the kernel's lazy conversion too) *)
Definition poly (mask : Z) (m : bytes) : Z := fold_left (fun a b => Z.land (a * 263 + b2z b + 1) mask) m 7.
Fixpoint toy_stream (n : nat) (s : Z) : bytes :=
  match n with O => [] | S n' => z2b (Z.land (Z.shiftr s 12) 255) :: toy_stream n' (Z.land (s * 205 + 12345) 2147483647) end.
Lemma len_stream n : forall s, len (toy_stream n s) = Z.of_nat n.
Proof. induction n as [|n IH]; intros s; [reflexivity|]. cbn [toy_stream]. rewrite len_cons, IH. lia. Qed.
Definition toy_hash (n : nat) (m : bytes) : bytes := toy_stream n (poly 2147483647 m).
Lemma len_hash n m : len (toy_hash n m) = Z.of_nat n.
Proof. apply len_stream. Qed.
Fixpoint toy_blocks (k : nat) (m : bytes) : bytes :=
  match k with O => [] | S k' => toy_hash 32 (z2b (Z.of_nat k) :: m) ++ toy_blocks k' m end.
Definition toy_hkdf (s t i : bytes) (n : Z) : bytes := take n (toy_blocks (Z.to_nat (n / 32) + 1) (s ++ x00 :: t ++ x00 :: i)).
Lemma len_blocks k m : len (toy_blocks k m) = 32 * Z.of_nat k.
Proof. induction k as [|k IH]; [reflexivity|]. cbn [toy_blocks]. rewrite len_app, IH. rewrite len_hash. lia. Qed.
Definition toy_sha512 (m : bytes) : bytes := toy_hash 64 (x02 :: m).
(** the tag shows the first 4 bytes of the nonce *)
Definition toy_tag (k n p a : bytes) : bytes := take 4 (n ++ zeros 4) ++ le 12 (poly 65535 (k ++ n ++ be32 (len p) ++ p ++ a)).
Lemma len_toy_tag k n p a : len (toy_tag k n p a) = 16.
Proof.
  unfold toy_tag. rewrite len_app, len_le, len_take_le; [reflexivity|]. rewrite len_app. pose proof (len_nonneg n).
  change (len (zeros 4)) with 4. lia.
Qed.
Definition toy_open (k n c a : bytes) : option bytes :=
  let p := take (len c - 16) c in
  if beq c (p ++ toy_tag k n p a) then Some p else None.
(** Diffie-Hellman in the additive group, with 16 different scalars *)
Definition toy_exp (a : bytes) : Z := poly 255 a mod 16.
(** u = 0 is the low-order point *)
Definition toy_x25519 (a pt : bytes) : bytes := if unle pt =? 0 then zeros 32 else le 32 ((unle pt + toy_exp a) mod 2^256).
(** y coordinates of the Edwards points with u = 9 .. 24 *)
Definition toy_ys : list Z := [
  46316835694926478169428394003475163141307993866256225615783033603165251855960;
  5263276783514372519253226591303995811512272030256389274520799273086960438178;
  9649340769776349618630915417390658987772498722136713669954798667326094136659;
  4453541893742930593214268654180304148202691717909252463056060923381274216920;
  41354317584755784079846780360245681376167851666300201442663422859968974871393;
  30877890463284318779618929335650108760871995910837483743855355735443501237307;
  36185027886661311069865932815214971204146870208012676262330495002472853012469;
  34056496834504763359873819120202325839197054313423695305722818825856802835265;
  25731575386070265649682441113041757300726663259031236453212796446202917697756;
  15235801215436341503101445395879987875430261140215863689402313685251727584198;
  52106440156792287940606943253909558533971493099538253817755912803560908337955;
  46868226596056555290493017741611772226323565221806894968351879241298171520912;
  31579660701086235115519359547823974869073632181538335647124795638521762629064;
  15103315987476025490030998044611466241730867565083551831233597914075625605205;
  4824670384888174809315457708695329493886249361068356834977399333663047068330;
  53264361049165449894842653103996437612504192946194659458150488643640039634354
].
Definition toy_public (seed : bytes) : bytes :=
  le 32 (nth (Z.to_nat (toy_exp (clamp (take 32 (toy_sha512 seed))))) toy_ys 0).
Definition toy_sig (pk m : bytes) : bytes := x01 :: toy_hash 63 (pk ++ m).

Definition toy_shift (k iv d : bytes) : bytes := map (fun b => z2b (b2z b - poly 255 (k ++ iv))) d.

Definition toy : crypto := {|
  sha256 := toy_hash 32;
  sha512 := toy_sha512;
  hmac_sha256 := fun k m => toy_hash 32 (k ++ m);
  hkdf_sha512 := toy_hkdf;
  gcm_seal := fun k n p a => p ++ toy_tag k n p a;
  gcm_open := toy_open;
  x25519 := toy_x25519;
  ed_public := toy_public;
  ed_sign := fun sk m => toy_sig (drop 32 sk) m;
  ed_verify := fun pk m s => beq s (toy_sig pk m);
  scrypt := fun pw salt n r p => toy_hash 32 (pw ++ salt ++ be32 n ++ be32 r ++ be32 p);
  bcrypt_kdf := fun pw salt n => toy_hash 48 (pw ++ salt ++ be32 n);
  aes256_cbc_dec := fun k iv d => toy_shift k iv d;
  aes256_ctr := fun k iv d => toy_shift k iv d
|}.

Lemma unle_le' n z : 0 <= z < 256 ^ Z.of_nat n -> unle (le n z) = z.
Proof. intros H. rewrite unle_le. apply Z.mod_small. exact H. Qed.

Lemma toy_exp_range a : 0 <= toy_exp a < 16.
Proof. apply Z.mod_pos_bound. lia. Qed.
Lemma toy_base b : toy_x25519 b basepoint = le 32 (9 + toy_exp b).
Proof.
  unfold toy_x25519. change (unle basepoint) with 9. cbn [Z.eqb]. f_equal. pose proof (toy_exp_range b). apply Z.mod_small. lia.
Qed.
Lemma toy_dh a b : toy_x25519 a (toy_x25519 b basepoint) = le 32 (9 + toy_exp a + toy_exp b).
Proof.
  rewrite toy_base. unfold toy_x25519. pose proof (toy_exp_range a). pose proof (toy_exp_range b).
  rewrite unle_le' by (change (256 ^ Z.of_nat 32) with (2^256); lia). destruct (Z.eqb_spec (9 + toy_exp b) 0); [lia|].
  f_equal. rewrite Z.mod_small by lia. lia.
Qed.

Lemma toy_ys_ok : forallb (fun k => beq (curve_of (le 32 (nth k toy_ys 0))) (le 32 (9 + Z.of_nat k))) (seq 0 16) = true.
Proof. vm_compute. reflexivity. Qed.

Lemma toy_ok : crypto_ok toy.
Proof.
  constructor; cbn -[toy_hkdf zeros le poly toy_hash toy_x25519 toy_public toy_open toy_sha512 Z.mul Z.add].
  - intros m. apply len_hash.
  - intros m. apply len_hash.
  - intros k m. apply len_hash.
  - intros s t i n Hn. unfold toy_hkdf. apply len_take_le. rewrite len_blocks. pose proof (Z.div_mod n 32 ltac:(lia)). pose proof (Z.mod_pos_bound n 32 ltac:(lia)).
    assert (0 <= n / 32) by (apply Z.div_pos; lia). lia.
  - intros k n p a. rewrite len_app, len_toy_tag. reflexivity.
  - intros k n p a. unfold toy_open. rewrite len_app.
    assert (Ht : len (toy_tag k n p a) = 16) by apply len_toy_tag. rewrite Ht.
    rewrite take_app_l by lia. rewrite take_all by lia. rewrite beq_refl. reflexivity.
  - intros k n c a p. unfold toy_open. destruct (beq _ _) eqn:E; [|discriminate]. intros H. injection H as <-. apply beq_eq. exact E.
  - intros s p. unfold toy_x25519. destruct (_ =? 0); [reflexivity|apply len_le].
  - intros seed. apply len_le.
  - intros sk m. change (len (x01 :: toy_hash 63 (drop 32 sk ++ m)) = 64). rewrite len_cons, len_hash. reflexivity.
  - intros sk m. discriminate.
  - intros seed m Hs. rewrite drop_app_eq by (symmetry; exact Hs). apply beq_refl.
  - intros a b _ _. rewrite !toy_dh. f_equal. lia.
  - intros a b _ _. rewrite toy_dh. intros H. apply (f_equal unle) in H.
    pose proof (toy_exp_range a). pose proof (toy_exp_range b).
    rewrite unle_le' in H by (change (256 ^ Z.of_nat 32) with (2^256); lia).
    change (unle (zeros 32)) with 0 in H. lia.
  - intros seed Hs. rewrite toy_base. unfold toy_public.
    set (x := toy_exp _). assert (Hx : 0 <= x < 16) by apply toy_exp_range.
    pose proof toy_ys_ok as Hy. rewrite forallb_forall in Hy. specialize (Hy (Z.to_nat x)).
    rewrite in_seq in Hy. specialize (Hy ltac:(lia)). apply beq_eq in Hy. rewrite Hy. f_equal. lia.
  - intros pw salt n r p. apply len_hash.
  - intros k iv d. unfold toy_shift, len. rewrite map_length. reflexivity.
  - intros k iv d. unfold toy_shift, len. rewrite map_length. reflexivity.
Qed.
