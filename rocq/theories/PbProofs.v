(** Proofs about the header codec *)
From Verif Require Import Bytes BytesLemmas GoErr Pb SpecPb.
Require Import ZifyBool.
Ltac Zify.zify_post_hook ::= Z.div_mod_to_equations.
Local Notation length := List.length.

(** ** varints *)
Lemma land_127 v : Z.land v 127 = v mod 128.
Proof. change 127 with (Z.ones 7). rewrite Z.land_ones by lia. reflexivity. Qed.

Lemma lor_high a b n : 0 <= n -> 0 <= a < 2 ^ n -> Z.lor a (b * 2 ^ n) = a + b * 2 ^ n.
Proof.
  intros Hn Ha.
  assert (H0 : Z.land a (b * 2 ^ n) = 0); [|rewrite Z.add_nocarry_lxor by exact H0; symmetry; apply Z.lxor_lor; exact H0].
  destruct (Z.eq_dec a 0) as [->|Ha0]; [apply Z.land_0_l|].
  apply Z.bits_inj'. intros m Hm. rewrite Z.land_spec, Z.bits_0.
  rewrite <- Z.shiftl_mul_pow2 by lia. rewrite Z.shiftl_spec by lia.
  destruct (Z.ltb_spec m n).
  - rewrite (Z.testbit_neg_r b) by lia. apply andb_false_r.
  - assert (Hl : Z.log2 a < m).
    { apply Z.log2_lt_pow2; [lia|]. apply Z.lt_le_trans with (2^n); [lia|apply Z.pow_le_mono_r; lia]. }
    rewrite (Z.bits_above_log2 a) by lia.
    reflexivity.
Qed.

Lemma put_varint_leb g : forall v, 0 <= v -> put_varint g v = leb128 g v.
Proof.
  induction g as [|g IH]; intros v Hv; cbn [put_varint leb128]; [reflexivity|].
  destruct (Z.leb_spec 128 v) as [H|H]; destruct (Z.ltb_spec v 128) as [H'|H']; try lia; [|reflexivity].
  f_equal.
  - rewrite land_127. change 128 with (1 * 2^7) at 2. rewrite lor_high by lia. reflexivity.
  - rewrite Z.shiftr_div_pow2 by lia. change (2^7) with 128. apply IH. lia.
Qed.

Lemma encode_varint_spec v : 0 <= v < 2^64 -> encode_varint v = varint v.
Proof.
  intros H. unfold encode_varint, varint, u64. rewrite Z.mod_small by lia. apply put_varint_leb; lia.
Qed.

Lemma size_varint_small v : 0 <= v < 128 -> size_varint v = 1.
Proof.
  intros H. unfold size_varint. rewrite Z.log2_lor by lia. change (Z.log2 1) with 0.
  assert (Z.log2 v < 7). { destruct (Z.eq_dec v 0); [subst; cbn; lia|]. apply Z.log2_lt_pow2; lia. }
  pose proof (Z.log2_nonneg v). lia.
Qed.
Lemma size_varint_big v : 128 <= v -> size_varint v = 1 + size_varint (v / 128).
Proof.
  intros H. unfold size_varint. rewrite !Z.log2_lor by lia. change (Z.log2 1) with 0.
  assert (Z.log2 (v / 128) = Z.log2 v - 7).
  { change 128 with (2^7). rewrite <- Z.shiftr_div_pow2 by lia. rewrite Z.log2_shiftr by lia.
    assert (7 <= Z.log2 v) by (apply Z.log2_le_pow2; lia). lia. }
  rewrite H0. assert (7 <= Z.log2 v) by (apply Z.log2_le_pow2; lia).
  pose proof (Z.log2_nonneg v). lia.
Qed.

Lemma size_leb128 g : forall v, 0 <= v < 2 ^ (7 * Z.of_nat g) -> 0 < Z.of_nat g -> len (leb128 g v) = size_varint v.
Proof.
  induction g as [|g IH]; intros v Hv Hg; cbn [leb128]; [lia|].
  destruct (Z.ltb_spec v 128) as [H|H].
  - rewrite size_varint_small by lia. reflexivity.
  - rewrite size_varint_big by lia. rewrite len_cons. f_equal.
    destruct g as [|g']; [change (2 ^ (7 * Z.of_nat 1)) with 128 in Hv; lia|].
    apply IH; [|lia].
    replace (7 * Z.of_nat (S (S g'))) with (7 + 7 * Z.of_nat (S g')) in Hv by lia.
    rewrite Z.pow_add_r in Hv by lia. change (2^7) with 128 in Hv. lia.
Qed.
Lemma size_varint_spec v : 0 <= v < 2^64 -> size_varint v = len (varint v).
Proof. intros H. unfold varint. rewrite size_leb128; [reflexivity| |lia]. change (2 ^ (7 * Z.of_nat 10)) with (2^70). lia. Qed.
Lemma size_varint_pos v : 1 <= size_varint v.
Proof. unfold size_varint. pose proof (Z.log2_nonneg (Z.lor v 1)). lia. Qed.
Lemma size_varint_ub v : 0 <= v < 2^64 -> size_varint v <= 10.
Proof.
  intros H. unfold size_varint. rewrite Z.log2_lor by lia. change (Z.log2 1) with 0.
  assert (Z.log2 v < 64). { destruct (Z.eq_dec v 0); [subst; cbn; lia|]. apply Z.log2_lt_pow2; lia. }
  pose proof (Z.log2_nonneg v). lia.
Qed.
Lemma len_varint_pos v : 0 < len (varint v).
Proof. unfold varint. cbn [leb128]. destruct (v <? 128); rewrite len_cons; [cbn; lia|]. pose proof (len_nonneg (leb128 9 (v/128))). unfold leb128 in *. lia. Qed.

(** reading back *)
Lemma at_app pre x post : at_ (pre ++ x :: post) (len pre) = Ok x.
Proof.
  unfold at_. pose proof (len_nonneg pre). destruct (len pre <? 0) eqn:E; [lia|].
  rewrite drop_app_exact. reflexivity.
Qed.

Lemma get_varint_leb bits : 0 <= bits <= 64 -> forall g fuel v shift acc pre post,
  0 <= v -> v < 2 ^ (7 * Z.of_nat g) -> (0 < g)%nat -> (g <= fuel)%nat ->
  0 <= shift < 64 -> 0 <= acc < 2 ^ shift -> v * 2 ^ shift < 2 ^ bits ->
  get_varint fuel bits (pre ++ leb128 g v ++ post) (len (pre ++ leb128 g v ++ post)) (len pre) shift acc
  = Ok (acc + v * 2 ^ shift, len pre + len (leb128 g v)).
Proof.
  intros Hbits. induction g as [|g IH]; intros fuel v shift acc pre post Hv Hvb Hg Hfuel Hs Hacc Hbound; [lia|].
  destruct fuel as [|fuel]; [lia|]. cbn [get_varint].
  assert (E1 : (64 <=? shift) = false) by lia. rewrite E1.
  assert (Hlen : 0 < len (leb128 (S g) v)).
  { cbn [leb128]. destruct (v <? 128); rewrite len_cons; [cbn; lia|]. pose proof (len_nonneg (leb128 g (v/128))). lia. }
  assert (E2 : (len (pre ++ leb128 (S g) v ++ post) <=? len pre) = false).
  { rewrite !len_app. pose proof (len_nonneg post). lia. }
  rewrite E2. cbn [leb128] in *.
  assert (Hp : 0 < 2 ^ shift) by (apply Z.pow_pos_nonneg; lia).
  destruct (Z.ltb_spec v 128) as [Hv7|Hv7].
  - cbn [app]. rewrite at_app. cbn [bind]. rewrite b2z_z2b. rewrite (Z.mod_small v 256) by lia.
    assert (E3 : (v <? 128) = true) by lia. rewrite E3. rewrite land_127, (Z.mod_small v 128) by lia.
    rewrite Z.shiftl_mul_pow2 by lia. assert (0 <= v * 2 ^ shift) by (apply Z.mul_nonneg_nonneg; lia).
    rewrite Z.mod_small by lia.
    rewrite lor_high by lia. rewrite len_cons. change (len (@nil byte)) with 0. reflexivity.
  - cbn [app]. rewrite at_app. cbn [bind]. rewrite b2z_z2b.
    rewrite (Z.mod_small (v mod 128 + 128) 256) by lia.
    assert (E3 : (v mod 128 + 128 <? 128) = false) by lia. rewrite E3.
    rewrite land_127. replace ((v mod 128 + 128) mod 128) with (v mod 128) by lia.
    rewrite Z.shiftl_mul_pow2 by lia.
    assert (Hm : v mod 128 * 2 ^ shift <= v * 2 ^ shift) by (apply Z.mul_le_mono_nonneg_r; lia).
    assert (0 <= v mod 128 * 2 ^ shift) by (apply Z.mul_nonneg_nonneg; lia).
    rewrite (Z.mod_small (v mod 128 * 2 ^ shift)) by lia.
    rewrite lor_high by lia.
    assert (Hg' : (0 < g)%nat). { destruct g; [|lia]. change (2 ^ (7 * Z.of_nat 1)) with 128 in Hvb. lia. }
    assert (Hpow : 2 ^ (shift + 7) = 2 ^ shift * 128) by (rewrite Z.pow_add_r by lia; reflexivity).
    assert (Hdm : v = 128 * (v / 128) + v mod 128) by (apply Z.div_mod; lia).
    assert (Hge1 : 1 <= v / 128) by (apply Z.div_le_lower_bound; lia).
    assert (Hs7 : shift + 7 < 64).
    { destruct (Z.ltb_spec (shift + 7) 64); [assumption|exfalso].
      assert (Hb2 : 2 ^ bits <= 2 ^ (shift + 7)) by (apply Z.pow_le_mono_r; lia).
      rewrite Hpow in Hb2. nia. }
    set (c := z2b (v mod 128 + 128)) in *.
    replace (pre ++ c :: leb128 g (v / 128) ++ post) with ((pre ++ [c]) ++ leb128 g (v / 128) ++ post)
      by (rewrite <- app_assoc; reflexivity).
    replace (len pre + 1) with (len (pre ++ [c])) by (rewrite len_app; reflexivity).
    rewrite IH.
    + f_equal. f_equal.
      * rewrite Hpow. nia.
      * rewrite len_app, !len_cons, len_nil. lia.
    + lia.
    + replace (7 * Z.of_nat (S g)) with (7 + 7 * Z.of_nat g) in Hvb by lia.
      rewrite Z.pow_add_r in Hvb by lia. change (2^7) with 128 in Hvb. apply Z.div_lt_upper_bound; lia.
    + assumption.
    + lia.
    + lia.
    + rewrite Hpow. split; [nia|]. nia.
    + rewrite Hpow. nia.
Qed.

Lemma varint_at_spec bits v pre post : 0 <= bits <= 64 -> 0 <= v < 2 ^ bits ->
  varint_at bits (pre ++ varint v ++ post) (len pre) = Ok (v, len pre + len (varint v)).
Proof.
  intros Hb Hv. unfold varint_at, varint.
  assert (2 ^ bits <= 2 ^ 64) by (apply Z.pow_le_mono_r; lia).
  rewrite get_varint_leb; try lia.
  f_equal. f_equal. lia.
Qed.

(** ** marshalling = the forward specification *)
Lemma len_pb_bytes_pos num b : b <> [] -> pb_bytes num b = varint (num * 8 + 2) ++ varint (len b) ++ b.
Proof. destruct b; [congruence|reflexivity]. Qed.

Lemma len_pb_bytes num b : 0 < num < 16 -> len b < 2^63 -> len (pb_bytes num b) = size_field b.
Proof.
  intros Hn Hb. unfold size_field. destruct (Z.ltb_spec 0 (len b)) as [H|H].
  - rewrite len_pb_bytes_pos by (apply len_pos; lia). rewrite !len_app, <- !size_varint_spec by lia.
    rewrite (size_varint_small (num * 8 + 2)) by lia. lia.
  - assert (b = []) by (apply len_0_nil; pose proof (len_nonneg b); lia). subst. reflexivity.
Qed.

Lemma push_field_spec num b acc : 0 < num < 16 -> len b < 2^63 ->
  push_field (num * 8 + 2) b acc = pb_bytes num b ++ acc.
Proof.
  intros Hn Hb. unfold push_field. pose proof (len_nonneg b). destruct (Z.ltb_spec 0 (len b)) as [H'|H'].
  - rewrite len_pb_bytes_pos by (apply len_pos; lia). rewrite encode_varint_spec by lia.
    assert (Hv : varint (num * 8 + 2) = [z2b (num * 8 + 2)]).
    { unfold varint. cbn [leb128]. destruct (Z.ltb_spec (num * 8 + 2) 128); [reflexivity|lia]. }
    rewrite Hv. cbn [app]. rewrite <- !app_assoc. reflexivity.
  - assert (b = []) by (apply len_0_nil; lia). subst. reflexivity.
Qed.

Lemma marshal_wkey_spec k : len (w_dkey k) < 2^63 -> len (w_nonce k) < 2^63 -> marshal_wkey k = pb_wkey k.
Proof.
  intros H1 H2. unfold marshal_wkey, pb_wkey.
  change 10 with (1 * 8 + 2). rewrite push_field_spec by lia.
  change 18 with (2 * 8 + 2). rewrite push_field_spec by lia. reflexivity.
Qed.

Lemma len_pb_wkey k : len (w_dkey k) < 2^63 -> len (w_nonce k) < 2^63 -> len (pb_wkey k) = size_wkey k.
Proof.
  intros H1 H2. unfold pb_wkey, size_wkey. rewrite !len_app, !len_pb_bytes by lia. lia.
Qed.

Definition keys_small (ks : list wkey) : Prop := Forall (fun k => len (pb_wkey k) < 2^63) ks.

Lemma len_pb_bytes_ge num b : len b <= len (pb_bytes num b).
Proof.
  destruct b as [|x b]; [reflexivity|]. unfold pb_bytes. rewrite !len_app.
  pose proof (len_nonneg (varint (num*8+2))). pose proof (len_nonneg (varint (len (x::b)))). lia.
Qed.

Lemma wkey_small k : len (pb_wkey k) < 2^63 -> len (w_dkey k) < 2^63 /\ len (w_nonce k) < 2^63 /\ len (w_unk k) < 2^63.
Proof.
  unfold pb_wkey. rewrite !len_app. intros H.
  pose proof (len_pb_bytes_ge 1 (w_dkey k)). pose proof (len_pb_bytes_ge 2 (w_nonce k)).
  pose proof (len_nonneg (w_unk k)). pose proof (len_nonneg (w_dkey k)). pose proof (len_nonneg (w_nonce k)). lia.
Qed.

Definition pb_keys (ks : list wkey) : bytes := concat (map (fun k => pb_msg 5 (pb_wkey k)) ks).

Lemma push_keys_app l1 : forall l2 acc, push_keys (l1 ++ l2) acc = push_keys l2 (push_keys l1 acc).
Proof. induction l1 as [|k l1 IH]; intros l2 acc; cbn [push_keys app]; [reflexivity|]. apply IH. Qed.

Lemma push_keys_spec ks : keys_small ks -> forall acc, push_keys (rev ks) acc = pb_keys ks ++ acc.
Proof.
  unfold pb_keys, keys_small. induction 1 as [|k ks Hk H IH]; intros acc; cbn [rev map List.concat]; [reflexivity|].
  rewrite push_keys_app. cbn [push_keys]. rewrite IH.
  destruct (wkey_small _ Hk) as (H1 & H2 & H3).
  rewrite marshal_wkey_spec by assumption. unfold pb_msg.
  pose proof (len_nonneg (pb_wkey k)). rewrite encode_varint_spec by lia.
  change (varint (5 * 8 + 2)) with [z2b 42]. cbn [app]. rewrite <- !app_assoc. reflexivity.
Qed.

Lemma size_keys_spec ks : keys_small ks -> size_keys ks = len (pb_keys ks).
Proof.
  unfold pb_keys, keys_small. induction 1 as [|k ks Hk H IH]; cbn [size_keys map List.concat]; [reflexivity|].
  destruct (wkey_small _ Hk) as (H1 & H2 & H3).
  rewrite len_app, <- IH. unfold pb_msg. rewrite !len_app. pose proof (len_nonneg (pb_wkey k)).
  rewrite <- (size_varint_spec (len (pb_wkey k))) by lia. rewrite len_pb_wkey by assumption.
  change (len (varint (5 * 8 + 2))) with 1. lia.
Qed.

Lemma pb_keys_small ks : len (pb_keys ks) < 2^63 -> keys_small ks.
Proof.
  unfold pb_keys, keys_small. induction ks as [|k ks IH]; cbn [map List.concat]; intros H; constructor.
  - rewrite len_app in H.
    pose proof (len_nonneg (concat (map (fun k => pb_msg 5 (pb_wkey k)) ks))).
    assert (len (pb_wkey k) <= len (pb_msg 5 (pb_wkey k))).
    { unfold pb_msg. rewrite !len_app.
      pose proof (len_nonneg (varint (5*8+2))). pose proof (len_nonneg (varint (len (pb_wkey k)))). lia. }
    lia.
  - apply IH. rewrite len_app in H. pose proof (len_nonneg (pb_msg 5 (pb_wkey k))). lia.
Qed.

Lemma pb_small_parts h : pb_small h ->
  len (h_salt h) < 2^62 /\ len (h_pk h) < 2^62 /\ len (h_sender h) < 2^62 /\ keys_small (h_keys h) /\ len (h_unk h) < 2^62
  /\ len (pb_keys (h_keys h)) < 2^62.
Proof.
  unfold pb_small, pb_header. intros [Hc H]. rewrite !len_app in H. fold (pb_keys (h_keys h)) in H.
  pose proof (len_pb_bytes_ge 2 (h_salt h)). pose proof (len_pb_bytes_ge 3 (h_pk h)).
  pose proof (len_pb_bytes_ge 4 (h_sender h)). pose proof (len_nonneg (pb_keys (h_keys h))).
  pose proof (len_nonneg (h_unk h)). pose proof (len_nonneg (h_salt h)). pose proof (len_nonneg (h_pk h)).
  pose proof (len_nonneg (h_sender h)). pose proof (len_nonneg (pb_uint 1 (h_chunk h))).
  repeat split; try lia. apply pb_keys_small. lia.
Qed.

Lemma size_header_spec h : pb_small h -> size_header h = len (pb_header h).
Proof.
  intros Hs. destruct (pb_small_parts _ Hs) as (H1 & H2 & H3 & H4 & H5 & _). destruct Hs as [Hc _].
  unfold size_header, pb_header. rewrite !len_app. fold (pb_keys (h_keys h)).
  rewrite !len_pb_bytes, size_keys_spec by (assumption || lia).
  unfold pb_uint. destruct (Z.eqb_spec (h_chunk h) 0).
  - change (len (@nil byte)) with 0. lia.
  - rewrite len_app, <- (size_varint_spec (h_chunk h)) by lia. change (len (varint (1 * 8))) with 1. lia.
Qed.

Lemma marshal_fields_spec h : pb_small h -> marshal_fields h = pb_header h.
Proof.
  intros Hs. destruct (pb_small_parts _ Hs) as (H1 & H2 & H3 & H4 & H5 & _). destruct Hs as [Hc _].
  unfold marshal_fields, pb_header. rewrite push_keys_spec by assumption.
  change 34 with (4 * 8 + 2). rewrite push_field_spec by lia.
  change 26 with (3 * 8 + 2). rewrite push_field_spec by lia.
  change 18 with (2 * 8 + 2). rewrite push_field_spec by lia.
  fold (pb_keys (h_keys h)). unfold pb_uint. destruct (Z.eqb_spec (h_chunk h) 0); [reflexivity|].
  rewrite encode_varint_spec by lia. change (varint (1 * 8)) with [z2b 8]. reflexivity.
Qed.

Lemma marshal_spec h : pb_small h -> marshal_to h (size_header h) = Ok (pb_header h).
Proof.
  intros Hs. unfold marshal_to. rewrite marshal_fields_spec, size_header_spec by assumption.
  rewrite !Z.leb_refl, Z.sub_diag. cbn. rewrite app_nil_r. reflexivity.
Qed.

(** ** round trip *)
Lemma varint_tag_at num wt pre post : 0 < num < 16 -> 0 <= wt < 8 -> wt <> 4 ->
  get_tag (pre ++ varint (num * 8 + wt) ++ post) (len pre) = Ok (num, wt, len pre + 1).
Proof.
  intros Hn Hw Hw4. unfold get_tag. rewrite varint_at_spec by lia. cbn [bind].
  change 7 with (Z.ones 3). rewrite Z.land_ones by lia. rewrite Z.shiftr_div_pow2 by lia.
  change (2^3) with 8. replace ((num * 8 + wt) mod 8) with wt by lia.
  replace ((num * 8 + wt) / 8) with num by lia.
  destruct (Z.eqb_spec wt 4); [lia|]. unfold i32. rewrite Z.mod_small by lia.
  destruct (Z.leb_spec (num + 2 ^ 31 - 2 ^ 31) 0); [lia|].
  rewrite <- size_varint_spec by lia. rewrite size_varint_small by lia. f_equal. f_equal. f_equal. lia.
Qed.

Lemma slice_app pre b post : slice (pre ++ b ++ post) (len pre) (len pre + len b) = Ok b.
Proof.
  unfold slice. rewrite !len_app. pose proof (len_nonneg pre). pose proof (len_nonneg b). pose proof (len_nonneg post).
  replace ((0 <=? len pre) && (len pre <=? len pre + len b) && (len pre + len b <=? len pre + (len b + len post))) with true by lia.
  rewrite drop_app_exact. replace (len pre + len b - len pre) with (len b) by lia.
  rewrite take_app_exact. reflexivity.
Qed.

Lemma i64_small z : 0 <= z < 2^63 -> i64 z = z.
Proof. intros H. unfold i64. rewrite Z.mod_small by lia. lia. Qed.

Lemma get_bytes_spec pre b post : len (pre ++ varint (len b) ++ b ++ post) < 2^63 ->
  get_bytes (pre ++ varint (len b) ++ b ++ post) (len pre) = Ok (b, len pre + len (varint (len b)) + len b).
Proof.
  intros H. unfold get_bytes. rewrite !len_app in H.
  pose proof (len_nonneg pre). pose proof (len_nonneg b). pose proof (len_nonneg post). pose proof (len_nonneg (varint (len b))).
  rewrite varint_at_spec by lia. cbn [bind]. rewrite !i64_small by lia.
  destruct (Z.ltb_spec (len b) 0); [lia|]. destruct (Z.ltb_spec (len pre + len (varint (len b)) + len b) 0); [lia|].
  rewrite !len_app. destruct (Z.ltb_spec (len pre + (len (varint (len b)) + (len b + len post))) (len pre + len (varint (len b)) + len b)); [lia|].
  rewrite <- len_app, app_assoc, slice_app. cbn [bind]. reflexivity.
Qed.

Lemma varint_tag1 num : 0 < num < 16 -> len (varint (num * 8 + 2)) = 1.
Proof. intros H. rewrite <- size_varint_spec by lia. apply size_varint_small. lia. Qed.

(** one length-delimited field of WrappedKey *)
Lemma wkey_step num b pre post f m : num = 1 \/ num = 2 ->
  len (pre ++ pb_bytes num b ++ post) < 2^63 -> b <> [] ->
  unmarshal_wkey_loop (S f) (pre ++ pb_bytes num b ++ post) (len pre) m
  = unmarshal_wkey_loop f (pre ++ pb_bytes num b ++ post) (len (pre ++ pb_bytes num b))
      (if num =? 1 then mkWkey b (w_nonce m) (w_unk m) else mkWkey (w_dkey m) b (w_unk m)).
Proof.
  intros Hn Hl Hb. rewrite len_pb_bytes_pos in * by assumption.
  set (d := pre ++ (varint (num * 8 + 2) ++ varint (len b) ++ b) ++ post) in *.
  assert (Hd1 : d = pre ++ varint (num * 8 + 2) ++ (varint (len b) ++ b ++ post)).
  { unfold d. rewrite <- !app_assoc. reflexivity. }
  assert (Hd2 : d = (pre ++ varint (num * 8 + 2)) ++ varint (len b) ++ b ++ post).
  { rewrite Hd1, <- app_assoc. reflexivity. }
  cbn [unmarshal_wkey_loop].
  assert (Hle : (len d <=? len pre) = false).
  { rewrite Hd1, !len_app, varint_tag1 by lia. pose proof (len_nonneg (varint (len b))).
    pose proof (len_nonneg b). pose proof (len_nonneg post). lia. }
  rewrite Hle.
  assert (Ht : get_tag d (len pre) = Ok (num, 2, len pre + 1)).
  { rewrite Hd1. apply varint_tag_at; lia. }
  rewrite Ht. cbn [bind].
  assert (Hg : get_bytes d (len pre + 1) = Ok (b, len (pre ++ varint (num * 8 + 2) ++ varint (len b) ++ b))).
  { replace (len pre + 1) with (len (pre ++ varint (num * 8 + 2))) by (rewrite len_app, varint_tag1 by lia; lia).
    rewrite Hd2 at 1. rewrite get_bytes_spec by (rewrite <- Hd2; exact Hl).
    f_equal. f_equal. rewrite !len_app. lia. }
  rewrite Hg. cbn [bind]. change (negb (2 =? 2)) with false. cbn [negb].
  destruct Hn as [-> | ->]; reflexivity.
Qed.

Lemma wkey_done f d m : unmarshal_wkey_loop f d (len d) m = Ok m.
Proof.
  destruct f; cbn [unmarshal_wkey_loop]; rewrite Z.leb_refl, Z.ltb_irrefl; reflexivity.
Qed.

Lemma unmarshal_wkey_spec k : w_unk k = [] -> len (pb_wkey k) < 2^63 -> unmarshal_wkey (pb_wkey k) = Ok k.
Proof.
  destruct k as [dk no un]. cbn. intros -> Hl. unfold unmarshal_wkey. set (d := pb_wkey _) in *.
  unfold pb_wkey in d. cbn in d.
  assert (Hfuel : forall x, 0 < len x -> x = d -> exists f, length d = S f).
  { intros x Hx ->. unfold len in Hx. destruct (length d); [cbn in Hx; lia|eauto]. }
  destruct dk as [|x dk].
  - destruct no as [|y no]; [reflexivity|].
    assert (Hd : d = [] ++ pb_bytes 2 (y :: no) ++ []) by reflexivity.
    destruct (length d) as [|f] eqn:Ef; [exfalso; subst d; cbn in Ef; discriminate|].
    clearbody d. subst d. change 0 with (len (@nil byte)).
    rewrite wkey_step by (auto || congruence). cbn [Z.eqb w_dkey w_nonce w_unk empty_wkey].
    rewrite app_nil_r at 1. cbn [app]. apply wkey_done.
  - assert (Hl2 : (length d >= 2)%nat).
    { unfold d. rewrite app_length. unfold pb_bytes at 1. rewrite !app_length.
      pose proof (varint_tag1 1 ltac:(lia)). unfold len in H. cbn [length]. lia. }
    destruct (length d) as [|[|f]] eqn:Ef; [lia|lia|]. clear Hl2 Ef Hfuel.
    assert (Hd : d = [] ++ pb_bytes 1 (x :: dk) ++ (pb_bytes 2 no ++ [])) by reflexivity.
    clearbody d. subst d. change 0 with (len (@nil byte)).
    rewrite wkey_step by (auto || congruence). cbn [Z.eqb w_dkey w_nonce w_unk empty_wkey Pos.eqb].
    destruct no as [|y no].
    + cbn [pb_bytes app]. rewrite app_nil_r. apply wkey_done.
    + cbn [app] in *. rewrite wkey_step by (auto || congruence). cbn [Z.eqb w_dkey w_nonce w_unk empty_wkey Pos.eqb].
      rewrite !app_nil_r. apply wkey_done.
Qed.

(** fields of Header *)
Definition set_field (num : Z) (b : bytes) (m : header) : header :=
  if num =? 2 then mkHeader (h_chunk m) b (h_pk m) (h_sender m) (h_keys m) (h_unk m)
  else if num =? 3 then mkHeader (h_chunk m) (h_salt m) b (h_sender m) (h_keys m) (h_unk m)
  else mkHeader (h_chunk m) (h_salt m) (h_pk m) b (h_keys m) (h_unk m).

Lemma header_step_gen num b pre post f m : 2 <= num <= 5 ->
  let fld := varint (num * 8 + 2) ++ varint (len b) ++ b in
  len (pre ++ fld ++ post) < 2^63 ->
  unmarshal_header_loop (S f) (pre ++ fld ++ post) (len pre) m
  = if num =? 5 then
      k <- unmarshal_wkey b ;;
      unmarshal_header_loop f (pre ++ fld ++ post) (len (pre ++ fld))
        (mkHeader (h_chunk m) (h_salt m) (h_pk m) (h_sender m) (h_keys m ++ [k]) (h_unk m))
    else unmarshal_header_loop f (pre ++ fld ++ post) (len (pre ++ fld)) (set_field num b m).
Proof.
  intros Hn fld Hl. 
  set (d := pre ++ fld ++ post) in *.
  assert (Hd1 : d = pre ++ varint (num * 8 + 2) ++ (varint (len b) ++ b ++ post)).
  { unfold d, fld. rewrite <- !app_assoc. reflexivity. }
  assert (Hd2 : d = (pre ++ varint (num * 8 + 2)) ++ varint (len b) ++ b ++ post).
  { rewrite Hd1, <- app_assoc. reflexivity. }
  cbn [unmarshal_header_loop].
  assert (Hle : (len d <=? len pre) = false).
  { rewrite Hd1, !len_app, varint_tag1 by lia. pose proof (len_nonneg (varint (len b))).
    pose proof (len_nonneg b). pose proof (len_nonneg post). lia. }
  rewrite Hle.
  assert (Ht : get_tag d (len pre) = Ok (num, 2, len pre + 1)).
  { rewrite Hd1. apply varint_tag_at; lia. }
  rewrite Ht. cbn [bind].
  assert (Hg : get_bytes d (len pre + 1) = Ok (b, len (pre ++ fld))).
  { replace (len pre + 1) with (len (pre ++ varint (num * 8 + 2))) by (rewrite len_app, varint_tag1 by lia; lia).
    rewrite Hd2 at 1. rewrite get_bytes_spec by (rewrite <- Hd2; exact Hl).
    f_equal. f_equal. unfold fld. rewrite !len_app. lia. }
  assert (Hc : num = 2 \/ num = 3 \/ num = 4 \/ num = 5) by lia.
  rewrite Hg.
  destruct Hc as [-> | [-> | [-> | ->]]]; cbn [bind Z.eqb Pos.eqb negb]; reflexivity.
Qed.

Lemma header_step num b pre post f m : 2 <= num <= 4 -> b <> [] ->
  len (pre ++ pb_bytes num b ++ post) < 2^63 ->
  unmarshal_header_loop (S f) (pre ++ pb_bytes num b ++ post) (len pre) m
  = unmarshal_header_loop f (pre ++ pb_bytes num b ++ post) (len (pre ++ pb_bytes num b)) (set_field num b m).
Proof.
  intros Hn Hb. rewrite len_pb_bytes_pos by assumption. intros Hl.
  rewrite header_step_gen by (assumption || lia). destruct (Z.eqb_spec num 5); [lia|reflexivity].
Qed.

Lemma header_step_key k pre post f m : w_unk k = [] ->
  len (pre ++ pb_msg 5 (pb_wkey k) ++ post) < 2^63 ->
  unmarshal_header_loop (S f) (pre ++ pb_msg 5 (pb_wkey k) ++ post) (len pre) m
  = unmarshal_header_loop f (pre ++ pb_msg 5 (pb_wkey k) ++ post) (len (pre ++ pb_msg 5 (pb_wkey k)))
      (mkHeader (h_chunk m) (h_salt m) (h_pk m) (h_sender m) (h_keys m ++ [k]) (h_unk m)).
Proof.
  unfold pb_msg. intros Hu Hl. rewrite header_step_gen by (assumption || lia).
  change (5 =? 5) with true. cbv iota. rewrite unmarshal_wkey_spec; [reflexivity|assumption|].
  rewrite !len_app in Hl. pose proof (len_nonneg pre). pose proof (len_nonneg post).
  pose proof (len_nonneg (varint (5*8+2))). pose proof (len_nonneg (varint (len (pb_wkey k)))). lia.
Qed.

Lemma header_step_uint v pre post f m : 0 < v < 2^32 ->
  len (pre ++ pb_uint 1 v ++ post) < 2^63 ->
  unmarshal_header_loop (S f) (pre ++ pb_uint 1 v ++ post) (len pre) m
  = unmarshal_header_loop f (pre ++ pb_uint 1 v ++ post) (len (pre ++ pb_uint 1 v))
      (mkHeader v (h_salt m) (h_pk m) (h_sender m) (h_keys m) (h_unk m)).
Proof.
  intros Hv Hl. unfold pb_uint in *. destruct (Z.eqb_spec v 0); [lia|].
  set (d := pre ++ (varint (1 * 8) ++ varint v) ++ post) in *.
  assert (Hd1 : d = pre ++ varint (1 * 8 + 0) ++ (varint v ++ post)).
  { unfold d. rewrite <- !app_assoc. reflexivity. }
  assert (Hd2 : d = (pre ++ varint (1 * 8)) ++ varint v ++ post).
  { rewrite Hd1, <- app_assoc. reflexivity. }
  cbn [unmarshal_header_loop].
  assert (Hle : (len d <=? len pre) = false).
  { rewrite Hd1, !len_app. change (len (varint (1 * 8 + 0))) with 1. pose proof (len_nonneg (varint v)).
    pose proof (len_nonneg post). lia. }
  rewrite Hle.
  assert (Ht : get_tag d (len pre) = Ok (1, 0, len pre + 1)).
  { rewrite Hd1. apply varint_tag_at; lia. }
  rewrite Ht. cbn [bind Z.eqb Pos.eqb negb].
  replace (len pre + 1) with (len (pre ++ varint (1 * 8))) by (rewrite len_app; reflexivity).
  assert (Hva : varint_at 32 d (len (pre ++ varint (1 * 8))) = Ok (v, len (pre ++ varint (1 * 8)) + len (varint v)))
    by (rewrite Hd2; apply varint_at_spec; lia).
  rewrite Hva. cbn [bind].
  f_equal. rewrite !len_app. lia.
Qed.

Lemma header_done f d m : unmarshal_header_loop f d (len d) m = Ok m.
Proof.
  destruct f; cbn [unmarshal_header_loop]; rewrite Z.leb_refl, Z.ltb_irrefl; reflexivity.
Qed.

Lemma header_keys ks : Forall (fun k => w_unk k = []) ks -> forall pre f m,
  len (pre ++ pb_keys ks) < 2^63 -> (length ks <= f)%nat ->
  unmarshal_header_loop f (pre ++ pb_keys ks) (len pre) m
  = Ok (mkHeader (h_chunk m) (h_salt m) (h_pk m) (h_sender m) (h_keys m ++ ks) (h_unk m)).
Proof.
  unfold pb_keys. induction 1 as [|k ks Hk H IH]; intros pre f m Hl Hf.
  - cbn [map List.concat]. rewrite !app_nil_r in *. destruct m. cbn. rewrite header_done. reflexivity.
  - cbn [map List.concat length] in *. destruct f as [|f]; [lia|].
    rewrite header_step_key by assumption.
    rewrite app_assoc. rewrite IH by (rewrite <- ?app_assoc; assumption || lia).
    cbn [h_chunk h_salt h_pk h_sender h_keys h_unk]. rewrite <- app_assoc. reflexivity.
Qed.

(** an omitted (empty) field leaves the zero value in place *)
Lemma header_opt num b pre post m : 2 <= num <= 4 ->
  len (pre ++ pb_bytes num b ++ post) < 2^63 ->
  (b = [] -> set_field num b m = m) ->
  forall h f0, (forall f, (f0 <= f)%nat ->
     unmarshal_header_loop f ((pre ++ pb_bytes num b) ++ post) (len (pre ++ pb_bytes num b)) (set_field num b m) = Ok h) ->
  forall f, (S f0 <= f)%nat -> unmarshal_header_loop f (pre ++ pb_bytes num b ++ post) (len pre) m = Ok h.
Proof.
  intros Hn Hl H0 h f0 Hr f Hf. destruct b as [|x b].
  - cbn [pb_bytes app] in *. rewrite app_nil_r, H0 in Hr by reflexivity. apply Hr. lia.
  - destruct f as [|f]; [lia|]. rewrite header_step by (assumption || congruence). rewrite app_assoc. apply Hr. lia.
Qed.

Lemma unmarshal_spec_fuel h : pb_small h -> pb_known h ->
  forall f, (length (h_keys h) + 4 <= f)%nat -> unmarshal_header_loop f (pb_header h) 0 empty_header = Ok h.
Proof.
  intros Hs [Hu Hk]. destruct (pb_small_parts _ Hs) as (H1 & H2 & H3 & H4 & H5 & _). destruct Hs as [Hc Hl].
  unfold pb_header in *. rewrite Hu, app_nil_r in *. fold (pb_keys (h_keys h)) in *.
  destruct h as [c sa pk se ks un]. cbn [h_chunk h_salt h_pk h_sender h_keys h_unk] in *. subst un.
  assert (Hrest : forall pre m f, len (pre ++ pb_bytes 2 sa ++ pb_bytes 3 pk ++ pb_bytes 4 se ++ pb_keys ks) < 2^63 ->
     m = mkHeader c [] [] [] [] [] -> (length ks + 3 <= f)%nat ->
     unmarshal_header_loop f (pre ++ pb_bytes 2 sa ++ pb_bytes 3 pk ++ pb_bytes 4 se ++ pb_keys ks) (len pre) m
     = Ok (mkHeader c sa pk se ks [])).
  { intros pre m f Hlp -> Hf.
    apply header_opt with (f0 := (length ks + 2)%nat); [lia|exact Hlp|intros ->; reflexivity| |lia].
    intros f1 Hf1. apply header_opt with (f0 := (length ks + 1)%nat); [lia|rewrite <- !app_assoc; exact Hlp|intros ->; reflexivity| |lia].
    intros f2 Hf2. apply header_opt with (f0 := (length ks)%nat); [lia|rewrite <- !app_assoc; exact Hlp|intros ->; reflexivity| |lia].
    intros f3 Hf3. rewrite header_keys; [reflexivity|exact Hk|rewrite <- !app_assoc; exact Hlp|lia]. }
  intros f Hf. destruct (Z.eq_dec c 0) as [->|Hc0].
  - change (pb_uint 1 0) with (@nil byte) in *. apply (Hrest [] empty_header f); [cbn [app] in *; lia|reflexivity|lia].
  - destruct f as [|f]; [lia|]. change 0 with (len (@nil byte)).
    change (pb_uint 1 c ++ ?x) with ([] ++ pb_uint 1 c ++ x).
    rewrite header_step_uint by (cbn [app]; lia). cbn [app].
    apply Hrest; [lia|reflexivity|lia].
Qed.

(** ** the decoder never goes out of range *)
Lemma at_in d i : 0 <= i < len d -> exists b, at_ d i = Ok b.
Proof.
  intros H. unfold at_. destruct (Z.ltb_spec i 0); [lia|].
  destruct (drop i d) eqn:E; [|eauto]. exfalso. assert (len (drop i d) = 0) by (rewrite E; reflexivity).
  rewrite len_drop in *; lia.
Qed.

Definition no_panic {A} (r : res A) : Prop := match r with Panic _ => False | _ => True end.

Lemma lor_bound a b n : 0 <= n -> 0 <= a < 2 ^ n -> 0 <= b < 2 ^ n -> 0 <= Z.lor a b < 2 ^ n.
Proof.
  intros Hn Ha Hb. split; [apply Z.lor_nonneg; lia|].
  destruct (Z.eq_dec a 0) as [->|Ha0]; [rewrite Z.lor_0_l; lia|].
  destruct (Z.eq_dec b 0) as [->|Hb0]; [rewrite Z.lor_0_r; lia|].
  assert (Hl : Z.log2 (Z.lor a b) < n).
  { rewrite Z.log2_lor by lia. apply Z.max_lub_lt; apply Z.log2_lt_pow2; lia. }
  apply Z.log2_lt_pow2; [|exact Hl].
  assert (0 <= Z.lor a b) by (apply Z.lor_nonneg; lia).
  destruct (Z.eq_dec (Z.lor a b) 0) as [E|]; [apply Z.lor_eq_0_iff in E; lia|lia].
Qed.

Lemma get_varint_safe bits d : 0 <= bits -> forall fuel idx shift acc, 0 <= idx -> 0 <= shift <= 70 -> 71 <= shift + 7 * Z.of_nat fuel ->
  0 <= acc < 2 ^ bits ->
  match get_varint fuel bits d (len d) idx shift acc with
  | Ok (v, i) => idx < i <= len d /\ 0 <= v < 2 ^ bits
  | Fail _ => True
  | Panic _ => False
  end.
Proof.
  intros Hb. induction fuel as [|fuel IH]; intros idx shift acc Hi Hs Hf Ha; cbn [get_varint].
  - lia.
  - destruct (Z.leb_spec 64 shift); [exact I|]. destruct (Z.leb_spec (len d) idx); [exact I|].
    destruct (at_in d idx) as [b Eb]; [lia|]. rewrite Eb. cbn [bind].
    set (acc' := Z.lor acc _).
    assert (Ha' : 0 <= acc' < 2 ^ bits).
    { unfold acc'. pose proof (Z.mod_pos_bound (Z.shiftl (Z.land (b2z b) 127) shift) (2^bits) ltac:(apply Z.pow_pos_nonneg; lia)).
      set (y := _ mod _) in *. apply lor_bound; lia. }
    destruct (b2z b <? 128); [lia|].
    specialize (IH (idx + 1) (shift + 7) acc' ltac:(lia) ltac:(lia) ltac:(lia) Ha').
    destruct (get_varint fuel bits d (len d) (idx + 1) (shift + 7) acc') as [[v i]| |]; lia || exact IH.
Qed.

Lemma varint_at_safe bits d idx : 0 <= bits -> 0 <= idx ->
  match varint_at bits d idx with Ok (v, i) => idx < i <= len d /\ 0 <= v < 2 ^ bits | Fail _ => True | Panic _ => False end.
Proof. intros Hb Hi. unfold varint_at. assert (0 < 2 ^ bits) by (apply Z.pow_pos_nonneg; lia). apply get_varint_safe; lia. Qed.

Lemma slice_safe d lo hi : 0 <= lo <= hi -> hi <= len d -> exists b, slice d lo hi = Ok b /\ len b = hi - lo /\ b = take (hi - lo) (drop lo d).
Proof.
  intros H1 H2. unfold slice. replace ((0 <=? lo) && (lo <=? hi) && (hi <=? len d)) with true by lia.
  eexists; split; [reflexivity|]. split; [|reflexivity]. rewrite len_take_le; [reflexivity|]. rewrite len_drop by lia. lia.
Qed.

Lemma i64_range z : - 2^63 <= i64 z < 2^63.
Proof. unfold i64. pose proof (Z.mod_pos_bound (z + 2^63) (2^64)). lia. Qed.
Lemma i64_val z : - 2^63 <= z < 2^64 -> i64 z = z \/ (2^63 <= z /\ i64 z = z - 2^64).
Proof. intros H. unfold i64. destruct (Z.ltb_spec z (2^63)); [left|right]; lia. Qed.

Lemma get_bytes_safe d idx : len d < 2^63 -> 0 <= idx ->
  match get_bytes d idx with
  | Ok (b, i) => idx < i <= len d /\ len b <= i - idx - 1
  | Fail _ => True | Panic _ => False end.
Proof.
  intros Hd Hi. unfold get_bytes. pose proof (varint_at_safe 64 d idx ltac:(lia) Hi) as Hv.
  destruct (varint_at 64 d idx) as [[v i1]| |]; cbn [bind]; [|exact I|exact Hv].
  pose proof (i64_range v). destruct (Z.ltb_spec (i64 v) 0); [exact I|].
  destruct (Z.ltb_spec (i64 (i1 + i64 v)) 0); [exact I|].
  destruct (Z.ltb_spec (len d) (i64 (i1 + i64 v))); [exact I|].
  assert (i64 (i1 + i64 v) = i1 + i64 v) by (destruct (i64_val (i1 + i64 v)); lia).
  destruct (slice_safe d i1 (i64 (i1 + i64 v))) as (b & Eb & Hb & _); [lia|lia|]. rewrite Eb. cbn [bind]. lia.
Qed.

Lemma skip_varint_safe d : forall fuel idx shift, 0 <= idx -> 0 <= shift <= 70 -> 71 <= shift + 7 * Z.of_nat fuel ->
  match skip_varint fuel d (len d) idx shift with Ok i => idx < i <= len d | Fail _ => True | Panic _ => False end.
Proof.
  induction fuel as [|fuel IH]; intros idx shift Hi Hs Hf; cbn [skip_varint].
  - lia.
  - destruct (Z.leb_spec 64 shift); [exact I|]. destruct (Z.leb_spec (len d) idx); [exact I|].
    destruct (at_in d idx) as [b Eb]; [lia|]. rewrite Eb. cbn [bind].
    destruct (b2z b <? 128); [lia|].
    specialize (IH (idx + 1) (shift + 7) ltac:(lia) ltac:(lia) ltac:(lia)).
    destruct (skip_varint fuel d (len d) (idx + 1) (shift + 7)); lia || exact IH.
Qed.

Lemma skip_loop_safe d : len d < 2^62 -> forall fuel idx depth, 0 <= idx -> len d - idx <= Z.of_nat fuel -> 0 <= depth ->
  match skip_loop fuel d idx depth with Ok i => idx < i | Fail _ => True | Panic _ => False end.
Proof.
  intros Hd. induction fuel as [|fuel IH]; intros idx depth Hi Hf Hdep; cbn [skip_loop].
  { destruct (Z.leb_spec (len d) idx); [exact I|lia]. }
  destruct (Z.leb_spec (len d) idx); [exact I|].
  pose proof (varint_at_safe 64 d idx ltac:(lia) Hi) as Hv.
  destruct (varint_at 64 d idx) as [[wire i1]| |]; cbn [bind]; [|exact I|exact Hv].
  set (step := if Z.land wire 7 =? 0 then _ else _).
  assert (Hstep : match step with Ok (i, dp) => (i < 0 \/ i1 <= i) /\ 0 <= dp | Fail _ => True | Panic _ => False end).
  { unfold step. destruct (Z.land wire 7 =? 0).
    { pose proof (skip_varint_safe d 11 i1 0 ltac:(lia) ltac:(lia) ltac:(lia)) as Hs.
      destruct (skip_varint 11 d (len d) i1 0); cbn [bind]; lia || exact Hs. }
    destruct (Z.land wire 7 =? 1). { rewrite i64_small by lia. lia. }
    destruct (Z.land wire 7 =? 2).
    { pose proof (varint_at_safe 64 d i1 ltac:(lia) ltac:(lia)) as Hv2.
      destruct (varint_at 64 d i1) as [[v i]| |]; cbn [bind]; [|exact I|exact Hv2].
      pose proof (i64_range v). destruct (Z.ltb_spec (i64 v) 0); [exact I|].
      destruct (i64_val (i + i64 v)); lia. }
    destruct (Z.land wire 7 =? 3); [lia|].
    destruct (Z.land wire 7 =? 4). { destruct (Z.eqb_spec depth 0); [exact I|lia]. }
    destruct (Z.land wire 7 =? 5); [|exact I]. rewrite i64_small by lia. lia. }
  destruct step as [[i2 dp]| |]; cbn [bind]; [|exact I|exact Hstep].
  destruct (Z.ltb_spec i2 0); [exact I|]. destruct (Z.eqb_spec dp 0); [lia|].
  specialize (IH i2 dp ltac:(lia) ltac:(lia) ltac:(lia)).
  destruct (skip_loop fuel d i2 dp); lia || exact IH.
Qed.

Lemma get_unknown_safe d pre : len d < 2^62 -> 0 <= pre <= len d ->
  match get_unknown d pre with
  | Ok (b, i) => pre < i <= len d /\ len b = i - pre /\ b = take (i - pre) (drop pre d)
  | Fail _ => True | Panic _ => False end.
Proof.
  intros Hd Hp. unfold get_unknown.
  destruct (slice_safe d pre (len d)) as (r & Er & Hr & _); [lia|lia|]. rewrite Er. cbn [bind].
  pose proof (skip_loop_safe r ltac:(lia) (length r) 0 0 ltac:(lia) ltac:(unfold len; lia) ltac:(lia)) as Hs.
  unfold skip. destruct (skip_loop (length r) r 0 0) as [sk| |]; cbn [bind]; [|exact I|exact Hs].
  destruct ((sk <? 0) || (i64 (pre + sk) <? 0)); [exact I|].
  destruct (Z.ltb_spec (len d) (pre + sk)); [exact I|].
  destruct (slice_safe d pre (pre + sk)) as (b & Eb & Hb & Hb2); [lia|lia|]. rewrite Eb. cbn [bind].
  replace (pre + sk - pre) with sk in * by lia. repeat split; try lia. exact Hb2.
Qed.

Lemma get_tag_safe d idx : 0 <= idx ->
  match get_tag d idx with Ok (_, _, i) => idx < i <= len d | Fail _ => True | Panic _ => False end.
Proof.
  intros Hi. unfold get_tag. pose proof (varint_at_safe 64 d idx ltac:(lia) Hi) as Hv.
  destruct (varint_at 64 d idx) as [[v i1]| |]; cbn [bind]; [|exact I|exact Hv].
  destruct (_ =? 4); [exact I|]. destruct (_ <=? 0); [exact I|lia].
Qed.

Definition wkey_bytes (k : wkey) : Z := len (w_dkey k) + len (w_nonce k) + len (w_unk k).

Lemma unmarshal_wkey_safe d : len d < 2^62 -> forall fuel idx m, 0 <= idx -> len d - idx <= Z.of_nat fuel ->
  wkey_bytes m <= idx ->
  match unmarshal_wkey_loop fuel d idx m with Ok k => wkey_bytes k <= len d | Fail _ => True | Panic _ => False end.
Proof.
  intros Hd. induction fuel as [|fuel IH]; intros idx m Hi Hf Hm; cbn [unmarshal_wkey_loop].
  { destruct (Z.leb_spec (len d) idx); [|lia]. destruct (Z.ltb_spec (len d) idx); [exact I|lia]. }
  destruct (Z.leb_spec (len d) idx). { destruct (Z.ltb_spec (len d) idx); [exact I|lia]. }
  pose proof (get_tag_safe d idx Hi) as Ht.
  destruct (get_tag d idx) as [[[fn wt] i1]| |]; cbn [bind]; [|exact I|exact Ht].
  unfold wkey_bytes in *. pose proof (len_nonneg (w_dkey m)). pose proof (len_nonneg (w_nonce m)). pose proof (len_nonneg (w_unk m)).
  destruct (fn =? 1).
  { destruct (negb (wt =? 2)); [exact I|].
    pose proof (get_bytes_safe d i1 ltac:(lia) ltac:(lia)) as Hg.
    destruct (get_bytes d i1) as [[b i2]| |]; cbn [bind]; [|exact I|exact Hg].
    apply IH; cbn; lia. }
  destruct (fn =? 2).
  { destruct (negb (wt =? 2)); [exact I|].
    pose proof (get_bytes_safe d i1 ltac:(lia) ltac:(lia)) as Hg.
    destruct (get_bytes d i1) as [[b i2]| |]; cbn [bind]; [|exact I|exact Hg].
    apply IH; cbn; lia. }
  pose proof (get_unknown_safe d idx Hd ltac:(lia)) as Hg.
  destruct (get_unknown d idx) as [[b i2]| |]; cbn [bind]; [|exact I|exact Hg].
  apply IH; cbn; rewrite ?len_app; lia.
Qed.

Lemma keys_bytes_app a b : keys_bytes (a ++ b) = keys_bytes a + keys_bytes b.
Proof. induction a as [|k a IH]; cbn [keys_bytes app]; [lia|]. rewrite IH. lia. Qed.
Lemma keys_bytes_nonneg a : 0 <= keys_bytes a.
Proof.
  induction a as [|k a IH]; cbn [keys_bytes]; [lia|].
  pose proof (len_nonneg (w_dkey k)). pose proof (len_nonneg (w_nonce k)). pose proof (len_nonneg (w_unk k)). lia.
Qed.

Lemma unmarshal_header_safe d : len d < 2^62 -> forall fuel idx m, 0 <= idx -> len d - idx <= Z.of_nat fuel ->
  header_bytes m <= idx -> 0 <= h_chunk m < 2^32 ->
  match unmarshal_header_loop fuel d idx m with
  | Ok h => header_bytes h <= len d /\ 0 <= h_chunk h < 2^32 | Fail _ => True | Panic _ => False end.
Proof.
  intros Hd. induction fuel as [|fuel IH]; intros idx m Hi Hf Hm Hc; cbn [unmarshal_header_loop].
  { destruct (Z.leb_spec (len d) idx); [|lia]. destruct (Z.ltb_spec (len d) idx); [exact I|lia]. }
  destruct (Z.leb_spec (len d) idx). { destruct (Z.ltb_spec (len d) idx); [exact I|lia]. }
  pose proof (get_tag_safe d idx Hi) as Ht.
  destruct (get_tag d idx) as [[[fn wt] i1]| |]; cbn [bind]; [|exact I|exact Ht].
  unfold header_bytes in *.
  pose proof (len_nonneg (h_salt m)). pose proof (len_nonneg (h_pk m)). pose proof (len_nonneg (h_sender m)).
  pose proof (keys_bytes_nonneg (h_keys m)). pose proof (len_nonneg (h_unk m)).
  destruct (fn =? 1).
  { destruct (negb (wt =? 0)); [exact I|].
    pose proof (varint_at_safe 32 d i1 ltac:(lia) ltac:(lia)) as Hg.
    destruct (varint_at 32 d i1) as [[v i2]| |]; cbn [bind]; [|exact I|exact Hg].
    apply IH; cbn [h_chunk h_salt h_pk h_sender h_keys h_unk]; lia. }
  destruct (fn =? 2).
  { destruct (negb (wt =? 2)); [exact I|].
    pose proof (get_bytes_safe d i1 ltac:(lia) ltac:(lia)) as Hg.
    destruct (get_bytes d i1) as [[b i2]| |]; cbn [bind]; [|exact I|exact Hg].
    apply IH; cbn [h_chunk h_salt h_pk h_sender h_keys h_unk]; lia. }
  destruct (fn =? 3).
  { destruct (negb (wt =? 2)); [exact I|].
    pose proof (get_bytes_safe d i1 ltac:(lia) ltac:(lia)) as Hg.
    destruct (get_bytes d i1) as [[b i2]| |]; cbn [bind]; [|exact I|exact Hg].
    apply IH; cbn [h_chunk h_salt h_pk h_sender h_keys h_unk]; lia. }
  destruct (fn =? 4).
  { destruct (negb (wt =? 2)); [exact I|].
    pose proof (get_bytes_safe d i1 ltac:(lia) ltac:(lia)) as Hg.
    destruct (get_bytes d i1) as [[b i2]| |]; cbn [bind]; [|exact I|exact Hg].
    apply IH; cbn [h_chunk h_salt h_pk h_sender h_keys h_unk]; lia. }
  destruct (fn =? 5).
  { destruct (negb (wt =? 2)); [exact I|].
    pose proof (get_bytes_safe d i1 ltac:(lia) ltac:(lia)) as Hg.
    destruct (get_bytes d i1) as [[b i2]| |]; cbn [bind]; [|exact I|exact Hg].
    pose proof (unmarshal_wkey_safe b ltac:(lia) (length b) 0 empty_wkey ltac:(lia) ltac:(unfold len; lia) ltac:(cbn; lia)) as Hw.
    unfold unmarshal_wkey. destruct (unmarshal_wkey_loop (length b) b 0 empty_wkey) as [k| |]; cbn [bind]; [|exact I|exact Hw].
    unfold wkey_bytes in Hw.
    apply IH; cbn [h_chunk h_salt h_pk h_sender h_keys h_unk]; rewrite ?keys_bytes_app; cbn [keys_bytes]; lia. }
  pose proof (get_unknown_safe d idx Hd ltac:(lia)) as Hg.
  destruct (get_unknown d idx) as [[b i2]| |]; cbn [bind]; [|exact I|exact Hg].
  apply IH; cbn [h_chunk h_salt h_pk h_sender h_keys h_unk]; rewrite ?len_app; lia.
Qed.

Lemma unmarshal_safe d : len d < 2^62 ->
  match unmarshal_header d with
  | Ok h => header_bytes h <= len d /\ 0 <= h_chunk h < 2^32 | Fail _ => True | Panic _ => False end.
Proof.
  intros Hd. unfold unmarshal_header. apply unmarshal_header_safe; unfold len; cbn; try lia. unfold len in Hd. lia.
Qed.

(** more fuel does not change the result *)
Lemma header_fuel_mono d : forall f idx m r, unmarshal_header_loop f d idx m = r -> no_panic r ->
  forall f', (f <= f')%nat -> unmarshal_header_loop f' d idx m = r.
Proof.
  induction f as [|f IH]; intros idx m r Hr Hnp f' Hf.
  - cbn [unmarshal_header_loop] in Hr. destruct f'; cbn [unmarshal_header_loop]; [exact Hr|].
    destruct (len d <=? idx); [exact Hr|]. subst r. destruct Hnp.
  - destruct f' as [|f']; [lia|]. cbn [unmarshal_header_loop] in *.
    destruct (len d <=? idx); [exact Hr|].
    destruct (get_tag d idx) as [[[fn wt] i1]| |]; cbn [bind] in *; try exact Hr.
    repeat match goal with
    | H : context [if ?c then _ else _] |- _ => destruct c; try exact H
    | H : context [bind ?x _] |- _ => destruct x as [[? ?]| |] eqn:?; cbn [bind] in H |- *; try exact H
    | H : context [bind ?x _] |- _ => destruct x as [?| |] eqn:?; cbn [bind] in H |- *; try exact H
    end; try (eapply IH; [exact Hr|exact Hnp|lia]).
Qed.

Lemma unmarshal_spec h : pb_small h -> pb_known h -> unmarshal_header (pb_header h) = Ok h.
Proof.
  intros Hs Hk. pose proof (unmarshal_spec_fuel h Hs Hk) as Hf. destruct Hs as [Hc Hl].
  pose proof (unmarshal_safe (pb_header h) Hl) as Hsafe. unfold unmarshal_header in *.
  remember (unmarshal_header_loop (length (pb_header h)) (pb_header h) 0 empty_header) as r eqn:Er.
  assert (Hnp : no_panic r) by (destruct r; [exact I|exact I|exact Hsafe]).
  symmetry in Er. pose proof (header_fuel_mono _ _ _ _ _ Er Hnp (length (pb_header h) + (length (h_keys h) + 4)) ltac:(lia)) as H1.
  rewrite Hf in H1 by lia. congruence.
Qed.
