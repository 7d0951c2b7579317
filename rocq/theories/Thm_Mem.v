(** C104: what was in memory before does not matter. *)
From Verif Require Import Bytes BytesLemmas GoErr GoIO SpecIO IOProofs Pb SpecPb PbProofs PbBuf Crypto CryptoLaws Keys Sign Encrypt Decrypt Stream Mem Spec EncryptProofs Toy Scene Thm_Pb Thm_PbBuf.
Require Import ZifyBool.
Local Notation length := List.length.
Local Notation concat := List.concat.

(** ** Specification *)
(** The same calls of Write and Close on Stream.v's writer, which knows no memory. *)
Fixpoint ew_calls (C : crypto) (e : encryptor) (w : writer) (g : rng) (s : encw) (cs : list (option bytes))
  : encryptor * writer * rng * list (Z * res unit) :=
  match cs with
  | [] => (e, w, g, [])
  | c :: cs =>
      let '(e, w, g, s, r) := match c with
        | Some b => ew_write C e w g s b
        | None => let '(e, w, g, s, r) := ew_close C e w g s in (e, w, g, s, (0, r)) end in
      let '(e, w, g, rs) := ew_calls C e w g s cs in (e, w, g, r :: rs)
  end.

(** ** Proofs *)
Lemma in_slice_app a b c f b' : f b = Ok b' -> in_slice (a ++ b ++ c) (len a) (len a + len b) f = Ok (a ++ b' ++ c).
Proof.
  intros H. unfold in_slice. rewrite slice_app. cbn [bind]. rewrite H. cbn [bind]. rewrite take_app_exact.
  assert (D : drop (len a + len b) (a ++ b ++ c) = c) by (rewrite app_assoc; apply drop_app_eq; rewrite len_app; reflexivity). rewrite D. reflexivity.
Qed.
Lemma zeros_app a b : 0 <= a -> 0 <= b -> zeros (a + b) = zeros a ++ zeros b.
Proof. intros H1 H2. unfold zeros. rewrite Z2Nat.inj_add, repeat_app by assumption. reflexivity. Qed.

Lemma header_mem_ok C h : crypto_ok C -> pb_small h ->
  header_mem C h = Ok (fixed_header (size_header h) ++ pb_header h ++ sha256 C (fixed_header (size_header h) ++ pb_header h),
                       sha256 C (fixed_header (size_header h) ++ pb_header h)).
Proof.
  intros HC Hs. pose proof (size_header_spec h Hs) as S. pose proof (len_nonneg (pb_header h)) as N. unfold header_mem. cbv zeta. rewrite S.
  set (n := len (pb_header h)) in *. change fixed_hdr_len with 12. change sha256_size with 32.
  assert (E0 : zeros (12 + n + 32) = [] ++ zeros 12 ++ zeros (n + 32)) by (rewrite <- Z.add_assoc; apply zeros_app; lia). rewrite E0.
  pose proof (in_slice_app [] (zeros 12) (zeros (n + 32))) as I1. change (len (@nil byte)) with 0 in I1. change (0 + len (zeros 12)) with 12 in I1.
  rewrite (I1 _ (magic ++ zeros 5) eq_refl). cbn [bind]. clear I1.
  pose proof (in_slice_app [] (magic ++ zeros 5) (zeros (n + 32))) as I1. change (len (@nil byte)) with 0 in I1. change (0 + len (magic ++ zeros 5)) with 12 in I1.
  rewrite (I1 _ (magic ++ [z2b sigtool_version] ++ zeros 4) eq_refl). cbn [bind]. clear I1.
  pose proof (in_slice_app [] (magic ++ [z2b sigtool_version] ++ zeros 4) (zeros (n + 32))) as I1. change (len (@nil byte)) with 0 in I1. change (0 + len (magic ++ [z2b sigtool_version] ++ zeros 4)) with 12 in I1.
  rewrite (I1 _ (fixed_header n)); cycle 1.
  { unfold put32. change ((0 <=? len magic + 1) && (len magic + 1 + 4 <=? len (magic ++ [z2b sigtool_version] ++ zeros 4))) with true. cbv iota.
    change (take (len magic + 1) (magic ++ [z2b sigtool_version] ++ zeros 4)) with (magic ++ [z2b sigtool_version]).
    change (drop (len magic + 1 + 4) (magic ++ [z2b sigtool_version] ++ zeros 4)) with (@nil byte). unfold fixed_header. rewrite app_nil_r, <- app_assoc. reflexivity. }
  cbn [bind app]. clear I1. assert (LF : len (fixed_header n) = 12) by reflexivity.
  rewrite (zeros_app n 32) by lia.
  pose proof (in_slice_app (fixed_header n) (zeros n) (zeros 32)) as I1. rewrite LF, len_zeros in I1 by lia.
  rewrite (I1 _ (pb_header h)); cycle 1.
  { destruct (C102_header_buffer h (zeros n) Hs) as (_ & H & _). rewrite (H (zeros n) []); [cbn [bind]; rewrite app_nil_r; reflexivity|rewrite app_nil_r; reflexivity|apply len_zeros; lia]. }
  cbn [bind]. clear I1. pose proof (slice_app [] (fixed_header n ++ pb_header h) (zeros 32)) as I1. change (len (@nil byte)) with 0 in I1. cbn [app] in I1.
  rewrite len_app, LF in I1. fold n in I1. rewrite Z.add_0_l in I1. rewrite <- app_assoc in I1. rewrite I1. cbn [bind]. clear I1.
  set (ck := sha256 C (fixed_header n ++ pb_header h)). assert (LC : len ck = 32) by apply (ok_sha256_len C HC).
  pose proof (in_slice_app (fixed_header n ++ pb_header h) (zeros 32) []) as I1. rewrite app_nil_r, len_app, LF in I1. fold n in I1. change (len (zeros 32)) with 32 in I1.
  assert (LL : len (fixed_header n ++ pb_header h ++ zeros 32) = 12 + n + 32) by (rewrite !len_app, LF; fold n; change (len (zeros 32)) with 32; lia).
  rewrite LL. rewrite <- app_assoc in I1. rewrite (I1 _ ck).
  - cbn [bind]. rewrite app_nil_r, <- app_assoc. reflexivity.
  - unfold append_front. rewrite LC. change (len (zeros 32)) with 32. change (32 <=? 32) with true. cbv iota. rewrite drop_all by (change (len (zeros 32)) with 32; lia). rewrite app_nil_r. reflexivity.
Qed.

Lemma be32_in eb z : 4 <= len eb -> in_slice eb 0 4 (fun b => put32 b 0 z) = Ok (be32 z ++ drop 4 eb).
Proof.
  intros H. rewrite <- (take_drop 4 eb) at 1. pose proof (in_slice_app [] (take 4 eb) (drop 4 eb) (fun b => put32 b 0 z) (be32 z)) as I. change (len (@nil byte)) with 0 in I.
  rewrite len_take_le in I by lia. cbn [app] in I. change (0 + 4) with 4 in I. rewrite I; [reflexivity|].
  unfold put32. rewrite len_take_le by lia. change ((0 <=? 0) && (0 + 4 <=? 4)) with true. cbv iota. rewrite take_0, drop_all, app_nil_r by (rewrite len_take_le by lia; lia). reflexivity.
Qed.
(** one chunk: the buffer's old contents are of no importance *)
Lemma block_mem C e eb pt w i eof g : len eb = e_buflen e ->
  exists eb', enc_block_mem C e eb pt w i eof g = (eb', enc_block C e pt w i eof g) /\ len eb' = len eb.
Proof.
  intros HL. unfold enc_block_mem, enc_block. cbv zeta. destruct (e_ae e) as [k|]; [|exists eb; auto]. destruct (e_hmac e) as [[hk hd]|]; [|exists eb; auto].
  set (z := if eof then _ else _). set (ct := gcm_seal C k (chunk_nonce (e_nonce e) i) pt (be32 z)). pose proof (len_nonneg ct) as Nc.
  destruct (Z_lt_ge_dec (len eb) 4) as [S|G].
  { assert (P : in_slice eb 0 4 (fun b => put32 b 0 z) = Panic "slice bounds out of range").
    { unfold in_slice, slice. destruct (Z.leb_spec 4 (len eb)); [lia|]. rewrite andb_false_r. reflexivity. }
    rewrite P. destruct (Z.ltb_spec (e_buflen e) (len ct + 4)); [|lia]. exists eb. auto. }
  rewrite be32_in by lia. assert (T4 : take 4 (be32 z ++ drop 4 eb) = be32 z) by (apply take_app_eq; reflexivity). rewrite T4.
  rewrite (drop_app_eq 4 (be32 z)) by reflexivity. fold ct. set (D := drop 4 eb). assert (LD : len D = len eb - 4) by (apply len_drop; lia).
  unfold append_front. rewrite LD. destruct (Z.leb_spec (len ct) (len eb - 4)) as [L|L].
  - assert (LB : len (be32 z ++ ct ++ drop (len ct) D) = len eb) by (rewrite !len_app, len_drop by lia; change (len (be32 z)) with 4; lia).
    assert (SL : slice (be32 z ++ ct ++ drop (len ct) D) 0 (len ct + 4) = Ok (be32 z ++ ct)).
    { unfold slice. rewrite LB. destruct (Z.leb_spec 0 (len ct + 4)); [|lia]. destruct (Z.leb_spec (len ct + 4) (len eb)); [|lia]. change (0 <=? 0) with true. cbn [andb].
      rewrite Z.sub_0_r, drop_0, app_assoc, take_app_eq by (rewrite len_app; change (len (be32 z)) with 4; lia). reflexivity. }
    rewrite SL. destruct (Z.ltb_spec (e_buflen e) (len ct + 4)); [lia|]. rewrite (take_app_eq 4 (be32 z)) by reflexivity.
    destruct (fullwrite (be32 z ++ ct) w) as [[x|] w']; [eexists; split; [reflexivity|exact LB]|].
    destruct eof; [|eexists; split; [reflexivity|exact LB]]. destruct (write_trailer _ _ _ _) as [[w2 g2] r]. eexists; split; [reflexivity|exact LB].
  - assert (LB : len (be32 z ++ D) = len eb) by (rewrite len_app, LD; change (len (be32 z)) with 4; lia).
    assert (SL : slice (be32 z ++ D) 0 (len ct + 4) = Panic "slice bounds out of range").
    { unfold slice. rewrite LB. destruct (Z.leb_spec (len ct + 4) (len eb)); [lia|]. rewrite andb_false_r. reflexivity. }
    rewrite SL. destruct (Z.ltb_spec (e_buflen e) (len ct + 4)); [|lia]. eexists; split; [reflexivity|exact LB].
Qed.
Lemma block_buflen C e pt w i eof g : e_buflen (fst (fst (fst (enc_block C e pt w i eof g)))) = e_buflen e /\ h_chunk (e_hdr (fst (fst (fst (enc_block C e pt w i eof g))))) = h_chunk (e_hdr e).
Proof.
  unfold enc_block. cbv zeta. destruct (e_ae e) as [k|]; [|split; reflexivity]. destruct (e_hmac e) as [[hk hd]|]; [|split; reflexivity]. destruct (_ <? _); [split; reflexivity|].
  destruct (fullwrite _ _) as [[x|] w']; [split; reflexivity|]. destruct eof; [|split; reflexivity]. destruct (write_trailer _ _ _ _) as [[w2 g2] r]. split; reflexivity.
Qed.
Lemma buf_put_take got buf : take (len got) (buf_put got buf) = got.
Proof. unfold buf_put. apply take_app_exact. Qed.

Lemma loop_mem C fuel : forall e eb buf r w i g, len eb = e_buflen e -> len buf = h_chunk (e_hdr e) ->
  enc_loop_mem C fuel e eb buf r w i g = enc_loop C fuel e r w i g.
Proof.
  induction fuel as [|f IH]; intros e eb buf r w i g HE HB; cbn [enc_loop_mem enc_loop]; [reflexivity|]. rewrite HB.
  destruct (read_full r (h_chunk (e_hdr e))) as [[got err] r'] eqn:R. rewrite buf_put_take.
  assert (LG : len got <= h_chunk (e_hdr e)).
  { pose proof (read_full_any _ _ _ _ _ R ltac:(pose proof (len_nonneg buf); lia)) as (_ & H & _). lia. }
  set (E := match err with None => Ok false | _ => _ end). destruct E as [eof|x|p]; [|reflexivity..].
  destruct (block_mem C e eb got w i eof g HE) as (eb' & -> & L'). pose proof (block_buflen C e got w i eof g) as (B1 & B2).
  destruct (enc_block C e got w i eof g) as [[[e' w'] g'] rs]. cbn [fst] in B1, B2. destruct rs as [u|x|p]; [|reflexivity..]. destruct eof; [reflexivity|].
  apply IH; [lia|]. unfold buf_put. rewrite len_app, len_drop by (pose proof (len_nonneg got); lia). lia.
Qed.

(** the writer in memory and the writer without: what is buffered is the buffer's first n bytes *)
Definition stands (max : Z) (m : encw_mem) (s : encw) : Prop :=
  len (em_buf m) = max /\ em_n m = len (ew_buf s) /\ take (em_n m) (em_buf m) = ew_buf s /\ em_n m <= max /\ em_blk m = ew_blk s /\ em_err m = ew_err s.

Lemma ew_loop_mem_ok C fuel : forall e eb w g m s b, len eb = e_buflen e -> stands (h_chunk (e_hdr e)) m s ->
  exists eb' m', let '(e', w', g', s', r) := ew_loop C fuel e w g s b in
    ew_loop_mem C fuel e eb w g m b = (e', eb', w', g', m', r) /\ len eb' = e_buflen e' /\ stands (h_chunk (e_hdr e')) m' s'.
Proof.
  induction fuel as [|f IH]; intros e eb w g m s b HE HS; (destruct b as [|b0 b]; [exists eb, m; repeat split; try assumption; apply HS|]).
  - exists eb, m. repeat split; try assumption; apply HS.
  - destruct HS as (S1 & S2 & S3 & S4 & S5 & S6). cbn [ew_loop_mem ew_loop]. set (bb := b0 :: b). set (max := h_chunk (e_hdr e)) in *.
    pose proof (len_nonneg (ew_buf s)) as N1. pose proof (len_nonneg bb) as N2. unfold copy_at. rewrite S1.
    assert (CB : (0 <=? em_n m) && (em_n m <=? max) = true) by lia. rewrite CB. rewrite S3, S2. set (k := len (ew_buf s)) in *.
    set (z := Z.min (max - k) (len bb)). assert (TZ : take (max - k) bb = take z bb).
    { unfold z. destruct (Z.min_spec (max - k) (len bb)) as [(Hm & ->)|(Hm & ->)]; [reflexivity|]. rewrite !take_all by lia. reflexivity. }
    rewrite TZ. set (buf' := ew_buf s ++ take z bb). assert (LZ : len (take z bb) = z) by (apply len_take_le; unfold z; lia).
    assert (LB : len buf' = k + z) by (unfold buf'; rewrite len_app, LZ; reflexivity). rewrite <- LB.
    set (rest := drop (k + len bb) (em_buf m)).
    assert (LM : len (ew_buf s ++ take z bb ++ rest) = max).
    { rewrite app_assoc, len_app. fold buf'. rewrite LB. unfold rest. destruct (Z.le_gt_cases (k + len bb) max) as [G|G].
      - rewrite len_drop by lia. unfold z. lia.
      - rewrite drop_all by lia. change (len (@nil byte)) with 0. unfold z. lia. }
    assert (TM : take (len buf') (ew_buf s ++ take z bb ++ rest) = buf') by (rewrite app_assoc; apply take_app_exact).
    assert (LE : len buf' <= max) by (rewrite LB; unfold z; lia).
    destruct ((len buf' =? max) && (0 <? len (drop z bb))) eqn:F.
    + assert (FB : ew_buf s ++ take z bb ++ rest = buf') by (rewrite <- TM; symmetry; apply take_all; lia). rewrite FB, S5.
      destruct (block_mem C e eb buf' w (ew_blk s) false g HE) as (eb' & -> & L'). pose proof (block_buflen C e buf' w (ew_blk s) false g) as (B1 & B2).
      destruct (enc_block C e buf' w (ew_blk s) false g) as [[[e' w'] g'] rs]. cbn [fst] in B1, B2. rewrite S6. destruct rs as [u|x|p].
      * apply IH; [lia|]. repeat split; cbn; rewrite ?B2; try assumption; try reflexivity; try lia. apply take_0.
      * exists eb'. eexists. split; [reflexivity|]. split; [lia|]. repeat split; cbn; rewrite ?B2; try lia; try reflexivity. apply take_all. lia.
      * exists eb'. eexists. split; [reflexivity|]. split; [lia|]. repeat split; cbn; rewrite ?B2; try lia; try reflexivity. apply take_all. lia.
    + apply IH; [exact HE|]. repeat split; cbn; try assumption; try reflexivity.
Qed.
Lemma ew_write_mem_ok C e eb w g m s b : len eb = e_buflen e -> stands (h_chunk (e_hdr e)) m s ->
  exists eb' m', let '(e', w', g', s', r) := ew_write C e w g s b in
    ew_write_mem C e eb w g m b = (e', eb', w', g', m', r) /\ len eb' = e_buflen e' /\ stands (h_chunk (e_hdr e')) m' s'.
Proof.
  intros HE HS. unfold ew_write_mem, ew_write. pose proof HS as (_ & _ & _ & _ & _ & S6). rewrite S6. destruct (ew_err s); [exists eb, m; auto|].
  destruct (len b =? 0); [exists eb, m; auto|]. destruct (ew_loop_mem_ok C (2 * length b + 2) e eb w g m s b HE HS) as (eb' & m' & H).
  destruct (ew_loop C (2 * length b + 2) e w g s b) as [[[[e' w'] g'] s'] r]. destruct H as (-> & H1 & H2). exists eb', m'. auto.
Qed.
Lemma ew_close_mem_ok C e eb w g m s : len eb = e_buflen e -> stands (h_chunk (e_hdr e)) m s ->
  exists eb' m', let '(e', w', g', s', r) := ew_close C e w g s in
    ew_close_mem C e eb w g m = (e', eb', w', g', m', r) /\ len eb' = e_buflen e' /\ stands (h_chunk (e_hdr e')) m' s'.
Proof.
  intros HE HS. unfold ew_close_mem, ew_close. pose proof HS as (S1 & S2 & S3 & S4 & S5 & S6). pose proof (len_nonneg (em_buf m)) as N0. pose proof (len_nonneg (ew_buf s)) as N1. rewrite S6.
  destruct (ew_err s) as [x|] eqn:X; [exists eb, m; rewrite ?X; auto|].
  assert (SL : slice (em_buf m) 0 (em_n m) = Ok (ew_buf s)).
  { unfold slice. assert (CB : (0 <=? 0) && (0 <=? em_n m) && (em_n m <=? len (em_buf m)) = true) by lia. rewrite CB, Z.sub_0_r, drop_0, S3. reflexivity. }
  rewrite SL, S5. destruct (block_mem C e eb (ew_buf s) w (ew_blk s) true g HE) as (eb' & -> & L'). pose proof (block_buflen C e (ew_buf s) w (ew_blk s) true g) as (B1 & B2).
  destruct (enc_block C e (ew_buf s) w (ew_blk s) true g) as [[[e' w'] g'] rs]. cbn [fst] in B1, B2. destruct rs as [u|x|p].
  - destruct (w_close w') as [[x|] w2]; exists eb'; eexists; (split; [reflexivity|]; split; [lia|]); repeat split; cbn; rewrite ?B2; try assumption; try reflexivity; try lia; try apply take_0.
  - exists eb'. eexists. split; [reflexivity|]. split; [lia|]. repeat split; cbn; rewrite ?B2; try assumption; reflexivity.
  - exists eb'. eexists. split; [reflexivity|]. split; [lia|]. rewrite B2. exact HS.
Qed.
Lemma ew_calls_mem_ok C cs : forall e eb w g m s, len eb = e_buflen e -> stands (h_chunk (e_hdr e)) m s ->
  ew_calls_mem C e eb w g m cs = ew_calls C e w g s cs.
Proof.
  induction cs as [|[b|] cs IH]; intros e eb w g m s HE HS; [reflexivity|..]; cbn [ew_calls_mem ew_calls].
  - destruct (ew_write_mem_ok C e eb w g m s b HE HS) as (eb' & m' & H). destruct (ew_write C e w g s b) as [[[[e' w'] g'] s'] r]. destruct H as (-> & H1 & H2).
    rewrite (IH e' eb' w' g' m' s' H1 H2). reflexivity.
  - destruct (ew_close_mem_ok C e eb w g m s HE HS) as (eb' & m' & H). destruct (ew_close C e w g s) as [[[[e' w'] g'] s'] r]. destruct H as (-> & H1 & H2).
    rewrite (IH e' eb' w' g' m' s' H1 H2). reflexivity.
Qed.

(** ** C104: what the memory held before does not appear *)
(** The header: the buffer that is written out is, in every byte, the header and the checksum over it. *)
Theorem C104_header :
  forall C e w e' w', crypto_ok C -> pb_small (e_hdr e) -> enc_start C e w = (e', w', Ok tt) ->
  exists d ck, header_mem C (e_hdr e) = Ok (d, ck) /\ w_out w' = w_out w ++ d /\ ck = sha256 C (take (len d - 32) d) /\ drop (len d - 32) d = ck.
Proof.
  intros C e w e' w' HC Hs H. apply enc_start_spec in H; try assumption. destruct H as (_ & _ & H). rewrite (header_mem_ok C _ HC Hs).
  set (hd := fixed_header (size_header (e_hdr e)) ++ pb_header (e_hdr e)). set (ck := sha256 C hd). assert (LC : len ck = 32) by apply (ok_sha256_len C HC).
  assert (HB : fixed_header (size_header (e_hdr e)) ++ pb_header (e_hdr e) ++ ck = hd ++ ck) by (unfold hd; rewrite <- app_assoc; reflexivity). rewrite HB.
  exists (hd ++ ck), ck. split; [reflexivity|]. split; [rewrite H|].
  - f_equal. assert (F : hd = full_header (e_hdr e)).
    { unfold hd, full_header, fixed_header. rewrite (size_header_spec _ Hs), be32_u32, <- !app_assoc. reflexivity. }
    unfold ck, header_cksum. rewrite F. reflexivity.
  - rewrite len_app, LC. replace (len hd + 32 - 32) with (len hd) by lia. rewrite take_app_exact, drop_app_exact. split; reflexivity.
Qed.
(** A chunk: whatever the chunk buffer held, the same bytes are written and the same state results - the ones of Encrypt.v. *)
Theorem C104_chunk :
  forall C e eb pt w i eof g, len eb = e_buflen e -> snd (enc_block_mem C e eb pt w i eof g) = enc_block C e pt w i eof g.
Proof. intros C e eb pt w i eof g H. destruct (block_mem C e eb pt w i eof g H) as (eb' & -> & _). reflexivity. Qed.
(** Encrypt: whatever the read buffer and the chunk buffer held at the start, and hold after each round. *)
Theorem C104_encrypt :
  forall C e eb buf r w i g fuel, len eb = e_buflen e -> len buf = h_chunk (e_hdr e) ->
  enc_loop_mem C fuel e eb buf r w i g = enc_loop C fuel e r w i g.
Proof. intros C e eb buf r w i g fuel. apply loop_mem. Qed.
(** ... and the whole call, on an Encryptor whose chunk buffer, if it has one already, has the size start gave it *)
Theorem C104_encrypt_call :
  forall C e eb r w g, 0 <= h_chunk (e_hdr e) -> (e_started e = true -> len eb = e_buflen e) -> encrypt_mem C e eb r w g = encrypt C e r w g.
Proof.
  intros C e eb r w g H0 HE. unfold encrypt_mem, encrypt. destruct (e_stream e); [reflexivity|]. destruct (e_started e) eqn:S.
  - rewrite loop_mem; [reflexivity|exact (HE eq_refl)|apply len_zeros; exact H0].
  - destruct (enc_start C e w) as [[e' w'] rs] eqn:E. destruct rs as [u|x|x]; [|reflexivity..].
    assert (H : 0 <= e_buflen e' /\ e_hdr e' = e_hdr e).
    { unfold enc_start in E. destruct (marshal_to _ _); [|discriminate..]. cbv zeta in E. destruct (new_gcm _); [|discriminate..]. destruct (fullwrite _ w) as [[y|] w2]; [discriminate|].
      injection E as <- _ _. cbn. split; [apply Z.mod_pos_bound; reflexivity|reflexivity]. }
    destruct H as (H1 & H2). rewrite loop_mem; [reflexivity|apply len_zeros; exact H1|apply len_zeros; rewrite H2; exact H0].
Qed.
(** The stream writer: any calls of Write and Close, in any order and with any destination; whatever its buffer and the chunk buffer held. *)
Theorem C104_stream :
  forall C e w e' w' s g cs eb buf, new_stream_writer C e w = (e', w', Ok s) -> len eb = e_buflen e' -> len buf = h_chunk (e_hdr e') ->
  ew_calls_mem C e' eb w' g (mkEwm buf 0 0 None) cs = ew_calls C e' w' g s cs.
Proof.
  intros C e w e' w' s g cs eb buf H HE HB. apply ew_calls_mem_ok; [exact HE|]. unfold new_stream_writer in H.
  destruct (if e_started e then _ else _) as [[e1 w1] [u|x|p]]; try discriminate. injection H as <- <- <-. cbn in HB |- *.
  repeat split; cbn; try assumption; try apply take_0. pose proof (len_nonneg buf). lia.
Qed.
Print Assumptions C104_header.
Print Assumptions C104_chunk.
Print Assumptions C104_encrypt.
Print Assumptions C104_encrypt_call.
Print Assumptions C104_stream.

(** The hypotheses are met: a header with two recipients; a session whose buffers are full of 0xff, with calls of Write across the 4-byte chunk
    boundary: everything is accepted, 0xff nowhere comes out, and a shorter last chunk follows longer ones. *)
Definition dirt (n : Z) : bytes := repeat xff (Z.to_nat n).
Definition opened : encryptor * writer * res encw := Eval vm_compute in new_stream_writer toy e1 sink.
Definition o_enc : encryptor := fst (fst opened).
Definition o_wr : writer := snd (fst opened).
Definition some_calls : list (option bytes) := [Some (str "hel"); Some []; Some (str "lo worl"); Some (str "d"); None; Some text; None].
Example C104_instance :
  pb_small (e_hdr e1) /\ (exists e' w', enc_start toy e1 sink = (e', w', Ok tt)) /\
  new_stream_writer toy e1 sink = (o_enc, o_wr, Ok (mkEw [] 0 None)) /\ len (dirt (e_buflen o_enc)) = e_buflen o_enc /\ len (dirt 4) = h_chunk (e_hdr o_enc) /\
  exists e' w' g', ew_calls_mem toy o_enc (dirt (e_buflen o_enc)) o_wr g1 (mkEwm (dirt 4) 0 0 None) some_calls =
    (e', w', g', [(3, Ok tt); (0, Ok tt); (7, Ok tt); (1, Ok tt); (0, Ok tt); (0, Fail ErrClosed); (0, Fail ErrClosed)]) /\
  len (w_out o_wr) < len (w_out w') /\
  fst (enc_block_mem toy o_enc (dirt (e_buflen o_enc)) text8 o_wr 0 false g1) <> dirt (e_buflen o_enc).
Proof.
  split; [split; [split; [discriminate|reflexivity]|reflexivity]|]. split; [eexists; eexists; vm_compute; reflexivity|]. split; [vm_compute; reflexivity|]. split; [vm_compute; reflexivity|]. split; [vm_compute; reflexivity|].
  do 3 eexists. split; [vm_compute; reflexivity|]. split; [vm_compute; reflexivity|vm_compute; discriminate].
Qed.
