(** C87: the stream writer holds back at most one chunk: a receiver that follows along gets everything else before Close. *)
From Verif Require Import Bytes BytesLemmas GoErr GoIO SpecIO IOProofs Pb SpecPb PbProofs Crypto CryptoLaws Keys Sign
  Encrypt Decrypt Stream Spec SpecStream EncryptProofs DecryptProofs AcceptProofs OpenProofs RoundTrip StreamProofs StreamRead Hostile
  Support Toy Scene Thm_Encrypt Thm_Session Thm_Stream Thm_Size.
Require Import ZifyBool.
Ltac Zify.zify_post_hook ::= Z.div_mod_to_equations.
Local Notation length := List.length.
Local Notation concat := List.concat.

(** a Read on a source whose next frame is authentic does not fail *)
Lemma er_read_opens C d s dk base hk hd i rest er n d' s' b x c pt rest' : crypto_ok C ->
  sr_live d s [] dk base hk hd i rest er -> frame_opens C dk base (h_chunk (d_hdr d)) i false c pt -> rest = frame_word pt false ++ c ++ rest' ->
  er_read C d s n <> (d', s', (b, Fail x)).
Proof.
  intros HC [[P1 P2 P3 P4] Hb He Hl Hd] Hf -> H. unfold er_read in H. rewrite P1, He in H. change (len (@nil byte)) with 0 in P4. rewrite <- P4 in H. cbn [Z.eqb] in H.
  apply (frame_opens_be32 _ _ _ _ _ _ _ _ _ (eq_sym Hb)) in Hf.
  edestruct (dec_chunk_frame C d dk base hk hd (er_blk s) false) as (dx & Hx); [exact Hl|exact Hf|eassumption|discriminate|].
  rewrite Hx in H. unfold er_deliver in H. cbn [er_len] in H. destruct Hf as [Hf _]. destruct (Z.ltb_spec 0 (len pt)); [discriminate|lia].
Qed.
Lemma forall2_length {A B} (R : A -> B -> Prop) l1 l2 : Forall2 R l1 l2 -> length l1 = length l2.
Proof. induction 1; cbn; congruence. Qed.
(** reading a source that stops after some unmarked frames *)
Lemma read_all_follow C ns : crypto_ok C -> forall d s p dk base hk hd i cs er d' s' rs,
  sr_live d s p dk base hk hd i (unmarked C dk base i cs) er -> Forall (fun c => 0 < len c <= h_chunk (d_hdr d)) cs ->
  Forall (fun n => 0 <= n) ns -> read_all C d s ns = (d', s', rs) ->
  exists pieces x m, read_shape ns rs pieces x m /\ (exists k, concat pieces = take k (p ++ concat cs)) /\
    (m <> O -> x <> IoEOF /\ concat pieces = p ++ concat cs).
Proof.
  intros HC. induction ns as [|n ns IH]; intros d s p dk base hk hd i cs er d' s' rs Hl Hcs Hns H; cbn in H.
  - injection H as <- <- <-. exists [], IoEOF, O. split; [split; [reflexivity|constructor]|]. split; [exists 0; rewrite take_0; reflexivity|congruence].
  - inversion Hns as [|? ? Hn Hns']; subst.
    destruct (er_read C d s n) as [[d1 s1] [b r1]] eqn:Er. destruct (read_all C d1 s1 ns) as [[d2 s2] rs2] eqn:Ea. injection H as <- <- <-.
    destruct (er_read_spec C d s p dk base hk hd i _ er n d1 s1 b r1 HC Hl Hn Er) as (Hb & Hsame & Hr).
    destruct (same_auth _ _ Hsame) as (_ & _ & Hh1). cbn in Hh1.
    assert (Hch30 : h_chunk (d_hdr d) < 2^30) by apply (dl_chunk _ _ _ _ _ (sr_dlive _ _ _ _ _ _ _ _ _ _ Hl)).
    assert (Hfo1 : forall c cs', cs = c :: cs' -> frame_opens C dk base (h_chunk (d_hdr d)) i false (gcm_seal C dk (frame_nonce base i) c (frame_word c false)) c).
    { intros c cs' ->. inversion Hcs; subst. split; [assumption|]. split; [rewrite (ok_seal_len C HC); reflexivity|apply (ok_open_seal C HC)]. }
    destruct r1 as [[]|x|]; [| |contradiction].
    2: { destruct Hr as (-> & -> & He & Heof & _). rewrite (read_all_err C ns d1 s1 x He) in Ea. injection Ea as <- <- <-.
         destruct cs as [|c cs].
         - exists [], x, (S (length ns)). split; [exact (shape_err (n :: ns) x Hns)|]. split; [exists 0; rewrite take_0; reflexivity|]. intros _. split; [|reflexivity].
           intros ->. destruct (Heof eq_refl) as (r & Hr & _). cbn [unmarked] in Hr. apply (f_equal len) in Hr. rewrite len_app, len_frame_word in Hr.
           pose proof (len_nonneg r). change (len (@nil byte)) with 0 in Hr. lia.
         - exfalso. cbn [unmarked] in Hl. unfold frame in Hl. rewrite <- app_assoc in Hl. eapply er_read_opens; [exact HC|exact Hl|eapply Hfo1; reflexivity|reflexivity|exact Er]. }
    destruct Hr as (Hbn & [(Hp & -> & Hl1)|[(-> & c & pt & rest' & Hfo & Hrest & -> & Hl1)|(-> & c & pt & tr & rest' & Hfo & Hrest & _)]]).
    + destruct (IH _ _ _ _ _ _ _ _ _ _ _ _ _ Hl1 ltac:(rewrite Hh1; exact Hcs) Hns' Ea) as (pieces & x & m & Hsh & (k & Hc) & Hm).
      exists (take n p :: pieces), x, m. split; [apply shape_cons; auto|].
      change (concat (take n p :: pieces)) with (take n p ++ concat pieces).
      assert (Hpp : forall q, take n p ++ drop n p ++ q = p ++ q) by (intros q; rewrite app_assoc, take_drop; reflexivity).
      split.
      * destruct (take_app_plus (take n p) (drop n p ++ concat cs) k) as (q & Hq). exists q. rewrite Hc, Hq, Hpp. reflexivity.
      * intros Hm0. destruct (Hm Hm0) as [A B]. split; [exact A|]. rewrite B. apply Hpp.
    + destruct cs as [|c0 cs].
      { exfalso. cbn [unmarked] in Hrest. apply (f_equal len) in Hrest. rewrite len_app, len_frame_word in Hrest. pose proof (len_nonneg (c ++ rest')). change (len (@nil byte)) with 0 in Hrest. lia. }
      cbn [unmarked] in Hrest. unfold frame in Hrest. rewrite <- app_assoc in Hrest.
      destruct (frame_split _ _ _ _ _ _ _ _ _ _ _ _ _ Hch30 (Hfo1 _ _ eq_refl) Hfo Hrest) as (_ & <- & <- & <-). inversion Hcs; subst.
      destruct (IH _ _ _ _ _ _ _ _ _ _ _ _ _ Hl1 ltac:(rewrite Hh1; assumption) Hns' Ea) as (pieces & x & m & Hsh & (k & Hc) & Hm).
      exists (take n c0 :: pieces), x, m. split; [apply shape_cons; auto|].
      change (concat (take n c0 :: pieces)) with (take n c0 ++ concat pieces). change (concat (c0 :: cs)) with (c0 ++ concat cs). cbn [app].
      assert (Hpp : forall q, take n c0 ++ drop n c0 ++ q = c0 ++ q) by (intros q; rewrite app_assoc, take_drop; reflexivity).
      split.
      * destruct (take_app_plus (take n c0) (drop n c0 ++ concat cs) k) as (q & Hq). exists q. rewrite Hc, Hq, Hpp. reflexivity.
      * intros Hm0. destruct (Hm Hm0) as [A B]. split; [exact A|]. rewrite B. apply Hpp.
    + exfalso. destruct cs as [|c0 cs].
      { cbn [unmarked] in Hrest. apply (f_equal len) in Hrest. rewrite len_app, len_frame_word in Hrest. pose proof (len_nonneg (c ++ tr ++ rest')). change (len (@nil byte)) with 0 in Hrest. lia. }
      cbn [unmarked] in Hrest. unfold frame in Hrest. rewrite <- app_assoc in Hrest.
      destruct (frame_split _ _ _ _ _ _ _ _ _ _ _ _ _ Hch30 (Hfo1 _ _ eq_refl) Hfo Hrest) as (HH & _). discriminate.
Qed.

(** ** C87 *)
(** of n bytes written, those which are surely out: all full chunks but the one the last byte belongs to *)
Definition surely_out (chunk n : Z) : Z := if n =? 0 then 0 else chunk * ((n - 1) / chunk).

(** As long as all Writes succeeded, and before Close: what is in the destination can be opened by every recipient with the right
    sender key; a stream reader on it returns, with whatever buffer sizes, the bytes written, in order, all but the chunk the last
    byte belongs to; then an error, never the end of the stream. *)
Theorem C87_follow_along :
  forall C, crypto_ok C ->
  forall sender blksize pks g e g', 0 <= blksize < 2^30 -> 1 <= len pks <= 15885 ->
  (forall sk, sender = Some sk -> len (sk_Sk sk) = 64) -> session C sender blksize pks g e g' ->
  forall wr e1 wr1 w1 bs e2 wr2 g2 w2, new_stream_writer C e wr = (e1, wr1, Ok w1) ->
  write_all C e1 wr1 g' w1 bs = (e2, wr2, g2, w2, map (fun b => (len b, Ok tt)) bs) ->
  let data := concat bs in let sure := surely_out (chunk_of blksize) (len data) in
  len data - chunk_of blksize <= sure <= len data /\
  exists so_far, wrote wr wr2 so_far /\
  forall file ef seed pk sk spk, delivers file so_far ef -> In pk pks -> pubof C seed pk -> keypair C seed sk -> sender_matches C sender spk ->
  no_accident C (e_hdr e) seed (e_key e) ->
  exists d d1 r, opened_by C file sk spk d /\ new_stream_reader d = (d1, Ok r) /\
    forall ns d' r' rs, Forall (fun n => 0 < n) ns -> read_all C d1 r ns = (d', r', rs) ->
    exists pieces x m, rs = map (fun b => (b, Ok tt)) pieces ++ repeat ([], Fail x) m /\ prefix_of (concat pieces) (take sure data) /\
      (m <> O -> x <> IoEOF /\ concat pieces = take sure data) /\ (sure < Z.of_nat (length ns) -> m <> O).
Proof.
  intros C HC sender blk pks g e g' Hb Hp Hg Hs wr e1 wr1 w1 bs e2 wr2 g2 w2 H1 H2 data sure.
  pose proof (session_ready _ _ _ _ _ _ _ HC Hg Hs) as Hr. pose proof (few_recipients _ _ _ _ _ HC (proj1 Hb) Hr (proj2 Hp)) as Hl.
  pose proof (new_stream_writer_spec _ _ _ _ _ _ _ _ _ HC Hg (proj1 Hb) Hr ltac:(lia) H1) as (Hla & e0 & Hok & Hch & _).
  destruct (write_all_spec C e0 _ _ _ _ HC bs _ _ _ _ _ _ _ _ _ _ Hok H2) as (Hlb & -> & Hw).
  pose proof (block_size_range blk (proj1 Hb)) as Hbr.
  assert (chunk_of blk = block_size blk) as Hcb.
  { symmetry. apply block_size_chunk. lia. }
  set (c := chunk_of blk) in *.
  destruct Hw as [(_ & fl & Hst & Hne)|(x & pre & b & post & Hbs & _ & Hrs & _)].
  2: { exfalso. rewrite Hbs, map_app in Hrs. apply app_inv_head in Hrs. discriminate. }
  cbn [app] in Hst. fold data in Hst. pose proof Hst as [_ _ _ Sf Sd Sb _ So]. rewrite Hch, <- Hcb in Sf, Sb.
  assert (Hcf : len (concat fl) = c * Z.of_nat (length fl)).
  { clear - Sf. induction Sf as [|y l Hy Sf IH]; [cbn; lia|]. cbn [concat length]. rewrite len_app, IH, Hy. lia. }
  assert (Hdl : len data = c * Z.of_nat (length fl) + len (ew_buf w2)) by (rewrite Sd, len_app, Hcf; reflexivity).
  pose proof (len_nonneg (ew_buf w2)) as Hbn.
  assert (sure = len (concat fl)) as Hsure.
  { unfold sure, surely_out. rewrite Hcf. destruct (Z.eqb_spec (len data) 0) as [E|E].
    - nia.
    - assert (0 < len (ew_buf w2)) as Hpos.
      { destruct fl as [|f fl]; [cbn in Hdl; lia|]. assert (ew_buf w2 <> []) as Hn by (apply Hne; discriminate). apply len_pos in Hn. lia. }
      f_equal. symmetry. apply (Z.div_unique_pos (len data - 1) c _ (len (ew_buf w2) - 1)); lia. }
  assert (Htake : take sure data = concat fl) by (rewrite Hsure, Sd; apply take_app_exact).
  split; [rewrite Hsure, Hcf; lia|].
  exists (full_header (e_hdr e) ++ header_cksum C (e_hdr e) ++ unmarked C (fk_data (keys_of C (e_hdr e) (e_key e))) (fk_base (keys_of C (e_hdr e) (e_key e))) 0 fl).
  split; [unfold wrote; rewrite So, <- !app_assoc; reflexivity|].
  intros file ef seed pk sk spk Hf Hin Hpk Hk Hm Hna.
  destruct (honest_open C HC sender blk pks e Hb Hr Hl seed pk sk spk Hpk Hin Hk (or_introl Hna) Hm _ _ _ Hf) as (d & Hod & Hos & _).
  pose proof Hos as [O1 O2 O3 O4 O5 O6 O7 O8 O9 O10 O11].
  exists d, (d_set_stream d), (mkEr 0 0 0 None). split; [exact Hod|]. split; [unfold new_stream_reader; rewrite O6, O9; reflexivity|].
  intros ns d' r' rs Hns H. cbv zeta in O7. fold (keys_of C (e_hdr e) (e_key e)) in O7. set (fk := keys_of C (e_hdr e) (e_key e)) in *.
  assert (sr_live (d_set_stream d) (mkEr 0 0 0 None) [] (fk_data fk) (fk_base fk) (fk_mac fk) [] 0 (unmarked C (fk_data fk) (fk_base fk) 0 fl) ef) as L.
  { constructor; cbn; auto.
    - constructor; cbn; auto; [lia|rewrite drop_0, take_0; reflexivity].
    - destruct O7. constructor; cbn; auto. }
  assert (Forall (fun c => 0 < len c <= h_chunk (d_hdr (d_set_stream d))) fl) as Hfl.
  { cbn [d_hdr d_set_stream]. rewrite O5, (rd_chunk _ _ _ _ _ Hr), <- Hcb. eapply Forall_impl; [|exact Sf]. intros y Hy. cbn in Hy. lia. }
  assert (Forall (fun n => 0 <= n) ns) as Hns0 by (eapply Forall_impl; [|exact Hns]; intros; cbn in *; lia).
  destruct (read_all_follow C ns HC _ _ _ _ _ _ _ _ _ _ _ _ _ L Hfl Hns0 H) as (pieces & x & m & Hsh & (k & Hk2) & Hm2). cbn [app] in Hk2, Hm2.
  exists pieces, x, m. rewrite Htake. split; [exact (proj1 Hsh)|]. split; [exists (drop k (concat fl)); rewrite Hk2, take_drop; reflexivity|]. split; [exact Hm2|].
  intros Hlong Hm0. subst m. destruct Hsh as [Hrs Hf2]. cbn [repeat] in Hrs. rewrite app_nil_r in Hrs.
  assert (length pieces = length ns) as Hlen. { apply forall2_length in Hf2. rewrite Hrs, map_length in Hf2. symmetry. exact Hf2. }
  assert (read_shape ns rs pieces x O) as Hsh2 by (split; [cbn [repeat]; rewrite app_nil_r; exact Hrs|exact Hf2]).
  pose proof (pieces_short _ _ _ _ _ Hsh2 Hns) as Hps. rewrite Hlen in Hps.
  pose proof (len_take_ub2 k (concat fl)). rewrite <- Hk2 in H0. lia.
Qed.
Print Assumptions C87_follow_along.

(** the session of Scene.v, chunks of four bytes: three Writes of eleven bytes in all, no Close; a recipient reads eight of them, then an error *)
Definition writes1 : list bytes := [str "hello"; str " wor"; str "ld"].
Definition so_far1 : bytes := Eval vm_compute in
  match new_stream_writer toy e1 sink with
  | (e, w, Ok s) => match write_all toy e w g1 s writes1 with (_, w2, _, _, _) => w_out w2 end
  | _ => []
  end.
Definition premature : goerr := EMsg "decrypt: premature EOF while reading header block".
Example C87_instance :
  (exists ea wa sa eb wb gb sb, new_stream_writer toy e1 sink = (ea, wa, Ok sa) /\
     write_all toy ea wa g1 sa writes1 = (eb, wb, gb, sb, map (fun b => (len b, Ok tt)) writes1) /\ wrote sink wb so_far1) /\
  session toy (Some skS) 4 [pkA; pkB] g0 e1 g1 /\ no_accident toy (e_hdr e1) seedB (e_key e1) /\
  surely_out (chunk_of 4) (len (concat writes1)) = 8 /\
  streamed so_far1 skB (Some pkS) [3; 3; 3; 3; 3; 3] =
    Some [(str "hel", Ok tt); (str "l", Ok tt); (str "o w", Ok tt); (str "o", Ok tt); ([], Fail premature); ([], Fail premature)].
Proof.
  split.
  { destruct (new_stream_writer toy e1 sink) as [[ea wa] [sa|x|x]] eqn:E1; [|vm_compute in E1; discriminate|vm_compute in E1; discriminate].
    destruct (write_all toy ea wa g1 sa writes1) as [[[[eb wb] gb] sb] rs] eqn:E2. exists ea, wa, sa, eb, wb, gb, sb. split; [reflexivity|].
    vm_compute in E1. injection E1 as <- <- <-. vm_compute in E2. injection E2 as <- <- <- <- <-. split; [vm_compute; reflexivity|]. vm_compute. reflexivity. }
  split; [exact session1|]. split; [exact na1B|]. split; [vm_compute; reflexivity|]. vm_compute. reflexivity.
Qed.
