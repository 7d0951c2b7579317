(** Proofs about Decrypt.v *)
From Verif Require Import Bytes BytesLemmas GoErr GoIO SpecIO IOProofs Pb SpecPb PbProofs Crypto CryptoLaws Keys Sign
  Encrypt Decrypt Spec EncryptProofs.
Require Import ZifyBool.
Ltac Zify.zify_post_hook ::= Z.div_mod_to_equations.
Local Notation length := List.length.

(** ** the length word *)
Lemma land_eof x : 0 <= x < 2^32 -> (0 <? Z.land x eof_bit) = (2^31 <=? x).
Proof.
  intros H. unfold eof_bit.
  assert (Hl : Z.land x (2^31) = if 2^31 <=? x then 2^31 else 0).
  { apply Z.bits_inj'. intros n Hn. rewrite Z.land_spec, Z.pow2_bits_eqb by lia.
    assert (Ht : Z.testbit x 31 = (2^31 <=? x)).
    { rewrite Z.testbit_odd, Z.shiftr_div_pow2 by lia.
      destruct (Z.leb_spec (2^31) x).
      - replace (x / 2^31) with 1 by lia. reflexivity.
      - replace (x / 2^31) with 0 by lia. reflexivity. }
    destruct (Z.eqb_spec 31 n) as [<-|Hne].
    - rewrite andb_true_r, Ht. destruct (2^31 <=? x); [rewrite Z.pow2_bits_true by lia|rewrite Z.bits_0]; reflexivity.
    - rewrite andb_false_r. destruct (2^31 <=? x); [rewrite Z.pow2_bits_false by lia|rewrite Z.bits_0]; reflexivity. }
  rewrite Hl. destruct (2^31 <=? x); reflexivity.
Qed.
Lemma land_low x : Z.land x (eof_bit - 1) = x mod 2^31.
Proof. unfold eof_bit. change (2^31 - 1) with (Z.ones 31). apply Z.land_ones. lia. Qed.

Lemma word_decode b : len b = 4 ->
  let m := Z.land (unbe32 b) (eof_bit - 1) in let eof := 0 <? Z.land (unbe32 b) eof_bit in
  0 <= m < 2^31 /\ b = be32 (m + if eof then 2147483648 else 0).
Proof.
  intros H. cbv zeta. pose proof (unbe32_range b). rewrite land_low, land_eof by lia. split; [lia|].
  rewrite <- (be32_unbe32 b H) at 1. f_equal.
  destruct (Z.leb_spec (2^31) (unbe32 b)); lia.
Qed.
Lemma word_encode pt last : len pt < 2^31 ->
  Z.land (unbe32 (frame_word pt last)) (eof_bit - 1) = len pt /\ (0 <? Z.land (unbe32 (frame_word pt last)) eof_bit) = last.
Proof.
  intros H. pose proof (len_nonneg pt). unfold frame_word. rewrite unbe32_be32'.
  set (L := len pt) in *. clearbody L.
  destruct last.
  - rewrite Z.mod_small by lia. rewrite land_low, land_eof by lia.
    split; [|lia]. rewrite Z.mod_eq by lia. replace ((L + 2147483648) / 2^31) with 1 by lia. lia.
  - rewrite Z.add_0_r, Z.mod_small by lia. rewrite land_low, land_eof by lia.
    split; [apply Z.mod_small; lia|lia].
Qed.
Lemma len_frame_word pt last : len (frame_word pt last) = 4.
Proof. apply len_be32. Qed.

(** ** a decryptor with its keys set *)
Record dlive (d : decryptor) (dk base hk hd : bytes) : Prop := {
  dl_ae : d_ae d = Some dk;
  dl_nonce : d_nonce d = base;
  dl_base : len base = 12;
  dl_hmac : d_hmac d = Some (hk, hd);
  dl_chunk : 1 <= h_chunk (d_hdr d) < 2^30;
  dl_buflen : d_buflen d = h_chunk (d_hdr d) + 16;
  dl_key : d_key d <> None;
  dl_auth : d_auth d = true -> exists pk, d_sender d = Some pk /\ len (pk_Pk pk) = 32 }.

Lemma dlive_with d dk base hk hd hd' r buf : dlive d dk base hk hd ->
  dlive (d_with d (Some (hk, hd')) r buf) dk base hk hd'.
Proof. intros []. constructor; cbn; auto. Qed.
Lemma dlive_same d dk base hk hd r buf : dlive d dk base hk hd -> dlive (d_with d (d_hmac d) r buf) dk base hk hd.
Proof. intros H. rewrite (dl_hmac _ _ _ _ _ H). eapply dlive_with. exact H. Qed.

(** only these three parts of a decryptor change while reading chunks *)
Definition same_dec (d d' : decryptor) : Prop := d' = d_with d (d_hmac d') (d_rd d') (d_buf d').
Lemma same_with d hm r buf : same_dec d (d_with d hm r buf).
Proof. reflexivity. Qed.
Lemma same_refl d : same_dec d d.
Proof. destruct d; reflexivity. Qed.
Lemma same_trans a b c : same_dec a b -> same_dec b c -> same_dec a c.
Proof. unfold same_dec. intros -> H. rewrite H. reflexivity. Qed.

(** what the trailer is required to satisfy *)
Definition dec_trailer_ok (C : crypto) (d : decryptor) (hk : bytes) (data tr : bytes) : Prop :=
  d_auth d = true -> exists pk, d_sender d = Some pk /\ signed_by C (pk_Pk pk) (hmac_sha256 C hk data) tr.

Lemma take_buf_put got buf : take (len got) (buf_put got buf) = got.
Proof. unfold buf_put. apply take_app_exact. Qed.

Lemma process_trailer_spec C d dk base hk hd m s er d' rs : dlive d dk base hk hd -> delivers (d_rd d) s er ->
  process_trailer C d m = (d', rs) ->
  same_dec d d' /\ d_buf d' = d_buf d /\ dlive d' dk base hk hd /\
  match rs with
  | Ok r => r = (m, true) /\ exists tr rest, s = tr ++ rest /\ len tr = 64 /\ dec_trailer_ok C d hk hd tr /\
            delivers (d_rd d') rest er
  | Fail _ => True
  | Panic _ => False
  end.
Proof.
  intros Hl Hd H. unfold process_trailer in H. change sig_size with 64 in *.
  destruct (Z.leb_spec 64 (len s)) as [Hs|Hs].
  - destruct (read_full_ok _ _ _ 64 Hd ltac:(lia) Hs) as (r1 & Er & Hd1). rewrite Er in H. cbv beta iota zeta in H.
    assert (Hsp : s = take 64 s ++ drop 64 s) by (symmetry; apply take_drop).
    assert (Hlt : len (take 64 s) = 64) by (apply len_take_le; lia).
    destruct (d_auth d) eqn:Ea; cbn [negb] in H.
    + destruct (dl_auth _ _ _ _ _ Hl Ea) as (pk & Hpk & Hlen). rewrite (dl_hmac _ _ _ _ _ Hl), Hpk in H.
      unfold verify_message, Ed_Verify in H. rewrite Hlen in H. cbn [negb Z.eqb Pos.eqb sig_Sig] in H.
      rewrite Hlt in H. cbn [Z.eqb Pos.eqb] in H.
      destruct (ed_verify C (pk_Pk pk) (msg_digest C (hmac_sha256 C hk hd)) (take 64 s)) eqn:Ev; injection H as <- <-.
      * split; [apply same_with|]. split; [reflexivity|]. split; [eapply dlive_with; exact Hl|].
        split; [reflexivity|]. exists (take 64 s), (drop 64 s). repeat split; auto.
        intros _. exists pk. split; [exact Hpk|]. split; [exact Hlt|exact Ev].
      * split; [apply same_with|]. split; [reflexivity|]. split; [eapply dlive_with; exact Hl|exact I].
    + injection H as <- <-. split; [apply same_with|]. split; [reflexivity|]. split; [eapply dlive_same; exact Hl|].
      split; [reflexivity|]. exists (take 64 s), (drop 64 s). repeat split; auto.
      intros Hx. congruence.
  - destruct (read_full_short _ _ _ 64 Hd ltac:(lia) Hs) as (r1 & Er). rewrite Er in H. cbv beta iota zeta in H.
    injection H as <- <-. split; [apply same_with|]. split; [reflexivity|]. split; [eapply dlive_same; exact Hl|exact I].
Qed.

Lemma dec_chunk_spec C d dk base hk hd i s er d' rs : crypto_ok C ->
  dlive d dk base hk hd -> delivers (d_rd d) s er -> dec_chunk C d i = (d', rs) ->
  same_dec d d' /\
  match rs with
  | Ok (m, eof) =>
      (m = 0 /\ eof = true /\ dlive d' dk base hk hd /\
         exists rest, s = frame_word [] true ++ rest /\ delivers (d_rd d') rest er) \/
      (exists c pt, frame_opens C dk base (h_chunk (d_hdr d)) i eof c pt /\ m = len pt /\ take m (d_buf d') = pt /\
         dlive d' dk base hk (hd ++ frame_word pt eof ++ pt) /\
         exists rest, s = frame_word pt eof ++ c ++ rest /\
           if eof then exists tr rest3, rest = tr ++ rest3 /\ len tr = 64 /\
                         dec_trailer_ok C d hk (hd ++ frame_word pt eof ++ pt) tr /\ delivers (d_rd d') rest3 er
           else delivers (d_rd d') rest er)
  | Fail _ => exists hd', dlive d' dk base hk hd'
  | Panic _ => False
  end.
Proof.
  intros HC Hl Hd H. unfold dec_chunk in H. rewrite (dl_ae _ _ _ _ _ Hl) in H.
  destruct (Z.leb_spec 4 (len s)) as [Hs|Hs].
  2: { destruct (read_full_short _ _ _ 4 Hd ltac:(lia) Hs) as (r1 & Er). rewrite Er in H. cbv beta iota zeta in H.
       cbn [orb] in H. injection H as <- <-. split; [apply same_with|]. exists hd. eapply dlive_same; exact Hl. }
  destruct (read_full_ok _ _ _ 4 Hd ltac:(lia) Hs) as (r1 & Er & Hd1). rewrite Er in H. cbv beta iota zeta in H.
  set (b := take 4 s) in *.
  assert (Hb : len b = 4) by (apply len_take_le; lia). rewrite Hb in H. cbn [orb Z.eqb] in H.
  assert (Hsb : s = b ++ drop 4 s) by (symmetry; apply take_drop).
  destruct (word_decode b Hb) as (Hm & Hbw). cbv zeta in Hm, Hbw.
  set (m := Z.land (unbe32 b) (eof_bit - 1)) in *. set (eof := 0 <? Z.land (unbe32 b) eof_bit) in *.
  destruct (Z.ltb_spec (h_chunk (d_hdr d)) m) as [Hbig|Hbig].
  { injection H as <- <-. split; [apply same_with|]. exists hd. eapply dlive_same; exact Hl. }
  destruct (Z.eqb_spec m 0) as [Hm0|Hm0].
  { destruct eof eqn:Ee; cbn [negb] in H; injection H as <- <-; (split; [apply same_with|]).
    - left. split; [reflexivity|]. split; [reflexivity|]. split; [eapply dlive_same; exact Hl|].
      exists (drop 4 s). split; [|exact Hd1]. rewrite Hsb at 1. f_equal. rewrite Hbw, Hm0. reflexivity.
    - exists hd. eapply dlive_same; exact Hl. }
  rewrite (dl_nonce _ _ _ _ _ Hl), chunk_nonce_spec in H by apply (dl_base _ _ _ _ _ Hl).
  pose proof (dl_chunk _ _ _ _ _ Hl) as Hch.
  assert (Hz : u32 (m + gcm_overhead) = m + 16) by (unfold u32, gcm_overhead; apply Z.mod_small; lia).
  rewrite Hz, (dl_buflen _ _ _ _ _ Hl) in H.
  destruct (Z.ltb_spec (h_chunk (d_hdr d) + 16) (m + 16)); [lia|].
  destruct (Z.leb_spec (m + 16) (len (drop 4 s))) as [Hs2|Hs2].
  2: { destruct (read_full_short _ _ _ (m + 16) Hd1 ltac:(lia) Hs2) as (r2 & Er2). rewrite Er2 in H. cbv beta iota zeta in H.
       injection H as <- <-. split; [apply same_with|]. exists hd. eapply dlive_same; exact Hl. }
  destruct (read_full_ok _ _ _ (m + 16) Hd1 ltac:(lia) Hs2) as (r2 & Er2 & Hd2). rewrite Er2 in H. cbv beta iota zeta in H.
  set (c := take (m + 16) (drop 4 s)) in *.
  assert (Hc : len c = m + 16) by (apply len_take_le; lia).
  assert (Hsc : s = b ++ c ++ drop (m + 16) (drop 4 s)).
  { rewrite Hsb at 1. f_equal. symmetry. apply take_drop. }
  destruct (gcm_open C dk (frame_nonce base i) c b) as [pt|] eqn:Eo.
  2: { injection H as <- <-. split; [apply same_with|]. exists hd. eapply dlive_same; exact Hl. }
  assert (Hpt : len pt = m).
  { apply (ok_open_tidy C HC) in Eo. rewrite Eo, (ok_seal_len C HC) in Hc. unfold gcm_overhead in Hc. lia. }
  assert (Hu : u32 (len pt) = m) by (unfold u32; rewrite Hpt; apply Z.mod_small; lia).
  rewrite Hu, Z.eqb_refl in H. cbn [negb] in H. rewrite (dl_hmac _ _ _ _ _ Hl) in H.
  assert (Hw : b = frame_word pt eof) by (unfold frame_word; rewrite Hpt; exact Hbw).
  assert (Hfo : frame_opens C dk base (h_chunk (d_hdr d)) i eof c pt).
  { split; [lia|]. split; [lia|]. rewrite <- Hw. exact Eo. }
  cbn [d_buf d_with] in H. set (buf' := buf_put pt _) in H.
  set (d3 := d_with d (Some (hk, hd ++ b ++ pt)) r2 buf') in H.
  assert (Hl3 : dlive d3 dk base hk (hd ++ b ++ pt)) by (eapply dlive_with; exact Hl).
  assert (Htk : take m buf' = pt) by (unfold buf'; rewrite <- Hpt; apply take_buf_put).
  destruct eof eqn:Ee.
  - pose proof (process_trailer_spec C d3 dk base hk _ m _ _ _ _ Hl3 Hd2 H) as (Hs3 & Hb3 & Hl4 & Ht).
    split; [eapply same_trans; [apply same_with|exact Hs3]|].
    destruct rs as [[m' e']|x|]; [|eauto|exact Ht].
    destruct Ht as (Hr & tr & rest3 & Hrest & Htr & Hok & Hd3). injection Hr as -> ->.
    right. exists c, pt. split; [exact Hfo|]. split; [auto|]. split; [rewrite Hb3; exact Htk|].
    rewrite <- Hw. split; [exact Hl4|]. eexists. split; [exact Hsc|].
    exists tr, rest3. repeat split; auto.
  - injection H as <- <-. split; [apply same_with|]. right. exists c, pt. split; [exact Hfo|]. split; [auto|].
    split; [exact Htk|]. rewrite <- Hw. split; [exact Hl3|]. eexists. split; [exact Hsc|exact Hd2].
Qed.

(** ** Decrypt accepts exactly the [accepted] streams *)
Lemma dec_loop_S C fuel d w i : dec_loop C (S fuel) d w i =
      match dec_chunk C d i with
      | (d, Ok (m, eof)) =>
          let c := take m (d_buf d) in
          let '(err, w) := if 0 <? m then fullwrite c w else (None, w) in
          match err with
          | Some x => (d, w, Fail (EWrap "decrypt" x))
          | None => if eof then (d_set_eof d true, w, Ok tt) else dec_loop C fuel d w (u32 (i + 1))
          end
      | (d, Fail x) => (d, w, Fail x)
      | (d, Panic p) => (d, w, Panic p)
      end.
Proof. reflexivity. Qed.

Lemma frame_opens_u32 C dk base chunk i last c pt :
  frame_opens C dk base chunk (u32 i) last c pt <-> frame_opens C dk base chunk i last c pt.
Proof. unfold frame_opens. rewrite frame_nonce_u32. tauto. Qed.
Lemma accepted_be32 C dk base chunk tok : forall j m s outs rest, accepted C dk base chunk tok j m s outs rest ->
     forall i, be32 i = be32 j -> accepted C dk base chunk tok i m s outs rest.
Proof.
  { clear; induction 1 as [j m rest|j m c pt tr rest Hf Ht Hk|j m c pt s outs rest Hf Ha IH]; intros i' Hi.
    - constructor.
    - constructor; auto. unfold frame_opens, frame_nonce in *. rewrite Hi. exact Hf.
    - constructor.
      + unfold frame_opens, frame_nonce in *. rewrite Hi. exact Hf.
      + apply IH. rewrite <- (be32_mod (i' + 1)), <- (be32_mod (j + 1)).
        f_equal. assert (Hmod : i' mod 2^32 = j mod 2^32).
        { rewrite <- (unbe32_be32' i'), <- (unbe32_be32' j), Hi. reflexivity. }
        rewrite <- (Zplus_mod_idemp_l i'), <- (Zplus_mod_idemp_l j), Hmod. reflexivity. }
Qed.
Lemma accepted_u32 C dk base chunk tok i m s outs rest :
  accepted C dk base chunk tok (u32 i) m s outs rest -> accepted C dk base chunk tok i m s outs rest.
Proof. intros H. eapply accepted_be32; [exact H|]. symmetry. apply be32_u32. Qed.
Lemma accepted_u32' C dk base chunk tok i m s outs rest :
  accepted C dk base chunk tok i m s outs rest -> accepted C dk base chunk tok (u32 i) m s outs rest.
Proof. intros H. eapply accepted_be32; [exact H|]. apply be32_u32. Qed.
Lemma opened_u32 C dk base chunk i s outs :
  opened C dk base chunk (u32 i) s outs -> opened C dk base chunk i s outs.
Proof.
  assert (G : forall j s outs, opened C dk base chunk j s outs ->
     forall i, be32 i = be32 j -> opened C dk base chunk i s outs).
  { clear; induction 1 as [j s|j c pt s Hf|j c pt s outs Hf Ha IH]; intros i' Hi.
    - constructor.
    - constructor; auto. unfold frame_opens, frame_nonce in *. rewrite Hi. exact Hf.
    - constructor.
      + unfold frame_opens, frame_nonce in *. rewrite Hi. exact Hf.
      + apply IH. rewrite <- (be32_mod (i' + 1)), <- (be32_mod (j + 1)).
        f_equal. assert (Hmod : i' mod 2^32 = j mod 2^32).
        { rewrite <- (unbe32_be32' i'), <- (unbe32_be32' j), Hi. reflexivity. }
        rewrite <- (Zplus_mod_idemp_l i'), <- (Zplus_mod_idemp_l j), Hmod. reflexivity. }
  intros H. eapply G; [exact H|]. symmetry. apply be32_u32.
Qed.

Lemma same_auth d d' : same_dec d d' -> d_auth d' = d_auth d /\ d_sender d' = d_sender d /\ d_hdr d' = d_hdr d.
Proof. unfold same_dec. intros ->. auto. Qed.

(** the forward direction for one frame *)
Lemma dec_chunk_bare C d dk base hk hd i s er : dlive d dk base hk hd ->
  delivers (d_rd d) (frame_word [] true ++ s) er -> exists d', dec_chunk C d i = (d', Ok (0, true)).
Proof.
  intros Hl Hd. unfold dec_chunk. rewrite (dl_ae _ _ _ _ _ Hl).
  destruct (read_full_ok _ _ _ 4 Hd ltac:(lia)) as (r1 & Er & Hd1).
  { rewrite len_app, len_frame_word. pose proof (len_nonneg s). lia. }
  rewrite Er. cbv beta iota zeta. rewrite take_app_eq by reflexivity.
  rewrite len_frame_word. cbn [orb Z.eqb].
  destruct (word_encode [] true ltac:(cbn; lia)) as [-> ->]. change (len (@nil byte)) with 0.
  pose proof (dl_chunk _ _ _ _ _ Hl).
  destruct (Z.ltb_spec (h_chunk (d_hdr d)) 0); [lia|]. cbn. eauto.
Qed.

Lemma process_trailer_ok C d dk base hk hd m tr s er : dlive d dk base hk hd ->
  delivers (d_rd d) (tr ++ s) er -> len tr = 64 -> dec_trailer_ok C d hk hd tr ->
  exists d', process_trailer C d m = (d', Ok (m, true)).
Proof.
  intros Hl Hd Htr Hok. unfold process_trailer. change sig_size with 64.
  destruct (read_full_ok _ _ _ 64 Hd ltac:(lia)) as (r1 & Er & Hd1).
  { rewrite len_app. pose proof (len_nonneg s). lia. }
  rewrite Er. cbv beta iota zeta. rewrite take_app_eq by auto.
  destruct (d_auth d) eqn:Ea; cbn [negb]; [|eauto].
  destruct (Hok Ea) as (pk & Hpk & Hlen & Hv).
  destruct (dl_auth _ _ _ _ _ Hl Ea) as (pk2 & Hpk2 & Hlen2). rewrite (dl_hmac _ _ _ _ _ Hl), Hpk.
  rewrite Hpk in Hpk2. injection Hpk2 as <-.
  unfold verify_message, Ed_Verify. rewrite Hlen2. cbn [negb Z.eqb Pos.eqb sig_Sig].
  rewrite Hlen. cbn [Z.eqb Pos.eqb]. unfold msg_digest. rewrite Hv. eauto.
Qed.

Lemma dec_chunk_frame C d dk base hk hd i eof c pt s er : dlive d dk base hk hd ->
  frame_opens C dk base (h_chunk (d_hdr d)) i eof c pt ->
  delivers (d_rd d) (frame_word pt eof ++ c ++ s) er ->
  (eof = true -> exists tr rest, s = tr ++ rest /\ len tr = 64 /\ dec_trailer_ok C d hk (hd ++ frame_word pt true ++ pt) tr) ->
  exists d', dec_chunk C d i = (d', Ok (len pt, eof)).
Proof.
  intros Hl (Hlen & Hc & Ho) Hd Ht. unfold dec_chunk. rewrite (dl_ae _ _ _ _ _ Hl).
  pose proof (dl_chunk _ _ _ _ _ Hl) as Hch. pose proof (len_nonneg s).
  destruct (read_full_ok _ _ _ 4 Hd ltac:(lia)) as (r1 & Er & Hd1).
  { rewrite !len_app, len_frame_word. lia. }
  rewrite Er. cbv beta iota zeta. rewrite take_app_eq by reflexivity. rewrite drop_app_eq in Hd1 by reflexivity.
  rewrite len_frame_word. cbn [orb Z.eqb].
  destruct (word_encode pt eof ltac:(lia)) as [-> ->].
  destruct (Z.ltb_spec (h_chunk (d_hdr d)) (len pt)); [lia|].
  destruct (Z.eqb_spec (len pt) 0); [lia|].
  rewrite (dl_nonce _ _ _ _ _ Hl), chunk_nonce_spec by apply (dl_base _ _ _ _ _ Hl).
  assert (Hz : u32 (len pt + gcm_overhead) = len pt + 16) by (unfold u32, gcm_overhead; apply Z.mod_small; lia).
  rewrite Hz, (dl_buflen _ _ _ _ _ Hl).
  destruct (Z.ltb_spec (h_chunk (d_hdr d) + 16) (len pt + 16)); [lia|].
  destruct (read_full_ok _ _ _ (len pt + 16) Hd1 ltac:(lia)) as (r2 & Er2 & Hd2).
  { rewrite !len_app. lia. }
  rewrite Er2. cbv beta iota zeta. rewrite take_app_eq, Ho by auto. rewrite drop_app_eq in Hd2 by auto.
  assert (Hu : u32 (len pt) = len pt) by (unfold u32; apply Z.mod_small; lia).
  rewrite Hu, Z.eqb_refl. cbn [negb]. rewrite (dl_hmac _ _ _ _ _ Hl).
  destruct eof; [|eauto].
  destruct (Ht eq_refl) as (tr & rest & -> & Htr & Hok).
  eapply process_trailer_ok; [eapply dlive_with; exact Hl|exact Hd2|exact Htr|exact Hok].
Qed.

Lemma frame_word_inj pt pt' l l' : len pt < 2^31 -> len pt' < 2^31 ->
  frame_word pt l = frame_word pt' l' -> len pt = len pt' /\ l = l'.
Proof.
  intros H1 H2 H. destruct (word_encode pt l H1) as [A B]. destruct (word_encode pt' l' H2) as [A' B'].
  rewrite H in A, B. split; congruence.
Qed.
Lemma frame_split C dk base chunk i l l' c c' pt pt' s s' : chunk < 2^30 ->
  frame_opens C dk base chunk i l c pt -> frame_opens C dk base chunk i l' c' pt' ->
  frame_word pt l ++ c ++ s = frame_word pt' l' ++ c' ++ s' -> l = l' /\ c = c' /\ pt = pt' /\ s = s'.
Proof.
  intros Hch (H1 & H2 & H3) (H1' & H2' & H3') H.
  apply app_inj_len in H; [|reflexivity]. destruct H as [Hw H].
  destruct (frame_word_inj pt pt' l l' ltac:(lia) ltac:(lia) Hw) as [Hlen ->].
  apply app_inj_len in H; [|lia]. destruct H as [-> ->].
  rewrite Hw in H3. rewrite H3 in H3'. injection H3' as ->. auto.
Qed.
Lemma frame_not_bare C dk base chunk i l c pt s s' : chunk < 2^30 -> frame_opens C dk base chunk i l c pt ->
  frame_word [] true ++ s = frame_word pt l ++ c ++ s' -> False.
Proof.
  intros Hch (H1 & H2 & H3) H.
  apply app_inj_len in H; [|reflexivity]. destruct H as [Hw H].
  destruct (frame_word_inj [] pt true l ltac:(cbn; lia) ltac:(lia) Hw) as [Hlen _]. change (len (@nil byte)) with 0 in Hlen. lia.
Qed.

Lemma accepted_inv C dk base chunk tok i m s outs rest : accepted C dk base chunk tok i m s outs rest ->
  (s = frame_word [] true ++ rest /\ outs = []) \/
  (exists c pt tr, frame_opens C dk base chunk i true c pt /\ len tr = 64 /\ tok (m ++ frame_word pt true ++ pt) tr /\
     s = frame_word pt true ++ c ++ tr ++ rest /\ outs = [pt]) \/
  (exists c pt s' outs', frame_opens C dk base chunk i false c pt /\
     accepted C dk base chunk tok (i + 1) (m ++ frame_word pt false ++ pt) s' outs' rest /\
     s = frame_word pt false ++ c ++ s' /\ outs = pt :: outs').
Proof.
  destruct 1.
  - left. auto.
  - right. left. exists c, pt, tr. auto.
  - right. right. exists c, pt, s, outs. auto.
Qed.
Lemma dec_loop_spec C : crypto_ok C -> forall fuel d w i dk base hk hd s er d' w' rs,
  dlive d dk base hk hd -> delivers (d_rd d) s er -> len s < Z.of_nat fuel ->
  dec_loop C fuel d w i = (d', w', rs) ->
  later w w' /\
  (exists outs k, opened C dk base (h_chunk (d_hdr d)) i s outs /\ w_out w' = w_out w ++ take k (concat outs)) /\
  match rs with
  | Ok _ => d_eof d' = true /\ exists outs rest,
      accepted C dk base (h_chunk (d_hdr d)) (dec_trailer_ok C d hk) i hd s outs rest /\
      w_out w' = w_out w ++ concat outs /\ delivers (d_rd d') rest er
  | Fail x => (exists m y, In (m, Some y) (w_sched w) /\ cause x = cause y) \/
              ~ (exists outs rest, accepted C dk base (h_chunk (d_hdr d)) (dec_trailer_ok C d hk) i hd s outs rest)
  | Panic _ => False
  end.
Proof.
  intros HC. induction fuel as [|fuel IH]; intros d w i dk base hk hd s er d' w' rs Hl Hd Hf H.
  { pose proof (len_nonneg s). lia. }
  rewrite dec_loop_S in H. destruct (dec_chunk C d i) as [d1 r1] eqn:Ec.
  pose proof (dec_chunk_spec C d dk base hk hd i s er d1 r1 HC Hl Hd Ec) as (Hsame & Hc).
  destruct (same_auth _ _ Hsame) as (Ha1 & Hs1 & Hh1).
  destruct r1 as [[m eof]|x|]; [| |contradiction].
  pose proof (proj2 (dl_chunk _ _ _ _ _ Hl)) as Hch30.
  2: { injection H as <- <- <-. split; [apply later_refl|]. split.
       { exists [], 0. split; [constructor|]. rewrite take_0, app_nil_r. reflexivity. }
       right. intros (outs & rest & Ha).
       destruct (accepted_inv _ _ _ _ _ _ _ _ _ _ Ha) as [(-> & ->)|[(c & pt & tr & Hfo & Htr & Hok & -> & ->)|(c & pt & s0 & outs0 & Hfo & Ha0 & -> & ->)]].
       - edestruct dec_chunk_bare as (dx & Hx); [exact Hl|eassumption|]. rewrite Hx in Ec. discriminate.
       - edestruct (dec_chunk_frame C d dk base hk hd i true) as (dx & Hx); [exact Hl|exact Hfo|eassumption| |].
         { intros _. exists tr, rest. auto. }
         rewrite Hx in Ec. discriminate.
       - edestruct (dec_chunk_frame C d dk base hk hd i false) as (dx & Hx); [exact Hl|exact Hfo|eassumption| |].
         { intros HH; discriminate HH. }
         rewrite Hx in Ec. discriminate. }
  cbv zeta in H.
  destruct Hc as [(-> & -> & Hl1 & rest & Hs & Hd1)|(c & pt & Hfo & Hm & Htk & Hl1 & rest & Hs & Hrest)].
  - cbn [Z.ltb Z.compare] in H. injection H as <- <- <-. split; [apply later_refl|]. split.
    { exists [], 0. split; [constructor|]. rewrite take_0, app_nil_r. reflexivity. }
    split; [reflexivity|]. exists [], rest. split; [rewrite Hs; constructor|]. split; [cbn; rewrite app_nil_r; reflexivity|exact Hd1].
  - rewrite Htk in H. assert (Hm0 : (0 <? m) = true) by (destruct Hfo; lia). rewrite Hm0 in H.
    destruct (fullwrite pt w) as [[x|] w1] eqn:Ew.
    { injection H as <- <- <-. destruct (fullwrite_Some _ _ _ _ Ew) as ((k & Hk) & (q & Hq) & Hlw).
      split; [exact Hlw|]. split.
      - exists [pt], k. split; [|cbn; rewrite app_nil_r; exact Hk].
        rewrite Hs. destruct eof; [constructor; exact Hfo|]. constructor; [exact Hfo|constructor].
      - left. exists q, x. auto. }
    destruct (fullwrite_None _ _ _ Ew) as (Hw1 & Hlw).
    destruct eof.
    + injection H as <- <- <-. destruct Hrest as (tr & rest3 & -> & Htr & Htok & Hd3).
      split; [exact Hlw|]. split.
      { exists [pt], (len pt). split; [rewrite Hs; constructor; exact Hfo|]. cbn. rewrite app_nil_r, take_all by lia. exact Hw1. }
      split; [reflexivity|]. exists [pt], rest3. split; [rewrite Hs; apply ac_last; assumption|].
      split; [cbn; rewrite app_nil_r; exact Hw1|exact Hd3].
    + assert (Hf1 : len rest < Z.of_nat fuel).
      { rewrite Hs, !len_app, len_frame_word in Hf. pose proof (len_nonneg c). lia. }
      specialize (IH _ _ _ _ _ _ _ _ _ _ _ _ Hl1 Hrest Hf1 H). rewrite Hh1 in IH.
      destruct IH as (Hlw2 & (outs & k & Ho & Hk) & IH). split; [eapply later_trans; eassumption|]. split.
      { destruct (take_app_plus pt (concat outs) k) as (q & Hq). exists (pt :: outs), q.
        split; [rewrite Hs; constructor; [exact Hfo|apply opened_u32; exact Ho]|].
        cbn [List.concat]. rewrite <- Hq, Hk, Hw1, <- app_assoc. reflexivity. }
      destruct rs as [u|x|]; [| |exact IH].
      2: { destruct IH as [(q & y & Hin & Hy)|Hn]; [left; exists q, y; split; [eapply later_In; eassumption|exact Hy]|].
           right. intros (outs2 & rest2 & Ha). apply Hn. rewrite Hs in Ha.
           destruct (accepted_inv _ _ _ _ _ _ _ _ _ _ Ha) as [(Hsx & ->)|[(c2 & pt2 & tr & Hfo2 & Htr & Hok & Hsx & ->)|(c2 & pt2 & s0 & outs0 & Hfo2 & Ha0 & Hsx & ->)]].
           - exfalso. eapply (frame_not_bare C dk base); [exact Hch30|exact Hfo|symmetry; exact Hsx].
           - destruct (frame_split _ _ _ _ _ _ _ _ _ _ _ _ _ Hch30 Hfo Hfo2 Hsx) as (Hb & _). discriminate.
           - destruct (frame_split _ _ _ _ _ _ _ _ _ _ _ _ _ Hch30 Hfo Hfo2 Hsx) as (_ & <- & <- & <-).
             exists outs0, rest2. apply accepted_u32'.
             unfold dec_trailer_ok in *. rewrite Ha1, Hs1. exact Ha0. }
      destruct IH as (He & outs2 & rest2 & Hacc & Hw2 & Hd2). split; [exact He|].
      exists (pt :: outs2), rest2. split; [|split; [|exact Hd2]].
      * rewrite Hs. apply ac_more; [exact Hfo|]. apply accepted_u32.
        unfold dec_trailer_ok in *. rewrite Ha1, Hs1 in Hacc. exact Hacc.
      * cbn [List.concat]. rewrite Hw2, Hw1, <- app_assoc. reflexivity.
Qed.
