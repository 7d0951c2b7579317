(** The stream writer's output: C04, C05, C06, C07 for NewStreamWriter, Write, Close (Thm_Encrypt.v and Thm_Session.v
    have the same for Encrypt). *)
From Verif Require Import Bytes BytesLemmas GoErr GoIO SpecIO IOProofs Pb SpecPb PbProofs Crypto CryptoLaws Keys Sign
  Encrypt Decrypt Stream Spec SpecStream EncryptProofs DecryptProofs AcceptProofs OpenProofs RoundTrip StreamProofs
  Support Toy Scene Thm_Encrypt Thm_Session Thm_Stream.
Require Import ZifyBool.
Ltac Zify.zify_post_hook ::= Z.div_mod_to_equations.
Local Notation length := List.length.
Local Notation concat := List.concat.

(** NewStreamWriter on [wr], Write of each of [bs], Close: all of it succeeded *)
Definition streamed_to (C : crypto) (e : encryptor) (g : rng) (wr : writer) (bs : list bytes) (wr' : writer) (g' : rng) : Prop :=
  exists e1 wr1 w1 e2 wr2 g2 w2 rs e3 w3, new_stream_writer C e wr = (e1, wr1, Ok w1) /\
    write_all C e1 wr1 g w1 bs = (e2, wr2, g2, w2, rs) /\ ew_close C e2 wr2 g2 w2 = (e3, wr', g', w3, Ok tt).

Definition trailer_from (C : crypto) (sender : option privkey) (hk hd : bytes) (g : rng) : bytes * rng :=
  match sender with Some sk => (ed_sign C (sk_Sk sk) (msg_digest C (hmac_sha256 C hk hd)), g) | None => rand_buf sig_size g end.

Lemma streamed_exact C sender blk pks e w g bs w3 g3 :
  crypto_ok C -> good_sender sender -> 0 <= blk -> ready C sender blk pks e -> len (pb_header (e_hdr e)) < 2^62 ->
  streamed_to C e g w bs w3 g3 ->
  exists cs, stream_chunks (block_size blk) cs (concat bs) /\
    let fk := keys_of C (e_hdr e) (e_key e) in
    let '(tr, g2) := trailer_from C sender (fk_mac fk) (mac_input cs) g in
    g3 = g2 /\ good_trailer C sender fk cs tr /\ w_out w3 = w_out w ++ sigtool_file C (e_hdr e) (e_key e) cs tr /\
    w_nclosed w3 = w_nclosed w + 1.
Proof.
  intros HC Hg Hb Hr Hl (e1 & w1 & s1 & e2 & w2 & g2 & s2 & rs & e3 & s3 & Hn & Hw & Hc).
  pose proof (new_stream_writer_spec _ _ _ _ _ _ _ _ _ HC Hg Hb Hr Hl Hn) as (Hl1 & e0 & Hok & Hch & Hs & _).
  set (h := e_hdr e) in *. set (root := e_key e) in *. set (fk := keys_of C h root) in *.
  destruct (write_all_spec _ _ _ _ _ _ HC _ _ _ _ _ _ _ _ _ _ _ Hok Hw) as (Hl2 & -> & Hx). cbn [app] in Hx.
  destruct Hx as [(-> & Hok2)|(x & pre & b & post & Hbs & Hxe & _)].
  - destruct (ew_close_spec _ _ _ _ _ _ _ _ _ _ _ _ _ _ _ _ HC Hok2 Hc) as (_ & cs & Hcs & Hy). rewrite Hch in Hcs.
    exists cs. split; [exact Hcs|]. cbv zeta.
    replace (trailer_from C sender (fk_mac fk) (mac_input cs) g) with (the_trailer C e0 (fk_mac fk) (mac_input cs) g)
      by (unfold the_trailer, trailer_from; rewrite Hs; reflexivity).
    destruct (the_trailer C e0 (fk_mac fk) (mac_input cs) g) as [tr gg] eqn:Et.
    destruct Hy as (_ & -> & Hwo & Hcl). split; [reflexivity|].
    split; [unfold good_trailer; eapply the_trailer_good; [exact HC|exact Hs|exact Et]|].
    split.
    + rewrite Hwo. unfold sigtool_file, body. fold fk. rewrite <- !app_assoc. reflexivity.
    + destruct Hl1 as (_ & _ & H1), Hl2 as (_ & _ & H2). congruence.
  - rewrite (ew_close_err _ _ _ _ _ _ Hxe) in Hc. discriminate.
Qed.

Lemma stream_chunks_concat n cs s : stream_chunks n cs s -> concat cs = s.
Proof. intros [H|(-> & ->)]; [eapply chunked_concat; exact H|reflexivity]. Qed.
Lemma stream_chunks_det n cs s : 1 <= n -> stream_chunks n cs s -> forall cs', stream_chunks n cs' s -> cs' = cs.
Proof.
  intros Hn.
  assert (Hpos : forall c t, chunked n (fun k => 0 < k <= n) c t -> t <> []).
  { intros c t H. destruct H; [intros ->; change (len (@nil byte)) with 0 in *; lia|].
    intros E. apply app_eq_nil in E as [-> _]. change (len (@nil byte)) with 0 in *; lia. }
  assert (Hd : forall cs s, chunked n (fun k => 0 < k <= n) cs s -> forall cs', chunked n (fun k => 0 < k <= n) cs' s -> cs' = cs).
  { intros c s0 H. induction H as [c Hc|c c2 s0 Hc H IH]; intros cs' H'.
    - inversion H' as [c2 Hc2 E1 E2|c2 cs2 s2 Hc2 H2 E1 E2]; [reflexivity|]. exfalso.
      apply Hpos in H2. apply (f_equal len) in E2. rewrite len_app in E2. destruct s2; [congruence|]. rewrite len_cons in E2. pose proof (len_nonneg s2). lia.
    - inversion H' as [c3 Hc3 E1 E2|c3 cs3 s3 Hc3 H3 E1 E2].
      + exfalso. apply Hpos in H. rewrite len_app in Hc3. destruct s0; [congruence|]. rewrite len_cons in Hc3. pose proof (len_nonneg s0). lia.
      + apply app_inj_len in E2; [|lia]. destruct E2 as [-> ->]. f_equal. apply IH. exact H3. }
  intros [H|(-> & ->)] cs' [H'|(-> & E)].
  - eapply Hd; eassumption.
  - subst s. apply Hpos in H. congruence.
  - apply Hpos in H'. congruence.
  - reflexivity.
Qed.
Lemma stream_is_encrypt n cs s : 1 <= n -> len s mod n <> 0 \/ s = [] -> stream_chunks n cs s -> encrypt_chunks n cs s.
Proof.
  intros Hn Hs [H|(-> & ->)]; [|constructor; change (len (@nil byte)) with 0; lia]. destruct Hs as [Hs| ->].
  - induction H as [c Hc|c cs s Hc H IH].
    + constructor. assert (len c <> n) by (intros E; rewrite E, Z.mod_same in Hs; lia). lia.
    + constructor; [exact Hc|]. apply IH. intros E. apply Hs. rewrite len_app, Hc, Z.add_mod, Z.mod_same, E by lia. reflexivity.
  - exfalso. inversion H as [c Hc E1 E2|c cs2 s2 Hc H2 E1 E2]; subst; [change (len (@nil byte)) with 0 in Hc; lia|].
    apply app_eq_nil in E2 as [-> _]. change (len (@nil byte)) with 0 in Hn. cbn in Hn. lia.
Qed.

(** ** C04: how the plaintext is cut into Write calls does not matter *)
Theorem C04_stream_write_sizes_irrelevant :
  forall C, crypto_ok C ->
  forall sender blksize pks g e g', 0 <= blksize -> len pks < 2^40 ->
  (forall sk, sender = Some sk -> len (sk_Sk sk) = 64) -> session C sender blksize pks g e g' ->
  forall bs1 bs2 wr1 wr2 w1 w2 h1 h2, concat bs1 = concat bs2 ->
  streamed_to C e g' wr1 bs1 w1 h1 -> streamed_to C e g' wr2 bs2 w2 h2 ->
  exists out, wrote wr1 w1 out /\ wrote wr2 w2 out /\ h1 = h2.
Proof.
  intros C HC sender blk pks g e g' Hb Hp Hg Hs bs1 bs2 wr1 wr2 w1 w2 h1 h2 Hcat S1 S2.
  pose proof (session_ready _ _ _ _ _ _ _ HC Hg Hs) as Hr. pose proof (header_small _ _ _ _ _ HC Hb Hr Hp) as Hl.
  pose proof (block_size_range blk Hb) as Hbr.
  destruct (streamed_exact _ _ _ _ _ _ _ _ _ _ HC Hg Hb Hr Hl S1) as (cs & Hcs & H1).
  destruct (streamed_exact _ _ _ _ _ _ _ _ _ _ HC Hg Hb Hr Hl S2) as (cs2 & Hcs2 & H2). cbv zeta in H1, H2.
  rewrite <- Hcat in Hcs2. rewrite (stream_chunks_det _ _ _ (proj1 Hbr) Hcs _ Hcs2) in H2.
  destruct (trailer_from C sender _ (mac_input cs) g') as [tr gx].
  destruct H1 as (-> & _ & Ho1 & _), H2 as (-> & _ & Ho2 & _). eexists. split; [exact Ho1|]. split; [exact Ho2|]. reflexivity.
Qed.
Print Assumptions C04_stream_write_sizes_irrelevant.
(** A stream and one Encrypt call write the same file, unless the plaintext is a non-zero multiple of the block size. *)
Theorem C04_stream_agrees_with_encrypt :
  forall C, crypto_ok C ->
  forall sender blksize pks g e g', 0 <= blksize -> len pks < 2^40 ->
  (forall sk, sender = Some sk -> len (sk_Sk sk) = 64) -> session C sender blksize pks g e g' ->
  forall rd s er wr e2 rd2 wr2 g2, delivers rd s er -> encrypt C e rd wr g' = (e2, rd2, wr2, g2, Ok tt) ->
  forall bs wr1 wr1' h, concat bs = s -> streamed_to C e g' wr1 bs wr1' h ->
  (len s mod chunk_of blksize <> 0 \/ s = []) ->
  exists out, wrote wr wr2 out /\ wrote wr1 wr1' out /\ g2 = h.
Proof.
  intros C HC sender blk pks g e g' Hb Hp Hg Hs rd s er wr e2 rd2 wr2 g2 D1 E1 bs wr1 wr1' h Hcat S1 Hm.
  rewrite <- (block_size_chunk blk Hb) in Hm.
  pose proof (session_ready _ _ _ _ _ _ _ HC Hg Hs) as Hr. pose proof (header_small _ _ _ _ _ HC Hb Hr Hp) as Hl.
  pose proof (block_size_range blk Hb) as Hbr.
  destruct (streamed_exact _ _ _ _ _ _ _ _ _ _ HC Hg Hb Hr Hl S1) as (cs & Hcs & H1). cbv zeta in H1. rewrite Hcat in Hcs.
  pose proof (encrypt_spec _ _ _ _ _ _ _ _ _ _ _ _ _ _ _ HC Hg Hb Hr Hl D1 E1) as (_ & _ & cs2 & Hcs2 & Ht).
  rewrite (encrypt_chunks_det _ _ _ (proj1 Hbr) (stream_is_encrypt _ _ _ (proj1 Hbr) Hm Hcs) _ Hcs2) in Ht.
  replace (the_trailer C e) with (trailer_from C sender) in Ht by (unfold the_trailer, trailer_from; rewrite (rd_snd _ _ _ _ _ Hr); reflexivity).
  destruct (trailer_from C sender _ (mac_input cs) g') as [tr gx].
  destruct H1 as (-> & _ & Ho1 & _), Ht as (-> & _ & Ho2 & _). eexists. split; [exact Ho2|]. split; [exact Ho1|]. reflexivity.
Qed.
Print Assumptions C04_stream_agrees_with_encrypt.

(** ** C05: the file format *)
Theorem C05_stream_format :
  forall C, crypto_ok C ->
  forall sender blksize pks g e g', 0 <= blksize -> len pks < 2^40 ->
  (forall sk, sender = Some sk -> len (sk_Sk sk) = 64) -> session C sender blksize pks g e g' ->
  forall bs wr wr2 g2, streamed_to C e g' wr bs wr2 g2 ->
  exists hdr root cs trailer,
    let var := pb_header hdr in
    let front := str "SigTool" ++ [x03] ++ be32 (len var) ++ var in
    let fk := derive_keys C root (sha256 C front) in
    wrote wr wr2 (front ++ sha256 C front ++ frames C (fk_data fk) (fk_base fk) 0 cs ++ trailer) /\
    concat cs = concat bs /\ len trailer = 64 /\
    (forall sk, sender = Some sk -> trailer =
       ed_sign C (sk_Sk sk) (sha512 C (str "sigtool signed message" ++ hmac_sha256 C (fk_mac fk) (mac_input cs)))) /\
    unmarshal_header var = Ok hdr /\ h_chunk hdr = chunk_of blksize /\ len (h_keys hdr) = len pks /\
    w_nclosed wr2 = w_nclosed wr + 1.
Proof.
  intros C HC sender blk pks g e g' Hb Hp Hg Hs bs wr wr2 g2 S1.
  pose proof (session_ready _ _ _ _ _ _ _ HC Hg Hs) as Hr. pose proof (header_small _ _ _ _ _ HC Hb Hr Hp) as Hl.
  destruct (streamed_exact _ _ _ _ _ _ _ _ _ _ HC Hg Hb Hr Hl S1) as (cs & Hcs & H1). cbv zeta in H1.
  destruct (trailer_from C sender _ (mac_input cs) g') as [tr gx]. destruct H1 as (_ & (Ht1 & Ht2) & Ho & Hcl).
  exists (e_hdr e), (e_key e), cs, tr. cbv zeta. split; [exact Ho|].
  split; [eapply stream_chunks_concat; exact Hcs|]. split; [exact Ht1|]. split; [exact Ht2|].
  split; [apply unmarshal_spec; [eapply ready_small; eauto|eapply ready_known; eauto]|].
  split; [rewrite <- (block_size_chunk blk Hb); apply (rd_chunk _ _ _ _ _ Hr)|].
  split; [|exact Hcl]. pose proof (rd_keys _ _ _ _ _ Hr) as Hk. unfold len. f_equal.
  clear -Hk. induction Hk; cbn; congruence.
Qed.
Print Assumptions C05_stream_format.

(** ** C06: chunk sizes, exactly one EOF mark; the last frame is non-empty unless nothing was written *)
Theorem C06_stream_chunks :
  forall C, crypto_ok C ->
  forall sender blksize pks g e g', 0 <= blksize -> len pks < 2^40 ->
  (forall sk, sender = Some sk -> len (sk_Sk sk) = 64) -> session C sender blksize pks g e g' ->
  forall bs wr wr2 g2, streamed_to C e g' wr bs wr2 g2 ->
  exists head dk base init last trailer, let n := chunk_of blksize in
    wrote wr wr2 (head ++ unmarked C dk base 0 init ++ frame C dk base (len init) true last ++ trailer) /\ len trailer = 64 /\
    Forall (fun c => len c = n) init /\ len last <= n /\ (last = [] -> concat bs = []) /\ concat init ++ last = concat bs.
Proof.
  intros C HC sender blk pks g e g' Hb Hp Hg Hs bs wr wr2 g2 S1.
  pose proof (session_ready _ _ _ _ _ _ _ HC Hg Hs) as Hr. pose proof (header_small _ _ _ _ _ HC Hb Hr Hp) as Hl.
  destruct (streamed_exact _ _ _ _ _ _ _ _ _ _ HC Hg Hb Hr Hl S1) as (cs & Hcs & H1). cbv zeta in H1.
  destruct (trailer_from C sender _ (mac_input cs) g') as [tr gx]. destruct H1 as (_ & (Ht1 & Ht2) & Ho & Hcl).
  pose proof (block_size_range blk Hb) as Hbr.
  pose proof (block_size_chunk blk Hb) as Hn.
  rewrite Hn in *.
  assert (Hsp : exists init last, cs = init ++ [last] /\ Forall (fun c => len c = chunk_of blk) init /\ len last <= chunk_of blk /\ (last = [] -> concat bs = [])).
  { destruct Hcs as [Hcs|(-> & Hn0)]; [|exists [], []; split; [reflexivity|]; split; [constructor|]; split; [change (len (@nil byte)) with 0; lia|auto]].
    destruct (chunked_split _ _ _ _ Hcs) as (init & last & -> & Hi & Hlast). exists init, last.
    split; [reflexivity|]. split; [exact Hi|]. split; [lia|]. intros ->. change (len (@nil byte)) with 0 in Hlast. lia. }
  destruct Hsp as (init & last & -> & Hi & Hlast & Hne).
  set (fk := keys_of C (e_hdr e) (e_key e)) in *.
  exists (full_header (e_hdr e) ++ header_cksum C (e_hdr e)), (fk_data fk), (fk_base fk), init, last, tr. cbv zeta.
  split.
  - unfold wrote. rewrite Ho. unfold sigtool_file, body. fold fk. rewrite frames_app by discriminate. cbn [frames].
    rewrite <- !app_assoc. unfold len. rewrite Z.add_0_l. reflexivity.
  - split; [exact Ht1|]. split; [exact Hi|]. split; [exact Hlast|]. split; [exact Hne|].
    rewrite <- (stream_chunks_concat _ _ _ Hcs), concat_app. cbn. rewrite app_nil_r. reflexivity.
Qed.
Print Assumptions C06_stream_chunks.

(** ** C07: nonces of one stream *)
Lemma stream_count_both n cs s : 1 <= n -> stream_chunks n cs s -> (len s <= 2^32 * n -> len cs <= 2^32) /\ (2^32 * n < len s -> 2^32 < len cs).
Proof.
  intros Hn [H|[-> ->]].
  2:{ change (len (@nil byte)) with 0. change (len [@nil byte]) with 1. split; intros; lia. }
  destruct (chunked_split _ _ _ _ H) as (init & last & -> & Hi & Hl).
  apply chunked_concat in H. subst s. rewrite concat_app, !len_app, (concat_full n) by exact Hi. cbn [List.concat].
  rewrite app_nil_r. change (len [last]) with 1. change (2^32) with 4294967296. split; nia.
Qed.
Theorem C07_stream_nonces_distinct_partial :
  forall C, crypto_ok C ->
  forall sender blksize pks g e g', 0 <= blksize -> len pks < 2^40 ->
  (forall sk, sender = Some sk -> len (sk_Sk sk) = 64) -> session C sender blksize pks g e g' ->
  forall bs wr wr2 g2, streamed_to C e g' wr bs wr2 g2 -> len (concat bs) <= 2^32 * chunk_of blksize ->
  exists head dk base cs trailer,
    wrote wr wr2 (head ++ frames C dk base 0 cs ++ trailer) /\ len trailer = 64 /\ concat cs = concat bs /\
    NoDup (frame_nonces base cs).
Proof.
  intros C HC sender blk pks g e g' Hb Hp Hg Hs bs wr wr2 g2 S1 Hlen.
  rewrite <- (block_size_chunk blk Hb) in Hlen.
  pose proof (session_ready _ _ _ _ _ _ _ HC Hg Hs) as Hr. pose proof (header_small _ _ _ _ _ HC Hb Hr Hp) as Hl.
  destruct (streamed_exact _ _ _ _ _ _ _ _ _ _ HC Hg Hb Hr Hl S1) as (cs & Hcs & H1). cbv zeta in H1.
  destruct (trailer_from C sender _ (mac_input cs) g') as [tr gx]. destruct H1 as (_ & (Ht1 & Ht2) & Ho & Hcl).
  set (fk := keys_of C (e_hdr e) (e_key e)) in *. pose proof (block_size_range blk Hb) as Hbr.
  exists (full_header (e_hdr e) ++ header_cksum C (e_hdr e)), (fk_data fk), (fk_base fk), cs, tr.
  split; [|split; [exact Ht1|split; [eapply stream_chunks_concat; exact Hcs|]]].
  - unfold wrote. rewrite Ho. unfold sigtool_file, body. fold fk. rewrite <- !app_assoc. reflexivity.
  - apply nodup_nonces; [lia|]. pose proof (proj1 (stream_count_both _ _ _ (proj1 Hbr) Hcs) Hlen) as Hn. unfold len in Hn. lia.
Qed.
Print Assumptions C07_stream_nonces_distinct_partial.
(** and not beyond *)
Theorem C07_stream_refuted_counter_wraps :
  forall C, crypto_ok C ->
  forall sender blksize pks g e g', 0 <= blksize -> len pks < 2^40 ->
  (forall sk, sender = Some sk -> len (sk_Sk sk) = 64) -> session C sender blksize pks g e g' ->
  forall bs wr wr2 g2, streamed_to C e g' wr bs wr2 g2 -> 2^32 * chunk_of blksize < len (concat bs) ->
  exists head dk base cs trailer,
    wrote wr wr2 (head ++ frames C dk base 0 cs ++ trailer) /\ len trailer = 64 /\ concat cs = concat bs /\
    ~ NoDup (frame_nonces base cs).
Proof.
  intros C HC sender blk pks g e g' Hb Hp Hg Hs bs wr wr2 g2 S1 Hlen.
  rewrite <- (block_size_chunk blk Hb) in Hlen.
  pose proof (session_ready _ _ _ _ _ _ _ HC Hg Hs) as Hr. pose proof (header_small _ _ _ _ _ HC Hb Hr Hp) as Hl.
  destruct (streamed_exact _ _ _ _ _ _ _ _ _ _ HC Hg Hb Hr Hl S1) as (cs & Hcs & H1). cbv zeta in H1.
  destruct (trailer_from C sender _ (mac_input cs) g') as [tr gx]. destruct H1 as (_ & (Ht1 & Ht2) & Ho & Hcl).
  set (fk := keys_of C (e_hdr e) (e_key e)) in *. pose proof (block_size_range blk Hb) as Hbr.
  exists (full_header (e_hdr e) ++ header_cksum C (e_hdr e)), (fk_data fk), (fk_base fk), cs, tr.
  split; [|split; [exact Ht1|split; [eapply stream_chunks_concat; exact Hcs|]]].
  - unfold wrote. rewrite Ho. unfold sigtool_file, body. fold fk. rewrite <- !app_assoc. reflexivity.
  - pose proof (proj2 (stream_count_both _ _ _ (proj1 Hbr) Hcs) Hlen) as Hn. unfold len in Hn. intros Hd.
    unfold frame_nonces in Hd. remember (length cs) as n eqn:En. clear -Hd Hn.
    destruct n as [|n]; [lia|]. cbn [count map] in Hd. inversion Hd as [|? ? Hni _]; subst. apply Hni. apply in_map_iff.
    exists (2^32). split.
    + unfold frame_nonce. f_equal.
    + clear Hd Hni. assert (G : forall n i x, i <= x < i + Z.of_nat n -> In x (count i n)).
      { clear. induction n as [|n IH]; intros i x H; [lia|]. cbn [count In]. destruct (Z.eq_dec i x) as [->|Hne]; [left; reflexivity|]. right. apply IH. lia. }
      apply G. lia.
Qed.
Print Assumptions C07_stream_refuted_counter_wraps.

(** two ways of writing "hello world": in four pieces and byte by byte; 8 bytes in 4-byte blocks end with a full frame *)
Definition stream_out (e : encryptor) (w : writer) (bs : list bytes) : option bytes :=
  match new_stream_writer toy e w with
  | (e1, w1, Ok s1) =>
      match write_all toy e1 w1 g1 s1 bs with
      | (e2, w2, g2, s2, _) => match ew_close toy e2 w2 g2 s2 with (_, w3, _, _, Ok _) => Some (w_out w3) | _ => None end
      end
  | _ => None
  end.
Lemma stream_out_ok e w bs o : stream_out e w bs = Some o -> exists w' g', streamed_to toy e g1 w bs w' g' /\ w_out w' = o.
Proof.
  unfold stream_out. intros H. destruct (new_stream_writer toy e w) as [[x1 w1] [s1|x|x]] eqn:E1; try discriminate H.
  destruct (write_all toy x1 w1 g1 s1 bs) as [[[[x2 w2] g2] s2] rs] eqn:E2.
  destruct (ew_close toy x2 w2 g2 s2) as [[[[x3 w3] g3] s3] [[]|x|x]] eqn:E3; try discriminate H. injection H as <-.
  exists w3, g3. split; [|reflexivity]. exists x1, w1, s1, x2, w2, g2, s2, rs, x3, s3. auto.
Qed.
Lemma stream_out1 : stream_out e1 dst pieces1 = Some file3. Proof. vm_compute. reflexivity. Qed.
Lemma stream_out2 : stream_out e1 sink (map (fun b => [b]) text) = Some file3. Proof. vm_compute. reflexivity. Qed.
Example C04_stream_instance : exists w w' g g', streamed_to toy e1 g1 dst pieces1 w g /\ streamed_to toy e1 g1 sink (map (fun b => [b]) text) w' g' /\
  w_out w = w_out w' /\ concat pieces1 = concat (map (fun b => [b]) text) /\ w_out w = file3 /\ file3 = file1.
Proof.
  destruct (stream_out_ok _ _ _ _ stream_out1) as (w & g & H1 & H2). destruct (stream_out_ok _ _ _ _ stream_out2) as (w' & g' & H3 & H4).
  exists w, w', g, g'. split; [exact H1|]. split; [exact H3|]. split; [rewrite H2; exact (eq_sym H4)|]. split; [vm_compute; reflexivity|].
  split; [exact H2|]. vm_compute. reflexivity.
Qed.
Example C06_stream_instance : stream_chunks 4 [str "hell"; str "oooo"] text8 /\ stream_chunks 4 [[]] [].
Proof.
  split; [left|right; auto]. change text8 with (str "hell" ++ str "oooo"). constructor; [reflexivity|]. constructor. vm_compute. split; [reflexivity|discriminate].
Qed.
