(** Theorems on encryption sessions and files: C01, C04, C05, C06, C07, C16, C17, C18, C21, C22, C23, C24.
    The vocabulary of the statements is in SpecIO.v (delivers, accepts), SpecPb.v (header encoding) and
    Spec.v (session, sigtool_file, opened_by, ...). *)
From Verif Require Import Bytes BytesLemmas GoErr GoIO SpecIO IOProofs Pb SpecPb PbProofs Crypto CryptoLaws Keys Sign
  Encrypt Decrypt Stream Spec SpecStream EncryptProofs DecryptProofs AcceptProofs OpenProofs RoundTrip StreamProofs
  Support Toy Scene.
Require Import ZifyBool.
Ltac Zify.zify_post_hook ::= Z.div_mod_to_equations.
Local Notation length := List.length.
Local Notation concat := List.concat.

Definition signed (sender : option privkey) : bool := match sender with Some _ => true | None => false end.

(** ** C01: whole-file round trip.
    For every crypto record obeying the laws, every sender (or none), every requested block size below 1 GiB,
    every list of up to 15885 recipients (the exact limit, see C24), every source delivering the bytes [s] in
    any fragmentation, every destination, every recipient among them, and every fragmentation of the produced
    file: opening succeeds, the sender is reported as authenticated exactly if there is one, and decrypting
    writes exactly [s].
    [no_accident] excludes that AES-GCM opens, for this recipient, a wrapped key made for someone else. *)
Theorem C01_encrypt_decrypt_round_trip :
  forall C, crypto_ok C ->
  forall sender blksize pks g e g', 0 <= blksize < 2^30 -> len pks <= 15885 -> session C sender blksize pks g e g' ->
  forall rd s wr e2 rd2 wr2 g2, delivers rd s IoEOF -> w_out wr = [] -> encrypt C e rd wr g' = (e2, rd2, wr2, g2, Ok tt) ->
  forall seed pk sk spk, In pk pks -> pubof C seed pk -> keypair C seed sk -> sender_matches C sender spk ->
  no_accident C (e_hdr e) seed (e_key e) ->
  forall file out, delivers file (w_out wr2) IoEOF -> accepts out ->
  exists d, opened_by C file sk spk d /\ authenticated_sender d = signed sender /\
    exists d' out', decrypt C d out = (d', out', Ok tt) /\ w_out out' = w_out out ++ s.
Proof.
  intros C HC sender blk pks g e g' Hb Hp Hs rd s wr e2 rd2 wr2 g2 Hd Hw He seed pk sk spk Hin Hpk Hsk Hm Hna file out Hf Ha.
  pose proof (matches_good _ _ _ HC Hm) as Hg. pose proof (session_ready _ _ _ _ _ _ _ HC Hg Hs) as Hr.
  pose proof (few_recipients _ _ _ _ _ HC (proj1 Hb) Hr Hp) as Hl.
  pose proof (encrypt_spec _ _ _ _ _ _ _ _ _ _ _ _ _ _ _ HC Hg (proj1 Hb) Hr ltac:(lia) Hd He) as (_ & _ & cs & Hcs & Ht).
  destruct (the_trailer C e _ (mac_input cs) g') as [tr gx]. destruct Ht as (_ & Htr & Ho & _). rewrite Hw in Ho. cbn [app] in Ho.
  rewrite Ho in Hf. unfold sigtool_file in Hf.
  destruct (honest_open C HC sender blk pks e Hb Hr Hl seed pk sk spk Hpk Hin Hsk (or_introl Hna) Hm _ _ _ Hf) as (d & Hod & Hos & Hau).
  exists d. split; [exact Hod|]. split; [exact Hau|].
  assert (Hgc : good_chunks (h_chunk (e_hdr e)) cs).
  { rewrite (rd_chunk _ _ _ _ _ Hr). pose proof (block_size_range blk (proj1 Hb)). eapply chunked_good; [|exact Hcs]. lia. }
  destruct (honest_body_accepted C HC sender blk pks e Hr spk Hm d cs tr [] Hau Hgc Htr) as (outs & rest & Hacc & Hco & _).
  rewrite app_nil_r in Hacc.
  destruct (decrypt_complete _ _ _ _ _ _ _ _ _ _ _ _ _ HC Hos Ha Hacc) as (d' & out' & Hdec & Hwo).
  exists d', out'. split; [exact Hdec|]. rewrite Hwo, Hco, (chunked_concat _ _ _ _ Hcs). reflexivity.
Qed.
Print Assumptions C01_encrypt_decrypt_round_trip.

(** sessions exist for any genuine keys, and encryption succeeds on healthy sources and destinations *)
Theorem C01_encrypt_succeeds :
  forall C, crypto_ok C ->
  forall sender blksize pks g, 0 <= blksize -> len pks < 2^40 ->
  (forall sk, sender = Some sk -> exists seed, keypair C seed sk) -> (forall pk, In pk pks -> exists seed, pubof C seed pk) ->
  exists e g', session C sender blksize pks g e g' /\
    forall rd s wr, delivers rd s IoEOF -> accepts wr -> exists e2 rd2 wr2 g2, encrypt C e rd wr g' = (e2, rd2, wr2, g2, Ok tt).
Proof.
  intros C HC sender blk pks g Hb Hp Hsk Hpk.
  assert (Hg : good_sender sender). { intros sk Hs. destruct (Hsk _ Hs) as (seed & Hk). exact (keypair_good _ _ _ HC Hk sk eq_refl). }
  destruct (session_total C sender blk pks g HC Hg ltac:(apply Forall_forall; exact Hpk)) as (e & g' & Hs).
  exists e, g'. split; [exact Hs|]. intros rd s wr Hd Ha. pose proof (session_ready _ _ _ _ _ _ _ HC Hg Hs) as Hr.
  eapply encrypt_total; eauto. eapply header_small; eauto.
Qed.
Print Assumptions C01_encrypt_succeeds.

(** a concrete instance: signed by S, two recipients, three chunks; B opens it *)
Example C01_instance : exists d d' out', opened_by toy (whole file1) skB (Some pkS) d /\ authenticated_sender d = true /\
  decrypt toy d dst = (d', out', Ok tt) /\ w_out out' = text.
Proof.
  destruct file1_made as (e & r & w & g & He & Hw).
  destruct (C01_encrypt_decrypt_round_trip toy toy_ok (Some skS) 4 [pkA; pkB] g0 e1 g1 ltac:(lia) ltac:(cbn; lia) session1
    src text dst e r w g src_delivers eq_refl He seedB pkB skB (Some pkS) ltac:(right; left; reflexivity) pB kB matches1 na1B
    (whole file1) dst ltac:(rewrite Hw; apply delivers_whole) dst_accepts) as (d & H1 & H2 & d' & out' & H3 & H4).
  exists d, d', out'. auto.
Qed.

(** ** C04: the output is a function of randomness, keys and plaintext only, not of I/O fragmentation *)
Theorem C04_fragmentation_independent :
  forall C, crypto_ok C ->
  forall sender blksize pks g e g', 0 <= blksize -> len pks < 2^40 ->
  (forall sk, sender = Some sk -> len (sk_Sk sk) = 64) -> session C sender blksize pks g e g' ->
  forall s rd1 rd2 wr1 wr2 er1 er2 e1 r1 w1 h1 e2 r2 w2 h2, delivers rd1 s er1 -> delivers rd2 s er2 ->
  encrypt C e rd1 wr1 g' = (e1, r1, w1, h1, Ok tt) -> encrypt C e rd2 wr2 g' = (e2, r2, w2, h2, Ok tt) ->
  exists out, wrote wr1 w1 out /\ wrote wr2 w2 out /\ h1 = h2 /\ e1 = e2.
Proof.
  intros C HC sender blk pks g e g' Hb Hp Hg Hs s rd1 rd2 wr1 wr2 er1 er2 x1 r1 w1 h1 x2 r2 w2 h2 D1 D2 E1 E2.
  pose proof (session_ready _ _ _ _ _ _ _ HC Hg Hs) as Hr. pose proof (header_small _ _ _ _ _ HC Hb Hr Hp) as Hl.
  pose proof (block_size_range blk Hb) as Hbr.
  pose proof (encrypt_spec _ _ _ _ _ _ _ _ _ _ _ _ _ _ _ HC Hg Hb Hr Hl D1 E1) as (_ & _ & cs & Hcs & Ht).
  pose proof (encrypt_spec _ _ _ _ _ _ _ _ _ _ _ _ _ _ _ HC Hg Hb Hr Hl D2 E2) as (_ & _ & cs2 & Hcs2 & Ht2).
  rewrite (encrypt_chunks_det _ _ _ (proj1 Hbr) Hcs _ Hcs2) in Ht2.
  destruct (the_trailer C e _ (mac_input cs) g') as [tr gx].
  destruct Ht as (-> & _ & Ho & -> & _). destruct Ht2 as (-> & _ & Ho2 & -> & _).
  eexists. split; [exact Ho|]. split; [exact Ho2|]. auto.
Qed.
Print Assumptions C04_fragmentation_independent.
Example C04_instance : exists e r w h e' r' w' h',
  encrypt toy e1 src dst g1 = (e, r, w, h, Ok tt) /\ encrypt toy e1 (whole text) sink g1 = (e', r', w', h', Ok tt) /\ w_out w = w_out w'.
Proof.
  destruct file1_made as (e & r & w & h & He & Hw).
  assert (H2 : exists e r w g, encrypt toy e1 (whole text) sink g1 = (e, r, w, g, Ok tt) /\ w_out w = file1)
    by (apply enc_made_ok; vm_compute; reflexivity).
  destruct H2 as (e' & r' & w' & h' & He' & Hw'). exists e, r, w, h, e', r', w', h'. rewrite Hw, Hw'. auto.
Qed.

(** ** C05: the file format *)
Theorem C05_file_format :
  forall C, crypto_ok C ->
  forall sender blksize pks g e g', 0 <= blksize -> len pks < 2^40 ->
  (forall sk, sender = Some sk -> len (sk_Sk sk) = 64) -> session C sender blksize pks g e g' ->
  forall rd s er wr e2 rd2 wr2 g2, delivers rd s er -> encrypt C e rd wr g' = (e2, rd2, wr2, g2, Ok tt) ->
  exists hdr root cs trailer,
    let var := pb_header hdr in
    let front := str "SigTool" ++ [x03] ++ be32 (len var) ++ var in
    let fk := derive_keys C root (sha256 C front) in
    wrote wr wr2 (front ++ sha256 C front ++ frames C (fk_data fk) (fk_base fk) 0 cs ++ trailer) /\
    concat cs = s /\ len trailer = 64 /\
    (forall sk, sender = Some sk -> trailer =
       ed_sign C (sk_Sk sk) (sha512 C (str "sigtool signed message" ++ hmac_sha256 C (fk_mac fk) (mac_input cs)))) /\
    unmarshal_header var = Ok hdr /\ h_chunk hdr = chunk_of blksize /\ len (h_keys hdr) = len pks /\
    w_nclosed wr2 = w_nclosed wr + 1.
Proof.
  intros C HC sender blk pks g e g' Hb Hp Hg Hs rd s er wr x2 rd2 wr2 h2 D1 E1.
  pose proof (session_ready _ _ _ _ _ _ _ HC Hg Hs) as Hr. pose proof (header_small _ _ _ _ _ HC Hb Hr Hp) as Hl.
  pose proof (encrypt_spec _ _ _ _ _ _ _ _ _ _ _ _ _ _ _ HC Hg Hb Hr Hl D1 E1) as (_ & _ & cs & Hcs & Ht).
  destruct (the_trailer C e _ (mac_input cs) g') as [tr gx]. destruct Ht as (_ & (Ht1 & Ht2) & Ho & _ & Hcl).
  exists (e_hdr e), (e_key e), cs, tr. cbv zeta. split; [exact Ho|].
  split; [eapply chunked_concat; exact Hcs|]. split; [exact Ht1|]. split; [exact Ht2|].
  split; [apply unmarshal_spec; [eapply ready_small; eauto|eapply ready_known; eauto]|].
  split; [rewrite <- (block_size_chunk blk Hb); apply (rd_chunk _ _ _ _ _ Hr)|].
  split; [|exact Hcl]. pose proof (rd_keys _ _ _ _ _ Hr) as Hk. unfold len. f_equal.
  clear -Hk. induction Hk; cbn; congruence.
Qed.
Print Assumptions C05_file_format.
Example C05_instance : exists e r w g, encrypt toy e1 src dst g1 = (e, r, w, g, Ok tt) /\ take 8 (w_out w) = str "SigTool" ++ [x03].
Proof. destruct file1_made as (e & r & w & g & He & Hw). exists e, r, w, g. split; [exact He|]. rewrite Hw. vm_compute. reflexivity. Qed.

(** ** C06: chunk sizes, exactly one EOF mark *)
Theorem C06_chunks :
  forall C, crypto_ok C ->
  forall sender blksize pks g e g', 0 <= blksize -> len pks < 2^40 ->
  (forall sk, sender = Some sk -> len (sk_Sk sk) = 64) -> session C sender blksize pks g e g' ->
  forall rd s er wr e2 rd2 wr2 g2, delivers rd s er -> encrypt C e rd wr g' = (e2, rd2, wr2, g2, Ok tt) ->
  exists head dk base init last trailer, let n := chunk_of blksize in
    wrote wr wr2 (head ++ unmarked C dk base 0 init ++ frame C dk base (len init) true last ++ trailer) /\ len trailer = 64 /\
    Forall (fun c => len c = n) init /\ len last < n /\ concat init ++ last = s.
Proof.
  intros C HC sender blk pks g e g' Hb Hp Hg Hs rd s er wr x2 rd2 wr2 h2 D1 E1.
  pose proof (session_ready _ _ _ _ _ _ _ HC Hg Hs) as Hr. pose proof (header_small _ _ _ _ _ HC Hb Hr Hp) as Hl.
  pose proof (encrypt_spec _ _ _ _ _ _ _ _ _ _ _ _ _ _ _ HC Hg Hb Hr Hl D1 E1) as (_ & _ & cs & Hcs & Ht).
  destruct (the_trailer C e _ (mac_input cs) g') as [tr gx]. destruct Ht as (_ & (Ht1 & Ht2) & Ho & _).
  destruct (chunked_split _ _ _ _ Hcs) as (init & last & -> & Hi & Hlast).
  pose proof (block_size_chunk blk Hb) as Hn.
  rewrite Hn in *. set (fk := keys_of C (e_hdr e) (e_key e)) in *.
  exists (full_header (e_hdr e) ++ header_cksum C (e_hdr e)), (fk_data fk), (fk_base fk), init, last, tr. cbv zeta.
  split.
  - unfold wrote. rewrite Ho. unfold sigtool_file, body. fold fk. rewrite frames_app by discriminate. cbn [frames].
    rewrite <- !app_assoc. unfold len. rewrite Z.add_0_l. reflexivity.
  - split; [exact Ht1|]. split; [exact Hi|]. split; [lia|]. rewrite <- (chunked_concat _ _ _ _ Hcs), concat_app. cbn. rewrite app_nil_r. reflexivity.
Qed.
Print Assumptions C06_chunks.
(** three frames for "hello world" with 4-byte chunks, an empty last frame for 8 bytes *)
Example C06_instance : exists a b, encrypt_chunks 4 a text /\ length a = 3%nat /\ encrypt_chunks 4 b text8 /\ last b [x00] = [].
Proof.
  exists [str "hell"; str "o wo"; str "rld"], [str "hell"; str "oooo"; []].
  split; [apply (ch_more _ _ (str "hell") _ (str "o world")); [reflexivity|]; apply (ch_more _ _ (str "o wo") _ (str "rld")); [reflexivity|]; constructor; cbn; lia|].
  split; [reflexivity|]. split; [|reflexivity].
  apply (ch_more _ _ (str "hell") _ (str "oooo")); [reflexivity|]. apply (ch_more _ _ (str "oooo") _ []); [reflexivity|]. constructor. cbn; lia.
Qed.
