(** The stream reader on cut, modified and hostile files (C09, C10, C13), the header of files made by the stream writer
    (C08), its randomness (C58), and the agreement of Decrypt and the stream reader (C69). *)
From Verif Require Import Bytes BytesLemmas GoErr GoIO SpecIO IOProofs Pb SpecPb PbProofs Crypto CryptoLaws Keys Sign
  Encrypt Decrypt Stream Spec SpecStream EncryptProofs DecryptProofs AcceptProofs OpenProofs RoundTrip StreamProofs StreamRead Hostile
  Support Toy Scene Thm_Encrypt Thm_Decrypt Thm_Session Thm_Stream Thm_Size Thm_StreamFormat.
Require Import ZifyBool.
Ltac Zify.zify_post_hook ::= Z.div_mod_to_equations.
Local Notation length := List.length.
Local Notation concat := List.concat.

(** ** C08: header of a file made by the stream writer *)
Theorem C08_tampered_stream_header :
  forall C, crypto_ok C ->
  forall sender blksize pks g e g', 0 <= blksize -> len pks < 2^25 ->
  (forall sk, sender = Some sk -> len (sk_Sk sk) = 64) -> session C sender blksize pks g e g' ->
  forall bs wr wr2 g2, w_out wr = [] -> streamed_to C e g' wr bs wr2 g2 ->
  exists hdr ck body, w_out wr2 = hdr ++ ck ++ body /\ len ck = 32 /\
    forall hdr' body' file er d file', len hdr' = len hdr -> take 4 (drop 8 hdr') = take 4 (drop 8 hdr) -> hdr' <> hdr ->
      delivers file (hdr' ++ ck ++ body') er -> new_decryptor C file = (Ok d, file') ->
      exists a b, a <> b /\ sha256 C a = sha256 C b.
Proof.
  intros C HC sender blk pks g e g' Hb Hp Hg Hs bs wr wr2 g2 Hw S1.
  pose proof (session_ready _ _ _ _ _ _ _ HC Hg Hs) as Hr. pose proof (header_small _ _ _ _ _ HC Hb Hr ltac:(lia)) as Hl.
  destruct (streamed_exact _ _ _ _ _ _ _ _ _ _ HC Hg Hb Hr Hl S1) as (cs & Hcs & H1). cbv zeta in H1.
  destruct (trailer_from C sender _ (mac_input cs) g') as [tr gx]. destruct H1 as (_ & _ & Ho & _). rewrite Hw in Ho. cbn [app] in Ho.
  exists (full_header (e_hdr e)), (header_cksum C (e_hdr e)), (body C (keys_of C (e_hdr e) (e_key e)) cs tr).
  split; [exact Ho|]. split; [apply (ok_sha256_len C HC)|]. intros hdr' body' file er d file' Hlen Hword Hne Hf Hn.
  destruct (C08_accepted_header C HC _ _ _ _ _ Hf Hn) as (var & rest & He & Hv & _). cbv zeta in He.
  pose proof (ready_header_len _ _ _ _ _ HC Hb Hr) as Hrl. pose proof (block_size_range blk Hb) as Hbr.
  pose proof (chunk_field_6 (block_size blk) ltac:(lia)) as Hc6. pose proof (chunk_field_1 (block_size blk) ltac:(lia)) as Hc1.
  set (V := pb_header (e_hdr e)) in *. pose proof (len_nonneg V) as HV0.
  assert (Hfl : len (full_header (e_hdr e)) = 12 + len V).
  { unfold full_header. rewrite !len_app, len_be32. change (len (str "SigTool")) with 7. change (len [x03]) with 1. fold V. lia. }
  assert (Hlv : len var = len V).
  { assert (H1 : take 4 (drop 8 (hdr' ++ header_cksum C (e_hdr e) ++ body')) = be32 (len V)).
    { rewrite drop_app_l by lia. rewrite take_app_l by (rewrite len_drop_gen; lia). rewrite Hword. unfold full_header. fold V.
      change (drop 8 (str "SigTool" ++ [x03] ++ be32 (len V) ++ V)) with (be32 (len V) ++ V). apply take_app_eq. reflexivity. }
    rewrite He in H1. rewrite <- !app_assoc in H1.
    match type of H1 with take 4 (drop 8 (_ ++ _ ++ _ ++ ?x)) = _ => change (drop 8 (str "SigTool" ++ [x03] ++ be32 (len var) ++ x)) with (be32 (len var) ++ x) in H1 end.
    rewrite take_app_eq in H1 by reflexivity. apply be32_inj in H1; [exact H1|lia|pose proof (len_nonneg V); lia]. }
  apply app_inj_len in He.
  2:{ rewrite Hlen, Hfl, !len_app, len_be32. change (len (str "SigTool")) with 7. change (len [x03]) with 1. lia. }
  destruct He as [E1' E2']. apply app_inj_len in E2'; [|unfold header_cksum; rewrite !(ok_sha256_len C HC); reflexivity].
  destruct E2' as [E2' _]. exists (full_header (e_hdr e)), hdr'. split; [congruence|]. rewrite E1'. exact E2'.
Qed.
Print Assumptions C08_tampered_stream_header.

(** ** C58: the stream writer draws nothing but the trailer of an unsigned file *)
Theorem C58_stream_randomness :
  forall C, crypto_ok C ->
  forall sender blksize pks g e g', 0 <= blksize -> len pks < 2^40 ->
  (forall sk, sender = Some sk -> len (sk_Sk sk) = 64) -> session C sender blksize pks g e g' ->
  forall bs wr wr2 g2, streamed_to C e g' wr bs wr2 g2 ->
  exists front trailer, wrote wr wr2 (front ++ trailer) /\ len trailer = 64 /\
    match sender with
    | Some _ => g2 = g'
    | None => trailer = ahead g (96 + 12 * len pks) 64 /\ advanced g g2 (96 + 12 * len pks + 64)
    end.
Proof.
  intros C HC sender blk pks g e g' Hb Hp Hg Hs bs wr wr2 g2 S1.
  pose proof (session_ready _ _ _ _ _ _ _ HC Hg Hs) as Hr. pose proof (header_small _ _ _ _ _ HC Hb Hr Hp) as Hl.
  destruct (streamed_exact _ _ _ _ _ _ _ _ _ _ HC Hg Hb Hr Hl S1) as (cs & Hcs & H1). cbv zeta in H1.
  destruct (C58_session_randomness _ _ _ _ _ _ _ Hs) as (_ & _ & _ & _ & _ & Ht1 & Hp1).
  destruct (trailer_from C sender _ (mac_input cs) g') as [tr gx] eqn:Etr. destruct H1 as (-> & (Hl1 & _) & Ho & _).
  exists (full_header (e_hdr e) ++ header_cksum C (e_hdr e) ++ frames C (fk_data (keys_of C (e_hdr e) (e_key e))) (fk_base (keys_of C (e_hdr e) (e_key e))) 0 cs), tr.
  split. { unfold wrote. rewrite Ho. unfold sigtool_file, body. rewrite <- !app_assoc. reflexivity. }
  split; [exact Hl1|]. unfold trailer_from in Etr. destruct sender as [sk|].
  - injection Etr as _ <-. reflexivity.
  - apply rand_buf_ahead in Etr; [|unfold sig_size; lia]. destruct Etr as [-> A]. change sig_size with 64 in *.
    pose proof (conj Ht1 Hp1 : advanced g g' _) as A0. rewrite (ahead_advanced _ _ _ _ _ A0), Z.add_0_r.
    split; [reflexivity|]. exact (advanced_trans _ _ _ _ _ A0 A).
Qed.
Print Assumptions C58_stream_randomness.

(** some Read call returned io.EOF *)
Definition reached_end (rs : list (bytes * res unit)) : Prop := exists b, In (b, Fail IoEOF) rs.
Lemma shape_end ns rs pieces x m : read_shape ns rs pieces x m -> reached_end rs -> m <> O /\ x = IoEOF.
Proof.
  intros [-> _] (b & Hin). apply in_app_iff in Hin. destruct Hin as [Hin|Hin].
  - apply in_map_iff in Hin. destruct Hin as (c & Hc & _). discriminate.
  - destruct m; [contradiction|]. apply repeat_spec in Hin. injection Hin as _ <-. split; [discriminate|reflexivity].
Qed.

(** ** C09: the stream reader on a file cut anywhere *)
Theorem C09_truncated_stream :
  forall C, crypto_ok C ->
  forall sender blksize pks e s made_file, made C sender blksize pks e s made_file ->
  forall k file ef seed sk spk d, delivers file (take k made_file) ef -> keypair C seed sk ->
  no_accident C (e_hdr e) seed (e_key e) -> opened_by C file sk spk d ->
  forall ns d1 r d' r' rs, Forall (fun n => 0 <= n) ns -> new_stream_reader d = (d1, Ok r) -> read_all C d1 r ns = (d', r', rs) ->
  prefix_of (returned rs) s /\ (reached_end rs -> returned rs = s).
Proof.
  intros C HC sender blk pks e s mfile Hmade k file ef seed sk spk d Hf Hk Hna Ho ns d1 r d' r' rs Hns Hsr Hra.
  destruct (made_inv _ _ _ _ _ _ _ HC Hmade) as (cs & tr & [Hb Hr Hg Hne Hl Hlt Hout _ Hgc Hcc Htr]).
  destruct (opened_by_inv _ _ _ _ _ _ _ _ HC Hf Hk Ho) as (h & ck & rest' & root & Hos).
  pose proof (ready_valid_header C sender blk pks e (body C (keys_of C (e_hdr e) (e_key e)) cs tr) HC Hb Hr Hne Hl) as Hv.
  change (full_header (e_hdr e) ++ header_cksum C (e_hdr e) ++ body C (keys_of C (e_hdr e) (e_key e)) cs tr)
    with (sigtool_file C (e_hdr e) (e_key e) cs tr) in Hv. rewrite <- Hout in Hv.
  pose proof (valid_header_app _ _ _ _ _ (drop k mfile) (os_header _ _ _ _ _ _ _ _ _ _ Hos)) as Hv2. rewrite take_drop in Hv2.
  destruct (valid_header_det _ _ _ _ _ _ _ _ Hv Hv2) as (<- & <- & Hbody).
  assert (root = e_key e) as ->.
  { destruct (os_root _ _ _ _ _ _ _ _ _ _ Hos) as (pre & w & post & Hks & Hop & _). eapply Hna; [|exact Hop]. rewrite Hks. apply in_elt. }
  set (fk := keys_of C (e_hdr e) (e_key e)) in *. apply proj2 in Hlt.
  assert (Hacc : exists outs rest, accepted C (fk_data fk) (fk_base fk) (h_chunk (e_hdr e)) (fun _ _ => True) 0 [] (body C fk cs tr) outs rest /\ concat outs = s).
  { unfold body. rewrite <- (app_nil_r tr). destruct (honest_accepted C HC (fk_data fk) (fk_base fk) (h_chunk (e_hdr e)) (fun _ _ => True)
      cs 0 [] tr [] Hgc (proj1 Htr) I) as (outs & rest & H1 & H2 & _). exists outs, rest. split; [exact H1|congruence]. }
  destruct Hacc as (outs0 & rest0 & Hacc & Hcat).
  destruct (stream_read_spec C _ _ _ _ _ _ _ _ _ ns HC Hos Hns) as (d2 & r2 & Hsr2 & Hall). rewrite Hsr2 in Hsr. injection Hsr as -> ->.
  destruct (Hall _ _ _ Hra) as (pieces & x & m & Hsh & (outs & q & Hop & Hpc) & Hend & _).
  change (derive_keys C (e_key e) (header_cksum C (e_hdr e))) with fk in *.
  rewrite (shape_returned _ _ _ _ _ Hsh). split.
  - rewrite Hpc. apply (opened_app _ _ _ _ _ _ _ (drop k mfile)) in Hop. rewrite <- Hbody in Hop.
    destruct (opened_accepted _ _ _ _ _ Hlt _ _ _ Hop _ _ _ Hacc) as (more & Hm).
    exists (drop q (concat outs) ++ concat more). rewrite app_assoc, take_drop, <- concat_app, <- Hm. congruence.
  - intros Hre. destruct (shape_end _ _ _ _ _ Hsh Hre) as [Hm ->]. destruct (Hend Hm eq_refl) as (outs2 & rest2 & Ha & Hp2).
    apply (accepted_weaken _ _ _ _ _ (fun _ _ => True)) in Ha; [|auto]. apply (accepted_app _ _ _ _ _ _ _ _ _ _ (drop k mfile)) in Ha.
    rewrite <- Hbody in Ha. destruct (accepted_det _ _ _ _ _ Hlt _ _ _ _ _ Hacc _ _ Ha) as [-> _]. congruence.
Qed.
Print Assumptions C09_truncated_stream.
(** cut inside the third frame, read 3 bytes at a time: "hello wo", then an error that is not io.EOF *)
Example C09_stream_instance : match streamed (take (len file1 - 70) file1) skA (Some pkS) [3; 3; 3; 3; 3] with
  | Some rs => beq (returned rs) (str "hello wo") && negb (existsb (fun r => match snd r with Fail IoEOF => true | _ => false end) rs) &&
               existsb (fun r => match snd r with Fail _ => true | _ => false end) rs
  | None => false end = true.
Proof. vm_compute. reflexivity. Qed.

(** ** C10: io.EOF means the complete plaintext, except for the bare end marker *)
Theorem C10_stream_complete_partial :
  forall C, crypto_ok C ->
  forall sender blksize pks e s file0, made C sender blksize pks e s file0 -> len s < (2^32 - 1) * h_chunk (e_hdr e) ->
  exists head cs, let fk := keys_of C (e_hdr e) (e_key e) in
    concat cs = s /\ prefix_of (head ++ frames C (fk_data fk) (fk_base fk) 0 cs) file0 /\
    forall body' file ef seed sk spk d, no_forgery C fk cs body' -> delivers file (head ++ body') ef -> keypair C seed sk ->
    no_accident C (e_hdr e) seed (e_key e) -> opened_by C file sk spk d ->
    forall ns d1 r d' r' rs, Forall (fun n => 0 <= n) ns -> new_stream_reader d = (d1, Ok r) -> read_all C d1 r ns = (d', r', rs) -> reached_end rs ->
      returned rs = s \/
      exists cs1 cs2 rest, cs = cs1 ++ cs2 /\ cs2 <> [] /\ returned rs = concat cs1 /\
        body' = unmarked C (fk_data fk) (fk_base fk) 0 cs1 ++ end_marker ++ rest.
Proof.
  intros C HC sender blk pks e s file0 Hmade Hlen.
  destruct (made_inv _ _ _ _ _ _ _ HC Hmade) as (cs & tr & [Hb Hr Hg Hne Hl Hlt Hout Hck Hgc Hcc Htr]).
  exists (full_header (e_hdr e) ++ header_cksum C (e_hdr e)), cs. cbv zeta. set (fk := keys_of C (e_hdr e) (e_key e)) in *.
  split; [exact Hcc|]. split. { exists tr. rewrite Hout. unfold sigtool_file, body. fold fk. rewrite <- !app_assoc. reflexivity. }
  intros body' file ef seed sk spk d Hnf Hf Hk Hna Ho ns d1 r d' r' rs Hns Hsr Hra Hre. rewrite <- app_assoc in Hf.
  pose proof (genuine_open _ _ _ _ _ _ _ _ _ _ _ _ HC Hb Hr Hne Hl Hf Hk Hna Ho) as Hos.
  destruct (stream_read_spec C _ _ _ _ _ _ _ _ _ ns HC Hos Hns) as (d2 & r2 & Hsr2 & Hall). rewrite Hsr2 in Hsr. injection Hsr as -> ->.
  destruct (Hall _ _ _ Hra) as (pieces & x & m & Hsh & _ & Hend & _).
  destruct (shape_end _ _ _ _ _ Hsh Hre) as [Hm ->]. destruct (Hend Hm eq_refl) as (outs & rest2 & Ha & Hw).
  change (derive_keys C (e_key e) (header_cksum C (e_hdr e))) with fk in *.
  assert (Hn : Z.of_nat (length cs) < 2^32). { eapply made_count; [|exact Hck|exact Hlen]; lia. }
  assert (H0 : (0 < length cs)%nat) by (destruct cs; [cbn in Hgc; contradiction|cbn; lia]).
  rewrite (shape_returned _ _ _ _ _ Hsh), Hw.
  destruct (accepted_honest C fk cs _ Hn (proj2 Hlt) _ HC _ _ _ _ _ Ha body' [] 0%nat Hnf eq_refl eq_refl H0) as [(Houts & _)|(more & Hmm & Hmn & Hb')].
  - left. cbn [skipn] in Houts. rewrite Houts. exact Hcc.
  - right. exists outs, more, rest2. cbn [skipn] in Hmm. auto.
Qed.
Print Assumptions C10_stream_complete_partial.

(** ** C13: what a stream reader returned up to io.EOF is signed, except for the bare end marker *)
Theorem C13_stream_signed_partial :
  forall C, crypto_ok C ->
  forall rd s er sk spk seed d, delivers rd s er -> keypair C seed sk -> opened_by C rd sk spk d -> authenticated_sender d = true ->
  forall ns d1 r d' r' rs, Forall (fun n => 0 <= n) ns -> new_stream_reader d = (d1, Ok r) -> read_all C d1 r ns = (d', r', rs) -> reached_end rs ->
  exists pk front body root chunks rest, let fk := derive_keys C root (sha256 C front) in
    spk = Some pk /\ s = front ++ sha256 C front ++ body /\ returned rs = concat chunks /\
    ((exists trailer, body = frames C (fk_data fk) (fk_base fk) 0 chunks ++ trailer ++ rest /\ len trailer = 64 /\
        ed_verify C (pk_Pk pk) (sha512 C (str "sigtool signed message" ++ hmac_sha256 C (fk_mac fk) (mac_input chunks))) trailer = true) \/
     body = unmarked C (fk_data fk) (fk_base fk) 0 chunks ++ end_marker ++ rest).
Proof.
  intros C HC rd s er sk spk seed d Hd Hk Ho Ha ns d1 r d' r' rs Hns Hsr Hra Hre.
  destruct (opened_by_inv _ _ _ _ _ _ _ _ HC Hd Hk Ho) as (h & ck & rest' & root & Hos).
  destruct (stream_read_spec C _ _ _ _ _ _ _ _ _ ns HC Hos Hns) as (d2 & r2 & Hsr2 & Hall). rewrite Hsr2 in Hsr. injection Hsr as -> ->.
  destruct (Hall _ _ _ Hra) as (pieces & x & m & Hsh & _ & Hend & _).
  destruct (shape_end _ _ _ _ _ Hsh Hre) as [Hm ->]. destruct (Hend Hm eq_refl) as (outs & rest2 & Hacc & Hw). cbv zeta in Hacc.
  destruct (os_header _ _ _ _ _ _ _ _ _ _ Hos) as (var & Hv). cbv zeta in Hv. destruct Hv as (Hs & Hck & _).
  pose proof (os_sender _ _ _ _ _ _ _ _ _ _ Hos) as Hvs. unfold authenticated_sender in Ha. rewrite Ha in Hvs, Hacc.
  pose proof (verify_sender_spec C h root spk HC) as Hsp. rewrite Hvs in Hsp. destruct Hsp as (pk & sig & -> & _).
  exists pk, ((str "SigTool" ++ [x03] ++ be32 (len var)) ++ var), rest', root, outs, rest2. cbv zeta.
  split; [reflexivity|]. split; [rewrite Hs, Hck, <- !app_assoc; reflexivity|].
  split; [rewrite (shape_returned _ _ _ _ _ Hsh); exact Hw|]. rewrite <- Hck.
  destruct (accepted_shape _ _ _ _ HC _ _ _ _ _ _ Hacc) as [(_ & tr & Hl & Ht & Hb)|Hb]; [left|right; exact Hb].
  exists tr. split; [exact Hb|]. split; [exact Hl|]. destruct (Ht eq_refl) as (pk' & Hpk & _ & Hsg). injection Hpk as <-. exact Hsg.
Qed.
Print Assumptions C13_stream_signed_partial.

(** ** C69: Decrypt and the stream reader agree on every input *)
Theorem C69_stream_and_decrypt_agree :
  forall C, crypto_ok C ->
  forall rd s er sk spk seed d, delivers rd s er -> keypair C seed sk -> opened_by C rd sk spk d ->
  forall out, accepts out ->
  exists d0 out0 res d1 r, decrypt C d out = (d0, out0, res) /\ new_stream_reader d = (d1, Ok r) /\
  (res = Ok tt -> exists plain, wrote out out0 plain /\
     forall ns d' r' rs, Forall (fun n => 0 < n) ns -> read_all C d1 r ns = (d', r', rs) ->
       prefix_of (returned rs) plain /\ (reached_end rs <-> exists b x, In (b, Fail x) rs) /\
       (reached_end rs -> returned rs = plain) /\ (len plain < Z.of_nat (length ns) -> reached_end rs)) /\
  (res <> Ok tt -> forall ns d' r' rs, Forall (fun n => 0 <= n) ns -> read_all C d1 r ns = (d', r', rs) -> ~ reached_end rs).
Proof.
  intros C HC rd s er sk spk seed d Hd Hk Ho out Hac.
  destruct (opened_by_inv _ _ _ _ _ _ _ _ HC Hd Hk Ho) as (h & ck & rest' & root & Hos).
  destruct (decrypt C d out) as [[d0 out0] res] eqn:Hdec.
  destruct (stream_read_spec C _ _ _ _ _ _ _ _ _ [] HC Hos ltac:(constructor)) as (d1 & r & Hsr & _).
  exists d0, out0, res, d1, r. split; [reflexivity|]. split; [exact Hsr|].
  set (fk := derive_keys C root ck) in *. split.
  - intros ->. pose proof (decrypt_spec _ _ _ _ _ _ _ _ _ _ _ _ _ _ HC Hos Hdec) as (_ & _ & _ & outs & rest2 & Hacc & Hw & _).
    exists (concat outs). split; [exact Hw|]. intros ns d' r' rs Hns Hra.
    assert (Hns0 : Forall (fun n => 0 <= n) ns) by (eapply Forall_impl; [|exact Hns]; cbn; lia).
    destruct (stream_read_complete C _ _ _ _ _ _ _ _ _ _ _ ns HC Hos Hacc Hns0) as (d2 & r2 & Hsr2 & Hall). rewrite Hsr2 in Hsr. injection Hsr as -> ->.
    destruct (Hall _ _ _ Hra) as (pieces & m & k & Hsh & Hpc & Hm1 & Hm2). rewrite (shape_returned _ _ _ _ _ Hsh).
    assert (Hre : m <> O -> reached_end rs).
    { intros Hm. destruct Hsh as [-> _]. exists []. apply in_app_iff. right. destruct m; [congruence|]. left. reflexivity. }
    split; [exists (drop k (concat outs)); rewrite Hpc, take_drop; reflexivity|]. split; [|split].
    + split; [intros (b & H); eauto|]. intros (b & x & Hin). apply Hre. intros ->. destruct Hsh as [-> _]. cbn [repeat] in Hin. rewrite app_nil_r in Hin.
      apply in_map_iff in Hin. destruct Hin as (c & Hc & _). discriminate.
    + intros H. apply Hm1. apply (shape_end _ _ _ _ _ Hsh H).
    + intros H. apply Hre. apply Hm2; assumption.
  - intros Hres ns d' r' rs Hns Hra Hre. apply Hres.
    destruct (stream_read_spec C _ _ _ _ _ _ _ _ _ ns HC Hos Hns) as (d2 & r2 & Hsr2 & Hall). rewrite Hsr2 in Hsr. injection Hsr as -> ->.
    destruct (Hall _ _ _ Hra) as (pieces & x & m & Hsh & _ & Hend & _).
    destruct (shape_end _ _ _ _ _ Hsh Hre) as [Hm ->]. destruct (Hend Hm eq_refl) as (outs & rest2 & Hacc & Hw).
    destruct (decrypt_complete _ _ _ _ _ _ _ _ _ _ _ _ _ HC Hos Hac Hacc) as (d3 & out3 & Hdec3 & _). congruence.
Qed.
Print Assumptions C69_stream_and_decrypt_agree.
(** the genuine file and the file with swapped frames, through both interfaces *)
Example C69_instance :
  opened_and_decrypted file1 skA (Some pkS) = Some (true, text, Ok tt) /\
  match streamed file1 skA (Some pkS) [5; 5; 5; 5; 5] with Some rs => beq (returned rs) text && existsb (fun r => match snd r with Fail IoEOF => true | _ => false end) rs | None => false end = true /\
  let f := take (len file1 - 64 - 71) file1 ++ swapped in
  match opened_and_decrypted f skA (Some pkS) with Some (true, [], Fail _) => true | _ => false end = true /\
  match streamed f skA (Some pkS) [5; 5] with Some [([], Fail _); ([], Fail _)] => true | _ => false end = true.
Proof. split; [vm_compute; reflexivity|]. split; [vm_compute; reflexivity|]. split; vm_compute; reflexivity. Qed.
