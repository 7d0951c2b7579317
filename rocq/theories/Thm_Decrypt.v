(** Theorems on opening and decrypting files: C08, C09, C10, C11, C12, C13, C14, C15, C19, C20. *)
From Verif Require Import Bytes BytesLemmas GoErr GoIO SpecIO IOProofs Pb SpecPb PbProofs Crypto CryptoLaws Keys Sign
  Encrypt Decrypt Stream Spec SpecStream EncryptProofs DecryptProofs AcceptProofs OpenProofs RoundTrip StreamProofs StreamRead Hostile
  Support Toy Scene Thm_Encrypt.
Require Import ZifyBool.
Ltac Zify.zify_post_hook ::= Z.div_mod_to_equations.
Local Notation length := List.length.
Local Notation concat := List.concat.

(** the four bytes 80 00 00 00: a length word with the EOF bit and length 0 *)
Definition end_marker : bytes := [x80; x00; x00; x00].
Lemma end_marker_word : frame_word [] true = end_marker. Proof. reflexivity. Qed.

(** ** C08: header integrity *)
Theorem C08_accepted_header :
  forall C, crypto_ok C -> forall rd s er d rd', delivers rd s er -> new_decryptor C rd = (Ok d, rd') ->
  exists var rest, let front := str "SigTool" ++ [x03] ++ be32 (len var) ++ var in
    s = front ++ sha256 C front ++ rest /\ 32 <= len var <= 1048576 /\ unmarshal_header var = Ok (d_hdr d) /\ delivers rd' rest er.
Proof.
  intros C HC rd s er d rd' Hd Hn. pose proof (new_decryptor_spec _ _ _ _ _ _ HC Hd Hn) as (h & ck & rest & (var & Hv) & -> & Hr).
  cbv zeta in Hv. destruct Hv as (Hs & Hck & Hl & Hv & Hu & _). exists var, rest. cbv zeta.
  split; [|split; [exact Hv|split; [exact Hu|exact Hr]]]. rewrite Hs, Hck, <- !app_assoc. reflexivity.
Qed.
Print Assumptions C08_accepted_header.
(** Replace the header of a produced file by other bytes of the same length with the same length field, and keep the
    checksum: NewDecryptor accepts only if two different strings have the same SHA-256. *)
Theorem C08_tampered_header :
  forall C, crypto_ok C ->
  forall sender blksize pks g e g', 0 <= blksize -> len pks < 2^25 ->
  (forall sk, sender = Some sk -> len (sk_Sk sk) = 64) -> session C sender blksize pks g e g' ->
  forall rd0 s0 er0 wr e2 rd2 wr2 g2, delivers rd0 s0 er0 -> w_out wr = [] -> encrypt C e rd0 wr g' = (e2, rd2, wr2, g2, Ok tt) ->
  exists hdr ck body, w_out wr2 = hdr ++ ck ++ body /\ len ck = 32 /\
    forall hdr' body' file er d file', len hdr' = len hdr -> take 4 (drop 8 hdr') = take 4 (drop 8 hdr) -> hdr' <> hdr ->
      delivers file (hdr' ++ ck ++ body') er -> new_decryptor C file = (Ok d, file') ->
      exists a b, a <> b /\ sha256 C a = sha256 C b.
Proof.
  intros C HC sender blk pks g e g' Hb Hp Hg Hs rd0 s0 er0 wr x2 rd2 wr2 h2 D1 Hw E1.
  pose proof (session_ready _ _ _ _ _ _ _ HC Hg Hs) as Hr. pose proof (header_small _ _ _ _ _ HC Hb Hr ltac:(lia)) as Hl.
  pose proof (encrypt_spec _ _ _ _ _ _ _ _ _ _ _ _ _ _ _ HC Hg Hb Hr Hl D1 E1) as (_ & _ & cs & Hcs & Ht).
  destruct (the_trailer C e _ (mac_input cs) g') as [tr gx]. destruct Ht as (_ & _ & Ho & _). rewrite Hw in Ho. cbn [app] in Ho.
  exists (full_header (e_hdr e)), (header_cksum C (e_hdr e)), (body C (keys_of C (e_hdr e) (e_key e)) cs tr).
  split; [exact Ho|]. split; [apply (ok_sha256_len C HC)|]. intros hdr' body' file er d file' Hlen Hword Hne Hf Hn.
  destruct (C08_accepted_header C HC _ _ _ _ _ Hf Hn) as (var & rest & He & Hv & _). cbv zeta in He.
  pose proof (ready_header_len _ _ _ _ _ HC Hb Hr) as Hrl. pose proof (block_size_range blk Hb) as Hbr.
  pose proof (chunk_field_6 (block_size blk) ltac:(lia)) as Hc6. pose proof (chunk_field_1 (block_size blk) ltac:(lia)) as Hc1.
  set (V := pb_header (e_hdr e)) in *. pose proof (len_nonneg V) as HV0.
  assert (Hfl : len (full_header (e_hdr e)) = 12 + len V).
  { unfold full_header. rewrite !len_app, len_be32. change (len (str "SigTool")) with 7. change (len [x03]) with 1. fold V. lia. }
  assert (Hlv : len var = len V).
  { assert (H1 : take 4 (drop 8 (hdr' ++ header_cksum C (e_hdr e) ++ body')) = be32 (len V)).
    { rewrite drop_app_l by lia. rewrite take_app_l by (rewrite len_drop_gen; lia). rewrite Hword. unfold full_header. fold V.
      change (drop 8 (str "SigTool" ++ [x03] ++ be32 (len V) ++ V)) with (be32 (len V) ++ V). apply take_app_eq. reflexivity. }
    rewrite He in H1. rewrite <- !app_assoc in H1.
    match type of H1 with take 4 (drop 8 (_ ++ _ ++ _ ++ ?x)) = _ => change (drop 8 (str "SigTool" ++ [x03] ++ be32 (len var) ++ x)) with (be32 (len var) ++ x) in H1 end.
    rewrite take_app_eq in H1 by reflexivity. apply be32_inj in H1; [exact H1|lia|pose proof (len_nonneg V); lia]. }
  apply app_inj_len in He.
  2:{ rewrite Hlen, Hfl, !len_app, len_be32. change (len (str "SigTool")) with 7. change (len [x03]) with 1. lia. }
  destruct He as [E1' E2']. apply app_inj_len in E2'; [|unfold header_cksum; rewrite !(ok_sha256_len C HC); reflexivity].
  destruct E2' as [E2' _]. exists (full_header (e_hdr e)), hdr'. split; [congruence|]. rewrite E1'. exact E2'.
Qed.
Print Assumptions C08_tampered_header.
Definition rejected (r : res decryptor * reader) : bool := match r with (Fail ErrBadHeader, _) => true | _ => false end.
(** flipping one byte of the header (here: inside the salt) is caught *)
Example C08_instance : (exists d r, new_decryptor toy (whole file1) = (Ok d, r)) /\
  rejected (new_decryptor toy (whole (take 30 file1 ++ [x00] ++ drop 31 file1))) = true /\ file1 <> take 30 file1 ++ [x00] ++ drop 31 file1.
Proof.
  split; [|split; [vm_compute; reflexivity|]].
  - destruct C01_instance as (d & d' & out' & (d0 & r & sk' & Hn & _) & _). eauto.
  - intros H. apply (f_equal (fun l => nth 30 l x01)) in H. vm_compute in H. discriminate.
Qed.

(** ** bridges *)
Section Mono.
  Variables (C : crypto) (dk base : bytes) (chunk : Z).
  Lemma accepted_weaken (tok tok' : bytes -> bytes -> Prop) i m s outs rest : (forall a b, tok a b -> tok' a b) ->
    accepted C dk base chunk tok i m s outs rest -> accepted C dk base chunk tok' i m s outs rest.
  Proof. intros Hw H. induction H; [apply ac_bare|apply ac_last; auto|apply ac_more; auto]. Qed.
  Lemma opened_app i s outs x : opened C dk base chunk i s outs -> opened C dk base chunk i (s ++ x) outs.
  Proof.
    intros H. induction H as [i s|i c pt s Hf|i c pt s outs Hf H IH]; [constructor|..]; rewrite <- !app_assoc.
    - apply op_last. exact Hf.
    - apply op_more; assumption.
  Qed.
  (** what an accepted stream looks like: complete with its trailer, or ended by the bare end marker *)
  Lemma accepted_shape (HC : crypto_ok C) tok i m s outs rest : accepted C dk base chunk tok i m s outs rest ->
    (outs <> [] /\ exists tr, len tr = 64 /\ tok (m ++ mac_input outs) tr /\ s = frames C dk base i outs ++ tr ++ rest) \/
    s = unmarked C dk base i outs ++ end_marker ++ rest.
  Proof.
    induction 1 as [i m rest|i m c pt tr rest Hf Hl Ht|i m c pt s outs rest Hf Ha IH].
    - right. reflexivity.
    - left. split; [discriminate|]. exists tr. split; [exact Hl|]. split; [exact Ht|]. cbn [frames]. unfold frame.
      rewrite <- (opens_seal C HC dk base chunk _ _ _ _ Hf), <- app_assoc. reflexivity.
    - pose proof (opens_seal C HC dk base chunk _ _ _ _ Hf) as Hc. destruct IH as [(Hne & tr & Hl & Ht & ->)| ->].
      + left. split; [discriminate|]. exists tr. split; [exact Hl|]. rewrite mac_input_cons, frames_cons by exact Hne. split.
        * rewrite <- !app_assoc in Ht. exact Ht.
        * unfold frame. rewrite <- Hc, <- !app_assoc. reflexivity.
      + right. cbn [unmarked]. unfold frame. rewrite <- Hc, <- !app_assoc. reflexivity.
  Qed.
End Mono.

Lemma valid_header_app C s h ck rest x : valid_header C s h ck rest -> valid_header C (s ++ x) h ck (rest ++ x).
Proof.
  intros (var & H). cbv zeta in H. destruct H as (-> & H). exists var. cbv zeta. split; [rewrite <- !app_assoc; reflexivity|exact H].
Qed.

(** a Decryptor opened on the genuine header followed by anything has the genuine header, checksum and root key *)
Lemma genuine_open C sender blk pks e rd rest er seed sk spk d : crypto_ok C -> 0 <= blk < 2^30 -> ready C sender blk pks e ->
  pks <> [] -> len (pb_header (e_hdr e)) <= 1048576 ->
  delivers rd (full_header (e_hdr e) ++ header_cksum C (e_hdr e) ++ rest) er -> keypair C seed sk ->
  no_accident C (e_hdr e) seed (e_key e) -> opened_by C rd sk spk d ->
  opened_state C (full_header (e_hdr e) ++ header_cksum C (e_hdr e) ++ rest) er seed spk d (e_hdr e) (header_cksum C (e_hdr e)) rest (e_key e).
Proof.
  intros HC Hb Hr Hne Hl Hd Hk Hna Ho. destruct (opened_by_inv _ _ _ _ _ _ _ _ HC Hd Hk Ho) as (h & ck & rest' & root & Hos).
  pose proof (ready_valid_header C sender blk pks e rest HC Hb Hr Hne Hl) as Hv.
  destruct (valid_header_det _ _ _ _ _ _ _ _ Hv (os_header _ _ _ _ _ _ _ _ _ _ Hos)) as (<- & <- & <-).
  assert (root = e_key e) as <-; [|exact Hos].
  destruct (os_root _ _ _ _ _ _ _ _ _ _ Hos) as (pre & w & post & Hks & Hop & _). eapply Hna; [|exact Hop]. rewrite Hks. apply in_elt.
Qed.

(** ** C09: truncation *)
(** Cut a produced file after any number k of bytes and let anybody whose key opens it decrypt what is left, with any
    destination: what gets written is a prefix of the plaintext, and if Decrypt returns nil it is the whole plaintext. *)
Theorem C09_truncated_file :
  forall C, crypto_ok C ->
  forall sender blksize pks e s made_file, made C sender blksize pks e s made_file ->
  forall k file ef seed sk spk d, delivers file (take k made_file) ef -> keypair C seed sk ->
  no_accident C (e_hdr e) seed (e_key e) -> opened_by C file sk spk d ->
  forall out d' out' res, decrypt C d out = (d', out', res) ->
  (exists part, wrote out out' part /\ prefix_of part s) /\ (res = Ok tt -> wrote out out' s).
Proof.
  intros C HC sender blk pks e s mfile Hmade k file ef seed sk spk d Hf Hk Hna Ho out d' out' res Hdec.
  destruct (made_inv _ _ _ _ _ _ _ HC Hmade) as (cs & tr & [Hb Hr Hg Hne Hl Hlt Hout _ Hgc Hcc Htr]).
  destruct (opened_by_inv _ _ _ _ _ _ _ _ HC Hf Hk Ho) as (h & ck & rest' & root & Hos).
  pose proof (ready_valid_header C sender blk pks e (body C (keys_of C (e_hdr e) (e_key e)) cs tr) HC Hb Hr Hne Hl) as Hv.
  change (full_header (e_hdr e) ++ header_cksum C (e_hdr e) ++ body C (keys_of C (e_hdr e) (e_key e)) cs tr)
    with (sigtool_file C (e_hdr e) (e_key e) cs tr) in Hv. rewrite <- Hout in Hv.
  pose proof (valid_header_app _ _ _ _ _ (drop k mfile) (os_header _ _ _ _ _ _ _ _ _ _ Hos)) as Hv2. rewrite take_drop in Hv2.
  destruct (valid_header_det _ _ _ _ _ _ _ _ Hv Hv2) as (<- & <- & Hbody).
  assert (root = e_key e) as ->.
  { destruct (os_root _ _ _ _ _ _ _ _ _ _ Hos) as (pre & w & post & Hks & Hop & _). eapply Hna; [|exact Hop]. rewrite Hks. apply in_elt. }
  set (fk := keys_of C (e_hdr e) (e_key e)) in *. apply proj2 in Hlt.
  assert (Hacc : exists outs rest, accepted C (fk_data fk) (fk_base fk) (h_chunk (e_hdr e)) (fun _ _ => True) 0 [] (body C fk cs tr) outs rest /\ concat outs = s).
  { unfold body. rewrite <- (app_nil_r tr). destruct (honest_accepted C HC (fk_data fk) (fk_base fk) (h_chunk (e_hdr e)) (fun _ _ => True)
      cs 0 [] tr [] Hgc (proj1 Htr) I) as (outs & rest & H1 & H2 & _). exists outs, rest. split; [exact H1|congruence]. }
  destruct Hacc as (outs0 & rest0 & Hacc & Hcat).
  pose proof (decrypt_spec _ _ _ _ _ _ _ _ _ _ _ _ _ _ HC Hos Hdec) as (_ & (outs & q & Hop & Hwo) & Hres).
  change (derive_keys C (e_key e) (header_cksum C (e_hdr e))) with fk in *.
  split.
  - exists (take q (concat outs)). split; [exact Hwo|].
    apply (opened_app _ _ _ _ _ _ _ (drop k mfile)) in Hop. rewrite <- Hbody in Hop.
    destruct (opened_accepted _ _ _ _ _ Hlt _ _ _ Hop _ _ _ Hacc) as (more & Hm).
    exists (drop q (concat outs) ++ concat more). rewrite app_assoc, take_drop, <- concat_app, <- Hm. congruence.
  - intros ->. destruct Hres as (_ & outs2 & rest2 & Ha & Hw2 & _).
    apply (accepted_weaken _ _ _ _ _ (fun _ _ => True)) in Ha; [|auto]. apply (accepted_app _ _ _ _ _ _ _ _ _ _ (drop k mfile)) in Ha.
    rewrite <- Hbody in Ha. destruct (accepted_det _ _ _ _ _ Hlt _ _ _ _ _ Hacc _ _ Ha) as [-> _]. unfold wrote. congruence.
Qed.
Print Assumptions C09_truncated_file.
Lemma made1 : made toy (Some skS) 4 [pkA; pkB] e1 text file1.
Proof.
  split; [lia|]. split; [cbn; lia|]. split; [apply (matches_good _ _ _ toy_ok matches1)|]. left.
  destruct file1_made as (e & r & w & g & He & Hw). exists g0, g1, src, IoEOF, dst, e, r, w, g.
  split; [apply session1|]. split; [apply src_delivers|]. auto.
Qed.
Lemma made2 : made toy None 4 [pkA; pkB] e2 text8 file2.
Proof.
  split; [lia|]. split; [cbn; lia|]. split; [discriminate|]. left.
  destruct file2_made as (e & r & w & g & He & Hw). exists g0, g1, src8, IoEOF, dst, e, r, w, g.
  split; [apply session2|]. split; [apply src8_delivers|]. auto.
Qed.
(** cut inside the third frame: "hello wo" is written, then an error *)
Definition opened_and_decrypted (f : bytes) (sk : privkey) (spk : option pubkey) : option (bool * bytes * res unit) :=
  match new_decryptor toy (whole f) with
  | (Ok d0, _) => match set_private_key toy d0 sk spk with
                  | (d, _, Ok _) => match decrypt toy d sink with (_, w, r) => Some (authenticated_sender d, w_out w, r) end
                  | _ => None
                  end
  | _ => None
  end.
Example C09_instance : match opened_and_decrypted (take (len file1 - 70) file1) skA (Some pkS) with
                       | Some (true, out, Fail _) => beq out (str "hello wo") | _ => false end = true /\ 
                       opened_and_decrypted file1 skA (Some pkS) = Some (true, text, Ok tt).
Proof. split; vm_compute; reflexivity. Qed.

(** ** C10: completeness *)
(** The body after a genuine header is replaced by arbitrary bytes [body'] in which no AEAD forgery occurs.  If Decrypt
    returns nil it has written the complete plaintext, or the body' is: the first frames of the original and then the
    four bytes 80 00 00 00 (which need no key to make).  The second case is what keeps this from being the full
    property: see the refutation. *)
Theorem C10_complete_partial :
  forall C, crypto_ok C ->
  forall sender blksize pks e s file0, made C sender blksize pks e s file0 -> len s < (2^32 - 1) * h_chunk (e_hdr e) ->
  exists head cs, let fk := keys_of C (e_hdr e) (e_key e) in
    concat cs = s /\ prefix_of (head ++ frames C (fk_data fk) (fk_base fk) 0 cs) file0 /\
    forall body' file ef seed sk spk d, no_forgery C fk cs body' -> delivers file (head ++ body') ef -> keypair C seed sk ->
    no_accident C (e_hdr e) seed (e_key e) -> opened_by C file sk spk d ->
    forall out d' out', decrypt C d out = (d', out', Ok tt) ->
      wrote out out' s \/
      exists cs1 cs2 rest, cs = cs1 ++ cs2 /\ cs2 <> [] /\ wrote out out' (concat cs1) /\
        body' = unmarked C (fk_data fk) (fk_base fk) 0 cs1 ++ end_marker ++ rest.
Proof.
  intros C HC sender blk pks e s file0 Hmade Hlen.
  destruct (made_inv _ _ _ _ _ _ _ HC Hmade) as (cs & tr & [Hb Hr Hg Hne Hl Hlt Hout Hck Hgc Hcc Htr]).
  exists (full_header (e_hdr e) ++ header_cksum C (e_hdr e)), cs. cbv zeta. set (fk := keys_of C (e_hdr e) (e_key e)) in *.
  split; [exact Hcc|]. split. { exists tr. rewrite Hout. unfold sigtool_file, body. fold fk. rewrite <- !app_assoc. reflexivity. }
  intros body' file ef seed sk spk d Hnf Hf Hk Hna Ho out d' out' Hdec. rewrite <- app_assoc in Hf.
  pose proof (genuine_open _ _ _ _ _ _ _ _ _ _ _ _ HC Hb Hr Hne Hl Hf Hk Hna Ho) as Hos.
  pose proof (decrypt_spec _ _ _ _ _ _ _ _ _ _ _ _ _ _ HC Hos Hdec) as (_ & _ & _ & outs & rest2 & Ha & Hw & _).
  change (derive_keys C (e_key e) (header_cksum C (e_hdr e))) with fk in *.
  assert (Hn : Z.of_nat (length cs) < 2^32). { eapply made_count; [|exact Hck|exact Hlen]; lia. }
  assert (H0 : (0 < length cs)%nat) by (destruct cs; [cbn in Hgc; contradiction|cbn; lia]).
  destruct (accepted_honest C fk cs _ Hn (proj2 Hlt) _ HC _ _ _ _ _ Ha body' [] 0%nat Hnf eq_refl eq_refl H0) as [(Houts & _)|(more & Hm & Hmn & Hb')].
  - left. cbn [skipn] in Houts. unfold wrote. rewrite Hw, Houts, Hcc. reflexivity.
  - right. exists outs, more, rest2. cbn [skipn] in Hm. auto.
Qed.
Print Assumptions C10_complete_partial.
Lemma bare_stream_accepted C dk base chunk tok : crypto_ok C -> forall outs i m rest, Forall (fun c => 0 < len c <= chunk) outs ->
  accepted C dk base chunk tok i m (unmarked C dk base i outs ++ end_marker ++ rest) outs rest.
Proof.
  intros HC. induction outs as [|c outs IH]; intros i m rest Hf; cbn [unmarked].
  - apply (ac_bare C dk base chunk tok i m rest).
  - inversion Hf as [|? ? Hc Hf']; subst. unfold frame. rewrite <- !app_assoc. apply ac_more; [|apply IH; exact Hf'].
    apply seal_opens; assumption.
Qed.
Lemma good_init n init last : good_chunks n (init ++ [last]) -> Forall (fun c => 0 < len c <= n) init.
Proof.
  induction init as [|c init IH]; [constructor|]. cbn [app]. intros H.
  destruct init as [|c2 init]; [cbn in H; constructor; [tauto|constructor]|]. cbn [app] in *. apply good_chunks_cons in H. destruct H as [H1 H2].
  constructor; [exact H1|]. apply IH. exact H2.
Qed.

(** The full property fails.  Take any produced file, cut it after the header or after any whole number j of frames
    (all but the last), append 80 00 00 00: no key is needed for that.  Every recipient still opens it, with the sender
    reported as authenticated if the original was signed, Decrypt returns nil, and only the first j chunks are written. *)
Theorem C10_refuted_truncation :
  forall C, crypto_ok C ->
  forall sender blksize pks e s file0, made C sender blksize pks e s file0 ->
  exists cs, concat cs = s /\ (encrypt_chunks (h_chunk (e_hdr e)) cs s \/ stream_chunks (h_chunk (e_hdr e)) cs s) /\
  forall j, (j < length cs)%nat -> exists k, 0 <= k < len file0 /\
    forall file ef seed pk sk spk out, delivers file (take k file0 ++ [x80; x00; x00; x00]) ef ->
    In pk pks -> pubof C seed pk -> keypair C seed sk -> sender_matches C sender spk -> no_accident C (e_hdr e) seed (e_key e) ->
    accepts out -> exists d d' out', opened_by C file sk spk d /\ authenticated_sender d = signed sender /\
      decrypt C d out = (d', out', Ok tt) /\ wrote out out' (concat (firstn j cs)).
Proof.
  intros C HC sender blk pks e s file0 Hmade.
  destruct (made_inv _ _ _ _ _ _ _ HC Hmade) as (cs & tr & [Hb Hr Hg Hne Hl Hlt Hout Hck Hgc Hcc Htr]).
  exists cs. split; [exact Hcc|]. split; [exact Hck|]. intros j Hj. set (fk := keys_of C (e_hdr e) (e_key e)) in *.
  set (head := full_header (e_hdr e) ++ header_cksum C (e_hdr e)).
  assert (Hcs : exists a b, cs = a ++ b /\ b <> [] /\ a = firstn j cs).
  { exists (firstn j cs), (skipn j cs). split; [symmetry; apply firstn_skipn|]. split; [|reflexivity].
    intros H. apply (f_equal (@List.length _)) in H. rewrite skipn_length in H. cbn in H. lia. }
  destruct Hcs as (a & b & Hab & Hbn & Ha).
  assert (Hfile : file0 = (head ++ unmarked C (fk_data fk) (fk_base fk) 0 a) ++ frames C (fk_data fk) (fk_base fk) (Z.of_nat (length a)) b ++ tr).
  { rewrite Hout. unfold sigtool_file, body. fold fk. rewrite Hab, frames_app by exact Hbn. rewrite Z.add_0_l. unfold head. rewrite <- !app_assoc. reflexivity. }
  exists (len (head ++ unmarked C (fk_data fk) (fk_base fk) 0 a)). split.
  { rewrite Hfile, (len_app (head ++ _)), (len_app (frames _ _ _ _ _)). destruct Htr as [Htr _].
    pose proof (len_nonneg (head ++ unmarked C (fk_data fk) (fk_base fk) 0 a)).
    pose proof (len_nonneg (frames C (fk_data fk) (fk_base fk) (Z.of_nat (length a)) b)). lia. }
  intros file ef seed pk sk spk out Hf Hin Hp Hk Hm Hna Hac. rewrite Hfile, take_app_exact in Hf.
  unfold head in Hf. rewrite <- !app_assoc in Hf.
  destruct (honest_open C HC sender blk pks e Hb Hr Hl seed pk sk spk Hp Hin Hk (or_introl Hna) Hm _ _ _ Hf) as (d & Hod & Hos & Hau).
  assert (Hfa : Forall (fun c => 0 < len c <= h_chunk (e_hdr e)) a).
  { destruct (exists_last Hbn) as (b1 & last & ->). rewrite Hab, app_assoc in Hgc. apply good_init in Hgc. apply Forall_app in Hgc. tauto. }
  pose proof (bare_stream_accepted C (fk_data fk) (fk_base fk) (h_chunk (e_hdr e)) (trailer_check C (d_auth d) spk (fk_mac fk)) HC a 0 [] [] Hfa) as Hacc.
  destruct (decrypt_complete _ _ _ _ _ _ _ _ _ _ _ _ _ HC Hos Hac Hacc) as (d' & out' & Hdec & Hwo).
  exists d, d', out'. split; [exact Hod|]. split; [exact Hau|]. split; [exact Hdec|]. unfold wrote. rewrite Hwo, Ha. reflexivity.
Qed.
Print Assumptions C10_refuted_truncation.
(** the signed "hello world" file, cut after its first frame: B gets "hell", nil, AuthenticatedSender() = true *)
Example C10_refuted_instance : exists k, 
  opened_and_decrypted (take k file1 ++ [x80; x00; x00; x00]) skB (Some pkS) = Some (true, str "hell", Ok tt).
Proof. exists (len file1 - 64 - (4 + 3 + 16) - (4 + 4 + 16)). vm_compute. reflexivity. Qed.

(** ** C11: everything released is genuine *)
Theorem C11_released_data_genuine :
  forall C, crypto_ok C ->
  forall sender blksize pks e s file0, made C sender blksize pks e s file0 -> len s < (2^32 - 1) * h_chunk (e_hdr e) ->
  exists head cs, let fk := keys_of C (e_hdr e) (e_key e) in
    concat cs = s /\ prefix_of (head ++ frames C (fk_data fk) (fk_base fk) 0 cs) file0 /\
    forall body' file ef seed sk spk d, no_forgery C fk cs body' -> delivers file (head ++ body') ef -> keypair C seed sk ->
    no_accident C (e_hdr e) seed (e_key e) -> opened_by C file sk spk d ->
    (forall out d' out' res, decrypt C d out = (d', out', res) -> exists part, wrote out out' part /\ prefix_of part s) /\
    (forall ns d1 r d' r' rs, Forall (fun n => 0 <= n) ns -> new_stream_reader d = (d1, Ok r) -> read_all C d1 r ns = (d', r', rs) ->
       prefix_of (returned rs) s).
Proof.
  intros C HC sender blk pks e s file0 Hmade Hlen.
  destruct (made_inv _ _ _ _ _ _ _ HC Hmade) as (cs & tr & [Hb Hr Hg Hne Hl Hlt Hout Hck Hgc Hcc Htr]).
  exists (full_header (e_hdr e) ++ header_cksum C (e_hdr e)), cs. cbv zeta. set (fk := keys_of C (e_hdr e) (e_key e)) in *.
  split; [exact Hcc|]. split. { exists tr. rewrite Hout. unfold sigtool_file, body. fold fk. rewrite <- !app_assoc. reflexivity. }
  intros body' file ef seed sk spk d Hnf Hf Hk Hna Ho. rewrite <- app_assoc in Hf.
  pose proof (genuine_open _ _ _ _ _ _ _ _ _ _ _ _ HC Hb Hr Hne Hl Hf Hk Hna Ho) as Hos.
  assert (Hn : Z.of_nat (length cs) < 2^32). { eapply made_count; [|exact Hck|exact Hlen]; lia. }
  assert (H0 : (0 < length cs)%nat) by (destruct cs; [cbn in Hgc; contradiction|cbn; lia]).
  assert (Hpre : forall outs k, opened C (fk_data fk) (fk_base fk) (h_chunk (e_hdr e)) 0 body' outs -> prefix_of (take k (concat outs)) s).
  { intros outs k Hop. destruct (opened_honest C fk cs _ Hn (proj2 Hlt) _ _ _ Hop body' [] 0%nat Hnf eq_refl eq_refl H0) as (more & Hm).
    cbn [skipn] in Hm. exists (drop k (concat outs) ++ concat more). rewrite app_assoc, take_drop, <- concat_app, <- Hm. congruence. }
  split.
  - intros out d' out' res Hdec.
    pose proof (decrypt_spec _ _ _ _ _ _ _ _ _ _ _ _ _ _ HC Hos Hdec) as (_ & (outs & k & Hop & Hw) & _).
    exists (take k (concat outs)). split; [exact Hw|]. apply Hpre. exact Hop.
  - intros ns d1 r d' r' rs Hns Hsr Hra.
    destruct (stream_read_spec C _ _ _ _ _ _ _ _ _ ns HC Hos Hns) as (d2 & r2 & Hsr2 & Hall). rewrite Hsr2 in Hsr. injection Hsr as -> ->.
    destruct (Hall _ _ _ Hra) as (pieces & x & m & Hsh & (outs & k & Hop & Hpc) & _).
    rewrite (shape_returned _ _ _ _ _ Hsh), Hpc. apply Hpre. exact Hop.
Qed.
Print Assumptions C11_released_data_genuine.
(** the signed file with its first frame replaced by another one: no forgery, nothing released *)
Definition fk1 := Eval vm_compute in keys_of toy (e_hdr e1) (e_key e1).
Definition cs1 : list bytes := [str "hell"; str "o wo"; str "rld"].
Definition swapped : bytes := Eval vm_compute in
  let f i l c := frame toy (fk_data fk1) (fk_base fk1) i l c in f 1 false (str "o wo") ++ f 0 false (str "hell") ++ f 2 true (str "rld").
Example C11_instance : fk1 = keys_of toy (e_hdr e1) (e_key e1) /\ len text < (2^32 - 1) * h_chunk (e_hdr e1) /\ no_forgery toy fk1 cs1 (drop (len file1 - 64 - 71) file1) /\
  no_forgery toy fk1 cs1 swapped /\ concat cs1 = text /\
  opened_and_decrypted (take (len file1 - 64 - 71) file1 ++ drop (len file1 - 64 - 71) file1) skA (Some pkS) = Some (true, text, Ok tt) /\
  match opened_and_decrypted (take (len file1 - 64 - 71) file1 ++ swapped) skA (Some pkS) with Some (true, [], Fail _) => true | _ => false end = true.
Proof.
  split; [vm_compute; reflexivity|]. split; [vm_compute; reflexivity|]. split; [apply no_forgery_ok; vm_cast_no_check (eq_refl true)|].
  split; [apply no_forgery_ok; vm_cast_no_check (eq_refl true)|]. split; [reflexivity|]. split; vm_compute; reflexivity.
Qed.

(** ** C12: AuthenticatedSender() is backed by a signature *)
Theorem C12_authenticated_means_signed :
  forall C, crypto_ok C ->
  forall rd sk spk seed d, keypair C seed sk -> opened_by C rd sk spk d -> authenticated_sender d = true ->
  exists pk root sig, spk = Some pk /\ unwraps C (d_hdr d) seed root /\ file_sender C (d_hdr d) root = Some sig /\ len sig = 64 /\
    ed_verify C (pk_Pk pk) (sha512 C (str "sigtool signed message" ++
      sha256 C (str "SigTool" ++ [x03] ++ h_pk (d_hdr d) ++ h_salt (d_hdr d) ++ root))) sig = true.
Proof.
  intros C HC rd sk spk seed d Hk (d0 & rd' & sk' & Hn & Hs) Ha.
  destruct (new_decryptor_any _ _ _ _ Hn) as (_ & h & ck & -> & Hch & _).
  assert (Hu : unkeyed (fresh_dec h rd' ck)) by (split; [reflexivity|exact Hch]).
  destruct (set_private_key_spec _ _ _ _ _ _ _ _ HC Hu Hk Hs) as (_ & _ & root & sg & Hf & Hkd & Hv).
  unfold keyed in Hkd. cbv zeta in Hkd. subst d. cbn in Ha. subst sg. cbn [d_hdr fresh_dec] in *.
  pose proof (verify_sender_spec C h root spk HC) as Hvs. rewrite Hv in Hvs. destruct Hvs as (pk & sig & -> & _ & Hfs & _ & Hsg).
  exists pk, root, sig. split; [reflexivity|]. split; [exact Hf|]. split; [exact Hfs|]. exact Hsg.
Qed.
Print Assumptions C12_authenticated_means_signed.
Example C12_instance : exists d, opened_by toy (whole file1) skB (Some pkS) d /\ authenticated_sender d = true.
Proof. destruct C01_instance as (d & d' & out' & Ho & Ha & _). eauto. Qed.

(** ** C13: authenticated content *)
(** Decrypt returned nil with an authenticated sender: the sender's key signed the HMAC of exactly the frames output, or
    the stream was ended by the bare end marker 80 00 00 00 (then nothing but the frames' AEAD tags was checked). *)
Theorem C13_content_signed_partial :
  forall C, crypto_ok C ->
  forall rd s er sk spk seed d, delivers rd s er -> keypair C seed sk -> opened_by C rd sk spk d -> authenticated_sender d = true ->
  forall out d' out', decrypt C d out = (d', out', Ok tt) ->
  exists pk front body root chunks rest, let fk := derive_keys C root (sha256 C front) in
    spk = Some pk /\ s = front ++ sha256 C front ++ body /\ wrote out out' (concat chunks) /\
    ((exists trailer, body = frames C (fk_data fk) (fk_base fk) 0 chunks ++ trailer ++ rest /\ len trailer = 64 /\
        ed_verify C (pk_Pk pk) (sha512 C (str "sigtool signed message" ++ hmac_sha256 C (fk_mac fk) (mac_input chunks))) trailer = true) \/
     body = unmarked C (fk_data fk) (fk_base fk) 0 chunks ++ end_marker ++ rest).
Proof.
  intros C HC rd s er sk spk seed d Hd Hk Ho Ha out d' out' Hdec.
  destruct (opened_by_inv _ _ _ _ _ _ _ _ HC Hd Hk Ho) as (h & ck & rest' & root & Hos).
  pose proof (decrypt_spec _ _ _ _ _ _ _ _ _ _ _ _ _ _ HC Hos Hdec) as (_ & _ & _ & outs & rest2 & Hacc & Hw & _).
  destruct (os_header _ _ _ _ _ _ _ _ _ _ Hos) as (var & Hv). cbv zeta in Hv. destruct Hv as (Hs & Hck & _).
  pose proof (os_sender _ _ _ _ _ _ _ _ _ _ Hos) as Hvs. unfold authenticated_sender in Ha. rewrite Ha in Hvs, Hacc.
  pose proof (verify_sender_spec C h root spk HC) as Hsp. rewrite Hvs in Hsp. destruct Hsp as (pk & sig & -> & _).
  exists pk, ((str "SigTool" ++ [x03] ++ be32 (len var)) ++ var), rest', root, outs, rest2. cbv zeta.
  split; [reflexivity|]. split; [rewrite Hs, Hck, <- !app_assoc; reflexivity|]. split; [exact Hw|]. rewrite <- Hck.
  destruct (accepted_shape _ _ _ _ HC _ _ _ _ _ _ Hacc) as [(_ & tr & Hl & Ht & Hb)|Hb]; [left|right; exact Hb].
  exists tr. split; [exact Hb|]. split; [exact Hl|]. destruct (Ht eq_refl) as (pk' & Hpk & _ & Hsg). injection Hpk as <-. exact Hsg.
Qed.
Print Assumptions C13_content_signed_partial.
Example C13_instance : exists d d' out', opened_by toy (whole file1) skB (Some pkS) d /\ authenticated_sender d = true /\
  decrypt toy d dst = (d', out', Ok tt).
Proof. destruct C01_instance as (d & d' & out' & Ho & Ha & Hd & _). exists d, d', out'. auto. Qed.

(** The full property fails: whoever knows the root key of a signed file - every recipient - can put arbitrary content
    under its header: frames sealed with the derived data key and the bare end marker.  All the other recipients then
    see AuthenticatedSender() = true, Decrypt returns nil and writes the forged content. *)
Theorem C13_refuted_recipient_forges :
  forall C, crypto_ok C ->
  forall sender blksize pks e s file0, made C sender blksize pks e s file0 ->
  exists head, prefix_of head file0 /\
  forall forged, Forall (fun c => 0 < len c <= h_chunk (e_hdr e)) forged ->
  let fk := derive_keys C (e_key e) (header_cksum C (e_hdr e)) in
  forall file ef seed pk sk spk out, delivers file (head ++ unmarked C (fk_data fk) (fk_base fk) 0 forged ++ end_marker) ef ->
    In pk pks -> pubof C seed pk -> keypair C seed sk -> sender_matches C sender spk -> no_accident C (e_hdr e) seed (e_key e) ->
    accepts out -> exists d d' out', opened_by C file sk spk d /\ authenticated_sender d = signed sender /\
      decrypt C d out = (d', out', Ok tt) /\ wrote out out' (concat forged).
Proof.
  intros C HC sender blk pks e s file0 Hmade.
  destruct (made_inv _ _ _ _ _ _ _ HC Hmade) as (cs & tr & [Hb Hr Hg Hne Hl Hlt Hout Hck Hgc Hcc Htr]).
  exists (full_header (e_hdr e) ++ header_cksum C (e_hdr e)).
  split. { eexists. rewrite Hout. unfold sigtool_file. rewrite <- app_assoc. reflexivity. }
  intros forged Hfg fk file ef seed pk sk spk out Hf Hin Hp Hk Hm Hna Hac. rewrite <- app_assoc in Hf.
  destruct (honest_open C HC sender blk pks e Hb Hr Hl seed pk sk spk Hp Hin Hk (or_introl Hna) Hm _ _ _ Hf) as (d & Hod & Hos & Hau).
  pose proof (bare_stream_accepted C (fk_data fk) (fk_base fk) (h_chunk (e_hdr e)) (trailer_check C (d_auth d) spk (fk_mac fk)) HC forged 0 [] [] Hfg) as Hacc.
  rewrite app_nil_r in Hacc.
  destruct (decrypt_complete _ _ _ _ _ _ _ _ _ _ _ _ _ HC Hos Hac Hacc) as (d' & out' & Hdec & Hwo).
  exists d, d', out'. auto.
Qed.
Print Assumptions C13_refuted_recipient_forges.
Definition forge (e : encryptor) (chunks : list bytes) : bytes :=
  let fk := derive_keys toy (e_key e) (header_cksum toy (e_hdr e)) in
  full_header (e_hdr e) ++ header_cksum toy (e_hdr e) ++ unmarked toy (fk_data fk) (fk_base fk) 0 chunks ++ end_marker.
(** S never wrote "evil" *)
Example C13_refuted_instance : opened_and_decrypted (forge e1 [str "evil"]) skB (Some pkS) = Some (true, str "evil", Ok tt).
Proof. vm_compute. reflexivity. Qed.

(** ** C14: sender checks *)
Lemma regular_find_key C h seed sk r sk' : crypto_ok C -> regular C h seed -> keypair C seed sk -> find_key C h (h_keys h) sk = (r, sk') ->
  (exists root, r = Ok root /\ unwraps C h seed root) \/
  (r = Fail ErrBadKey /\ Forall (fun w => opens C h (scalar_of C seed) (ed_public C seed) w = None) (h_keys h)).
Proof.
  intros HC (H1 & H2 & H3) Hk Hf. pose proof (find_key_spec C h seed HC _ _ _ _ Hk Hf) as (_ & H). cbv zeta in H.
  destruct r as [root|x|]; [left|right|contradiction].
  - exists root. split; [reflexivity|]. destruct H as (pre & w & post & Ha & Hb & Hc & _). exists pre, w, post. auto.
  - destruct H as [(-> & H)|(pre & w & post & Hks & _ & H)]; [auto|]. exfalso.
    assert (Hw : len (w_dkey w) = 48). { rewrite Forall_forall in H3. apply H3. rewrite Hks. apply in_elt. }
    destruct H as [H|[H|H]]; contradiction.
Qed.
Lemma unwraps_det C h seed a b : unwraps C h seed a -> unwraps C h seed b -> a = b.
Proof.
  intros (p & w & q & H1 & H2 & H3) (p' & w' & q' & H1' & H2' & H3'). rewrite H1 in H1'. clear H1.
  revert p' H1' H3'. induction p as [|x p IH]; intros [|x' p'] H1' H3'; cbn [app] in H1'; injection H1' as E1 E2.
  - congruence.
  - subst. inversion H3'; congruence.
  - subst. inversion H3; congruence.
  - subst. inversion H3; inversion H3'; subst. eapply IH; eassumption.
Qed.
(** The sender field of the file (as seen by somebody who unwraps the root key) is not all zero, i.e. the file claims a
    sender: without a sender key SetPrivateKey fails with ErrNoSenderPK, with a key under which the signature in the
    field does not verify it fails with ErrBadSender, otherwise it succeeds and the sender counts as authenticated.
    Missing for the full property: a file whose sender field is 64 zero bytes, see the refutation. *)
Theorem C14_signed_file_partial :
  forall C, crypto_ok C ->
  forall rd d0 rd' seed sk spk d sk' res, new_decryptor C rd = (Ok d0, rd') -> keypair C seed sk ->
  (forall pk, spk = Some pk -> len (pk_Pk pk) = 32) -> regular C (d_hdr d0) seed ->
  set_private_key C d0 sk spk = (d, sk', res) ->
  forall root sig, unwraps C (d_hdr d0) seed root -> file_sender C (d_hdr d0) root = Some sig -> sig <> zeros 64 ->
  match spk with
  | None => exists x, res = Fail x /\ cause x = ErrNoSenderPK
  | Some pk => (signed_by C (pk_Pk pk) (sender_message C (d_hdr d0) root) sig -> res = Ok tt /\ authenticated_sender d = true) /\
               (~ signed_by C (pk_Pk pk) (sender_message C (d_hdr d0) root) sig -> exists x, res = Fail x /\ cause x = ErrBadSender)
  end.
Proof.
  intros C HC rd d0 rd' seed sk spk d sk' res Hn Hk Hpk Hreg Hs root sig Hu Hfs Hz.
  destruct (new_decryptor_any _ _ _ _ Hn) as (_ & h & ck & -> & Hch & _).
  assert (Hun : unkeyed (fresh_dec h rd' ck)) by (split; [reflexivity|exact Hch]). cbn [d_hdr fresh_dec] in *.
  destruct (set_private_key_spec _ _ _ _ _ _ _ _ HC Hun Hk Hs) as (_ & _ & H). cbn [d_hdr fresh_dec] in H.
  pose proof (verify_sender_spec C h root spk HC) as Hvs.
  destruct res as [[]|x|p].
  - destruct H as (root' & sg & Hu' & Hkd & Hv). pose proof (unwraps_det _ _ _ _ _ Hu Hu') as <-. rewrite Hv in Hvs.
    destruct sg; [|congruence]. destruct Hvs as (pk & sig' & -> & _ & Hfs' & _ & Hsg). assert (sig' = sig) as -> by congruence.
    split; [intros _; split; [reflexivity|]; unfold keyed in Hkd; rewrite Hkd; reflexivity|intros Hc; contradiction].
  - destruct H as (_ & [(_ & ks & Hf)|(root' & y & Hu' & -> & Hv)]).
    + exfalso. destruct (regular_find_key _ _ _ _ _ _ HC Hreg Hk Hf) as [(r & Hr & _)|(_ & Hnone)]; [discriminate|].
      destruct Hu as (p & w & q & Hks & Ho & _). rewrite Forall_forall in Hnone. rewrite (Hnone w) in Ho; [discriminate|]. rewrite Hks. apply in_elt.
    + pose proof (unwraps_det _ _ _ _ _ Hu Hu') as <-. rewrite Hv in Hvs.
      destruct Hvs as [Hnone|(sig' & Hfs' & _ & [(-> & ->)|(-> & pk & -> & Hns)])]; [congruence| |].
      * exists (EWrap "decrypt" ErrNoSenderPK). auto.
      * assert (sig' = sig) as -> by congruence. split; [intros Hc; contradiction|]. intros _. exists (EWrap "decrypt" ErrBadSender). auto.
  - exfalso. destruct H as (pk & -> & Hl). apply Hl. apply Hpk. reflexivity.
Qed.
Print Assumptions C14_signed_file_partial.
(** on the signed file: no key, the wrong key, the right key *)
Definition spk_result (f : bytes) (sk : privkey) (spk : option pubkey) : option (bool * res unit) :=
  match new_decryptor toy (whole f) with
  | (Ok d0, _) => match set_private_key toy d0 sk spk with (d, _, r) => Some (authenticated_sender d, r) end
  | _ => None
  end.
Example C14_instance :
  spk_result file1 skA None = Some (false, Fail (EWrap "decrypt" ErrNoSenderPK)) /\
  spk_result file1 skA (Some pkB) = Some (false, Fail (EWrap "decrypt" ErrBadSender)) /\
  spk_result file1 skA (Some pkS) = Some (true, Ok tt) /\
  regular toy (e_hdr e1) seedA /\ (exists sig, unwraps toy (e_hdr e1) seedA (e_key e1) /\ file_sender toy (e_hdr e1) (e_key e1) = Some sig /\ sig <> zeros 64).
Proof.
  split; [vm_compute; reflexivity|]. split; [vm_compute; reflexivity|]. split; [vm_compute; reflexivity|]. split.
  - split; [vm_compute; reflexivity|]. split; [apply beq_neq; vm_compute; reflexivity|].
    change (h_keys (e_hdr e1)) with [nth 0 (h_keys (e_hdr e1)) (mkWkey [] [] []); nth 1 (h_keys (e_hdr e1)) (mkWkey [] [] [])].
    apply Forall_cons; [vm_compute; reflexivity|]. apply Forall_cons; [vm_compute; reflexivity|]. apply Forall_nil.
  - exists (match file_sender toy (e_hdr e1) (e_key e1) with Some x => x | None => [] end). split.
    + exists [], (nth 0 (h_keys (e_hdr e1)) (mkWkey [] [] [])), [nth 1 (h_keys (e_hdr e1)) (mkWkey [] [] [])].
      split; [reflexivity|]. split; [vm_compute; reflexivity|constructor].
    + split; [vm_compute; reflexivity|]. apply beq_neq. vm_compute. reflexivity.
Qed.

(** The full property fails: a recipient who asks for sender [spk] - any key at all - and is given an anonymous file
    (made by anybody) gets no error: SetPrivateKey and Decrypt return nil, only AuthenticatedSender() is false. *)
Theorem C14_refuted :
  forall C, crypto_ok C ->
  forall blksize pks e s file0, made C None blksize pks e s file0 ->
  forall file ef seed pk sk spk out, delivers file file0 ef -> In pk pks -> pubof C seed pk -> keypair C seed sk ->
  no_accident C (e_hdr e) seed (e_key e) -> accepts out ->
  exists d d' out', opened_by C file sk (Some spk) d /\ authenticated_sender d = false /\ decrypt C d out = (d', out', Ok tt) /\ wrote out out' s.
Proof.
  intros C HC blk pks e s file0 Hmade file ef seed pk sk spk out Hf Hin Hp Hk Hna Hac.
  destruct (made_inv _ _ _ _ _ _ _ HC Hmade) as (cs & tr & [Hb Hr Hg Hne Hl Hlt Hout Hck Hgc Hcc Htr]). rewrite Hout in Hf.
  destruct (honest_open C HC None blk pks e Hb Hr Hl seed pk sk (Some spk) Hp Hin Hk (or_introl Hna) I _ _ _ Hf) as (d & Hod & Hos & Hau).
  destruct (honest_body_accepted C HC None blk pks e Hr (Some spk) I d cs tr [] Hau Hgc Htr) as (outs & rest & Hacc & Hcat & _).
  rewrite app_nil_r in Hacc.
  destruct (decrypt_complete _ _ _ _ _ _ _ _ _ _ _ _ _ HC Hos Hac Hacc) as (d' & out' & Hdec & Hwo).
  exists d, d', out'. split; [exact Hod|]. split; [exact Hau|]. split; [exact Hdec|]. unfold wrote. rewrite Hwo. congruence.
Qed.
Print Assumptions C14_refuted.
Example C14_refuted_instance : opened_and_decrypted file2 skA (Some pkS) = Some (false, text8, Ok tt).
Proof. vm_compute. reflexivity. Qed.

(** ** C15: who is not a recipient gets nothing *)
Theorem C15_not_a_recipient :
  forall C, crypto_ok C ->
  forall rd d0 rd' seed sk spk d sk' res, new_decryptor C rd = (Ok d0, rd') -> keypair C seed sk ->
  Forall (fun w => opens C (d_hdr d0) (scalar_of C seed) (ed_public C seed) w = None) (h_keys (d_hdr d0)) ->
  set_private_key C d0 sk spk = (d, sk', res) ->
  (exists x, res = Fail x /\ (regular C (d_hdr d0) seed -> x = ErrBadKey)) /\ authenticated_sender d = false /\
  (forall out, decrypt C d out = (d, out, Fail ErrNoKey)) /\ new_stream_reader d = (d, Fail ErrNoKey).
Proof.
  intros C HC rd d0 rd' seed sk spk d sk' res Hn Hk Hnone Hs.
  destruct (new_decryptor_any _ _ _ _ Hn) as (_ & h & ck & -> & Hch & _). cbn [d_hdr fresh_dec] in *.
  unfold set_private_key in Hs. cbn [d_hdr fresh_dec] in Hs. destruct (find_key C h (h_keys h) sk) as [r ks] eqn:Ef.
  pose proof (find_key_spec C h seed HC _ _ _ _ Hk Ef) as (_ & H). cbv zeta in H. destruct r as [root|x|]; [| |contradiction].
  { exfalso. destruct H as (pre & w & post & Hks & Ho & _). rewrite Forall_forall in Hnone. rewrite (Hnone w) in Ho; [discriminate|]. rewrite Hks. apply in_elt. }
  injection Hs as <- <- <-. split; [|split; [reflexivity|split; reflexivity]].
  exists x. split; [reflexivity|]. intros Hreg. destruct (regular_find_key _ _ _ _ _ _ HC Hreg Hk Ef) as [(y & Hy & _)|(Hy & _)]; congruence.
Qed.
Print Assumptions C15_not_a_recipient.
Example C15_instance : spk_result file1 skX (Some pkS) = Some (false, Fail ErrBadKey) /\
  Forall (fun w => opens toy (e_hdr e1) (scalar_of toy seedX) (ed_public toy seedX) w = None) (h_keys (e_hdr e1)).
Proof. split; [vm_compute; reflexivity|apply X_opens_nothing]. Qed.

(** ** C19: NewDecryptor on hostile input *)
(** any source: any data, any fragmentation, any errors, also in the middle *)
Theorem C19_new_decryptor_total :
  forall C rd res rd', new_decryptor C rd = (res, rd') ->
  0 <= Z.of_nat (rd_size rd) - Z.of_nat (rd_size rd') <= 12 + 1048576 + 32 /\
  match res with
  | Ok d => let h := d_hdr d in 1 <= h_chunk h < 2^30 /\ len (h_salt h) = 32 /\ h_keys h <> [] /\
              Forall (fun w => 32 < len (w_dkey w)) (h_keys h)
  | Fail _ => True
  | Panic _ => False
  end.
Proof.
  intros C rd res rd' H. pose proof (new_decryptor_any _ _ _ _ H) as (Hs & Hr). split; [lia|].
  destruct res as [d|x|p]; [|exact I|exact Hr]. destruct Hr as (h & ck & -> & H1 & H2 & H3 & H4 & _). cbn. auto.
Qed.
Print Assumptions C19_new_decryptor_total.
(** garbage; a file with the source failing in the middle; a header longer than what follows *)
Example C19_instance :
  match new_decryptor toy (whole (str "no sigtool file at all")) with (Fail ErrNotSigTool, _) => true | _ => false end = true /\
  match new_decryptor toy [(take 20 file1, Some (EExt 5))] with (Fail x, _) => true | _ => false end = true /\
  match new_decryptor toy (whole (str "SigTool" ++ [x03; x00; x0f; xff; xff] ++ zeros 40)) with (Fail x, _) => true | _ => false end = true /\
  match new_decryptor toy (whole file1) with (Ok d, _) => h_chunk (d_hdr d) =? 4 | _ => false end = true.
Proof. split; [|split; [|split]]; vm_compute; reflexivity. Qed.

(** ** C20: no panics *)
(** After a successful SetPrivateKey, on any source, Decrypt and any sequence of stream reads return values or errors.
    Missing for the full property: Decrypt after a failed SetPrivateKey, see the refutation (and C15 for the case
    where the private key is not a recipient's, which does report ErrNoKey). *)
Theorem C20_no_panic_partial :
  forall C, crypto_ok C ->
  forall rd seed sk spk d, keypair C seed sk -> opened_by C rd sk spk d ->
  (forall out d' out' res, decrypt C d out = (d', out', res) -> ~ exists p, res = Panic p) /\
  (forall d1 r ns d' r' rs, new_stream_reader d = (d1, Ok r) -> Forall (fun n => 0 <= n) ns -> read_all C d1 r ns = (d', r', rs) ->
     Forall (fun x => ~ exists p, snd x = Panic p) rs).
Proof.
  intros C HC rd seed sk spk d Hk Ho. destruct (opened_by_any _ _ _ _ _ _ HC Hk Ho) as (dk & base & hk & Hl & Hst & He & Hb). split.
  - intros out d' out' res H. eapply decrypt_any; eassumption.
  - intros d1 r ns d' r' rs Hn Hns H. unfold new_stream_reader in Hn. destruct (d_key d); [|discriminate]. rewrite He in Hn. injection Hn as <- <-.
    assert (Hro : rd_ok (d_set_stream d) (mkEr 0 0 0 None)).
    { constructor; cbn; try lia. exists dk, base, hk, []. destruct Hl. constructor; cbn; auto. }
    destruct (read_all_any C ns _ _ _ _ _ Hro Hns H) as (pieces & x & m & Hsh & _). rewrite Hsh.
    apply Forall_app. split; apply Forall_forall; intros y Hy.
    + apply in_map_iff in Hy. destruct Hy as (b & <- & _). intros (p & Hp). discriminate.
    + apply repeat_spec in Hy. subst y. intros (p & Hp). discriminate.
Qed.
Print Assumptions C20_no_panic_partial.
Definition opens_b (f : bytes) (sk : privkey) (spk : option pubkey) : bool :=
  match new_decryptor toy (whole f) with
  | (Ok d0, _) => match set_private_key toy d0 sk spk with (_, _, Ok _) => true | _ => false end
  | _ => false
  end.
Lemma opens_ok f sk spk : opens_b f sk spk = true -> exists d, opened_by toy (whole f) sk spk d.
Proof.
  unfold opens_b, opened_by. destruct (new_decryptor toy (whole f)) as [[d0|x|x] rd'] eqn:E; try discriminate.
  destruct (set_private_key toy d0 sk spk) as [[d sk'] [[]|x|x]] eqn:E2; try discriminate. eauto 10.
Qed.
(** the signed file's body replaced by junk: errors, no panics *)
Example C20_instance : exists d, opened_by toy (whole (take (len file1 - 100) file1 ++ zeros 100)) skB (Some pkS) d.
Proof.
  apply opens_ok. vm_compute. reflexivity.
Qed.

(** The full property fails: on any signed file, SetPrivateKey(sk, nil) by a recipient fails (ErrNoSenderPK), and
    a Decrypt after that panics (nil cipher) instead of reporting ErrNoKey, whatever the destination. *)
Theorem C20_refuted :
  forall C, crypto_ok C ->
  forall ssk blksize pks e s file0, made C (Some ssk) blksize pks e s file0 ->
  forall file ef seed pk sk, delivers file file0 ef -> In pk pks -> pubof C seed pk -> keypair C seed sk ->
  no_accident C (e_hdr e) seed (e_key e) ->
  exists d0 rd' d sk' x, new_decryptor C file = (Ok d0, rd') /\ set_private_key C d0 sk None = (d, sk', Fail x) /\
    forall out, exists d' p, decrypt C d out = (d', out, Panic p).
Proof.
  intros C HC ssk blk pks e s file0 Hmade file ef seed pk sk Hf Hin Hp Hk Hna.
  destruct (made_inv _ _ _ _ _ _ _ HC Hmade) as (cs & tr & [Hb Hr Hg Hne Hl Hlt Hout Hck Hgc Hcc Htr]). rewrite Hout in Hf.
  destruct (new_decryptor C file) as [rs rd'] eqn:En.
  pose proof (new_decryptor_spec C file _ ef _ _ HC Hf En) as Hn.
  pose proof (ready_valid_header C (Some ssk) blk pks e (body C (keys_of C (e_hdr e) (e_key e)) cs tr) HC Hb Hr Hne Hl) as Hv.
  destruct rs as [d0|x|]; [| |contradiction]. 2: { exfalso. apply Hn. do 3 eexists. exact Hv. }
  destruct Hn as (h1 & ck1 & rest1 & Hv1 & Hd0 & _). destruct (valid_header_det _ _ _ _ _ _ _ _ Hv Hv1) as (<- & <- & <-).
  destruct (ready_find_key C _ _ _ _ _ _ sk HC Hr Hp Hin Hk (or_introl Hna)) as (sk' & Hfk).
  assert (Hvs : verify_sender C (e_hdr e) (e_key e) None = Fail ErrNoSenderPK).
  { pose proof (verify_sender_spec C (e_hdr e) (e_key e) None HC) as Hx. pose proof (ready_file_sender _ _ _ _ _ HC Hr) as Hfs.
    set (sg := sender_sig _ _ _ _ _) in Hfs. assert (Hsg : sg <> zeros 64) by (subst sg; cbn [sender_sig]; apply (ok_sign_nonzero C HC)).
    destruct (verify_sender C (e_hdr e) (e_key e) None) as [[|]|x|].
    - destruct Hx as (? & ? & Hx & _). discriminate.
    - congruence.
    - destruct Hx as [Hx|(sig & _ & _ & [(-> & _)|(_ & ? & Hx & _)])]; [congruence|reflexivity|discriminate].
    - destruct Hx as (? & Hx & _). discriminate. }
  exists d0, rd'. subst d0. unfold set_private_key. cbn [d_hdr fresh_dec]. rewrite Hfk, Hvs. do 3 eexists.
  split; [reflexivity|]. split; [reflexivity|]. intros out. unfold decrypt. cbn [d_key d_stream d_eof fresh_dec]. do 2 eexists. reflexivity.
Qed.
Print Assumptions C20_refuted.
Example C20_refuted_instance :
  match new_decryptor toy (whole file1) with
  | (Ok d0, _) => match set_private_key toy d0 skA None with
                  | (d, _, Fail _) => match decrypt toy d sink with (_, _, Panic _) => true | _ => false end
                  | _ => false
                  end
  | _ => false
  end = true.
Proof. vm_compute. reflexivity. Qed.
