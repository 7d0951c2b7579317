(** C76: what is decrypted as authenticated by a sender is a file that this sender made. *)
From Verif Require Import Bytes BytesLemmas GoErr GoIO SpecIO IOProofs Pb SpecPb PbProofs Crypto CryptoLaws Keys Sign
  Encrypt Decrypt Stream Spec SpecStream EncryptProofs DecryptProofs AcceptProofs OpenProofs RoundTrip StreamProofs StreamRead Hostile
  Support Toy Scene Thm_Encrypt Thm_Decrypt Thm_Session Thm_Stream Thm_Size Thm_StreamFormat Thm_Consume.
Require Import ZifyBool.
Ltac Zify.zify_post_hook ::= Z.div_mod_to_equations.
Local Notation length := List.length.
Local Notation concat := List.concat.

(** ** Specification *)
(** all the signed files that the owner of [ssk] ever made: the encryptor used, the plaintext, the file *)
Definition sent_by (C : crypto) (ssk : privkey) (sent : list (encryptor * bytes * bytes)) : Prop :=
  forall e p file, In (e, p, file) sent -> exists blk pks, made C (Some ssk) blk pks e p file.
(** [cs] are the chunks of plaintext in a file *)
Definition file_chunks (C : crypto) (e : encryptor) (p file : bytes) (cs : list bytes) : Prop :=
  (encrypt_chunks (h_chunk (e_hdr e)) cs p \/ stream_chunks (h_chunk (e_hdr e)) cs p) /\ exists tr, file = sigtool_file C (e_hdr e) (e_key e) cs tr.
(** the messages the owner has signed: of each file the header message and the trailer message; and with "sigtool sign" 64-byte digests *)
Inductive has_signed (C : crypto) (sent : list (encryptor * bytes * bytes)) : bytes -> Prop :=
| hs_header e p file : In (e, p, file) sent -> has_signed C sent (sender_message C (e_hdr e) (e_key e))
| hs_trailer e p file cs : In (e, p, file) sent -> file_chunks C e p file cs ->
    has_signed C sent (hmac_sha256 C (fk_mac (keys_of C (e_hdr e) (e_key e))) (mac_input cs))
| hs_digest m : len m = 64 -> has_signed C sent m.
(** Somebody accepted a file beginning with [front] and its checksum, with root key [root] and chunks [chunks]: they are the header, the root key
    and the chunks of a file that was sent, or one of these has been broken, at the two given arguments:
    HMAC-SHA256, the HKDF of the file keys, SHA-256; or an HMAC equals the SHA-256 digest of a header message. *)
Definition genuine_or_broken (C : crypto) (sent : list (encryptor * bytes * bytes)) (front root : bytes) (chunks : list bytes) : Prop :=
  exists e p file cs, In (e, p, file) sent /\ file_chunks C e p file cs /\
  let k := derive_keys C root (sha256 C front) in let k0 := keys_of C (e_hdr e) (e_key e) in
  (front = full_header (e_hdr e) /\ root = e_key e /\ chunks = cs /\ concat chunks = p) \/
  ((fk_mac k <> fk_mac k0 \/ mac_input chunks <> mac_input cs) /\ hmac_sha256 C (fk_mac k) (mac_input chunks) = hmac_sha256 C (fk_mac k0) (mac_input cs)) \/
  ((root <> e_key e \/ sha256 C front <> header_cksum C (e_hdr e)) /\ fk_mac k = fk_mac k0) \/
  (front <> full_header (e_hdr e) /\ sha256 C front = header_cksum C (e_hdr e)) \/
  hmac_sha256 C (fk_mac k) (mac_input chunks) = sender_message C (e_hdr e) (e_key e).

(** ** Proofs *)
Lemma mac_input_inj : forall cs cs', cs <> [] -> cs' <> [] -> Forall (fun c => len c < 2^31) cs -> Forall (fun c => len c < 2^31) cs' ->
  mac_input cs = mac_input cs' -> cs = cs'.
Proof.
  induction cs as [|c cs IH]; intros cs' N N' F F' E; [contradiction|]. destruct cs' as [|c' cs']; [contradiction|].
  inversion F as [|x l Fc Fr]; subst. inversion F' as [|x l Fc' Fr']; subst.
  assert (G : exists l r l' r', mac_input (c :: cs) = frame_word c l ++ c ++ r /\ mac_input (c' :: cs') = frame_word c' l' ++ c' ++ r' /\
    (l = true -> cs = [] /\ r = []) /\ (l = false -> cs <> [] /\ r = mac_input cs) /\ (l' = true -> cs' = [] /\ r' = []) /\ (l' = false -> cs' <> [] /\ r' = mac_input cs')).
  { exists (match cs with [] => true | _ => false end), (match cs with [] => [] | _ => mac_input cs end),
      (match cs' with [] => true | _ => false end), (match cs' with [] => [] | _ => mac_input cs' end).
    split; [destruct cs; [cbn; rewrite app_nil_r|]; reflexivity|]. split; [destruct cs'; [cbn; rewrite app_nil_r|]; reflexivity|].
    destruct cs, cs'; (split; [|split; [|split]]); intros X; try discriminate X; split; try reflexivity; discriminate. }
  destruct G as (l & r & l' & r' & G1 & G2 & A & B & A' & B'). rewrite G1, G2 in E.
  apply app_inj_len in E; [|unfold frame_word; rewrite !len_be32; reflexivity]. destruct E as (E1 & E2).
  apply frame_word_inj in E1; [|assumption|assumption]. destruct E1 as (E1 & ->). apply app_inj_len in E2; [|exact E1]. destruct E2 as (-> & E2).
  destruct l'.
  - destruct (A eq_refl) as (-> & _), (A' eq_refl) as (-> & _). reflexivity.
  - destruct (B eq_refl) as (X & ->), (B' eq_refl) as (X' & ->). f_equal. apply IH; assumption.
Qed.
Lemma good_bound n cs : n < 2^30 -> good_chunks n cs -> cs <> [] /\ Forall (fun c => len c < 2^31) cs.
Proof.
  intros Hn. induction cs as [|c cs IH]; [intros []|]. intros H. split; [discriminate|]. destruct cs as [|c2 cs].
  - cbn in H. constructor; [lia|constructor].
  - apply good_chunks_cons in H. destruct H as (H1 & H2). constructor; [lia|]. apply IH. exact H2.
Qed.
Lemma accepted_bound C dk base chunk tok i m s outs rest : chunk < 2^30 -> accepted C dk base chunk tok i m s outs rest -> Forall (fun c => len c < 2^31) outs.
Proof. intros Hc. induction 1 as [i m rest|i m c pt tr rest (Hf & _)|i m c pt s outs rest (Hf & _) _ IH]; constructor; try constructor; try lia; assumption. Qed.

Lemma origin C (HC : crypto_ok C) ssk sent front root chunks : sent_by C ssk sent -> chunks <> [] -> Forall (fun c => len c < 2^31) chunks ->
  has_signed C sent (hmac_sha256 C (fk_mac (derive_keys C root (sha256 C front))) (mac_input chunks)) -> genuine_or_broken C sent front root chunks.
Proof.
  intros Hsent Hne Hb H. inversion H as [e p file Hin Hm|e p file cs Hin Hcs Hm|m Hm Em].
  - destruct (Hsent _ _ _ Hin) as (blk & pks & Hmade). destruct (made_inv _ _ _ _ _ _ _ HC Hmade) as (cs & tr & M).
    exists e, p, file, cs. split; [exact Hin|]. split; [split; [exact (mf_cs _ _ _ _ _ _ _ _ _ M)|exists tr; exact (mf_file _ _ _ _ _ _ _ _ _ M)]|].
    cbv zeta. do 4 right. symmetry. exact Hm.
  - exists e, p, file, cs. split; [exact Hin|]. split; [exact Hcs|]. cbv zeta. set (k := derive_keys C root (sha256 C front)) in *. set (k0 := keys_of C (e_hdr e) (e_key e)) in *.
    destruct (list_eq_dec Byte.byte_eq_dec (fk_mac k) (fk_mac k0)) as [Ek|Nk]; [|right; left; split; [left; exact Nk|symmetry; exact Hm]].
    destruct (list_eq_dec Byte.byte_eq_dec (mac_input chunks) (mac_input cs)) as [Ei|Ni]; [|right; left; split; [right; exact Ni|symmetry; exact Hm]].
    destruct (list_eq_dec Byte.byte_eq_dec root (e_key e)) as [Er|Nr]; [|right; right; left; split; [left; exact Nr|exact Ek]].
    destruct (list_eq_dec Byte.byte_eq_dec (sha256 C front) (header_cksum C (e_hdr e))) as [Es|Ns]; [|right; right; left; split; [right; exact Ns|exact Ek]].
    destruct (list_eq_dec Byte.byte_eq_dec front (full_header (e_hdr e))) as [Ef|Nf]; [|do 3 right; left; split; assumption].
    left. destruct (Hsent _ _ _ Hin) as (blk & pks & Hmade). destruct (made_inv _ _ _ _ _ _ _ HC Hmade) as (cs' & tr & M).
    pose proof (mf_chunk _ _ _ _ _ _ _ _ _ M) as Hch. destruct Hcs as (Hcs & _).
    assert (G : good_chunks (h_chunk (e_hdr e)) cs /\ concat cs = p) by (destruct Hcs as [X|X]; [apply chunked_good in X|apply stream_good in X]; (exact X || lia)).
    destruct G as (G & Gp). destruct (good_bound _ _ (proj2 Hch) G) as (N' & F'). assert (chunks = cs) as -> by (apply mac_input_inj; assumption). auto.
  - exfalso. subst m. rewrite (ok_hmac_len C HC) in Hm. discriminate Hm.
Qed.

(** Full property: if Decrypt succeeds with AuthenticatedSender() = true, what it wrote is the whole plaintext of a file which that sender made, and the
    file's header is that file's header - also if the received file was put together by somebody who knows the root key, from whatever files the
    sender ever made - unless the trailer is a forged signature or a hash function is broken at the arguments in question.  Missing: streams that end
    with the bare end marker (C13_refuted_recipient_forges). *)
Theorem C76_origin_partial :
  forall C, crypto_ok C ->
  forall rd s er sk spk seed d, delivers rd s er -> keypair C seed sk -> opened_by C rd sk spk d -> authenticated_sender d = true ->
  forall out d' out', decrypt C d out = (d', out', Ok tt) ->
  exists pk front body root chunks rest, let fk := derive_keys C root (sha256 C front) in
    spk = Some pk /\ s = front ++ sha256 C front ++ body /\ wrote out out' (concat chunks) /\
    (body = unmarked C (fk_data fk) (fk_base fk) 0 chunks ++ end_marker ++ rest \/
     exists trailer, body = frames C (fk_data fk) (fk_base fk) 0 chunks ++ trailer ++ rest /\
       let message := hmac_sha256 C (fk_mac fk) (mac_input chunks) in
       signed_by C (pk_Pk pk) message trailer /\
       forall ssk sent, sent_by C ssk sent -> has_signed C sent message -> genuine_or_broken C sent front root chunks).
Proof.
  intros C HC rd s er sk spk seed d Hd Hk Ho Ha out d' out' Hdec.
  destruct (opened_by_inv _ _ _ _ _ _ _ _ HC Hd Hk Ho) as (h & ck & rest' & root & Hos).
  pose proof (decrypt_spec _ _ _ _ _ _ _ _ _ _ _ _ _ _ HC Hos Hdec) as (_ & _ & _ & outs & rest2 & Hacc & Hw & _).
  destruct (os_header _ _ _ _ _ _ _ _ _ _ Hos) as (var & Hv). cbv zeta in Hv. destruct Hv as (Hs & Hck & _ & _ & _ & Hch & _).
  pose proof (os_sender _ _ _ _ _ _ _ _ _ _ Hos) as Hvs. unfold authenticated_sender in Ha. rewrite Ha in Hvs, Hacc.
  pose proof (verify_sender_spec C h root spk HC) as Hsp. rewrite Hvs in Hsp. destruct Hsp as (pk & sig & -> & _).
  exists pk, ((str "SigTool" ++ [x03] ++ be32 (len var)) ++ var), rest', root, outs, rest2. cbv zeta.
  split; [reflexivity|]. split; [rewrite Hs, Hck, <- !app_assoc; reflexivity|]. split; [exact Hw|]. rewrite <- Hck.
  destruct (accepted_shape _ _ _ _ HC _ _ _ _ _ _ Hacc) as [(Hne & tr & Hl & Ht & Hb)|Hb]; [right|left; exact Hb].
  exists tr. split; [exact Hb|]. destruct (Ht eq_refl) as (pk' & Hpk & Hsg). injection Hpk as <-. split; [exact Hsg|].
  intros ssk sent Hsent Hm. apply (origin C HC ssk sent _ root outs Hsent Hne); [|rewrite <- Hck; exact Hm]. eapply accepted_bound; [|exact Hacc]. lia.
Qed.
Print Assumptions C76_origin_partial.

(** the same for the stream reader, when it has returned io.EOF *)
Theorem C76_stream_origin_partial :
  forall C, crypto_ok C ->
  forall rd s er sk spk seed d, delivers rd s er -> keypair C seed sk -> opened_by C rd sk spk d -> authenticated_sender d = true ->
  forall ns d1 r d' r' rs, Forall (fun n => 0 <= n) ns -> new_stream_reader d = (d1, Ok r) -> read_all C d1 r ns = (d', r', rs) -> reached_end rs ->
  exists pk front body root chunks rest, let fk := derive_keys C root (sha256 C front) in
    spk = Some pk /\ s = front ++ sha256 C front ++ body /\ returned rs = concat chunks /\
    (body = unmarked C (fk_data fk) (fk_base fk) 0 chunks ++ end_marker ++ rest \/
     exists trailer, body = frames C (fk_data fk) (fk_base fk) 0 chunks ++ trailer ++ rest /\
       let message := hmac_sha256 C (fk_mac fk) (mac_input chunks) in
       signed_by C (pk_Pk pk) message trailer /\
       forall ssk sent, sent_by C ssk sent -> has_signed C sent message -> genuine_or_broken C sent front root chunks).
Proof.
  intros C HC rd s er sk spk seed d Hd Hk Ho Ha ns d1 r d' r' rs Hns Hsr Hra Hre.
  destruct (opened_by_inv _ _ _ _ _ _ _ _ HC Hd Hk Ho) as (h & ck & rest' & root & Hos).
  destruct (stream_read_spec C _ _ _ _ _ _ _ _ _ ns HC Hos Hns) as (d2 & r2 & Hsr2 & Hall). rewrite Hsr2 in Hsr. injection Hsr as -> ->.
  destruct (Hall _ _ _ Hra) as (pieces & x & m & Hsh & _ & Hend & _).
  destruct (shape_end _ _ _ _ _ Hsh Hre) as [Hm ->]. destruct (Hend Hm eq_refl) as (outs & rest2 & Hacc & Hw). cbv zeta in Hacc.
  destruct (os_header _ _ _ _ _ _ _ _ _ _ Hos) as (var & Hv). cbv zeta in Hv. destruct Hv as (Hs & Hck & _ & _ & _ & Hch & _).
  pose proof (os_sender _ _ _ _ _ _ _ _ _ _ Hos) as Hvs. unfold authenticated_sender in Ha. rewrite Ha in Hvs, Hacc.
  pose proof (verify_sender_spec C h root spk HC) as Hsp. rewrite Hvs in Hsp. destruct Hsp as (pk & sig & -> & _).
  exists pk, ((str "SigTool" ++ [x03] ++ be32 (len var)) ++ var), rest', root, outs, rest2. cbv zeta.
  split; [reflexivity|]. split; [rewrite Hs, Hck, <- !app_assoc; reflexivity|].
  split; [rewrite (shape_returned _ _ _ _ _ Hsh); exact Hw|]. rewrite <- Hck.
  destruct (accepted_shape _ _ _ _ HC _ _ _ _ _ _ Hacc) as [(Hne & tr & Hl & Ht & Hb)|Hb]; [right|left; exact Hb].
  exists tr. split; [exact Hb|]. destruct (Ht eq_refl) as (pk' & Hpk & Hsg). injection Hpk as <-. split; [exact Hsg|].
  intros ssk sent Hsent Hms. apply (origin C HC ssk sent _ root outs Hsent Hne); [|rewrite <- Hck; exact Hms]. eapply accepted_bound; [|exact Hacc]. lia.
Qed.
Print Assumptions C76_stream_origin_partial.
Print Assumptions C76_stream_origin_partial.
(** the hypotheses are met: the sender made file1, B opens it as authenticated and decrypts it; the trailer's message is one the sender has signed *)
Definition sent1 : list (encryptor * bytes * bytes) := [(e1, text, file1)].
Example C76_instance : sent_by toy skS sent1 /\
  (exists d d' out', opened_by toy (whole file1) skB (Some pkS) d /\ authenticated_sender d = true /\ decrypt toy d dst = (d', out', Ok tt)) /\
  exists cs, has_signed toy sent1 (hmac_sha256 toy (fk_mac (keys_of toy (e_hdr e1) (e_key e1))) (mac_input cs)) /\ concat cs = text.
Proof.
  split; [intros e p file [X|[]]; injection X as <- <- <-; exists 4, [pkA; pkB]; exact made1|]. split; [exact C13_instance|].
  destruct (made_inv _ _ _ _ _ _ _ toy_ok made1) as (cs & tr & M). exists cs. split; [|exact (mf_cat _ _ _ _ _ _ _ _ _ M)].
  apply (hs_trailer toy sent1 e1 text file1 cs); [left; reflexivity|]. split; [exact (mf_cs _ _ _ _ _ _ _ _ _ M)|exists tr; exact (mf_file _ _ _ _ _ _ _ _ _ M)].
Qed.
