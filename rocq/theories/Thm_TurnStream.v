(** C84 with stream readers: files one after the other in one source, read through NewStreamReader and Read. *)
From Verif Require Import Bytes BytesLemmas GoErr GoIO Crypto CryptoLaws Keys Pb Encrypt Decrypt Stream Spec SpecIO SpecStream IOProofs EncryptProofs AcceptProofs
  DecryptProofs OpenProofs RoundTrip Support StreamProofs StreamRead Toy Scene Thm_Encrypt Thm_Decrypt Thm_Stream Thm_Consume Thm_Turn.
Local Notation length := List.length.
Local Notation concat := List.concat.

(** an opened file whose body is accepted up to [left]: whoever reads until io.EOF has the content, and the source is at [left] *)
Lemma read_to_end C t er seed spk d h ck body root outs left : crypto_ok C -> opened_state C t er seed spk d h ck body root -> h_chunk h < 2^30 ->
  let fk := derive_keys C root ck in
  accepted C (fk_data fk) (fk_base fk) (h_chunk h) (trailer_check C (d_auth d) spk (fk_mac fk)) 0 [] body outs left ->
  exists d1 r, new_stream_reader d = (d1, Ok r) /\
    forall ns d' r' rs, Forall (fun n => 0 <= n) ns -> read_all C d1 r ns = (d', r', rs) ->
      (Forall (fun n => 0 < n) ns -> len (concat outs) < Z.of_nat (length ns) -> reached_end rs) /\
      (reached_end rs -> returned rs = concat outs /\ delivers (d_rd d') left er).
Proof.
  intros HC Hos Hch fk Hacc. destruct (stream_read_complete C _ _ _ _ _ _ _ _ _ _ _ [] HC Hos Hacc ltac:(constructor)) as (d1 & r & Hn & _).
  exists d1, r. split; [exact Hn|]. intros ns d' r' rs Hns Hra. split.
  - intros Hpos Hlong. destruct (stream_read_complete C _ _ _ _ _ _ _ _ _ _ _ ns HC Hos Hacc Hns) as (d2 & r2 & Hn2 & Hall).
    rewrite Hn in Hn2. injection Hn2 as <- <-. destruct (Hall _ _ _ Hra) as (pieces & m & k & (-> & _) & _ & _ & Hm2). specialize (Hm2 Hpos Hlong).
    exists []. apply in_or_app. right. destruct m; [congruence|]. left. reflexivity.
  - intros He. destruct (stream_read_left C _ _ _ _ _ _ _ _ _ ns HC Hos Hns) as (d2 & r2 & Hn2 & Hall).
    rewrite Hn in Hn2. injection Hn2 as <- <-. destruct (Hall _ _ _ Hra) as (pieces & x & m & Hsh & _ & Heof & _).
    destruct (shape_end _ _ _ _ _ Hsh He) as (Hm & Hx). destruct (Heof Hm Hx) as (outs2 & rest2 & Hacc2 & Hc & Hd).
    destruct (accepted_det _ _ _ _ _ Hch _ _ _ _ _ Hacc _ _ Hacc2) as (-> & ->). split; [|exact Hd]. rewrite (shape_returned _ _ _ _ _ Hsh). exact Hc.
Qed.

(** one file and whatever follows it *)
Theorem C84_stream_next_file_untouched_partial :
  forall C, crypto_ok C ->
  forall sender blksize pks e s file, 0 <= blksize < 2^30 -> 1 <= len pks <= 15885 -> ends_in_data C sender blksize pks e s file ->
  forall rd extra er seed pk sk spk, delivers rd (file ++ extra) er -> In pk pks -> pubof C seed pk -> keypair C seed sk -> sender_matches C sender spk ->
  no_accident C (e_hdr e) seed (e_key e) ->
  exists d d1 r, opened_by C rd sk spk d /\ authenticated_sender d = signed sender /\ new_stream_reader d = (d1, Ok r) /\
    forall ns d' r' rs, Forall (fun n => 0 <= n) ns -> read_all C d1 r ns = (d', r', rs) ->
      (Forall (fun n => 0 < n) ns -> len s < Z.of_nat (length ns) -> reached_end rs) /\
      (reached_end rs -> returned rs = s /\ delivers (d_rd d') extra er).
Proof.
  intros C HC sender blk pks e s file Hb Hp Hend rd extra er seed pk sk spk Hrd Hin Hpk Hk Hm Hna.
  destruct (made_last C sender blk pks e s file true HC Hb Hp (matches_good _ _ _ HC Hm) Hend) as (cs & tr & [_ Hr Hg Hne Hl Hlt Hout Hck Hgc Hcc Htr] & Hlast).
  rewrite Hout in Hrd. unfold sigtool_file in Hrd. rewrite <- !app_assoc in Hrd.
  destruct (honest_open C HC sender blk pks e Hb Hr Hl seed pk sk spk Hpk Hin Hk (or_introl Hna) Hm _ _ _ Hrd) as (d & Hod & Hos & Hau).
  destruct (honest_body_accepted C HC sender blk pks e Hr spk Hm d cs tr extra Hau Hgc Htr) as (outs & rest & Hacc & Hcat & Hre & _).
  rewrite (Hre Hlast) in Hacc. destruct (read_to_end C _ _ _ _ _ _ _ _ _ _ _ HC Hos (proj2 Hlt) Hacc) as (d1 & r & Hn & H).
  replace (concat outs) with s in H by congruence. exists d, d1, r. auto.
Qed.
Print Assumptions C84_stream_next_file_untouched_partial.

(** any number of files one after the other, each decrypted or read through a stream reader until io.EOF *)
Definition consumed (C : crypto) (d : decryptor) (ns : option (list Z)) (s : bytes) (left : reader) : Prop :=
  match ns with
  | None => exists d' out', decrypt C d sink = (d', out', Ok tt) /\ w_out out' = s /\ left = d_rd d'
  | Some ns => exists d1 r d' r' rs, new_stream_reader d = (d1, Ok r) /\ read_all C d1 r ns = (d', r', rs) /\ reached_end rs /\ returned rs = s /\ left = d_rd d'
  end.
Fixpoint each_in_turn (C : crypto) (rd : reader) (sk : privkey) (want : list (option pubkey * bytes * option (list Z))) : Prop :=
  match want with
  | [] => delivers rd [] IoEOF
  | (spk, s, ns) :: want => exists d left, opened_by C rd sk spk d /\ consumed C d ns s left /\ each_in_turn C left sk want
  end.
(** a list of buffer sizes with which a content of this length can be read *)
Definition long_enough (s : bytes) (ns : option (list Z)) : Prop :=
  match ns with None => True | Some ns => Forall (fun n => 0 < n) ns /\ len s < Z.of_nat (length ns) end.
Theorem C84_many_files_any_reader_partial :
  forall C, crypto_ok C -> forall seed sk, keypair C seed sk ->
  forall files rd, Forall (fun f => let '(spk, s, ns, file) := f in file_for C seed spk s file /\ long_enough s ns) files ->
  delivers rd (concat (map snd files)) IoEOF -> each_in_turn C rd sk (map fst files).
Proof.
  intros C HC seed sk Hk. induction files as [|[[[spk s] ns] file] files IH]; intros rd Hf Hd; [exact Hd|].
  inversion Hf as [|x l Hhead Hf']; subst. destruct Hhead as ((sender & blk & pks & e & pk & Hb & Hp & He & Hin & Hpk & Hm & Hna) & Hlong).
  cbn [map fst snd List.concat each_in_turn] in *. destruct ns as [ns|]; cbn [consumed long_enough] in *.
  - destruct Hlong as [Hpos Hlong].
    destruct (C84_stream_next_file_untouched_partial C HC sender blk pks e s file Hb Hp He rd _ _ seed pk sk spk Hd Hin Hpk Hk Hm Hna) as (d & d1 & r & Ho & _ & Hn & Hx).
    destruct (read_all C d1 r ns) as [[d' r'] rs] eqn:Ea.
    assert (Hns : Forall (fun n => 0 <= n) ns) by (eapply Forall_impl; [|exact Hpos]; cbn; lia).
    destruct (Hx ns _ _ _ Hns Ea) as (H1 & H2). specialize (H1 Hpos Hlong). destruct (H2 H1) as (H3 & H4).
    exists d, (d_rd d'). split; [exact Ho|]. split; [|apply IH; assumption]. exists d1, r, d', r', rs. auto.
  - destruct (C84_next_file_untouched_partial C HC sender blk pks e s file Hb Hp He rd _ _ seed pk sk spk Hd Hin Hpk Hk Hm Hna) as (d & Ho & _ & Hdec & Hx).
    destruct (Hdec sink ltac:(split; constructor)) as (d' & out' & E). destruct (Hx _ _ _ E) as (Hw & Hr).
    exists d, (d_rd d'). split; [exact Ho|]. split; [|apply IH; assumption]. exists d', out'. auto.
Qed.
Print Assumptions C84_many_files_any_reader_partial.

(** what is missing: as with Decrypt, the last 80 bytes of a file which ends in an empty frame stay unread *)
Theorem C84_stream_refuted :
  forall C, crypto_ok C ->
  forall sender blksize pks e s file, 0 <= blksize < 2^30 -> 1 <= len pks <= 15885 -> ends_empty C sender blksize pks e s file ->
  forall rd extra er seed pk sk spk, delivers rd (file ++ extra) er -> In pk pks -> pubof C seed pk -> keypair C seed sk -> sender_matches C sender spk ->
  no_accident C (e_hdr e) seed (e_key e) ->
  exists d d1 r tail, opened_by C rd sk spk d /\ new_stream_reader d = (d1, Ok r) /\ len tail = 80 /\ (exists front, file = front ++ tail) /\
    forall ns d' r' rs, Forall (fun n => 0 <= n) ns -> read_all C d1 r ns = (d', r', rs) ->
      (Forall (fun n => 0 < n) ns -> len s < Z.of_nat (length ns) -> reached_end rs) /\
      (reached_end rs -> returned rs = s /\ delivers (d_rd d') (tail ++ extra) er).
Proof.
  intros C HC sender blk pks e s file Hb Hp Hend rd extra er seed pk sk spk Hrd Hin Hpk Hk Hm Hna.
  destruct (made_last C sender blk pks e s file false HC Hb Hp (matches_good _ _ _ HC Hm) Hend) as (cs & tr & [_ Hr Hg Hne Hl Hlt Hout Hck Hgc Hcc Htr] & Hlast).
  destruct (exists_last (l := cs)) as (init & c & ->). { intros ->. destruct Hgc. } rewrite last_app in Hlast. subst c.
  rewrite concat_app in Hcc. cbn [List.concat] in Hcc. rewrite !app_nil_r in Hcc.
  pose proof (good_init _ _ _ Hgc) as Hfi.
  set (fk := keys_of C (e_hdr e) (e_key e)) in *.
  set (seal := gcm_seal C (fk_data fk) (frame_nonce (fk_base fk) (0 + Z.of_nat (length init))) [] (frame_word [] true)).
  assert (Hfile : file = (full_header (e_hdr e) ++ header_cksum C (e_hdr e) ++ unmarked C (fk_data fk) (fk_base fk) 0 init ++ end_marker) ++ (seal ++ tr)).
  { rewrite Hout. unfold sigtool_file, body. fold fk. rewrite frames_snoc. unfold frame. fold seal. rewrite <- end_marker_word, <- !app_assoc. reflexivity. }
  rewrite Hfile in Hrd. rewrite <- !app_assoc in Hrd.
  destruct (honest_open C HC sender blk pks e Hb Hr Hl seed pk sk spk Hpk Hin Hk (or_introl Hna) Hm _ _ _ Hrd) as (d & Hod & Hos & Hau).
  pose proof (bare_stream_accepted C (fk_data fk) (fk_base fk) (h_chunk (e_hdr e)) (trailer_check C (d_auth d) spk (fk_mac fk)) HC init 0 [] (seal ++ tr ++ extra) Hfi) as Hacc.
  destruct (read_to_end C _ _ _ _ _ _ _ _ _ _ _ HC Hos (proj2 Hlt) Hacc) as (d1 & r & Hn & H).
  rewrite Hcc in H. exists d, d1, r, (seal ++ tr). split; [exact Hod|]. split; [exact Hn|]. split.
  { rewrite len_app. unfold seal. rewrite (ok_seal_len C HC). destruct Htr as (Htl & _). change (len (@nil byte)) with 0. unfold gcm_overhead. lia. }
  split; [eexists; exact Hfile|]. rewrite <- app_assoc. exact H.
Qed.
Print Assumptions C84_stream_refuted.

(** two files of the scene one after the other: the first read in pieces of 5 bytes, the second decrypted *)
Definition plan : list Z := repeat 5 12.
Example C84_stream_instance : file_for toy seedB (Some pkS) text file1 /\ long_enough text (Some plan) /\
  (exists rd, delivers rd (concat [file1; file1]) IoEOF /\ each_in_turn toy rd skB [(Some pkS, text, Some plan); (Some pkS, text, None)]) /\
  ends_empty toy None 4 [pkA; pkB] e2 text8 file2.
Proof.
  destruct C84_instance as (H1 & _ & H2 & _). split; [exact H1|].
  assert (Hl : long_enough text (Some plan)) by (split; [unfold plan; repeat constructor|vm_compute; reflexivity]).
  split; [exact Hl|]. split; [|exact H2]. exists (whole (concat [file1; file1])). split; [apply delivers_whole|].
  apply (C84_many_files_any_reader_partial toy toy_ok seedB skB kB [((Some pkS, text, Some plan), file1); ((Some pkS, text, None), file1)]).
  - repeat constructor; auto; try apply H1; try apply Hl.
  - apply delivers_whole.
Qed.
