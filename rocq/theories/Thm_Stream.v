(** Theorems on the streaming interface: C02, C03, C27, C28, C29. *)
From Verif Require Import Bytes BytesLemmas GoErr GoIO SpecIO IOProofs Pb SpecPb PbProofs Crypto CryptoLaws Keys Sign
  Encrypt Decrypt Stream Spec SpecStream EncryptProofs DecryptProofs AcceptProofs OpenProofs RoundTrip StreamProofs StreamRead Hostile
  Support Toy Scene Thm_Encrypt Thm_Decrypt.
Require Import ZifyBool.
Ltac Zify.zify_post_hook ::= Z.div_mod_to_equations.
Local Notation length := List.length.
Local Notation concat := List.concat.

(** ** C02: streaming round trip *)
(** A stream writer on a healthy destination takes any sequence of Writes, each of which reports the full length of its
    argument, and Close succeeds. *)
Theorem C02_stream_writes_succeed :
  forall C, crypto_ok C ->
  forall sender blksize pks g e g', 0 <= blksize -> len pks < 2^40 ->
  (forall sk, sender = Some sk -> len (sk_Sk sk) = 64) -> session C sender blksize pks g e g' ->
  forall wr, accepts wr -> exists e1 wr1 w1, new_stream_writer C e wr = (e1, wr1, Ok w1) /\
    forall bs, exists e2 wr2 g2 w2 e3 wr3 g3 w3,
      write_all C e1 wr1 g' w1 bs = (e2, wr2, g2, w2, map (fun b => (len b, Ok tt)) bs) /\
      ew_close C e2 wr2 g2 w2 = (e3, wr3, g3, w3, Ok tt).
Proof.
  intros C HC sender blk pks g e g' Hb Hp Hg Hs wr [Hac Hcl].
  pose proof (session_ready _ _ _ _ _ _ _ HC Hg Hs) as Hr. pose proof (header_small _ _ _ _ _ HC Hb Hr Hp) as Hl.
  assert (Hno : forall (w1 : writer) x, (exists m y, In (m, Some y) (w_sched w1) /\ cause x = cause y) ->
            Forall (fun p => snd p = None) (w_sched w1) -> False).
  { intros w1 x (m & y & Hin & _) Hf. rewrite Forall_forall in Hf. specialize (Hf _ Hin). discriminate. }
  assert (Hlater : forall w1 w2, later w1 w2 -> Forall (fun p => snd p = None) (w_sched w1) -> Forall (fun p => snd p = None) (w_sched w2)).
  { intros w1 w2 Hlt Hf. destruct Hlt as ((pre & Hpre) & _). rewrite Hpre in Hf. apply Forall_app in Hf. tauto. }
  destruct (new_stream_writer C e wr) as [[e1 wr1] rs] eqn:En.
  pose proof (new_stream_writer_spec _ _ _ _ _ _ _ _ _ HC Hg Hb Hr Hl En) as (Hlt & H). cbv zeta in H.
  destruct rs as [w1|x|]; [| |contradiction].
  2: { exfalso. destruct H as (_ & H). eapply Hno; eassumption. }
  destruct H as (e0 & Hok & _). exists e1, wr1, w1. split; [reflexivity|]. intros bs.
  pose proof (Hlater _ _ Hlt Hac) as Hac1.
  destruct (write_all C e1 wr1 g' w1 bs) as [[[[e2 wr2] g2] w2] rs] eqn:Ew.
  pose proof (write_all_spec C e0 _ _ _ _ HC _ _ _ _ _ _ _ _ _ _ _ Hok Ew) as (Hlt2 & -> & Hw).
  destruct Hw as [(-> & Hok2)|(x & pre & b & post & _ & _ & _ & Hx & _)]; [|exfalso; eapply Hno; eassumption].
  destruct (ew_close C e2 wr2 g' w2) as [[[[e3 wr3] g3] w3] rc] eqn:Ec.
  exists e2, wr2, g', w2, e3, wr3, g3, w3. split; [reflexivity|]. rewrite Ec.
  pose proof (ew_close_spec _ _ _ _ _ _ _ _ _ _ _ _ _ _ _ _ HC Hok2 Ec) as (_ & cs & _ & Hc).
  destruct (the_trailer C e0 _ (mac_input cs) g') as [tr gx]. destruct rc as [[]|x|]; [reflexivity| |contradiction].
  exfalso. pose proof (Hlater _ _ Hlt2 Hac1) as Hac2. destruct Hc as (_ & [(_ & Hx)|(_ & Hx)]); [eapply Hno; eassumption|].
  assert (Hc2 : w_closes wr2 = w_closes wr) by (destruct Hlt as (_ & H1 & _), Hlt2 as (_ & H2 & _); congruence).
  rewrite Hc2 in Hx. rewrite Forall_forall in Hcl. specialize (Hcl _ Hx). discriminate.
Qed.
Print Assumptions C02_stream_writes_succeed.

(** what a reader of produced files sees, through Decrypt and through the stream reader *)
Lemma made_readable C sender blksize pks e s file0 : crypto_ok C -> made C sender blksize pks e s file0 ->
  forall file ef seed pk sk spk, delivers file file0 ef -> In pk pks -> pubof C seed pk -> keypair C seed sk -> sender_matches C sender spk ->
  no_accident C (e_hdr e) seed (e_key e) ->
  exists d, opened_by C file sk spk d /\ authenticated_sender d = signed sender /\
    (forall out, accepts out -> exists d' out', decrypt C d out = (d', out', Ok tt) /\ wrote out out' s) /\
    (exists d1 r, new_stream_reader d = (d1, Ok r) /\
     forall ns d' r' rs, Forall (fun n => 0 < n) ns -> read_all C d1 r ns = (d', r', rs) ->
     exists pieces m, rs = map (fun b => (b, Ok tt)) pieces ++ repeat ([], Fail IoEOF) m /\ prefix_of (concat pieces) s /\
       (m <> O -> concat pieces = s) /\ (len s < Z.of_nat (length ns) -> m <> O)).
Proof.
  intros HC Hmade file ef seed pk sk spk Hf Hin Hp Hk Hm Hna.
  destruct (made_inv _ _ _ _ _ _ _ HC Hmade) as (cs & tr & [Hb Hr Hg Hne Hl Hlt Hout Hck Hgc Hcc Htr]). rewrite Hout in Hf.
  destruct (honest_open C HC sender blksize pks e Hb Hr Hl seed pk sk spk Hp Hin Hk (or_introl Hna) Hm _ _ _ Hf) as (d & Hod & Hos & Hau).
  destruct (honest_body_accepted C HC sender blksize pks e Hr spk Hm d cs tr [] Hau Hgc Htr) as (outs & rest & Hacc & Hcat & _).
  rewrite app_nil_r in Hacc. assert (Hos' : concat outs = s) by congruence.
  exists d. split; [exact Hod|]. split; [exact Hau|]. split.
  - intros out Hac. destruct (decrypt_complete _ _ _ _ _ _ _ _ _ _ _ _ _ HC Hos Hac Hacc) as (d' & out' & Hdec & Hwo).
    exists d', out'. split; [exact Hdec|]. unfold wrote. congruence.
  - destruct (stream_read_complete C _ _ _ _ _ _ _ _ _ _ _ [] HC Hos Hacc ltac:(constructor)) as (d1 & r & Hn & _).
    exists d1, r. split; [exact Hn|]. intros ns d' r' rs Hns Hra.
    assert (Hns0 : Forall (fun n => 0 <= n) ns) by (eapply Forall_impl; [|exact Hns]; cbn; lia).
    destruct (stream_read_complete C _ _ _ _ _ _ _ _ _ _ _ ns HC Hos Hacc Hns0) as (d2 & r2 & Hn2 & Hall).
    rewrite Hn in Hn2. injection Hn2 as <- <-. destruct (Hall _ _ _ Hra) as (pieces & m & k & Hsh & Hpc & Hm1 & Hm2).
    exists pieces, m. split; [apply Hsh|]. rewrite Hos' in *. split; [exists (drop k s); rewrite Hpc, take_drop; reflexivity|]. auto.
Qed.

(** any file written by the stream writer, read back with any positive buffer sizes by any recipient *)
Theorem C02_stream_round_trip :
  forall C, crypto_ok C ->
  forall sender blksize pks e s file0, 0 <= blksize < 2^30 -> 1 <= len pks <= 15885 -> made_by_stream C sender blksize pks e s file0 ->
  forall file ef seed pk sk spk, delivers file file0 ef -> In pk pks -> pubof C seed pk -> keypair C seed sk -> sender_matches C sender spk ->
  no_accident C (e_hdr e) seed (e_key e) ->
  exists d d1 r, opened_by C file sk spk d /\ authenticated_sender d = signed sender /\ new_stream_reader d = (d1, Ok r) /\
    forall ns d' r' rs, Forall (fun n => 0 < n) ns -> read_all C d1 r ns = (d', r', rs) ->
    exists pieces m, rs = map (fun b => (b, Ok tt)) pieces ++ repeat ([], Fail IoEOF) m /\ prefix_of (concat pieces) s /\
      (m <> O -> concat pieces = s) /\ (len s < Z.of_nat (length ns) -> m <> O).
Proof.
  intros C HC sender blk pks e s file0 Hb Hp Hmade file ef seed pk sk spk Hf Hin Hpk Hk Hm Hna.
  assert (Hmd : made C sender blk pks e s file0) by (split; [exact Hb|]; split; [exact Hp|]; split; [apply (matches_good _ _ _ HC Hm)|auto]).
  destruct (made_readable C _ _ _ _ _ _ HC Hmd _ _ _ _ _ _ Hf Hin Hpk Hk Hm Hna) as (d & H1 & H2 & _ & d1 & r & H3 & H4).
  exists d, d1, r. auto.
Qed.
Print Assumptions C02_stream_round_trip.

(** "hel", "", "lo worl", "d" written; 4-byte chunks; read back 3 bytes at a time *)
Definition stream_scene (e : encryptor) (bs : list bytes) : option bytes :=
  match new_stream_writer toy e dst with
  | (e1, w1, Ok s1) =>
      match write_all toy e1 w1 g1 s1 bs with
      | (e2, w2, g2, s2, _) => match ew_close toy e2 w2 g2 s2 with (_, w3, _, _, Ok _) => Some (w_out w3) | _ => None end
      end
  | _ => None
  end.
Definition pieces1 : list bytes := [str "hel"; []; str "lo worl"; str "d"].
Definition file3 : bytes := Eval vm_compute in match stream_scene e1 pieces1 with Some f => f | None => [] end.
Lemma stream_scene_made sender blk pks e bs f : session toy sender blk pks g0 e g1 -> stream_scene e bs = Some f ->
  made_by_stream toy sender blk pks e (concat bs) f.
Proof.
  intros Hs H. unfold stream_scene in H. destruct (new_stream_writer toy e dst) as [[e1 w1] [s1|x|x]] eqn:E1; try discriminate H.
  destruct (write_all toy e1 w1 g1 s1 bs) as [[[[e2 w2] g2] s2] rs] eqn:E2.
  destruct (ew_close toy e2 w2 g2 s2) as [[[[e3 w3] g3] s3] [[]|x|x]] eqn:E3; try discriminate H. injection H as <-.
  exists g0, g1, dst, e1, w1, s1, bs, e2, w2, g2, s2, rs, e3, w3, g3, s3. repeat split; auto.
Qed.
Lemma file3_made : made_by_stream toy (Some skS) 4 [pkA; pkB] e1 text file3.
Proof. apply (stream_scene_made _ _ _ _ pieces1); [apply session1|vm_compute; reflexivity]. Qed.
Definition streamed (f : bytes) (sk : privkey) (spk : option pubkey) (ns : list Z) : option (list (bytes * res unit)) :=
  match new_decryptor toy (whole f) with
  | (Ok d0, _) => match set_private_key toy d0 sk spk with
                  | (d, _, Ok _) => match new_stream_reader d with
                                    | (d1, Ok r) => match read_all toy d1 r ns with (_, _, rs) => Some rs end
                                    | _ => None
                                    end
                  | _ => None
                  end
  | _ => None
  end.
Example C02_instance : made_by_stream toy (Some skS) 4 [pkA; pkB] e1 text file3 /\
  streamed file3 skB (Some pkS) [3; 3; 3; 3; 3; 3; 3] =
    Some [(str "hel", Ok tt); (str "l", Ok tt); (str "o w", Ok tt); (str "o", Ok tt); (str "rld", Ok tt); ([], Fail IoEOF); ([], Fail IoEOF)].
Proof. split; [apply file3_made|vm_compute; reflexivity]. Qed.

(** ** C03: the two interfaces understand each other's files *)
Theorem C03_stream_file_decrypts :
  forall C, crypto_ok C ->
  forall sender blksize pks e s file0, 0 <= blksize < 2^30 -> 1 <= len pks <= 15885 -> made_by_stream C sender blksize pks e s file0 ->
  forall file ef seed pk sk spk, delivers file file0 ef -> In pk pks -> pubof C seed pk -> keypair C seed sk -> sender_matches C sender spk ->
  no_accident C (e_hdr e) seed (e_key e) ->
  exists d, opened_by C file sk spk d /\ authenticated_sender d = signed sender /\
    forall out, accepts out -> exists d' out', decrypt C d out = (d', out', Ok tt) /\ wrote out out' s.
Proof.
  intros C HC sender blk pks e s file0 Hb Hp Hmade file ef seed pk sk spk Hf Hin Hpk Hk Hm Hna.
  assert (Hmd : made C sender blk pks e s file0) by (split; [exact Hb|]; split; [exact Hp|]; split; [apply (matches_good _ _ _ HC Hm)|auto]).
  destruct (made_readable C _ _ _ _ _ _ HC Hmd _ _ _ _ _ _ Hf Hin Hpk Hk Hm Hna) as (d & H1 & H2 & H3 & _).
  exists d. auto.
Qed.
Print Assumptions C03_stream_file_decrypts.
Theorem C03_encrypted_file_streams :
  forall C, crypto_ok C ->
  forall sender blksize pks e s file0, 0 <= blksize < 2^30 -> 1 <= len pks <= 15885 -> made_by_encrypt C sender blksize pks e s file0 ->
  forall file ef seed pk sk spk, delivers file file0 ef -> In pk pks -> pubof C seed pk -> keypair C seed sk -> sender_matches C sender spk ->
  no_accident C (e_hdr e) seed (e_key e) ->
  exists d d1 r, opened_by C file sk spk d /\ authenticated_sender d = signed sender /\ new_stream_reader d = (d1, Ok r) /\
    forall ns d' r' rs, Forall (fun n => 0 < n) ns -> read_all C d1 r ns = (d', r', rs) ->
    exists pieces m, rs = map (fun b => (b, Ok tt)) pieces ++ repeat ([], Fail IoEOF) m /\ prefix_of (concat pieces) s /\
      (m <> O -> concat pieces = s) /\ (len s < Z.of_nat (length ns) -> m <> O).
Proof.
  intros C HC sender blk pks e s file0 Hb Hp Hmade file ef seed pk sk spk Hf Hin Hpk Hk Hm Hna.
  assert (Hmd : made C sender blk pks e s file0) by (split; [exact Hb|]; split; [exact Hp|]; split; [apply (matches_good _ _ _ HC Hm)|auto]).
  destruct (made_readable C _ _ _ _ _ _ HC Hmd _ _ _ _ _ _ Hf Hin Hpk Hk Hm Hna) as (d & H1 & H2 & _ & d1 & r & H3 & H4).
  exists d, d1, r. auto.
Qed.
Print Assumptions C03_encrypted_file_streams.
(** the file whose last frame is empty (plaintext a multiple of the chunk size), streamed; the streamed file, decrypted *)
Example C03_instance :
  made_by_encrypt toy None 4 [pkA; pkB] e2 text8 file2 /\
  streamed file2 skA None [8; 8; 8] = Some [(str "hell", Ok tt); (str "oooo", Ok tt); ([], Fail IoEOF)] /\
  opened_and_decrypted file3 skA (Some pkS) = Some (true, text, Ok tt).
Proof.
  split; [|split; vm_compute; reflexivity]. destruct made2 as (_ & _ & _ & [H|H]); [exact H|].
  destruct file2_made as (e & r & w & g & He & Hw). exists g0, g1, src8, IoEOF, dst, e, r, w, g.
  split; [apply session2|]. split; [apply src8_delivers|]. auto.
Qed.

(** ** C27: discipline of the stream writer *)
Lemma write_ops_err C e w g s x ops : ew_err s = Some x ->
  write_ops C e w g s ops = (e, w, g, s, map (fun _ => (0, Fail x)) ops).
Proof.
  intros Hx. induction ops as [|[b|] ops IH]; cbn [write_ops map]; [reflexivity| |].
  - unfold ew_write. rewrite Hx, IH. reflexivity.
  - rewrite (ew_close_err C e w g s x Hx), IH. reflexivity.
Qed.
Lemma ew_loop_fail C fuel : forall e w g s b e' w' g' s' x, ew_loop C fuel e w g s b = (e', w', g', s', Fail x) -> ew_err s' = Some x.
Proof.
  induction fuel as [|fuel IH]; intros e w g s b e' w' g' s' x H; destruct b as [|b0 b]; cbn [ew_loop] in H; try discriminate.
  cbv zeta in H. destruct (_ && _).
  - destruct (enc_block C e _ w (ew_blk s) false g) as [[[e1 w1] g1] [[]|y|y]]; [eapply IH; exact H| |discriminate].
    injection H as <- <- <- <- <-. reflexivity.
  - eapply IH. exact H.
Qed.
(** After a failed Write, a failed Close or a successful Close, every later Write or Close - any number, in any order -
    returns 0 and the recorded error, and changes neither the destination nor the encryptor. The recorded error is the
    one returned, except that after a Close it is ErrClosed as soon as all data has been written. *)
Theorem C27_sticky_errors :
  forall C e w g s,
  (forall b e' w' g' s' n x, ew_write C e w g s b = (e', w', g', s', (n, Fail x)) ->
     n = 0 /\ forall ops, write_ops C e' w' g' s' ops = (e', w', g', s', map (fun _ => (0, Fail x)) ops)) /\
  (forall e' w' g' s', ew_close C e w g s = (e', w', g', s', Ok tt) ->
     forall ops, write_ops C e' w' g' s' ops = (e', w', g', s', map (fun _ => (0, Fail ErrClosed)) ops)) /\
  (forall e' w' g' s' x, ew_close C e w g s = (e', w', g', s', Fail x) ->
     exists y, (y = x \/ y = ErrClosed) /\
     forall ops, write_ops C e' w' g' s' ops = (e', w', g', s', map (fun _ => (0, Fail y)) ops)) /\
  (forall b e' w' g' s' n, ew_write C e w g s b = (e', w', g', s', (n, Ok tt)) -> n = len b).
Proof.
  intros C e w g s. repeat split.
  - unfold ew_write in H. destruct (ew_err s) as [y|] eqn:Ee; [injection H as <- <- <- <- <- <-; reflexivity|].
    destruct (len b =? 0); [discriminate|]. destruct (ew_loop _ _ _ _ _ _ _) as [[[[? ?] ?] ?] [[]|y|y]]; congruence.
  - intros ops. apply write_ops_err. unfold ew_write in H. destruct (ew_err s) as [y|] eqn:Ee; [congruence|].
    destruct (len b =? 0); [discriminate|]. destruct (ew_loop _ _ _ _ _ _ _) as [[[[e1 w1] g2] s1] r] eqn:El.
    injection H as <- <- <- <- _ ->. eapply ew_loop_fail. exact El.
  - intros e' w' g' s' H ops. apply write_ops_err. unfold ew_close in H. destruct (ew_err s); [discriminate|].
    destruct (enc_block _ _ _ _ _ _ _) as [[[e1 w1] g2] [[]|y|y]]; try discriminate.
    destruct (w_close w1) as [[y|] w2]; [discriminate|]. injection H as <- <- <- <-. reflexivity.
  - intros e' w' g' s' x H. unfold ew_close in H. destruct (ew_err s) as [y|] eqn:Ee.
    { injection H as <- <- <- <- <-. exists y. split; [auto|]. intros ops. apply write_ops_err. exact Ee. }
    destruct (enc_block _ _ _ _ _ _ _) as [[[e1 w1] g2] [[]|y|y]]; try discriminate.
    + destruct (w_close w1) as [[y|] w2]; [|discriminate]. injection H as <- <- <- <- <-. exists ErrClosed.
      split; [auto|]. intros ops. apply write_ops_err. reflexivity.
    + injection H as <- <- <- <- <-. exists y. split; [auto|]. intros ops. apply write_ops_err. reflexivity.
  - intros b e' w' g' s' n H. unfold ew_write in H. destruct (ew_err s); [discriminate|].
    destruct (Z.eqb_spec (len b) 0) as [Hb|Hb]; [injection H as <- <- <- <- <-; lia|].
    destruct (ew_loop _ _ _ _ _ _ _) as [[[[? ?] ?] ?] [[]|y|y]]; congruence.
Qed.
Print Assumptions C27_sticky_errors.
(** In any session, whatever the destination does, the results of a sequence of Writes are full successes followed by one
    error for ever (which is the destination's error); no panics. *)
Theorem C27_writes :
  forall C, crypto_ok C ->
  forall sender blksize pks g e g', 0 <= blksize -> len pks < 2^40 ->
  (forall sk, sender = Some sk -> len (sk_Sk sk) = 64) -> session C sender blksize pks g e g' ->
  forall wr e1 wr1 w1, new_stream_writer C e wr = (e1, wr1, Ok w1) ->
  forall bs e2 wr2 g2 w2 rs, write_all C e1 wr1 g' w1 bs = (e2, wr2, g2, w2, rs) ->
  exists pre post x, bs = pre ++ post /\ rs = map (fun b => (len b, Ok tt)) pre ++ map (fun _ => (0, Fail x)) post /\
    (post <> [] -> exists m y, In (m, Some y) (w_sched wr1) /\ cause x = cause y).
Proof.
  intros C HC sender blk pks g e g' Hb Hp Hg Hs wr e1 wr1 w1 Hn bs e2 wr2 g2 w2 rs Hw.
  pose proof (session_ready _ _ _ _ _ _ _ HC Hg Hs) as Hr. pose proof (header_small _ _ _ _ _ HC Hb Hr Hp) as Hl.
  pose proof (new_stream_writer_spec _ _ _ _ _ _ _ _ _ HC Hg Hb Hr Hl Hn) as (_ & e0 & Hok & _).
  pose proof (write_all_spec C e0 _ _ _ _ HC _ _ _ _ _ _ _ _ _ _ _ Hok Hw) as (_ & _ & Hx).
  destruct Hx as [(-> & _)|(x & pre & b & post & -> & _ & -> & Hx & _)].
  - exists bs, [], IoEOF. rewrite !app_nil_r. split; [reflexivity|]. split; [reflexivity|congruence].
  - exists pre, (b :: post), x. auto.
Qed.
Print Assumptions C27_writes.
(** a destination failing at the fourth write: the first Write succeeds, the second fails, everything after it too *)
Definition failing : writer := mkWriter [] [(1000, None); (1000, None); (1000, Some (EExt 28))] [] 0.
Example C27_instance :
  match new_stream_writer toy e1 failing with
  | (e, w, Ok s) =>
      match write_ops toy e w g1 s [WWrite (str "hello"); WWrite (str " world"); WWrite (str "!"); WClose; WClose] with
      | (_, _, _, _, rs) => map (fun r => match snd r with Ok _ => fst r | Fail x => match cause x with EExt k => - k | _ => -1 end | _ => -2 end) rs
      end
  | _ => []
  end = [5; -28; -28; -28; -28].
Proof. vm_compute. reflexivity. Qed.

(** ** C28: discipline of the stream reader *)
(** whatever the source contains and does *)
Theorem C28_read_discipline :
  forall C, crypto_ok C ->
  forall rd seed sk spk d d1 r, keypair C seed sk -> opened_by C rd sk spk d -> new_stream_reader d = (d1, Ok r) ->
  forall ns d' r' rs, Forall (fun n => 0 <= n) ns -> read_all C d1 r ns = (d', r', rs) ->
  (exists pieces x m, rs = map (fun b => (b, Ok tt)) pieces ++ repeat ([], Fail x) m) /\
  Forall2 (fun n r => len (fst r) <= n /\ (r = ([], Ok tt) -> n = 0)) ns rs.
Proof.
  intros C HC rd seed sk spk d d1 r Hk Ho Hn ns d' r' rs Hns H.
  destruct (opened_by_any _ _ _ _ _ _ HC Hk Ho) as (dk & base & hk & Hl & Hst & He & Hb).
  unfold new_stream_reader in Hn. destruct (d_key d); [|discriminate]. rewrite He in Hn. injection Hn as <- <-.
  assert (Hro : rd_ok (d_set_stream d) (mkEr 0 0 0 None)).
  { constructor; cbn; try lia. exists dk, base, hk, []. destruct Hl. constructor; cbn; auto. }
  destruct (read_all_any C ns _ _ _ _ _ Hro Hns H) as (pieces & x & m & Hsh & H2). split; [eauto|].
  clear -H2. induction H2 as [|n [b y] ns rs (H3 & H4) H2 IH]; constructor; auto.
  split; [exact H3|]. intros E. injection E as -> ->. apply H4; reflexivity.
Qed.
Print Assumptions C28_read_discipline.
(** after an error (also EOF) nothing changes any more: same error, no access to the source *)
Theorem C28_sticky_errors :
  forall C d r n d' r' b x, er_read C d r n = (d', r', (b, Fail x)) ->
  b = [] /\ forall ns, read_all C d' r' ns = (d', r', repeat ([], Fail x) (length ns)).
Proof.
  intros C d r n d' r' b x H.
  assert (Hx : b = [] /\ er_err r' = Some x); [|split; [apply Hx|]; intros ns; apply read_all_err; apply Hx].
  assert (Hdel : forall dx sx, er_deliver dx sx n = (d', r', (b, Fail x)) -> b = [] /\ er_err r' = Some x).
  { intros dx sx Hd. unfold er_deliver in Hd. destruct (0 <? er_len sx); [discriminate|]. injection Hd as <- <- <- <-. auto. }
  unfold er_read in H. destruct (er_err r) as [y|] eqn:Ee; [injection H as <- <- <- <-; auto|].
  destruct (er_len r =? 0); [|eauto]. destruct (d_eof d); [injection H as <- <- <- <-; auto|].
  destruct (dec_chunk C d (er_blk r)) as [d2 [[m eof]|y|y]]; [eauto|injection H as <- <- <- <-; auto|discriminate].
Qed.
Print Assumptions C28_sticky_errors.
(** a damaged second frame: one good read, then the error for ever *)
Example C28_instance :
  match streamed (take (len file3 - 64 - 23 - 10) file3 ++ repeat x07 97) skB (Some pkS) [3; 0; 3; 3; 3] with
  | Some [(a, Ok _); ([], Ok _); (b, Ok _); ([], Fail x); ([], Fail y)] => beq a (str "hel") && beq b (str "l")
  | _ => false
  end = true.
Proof. vm_compute. reflexivity. Qed.

(** ** C29: several stream readers on one Decryptor *)
(** With a single reader, whatever it returns is authentic decrypted data of the stream, in order.  Missing for the full
    property: a second reader on the same Decryptor, see the refutation. *)
Theorem C29_single_reader_partial :
  forall C, crypto_ok C ->
  forall rd s er sk spk seed d, delivers rd s er -> keypair C seed sk -> opened_by C rd sk spk d ->
  exists front body root, let fk := derive_keys C root (sha256 C front) in s = front ++ sha256 C front ++ body /\
  forall d1 r ns d' r' rs, new_stream_reader d = (d1, Ok r) -> Forall (fun n => 0 <= n) ns -> read_all C d1 r ns = (d', r', rs) ->
  exists chunks, opened C (fk_data fk) (fk_base fk) (h_chunk (d_hdr d)) 0 body chunks /\ prefix_of (returned rs) (concat chunks).
Proof.
  intros C HC rd s er sk spk seed d Hd Hk Ho.
  destruct (opened_by_inv _ _ _ _ _ _ _ _ HC Hd Hk Ho) as (h & ck & rest' & root & Hos).
  destruct (os_header _ _ _ _ _ _ _ _ _ _ Hos) as (var & Hv). cbv zeta in Hv. destruct Hv as (Hs & Hck & _).
  exists ((str "SigTool" ++ [x03] ++ be32 (len var)) ++ var), rest', root. cbv zeta. rewrite <- Hck.
  split; [rewrite Hs, <- !app_assoc; reflexivity|]. intros d1 r ns d' r' rs Hn Hns Hra.
  destruct (stream_read_spec C _ _ _ _ _ _ _ _ _ ns HC Hos Hns) as (d2 & r2 & Hsr2 & Hall). rewrite Hsr2 in Hn. injection Hn as -> ->.
  destruct (Hall _ _ _ Hra) as (pieces & x & m & Hsh & (outs & k & Hop & Hpc) & _).
  exists outs. rewrite (os_hdr _ _ _ _ _ _ _ _ _ _ Hos). split; [exact Hop|].
  rewrite (shape_returned _ _ _ _ _ Hsh), Hpc. exists (drop k (concat outs)). rewrite take_drop. reflexivity.
Qed.
Print Assumptions C29_single_reader_partial.

Lemma two_chunks n cs s : 1 <= n -> encrypt_chunks n cs s \/ stream_chunks n cs s -> 2 * n <= len s ->
  exists c0 c1 l, cs = c0 :: c1 :: l /\ len c0 = n /\ len c1 = n.
Proof.
  intros Hn Hck Hl.
  assert (H : exists lastok : Z -> Prop, (forall k, lastok k -> k <= n) /\ chunked n lastok cs s).
  { destruct Hck as [H|[H|[-> ->]]]; [exists (fun k => 0 <= k < n)|exists (fun k => 0 < k <= n)|change (len (@nil byte)) with 0 in Hl; lia]; (split; [lia|exact H]). }
  destruct H as (lastok & Hlo & H). destruct H as [c Hc|c cs s Hc H]; [apply Hlo in Hc; lia|]. rewrite len_app in Hl.
  destruct H as [c1 Hc1|c1 cs s Hc1 H].
  - exists c, c1, []. split; [reflexivity|]. split; [exact Hc|]. apply Hlo in Hc1. lia.
  - exists c, c1, cs. auto.
Qed.

(** a frame that does not open: an error, and zeros at the start of the buffer *)
Lemma dec_chunk_unopened C d dk base hk hd i last c pt s er : dlive d dk base hk hd ->
  0 < len pt <= h_chunk (d_hdr d) -> len c = len pt + 16 -> delivers (d_rd d) (frame_word pt last ++ c ++ s) er ->
  gcm_open C dk (frame_nonce base i) c (frame_word pt last) = None ->
  exists d' x, dec_chunk C d i = (d', Fail x) /\ (exists more, d_buf d' = zeros (len pt) ++ more) /\ d_eof d' = d_eof d.
Proof.
  intros Hl Hlen Hc Hd Ho. unfold dec_chunk. rewrite (dl_ae _ _ _ _ _ Hl).
  pose proof (dl_chunk _ _ _ _ _ Hl) as Hch. pose proof (len_nonneg s).
  destruct (read_full_ok _ _ _ 4 Hd ltac:(lia)) as (r1 & Er & Hd1).
  { rewrite !len_app, len_frame_word. lia. }
  rewrite Er. cbv beta iota zeta. rewrite take_app_eq by reflexivity. rewrite drop_app_eq in Hd1 by reflexivity.
  rewrite len_frame_word. cbn [orb Z.eqb].
  destruct (word_encode pt last ltac:(lia)) as [-> ->].
  destruct (Z.ltb_spec (h_chunk (d_hdr d)) (len pt)); [lia|].
  destruct (Z.eqb_spec (len pt) 0); [lia|].
  assert (Hu : u32 (len pt + gcm_overhead) = len pt + 16) by (unfold u32, gcm_overhead; apply Z.mod_small; lia). rewrite Hu.
  rewrite (dl_buflen _ _ _ _ _ Hl). destruct (Z.ltb_spec (h_chunk (d_hdr d) + 16) (len pt + 16)); [lia|].
  destruct (read_full_ok _ _ _ (len pt + 16) Hd1 ltac:(lia)) as (r2 & Er2 & Hd2). { rewrite len_app. lia. }
  rewrite Er2. cbv beta iota zeta. rewrite take_app_eq by (symmetry; exact Hc).
  rewrite (dl_nonce _ _ _ _ _ Hl), chunk_nonce_spec, Ho by apply (dl_base _ _ _ _ _ Hl).
  do 2 eexists. split; [reflexivity|]. cbn [d_with d_buf d_eof]. split; [|reflexivity]. unfold buf_put at 1. eauto.
Qed.

(** The full property fails: on any produced file of at least two chunks (chunk size 2 or more), let a recipient read
    one byte with a stream reader r1, then let a second reader r2 on the same Decryptor attempt one Read (which fails:
    it expects frame 0 and finds frame 1).  The next Read of r1 returns chunk-1 zero bytes and a nil error instead of
    the rest of the first chunk. *)
Theorem C29_refuted :
  forall C, crypto_ok C ->
  forall sender blksize pks e s file0, made C sender blksize pks e s file0 -> 2 <= h_chunk (e_hdr e) -> 2 * h_chunk (e_hdr e) <= len s ->
  (* no AEAD accident: a frame sealed as number 1 does not open as number 0 *)
  (let fk := keys_of C (e_hdr e) (e_key e) in forall pt w, gcm_open C (fk_data fk) (frame_nonce (fk_base fk) 0)
      (gcm_seal C (fk_data fk) (frame_nonce (fk_base fk) 1) pt w) w = None) ->
  forall file ef seed pk sk spk d d1 r1, delivers file file0 ef -> In pk pks -> pubof C seed pk -> keypair C seed sk ->
  no_accident C (e_hdr e) seed (e_key e) -> opened_by C file sk spk d -> new_stream_reader d = (d1, Ok r1) ->
  exists d2 r1' d3 r2 d4 r2' x d5 r1'',
    er_read C d1 r1 1 = (d2, r1', (take 1 s, Ok tt)) /\
    new_stream_reader d2 = (d3, Ok r2) /\ er_read C d3 r2 1 = (d4, r2', ([], Fail x)) /\
    er_read C d4 r1' (h_chunk (e_hdr e)) = (d5, r1'', (zeros (h_chunk (e_hdr e) - 1), Ok tt)).
Proof.
  intros C HC sender blk pks e s file0 Hmade Hc2 Hls Hacci file ef seed pk sk spk d d1 r1 Hf Hin Hp Hk Hna Ho Hn.
  destruct (made_inv _ _ _ _ _ _ _ HC Hmade) as (cs & tr & [Hb Hr Hg Hne Hl Hlt Hout Hck Hgc Hcc Htr]). rewrite Hout in Hf.
  pose proof (genuine_open _ _ _ _ _ _ _ _ _ _ _ _ HC Hb Hr Hne Hl Hf Hk Hna Ho) as Hos.
  set (fk := keys_of C (e_hdr e) (e_key e)) in *. cbv zeta in Hacci. set (n := h_chunk (e_hdr e)) in *.
  destruct (two_chunks n cs s ltac:(lia) Hck Hls) as (c0 & c1 & l & -> & Hc0 & Hc1).
  pose proof (os_live _ _ _ _ _ _ _ _ _ _ Hos) as Hlive. cbv zeta in Hlive. change (derive_keys C (e_key e) (header_cksum C (e_hdr e))) with fk in Hlive.
  unfold new_stream_reader in Hn. rewrite (os_key _ _ _ _ _ _ _ _ _ _ Hos), (os_eof _ _ _ _ _ _ _ _ _ _ Hos) in Hn. injection Hn as <- <-.
  assert (Hhd : d_hdr d = e_hdr e) by apply (os_hdr _ _ _ _ _ _ _ _ _ _ Hos).
  pose proof (os_rd _ _ _ _ _ _ _ _ _ _ Hos) as Hrd. unfold body in Hrd. fold fk in Hrd. rewrite frames_cons in Hrd by discriminate.
  unfold frame at 1 in Hrd. rewrite <- !app_assoc in Hrd.
  assert (Hsl : sr_live (d_set_stream d) (mkEr 0 0 0 None) [] (fk_data fk) (fk_base fk) (fk_mac fk) [] 0
     (frame_word c0 false ++ gcm_seal C (fk_data fk) (frame_nonce (fk_base fk) 0) c0 (frame_word c0 false) ++
      frames C (fk_data fk) (fk_base fk) (0 + 1) (c1 :: l) ++ tr) ef).
  { constructor; [constructor; [reflexivity|cbn; lia|cbn [er_len]; rewrite take_0; reflexivity|reflexivity]|reflexivity|apply (os_eof _ _ _ _ _ _ _ _ _ _ Hos)| |exact Hrd]. destruct Hlive. constructor; cbn; auto. }
  (* first Read of r1 *)
  assert (Hf0 : frame_opens C (fk_data fk) (fk_base fk) (h_chunk (d_hdr (d_set_stream d))) 0 false
     (gcm_seal C (fk_data fk) (frame_nonce (fk_base fk) 0) c0 (frame_word c0 false)) c0).
  { cbn [d_set_stream d_hdr]. rewrite Hhd. apply seal_opens; [exact HC|fold n; lia]. }
  destruct (dec_chunk_frame C _ _ _ _ _ _ _ _ _ _ _ (sr_dlive _ _ _ _ _ _ _ _ _ _ Hsl) Hf0 (sr_rd _ _ _ _ _ _ _ _ _ _ Hsl) ltac:(discriminate)) as (dx & Hdx).
  destruct (er_read C (d_set_stream d) (mkEr 0 0 0 None) 1) as [[d2 r1'] [b rs]] eqn:E1.
  assert (Hr1 : r1' = mkEr 1 (n - 1) (u32 1) None /\ rs = Ok tt /\ d_key d2 = d_key dx /\ d_eof d2 = false).
  { unfold er_read in E1. cbn [er_err er_len er_blk Z.eqb] in E1. rewrite (sr_eof _ _ _ _ _ _ _ _ _ _ Hsl), Hdx in E1.
    unfold er_deliver in E1. cbn [er_len er_off er_blk er_err] in E1. destruct (Z.ltb_spec 0 (len c0)); [|lia].
    rewrite Z.min_l in E1 by lia. injection E1 as <- <- _ <-. rewrite Hc0. auto. }
  destruct Hr1 as (-> & -> & Hkey & He2).
  destruct (er_read_spec C _ _ _ _ _ _ _ _ _ _ _ _ _ _ _ HC Hsl Z.le_0_1 E1) as (_ & Hsame & _ & Hcase).
  assert (Hnx : b = take 1 c0 /\ sr_live d2 (mkEr 1 (n - 1) (u32 1) None) (drop 1 c0) (fk_data fk) (fk_base fk) (fk_mac fk) ([] ++ frame_word c0 false ++ c0) (0 + 1)
     (frames C (fk_data fk) (fk_base fk) (0 + 1) (c1 :: l) ++ tr) ef).
  { assert (Hch : h_chunk (d_hdr (d_set_stream d)) < 2^30) by (cbn [d_set_stream d_hdr]; rewrite Hhd; fold n; lia).
    destruct Hcase as [(Hne0 & _)|[(_ & c & pt & rest' & Hfo & Heq & Hb0 & Hl2)|(_ & c & pt & tr' & rest' & Hfo & Heq & _)]]; [congruence| |].
    - destruct (frame_split _ _ _ _ _ _ _ _ _ _ _ _ _ Hch Hf0 Hfo Heq) as (_ & _ & <- & <-). auto.
    - destruct (frame_split _ _ _ _ _ _ _ _ _ _ _ _ _ Hch Hf0 Hfo Heq) as (Hx & _). discriminate. }
  destruct Hnx as (-> & Hsl2).
  (* second reader *)
  pose proof (sr_dlive _ _ _ _ _ _ _ _ _ _ Hsl2) as Hlive2.
  pose proof (dl_key _ _ _ _ _ Hlive2) as Hk2. destruct (d_key d2) as [k2|] eqn:Ek2; [clear Hk2|congruence].
  assert (Hh2 : d_hdr d2 = e_hdr e). { rewrite Hsame. cbn. exact Hhd. }
  set (fr := frames C (fk_data fk) (fk_base fk) (0 + 1) (c1 :: l) ++ tr) in *.
  assert (Hfr : exists last more, fr = frame_word c1 last ++ gcm_seal C (fk_data fk) (frame_nonce (fk_base fk) 1) c1 (frame_word c1 last) ++ more).
  { unfold fr. destruct l as [|c2 l]; [exists true, tr|exists false, (frames C (fk_data fk) (fk_base fk) (1 + 1) (c2 :: l) ++ tr); rewrite frames_cons by discriminate];
      cbn [frames Z.add Pos.add]; unfold frame; rewrite <- !app_assoc; reflexivity. }
  destruct Hfr as (last & more & Hfr).
  set (ct := gcm_seal C (fk_data fk) (frame_nonce (fk_base fk) 1) c1 (frame_word c1 last)) in *.
  assert (Hlive3 : dlive (d_set_stream d2) (fk_data fk) (fk_base fk) (fk_mac fk) ([] ++ frame_word c0 false ++ c0)).
  { destruct Hlive2. constructor; cbn; auto. }
  assert (Hrd3 : delivers (d_rd (d_set_stream d2)) (frame_word c1 last ++ ct ++ more) ef).
  { rewrite <- Hfr. apply (sr_rd _ _ _ _ _ _ _ _ _ _ Hsl2). }
  destruct (dec_chunk_unopened C _ _ _ _ _ 0 last ct c1 more ef Hlive3) as (dy & x & Hdy & Hby & Hey); [|apply (ok_seal_len C HC)|exact Hrd3|apply Hacci|].
  { cbn [d_set_stream d_hdr]. rewrite Hh2. fold n. lia. }
  exists d2, (mkEr 1 (n - 1) (u32 1) None), (d_set_stream d2), (mkEr 0 0 0 None), dy, (mkEr 0 0 0 (Some x)), x, dy, (mkEr (1 + (n - 1)) (n - 1 - (n - 1)) (u32 1) None).
  split. { rewrite <- Hcc. cbn [List.concat]. rewrite take_app_l by lia. reflexivity. }
  split. { unfold new_stream_reader. rewrite Ek2, He2. reflexivity. }
  split. { unfold er_read. cbn [er_err er_len er_blk er_off Z.eqb d_set_stream d_eof]. rewrite He2, Hdy. reflexivity. }
  unfold er_read. cbn [er_err er_len]. destruct (Z.eqb_spec (n - 1) 0); [lia|]. unfold er_deliver. cbn [er_len er_off er_blk er_err].
  destruct (Z.ltb_spec 0 (n - 1)); [|lia]. rewrite Z.min_r by lia. destruct Hby as (bb & ->). rewrite Hc1.
  rewrite drop_app_l by (rewrite len_zeros by lia; lia). rewrite take_app_eq; [|rewrite len_drop, len_zeros by (rewrite ?len_zeros by lia; lia); reflexivity].
  do 4 f_equal. unfold zeros. rewrite drop_skipn. change (Z.to_nat 1) with 1%nat. replace (Z.to_nat n) with (S (Z.to_nat (n - 1))) by lia. reflexivity.
Qed.
Print Assumptions C29_refuted.
(** r1 reads "h", r2 fails, r1 then returns three zero bytes instead of "ell" *)
Example C29_refuted_instance :
  match new_decryptor toy (whole file1) with
  | (Ok d0, _) => match set_private_key toy d0 skA (Some pkS) with
    | (d, _, Ok _) => match new_stream_reader d with
      | (d1, Ok r1) => match er_read toy d1 r1 1 with
        | (d2, r1, (h, Ok _)) => match new_stream_reader d2 with
          | (d3, Ok r2) => match er_read toy d3 r2 1 with
            | (d4, _, (_, Fail _)) => match er_read toy d4 r1 4 with
              | (_, _, (bad, Ok _)) => beq h (str "h") && beq bad (zeros 3)
              | _ => false end
            | _ => false end
          | _ => false end
        | _ => false end
      | _ => false end
    | _ => false end
  | _ => false
  end = true.
Proof. vm_compute. reflexivity. Qed.
