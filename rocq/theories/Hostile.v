(** Totality of the decryption side on arbitrary sources: any script of reads, data and errors, not only
    sources that deliver some byte string. *)
From Verif Require Import Bytes BytesLemmas GoErr GoIO SpecIO IOProofs Pb SpecPb PbProofs Crypto CryptoLaws Keys Sign
  Encrypt Decrypt Stream Spec SpecStream EncryptProofs DecryptProofs AcceptProofs OpenProofs RoundTrip StreamProofs StreamRead.
Require Import ZifyBool.
Ltac Zify.zify_post_hook ::= Z.div_mod_to_equations.
Local Notation length := List.length.

Lemma new_decryptor_any C r rs r' : new_decryptor C r = (rs, r') ->
  Z.of_nat (rd_size r') <= Z.of_nat (rd_size r) <= Z.of_nat (rd_size r') + (12 + 1048576 + 32) /\
  match rs with
  | Ok d => exists h ck, d = fresh_dec h r' ck /\ 1 <= h_chunk h < 2^30 /\ len (h_salt h) = 32 /\ h_keys h <> [] /\
              Forall (fun w => 32 < len (w_dkey w)) (h_keys h) /\ header_bytes h <= 1048576
  | Fail _ => True
  | Panic _ => False
  end.
Proof.
  intros H. unfold new_decryptor in H. change fixed_hdr_len with 12 in H.
  destruct (read_full r 12) as [[b e1] r1] eqn:E1. pose proof (read_full_any _ _ _ _ _ E1 ltac:(lia)) as (_ & Hb & Hsz).
  pose proof (len_nonneg b).
  cbv beta iota zeta in H. destruct e1 as [x|]; [injection H as <- <-; split; [lia|exact I]|].
  destruct (negb _); [injection H as <- <-; split; [lia|exact I]|].
  destruct (negb _); [injection H as <- <-; split; [lia|exact I]|].
  set (v := unbe32 (drop 8 b)) in *. pose proof (unbe32_range (drop 8 b)) as Hvr. fold v in Hvr.
  destruct (Z.ltb_spec 1048576 v); [injection H as <- <-; split; [lia|exact I]|].
  destruct (Z.ltb_spec v 32); [injection H as <- <-; split; [lia|exact I]|].
  assert (Hu : u32 (v + sha256_size) = v + 32) by (unfold u32, sha256_size; apply Z.mod_small; lia). rewrite Hu in H.
  destruct (read_full r1 (v + 32)) as [[vb e2] r2] eqn:E2. pose proof (read_full_any _ _ _ _ _ E2 ltac:(lia)) as (_ & Hvb & Hsz2).
  pose proof (len_nonneg vb). cbv beta iota zeta in H.
  assert (Hsize : Z.of_nat (rd_size r2) <= Z.of_nat (rd_size r) <= Z.of_nat (rd_size r2) + (12 + 1048576 + 32)) by lia.
  destruct e2 as [x|]; [injection H as <- <-; auto|].
  destruct (negb _); [injection H as <- <-; auto|].
  assert (Hvar : len (take v vb) <= v) by (apply len_take_ub; lia).
  pose proof (unmarshal_safe (take v vb) ltac:(lia)) as Hsafe.
  destruct (unmarshal_header (take v vb)) as [h|x|]; [| |contradiction]; [|injection H as <- <-; auto].
  destruct Hsafe as [Hhb Hch]. change max_chunk with (2^30) in H. change salt_size with 32 in H.
  destruct ((h_chunk h =? 0) || (2^30 <=? h_chunk h)) eqn:Ec; [injection H as <- <-; auto|].
  destruct (Z.eqb_spec (len (h_salt h)) 32); cbn [negb] in H; [|injection H as <- <-; auto].
  destruct (Z.eqb_spec (len (h_keys h)) 0) as [|Hk]; [injection H as <- <-; auto|].
  destruct (wkeys_sane (h_keys h)) eqn:Ew; cbn [negb] in H; [|injection H as <- <-; auto].
  apply wkeys_sane_spec in Ew. injection H as <- <-. split; [exact Hsize|].
  exists h, (sha256 C (b ++ take v vb)). split; [reflexivity|]. split; [lia|]. split; [assumption|]. split; [intros Hk0; apply Hk; rewrite Hk0; reflexivity|].
  split; [exact Ew|lia].
Qed.

Lemma opened_by_any C rd sk spk d seed : crypto_ok C -> keypair C seed sk -> opened_by C rd sk spk d ->
  exists dk base hk, dlive d dk base hk [] /\ d_stream d = false /\ d_eof d = false /\ d_buf d = [].
Proof.
  intros HC Hk (d0 & rd' & sk' & Hn & Hs). pose proof (new_decryptor_any _ _ _ _ Hn) as (_ & h & ck & -> & Hch & _).
  assert (Hu : unkeyed (fresh_dec h rd' ck)) by (split; [reflexivity|exact Hch]).
  pose proof (set_private_key_spec C _ seed sk spk _ _ _ HC Hu Hk Hs) as (_ & _ & root & signed & Hf & Hkd & Hvs).
  assert (Hpk : signed = true -> exists pk, spk = Some pk /\ len (pk_Pk pk) = 32).
  { intros ->. pose proof (verify_sender_spec C h root spk HC) as Hx. cbn in Hvs. rewrite Hvs in Hx. destruct Hx as (pk & sig & H1 & H2 & _). eauto. }
  pose proof (keyed_live _ _ _ _ _ _ HC Hu Hkd Hpk) as Hl. cbv zeta in Hl.
  do 3 eexists. split; [exact Hl|]. unfold keyed in Hkd. rewrite Hkd. auto.
Qed.

Lemma process_trailer_any C d dk base hk hd m d' rs : dlive d dk base hk hd -> process_trailer C d m = (d', rs) ->
  dlive d' dk base hk hd /\ Z.of_nat (rd_size (d_rd d')) <= Z.of_nat (rd_size (d_rd d)) /\ ~ (exists p, rs = Panic p) /\
  (forall q eof, rs = Ok (q, eof) -> q = m /\ take q (d_buf d') = take m (d_buf d)) /\ d_eof d' = d_eof d.
Proof.
  intros Hl H. unfold process_trailer in H. change sig_size with 64 in H.
  destruct (read_full (d_rd d) 64) as [[tr e] r] eqn:E. pose proof (read_full_any _ _ _ _ _ E ltac:(lia)) as (_ & Htr & Hsz).
  pose proof (len_nonneg tr). cbv beta iota zeta in H.
  pose proof (dlive_same _ _ _ _ _ r (d_buf d) Hl) as Hl'.
  assert (Hsize : Z.of_nat (rd_size (d_rd (d_with d (d_hmac d) r (d_buf d)))) <= Z.of_nat (rd_size (d_rd d))) by (cbn; lia).
  assert (Hdone : forall rs0, (d_with d (d_hmac d) r (d_buf d), rs0) = (d', rs) -> (rs0 = Ok (m, true) \/ exists x, rs0 = Fail x) ->
    dlive d' dk base hk hd /\ Z.of_nat (rd_size (d_rd d')) <= Z.of_nat (rd_size (d_rd d)) /\ ~ (exists p, rs = Panic p) /\
    (forall q eof, rs = Ok (q, eof) -> q = m /\ take q (d_buf d') = take m (d_buf d)) /\ d_eof d' = d_eof d).
  { intros rs0 Hx0 Hor. injection Hx0 as <- <-. split; [exact Hl'|]. split; [exact Hsize|].
    destruct Hor as [->|(x & ->)]; (split; [intros (p & Hp); discriminate|]); (split; [|reflexivity]); intros q eof Hq; [injection Hq as <- <-; auto|discriminate]. }
  destruct e as [x|]; [eapply Hdone; eauto|].
  destruct (d_auth d) eqn:Ea; cbn [negb] in H; [|eapply Hdone; eauto].
  destruct (dl_auth _ _ _ _ _ Hl Ea) as (pk & Hpk & Hlen). rewrite (dl_hmac _ _ _ _ _ Hl), Hpk in H.
  unfold verify_message, Ed_Verify in H. rewrite Hlen in H. cbn [negb Z.eqb Pos.eqb sig_Sig] in H.
  rewrite (dl_hmac _ _ _ _ _ Hl) in Hdone.
  destruct (if len tr =? 64 then _ else _); eapply Hdone; eauto.
Qed.

(** one frame from any source: no panic, some input consumed, the buffer holds the plaintext *)
Lemma dec_chunk_any C d dk base hk hd i d' rs : dlive d dk base hk hd -> dec_chunk C d i = (d', rs) ->
  (exists hd', dlive d' dk base hk hd') /\ Z.of_nat (rd_size (d_rd d')) <= Z.of_nat (rd_size (d_rd d)) /\
  d_eof d' = d_eof d /\
  match rs with
  | Ok (m, _) => 0 <= m <= h_chunk (d_hdr d) /\ len (take m (d_buf d')) = m /\
                 Z.of_nat (rd_size (d_rd d')) < Z.of_nat (rd_size (d_rd d))
  | Fail _ => True
  | Panic _ => False
  end.
Proof.
  intros Hl H. pose proof (dec_chunk_eof _ _ _ _ _ H) as He. unfold dec_chunk in H. rewrite (dl_ae _ _ _ _ _ Hl) in H.
  pose proof (dl_chunk _ _ _ _ _ Hl) as Hch.
  destruct (read_full (d_rd d) 4) as [[b e1] r1] eqn:E1. pose proof (read_full_any _ _ _ _ _ E1 ltac:(lia)) as (Hb4 & Hb & Hsz).
  pose proof (len_nonneg b). cbv beta iota zeta in H.
  pose proof (dlive_same _ _ _ _ _ r1 (d_buf d) Hl) as Hl1.
  destruct ((match e1 with Some _ => true | None => false end) || (len b =? 0)) eqn:Eb.
  { injection H as <- <-. split; [eauto|]. split; [cbn; lia|]. auto. }
  destruct e1 as [x|]; [discriminate Eb|]. specialize (Hb4 eq_refl).
  pose proof (unbe32_range b) as Hbr. rewrite land_low in H. set (m := unbe32 b mod 2^31) in *.
  assert (Hm : 0 <= m < 2^31) by (apply Z.mod_pos_bound; lia).
  destruct (Z.ltb_spec (h_chunk (d_hdr d)) m).
  { injection H as <- <-. split; [eauto|]. split; [cbn; lia|]. auto. }
  destruct (Z.eqb_spec m 0).
  { destruct (negb _); injection H as <- <-; (split; [eauto|]); (split; [cbn; lia|]); (split; [exact He|]); auto.
    split; [lia|]. split; [rewrite take_0; reflexivity|]. cbn. lia. }
  assert (Hz : u32 (m + gcm_overhead) = m + 16) by (unfold u32, gcm_overhead; apply Z.mod_small; lia).
  rewrite Hz, (dl_buflen _ _ _ _ _ Hl) in H.
  destruct (Z.ltb_spec (h_chunk (d_hdr d) + 16) (m + 16)); [lia|].
  destruct (read_full r1 (m + 16)) as [[c e2] r2] eqn:E2. pose proof (read_full_any _ _ _ _ _ E2 ltac:(lia)) as (_ & Hc & Hsz2).
  pose proof (len_nonneg c). cbv beta iota zeta in H.
  destruct e2 as [x|]; [injection H as <- <-; split; [eexists; eapply dlive_same; exact Hl|]; split; [cbn; lia|]; auto|].
  destruct (gcm_open C dk _ c b) as [pt|] eqn:Eo; [|injection H as <- <-; split; [eexists; eapply dlive_same; exact Hl|]; split; [cbn; lia|]; auto].
  destruct (Z.eqb_spec (u32 (len pt)) m) as [Hpt|Hpt]; cbn [negb] in H;
    [|injection H as <- <-; split; [eexists; eapply dlive_same; exact Hl|]; split; [cbn; lia|]; auto].
  rewrite (dl_hmac _ _ _ _ _ Hl) in H.
  assert (Hpm : m <= len pt) by (rewrite <- Hpt; unfold u32; pose proof (len_nonneg pt); lia).
  assert (Htk : forall q, len (take m (buf_put pt q)) = m).
  { intros q. apply len_take_le. unfold buf_put. rewrite len_app. pose proof (len_nonneg (drop (len pt) q)). lia. }
  set (d3 := d_with d (Some (hk, hd ++ b ++ pt)) r2 (buf_put pt (d_buf (d_with d (Some (hk, hd)) r2 (buf_put c (d_buf d)))))) in *.
  assert (Hl3 : dlive d3 dk base hk (hd ++ b ++ pt)) by (unfold d3; eapply dlive_with; exact Hl).
  destruct (0 <? Z.land (unbe32 b) eof_bit).
  - destruct (process_trailer_any C d3 _ _ _ _ m d' rs Hl3 H) as (Hl4 & Hs4 & Hnp & Hok & _). cbn in Hs4.
    split; [eauto|]. split; [lia|]. split; [exact He|]. destruct rs as [[q eof]|x|p]; auto.
    + destruct (Hok _ _ eq_refl) as [-> Hq]. split; [lia|]. split; [rewrite Hq; apply Htk|lia].
    + apply Hnp. eauto.
  - injection H as <- <-. split; [eauto|]. split; [cbn; lia|]. split; [exact He|]. split; [lia|]. split; [apply Htk|cbn; lia].
Qed.

Lemma dec_loop_any C : forall fuel d w i dk base hk hd d' w' rs, dlive d dk base hk hd ->
  Z.of_nat (rd_size (d_rd d)) < Z.of_nat fuel -> dec_loop C fuel d w i = (d', w', rs) -> ~ exists p, rs = Panic p.
Proof.
  induction fuel as [|fuel IH]; intros d w i dk base hk hd d' w' rs Hl Hf H; [lia|].
  rewrite dec_loop_S in H. destruct (dec_chunk C d i) as [d1 r1] eqn:Ec.
  destruct (dec_chunk_any _ _ _ _ _ _ _ _ _ Hl Ec) as ((hd1 & Hl1) & Hs1 & _ & Hr). destruct r1 as [[m eof]|x|]; [| |contradiction].
  2: { injection H as <- <- <-. intros (p & Hp). discriminate. }
  cbv zeta in H. destruct (if 0 <? m then fullwrite (take m (d_buf d1)) w else (None, w)) as [[x|] w1].
  { injection H as <- <- <-. intros (p & Hp). discriminate. }
  destruct eof. { injection H as <- <- <-. intros (p & Hp). discriminate. }
  eapply IH; [exact Hl1| |exact H]. lia.
Qed.

Lemma decrypt_any C d w dk base hk hd d' w' rs : dlive d dk base hk hd -> decrypt C d w = (d', w', rs) -> ~ exists p, rs = Panic p.
Proof.
  intros Hl H. unfold decrypt in H. destruct (d_key d); [|injection H as <- <- <-; intros (p & Hp); discriminate].
  destruct (d_stream d); [injection H as <- <- <-; intros (p & Hp); discriminate|].
  destruct (d_eof d); [injection H as <- <- <-; intros (p & Hp); discriminate|].
  eapply dec_loop_any; [exact Hl| |exact H]. lia.
Qed.

(** stream reads from any source *)
Record rd_ok (d : decryptor) (s : encr) : Prop := {
  ro_live : exists dk base hk hd, dlive d dk base hk hd;
  ro_off : 0 <= er_off s;
  ro_len : 0 <= er_len s;
  ro_fit : er_off s + er_len s <= len (d_buf d) \/ er_len s = 0 }.

Lemma er_deliver_any d s n d' s' b rs : rd_ok d s -> 0 <= n -> er_deliver d s n = (d', s', (b, rs)) ->
  rd_ok d' s' /\ len b <= n /\ match rs with Ok _ => (b = [] -> n = 0) | Fail x => b = [] /\ er_err s' = Some x | Panic _ => False end.
Proof.
  intros [] Hn H. unfold er_deliver in H. destruct (Z.ltb_spec 0 (er_len s)).
  - injection H as <- <- <- <-.
    assert (Hb : len (take (Z.min n (er_len s)) (drop (er_off s) (d_buf d))) = Z.min n (er_len s)).
    { apply len_take_le. rewrite len_drop by (destruct ro_fit0; lia). destruct ro_fit0; lia. }
    split; [constructor; cbn; auto; [lia|lia|destruct ro_fit0; lia]|]. split; [lia|].
    intros Hq. rewrite Hq in Hb. change (len (@nil byte)) with 0 in Hb. lia.
  - injection H as <- <- <- <-. split; [constructor; cbn; auto|]. split; [cbn; lia|]. auto.
Qed.

Lemma er_read_any C d s n d' s' b rs : rd_ok d s -> 0 <= n -> er_read C d s n = (d', s', (b, rs)) ->
  rd_ok d' s' /\ len b <= n /\ match rs with Ok _ => (b = [] -> n = 0) | Fail x => b = [] /\ er_err s' = Some x | Panic _ => False end.
Proof.
  intros Hro Hn H. unfold er_read in H. destruct (er_err s) as [x|] eqn:Ee.
  { injection H as <- <- <- <-. split; [exact Hro|]. split; [cbn; lia|]. auto. }
  destruct (Z.eqb_spec (er_len s) 0) as [Hz|Hz].
  2: { eapply er_deliver_any; eassumption. }
  destruct (d_eof d).
  { injection H as <- <- <- <-. destruct Hro. split; [constructor; cbn; auto|]. split; [cbn; lia|]. auto. }
  destruct Hro as [(dk & base & hk & hd & Hl) ? ? ?]. destruct (dec_chunk C d (er_blk s)) as [d1 r1] eqn:Ec.
  destruct (dec_chunk_any _ _ _ _ _ _ _ _ _ Hl Ec) as ((hd1 & Hl1) & _ & _ & Hr).
  destruct r1 as [[m eof]|x|]; [| |contradiction].
  - eapply er_deliver_any; [|exact Hn|exact H]. destruct Hr as (Hm & Ht & _). constructor; cbn; try lia.
    + do 4 eexists. apply dlive_set_eof. exact Hl1.
    + pose proof (len_take_ub2 m (d_buf d1)). lia.
  - injection H as <- <- <- <-. split; [constructor; cbn; auto; do 4 eexists; exact Hl1|]. split; [cbn; lia|]. auto.
Qed.

(** the discipline of a stream reader's results, whatever the source does *)
Lemma read_all_any C ns : forall d s d' s' rs, rd_ok d s -> Forall (fun n => 0 <= n) ns -> read_all C d s ns = (d', s', rs) ->
  exists pieces x m, read_shape ns rs pieces x m.
Proof.
  induction ns as [|n ns IH]; intros d s d' s' rs Hro Hns H; cbn in H.
  - injection H as <- <- <-. exists [], IoEOF, O. split; [reflexivity|constructor].
  - inversion Hns as [|? ? Hn Hns']; subst.
    destruct (er_read C d s n) as [[d1 s1] [b r1]] eqn:Er. destruct (read_all C d1 s1 ns) as [[d2 s2] rs2] eqn:Ea.
    injection H as <- <- <-. destruct (er_read_any _ _ _ _ _ _ _ _ Hro Hn Er) as (Hro1 & Hb & Hr).
    destruct r1 as [[]|x|]; [| |contradiction].
    + destruct (IH _ _ _ _ _ Hro1 Hns' Ea) as (pieces & x & m & Hs). exists (b :: pieces), x, m. apply shape_cons; auto.
    + destruct Hr as [-> He]. rewrite (read_all_err C ns d1 s1 x He) in Ea. injection Ea as <- <- <-.
      exists [], x, (S (length ns)). exact (shape_err (n :: ns) x Hns).
Qed.
