(** C85: no call on an Encryptor or its stream writers panics, in any history. *)
From Verif Require Import Bytes BytesLemmas GoErr GoIO SpecIO IOProofs Pb SpecPb PbProofs Crypto CryptoLaws Keys Sign
  Encrypt Decrypt Stream Spec SpecStream EncryptProofs DecryptProofs AcceptProofs OpenProofs RoundTrip StreamProofs StreamRead Hostile
  Support Toy Scene SpecCalls Thm_Encrypt Thm_Session Thm_Calls.
Require Import ZifyBool.
Ltac Zify.zify_post_hook ::= Z.div_mod_to_equations.
Local Notation length := List.length.
Local Notation concat := List.concat.

Definition calm (r : res unit) : Prop := match r with Panic _ => False | _ => True end.
Definition alive (e : encryptor) : Prop := e_started e = true /\ exists dk base hk hd, live e dk base hk hd.

Lemma live_mac e dk base hk hd h : live e dk base hk hd -> alive (e_with_hmac e (Some (hk, h))) \/ e_started e = false.
Proof.
  intros H. destruct (e_started e) eqn:E; [left|auto]. split; [exact E|]. exists dk, base, hk, h. eapply live_with. exact H.
Qed.
Lemma write_trailer_calm C e dk base hk hd w g w' g' rs : live e dk base hk hd -> write_trailer C e w g = (w', g', rs) -> calm rs.
Proof.
  intros L H. pose proof (write_trailer_spec _ _ _ _ _ _ _ _ _ _ _ L H) as S. destruct (the_trailer C e hk hd g) as [tr g2].
  destruct S as (_ & _ & S). destruct rs; [exact I|exact I|exact S].
Qed.
Lemma enc_block_calm C e pt w i last g e' w' g' rs : crypto_ok C -> alive e -> len pt <= h_chunk (e_hdr e) ->
  enc_block C e pt w i last g = (e', w', g', rs) -> alive e' /\ calm rs.
Proof.
  intros HC (Hs & dk & base & hk & hd & L) Hp H.
  assert (calm rs) as Hc.
  { pose proof (enc_block_spec _ _ _ _ _ _ _ _ _ _ _ _ _ _ _ HC L Hp H) as [_ S]. destruct rs; [exact I|exact I|exact S]. }
  split; [|exact Hc]. unfold enc_block in H. rewrite (lv_ae _ _ _ _ _ L), (lv_hmac _ _ _ _ _ L) in H. cbv zeta in H.
  assert (alive e) as Ha by (split; [exact Hs|eauto 6]).
  destruct (_ <? _); [injection H as <- <- <- <-; exact Ha|].
  destruct (fullwrite _ w) as [[x|] w1]; [injection H as <- <- <- <-; exact Ha|].
  assert (forall b, alive (mkEnc (e_hdr e) (e_key e) (e_nonce e) (e_buflen e) (Some dk) (Some (hk, b)) (e_encSK e) (e_sender e) (e_auth e)
                            (e_started e) (e_stream e))) as Hb.
  { intros b. pose proof (live_with e dk base hk hd b L) as L2. unfold e_with_hmac in L2. rewrite (lv_ae _ _ _ _ _ L) in L2.
    split; [exact Hs|]. exists dk, base, hk, b. exact L2. }
  destruct last; [destruct (write_trailer _ _ _ _) as [[w2 g2] r2]|]; injection H as <- <- <- <-; apply Hb.
Qed.
Lemma alive_chunk e : alive e -> 1 <= h_chunk (e_hdr e) <= 2^30.
Proof. intros (_ & dk & base & hk & hd & L). exact (lv_chunk _ _ _ _ _ L). Qed.
Lemma enc_loop_calm C : crypto_ok C -> forall fuel e r w i g e' r' w' g' rs, alive e -> (rd_size r < fuel)%nat ->
  enc_loop C fuel e r w i g = (e', r', w', g', rs) -> alive e' /\ calm rs.
Proof.
  intros HC. induction fuel as [|fuel IH]; intros e r w i g e' r' w' g' rs Ha Hf H; [lia|]. pose proof (alive_chunk _ Ha) as Hn.
  rewrite enc_loop_S in H. destruct (read_full r (h_chunk (e_hdr e))) as [[b err] r1] eqn:Er. cbv zeta in H.
  assert (0 <= h_chunk (e_hdr e)) as Hn0 by lia.
  destruct (read_full_any _ _ _ _ _ Er Hn0) as (H1 & H2 & H3).
  destruct (match err with None => Ok false | Some IoEOF | Some ErrClosedPipe | Some ErrUnexpectedEOF => Ok true | Some x => Fail (EWrap "encrypt: I/O read error" x) end) as [eof|x|x] eqn:Ee;
    try (injection H as <- <- <- <- <-; split; [exact Ha|exact I]).
  2: { destruct err as [[]|]; discriminate. }
  destruct (enc_block C e b w i eof g) as [[[e3 w1] g3] r3] eqn:Eb.
  destruct (enc_block_calm _ _ _ _ _ _ _ _ _ _ _ HC Ha H2 Eb) as [A1 A2].
  destruct r3 as [u|x|x]; try (injection H as <- <- <- <- <-; split; assumption).
  destruct eof; [injection H as <- <- <- <- <-; split; [assumption|exact I]|].
  eapply IH; [exact A1| |exact H].
  destruct err as [x|]; [destruct x; discriminate|]. lia.
Qed.

(** the fuel of the copy loop of Write suffices *)
Lemma ew_loop_calm C : crypto_ok C -> forall fuel e w g s b e' w' g' s' rs, alive e -> len (ew_buf s) <= h_chunk (e_hdr e) ->
  2 * len b + (if len (ew_buf s) =? h_chunk (e_hdr e) then 1 else 0) < Z.of_nat fuel ->
  ew_loop C fuel e w g s b = (e', w', g', s', rs) -> alive e' /\ len (ew_buf s') <= h_chunk (e_hdr e') /\ calm rs.
Proof.
  intros HC. induction fuel as [|fuel IH]; intros e w g s b e' w' g' s' rs Ha Hs Hf H; destruct b as [|c b]; cbn [ew_loop] in H;
    try (injection H as <- <- <- <- <-; split; [exact Ha|split; [exact Hs|exact I]]; fail).
  { exfalso. pose proof (len_nonneg (c :: b)). destruct (_ =? _); lia. }
  pose proof (alive_chunk _ Ha) as Hn. pose proof (len_nonneg (ew_buf s)) as Hbn.
  assert (Hcl : 1 <= len (c :: b)) by (rewrite len_cons; pose proof (len_nonneg b); lia).
  set (z := Z.min (h_chunk (e_hdr e) - len (ew_buf s)) (len (c :: b))) in *. set (b' := c :: b) in *. clearbody b'.
  assert (Hz : 0 <= z <= len b') by lia.
  assert (Hl : len (ew_buf s ++ take z b') = len (ew_buf s) + z) by (rewrite len_app, len_take by lia; lia).
  assert (Hd : len (drop z b') = len b' - z) by (rewrite len_drop by lia; lia).
  destruct ((len (ew_buf s ++ take z b') =? h_chunk (e_hdr e)) && (0 <? len (drop z b'))) eqn:Ec.
  - destruct (enc_block _ _ _ _ _ _ _) as [[[e3 w1] g3] r3] eqn:Eb. pose proof (enc_block_hdr _ _ _ _ _ _ _ _ _ _ _ Eb) as F1.
    assert (len (ew_buf s ++ take z b') <= h_chunk (e_hdr e)) as Hle by lia.
    destruct (enc_block_calm _ _ _ _ _ _ _ _ _ _ _ HC Ha Hle Eb) as [A1 A2].
    destruct r3 as [u|x|x]; [|injection H as <- <- <- <- <-; cbn [ew_buf]; split; [exact A1|split; [rewrite F1; lia|exact I]]|contradiction].
    eapply IH; [exact A1| | |exact H]; cbn [ew_buf]; rewrite F1; change (len (@nil byte)) with 0; [lia|].
    destruct (Z.eqb_spec 0 (h_chunk (e_hdr e))); [lia|]. destruct (Z.eqb_spec (len (ew_buf s)) (h_chunk (e_hdr e))); lia.
  - eapply IH; [exact Ha| | |exact H]; cbn [ew_buf]; [lia|]. rewrite Hl, Hd. rewrite Hl, Hd in Ec.
    destruct (Z.eqb_spec (len (ew_buf s)) (h_chunk (e_hdr e))); destruct (Z.eqb_spec (len (ew_buf s) + z) (h_chunk (e_hdr e))); cbn in Ec; lia.
Qed.

(** every state a history leads to: not started, with at most [n] recipients and no stream writer, or started *)
Definition steady (C : crypto) (sender : option privkey) (blk n : Z) (st : eobj) : Prop :=
  (es_streams st = [] /\ exists pks, ready C sender blk pks (es_enc st) /\ len pks <= n) \/
  (alive (es_enc st) /\ Forall (fun p => len (ew_buf (fst p)) <= h_chunk (e_hdr (es_enc st))) (es_streams st)).
Definition quiet (r : eret) : Prop := match r with ERet (Panic _) _ => False | _ => True end.
Lemma calm_quiet r d : calm r -> quiet (ERet r d).
Proof. destruct r; auto. Qed.

Lemma start_calm C sender blk n pks e w e' w' rs : crypto_ok C -> good_sender sender -> 0 <= blk -> ready C sender blk pks e -> len pks <= n -> n < 2^40 ->
  enc_start C e w = (e', w', rs) -> calm rs /\
  match rs with Ok _ => alive e' /\ e_stream e' = false | _ => ready C sender blk pks e' end.
Proof.
  intros HC Hg Hb R Hn Hl H. pose proof (header_small _ _ _ _ _ HC Hb R ltac:(lia)) as Hh. pose proof (ready_small _ _ _ _ _ HC Hb R Hh) as Hs.
  pose proof (enc_start_spec _ _ _ _ _ _ HC Hs H) as [_ S]. destruct rs as [u|x|x]; [| |contradiction].
  - split; [exact I|]. destruct S as [-> _]. split; [|exact (rd_stream _ _ _ _ _ R)]. split; [reflexivity|]. do 4 eexists. eapply ready_live; eassumption.
  - split; [exact I|]. clear S. unfold enc_start in H. destruct (marshal_to _ _) as [v|y|y]; [|injection H as <- <- _; exact R|discriminate]. cbv zeta in H.
    destruct (new_gcm _) as [k|y|y]; [|injection H as <- <- _; destruct R; constructor; auto|discriminate].
    destruct (fullwrite _ w) as [[y|] w1]; [|discriminate]. injection H as <- <- _. destruct R; constructor; auto.
Qed.
Lemma forall_set {A} (P : A -> Prop) l i x : Forall P l -> P x -> Forall P (set_nth l i x).
Proof.
  intros Hl Hx. unfold set_nth. revert i. induction Hl as [|y l Hy Hl IH]; intros [|i]; cbn; constructor; auto. apply IH.
Qed.

Lemma estep_quiet C sender blk n st c st' r : crypto_ok C -> good_sender sender -> 0 <= blk -> n < 2^40 ->
  (forall pk, c = EAdd pk -> len (pk_Pk pk) <= 32) ->
  steady C sender blk n st -> estep C st c = (st', r) ->
  quiet r /\ steady C sender blk (match c with EAdd _ => n + 1 | _ => n end) st'.
Proof.
  intros HC Hg Hb Hn Hpk Hst H. destruct st as [e g ss]. unfold steady in *. cbn [es_enc es_streams] in Hst.
  destruct c as [pk|rd wr|wr|i b|i]; cbn [estep es_enc es_rng es_streams] in H.
  - specialize (Hpk _ eq_refl). unfold add_recipient in H. destruct Hst as [(-> & pks & R & Hl)|[A F]].
    + rewrite (rd_started _ _ _ _ _ R) in H. destruct (wrap_key C e pk g) as [[[w pk']|y|y] g1] eqn:Ew.
      * injection H as <- <-. split; [exact I|]. left. cbn. split; [reflexivity|]. exists (pks ++ [pk]).
        split; [apply ready_add; [exact R|eapply wrap_key_spec; eassumption]|]. rewrite len_app, len_cons. change (len (@nil pubkey)) with 0. lia.
      * injection H as <- <-. split; [exact I|]. left. cbn. split; [reflexivity|]. exists pks. split; [exact R|lia].
      * exfalso. unfold wrap_key, to_curve_pk in Ew. destruct (pk_ck pk) as [ck|].
        -- destruct (X25519 C (e_encSK e) ck) as [z|z|z] eqn:Ex; [|discriminate|unfold X25519 in Ex; destruct (negb _); [discriminate|]; destruct (negb _); [discriminate|]; destruct (beq _ _); discriminate].
           destruct (rand_buf rx_nonce_size g) as [rb g3]. unfold wrapf, new_gcm in Ew. match type of Ew with context [if ?b then _ else _] => destruct b end; discriminate.
        -- destruct (Z.ltb_spec 32 (len (pk_Pk pk))); [lia|]. 
           destruct (X25519 C (e_encSK e) (curve_of (pk_Pk pk))) as [z|z|z] eqn:Ex; [|discriminate|unfold X25519 in Ex; destruct (negb _); [discriminate|]; destruct (negb _); [discriminate|]; destruct (beq _ _); discriminate].
           destruct (rand_buf rx_nonce_size g) as [rb g3]. unfold wrapf, new_gcm in Ew. match type of Ew with context [if ?b then _ else _] => destruct b end; discriminate.
    + rewrite (proj1 A) in H. injection H as <- <-. split; [exact I|]. right. auto.
  - destruct (encrypt C e rd wr g) as [[[[e1 r1] w1] g1] rs] eqn:E. injection H as <- <-. cbn [es_enc es_streams]. unfold encrypt in E.
    destruct Hst as [(-> & pks & R & Hl)|[A F]].
    + rewrite (rd_stream _ _ _ _ _ R), (rd_started _ _ _ _ _ R) in E. destruct (enc_start C e wr) as [[e3 w3] rs3] eqn:Es.
      destruct (start_calm _ _ _ _ _ _ _ _ _ _ HC Hg Hb R Hl Hn Es) as [S1 S2]. destruct rs3 as [u|x|x]; [| |contradiction].
      * destruct S2 as [S2 _]. destruct (enc_loop _ _ _ _ _ _ _) as [[[[e4 r4] w4] g4] rs4] eqn:El.
        destruct (enc_loop_calm _ HC _ _ _ _ _ _ _ _ _ _ _ S2 (Nat.lt_succ_diag_r _) El) as [L1 L2].
        assert (e1 = e4 /\ calm rs) as [-> Hc].
        { destruct rs4 as [v|y|y]; [destruct (w_close w4) as [[y|] w5]| |contradiction]; injection E as <- <- <- <- <-; split; auto; exact I. }
        split; [apply calm_quiet; exact Hc|]. right. auto.
      * injection E as <- <- <- <- <-. split; [exact I|]. left. split; [reflexivity|]. exists pks. auto.
    + destruct (e_stream e); [injection E as <- <- <- <- <-; split; [exact I|right; auto]|]. rewrite (proj1 A) in E.
      destruct (enc_loop _ _ _ _ _ _ _) as [[[[e4 r4] w4] g4] rs4] eqn:El. pose proof (enc_loop_hdr _ _ _ _ _ _ _ _ _ _ _ _ El) as Fh.
      destruct (enc_loop_calm _ HC _ _ _ _ _ _ _ _ _ _ _ A (Nat.lt_succ_diag_r _) El) as [L1 L2].
      assert (e1 = e4 /\ calm rs) as [-> Hc].
      { destruct rs4 as [v|y|y]; [destruct (w_close w4) as [[y|] w5]| |contradiction]; injection E as <- <- <- <- <-; split; auto; exact I. }
      split; [apply calm_quiet; exact Hc|]. right. rewrite Fh. auto.
  - unfold new_stream_writer in H. destruct Hst as [(-> & pks & R & Hl)|[A F]].
    + rewrite (rd_started _ _ _ _ _ R) in H. destruct (enc_start C e wr) as [[e3 w3] rs3] eqn:Es.
      destruct (start_calm _ _ _ _ _ _ _ _ _ _ HC Hg Hb R Hl Hn Es) as [S1 S2]. destruct rs3 as [u|x|x]; [| |contradiction]; injection H as <- <-.
      * split; [exact I|]. right. cbn. destruct S2 as [(S2 & dk & base & hk & hd & L) _]. split; [split; [exact S2|]; exists dk, base, hk, hd; destruct L; constructor; auto|].
        constructor; [|constructor]. cbn. pose proof (lv_chunk _ _ _ _ _ L). lia.
      * split; [exact I|]. left. split; [reflexivity|]. exists pks. auto.
    + rewrite (proj1 A) in H. injection H as <- <-. split; [exact I|]. right. cbn. pose proof (alive_chunk _ A). split.
      * destruct A as (S2 & dk & base & hk & hd & L). split; [exact S2|]. exists dk, base, hk, hd. destruct L; constructor; auto.
      * apply Forall_app. split; [exact F|]. constructor; [|constructor]. cbn. lia.
  - destruct (nth_error ss i) as [[s w]|] eqn:En; [|injection H as <- <-; split; [exact I|exact Hst]].
    destruct Hst as [(-> & _)|[A F]]; [destruct i; discriminate|].
    assert (len (ew_buf s) <= h_chunk (e_hdr e)) as Hs by (apply nth_error_In in En; eapply Forall_forall in F; [|exact En]; exact F).
    destruct (ew_write C e w g s b) as [[[[e1 w1] g1] s1] [m rs]] eqn:E. pose proof (ew_write_hdr _ _ _ _ _ _ _ _ _ _ _ E) as Fh. injection H as <- <-.
    assert (alive e1 /\ len (ew_buf s1) <= h_chunk (e_hdr e1) /\ calm rs) as (B1 & B2 & B3).
    { unfold ew_write in E. destruct (ew_err s); [injection E as <- <- <- <- <- <-; split; [exact A|split; [exact Hs|exact I]]|].
      destruct (len b =? 0); [injection E as <- <- <- <- <- <-; split; [exact A|split; [exact Hs|exact I]]|].
      destruct (ew_loop _ _ _ _ _ _ _) as [[[[e3 w3] g3] s3] r3] eqn:El. injection E as <- <- <- <- _ <-.
      eapply ew_loop_calm; [exact HC|exact A|exact Hs| |exact El]. unfold len. destruct (_ =? _); lia. }
    split; [apply calm_quiet; exact B3|]. right. cbn. split; [exact B1|]. apply forall_set; [rewrite Fh; exact F|exact B2].
  - destruct (nth_error ss i) as [[s w]|] eqn:En; [|injection H as <- <-; split; [exact I|exact Hst]].
    destruct Hst as [(-> & _)|[A F]]; [destruct i; discriminate|].
    assert (len (ew_buf s) <= h_chunk (e_hdr e)) as Hs by (apply nth_error_In in En; eapply Forall_forall in F; [|exact En]; exact F).
    destruct (ew_close C e w g s) as [[[[e1 w1] g1] s1] rs] eqn:E. pose proof (ew_close_hdr _ _ _ _ _ _ _ _ _ _ E) as Fh. injection H as <- <-.
    assert (alive e1 /\ len (ew_buf s1) <= h_chunk (e_hdr e1) /\ calm rs) as (B1 & B2 & B3).
    { unfold ew_close in E. destruct (ew_err s); [injection E as <- <- <- <- <-; split; [exact A|split; [exact Hs|exact I]]|].
      destruct (enc_block _ _ _ _ _ _ _) as [[[e3 w3] g3] r3] eqn:Eb. pose proof (enc_block_hdr _ _ _ _ _ _ _ _ _ _ _ Eb) as F1.
      destruct (enc_block_calm _ _ _ _ _ _ _ _ _ _ _ HC A Hs Eb) as [D1 D2]. pose proof (alive_chunk _ D1).
      destruct r3 as [u|x|x]; [destruct (w_close w3) as [[y|] w4]| |contradiction]; injection E as <- <- <- <- <-; cbn [ew_buf];
        (split; [exact D1|split; [|exact I]]); rewrite ?F1; auto; rewrite <- F1; change (len (@nil byte)) with 0; lia. }
    split; [apply calm_quiet; exact B3|]. right. cbn. split; [exact B1|]. apply forall_set; [rewrite Fh; exact F|exact B2].
Qed.

(** ** C85 *)
(** NewEncryptor with a usable sender key (or none) and any non-negative block size succeeds; and then no call in any
    sequence of AddRecipient, Encrypt, NewStreamWriter and Write/Close of the stream writers made on the way panics: whatever
    the recipients' key bytes (of at most 32 bytes; every key this library parses has exactly 32), the data, the sources (any
    fragmentation, failing or not), the destinations (failing or not), the order of the calls, after failures as after successes. *)
Definition adds (cs : list ecall) : list pubkey := flat_map (fun c => match c with EAdd pk => [pk] | _ => [] end) cs.
Theorem C85_encryptor_never_panics :
  forall C, crypto_ok C ->
  forall sender blksize g, (forall sk, sender = Some sk -> len (sk_Sk sk) = 64) -> 0 <= blksize ->
  exists e0 g0, new_encryptor C sender blksize g = (Ok e0, g0) /\
  forall cs st rs, ecalls C (mkEobj e0 g0 []) cs = (st, rs) ->
    Forall (fun pk => len (pk_Pk pk) <= 32) (adds cs) -> len (adds cs) < 2^40 ->
    forall p d, ~ In (ERet (Panic p) d) rs.
Proof.
  intros C HC sender blk g Hg Hb. destruct (new_encryptor_total C sender blk g HC Hg) as (e0 & g0 & E0). exists e0, g0. split; [exact E0|].
  pose proof (new_encryptor_spec _ _ _ _ _ _ HC Hg E0) as R0.
  assert (forall cs n st0 st rs, n + len (adds cs) < 2^40 -> steady C sender blk n st0 -> ecalls C st0 cs = (st, rs) ->
            Forall (fun pk => len (pk_Pk pk) <= 32) (adds cs) -> Forall quiet rs) as M.
  { induction cs as [|c cs IH]; intros n st0 st rs Hn Hst H Hp; cbn [ecalls] in H; [injection H as <- <-; constructor|].
    destruct (estep C st0 c) as [st1 r] eqn:E. destruct (ecalls C st1 cs) as [st2 rs2] eqn:E2. injection H as <- <-.
    change (adds (c :: cs)) with ((match c with EAdd pk => [pk] | _ => [] end) ++ adds cs) in *. rewrite len_app in Hn. apply Forall_app in Hp. destruct Hp as [Hp1 Hp2].
    pose proof (len_nonneg (adds cs)).
    assert (n < 2^40) as Hn0. { pose proof (len_nonneg (match c with EAdd pk => [pk] | _ => [] end)). lia. }
    assert (forall pk, c = EAdd pk -> len (pk_Pk pk) <= 32) as Hpk. { intros pk ->. inversion Hp1; assumption. }
    destruct (estep_quiet _ _ _ _ _ _ _ _ HC Hg Hb Hn0 Hpk Hst E) as [Q S]. constructor; [exact Q|]. eapply IH; [|exact S|exact E2|exact Hp2].
    destruct c; [change (len [pk]) with 1 in Hn|change (len (@nil pubkey)) with 0 in Hn..]; lia. }
  intros cs st rs H Hp Hl p d Hin.
  assert (Forall quiet rs) as F.
  { eapply (M cs 0 _ st rs); [lia| |exact H|exact Hp]. left. split; [reflexivity|]. exists []. split; [exact R0|change (len (@nil pubkey)) with 0; lia]. }
  eapply Forall_forall in F; [|exact Hin]. exact F.
Qed.
Print Assumptions C85_encryptor_never_panics.

(** ** C20 over every history *)
Definition dalive (d : decryptor) : Prop := exists dk base hk hd, dlive d dk base hk hd.
Lemma dec_chunk_calm C d i d' rs : dalive d -> dec_chunk C d i = (d', rs) ->
  dalive d' /\ Z.of_nat (rd_size (d_rd d')) <= Z.of_nat (rd_size (d_rd d)) /\
  match rs with Ok _ => Z.of_nat (rd_size (d_rd d')) < Z.of_nat (rd_size (d_rd d)) | Fail _ => True | Panic _ => False end.
Proof.
  intros (dk & base & hk & hd & L) H. destruct (dec_chunk_any _ _ _ _ _ _ _ _ _ L H) as ((hd' & L') & A & _ & B).
  split; [exists dk, base, hk, hd'; exact L'|]. split; [exact A|]. destruct rs as [[m q]|x|x]; tauto.
Qed.
Lemma dalive_eof d q : dalive d -> dalive (d_set_eof d q).
Proof. intros (dk & base & hk & hd & L). exists dk, base, hk, hd. apply dlive_set_eof. exact L. Qed.
Lemma dec_loop_calm C : forall fuel d w i d' w' rs, dalive d -> Z.of_nat (rd_size (d_rd d)) < Z.of_nat fuel ->
  dec_loop C fuel d w i = (d', w', rs) -> dalive d' /\ calm rs.
Proof.
  induction fuel as [|fuel IH]; intros d w i d' w' rs Ha Hf H; [lia|]. rewrite dec_loop_S in H.
  destruct (dec_chunk C d i) as [d1 r1] eqn:E. destruct (dec_chunk_calm _ _ _ _ _ Ha E) as (A1 & A2 & A3).
  destruct r1 as [[m eof]|x|x]; [|injection H as <- <- <-; split; [exact A1|exact I]|contradiction]. cbv zeta in H.
  destruct (if 0 <? m then fullwrite (take m (d_buf d1)) w else (None, w)) as [[x|] w1]; [injection H as <- <- <-; split; [exact A1|exact I]|].
  destruct eof; [injection H as <- <- <-; split; [apply dalive_eof; exact A1|exact I]|]. eapply IH; [exact A1| |exact H]. lia.
Qed.
Lemma er_read_calm C d s n d' s' b rs : dalive d -> er_read C d s n = (d', s', (b, rs)) -> dalive d' /\ calm rs.
Proof.
  intros Ha H. unfold er_read in H. destruct (er_err s); [injection H as <- <- <- <-; split; [exact Ha|exact I]|].
  assert (forall d1 s1, dalive d1 -> er_deliver d1 s1 n = (d', s', (b, rs)) -> dalive d' /\ calm rs) as D.
  { intros d1 s1 A X. unfold er_deliver in X. destruct (0 <? er_len s1); injection X as <- <- <- <-; (split; [exact A|exact I]). }
  destruct (er_len s =? 0); [|eapply D; [exact Ha|exact H]].
  destruct (d_eof d); [injection H as <- <- <- <-; split; [exact Ha|exact I]|].
  destruct (dec_chunk C d (er_blk s)) as [d1 r1] eqn:E. destruct (dec_chunk_calm _ _ _ _ _ Ha E) as (A1 & A2 & A3).
  destruct r1 as [[m q]|x|x]; [|injection H as <- <- <- <-; split; [exact A1|exact I]|contradiction].
  eapply D; [apply dalive_eof; exact A1|exact H].
Qed.

(** before the first successful SetPrivateKey: no key, no stream reader.  Afterwards: alive.  In both cases authenticated only by [who]. *)
Record restful (who : option pubkey) (st : dobj) : Prop := {
  rs_chunk : 1 <= h_chunk (d_hdr (ds_dec st)) < 2^30;
  rs_who : d_auth (ds_dec st) = true -> who <> None;
  rs_state : (d_key (ds_dec st) = None /\ ds_streams st = []) \/ dalive (ds_dec st) }.
Definition dquiet (r : dret) : Prop := match r with DRet (Panic _) _ _ => False | _ => True end.
Lemma calm_dquiet r o b : calm r -> dquiet (DRet r o b).
Proof. destruct r; auto. Qed.

(** SetPrivateKey succeeded, or refused the key as not being a recipient's *)
Definition settled (c : dcall) (r : dret) : Prop :=
  match c, r with DSet _ _, DRet (Fail x) _ _ => forall y, x <> EWrap "decrypt" y | _, _ => True end.
Lemma dec_chunk_hdr C d i d' rs : dec_chunk C d i = (d', rs) -> d_hdr d' = d_hdr d /\ d_auth d' = d_auth d.
Proof.
  unfold dec_chunk. destruct (d_ae d); [|intros H; injection H as <- <-; auto].
  destruct (read_full _ _) as [[b e1] r1]. cbv zeta. destruct (_ || _); [intros H; injection H as <- <-; auto|].
  destruct (_ <? _); [intros H; injection H as <- <-; auto|]. destruct (_ =? 0); [destruct (negb _); intros H; injection H as <- <-; auto|].
  destruct (_ <? _); [intros H; injection H as <- <-; auto|]. destruct (read_full r1 _) as [[c e2] r2].
  destruct e2; [intros H; injection H as <- <-; auto|]. destruct (gcm_open _ _ _ _ _); [|intros H; injection H as <- <-; auto].
  destruct (negb _); [intros H; injection H as <- <-; auto|]. destruct (d_hmac d) as [[hk hd]|]; [|intros H; injection H as <- <-; auto].
  destruct (0 <? _); [|intros H; injection H as <- <-; auto]. unfold process_trailer. destruct (read_full _ sig_size) as [[tr e3] r3].
  destruct e3; [intros H; injection H as <- <-; auto|]. destruct (negb _); [intros H; injection H as <- <-; auto|]. cbn [d_hmac d_with d_sender].
  destruct (d_sender d); [|intros H; injection H as <- <-; auto].
  destruct (verify_message _ _ _ _) as [[]|x|x]; intros H; injection H as <- <-; auto.
Qed.
Lemma dec_loop_hdr C fuel : forall d w i d' w' rs, dec_loop C fuel d w i = (d', w', rs) -> d_hdr d' = d_hdr d /\ d_auth d' = d_auth d.
Proof.
  induction fuel as [|fuel IH]; intros d w i d' w' rs H; [cbn in H; injection H as <- <- <-; auto|]. rewrite dec_loop_S in H.
  destruct (dec_chunk C d i) as [d1 r1] eqn:E. pose proof (dec_chunk_hdr _ _ _ _ _ E) as [F1 F2].
  destruct r1 as [[m eof]|x|]; try (injection H as <- <- <-; auto; fail). cbv zeta in H.
  destruct (if 0 <? m then fullwrite (take m (d_buf d1)) w else (None, w)) as [[x|] w1]; try (injection H as <- <- <-; auto; fail).
  destruct eof; [injection H as <- <- <-; cbn; auto|]. apply IH in H. destruct H as [-> ->]. auto.
Qed.
Lemma er_read_hdr C d s n d' s' br : er_read C d s n = (d', s', br) -> d_hdr d' = d_hdr d /\ d_auth d' = d_auth d.
Proof.
  unfold er_read. destruct (er_err s); [intros H; injection H as <- <- <-; auto|].
  assert (forall d1 s1, er_deliver d1 s1 n = (d', s', br) -> d' = d1) as D.
  { intros d1 s1. unfold er_deliver. destruct (0 <? er_len s1); intros H; injection H as <- <- <-; auto. }
  destruct (er_len s =? 0); [|intros H; apply D in H; subst; auto].
  destruct (d_eof d); [intros H; injection H as <- <- <-; auto|].
  destruct (dec_chunk C d (er_blk s)) as [d1 r1] eqn:E. pose proof (dec_chunk_hdr _ _ _ _ _ E) as [F1 F2].
  destruct r1 as [[m q]|x|x]; try (intros H; injection H as <- <- <-; auto; fail). intros H. apply D in H. subst. auto.
Qed.
Lemma dstep_quiet C who st c st' r : crypto_ok C -> (forall pk, who = Some pk -> len (pk_Pk pk) = 32) ->
  (forall sk spk, c = DSet sk spk -> spk = who /\ exists seed, keypair C seed sk) ->
  restful who st -> dstep C st c = (st', r) -> dquiet r /\ (settled c r -> restful who st').
Proof.
  intros HC Hw Hset [R1 R2 R3] H. destruct st as [d ss]. cbn [ds_dec ds_streams] in *.
  destruct c as [sk spk|wr| |i n]; cbn [dstep ds_dec ds_streams] in H.
  - destruct (Hset _ _ eq_refl) as (-> & seed & Hk). destruct (set_private_key C d sk who) as [[d1 sk1] r1] eqn:E. injection H as <- <-.
    unfold set_private_key in E. destruct (find_key C (d_hdr d) (h_keys (d_hdr d)) sk) as [[key|x|x] sk2] eqn:Ef.
    + pose proof (verify_sender_spec C (d_hdr d) key who HC) as V.
      destruct (verify_sender C (d_hdr d) key who) as [signed|x|x].
      * cbv zeta in E. unfold expand in E. change (sha256_size + aes_key_size + aead_nonce_size) with 76 in E. change data_key_expansion with (str "Data Key Expansion") in E.
        set (k := hkdf_sha512 C key (d_hdrsum d) (str "Data Key Expansion") 76) in *.
        change aead_nonce_size with 12 in E. change aes_key_size with 32 in E.
        assert (Hl : len k = 76) by (apply len_hkdf; [exact HC|lia]).
        rewrite new_gcm_32 in E by (rewrite len_take_le; [reflexivity|]; rewrite len_drop by lia; lia). injection E as <- <- <-.
        split; [exact I|]. intros _. constructor; cbn.
        -- exact R1.
        -- intros Ha. apply orb_true_iff in Ha. destruct Ha as [Ha| ->]; [exact (R2 Ha)|]. destruct V as (pk & sig & -> & _). discriminate.
        -- right. do 4 eexists. constructor; cbn; try reflexivity; auto; try discriminate.
           ++ rewrite len_take_le; [reflexivity|lia].
           ++ intros Ha. apply orb_true_iff in Ha. destruct who as [pk|]; [eauto|]. exfalso. destruct Ha as [Ha| ->]; [exact (R2 Ha eq_refl)|].
              destruct V as (pk & sig & V & _). discriminate.
      * injection E as <- <- <-. split; [exact I|]. intros Q. exfalso. exact (Q _ eq_refl).
      * exfalso. destruct V as (pk & V1 & V2). apply V2. apply Hw. exact V1.
    + injection E as <- <- <-. split; [exact I|]. intros _. constructor; cbn; auto.
    + exfalso. destruct (find_key_spec C (d_hdr d) seed HC _ _ _ _ Hk Ef) as [_ F]. exact F.
  - destruct (decrypt C d wr) as [[d1 w1] r1] eqn:E. injection H as <- <-. unfold decrypt in E.
    destruct (d_key d) eqn:Ek; [|injection E as <- <- <-; split; [exact I|intros _; constructor; cbn; try assumption; rewrite Ek; exact R3]].
    destruct R3 as [[R3 _]|R3]; [discriminate|].
    destruct (d_stream d); [injection E as <- <- <-; split; [exact I|intros _; constructor; cbn; auto]|].
    destruct (d_eof d); [injection E as <- <- <-; split; [exact I|intros _; constructor; cbn; auto]|].
    pose proof (dec_loop_hdr _ _ _ _ _ _ _ _ E) as [F1 F2]. apply dec_loop_calm in E; [|exact R3|lia]. destruct E as [A B].
    split; [apply calm_dquiet; exact B|]. intros _. constructor; cbn; rewrite ?F1, ?F2; auto.
  - unfold new_stream_reader in H. destruct (d_key d) eqn:Ek; [|injection H as <- <-; split; [exact I|intros _; constructor; cbn; try assumption; rewrite Ek; exact R3]].
    destruct R3 as [[R3 _]|R3]; [discriminate|].
    destruct (d_eof d); injection H as <- <-; (split; [exact I|intros _; constructor; cbn [ds_dec ds_streams]; try assumption]); [right; assumption|].
    right. destruct R3 as (dk & base & hk & hd & L). exists dk, base, hk, hd. destruct L. constructor; cbn; congruence || auto.
  - destruct (nth_error ss i) as [s|] eqn:En; [|injection H as <- <-; split; [exact I|intros _; constructor; cbn; auto]].
    destruct R3 as [[_ ->]|R3]; [destruct i; discriminate|].
    destruct s as [s [k|]]; cbn [er_read_kept] in H.
    { destruct (er_err s); injection H as <- <-; (split; [exact I|intros _; constructor; cbn; auto]). }
    destruct (er_read C d s n) as [[d1 s1] [b r1]] eqn:E. injection H as <- <-. pose proof (er_read_hdr _ _ _ _ _ _ _ E) as [F1 F2].
    apply er_read_calm in E; [|exact R3]. destruct E as [A B]. split; [apply calm_dquiet; exact B|]. intros _. constructor; cbn; rewrite ?F1, ?F2; auto.
Qed.

(** For any source, however malformed, that NewDecryptor accepts: no call in any sequence of SetPrivateKey, Decrypt, NewStreamReader
    and Read of the stream readers made on the way panics, as long as every SetPrivateKey names the same sender (or none) and either
    succeeds or refuses the private key as not a recipient's.  Missing: the calls after a SetPrivateKey that found the key but refused
    the sender, see C20_refuted. *)
Theorem C20_every_history_partial :
  forall C, crypto_ok C ->
  forall rd d0 rd', new_decryptor C rd = (Ok d0, rd') ->
  forall who, (forall pk, who = Some pk -> len (pk_Pk pk) = 32) ->
  forall cs st rs, dcalls C (mkDobj d0 []) cs = (st, rs) ->
  (forall sk spk, In (DSet sk spk) cs -> spk = who /\ exists seed, keypair C seed sk) ->
  Forall2 settled cs rs ->
  forall p o b, ~ In (DRet (Panic p) o b) rs.
Proof.
  intros C HC rd d0 rd' Hd who Hw cs st rs H Hset Hs p o b Hin.
  assert (restful who (mkDobj d0 [])) as R.
  { pose proof (new_decryptor_any _ _ _ _ Hd) as (_ & h & ck & -> & Hch & _). constructor; cbn; auto; discriminate. }
  assert (Forall dquiet rs) as F.
  { clear Hin Hd. revert R H Hs. generalize (mkDobj d0 []). revert st rs.
    induction cs as [|c cs IH]; intros st rs st0 R H Hs; cbn [dcalls] in H; [injection H as <- <-; constructor|].
    destruct (dstep C st0 c) as [st1 r] eqn:E. destruct (dcalls C st1 cs) as [st2 rs2] eqn:E2. injection H as <- <-.
    inversion Hs as [|? ? ? ? Hs1 Hs2]; subst.
    destruct (dstep_quiet C who st0 c st1 r HC Hw ltac:(intros; apply Hset; left; assumption) R E) as [Q1 Q2].
    constructor; [exact Q1|]. eapply IH; [intros; apply Hset; right; assumption|exact (Q2 Hs1)|exact E2|exact Hs2]. }
  eapply Forall_forall in F; [|exact Hin]. exact F.
Qed.
Print Assumptions C20_every_history_partial.

(** *** Instances *)
(** an Encryptor that is misused in every way: destinations and sources that fail, writers closed twice, calls in the wrong order *)
Definition broken : writer := mkWriter [] [(3, Some (EMsg "disk full"))] [] 0.
Definition later_broken : writer := mkWriter [] [(1000, None); (1, Some (EMsg "disk full"))] [] 0.
Definition failing : reader := [(str "abc", None); ([], Some (EMsg "read failed"))].
Example C85_instance :
  crypto_ok toy /\ (forall sk, Some skS = Some sk -> len (sk_Sk sk) = 64) /\
  history [EAdd pkB; EWrite 0 text; EStream broken; EAdd pkA; EEncrypt src broken; EEncrypt failing sink; EEncrypt src later_broken;
           EStream later_broken; EWrite 0 text; EWrite 0 text; EClose 0; EStream sink; EWrite 1 text; EClose 1; EClose 1; EWrite 1 text; EEncrypt src sink] =
  Some [Some (Ok tt, None); None; Some (Fail (EWrap "encrypt" (EMsg "disk full")), Some 3); Some (Ok tt, None);
        Some (Fail (EWrap "encrypt" (EMsg "disk full")), Some 3); Some (Fail (EWrap "encrypt: I/O read error" (EMsg "read failed")), Some 328);
        Some (Fail (EWrap "encrypt" (EMsg "disk full")), Some 25);
        Some (Ok tt, None); Some (Fail (EWrap "encrypt" (EMsg "disk full")), None); Some (Fail (EWrap "encrypt" (EMsg "disk full")), None);
        Some (Fail (EWrap "encrypt" (EMsg "disk full")), None); Some (Ok tt, None); Some (Ok tt, None); Some (Ok tt, None); Some (Fail ErrClosed, None);
        Some (Fail ErrClosed, None); Some (Fail ErrEncIsStream, Some 0)].
Proof.
  split; [exact toy_ok|]. split; [intros sk H; injection H as <-; vm_compute; reflexivity|]. vm_compute. reflexivity.
Qed.
(** a Decryptor asked with a stranger's key, before any key, re-keyed in the middle of a stream, read after the end *)
Example C20_history_instance :
  (forall pk, Some pkS = Some pk -> len (pk_Pk pk) = 32) /\ keypair toy seedX skX /\ keypair toy seedB skB /\ keypair toy seedA skA /\
  dhistory [DDecrypt sink; DStream; DSet skX (Some pkS); DDecrypt sink; DRead 0 4; DSet skB (Some pkS); DStream; DRead 0 3; DSet skX (Some pkS); DDecrypt sink; DRead 0 9;
            DSet skA (Some pkS); DRead 0 9; DRead 0 9] =
  Some [Some (Fail ErrNoKey, Some [], []); Some (Fail ErrNoKey, None, []); Some (Fail ErrBadKey, None, []); Some (Fail ErrNoKey, Some [], []); None;
        Some (Ok tt, None, []); Some (Ok tt, None, []); Some (Ok tt, None, str "hel"); Some (Fail ErrBadKey, None, []); Some (Fail ErrDecStarted, Some [], []);
        Some (Ok tt, None, str "l"); Some (Ok tt, None, []); Some (Ok tt, None, str "o wo"); Some (Fail ErrBadTrailer, None, [])].
Proof.
  split; [intros pk H; injection H as <-; vm_compute; reflexivity|]. split; [exact kX|]. split; [exact kB|]. split; [exact kA|]. vm_compute. reflexivity.
Qed.
