(** Proofs about Encrypt.v *)
From Verif Require Import Bytes BytesLemmas GoErr GoIO SpecIO IOProofs Pb SpecPb PbProofs Crypto CryptoLaws Keys Sign
  Encrypt Decrypt Spec.
Require Import ZifyBool.
Ltac Zify.zify_post_hook ::= Z.div_mod_to_equations.
Local Notation length := List.length.

Ltac ssplit := repeat match goal with |- _ /\ _ => split end.
(** ** small facts *)
Lemma lor_eof n : 0 <= n < 2^31 -> Z.lor n eof_bit = n + 2^31.
Proof. intros H. unfold eof_bit. change (2^31) with (1 * 2^31) at 1. rewrite lor_high by lia. lia. Qed.

Lemma be32_u32 z : be32 (u32 z) = be32 z.
Proof. unfold u32. apply be32_mod. Qed.

Lemma chunk_nonce_spec base i : len base = 12 -> chunk_nonce base i = frame_nonce base i.
Proof.
  intros H. unfold chunk_nonce, frame_nonce. rewrite take_all by lia.
  change (12 - len base) with (12 - len base). rewrite H. change (zeros (12 - 12)) with (@nil byte). rewrite app_nil_r. reflexivity.
Qed.
Lemma frame_nonce_u32 base i : frame_nonce base (u32 i) = frame_nonce base i.
Proof. unfold frame_nonce. rewrite be32_u32. reflexivity. Qed.

Lemma u32_u32_add i : u32 (u32 i + 1) = u32 (i + 1).
Proof. unfold u32. rewrite Zplus_mod_idemp_l. reflexivity. Qed.

Lemma frame_u32 C dk base i last pt : frame C dk base (u32 i) last pt = frame C dk base i last pt.
Proof. unfold frame. rewrite frame_nonce_u32. reflexivity. Qed.
Lemma frames_u32 C dk base cs : forall i, frames C dk base (u32 i) cs = frames C dk base i cs.
Proof.
  induction cs as [|c cs IH]; intros i; cbn [frames]; [reflexivity|].
  destruct cs as [|c2 cs2]; [apply frame_u32|].
  rewrite frame_u32. f_equal. rewrite <- (IH (i + 1)), <- u32_u32_add, IH. reflexivity.
Qed.

Lemma frames_cons C dk base i c cs : cs <> [] ->
  frames C dk base i (c :: cs) = frame C dk base i false c ++ frames C dk base (i + 1) cs.
Proof. destruct cs; [congruence|reflexivity]. Qed.
Lemma mac_input_cons c cs : cs <> [] -> mac_input (c :: cs) = frame_word c false ++ c ++ mac_input cs.
Proof. destruct cs; [congruence|reflexivity]. Qed.
Lemma chunked_nonnil n P cs s : chunked n P cs s -> cs <> [].
Proof. destruct 1; discriminate. Qed.

(** ** a started encryptor *)
Record live (e : encryptor) (dk base hk hd : bytes) : Prop := {
  lv_ae : e_ae e = Some dk;
  lv_nonce : e_nonce e = base;
  lv_base : len base = 12;
  lv_hmac : e_hmac e = Some (hk, hd);
  lv_chunk : 1 <= h_chunk (e_hdr e) <= 2^30;
  lv_buf : e_buflen e = u32 (h_chunk (e_hdr e) + 4 + gcm_overhead);
  lv_auth : e_auth e = match e_sender e with Some _ => true | None => false end;
  lv_sk : forall sk, e_sender e = Some sk -> len (sk_Sk sk) = 64 }.

Definition e_with_hmac (e : encryptor) (h : option (bytes * bytes)) : encryptor :=
  mkEnc (e_hdr e) (e_key e) (e_nonce e) (e_buflen e) (e_ae e) h (e_encSK e) (e_sender e) (e_auth e)
        (e_started e) (e_stream e).

Lemma live_with e dk base hk hd hd' : live e dk base hk hd -> live (e_with_hmac e (Some (hk, hd'))) dk base hk hd'.
Proof. intros []. constructor; cbn; auto. Qed.

(** the trailer as a function *)
Definition the_trailer (C : crypto) (e : encryptor) (hk hd : bytes) (g : rng) : bytes * rng :=
  match e_sender e with
  | Some sk => (ed_sign C (sk_Sk sk) (msg_digest C (hmac_sha256 C hk hd)), g)
  | None => rand_buf sig_size g
  end.

Lemma write_trailer_spec C e dk base hk hd w g w' g' rs : live e dk base hk hd ->
  write_trailer C e w g = (w', g', rs) ->
  let '(tr, g2) := the_trailer C e hk hd g in
  g' = g2 /\ later w w' /\
  match rs with
  | Ok _ => w_out w' = w_out w ++ tr
  | Fail x => (exists k, w_out w' = w_out w ++ take k tr) /\ exists m y, In (m, Some y) (w_sched w) /\ cause x = cause y
  | Panic _ => False
  end.
Proof.
  intros [] H. unfold write_trailer, the_trailer in *. rewrite lv_auth0, lv_hmac0 in H.
  destruct (e_sender e) as [sk|] eqn:Es.
  - unfold sign_message, Ed_Sign in H. rewrite (lv_sk0 _ eq_refl) in H. cbn [negb Z.eqb Pos.eqb bind sig_Sig] in H.
    destruct (fullwrite _ w) as [[x|] w2] eqn:Ef; inversion H; subst.
    + destruct (fullwrite_Some _ _ _ _ Ef) as (H1 & (m & H2) & H3).
      ssplit; auto. exists m, x. split; [exact H2|reflexivity].
    + destruct (fullwrite_None _ _ _ Ef) as (H1 & H2). auto.
  - unfold rand_buf in *. cbv zeta in *.
    destruct (fullwrite _ w) as [[x|] w2] eqn:Ef; inversion H; subst.
    + destruct (fullwrite_Some _ _ _ _ Ef) as (H1 & (m & H2) & H3).
      ssplit; auto. exists m, x. split; [exact H2|reflexivity].
    + destruct (fullwrite_None _ _ _ Ef) as (H1 & H2). auto.
Qed.

Lemma enc_block_spec C e dk base hk hd pt w i last g e' w' g' rs : crypto_ok C ->
  live e dk base hk hd -> len pt <= h_chunk (e_hdr e) ->
  enc_block C e pt w i last g = (e', w', g', rs) ->
  later w w' /\
  match rs with
  | Ok _ =>
      e' = e_with_hmac e (Some (hk, hd ++ frame_word pt last ++ pt)) /\
      let '(tr, g2) := if last then the_trailer C e hk (hd ++ frame_word pt last ++ pt) g else ([], g) in
      g' = g2 /\ w_out w' = w_out w ++ frame C dk base i last pt ++ tr
  | Fail x => (exists k, w_out w' = w_out w ++ take k (frame C dk base i last pt ++
                    if last then fst (the_trailer C e hk (hd ++ frame_word pt last ++ pt) g) else [])) /\
       exists m y, In (m, Some y) (w_sched w) /\ cause x = cause y
  | Panic _ => False
  end.
Proof.
  intros HC Hlive Hpt H. pose proof Hlive as []. unfold enc_block in H. rewrite lv_ae0, lv_hmac0 in H.
  pose proof (len_nonneg pt).
  assert (Hz : (if last then Z.lor (u32 (len pt)) eof_bit else u32 (len pt)) = len pt + if last then 2147483648 else 0).
  { unfold u32. rewrite Z.mod_small by lia. destruct last; [rewrite lor_eof by lia; reflexivity|lia]. }
  rewrite Hz in H. rewrite lv_nonce0, chunk_nonce_spec in H by assumption.
  fold (frame_word pt last) in H. 
  assert (Hbl : (e_buflen e <? len (gcm_seal C dk (frame_nonce base i) pt (frame_word pt last)) + 4) = false).
  { rewrite (ok_seal_len C HC), lv_buf0. unfold gcm_overhead, u32. rewrite Z.mod_small by lia. lia. }
  rewrite Hbl in H. fold (frame C dk base i last pt) in H.
  destruct (fullwrite (frame C dk base i last pt) w) as [[x|] w2] eqn:Ef.
  - injection H as <- <- <- <-. destruct (fullwrite_Some _ _ _ _ Ef) as ((k & H1) & (m & H2) & H3).
    split; [exact H3|]. split; [|exists m, x; split; [exact H2|reflexivity]].
    destruct (Z.leb_spec k (len (frame C dk base i last pt))).
    + exists k. rewrite H1. rewrite take_app_l by assumption. reflexivity.
    + exists (len (frame C dk base i last pt)). rewrite H1, take_app_exact, take_all by lia. reflexivity.
  - destruct (fullwrite_None _ _ _ Ef) as (H1 & H2).
    destruct last.
    + set (e2 := mkEnc _ _ _ _ _ _ _ _ _ _ _) in H.
      assert (He2 : e2 = e_with_hmac e (Some (hk, hd ++ frame_word pt true ++ pt)))
        by (unfold e2, e_with_hmac; rewrite lv_nonce0, lv_ae0; reflexivity).
      assert (Hl2 : live e2 dk base hk (hd ++ frame_word pt true ++ pt)) by (rewrite He2; eapply live_with; exact Hlive).
      destruct (write_trailer C e2 w2 g) as [[w3 g3] r3] eqn:Ew. injection H as <- <- <- <-.
      pose proof (write_trailer_spec _ _ _ _ _ _ _ _ _ _ _ Hl2 Ew) as Ht.
      replace (the_trailer C e2) with (the_trailer C e) in Ht by (rewrite He2; reflexivity).
      destruct (the_trailer C e hk (hd ++ frame_word pt true ++ pt) g) as [tr g2].
      destruct Ht as (-> & Hla & Ht). split; [eapply later_trans; eassumption|].
      destruct r3 as [u|x|]; [|destruct Ht as [(k & Hk) (m & y & Hm & Hc)]|contradiction].
      * split; [exact He2|]. split; [reflexivity|]. rewrite Ht, H1, <- app_assoc. reflexivity.
      * split.
        -- cbn [fst]. exists (len (frame C dk base i true pt) + Z.max 0 k). rewrite Hk, H1, <- app_assoc.
           rewrite take_app_r by lia. f_equal. f_equal. 
           destruct (Z.leb_spec k 0); [rewrite !take_neg by lia; reflexivity|f_equal; lia].
        -- exists m, y. split; [eapply later_In; eassumption|exact Hc].
    + injection H as <- <- <- <-. split; [exact H2|].
      split; [unfold e_with_hmac; rewrite lv_nonce0, lv_ae0; reflexivity|]. split; [reflexivity|].
      rewrite app_nil_r. exact H1.
Qed.

(** ** the read/encrypt loop *)
(** source errors Encrypt takes for the end of the input: encrypt.go:204 *)
Definition eof_like (e : goerr) : Prop := e = IoEOF \/ e = ErrClosedPipe \/ e = ErrUnexpectedEOF.

Lemma eof_like_dec e : {eof_like e} + {~ eof_like e}.
Proof.
  destruct e; try (right; intros [H|[H|H]]; discriminate); left; unfold eof_like; auto.
Qed.

Lemma short_err_eof s er :
  match Some (short_err s er) with
  | None => Ok false
  | Some IoEOF | Some ErrClosedPipe | Some ErrUnexpectedEOF => Ok true
  | Some x => Fail (EWrap "encrypt: I/O read error" x)
  end = if eof_like_dec er then Ok true else Fail (EWrap "encrypt: I/O read error" er).
Proof.
  destruct (eof_like_dec er) as [H|H].
  - destruct H as [-> | [-> | ->]]; cbn; [destruct (0 <? len s)|..]; reflexivity.
  - destruct er; try reflexivity; exfalso; apply H; unfold eof_like; auto.
Qed.

Lemma enc_loop_S C fuel e r w i g :
  enc_loop C (S fuel) e r w i g =
      let '(b, err, r) := read_full r (h_chunk (e_hdr e)) in
      let eof := match err with
                 | None => Ok false
                 | Some IoEOF | Some ErrClosedPipe | Some ErrUnexpectedEOF => Ok true
                 | Some x => Fail (EWrap "encrypt: I/O read error" x)
                 end in
      match eof with
      | Ok eof =>
          let '(e, w, g, rs) := enc_block C e b w i eof g in
          match rs with
          | Ok _ => if eof then (e, r, w, g, Ok tt) else enc_loop C fuel e r w (u32 (i + 1)) g
          | x => (e, r, w, g, x)
          end
      | Fail x => (e, r, w, g, Fail x)
      | Panic p => (e, r, w, g, Panic p)
      end.
Proof. reflexivity. Qed.

Lemma take_app_plus {A} (a b : list A) k : exists q, a ++ take k b = take q (a ++ b).
Proof.
  exists (len a + Z.max 0 k). rewrite take_app_r by lia. f_equal.
  destruct (Z.leb_spec k 0); [rewrite !take_neg by lia; reflexivity|f_equal; lia].
Qed.

Lemma encrypt_chunks_exists n : 1 <= n -> forall s, exists cs, encrypt_chunks n cs s.
Proof.
  intros Hn s. remember (length s) as k eqn:Hk. revert s Hk.
  induction k as [k IH] using lt_wf_ind. intros s Hk.
  destruct (Z.ltb_spec (len s) n).
  - exists [s]. constructor. pose proof (len_nonneg s). lia.
  - destruct (IH (length (drop n s))) with (s := drop n s) as [cs Hcs]; [|reflexivity|].
    + pose proof (len_drop n s ltac:(lia)). unfold len in *. lia.
    + exists (take n s :: cs). rewrite <- (take_drop n s) at 2. constructor; [apply len_take_le; lia|exact Hcs].
Qed.

Lemma enc_loop_spec C : crypto_ok C -> forall fuel e r w i g dk base hk hd s er e' r' w' g' rs,
  live e dk base hk hd -> delivers r s er -> (rd_size r < fuel)%nat ->
  enc_loop C fuel e r w i g = (e', r', w', g', rs) ->
  later w w' /\
  (exists cs tr k, encrypt_chunks (h_chunk (e_hdr e)) cs s /\ w_out w' = w_out w ++ take k (frames C dk base i cs ++ tr)) /\
  match rs with
  | Ok _ => eof_like er /\ exists cs, encrypt_chunks (h_chunk (e_hdr e)) cs s /\
      e' = e_with_hmac e (Some (hk, hd ++ mac_input cs)) /\
      let '(tr, g2) := the_trailer C e hk (hd ++ mac_input cs) g in
      g' = g2 /\ w_out w' = w_out w ++ frames C dk base i cs ++ tr
  | Fail x => (x = EWrap "encrypt: I/O read error" er /\ ~ eof_like er) \/
              (exists m y, In (m, Some y) (w_sched w) /\ cause x = cause y)
  | Panic _ => False
  end.
Proof.
  intros HC. induction fuel as [|fuel IH]; intros e r w i g dk base hk hd s er e' r' w' g' rs Hlive Hdel Hfuel H; [lia|].
  rewrite enc_loop_S in H. pose proof (lv_chunk _ _ _ _ _ Hlive) as Hn. set (n := h_chunk (e_hdr e)) in *.
  destruct (Z.leb_spec n (len s)) as [Hle|Hlt].
  - destruct (read_full_ok _ _ _ n Hdel ltac:(lia) Hle) as (r1 & Er & Hd1). rewrite Er in H.
    cbv beta iota zeta in H.
    destruct (enc_block C e (take n s) w i false g) as [[[e1 w1] g1] rs1] eqn:Eb.
    pose proof (enc_block_spec C e dk base hk hd (take n s) w i false g e1 w1 g1 rs1 HC Hlive
       ltac:(rewrite len_take_le by lia; fold n; lia) Eb) as (Hl1 & Hb).
    assert (Hs : take n s ++ drop n s = s) by apply take_drop.
    assert (Hlt : len (take n s) = n) by (apply len_take_le; lia).
    destruct rs1 as [u|x|]; [|injection H as <- <- <- <- <-|contradiction].
    + destruct Hb as (He1 & Hg1 & Hw1). rewrite app_nil_r in Hw1. subst g1.
      assert (Hlive1 : live e1 dk base hk (hd ++ frame_word (take n s) false ++ take n s)).
      { rewrite He1. eapply live_with; exact Hlive. }
      assert (Hn1 : h_chunk (e_hdr e1) = n) by (rewrite He1; reflexivity).
      assert (Hf1 : (rd_size r1 < fuel)%nat).
      { destruct (read_full_any _ _ _ _ _ Er ltac:(lia)) as (_ & _ & Hsz). rewrite Hlt in Hsz. lia. }
      specialize (IH _ _ _ _ _ _ _ _ _ _ _ _ _ _ _ _ Hlive1 Hd1 Hf1 H).
      rewrite Hn1 in IH. destruct IH as (Hl2 & (cs0 & tr0 & k0 & Hcs0 & Hw0) & IH).
      split; [eapply later_trans; eassumption|].
      assert (Hcc : forall cs, encrypt_chunks n cs (drop n s) -> encrypt_chunks n (take n s :: cs) s).
      { intros cs Hcs. rewrite <- Hs. rewrite Hs. rewrite <- (take_drop n s) at 2. constructor; assumption. }
      assert (Hfr : forall cs, encrypt_chunks n cs (drop n s) ->
         frames C dk base i (take n s :: cs) = frame C dk base i false (take n s) ++ frames C dk base (u32 (i + 1)) cs).
      { intros cs Hcs. rewrite frames_cons by (eapply chunked_nonnil; exact Hcs). rewrite frames_u32. reflexivity. }
      split.
      * destruct (take_app_plus (frame C dk base i false (take n s)) (frames C dk base (u32 (i + 1)) cs0 ++ tr0) k0) as (q & Hq).
        exists (take n s :: cs0), tr0, q. split; [auto|].
        rewrite Hfr, <- app_assoc, <- Hq by assumption. rewrite Hw0, Hw1, <- !app_assoc. reflexivity.
      * destruct rs as [v|x|]; [|destruct IH as [IH|(m & y & Hm & Hc)]|exact IH].
        -- destruct IH as (Heof & cs & Hcs & He' & IH). split; [exact Heof|].
           exists (take n s :: cs). split; [auto|].
           assert (Hmac : (hd ++ frame_word (take n s) false ++ take n s) ++ mac_input cs
                          = hd ++ mac_input (take n s :: cs)).
           { rewrite mac_input_cons by (eapply chunked_nonnil; exact Hcs). rewrite <- !app_assoc. reflexivity. }
           rewrite Hmac in *. split.
           ++ rewrite He', He1. reflexivity.
           ++ replace (the_trailer C e1) with (the_trailer C e) in IH by (rewrite He1; reflexivity).
              destruct (the_trailer C e hk (hd ++ mac_input (take n s :: cs)) g) as [tr g2].
              destruct IH as (IH1 & IH2). split; [exact IH1|].
              rewrite IH2, Hw1, Hfr by assumption. rewrite <- !app_assoc. reflexivity.
        -- left. exact IH.
        -- right. exists m, y. split; [eapply later_In; eassumption|exact Hc].
    + split; [exact Hl1|]. destruct Hb as [(k & Hk) Hb]. split; [|right; exact Hb].
      rewrite app_nil_r in Hk.
      destruct (encrypt_chunks_exists n ltac:(lia) (drop n s)) as (cs & Hcs).
      exists (take n s :: cs), [], (Z.min k (len (frame C dk base i false (take n s)))).
      split; [rewrite <- (take_drop n s) at 2; constructor; assumption|].
      rewrite frames_cons by (eapply chunked_nonnil; exact Hcs).
      rewrite app_nil_r, take_app_l by lia. rewrite Hk. f_equal.
      destruct (Z.leb_spec k (len (frame C dk base i false (take n s)))).
      * rewrite Z.min_l by lia. reflexivity.
      * rewrite Z.min_r by lia. rewrite (take_all k), (take_all (len _)) by lia. reflexivity.
  - destruct (read_full_short _ _ _ n Hdel ltac:(lia) Hlt) as (r1 & Er). rewrite Er in H.
    cbv beta iota zeta in H. rewrite short_err_eof in H.
    assert (Hc1 : encrypt_chunks n [s] s) by (constructor; pose proof (len_nonneg s); lia).
    destruct (eof_like_dec er) as [Heof|Hne].
    + destruct (enc_block C e s w i true g) as [[[e1 w1] g1] rs1] eqn:Eb.
      pose proof (enc_block_spec C e dk base hk hd s w i true g e1 w1 g1 rs1 HC Hlive ltac:(fold n; lia) Eb) as (Hl1 & Hb).
      destruct rs1 as [u|x|]; [| |contradiction].
      * injection H as <- <- <- <- <-. destruct Hb as (He1 & Hb).
        destruct (the_trailer C e hk (hd ++ frame_word s true ++ s) g) as [tr g2] eqn:Et.
        destruct Hb as (-> & Hw1). split; [exact Hl1|]. split.
        { exists [s], tr, (len (frames C dk base i [s] ++ tr)). split; [exact Hc1|]. rewrite take_all by lia. exact Hw1. }
        split; [exact Heof|]. exists [s]. split; [exact Hc1|]. split; [exact He1|].
        cbn [mac_input frames]. rewrite Et. auto.
      * injection H as <- <- <- <- <-. split; [exact Hl1|]. destruct Hb as [(k & Hk) Hb]. split; [|right; exact Hb].
        exists [s]. eexists. exists k. split; [exact Hc1|]. exact Hk.
    + injection H as <- <- <- <- <-. split; [apply later_refl|]. split; [|left; auto].
      exists [s], [], 0. split; [exact Hc1|]. rewrite take_0, app_nil_r. reflexivity.
Qed.

(** ** sessions *)
Arguments clamp : simpl never.
Arguments basepoint : simpl never.
Arguments block_size : simpl never.
Lemma len_upd i f l : len (upd i f l) = len l.
Proof. revert i; induction l as [|x l IH]; intros [|i]; cbn [upd]; rewrite ?len_cons, ?IH; reflexivity. Qed.
Lemma len_clamp k : len (clamp k) = len k.
Proof. unfold clamp. rewrite !len_upd. reflexivity. Qed.

Lemma block_size_chunk blk : 0 <= blk -> block_size blk = chunk_of blk.
Proof.
  intros H. unfold block_size, chunk_of, chunk_default, max_chunk. destruct (Z.eqb_spec blk 0); [reflexivity|].
  destruct (Z.ltb_spec (2^30) blk); [rewrite Z.min_r; [reflexivity|lia]|]. unfold u32. rewrite Z.mod_small, Z.min_l; lia.
Qed.
Lemma block_size_range b : 0 <= b -> 1 <= block_size b <= 2^30.
Proof.
  intros H. unfold block_size, chunk_default, max_chunk.
  destruct (Z.eqb_spec b 0); [lia|]. destruct (Z.ltb_spec (2^30) b); [lia|].
  unfold u32. rewrite Z.mod_small; lia.
Qed.

(** the signature (or 64 zero bytes) carried encrypted in the header *)
Definition sender_sig (C : crypto) (sender : option privkey) (epk salt root : bytes) : bytes :=
  match sender with
  | Some sk => ed_sign C (sk_Sk sk) (msg_digest C (sender_cksum C epk salt root))
  | None => zeros 64
  end.
Definition sender_box (C : crypto) (sender : option privkey) (epk salt root : bytes) : bytes :=
  let '(k, n) := sender_keys C root salt in gcm_seal C k n (sender_sig C sender epk salt root) [].

(** the curve point used for a recipient *)
Definition curve_pt (pk : pubkey) : bytes := match pk_ck pk with Some c => c | None => curve_of (pk_Pk pk) end.

(** [w] is the root key wrapped for recipient [pk] with ephemeral scalar [esk] *)
Definition wrapped_for (C : crypto) (esk salt root : bytes) (pk : pubkey) (w : wkey) : Prop :=
  w_unk w = [] /\ len (w_nonce w) = 12 /\
  w_dkey w = (let '(k, n) := wrap_keys C (x25519 C esk (curve_pt pk)) salt (w_nonce w) in
              gcm_seal C k n root (pk_Pk pk)).

Record ready (C : crypto) (sender : option privkey) (blk : Z) (pks : list pubkey) (e : encryptor) : Prop := {
  rd_chunk : h_chunk (e_hdr e) = block_size blk;
  rd_salt : len (h_salt (e_hdr e)) = 32;
  rd_esk : len (e_encSK e) = 32;
  rd_epk : h_pk (e_hdr e) = x25519 C (e_encSK e) basepoint;
  rd_key : len (e_key e) = 32;
  rd_sender : h_sender (e_hdr e) = sender_box C sender (h_pk (e_hdr e)) (h_salt (e_hdr e)) (e_key e);
  rd_keys : Forall2 (wrapped_for C (e_encSK e) (h_salt (e_hdr e)) (e_key e)) pks (h_keys (e_hdr e));
  rd_unk : h_unk (e_hdr e) = [];
  rd_snd : e_sender e = sender;
  rd_auth : e_auth e = match sender with Some _ => true | None => false end;
  rd_started : e_started e = false;
  rd_stream : e_stream e = false }.

Definition good_sender (sender : option privkey) : Prop := forall sk, sender = Some sk -> len (sk_Sk sk) = 64.

Lemma len_hkdf C s t i n : crypto_ok C -> 0 <= n <= 255 * 64 -> len (hkdf_sha512 C s t i n) = n.
Proof. intros HC. apply ok_hkdf_len. exact HC. Qed.

Lemma new_gcm_32 k : len k = 32 -> new_gcm k = Ok k.
Proof. intros H. unfold new_gcm. rewrite H. reflexivity. Qed.

Lemma add_sender_sig_spec C sender pk salt key : crypto_ok C -> good_sender sender ->
  add_sender_sig C sender pk salt key
  = Ok (sender_box C sender pk salt key, match sender with Some _ => true | None => false end).
Proof.
  intros HC Hg. unfold add_sender_sig, sender_box, sender_keys, expand, sign_message, Ed_Sign, sender_sig.
  assert (Hk : forall a b c, len (take 32 (hkdf_sha512 C a b c 44)) = 32).
  { intros. rewrite len_take_le; [reflexivity|]. rewrite len_hkdf by (assumption || lia). lia. }
  destruct sender as [sk|]; cbn [bind].
  - rewrite (Hg _ eq_refl). cbn [negb Z.eqb Pos.eqb bind sig_Sig]. rewrite new_gcm_32 by apply Hk. reflexivity.
  - rewrite new_gcm_32 by apply Hk. reflexivity.
Qed.

Lemma new_encryptor_spec C sender blk g e g' : crypto_ok C -> good_sender sender ->
  new_encryptor C sender blk g = (Ok e, g') -> ready C sender blk [] e.
Proof.
  intros HC Hg. unfold new_encryptor, new_sender.
  destruct (rand_buf 32 g) as [r0 g0] eqn:E0.
  destruct (rand_buf aes_key_size g0) as [key g1] eqn:E1. destruct (rand_buf salt_size g1) as [salt g2] eqn:E2.
  rewrite add_sender_sig_spec by assumption. intros H. inversion H; subst.
  constructor; cbn; auto.
  - eapply len_rand_buf; [|exact E2]. unfold salt_size; lia.
  - rewrite len_clamp. eapply len_rand_buf; [|exact E0]; lia.
  - eapply len_rand_buf; [|exact E1]. unfold aes_key_size; lia.
Qed.

Lemma new_encryptor_total C sender blk g : crypto_ok C -> good_sender sender ->
  exists e g', new_encryptor C sender blk g = (Ok e, g').
Proof.
  intros HC Hg. unfold new_encryptor, new_sender.
  destruct (rand_buf 32 g) as [r0 g0]. destruct (rand_buf aes_key_size g0) as [key g1]. destruct (rand_buf salt_size g1) as [salt g2].
  rewrite add_sender_sig_spec by assumption. eauto.
Qed.

Lemma to_curve_pk_pt pk c pk' : to_curve_pk pk = Ok (c, pk') -> c = curve_pt pk.
Proof.
  unfold to_curve_pk, curve_pt. destruct (pk_ck pk); [congruence|].
  destruct (32 <? len (pk_Pk pk)); [discriminate|]. congruence.
Qed.

Lemma wrap_key_spec C e pk g w pk' g' : crypto_ok C ->
  wrap_key C e pk g = (Ok (w, pk'), g') ->
  wrapped_for C (e_encSK e) (h_salt (e_hdr e)) (e_key e) pk w.
Proof.
  intros HC. unfold wrap_key. destruct (to_curve_pk pk) as [[c pk1]| |] eqn:Ec; try discriminate.
  pose proof (to_curve_pk_pt _ _ _ Ec) as Hc.
  unfold X25519. destruct (negb (len (e_encSK e) =? 32)); [discriminate|]. destruct (negb (len c =? 32)); [discriminate|].
  destruct (beq (x25519 C (e_encSK e) c) (zeros 32)); [discriminate|].
  destruct (rand_buf rx_nonce_size g) as [rb g1] eqn:Er. unfold expand.
  rewrite new_gcm_32.
  2: { rewrite len_take_le; [reflexivity|]. rewrite len_hkdf by (assumption || (unfold aes_key_size, rx_nonce_size; lia)).
       unfold aes_key_size, rx_nonce_size; lia. }
  cbn [bind wrapf]. intros H. inversion H; subst. unfold wrapped_for, wrap_keys. cbn.
  split; [reflexivity|]. split; [eapply len_rand_buf; [|exact Er]; unfold rx_nonce_size; lia|]. reflexivity.
Qed.

Lemma ready_add C sender blk pks e pk w : ready C sender blk pks e ->
  wrapped_for C (e_encSK e) (h_salt (e_hdr e)) (e_key e) pk w ->
  ready C sender blk (pks ++ [pk]) (e_with_hdr e (h_add_key (e_hdr e) w)).
Proof.
  intros [] Hw. constructor; cbn; auto. apply Forall2_app; [assumption|]. constructor; [exact Hw|constructor].
Qed.

Lemma add_recipients_spec C sender blk : crypto_ok C -> forall pks2 pks1 e g e' g',
  ready C sender blk pks1 e -> add_recipients C e pks2 g = Some (e', g') -> ready C sender blk (pks1 ++ pks2) e'.
Proof.
  intros HC. induction pks2 as [|pk pks2 IH]; intros pks1 e g e' g' Hr H; cbn [add_recipients] in H.
  - inversion H; subst. rewrite app_nil_r. exact Hr.
  - unfold add_recipient in H. rewrite (rd_started _ _ _ _ _ Hr) in H.
    destruct (wrap_key C e pk g) as [[[w pk']| |] g1] eqn:Ew; try discriminate.
    pose proof (wrap_key_spec _ _ _ _ _ _ _ HC Ew) as Hw.
    replace (pks1 ++ pk :: pks2) with ((pks1 ++ [pk]) ++ pks2) by (rewrite <- app_assoc; reflexivity).
    eapply IH; [|exact H]. apply ready_add; assumption.
Qed.

Lemma session_ready C sender blk pks g e g' : crypto_ok C -> good_sender sender ->
  session C sender blk pks g e g' -> ready C sender blk pks e.
Proof.
  intros HC Hg (e0 & g0 & He & Ha).
  exact (add_recipients_spec C sender blk HC pks [] e0 g0 e g' (new_encryptor_spec _ _ _ _ _ _ HC Hg He) Ha).
Qed.

Lemma len_sender_sig C sender epk salt root : crypto_ok C -> len (sender_sig C sender epk salt root) = 64.
Proof. intros HC. unfold sender_sig. destruct sender; [apply ok_sign_len; exact HC|reflexivity]. Qed.
Lemma len_sender_box C sender epk salt root : crypto_ok C -> len (sender_box C sender epk salt root) = 80.
Proof.
  intros HC. unfold sender_box, sender_keys. rewrite (ok_seal_len C HC), len_sender_sig by assumption. reflexivity.
Qed.
Lemma len_wrapped C esk salt root pk w : crypto_ok C -> len root = 32 -> wrapped_for C esk salt root pk w ->
  len (w_dkey w) = 48 /\ len (w_nonce w) = 12 /\ w_unk w = [].
Proof.
  intros HC Hr (H1 & H2 & H3). unfold wrap_keys in H3. rewrite H3, (ok_seal_len C HC), Hr. auto.
Qed.

Lemma len_pb_wkey_std w : len (w_dkey w) = 48 -> len (w_nonce w) = 12 -> w_unk w = [] -> len (pb_msg 5 (pb_wkey w)) = 66.
Proof.
  intros H1 H2 H3.
  assert (Hw : len (pb_wkey w) = 64).
  { rewrite len_pb_wkey by lia. unfold size_wkey, size_field. rewrite H1, H2, H3. reflexivity. }
  unfold pb_msg. rewrite !len_app, Hw. reflexivity.
Qed.

(** size of the protobuf header of a session *)
Definition chunk_field_len (chunk : Z) : Z := 1 + size_varint chunk.

Lemma ready_header_len C sender blk pks e : crypto_ok C -> 0 <= blk -> ready C sender blk pks e ->
  len (pb_header (e_hdr e)) = 150 + chunk_field_len (block_size blk) + 66 * len pks.
Proof.
  intros HC Hb []. unfold pb_header. rewrite !len_app, rd_unk0.
  assert (Hk : len (concat (map (fun k => pb_msg 5 (pb_wkey k)) (h_keys (e_hdr e)))) = 66 * len pks).
  { clear - rd_keys0 HC rd_key0. induction rd_keys0 as [|pk w pks ws Hw H IH]; [reflexivity|].
    cbn [map List.concat]. rewrite len_app, IH, len_cons.
    destruct (len_wrapped _ _ _ _ _ _ HC rd_key0 Hw) as (H1 & H2 & H3).
    rewrite len_pb_wkey_std by assumption. lia. }
  rewrite Hk, !len_pb_bytes.
  all: rewrite ?rd_epk0, ?(ok_x25519_len C HC), ?rd_salt0, ?rd_sender0, ?len_sender_box by assumption; try lia.
  unfold size_field. rewrite (ok_x25519_len C HC), rd_salt0, len_sender_box by assumption.
  rewrite rd_chunk0. pose proof (block_size_range blk Hb). unfold pb_uint, chunk_field_len.
  destruct (Z.eqb_spec (block_size blk) 0); [lia|]. rewrite len_app, <- (size_varint_spec (block_size blk)) by lia.
  change (len (varint (1 * 8))) with 1. change (size_varint 32) with 1. change (size_varint 80) with 1.
  change (len (@nil byte)) with 0. cbn [Z.ltb Z.compare]. lia.
Qed.

Lemma ready_known C sender blk pks e : crypto_ok C -> ready C sender blk pks e -> pb_known (e_hdr e).
Proof.
  intros HC []. split; [assumption|]. clear - rd_keys0.
  induction rd_keys0 as [|pk w pks ws Hw H IH]; constructor; [apply Hw|exact IH].
Qed.

Lemma ready_small C sender blk pks e : crypto_ok C -> 0 <= blk -> ready C sender blk pks e ->
  len (pb_header (e_hdr e)) < 2^62 -> pb_small (e_hdr e).
Proof.
  intros HC Hb Hr Hl. split; [|exact Hl]. rewrite (rd_chunk _ _ _ _ _ Hr). pose proof (block_size_range blk Hb). lia.
Qed.

(** ** start *)
Lemma full_header_code h : magic ++ [z2b sigtool_version] ++ be32 (u32 (len (pb_header h))) = str "SigTool" ++ [x03] ++ be32 (len (pb_header h)).
Proof. rewrite be32_u32. reflexivity. Qed.

Definition e_started_state (C : crypto) (e : encryptor) (fk : file_keys) : encryptor :=
  mkEnc (e_hdr e) (e_key e) (fk_base fk) (u32 (h_chunk (e_hdr e) + 4 + gcm_overhead)) (Some (fk_data fk))
        (Some (fk_mac fk, [])) (e_encSK e) (e_sender e) (e_auth e) true (e_stream e).

Lemma derive_lens C root ck : crypto_ok C ->
  let fk := derive_keys C root ck in len (fk_base fk) = 12 /\ len (fk_data fk) = 32 /\ len (fk_mac fk) = 32.
Proof.
  intros HC. cbv zeta. unfold derive_keys. cbn [fk_base fk_data fk_mac].
  pose proof (len_hkdf C root ck (str "Data Key Expansion") 76 HC ltac:(lia)) as Hk.
  rewrite !len_take_le, !len_drop by (rewrite ?len_drop by lia; lia). lia.
Qed.

Lemma enc_start_spec C e w e' w' rs : crypto_ok C -> pb_small (e_hdr e) ->
  enc_start C e w = (e', w', rs) ->
  let out := full_header (e_hdr e) ++ header_cksum C (e_hdr e) in
  later w w' /\
  match rs with
  | Ok _ => e' = e_started_state C e (keys_of C (e_hdr e) (e_key e)) /\ w_out w' = w_out w ++ out
  | Fail x => (exists k, w_out w' = w_out w ++ take k out) /\ (exists m y, In (m, Some y) (w_sched w) /\ cause x = cause y)
              /\ e_started e' = e_started e /\ e_stream e' = e_stream e /\ e_hdr e' = e_hdr e /\ e_key e' = e_key e
  | Panic _ => False
  end.
Proof.
  intros HC Hs H. unfold enc_start in H. rewrite marshal_spec in H by assumption.
  unfold fixed_header in H. rewrite size_header_spec in H by assumption.
  rewrite full_header_code in H.
  replace ((str "SigTool" ++ [x03] ++ be32 (len (pb_header (e_hdr e)))) ++ pb_header (e_hdr e))
    with (full_header (e_hdr e)) in H by (unfold full_header; rewrite <- !app_assoc; reflexivity).
  cbv zeta in H. fold (header_cksum C (e_hdr e)) in H.
  set (ck := header_cksum C (e_hdr e)) in *. unfold expand in H.
  change (sha256_size + aes_key_size + aead_nonce_size) with 76 in H.
  change data_key_expansion with (str "Data Key Expansion") in H.
  set (k := hkdf_sha512 C (e_key e) ck (str "Data Key Expansion") 76) in *.
  change aead_nonce_size with 12 in H. change aes_key_size with 32 in H.
  assert (Hk : len k = 76) by (apply len_hkdf; [exact HC|lia]).
  rewrite new_gcm_32 in H by (rewrite len_take_le; [reflexivity|]; rewrite len_drop by lia; lia).
  assert (Hdd : drop 32 (drop 12 k) = drop 44 k) by (rewrite drop_drop by lia; reflexivity).
  rewrite Hdd in H.
  destruct (fullwrite (full_header (e_hdr e) ++ ck) w) as [[x|] w1] eqn:Ef; injection H as <- <- <-.
  - destruct (fullwrite_Some _ _ _ _ Ef) as (H1 & (m & H2) & H3). split; [exact H3|].
    split; [exact H1|]. split; [exists m, x; auto|]. auto.
  - destruct (fullwrite_None _ _ _ Ef) as (H1 & H2). split; [exact H2|]. split; [reflexivity|exact H1].
Qed.

Lemma ready_live C sender blk pks e : crypto_ok C -> good_sender sender -> 0 <= blk -> ready C sender blk pks e ->
  let fk := keys_of C (e_hdr e) (e_key e) in
  live (e_started_state C e fk) (fk_data fk) (fk_base fk) (fk_mac fk) [].
Proof.
  intros HC Hg Hb []. cbv zeta.
  destruct (derive_lens C (e_key e) (header_cksum C (e_hdr e)) HC) as (H1 & H2 & H3).
  fold (keys_of C (e_hdr e) (e_key e)) in *. pose proof (block_size_range blk Hb).
  constructor; cbn; auto; rewrite ?rd_chunk0, ?rd_auth0, ?rd_snd0; auto.
Qed.

(** ** Encrypt on a fresh session *)
Definition trailer_ok (C : crypto) (sender : option privkey) (fk : file_keys) (cs : list bytes) (tr : bytes) : Prop :=
  good_trailer C sender fk cs tr.

Lemma the_trailer_good C e sender hk hd g tr g2 : crypto_ok C -> e_sender e = sender ->
  the_trailer C e hk hd g = (tr, g2) ->
  len tr = 64 /\ forall sk, sender = Some sk -> tr = ed_sign C (sk_Sk sk) (sha512 C (str "sigtool signed message" ++ hmac_sha256 C hk hd)).
Proof.
  intros HC <-. unfold the_trailer. destruct (e_sender e) as [sk|].
  - intros H. inversion H; subst. split; [apply ok_sign_len; exact HC|]. intros sk' Hsk. inversion Hsk; subst. reflexivity.
  - intros H. split; [eapply len_rand_buf; [|exact H]; unfold sig_size; lia|discriminate].
Qed.

Lemma encrypt_spec C sender blk pks e r w g s er e' r' w' g' rs :
  crypto_ok C -> good_sender sender -> 0 <= blk -> ready C sender blk pks e -> len (pb_header (e_hdr e)) < 2^62 ->
  delivers r s er -> encrypt C e r w g = (e', r', w', g', rs) ->
  let h := e_hdr e in let root := e_key e in
  (exists cs tr k, encrypt_chunks (block_size blk) cs s /\ w_out w' = w_out w ++ take k (sigtool_file C h root cs tr)) /\
  match rs with
  | Ok _ => eof_like er /\ exists cs, encrypt_chunks (block_size blk) cs s /\
      let '(tr, g2) := the_trailer C e (fk_mac (keys_of C h root)) (mac_input cs) g in
      g' = g2 /\ good_trailer C sender (keys_of C h root) cs tr /\
      w_out w' = w_out w ++ sigtool_file C h root cs tr /\
      e' = e_with_hmac (e_started_state C e (keys_of C h root)) (Some (fk_mac (keys_of C h root), mac_input cs)) /\
      w_nclosed w' = w_nclosed w + 1
  | Fail x => (x = EWrap "encrypt: I/O read error" er /\ ~ eof_like er) \/
              (exists m y, In (m, Some y) (w_sched w) /\ cause x = cause y) \/ (exists cs, w_closes w = Some x :: cs)
  | Panic _ => False
  end.
Proof.
  intros HC Hg Hb Hr Hl Hd H h root. unfold encrypt in H.
  rewrite (rd_stream _ _ _ _ _ Hr), (rd_started _ _ _ _ _ Hr) in H.
  destruct (enc_start C e w) as [[e1 w1] rs1] eqn:Es.
  pose proof (enc_start_spec C e w e1 w1 rs1 HC (ready_small _ _ _ _ _ HC Hb Hr Hl) Es) as (Hl1 & Hst).
  fold h root in Hst. set (fk := keys_of C h root) in *.
  assert (Hfile : forall cs tr, sigtool_file C h root cs tr = (full_header h ++ header_cksum C h) ++ frames C (fk_data fk) (fk_base fk) 0 cs ++ tr).
  { intros cs tr. unfold sigtool_file, body. fold fk. rewrite <- !app_assoc. reflexivity. }
  destruct rs1 as [u|x|]; [| |contradiction].
  - destruct Hst as (He1 & Hw1).
    destruct (enc_loop C (S (rd_size r)) e1 r w1 0 g) as [[[[e2 r2] w2] g2] rs2] eqn:El.
    assert (Hlive : live e1 (fk_data fk) (fk_base fk) (fk_mac fk) []).
    { rewrite He1. apply (ready_live C sender blk pks e HC Hg Hb Hr). }
    pose proof (enc_loop_spec C HC _ _ _ _ _ _ _ _ _ _ _ _ _ _ _ _ _ Hlive Hd (Nat.lt_succ_diag_r _) El) as (Hl2 & Hpre & Hloop).
    assert (Hn : h_chunk (e_hdr e1) = block_size blk) by (rewrite He1; apply (rd_chunk _ _ _ _ _ Hr)).
    rewrite Hn in *.
    assert (Hpre' : exists cs tr k, encrypt_chunks (block_size blk) cs s /\ w_out w2 = w_out w ++ take k (sigtool_file C h root cs tr)).
    { destruct Hpre as (cs & tr & k & Hcs & Hw2).
      destruct (take_app_plus (full_header h ++ header_cksum C h) (frames C (fk_data fk) (fk_base fk) 0 cs ++ tr) k) as (q & Hq).
      exists cs, tr, q. split; [exact Hcs|]. rewrite Hfile, <- Hq, Hw2, Hw1, <- !app_assoc. reflexivity. }
    destruct rs2 as [v|x|]; [| |contradiction].
    + destruct (w_close w2) as [[x|] w3] eqn:Ec; injection H as <- <- <- <- <-.
      * rewrite (w_close_out _ _ _ Ec). split; [exact Hpre'|]. right. right.
        unfold w_close in Ec. destruct Hl2 as (_ & Hc2 & _). destruct Hl1 as (_ & Hc1 & _).
        rewrite <- Hc1, <- Hc2. destruct (w_closes w2) as [|c cs]; [discriminate|]. injection Ec as -> _. eauto.
      * rewrite (w_close_out _ _ _ Ec). split; [exact Hpre'|].
        destruct Hloop as (Heof & cs & Hcs & He2 & Hloop). split; [exact Heof|]. exists cs. split; [exact Hcs|].
        cbn [app] in *.
        replace (the_trailer C e1) with (the_trailer C e) in Hloop by (rewrite He1; reflexivity).
        destruct (the_trailer C e (fk_mac fk) (mac_input cs) g) as [tr g3] eqn:Et.
        destruct Hloop as (-> & Hw2). split; [reflexivity|].
        split. { unfold good_trailer. eapply the_trailer_good; [exact HC|apply (rd_snd _ _ _ _ _ Hr)|exact Et]. }
        split; [rewrite Hw2, Hw1, Hfile, <- !app_assoc; reflexivity|].
        split; [rewrite He2, He1; reflexivity|].
        destruct Hl2 as (_ & _ & Hc2). destruct Hl1 as (_ & _ & Hc1). rewrite <- Hc1, <- Hc2.
        unfold w_close in Ec. destruct (w_closes w2); injection Ec; intros; subst; reflexivity.
    + injection H as <- <- <- <- <-. split; [exact Hpre'|].
      destruct Hloop as [Hx|(m & y & Hm & Hc)]; [left; exact Hx|]. right. left.
      exists m, y. split; [eapply later_In; eassumption|exact Hc].
  - injection H as <- <- <- <- <-. destruct Hst as ((k & Hk) & (m & y & Hm & Hc) & _). split.
    + destruct (encrypt_chunks_exists (block_size blk) ltac:(pose proof (block_size_range blk Hb); lia) s) as (cs & Hcs).
      exists cs, [], (Z.min k (len (full_header h ++ header_cksum C h))). split; [exact Hcs|].
      rewrite Hfile, take_app_l by lia. rewrite Hk. f_equal.
      destruct (Z.leb_spec k (len (full_header h ++ header_cksum C h))).
      * rewrite Z.min_l by lia. reflexivity.
      * rewrite Z.min_r by lia. rewrite (take_all k), (take_all (len _)) by lia. reflexivity.
    + right. left. exists m, y. split; assumption.
Qed.

(** a healthy source and destination: Encrypt succeeds *)
Lemma encrypt_total C sender blk pks e r w g s :
  crypto_ok C -> good_sender sender -> 0 <= blk -> ready C sender blk pks e -> len (pb_header (e_hdr e)) < 2^62 ->
  delivers r s IoEOF -> accepts w -> exists e' r' w' g', encrypt C e r w g = (e', r', w', g', Ok tt).
Proof.
  intros HC Hg Hb Hr Hl Hd [Ha Hc]. destruct (encrypt C e r w g) as [[[[e' r'] w'] g'] rs] eqn:E.
  pose proof (encrypt_spec _ _ _ _ _ _ _ _ _ _ _ _ _ _ _ HC Hg Hb Hr Hl Hd E) as (_ & H).
  destruct rs as [[]|x|]; [eauto| |contradiction]. exfalso.
  destruct H as [[_ H]|[(m & y & Hm & _)|H]].
  - apply H. left. reflexivity.
  - rewrite Forall_forall in Ha. specialize (Ha _ Hm). discriminate.
  - destruct H as (cs & H). rewrite H in Hc. inversion Hc. discriminate.
Qed.
