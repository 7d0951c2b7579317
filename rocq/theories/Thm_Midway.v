(** C95: calling SetPrivateKey again while a stream reader is at work. *)
From Verif Require Import Bytes BytesLemmas GoErr GoIO SpecIO IOProofs Pb SpecPb PbProofs Crypto CryptoLaws Keys Sign
  Encrypt Decrypt Stream Spec SpecStream SpecCalls EncryptProofs DecryptProofs AcceptProofs OpenProofs RoundTrip StreamProofs StreamRead Hostile
  Support Toy Scene Thm_Encrypt Thm_Decrypt Thm_Session Thm_Stream Thm_Size Thm_StreamFormat Thm_Consume.
Require Import ZifyBool.
Local Notation length := List.length.
Local Notation concat := List.concat.

(** ** Specification *)
(** a call made while the first stream reader is in use: SetPrivateKey with a real private key (of a recipient or of anybody
    else) and any sender key, or Read *)
Definition midway (C : crypto) (h : header) (root : bytes) (c : dcall) : Prop :=
  match c with
  | DSet sk spk => exists seed, keypair C seed sk /\ no_accident C h seed root
  | DRead O n => 0 <= n
  | _ => False
  end.
(** the buffer sizes of the Read calls; what the Read calls returned; what the SetPrivateKey calls returned *)
Definition sizes (cs : list dcall) : list Z := flat_map (fun c => match c with DRead _ n => [n] | _ => [] end) cs.
Fixpoint read_results (cs : list dcall) (rs : list dret) : list (bytes * res unit) :=
  match cs, rs with
  | DRead _ _ :: cs', DRet r _ b :: rs' => (b, r) :: read_results cs' rs'
  | _ :: cs', _ :: rs' => read_results cs' rs'
  | _, _ => []
  end.
Fixpoint set_results (cs : list dcall) (rs : list dret) : list (res unit) :=
  match cs, rs with
  | DSet _ _ :: cs', DRet r _ _ :: rs' => r :: set_results cs' rs'
  | _ :: cs', _ :: rs' => set_results cs' rs'
  | _, _ => []
  end.
Definition no_panic (rs : list dret) : Prop := forall r o b, In (DRet r o b) rs -> is_panic r = false.

(** ** The reader that is disturbed (d) and one that is not and that checks no trailer (g) *)
Record like (d g : decryptor) : Prop := {
  lk_hdr : d_hdr d = d_hdr g; lk_ae : d_ae d = d_ae g; lk_rd : d_rd d = d_rd g; lk_nonce : d_nonce d = d_nonce g;
  lk_buflen : d_buflen d = d_buflen g; lk_eof : d_eof d = d_eof g; lk_sum : d_hdrsum d = d_hdrsum g;
  lk_hd : d_hmac d <> None; lk_hg : d_hmac g <> None; lk_auth : d_auth g = false }.

Lemma take_buf_le m pt b1 b2 : m <= len pt -> take m (buf_put pt b1) = take m (buf_put pt b2).
Proof. intros H. unfold buf_put. rewrite !take_app_l by exact H. reflexivity. Qed.
Lemma u32_le x : 0 <= x -> u32 x <= x.
Proof. intros H. unfold u32. apply Z.mod_le; lia. Qed.

Lemma dec_chunk_like C d g i d' r g' r' : like d g -> dec_chunk C d i = (d', r) -> dec_chunk C g i = (g', r') ->
  like d' g' /\ d_auth d' = d_auth d /\ (forall m eof, r = Ok (m, eof) -> r' = r /\ take m (d_buf d') = take m (d_buf g')) /\
  (d_auth d = false -> r' = r).
Proof.
  intros [Hh Ha Hr Hn Hl He Hs H1 H2 Hag] Hd Hg. unfold dec_chunk in Hd, Hg. rewrite Hh, Ha, Hr, Hn, Hl in Hd.
  destruct (d_ae g) as [k|] eqn:Eg.
  2:{ injection Hd as <- <-. injection Hg as <- <-. split; [constructor; congruence|]. split; [reflexivity|]. split; [discriminate|reflexivity]. }
  destruct (read_full (d_rd g) 4) as [[b err] rd]. cbv zeta in Hd, Hg.
  assert (L : forall hm1 hm2 r0 b1 b2, hm1 <> None -> hm2 <> None -> like (d_with d hm1 r0 b1) (d_with g hm2 r0 b2)).
  { intros. constructor; cbn; try congruence. }
  destruct (_ || _). { injection Hd as <- <-. injection Hg as <- <-. split; [apply L; assumption|]. split; [reflexivity|]. split; [discriminate|reflexivity]. }
  set (m := Z.land (unbe32 b) (eof_bit - 1)) in *. set (eof := 0 <? Z.land (unbe32 b) eof_bit) in *.
  destruct (h_chunk (d_hdr g) <? m). { injection Hd as <- <-. injection Hg as <- <-. split; [apply L; assumption|]. split; [reflexivity|]. split; [discriminate|reflexivity]. }
  destruct (m =? 0).
  { destruct (negb eof); injection Hd as <- <-; injection Hg as <- <-; (split; [apply L; assumption|]); (split; [reflexivity|]).
    - split; [discriminate|reflexivity].
    - split; [|reflexivity]. intros m0 eof0 X. injection X as <- <-. split; [reflexivity|]. rewrite !take_0. reflexivity. }
  destruct (d_buflen g <? u32 (m + gcm_overhead)). { injection Hd as <- <-. injection Hg as <- <-. split; [apply L; assumption|]. split; [reflexivity|]. split; [discriminate|reflexivity]. }
  destruct (read_full rd (u32 (m + gcm_overhead))) as [[c err2] rd2].
  destruct err2 as [x|]. { injection Hd as <- <-. injection Hg as <- <-. split; [apply L; assumption|]. split; [reflexivity|]. split; [discriminate|reflexivity]. }
  destruct (gcm_open C k (chunk_nonce (d_nonce g) i) c b) as [pt|]; [|injection Hd as <- <-; injection Hg as <- <-; split; [apply L; assumption|]; split; [reflexivity|]; split; [discriminate|reflexivity]].
  destruct (Z.eqb_spec (u32 (len pt)) m) as [Em|Em]; cbn [negb] in *.
  2:{ injection Hd as <- <-. injection Hg as <- <-. split; [apply L; assumption|]. split; [reflexivity|]. split; [discriminate|reflexivity]. }
  destruct (d_hmac d) as [[hk hd]|] eqn:E1; [|contradiction]. destruct (d_hmac g) as [[hk2 hd2]|] eqn:E2; [|contradiction].
  assert (Hmp : m <= len pt) by (rewrite <- Em; apply u32_le; apply len_nonneg).
  destruct eof.
  2:{ injection Hd as <- <-. injection Hg as <- <-. split; [apply L; discriminate|]. split; [reflexivity|]. split; [|reflexivity].
      intros m0 eof0 X. injection X as <- <-. split; [reflexivity|]. cbn [d_buf d_with]. apply take_buf_le. exact Hmp. }
  unfold process_trailer in Hd, Hg. cbn [d_rd d_with d_hmac d_auth d_sender d_buf] in Hd, Hg. rewrite Hag in Hg. cbn [negb] in Hg.
  destruct (read_full rd2 sig_size) as [[tr err3] rd3].
  assert (L' : forall hm1 hm2 b1 b2 hm3 hm4 r4 r5 b3 b4, hm1 <> None -> hm2 <> None ->
    like (d_with (d_with d hm3 r4 b3) hm1 rd3 b1) (d_with (d_with g hm4 r5 b4) hm2 rd3 b2)).
  { intros. constructor; cbn; try congruence. }
  destruct err3 as [x|]. { injection Hd as <- <-. injection Hg as <- <-. split; [apply L'; discriminate|]. split; [reflexivity|]. split; [discriminate|reflexivity]. }
  injection Hg as <- <-.
  assert (HB : take m (buf_put pt (buf_put c (d_buf d))) = take m (buf_put pt (buf_put c (d_buf g)))) by (apply take_buf_le; exact Hmp).
  destruct (d_auth d) eqn:Ead; cbn [negb] in Hd.
  - destruct (d_sender d) as [pk|].
    + destruct (verify_message C pk _ _) as [[]|x|x]; injection Hd as <- <-; (split; [apply L'; discriminate|]); (split; [exact Ead|]); (split; [|discriminate]);
        intros m0 eof0 X; try discriminate X. injection X as <- <-. split; [reflexivity|exact HB].
    + injection Hd as <- <-. split; [apply L'; discriminate|]. split; [exact Ead|]. split; [discriminate|discriminate].
  - injection Hd as <- <-. split; [apply L'; discriminate|]. split; [exact Ead|]. split; [|reflexivity]. intros m0 eof0 X. injection X as <- <-. split; [reflexivity|exact HB].
Qed.

(** the two readers stand at the same place with the same unread data *)
Definition at_same (d : decryptor) (x : encr * option bytes) (g : decryptor) (s0 : encr) : Prop :=
  like d g /\ er_blk (fst x) = er_blk s0 /\
  exists p, pending g s0 p /\ match snd x with None => pending d (fst x) p | Some b => er_err (fst x) = None /\ b = p /\ p <> [] end.

Lemma pending_fresh d n blk : 0 <= n -> n <= len (d_buf d) -> pending d (mkEr 0 n blk None) (take n (d_buf d)).
Proof. intros H1 H2. constructor; cbn; [reflexivity|lia|rewrite drop_0; reflexivity|]. rewrite len_take_le; lia. Qed.
Lemma dec_chunk_len C d i d' m eof : dec_chunk C d i = (d', Ok (m, eof)) -> 0 <= m <= len (d_buf d').
Proof.
  intros H. unfold dec_chunk, process_trailer in H. destruct (d_ae d) as [k|]; [|discriminate H]. destruct (read_full (d_rd d) 4) as [[b err] rd]. cbv zeta in H.
  destruct (_ || _); [discriminate H|]. destruct (_ <? _); [discriminate H|].
  destruct (Z.land (unbe32 b) (eof_bit - 1) =? 0). { destruct (negb _); [discriminate H|]. injection H as <- <- _. pose proof (len_nonneg (d_buf d)). cbn. lia. }
  destruct (_ <? _); [discriminate H|]. destruct (read_full rd _) as [[c err2] rd2]. destruct err2; [discriminate H|].
  destruct (gcm_open C k _ c b) as [pt|]; [|discriminate H]. destruct (Z.eqb_spec (u32 (len pt)) (Z.land (unbe32 b) (eof_bit - 1))) as [Em|Em]; cbn [negb] in H; [|discriminate H].
  assert (Hm : forall q, 0 <= Z.land (unbe32 b) (eof_bit - 1) <= len (buf_put pt q)).
  { intros q. unfold buf_put. rewrite len_app. pose proof (len_nonneg (drop (len pt) q)). pose proof (u32_le (len pt) (len_nonneg pt)).
    rewrite <- Em. split; [unfold u32; apply Z.mod_pos_bound; reflexivity|lia]. }
  destruct (d_hmac d) as [[hk hd]|]; [|discriminate H].
  destruct (0 <? Z.land (unbe32 b) eof_bit); [|injection H as <- <- _; apply Hm].
  cbn [d_rd d_with d_hmac d_auth d_sender d_buf] in H. destruct (read_full rd2 sig_size) as [[tr err3] rd3]. destruct err3; [discriminate H|].
  destruct (d_auth d); cbn [negb] in H; [|injection H as <- <- _; apply Hm].
  destruct (d_sender d) as [pk|]; [|discriminate H]. destruct (verify_message C pk _ _) as [[]|x|x]; try discriminate H. injection H as <- <- _. apply Hm.
Qed.
Lemma like_eof d g eof : like d g -> like (d_set_eof d eof) (d_set_eof g eof).
Proof. intros []. constructor; cbn; congruence. Qed.

(** one Read: the same, or the disturbed reader fails for good (only possible if it checks a sender) *)
Lemma read_like C d x g s0 n d' x' b r g' s0' b0 r0 : 0 <= n -> at_same d x g s0 ->
  er_read_kept C d x n = (d', x', (b, r)) -> er_read C g s0 n = (g', s0', (b0, r0)) ->
  d_auth d' = d_auth d /\
  ((b = b0 /\ r = r0 /\ ((r = Ok tt /\ at_same d' x' g' s0') \/ exists e, r = Fail e /\ er_err (fst x') = Some e /\ er_err s0' = Some e)) \/
   (d_auth d = true /\ b = [] /\ (is_panic r = true \/ exists e, e <> IoEOF /\ r = Fail e /\ er_err (fst x') = Some e)) \/
   (is_panic r = true /\ b = [] /\ r0 = r /\ b0 = [])).
Proof.
  intros Hn (Hl & Hb & p & Hpg & Hk) Hd Hg. destruct x as [s [k|]]; cbn [fst snd er_read_kept] in *.
  - destruct Hk as (He & -> & Hne). rewrite He in Hd. injection Hd as <- <- <- <-. split; [reflexivity|]. left.
    pose proof Hpg as [P1 P2 P3 P4]. unfold er_read in Hg. rewrite P1 in Hg. apply len_pos in Hne. destruct (Z.eqb_spec (er_len s0) 0) as [Z0|Z0]; [lia|].
    destruct (er_deliver_spec _ _ _ _ _ _ _ _ Hpg Hn Hg) as [-> [(_ & -> & -> & Hp' & Hb')|(E & _)]]; [|exfalso; rewrite E in Hne; change (len (@nil byte)) with 0 in Hne; lia].
    assert (HT : take (Z.min n (len p)) p = take n p). { destruct (Z.leb_spec n (len p)); [rewrite Z.min_l by lia; reflexivity|rewrite Z.min_r by lia; rewrite !take_all by lia; reflexivity]. }
    split; [exact HT|]. split; [reflexivity|]. left. split; [reflexivity|].
    split; [exact Hl|]. cbn [fst snd er_blk]. split; [congruence|]. exists (drop n p). split; [exact Hp'|].
    destruct (Z.ltb_spec (Z.min n (len p)) (len p)) as [Hlt|Hlt]; cbn [snd].
    + split; [reflexivity|]. rewrite Z.min_l by lia. split; [reflexivity|]. apply len_pos. rewrite len_drop_gen by lia. lia.
    + assert (HD : drop n p = []) by (apply drop_all; lia). rewrite HD. constructor; cbn; [reflexivity|lia| |change (len (@nil byte)) with 0; lia].
      rewrite take_neg by lia. reflexivity.
  - destruct (er_read C d s n) as [[d1 s1] [b1 r1]] eqn:Ed. injection Hd as <- <- <- <-. cbn [fst snd] in *.
    pose proof Hpg as [P1 P2 P3 P4]. pose proof Hk as [Q1 Q2 Q3 Q4]. unfold er_read in Ed, Hg. rewrite Q1 in Ed. rewrite P1 in Hg.
    rewrite <- Q4 in Ed. rewrite <- P4 in Hg. destruct (Z.eqb_spec (len p) 0) as [Z0|Z0].
    + rewrite (lk_eof _ _ Hl) in Ed. destruct (d_eof g).
      { injection Ed as <- <- <- <-. injection Hg as <- <- <- <-. split; [reflexivity|]. left. split; [reflexivity|]. split; [reflexivity|]. right. exists IoEOF. auto. }
      rewrite Hb in Ed. destruct (dec_chunk C d (er_blk s0)) as [d2 rd2] eqn:E2. destruct (dec_chunk C g (er_blk s0)) as [g2 rg2] eqn:E3.
      destruct (dec_chunk_like _ _ _ _ _ _ _ _ Hl E2 E3) as (Hl2 & Ha2 & Hok & Hun).
      destruct rd2 as [[m eof]|e|e].
      * destruct (Hok _ _ eq_refl) as [-> Hbuf].
        pose proof (dec_chunk_len _ _ _ _ _ _ E2) as L2. pose proof (dec_chunk_len _ _ _ _ _ _ E3) as L3.
        assert (PA : pending (d_set_eof d2 eof) (mkEr 0 m (u32 (er_blk s0 + 1)) None) (take m (d_buf d2))) by (exact (pending_fresh (d_set_eof d2 eof) m _ (proj1 L2) (proj2 L2))).
        assert (PB : pending (d_set_eof g2 eof) (mkEr 0 m (u32 (er_blk s0 + 1)) None) (take m (d_buf d2))) by (rewrite Hbuf; exact (pending_fresh (d_set_eof g2 eof) m _ (proj1 L3) (proj2 L3))).
        destruct (er_deliver_spec _ _ _ _ _ _ _ _ PA Hn Ed) as [-> HA]. destruct (er_deliver_spec _ _ _ _ _ _ _ _ PB Hn Hg) as [-> HB].
        split; [exact Ha2|]. left.
        destruct HA as [(N1 & -> & -> & A1 & A2)|(N1 & -> & -> & A1)]; destruct HB as [(N2 & -> & -> & B1 & B2)|(N2 & -> & -> & B1)]; try (exfalso; congruence).
        -- split; [reflexivity|]. split; [reflexivity|]. left. split; [reflexivity|]. split; [apply like_eof; exact Hl2|]. cbn [fst snd]. split; [cbn in A2, B2; congruence|].
           exists (drop n (take m (d_buf d2))). split; [exact B1|exact A1].
        -- split; [reflexivity|]. split; [reflexivity|]. right. exists IoEOF. auto.
      * injection Ed as <- <- <- <-. split; [exact Ha2|]. destruct (d_auth d) eqn:Ead.
        -- right. left. split; [reflexivity|]. split; [reflexivity|]. right. exists e. cbn. split; [|auto].
           intros ->. revert E2. clear -Ead. intros H. unfold dec_chunk, process_trailer in H. cbv zeta in H.
           repeat match type of H with
           | context[read_full ?a ?b] => destruct (read_full a b) as [[? ?] ?]; cbv beta iota in H
           | (match verify_message ?C ?a ?b ?c with _ => _ end) = _ => unfold verify_message, Ed_Verify in H
           | (match (if ?x then _ else _) with _ => _ end) = _ => destruct x
           | (match ?x with _ => _ end) = _ => destruct x
           | (_, _) = _ => discriminate H
           end.
        -- rewrite (Hun eq_refl) in *. injection Hg as <- <- <- <-. left. split; [reflexivity|]. split; [reflexivity|]. right. exists e. auto.
      * injection Ed as <- <- <- <-. split; [exact Ha2|]. destruct (d_auth d) eqn:Ead.
        -- right. left. cbn. auto.
        -- rewrite (Hun eq_refl) in *. injection Hg as <- <- <- <-. right. right. cbn. auto.
    + split; [unfold er_deliver in Ed; destruct (0 <? er_len s); injection Ed as <- <- <- <-; reflexivity|]. left.
      destruct (er_deliver_spec _ _ _ _ _ _ _ _ Hk Hn Ed) as [-> HA]. destruct (er_deliver_spec _ _ _ _ _ _ _ _ Hpg Hn Hg) as [-> HB].
      destruct HA as [(N1 & -> & -> & A1 & A2)|(N1 & _)]; [|exfalso; apply Z0; rewrite N1; reflexivity].
      destruct HB as [(N2 & -> & -> & B1 & B2)|(N2 & _)]; [|exfalso; apply Z0; rewrite N2; reflexivity].
      split; [reflexivity|]. split; [reflexivity|]. left. split; [reflexivity|]. split; [exact Hl|]. cbn [fst snd]. split; [congruence|]. exists (drop n p). auto.
Qed.

(** the keys of the undisturbed reader are those derived from the root key *)
Record root_keys (C : crypto) (root : bytes) (g : decryptor) : Prop := {
  rk_ae : d_ae g = Some (fk_data (derive_keys C root (d_hdrsum g)));
  rk_nonce : d_nonce g = fk_base (derive_keys C root (d_hdrsum g));
  rk_chunk : 1 <= h_chunk (d_hdr g) < 2^30;
  rk_buflen : d_buflen g = h_chunk (d_hdr g) + 16 }.
Lemma dec_chunk_keys C d i d' rs : dec_chunk C d i = (d', rs) ->
  d_hdr d' = d_hdr d /\ d_ae d' = d_ae d /\ d_nonce d' = d_nonce d /\ d_buflen d' = d_buflen d /\ d_hdrsum d' = d_hdrsum d.
Proof.
  intros H. unfold dec_chunk, process_trailer in H. cbv zeta in H.
  repeat match type of H with
  | context[read_full ?a ?b] => destruct (read_full a b) as [[? ?] ?]; cbv beta iota in H
  | (match ?x with _ => _ end) = _ => destruct x eqn:?
  | (_, _) = _ => injection H as <- <-; repeat split; cbn; congruence
  end.
Qed.
Lemma er_read_keys C root d s n d' s' o : root_keys C root d -> er_read C d s n = (d', s', o) -> root_keys C root d' /\ d_hdr d' = d_hdr d.
Proof.
  intros Hk H. unfold er_read in H. destruct (er_err s); [injection H as <- _ _; auto|].
  assert (D : forall d s n d' s' o, er_deliver d s n = (d', s', o) -> d' = d) by (intros d0 s0 n0 d0' s0' o0 X; unfold er_deliver in X; destruct (_ <? _); injection X as <- _ _; reflexivity).
  destruct (_ =? _); [|apply D in H; subst d'; auto]. destruct (d_eof d); [injection H as <- _ _; auto|].
  destruct (dec_chunk C d (er_blk s)) as [d1 r1] eqn:E. destruct (dec_chunk_keys _ _ _ _ _ E) as (A1 & A2 & A3 & A4 & A5).
  assert (K : root_keys C root d1) by (destruct Hk; constructor; congruence).
  destruct r1 as [[m eof]|x|x]; [apply D in H; subst d'|injection H as <- _ _; auto..]. split; [|exact A1]. destruct K. constructor; cbn; assumption.
Qed.
Lemma dec_chunk_no_panic C root d i d' p : root_keys C root d -> d_hmac d <> None -> d_auth d = false -> dec_chunk C d i <> (d', Panic p).
Proof.
  intros [K1 K2 K3 K4] Hm Ha H. unfold dec_chunk, process_trailer in H. rewrite K1, K4 in H. destruct (read_full (d_rd d) 4) as [[b err] rd]. cbv zeta in H.
  destruct (_ || _); [discriminate H|]. destruct (Z.ltb_spec (h_chunk (d_hdr d)) (Z.land (unbe32 b) (eof_bit - 1))) as [Hc|Hc]; [discriminate H|].
  destruct (_ =? 0); [destruct (negb _); discriminate H|].
  assert (Hz : u32 (Z.land (unbe32 b) (eof_bit - 1) + gcm_overhead) <= h_chunk (d_hdr d) + 16).
  { assert (0 <= Z.land (unbe32 b) (eof_bit - 1)) by (apply Z.land_nonneg; right; unfold eof_bit; lia).
    pose proof (u32_le (Z.land (unbe32 b) (eof_bit - 1) + gcm_overhead)). unfold gcm_overhead in *. lia. }
  destruct (Z.ltb_spec (h_chunk (d_hdr d) + 16) (u32 (Z.land (unbe32 b) (eof_bit - 1) + gcm_overhead))); [lia|].
  destruct (read_full rd _) as [[c err2] rd2]. destruct err2; [discriminate H|]. destruct (gcm_open C _ _ c b) as [pt|]; [|discriminate H].
  destruct (negb _); [discriminate H|]. destruct (d_hmac d) as [[hk hd]|]; [|contradiction].
  destruct (0 <? _); [|discriminate H]. cbn [d_rd d_with d_hmac d_auth d_sender d_buf] in H. rewrite Ha in H. cbn [negb] in H.
  destruct (read_full rd2 sig_size) as [[tr err3] rd3]. destruct err3; discriminate H.
Qed.
Lemma er_read_no_panic C root d s n d' s' b p : root_keys C root d -> d_hmac d <> None -> d_auth d = false -> er_read C d s n <> (d', s', (b, Panic p)).
Proof.
  intros Hk Hm Ha H. unfold er_read in H. destruct (er_err s); [discriminate H|].
  assert (D : forall d s n d' s' b p, er_deliver d s n <> (d', s', (b, Panic p))) by (intros d0 s0 n0 d0' s0' b0 p0 X; unfold er_deliver in X; destruct (_ <? _); discriminate X).
  destruct (_ =? _); [|eapply D; exact H]. destruct (d_eof d); [discriminate H|].
  destruct (dec_chunk C d (er_blk s)) as [d1 r1] eqn:E. destruct r1 as [[m eof]|x|x]; [eapply D; exact H|discriminate H|]. eapply dec_chunk_no_panic; eassumption.
Qed.

Lemma unsigned_for_all C h root spk spk' : verify_sender C h root spk = Ok false -> verify_sender C h root spk' = Ok false.
Proof.
  unfold verify_sender. destruct (wrapf _ _) as [ae|x|x]; cbn [bind]; [|discriminate..]. destruct (gcm_open C ae _ _ []) as [sig|]; [|discriminate].
  destruct (beq (zeros sig_size) sig); [reflexivity|]. destruct spk as [pk|]; [|discriminate]. destruct (verify_message C pk _ _) as [[]|x|x]; discriminate.
Qed.

(** SetPrivateKey leaves the reader where it is *)
Lemma set_like C d x g s0 root seed sk spk d' sk' r : crypto_ok C -> keypair C seed sk -> no_accident C (d_hdr g) seed root ->
  root_keys C root g -> at_same d x g s0 -> set_private_key C d sk spk = (d', sk', r) ->
  exists x', after_set d r [x] = [x'] /\ at_same d' x' g s0 /\ (verify_sender C (d_hdr g) root spk = Ok false -> d_auth d' = d_auth d).
Proof.
  intros HC Hk Hna [K1 K2 K3 K4] (Hl & Hb & p & Hpg & Hx) H. pose proof Hl as [Lh La Lr Ln Lbl Le Ls L1 L2 Lau].
  unfold set_private_key in H. destruct (find_key C (d_hdr d) (h_keys (d_hdr d)) sk) as [r1 sk1] eqn:Ef.
  pose proof (find_key_spec C (d_hdr d) seed HC _ _ _ _ Hk Ef) as (_ & Hf). cbv zeta in Hf.
  destruct r1 as [key|e|e]; [| |contradiction].
  2: { injection H as <- _ <-. exists x. cbn. split; [reflexivity|]. split; [|auto]. split; [exact Hl|]. split; [exact Hb|]. eauto. }
  assert (key = root) as ->. { destruct Hf as (pre & w & post & H1 & H2 & _). rewrite Lh in *. eapply Hna; [|exact H2]. rewrite H1. apply in_elt. }
  cbv zeta in H. rewrite Lh in H.
  assert (P : forall d1 s1 q, pending d s1 q -> d_buf d1 = d_buf d -> pending d1 s1 q) by (intros d1 s1 q [] E; constructor; congruence).
  assert (Same : forall a, at_same (mkDec (d_hdr g) (d_ae d) (d_hmac d) spk (d_rd d) (d_buf d) (d_buflen d) (d_nonce d) (Some root) (d_hdrsum d) a (d_eof d) (d_stream d)) x g s0).
  { intros a. split; [constructor; cbn; congruence|]. split; [exact Hb|]. exists p. split; [exact Hpg|]. destruct (snd x); [exact Hx|]. eapply P; [exact Hx|reflexivity]. }
  destruct (verify_sender C (d_hdr g) root spk) as [signed|e|e] eqn:Ev.
  2,3: injection H as <- _ <-; exists x; cbn; split; [reflexivity|]; split; [apply Same|discriminate].
  unfold expand in H. change (sha256_size + aes_key_size + aead_nonce_size) with 76 in H.
  change aead_nonce_size with 12 in H. change aes_key_size with 32 in H. change data_key_expansion with (str "Data Key Expansion") in H.
  pose proof (len_hkdf C root (d_hdrsum d) (str "Data Key Expansion") 76 HC ltac:(lia)) as Hkl.
  rewrite new_gcm_32 in H by (rewrite len_take_le; [reflexivity|]; rewrite len_drop by lia; lia).
  rewrite drop_drop in H by lia. change (32 + 12) with 44 in H. change gcm_overhead with 16 in H.
  injection H as <- _ <-. exists (er_keep d x). cbn [after_set map]. split; [reflexivity|]. split.
  2:{ intros E. injection E as ->. cbn. apply orb_false_r. }
  split.
  - constructor; cbn; try congruence. rewrite K1, Ls. reflexivity. rewrite K2, Ls. reflexivity.
  - destruct x as [s [k|]]; cbn [er_keep fst snd] in *.
    + split; [exact Hb|]. exists p. auto.
    + pose proof Hx as [Q1 Q2 Q3 Q4]. destruct (Z.ltb_spec 0 (er_len s)) as [Hz|Hz]; cbn [fst snd].
      * split; [exact Hb|]. exists p. split; [exact Hpg|]. split; [exact Q1|]. split; [congruence|]. apply len_pos. lia.
      * split; [exact Hb|]. exists p. split; [exact Hpg|]. assert (p = []) as E by (apply len_0_nil; pose proof (len_nonneg p); lia).
        constructor; [exact Q1|exact Q2| |exact Q4]. rewrite take_neg by lia. exact E.
Qed.

(** a reader that has failed stays so *)
Lemma stuck C h root cs : forall d x e st rs, Forall (midway C h root) cs -> er_err (fst x) = Some e -> dcalls C (mkDobj d [x]) cs = (st, rs) ->
  read_results cs rs = repeat ([], Fail e) (length (sizes cs)).
Proof.
  induction cs as [|c cs IH]; intros d x e st rs Hm He H; cbn [dcalls] in H; [injection H as <- <-; reflexivity|].
  destruct (dstep C (mkDobj d [x]) c) as [st1 r] eqn:Es. destruct (dcalls C st1 cs) as [st2 rs2] eqn:Ec. injection H as <- <-.
  inversion Hm as [|? ? Hc Hm']; subst. destruct c as [sk spk|wr| |[|i] n]; try contradiction; cbn [dstep ds_dec ds_streams nth_error] in Es.
  - destruct (set_private_key C d sk spk) as [[d1 sk1] r1]. injection Es as <- <-. cbn [read_results sizes flat_map app].
    destruct r1 as [u|y|y]; cbn [after_set map] in Ec; (eapply IH; [exact Hm'| |exact Ec]); [|exact He..].
    destruct x as [s [k|]]; cbn [er_keep fst] in *; [exact He|]. destruct (_ <? _); exact He.
  - assert (Er : er_read_kept C d x n = (d, x, ([], Fail e))).
    { destruct x as [s [k|]]; cbn [er_read_kept fst] in *; [rewrite He; reflexivity|]. unfold er_read. rewrite He. reflexivity. }
    rewrite Er in Es. cbn [set_nth firstn skipn app] in Es. injection Es as <- <-. cbn [read_results sizes flat_map app length repeat]. f_equal. eapply IH; [exact Hm'|exact He|exact Ec].
Qed.
Lemma stuck_prefix e n : returned (repeat ([], Fail e) n) = [].
Proof. induction n; [reflexivity|]. exact IHn. Qed.
Lemma stuck_end e n : e <> IoEOF -> ~ reached_end (repeat ([], Fail e) n).
Proof. intros H (b & Hin). apply repeat_spec in Hin. congruence. Qed.

Lemma sim C root cs : crypto_ok C -> forall d x g s0 st rs g' s0' rs0, root_keys C root g -> Forall (midway C (d_hdr g) root) cs -> at_same d x g s0 ->
  dcalls C (mkDobj d [x]) cs = (st, rs) -> read_all C g s0 (sizes cs) = (g', s0', rs0) ->
  (no_panic rs -> prefix_of (returned (read_results cs rs)) (returned rs0) /\
     (reached_end (read_results cs rs) -> returned (read_results cs rs) = returned rs0 /\ reached_end rs0)) /\
  (d_auth d = false -> (forall spk, verify_sender C (d_hdr g) root spk = Ok false) -> read_results cs rs = rs0).
Proof.
  intros HC. induction cs as [|c cs IH]; intros d x g s0 st rs g' s0' rs0 Hk Hm Hs H Hr; cbn [dcalls] in H.
  { injection H as <- <-. cbn in Hr. injection Hr as <- <- <-. split; [|reflexivity]. intros _. split; [exists []; reflexivity|]. intros (b & []). }
  destruct (dstep C (mkDobj d [x]) c) as [st1 r] eqn:Es. destruct (dcalls C st1 cs) as [st2 rs2] eqn:Ec. injection H as <- <-.
  inversion Hm as [|? ? Hc Hm']; subst. destruct c as [sk spk|wr| |[|i] n]; try contradiction; cbn [dstep ds_dec ds_streams nth_error] in Es.
  - destruct (set_private_key C d sk spk) as [[d1 sk1] r1] eqn:Ek. injection Es as <- <-. cbn [read_results sizes flat_map app] in *.
    destruct Hc as (seed & Hkp & Hna). destruct (set_like _ _ _ _ _ _ _ _ _ _ _ _ HC Hkp Hna Hk Hs Ek) as (x' & Ex & Hs' & Ha). rewrite Ex in Ec.
    destruct (IH _ _ _ _ _ _ _ _ _ Hk Hm' Hs' Ec Hr) as [I1 I2]. split.
    + intros Hn. apply I1. intros r0 o b Hin. apply (Hn r0 o b). right. exact Hin.
    + intros Ha0 Hu. apply I2; [rewrite Ha; [exact Ha0|apply Hu]|exact Hu].
  - cbn [sizes flat_map app read_all] in Hr. change (flat_map _ cs) with (sizes cs) in Hr.
    destruct (er_read C g s0 n) as [[g1 s1] [b0 r0]] eqn:Eg. destruct (read_all C g1 s1 (sizes cs)) as [[g2 s2] rs1] eqn:Ea. injection Hr as <- <- <-.
    destruct (er_read_kept C d x n) as [[d1 x1] [b r1]] eqn:Ed. cbn [set_nth firstn skipn app] in Es. injection Es as <- <-. cbn [read_results] in *.
    destruct (er_read_keys _ _ _ _ _ _ _ _ Hk Eg) as [Hk1 Hh]. cbn in Hc.
    assert (HL : like d g) by apply Hs.
    destruct (read_like _ _ _ _ _ _ _ _ _ _ _ _ _ _ Hc Hs Ed Eg) as [Ha [(-> & -> & [[-> Hs1]|(e & -> & He1 & He2)])|[(Hau & -> & [Hp|(e & Hne & -> & He1)])|(Hp & -> & -> & ->)]]].
    + rewrite <- Hh in Hm'. destruct (IH _ _ _ _ _ _ _ _ _ Hk1 Hm' Hs1 Ec Ea) as [I1 I2]. split.
      * intros Hn. destruct I1 as [[q Hq] I1b]. { intros r o c Hin. apply (Hn r o c). right. exact Hin. }
        unfold returned in *. cbn [map fst concat]. split; [exists q; rewrite <- app_assoc, <- Hq; reflexivity|].
        intros (c & [Hin|Hin]); [discriminate Hin|]. destruct I1b as [E1 E2]; [exists c; exact Hin|]. split; [congruence|]. destruct E2 as (c2 & E2). exists c2. right. exact E2.
      * intros A B. f_equal. apply I2; [congruence|]. rewrite Hh. exact B.
    + pose proof (stuck _ _ _ _ _ _ _ _ _ Hm' He1 Ec) as E1. rewrite (read_all_err _ _ _ _ _ He2) in Ea. injection Ea as <- <- <-. rewrite E1.
      split; [|reflexivity]. intros _. split; [exists []; rewrite app_nil_r; reflexivity|]. auto.
    + split; [|congruence]. intros Hn. exfalso. specialize (Hn r1 None [] (or_introl eq_refl)). congruence.
    + split; [|congruence]. intros _. rewrite (stuck _ _ _ _ _ _ _ _ _ Hm' He1 Ec). unfold returned. cbn [map fst concat app].
      change (concat (map fst (repeat ([], Fail e) (length (sizes cs))))) with (returned (repeat ([], Fail e) (length (sizes cs)))). rewrite stuck_prefix.
      split; [eexists; reflexivity|]. intros (c & [Hin|Hin]); [congruence|]. exfalso. eapply stuck_end; [exact Hne|]. exists c. exact Hin.
    + destruct r1 as [u|y|y]; try discriminate Hp. exfalso. eapply er_read_no_panic; [exact Hk|apply HL|apply HL|exact Eg].
Qed.

Lemma bad_key_same C d sk spk d' sk' : set_private_key C d sk spk = (d', sk', Fail ErrBadKey) -> d' = d.
Proof.
  intros H. unfold set_private_key in H. destruct (find_key C (d_hdr d) (h_keys (d_hdr d)) sk) as [[key|e|e] sk1]; [|injection H as <- _ _; reflexivity|discriminate H].
  cbv zeta in H. destruct (verify_sender C (d_hdr d) key spk) as [sg|e|e]; [|discriminate H..]. destruct (new_gcm _); discriminate H.
Qed.
Lemma harmless C h root cs : forall d s st rs d' s' rs0, Forall (midway C h root) cs -> dcalls C (mkDobj d [(s, None)]) cs = (st, rs) ->
  read_all C d s (sizes cs) = (d', s', rs0) -> Forall (eq (Fail ErrBadKey)) (set_results cs rs) -> read_results cs rs = rs0.
Proof.
  induction cs as [|c cs IH]; intros d s st rs d' s' rs0 Hm H Hr Hb; cbn [dcalls] in H.
  { injection H as <- <-. cbn in Hr. injection Hr as <- <- <-. reflexivity. }
  destruct (dstep C (mkDobj d [(s, None)]) c) as [st1 r] eqn:Es. destruct (dcalls C st1 cs) as [st2 rs2] eqn:Ec. injection H as <- <-.
  inversion Hm as [|? ? Hc Hm']; subst. destruct c as [sk spk|wr| |[|i] n]; try contradiction; cbn [dstep ds_dec ds_streams nth_error] in Es.
  - destruct (set_private_key C d sk spk) as [[d1 sk1] r1] eqn:Ek. injection Es as <- <-. cbn [read_results set_results sizes flat_map app] in *.
    inversion Hb as [|? ? Hb1 Hb2]; subst. apply bad_key_same in Ek. subst d1. eapply IH; eassumption.
  - cbn [sizes flat_map app read_all] in Hr. change (flat_map _ cs) with (sizes cs) in Hr. cbn [er_read_kept] in Es.
    destruct (er_read C d s n) as [[g1 s1] [b0 r0]] eqn:Eg. destruct (read_all C g1 s1 (sizes cs)) as [[g2 s2] rs1] eqn:Ea. injection Hr as <- <- <-.
    cbn [set_nth firstn skipn app] in Es. injection Es as <- <-. cbn [read_results set_results] in *. f_equal. eapply IH; eassumption.
Qed.

(** ** C95 *)
(** Any interleaving of Reads and SetPrivateKey calls (succeeding or not), on a file with a genuine header and whatever follows it:
    - up to a panic, what the reader returns is a prefix of the plaintext, and io.EOF means that it was all (or the bare end marker was put
      there, as in C10);
    - if the file is not signed, the calls to SetPrivateKey make no difference at all;
    - if all these calls reported ErrBadKey they make no difference either. *)
Theorem C95_set_key_midway_partial :
  forall C, crypto_ok C ->
  forall sender blksize pks e s file0, made C sender blksize pks e s file0 -> len s < (2^32 - 1) * h_chunk (e_hdr e) ->
  exists head cs, let fk := keys_of C (e_hdr e) (e_key e) in
    concat cs = s /\ prefix_of (head ++ frames C (fk_data fk) (fk_base fk) 0 cs) file0 /\
    forall body' file ef seed sk spk d, delivers file (head ++ body') ef -> keypair C seed sk ->
    no_accident C (e_hdr e) seed (e_key e) -> opened_by C file sk spk d ->
    forall calls st rs, Forall (midway C (e_hdr e) (e_key e)) calls -> dcalls C (mkDobj d []) (DStream :: calls) = (st, DRet (Ok tt) None [] :: rs) ->
    let got := read_results calls rs in
    (no_forgery C fk cs body' -> no_panic rs ->
       prefix_of (returned got) s /\
       (reached_end got -> returned got = s \/
          exists cs1 cs2 rest, cs = cs1 ++ cs2 /\ cs2 <> [] /\ returned got = concat cs1 /\
            body' = unmarked C (fk_data fk) (fk_base fk) 0 cs1 ++ end_marker ++ rest)) /\
    (authenticated_sender d = false \/ Forall (eq (Fail ErrBadKey)) (set_results calls rs) ->
       exists d1 r d' r', new_stream_reader d = (d1, Ok r) /\ read_all C d1 r (sizes calls) = (d', r', got)).
Proof.
  intros C HC sender blk pks e s file0 Hmade Hlen.
  destruct (made_inv _ _ _ _ _ _ _ HC Hmade) as (cs & tr & [Hb Hr Hg Hne Hl Hlt Hout Hck Hgc Hcc Htr]).
  exists (full_header (e_hdr e) ++ header_cksum C (e_hdr e)), cs. cbv zeta. set (fk := keys_of C (e_hdr e) (e_key e)) in *.
  split; [exact Hcc|]. split. { exists tr. rewrite Hout. unfold sigtool_file, body. fold fk. rewrite <- !app_assoc. reflexivity. }
  intros body' file ef seed sk spk d Hf Hk Hna Ho calls st rs Hm H. rewrite <- app_assoc in Hf.
  pose proof (genuine_open _ _ _ _ _ _ _ _ _ _ _ _ HC Hb Hr Hne Hl Hf Hk Hna Ho) as Hos.
  assert (Hdec : exists h0 rd0, d_hdrsum d = header_cksum C (e_hdr e) /\ opened_by C h0 rd0 spk d).
  { exists file, sk. split; [|exact Ho]. destruct Ho as (d0 & rd' & sk' & Hn0 & Hs0).
    pose proof (new_decryptor_spec C _ _ _ _ _ HC Hf Hn0) as (h & ck & rest & Hv & -> & _).
    destruct (valid_header_det _ _ _ _ _ _ _ _ Hv (os_header _ _ _ _ _ _ _ _ _ _ Hos)) as (_ & -> & _).
    unfold set_private_key in Hs0. destruct (find_key C _ _ sk) as [[key|x|x] sk1]; [|discriminate Hs0..]. cbv zeta in Hs0.
    destruct (verify_sender C _ key spk) as [sg|x|x]; [|discriminate Hs0..]. destruct (new_gcm _); [|discriminate Hs0..]. injection Hs0 as <- _. reflexivity. }
  destruct Hdec as (_ & _ & Hsum & _).
  destruct Hos as [Oh Or Osn Osp Ohd Ok_ Olv Ord Oeof Ost Obuf]. cbv zeta in Olv. change (derive_keys C (e_key e) (header_cksum C (e_hdr e))) with fk in Olv.
  assert (Hdc : dcalls C (mkDobj (d_set_stream d) [(mkEr 0 0 0 None, None)]) calls = (st, rs)).
  { cbn [dcalls dstep ds_dec ds_streams] in H. unfold new_stream_reader in H. rewrite Ok_, Oeof in H. cbn [app] in H.
    destruct (dcalls C (mkDobj (d_set_stream d) [(mkEr 0 0 0 None, None)]) calls) as [st2 rs2]. injection H as <- <-. reflexivity. }
  clear H. set (d1 := d_set_stream d) in *. set (r := mkEr 0 0 0 None) in *.
  set (g := mkDec (d_hdr d) (d_ae d) (d_hmac d) (d_sender d) (d_rd d) (d_buf d) (d_buflen d) (d_nonce d) (d_key d) (d_hdrsum d) false (d_eof d) true).
  pose proof Olv as [V1 V2 V3 V4 V5 V6 V7 V8].
  assert (Hkg : root_keys C (e_key e) g). { constructor; cbn [d_ae d_hdrsum d_nonce d_hdr d_buflen g]; rewrite ?Hsum; assumption. }
  assert (Hpn : forall d0, d_buf d0 = [] -> pending d0 r []). { intros d0 E. constructor; cbn; [reflexivity|lia|rewrite E; reflexivity|reflexivity]. }
  assert (Hat : at_same d1 (r, None) g r).
  { split; [|split; [reflexivity|]]. constructor; cbn; try reflexivity; congruence. exists []. cbn [snd fst]. split; apply Hpn; assumption. }
  rewrite <- Ohd in Hm. change (d_hdr d) with (d_hdr g) in Hm.
  assert (Hns : Forall (fun n => 0 <= n) (sizes calls)).
  { clear -Hm. induction Hm as [|c l Hc Hl IH]; [constructor|]. destruct c as [a b|a| |[|i] n]; try contradiction; cbn; [exact IH|constructor; assumption]. }
  split.
  - intros Hnf Hnp. destruct (read_all C g r (sizes calls)) as [[g' r'] rs0] eqn:Era.
    destruct (proj1 (sim C (e_key e) calls HC _ _ _ _ _ _ _ _ _ Hkg Hm Hat Hdc Era) Hnp) as [Hpre Hend].
    assert (Hsr : sr_live g r [] (fk_data fk) (fk_base fk) (fk_mac fk) [] 0 body' ef).
    { constructor; cbn; auto. constructor; cbn; auto. discriminate. }
    pose proof (read_all_spec C _ HC _ _ _ _ _ _ _ _ _ _ _ _ _ Hsr Hns Era) as (pieces & x & m & Hsh & (outs & k & Hop & Hpc) & Hfin & _).
    cbn [app] in Hpc. change (h_chunk (d_hdr g)) with (h_chunk (d_hdr d)) in *. rewrite Ohd in *.
    assert (Hn : Z.of_nat (length cs) < 2^32). { eapply made_count; [|exact Hck|exact Hlen]; lia. }
    assert (H0 : (0 < length cs)%nat) by (destruct cs; [cbn in Hgc; contradiction|cbn; lia]).
    split.
    + rewrite (shape_returned _ _ _ _ _ Hsh), Hpc in Hpre.
      destruct (opened_honest C fk cs _ Hn (proj2 Hlt) _ _ _ Hop body' [] 0%nat Hnf eq_refl eq_refl H0) as (more & Hmo). cbn [skipn] in Hmo.
      destruct Hpre as [q Hq]. exists (q ++ drop k (concat outs) ++ concat more). rewrite app_assoc, <- Hq, app_assoc, take_drop, <- concat_app, <- Hmo. congruence.
    + intros Hre. destruct (Hend Hre) as [-> Hre0]. destruct (shape_end _ _ _ _ _ Hsh Hre0) as [Hm0 ->].
      destruct (Hfin Hm0 eq_refl) as (outs2 & rest2 & Ha & Hw & _). rewrite (shape_returned _ _ _ _ _ Hsh), Hw. cbn [app].
      destruct (accepted_honest C fk cs _ Hn (proj2 Hlt) _ HC _ _ _ _ _ Ha body' [] 0%nat Hnf eq_refl eq_refl H0) as [(Houts & _)|(more & Hmm & Hmn & Hb')].
      * left. cbn [skipn] in Houts. rewrite Houts. exact Hcc.
      * right. exists outs2, more, rest2. cbn [skipn] in Hmm. auto.
  - intros Hcase. exists d1, r. destruct (read_all C d1 r (sizes calls)) as [[d' r'] rs0] eqn:Era. exists d', r'.
    split. { unfold new_stream_reader. rewrite Ok_, Oeof. reflexivity. }
    f_equal. symmetry. destruct Hcase as [Ha|Hbk].
    + unfold authenticated_sender in Ha. assert (Eg : g = d1). { unfold g, d1, d_set_stream. rewrite Ha. reflexivity. }
      destruct (sim C (e_key e) calls HC _ _ _ _ _ _ _ _ _ Hkg Hm Hat Hdc ltac:(rewrite Eg; exact Era)) as [_ Hsame].
      apply Hsame; [exact Ha|]. intros spk'. cbn [d_hdr g]. rewrite Ohd. rewrite Ha in Osn. eapply unsigned_for_all. exact Osn.
    + eapply harmless; [exact Hm|exact Hdc|exact Era|exact Hbk].
Qed.
Print Assumptions C95_set_key_midway_partial.

(** a run on the toy instance *)
Definition start (file : bytes) (sk : privkey) (spk : option pubkey) : option decryptor :=
  match new_decryptor toy (whole file) with
  | (Ok d0, _) => match set_private_key toy d0 sk spk with (d, _, Ok _) => Some d | _ => None end
  | _ => None
  end.
Lemma start_opened file sk spk d : start file sk spk = Some d -> opened_by toy (whole file) sk spk d.
Proof.
  unfold start. destruct (new_decryptor toy (whole file)) as [[d0|x|x] rd'] eqn:En; try discriminate.
  destruct (set_private_key toy d0 sk spk) as [[d1 sk1] [[]|x|x]] eqn:Es; try discriminate. intros H. injection H as <-. exists d0, rd', sk1. auto.
Qed.
Definition run (file : bytes) (sk : privkey) (spk : option pubkey) (cs : list dcall) : list dret :=
  match start file sk spk with Some d => snd (dcalls toy (mkDobj d []) cs) | None => [] end.

Definition twice : list dcall := [DRead O 4; DSet skB (Some pkS); DRead O 4; DRead O 4; DRead O 4].
Definition orphan : list dcall := [DRead O 4; DSet skB None; DRead O 4; DRead O 4; DRead O 4].
Lemma twice_run : run file1 skB (Some pkS) (DStream :: twice) =
  [DRet (Ok tt) None []; DRet (Ok tt) None (str "hell"); DRet (Ok tt) None []; DRet (Ok tt) None (str "o wo"); DRet (Fail ErrBadTrailer) None []; DRet (Fail ErrBadTrailer) None []].
Proof. vm_compute. reflexivity. Qed.
Lemma orphan_run : run file1 skB (Some pkS) (DStream :: orphan) =
  [DRet (Ok tt) None []; DRet (Ok tt) None (str "hell"); DRet (Fail (EWrap "decrypt" ErrNoSenderPK)) None []; DRet (Ok tt) None (str "o wo");
   DRet (Panic "nil pointer dereference") None []; DRet (Fail (EMsg "decrypt: premature EOF while reading header block")) None []].
Proof. vm_compute. reflexivity. Qed.
Lemma plain_run : run file1 skB (Some pkS) (DStream :: map (DRead O) [4; 4; 4; 4]) =
  [DRet (Ok tt) None []; DRet (Ok tt) None (str "hell"); DRet (Ok tt) None (str "o wo"); DRet (Ok tt) None (str "rld"); DRet (Fail IoEOF) None []].
Proof. vm_compute. reflexivity. Qed.
Lemma started : exists d, start file1 skB (Some pkS) = Some d.
Proof.
  assert (H : match start file1 skB (Some pkS) with Some _ => true | None => false end = true) by (vm_compute; reflexivity).
  destruct (start file1 skB (Some pkS)) as [d|]; [eauto|discriminate H].
Qed.
Lemma run_calls file sk spk d cs : start file sk spk = Some d -> run file sk spk cs = snd (dcalls toy (mkDobj d []) cs).
Proof. intros H. unfold run. rewrite H. reflexivity. Qed.
(** reads through [dcalls] and through [read_all] *)
Lemma plain_reads C ns : forall d s st rs d' s' rs0, dcalls C (mkDobj d [(s, None)]) (map (DRead O) ns) = (st, rs) -> read_all C d s ns = (d', s', rs0) ->
  rs = map (fun p => DRet (snd p) None (fst p)) rs0.
Proof.
  induction ns as [|n ns IH]; intros d s st rs d' s' rs0 H Hr; cbn [map dcalls read_all] in *.
  { injection H as <- <-. injection Hr as <- <- <-. reflexivity. }
  cbn [dstep ds_dec ds_streams nth_error er_read_kept] in H. destruct (er_read C d s n) as [[d1 s1] [b r]]. cbn [set_nth firstn skipn app] in H.
  destruct (dcalls C (mkDobj d1 [(s1, None)]) (map (DRead O) ns)) as [st2 rs2] eqn:E1. destruct (read_all C d1 s1 ns) as [[d2 s2] rs1] eqn:E2.
  injection H as <- <-. injection Hr as <- <- <-. cbn [map snd fst]. f_equal. eapply IH; eassumption.
Qed.

(** Refuted for signed files: SetPrivateKey starts the HMAC of the content anew, so after the very same SetPrivateKey call made a second time
    (and succeeding) in the middle of the file, the genuine trailer is rejected. *)
Theorem C95_repeated_call_refuted :
  ~ (forall C, crypto_ok C -> forall file sk spk seed d, keypair C seed sk -> opened_by C (whole file) sk spk d ->
     forall calls st rs, Forall (fun c => c = DSet sk spk \/ exists n, 0 <= n /\ c = DRead O n) calls ->
     dcalls C (mkDobj d []) (DStream :: calls) = (st, DRet (Ok tt) None [] :: rs) -> Forall (eq (Ok tt)) (set_results calls rs) ->
     exists d1 r d' r', new_stream_reader d = (d1, Ok r) /\ read_all C d1 r (sizes calls) = (d', r', read_results calls rs)).
Proof.
  intros H. destruct started as (d & Hd). pose proof twice_run as Ht. rewrite (run_calls _ _ _ _ _ Hd) in Ht.
  pose proof plain_run as Hp. rewrite (run_calls _ _ _ _ _ Hd) in Hp.
  destruct (dcalls toy (mkDobj d []) (DStream :: twice)) as [st rs] eqn:E. cbn [snd] in Ht. subst rs.
  assert (HF : Forall (fun c => c = DSet skB (Some pkS) \/ exists n, 0 <= n /\ c = DRead O n) twice).
  { unfold twice. repeat (apply Forall_cons; [first [left; reflexivity|right; eexists; split; [|reflexivity]; lia]|]). apply Forall_nil. }
  pose proof (H toy toy_ok file1 skB (Some pkS) seedB d kB (start_opened _ _ _ _ Hd) twice st _ HF E) as X.
  destruct X as (d1 & r & d' & r' & Hn & Hr); [repeat constructor|].
  cbn [dcalls] in Hp. unfold dstep in Hp at 1. cbn [ds_dec ds_streams] in Hp. rewrite Hn in Hp. cbn [app] in Hp. cbn [sizes twice flat_map app] in Hr.
  assert (Hr0 : r = mkEr 0 0 0 None). { unfold new_stream_reader in Hn. destruct (d_key d); [|discriminate Hn]. destruct (d_eof d); [discriminate Hn|]. injection Hn as _ <-. reflexivity. }
  destruct (dcalls toy (mkDobj d1 [(r, None)]) (map (DRead O) [4; 4; 4; 4])) as [st2 rs2] eqn:E2. cbn [snd] in Hp.
  pose proof (plain_reads _ _ _ _ _ _ _ _ _ E2 Hr) as Hx. rewrite Hx in Hp. cbn in Hp. discriminate Hp.
Qed.
Print Assumptions C95_repeated_call_refuted.

(** Refuted: reading on after a SetPrivateKey call that was rejected for want of the sender's key panics (the flag of the earlier call is
    kept, its sender is not). *)
Theorem C95_no_panic_refuted :
  ~ (forall C, crypto_ok C -> forall file sk spk seed d, keypair C seed sk -> opened_by C (whole file) sk spk d ->
     forall calls st rs, Forall (fun c => c = DSet sk None \/ exists n, 0 <= n /\ c = DRead O n) calls ->
     dcalls C (mkDobj d []) (DStream :: calls) = (st, rs) -> no_panic rs).
Proof.
  intros H. destruct started as (d & Hd). pose proof orphan_run as Ht. rewrite (run_calls _ _ _ _ _ Hd) in Ht.
  destruct (dcalls toy (mkDobj d []) (DStream :: orphan)) as [st rs] eqn:E. cbn [snd] in Ht. subst rs.
  assert (HF : Forall (fun c => c = DSet skB None \/ exists n, 0 <= n /\ c = DRead O n) orphan).
  { unfold orphan. repeat (apply Forall_cons; [first [left; reflexivity|right; eexists; split; [|reflexivity]; lia]|]). apply Forall_nil. }
  pose proof (H toy toy_ok file1 skB (Some pkS) seedB d kB (start_opened _ _ _ _ Hd) orphan st _ HF E) as X.
  specialize (X (Panic "nil pointer dereference") None [] ltac:(right; right; right; right; left; reflexivity)). discriminate X.
Qed.
Print Assumptions C95_no_panic_refuted.

(** a file without sender: three bytes, then the key of another recipient, a stranger's key and a needless sender key in between *)
Example C95_instance : exists s file0 d st rs, made toy None 4 [pkA; pkB] e2 s file0 /\ len s < (2^32 - 1) * h_chunk (e_hdr e2) /\
  opened_by toy (whole file0) skA None d /\ authenticated_sender d = false /\
  let calls := [DRead O 3; DSet skB None; DRead O 7; DSet skX (Some pkS); DRead O 2; DSet skA (Some pkS); DRead O 7; DRead O 7; DRead O 7] in
  Forall (midway toy (e_hdr e2) (e_key e2)) calls /\
  dcalls toy (mkDobj d []) (DStream :: calls) = (st, DRet (Ok tt) None [] :: rs) /\
  set_results calls rs = [Ok tt; Fail ErrBadKey; Ok tt] /\ returned (read_results calls rs) = s /\ reached_end (read_results calls rs).
Proof.
  assert (Hst : exists d, start file2 skA None = Some d).
  { assert (H : match start file2 skA None with Some _ => true | None => false end = true) by (vm_compute; reflexivity).
    destruct (start file2 skA None) as [d|]; [eauto|discriminate H]. }
  destruct Hst as (d & Hd). exists text8, file2, d. set (calls := [DRead O 3; DSet skB None; DRead O 7; DSet skX (Some pkS); DRead O 2; DSet skA (Some pkS); DRead O 7; DRead O 7; DRead O 7]).
  assert (Ht : run file2 skA None (DStream :: calls) =
    [DRet (Ok tt) None []; DRet (Ok tt) None (take 3 text8); DRet (Ok tt) None []; DRet (Ok tt) None (take 1 (drop 3 text8)); DRet (Fail ErrBadKey) None [];
     DRet (Ok tt) None (take 2 (drop 4 text8)); DRet (Ok tt) None []; DRet (Ok tt) None (drop 6 text8); DRet (Fail IoEOF) None []; DRet (Fail IoEOF) None []]) by (vm_compute; reflexivity).
  rewrite (run_calls _ _ _ _ _ Hd) in Ht. destruct (dcalls toy (mkDobj d []) (DStream :: calls)) as [st rs] eqn:E. cbn [snd] in Ht. subst rs.
  exists st. eexists. split; [exact made2|]. split; [vm_compute; reflexivity|]. split; [exact (start_opened _ _ _ _ Hd)|].
  split. { assert (H : match start file2 skA None with Some d => authenticated_sender d | None => true end = false) by (vm_compute; reflexivity). rewrite Hd in H. exact H. }
  cbv zeta. split.
  { assert (naX : no_accident toy (e_hdr e2) seedX (e_key e2)) by (apply no_accident_ok; vm_compute; reflexivity).
    repeat (apply Forall_cons); [cbn; lia|exists seedB; split; [exact kB|exact na2B]|cbn; lia|exists seedX; split; [exact kX|exact naX]|cbn; lia|exists seedA; split; [exact kA|exact na2A]|cbn; lia..|constructor]. }
  split; [exact E|]. split; [reflexivity|]. split; [vm_compute; reflexivity|]. exists []. cbn. auto 20.
Qed.
