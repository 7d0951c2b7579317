(** Proofs about the stream reader *)
From Verif Require Import Bytes BytesLemmas GoErr GoIO SpecIO IOProofs Pb SpecPb PbProofs Crypto CryptoLaws Keys Sign
  Encrypt Decrypt Stream Spec SpecStream EncryptProofs DecryptProofs AcceptProofs OpenProofs RoundTrip StreamProofs.
Require Import ZifyBool.
Ltac Zify.zify_post_hook ::= Z.div_mod_to_equations.
Local Notation length := List.length.
Local Notation concat := List.concat.

(** the data already decrypted but not yet handed out *)
Record pending (d : decryptor) (s : encr) (p : bytes) : Prop := {
  pn_err : er_err s = None;
  pn_off : 0 <= er_off s;
  pn_p : p = take (er_len s) (drop (er_off s) (d_buf d));
  pn_len : len p = er_len s }.

Lemma er_deliver_spec d s n p d' s' b rs : pending d s p -> 0 <= n -> er_deliver d s n = (d', s', (b, rs)) ->
  d' = d /\
  ((p <> [] /\ rs = Ok tt /\ b = take n p /\ pending d s' (drop n p) /\ er_blk s' = er_blk s) \/
   (p = [] /\ rs = Fail IoEOF /\ b = [] /\ er_err s' = Some IoEOF)).
Proof.
  intros [] Hn H. unfold er_deliver in H. destruct (Z.ltb_spec 0 (er_len s)) as [Hl|Hl].
  - injection H as <- <- <- <-. split; [reflexivity|]. left. split; [apply len_pos; lia|]. split; [reflexivity|].
    assert (Hb : take (Z.min n (er_len s)) (drop (er_off s) (d_buf d)) = take n p).
    { rewrite pn_p0. destruct (Z.leb_spec n (er_len s)).
      - rewrite Z.min_l by lia. rewrite take_take by lia. reflexivity.
      - rewrite Z.min_r by lia. rewrite (take_all n); [reflexivity|]. rewrite <- pn_p0. lia. }
    split; [exact Hb|]. split; [|reflexivity]. constructor; cbn; auto; try lia.
    + assert (Hdd : drop (er_off s + Z.min n (er_len s)) (d_buf d) = drop (Z.min n (er_len s)) (drop (er_off s) (d_buf d))).
      { rewrite drop_drop by lia. f_equal. lia. }
      rewrite Hdd. set (q := drop (er_off s) (d_buf d)) in *.
      rewrite pn_p0. destruct (Z.leb_spec n (er_len s)).
      * rewrite Z.min_l by lia. rewrite !take_firstn, !drop_skipn, skipn_firstn_comm. f_equal. lia.
      * rewrite Z.min_r by lia. rewrite Z.sub_diag, take_0. apply drop_all. rewrite <- pn_p0. lia.
    + rewrite len_drop_gen by lia. lia.
  - injection H as <- <- <- <-. split; [reflexivity|]. right.
    split; [apply len_0_nil; pose proof (len_nonneg p); lia|]. auto.
Qed.

Lemma dec_chunk_eof C d i d' rs : dec_chunk C d i = (d', rs) -> d_eof d' = d_eof d.
Proof.
  intros H. unfold dec_chunk, process_trailer in H. cbv zeta in H.
  repeat match type of H with
  | context[read_full ?a ?b] => destruct (read_full a b) as [[? ?] ?]; cbv beta iota in H
  | (match ?x with _ => _ end) = _ => destruct x
  | (_, _) = _ => injection H as <- <-; reflexivity
  end.
Qed.
Lemma dec_chunk_not_eof C d dk base hk hd i d' : dlive d dk base hk hd -> dec_chunk C d i <> (d', Fail IoEOF).
Proof.
  intros Hl H. unfold dec_chunk, process_trailer in H. cbv zeta in H.
  repeat match type of H with
  | context[read_full ?a ?b] => destruct (read_full a b) as [[? ?] ?]; cbv beta iota in H
  | (match verify_message ?C ?a ?b ?c with _ => _ end) = _ => unfold verify_message, Ed_Verify in H
  | (match (if ?x then _ else _) with _ => _ end) = _ => destruct x
  | (match ?x with _ => _ end) = _ => destruct x
  | (_, _) = _ => discriminate H
  end.
Qed.

(** the reader is positioned at frame [i] of the bytes [rest]; [p] has been decrypted but not returned *)
Record sr_live (d : decryptor) (s : encr) (p dk base hk hd : bytes) (i : Z) (rest : bytes) (er : goerr) : Prop := {
  sr_pending : pending d s p;
  sr_blk : be32 (er_blk s) = be32 i;
  sr_eof : d_eof d = false;
  sr_dlive : dlive d dk base hk hd;
  sr_rd : delivers (d_rd d) rest er }.

Lemma dlive_set_eof d dk base hk hd b : dlive d dk base hk hd -> dlive (d_set_eof d b) dk base hk hd.
Proof. intros []. constructor; cbn; auto. Qed.
Lemma be32_plus1 a b : be32 a = be32 b -> be32 (u32 (a + 1)) = be32 (b + 1).
Proof.
  intros H. rewrite be32_u32. rewrite <- (be32_mod (a + 1)), <- (be32_mod (b + 1)). f_equal.
  assert (Hmod : a mod 2^32 = b mod 2^32) by (rewrite <- (unbe32_be32' a), <- (unbe32_be32' b), H; reflexivity).
  rewrite <- (Zplus_mod_idemp_l a), <- (Zplus_mod_idemp_l b), Hmod. reflexivity.
Qed.
Lemma frame_opens_be32 C dk base chunk i j last c pt : be32 i = be32 j ->
  frame_opens C dk base chunk i last c pt -> frame_opens C dk base chunk j last c pt.
Proof. unfold frame_opens, frame_nonce. intros ->. auto. Qed.

(** the code rejects only what is not acceptable *)
Lemma dec_chunk_reject C d dk base hk hd i j s er d' x : dlive d dk base hk hd -> delivers (d_rd d) s er ->
  be32 j = be32 i -> dec_chunk C d j = (d', Fail x) ->
  ~ exists outs rest, accepted C dk base (h_chunk (d_hdr d)) (dec_trailer_ok C d hk) i hd s outs rest.
Proof.
  intros Hl Hd Hj Ec (outs & rest & Ha).
  destruct (accepted_inv _ _ _ _ _ _ _ _ _ _ Ha) as [(-> & ->)|[(c & pt & tr & Hfo & Htr & Hok & -> & ->)|(c & pt & s0 & outs0 & Hfo & Ha0 & -> & ->)]].
  - edestruct dec_chunk_bare as (dx & Hx); [exact Hl|eassumption|]. rewrite Hx in Ec. discriminate.
  - apply (frame_opens_be32 _ _ _ _ _ _ _ _ _ (eq_sym Hj)) in Hfo.
    edestruct (dec_chunk_frame C d dk base hk hd j true) as (dx & Hx); [exact Hl|exact Hfo|eassumption| |].
    { intros _. exists tr, rest. auto. }
    rewrite Hx in Ec. discriminate.
  - apply (frame_opens_be32 _ _ _ _ _ _ _ _ _ (eq_sym Hj)) in Hfo.
    edestruct (dec_chunk_frame C d dk base hk hd j false) as (dx & Hx); [exact Hl|exact Hfo|eassumption| |].
    { intros HH; discriminate HH. }
    rewrite Hx in Ec. discriminate.
Qed.

(** one Read *)
Lemma er_read_spec C d s p dk base hk hd i rest er n d' s' b rs : crypto_ok C ->
  sr_live d s p dk base hk hd i rest er -> 0 <= n -> er_read C d s n = (d', s', (b, rs)) ->
  let chunk := h_chunk (d_hdr d) in
  len b <= n /\ same_dec (d_set_eof d (d_eof d')) d' /\
  match rs with
  | Ok _ => (b = [] -> n = 0) /\
      (* from the buffer *)
      ((p <> [] /\ b = take n p /\ sr_live d' s' (drop n p) dk base hk hd i rest er) \/
      (* a new frame, not the last *)
       (p = [] /\ exists c pt rest', frame_opens C dk base chunk i false c pt /\ rest = frame_word pt false ++ c ++ rest' /\
          b = take n pt /\ sr_live d' s' (drop n pt) dk base hk (hd ++ frame_word pt false ++ pt) (i + 1) rest' er) \/
      (* the last frame *)
       (p = [] /\ exists c pt tr rest', frame_opens C dk base chunk i true c pt /\ rest = frame_word pt true ++ c ++ tr ++ rest' /\
          len tr = 64 /\ dec_trailer_ok C d hk (hd ++ frame_word pt true ++ pt) tr /\
          b = take n pt /\ pending d' s' (drop n pt) /\ d_eof d' = true /\ delivers (d_rd d') rest' er))
  | Fail x => b = [] /\ p = [] /\ er_err s' = Some x /\
      (x = IoEOF -> exists rest', rest = frame_word [] true ++ rest' /\ delivers (d_rd d') rest' er) /\
      (x <> IoEOF -> ~ exists outs r', accepted C dk base chunk (dec_trailer_ok C d hk) i hd rest outs r')
  | Panic _ => False
  end.
Proof.
  intros HC [Hp Hblk Heof Hl Hd] Hn H chunk. pose proof Hp as []. unfold er_read in H. rewrite pn_err0, Heof in H.
  assert (Hnonempty : forall q : bytes, q <> [] -> take n q = [] -> n = 0).
  { intros q Hq Hq2. apply len_pos in Hq. apply (f_equal len) in Hq2. rewrite len_take in Hq2 by lia. change (len (@nil byte)) with 0 in Hq2. lia. }
  destruct (Z.eqb_spec (er_len s) 0) as [Hz|Hz].
  - assert (Hp0 : p = []) by (apply len_0_nil; lia).
    destruct (dec_chunk C d (er_blk s)) as [d1 r1] eqn:Ec.
    pose proof (dec_chunk_eof _ _ _ _ _ Ec) as He1. rewrite Heof in He1.
    pose proof (dec_chunk_spec C d dk base hk hd (er_blk s) rest er d1 r1 HC Hl Hd Ec) as (Hsame & Hc).
    assert (Hs1 : forall x, same_dec (d_set_eof d x) (d_set_eof d1 x)).
    { intros x. unfold same_dec in *. rewrite Hsame. reflexivity. }
    destruct r1 as [[m eof]|x|]; [| |contradiction].
    + set (d2 := d_set_eof d1 eof) in *. set (s2 := mkEr 0 m (u32 (er_blk s + 1)) None) in *.
      assert (Hp2 : forall pt, m = len pt -> take m (d_buf d1) = pt -> pending d2 s2 pt).
      { intros pt Hm Ht. constructor; cbn; auto; [lia|]. rewrite drop_0. auto. }
      destruct Hc as [(-> & -> & Hl1 & rest' & Hr & Hd1)|(c & pt & Hfo & Hm & Htk & Hl1 & rest' & Hr & Hrest)].
      * destruct (er_deliver_spec _ _ _ _ _ _ _ _ (Hp2 [] eq_refl (take_0 _)) Hn H) as (-> & [(Hx & _)|(_ & -> & -> & Hes)]); [congruence|].
        split; [cbn; lia|]. split; [apply Hs1|]. split; [reflexivity|]. split; [exact Hp0|]. split; [exact Hes|].
        split; [intros _; exists rest'; split; [exact Hr|exact Hd1]|congruence].
      * assert (Hpt : pt <> []) by (apply len_pos; destruct Hfo; lia).
        destruct (er_deliver_spec _ _ _ _ _ _ _ _ (Hp2 pt Hm Htk) Hn H) as (-> & [(_ & -> & -> & Hp3 & Hblk3)|(Hx & _)]); [|congruence].
        split; [apply len_take_ub; lia|]. split; [apply Hs1|]. split; [apply Hnonempty; exact Hpt|]. right.
        pose proof (frame_opens_be32 _ _ _ _ _ _ _ _ _ Hblk Hfo) as Hfo'.
        destruct eof.
        -- right. split; [exact Hp0|]. destruct Hrest as (tr & rest3 & -> & Htr & Hok & Hd3).
           exists c, pt, tr, rest3. split; [exact Hfo'|]. split; [exact Hr|]. split; [exact Htr|]. split; [exact Hok|].
           split; [reflexivity|]. split; [exact Hp3|]. split; [reflexivity|exact Hd3].
        -- left. split; [exact Hp0|]. exists c, pt, rest'. split; [exact Hfo'|]. split; [exact Hr|]. split; [reflexivity|].
           constructor; auto.
           ++ rewrite Hblk3. cbn. apply be32_plus1. exact Hblk.
           ++ apply dlive_set_eof. exact Hl1.
    + injection H as <- <- <- <-. split; [cbn; lia|]. split; [rewrite He1, <- Heof; destruct d; exact Hsame|]. split; [reflexivity|].
      split; [exact Hp0|]. split; [reflexivity|]. split.
      * intros ->. exfalso. eapply dec_chunk_not_eof; [exact Hl|exact Ec].
      * intros _. eapply dec_chunk_reject; [exact Hl|exact Hd|exact Hblk|exact Ec].
  - assert (Hp0 : p <> []) by (apply len_pos; pose proof (len_nonneg p); lia).
    destruct (er_deliver_spec _ _ _ _ _ _ _ _ Hp Hn H) as (-> & [(_ & -> & -> & Hp3 & Hblk3)|(Hx & _)]); [|congruence].
    split; [apply len_take_ub; lia|]. split; [rewrite Heof; destruct d; cbn in *; subst; apply same_refl|]. split; [apply Hnonempty; exact Hp0|]. left.
    split; [exact Hp0|]. split; [reflexivity|]. constructor; auto. rewrite Hblk3. exact Hblk.
Qed.

Lemma read_all_err C ns : forall d s x, er_err s = Some x ->
  read_all C d s ns = (d, s, repeat ([], Fail x) (length ns)).
Proof.
  induction ns as [|n ns IH]; intros d s x H; cbn; [reflexivity|].
  unfold er_read. rewrite H. rewrite (IH _ _ x H). reflexivity.
Qed.

(** the shape of a sequence of results: successful reads, then one error for ever *)
Definition read_shape (ns : list Z) (rs : list (bytes * res unit)) (pieces : list bytes) (x : goerr) (m : nat) : Prop :=
  rs = map (fun b => (b, Ok tt)) pieces ++ repeat ([], Fail x) m /\
  Forall2 (fun n r => len (fst r) <= n /\ (snd r = Ok tt -> fst r = [] -> n = 0)) ns rs.

Lemma shape_cons ns rs pieces x m n b : read_shape ns rs pieces x m -> len b <= n -> (b = [] -> n = 0) ->
  read_shape (n :: ns) ((b, Ok tt) :: rs) (b :: pieces) x m.
Proof. intros [-> H] Hb Hn. split; [reflexivity|]. constructor; [cbn; auto|exact H]. Qed.
Lemma shape_err ns x : Forall (fun n => 0 <= n) ns -> read_shape ns (repeat ([], Fail x) (length ns)) [] x (length ns).
Proof.
  intros H. split; [reflexivity|]. induction H as [|n ns Hn H IH]; cbn; constructor; auto.
  cbn. split; [lia|discriminate].
Qed.
Lemma shape_returned ns rs pieces x m : read_shape ns rs pieces x m -> returned rs = concat pieces.
Proof.
  intros [-> _]. unfold returned. rewrite map_app, concat_app, map_map. cbn [fst]. rewrite map_id.
  assert (H : concat (map (@fst bytes (res unit)) (repeat ([], Fail x) m)) = []).
  { induction m as [|m IH]; cbn; auto. }
  rewrite H, app_nil_r. reflexivity.
Qed.

(** after the last frame: the rest of the buffer, then EOF *)
Lemma read_all_tail C ns : forall d s p d' s' rs, pending d s p -> d_eof d = true -> Forall (fun n => 0 <= n) ns ->
  read_all C d s ns = (d', s', rs) ->
  exists pieces m k, read_shape ns rs pieces IoEOF m /\ concat pieces = take k p /\ (m <> O -> concat pieces = p) /\ d_rd d' = d_rd d.
Proof.
  induction ns as [|n ns IH]; intros d s p d' s' rs Hp He Hns H; cbn in H.
  - injection H as <- <- <-. exists [], O, 0. split; [split; [reflexivity|constructor]|]. split; [rewrite take_0; reflexivity|]. split; [congruence|reflexivity].
  - inversion Hns as [|? ? Hn Hns']; subst. pose proof Hp as [].
    destruct (er_read C d s n) as [[d1 s1] [b r1]] eqn:Er. destruct (read_all C d1 s1 ns) as [[d2 s2] rs2] eqn:Ea.
    injection H as <- <- <-. unfold er_read in Er. rewrite pn_err0, He in Er.
    assert (Hcase : (p <> [] /\ r1 = Ok tt /\ b = take n p /\ d1 = d /\ pending d s1 (drop n p)) \/
                    (p = [] /\ r1 = Fail IoEOF /\ b = [] /\ er_err s1 = Some IoEOF /\ d1 = d)).
    { destruct (Z.eqb_spec (er_len s) 0) as [Hz|Hz].
      - injection Er as <- <- <- <-. right. split; [apply len_0_nil; lia|]. auto.
      - destruct (er_deliver_spec _ _ _ _ _ _ _ _ Hp Hn Er) as (-> & [(H1 & H2 & H3 & H4 & _)|(H1 & H2 & H3 & H4)]); [left|right]; auto 6. }
    destruct Hcase as [(Hne & -> & -> & -> & Hp')|(-> & -> & -> & He1 & Hdd)].
    + destruct (IH _ _ _ _ _ _ Hp' He Hns' Ea) as (pieces & m & k & Hs & Hc & Hm & Hrd).
      destruct (take_app_plus (take n p) (drop n p) k) as (q & Hq). rewrite take_drop in Hq.
      exists (take n p :: pieces), m, q. split; [|split; [|split; [|exact Hrd]]].
      * apply shape_cons; [exact Hs|apply len_take_ub; lia|]. intros Hq2. apply len_pos in Hne. apply (f_equal len) in Hq2.
        rewrite len_take in Hq2 by lia. change (len (@nil byte)) with 0 in Hq2. lia.
      * change (concat (take n p :: pieces)) with (take n p ++ concat pieces). rewrite Hc. exact Hq.
      * intros Hm0. change (concat (take n p :: pieces)) with (take n p ++ concat pieces). rewrite (Hm Hm0). apply take_drop.
    + rewrite (read_all_err C ns d1 s1 IoEOF He1) in Ea. injection Ea as <- <- <-.
      exists [], (S (length ns)), 0. split; [exact (shape_err (n :: ns) IoEOF Hns)|]. split; [reflexivity|]. split; [reflexivity|]. rewrite Hdd. reflexivity.
Qed.

(** any sequence of reads from a positioned reader *)
Lemma read_all_spec C ns : crypto_ok C -> forall d s p dk base hk hd i rest er d' s' rs,
  sr_live d s p dk base hk hd i rest er -> Forall (fun n => 0 <= n) ns -> read_all C d s ns = (d', s', rs) ->
  let chunk := h_chunk (d_hdr d) in let tok := dec_trailer_ok C d hk in
  exists pieces x m, read_shape ns rs pieces x m /\
    (exists outs k, opened C dk base chunk i rest outs /\ concat pieces = take k (p ++ concat outs)) /\
    (m <> O -> x = IoEOF -> exists outs rest', accepted C dk base chunk tok i hd rest outs rest' /\ concat pieces = p ++ concat outs /\ delivers (d_rd d') rest' er) /\
    (m <> O -> x <> IoEOF -> ~ exists outs rest', accepted C dk base chunk tok i hd rest outs rest').
Proof.
  intros HC. induction ns as [|n ns IH]; intros d s p dk base hk hd i rest er d' s' rs Hl Hns H chunk tok; cbn in H.
  - injection H as <- <- <-. exists [], IoEOF, O. split; [split; [reflexivity|constructor]|].
    split; [exists [], 0; split; [constructor|rewrite take_0; reflexivity]|]. split; congruence.
  - inversion Hns as [|? ? Hn Hns']; subst.
    destruct (er_read C d s n) as [[d1 s1] [b r1]] eqn:Er. destruct (read_all C d1 s1 ns) as [[d2 s2] rs2] eqn:Ea.
    injection H as <- <- <-.
    destruct (er_read_spec C d s p dk base hk hd i rest er n d1 s1 b r1 HC Hl Hn Er) as (Hb & Hsame & Hr). fold chunk in Hr.
    destruct (same_auth _ _ Hsame) as (Ha1 & Hs1 & Hh1). cbn in Ha1, Hs1, Hh1.
    assert (Htok : dec_trailer_ok C d1 hk = tok) by (unfold tok, dec_trailer_ok; rewrite Ha1, Hs1; reflexivity).
    assert (Hch30 : chunk < 2^30) by apply (dl_chunk _ _ _ _ _ (sr_dlive _ _ _ _ _ _ _ _ _ _ Hl)).
    destruct r1 as [[]|x|]; [| |contradiction].
    2: { destruct Hr as (-> & -> & He & Heof & Hrej). rewrite (read_all_err C ns d1 s1 x He) in Ea. injection Ea as <- <- <-.
         exists [], x, (S (length ns)). split; [exact (shape_err (n :: ns) x Hns)|].
         split; [exists [], 0; split; [constructor|rewrite take_0; reflexivity]|]. split; [|intros _; exact Hrej].
         intros _ Hx. destruct (Heof Hx) as (rest' & -> & Hdr). exists [], rest'. split; [constructor|]. split; [reflexivity|exact Hdr]. }
    destruct Hr as (Hbn & [(Hp & -> & Hl1)|[(-> & c & pt & rest' & Hfo & -> & -> & Hl1)|(-> & c & pt & tr & rest' & Hfo & -> & Htr & Hok & -> & Hp1 & He1 & Hd1)]]).
    + destruct (IH _ _ _ _ _ _ _ _ _ _ _ _ _ Hl1 Hns' Ea) as (pieces & x & m & Hsh & (outs & k & Ho & Hc) & Hacc & Hrej).
      rewrite Hh1, Htok in *. fold chunk in Ho, Hacc, Hrej.
      exists (take n p :: pieces), x, m. split; [apply shape_cons; auto|].
      change (concat (take n p :: pieces)) with (take n p ++ concat pieces).
      assert (Hpp : forall q, take n p ++ drop n p ++ q = p ++ q) by (intros q; rewrite app_assoc, take_drop; reflexivity).
      split; [|split].
      * exists outs. destruct (take_app_plus (take n p) (drop n p ++ concat outs) k) as (q & Hq). exists q. split; [exact Ho|].
        rewrite Hc, Hq, Hpp. reflexivity.
      * intros Hm Hx. destruct (Hacc Hm Hx) as (outs2 & rest2 & Ha & Hcc & Hdr). exists outs2, rest2. split; [exact Ha|].
        split; [|exact Hdr]. rewrite Hcc. apply Hpp.
      * exact Hrej.
    + destruct (IH _ _ _ _ _ _ _ _ _ _ _ _ _ Hl1 Hns' Ea) as (pieces & x & m & Hsh & (outs & k & Ho & Hc) & Hacc & Hrej).
      rewrite Hh1, Htok in *. fold chunk in Ho, Hacc, Hrej.
      exists (take n pt :: pieces), x, m. split; [apply shape_cons; auto|].
      change (concat (take n pt :: pieces)) with (take n pt ++ concat pieces). cbn [app].
      assert (Hpp : forall q, take n pt ++ drop n pt ++ q = pt ++ q) by (intros q; rewrite app_assoc, take_drop; reflexivity).
      split; [|split].
      * exists (pt :: outs). destruct (take_app_plus (take n pt) (drop n pt ++ concat outs) k) as (q & Hq). exists q.
        split; [apply op_more; auto|]. rewrite Hc, Hq, Hpp. reflexivity.
      * intros Hm Hx. destruct (Hacc Hm Hx) as (outs2 & rest2 & Ha & Hcc & Hdr). exists (pt :: outs2), rest2. split; [apply ac_more; auto|].
        split; [|exact Hdr]. rewrite Hcc. apply Hpp.
      * intros Hm Hx (outs2 & rest2 & Ha). apply (Hrej Hm Hx).
        destruct (accepted_inv _ _ _ _ _ _ _ _ _ _ Ha) as [(Hsx & _)|[(c2 & pt2 & tr2 & Hfo2 & _ & _ & Hsx & _)|(c2 & pt2 & s0 & outs0 & Hfo2 & Ha0 & Hsx & ->)]].
        -- exfalso. symmetry in Hsx. eapply frame_not_bare; eassumption.
        -- destruct (frame_split _ _ _ _ _ _ _ _ _ _ _ _ _ Hch30 Hfo Hfo2 Hsx) as (HH & _). discriminate.
        -- destruct (frame_split _ _ _ _ _ _ _ _ _ _ _ _ _ Hch30 Hfo Hfo2 Hsx) as (_ & <- & <- & <-). eauto.
    + destruct (read_all_tail C ns d1 s1 _ _ _ _ Hp1 He1 Hns' Ea) as (pieces & m & k & Hsh & Hc & Hm & Hdr).
      exists (take n pt :: pieces), IoEOF, m. split; [apply shape_cons; auto|].
      change (concat (take n pt :: pieces)) with (take n pt ++ concat pieces). cbn [app].
      split; [|split; [|congruence]].
      * exists [pt]. destruct (take_app_plus (take n pt) (drop n pt) k) as (q & Hq). exists q. rewrite take_drop in Hq.
        split; [apply op_last; auto|]. rewrite Hc, Hq. cbn. rewrite app_nil_r. reflexivity.
      * intros Hm0 _. exists [pt], rest'. split; [apply ac_last; auto|]. split; [|rewrite Hdr; exact Hd1]. rewrite (Hm Hm0), take_drop. cbn. rewrite app_nil_r. reflexivity.
Qed.

(** what is opened of an acceptable stream is an initial segment of it *)
Lemma opened_accepted C dk base chunk tok : chunk < 2^30 -> forall i s outs', opened C dk base chunk i s outs' ->
  forall m outs rest, accepted C dk base chunk tok i m s outs rest -> exists more, outs = outs' ++ more.
Proof.
  intros Hch. induction 1 as [i s|i c pt s Hf|i c pt s outs' Hf Ho IH]; intros m outs rest Ha.
  - exists outs. reflexivity.
  - destruct (accepted_inv _ _ _ _ _ _ _ _ _ _ Ha) as [(Hsx & _)|[(c2 & pt2 & tr2 & Hfo2 & _ & _ & Hsx & ->)|(c2 & pt2 & s0 & outs0 & Hfo2 & Ha0 & Hsx & ->)]].
    + exfalso. symmetry in Hsx. eapply frame_not_bare; eassumption.
    + destruct (frame_split _ _ _ _ _ _ _ _ _ _ _ _ _ Hch Hf Hfo2 Hsx) as (_ & _ & <- & _). exists []. reflexivity.
    + destruct (frame_split _ _ _ _ _ _ _ _ _ _ _ _ _ Hch Hf Hfo2 Hsx) as (HH & _). discriminate.
  - destruct (accepted_inv _ _ _ _ _ _ _ _ _ _ Ha) as [(Hsx & _)|[(c2 & pt2 & tr2 & Hfo2 & _ & _ & Hsx & ->)|(c2 & pt2 & s0 & outs0 & Hfo2 & Ha0 & Hsx & ->)]].
    + exfalso. symmetry in Hsx. eapply frame_not_bare; eassumption.
    + destruct (frame_split _ _ _ _ _ _ _ _ _ _ _ _ _ Hch Hf Hfo2 Hsx) as (HH & _). discriminate.
    + destruct (frame_split _ _ _ _ _ _ _ _ _ _ _ _ _ Hch Hf Hfo2 Hsx) as (_ & <- & <- & <-).
      destruct (IH _ _ _ Ha0) as (more & ->). exists more. reflexivity.
Qed.

(** ** the stream reader of an opened file *)
Lemma stream_read_left C s er seed spk d h ck rest root ns : crypto_ok C ->
  opened_state C s er seed spk d h ck rest root -> Forall (fun n => 0 <= n) ns ->
  exists d1 r, new_stream_reader d = (d1, Ok r) /\ forall d' r' rs, read_all C d1 r ns = (d', r', rs) ->
  let fk := derive_keys C root ck in
  let tok := trailer_check C (d_auth d) spk (fk_mac fk) in
  exists pieces x m, read_shape ns rs pieces x m /\
    (exists outs k, opened C (fk_data fk) (fk_base fk) (h_chunk h) 0 rest outs /\ concat pieces = take k (concat outs)) /\
    (m <> O -> x = IoEOF -> exists outs rest', accepted C (fk_data fk) (fk_base fk) (h_chunk h) tok 0 [] rest outs rest' /\ concat pieces = concat outs /\ delivers (d_rd d') rest' er) /\
    (m <> O -> x <> IoEOF -> ~ exists outs rest', accepted C (fk_data fk) (fk_base fk) (h_chunk h) tok 0 [] rest outs rest').
Proof.
  intros HC [] Hns. cbv zeta in *. unfold new_stream_reader. rewrite os_key, os_eof.
  exists (d_set_stream d), (mkEr 0 0 0 None). split; [reflexivity|]. intros d' r' rs H. set (fk := derive_keys C root ck) in *. set (tok := trailer_check C (d_auth d) spk (fk_mac fk)).
  assert (Hl : sr_live (d_set_stream d) (mkEr 0 0 0 None) [] (fk_data fk) (fk_base fk) (fk_mac fk) [] 0 rest er).
  { constructor; cbn; auto.
    - constructor; cbn; auto; [lia|rewrite drop_0, take_0; reflexivity].
    - destruct os_live. constructor; cbn; auto. }
  pose proof (read_all_spec C ns HC _ _ _ _ _ _ _ _ _ _ _ _ _ Hl Hns H) as Hx. cbn [app d_hdr d_set_stream] in Hx.
  rewrite os_hdr in Hx. unfold dec_trailer_ok in Hx. cbn [d_auth d_sender d_set_stream] in Hx. rewrite os_spk in Hx. exact Hx.
Qed.

Lemma stream_read_spec C s er seed spk d h ck rest root ns : crypto_ok C ->
  opened_state C s er seed spk d h ck rest root -> Forall (fun n => 0 <= n) ns ->
  exists d1 r, new_stream_reader d = (d1, Ok r) /\ forall d' r' rs, read_all C d1 r ns = (d', r', rs) ->
  let fk := derive_keys C root ck in
  let tok := trailer_check C (d_auth d) spk (fk_mac fk) in
  exists pieces x m, read_shape ns rs pieces x m /\
    (exists outs k, opened C (fk_data fk) (fk_base fk) (h_chunk h) 0 rest outs /\ concat pieces = take k (concat outs)) /\
    (m <> O -> x = IoEOF -> exists outs rest', accepted C (fk_data fk) (fk_base fk) (h_chunk h) tok 0 [] rest outs rest' /\ concat pieces = concat outs) /\
    (m <> O -> x <> IoEOF -> ~ exists outs rest', accepted C (fk_data fk) (fk_base fk) (h_chunk h) tok 0 [] rest outs rest').
Proof.
  intros HC Hos Hns. destruct (stream_read_left C s er seed spk d h ck rest root ns HC Hos Hns) as (d1 & r & Hr & H).
  exists d1, r. split; [exact Hr|]. intros d' r' rs Ha. destruct (H _ _ _ Ha) as (pieces & x & m & H1 & H2 & H3 & H4).
  exists pieces, x, m. split; [exact H1|]. split; [exact H2|]. split; [|exact H4]. intros Hm Hx. destruct (H3 Hm Hx) as (outs & rest' & A & B & _). eauto.
Qed.

Lemma pieces_short ns rs pieces x m : read_shape ns rs pieces x m -> Forall (fun n => 0 < n) ns ->
  Z.of_nat (length pieces) <= len (concat pieces).
Proof.
  intros [-> H] Hns. revert ns Hns H. induction pieces as [|b ps IH]; intros ns Hns H; [cbn; lia|].
  cbn [map app] in H. inversion H as [|n r ns' rs' (Hb & Hbn) H']; subst. inversion Hns as [|? ? Hn Hns']; subst.
  specialize (IH _ Hns' H'). change (concat (b :: ps)) with (b ++ concat ps). rewrite len_app. cbn [List.length].
  cbn in Hbn. assert (b <> []) by (intros ->; specialize (Hbn eq_refl eq_refl); lia). apply len_pos in H0. lia.
Qed.
Lemma Forall2_len {A B} (R : A -> B -> Prop) l l' : Forall2 R l l' -> length l = length l'.
Proof. induction 1; cbn; congruence. Qed.
Lemma shape_length ns rs pieces x m : read_shape ns rs pieces x m -> length ns = (length pieces + m)%nat.
Proof. intros [-> H]. apply Forall2_len in H. rewrite H, app_length, map_length, repeat_length. reflexivity. Qed.

(** reading an acceptable stream to the end: exactly its plaintext and then EOF *)
Lemma stream_read_complete C s er seed spk d h ck rest root outs rest2 ns : crypto_ok C ->
  opened_state C s er seed spk d h ck rest root ->
  let fk := derive_keys C root ck in
  accepted C (fk_data fk) (fk_base fk) (h_chunk h) (trailer_check C (d_auth d) spk (fk_mac fk)) 0 [] rest outs rest2 ->
  Forall (fun n => 0 <= n) ns ->
  exists d1 r, new_stream_reader d = (d1, Ok r) /\ forall d' r' rs, read_all C d1 r ns = (d', r', rs) ->
  exists pieces m k, read_shape ns rs pieces IoEOF m /\ concat pieces = take k (concat outs) /\
    (m <> O -> concat pieces = concat outs) /\
    (Forall (fun n => 0 < n) ns -> len (concat outs) < Z.of_nat (length ns) -> m <> O).
Proof.
  intros HC Hos fk Ha Hns. destruct (stream_read_spec C s er seed spk d h ck rest root ns HC Hos Hns) as (d1 & r & Hr & Hspec).
  exists d1, r. split; [exact Hr|]. intros d' r' rs Hra. destruct (Hspec _ _ _ Hra) as (pieces & x & m & Hsh & (outs' & k & Ho & Hc) & Heof & Hrej).
  fold fk in Ho, Heof, Hrej.
  assert (Hch : h_chunk h < 2^30).
  { pose proof (dl_chunk _ _ _ _ _ (os_live _ _ _ _ _ _ _ _ _ _ Hos)) as Hc'. rewrite (os_hdr _ _ _ _ _ _ _ _ _ _ Hos) in Hc'. apply Hc'. }
  destruct (opened_accepted _ _ _ _ _ Hch _ _ _ Ho _ _ _ Ha) as (more & Hmore).
  assert (Hpre : exists q, concat pieces = take q (concat outs)).
  { exists (len (take k (concat outs'))). rewrite Hc, Hmore, concat_app. rewrite take_app_l by apply len_take_ub2.
    destruct (Z.leb_spec k 0); [rewrite !(take_neg k) by lia; rewrite take_0; reflexivity|].
    rewrite len_take by lia. destruct (Z.leb_spec k (len (concat outs'))); [rewrite Z.min_l by lia; reflexivity|].
    rewrite Z.min_r, !take_all by lia. reflexivity. }
  destruct Hpre as (q & Hq). exists pieces, m, q.
  assert (Hsh' : read_shape ns rs pieces IoEOF m).
  { destruct m as [|m]; [destruct Hsh as [-> Hf]; split; [reflexivity|exact Hf]|].
    assert (x = IoEOF); [|subst; exact Hsh]. assert (Hdec : {x = IoEOF} + {x <> IoEOF}) by (destruct x; (left; reflexivity) || (right; discriminate)).
    destruct Hdec as [|Hx]; [assumption|]. exfalso. apply (Hrej ltac:(discriminate) Hx). eauto. }
  split; [exact Hsh'|]. split; [exact Hq|]. split.
  - intros Hm. assert (x = IoEOF). { destruct m as [|m]; [congruence|]. destruct Hsh as [H1 _], Hsh' as [H2 _]. rewrite H1 in H2. apply app_inv_head in H2. cbn in H2. congruence. }
    destruct (Heof Hm H) as (o2 & r2 & Ha2 & ->). destruct (accepted_det _ _ _ _ _ Hch _ _ _ _ _ Ha _ _ Ha2) as (-> & _). reflexivity.
  - intros Hpos Hlong ->. pose proof (shape_length _ _ _ _ _ Hsh') as Hl. pose proof (pieces_short _ _ _ _ _ Hsh' Hpos) as Hp.
    rewrite Hq in Hp. pose proof (len_take_ub2 q (concat outs)). lia.
Qed.
