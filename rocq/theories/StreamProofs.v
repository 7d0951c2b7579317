(** Proofs about Stream.v *)
From Verif Require Import Bytes BytesLemmas GoErr GoIO SpecIO IOProofs Pb SpecPb PbProofs Crypto CryptoLaws Keys Sign
  Encrypt Decrypt Stream Spec SpecStream EncryptProofs DecryptProofs AcceptProofs OpenProofs RoundTrip.
Require Import ZifyBool.
Ltac Zify.zify_post_hook ::= Z.div_mod_to_equations.
Local Notation length := List.length.
Local Notation concat := List.concat.

(** ** writer *)
Fixpoint mac_unmarked (cs : list bytes) : bytes :=
  match cs with [] => [] | c :: cs' => frame_word c false ++ c ++ mac_unmarked cs' end.
Lemma unmarked_snoc C dk base cs c : forall i,
  unmarked C dk base i (cs ++ [c]) = unmarked C dk base i cs ++ frame C dk base (i + Z.of_nat (length cs)) false c.
Proof.
  induction cs as [|x cs IH]; intros i; cbn [unmarked app List.length].
  - rewrite app_nil_r, Z.add_0_r. reflexivity.
  - rewrite IH, <- app_assoc. do 3 f_equal. lia.
Qed.
Lemma frames_snoc C dk base cs c : forall i,
  frames C dk base i (cs ++ [c]) = unmarked C dk base i cs ++ frame C dk base (i + Z.of_nat (length cs)) true c.
Proof.
  induction cs as [|x cs IH]; intros i; cbn [unmarked app List.length].
  - cbn. rewrite Z.add_0_r. reflexivity.
  - rewrite frames_cons by (destruct cs; discriminate). rewrite IH, <- app_assoc. do 3 f_equal. lia.
Qed.
Lemma mac_unmarked_snoc cs c : mac_unmarked (cs ++ [c]) = mac_unmarked cs ++ frame_word c false ++ c.
Proof. induction cs as [|x cs IH]; cbn [mac_unmarked app]; [rewrite app_nil_r; reflexivity|]. rewrite IH, <- !app_assoc. reflexivity. Qed.
Lemma mac_input_snoc cs c : mac_input (cs ++ [c]) = mac_unmarked cs ++ frame_word c true ++ c.
Proof.
  induction cs as [|x cs IH]; cbn [mac_unmarked app]; [reflexivity|].
  rewrite mac_input_cons by (destruct cs; discriminate). rewrite IH, <- !app_assoc. reflexivity.
Qed.

(** the stream writer has accepted [data]: full chunks [fl] written, the rest buffered *)
Record sw_state (C : crypto) (e0 : encryptor) (out0 dk base hk : bytes) (e : encryptor) (w : writer) (s : encw)
  (fl : list bytes) (data : bytes) : Prop := {
  sw_err : ew_err s = None;
  sw_enc : e = e_with_hmac e0 (Some (hk, mac_unmarked fl));
  sw_live : live e dk base hk (mac_unmarked fl);
  sw_full : Forall (fun c => len c = h_chunk (e_hdr e0)) fl;
  sw_data : data = concat fl ++ ew_buf s;
  sw_buf : len (ew_buf s) <= h_chunk (e_hdr e0);
  sw_blk : ew_blk s = u32 (Z.of_nat (length fl));
  sw_out : w_out w = out0 ++ unmarked C dk base 0 fl }.

Lemma concat_snoc {A} (l : list (list A)) x : concat (l ++ [x]) = concat l ++ x.
Proof. rewrite List.concat_app. cbn. rewrite app_nil_r. reflexivity. Qed.

Lemma ew_loop_spec C e0 out0 dk base hk : crypto_ok C -> forall fuel e w g s b fl data e' w' g' s' rs,
  sw_state C e0 out0 dk base hk e w s fl data -> (fl <> [] -> ew_buf s ++ b <> []) ->
  2 * len b + (if len (ew_buf s) =? h_chunk (e_hdr e0) then 1 else 0) < Z.of_nat fuel ->
  ew_loop C fuel e w g s b = (e', w', g', s', rs) ->
  later w w' /\ g' = g /\
  match rs with
  | Ok _ => exists fl', sw_state C e0 out0 dk base hk e' w' s' fl' (data ++ b) /\ (fl' <> [] -> ew_buf s' <> [])
  | Fail x => ew_err s' = Some x /\ (exists m y, In (m, Some y) (w_sched w) /\ cause x = cause y) /\
              exists fl' more k, w_out w' = out0 ++ take k (unmarked C dk base 0 fl') /\ concat fl' ++ more = data ++ b /\ more <> [] /\
                Forall (fun c => len c = h_chunk (e_hdr e0)) fl'
  | Panic _ => False
  end.
Proof.
  intros HC. induction fuel as [|fuel IH]; intros e w g s b fl data e' w' g' s' rs Hst Hne Hf H.
  { pose proof (len_nonneg b). destruct (_ =? _); lia. }
  cbn [ew_loop] in H. destruct b as [|x b0].
  { injection H as <- <- <- <- <-. split; [apply later_refl|]. split; [reflexivity|]. exists fl.
    rewrite app_nil_r in *. auto. }
  set (b := x :: b0) in *. assert (Hb : 0 < len b) by (unfold b; rewrite len_cons; pose proof (len_nonneg b0); lia).
  clearbody b. pose proof Hst as [].
  pose proof (lv_chunk _ _ _ _ _ sw_live0) as Hch. rewrite sw_enc0 in Hch. cbn in Hch.
  assert (Hce : h_chunk (e_hdr e) = h_chunk (e_hdr e0)) by (rewrite sw_enc0; reflexivity). rewrite Hce in H.
  set (n := h_chunk (e_hdr e0)) in *. pose proof (len_nonneg (ew_buf s)).
  set (z := Z.min (n - len (ew_buf s)) (len b)) in *.
  assert (Hz : 0 <= z <= len b) by lia.
  assert (Hlen : len (ew_buf s ++ take z b) = len (ew_buf s) + z) by (rewrite len_app, len_take_le by lia; reflexivity).
  assert (Hdrop : len (drop z b) = len b - z) by (apply len_drop; lia).
  rewrite Hlen, Hdrop in H.
  destruct ((len (ew_buf s) + z =? n) && (0 <? len b - z)) eqn:Eflush.
  - assert (Hpt : len (ew_buf s ++ take z b) <= h_chunk (e_hdr e)) by (rewrite Hce; lia).
    destruct (enc_block C e (ew_buf s ++ take z b) w (ew_blk s) false g) as [[[e1 w1] g1] rs1] eqn:Eb.
    pose proof (enc_block_spec C e dk base hk _ _ w _ false g _ _ _ _ HC sw_live0 Hpt Eb) as (Hl1 & Hbk).
    rewrite sw_blk0 in Hbk. rewrite frame_u32 in Hbk. rewrite app_nil_r in Hbk.
    set (fl1 := fl ++ [ew_buf s ++ take z b]) in *.
    assert (Hcat : concat fl1 ++ drop z b = data ++ b).
    { unfold fl1. rewrite concat_snoc, sw_data0, <- !app_assoc, take_drop. reflexivity. }
    assert (Hfull1 : Forall (fun c => len c = n) fl1).
    { apply Forall_app. split; [exact sw_full0|]. constructor; [|constructor]. lia. }
    destruct rs1 as [u|y|]; [| |contradiction].
    + destruct Hbk as (He1 & -> & Hw1).
      assert (Hst1 : sw_state C e0 out0 dk base hk e1 w1 (mkEw [] (u32 (ew_blk s + 1)) (ew_err s)) fl1 (concat fl1)).
      { constructor; cbn [ew_err ew_buf ew_blk]; auto.
        - rewrite He1, sw_enc0. unfold e_with_hmac, fl1. cbn. rewrite mac_unmarked_snoc. reflexivity.
        - unfold fl1. rewrite mac_unmarked_snoc, He1. eapply live_with. exact sw_live0.
        - rewrite app_nil_r. reflexivity.
        - change (len (@nil byte)) with 0. fold n. lia.
        - rewrite sw_blk0, u32_u32_add. unfold fl1. rewrite app_length. cbn [List.length]. f_equal. lia.
        - rewrite Hw1, sw_out0. unfold fl1. rewrite unmarked_snoc, <- !app_assoc. reflexivity. }
      assert (Hne1 : fl1 <> [] -> ew_buf (mkEw [] (u32 (ew_blk s + 1)) (ew_err s)) ++ drop z b <> []).
      { intros _. cbn. apply len_pos. lia. }
      assert (Hf1 : 2 * len (drop z b) + (if len (ew_buf (mkEw [] (u32 (ew_blk s + 1)) (ew_err s))) =? n then 1 else 0) < Z.of_nat fuel).
      { rewrite Hdrop. cbn [ew_buf]. change (len (@nil byte)) with 0.
        destruct (Z.eqb_spec 0 n); [lia|]. destruct (Z.eqb_spec (len (ew_buf s)) n); lia. }
      destruct (IH _ _ _ _ _ _ _ _ _ _ _ _ Hst1 Hne1 Hf1 H) as (Hl2 & -> & IH').
      split; [eapply later_trans; eassumption|]. split; [reflexivity|]. rewrite Hcat in IH'.
      destruct rs as [v|y|]; [exact IH'| |exact IH'].
      destruct IH' as (H1 & (m & y' & Hm & Hc) & H3). split; [exact H1|]. split; [|exact H3].
      exists m, y'. split; [eapply later_In; eassumption|exact Hc].
    + injection H as <- <- <- <- <-. destruct Hbk as ((k & Hk) & Hc).
      assert (Hg : g1 = g). { unfold enc_block in Eb. rewrite (lv_ae _ _ _ _ _ sw_live0), (lv_hmac _ _ _ _ _ sw_live0) in Eb.
        cbv zeta in Eb. match type of Eb with (if ?c then _ else _) = _ => destruct c end; [congruence|].
        match type of Eb with context [fullwrite ?a w] => destruct (fullwrite a w) as [[?|] ?] end; congruence. }
      split; [exact Hl1|]. split; [exact Hg|]. split; [reflexivity|]. split; [exact Hc|].
      destruct (take_app_plus (unmarked C dk base 0 fl) (frame C dk base (Z.of_nat (length fl)) false (ew_buf s ++ take z b)) k) as (q & Hq).
      exists fl1, (drop z b), q. split; [|split; [exact Hcat|split; [apply len_pos; lia|exact Hfull1]]].
      rewrite Hk, sw_out0. unfold fl1. rewrite unmarked_snoc, Z.add_0_l, <- Hq, <- app_assoc. reflexivity.
  - assert (Hst1 : sw_state C e0 out0 dk base hk e w (mkEw (ew_buf s ++ take z b) (ew_blk s) (ew_err s)) fl (data ++ take z b)).
    { constructor; cbn [ew_err ew_buf ew_blk]; auto; [|fold n; lia].
      rewrite sw_data0, <- app_assoc. reflexivity. }
    assert (Hne1 : fl <> [] -> ew_buf (mkEw (ew_buf s ++ take z b) (ew_blk s) (ew_err s)) ++ drop z b <> []).
    { cbn. rewrite <- app_assoc, take_drop. exact Hne. }
    assert (Hf1 : 2 * len (drop z b) + (if len (ew_buf (mkEw (ew_buf s ++ take z b) (ew_blk s) (ew_err s))) =? n then 1 else 0) < Z.of_nat fuel).
    { rewrite Hdrop. cbn [ew_buf]. rewrite Hlen.
      destruct (Z.eqb_spec (len (ew_buf s) + z) n); destruct (Z.eqb_spec (len (ew_buf s)) n); lia. }
    destruct (IH _ _ _ _ _ _ _ _ _ _ _ _ Hst1 Hne1 Hf1 H) as (Hl2 & -> & IH').
    split; [exact Hl2|]. split; [reflexivity|]. rewrite <- app_assoc, take_drop in IH'. exact IH'.
Qed.

(** between calls: full chunks were flushed only because more data followed *)
Definition sw_ok C e0 out0 dk base hk e w s data : Prop :=
  exists fl, sw_state C e0 out0 dk base hk e w s fl data /\ (fl <> [] -> ew_buf s <> []).

Lemma ew_write_spec C e0 out0 dk base hk e w g s b data e' w' g' s' n rs : crypto_ok C ->
  sw_ok C e0 out0 dk base hk e w s data -> ew_write C e w g s b = (e', w', g', s', (n, rs)) ->
  later w w' /\ g' = g /\
  match rs with
  | Ok _ => n = len b /\ sw_ok C e0 out0 dk base hk e' w' s' (data ++ b)
  | Fail x => n = 0 /\ ew_err s' = Some x /\ (exists m y, In (m, Some y) (w_sched w) /\ cause x = cause y) /\
              exists fl' more k, w_out w' = out0 ++ take k (unmarked C dk base 0 fl') /\ concat fl' ++ more = data ++ b /\ more <> [] /\
                Forall (fun c => len c = h_chunk (e_hdr e0)) fl'
  | Panic _ => False
  end.
Proof.
  intros HC (fl & Hst & Hne) H. unfold ew_write in H. rewrite (sw_err _ _ _ _ _ _ _ _ _ _ _ Hst) in H.
  destruct (Z.eqb_spec (len b) 0) as [Hb|Hb].
  - apply len_0_nil in Hb. subst b. injection H as <- <- <- <- <- <-. split; [apply later_refl|]. split; [reflexivity|].
    split; [reflexivity|]. rewrite app_nil_r. exists fl. auto.
  - destruct (ew_loop C (2 * length b + 2) e w g s b) as [[[[e1 w1] g1] s1] rs1] eqn:El. injection H as <- <- <- <- <- <-.
    assert (Hf : 2 * len b + (if len (ew_buf s) =? h_chunk (e_hdr e0) then 1 else 0) < Z.of_nat (2 * length b + 2)).
    { unfold len at 1. destruct (_ =? _); lia. }
    assert (Hne' : fl <> [] -> ew_buf s ++ b <> []).
    { intros Hfl Hx. apply (Hne Hfl). destruct (ew_buf s); [reflexivity|discriminate]. }
    destruct (ew_loop_spec C e0 out0 dk base hk HC _ _ _ _ _ _ _ _ _ _ _ _ _ Hst Hne' Hf El) as (H1 & H2 & H3).
    split; [exact H1|]. split; [exact H2|]. destruct rs1 as [u|x|]; [| |exact H3].
    + split; [reflexivity|exact H3].
    + split; [reflexivity|exact H3].
Qed.

(** the sticky error *)
Lemma write_all_err C e w g s x bs : ew_err s = Some x ->
  write_all C e w g s bs = (e, w, g, s, map (fun _ => (0, Fail x)) bs).
Proof.
  intros Hx. induction bs as [|b bs IH]; cbn [write_all map]; [reflexivity|].
  unfold ew_write. rewrite Hx, IH. reflexivity.
Qed.
Lemma ew_close_err C e w g s x : ew_err s = Some x -> ew_close C e w g s = (e, w, g, s, Fail x).
Proof. intros Hx. unfold ew_close. rewrite Hx. reflexivity. Qed.

Lemma write_all_spec C e0 out0 dk base hk : crypto_ok C -> forall bs e w g s data e' w' g' s' rs,
  sw_ok C e0 out0 dk base hk e w s data -> write_all C e w g s bs = (e', w', g', s', rs) ->
  later w w' /\ g' = g /\
  ((rs = map (fun b => (len b, Ok tt)) bs /\ sw_ok C e0 out0 dk base hk e' w' s' (data ++ concat bs)) \/
   (exists x pre b post, bs = pre ++ b :: post /\ ew_err s' = Some x /\
      rs = map (fun b => (len b, Ok tt)) pre ++ map (fun _ => (0, Fail x)) (b :: post) /\
      (exists m y, In (m, Some y) (w_sched w) /\ cause x = cause y) /\
      exists fl' more k, w_out w' = out0 ++ take k (unmarked C dk base 0 fl') /\ concat fl' ++ more = data ++ concat bs /\ more <> [] /\
                Forall (fun c => len c = h_chunk (e_hdr e0)) fl')).
Proof.
  intros HC. induction bs as [|b bs IH]; intros e w g s data e' w' g' s' rs Hok H; cbn [write_all] in H.
  - injection H as <- <- <- <- <-. split; [apply later_refl|]. split; [reflexivity|]. left.
    split; [reflexivity|]. cbn [List.concat]. rewrite app_nil_r. exact Hok.
  - destruct (ew_write C e w g s b) as [[[[e1 w1] g1] s1] [n r1]] eqn:Ew.
    destruct (write_all C e1 w1 g1 s1 bs) as [[[[e2 w2] g2] s2] rs2] eqn:Ea. injection H as <- <- <- <- <-.
    destruct (ew_write_spec _ _ _ _ _ _ _ _ _ _ _ _ _ _ _ _ _ _ HC Hok Ew) as (Hl1 & -> & Hw). destruct r1 as [u|x|]; [| |contradiction].
    + destruct Hw as (-> & Hok1). destruct (IH _ _ _ _ _ _ _ _ _ _ Hok1 Ea) as (Hl2 & -> & Hx).
      split; [eapply later_trans; eassumption|]. split; [reflexivity|]. cbn [List.concat map]. destruct u.
      destruct Hx as [(-> & Hok2)|(x & pre & b2 & post & -> & Hxe & -> & (m & y & Hm & Hc) & fl' & more & k & Ho & Hcat & Hmne & Hfull)].
      * left. split; [reflexivity|]. rewrite app_assoc. exact Hok2.
      * right. exists x, (b :: pre), b2, post. split; [reflexivity|]. split; [exact Hxe|]. split; [reflexivity|].
        split; [exists m, y; split; [eapply later_In; eassumption|exact Hc]|].
        exists fl', more, k. split; [exact Ho|]. split; [rewrite Hcat, <- app_assoc; reflexivity|]. split; [exact Hmne|exact Hfull].
    + destruct Hw as (-> & Hxe & Hm & fl' & more & k & Ho & Hcat & Hmne & Hfull). rewrite (write_all_err _ _ _ _ _ _ _ Hxe) in Ea.
      injection Ea as <- <- <- <- <-. split; [exact Hl1|]. split; [reflexivity|]. right.
      exists x, [], b, bs. split; [reflexivity|]. split; [exact Hxe|]. split; [reflexivity|]. split; [exact Hm|].
      exists fl', (more ++ concat bs), k. split; [exact Ho|]. split; [|split; [destruct more; [congruence|discriminate]|exact Hfull]].
      cbn [List.concat]. rewrite !app_assoc, Hcat, <- !app_assoc. reflexivity.
Qed.

Lemma full_stream_chunks n fl c : Forall (fun c => len c = n) fl -> len c <= n -> (fl <> [] -> c <> []) ->
  stream_chunks n (fl ++ [c]) (concat fl ++ c).
Proof.
  intros Hf Hc Hne. destruct fl as [|x fl].
  - destruct c as [|y c]; [right; auto|]. left. cbn. constructor. rewrite len_cons in *. pose proof (len_nonneg c). lia.
  - left. assert (Hpos : c <> []) by (apply Hne; discriminate). apply len_pos in Hpos. clear Hne.
    induction Hf as [|z l Hz Hf IH]; cbn [app List.concat].
    + constructor. lia.
    + rewrite <- app_assoc. constructor; [exact Hz|exact IH].
Qed.

Lemma ew_close_spec C e0 out0 dk base hk e w g s data e' w' g' s' rs : crypto_ok C ->
  sw_ok C e0 out0 dk base hk e w s data -> ew_close C e w g s = (e', w', g', s', rs) ->
  ew_err s' <> None /\
  exists cs, stream_chunks (h_chunk (e_hdr e0)) cs data /\
  let '(tr, g2) := the_trailer C e0 hk (mac_input cs) g in
  match rs with
  | Ok _ => ew_err s' = Some ErrClosed /\ g' = g2 /\ w_out w' = out0 ++ frames C dk base 0 cs ++ tr /\ w_nclosed w' = w_nclosed w + 1
  | Fail x => (exists k, w_out w' = out0 ++ take k (frames C dk base 0 cs ++ tr)) /\
       ((ew_err s' = Some x /\ exists m y, In (m, Some y) (w_sched w) /\ cause x = cause y) \/
        (ew_err s' = Some ErrClosed /\ In (Some x) (w_closes w)))
  | Panic _ => False
  end.
Proof.
  intros HC (fl & Hst & Hne) H. pose proof Hst as []. unfold ew_close in H. rewrite sw_err0 in H.
  destruct (enc_block C e (ew_buf s) w (ew_blk s) true g) as [[[e1 w1] g1] rs1] eqn:Eb.
  assert (Hce : h_chunk (e_hdr e) = h_chunk (e_hdr e0)) by (rewrite sw_enc0; reflexivity).
  assert (Hpt : len (ew_buf s) <= h_chunk (e_hdr e)) by (rewrite Hce; exact sw_buf0).
  pose proof (enc_block_spec C e dk base hk _ _ w _ true g _ _ _ _ HC sw_live0 Hpt Eb) as (Hl1 & Hbk).
  rewrite sw_blk0, frame_u32 in Hbk.
  replace (the_trailer C e) with (the_trailer C e0) in Hbk by (rewrite sw_enc0; reflexivity).
  rewrite <- mac_input_snoc in Hbk.
  assert (Hcs : stream_chunks (h_chunk (e_hdr e0)) (fl ++ [ew_buf s]) data).
  { rewrite sw_data0. apply full_stream_chunks; assumption. }
  assert (Hfr : forall q, (out0 ++ unmarked C dk base 0 fl) ++ frame C dk base (Z.of_nat (length fl)) true (ew_buf s) ++ q
      = out0 ++ frames C dk base 0 (fl ++ [ew_buf s]) ++ q).
  { intros q. rewrite frames_snoc, <- !app_assoc. reflexivity. }
  destruct rs1 as [u|x|]; [| |contradiction].
  - destruct Hbk as (He1 & Hbk). destruct (the_trailer C e0 hk (mac_input (fl ++ [ew_buf s])) g) as [tr g2] eqn:Et.
    destruct Hbk as (-> & Hw1). rewrite sw_out0, Hfr in Hw1.
    destruct (w_close w1) as [[x|] w2] eqn:Ec; injection H as <- <- <- <- <-; (split; [discriminate|]);
      exists (fl ++ [ew_buf s]); (split; [exact Hcs|]); rewrite Et; rewrite (w_close_out _ _ _ Ec).
    + split. { exists (len (frames C dk base 0 (fl ++ [ew_buf s]) ++ tr)). rewrite take_all by lia. exact Hw1. }
      right. split; [reflexivity|]. destruct Hl1 as (_ & Hc1 & _). rewrite <- Hc1.
      unfold w_close in Ec. destruct (w_closes w1); [discriminate|]. injection Ec as -> _. now left.
    + split; [reflexivity|]. split; [reflexivity|]. split; [exact Hw1|].
      destruct Hl1 as (_ & _ & Hc1). rewrite <- Hc1. unfold w_close in Ec. destruct (w_closes w1); injection Ec; intros; subst; reflexivity.
  - injection H as <- <- <- <- <-. split; [discriminate|]. exists (fl ++ [ew_buf s]). split; [exact Hcs|].
    destruct Hbk as ((k & Hk) & Hc). destruct (the_trailer C e0 hk (mac_input (fl ++ [ew_buf s])) g) as [tr g2] eqn:Et.
    cbn [fst] in Hk. split; [|left; split; [reflexivity|exact Hc]].
    destruct (take_app_plus (unmarked C dk base 0 fl) (frame C dk base (Z.of_nat (length fl)) true (ew_buf s) ++ tr) k) as (q & Hq).
    exists q. rewrite frames_snoc, Z.add_0_l, <- app_assoc, <- Hq, Hk, sw_out0, <- app_assoc. reflexivity.
Qed.

(** ** NewStreamWriter *)
Lemma new_stream_writer_spec C sender blk pks e w e' w' rs : crypto_ok C -> good_sender sender -> 0 <= blk ->
  ready C sender blk pks e -> len (pb_header (e_hdr e)) < 2^62 -> new_stream_writer C e w = (e', w', rs) ->
  let h := e_hdr e in let fk := keys_of C h (e_key e) in
  later w w' /\
  match rs with
  | Ok s => exists e0, sw_ok C e0 (w_out w ++ full_header h ++ header_cksum C h) (fk_data fk) (fk_base fk) (fk_mac fk) e' w' s [] /\
      h_chunk (e_hdr e0) = block_size blk /\ e_sender e0 = sender /\ e_stream e' = true /\ e_started e' = true /\ e_hdr e' = h
  | Fail x => (exists k, w_out w' = w_out w ++ take k (full_header h ++ header_cksum C h)) /\
              exists m y, In (m, Some y) (w_sched w) /\ cause x = cause y
  | Panic _ => False
  end.
Proof.
  intros HC Hg Hb Hr Hl H h fk. unfold new_stream_writer in H. rewrite (rd_started _ _ _ _ _ Hr) in H.
  destruct (enc_start C e w) as [[e1 w1] rs1] eqn:Es.
  pose proof (enc_start_spec C e w e1 w1 rs1 HC (ready_small C sender blk pks e HC Hb Hr Hl) Es) as (Hl1 & Hst). fold h fk in Hst.
  destruct rs1 as [u|x|]; [| |contradiction].
  - injection H as <- <- <-. split; [exact Hl1|]. destruct Hst as (He1 & Hw1).
    set (e2 := mkEnc _ _ _ _ _ _ _ _ _ _ _).
    pose proof (ready_live C sender blk pks e HC Hg Hb Hr) as Hlive. cbv zeta in Hlive. fold h fk in Hlive.
    exists e2. split; [|split; [|split; [|split; [|split]]]].
    + exists []. split; [|congruence]. constructor; cbn [ew_err ew_buf ew_blk mac_unmarked List.concat app List.length unmarked]; auto.
      * unfold e2, e_with_hmac. rewrite He1. reflexivity.
      * unfold e2. rewrite He1. destruct Hlive. constructor; cbn; auto.
      * pose proof (lv_chunk _ _ _ _ _ Hlive) as Hc. unfold e2. rewrite He1. cbn in *. change (len (@nil byte)) with 0. lia.
      * rewrite app_nil_r. exact Hw1.
    + unfold e2. rewrite He1. cbn. apply (rd_chunk _ _ _ _ _ Hr).
    + unfold e2. rewrite He1. cbn. apply (rd_snd _ _ _ _ _ Hr).
    + reflexivity.
    + unfold e2. rewrite He1. reflexivity.
    + unfold e2. rewrite He1. reflexivity.
  - injection H as <- <- <-. split; [exact Hl1|]. destruct Hst as (H1 & H2 & _). auto.
Qed.

Lemma stream_chunks_exists n : 1 <= n -> forall s, s <> [] -> exists cs, chunked n (fun k => 0 < k <= n) cs s.
Proof.
  intros Hn s. remember (length s) as k eqn:Hk. revert s Hk.
  induction k as [k IH] using lt_wf_ind. intros s Hk Hs. apply len_pos in Hs.
  destruct (Z.leb_spec (len s) n).
  - exists [s]. constructor. lia.
  - destruct (IH (length (drop n s))) with (s := drop n s) as [cs Hcs]; [|reflexivity| |].
    + pose proof (len_drop n s ltac:(lia)). unfold len in *. lia.
    + apply len_pos. rewrite len_drop by lia. lia.
    + exists (take n s :: cs). rewrite <- (take_drop n s) at 2. constructor; [apply len_take_le; lia|exact Hcs].
Qed.
Lemma frames_app C dk base fl cs : cs <> [] -> forall i,
  frames C dk base i (fl ++ cs) = unmarked C dk base i fl ++ frames C dk base (i + Z.of_nat (length fl)) cs.
Proof.
  intros Hcs. induction fl as [|c fl IH]; intros i; cbn [app unmarked List.length]; [rewrite Z.add_0_r; reflexivity|].
  rewrite frames_cons by (destruct fl; [exact Hcs|discriminate]). rewrite IH, <- app_assoc. do 3 f_equal. lia.
Qed.

(** NewStreamWriter, Writes, Close: what is in the destination *)
Lemma stream_encrypt_spec C sender blk pks e w g e1 w1 s1 bs e2 w2 g2 s2 rs e3 w3 g3 s3 rc :
  crypto_ok C -> good_sender sender -> 0 <= blk -> ready C sender blk pks e -> len (pb_header (e_hdr e)) < 2^62 ->
  new_stream_writer C e w = (e1, w1, Ok s1) -> write_all C e1 w1 g s1 bs = (e2, w2, g2, s2, rs) ->
  ew_close C e2 w2 g2 s2 = (e3, w3, g3, s3, rc) ->
  let h := e_hdr e in let root := e_key e in
  (exists cs tr k, stream_chunks (block_size blk) cs (concat bs) /\ w_out w3 = w_out w ++ take k (sigtool_file C h root cs tr)) /\
  match rc with
  | Ok _ => rs = map (fun b => (len b, Ok tt)) bs /\
      exists cs tr, stream_chunks (block_size blk) cs (concat bs) /\ good_trailer C sender (keys_of C h root) cs tr /\
         w_out w3 = w_out w ++ sigtool_file C h root cs tr
  | Fail x => (exists m y, In (m, Some y) (w_sched w) /\ cause x = cause y) \/ In (Some x) (w_closes w)
  | Panic _ => False
  end.
Proof.
  intros HC Hg Hb Hr Hl Hn Hw Hc h root.
  pose proof (new_stream_writer_spec _ _ _ _ _ _ _ _ _ HC Hg Hb Hr Hl Hn) as (Hl1 & e0 & Hok & Hch & Hs & _). fold h root in Hok.
  set (fk := keys_of C h root) in *.
  assert (Hfile : forall cs tr, sigtool_file C h root cs tr = (full_header h ++ header_cksum C h) ++ frames C (fk_data fk) (fk_base fk) 0 cs ++ tr).
  { intros cs tr. unfold sigtool_file, body. fold fk. rewrite <- !app_assoc. reflexivity. }
  destruct (write_all_spec _ _ _ _ _ _ HC _ _ _ _ _ _ _ _ _ _ _ Hok Hw) as (Hl2 & -> & Hx). cbn [app] in Hx.
  destruct Hx as [(-> & Hok2)|(x & pre & b & post & Hbs & Hxe & Hrs & (m & y & Hm & Hcc) & fl & more & k & Ho & Hcat & Hmne & Hfull)].
  - destruct (ew_close_spec _ _ _ _ _ _ _ _ _ _ _ _ _ _ _ _ HC Hok2 Hc) as (_ & cs & Hcs & Hy). rewrite Hch in Hcs.
    destruct (the_trailer C e0 (fk_mac fk) (mac_input cs) g) as [tr gg] eqn:Et.
    destruct rc as [u|x|]; [| |contradiction].
    + destruct Hy as (_ & -> & Hwo & _).
      assert (Hwo' : w_out w3 = w_out w ++ sigtool_file C h root cs tr) by (rewrite Hwo, Hfile, <- !app_assoc; reflexivity).
      split. { exists cs, tr, (len (sigtool_file C h root cs tr)). split; [exact Hcs|]. rewrite take_all by lia. exact Hwo'. }
      split; [reflexivity|]. exists cs, tr. split; [exact Hcs|]. split; [|exact Hwo'].
      unfold good_trailer. eapply the_trailer_good; [exact HC|exact Hs|exact Et].
    + destruct Hy as ((k & Hk) & Hy). split.
      * destruct (take_app_plus (full_header h ++ header_cksum C h) (frames C (fk_data fk) (fk_base fk) 0 cs ++ tr) k) as (q & Hq).
        exists cs, tr, q. split; [exact Hcs|]. rewrite Hfile, <- Hq, Hk, <- !app_assoc. reflexivity.
      * destruct Hy as [(_ & m & y & Hm & Hcc)|(_ & Hin)].
        -- left. exists m, y. split; [|exact Hcc]. eapply later_In; [exact Hl1|]. eapply later_In; eassumption.
        -- right. destruct Hl1 as (_ & Hc1 & _). destruct Hl2 as (_ & Hc2 & _). congruence.
  - rewrite (ew_close_err _ _ _ _ _ _ Hxe) in Hc. injection Hc as <- <- <- <- <-. split.
    + (* the failed prefix is a prefix of what an undisturbed run would have written *)
      rewrite Hch in Hfull. assert (Hn1 : 1 <= block_size blk) by (pose proof (block_size_range blk Hb); lia).
      destruct (stream_chunks_exists (block_size blk) Hn1 more Hmne) as (cs' & Hcs').
      assert (Hcs'ne : cs' <> []) by (eapply chunked_nonnil; exact Hcs').
      destruct (take_app_plus (full_header h ++ header_cksum C h) (unmarked C (fk_data fk) (fk_base fk) 0 fl) k) as (q & Hq).
      exists (fl ++ cs'), [], (Z.min q (len ((full_header h ++ header_cksum C h) ++ unmarked C (fk_data fk) (fk_base fk) 0 fl))). split.
      { left. rewrite <- Hcat. clear - Hcs' Hfull. induction Hfull; cbn [app List.concat]; [exact Hcs'|].
        rewrite <- app_assoc. constructor; assumption. }
      assert (Hf2 : sigtool_file C h root (fl ++ cs') [] = ((full_header h ++ header_cksum C h) ++ unmarked C (fk_data fk) (fk_base fk) 0 fl)
          ++ frames C (fk_data fk) (fk_base fk) (0 + Z.of_nat (length fl)) cs' ++ []).
      { rewrite Hfile, frames_app by exact Hcs'ne. rewrite <- !app_assoc. reflexivity. }
      rewrite Hf2, take_app_l by lia. rewrite Ho, <- (app_assoc (w_out w)), Hq. f_equal.
      destruct (Z.leb_spec q (len ((full_header h ++ header_cksum C h) ++ unmarked C (fk_data fk) (fk_base fk) 0 fl))).
      * rewrite Z.min_l by lia. reflexivity.
      * rewrite Z.min_r by lia. rewrite (take_all q), (take_all (len _)) by lia. reflexivity.
    + left. exists m, y. split; [|exact Hcc]. eapply later_In; eassumption.
Qed.
