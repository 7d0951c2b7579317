(** Calls on an Encryptor depend on the random source only through the bytes they draw. *)
From Verif Require Import Bytes BytesLemmas GoErr GoIO Pb Crypto Keys Sign Encrypt Decrypt Stream SpecCalls.
Local Notation length := List.length.

Definition adv (g : rng) (n : Z) : rng := mkRng (tape g) (pos g + n).
Definition agree (g h : rng) (n : Z) : Prop := forall k, 0 <= k < n -> tape h (pos h + k) = tape g (pos g + k).
Definition local {A} (F : rng -> A * rng) : Prop :=
  forall g, exists n a, 0 <= n /\ F g = (a, adv g n) /\ forall h, agree g h n -> F h = (a, adv h n).

Lemma adv_0 g : adv g 0 = g.
Proof. destruct g. unfold adv. cbn. rewrite Z.add_0_r. reflexivity. Qed.
Lemma adv_adv g a b : adv (adv g a) b = adv g (a + b).
Proof. unfold adv. cbn. rewrite Z.add_assoc. reflexivity. Qed.
Lemma agree_adv g h a b : 0 <= a -> agree g h (a + b) -> agree (adv g a) (adv h a) b.
Proof. intros Ha H k Hk. unfold adv. cbn. rewrite <- !Z.add_assoc. apply H. lia. Qed.
Lemma agree_le g h a b : a <= b -> agree g h b -> agree g h a.
Proof. intros Ha H k Hk. apply H. lia. Qed.

Lemma local_ret {A} (a : A) : local (fun g => (a, g)).
Proof. intros g. exists 0, a. split; [lia|]. rewrite adv_0. split; [reflexivity|]. intros h _. rewrite adv_0. reflexivity. Qed.
Lemma local_ext {A} (F F' : rng -> A * rng) : (forall g, F g = F' g) -> local F -> local F'.
Proof. intros HE H g. destruct (H g) as (n & a & Hn & H1 & H2). exists n, a. rewrite <- HE. split; [exact Hn|]. split; [exact H1|]. intros h Hh. rewrite <- HE. auto. Qed.
Lemma local_bind {A B} (F : rng -> A * rng) (K : A -> rng -> B * rng) : local F -> (forall a, local (K a)) ->
  local (fun g => let '(a, g') := F g in K a g').
Proof.
  intros HF HK g. destruct (HF g) as (n & a & Hn & H1 & H2). destruct (HK a (adv g n)) as (m & b & Hm & H3 & H4).
  exists (n + m), b. split; [lia|]. rewrite H1, H3, adv_adv. split; [reflexivity|].
  intros h Hh. rewrite (H2 h), (H4 (adv h n)), adv_adv; [reflexivity| |].
  - apply agree_adv; [exact Hn|exact Hh].
  - eapply agree_le; [|exact Hh]. lia.
Qed.
Lemma rng_bytes_agree t u n : forall p q, (forall k, 0 <= k < Z.of_nat n -> u (q + k) = t (p + k)) -> rng_bytes u q n = rng_bytes t p n.
Proof.
  induction n as [|n IH]; intros p q H; [reflexivity|]. cbn [rng_bytes]. f_equal.
  - specialize (H 0 ltac:(lia)). rewrite !Z.add_0_r in H. exact H.
  - apply IH. intros k Hk. rewrite <- !Z.add_assoc. apply H. lia.
Qed.
Lemma local_rand n : local (rand_buf n).
Proof.
  intros g. exists (Z.max 0 n), (rng_bytes (tape g) (pos g) (Z.to_nat n)). split; [lia|]. split; [reflexivity|].
  intros h Hh. unfold rand_buf. f_equal. apply rng_bytes_agree. intros k Hk. apply Hh. lia.
Qed.
Lemma local_map {A B} (F : rng -> A * rng) (f : A -> B) : local F -> local (fun g => let '(a, g') := F g in (f a, g')).
Proof. intros H. apply (local_bind F (fun a g => (f a, g))); [exact H|]. intros a. apply local_ret. Qed.

Lemma local_new_encryptor C sk blk : local (new_encryptor C sk blk).
Proof.
  unfold new_encryptor, new_sender. cbv zeta.
  refine (local_ext (fun g => let '(r, g) := rand_buf 32 g in let '(key, g) := rand_buf aes_key_size g in let '(salt, g) := rand_buf salt_size g in
    (match add_sender_sig C sk (x25519 C (clamp r) basepoint) salt key with
     | Ok (snd_, auth) => Ok (mkEnc (mkHeader (block_size blk) salt (x25519 C (clamp r) basepoint) snd_ [] []) key [] 0 None None (clamp r) sk auth false false)
     | Fail e => Fail (EWrap "encrypt" e)
     | Panic w => Panic w
     end, g)) _ _ _).
  { intros g. reflexivity. }
  apply local_bind; [apply local_rand|]. intros r. apply local_bind; [apply local_rand|]. intros key. apply local_bind; [apply local_rand|]. intros salt.
  apply local_ret.
Qed.
Lemma local_wrap_key C e pk : local (wrap_key C e pk).
Proof.
  unfold wrap_key. destruct (to_curve_pk pk) as [[rx pk']|x|x]; try apply local_ret.
  destruct (X25519 C (e_encSK e) rx) as [sekrit|x|x]; try apply local_ret.
  apply local_bind; [apply local_rand|]. intros r. apply local_ret.
Qed.
Lemma local_add C e pk : local (fun g => let '(e', pk', g', r) := add_recipient C e pk g in ((e', pk', r), g')).
Proof.
  unfold add_recipient. destruct (e_started e); [apply local_ret|].
  refine (local_ext (fun g => let '(x, g') := wrap_key C e pk g in
    (match x with
     | Ok (w, pk') => (e_with_hdr e (h_add_key (e_hdr e) w), pk', Ok tt)
     | Fail y => (e, match to_curve_pk pk with Ok (_, pk') => pk' | _ => pk end, Fail y)
     | Panic p => (e, pk, Panic p)
     end, g')) _ _ _).
  { intros g. destruct (wrap_key C e pk g) as [[[w pk']|x|x] g']; reflexivity. }
  apply (local_map _ (fun x => match x with Ok (w, pk') => _ | Fail y => _ | Panic p => _ end)). apply local_wrap_key.
Qed.
Lemma local_trailer C e w : local (fun g => let '(w', g', r) := write_trailer C e w g in ((w', r), g')).
Proof.
  unfold write_trailer. destruct (e_auth e).
  - destruct (match e_hmac e, e_sender e with Some (k, d), Some sk => _ | _, _ => _ end) as [tr|x|x]; try apply local_ret.
    destruct (fullwrite tr w) as [[x|] w']; apply local_ret.
  - refine (local_ext (fun g => let '(r, g') := rand_buf sig_size g in
      (match fullwrite r w with (Some x, w') => (w', Fail (EWrap "encrypt: trailer" x)) | (None, w') => (w', Ok tt) end, g')) _ _ _).
    { intros g. destruct (rand_buf sig_size g) as [r g']. destruct (fullwrite r w) as [[x|] w']; reflexivity. }
    apply (local_map _ (fun r => match fullwrite r w with (Some x, w') => _ | (None, w') => _ end)). apply local_rand.
Qed.
Lemma local_block C e pt w i eof : local (fun g => let '(e', w', g', r) := enc_block C e pt w i eof g in ((e', w', r), g')).
Proof.
  unfold enc_block. cbv zeta. destruct (e_ae e) as [k|]; [|apply local_ret]. destruct (e_hmac e) as [[hk hd]|]; [|apply local_ret].
  destruct (e_buflen e <? _); [apply local_ret|]. destruct (fullwrite _ w) as [[x|] w']; [apply local_ret|].
  destruct eof; [|apply local_ret].
  set (e' := mkEnc _ _ _ _ _ _ _ _ _ _ _).
  refine (local_ext (fun g => let '(wr, g') := (let '(w'', g', r) := write_trailer C e' w' g in ((w'', r), g')) in ((e', fst wr, snd wr), g')) _ _ _).
  { intros g. destruct (write_trailer C e' w' g) as [[w'' g'] r]. reflexivity. }
  apply (local_map _ (fun wr => (e', fst wr, snd wr))). apply local_trailer.
Qed.
Lemma local_loop C fuel : forall e r w i, local (fun g => let '(e', r', w', g', rs) := enc_loop C fuel e r w i g in ((e', r', w', rs), g')).
Proof.
  induction fuel as [|f IH]; intros e r w i; [apply local_ret|]. cbn [enc_loop].
  destruct (read_full r (h_chunk (e_hdr e))) as [[b err] r1].
  set (eof := match err with None => Ok false | Some IoEOF | Some ErrClosedPipe | Some ErrUnexpectedEOF => Ok true | Some _ => Fail _ end).
  destruct eof as [eof'|x|x]; [|apply local_ret|apply local_ret].
  refine (local_ext (fun g => let '(a, g') := (let '(e', w', g', rs) := enc_block C e b w i eof' g in ((e', w', rs), g')) in
     let '(e', w', rs) := a in
     match rs with
     | Ok _ => if eof' then ((e', r1, w', Ok tt), g') else (let '(e'', r'', w'', g'', rs) := enc_loop C f e' r1 w' (u32 (i + 1)) g' in ((e'', r'', w'', rs), g''))
     | x => ((e', r1, w', x), g')
     end) _ _ _).
  { intros g. destruct (enc_block C e b w i eof' g) as [[[e' w'] g'] [[]|x|x]]; try reflexivity. destruct eof'; reflexivity. }
  apply (local_bind _ (fun a g' => let '(e', w', rs) := a in
     match rs with
     | Ok _ => if eof' then ((e', r1, w', Ok tt), g') else (let '(e'', r'', w'', g'', rs) := enc_loop C f e' r1 w' (u32 (i + 1)) g' in ((e'', r'', w'', rs), g''))
     | x => ((e', r1, w', x), g')
     end)); [apply local_block|].
  intros [[e' w'] [[]|x|x]]; try apply local_ret. destruct eof'; [apply local_ret|apply IH].
Qed.
Lemma local_encrypt C e r w : local (fun g => let '(e', r', w', g', rs) := encrypt C e r w g in ((e', r', w', rs), g')).
Proof.
  unfold encrypt. destruct (e_stream e); [apply local_ret|].
  destruct (if e_started e then (e, w, Ok tt) else enc_start C e w) as [[e1 w1] [[]|x|x]]; try apply local_ret.
  refine (local_ext (fun g => let '(a, g') := (let '(e', r', w', g', rs) := enc_loop C (S (rd_size r)) e1 r w1 0 g in ((e', r', w', rs), g')) in
     (let '(e', r', w', rs) := a in
      match rs with
      | Ok _ => match w_close w' with (None, w2) => (e', r', w2, Ok tt) | (Some x, w2) => (e', r', w2, Fail x) end
      | x => (e', r', w', x)
      end, g')) _ _ _).
  { intros g. destruct (enc_loop C (S (rd_size r)) e1 r w1 0 g) as [[[[e' r'] w'] g'] [[]|x|x]]; try reflexivity.
    destruct (w_close w') as [[x|] w2]; reflexivity. }
  apply (local_map _ (fun a => let '(e', r', w', rs) := a in _)). apply local_loop.
Qed.
Lemma local_ew_loop C fuel : forall e w s b, local (fun g => let '(e', w', g', s', rs) := ew_loop C fuel e w g s b in ((e', w', s', rs), g')).
Proof.
  induction fuel as [|f IH]; intros e w s b; (destruct b as [|b0 b]; [apply local_ret|]); [apply local_ret|]. cbn [ew_loop].
  set (z := Z.min _ _). set (buf := ew_buf s ++ take z (b0 :: b)). set (b' := drop z (b0 :: b)).
  destruct ((len buf =? h_chunk (e_hdr e)) && (0 <? len b')).
  - refine (local_ext (fun g => let '(a, g') := (let '(e', w', g', rs) := enc_block C e buf w (ew_blk s) false g in ((e', w', rs), g')) in
       let '(e', w', rs) := a in
       match rs with
       | Ok _ => let '(e'', w'', g'', s'', rs) := ew_loop C f e' w' g' (mkEw [] (u32 (ew_blk s + 1)) (ew_err s)) b' in ((e'', w'', s'', rs), g'')
       | Fail x => ((e', w', mkEw buf (ew_blk s) (Some x), Fail x), g')
       | Panic p => ((e', w', mkEw buf (ew_blk s) (ew_err s), Panic p), g')
       end) _ _ _).
    { intros g. destruct (enc_block C e buf w (ew_blk s) false g) as [[[e' w'] g'] [[]|x|x]]; reflexivity. }
    apply (local_bind _ (fun a g' => let '(e', w', rs) := a in
       match rs with
       | Ok _ => let '(e'', w'', g'', s'', rs) := ew_loop C f e' w' g' (mkEw [] (u32 (ew_blk s + 1)) (ew_err s)) b' in ((e'', w'', s'', rs), g'')
       | Fail x => ((e', w', mkEw buf (ew_blk s) (Some x), Fail x), g')
       | Panic p => ((e', w', mkEw buf (ew_blk s) (ew_err s), Panic p), g')
       end)); [apply local_block|].
    intros [[e' w'] [[]|x|x]]; try apply local_ret. apply IH.
  - apply IH.
Qed.
Lemma local_write C e w s b : local (fun g => let '(e', w', g', s', (n, rs)) := ew_write C e w g s b in ((e', w', s', rs), g')).
Proof.
  unfold ew_write. destruct (ew_err s); [apply local_ret|]. destruct (len b =? 0); [apply local_ret|].
  refine (local_ext (fun g => let '(e', w', g', s', rs) := ew_loop C (2 * length b + 2) e w g s b in ((e', w', s', rs), g')) _ _ _).
  { intros g. destruct (ew_loop C (2 * length b + 2) e w g s b) as [[[[e' w'] g'] s'] rs]. reflexivity. }
  apply local_ew_loop.
Qed.
Lemma local_close C e w s : local (fun g => let '(e', w', g', s', rs) := ew_close C e w g s in ((e', w', s', rs), g')).
Proof.
  unfold ew_close. destruct (ew_err s); [apply local_ret|].
  refine (local_ext (fun g => let '(a, g') := (let '(e', w', g', rs) := enc_block C e (ew_buf s) w (ew_blk s) true g in ((e', w', rs), g')) in
     (let '(e', w', rs) := a in
      match rs with
      | Ok _ => match w_close w' with
                | (None, w2) => (e', w2, mkEw [] (ew_blk s) (Some ErrClosed), Ok tt)
                | (Some x, w2) => (e', w2, mkEw [] (ew_blk s) (Some ErrClosed), Fail x)
                end
      | Fail x => (e', w', mkEw (ew_buf s) (ew_blk s) (Some x), Fail x)
      | Panic p => (e', w', s, Panic p)
      end, g')) _ _ _).
  { intros g. destruct (enc_block C e (ew_buf s) w (ew_blk s) true g) as [[[e' w'] g'] [[]|x|x]]; try reflexivity.
    destruct (w_close w') as [[x|] w2]; reflexivity. }
  apply (local_map _ (fun a => let '(e', w', rs) := a in _)). apply local_block.
Qed.

(** one call on an Encryptor *)
Lemma local_step C e ss c : local (fun g => let '(st, r) := estep C (mkEobj e g ss) c in ((es_enc st, es_streams st, r), es_rng st)).
Proof.
  destruct c as [pk|rd wr|wr|i b|i]; cbn [estep es_enc es_rng es_streams].
  - refine (local_ext (fun g => let '(a, g') := (let '(e', pk', g', r) := add_recipient C e pk g in ((e', pk', r), g')) in
      (let '(e', _, r) := a in (e', ss, ERet r None), g')) _ _ _).
    { intros g. destruct (add_recipient C e pk g) as [[[e' pk'] g'] r]. reflexivity. }
    apply (local_map _ (fun a => let '(e', _, r) := a in _)). apply local_add.
  - refine (local_ext (fun g => let '(a, g') := (let '(e', r', w', g', rs) := encrypt C e rd wr g in ((e', r', w', rs), g')) in
      (let '(e', _, w', r) := a in (e', ss, ERet r (Some w')), g')) _ _ _).
    { intros g. destruct (encrypt C e rd wr g) as [[[[e' r'] w'] g'] rs]. reflexivity. }
    apply (local_map _ (fun a => let '(e', _, w', r) := a in _)). apply local_encrypt.
  - destruct (new_stream_writer C e wr) as [[e' wr'] [s|x|x]]; cbn [es_enc es_rng es_streams]; apply local_ret.
  - destruct (nth_error ss i) as [[s wr]|]; [|cbn [es_enc es_rng es_streams]; apply local_ret].
    refine (local_ext (fun g => let '(a, g') := (let '(e', w', g', s', (n, rs)) := ew_write C e wr g s b in ((e', w', s', rs), g')) in
      (let '(e', w', s', r) := a in (e', set_nth ss i (s', w'), ERet r None), g')) _ _ _).
    { intros g. destruct (ew_write C e wr g s b) as [[[[e' w'] g'] s'] [n r]]. reflexivity. }
    apply (local_map _ (fun a => let '(e', w', s', r) := a in _)). apply local_write.
  - destruct (nth_error ss i) as [[s wr]|]; [|cbn [es_enc es_rng es_streams]; apply local_ret].
    refine (local_ext (fun g => let '(a, g') := (let '(e', w', g', s', rs) := ew_close C e wr g s in ((e', w', s', rs), g')) in
      (let '(e', w', s', r) := a in (e', set_nth ss i (s', w'), ERet r None), g')) _ _ _).
    { intros g. destruct (ew_close C e wr g s) as [[[[e' w'] g'] s'] r]. reflexivity. }
    apply (local_map _ (fun a => let '(e', w', s', r) := a in _)). apply local_close.
Qed.
