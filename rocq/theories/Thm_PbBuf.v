(** C102: the header's encoder and the buffer it stores into. *)
From Verif Require Import Bytes BytesLemmas GoErr Pb SpecPb PbProofs PbBuf Thm_Pb.
Require Import ZifyBool.
Local Notation length := List.length.
Local Notation concat := List.concat.

Definition panics {A} (r : res A) : Prop := exists p, r = Panic p.

(** ** Proofs *)
(** the step puts [enc] in front of what has been stored, or panics if there is no room *)
Definition puts (step : at_buf -> res at_buf) (enc : bytes) : Prop :=
  forall d i, 0 <= i <= len d ->
  (len enc <= i -> step (d, i) = Ok (take (i - len enc) d ++ enc ++ drop i d, i - len enc)) /\
  (i < len enc -> panics (step (d, i))).
Lemma puts_nil : puts Ok [].
Proof.
  intros d i Hi. change (len (@nil byte)) with 0. split; [|lia]. intros _. rewrite Z.sub_0_r. cbn [app]. rewrite take_drop. reflexivity.
Qed.
Lemma puts_seq s1 s2 e1 e2 : puts s1 e1 -> puts s2 e2 -> puts (fun s => s <- s1 s ;; s2 s) (e2 ++ e1).
Proof.
  intros H1 H2 d i Hi. destruct (H1 d i Hi) as (A & B). rewrite len_app. pose proof (len_nonneg e1) as N1. pose proof (len_nonneg e2) as N2.
  destruct (Z_le_gt_dec (len e1) i) as [L|G]; cycle 1.
  - destruct (B ltac:(lia)) as (p & E). rewrite E. split; [lia|]. intros _. exists p. reflexivity.
  - rewrite (A L). cbn [bind]. set (d' := take (i - len e1) d ++ e1 ++ drop i d).
    assert (Ld : len d' = len d) by (unfold d'; rewrite !len_app, len_take_le, len_drop by lia; lia).
    destruct (H2 d' (i - len e1) ltac:(lia)) as (A2 & B2). split; [intros F|intros F; apply B2; lia].
    rewrite A2 by lia. f_equal. f_equal; [|lia]. unfold d'.
    rewrite take_app_l by (rewrite len_take_le by lia; lia). rewrite take_take by lia.
    rewrite drop_app_eq by (rewrite len_take_le by lia; lia). rewrite <- !app_assoc. f_equal. f_equal. lia.
Qed.
Lemma puts_ext s s' e e' : (forall x, s x = s' x) -> e = e' -> puts s e -> puts s' e'.
Proof. intros H <- P d i Hi. rewrite <- H. exact (P d i Hi). Qed.

Lemma puts_copy x : puts (buf_copy x) x.
Proof.
  intros d i Hi. unfold buf_copy, copy_at. cbn [fst snd]. pose proof (len_nonneg x). destruct (Z.leb_spec 0 (i - len x)) as [L|G]; cbn [andb].
  - destruct (Z.leb_spec (i - len x) (len d)); [|lia]. cbn [bind]. split; [|lia]. intros _. f_equal. f_equal. f_equal.
    rewrite (take_all _ x) by lia. f_equal. f_equal. lia.
  - split; [lia|]. intros _. eexists. reflexivity.
Qed.
Lemma puts_store x : puts (fun s => d <- store (fst s) (snd s - 1) x ;; Ok (d, snd s - 1)) [x].
Proof.
  intros d i Hi. cbn [fst snd]. unfold store. change (len [x]) with 1. destruct (Z.leb_spec 0 (i - 1)) as [L|G]; cbn [andb].
  - destruct (Z.ltb_spec (i - 1) (len d)); [|lia]. cbn [bind]. split; [|lia]. intros _. f_equal. f_equal. f_equal. f_equal. f_equal. lia.
  - split; [lia|]. intros _. eexists. reflexivity.
Qed.
Lemma puts_tag t : puts (buf_tag t) [z2b t].
Proof. exact (puts_store (z2b t)). Qed.

(** the varint's bytes, from its first index on *)
Lemma varint_stores_ok f : forall d off v, 0 <= v < 2 ^ (7 * Z.of_nat f) -> (0 < f)%nat -> 0 <= off ->
  off + len (leb128 f v) <= len d -> varint_stores f d off v = Ok (take off d ++ leb128 f v ++ drop (off + len (leb128 f v)) d).
Proof.
  induction f as [|f IH]; intros d off v Hv Hf Ho Hr; [lia|]. cbn [varint_stores leb128] in *.
  assert (D : (128 <=? v) = negb (v <? 128)) by lia. rewrite D. destruct (Z.ltb_spec v 128) as [L|G]; cbn [negb].
  - change (len [z2b v]) with 1 in *. unfold store. destruct (Z.leb_spec 0 off); [|lia]. destruct (Z.ltb_spec off (len d)); [reflexivity|lia].
  - rewrite len_cons in *. pose proof (len_nonneg (leb128 f (v / 128))) as N. unfold store at 1.
    destruct (Z.leb_spec 0 off); [|lia]. destruct (Z.ltb_spec off (len d)); [|lia]. cbn [andb bind].
    assert (Hz : Z.lor (Z.land v 127) 128 = v mod 128 + 128).
    { rewrite land_127. change 128 with (1 * 2 ^ 7) at 2. rewrite lor_high by (change (2^7) with 128; lia). reflexivity. }
    rewrite Hz. rewrite Z.shiftr_div_pow2 by lia. change (2 ^ 7) with 128.
    assert (Hf' : (0 < f)%nat). { destruct f; [|lia]. change (2 ^ (7 * Z.of_nat 1)) with 128 in Hv. lia. }
    assert (Hp : 2 ^ (7 * Z.of_nat (S f)) = 128 * 2 ^ (7 * Z.of_nat f)) by (rewrite <- (Z.pow_add_r 2 7) by lia; f_equal; lia).
    set (d' := take off d ++ [z2b (v mod 128 + 128)] ++ drop (off + 1) d).
    assert (Ld : len d' = len d) by (unfold d'; rewrite !len_app, len_take_le, len_drop by lia; change (len [z2b (v mod 128 + 128)]) with 1; lia).
    rewrite IH; [|split; [apply Z.div_pos; lia|apply Z.div_lt_upper_bound; lia]|exact Hf'|lia|lia].
    assert (D1 : take (off + 1) d' = take off d ++ [z2b (v mod 128 + 128)]).
    { unfold d'. rewrite (app_assoc (take off d)). apply take_app_eq. rewrite len_app, len_take_le by lia. reflexivity. }
    assert (D2 : drop (off + 1 + len (leb128 f (v / 128))) d' = drop (off + (1 + len (leb128 f (v / 128)))) d).
    { unfold d'. rewrite (app_assoc (take off d)). assert (X : len (take off d ++ [z2b (v mod 128 + 128)]) = off + 1) by (rewrite len_app, len_take_le by lia; reflexivity).
      rewrite drop_app_r by lia. rewrite X, drop_drop by lia. f_equal. lia. }
    rewrite D1, D2, <- app_assoc. reflexivity.
Qed.
Lemma varint_stores_neg f d off v : off < 0 -> panics (varint_stores f d off v).
Proof.
  intros H. destruct f; [eexists; reflexivity|]. cbn [varint_stores]. unfold store.
  destruct (Z.leb_spec 0 off); [lia|]. cbn [andb bind]. destruct (128 <=? v); eexists; reflexivity.
Qed.
Lemma puts_varint v : 0 <= v < 2^64 -> puts (buf_varint v) (varint v).
Proof.
  intros Hv d i Hi. unfold buf_varint. cbn [fst snd]. assert (U : u64 v = v) by (unfold u64; apply Z.mod_small; exact Hv). rewrite U.
  rewrite (size_varint_spec v Hv). pose proof (len_nonneg (varint v)). split; intros L.
  - unfold varint in *. rewrite varint_stores_ok; [|change (2 ^ (7 * Z.of_nat 10)) with (2^70); lia|lia|lia|lia]. cbn [bind].
    f_equal. f_equal. f_equal. f_equal. f_equal. lia.
  - destruct (varint_stores_neg 10 d (i - len (varint v)) v ltac:(lia)) as (p & ->). eexists. reflexivity.
Qed.

Lemma puts_field num x : 0 < num < 16 -> len x < 2^63 -> puts (buf_field (num * 8 + 2) x) (pb_bytes num x).
Proof.
  intros Hn Hx. unfold buf_field. pose proof (len_nonneg x). destruct (Z.ltb_spec 0 (len x)) as [L|G].
  - rewrite len_pb_bytes_pos by (apply len_pos; lia).
    eapply puts_ext; [intros s; reflexivity| |].
    2:{ apply puts_seq; [apply puts_copy|]. apply puts_seq; [apply puts_varint; lia|apply puts_tag]. }
    assert (Hv : varint (num * 8 + 2) = [z2b (num * 8 + 2)]).
    { unfold varint. cbn [leb128]. destruct (Z.ltb_spec (num * 8 + 2) 128); [reflexivity|lia]. }
    rewrite Hv, <- app_assoc. reflexivity.
  - assert (x = []) by (apply len_0_nil; lia). subst x. exact puts_nil.
Qed.
(** a whole message stored into a buffer *)
Definition fills (f : bytes -> res (bytes * Z)) (enc : bytes) : Prop :=
  forall d, (len enc <= len d -> f d = Ok (take (len d - len enc) d ++ enc, len enc)) /\ (len d < len enc -> panics (f d)).
Lemma puts_fills step enc : puts step enc -> fills (fun d => s <- step (d, len d) ;; Ok (fst s, len d - snd s)) enc.
Proof.
  intros P d. pose proof (len_nonneg d). pose proof (len_nonneg enc). destruct (P d (len d) ltac:(lia)) as (A & B). split; intros L.
  - rewrite (A L). cbn [bind fst snd]. rewrite drop_all, app_nil_r by lia. f_equal. f_equal. lia.
  - destruct (B L) as (p & ->). exists p. reflexivity.
Qed.
Lemma bind_assoc {A B C} (r : res A) (f : A -> res B) (g : B -> res C) : bind (bind r f) g = bind r (fun x => bind (f x) g).
Proof. destruct r; reflexivity. Qed.
Lemma fills_ext f f' e : (forall d, f d = f' d) -> fills f e -> fills f' e.
Proof. intros H P d. rewrite <- H. exact (P d). Qed.

Lemma wkey_fills k : len (pb_wkey k) < 2^63 -> fills (wkey_to_sized k) (pb_wkey k).
Proof.
  intros H. destruct (wkey_small _ H) as (H1 & H2 & H3). unfold pb_wkey.
  eapply fills_ext; [|apply (puts_fills (fun s => s <- (fun s => s <- buf_copy (w_unk k) s ;; buf_field 18 (w_nonce k) s) s ;; buf_field 10 (w_dkey k) s))].
  - intros d. unfold wkey_to_sized. rewrite !bind_assoc. reflexivity.
  - apply (puts_seq _ _ (pb_bytes 2 (w_nonce k) ++ w_unk k)); [apply puts_seq; [apply puts_copy|]|].
    + apply (puts_field 2); [lia|exact H2].
    + apply (puts_field 1); [lia|exact H1].
Qed.
Lemma puts_key k : len (pb_wkey k) < 2^63 ->
  puts (fun s => front <- slice (fst s) 0 (snd s) ;; '(front, size) <- wkey_to_sized k front ;; Ok (front ++ drop (snd s) (fst s), snd s - size)) (pb_wkey k).
Proof.
  intros H d i Hi. cbn [fst snd]. unfold slice. destruct (Z.leb_spec 0 i); [|lia]. destruct (Z.leb_spec i (len d)); [|lia]. cbn [andb].
  change (0 <=? 0) with true. cbn [andb bind]. rewrite Z.sub_0_r, drop_0. destruct (wkey_fills k H (take i d)) as (A & B). rewrite len_take_le in A, B by lia. split; intros L.
  - rewrite (A L). cbn [bind]. rewrite take_take by (pose proof (len_nonneg (pb_wkey k)); lia). rewrite <- app_assoc. reflexivity.
  - destruct (B L) as (p & ->). exists p. reflexivity.
Qed.
Lemma wkey_sized_len k d d' n : wkey_to_sized k d = Ok (d', n) -> len (pb_wkey k) < 2^63 -> n = len (pb_wkey k).
Proof.
  intros E H. destruct (wkey_fills k H d) as (A & B). destruct (Z_le_gt_dec (len (pb_wkey k)) (len d)) as [L|G].
  - rewrite (A L) in E. injection E as _ <-. reflexivity.
  - destruct (B ltac:(lia)) as (p & X). rewrite X in E. discriminate E.
Qed.
Lemma puts_keys ks : keys_small ks -> puts (buf_keys (rev ks)) (pb_keys ks).
Proof.
  unfold keys_small, pb_keys. induction 1 as [|k ks Hk H IH]; cbn [rev map List.concat]; [exact puts_nil|].
  assert (APP : forall a b s, buf_keys (a ++ b) s = bind (buf_keys a s) (buf_keys b)).
  { clear. induction a as [|k a IH]; intros b s; cbn [app buf_keys]; [reflexivity|].
    rewrite bind_assoc. destruct (slice (fst s) 0 (snd s)); cbn [bind]; [|reflexivity..]. destruct (wkey_to_sized k _) as [[fr n]|e|p]; cbn [bind]; [|reflexivity..].
    rewrite !bind_assoc. destruct (buf_varint n _); cbn [bind]; [|reflexivity..]. rewrite !bind_assoc. destruct (buf_tag 42 _); cbn [bind]; [|reflexivity..]. apply IH. }
  eapply puts_ext; [intros s; symmetry; apply APP|reflexivity|].
  apply (puts_seq _ (buf_keys [k]) _ (pb_msg 5 (pb_wkey k)) IH). clear IH APP.
  unfold pb_msg. pose proof (len_nonneg (pb_wkey k)).
  eapply puts_ext; [| |apply puts_seq; [apply (puts_key k Hk)|apply (puts_seq (buf_varint (len (pb_wkey k))) (buf_tag 42)); [apply puts_varint; lia|apply puts_tag]]].
  - intros s. cbn [buf_keys]. rewrite !bind_assoc. destruct (slice (fst s) 0 (snd s)) as [fr|e|p]; cbn [bind]; [|reflexivity..].
    destruct (wkey_to_sized k fr) as [[fr' n]|e|p] eqn:E; cbn [bind]; [|reflexivity..]. rewrite (wkey_sized_len _ _ _ _ E Hk).
    destruct (buf_varint _ _); cbn [bind]; [|reflexivity..]. destruct (buf_tag 42 _); reflexivity.
  - change (varint (5 * 8 + 2)) with [z2b 42]. rewrite <- app_assoc. reflexivity.
Qed.

Lemma header_fills h : pb_small h -> fills (header_to_sized h) (pb_header h).
Proof.
  intros Hs. destruct (pb_small_parts _ Hs) as (H1 & H2 & H3 & H4 & H5 & _). destruct Hs as [Hc _].
  eapply fills_ext; [|apply (puts_fills (fun s => s <- (fun s => s <- (fun s => s <- (fun s => s <- (fun s => s <- buf_copy (h_unk h) s ;; buf_keys (rev (h_keys h)) s) s ;;
    buf_field 34 (h_sender h) s) s ;; buf_field 26 (h_pk h) s) s ;; buf_field 18 (h_salt h) s) s ;;
    (if h_chunk h =? 0 then Ok s else s <- buf_varint (h_chunk h) s ;; buf_tag 8 s)))].
  - intros d. unfold header_to_sized. rewrite !bind_assoc. destruct (buf_copy _ _); cbn [bind]; [|reflexivity..]. destruct (buf_keys _ _); cbn [bind]; [|reflexivity..].
    destruct (buf_field 34 _ _); cbn [bind]; [|reflexivity..]. destruct (buf_field 26 _ _); cbn [bind]; [|reflexivity..]. destruct (buf_field 18 _ _); reflexivity.
  - unfold pb_header. fold (pb_keys (h_keys h)).
    apply (puts_seq _ _ (pb_bytes 2 (h_salt h) ++ pb_bytes 3 (h_pk h) ++ pb_bytes 4 (h_sender h) ++ pb_keys (h_keys h) ++ h_unk h)).
    2:{ unfold pb_uint. destruct (Z.eqb_spec (h_chunk h) 0); [exact puts_nil|].
        apply (puts_seq _ _ (varint (h_chunk h)) (varint (1 * 8))); [apply puts_varint; lia|apply (puts_tag 8)]. }
    apply (puts_seq _ _ (pb_bytes 3 (h_pk h) ++ pb_bytes 4 (h_sender h) ++ pb_keys (h_keys h) ++ h_unk h)); [|apply (puts_field 2); lia].
    apply (puts_seq _ _ (pb_bytes 4 (h_sender h) ++ pb_keys (h_keys h) ++ h_unk h)); [|apply (puts_field 3); lia].
    apply (puts_seq _ _ (pb_keys (h_keys h) ++ h_unk h)); [|apply (puts_field 4); lia].
    apply puts_seq; [apply puts_copy|apply puts_keys; exact H4].
Qed.
Lemma fills_to f enc n d : fills f enc -> n = len enc -> 
  (n <= len d -> (front <- slice d 0 n ;; '(front, k) <- f front ;; Ok (front ++ drop n d, k)) = Ok (enc ++ drop n d, n)) /\
  (len d < n -> panics (front <- slice d 0 n ;; '(front, k) <- f front ;; Ok (front ++ drop n d, k))).
Proof.
  intros F ->. pose proof (len_nonneg enc). unfold slice. destruct (Z.leb_spec 0 (len enc)); [|lia]. change (0 <=? 0) with true. cbn [andb]. split; intros L.
  - destruct (Z.leb_spec (len enc) (len d)); [|lia]. cbn [bind]. rewrite Z.sub_0_r, drop_0. destruct (F (take (len enc) d)) as (A & _). rewrite len_take_le in A by lia.
    rewrite A by lia. cbn [bind]. rewrite Z.sub_diag, take_0. reflexivity.
  - destruct (Z.leb_spec (len enc) (len d)); [lia|]. eexists. reflexivity.
Qed.
Lemma fills_new f enc n : fills f enc -> n = len enc -> ('(d, k) <- f (zeros n) ;; slice d 0 k) = Ok enc.
Proof.
  intros F ->. pose proof (len_nonneg enc). destruct (F (zeros (len enc))) as (A & _). rewrite len_zeros in A by lia. rewrite A by lia. cbn [bind].
  rewrite Z.sub_diag, take_0. cbn [app]. unfold slice. destruct (Z.leb_spec 0 (len enc)); [|lia]. rewrite Z.leb_refl. change (0 <=? 0) with true. cbn [andb].
  rewrite Z.sub_0_r, drop_0, take_all by lia. rewrite ?Z.leb_refl. reflexivity.
Qed.

(** ** C102: whatever the caller's buffer holds and however long it is: a header stored at the end of it (MarshalToSizedBufferVT) takes exactly the
    bytes of its encoding and leaves the others as they were; stored at the beginning of it (MarshalTo) likewise; the number returned is the
    number of these bytes; a buffer that is too short makes the call panic; and a new buffer of the computed size (MarshalVT) is filled
    completely *)
Theorem C102_header_buffer :
  forall h d, pb_small h -> let enc := pb_header h in
  (forall front back, d = front ++ back -> len back = len enc -> header_to_sized h d = Ok (front ++ enc, len enc)) /\
  (forall front back, d = front ++ back -> len front = len enc -> header_to h d = Ok (enc ++ back, len enc)) /\
  (len d < len enc -> panics (header_to_sized h d) /\ panics (header_to h d)) /\
  header_marshal h = Ok enc.
Proof.
  intros h d Hs enc. pose proof (header_fills h Hs) as F. fold enc in F. pose proof (size_header_spec h Hs) as S. fold enc in S. repeat split.
  - intros front back -> L. destruct (F (front ++ back)) as (A & _). pose proof (len_nonneg front). rewrite len_app in A. rewrite A by lia.
    rewrite take_app_eq by lia. reflexivity.
  - intros front back -> L. destruct (fills_to _ _ _ (front ++ back) F S) as (A & _). unfold header_to. pose proof (len_nonneg back). rewrite len_app in A. rewrite A by lia.
    rewrite drop_app_eq by lia. rewrite S. reflexivity.
  - apply F. exact H.
  - destruct (fills_to _ _ _ d F S) as (_ & B). unfold header_to. apply B. lia.
  - unfold header_marshal. apply fills_new; assumption.
Qed.
Print Assumptions C102_header_buffer.
(** and so it is for the wrapped keys *)
Theorem C102_key_buffer :
  forall k d, let enc := pb_wkey k in len enc < 2^63 ->
  (forall front back, d = front ++ back -> len back = len enc -> wkey_to_sized k d = Ok (front ++ enc, len enc)) /\
  (forall front back, d = front ++ back -> len front = len enc -> wkey_to k d = Ok (enc ++ back, len enc)) /\
  (len d < len enc -> panics (wkey_to_sized k d) /\ panics (wkey_to k d)) /\
  wkey_marshal k = Ok enc.
Proof.
  intros k d enc Hs. pose proof (wkey_fills k Hs) as F. fold enc in F. destruct (wkey_small _ Hs) as (H1 & H2 & _).
  assert (S : size_wkey k = len enc) by (symmetry; apply len_pb_wkey; assumption). repeat split.
  - intros front back -> L. destruct (F (front ++ back)) as (A & _). pose proof (len_nonneg front). rewrite len_app in A. rewrite A by lia.
    rewrite take_app_eq by lia. reflexivity.
  - intros front back -> L. destruct (fills_to _ _ _ (front ++ back) F S) as (A & _). unfold wkey_to. pose proof (len_nonneg back). rewrite len_app in A. rewrite A by lia.
    rewrite drop_app_eq by lia. rewrite S. reflexivity.
  - apply F. exact H.
  - destruct (fills_to _ _ _ d F S) as (_ & B). unfold wkey_to. apply B. lia.
  - unfold wkey_marshal. apply fills_new; assumption.
Qed.
Print Assumptions C102_key_buffer.
(** what the encryptor's header is made with (Pb.v: marshal_to, whose buffer is new) is this *)
Theorem C102_as_used :
  forall h size, pb_small h -> size_header h <= size -> marshal_to h size = (r <- header_to h (zeros size) ;; Ok (fst r)).
Proof.
  intros h size Hs L. pose proof (size_header_spec h Hs) as S. pose proof (len_nonneg (pb_header h)).
  destruct (fills_to _ _ _ (zeros size) (header_fills h Hs) S) as (A & _). unfold header_to. rewrite len_zeros in A by lia. rewrite A by lia. cbn [bind fst].
  unfold marshal_to. rewrite marshal_fields_spec, S by assumption. destruct (Z.leb_spec (len (pb_header h)) size); [|lia]. rewrite Z.leb_refl, Z.sub_diag. cbn [Z.to_nat zeros repeat app].
  f_equal. f_equal. unfold zeros. replace (Z.to_nat size) with (Z.to_nat (len (pb_header h)) + Z.to_nat (size - len (pb_header h)))%nat by lia.
  rewrite repeat_app, drop_app_eq; [reflexivity|rewrite len_repeat; lia].
Qed.
Print Assumptions C102_as_used.

(** the header of C25's example (324 bytes) at the end and at the beginning of a buffer of 330 bytes, and in one which is too short *)
Example C102_instance :
  let h := pb_example in let d := repeat x55 330 in
  pb_small h /\ header_to_sized h d = Ok (repeat x55 6 ++ pb_header h, 324) /\ header_to h d = Ok (pb_header h ++ repeat x55 6, 324) /\
  header_to_sized h (take 323 d) = Panic "index out of range".
Proof. split; [exact (proj1 C25_instance)|]. vm_compute. auto. Qed.
