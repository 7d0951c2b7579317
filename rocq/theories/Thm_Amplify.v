(** C86: nothing comes out that did not go in: no decompression-like amplification, in any history. *)
From Verif Require Import Bytes BytesLemmas GoErr GoIO SpecIO IOProofs Pb SpecPb PbProofs Crypto CryptoLaws Keys Sign
  Encrypt Decrypt Stream Spec SpecStream EncryptProofs DecryptProofs AcceptProofs OpenProofs RoundTrip StreamProofs StreamRead Hostile
  Support Toy Scene SpecCalls Thm_Encrypt Thm_Session Thm_Calls.
Require Import ZifyBool.
Ltac Zify.zify_post_hook ::= Z.div_mod_to_equations.
Local Notation length := List.length.
Local Notation concat := List.concat.

(** every byte the source can ever hand out *)
Definition supply (rd : reader) : Z := len (concat (map fst rd)).
(** bytes a call on a Decryptor gave out: what Decrypt added to its destination, what a Read returned *)
Definition given (c : dcall) (r : dret) : Z :=
  match c, r with
  | DDecrypt wr, DRet _ (Some wr') _ => len (w_out wr') - len (w_out wr)
  | DRead _ _, DRet _ _ b => len b
  | _, _ => 0
  end.
Fixpoint total_given (cs : list dcall) (rs : list dret) : Z :=
  match cs, rs with c :: cs', r :: rs' => given c r + total_given cs' rs' | _, _ => 0 end.

Lemma supply_size rd : supply rd = Z.of_nat (rd_size rd).
Proof. unfold supply. induction rd as [|[b e] rd IH]; [reflexivity|]. cbn [map fst concat rd_size]. rewrite len_app, IH. unfold len. lia. Qed.
Local Notation left d := (Z.of_nat (rd_size (d_rd d))).

Lemma process_trailer_left C d m d' rs : process_trailer C d m = (d', rs) ->
  left d' <= left d /\ match rs with Ok (q, _) => q = m | _ => True end.
Proof.
  unfold process_trailer. change sig_size with 64. destruct (read_full (d_rd d) 64) as [[b e] r] eqn:E.
  pose proof (read_full_any _ _ _ _ _ E ltac:(lia)) as (_ & _ & Hs). pose proof (len_nonneg b). cbv zeta.
  destruct e; [intros H1; injection H1 as <- <-; cbn; split; [lia|exact I]|].
  destruct (negb _); [intros H1; injection H1 as <- <-; cbn; split; [lia|reflexivity]|]. cbn [d_hmac d_with d_sender].
  destruct (d_hmac d) as [[k hd]|]; [|intros H1; injection H1 as <- <-; cbn; split; [lia|exact I]].
  destruct (d_sender d); [|intros H1; injection H1 as <- <-; cbn; split; [lia|exact I]].
  destruct (verify_message _ _ _ _) as [[]|x|x]; intros H1; injection H1 as <- <-; cbn; (split; [lia|]); exact I || reflexivity.
Qed.
(** a chunk of m bytes costs m + 20 bytes of source (4 if it is empty) *)
Lemma dec_chunk_left C d i d' rs : dec_chunk C d i = (d', rs) ->
  left d' <= left d /\ match rs with Ok (m, _) => 0 <= m /\ m + 4 + (if m =? 0 then 0 else 16) <= left d - left d' | _ => True end.
Proof.
  unfold dec_chunk. destruct (d_ae d) as [k|]; [|intros H; injection H as <- <-; split; [lia|exact I]].
  destruct (read_full (d_rd d) 4) as [[b e1] r1] eqn:E1. pose proof (read_full_any _ _ _ _ _ E1 ltac:(lia)) as (N1 & L1 & S1). pose proof (len_nonneg b). cbv zeta.
  destruct ((match e1 with Some _ => true | None => false end) || (len b =? 0)) eqn:Eb; [intros H1; injection H1 as <- <-; cbn; split; [lia|exact I]|].
  destruct e1 as [x|]; [discriminate Eb|]. specialize (N1 eq_refl).
  pose proof (unbe32_range b) as Hbr. rewrite land_low. set (m := unbe32 b mod 2^31) in *.
  assert (Hm : 0 <= m < 2^31) by (apply Z.mod_pos_bound; lia).
  destruct (h_chunk (d_hdr d) <? m); [intros H1; injection H1 as <- <-; cbn; split; [lia|exact I]|].
  destruct (Z.eqb_spec m 0) as [Em|Em].
  { destruct (negb _); intros H1; injection H1 as <- <-; cbn; (split; [lia|]); [exact I|lia]. }
  assert (Hz : u32 (m + gcm_overhead) = m + 16) by (unfold u32, gcm_overhead; apply Z.mod_small; lia). rewrite Hz.
  destruct (_ <? _); [intros H1; injection H1 as <- <-; cbn; split; [lia|exact I]|].
  destruct (read_full r1 (m + 16)) as [[c e2] r2] eqn:E2. pose proof (read_full_any _ _ _ _ _ E2 ltac:(lia)) as (N2 & L2 & S2). pose proof (len_nonneg c).
  destruct e2; [intros H1; injection H1 as <- <-; cbn; split; [lia|exact I]|]. specialize (N2 eq_refl).
  destruct (gcm_open _ _ _ _ _) as [pt|]; [|intros H1; injection H1 as <- <-; cbn; split; [lia|exact I]].
  destruct (negb _); [intros H1; injection H1 as <- <-; cbn; split; [lia|exact I]|].
  destruct (d_hmac d) as [[hk hd]|]; [|intros H1; injection H1 as <- <-; cbn; split; [lia|exact I]].
  destruct (0 <? _).
  - intros H1. apply process_trailer_left in H1. cbn in H1. destruct H1 as [A B]. split; [lia|]. destruct rs as [[q z]|x|x]; auto. subst q.
    destruct (Z.eqb_spec m 0); lia.
  - intros H1. injection H1 as <- <-. cbn. split; [lia|]. destruct (Z.eqb_spec m 0); lia.
Qed.
Lemma fullwrite_grows b w e w' : fullwrite b w = (e, w') -> 0 <= len (w_out w') - len (w_out w) <= len b.
Proof.
  intros H. destruct e as [x|].
  - destruct (fullwrite_Some _ _ _ _ H) as ((k & ->) & _). rewrite len_app. pose proof (len_take_ub2 k b). pose proof (len_nonneg (take k b)). lia.
  - destruct (fullwrite_None _ _ _ H) as (-> & _). rewrite len_app. pose proof (len_nonneg b). lia.
Qed.
Lemma dec_loop_left C fuel : forall d w i d' w' rs, dec_loop C fuel d w i = (d', w', rs) ->
  left d' <= left d /\ len (w_out w') - len (w_out w) <= left d - left d'.
Proof.
  induction fuel as [|fuel IH]; intros d w i d' w' rs H; [cbn in H; injection H as <- <- <-; lia|]. rewrite dec_loop_S in H.
  destruct (dec_chunk C d i) as [d1 r1] eqn:E. apply dec_chunk_left in E. destruct E as [E1 E2].
  destruct r1 as [[m eof]|x|x]; try (injection H as <- <- <-; lia). cbv zeta in H.
  destruct (if 0 <? m then fullwrite (take m (d_buf d1)) w else (None, w)) as [x w1] eqn:Ew.
  assert (len (w_out w1) - len (w_out w) <= m) as Hw.
  { destruct (0 <? m); [apply fullwrite_grows in Ew; pose proof (len_take_ub m (d_buf d1) ltac:(lia)); lia|injection Ew as <- <-; lia]. }
  assert (0 <= (if m =? 0 then 0 else 16)) by (destruct (m =? 0); lia).
  destruct x as [x|]; [injection H as <- <- <-; lia|].
  destruct eof; [injection H as <- <- <-; cbn; lia|]. apply IH in H. lia.
Qed.
Lemma new_decryptor_left C rd d rd' : new_decryptor C rd = (Ok d, rd') -> d_rd d = rd' /\ Z.of_nat (rd_size rd') + 76 <= Z.of_nat (rd_size rd).
Proof.
  intros H. unfold new_decryptor in H. change fixed_hdr_len with 12 in H.
  destruct (read_full rd 12) as [[b e1] r1] eqn:E1. pose proof (read_full_any _ _ _ _ _ E1 ltac:(lia)) as (N1 & _ & S1).
  cbv beta iota zeta in H. destruct e1 as [x|]; [discriminate|]. specialize (N1 eq_refl).
  destruct (negb _); [discriminate|]. destruct (negb _); [discriminate|].
  set (v := unbe32 (drop 8 b)) in *. destruct (Z.ltb_spec 1048576 v); [discriminate|]. destruct (Z.ltb_spec v 32); [discriminate|].
  assert (Hu : u32 (v + sha256_size) = v + 32) by (unfold u32, sha256_size; apply Z.mod_small; lia). rewrite Hu in H.
  destruct (read_full r1 (v + 32)) as [[vb e2] r2] eqn:E2. pose proof (read_full_any _ _ _ _ _ E2 ltac:(lia)) as (N2 & _ & S2).
  cbv beta iota zeta in H. destruct e2 as [x|]; [discriminate|]. specialize (N2 eq_refl).
  destruct (negb _); [discriminate|]. destruct (unmarshal_header (take v vb)) as [h|x|x]; try discriminate.
  destruct (_ || _); [discriminate|]. destruct (negb _); [discriminate|]. destruct (_ =? 0); [discriminate|]. destruct (negb _); [discriminate|].
  injection H as <- <-. split; [reflexivity|lia].
Qed.

Definition pending (ss : list (encr * option bytes)) : Z := fold_right (fun s a => er_len (fst s) + a) 0 ss.
(** what is kept of a former buffer is not longer than what is pending *)
Definition sane (x : encr * option bytes) : Prop := 0 <= er_len (fst x) /\ forall k, snd x = Some k -> len k <= er_len (fst x).
Lemma sane_keep d ss : Forall sane ss -> Forall sane (map (er_keep d) ss) /\ pending (map (er_keep d) ss) = pending ss.
Proof.
  intros F. induction F as [|[s k] ss [H1 H2] F IH]; [split; [constructor|reflexivity]|]. destruct IH as [I1 I2]. cbn [map]. cbn [fst snd] in *.
  assert (sane (er_keep d (s, k)) /\ er_len (fst (er_keep d (s, k))) = er_len s) as [A B].
  { destruct k as [k|]; cbn [er_keep]; [split; [split; assumption|reflexivity]|]. destruct (Z.ltb_spec 0 (er_len s)); [|split; [split; assumption|reflexivity]].
    split; [|reflexivity]. split; cbn [fst snd]; [lia|]. intros k [= <-]. apply len_take_ub. lia. }
  split; [constructor; assumption|]. unfold pending in *. cbn [fold_right]. rewrite B, I2. reflexivity.
Qed.
Lemma pending_set ss : forall i s s', nth_error ss i = Some s -> pending (set_nth ss i s') = pending ss - er_len (fst s) + er_len (fst s').
Proof.
  induction ss as [|x ss IH]; intros [|i] s s' H; try discriminate; cbn [nth_error] in H; [injection H as ->; cbn; lia|].
  change (pending (set_nth (x :: ss) (S i) s')) with (er_len (fst x) + pending (set_nth ss i s')). rewrite (IH _ _ s' H). change (pending (x :: ss)) with (er_len (fst x) + pending ss). lia.
Qed.
Lemma er_read_left C d s n d' s' b rs : 0 <= n -> 0 <= er_len s -> er_read C d s n = (d', s', (b, rs)) ->
  0 <= er_len s' /\ len b + er_len s' + left d' <= er_len s + left d.
Proof.
  intros Hn Hs H. unfold er_read in H. destruct (er_err s); [injection H as <- <- <- <-; cbn; lia|].
  assert (forall d1 s1, 0 <= er_len s1 -> er_deliver d1 s1 n = (d', s', (b, rs)) -> d' = d1 /\ 0 <= er_len s' /\ len b + er_len s' <= er_len s1) as D.
  { intros d1 s1 H1 X. unfold er_deliver in X. destruct (Z.ltb_spec 0 (er_len s1)); injection X as <- <- <- <-; cbn; (split; [reflexivity|]); [|lia].
    pose proof (len_take_ub (Z.min n (er_len s1)) (drop (er_off s1) (d_buf d1)) ltac:(lia)). lia. }
  destruct (Z.eqb_spec (er_len s) 0) as [Z0|Z0]; [|apply D in H; [destruct H as (-> & A & B); lia|exact Hs]].
  destruct (d_eof d); [injection H as <- <- <- <-; cbn; lia|].
  destruct (dec_chunk C d (er_blk s)) as [d1 r1] eqn:E. apply dec_chunk_left in E. destruct E as [E1 E2].
  destruct r1 as [[m q]|x|x]; try (injection H as <- <- <- <-; cbn; lia).
  apply D in H; [|cbn; lia]. destruct H as (-> & A & B). cbn in B |- *. destruct (m =? 0); lia.
Qed.
Lemma er_read_kept_left C d s n d' s' b rs : 0 <= n -> sane s -> er_read_kept C d s n = (d', s', (b, rs)) ->
  sane s' /\ len b + er_len (fst s') + left d' <= er_len (fst s) + left d.
Proof.
  intros Hn [H1 H2] H. destruct s as [s [k|]]; cbn [er_read_kept fst snd] in *.
  - specialize (H2 _ eq_refl). pose proof (len_nonneg k). destruct (er_err s); [injection H as <- <- <- <-; cbn [fst snd len]; split; [split; cbn; [lia|intros k' [= <-]; lia]|cbn; lia]|].
    injection H as <- <- <- <-. cbn [fst]. rewrite len_take by lia. split; [|cbn; lia]. split; cbn; [lia|].
    destruct (Z.ltb_spec (Z.min n (len k)) (len k)); [|discriminate]. intros k' [= <-]. rewrite len_drop by lia. lia.
  - destruct (er_read C d s n) as [[d2 s2] [b2 r2]] eqn:E. injection H as <- <- <- <-. apply er_read_left in E; [|lia|lia]. cbn [fst]. split; [|lia].
    split; cbn; [lia|discriminate].
Qed.
Lemma dstep_given C st c st' r : dstep C st c = (st', r) -> (forall i n, c = DRead i n -> 0 <= n) -> Forall sane (ds_streams st) ->
  Forall sane (ds_streams st') /\
  given c r + pending (ds_streams st') + left (ds_dec st') <= pending (ds_streams st) + left (ds_dec st).
Proof.
  destruct st as [d ss]. cbn [ds_dec ds_streams]. intros H Hn F. destruct c as [sk spk|wr| |i n]; cbn [dstep ds_dec ds_streams] in H.
  - destruct (set_private_key C d sk spk) as [[d1 sk1] r1] eqn:E. injection H as <- <-. cbn [ds_dec ds_streams given].
    assert (Forall sane (after_set d r1 ss) /\ pending (after_set d r1 ss) = pending ss) as [K1 ->] by (destruct r1; cbn; [apply sane_keep; exact F|split; auto..]). split; [exact K1|].
    enough (d_rd d1 = d_rd d) as -> by lia. unfold set_private_key in E. destruct (find_key C (d_hdr d) (h_keys (d_hdr d)) sk) as [[key|x|x] sk2];
      try (injection E as <- <- <-; reflexivity). destruct (verify_sender C (d_hdr d) key spk) as [q|x|x]; try (injection E as <- <- <-; reflexivity).
    cbv zeta in E. destruct (new_gcm _) as [k|x|x]; injection E as <- <- <-; reflexivity.
  - destruct (decrypt C d wr) as [[d1 w1] r1] eqn:E. injection H as <- <-. cbn [ds_dec ds_streams given]. split; [exact F|]. unfold decrypt in E.
    destruct (d_key d); [|injection E as <- <- <-; lia]. destruct (d_stream d); [injection E as <- <- <-; lia|]. destruct (d_eof d); [injection E as <- <- <-; lia|].
    apply dec_loop_left in E. lia.
  - unfold new_stream_reader in H. destruct (d_key d); [|injection H as <- <-; cbn [ds_dec ds_streams given]; split; [exact F|lia]].
    destruct (d_eof d); injection H as <- <-; cbn [ds_dec ds_streams given]; [split; [exact F|lia]|].
    split; [apply Forall_app; split; [exact F|constructor; [split; cbn; [lia|discriminate]|constructor]]|].
    enough (pending (ss ++ [(mkEr 0 0 0 None, None)]) = pending ss) as -> by (cbn; lia).
    clear. induction ss as [|x ss IH]; [reflexivity|]. change (pending ((x :: ss) ++ [(mkEr 0 0 0 None, None)])) with (er_len (fst x) + pending (ss ++ [(mkEr 0 0 0 None, None)])). rewrite IH. reflexivity.
  - destruct (nth_error ss i) as [s|] eqn:En; [|injection H as <- <-; cbn [ds_dec ds_streams given]; split; [exact F|lia]].
    destruct (er_read_kept C d s n) as [[d1 s1] [b r1]] eqn:E. injection H as <- <-. cbn [ds_dec ds_streams given].
    assert (sane s) as Hs by (eapply Forall_forall in F; [|eapply nth_error_In; exact En]; exact F).
    apply er_read_kept_left in E; [|eapply Hn; reflexivity|exact Hs]. destruct E as [A B]. split; [|rewrite (pending_set _ _ _ s1 En); lia].
    clear - F A. unfold set_nth. revert i. induction F as [|y l Hy Hl IH]; intros [|i]; cbn; constructor; auto. apply IH.
Qed.

Lemma dec_loop_grows C fuel : forall d w i d' w' rs, dec_loop C fuel d w i = (d', w', rs) -> len (w_out w) <= len (w_out w').
Proof.
  induction fuel as [|fuel IH]; intros d w i d' w' rs H; [cbn in H; injection H as <- <- <-; lia|]. rewrite dec_loop_S in H.
  destruct (dec_chunk C d i) as [d2 r2]. destruct r2 as [[m eof]|x|x]; try (injection H as <- <- <-; lia). cbv zeta in H.
  destruct (if 0 <? m then fullwrite (take m (d_buf d2)) w else (None, w)) as [x w2] eqn:Ew.
  assert (0 <= len (w_out w2) - len (w_out w)) as Hw by (destruct (0 <? m); [apply fullwrite_grows in Ew; lia|injection Ew as <- <-; lia]).
  destruct x as [x|]; [injection H as <- <- <-; lia|]. destruct eof; [injection H as <- <- <-; lia|]. apply IH in H. lia.
Qed.

(** ** C86 *)
(** Whatever the source (well formed or hostile, however fragmented, failing or not) and whatever is called on the Decryptor, in
    whatever order: all bytes that ever come out, of Decrypt and of all stream readers together, after failures as after successes,
    are fewer by at least 76 than the bytes the source handed in. *)
Theorem C86_no_amplification :
  forall C rd d0 rd', new_decryptor C rd = (Ok d0, rd') ->
  forall cs st rs, dcalls C (mkDobj d0 []) cs = (st, rs) -> (forall i n, In (DRead i n) cs -> 0 <= n) ->
  0 <= total_given cs rs <= supply rd - 76.
Proof.
  intros C rd d0 rd' Hd cs st rs H Hn. apply new_decryptor_left in Hd. destruct Hd as [Hr Hs].
  assert (forall cs st0 st rs, dcalls C st0 cs = (st, rs) -> (forall i n, In (DRead i n) cs -> 0 <= n) -> Forall sane (ds_streams st0) ->
    Forall sane (ds_streams st) /\ total_given cs rs + pending (ds_streams st) + left (ds_dec st) <= pending (ds_streams st0) + left (ds_dec st0)) as M.
  { clear. induction cs as [|c cs IH]; intros st0 st rs H Hn F; cbn [dcalls] in H; [injection H as <- <-; cbn; split; [exact F|lia]|].
    destruct (dstep C st0 c) as [st1 r] eqn:E. destruct (dcalls C st1 cs) as [st2 rs2] eqn:E2. injection H as <- <-. cbn [total_given].
    apply dstep_given in E; [|intros i n ->; eapply Hn; left; reflexivity|exact F]. destruct E as [E3 E4].
    apply IH in E2; [|intros; eapply Hn; right; eassumption|exact E3]. destruct E2 as [A B]. split; [exact A|lia]. }
  assert (forall ss, Forall sane ss -> 0 <= pending ss) as P.
  { clear. intros ss F. induction F as [|x l [Hx _] F IH]; cbn; [lia|]. unfold pending in *. lia. }
  destruct (M _ _ _ _ H Hn (Forall_nil _)) as [A B]. cbn in B. rewrite Hr in B. specialize (P _ A). rewrite supply_size. split; [|lia].
  clear - H Hn. revert H. generalize (mkDobj d0 []). revert st rs. induction cs as [|c cs IH]; intros st rs st0 H; cbn [dcalls] in H; [injection H as <- <-; cbn; lia|].
  destruct (dstep C st0 c) as [st1 r] eqn:E. destruct (dcalls C st1 cs) as [st2 rs2] eqn:E2. injection H as <- <-. cbn [total_given].
  apply IH in E2; [|intros; eapply Hn; right; eassumption]. enough (0 <= given c r) by lia.
  clear - E. destruct c as [sk spk|wr| |i n]; cbn [given]; try lia.
  - destruct r as [x [w|] b|]; try lia. cbn in E. destruct (decrypt C (ds_dec st0) wr) as [[d1 w1] r1] eqn:Ed. injection E as _ _ <- _.
    unfold decrypt in Ed. destruct (d_key _); [|injection Ed as <- <- <-; lia]. destruct (d_stream _); [injection Ed as <- <- <-; lia|].
    destruct (d_eof _); [injection Ed as <- <- <-; lia|]. apply dec_loop_grows in Ed. lia.
  - destruct r as [x o b|]; [apply len_nonneg|lia].
Qed.
Print Assumptions C86_no_amplification.

(** the file of Scene.v: 11 bytes come out of a stream reader, twice 9 asked for at a time *)
Example C86_instance :
  exists d0 rd', new_decryptor toy (whole file1) = (Ok d0, rd') /\
  let cs := [DSet skB (Some pkS); DStream; DRead 0 9; DRead 0 9; DRead 0 9; DRead 0 9; DDecrypt sink] in
  total_given cs (snd (dcalls toy (mkDobj d0 []) cs)) = 11 /\ supply (whole file1) = 463.
Proof.
  destruct (new_decryptor toy (whole file1)) as [[d0|x|x] rd'] eqn:E.
  - exists d0, rd'. split; [reflexivity|]. vm_compute in E. injection E as <- <-. cbv zeta. split; vm_compute; reflexivity.
  - vm_compute in E. discriminate.
  - vm_compute in E. discriminate.
Qed.
