(** C91: Encryptors and Decryptors at work at the same time do not influence each other. *)
From Verif Require Import Bytes BytesLemmas GoErr GoIO Pb Crypto CryptoLaws Keys Sign Encrypt Decrypt Stream Spec SpecIO SpecCalls SpecWorld LocalProofs Toy Scene.
Local Notation length := List.length.
Local Notation concat := List.concat.

Lemma nth_set {A} (l : list A) i j x : (i < length l)%nat -> nth_error (set_nth l i x) j = if Nat.eqb j i then Some x else nth_error l j.
Proof.
  intros H. unfold set_nth. assert (Hf : length (firstn i l) = i) by (rewrite firstn_length; lia).
  destruct (Nat.eqb_spec j i) as [->|Hne].
  - rewrite nth_error_app2 by lia. rewrite Hf, Nat.sub_diag. reflexivity.
  - destruct (Nat.lt_ge_cases j i) as [Hl|Hl].
    + rewrite nth_error_app1 by lia. revert l j H Hf Hne Hl. clear. induction i as [|i IH]; intros l j H Hf Hne Hl; [lia|].
      destruct l as [|y l]; [cbn in H; lia|]. destruct j as [|j]; [reflexivity|]. cbn. apply IH; cbn in *; lia.
    + rewrite nth_error_app2 by lia. rewrite Hf. destruct (j - i)%nat as [|k] eqn:Ek; [lia|]. cbn [nth_error].
      replace j with (S i + k)%nat by lia. clear. revert l. induction (S i) as [|m IH]; intros l; [reflexivity|].
      destruct l as [|y l]; [destruct k; reflexivity|]. cbn. apply IH.
Qed.
Lemma set_length {A} (l : list A) i x : (i < length l)%nat -> length (set_nth l i x) = length l.
Proof. intros H. unfold set_nth. rewrite app_length. cbn [List.length]. rewrite firstn_length, skipn_length. lia. Qed.
Lemma nth_some {A} (l : list A) i x : nth_error l i = Some x -> (i < length l)%nat.
Proof. intros H. apply nth_error_Some. rewrite H. discriminate. Qed.

(** ** key objects and their caches *)
Definition same_pk (a b : pubkey) : Prop := pk_Pk a = pk_Pk b /\ pk_comment a = pk_comment b /\ pk_hash a = pk_hash b /\ right_pk a /\ right_pk b.
Definition same_sk (C : crypto) (a b : privkey) : Prop := sk_Sk a = sk_Sk b /\ sk_pk a = sk_pk b /\ right_sk C a /\ right_sk C b.
Lemma curve_same a b : same_pk a b ->
  match to_curve_pk a, to_curve_pk b with
  | Ok (c, a'), Ok (d, b') => c = d /\ same_pk a b' /\ same_pk a b
  | Panic p, Panic q => p = q
  | _, _ => False
  end.
Proof.
  intros (H1 & H2 & H3 & Ha & Hb). unfold to_curve_pk.
  destruct (pk_ck a) as [ca|] eqn:Ea, (pk_ck b) as [cb|] eqn:Eb.
  - destruct Ha as [Ha|(_ & Ha)]; [congruence|]. destruct Hb as [Hb|(Hl & Hb)]; [congruence|]. assert (ca = cb) by congruence.
    split; [assumption|]. split; split; auto; split; auto; split; auto; split; right; (split; [congruence|congruence]).
  - destruct Ha as [Ha|(Hl & Ha)]; [congruence|]. destruct (Z.ltb_spec 32 (len (pk_Pk b))) as [Hx|Hx]; [rewrite <- H1 in Hx; lia|].
    split; [congruence|]. split.
    + unfold same_pk. cbn [pk_Pk pk_comment pk_hash pk_ck]. split; [exact H1|]. split; [exact H2|]. split; [exact H3|]. split; [right; split; congruence|].
      right. cbn [pk_Pk pk_ck]. split; [congruence|reflexivity].
    + split; [exact H1|]. split; [exact H2|]. split; [exact H3|]. split; [right; split; congruence|left; exact Eb].
  - destruct Hb as [Hb|(Hl & Hb)]; [congruence|]. destruct (Z.ltb_spec 32 (len (pk_Pk a))) as [Hx|Hx]; [rewrite H1 in Hx; lia|].
    split; [congruence|]. split; (split; [exact H1|]; split; [exact H2|]; split; [exact H3|]; split; [left; exact Ea|right; split; congruence]).
  - rewrite <- H1. destruct (Z.ltb_spec 32 (len (pk_Pk a))) as [Hx|Hx]; [reflexivity|]. split; [reflexivity|]. split.
    + unfold same_pk. cbn [pk_Pk pk_comment pk_hash pk_ck]. split; [reflexivity|]. split; [exact H2|]. split; [exact H3|]. split; [left; exact Ea|].
      right. cbn [pk_Pk pk_ck]. split; [lia|reflexivity].
    + split; [exact H1|]. split; [exact H2|]. split; [exact H3|]. split; left; assumption.
Qed.
Lemma add_same C e a b g e' b' g' r : same_pk a b -> add_recipient C e b g = (e', b', g', r) ->
  (exists a', add_recipient C e a g = (e', a', g', r)) /\ same_pk a b'.
Proof.
  intros Hs. unfold add_recipient. destruct (e_started e).
  - intros H. injection H as <- <- <- <-. split; [eexists; reflexivity|exact Hs].
  - unfold wrap_key. pose proof (curve_same a b Hs) as Hc. destruct Hs as (H1 & Hs').
    destruct (to_curve_pk a) as [[ca a1]|x|x], (to_curve_pk b) as [[cb b1]|y|y]; try contradiction.
    + destruct Hc as (<- & Hb1 & Hab). destruct (X25519 C (e_encSK e) ca) as [sek|z|z].
      * destruct (rand_buf rx_nonce_size g) as [rb gg]. rewrite H1. cbv zeta.
        set (ae := wrapf "wrap" (new_gcm (take aes_key_size (expand C (aes_key_size + rx_nonce_size) sek (sha256 C (h_salt (e_hdr e) ++ rb)) wrap_receiver)))).
        destruct ae as [k|z|z]; cbn [bind]; intros H; injection H as <- <- <- <-; (split; [eexists; reflexivity|assumption]).
      * intros H. injection H as <- <- <- <-. split; [eexists; reflexivity|assumption].
      * intros H. injection H as <- <- <- <-. split; [eexists; reflexivity|assumption].
    + rewrite Hc. intros H. injection H as <- <- <- <-. split; [eexists; reflexivity|]. split; [exact H1|exact Hs'].
Qed.
Lemma curve_sk_same C a b : same_sk C a b -> fst (to_curve_sk C a) = fst (to_curve_sk C b) /\ same_sk C (snd (to_curve_sk C a)) (snd (to_curve_sk C b)) /\
  same_sk C a (snd (to_curve_sk C b)).
Proof.
  intros (H1 & H2 & Ha & Hb). unfold to_curve_sk. set (f := fun x => clamp (take 32 (sha512 C (take 32 x)))).
  assert (Ra : forall s, sk_ck a = Some s -> s = f (sk_Sk a)) by (intros s E; destruct Ha; unfold f; congruence).
  assert (Rb : forall s, sk_ck b = Some s -> s = f (sk_Sk b)) by (intros s E; destruct Hb; unfold f; congruence).
  fold (f (sk_Sk a)) (f (sk_Sk b)).
  assert (R : forall s c p, c = f s -> right_sk C (mkPriv s (Some c) p)) by (intros s c p ->; right; reflexivity).
  destruct (sk_ck a) as [ca|] eqn:Ea, (sk_ck b) as [cb|] eqn:Eb; cbn [fst snd]; unfold same_sk; cbn [sk_Sk sk_pk]; rewrite ?(Ra _ eq_refl), ?(Rb _ eq_refl), ?H1; auto 12.
Qed.
Lemma find_same C h ks : forall a b r b', same_sk C a b -> find_key C h ks b = (r, b') -> (exists a', find_key C h ks a = (r, a')) /\ same_sk C a b'.
Proof.
  assert (T : forall a b c, same_sk C a b -> same_sk C b c -> same_sk C a c) by (intros a b c (A1 & A2 & A3 & A4) (B1 & B2 & B3 & B4); repeat split; auto; congruence).
  assert (S : forall a b, same_sk C a b -> same_sk C b a) by (intros a b (A1 & A2 & A3 & A4); repeat split; auto; congruence).
  induction ks as [|w ks IH]; intros a b r b' Hs H; cbn [find_key] in *.
  - injection H as <- <-. split; [eexists; reflexivity|exact Hs].
  - pose proof (curve_sk_same C a b Hs) as (Hc & Hss & Hab). unfold unwrap_key in *.
    destruct (to_curve_sk C a) as [ca a1], (to_curve_sk C b) as [cb b1]. cbn [fst snd] in *. subst cb.
    destruct Hs as (H1 & H2 & H3). rewrite H2 in *.
    set (res := match X25519 C ca (h_pk h) with Ok sekrit => _ | Fail x => _ | Panic p => _ end) in *.
    destruct res as [[k|]|x|x].
    + injection H as <- <-. split; [eexists; reflexivity|exact Hab].
    + destruct (IH a1 b1 r b' Hss H) as (Ha' & Hb'). split; [exact Ha'|]. eapply T; [|exact Hb'].
      eapply T; [exact Hab|apply S; exact Hss].
    + injection H as <- <-. split; [eexists; reflexivity|exact Hab].
    + injection H as <- <-. split; [eexists; reflexivity|exact Hab].
Qed.
Lemma set_key_same C d a b spk d' b' r : same_sk C a b -> set_private_key C d b spk = (d', b', r) ->
  (exists a', set_private_key C d a spk = (d', a', r)) /\ same_sk C a b'.
Proof.
  intros Hs H. unfold set_private_key in *. destruct (find_key C (d_hdr d) (h_keys (d_hdr d)) b) as [kr b1] eqn:Ef.
  destruct (find_same C _ _ _ _ _ _ Hs Ef) as ((a1 & Ea) & Hab). rewrite Ea. cbv zeta in *.
  destruct kr as [key|x|x]; [|injection H as <- <- <-; split; [eexists; reflexivity|exact Hab]..].
  destruct (verify_sender C (d_hdr d) key spk) as [sg|x|x]; [|injection H as <- <- <-; split; [eexists; reflexivity|exact Hab]..].
  destruct (new_gcm _) as [ae|x|x]; injection H as <- <- <-; (split; [eexists; reflexivity|exact Hab]).
Qed.

(** ** the calls on one object, alone *)
Lemma ecalls_snoc C st cs c : ecalls C st (cs ++ [c]) = let '(st1, rs) := ecalls C st cs in let '(st2, r) := estep C st1 c in (st2, rs ++ [r]).
Proof.
  revert st. induction cs as [|c0 cs IH]; intros st; cbn [app ecalls].
  - destruct (estep C st c) as [st1 r]. reflexivity.
  - destruct (estep C st c0) as [st1 r]. rewrite IH. destruct (ecalls C st1 cs) as [st2 rs]. destruct (estep C st2 c) as [st3 r3]. reflexivity.
Qed.
Lemma dcalls_snoc C st cs c : dcalls C st (cs ++ [c]) = let '(st1, rs) := dcalls C st cs in let '(st2, r) := dstep C st1 c in (st2, rs ++ [r]).
Proof.
  revert st. induction cs as [|c0 cs IH]; intros st; cbn [app dcalls].
  - destruct (dstep C st c) as [st1 r]. reflexivity.
  - destruct (dstep C st c0) as [st1 r]. rewrite IH. destruct (dcalls C st1 cs) as [st2 rs]. destruct (dstep C st2 c) as [st3 r3]. reflexivity.
Qed.

Definition enc_part (pks : list pubkey) (i : nat) (h : list (xcall * xret)) : list (ecall * eret) := flat_map (on_enc pks i) h.
Definition dec_part (sks : list privkey) (i : nat) (h : list (xcall * xret)) : list (dcall * dret) := flat_map (on_dec sks i) h.

(** what holds after every history *)
Definition alone_enc C (sender : option privkey) (blksize : Z) (h : rng) (part : list (ecall * eret)) (e : encryptor) ss (h' : rng) : Prop :=
  exists e0 g0, new_encryptor C sender blksize h = (Ok e0, g0) /\ ecalls C (mkEobj e0 g0 []) (map fst part) = (mkEobj e h' ss, map snd part).
Record keeps (C : crypto) (w0 : world) (hist : list (xcall * xret)) (w : world) (at_ : nat -> Z -> Z) (drawn : nat -> Z) : Prop := {
  kp_tape : tape (wd_rng w) = tape (wd_rng w0);
  kp_pos : pos (wd_rng w0) <= pos (wd_rng w);
  kp_pks : Forall2 same_pk (wd_pks w0) (wd_pks w);
  kp_sks : Forall2 (same_sk C) (wd_sks w0) (wd_sks w);
  kp_none : forall i, (length (wd_encs w) <= i)%nat -> drawn i = 0 /\ enc_part (wd_pks w0) i hist = [];
  kp_none2 : forall i, (length (wd_decs w) <= i)%nat -> dec_part (wd_sks w0) i hist = [];
  kp_drawn : forall i, 0 <= drawn i;
  kp_range : forall i a, 0 <= a < drawn i -> pos (wd_rng w0) <= at_ i a < pos (wd_rng w);
  kp_inj : forall i j a b, 0 <= a < drawn i -> 0 <= b < drawn j -> at_ i a = at_ j b -> i = j /\ a = b;
  kp_encs : forall i e ss, nth_error (wd_encs w) i = Some (e, ss) -> exists sender blksize, In (XNewEnc sender blksize, XEncMade i) hist /\
    forall h, (forall a, 0 <= a < drawn i -> tape h (pos h + a) = tape (wd_rng w0) (at_ i a)) ->
      alone_enc C sender blksize h (enc_part (wd_pks w0) i hist) e ss (adv h (drawn i));
  kp_decs : forall i st, nth_error (wd_decs w) i = Some st -> exists rd d0 rd', In (XNewDec rd, XDecMade i) hist /\
    new_decryptor C rd = (Ok d0, rd') /\ dcalls C (mkDobj d0 []) (map fst (dec_part (wd_sks w0) i hist)) = (st, map snd (dec_part (wd_sks w0) i hist)) }.

(** [n] more bytes for object [i], from position [p] on *)
Definition at_more (at_ : nat -> Z -> Z) (drawn : nat -> Z) (i : nat) (p : Z) (j : nat) (a : Z) : Z :=
  if Nat.eqb j i then (if drawn i <=? a then p + (a - drawn i) else at_ j a) else at_ j a.
Definition drawn_more (drawn : nat -> Z) (i : nat) (n : Z) (j : nat) : Z := if Nat.eqb j i then drawn i + n else drawn j.
Lemma more_ok at_ drawn i lo p n : 0 <= n -> lo <= p -> (forall i, 0 <= drawn i) ->
  (forall i a, 0 <= a < drawn i -> lo <= at_ i a < p) ->
  (forall i j a b, 0 <= a < drawn i -> 0 <= b < drawn j -> at_ i a = at_ j b -> i = j /\ a = b) ->
  let at' := at_more at_ drawn i p in let drawn' := drawn_more drawn i n in
  (forall i, 0 <= drawn' i) /\ (forall i a, 0 <= a < drawn' i -> lo <= at' i a < p + n) /\
  (forall i j a b, 0 <= a < drawn' i -> 0 <= b < drawn' j -> at' i a = at' j b -> i = j /\ a = b).
Proof.
  intros Hn Hp Hd Hr Hi at' drawn'. unfold at', drawn', at_more, drawn_more. split; [|split].
  - intros j. specialize (Hd j) as H1. specialize (Hd i) as H2. destruct (Nat.eqb j i); lia.
  - intros j a Ha. destruct (Nat.eqb_spec j i) as [->|Hne].
    + destruct (Z.leb_spec (drawn i) a); [lia|]. specialize (Hr i a ltac:(lia)). lia.
    + specialize (Hr j a Ha). lia.
  - intros j k a b Ha Hb.
    destruct (Nat.eqb_spec j i) as [->|Hj], (Nat.eqb_spec k i) as [->|Hk].
    + destruct (Z.leb_spec (drawn i) a), (Z.leb_spec (drawn i) b).
      * intros. split; [reflexivity|lia].
      * specialize (Hr i b ltac:(lia)). lia.
      * specialize (Hr i a ltac:(lia)). lia.
      * apply Hi; lia.
    + destruct (Z.leb_spec (drawn i) a); [specialize (Hr k b Hb); lia|]. apply Hi; lia.
    + destruct (Z.leb_spec (drawn i) b); [specialize (Hr j a Ha); lia|]. apply Hi; lia.
    + apply Hi; assumption.
Qed.
Lemma more_view at_ drawn i g g0 n h : 0 <= drawn i -> 0 <= n -> tape g = tape g0 ->
  (forall a, 0 <= a < drawn_more drawn i n i -> tape h (pos h + a) = tape g0 (at_more at_ drawn i (pos g) i a)) ->
  (forall a, 0 <= a < drawn i -> tape h (pos h + a) = tape g0 (at_ i a)) /\ agree g (adv h (drawn i)) n.
Proof.
  intros Hd Hn Ht H. unfold drawn_more, at_more in H. rewrite Nat.eqb_refl in H. split.
  - intros a Ha. rewrite H by lia. destruct (Z.leb_spec (drawn i) a); [lia|reflexivity].
  - intros k Hk. unfold adv. cbn [tape pos]. rewrite <- Z.add_assoc, H by lia. destruct (Z.leb_spec (drawn i) (drawn i + k)); [|lia].
    rewrite Ht. f_equal. lia.
Qed.
Lemma part_snoc pks i h x : enc_part pks i (h ++ [x]) = enc_part pks i h ++ on_enc pks i x.
Proof. unfold enc_part. rewrite flat_map_app. cbn. rewrite app_nil_r. reflexivity. Qed.
Lemma dpart_snoc sks i h x : dec_part sks i (h ++ [x]) = dec_part sks i h ++ on_dec sks i x.
Proof. unfold dec_part. rewrite flat_map_app. cbn. rewrite app_nil_r. reflexivity. Qed.

(** a call which concerns no object *)
Lemma keeps_other C w0 hist w at_ drawn g x : keeps C w0 hist w at_ drawn -> tape g = tape (wd_rng w) -> pos (wd_rng w) <= pos g ->
  (forall i, on_enc (wd_pks w0) i x = []) -> (forall i, on_dec (wd_sks w0) i x = []) ->
  keeps C w0 (hist ++ [x]) (mkWorld g (wd_pks w) (wd_sks w) (wd_encs w) (wd_decs w)) at_ drawn.
Proof.
  intros [] Ht Hp He Hd. constructor; cbn [wd_rng wd_pks wd_sks wd_encs wd_decs]; auto.
  - congruence.
  - lia.
  - intros i Hi. rewrite part_snoc, He, app_nil_r. auto.
  - intros i Hi. rewrite dpart_snoc, Hd, app_nil_r. auto.
  - intros i a Ha. specialize (kp_range0 i a Ha). lia.
  - intros i e ss Hi. destruct (kp_encs0 i e ss Hi) as (sender & blk & Hin & H). exists sender, blk. split; [apply in_or_app; auto|].
    rewrite part_snoc, He, app_nil_r. exact H.
  - intros i st Hi. destruct (kp_decs0 i st Hi) as (rd & d0 & rd' & Hin & H). exists rd, d0, rd'. split; [apply in_or_app; auto|].
    rewrite dpart_snoc, Hd, app_nil_r. exact H.
Qed.
(** a call on Encryptor [i] *)
Lemma keeps_enc C w0 hist w at_ drawn x i e ss e' ss' c r n pks' : keeps C w0 hist w at_ drawn ->
  nth_error (wd_encs w) i = Some (e, ss) -> on_enc (wd_pks w0) i x = [(c, r)] -> (forall j, j <> i -> on_enc (wd_pks w0) j x = []) ->
  (forall j, on_dec (wd_sks w0) j x = []) -> 0 <= n -> Forall2 same_pk (wd_pks w0) pks' ->
  (forall h, agree (wd_rng w) h n -> estep C (mkEobj e h ss) c = (mkEobj e' (adv h n) ss', r)) ->
  keeps C w0 (hist ++ [x]) (mkWorld (adv (wd_rng w) n) pks' (wd_sks w) (set_nth (wd_encs w) i (e', ss')) (wd_decs w))
    (at_more at_ drawn i (pos (wd_rng w))) (drawn_more drawn i n).
Proof.
  intros [] Hi Hx Hox Hd Hn Hpk Hst. pose proof (nth_some _ _ _ Hi) as Hlen.
  destruct (more_ok at_ drawn i _ _ n Hn kp_pos0 kp_drawn0 kp_range0 kp_inj0) as (M1 & M2 & M3).
  constructor; cbn [wd_rng wd_pks wd_sks wd_encs wd_decs]; auto.
  - unfold adv. cbn. lia.
  - rewrite set_length by exact Hlen. intros j Hj. unfold drawn_more. destruct (Nat.eqb_spec j i); [lia|].
    rewrite part_snoc, Hox, app_nil_r by assumption. auto.
  - intros j Hj. rewrite dpart_snoc, Hd, app_nil_r. auto.
  - intros j f tt Hj. rewrite nth_set in Hj by exact Hlen. rewrite part_snoc. destruct (Nat.eqb_spec j i) as [->|Hne].
    + injection Hj as <- <-. destruct (kp_encs0 i e ss Hi) as (sender & blk & Hin & H). exists sender, blk. split; [apply in_or_app; auto|].
      intros h Hh. destruct (more_view at_ drawn i (wd_rng w) (wd_rng w0) n h (kp_drawn0 i) Hn kp_tape0 Hh) as (V1 & V2).
      destruct (H h V1) as (e0 & g0 & N1 & N2). exists e0, g0. split; [exact N1|]. rewrite Hx, !map_app. cbn [map fst snd].
      rewrite ecalls_snoc, N2, (Hst _ V2), adv_adv. unfold drawn_more. rewrite Nat.eqb_refl. reflexivity.
    + destruct (kp_encs0 j f tt Hj) as (sender & blk & Hin & H). exists sender, blk. split; [apply in_or_app; auto|].
      rewrite Hox, app_nil_r by assumption. unfold drawn_more, at_more. destruct (Nat.eqb_spec j i); [contradiction|]. exact H.
  - intros j st Hj. destruct (kp_decs0 j st Hj) as (rd & d0 & rd' & Hin & H). exists rd, d0, rd'. split; [apply in_or_app; auto|].
    rewrite dpart_snoc, Hd, app_nil_r. exact H.
Qed.
(** a call on Decryptor [i] *)
Lemma keeps_dec C w0 hist w at_ drawn x i st st' c r sks' : keeps C w0 hist w at_ drawn ->
  nth_error (wd_decs w) i = Some st -> on_dec (wd_sks w0) i x = [(c, r)] -> (forall j, j <> i -> on_dec (wd_sks w0) j x = []) ->
  (forall j, on_enc (wd_pks w0) j x = []) -> Forall2 (same_sk C) (wd_sks w0) sks' -> dstep C st c = (st', r) ->
  keeps C w0 (hist ++ [x]) (mkWorld (wd_rng w) (wd_pks w) sks' (wd_encs w) (set_nth (wd_decs w) i st')) at_ drawn.
Proof.
  intros [] Hi Hx Hox He Hsk Hst. pose proof (nth_some _ _ _ Hi) as Hlen.
  constructor; cbn [wd_rng wd_pks wd_sks wd_encs wd_decs]; auto.
  - intros j Hj. rewrite part_snoc, He, app_nil_r. auto.
  - rewrite set_length by exact Hlen. intros j Hj. rewrite dpart_snoc, Hox, app_nil_r by lia. auto.
  - intros j f ss Hj. destruct (kp_encs0 j f ss Hj) as (sender & blk & Hin & H). exists sender, blk. split; [apply in_or_app; auto|].
    rewrite part_snoc, He, app_nil_r. exact H.
  - intros j s Hj. rewrite nth_set in Hj by exact Hlen. rewrite dpart_snoc. destruct (Nat.eqb_spec j i) as [->|Hne].
    + injection Hj as <-. destruct (kp_decs0 i st Hi) as (rd & d0 & rd' & Hin & H1 & H2). exists rd, d0, rd'. split; [apply in_or_app; auto|]. split; [exact H1|].
      rewrite Hx, !map_app. cbn [map fst snd]. rewrite dcalls_snoc, H2, Hst. reflexivity.
    + destruct (kp_decs0 j s Hj) as (rd & d0 & rd' & Hin & H). exists rd, d0, rd'. split; [apply in_or_app; auto|].
      rewrite Hox, app_nil_r by assumption. exact H.
Qed.
Lemma F2_nth {A B} (R : A -> B -> Prop) l l' : Forall2 R l l' -> forall k y, nth_error l' k = Some y -> exists x, nth_error l k = Some x /\ R x y.
Proof. induction 1 as [|a b l l' H F IH]; intros [|k] y Hy; try discriminate; cbn in *; [injection Hy as <-; eauto|eauto]. Qed.
Lemma F2_set {A B} (R : A -> B -> Prop) l l' : Forall2 R l l' -> forall k x y, nth_error l k = Some x -> R x y -> Forall2 R l (set_nth l' k y).
Proof.
  induction 1 as [|a b l l' H F IH]; intros [|k] x y Hx Hy; try discriminate; cbn in *.
  - injection Hx as <-. constructor; assumption.
  - constructor; [exact H|]. eapply IH; eassumption.
Qed.

Lemma keeps_step C w0 hist w at_ drawn c w' r : keeps C w0 hist w at_ drawn -> xstep C w c = (w', r) ->
  exists at' drawn', keeps C w0 (hist ++ [(c, r)]) w' at' drawn'.
Proof.
  intros Hk H.
  assert (Hnone : forall c r, (forall i, on_enc (wd_pks w0) i (c, r) = []) -> (forall i, on_dec (wd_sks w0) i (c, r) = []) -> exists at' drawn', keeps C w0 (hist ++ [(c, r)]) w at' drawn').
  { intros c1 r1 A B. exists at_, drawn. pose proof (keeps_other C w0 hist w at_ drawn (wd_rng w) (c1, r1) Hk eq_refl (Z.le_refl _) A B) as K. destruct w; exact K. }
  destruct c as [sender blk|i k|i c|rd|i k spk|i c]; cbn [xstep] in H.
  - destruct (local_new_encryptor C sender blk (wd_rng w)) as (n & a & Hn & H1 & H2). rewrite H1 in H. destruct a as [e|x|x].
    + injection H as <- <-. set (i := length (wd_encs w)).
      exists (at_more at_ drawn i (pos (wd_rng w))), (drawn_more drawn i n). destruct Hk.
      destruct (more_ok at_ drawn i _ _ n Hn kp_pos0 kp_drawn0 kp_range0 kp_inj0) as (M1 & M2 & M3).
      constructor; cbn [wd_rng wd_pks wd_sks wd_encs wd_decs]; auto.
      * unfold adv. cbn. lia.
      * rewrite app_length. cbn [List.length]. intros j Hj. unfold drawn_more. destruct (Nat.eqb_spec j i); [unfold i in *; lia|].
        rewrite part_snoc. cbn [on_enc]. rewrite app_nil_r. apply kp_none0. lia.
      * intros j Hj. rewrite dpart_snoc. cbn [on_dec]. rewrite app_nil_r. auto.
      * intros j f ss Hj. rewrite part_snoc. cbn [on_enc]. rewrite app_nil_r.
        destruct (Nat.eq_dec j i) as [->|Hne].
        -- rewrite nth_error_app2 in Hj by (unfold i; lia). unfold i in Hj. rewrite Nat.sub_diag in Hj. injection Hj as <- <-. fold i.
           exists sender, blk. split; [apply in_or_app; right; left; reflexivity|]. destruct (kp_none0 i (Nat.le_refl _)) as (D0 & P0).
           intros h Hh. destruct (more_view at_ drawn i (wd_rng w) (wd_rng w0) n h (kp_drawn0 i) Hn kp_tape0 Hh) as (_ & V2). rewrite D0, adv_0 in V2.
           rewrite P0. exists e, (adv h n). split; [apply H2; exact V2|]. cbn [map ecalls]. unfold drawn_more. rewrite Nat.eqb_refl, D0. reflexivity.
        -- assert (Hj' : nth_error (wd_encs w) j = Some (f, ss)).
           { pose proof (nth_some _ _ _ Hj) as L. rewrite app_length in L. cbn [List.length] in L. rewrite nth_error_app1 in Hj by (unfold i in *; lia). exact Hj. }
           destruct (kp_encs0 j f ss Hj') as (sn & bl & Hin & Hx). exists sn, bl. split; [apply in_or_app; auto|].
           unfold drawn_more, at_more. destruct (Nat.eqb_spec j i); [contradiction|]. exact Hx.
      * intros j st Hj. destruct (kp_decs0 j st Hj) as (rd & d0 & rd' & Hin & Hx). exists rd, d0, rd'. split; [apply in_or_app; auto|].
        rewrite dpart_snoc. cbn [on_dec]. rewrite app_nil_r. exact Hx.
    + injection H as <- <-. exists at_, drawn. apply keeps_other; auto. unfold adv; cbn; lia.
    + injection H as <- <-. exists at_, drawn. apply keeps_other; auto. unfold adv; cbn; lia.
  - destruct (nth_error (wd_encs w) i) as [[e ss]|] eqn:Ei; [|injection H as <- <-; apply Hnone; auto].
    destruct (nth_error (wd_pks w) k) as [pk|] eqn:Ek; [|injection H as <- <-; apply Hnone; auto].
    destruct (F2_nth _ _ _ (kp_pks _ _ _ _ _ _ Hk) k pk Ek) as (pk0 & E0 & Hs).
    destruct (add_recipient C e pk (wd_rng w)) as [[[e' pk'] g'] rr] eqn:Ea.
    destruct (add_same C e pk0 pk _ _ _ _ _ Hs Ea) as ((a' & Ea0) & Hs').
    destruct (local_step C e ss (EAdd pk0) (wd_rng w)) as (n & a & Hn & H1 & H2).
    assert (Hg : g' = adv (wd_rng w) n /\ a = (e', ss, ERet rr None)).
    { cbn [estep es_enc es_rng es_streams] in H1. rewrite Ea0 in H1. cbn [es_enc es_rng es_streams] in H1. injection H1 as <- <-. auto. }
    destruct Hg as (-> & ->). injection H as <- <-. eexists _, _.
    eapply keeps_enc; try eassumption; try (intros; reflexivity).
    + cbn [on_enc]. rewrite Nat.eqb_refl, E0. reflexivity.
    + intros j Hj. cbn [on_enc]. destruct (Nat.eqb_spec i j); [congruence|reflexivity].
    + eapply F2_set; [apply (kp_pks _ _ _ _ _ _ Hk)|exact E0|exact Hs'].
    + intros h Hh. specialize (H2 h Hh). destruct (estep C (mkEobj e h ss) (EAdd pk0)) as [st r]. destruct st as [x y z]. cbn [es_enc es_rng es_streams] in H2.
      injection H2 as -> -> -> ->. reflexivity.
  - destruct (nth_error (wd_encs w) i) as [[e ss]|] eqn:Ei; [|injection H as <- <-; apply Hnone; auto].
    destruct (local_step C e ss c (wd_rng w)) as (n & [[e' ss'] rr] & Hn & H1 & H2).
    destruct (estep C (mkEobj e (wd_rng w) ss) c) as [st r1]. cbn [fst snd] in H1. injection H1 as E1 E2 E3 E4. injection H as <- <-. rewrite E1, E2, E4. subst r1.
    eexists _, _. eapply keeps_enc; try eassumption; try (intros; reflexivity).
    + cbn [on_enc]. rewrite Nat.eqb_refl. reflexivity.
    + intros j Hj. cbn [on_enc]. destruct (Nat.eqb_spec i j); [congruence|reflexivity].
    + apply (kp_pks _ _ _ _ _ _ Hk).
    + intros h Hh. specialize (H2 h Hh). destruct (estep C (mkEobj e h ss) c) as [st2 r2]. destruct st2 as [x y z]. cbn [es_enc es_rng es_streams] in H2.
      injection H2 as -> -> -> ->. reflexivity.
  - destruct (new_decryptor C rd) as [[d|x|x] rd'] eqn:En; try (injection H as <- <-; apply Hnone; auto; fail).
    injection H as <- <-. exists at_, drawn. destruct Hk. constructor; cbn [wd_rng wd_pks wd_sks wd_encs wd_decs]; auto.
    + intros j Hj. rewrite part_snoc. cbn [on_enc]. rewrite app_nil_r. auto.
    + rewrite app_length. cbn [List.length]. intros j Hj. rewrite dpart_snoc. cbn [on_dec]. rewrite app_nil_r. apply kp_none3. lia.
    + intros j f ss Hj. destruct (kp_encs0 j f ss Hj) as (sn & bl & Hin & Hx). exists sn, bl. split; [apply in_or_app; auto|].
      rewrite part_snoc. cbn [on_enc]. rewrite app_nil_r. exact Hx.
    + intros j st Hj. rewrite dpart_snoc. cbn [on_dec]. rewrite app_nil_r. destruct (Nat.eq_dec j (length (wd_decs w))) as [->|Hne].
      * rewrite nth_error_app2, Nat.sub_diag in Hj by lia. injection Hj as <-. exists rd, d, rd'. split; [apply in_or_app; right; left; reflexivity|].
        split; [exact En|]. rewrite (kp_none3 _ (Nat.le_refl _)). reflexivity.
      * assert (Hj' : nth_error (wd_decs w) j = Some st).
        { pose proof (nth_some _ _ _ Hj) as L. rewrite app_length in L. cbn [List.length] in L. rewrite nth_error_app1 in Hj by lia. exact Hj. }
        destruct (kp_decs0 j st Hj') as (r0 & d0 & r1 & Hin & Hx). exists r0, d0, r1. split; [apply in_or_app; auto|exact Hx].
  - destruct (nth_error (wd_decs w) i) as [st|] eqn:Ei; [|injection H as <- <-; apply Hnone; auto].
    destruct (nth_error (wd_sks w) k) as [sk|] eqn:Ek; [|injection H as <- <-; apply Hnone; auto].
    destruct (F2_nth _ _ _ (kp_sks _ _ _ _ _ _ Hk) k sk Ek) as (sk0 & E0 & Hs).
    destruct (set_private_key C (ds_dec st) sk spk) as [[d' sk'] rr] eqn:Ea.
    destruct (set_key_same C _ sk0 sk spk _ _ _ Hs Ea) as ((a' & Ea0) & Hs'). injection H as <- <-. eexists _, _.
    eapply keeps_dec; try eassumption; try (intros; reflexivity).
    + cbn [on_dec]. rewrite Nat.eqb_refl, E0. reflexivity.
    + intros j Hj. cbn [on_dec]. destruct (Nat.eqb_spec i j); [congruence|reflexivity].
    + eapply F2_set; [apply (kp_sks _ _ _ _ _ _ Hk)|exact E0|exact Hs'].
    + cbn [dstep]. rewrite Ea0. reflexivity.
  - destruct (nth_error (wd_decs w) i) as [st|] eqn:Ei; [|injection H as <- <-; apply Hnone; auto].
    destruct (dstep C st c) as [st' rr] eqn:Ed. injection H as <- <-. eexists _, _.
    eapply keeps_dec; try eassumption; try (intros; reflexivity).
    + cbn [on_dec]. rewrite Nat.eqb_refl. reflexivity.
    + intros j Hj. cbn [on_dec]. destruct (Nat.eqb_spec i j); [congruence|reflexivity].
    + apply (kp_sks _ _ _ _ _ _ Hk).
Qed.

(** ** C91 *)
(** Any history of calls in a process which starts with the random source [g] and the key objects [pks] and [sks].  Every Encryptor
    has returned, and its destinations hold, what they would if it had been alone, with a random source of its own; the bytes of these
    sources are taken from pairwise different places of the shared one.  Every Decryptor has returned what it would have returned alone. *)
Theorem C91_objects_independent :
  forall C g pks sks, Forall right_pk pks -> Forall (right_sk C) sks ->
  forall hist w, happens C (mkWorld g pks sks [] []) hist w ->
  exists (place : nat -> Z -> Z) (drawn : nat -> Z),
    (forall i a, 0 <= a < drawn i -> pos g <= place i a < pos (wd_rng w)) /\
    (forall i j a b, 0 <= a < drawn i -> 0 <= b < drawn j -> place i a = place j b -> i = j /\ a = b) /\
    (forall i e streams, nth_error (wd_encs w) i = Some (e, streams) ->
       let own := mkRng (fun a => tape g (place i a)) 0 in let part := flat_map (on_enc pks i) hist in
       exists sender blksize e0 g0 g1, In (XNewEnc sender blksize, XEncMade i) hist /\ new_encryptor C sender blksize own = (Ok e0, g0) /\
         ecalls C (mkEobj e0 g0 []) (map fst part) = (mkEobj e g1 streams, map snd part) /\ pos g1 = drawn i) /\
    (forall i st, nth_error (wd_decs w) i = Some st -> let part := flat_map (on_dec sks i) hist in
       exists rd d0 rd', In (XNewDec rd, XDecMade i) hist /\ new_decryptor C rd = (Ok d0, rd') /\
         dcalls C (mkDobj d0 []) (map fst part) = (st, map snd part)).
Proof.
  intros C g pks sks Hpk Hsk hist w H.
  assert (K : exists at_ drawn, keeps C (mkWorld g pks sks [] []) hist w at_ drawn).
  { induction H as [|h w c w' r H IH Hs].
    - exists (fun _ _ => 0), (fun _ => 0). constructor; cbn [wd_rng wd_pks wd_sks wd_encs wd_decs]; auto; try lia; try (intros [|i]; discriminate).
      + clear - Hpk. induction Hpk; constructor; auto. repeat split; auto.
      + clear - Hsk. induction Hsk; constructor; auto. repeat split; auto.
    - destruct IH as (a & d & K). eapply keeps_step; eassumption. }
  destruct K as (place & drawn & []). cbn [wd_rng wd_pks wd_sks] in *. exists place, drawn. split; [exact kp_range0|]. split; [exact kp_inj0|]. split.
  - intros i e ss Hi. cbv zeta. destruct (kp_encs0 i e ss Hi) as (sender & blk & Hin & Hx).
    destruct (Hx (mkRng (fun a => tape g (place i a)) 0)) as (e0 & g0 & N1 & N2); [cbn [tape pos]; reflexivity|].
    exists sender, blk, e0, g0, (adv (mkRng (fun a => tape g (place i a)) 0) (drawn i)). auto.
  - intros i st Hi. cbv zeta. exact (kp_decs0 i st Hi).
Qed.
Print Assumptions C91_objects_independent.

(** Two Encryptors at work in turn with the same two key objects, and two Decryptors with the same private key object. *)
Fixpoint xcalls (C : crypto) (w : world) (cs : list xcall) : world * list (xcall * xret) :=
  match cs with
  | [] => (w, [])
  | c :: cs' => let '(w1, r) := xstep C w c in let '(w2, h) := xcalls C w1 cs' in (w2, (c, r) :: h)
  end.
Lemma xcalls_happens C w0 cs : forall w h, happens C w0 h w -> happens C w0 (h ++ snd (xcalls C w cs)) (fst (xcalls C w cs)).
Proof.
  induction cs as [|c cs IH]; intros w h H; cbn [xcalls].
  - cbn [fst snd]. rewrite app_nil_r. exact H.
  - destruct (xstep C w c) as [w1 r] eqn:E. specialize (IH w1 (h ++ [(c, r)]) (hp_call _ _ _ _ _ _ _ H E)).
    destruct (xcalls C w1 cs) as [w2 h2]. cbn [fst snd] in *. rewrite <- app_assoc in IH. exact IH.
Qed.
Lemma xcalls_from C w0 cs : happens C w0 (snd (xcalls C w0 cs)) (fst (xcalls C w0 cs)).
Proof. exact (xcalls_happens C w0 cs w0 [] (hp_start _ _)). Qed.
Definition w_start : world := mkWorld g0 [pkA; pkB] [skA; skB] [] [].
Definition schedule : list xcall :=
  [XNewEnc (Some skS) 4; XNewEnc None 8; XAdd 1 0; XAdd 0 0; XAdd 1 1; XAdd 0 1; XNewDec (whole file1); XEnc 1 (EEncrypt src sink); XSet 0 1 (Some pkS);
   XNewDec (whole file1); XEnc 0 (EStream sink); XSet 1 1 (Some pkS); XEnc 0 (EWrite 0 text); XDec 0 (DDecrypt sink); XDec 1 DStream;
   XEnc 0 (EClose 0); XDec 1 (DRead 0 3)].
Definition xtold (r : xret) : option (res unit * option Z * bytes) :=
  match r with
  | XE (ERet x (Some w)) => Some (x, Some (len (w_out w)), [])
  | XE (ERet x None) => Some (x, None, [])
  | XD (DRet x (Some w) b) => Some (x, Some (len (w_out w)), b)
  | XD (DRet x None b) => Some (x, None, b)
  | _ => None
  end.
Example C91_instance :
  Forall right_pk [pkA; pkB] /\ Forall (right_sk toy) [skA; skB] /\
  exists h w, happens toy w_start h w /\ map fst h = schedule /\ (length (wd_encs w), length (wd_decs w)) = (2%nat, 2%nat) /\
    map (fun x => xtold (snd x)) h =
    [None; None; Some (Ok tt, None, []); Some (Ok tt, None, []); Some (Ok tt, None, []); Some (Ok tt, None, []); None; Some (Ok tt, Some 443, []);
     Some (Ok tt, None, []); None; Some (Ok tt, None, []); Some (Ok tt, None, []); Some (Ok tt, None, []); Some (Ok tt, Some 11, []);
     Some (Ok tt, None, []); Some (Ok tt, None, []); Some (Ok tt, None, str "hel")].
Proof.
  split; [repeat constructor|]. split; [repeat constructor|].
  exists (snd (xcalls toy w_start schedule)), (fst (xcalls toy w_start schedule)).
  split; [apply xcalls_from|].
  split; [vm_compute; reflexivity|]. split; [vm_compute; reflexivity|]. vm_compute. reflexivity.
Qed.
