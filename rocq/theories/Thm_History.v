(** Theorems on sequences of calls: C60 (SetPrivateKey), C61 (AddRecipient). *)
From Verif Require Import Bytes BytesLemmas GoErr GoIO SpecIO IOProofs Pb SpecPb PbProofs Crypto CryptoLaws Keys Sign
  Encrypt Decrypt Stream Spec SpecStream EncryptProofs DecryptProofs AcceptProofs OpenProofs RoundTrip StreamProofs StreamRead Hostile
  Support Toy Scene Thm_Encrypt Thm_Decrypt.
Local Notation length := List.length.
Local Notation concat := List.concat.

(** ** C60: calling SetPrivateKey several times *)
(** SetPrivateKey(sk, spk) for each pair in turn, whatever each call returned; the results in order *)
Fixpoint set_keys (C : crypto) (d : decryptor) (calls : list (privkey * option pubkey)) : decryptor * list (res unit) :=
  match calls with
  | [] => (d, [])
  | (sk, spk) :: calls' =>
      let '(d1, _, r) := set_private_key C d sk spk in
      let '(d2, rs) := set_keys C d1 calls' in (d2, r :: rs)
  end.
(** the keys are genuine *)
Definition genuine (C : crypto) (calls : list (privkey * option pubkey)) : Prop :=
  Forall (fun c => exists seed, keypair C seed (fst c)) calls.
(** the owner of [sk] finds in the header a signature of the sender [spk] *)
Definition sender_seen (C : crypto) (h : header) (sk : privkey) (spk : option pubkey) : Prop :=
  exists seed pk root sig, keypair C seed sk /\ spk = Some pk /\ unwraps C h seed root /\ file_sender C h root = Some sig /\
    sig <> zeros 64 /\ signed_by C (pk_Pk pk) (sender_message C h root) sig.

(** everything SetPrivateKey leaves alone *)
Definition same_file (d d' : decryptor) : Prop :=
  d_hdr d' = d_hdr d /\ d_rd d' = d_rd d /\ d_hdrsum d' = d_hdrsum d /\ d_eof d' = d_eof d /\ d_stream d' = d_stream d.
Lemma same_file_trans a b c : same_file a b -> same_file b c -> same_file a c.
Proof. unfold same_file. intuition congruence. Qed.

Lemma set_shape C d seed sk spk d' sk' rs : crypto_ok C -> keypair C seed sk -> set_private_key C d sk spk = (d', sk', rs) ->
  same_file d d' /\
  match rs with
  | Ok _ => exists root signed, unwraps C (d_hdr d) seed root /\ verify_sender C (d_hdr d) root spk = Ok signed /\
              keyed C d root spk (d_auth d || signed) d'
  | _ => d_auth d' = d_auth d
  end.
Proof.
  intros HC Hk H. unfold set_private_key in H.
  destruct (find_key C (d_hdr d) (h_keys (d_hdr d)) sk) as [r sk1] eqn:Ef.
  pose proof (find_key_spec C (d_hdr d) seed HC _ _ _ _ Hk Ef) as (Hk1 & Hf). cbv zeta in Hf.
  destruct r as [root|x|]; [| |contradiction].
  2: { injection H as <- <- <-. split; [repeat split|reflexivity]. }
  assert (Hfound : unwraps C (d_hdr d) seed root).
  { destruct Hf as (pre & w & post & H1 & H2 & H3 & _). exists pre, w, post. auto. }
  cbv zeta in H. destruct (verify_sender C (d_hdr d) root spk) as [signed|x|] eqn:Ev.
  - unfold expand in H. change (sha256_size + aes_key_size + aead_nonce_size) with 76 in H.
    change aead_nonce_size with 12 in H. change aes_key_size with 32 in H. change data_key_expansion with (str "Data Key Expansion") in H.
    pose proof (len_hkdf C root (d_hdrsum d) (str "Data Key Expansion") 76 HC ltac:(lia)) as Hkl.
    rewrite new_gcm_32 in H by (rewrite len_take_le; [reflexivity|]; rewrite len_drop by lia; lia).
    rewrite drop_drop in H by lia. change (32 + 12) with 44 in H. change gcm_overhead with 16 in H.
    injection H as <- <- <-. split; [repeat split|]. exists root, signed. split; [exact Hfound|]. split; [exact Ev|]. reflexivity.
  - injection H as <- <- <-. split; [repeat split|reflexivity].
  - injection H as <- <- <-. split; [repeat split|reflexivity].
Qed.
Lemma keypair_seed C a b sk : keypair C a sk -> keypair C b sk -> a = b.
Proof.
  intros [H1 H2 _ _] [H3 H4 _ _]. rewrite H2 in H4. apply (f_equal (take 32)) in H4. rewrite !take_app_l in H4 by lia.
  rewrite !take_all in H4 by lia. exact H4.
Qed.
Lemma signed_seen C h seed root sk spk : crypto_ok C -> keypair C seed sk -> unwraps C h seed root ->
  (verify_sender C h root spk = Ok true <-> (exists b, verify_sender C h root spk = Ok b) /\ sender_seen C h sk spk).
Proof.
  intros HC Hk Hu. pose proof (verify_sender_spec C h root spk HC) as Hv. split.
  - intros E. rewrite E in Hv. split; [eauto|]. destruct Hv as (pk & sig & H1 & _ & H2 & H3 & H4). exists seed, pk, root, sig. auto 10.
  - intros ((b & E) & seed' & pk & root' & sig & Hk' & _ & Hu' & H1 & H2 & _). rewrite E in *. destruct b; [reflexivity|].
    assert (seed' = seed) by (eapply keypair_seed; eassumption). subst seed'. rewrite (unwraps_det _ _ _ _ _ Hu' Hu) in H1. congruence.
Qed.

Lemma set_keys_auth C : crypto_ok C -> forall calls d0 d rs, genuine C calls -> set_keys C d0 calls = (d, rs) ->
  same_file d0 d /\ length rs = length calls /\
  (d_auth d = true <-> d_auth d0 = true \/ exists i sk spk, nth_error calls i = Some (sk, spk) /\ nth_error rs i = Some (Ok tt) /\ sender_seen C (d_hdr d0) sk spk).
Proof.
  intros HC. induction calls as [|[sk spk] calls IH]; intros d0 d rs Hg H; cbn [set_keys] in H.
  - injection H as <- <-. split; [repeat split|]. split; [reflexivity|]. split; [auto|]. intros [X|(i & sk & spk & X & _)]; [exact X|]. destruct i; discriminate X.
  - inversion Hg as [|? ? (seed & Hk) Hg']; subst. cbn [fst] in Hk.
    destruct (set_private_key C d0 sk spk) as [[d1 sk1] r] eqn:E1. destruct (set_keys C d1 calls) as [d2 rs2] eqn:E2. injection H as <- <-.
    destruct (set_shape _ _ _ _ _ _ _ _ HC Hk E1) as (Hs1 & Hr). destruct (IH _ _ _ Hg' E2) as (Hs2 & Hl & Ha).
    split; [eapply same_file_trans; eassumption|]. split; [cbn [length]; congruence|]. destruct Hs1 as (Hh & _). rewrite Hh in Ha.
    assert (Hd1 : d_auth d1 = true <-> d_auth d0 = true \/ (r = Ok tt /\ sender_seen C (d_hdr d0) sk spk)).
    { destruct r as [[]|x|x].
      - destruct Hr as (root & sg & Hu & Hv & Hkd). unfold keyed in Hkd. cbv zeta in Hkd. subst d1. cbn [d_auth].
        pose proof (signed_seen C (d_hdr d0) seed root sk spk HC Hk Hu) as Hss. rewrite orb_true_iff. split.
        + intros [A|A]; [left; exact A|right]. subst sg. apply Hss in Hv. tauto.
        + intros [A|(_ & A)]; [left; exact A|right]. assert (X : verify_sender C (d_hdr d0) root spk = Ok true) by (apply Hss; split; [eauto|exact A]). congruence.
      - rewrite Hr. split; [auto|]. intros [A|(A & _)]; [exact A|discriminate A].
      - rewrite Hr. split; [auto|]. intros [A|(A & _)]; [exact A|discriminate A]. }
    rewrite Ha, Hd1. split.
    + intros [[A|(A & B)]|(i & sk' & spk' & A & B & D)]; [left; exact A| |].
      * right. exists O, sk, spk. subst r. auto.
      * right. exists (S i), sk', spk'. auto.
    + intros [A|(i & sk' & spk' & A & B & D)]; [auto|]. destruct i as [|i]; cbn [nth_error] in A, B.
      * injection A as <- <-. injection B as ->. left. right. auto.
      * right. exists i, sk', spk'. auto.
Qed.

(** After any sequence of SetPrivateKey calls on a new Decryptor, AuthenticatedSender is true exactly if one of the calls
    succeeded with the key of a sender whose signature is in the header. *)
Theorem C60_authenticated_exactly :
  forall C, crypto_ok C ->
  forall rd d0 rd', new_decryptor C rd = (Ok d0, rd') ->
  forall calls d rs, genuine C calls -> set_keys C d0 calls = (d, rs) ->
  (authenticated_sender d = true <->
   exists i sk spk, nth_error calls i = Some (sk, spk) /\ nth_error rs i = Some (Ok tt) /\ sender_seen C (d_hdr d0) sk spk).
Proof.
  intros C HC rd d0 rd' Hn calls d rs Hg H. destruct (set_keys_auth C HC _ _ _ _ Hg H) as (_ & _ & Ha).
  assert (H0 : d_auth d0 = false). { destruct (new_decryptor_any _ _ _ _ Hn) as (_ & h & ck & -> & _). reflexivity. }
  unfold authenticated_sender. rewrite Ha, H0. split; [intros [X|X]; [discriminate X|exact X]|auto].
Qed.
Print Assumptions C60_authenticated_exactly.

(** If the last call succeeds, the Decryptor is the one this call alone would have made: what Decrypt and the stream reader do
    depends on the last key and sender only.  The one exception is the flag: a Decryptor stays authenticated because of an
    earlier call even if the last key sees no sender (possible only if the two keys unwrap different root keys). *)
Definition with_auth (d : decryptor) (a : bool) : decryptor :=
  mkDec (d_hdr d) (d_ae d) (d_hmac d) (d_sender d) (d_rd d) (d_buf d) (d_buflen d) (d_nonce d) (d_key d) (d_hdrsum d) a (d_eof d) (d_stream d).
Lemma set_again C d0 d sk spk d' sk' : same_file d0 d -> d_auth d0 = false -> set_private_key C d sk spk = (d', sk', Ok tt) ->
  exists d1, set_private_key C d0 sk spk = (d1, sk', Ok tt) /\ d' = with_auth d1 (d_auth d || d_auth d1).
Proof.
  intros (Hh & Hr & Hc & He & Hst) H0 H. unfold set_private_key in *. rewrite Hh, Hr, Hc, He, Hst in H. rewrite H0.
  destruct (find_key C (d_hdr d0) (h_keys (d_hdr d0)) sk) as [[root|x|x] sk1]; try discriminate H. cbv zeta in *.
  destruct (verify_sender C (d_hdr d0) root spk) as [sg|x|x]; try discriminate H.
  destruct (new_gcm _) as [a|x|x]; try discriminate H. injection H as <- <-. eexists. split; [reflexivity|]. reflexivity.
Qed.
Lemma set_keys_app C : forall a b d d' rs, set_keys C d (a ++ b) = (d', rs) ->
  exists d1 r1 r2, set_keys C d a = (d1, r1) /\ set_keys C d1 b = (d', r2) /\ rs = r1 ++ r2.
Proof.
  induction a as [|[sk spk] a IH]; intros b d d' rs H; cbn [app set_keys] in *; [eauto 6|].
  destruct (set_private_key C d sk spk) as [[d1 sk1] r]. destruct (set_keys C d1 (a ++ b)) as [d2 rs2] eqn:E. injection H as <- <-.
  destruct (IH _ _ _ _ E) as (d3 & r1 & r2 & H1 & H2 & ->). rewrite H1. exists d3, (r :: r1), r2. auto.
Qed.
Theorem C60_last_call_decides_partial :
  forall C, crypto_ok C ->
  forall rd d0 rd', new_decryptor C rd = (Ok d0, rd') ->
  forall calls sk spk d rs, genuine C (calls ++ [(sk, spk)]) -> set_keys C d0 (calls ++ [(sk, spk)]) = (d, rs ++ [Ok tt]) ->
  exists d1, opened_by C rd sk spk d1 /\ d = with_auth d1 (authenticated_sender d) /\
    (authenticated_sender d1 = true \/ authenticated_sender d = false -> d = d1).
Proof.
  intros C HC rd d0 rd' Hn calls sk spk d rs Hg H.
  assert (H0 : d_auth d0 = false). { destruct (new_decryptor_any _ _ _ _ Hn) as (_ & h & ck & -> & _). reflexivity. }
  destruct (set_keys_app _ _ _ _ _ _ H) as (d2 & r1 & r2 & H1 & H2 & Hr). apply Forall_app in Hg.
  destruct (set_keys_auth C HC _ _ _ _ (proj1 Hg) H1) as (Hs & _). cbn [set_keys] in H2.
  destruct (set_private_key C d2 sk spk) as [[d3 sk3] r3] eqn:E3. injection H2 as <- <-. apply app_inj_tail in Hr. destruct Hr as [_ <-].
  destruct (set_again _ _ _ _ _ _ _ Hs H0 E3) as (d1 & E1 & ->). exists d1. split; [exists d0, rd', sk3; auto|].
  unfold authenticated_sender. cbn [with_auth d_auth]. split; [reflexivity|].
  intros Hx. assert (Hb : d_auth d2 || d_auth d1 = d_auth d1).
  { destruct Hx as [-> |Hx]; [apply orb_true_r|]. rewrite Hx. apply orb_false_iff in Hx. destruct Hx as [_ ->]. reflexivity. }
  rewrite Hb. destruct d1. reflexivity.
Qed.
Print Assumptions C60_last_call_decides_partial.

(** Refuted as stated (the flag reports the outcome of the last call): after a successful call with the sender's key and a
    second one which rejects another sender (ErrBadSender), the Decryptor still calls itself authenticated. *)
Theorem C60_refuted :
  ~ (forall C rd d0 rd', crypto_ok C -> new_decryptor C rd = (Ok d0, rd') ->
     forall calls sk spk d rs x, genuine C (calls ++ [(sk, spk)]) -> set_keys C d0 (calls ++ [(sk, spk)]) = (d, rs ++ [Fail x]) ->
     authenticated_sender d = false).
Proof.
  intros H. destruct (new_decryptor toy (whole file1)) as [r rd'] eqn:En.
  assert (Hr : exists d0, r = Ok d0). { destruct r as [d0|x|x]; [eauto| |]; exfalso; apply (f_equal fst) in En; vm_compute in En; discriminate En. }
  destruct Hr as (d0 & ->).
  destruct (set_keys toy d0 ([(skB, Some pkS)] ++ [(skB, Some pkA)])) as [d rs] eqn:Es.
  assert (Hd : d0 = match fst (new_decryptor toy (whole file1)) with Ok d => d | _ => d0 end) by (rewrite En; reflexivity).
  assert (Hrs : rs = [Ok tt; Fail (EWrap "decrypt" ErrBadSender)]). { apply (f_equal snd) in Es. cbn [snd] in Es. rewrite <- Es, Hd. vm_compute. reflexivity. }
  assert (Ha : authenticated_sender d = true). { apply (f_equal fst) in Es. cbn [fst] in Es. rewrite <- Es, Hd. vm_compute. reflexivity. }
  rewrite Hrs in Es. specialize (H toy (whole file1) d0 rd' toy_ok En [(skB, Some pkS)] skB (Some pkA) d [Ok tt] _ 
    ltac:(repeat constructor; exists seedB; exact kB) Es). congruence.
Qed.
Print Assumptions C60_refuted.
(** a wrong key first, then the right one *)
Example C60_instance : exists d0 rd' d, new_decryptor toy (whole file1) = (Ok d0, rd') /\
  set_keys toy d0 [(skX, Some pkS); (skB, Some pkS)] = (d, [Fail ErrBadKey; Ok tt]) /\ authenticated_sender d = true /\
  genuine toy [(skX, Some pkS); (skB, Some pkS)].
Proof.
  destruct (new_decryptor toy (whole file1)) as [r rd'] eqn:En.
  assert (Hr : exists d0, r = Ok d0). { destruct r as [d0|x|x]; [eauto| |]; exfalso; apply (f_equal fst) in En; vm_compute in En; discriminate En. }
  destruct Hr as (d0 & ->). exists d0, rd'.
  assert (Hd : d0 = match fst (new_decryptor toy (whole file1)) with Ok d => d | _ => d0 end) by (rewrite En; reflexivity).
  destruct (set_keys toy d0 [(skX, Some pkS); (skB, Some pkS)]) as [d rs] eqn:Es. exists d. split; [reflexivity|].
  assert (Hrs : rs = [Fail ErrBadKey; Ok tt]). { apply (f_equal snd) in Es. cbn [snd] in Es. rewrite <- Es, Hd. vm_compute. reflexivity. }
  assert (Ha : authenticated_sender d = true). { apply (f_equal fst) in Es. cbn [fst] in Es. rewrite <- Es, Hd. vm_compute. reflexivity. }
  subst rs. split; [reflexivity|]. split; [exact Ha|]. constructor; [exists seedX; exact kX|]. constructor; [exists seedB; exact kB|constructor].
Qed.

(** ** C61: rejected recipients leave no trace *)
(** AddRecipient for each key in turn, whatever each call returned *)
Fixpoint try_recipients (C : crypto) (e : encryptor) (pks : list pubkey) (g : rng) : encryptor * rng * list (res unit) :=
  match pks with
  | [] => (e, g, [])
  | pk :: pks' =>
      let '(e1, _, g1, r) := add_recipient C e pk g in
      let '(e2, g2, rs) := try_recipients C e1 pks' g1 in (e2, g2, r :: rs)
  end.
(** the keys whose call returned nil *)
Fixpoint taken (pks : list pubkey) (rs : list (res unit)) : list pubkey :=
  match pks, rs with
  | pk :: pks', Ok _ :: rs' => pk :: taken pks' rs'
  | _ :: pks', _ :: rs' => taken pks' rs'
  | _, _ => []
  end.
Lemma wrap_key_fail C e pk g r g' : crypto_ok C -> wrap_key C e pk g = (r, g') -> match r with Ok _ => True | _ => g' = g end.
Proof.
  intros HC. unfold wrap_key. destruct (to_curve_pk pk) as [[c pk']|x|x]; [|intros H; injection H as <- <-; reflexivity..].
  destruct (X25519 C (e_encSK e) c) as [k|x|x]; [|intros H; injection H as <- <-; reflexivity..].
  destruct (rand_buf rx_nonce_size g) as [rb g1]. unfold expand. rewrite new_gcm_32.
  - cbn [wrapf bind]. intros H. injection H as <- <-. exact I.
  - rewrite len_take_le; [reflexivity|]. rewrite len_hkdf by (assumption || (unfold aes_key_size, rx_nonce_size; lia)). unfold aes_key_size, rx_nonce_size; lia.
Qed.
(** Whatever calls were made, the Encryptor (and the random source) are those of a session with the accepted recipients only:
    all theorems on sessions apply. *)
Theorem C61_rejected_recipients_leave_no_trace :
  forall C, crypto_ok C ->
  forall sender blksize g e0 g0, new_encryptor C sender blksize g = (Ok e0, g0) ->
  forall pks e g' rs, try_recipients C e0 pks g0 = (e, g', rs) ->
  length rs = length pks /\ session C sender blksize (taken pks rs) g e g'.
Proof.
  intros C HC sender blk g e0 g0 Hn pks e g' rs H.
  assert (Hs : e_started e0 = false).
  { unfold new_encryptor in Hn. destruct (new_sender C g) as [[esk epk] g1]. destruct (rand_buf aes_key_size g1) as [key g2].
    destruct (rand_buf salt_size g2) as [salt g3]. destruct (add_sender_sig C sender epk salt key) as [[s a]|x|x]; try discriminate Hn. injection Hn as <- <-. reflexivity. }
  assert (X : length rs = length pks /\ add_recipients C e0 (taken pks rs) g0 = Some (e, g')).
  { clear Hn g. revert e0 g0 Hs e g' rs H. induction pks as [|pk pks IH]; intros e0 g0 Hs e g' rs H; cbn [try_recipients] in H.
    - injection H as <- <- <-. auto.
    - destruct (add_recipient C e0 pk g0) as [[[e1 pk1] g1] r] eqn:Ea. destruct (try_recipients C e1 pks g1) as [[e2 g2] rs2] eqn:Et. injection H as <- <- <-.
      assert (H1 : e_started e1 = false /\ match r with Ok _ => True | _ => e1 = e0 /\ g1 = g0 end).
      { unfold add_recipient in Ea. rewrite Hs in Ea. destruct (wrap_key C e0 pk g0) as [[[w p]|x|x] g3] eqn:Ew; injection Ea as <- <- <- <-;
          [auto|pose proof (wrap_key_fail _ _ _ _ _ _ HC Ew) as Hg; cbn in Hg; auto..]. }
      destruct H1 as [Hs1 H1]. destruct (IH _ _ Hs1 _ _ _ Et) as (Hl & Hadd). split; [cbn [length]; congruence|].
      destruct r as [u|x|x]; cbn [taken add_recipients]; [rewrite Ea; exact Hadd|destruct H1 as [-> ->]; exact Hadd..]. }
  destruct X as [X1 X2]. split; [exact X1|]. exists e0, g0. auto.
Qed.
Print Assumptions C61_rejected_recipients_leave_no_trace.

(** Which recipients are rejected: exactly those whose shared secret is all zeros (low-order points).  For a key object
    of 32 bytes with a right or empty cache, as every constructor of the package makes them. *)
Theorem C61_rejected_exactly :
  forall C, crypto_ok C ->
  forall sender blksize pks g e g', (forall sk, sender = Some sk -> len (sk_Sk sk) = 64) -> session C sender blksize pks g e g' ->
  forall pk, len (pk_Pk pk) = 32 -> pk_ck pk = None \/ pk_ck pk = Some (curve_of (pk_Pk pk)) ->
  let low := x25519 C (e_encSK e) (curve_of (pk_Pk pk)) = zeros 32 in
  exists e' pk' g2 r, add_recipient C e pk g' = (e', pk', g2, r) /\
    (low -> exists x, r = Fail x) /\ (~ low -> r = Ok tt /\ length (h_keys (e_hdr e')) = S (length pks)).
Proof.
  intros C HC sender blk pks g e g' Hg Hs pk Hl Hc low.
  pose proof (session_ready _ _ _ _ _ _ _ HC Hg Hs) as Hr.
  assert (Hkl : length (h_keys (e_hdr e)) = length pks) by (pose proof (rd_keys _ _ _ _ _ Hr) as F; clear -F; induction F; cbn [length]; congruence).
  unfold add_recipient. rewrite (rd_started _ _ _ _ _ Hr). unfold wrap_key.
  assert (Ht : exists p, to_curve_pk pk = Ok (curve_of (pk_Pk pk), p)).
  { unfold to_curve_pk. destruct Hc as [-> | ->]; [|eauto]. rewrite Hl. destruct (Z.ltb_spec 32 32); [lia|]. eauto. }
  destruct Ht as (p & Ht). rewrite Ht. unfold X25519. rewrite (rd_esk _ _ _ _ _ Hr). cbn [Z.eqb Pos.eqb negb].
  assert (Hcl : len (curve_of (pk_Pk pk)) = 32) by (unfold curve_of; apply len_le). rewrite Hcl. cbn [Z.eqb Pos.eqb negb].
  destruct (beq (x25519 C (e_encSK e) (curve_of (pk_Pk pk))) (zeros 32)) eqn:Eb.
  - apply beq_eq in Eb. do 4 eexists. split; [reflexivity|]. split; [eauto|]. intros X. contradiction.
  - assert (Hn : ~ low). { intros X. unfold low in X. rewrite X, beq_refl in Eb. discriminate Eb. }
    destruct (rand_buf rx_nonce_size g') as [rb g3]. unfold expand. rewrite new_gcm_32.
    2: { rewrite len_take_le; [reflexivity|]. rewrite len_hkdf by (assumption || (unfold aes_key_size, rx_nonce_size; lia)). unfold aes_key_size, rx_nonce_size; lia. }
    cbn [wrapf bind]. do 4 eexists. split; [reflexivity|]. split; [intros X; contradiction|]. intros _. split; [reflexivity|].
    cbn [e_with_hdr e_hdr h_add_key h_keys]. rewrite app_length, Hkl. cbn [length]. lia.
Qed.
Print Assumptions C61_rejected_exactly.
(** A is taken, the point of order 2 (y = p - 1, u = 0) is rejected, B is taken *)
Definition low_pk : pubkey := mkPub (le 32 (curve_p - 1)) [] None [].
Example C61_instance : exists e0 g2 e rs, new_encryptor toy (Some skS) 4 g0 = (Ok e0, g2) /\ try_recipients toy e0 [pkA; low_pk; pkB] g2 = (e, g1, rs) /\
  map (fun r => match r with Ok _ => true | _ => false end) rs = [true; false; true] /\ taken [pkA; low_pk; pkB] rs = [pkA; pkB].
Proof.
  destruct (new_encryptor toy (Some skS) 4 g0) as [r g2] eqn:En.
  assert (Hr : exists d0, r = Ok d0). { destruct r as [d0|x|x]; [eauto| |]; exfalso; apply (f_equal fst) in En; vm_compute in En; discriminate En. }
  destruct Hr as (e0 & ->). exists e0, g2.
  assert (Hd : e0 = match fst (new_encryptor toy (Some skS) 4 g0) with Ok d => d | _ => e0 end) by (rewrite En; reflexivity).
  assert (Hg : g2 = snd (new_encryptor toy (Some skS) 4 g0)) by (rewrite En; reflexivity).
  destruct (try_recipients toy e0 [pkA; low_pk; pkB] g2) as [[e g] rs] eqn:Et. exists e, rs. split; [reflexivity|].
  assert (Hrs : map (fun r => match r with Ok _ => true | _ => false end) rs = [true; false; true]).
  { apply (f_equal snd) in Et. cbn [snd] in Et. rewrite <- Et, Hd, Hg. vm_compute. reflexivity. }
  split; [|split; [exact Hrs|]].
  - assert (Hp : g = g1); [|rewrite Hp; reflexivity]. apply (f_equal (fun x => snd (fst x))) in Et. cbn [fst snd] in Et. rewrite <- Et, Hd, Hg.
    vm_compute. reflexivity.
  - destruct rs as [|[u|x|x] [|[u'|x'|x'] [|[u2|x2|x2] [|a l]]]]; try discriminate Hrs; reflexivity.
Qed.
