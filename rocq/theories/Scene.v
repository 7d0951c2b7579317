(** Concrete sessions over the toy crypto record: they instantiate the hypotheses of the theorems. *)
From Verif Require Import Bytes BytesLemmas GoErr GoIO SpecIO IOProofs Pb SpecPb Crypto CryptoLaws Keys Sign Encrypt Decrypt
  Stream Spec SpecStream Toy.
Local Notation length := List.length.

Definition seedA : bytes := le 32 (7 ^ 80).
Definition seedB : bytes := le 32 (7 ^ 81).
Definition seedS : bytes := le 32 (7 ^ 82).
Definition seedX : bytes := le 32 (7 ^ 84).     (* not a recipient *)
Definition skA := new_private_key toy seedA.
Definition skB := new_private_key toy seedB.
Definition skS := new_private_key toy seedS.
Definition skX := new_private_key toy seedX.
Definition pkA := sk_pk skA.
Definition pkB := sk_pk skB.
Definition pkS := sk_pk skS.

(** a source of randomness *)
Definition g0 : rng := mkRng (fun p => z2b (p * p * 5 + p * 7 + 3)) 0.

Definition mk_session (sender : option privkey) (blk : Z) (pks : list pubkey) : option (encryptor * rng) :=
  match new_encryptor toy sender blk g0 with
  | (Ok e0, g1) => add_recipients toy e0 pks g1
  | _ => None
  end.
Definition dummy : encryptor := mkEnc empty_header [] [] 0 None None [] None false false false.
(** signed by S, for A and B, 4-byte chunks *)
Definition e1 : encryptor := Eval vm_compute in match mk_session (Some skS) 4 [pkA; pkB] with Some (e, _) => e | None => dummy end.
(** anonymous, for A and B *)
Definition e2 : encryptor := Eval vm_compute in match mk_session None 4 [pkA; pkB] with Some (e, _) => e | None => dummy end.
Definition g1 : rng := mkRng (tape g0) 120.

Lemma mk_session_ok sender blk pks e g : mk_session sender blk pks = Some (e, g) -> session toy sender blk pks g0 e g.
Proof.
  unfold mk_session, session. destruct (new_encryptor toy sender blk g0) as [[e0|x|x] g2]; try discriminate.
  intros H. exists e0, g2. auto.
Qed.
Lemma session1 : session toy (Some skS) 4 [pkA; pkB] g0 e1 g1.
Proof. apply mk_session_ok. vm_compute. reflexivity. Qed.
Lemma session2 : session toy None 4 [pkA; pkB] g0 e2 g1.
Proof. apply mk_session_ok. vm_compute. reflexivity. Qed.

(** "hello world": two full chunks and a shorter last one, delivered in odd pieces *)
Definition text : bytes := str "hello world".
Definition src : reader := [(str "hel", None); ([], None); (str "lo worl", None); (str "d", Some IoEOF)].
(** "helloooo": a multiple of the chunk size *)
Definition text8 : bytes := str "helloooo".
Definition src8 : reader := [(text8, None)].
Lemma src_delivers : delivers src text IoEOF.
Proof.
  unfold src, text. apply (dl_data (str "hel") _ (str "lo world") IoEOF). apply (dl_data [] _ (str "lo world") IoEOF).
  apply (dl_data (str "lo worl") _ (str "d") IoEOF). apply (dl_data_fail (str "d") IoEOF []). constructor.
Qed.
Lemma src8_delivers : delivers src8 text8 IoEOF.
Proof. apply (delivers_whole text8). Qed.

(** a destination which takes at most 3 bytes in each of its first two writes *)
Definition dst : writer := mkWriter [] [(3, None); (2, None)] [] 0.
Lemma dst_accepts : accepts dst.
Proof. split; repeat constructor. Qed.

(** the encrypted files *)
Definition file1 : bytes := Eval vm_compute in
  match encrypt toy e1 src dst g1 with (_, _, w, _, Ok _) => w_out w | _ => [] end.
Definition file2 : bytes := Eval vm_compute in
  match encrypt toy e2 src8 dst g1 with (_, _, w, _, Ok _) => w_out w | _ => [] end.
Definition enc_made (x : encryptor * reader * writer * rng * res unit) (f : bytes) : bool :=
  match x with (_, _, w, _, Ok _) => beq (w_out w) f | _ => false end.
Lemma enc_made_ok x f : enc_made x f = true -> exists e r w g, x = (e, r, w, g, Ok tt) /\ w_out w = f.
Proof.
  destruct x as [[[[e r] w] g] [[]|y|y]]; cbn; try discriminate. intros H. apply beq_eq in H. exists e, r, w, g. auto.
Qed.
Lemma file1_made : exists e r w g, encrypt toy e1 src dst g1 = (e, r, w, g, Ok tt) /\ w_out w = file1.
Proof. apply enc_made_ok. vm_compute. reflexivity. Qed.
Lemma file2_made : exists e r w g, encrypt toy e2 src8 dst g1 = (e, r, w, g, Ok tt) /\ w_out w = file2.
Proof. apply enc_made_ok. vm_compute. reflexivity. Qed.

Lemma keypair_new seed : len seed = 32 -> keypair toy seed (new_private_key toy seed).
Proof. intros H. constructor; cbn [new_private_key sk_Sk sk_pk pk_Pk sk_ck pk_ck]; auto. Qed.
Lemma pubof_new seed : len seed = 32 -> pubof toy seed (sk_pk (new_private_key toy seed)).
Proof. intros H. constructor; cbn [new_private_key sk_Sk sk_pk pk_Pk sk_ck pk_ck]; auto. Qed.
Lemma kA : keypair toy seedA skA. Proof. apply keypair_new; vm_compute; reflexivity. Qed.
Lemma kB : keypair toy seedB skB. Proof. apply keypair_new; vm_compute; reflexivity. Qed.
Lemma kS : keypair toy seedS skS. Proof. apply keypair_new; vm_compute; reflexivity. Qed.
Lemma kX : keypair toy seedX skX. Proof. apply keypair_new; vm_compute; reflexivity. Qed.
Lemma pA : pubof toy seedA pkA. Proof. apply pubof_new; vm_compute; reflexivity. Qed.
Lemma pB : pubof toy seedB pkB. Proof. apply pubof_new; vm_compute; reflexivity. Qed.
Lemma pS : pubof toy seedS pkS. Proof. apply pubof_new; vm_compute; reflexivity. Qed.
Lemma matches1 : sender_matches toy (Some skS) (Some pkS).
Proof. exists seedS, pkS. split; [apply kS|]. split; [reflexivity|apply pS]. Qed.

Definition no_accident_b (h : header) (seed root : bytes) : bool :=
  forallb (fun w => match opens toy h (scalar_of toy seed) (ed_public toy seed) w with Some k => beq k root | None => true end) (h_keys h).
Lemma no_accident_ok h seed root : no_accident_b h seed root = true -> no_accident toy h seed root.
Proof.
  intros H w k Hw Ho. unfold no_accident_b in H. rewrite forallb_forall in H. specialize (H w Hw). rewrite Ho in H.
  apply beq_eq. exact H.
Qed.
Lemma na1A : no_accident toy (e_hdr e1) seedA (e_key e1). Proof. apply no_accident_ok. vm_compute. reflexivity. Qed.
Lemma na1B : no_accident toy (e_hdr e1) seedB (e_key e1). Proof. apply no_accident_ok. vm_compute. reflexivity. Qed.
Lemma na2A : no_accident toy (e_hdr e2) seedA (e_key e2). Proof. apply no_accident_ok. vm_compute. reflexivity. Qed.
Lemma na2B : no_accident toy (e_hdr e2) seedB (e_key e2). Proof. apply no_accident_ok. vm_compute. reflexivity. Qed.
(** A and B really are different keys, and X opens none of the wrapped keys *)
Lemma keys_differ : pk_Pk pkA <> pk_Pk pkB.
Proof. vm_compute. discriminate. Qed.
Lemma X_opens_nothing : Forall (fun w => opens toy (e_hdr e1) (scalar_of toy seedX) (ed_public toy seedX) w = None) (h_keys (e_hdr e1)).
Proof. change (h_keys (e_hdr e1)) with [nth 0 (h_keys (e_hdr e1)) (mkWkey [] [] []); nth 1 (h_keys (e_hdr e1)) (mkWkey [] [] [])].
  apply Forall_cons; [vm_compute; reflexivity|]. apply Forall_cons; [vm_compute; reflexivity|]. apply Forall_nil. Qed.

(** absence of forgeries is decidable over the toy AEAD, whose tag shows the frame number and ends with ten 0s *)
Definition no_forgery_b (fk : file_keys) (cs : list bytes) (s : bytes) : bool :=
  forallb (fun e => if negb (beq (drop (Z.of_nat e - 10) (take (Z.of_nat e) s)) (zeros 10)) then true else
    forallb (fun p =>
    let w := take 4 (drop (Z.of_nat p) s) in
    let c := take (Z.of_nat e - Z.of_nat p - 4) (drop (Z.of_nat p + 4) s) in
    let n4 := take 4 (drop (len c - 16) c) in
    match toy_open (fk_data fk) (n4 ++ drop 4 (fk_base fk)) c w with
    | None => true
    | Some pt => existsb (fun j => match nth_error cs j with Some x => beq x pt | None => false end && beq (be32 (Z.of_nat j)) n4 &&
                   beq w (frame_word pt (Nat.eqb (S j) (length cs)))) (seq 0 (length cs))
    end) (seq 0 (S (length s)))) (seq 0 (S (length s))).
Lemma poly_range m : 0 <= poly 65535 m < 65536.
Proof.
  unfold poly. assert (forall a, 0 <= a < 65536 -> 0 <= fold_left (fun a b => Z.land (a * 263 + b2z b + 1) 65535) m a < 65536) as A.
  { induction m as [|x m IH]; intros a Ha; cbn [fold_left]; [exact Ha|]. apply IH. change 65535 with (Z.ones 16). rewrite Z.land_ones by lia.
    apply Z.mod_pos_bound. lia. }
  apply A. lia.
Qed.
Lemma no_forgery_ok fk cs s : no_forgery_b fk cs s = true -> no_forgery toy fk cs s.
Proof.
  intros H pre w c post i pt Hs Hw Ho. unfold no_forgery_b in H. rewrite forallb_forall in H.
  assert (Hlen : (length pre <= length s /\ length c <= length s)%nat) by (rewrite Hs, !app_length; lia).
  specialize (H (length pre + 4 + length c)%nat). rewrite in_seq in H.
  specialize (H ltac:(rewrite Hs, !app_length; unfold len in Hw; lia)).
  replace (Z.of_nat (length pre + 4 + length c)) with (len pre + len w + len c) in H by (unfold len in *; lia).
  replace (take (len pre + len w + len c) s) with (pre ++ w ++ c) in H.
  2:{ symmetry. replace s with ((pre ++ w ++ c) ++ post) by (rewrite Hs, <- !app_assoc; reflexivity). apply take_app_eq. rewrite !len_app. lia. }
  assert (Htl : drop (len pre + len w + len c - 10) (pre ++ w ++ c) = zeros 10).
  { change (gcm_open toy) with toy_open in Ho. unfold toy_open in Ho. destruct (beq c _) eqn:E; [|discriminate]. apply beq_eq in E.
    set (p := take (len c - 16) c) in *. pose proof (f_equal len E) as El. rewrite len_app, len_toy_tag in El.
    replace (len pre + len w + len c - 10) with (len pre + len w + len p + 6) by lia. rewrite E. unfold toy_tag. rewrite !app_assoc.
    set (q := poly 65535 _). assert (Hq : 0 <= q < 65536) by apply poly_range.
    change (le 12 q) with ([z2b q; z2b (q / 256)] ++ le 10 (q / 256 / 256)).
    replace (q / 256 / 256) with 0 by (rewrite Z.div_div by lia; rewrite Z.div_small by lia; reflexivity).
    rewrite (app_assoc _ [z2b q; z2b (q / 256)] (le 10 0)). rewrite drop_app_eq; [reflexivity|].
    rewrite !len_app. rewrite (len_take_le 4) by (rewrite len_app; pose proof (len_nonneg (frame_nonce (fk_base fk) i)); change (len (zeros 4)) with 4; lia).
    change (len [z2b q; z2b (q / 256)]) with 2. lia. }
  rewrite Htl in H. change (negb (beq (zeros 10) (zeros 10))) with false in H. cbv iota in H. rewrite forallb_forall in H.
  specialize (H (length pre)). rewrite in_seq in H. specialize (H ltac:(lia)). cbv zeta in H.
  change (Z.of_nat (length pre)) with (len pre) in H. replace (len pre + len w + len c - len pre - 4) with (len c) in H by lia.
  assert (Hd : drop (len pre) s = w ++ c ++ post) by (rewrite Hs; apply drop_app_eq; reflexivity).
  assert (Hd4 : drop (len pre + 4) s = c ++ post).
  { rewrite Hs, app_assoc. apply drop_app_eq. rewrite len_app. lia. }
  rewrite Hd, Hd4 in H. rewrite !take_app_eq in H by (reflexivity || (symmetry; exact Hw)).
  change (gcm_open toy) with toy_open in Ho.
  assert (Hn : take 4 (drop (len c - 16) c) = be32 i).
  { unfold toy_open in Ho. destruct (beq c _) eqn:E; [|discriminate]. apply beq_eq in E. injection Ho as Hp.
    set (p := take (len c - 16) c) in *. pose proof (f_equal len E) as El. rewrite len_app, len_toy_tag in El.
    rewrite E at 2. replace (len c - 16) with (len p) by lia. rewrite drop_app_eq by reflexivity. unfold toy_tag, frame_nonce.
    rewrite take_app_l; [|rewrite len_take_le by (rewrite !len_app, len_be32; pose proof (len_nonneg (drop 4 (fk_base fk))); change (len (zeros 4)) with 4; lia); lia].
    rewrite take_all by (apply len_take_ub; lia). rewrite <- app_assoc. apply take_app_eq. reflexivity. }
  rewrite Hn in H. change (be32 i ++ drop 4 (fk_base fk)) with (frame_nonce (fk_base fk) i) in H. rewrite Ho in H.
  apply existsb_exists in H. destruct H as (j & _ & H). rewrite !Bool.andb_true_iff in H. destruct H as ((H1 & H2) & H3).
  exists j. destruct (nth_error cs j) as [x|]; [|discriminate]. apply beq_eq in H1, H2, H3. subst x. auto.
Qed.
