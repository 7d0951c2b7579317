(** C94: goroutines that use the same key objects at the same time. *)
From Verif Require Import Bytes BytesLemmas GoErr GoIO Pb Crypto CryptoLaws Keys Sign Encrypt Decrypt Stream Spec SpecIO SpecCalls SpecWorld LocalProofs Race
  Thm_Together Toy Scene.
Local Notation length := List.length.
Local Notation concat := List.concat.

Section Race.
  Variables (C : crypto) (pks : list pubkey) (sks : list privkey).
  Hypothesis (Hpk : Forall right_pk pks) (Hsk : Forall (right_sk C) sks).

  Definition sk_right (sk : privkey) : bytes := clamp (take 32 (sha512 C (take 32 (sk_Sk sk)))).
  Definition rightv (c : cell) : option bytes :=
    match c with
    | PkCache k 0 => match nth_error pks k with Some pk => if 32 <? len (pk_Pk pk) then None else Some (curve_of (pk_Pk pk)) | None => None end
    | SkCache k 0 => match nth_error sks k with Some sk => Some (sk_right sk) | None => None end
    | _ => None
    end.

  Definition reads (h : rng) (bs : bytes) : Prop := forall k, 0 <= k < len bs -> tape h (pos h + k) = nth (Z.to_nat k) bs x00.
  Definition post : Type := bytes -> loc * xret -> Prop.

  Fixpoint wp (p : prog (loc * xret)) (known : cell -> Prop) (bs : bytes) (Q : post) : Prop :=
    match p with
    | Ret a => Q bs a
    | Rand f => forall g, match f g with (p', g') => exists n, 0 <= n /\ g' = adv g n /\ wp p' known (bs ++ rng_bytes (tape g) (pos g) (Z.to_nat n)) Q end
    | Load c k => forall v, (v = rightv c \/ v = None) -> (known c -> v <> None) -> wp (k v) (fun x => known x \/ (x = c /\ v <> None)) bs Q
    | Store c v k => v = rightv c /\ v <> None /\ wp k (fun x => known x \/ x = c) bs Q
    end.

  Lemma wp_draw n K known bs Q : (forall r, length r = Z.to_nat n -> wp (K r) known (bs ++ r) Q) -> wp (draw n K) known bs Q.
  Proof.
    intros H. cbn [draw wp]. intros g. cbn [rand_buf]. exists (Z.max 0 n). split; [lia|]. split; [reflexivity|].
    replace (Z.to_nat (Z.max 0 n)) with (Z.to_nat n) by lia. apply H.
    clear. generalize (pos g). induction (Z.to_nat n) as [|m IH]; intros p; [reflexivity|]. cbn. rewrite IH. reflexivity.
  Qed.
  Lemma wp_conv_pk k pk K bs Q : nth_error pks k = Some pk ->
    (forall known, wp (K (if 32 <? len (pk_Pk pk) then Panic "index out of range" else Ok (curve_of (pk_Pk pk)))) known bs Q) ->
    forall known, wp (conv_pk k pk K) known bs Q.
  Proof.
    intros Hk HK known. unfold conv_pk. cbn [wp]. intros v Hv _. destruct v as [v|].
    - intros v' Hv' Hn'. destruct Hv as [Hv|Hv]; [|discriminate]. assert (v' <> None) as Hnn by (apply Hn'; right; split; [reflexivity|discriminate]).
      destruct Hv' as [->|]; [|congruence]. cbn [rightv] in *. rewrite Hk in *. destruct (32 <? len (pk_Pk pk)); [discriminate|]. apply HK.
    - unfold to_curve_pk, pk_with. cbn [pk_ck pk_Pk]. destruct (32 <? len (pk_Pk pk)) eqn:E.
      + apply HK.
      + cbn [wp rightv]. rewrite Hk, E. split; [reflexivity|]. split; [discriminate|]. apply HK.
  Qed.
  Lemma wp_conv_sk k sk K bs Q : nth_error sks k = Some sk -> (forall known, wp (K (sk_right sk)) known bs Q) ->
    forall known, wp (conv_sk C k sk K) known bs Q.
  Proof.
    intros Hk HK known. unfold conv_sk. cbn [wp]. intros v Hv _. destruct v as [v|].
    - intros v' Hv' Hn'. assert (v' <> None) as Hnn by (apply Hn'; right; split; [reflexivity|discriminate]). destruct Hv' as [->|]; [|congruence].
      cbn [rightv]. rewrite Hk. apply HK.
    - split; [|split].
      + cbn [rightv]. rewrite Hk. reflexivity.
      + discriminate.
      + intros v' Hv' Hn'. assert (v' <> None) as Hnn by (apply Hn'; right; reflexivity). destruct Hv' as [->|]; [|congruence]. cbn [rightv]. rewrite Hk. apply HK.
  Qed.
  Lemma wp_find k sk h ks : nth_error sks k = Some sk -> forall K bs Q,
    (forall known, wp (K (fst (find_key C h ks (sk_with sk (Some (sk_right sk)))))) known bs Q) ->
    forall known, wp (find_prog C (conv_sk C k sk) h ks sk K) known bs Q.
  Proof.
    intros Hk. induction ks as [|w ks IH]; intros K bs Q HK known; [apply HK|]. cbn [find_prog]. apply wp_conv_sk; [exact Hk|]. intros known'.
    set (skR := sk_with sk (Some (sk_right sk))) in *. cbn [find_key] in HK.
    assert (Hsnd : snd (unwrap_key C h w skR) = skR).
    { unfold unwrap_key. unfold to_curve_sk. cbn [skR sk_with sk_ck]. reflexivity. }
    destruct (unwrap_key C h w skR) as [[[key|]|x|x] sk']; cbn [fst snd] in *; subst sk'; try apply HK.
    apply IH. exact HK.
  Qed.
  Lemma set_rest_same d sk spk : set_private_key C d sk spk =
    let '(found, sk') := find_key C (d_hdr d) (h_keys (d_hdr d)) sk in let '(d', r) := set_rest C d spk found in (d', sk', r).
  Proof.
    unfold set_private_key, set_rest. destruct (find_key C (d_hdr d) (h_keys (d_hdr d)) sk) as [[key|x|x] sk']; try reflexivity. cbv zeta.
    destruct (verify_sender C (d_hdr d) key spk) as [b|x|x]; try reflexivity. destruct (new_gcm _); reflexivity.
  Qed.

  (** what a call is to do: the same as alone, in a world of its own *)
  Definition as_alone (l : loc) (c : xcall) (bs : bytes) (lr : loc * xret) : Prop :=
    forall h p s, reads h bs -> Forall2 same_pk pks p -> Forall2 (same_sk C) sks s ->
    exists p' s', Forall2 same_pk pks p' /\ Forall2 (same_sk C) sks s' /\
      xstep C (mkWorld h p s (l_encs l) (l_decs l)) c = (mkWorld (adv h (len bs)) p' s' (l_encs (fst lr)) (l_decs (fst lr)), snd lr).

  Lemma reads_app h a b : reads h (a ++ b) -> reads h a /\ reads (adv h (len a)) b.
  Proof.
    intros H. split.
    - intros k Hk. rewrite H by (rewrite len_app; pose proof (len_nonneg b); lia). apply app_nth1. unfold len in Hk. lia.
    - intros k Hk. unfold adv. cbn [tape pos]. rewrite <- Z.add_assoc, H by (rewrite len_app; pose proof (len_nonneg a); lia).
      rewrite app_nth2 by (unfold len; lia). f_equal. unfold len. lia.
  Qed.
  Lemma reads_bytes h r : reads h r -> rng_bytes (tape h) (pos h) (length r) = r.
  Proof.
    intros H. apply (nth_ext _ _ x00 x00).
    - clear. generalize (pos h). induction (length r) as [|n IH]; intros p; [reflexivity|]. cbn. rewrite IH. reflexivity.
    - intros k Hk. assert (L : forall t n p, length (rng_bytes t p n) = n) by (intros t n; induction n as [|n IH]; intros p; cbn; [|rewrite IH]; reflexivity).
      rewrite L in Hk. assert (N : forall t n p k, (k < n)%nat -> nth k (rng_bytes t p n) x00 = t (p + Z.of_nat k)).
      { clear. intros t n. induction n as [|n IH]; intros p k Hk; [lia|]. destruct k as [|k]; cbn [rng_bytes nth]; [f_equal; lia|]. rewrite IH by lia. f_equal. lia. }
      rewrite N by exact Hk. rewrite H by (unfold len; lia). rewrite Nat2Z.id. reflexivity.
  Qed.
  Lemma rand_reads h r n : length r = Z.to_nat n -> reads h r -> rand_buf n h = (r, adv h (len r)).
  Proof.
    intros L H. unfold rand_buf. rewrite <- L, reads_bytes by exact H. f_equal. unfold adv, len. rewrite L. f_equal. f_equal. lia.
  Qed.
  Lemma agree_reads g h n : 0 <= n -> reads h (rng_bytes (tape g) (pos g) (Z.to_nat n)) -> agree g h n.
  Proof.
    intros Hn H k Hk. assert (L : forall t m p, length (rng_bytes t p m) = m) by (intros t m; induction m as [|m IH]; intros p; cbn; [|rewrite IH]; reflexivity).
    rewrite H by (unfold len; rewrite L; lia).
    assert (N : forall t m p j, (j < m)%nat -> nth j (rng_bytes t p m) x00 = t (p + Z.of_nat j)).
    { clear. intros t m. induction m as [|m IH]; intros p j Hj; [lia|]. destruct j as [|j]; cbn [rng_bytes nth]; [f_equal; lia|]. rewrite IH by lia. f_equal. lia. }
    rewrite N by lia. f_equal. lia.
  Qed.
  Lemma len_rng t p n : 0 <= n -> len (rng_bytes t p (Z.to_nat n)) = n.
  Proof.
    intros Hn. unfold len. assert (L : forall m p, length (rng_bytes t p m) = m) by (intros m; induction m as [|m IH]; intros q; cbn; [|rewrite IH]; reflexivity).
    rewrite L. lia.
  Qed.

  Lemma F2_len {A B} (R : A -> B -> Prop) l l' : Forall2 R l l' -> forall k x, nth_error l k = Some x -> exists y, nth_error l' k = Some y /\ R x y.
  Proof. induction 1 as [|a b l l' H F IH]; intros [|k] x Hx; try discriminate; cbn in *; [injection Hx as <-; eauto|eauto]. Qed.
  Lemma F2_none {A B} (R : A -> B -> Prop) l l' : Forall2 R l l' -> forall k, nth_error l k = None -> nth_error l' k = None.
  Proof. induction 1 as [|a b l l' H F IH]; intros [|k] Hx; try discriminate; cbn in *; auto. Qed.
  Lemma same_pk_with pk pk' : same_pk pk pk' -> len (pk_Pk pk) <= 32 -> same_pk (pk_with pk (Some (curve_of (pk_Pk pk)))) pk'.
  Proof.
    intros (H1 & H2 & H3 & H4 & H5) Hl. unfold same_pk, pk_with. cbn [pk_Pk pk_comment pk_hash pk_ck]. repeat (split; [assumption|]). split; [|exact H5].
    right. cbn [pk_Pk pk_ck]. auto.
  Qed.
  Lemma same_sk_with sk sk' : same_sk C sk sk' -> same_sk C (sk_with sk (Some (sk_right sk))) sk'.
  Proof.
    intros (H1 & H2 & H3 & H4). unfold same_sk, sk_with. cbn [sk_Sk sk_pk sk_ck]. repeat (split; [assumption|]). split; [|exact H4].
    right. reflexivity.
  Qed.

  Lemma wp_call l c known : wp (call_code C pks sks l c) known [] (as_alone l c).
  Proof.
    unfold call_code. destruct c as [sender blk|i k|i c|rd|i k spk|i c]; cbn [call_prog].
    - apply wp_draw. intros r Hr. apply wp_draw. intros key Hkey. apply wp_draw. intros salt Hsalt. cbn [wp app]. intros h p s Hh Hp Hs.
      rewrite <- app_assoc in Hh. apply reads_app in Hh as (R1 & Hh). apply reads_app in Hh as (R2 & R3). exists p, s. split; [exact Hp|]. split; [exact Hs|].
      cbn [xstep wd_rng]. unfold new_encryptor, new_sender. rewrite (rand_reads h r 32 Hr R1). cbv zeta beta iota.
      rewrite (rand_reads _ key _ Hkey R2). cbv zeta beta iota. rewrite (rand_reads _ salt _ Hsalt R3), !adv_adv. cbv zeta beta iota.
      rewrite !len_app, Z.add_assoc.
      destruct (add_sender_sig C sender (x25519 C (clamp r) basepoint) salt key) as [[sn au]|x|x]; reflexivity.
    - destruct (nth_error (l_encs l) i) as [[e ss]|] eqn:Ei.
      2:{ cbn [wp]. intros h p s _ Hp Hs. exists p, s. split; [exact Hp|]. split; [exact Hs|]. cbn [xstep wd_encs]. rewrite Ei. rewrite adv_0. destruct l; reflexivity. }
      destruct (nth_error pks k) as [pk|] eqn:Ek.
      2:{ cbn [wp]. intros h p s _ Hp Hs. exists p, s. split; [exact Hp|]. split; [exact Hs|]. cbn [xstep wd_encs wd_pks]. rewrite Ei, (F2_none _ _ _ Hp _ Ek), adv_0. destruct l; reflexivity. }
      unfold add_prog. destruct (e_started e) eqn:Est.
      + cbn [wp]. intros h p s _ Hp Hs. destruct (F2_len _ _ _ Hp _ _ Ek) as (pk' & Ek' & Hsame). exists (set_nth p k pk'), s.
        split; [eapply F2_set; eassumption|]. split; [exact Hs|]. cbn [xstep wd_encs wd_pks wd_rng]. rewrite Ei, Ek'. unfold add_recipient. rewrite Est. rewrite adv_0. reflexivity.
      + apply wp_conv_pk; [exact Ek|]. clear known. intros known.
        destruct (32 <? len (pk_Pk pk)) eqn:El.
        * cbn [wp]. intros h p s _ Hp Hs. destruct (F2_len _ _ _ Hp _ _ Ek) as (pk' & Ek' & Hsame). exists (set_nth p k pk'), s.
          split; [eapply F2_set; eassumption|]. split; [exact Hs|]. cbn [xstep wd_encs wd_pks wd_rng]. rewrite Ei, Ek'. unfold add_recipient, wrap_key. rewrite Est.
          destruct Hsame as (S1 & _ & _ & _ & S5). unfold to_curve_pk. destruct S5 as [->|(S5 & _)]; [|exfalso; rewrite <- S1 in S5; apply Z.ltb_lt in El; lia].
          rewrite <- S1, El, adv_0. reflexivity.
        * apply Z.ltb_ge in El. set (pkR := pk_with pk (Some (curve_of (pk_Pk pk)))).
          assert (Hadd : forall h p s, Forall2 same_pk pks p -> Forall2 (same_sk C) sks s -> exists p', Forall2 same_pk pks p' /\
            xstep C (mkWorld h p s (l_encs l) (l_decs l)) (XAdd i k) = let '(e', _, g', r) := add_recipient C e pkR h in
              (mkWorld g' p' s (set_nth (l_encs l) i (e', ss)) (l_decs l), XE (ERet r None))).
          { intros h p s Hp Hs. destruct (F2_len _ _ _ Hp _ _ Ek) as (pk' & Ek' & Hsame). cbn [xstep wd_encs wd_pks wd_rng wd_sks wd_decs]. rewrite Ei, Ek'.
            destruct (add_recipient C e pk' h) as [[[e' pk2] g'] r] eqn:Ea.
            destruct (add_same C e pkR pk' _ _ _ _ _ (same_pk_with _ _ Hsame El) Ea) as ((a' & Ea') & Hs2). rewrite Ea'.
            exists (set_nth p k pk2). split; [|reflexivity]. eapply F2_set; [exact Hp|exact Ek|]. destruct Hs2 as (Q1 & Q2 & Q3 & Q4 & Q5).
            destruct Hsame as (S1 & S2 & S3 & S4 & S5). unfold same_pk. unfold pkR, pk_with in Q1, Q2, Q3. cbn [pk_Pk pk_comment pk_hash] in Q1, Q2, Q3. auto. }
          assert (Hconv : to_curve_pk pkR = Ok (curve_of (pk_Pk pk), pkR)) by reflexivity.
          destruct (X25519 C (e_encSK e) (curve_of (pk_Pk pk))) as [sek|x|x] eqn:Ex.
          -- cbn [wp]. intros g. fold pkR. destruct (local_add C e pkR g) as (n & [[e' pk2] r] & Hn & H1 & H2).
             destruct (add_recipient C e pkR g) as [[[e1 pk1] g1] r1] eqn:Ea. injection H1 as -> -> -> ->. exists n. split; [exact Hn|]. split; [reflexivity|].
             cbn [wp app]. intros h p s Hh Hp Hs. destruct (Hadd h p s Hp Hs) as (p' & Hp' & Hx). exists p', s. split; [exact Hp'|]. split; [exact Hs|].
             rewrite Hx. specialize (H2 h (agree_reads g h n Hn Hh)). destruct (add_recipient C e pkR h) as [[[e4 pk4] g4] r4]. injection H2 as -> -> -> ->.
             rewrite len_rng by exact Hn. reflexivity.
          -- cbn [wp]. intros h p s _ Hp Hs. destruct (Hadd h p s Hp Hs) as (p' & Hp' & Hx). exists p', s. split; [exact Hp'|]. split; [exact Hs|].
             rewrite Hx. unfold add_recipient, wrap_key. rewrite Est, Hconv, Ex, adv_0. reflexivity.
          -- cbn [wp]. intros h p s _ Hp Hs. destruct (Hadd h p s Hp Hs) as (p' & Hp' & Hx). exists p', s. split; [exact Hp'|]. split; [exact Hs|].
             rewrite Hx. unfold add_recipient, wrap_key. rewrite Est, Hconv, Ex, adv_0. reflexivity.
    - destruct (nth_error (l_encs l) i) as [[e ss]|] eqn:Ei.
      2:{ cbn [wp]. intros h p s _ Hp Hs. exists p, s. split; [exact Hp|]. split; [exact Hs|]. cbn [xstep wd_encs]. rewrite Ei. rewrite adv_0. destruct l; reflexivity. }
      cbn [wp]. intros g. destruct (local_step C e ss c g) as (n & [[e' ss'] rr] & Hn & H1 & H2).
      destruct (estep C (mkEobj e g ss) c) as [st r1]. cbn [fst snd] in H1. injection H1 as E1 E2 E3 E4. rewrite E1, E2, E3, E4. exists n. split; [exact Hn|]. split; [reflexivity|].
      cbn [wp app]. intros h p s Hh Hp Hs. exists p, s. split; [exact Hp|]. split; [exact Hs|]. cbn [xstep wd_encs wd_rng]. rewrite Ei.
      specialize (H2 h (agree_reads g h n Hn Hh)). destruct (estep C (mkEobj e h ss) c) as [st2 r2]. destruct st2 as [x y z]. cbn [es_enc es_rng es_streams] in *.
      injection H2 as -> -> -> ->. rewrite len_rng by exact Hn. reflexivity.
    - destruct (new_decryptor C rd) as [[d|x|x] rd'] eqn:En; cbn [wp]; intros h p s _ Hp Hs; exists p, s; (split; [exact Hp|]); (split; [exact Hs|]); cbn [xstep]; rewrite En, adv_0; destruct l; reflexivity.
    - destruct (nth_error (l_decs l) i) as [st|] eqn:Ei.
      2:{ cbn [wp]. intros h p s _ Hp Hs. exists p, s. split; [exact Hp|]. split; [exact Hs|]. cbn [xstep wd_decs]. rewrite Ei. rewrite adv_0. destruct l; reflexivity. }
      destruct (nth_error sks k) as [sk|] eqn:Ek.
      2:{ cbn [wp]. intros h p s _ Hp Hs. exists p, s. split; [exact Hp|]. split; [exact Hs|]. cbn [xstep wd_decs wd_sks]. rewrite Ei, (F2_none _ _ _ Hs _ Ek), adv_0. destruct l; reflexivity. }
      apply wp_find; [exact Ek|]. clear known. intros known. set (skR := sk_with sk (Some (sk_right sk))).
      destruct (set_rest C (ds_dec st) spk (fst (find_key C (d_hdr (ds_dec st)) (h_keys (d_hdr (ds_dec st))) skR))) as [d' r] eqn:Er.
      cbn [wp]. intros h p s _ Hp Hs. destruct (F2_len _ _ _ Hs _ _ Ek) as (sk' & Ek' & Hsame). cbn [xstep wd_decs wd_sks]. rewrite Ei, Ek'.
      destruct (set_private_key C (ds_dec st) sk' spk) as [[d2 sk2] r2] eqn:Es.
      destruct (set_key_same C _ skR sk' spk _ _ _ (same_sk_with _ _ Hsame) Es) as ((a' & Ea') & Hs2).
      rewrite set_rest_same in Ea'. destruct (find_key C (d_hdr (ds_dec st)) (h_keys (d_hdr (ds_dec st))) skR) as [fd sk3]. cbn [fst] in Er. rewrite Er in Ea'. injection Ea' as -> _ ->.
      exists p, (set_nth s k sk2). split; [exact Hp|]. split; [|rewrite adv_0; reflexivity].
      eapply F2_set; [exact Hs|exact Ek|]. destruct Hs2 as (Q1 & Q2 & Q3 & Q4). destruct Hsame as (S1 & S2 & S3 & S4). unfold same_sk. unfold skR, sk_with in Q1, Q2. cbn [sk_Sk sk_pk] in Q1, Q2. auto.
    - destruct (nth_error (l_decs l) i) as [st|] eqn:Ei.
      2:{ cbn [wp]. intros h p s _ Hp Hs. exists p, s. split; [exact Hp|]. split; [exact Hs|]. cbn [xstep wd_decs]. rewrite Ei. rewrite adv_0. destruct l; reflexivity. }
      destruct (dstep C st c) as [st' rr] eqn:Ed. cbn [wp]. intros h p s _ Hp Hs. exists p, s. split; [exact Hp|]. split; [exact Hs|].
      cbn [xstep wd_decs]. rewrite Ei, Ed, adv_0. reflexivity.
  Qed.
  (** ** the invariant *)
  Definition owns (g : rng) (at_ : nat -> Z -> Z) (i : nat) (h : rng) (n : Z) : Prop := forall a, 0 <= a < n -> tape h (pos h + a) = tape g (at_ i a).
  Definition alone (g : rng) (at_ : nat -> Z -> Z) (i : nat) (n : Z) (done : list (xcall * xret)) (l : loc) : Prop :=
    forall h, owns g at_ i h n -> exists p s, Forall2 same_pk pks p /\ Forall2 (same_sk C) sks s /\
      happens C (mkWorld h pks sks [] []) done (mkWorld (adv h n) p s (l_encs l) (l_decs l)).
  Definition gok (g : rng) (cells : cell -> option bytes) (at_ : nat -> Z -> Z) (drawn : nat -> Z) (i : nat) (calls : list xcall) (t : goroutine) : Prop :=
    exists n, 0 <= n /\ alone g at_ i n (t_done t) (t_loc t) /\
      match t_cur t with
      | None => drawn i = n /\ calls = map fst (t_done t) ++ t_todo t
      | Some (c, p) => calls = map fst (t_done t) ++ c :: t_todo t /\
          exists bs (known : cell -> Prop), drawn i = n + len bs /\ (forall k, 0 <= k < len bs -> nth (Z.to_nat k) bs x00 = tape g (at_ i (n + k))) /\
            (forall x, known x -> cells x <> None) /\ wp p known bs (as_alone (t_loc t) c)
      end.
  Record inv (g : rng) (todos : list (list xcall)) (m : machine) (at_ : nat -> Z -> Z) (drawn : nat -> Z) : Prop := {
    iv_tape : tape (m_rng m) = tape g;
    iv_pos : pos g <= pos (m_rng m);
    iv_cells : forall x, m_cells m x = rightv x \/ m_cells m x = None;
    iv_len : length (m_gos m) = length todos;
    iv_drawn : forall i, 0 <= drawn i;
    iv_range : forall i a, 0 <= a < drawn i -> pos g <= at_ i a < pos (m_rng m);
    iv_inj : forall i j a b, 0 <= a < drawn i -> 0 <= b < drawn j -> at_ i a = at_ j b -> i = j /\ a = b;
    iv_gos : forall i t, nth_error (m_gos m) i = Some t -> exists calls, nth_error todos i = Some calls /\ gok g (m_cells m) at_ drawn i calls t }.

  Lemma gok_other g cells cells' at_ drawn at' drawn' i calls t : gok g cells at_ drawn i calls t ->
    (forall x, cells x <> None -> cells' x <> None) -> (forall a, at' i a = at_ i a) -> drawn' i = drawn i -> gok g cells' at' drawn' i calls t.
  Proof.
    intros (n & Hn & Ha & Hc) Hcells Hat Hdr. exists n. split; [exact Hn|]. split.
    - intros h Hh. apply Ha. intros a Hb. rewrite Hh by exact Hb. rewrite Hat. reflexivity.
    - destruct (t_cur t) as [[c p]|]; [|rewrite Hdr; exact Hc]. destruct Hc as (H1 & bs & known & H2 & H3 & H4 & H5). split; [exact H1|].
      exists bs, known. split; [congruence|]. split; [intros k Hk; rewrite Hat; auto|]. split; [auto|exact H5].
  Qed.
  (** a step of goroutine [i] that leaves the random source alone *)
  Lemma inv_put g todos m at_ drawn i t calls t' cells' : inv g todos m at_ drawn -> nth_error (m_gos m) i = Some t -> nth_error todos i = Some calls ->
    (forall x, m_cells m x <> None -> cells' x <> None) -> (forall x, cells' x = rightv x \/ cells' x = None) ->
    gok g cells' at_ drawn i calls t' -> inv g todos (mkM (m_rng m) cells' (set_nth (m_gos m) i t')) at_ drawn.
  Proof.
    intros [] Hi Hcalls Hmono Hright Hg. pose proof (nth_some _ _ _ Hi) as Hlen.
    constructor; cbn [m_rng m_cells m_gos]; auto.
    - rewrite set_length by exact Hlen. assumption.
    - intros j u Hj. rewrite nth_set in Hj by exact Hlen. destruct (Nat.eqb_spec j i) as [->|Hne].
      + injection Hj as <-. eauto.
      + destruct (iv_gos0 j u Hj) as (cs & H1 & H2). exists cs. split; [exact H1|]. eapply gok_other; [exact H2|auto..].
  Qed.
  Lemma same_refl : Forall2 same_pk pks pks /\ Forall2 (same_sk C) sks sks.
  Proof.
    split.
    - clear - Hpk. induction Hpk; constructor; auto. repeat split; auto.
    - clear - Hsk. induction Hsk; constructor; auto. repeat split; auto.
  Qed.

  Lemma inv_step g todos m at_ drawn i : inv g todos m at_ drawn -> exists at' drawn', inv g todos (step (call_code C pks sks) m i) at' drawn'.
  Proof.
    intros Hinv. unfold step. destruct (nth_error (m_gos m) i) as [t|] eqn:Hi; [|eauto].
    destruct (iv_gos _ _ _ _ _ Hinv i t Hi) as (calls & Hcalls & n & Hn & Hal & Hcur).
    destruct (t_cur t) as [[c p]|] eqn:Ecur.
    2:{ destruct Hcur as (Hd & Hcs). destruct (t_todo t) as [|c cs] eqn:Etodo; [eauto|]. exists at_, drawn.
        eapply inv_put; try eassumption; [auto|apply (iv_cells _ _ _ _ _ Hinv)|]. exists n. cbn [t_cur t_todo t_loc t_done]. split; [exact Hn|]. split; [exact Hal|].
        split; [exact Hcs|]. exists [], (fun _ => False). split; [cbn; lia|]. split; [unfold len; cbn; lia|]. split; [contradiction|]. apply wp_call. }
    destruct Hcur as (Hcs & bs & known & Hd & Hbs & Hkn & Hwp). destruct p as [[l r]|f|x k|x v k]; cbn [wp] in Hwp.
    - exists at_, drawn. eapply inv_put; try eassumption; [auto|apply (iv_cells _ _ _ _ _ Hinv)|]. exists (drawn i).
      cbn [t_cur t_todo t_loc t_done]. pose proof (len_nonneg bs) as Hb. split; [lia|]. split.
      + intros h Hh. assert (Ho : owns g at_ i h n) by (intros a Ha; apply Hh; lia). destruct (Hal h Ho) as (q & s & Hq & Hs & Hhap).
        assert (Hr : reads (adv h n) bs).
        { intros k Hk. unfold adv. cbn [tape pos]. rewrite <- Z.add_assoc, Hh by lia. symmetry. apply Hbs. exact Hk. }
        destruct (Hwp (adv h n) q s Hr Hq Hs) as (q' & s' & Hq' & Hs' & Hx). cbn [fst snd] in Hx. exists q', s'. split; [exact Hq'|]. split; [exact Hs'|].
        rewrite Hd, <- adv_adv. eapply hp_call; [exact Hhap|exact Hx].
      + split; [reflexivity|]. rewrite Hcs, map_app, <- app_assoc. reflexivity.
    - specialize (Hwp (m_rng m)). destruct (f (m_rng m)) as [p' g']. destruct Hwp as (d & Hd0 & -> & Hwp).
      exists (at_more at_ drawn i (pos (m_rng m))), (drawn_more drawn i d). pose proof (nth_some _ _ _ Hi) as Hlen. pose proof (iv_drawn _ _ _ _ _ Hinv) as Hdr.
      destruct Hinv. destruct (more_ok at_ drawn i _ _ d Hd0 iv_pos0 iv_drawn0 iv_range0 iv_inj0) as (M1 & M2 & M3).
      constructor; cbn [m_rng m_cells m_gos]; auto.
      + unfold adv. cbn. lia.
      + rewrite set_length by exact Hlen. assumption.
      + intros j u Hj. rewrite nth_set in Hj by exact Hlen. destruct (Nat.eqb_spec j i) as [->|Hne].
        * injection Hj as <-. exists calls. split; [exact Hcalls|]. exists n. cbn [t_cur t_todo t_loc t_done]. split; [exact Hn|]. pose proof (len_nonneg bs) as Hb.
          split.
          -- intros h Hh. apply Hal. intros a Ha. rewrite Hh by exact Ha. unfold at_more. rewrite Nat.eqb_refl. destruct (Z.leb_spec (drawn i) a); [lia|reflexivity].
          -- split; [exact Hcs|]. exists (bs ++ rng_bytes (tape (m_rng m)) (pos (m_rng m)) (Z.to_nat d)), known.
             split; [unfold drawn_more; rewrite Nat.eqb_refl, len_app, len_rng by exact Hd0; lia|]. split; [|split; [exact Hkn|exact Hwp]].
             intros k Hk. rewrite len_app, len_rng in Hk by exact Hd0. unfold at_more. rewrite Nat.eqb_refl. destruct (Z.leb_spec (drawn i) (n + k)).
             ++ rewrite app_nth2 by (unfold len in *; lia).
                assert (N : forall t m p j, (j < m)%nat -> nth j (rng_bytes t p m) x00 = t (p + Z.of_nat j)).
                { clear. intros t m. induction m as [|m IH]; intros p j Hj; [lia|]. destruct j as [|j]; cbn [rng_bytes nth]; [f_equal; lia|]. rewrite IH by lia. f_equal. lia. }
                rewrite N by (unfold len in *; lia). rewrite iv_tape0. f_equal. unfold len in *. lia.
             ++ rewrite app_nth1 by (unfold len in *; lia). apply Hbs. lia.
        * destruct (iv_gos0 j u Hj) as (cs & H1 & H2). exists cs. split; [exact H1|]. eapply gok_other; [exact H2|auto|..].
          -- intros a. unfold at_more. destruct (Nat.eqb_spec j i); [contradiction|reflexivity].
          -- unfold drawn_more. destruct (Nat.eqb_spec j i); [contradiction|reflexivity].
    - exists at_, drawn. eapply inv_put; try eassumption; [auto|apply (iv_cells _ _ _ _ _ Hinv)|]. exists n. cbn [t_cur t_todo t_loc t_done].
      split; [exact Hn|]. split; [exact Hal|]. split; [exact Hcs|]. eexists bs, _. split; [exact Hd|]. split; [exact Hbs|]. split.
      2:{ apply Hwp; [apply (iv_cells _ _ _ _ _ Hinv)|apply Hkn]. }
      cbv beta. intros y [Hy|(-> & Hy)]; [apply Hkn; exact Hy|exact Hy].
    - destruct Hwp as (Hv & Hnn & Hwp). exists at_, drawn. eapply inv_put; try eassumption.
      + cbv beta. intros y Hy. destruct (cell_eqb y x); assumption.
      + cbv beta. intros y. assert (E : cell_eqb y x = true -> y = x).
        { destruct y as [a b|a b], x as [a' b'|a' b']; cbn [cell_eqb]; intros E; try discriminate; apply andb_prop in E as (E1 & E2);
            apply Nat.eqb_eq in E1; apply Nat.eqb_eq in E2; subst; reflexivity. }
        destruct (cell_eqb y x); [left; rewrite (E eq_refl); exact Hv|apply (iv_cells _ _ _ _ _ Hinv)].
      + exists n. cbn [t_cur t_todo t_loc t_done]. split; [exact Hn|]. split; [exact Hal|]. split; [exact Hcs|]. eexists bs, _.
        split; [exact Hd|]. split; [exact Hbs|]. split; [|exact Hwp]. cbv beta. intros y [Hy| ->].
        * destruct (cell_eqb y x); [exact Hnn|apply Hkn; exact Hy].
        * assert (E : cell_eqb x x = true) by (destruct x; cbn [cell_eqb]; rewrite !Nat.eqb_refl; reflexivity). rewrite E. exact Hnn.
  Qed.
  Lemma inv_begin g todos : inv g todos (begin_ g (cells_of pks sks) todos) (fun _ _ => 0) (fun _ => 0).
  Proof.
    constructor; cbn [begin_ m_rng m_cells m_gos]; auto; try lia.
    - intros [k [|w]|k [|w]]; cbn [cells_of rightv]; auto.
      + destruct (nth_error pks k) as [pk|] eqn:E; [|auto]. apply nth_error_In in E. rewrite Forall_forall in Hpk. destruct (Hpk pk E) as [->|(H1 & H2)]; [auto|].
        left. rewrite H2. destruct (Z.ltb_spec 32 (len (pk_Pk pk))); [lia|reflexivity].
      + destruct (nth_error sks k) as [sk|] eqn:E; [|auto]. apply nth_error_In in E. rewrite Forall_forall in Hsk. destruct (Hsk sk E) as [->|H2]; [auto|left; exact H2].
    - apply map_length.
    - intros i t Hi. rewrite nth_error_map in Hi. destruct (nth_error todos i) as [calls|] eqn:E; [|discriminate]. injection Hi as <-. exists calls. split; [reflexivity|].
      exists 0. cbn [t_cur t_todo t_loc t_done]. split; [lia|]. split; [|auto]. intros h _. exists pks, sks. destruct same_refl as (S1 & S2). split; [exact S1|]. split; [exact S2|].
      rewrite adv_0. apply hp_start.
  Qed.
  Lemma inv_run g todos schedule : forall m, (exists at_ drawn, inv g todos m at_ drawn) -> exists at_ drawn, inv g todos (run (call_code C pks sks) m schedule) at_ drawn.
  Proof.
    unfold run. induction schedule as [|i schedule IH]; intros m H; [exact H|]. cbn [fold_left]. apply IH. destruct H as (a & d & H). eapply inv_step. exact H.
  Qed.
End Race.

(** ** C94 *)
(** Goroutines [todos] (each with the calls it makes), any key objects, any interleaving of their steps, at any moment.  Every goroutine has
    made a prefix of its calls; these returned, and left its objects as, when the same calls are made one after the other by a single
    goroutine in a process of its own, with a random source of its own; the bytes of these sources are from pairwise different places of
    the shared source. *)
Theorem C94_goroutines_partial :
  forall C g pks sks, Forall right_pk pks -> Forall (right_sk C) sks ->
  forall todos schedule, let m := run (call_code C pks sks) (begin_ g (cells_of pks sks) todos) schedule in
  length (m_gos m) = length todos /\
  exists (place : nat -> Z -> Z) (drawn : nat -> Z),
    (forall i a, 0 <= a < drawn i -> pos g <= place i a < pos (m_rng m)) /\
    (forall i j a b, 0 <= a < drawn i -> 0 <= b < drawn j -> place i a = place j b -> i = j /\ a = b) /\
    forall i t, nth_error (m_gos m) i = Some t ->
      nth_error todos i = Some (map fst (t_done t) ++ match t_cur t with Some (c, _) => [c] | None => [] end ++ t_todo t) /\
      let own := mkRng (fun a => tape g (place i a)) 0 in
      exists n pks' sks', happens C (mkWorld own pks sks [] []) (t_done t) (mkWorld (mkRng (tape own) n) pks' sks' (l_encs (t_loc t)) (l_decs (t_loc t))) /\
        0 <= n <= drawn i /\ (t_cur t = None -> n = drawn i).
Proof.
  intros C g pks sks Hpk Hsk todos schedule m.
  destruct (inv_run C pks sks g todos schedule _ (ex_intro _ _ (ex_intro _ _ (inv_begin C pks sks Hpk Hsk g todos)))) as (place & drawn & H).
  fold m in H. destruct H. split; [exact iv_len0|]. exists place, drawn. split; [exact iv_range0|]. split; [exact iv_inj0|]. intros i t Hi.
  destruct (iv_gos0 i t Hi) as (calls & Hc & n & Hn & Hal & Hcur). cbv zeta. set (own := mkRng (fun a => tape g (place i a)) 0). rewrite Hc.
  destruct (Hal own) as (p & s & _ & _ & Hhap); [intros a Ha; reflexivity|].
  split.
  - f_equal. destruct (t_cur t) as [[c pr]|]; destruct Hcur as (H1 & H2); [exact H1|exact H2].
  - exists n, p, s. split; [exact Hhap|]. destruct (t_cur t) as [[c pr]|].
    + destruct Hcur as (_ & bs & known & Hd & _). pose proof (len_nonneg bs). split; [lia|discriminate].
    + destruct Hcur as (Hd & _). split; [lia|auto].
Qed.
Print Assumptions C94_goroutines_partial.

(** The caches: at every moment each is nil or holds the right conversion. *)
Theorem C94_caches :
  forall C g pks sks, Forall right_pk pks -> Forall (right_sk C) sks ->
  forall todos schedule, let m := run (call_code C pks sks) (begin_ g (cells_of pks sks) todos) schedule in
  (forall k pk, nth_error pks k = Some pk -> right_pk (pk_with pk (m_cells m (PkCache k 0)))) /\
  (forall k sk, nth_error sks k = Some sk -> right_sk C (sk_with sk (m_cells m (SkCache k 0)))).
Proof.
  intros C g pks sks Hpk Hsk todos schedule m.
  destruct (inv_run C pks sks g todos schedule _ (ex_intro _ _ (ex_intro _ _ (inv_begin C pks sks Hpk Hsk g todos)))) as (place & drawn & H).
  fold m in H. pose proof (iv_cells _ _ _ _ _ _ _ _ H) as Hc. split; intros k x Hk.
  - specialize (Hc (PkCache k 0)). cbn [rightv] in Hc. rewrite Hk in Hc. destruct Hc as [-> | ->]; [|left; reflexivity].
    destruct (Z.ltb_spec 32 (len (pk_Pk x))); [left; reflexivity|right; split; [assumption|reflexivity]].
  - specialize (Hc (SkCache k 0)). cbn [rightv] in Hc. rewrite Hk in Hc. destruct Hc as [-> | ->]; [right; reflexivity|left; reflexivity].
Qed.
Print Assumptions C94_caches.

(** Nobody waits: whatever the others are in the middle of, a goroutine that is left to run makes all its calls. *)
Lemma run_app call m a b : run call m (a ++ b) = run call (run call m a) b.
Proof. unfold run. apply fold_left_app. Qed.
Lemma step_some call m i t : nth_error (m_gos m) i = Some t -> exists t', nth_error (m_gos (step call m i)) i = Some t'.
Proof.
  intros Hi. pose proof (nth_some _ _ _ Hi) as Hlen. unfold step. rewrite Hi.
  destruct (t_cur t) as [[c [[l r]|f|x k|x v k]]|]; [..|destruct (t_todo t)]; try (destruct (f (m_rng m)) as [p g]); cbn [m_gos]; rewrite ?nth_set, ?Nat.eqb_refl by exact Hlen; eauto.
Qed.
Lemma prog_all {A} (P : prog A -> Prop) (Hret : forall a, P (Ret a)) (Hrand : forall f, (forall g, P (fst (f g))) -> P (Rand f))
  (Hload : forall x k, (forall v, P (k v)) -> P (Load x k)) (Hstore : forall x v k, P k -> P (Store x v k)) : forall p, P p.
Proof.
  fix IH 1. intros [a|f|x k|x v k].
  - apply Hret.
  - apply Hrand. intros g. destruct (f g) as [p g']. apply (IH p).
  - apply Hload. intros v. apply IH.
  - apply Hstore. apply IH.
Qed.
Lemma finish_call call i p : forall m c todo l done, nth_error (m_gos m) i = Some (mkGo todo (Some (c, p)) l done) ->
  exists n l' r, nth_error (m_gos (run call m (repeat i n))) i = Some (mkGo todo None l' (done ++ [(c, r)])).
Proof.
  induction p as [[l0 r0]|f IH|x k IH|x v k IH] using prog_all; intros m c todo l done Hi; pose proof (nth_some _ _ _ Hi) as Hlen.
  - exists 1%nat, l0, r0. cbn [repeat run fold_left]. unfold step. rewrite Hi. cbn [t_cur t_todo t_loc t_done m_gos]. rewrite nth_set, Nat.eqb_refl by exact Hlen. reflexivity.
  - destruct (f (m_rng m)) as [p' g'] eqn:E.
    assert (Hs : nth_error (m_gos (step call m i)) i = Some (mkGo todo (Some (c, p')) l done)).
    { unfold step. rewrite Hi. cbn [t_cur t_todo t_loc t_done]. rewrite E. cbn [m_gos]. rewrite nth_set, Nat.eqb_refl by exact Hlen. reflexivity. }
    specialize (IH (m_rng m)). rewrite E in IH. destruct (IH _ _ _ _ _ Hs) as (n & l' & r & H). exists (S n), l', r. exact H.
  - assert (Hs : nth_error (m_gos (step call m i)) i = Some (mkGo todo (Some (c, k (m_cells m x))) l done)).
    { unfold step. rewrite Hi. cbn [t_cur t_todo t_loc t_done m_gos]. rewrite nth_set, Nat.eqb_refl by exact Hlen. reflexivity. }
    destruct (IH _ _ _ _ _ _ Hs) as (n & l' & r & H). exists (S n), l', r. exact H.
  - assert (Hs : nth_error (m_gos (step call m i)) i = Some (mkGo todo (Some (c, k)) l done)).
    { unfold step. rewrite Hi. cbn [t_cur t_todo t_loc t_done m_gos]. rewrite nth_set, Nat.eqb_refl by exact Hlen. reflexivity. }
    destruct (IH _ _ _ _ _ Hs) as (n & l' & r & H). exists (S n), l', r. exact H.
Qed.
Theorem C94_no_waiting :
  forall call m i t, nth_error (m_gos m) i = Some t ->
  exists n t', nth_error (m_gos (run call m (repeat i n))) i = Some t' /\ t_cur t' = None /\ t_todo t' = [] /\
    map fst (t_done t') = map fst (t_done t) ++ match t_cur t with Some (c, _) => [c] | None => [] end ++ t_todo t.
Proof.
  intros call m i t Hi.
  assert (H : forall todo m l done, nth_error (m_gos m) i = Some (mkGo todo None l done) ->
    exists n t', nth_error (m_gos (run call m (repeat i n))) i = Some t' /\ t_cur t' = None /\ t_todo t' = [] /\ map fst (t_done t') = map fst done ++ todo).
  { clear m t Hi. induction todo as [|c todo IH]; intros m l done Hi; pose proof (nth_some _ _ _ Hi) as Hlen.
    - exists 0%nat. eexists. split; [exact Hi|]. cbn [t_cur t_todo t_done]. rewrite app_nil_r. auto.
    - assert (Hs : nth_error (m_gos (step call m i)) i = Some (mkGo todo (Some (c, call l c)) l done)).
      { unfold step. rewrite Hi. cbn [t_cur t_todo t_loc t_done m_gos]. rewrite nth_set, Nat.eqb_refl by exact Hlen. reflexivity. }
      destruct (finish_call call i _ _ _ _ _ _ Hs) as (n1 & l' & r & H1).
      destruct (IH _ _ _ H1) as (n2 & t' & H2 & H3 & H4 & H5). exists (S n1 + n2)%nat, t'. rewrite repeat_app, run_app. split; [exact H2|]. split; [exact H3|]. split; [exact H4|].
      rewrite H5, map_app, <- app_assoc. reflexivity. }
  destruct t as [todo [[c p]|] l done]; cbn [t_cur t_todo t_done].
  - destruct (finish_call call i _ _ _ _ _ _ Hi) as (n1 & l' & r & H1). destruct (H _ _ _ _ H1) as (n2 & t' & H2 & H3 & H4 & H5).
    exists (n1 + n2)%nat, t'. rewrite repeat_app, run_app. split; [exact H2|]. split; [exact H3|]. split; [exact H4|]. rewrite H5, map_app, <- app_assoc. reflexivity.
  - exact (H _ _ _ _ Hi).
Qed.
Print Assumptions C94_no_waiting.

(** Three goroutines with two public and one private key object between them, each interrupted at every step: the first two make
    an encrypted file, the third reads one. *)
Definition race_todos : list (list xcall) :=
  [[XNewEnc (Some skS) 4; XAdd 0 0; XAdd 0 1; XEnc 0 (EEncrypt src sink)];
   [XNewEnc None 8; XAdd 0 1; XAdd 0 0; XEnc 0 (EEncrypt src sink)];
   [XNewDec (whole file1); XSet 0 1 (Some pkS); XDec 0 (DDecrypt sink)]].
Definition round_robin (n : nat) : list nat := List.concat (repeat [0; 1; 2]%nat n).
Definition race_end : machine := run (call_code toy [pkA; pkB] [skA; skB]) (begin_ g0 (cells_of [pkA; pkB] [skA; skB]) race_todos) (round_robin 30).
Definition idle (t : goroutine) : bool := match t_cur t, t_todo t with None, [] => true | _, _ => false end.
Example C94_instance :
  Forall right_pk [pkA; pkB] /\ Forall (right_sk toy) [skA; skB] /\
  map idle (m_gos race_end) = [true; true; true] /\
  map (fun t => map (fun x => xtold (snd x)) (t_done t)) (m_gos race_end) =
    [[None; Some (Ok tt, None, []); Some (Ok tt, None, []); Some (Ok tt, Some 463, [])];
     [None; Some (Ok tt, None, []); Some (Ok tt, None, []); Some (Ok tt, Some 443, [])];
     [None; Some (Ok tt, None, []); Some (Ok tt, Some 11, [])]].
Proof.
  split; [repeat constructor|]. split; [repeat constructor|]. split; [vm_compute; reflexivity|]. vm_compute. reflexivity.
Qed.

(** Where the cache of a key object is read and written word by word: of two goroutines that add the same key object for the first time,
    the second finds the pointer, but not yet the length, and fails; either alone succeeds. *)
Definition words_code (C : crypto) (pks : list pubkey) (sks : list privkey) : loc -> xcall -> prog (loc * xret) :=
  call_prog C (fun k pk => words_pk k pk) (fun k sk => conv_sk C k sk) pks sks.
(** what the calls of AddRecipient of goroutine i returned *)
Definition added (m : machine) (i : nat) : list (res unit) :=
  match nth_error (m_gos m) i with Some t => flat_map (fun x => match x with (XAdd _ _, XE (ERet r _)) => [r] | _ => [] end) (t_done t) | None => [] end.
Definition finished (m : machine) (i : nat) : bool := match nth_error (m_gos m) i with Some t => idle t | None => false end.
Theorem C94_torn_refuted :
  ~ (forall C g pks sks, Forall right_pk pks -> Forall (right_sk C) sks ->
     forall todos schedule n i, let run_ := run (words_code C pks sks) (begin_ g (cells_of pks sks) todos) in
     finished (run_ schedule) i = true -> finished (run_ (repeat i n)) i = true ->
     added (run_ schedule) i = added (run_ (repeat i n)) i).
Proof.
  intros H.
  specialize (H toy g0 [pkA] [skA] ltac:(repeat constructor) ltac:(repeat constructor)
    [[XNewEnc None 4; XAdd 0 0]; [XNewEnc None 4; XAdd 0 0]] (repeat 0%nat 8 ++ repeat 1%nat 12) 20%nat 1%nat). cbv zeta in H.
  vm_compute in H. specialize (H eq_refl eq_refl). discriminate H.
Qed.
Print Assumptions C94_torn_refuted.
(** with one-step accesses the same schedule does no harm *)
Example C94_torn_instance :
  let m := begin_ g0 (cells_of [pkA] [skA]) [[XNewEnc None 4; XAdd 0 0]; [XNewEnc None 4; XAdd 0 0]] in
  let s := repeat 0%nat 8 ++ repeat 1%nat 12 in
  added (run (words_code toy [pkA] [skA]) m s) 1 = [Fail (EWrap "wrap" (EMsg "bad point length"))] /\
  added (run (call_code toy [pkA] [skA]) m s) 1 = [Ok tt].
Proof. split; vm_compute; reflexivity. Qed.
