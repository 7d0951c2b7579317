(** Facts about the [accepted]/[opened] relations of Spec.v (no code involved). *)
From Verif Require Import Bytes BytesLemmas GoErr GoIO SpecIO Pb SpecPb Crypto CryptoLaws Keys Sign
  Encrypt Decrypt Spec IOProofs EncryptProofs DecryptProofs.
Require Import ZifyBool.
Ltac Zify.zify_post_hook ::= Z.div_mod_to_equations.
Local Notation length := List.length.
Local Notation concat := List.concat.

(** chunks an encryptor may have produced: all non-empty and at most n, only the last may be empty *)
Fixpoint good_chunks (n : Z) (cs : list bytes) : Prop :=
  match cs with
  | [] => False
  | [c] => len c <= n
  | c :: cs' => 0 < len c <= n /\ good_chunks n cs'
  end.
Lemma good_chunks_cons n c c2 cs : good_chunks n (c :: c2 :: cs) <-> 0 < len c <= n /\ good_chunks n (c2 :: cs).
Proof. reflexivity. Qed.
Lemma frames_cons2 C dk base i c c2 cs :
  frames C dk base i (c :: c2 :: cs) = frame C dk base i false c ++ frames C dk base (i + 1) (c2 :: cs).
Proof. reflexivity. Qed.
Lemma mac_input_cons2 c c2 cs : mac_input (c :: c2 :: cs) = frame_word c false ++ c ++ mac_input (c2 :: cs).
Proof. reflexivity. Qed.

Lemma chunked_good n cs s : 0 < n -> encrypt_chunks n cs s -> good_chunks n cs /\ concat cs = s.
Proof.
  intros Hn. unfold encrypt_chunks. induction 1 as [c Hc|c cs s Hc Hcs IH].
  - cbn. rewrite app_nil_r. split; [lia|reflexivity].
  - destruct IH as [IH <-]. split; [|reflexivity]. destruct cs; [destruct IH|]. rewrite good_chunks_cons. split; [lia|exact IH].
Qed.
Lemma stream_good n cs s : 0 < n -> stream_chunks n cs s -> good_chunks n cs /\ concat cs = s.
Proof.
  intros Hn [H|(-> & ->)].
  - induction H as [c Hc|c cs s Hc Hcs IH].
    + cbn. rewrite app_nil_r. split; [lia|reflexivity].
    + destruct IH as [IH <-]. split; [|reflexivity]. destruct cs; [destruct IH|]. rewrite good_chunks_cons. split; [lia|exact IH].
  - cbn. split; [lia|reflexivity].
Qed.

Section S.
  Variables (C : crypto) (HC : crypto_ok C) (dk base : bytes) (chunk : Z) (tok : bytes -> bytes -> Prop).

  Lemma seal_opens i last pt : 0 < len pt <= chunk ->
    frame_opens C dk base chunk i last (gcm_seal C dk (frame_nonce base i) pt (frame_word pt last)) pt.
  Proof. intros H. split; [exact H|]. split; [apply (ok_seal_len C HC)|apply (ok_open_seal C HC)]. Qed.
  Lemma opens_seal i last c pt : frame_opens C dk base chunk i last c pt ->
    c = gcm_seal C dk (frame_nonce base i) pt (frame_word pt last).
  Proof. intros (_ & _ & H). apply (ok_open_tidy C HC) in H. exact H. Qed.

  (** the honest stream is accepted *)
  Lemma honest_accepted : forall cs i m tr rest, good_chunks chunk cs -> len tr = 64 -> tok (m ++ mac_input cs) tr ->
    exists outs rest', accepted C dk base chunk tok i m (frames C dk base i cs ++ tr ++ rest) outs rest' /\
      concat outs = concat cs /\ (last cs [] <> [] -> rest' = rest) /\ (last cs [] <> [] -> outs = cs).
  Proof.
    induction cs as [|c cs IH]; intros i m tr rest Hg Htr Hk; [destruct Hg|].
    destruct cs as [|c2 cs].
    - cbn [good_chunks frames mac_input last List.concat] in *. destruct c as [|x c0].
      + exists [], (gcm_seal C dk (frame_nonce base i) [] (frame_word [] true) ++ tr ++ rest).
        split; [unfold frame; rewrite <- app_assoc; apply ac_bare|]. split; [reflexivity|]. split; congruence.
      + set (c := x :: c0) in *. exists [c], rest. split; [|split; [reflexivity|auto]].
        unfold frame. rewrite <- app_assoc. apply ac_last; auto. apply seal_opens. unfold c in *. rewrite len_cons in *.
        pose proof (len_nonneg c0). lia.
    - rewrite good_chunks_cons in Hg. destruct Hg as [Hc Hg]. rewrite mac_input_cons2 in Hk.
      destruct (IH (i + 1) (m ++ frame_word c false ++ c) tr rest Hg Htr) as (outs & rest' & Ha & Ho & Hr & Heq).
      { rewrite <- !app_assoc in *. exact Hk. }
      exists (c :: outs), rest'. split; [|split; [|split]].
      + rewrite frames_cons2. unfold frame. rewrite <- !app_assoc. apply ac_more; [apply seal_opens; exact Hc|exact Ha].
      + change (concat (c :: outs)) with (c ++ concat outs). rewrite Ho. reflexivity.
      + exact Hr.
      + intros Hl. rewrite Heq; auto.
  Qed.

  Lemma accepted_app i m s outs rest x : accepted C dk base chunk tok i m s outs rest ->
    accepted C dk base chunk tok i m (s ++ x) outs (rest ++ x).
  Proof.
    induction 1 as [i m rest|i m c pt tr rest Hf Ht Hk|i m c pt s outs rest Hf Ha IH]; rewrite <- !app_assoc.
    - apply ac_bare.
    - apply ac_last; assumption.
    - apply ac_more; assumption.
  Qed.

  Hypothesis Hchunk : chunk < 2^30.

  Lemma accepted_det i m s outs rest : accepted C dk base chunk tok i m s outs rest ->
    forall outs' rest', accepted C dk base chunk tok i m s outs' rest' -> outs' = outs /\ rest' = rest.
  Proof.
    induction 1 as [i m rest|i m c pt tr rest Hf Ht Hk|i m c pt s outs rest Hf Ha IH]; intros outs' rest' H'.
    - destruct (accepted_inv _ _ _ _ _ _ _ _ _ _ H') as [(Hsx & ->)|[(c2 & pt2 & tr & Hfo2 & Htr & Hok & Hsx & ->)|(c2 & pt2 & s0 & outs0 & Hfo2 & Ha0 & Hsx & ->)]].
      + apply app_inv_head in Hsx. auto.
      + exfalso. eapply frame_not_bare; eassumption.
      + exfalso. eapply frame_not_bare; eassumption.
    - destruct (accepted_inv _ _ _ _ _ _ _ _ _ _ H') as [(Hsx & ->)|[(c2 & pt2 & tr2 & Hfo2 & Htr & Hok & Hsx & ->)|(c2 & pt2 & s0 & outs0 & Hfo2 & Ha0 & Hsx & ->)]].
      + exfalso. symmetry in Hsx. eapply frame_not_bare; eassumption.
      + destruct (frame_split _ _ _ _ _ _ _ _ _ _ _ _ _ Hchunk Hf Hfo2 Hsx) as (_ & <- & <- & Hs).
        apply app_inj_len in Hs; [|lia]. destruct Hs as [_ ->]. auto.
      + destruct (frame_split _ _ _ _ _ _ _ _ _ _ _ _ _ Hchunk Hf Hfo2 Hsx) as (HH & _). discriminate.
    - destruct (accepted_inv _ _ _ _ _ _ _ _ _ _ H') as [(Hsx & ->)|[(c2 & pt2 & tr2 & Hfo2 & Htr & Hok & Hsx & ->)|(c2 & pt2 & s0 & outs0 & Hfo2 & Ha0 & Hsx & ->)]].
      + exfalso. symmetry in Hsx. eapply frame_not_bare; eassumption.
      + destruct (frame_split _ _ _ _ _ _ _ _ _ _ _ _ _ Hchunk Hf Hfo2 Hsx) as (HH & _). discriminate.
      + destruct (frame_split _ _ _ _ _ _ _ _ _ _ _ _ _ Hchunk Hf Hfo2 Hsx) as (_ & <- & <- & <-).
        destruct (IH _ _ Ha0) as [-> ->]. auto.
  Qed.

  (** an accepted stream was opened frame by frame *)
  Lemma accepted_opened i m s outs rest : accepted C dk base chunk tok i m s outs rest -> opened C dk base chunk i s outs.
  Proof. induction 1; constructor; auto. Qed.
End S.

Lemma skipn_nth {A} (l : list A) j x : nth_error l j = Some x -> skipn j l = x :: skipn (S j) l.
Proof.
  revert j; induction l as [|y l IH]; intros [|j] H; cbn in *; try discriminate.
  - injection H as ->. reflexivity.
  - apply IH in H. exact H.
Qed.

Section F.
  Variables (C : crypto) (fk : file_keys) (cs : list bytes) (chunk : Z).
  Hypothesis Hcs : Z.of_nat (length cs) < 2^32.
  Hypothesis Hchunk : chunk < 2^30.
  Let dk := fk_data fk.
  Let base := fk_base fk.

  Lemma forge_word s pre c post i last pt : no_forgery C fk cs s -> s = pre ++ frame_word pt last ++ c ++ post ->
    (i < length cs)%nat ->
    frame_opens C dk base chunk (Z.of_nat i) last c pt -> nth_error cs i = Some pt /\ last = Nat.eqb (S i) (length cs).
  Proof.
    intros Hnf Hs Hi (Hlen & Hc & Ho). destruct (Hnf _ _ _ _ _ _ Hs (len_frame_word _ _) Ho) as (j & Hj & Hb & Hw).
    assert (Hjl : (j < length cs)%nat) by (apply nth_error_Some; congruence).
    apply be32_inj in Hb; [|lia|lia]. assert (j = i) by lia. subst j. split; [exact Hj|].
    apply frame_word_inj in Hw; [|lia|lia]. apply Hw.
  Qed.

  Lemma opened_honest i s outs : opened C dk base chunk i s outs -> forall s0 pre k, no_forgery C fk cs s0 -> s0 = pre ++ s ->
    i = Z.of_nat k -> (k < length cs)%nat -> exists more, skipn k cs = outs ++ more.
  Proof.
    induction 1 as [i s|i c pt s Hf|i c pt s outs Hf Ha IH]; intros s0 pre k Hnf Hs0 -> Hk.
    - exists (skipn k cs). reflexivity.
    - destruct (forge_word s0 pre c s k true pt Hnf Hs0 Hk Hf) as [Hn _].
      exists (skipn (S k) cs). cbn [app]. apply skipn_nth. exact Hn.
    - destruct (forge_word s0 pre c s k false pt Hnf Hs0 Hk Hf) as [Hn Hl].
      destruct (IH s0 (pre ++ frame_word pt false ++ c) (S k) Hnf) as (more & Hm).
      { rewrite Hs0, <- !app_assoc. reflexivity. }
      { lia. }
      { symmetry in Hl. apply Nat.eqb_neq in Hl. lia. }
      exists more. cbn [app]. rewrite <- Hm. apply skipn_nth. exact Hn.
  Qed.

  Variable tok : bytes -> bytes -> Prop.

  (** success without forgery: everything, or an initial segment followed by the bare end marker *)
  Lemma accepted_honest (HC : crypto_ok C) i m s outs rest : accepted C dk base chunk tok i m s outs rest ->
    forall s0 pre k, no_forgery C fk cs s0 -> s0 = pre ++ s -> i = Z.of_nat k -> (k < length cs)%nat ->
    (outs = skipn k cs /\ exists tr, len tr = 64 /\ tok (m ++ mac_input outs) tr /\
        s = frames C dk base i outs ++ tr ++ rest) \/
    (exists more, skipn k cs = outs ++ more /\ more <> [] /\ s = unmarked C dk base i outs ++ frame_word [] true ++ rest).
  Proof.
    induction 1 as [i m rest|i m c pt tr rest Hf Ht Hk|i m c pt s outs rest Hf Ha IH]; intros s0 pre k Hnf Hs0 -> Hkl.
    - right. exists (skipn k cs). split; [reflexivity|]. split; [|reflexivity].
      intros E. apply (f_equal (@List.length _)) in E. rewrite skipn_length in E. cbn in E. lia.
    - destruct (forge_word s0 pre c _ k true pt Hnf Hs0 Hkl Hf) as [Hn Hl]. symmetry in Hl. apply Nat.eqb_eq in Hl.
      left. split.
      + rewrite (skipn_nth _ _ _ Hn). f_equal. symmetry. apply skipn_all2. lia.
      + exists tr. split; [exact Ht|]. split; [exact Hk|]. cbn [frames]. unfold frame.
        rewrite (opens_seal C HC _ _ _ _ _ _ _ Hf), <- app_assoc. reflexivity.
    - destruct (forge_word s0 pre c s k false pt Hnf Hs0 Hkl Hf) as [Hn Hl]. symmetry in Hl. apply Nat.eqb_neq in Hl.
      destruct (IH s0 (pre ++ frame_word pt false ++ c) (S k) Hnf) as [(-> & tr & Htr & Htok & Hs)|(more & Hm & Hne & Hs)].
      { rewrite Hs0, <- !app_assoc. reflexivity. }
      { lia. }
      { lia. }
      + left. split; [symmetry; apply skipn_nth; exact Hn|].
        assert (Hex : exists c2 l2, skipn (S k) cs = c2 :: l2).
        { destruct (skipn (S k) cs) eqn:E; [|eauto]. apply (f_equal (@List.length _)) in E. rewrite skipn_length in E. cbn in E. lia. }
        destruct Hex as (c2 & l2 & He). rewrite He in *. exists tr. split; [exact Htr|]. split.
        * rewrite mac_input_cons2, <- !app_assoc in *. exact Htok.
        * rewrite frames_cons2. unfold frame at 1. rewrite <- (opens_seal C HC _ _ _ _ _ _ _ Hf).
          replace (Z.of_nat (S k)) with (Z.of_nat k + 1) in Hs by lia.
          rewrite Hs, <- !app_assoc. reflexivity.
      + right. exists more. split; [|split; [exact Hne|]].
        * cbn [app]. rewrite <- Hm. apply skipn_nth. exact Hn.
        * cbn [unmarked]. unfold frame. rewrite <- (opens_seal C HC _ _ _ _ _ _ _ Hf), <- !app_assoc, Hs.
          replace (Z.of_nat (S k)) with (Z.of_nat k + 1) by lia. reflexivity.
  Qed.
End F.
