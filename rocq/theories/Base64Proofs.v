(** Proofs about Base64.v. *)
From Verif Require Import Bytes BytesLemmas GoErr Base64 SpecBase64.
Require Import ZifyBool.
Ltac Zify.zify_post_hook ::= Z.div_mod_to_equations.
Local Notation length := List.length.

Lemma eqb_eq x y : Byte.eqb x y = true -> x = y.
Proof. apply Byte.byte_dec_bl. Qed.

Lemma index_of_spec c l : forall i d, index_of c l i = Some d -> i <= d < i + len l /\ nth_error l (Z.to_nat (d - i)) = Some c.
Proof.
  induction l as [|x l IH]; intros i d H; cbn [index_of] in H; [discriminate H|]. rewrite len_cons. pose proof (len_nonneg l).
  destruct (Byte.eqb x c) eqn:E.
  - injection H as <-. apply eqb_eq in E. subst. replace (i - i) with 0 by lia. split; [lia|reflexivity].
  - destruct (IH _ _ H) as (H1 & H2). split; [lia|]. replace (Z.to_nat (d - i)) with (S (Z.to_nat (d - (i + 1)))) by lia. exact H2.
Qed.
(** the code's table is the one of the RFC *)
Lemma alphabet_rfc : b64_alphabet = rfc4648.
Proof. reflexivity. Qed.
Lemma b64_val_table : forallb (fun n => match nth_error rfc4648 n with
    | Some c => match b64_val c with Some d => d =? Z.of_nat n | None => false end && negb (is_crlf c) && negb (Byte.eqb c x3d)
    | None => false end) (seq 0 64) = true.
Proof. vm_compute. reflexivity. Qed.
Lemma digit_facts c d : digit c d -> b64_val c = Some d /\ is_crlf c = false /\ Byte.eqb c x3d = false.
Proof.
  intros (Hd & Hn). pose proof b64_val_table as T. rewrite forallb_forall in T. specialize (T (Z.to_nat d)).
  rewrite in_seq in T. specialize (T ltac:(lia)). rewrite Hn in T.
  destruct (b64_val c) as [d'|]; [|discriminate T]. destruct (is_crlf c), (Byte.eqb c x3d); cbn in T; rewrite ?andb_false_r in T; try discriminate T.
  rewrite !andb_true_r in T. apply Z.eqb_eq in T. subst. split; [f_equal; lia|]. auto.
Qed.
Lemma b64_val_digit c d : b64_val c = Some d <-> digit c d.
Proof.
  split; [|intros H; apply digit_facts; exact H]. intros H. apply index_of_spec in H. destruct H as (H1 & H2). rewrite alphabet_rfc in H1, H2. change (0 + len rfc4648) with 64 in H1.
  split; [lia|]. rewrite Z.sub_0_r in H2. exact H2.
Qed.
Lemma digit_char d : 0 <= d < 64 -> digit (b64_char d) d.
Proof.
  intros H. split; [exact H|]. unfold b64_char. rewrite alphabet_rfc. apply nth_error_nth'. change (length rfc4648) with 64%nat. lia.
Qed.
Lemma val_pad : b64_val x3d = None. Proof. reflexivity. Qed.
Lemma val_crlf c : is_crlf c = true -> b64_val c = None.
Proof. unfold is_crlf. intros H. apply orb_true_iff in H. destruct H as [H|H]; apply eqb_eq in H; subst; reflexivity. Qed.

Lemma skip_nl_unbroken s : unbroken (skip_nl s) = unbroken s.
Proof. induction s as [|c s IH]; [reflexivity|]. cbn [skip_nl unbroken filter]. fold (is_crlf c). destruct (is_crlf c) eqn:E; cbn [negb]; [exact IH|]. cbn [unbroken filter]. fold (is_crlf c). rewrite E. reflexivity. Qed.
Lemma skip_nl_head s : match skip_nl s with c :: _ => is_crlf c = false | [] => True end.
Proof. induction s as [|c s IH]; [exact I|]. cbn [skip_nl]. destruct (is_crlf c) eqn:E; [exact IH|exact E]. Qed.
Lemma skip_nl_nil s : skip_nl s = [] <-> unbroken s = [].
Proof.
  rewrite <- skip_nl_unbroken. pose proof (skip_nl_head s). destruct (skip_nl s) as [|c l]; [split; reflexivity|].
  cbn [unbroken filter]. fold (is_crlf c). rewrite H. cbn. split; discriminate.
Qed.

(** decoding ignores line breaks *)
Lemma b64_dec_unbroken s : forall q, b64_dec s q = b64_dec (unbroken s) q.
Proof.
  induction s as [|c s IH]; intros q; [reflexivity|]. cbn [unbroken filter]. fold (is_crlf c). destruct (is_crlf c) eqn:E; cbn [negb].
  - cbn [b64_dec]. rewrite (val_crlf c E), E. apply IH.
  - fold (unbroken s). cbn [b64_dec]. destruct (b64_val c) as [d|].
    + destruct q as [|? [|? [|? [|? ?]]]]; first [apply IH|rewrite (IH []); reflexivity].
    + rewrite E. destruct (negb (Byte.eqb c x3d)); [reflexivity|].
      assert (U : forall l, unbroken (unbroken l) = unbroken l).
      { intros l. unfold unbroken. induction l as [|x l IHl]; [reflexivity|]. cbn [filter]. fold (is_crlf x). destruct (negb (is_crlf x)) eqn:Ex; [cbn [filter]; fold (is_crlf x); rewrite Ex; f_equal; exact IHl|exact IHl]. }
      assert (N : forall l, (skip_nl l = [] <-> skip_nl (unbroken l) = [])) by (intros l; rewrite !skip_nl_nil, U; reflexivity).
      destruct q as [|d0 [|d1 [|d2 [|? ?]]]]; try reflexivity.
      * assert (K : match skip_nl s with c' :: s'' => exists s2, skip_nl (unbroken s) = c' :: s2 /\ unbroken s'' = unbroken s2 | [] => skip_nl (unbroken s) = [] end).
        { pose proof (skip_nl_head s) as H1. pose proof (skip_nl_head (unbroken s)) as H2. 
          assert (H4 : unbroken (skip_nl (unbroken s)) = unbroken (skip_nl s)) by (rewrite !skip_nl_unbroken; apply U).
          destruct (skip_nl s) as [|a l]; destruct (skip_nl (unbroken s)) as [|a' l']; [reflexivity| | |]; cbn [unbroken filter] in H4.
          - fold (is_crlf a') in H4. rewrite H2 in H4. discriminate H4.
          - fold (is_crlf a) in H4. rewrite H1 in H4. discriminate H4.
          - fold (is_crlf a) in H4. fold (is_crlf a') in H4. rewrite H1, H2 in H4. cbn [negb] in H4. injection H4 as -> H4. exists l'. split; [reflexivity|]. symmetry. exact H4. }
        destruct (skip_nl s) as [|c' s'']; [rewrite K; reflexivity|]. destruct K as (s2 & -> & Hu). destruct (negb (Byte.eqb c' x3d)); [reflexivity|].
        destruct (skip_nl s'') eqn:E1; destruct (skip_nl s2) eqn:E2; try reflexivity.
        -- apply skip_nl_nil in E1. rewrite Hu in E1. apply skip_nl_nil in E1. congruence.
        -- apply skip_nl_nil in E2. rewrite <- Hu in E2. apply skip_nl_nil in E2. congruence.
      * destruct (skip_nl s) eqn:E1; destruct (skip_nl (unbroken s)) eqn:E2; try reflexivity.
        -- apply N in E1. congruence.
        -- apply N in E2. congruence.
Qed.

Lemma no_break_unbroken s : (forall c, In c s -> is_crlf c = false) -> unbroken s = s.
Proof. intros H. induction s as [|c s IH]; [reflexivity|]. cbn [unbroken filter]. fold (is_crlf c). rewrite (H c (or_introl eq_refl)). cbn. f_equal. apply IH. intros x Hx. apply H. right. exact Hx. Qed.
Lemma in_unbroken s c : In c (unbroken s) -> is_crlf c = false.
Proof. intros H. apply filter_In in H. destruct H as (_ & H). fold (is_crlf c) in H. destruct (is_crlf c); [discriminate H|reflexivity]. Qed.

Lemma dec_cons4 c0 c1 c2 c3 d0 d1 d2 d3 t : digit c0 d0 -> digit c1 d1 -> digit c2 d2 -> digit c3 d3 ->
  b64_dec (c0 :: c1 :: c2 :: c3 :: t) [] =
  match b64_dec t [] with
  | Some r => let v := d0 * 2^18 + d1 * 2^12 + d2 * 2^6 + d3 in Some ([z2b (v / 2^16); z2b (v / 2^8); z2b v] ++ r)
  | None => None end.
Proof.
  intros H0 H1 H2 H3. apply b64_val_digit in H0, H1, H2, H3. cbn [b64_dec app]. rewrite H0, H1, H2, H3. reflexivity.
Qed.

Lemma z2b_eq x z : z mod 256 = b2z x -> z2b z = x.
Proof. intros H. apply b2z_inj. rewrite b2z_z2b. exact H. Qed.

Lemma b64_text_dec t b : b64_text t b -> b64_dec t [] = Some b.
Proof.
  intros H. induction H as [|c0 c1 c2 c3 d0 d1 d2 d3 x y z t b H0 H1 H2 H3 Hv Hb IH|c0 c1 c2 d0 d1 d2 x y H0 H1 H2 Hv|c0 c1 d0 d1 x H0 H1 Hv].
  - reflexivity.
  - rewrite (dec_cons4 _ _ _ _ _ _ _ _ _ H0 H1 H2 H3), IH. cbv zeta. cbn [app].
    pose proof (b2z_range x). pose proof (b2z_range y). pose proof (b2z_range z).
    set (v := d0 * 2^18 + d1 * 2^12 + d2 * 2^6 + d3). assert (Ev : v = 2^16 * b2z x + 2^8 * b2z y + b2z z) by (unfold v; lia).
    rewrite Ev. clear - H H4 H5. change (2^16) with 65536. change (2^8) with 256.
    rewrite (z2b_eq x) by lia. rewrite (z2b_eq y) by lia. rewrite (z2b_eq z) by lia. reflexivity.
  - destruct (digit_facts _ _ H0) as (V0 & _). destruct (digit_facts _ _ H1) as (V1 & _). destruct (digit_facts _ _ H2) as (V2 & _).
    cbn [b64_dec app]. rewrite V0, V1, V2. cbn [b64_val]. rewrite val_pad. cbn [is_crlf Byte.eqb negb orb skip_nl].
    pose proof (b2z_range x). pose proof (b2z_range y). destruct H0 as (R0 & _), H1 as (R1 & _), H2 as (R2 & _).
    assert (E : 2^8 * b2z x + b2z y = d0 * 2^10 + d1 * 2^4 + d2 / 2^2) by (clear - Hv; lia). clear Hv.
    clear - E H H3 R0 R1 R2. change (2^16) with 65536 in *. change (2^18) with 262144 in *. change (2^12) with 4096 in *. change (2^8) with 256 in *. change (2^10) with 1024 in *. change (2^6) with 64 in *. change (2^4) with 16 in *. change (2^2) with 4 in *.
    rewrite (z2b_eq x) by lia. rewrite (z2b_eq y) by lia. reflexivity.
  - destruct (digit_facts _ _ H0) as (V0 & _). destruct (digit_facts _ _ H1) as (V1 & _).
    cbn [b64_dec app]. rewrite V0, V1, val_pad. cbn [is_crlf Byte.eqb negb orb skip_nl].
    pose proof (b2z_range x). destruct H0 as (R0 & _), H1 as (R1 & _).
    clear - Hv H R0 R1. rewrite (z2b_eq x) by lia. reflexivity.
Qed.

Ltac pows := change (Z.pow_pos 2 18) with (2^18); change (Z.pow_pos 2 16) with (2^16); change (Z.pow_pos 2 12) with (2^12);
  change (Z.pow_pos 2 8) with (2^8); change (Z.pow_pos 2 6) with (2^6).
Lemma dec_inv n : forall s b, (length s <= n)%nat -> (forall c, In c s -> is_crlf c = false) -> b64_dec s [] = Some b -> b64_text s b.
Proof.
  induction n as [|n IH]; intros s b Hn Hc H.
  - destruct s; [|cbn in Hn; lia]. injection H as <-. constructor.
  - destruct s as [|c0 s]; [injection H as <-; constructor|].
    assert (Hs : forall (A : Prop), (b64_val c0 = None -> A) -> (forall d, b64_val c0 = Some d -> A) -> A) by (intros A X Y; destruct (b64_val c0); eauto).
    clear Hs. cbn [b64_dec app] in H. destruct (b64_val c0) as [d0|] eqn:E0.
    2:{ rewrite (Hc c0 (or_introl eq_refl)) in H. destruct (negb (Byte.eqb c0 x3d)); discriminate H. }
    destruct s as [|c1 s]; [discriminate H|]. cbn [b64_dec app] in H. destruct (b64_val c1) as [d1|] eqn:E1.
    2:{ rewrite (Hc c1 (or_intror (or_introl eq_refl))) in H. destruct (negb (Byte.eqb c1 x3d)); discriminate H. }
    destruct s as [|c2 s]; [discriminate H|]. cbn [b64_dec app] in H. destruct (b64_val c2) as [d2|] eqn:E2.
    + destruct s as [|c3 s]; [discriminate H|]. cbn [b64_dec app] in H.
      apply b64_val_digit in E0, E1, E2.
      destruct (b64_val c3) as [d3|] eqn:E3.
      * destruct (b64_dec s []) as [r|] eqn:Er; [|discriminate H]. injection H as <-. apply b64_val_digit in E3.
        eapply bt_quad; [exact E0|exact E1|exact E2|exact E3| |apply IH; [cbn in Hn; lia| |exact Er]].
        -- rewrite !b2z_z2b. destruct E0 as (R0 & _), E1 as (R1 & _), E2 as (R2 & _), E3 as (R3 & _). clear - R0 R1 R2 R3. pows.
           set (v := d0 * 2^18 + d1 * 2^12 + d2 * 2^6 + d3). assert (0 <= v < 2^24) by (unfold v; lia).
           replace (2^18 * d0 + 2^12 * d1 + 2^6 * d2 + d3) with v by (unfold v; ring). clearbody v. change (2^24) with 16777216 in H. change (2^16) with 65536. change (2^8) with 256. lia.
        -- intros c Hi. apply Hc. cbn [In]. tauto.
      * rewrite (Hc c3) in H by (cbn [In]; tauto). destruct (Byte.eqb c3 x3d) eqn:Ep; cbn [negb] in H; [|discriminate H]. apply eqb_eq in Ep. subst c3.
        assert (Hs : s = []). { destruct s as [|a s]; [reflexivity|]. cbn [skip_nl] in H. rewrite (Hc a) in H by (cbn [In]; tauto). discriminate H. }
        subst s. cbn [skip_nl] in H. injection H as <-.
        eapply bt_two; [exact E0|exact E1|exact E2|]. rewrite !b2z_z2b. destruct E0 as (R0 & _), E1 as (R1 & _), E2 as (R2 & _). clear - R0 R1 R2. pows.
        set (v := d0 * 2^18 + d1 * 2^12 + d2 * 2^6). assert (0 <= v < 2^24) by (unfold v; lia).
        replace ((2^12 * d0 + 2^6 * d1 + d2) / 2^2) with (v / 2^8) by (unfold v; lia). clearbody v. change (2^24) with 16777216 in H. change (2^16) with 65536. change (2^8) with 256. lia.
    + rewrite (Hc c2) in H by (cbn [In]; tauto). destruct (Byte.eqb c2 x3d) eqn:Ep; cbn [negb] in H; [|discriminate H]. apply eqb_eq in Ep. subst c2.
      destruct s as [|c3 s]; [discriminate H|]. cbn [skip_nl] in H. rewrite (Hc c3) in H by (cbn [In]; tauto).
      destruct (Byte.eqb c3 x3d) eqn:Ep; cbn [negb] in H; [|discriminate H]. apply eqb_eq in Ep. subst c3.
      assert (Hs : s = []). { destruct s as [|a s]; [reflexivity|]. cbn [skip_nl] in H. rewrite (Hc a) in H by (cbn [In]; tauto). discriminate H. }
      subst s. cbn [skip_nl] in H. injection H as <-. apply b64_val_digit in E0, E1.
      eapply bt_one; [exact E0|exact E1|]. rewrite !b2z_z2b. destruct E0 as (R0 & _), E1 as (R1 & _). clear - R0 R1. pows. lia.
Qed.

Lemma b64_decode_iff s b : b64_decode s = Ok b <-> b64_text (unbroken s) b.
Proof.
  unfold b64_decode. rewrite b64_dec_unbroken. split.
  - intros H. destruct (b64_dec (unbroken s) []) eqn:E; [|discriminate H]. injection H as ->.
    eapply dec_inv; [apply le_n| |exact E]. apply in_unbroken.
  - intros H. rewrite (b64_text_dec _ _ H). reflexivity.
Qed.

Lemma list_ind3 {A} (P : list A -> Prop) : P [] -> (forall x, P [x]) -> (forall x y, P [x; y]) ->
  (forall x y z l, P l -> P (x :: y :: z :: l)) -> forall l, P l.
Proof.
  intros H0 H1 H2 H3. assert (forall n l, (length l <= n)%nat -> P l) as K.
  { induction n as [|n IH]; intros l Hl; [destruct l; [exact H0|cbn in Hl; lia]|].
    destruct l as [|x [|y [|z l]]]; auto. apply H3. apply IH. cbn in Hl. lia. }
  intros l. apply (K (length l)). apply le_n.
Qed.
Lemma b64_encode_text b : b64_text (b64_encode b) b.
Proof.
  induction b as [|x|x y|x y z b IH] using list_ind3.
  - constructor.
  - cbn [b64_encode]. pose proof (b2z_range x) as Hx. eapply bt_one; [apply digit_char; clear; lia|apply digit_char; clear; lia|]. clear - Hx. lia.
  - cbn [b64_encode]. pose proof (b2z_range x) as Hx. pose proof (b2z_range y) as Hy.
    eapply bt_two; [apply digit_char; clear; lia|apply digit_char; clear; lia|apply digit_char; clear; lia|]. clear - Hx Hy. change (2^16) with 65536. change (2^18) with 262144. change (2^12) with 4096. change (2^8) with 256. change (2^6) with 64. change (2^2) with 4. lia.
  - cbn [b64_encode app]. pose proof (b2z_range x) as Hx. pose proof (b2z_range y) as Hy. pose proof (b2z_range z) as Hz.
    eapply bt_quad; [apply digit_char; clear; lia|apply digit_char; clear; lia|apply digit_char; clear; lia|apply digit_char; clear; lia| |exact IH].
    clear - Hx Hy Hz. change (2^16) with 65536. change (2^18) with 262144. change (2^12) with 4096. change (2^8) with 256. change (2^6) with 64. lia.
Qed.

(** the characters of an encoding *)
Definition b64_plain (c : byte) : Prop := (exists d, digit c d) \/ c = x3d.
Lemma b64_text_chars t b : b64_text t b -> Forall b64_plain t.
Proof.
  intros H. induction H; repeat (apply Forall_cons; [first [left; eexists; eassumption|right; reflexivity]|]); try apply Forall_nil. assumption.
Qed.
Lemma plain_not_crlf c : b64_plain c -> is_crlf c = false.
Proof. intros [(d & H)|H]; [apply digit_facts in H; tauto|subst c; reflexivity]. Qed.
Lemma b64_text_unbroken t b : b64_text t b -> unbroken t = t.
Proof. intros H. apply no_break_unbroken. intros c Hc. apply b64_text_chars in H. rewrite Forall_forall in H. apply plain_not_crlf. apply H. exact Hc. Qed.
Lemma b64_decode_encode b : b64_decode (b64_encode b) = Ok b.
Proof. apply b64_decode_iff. rewrite (b64_text_unbroken _ b); apply b64_encode_text. Qed.
Lemma len_b64_encode b : len (b64_encode b) = 4 * ((len b + 2) / 3).
Proof. induction b as [|x|x y|x y z b IH] using list_ind3; try reflexivity. cbn [b64_encode app]. rewrite !len_cons, IH. lia. Qed.
Lemma b64_text_fun t b b' : b64_text t b -> b64_text t b' -> b = b'.
Proof. intros H H'. apply b64_text_dec in H, H'. congruence. Qed.
