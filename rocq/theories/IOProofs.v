(** Facts about GoIO.v *)
From Verif Require Import Bytes BytesLemmas GoErr GoIO SpecIO Encrypt.
Local Notation length := List.length.

Lemma delivers_nil_inv r e : forall b, delivers r b e -> forall n, 0 < n -> len b < n ->
  exists r', read_loop r n = (b, Some e, r').
Proof.
  intros b H. induction H as [|b r s e H IH|e r|b e r H IH]; intros n Hn Hlt; cbn [read_loop].
  - destruct (n <=? 0) eqn:E; [lia|]. eexists; reflexivity.
  - rewrite len_app in Hlt. pose proof (len_nonneg b). pose proof (len_nonneg s).
    destruct (n <=? 0) eqn:E; [lia|].
    destruct (n <? len b) eqn:E1; [lia|]. destruct (n =? len b) eqn:E2; [lia|].
    destruct (IH (n - len b)) as [r' Hr]; [lia|lia|]. rewrite Hr. eexists; reflexivity.
  - change (len (@nil byte)) with 0 in *.
    destruct (n <=? 0) eqn:E; [lia|]. destruct (n <? 0) eqn:E1; [lia|].
    destruct (n =? 0) eqn:E2; [lia|]. eauto.
  - destruct (n <=? 0) eqn:E; [lia|]. destruct (n <? len b) eqn:E1; [lia|].
    destruct (n =? len b) eqn:E2; [lia|]. eauto.
Qed.

Lemma delivers_read_loop r s e : delivers r s e -> forall n, 0 < n -> n <= len s ->
  exists r', read_loop r n = (take n s, None, r') /\ delivers r' (drop n s) e.
Proof.
  intros H. induction H as [|b r s e H IH|e r|b e r H IH]; intros n Hn Hle; cbn [read_loop].
  - rewrite len_nil in Hle. lia.
  - rewrite len_app in Hle.
    destruct (n <=? 0) eqn:E; [lia|].
    destruct (n <? len b) eqn:E1.
    + eexists. split.
      * rewrite take_app_l by lia. reflexivity.
      * rewrite drop_app_l by lia. constructor. exact H.
    + destruct (n =? len b) eqn:E2.
      * assert (n = len b) by lia. subst n. eexists.
        rewrite take_app_exact, drop_app_exact. split; [reflexivity|exact H].
      * destruct (IH (n - len b)) as (r' & Hr & Hd); [lia|lia|]. rewrite Hr.
        eexists. rewrite take_app_r, drop_app_r by lia. split; [reflexivity|exact Hd].
  - rewrite len_nil in Hle. lia.
  - destruct (n <=? 0) eqn:E; [lia|].
    destruct (n <? len b) eqn:E1.
    + eexists. split; [reflexivity|]. constructor. exact H.
    + destruct (n =? len b) eqn:E2; [|lia]. assert (n = len b) by lia. subst n.
      eexists. rewrite take_all, drop_all by lia. split; [reflexivity|exact H].
Qed.

Lemma read_full_ok r s e n : delivers r s e -> 0 < n -> n <= len s ->
  exists r', read_full r n = (take n s, None, r') /\ delivers r' (drop n s) e.
Proof.
  intros H Hn Hle. destruct (delivers_read_loop _ _ _ H n Hn Hle) as (r' & Hr & Hd).
  exists r'. unfold read_full. rewrite Hr. auto.
Qed.

(** the error io.ReadFull reports when the source stops early *)
Definition short_err (s : bytes) (e : goerr) : goerr :=
  match e with IoEOF => if 0 <? len s then ErrUnexpectedEOF else IoEOF | _ => e end.

Lemma read_full_short r s e n : delivers r s e -> 0 < n -> len s < n ->
  exists r', read_full r n = (s, Some (short_err s e), r').
Proof.
  intros H Hn Hlt. destruct (delivers_nil_inv _ _ _ H n Hn Hlt) as (r' & Hr).
  exists r'. unfold read_full, short_err. rewrite Hr. destruct e; reflexivity.
Qed.

(** on any source whatsoever: what read_full returns and consumes *)
Lemma read_loop_any r : forall n b e r', read_loop r n = (b, e, r') -> 0 <= n ->
  (e = None -> len b = n) /\ len b <= n /\
  (Z.of_nat (rd_size r) = len b + Z.of_nat (rd_size r')).
Proof.
  induction r as [|[b0 e0] r IH]; intros n b e r'; cbn [read_loop].
  - destruct (n <=? 0) eqn:E; intros H Hn; inversion H; subst; rewrite len_nil; repeat split; try lia; try discriminate.
  - destruct (n <=? 0) eqn:E; intros H Hn.
    { inversion H; subst. rewrite len_nil. repeat split; lia. }
    destruct (n <? len b0) eqn:E1.
    { inversion H; subst. rewrite len_take by lia. repeat split; try lia.
      cbn [rd_size]. rewrite !Nat2Z.inj_add. fold (len b0). fold (len (drop n b0)).
      rewrite len_drop by lia. lia. }
    destruct (n =? len b0) eqn:E2.
    { inversion H; subst. cbn [rd_size]. rewrite Nat2Z.inj_add. fold (len b). repeat split; lia. }
    destruct e0 as [x|].
    { inversion H; subst. cbn [rd_size]. rewrite Nat2Z.inj_add. fold (len b). repeat split; try lia; try discriminate. }
    destruct (read_loop r (n - len b0)) as [[b2 e2] r2] eqn:Er. inversion H; subst.
    destruct (IH _ _ _ _ Er) as (H1 & H2 & H3); [lia|].
    rewrite len_app. cbn [rd_size]. rewrite Nat2Z.inj_add. fold (len b0).
    repeat split; try lia.
Qed.

Lemma read_full_any r n b e r' : read_full r n = (b, e, r') -> 0 <= n ->
  (e = None -> len b = n) /\ len b <= n /\
  (Z.of_nat (rd_size r) = len b + Z.of_nat (rd_size r')).
Proof.
  unfold read_full. destruct (read_loop r n) as [[b0 e0] r0] eqn:E. intros H Hn.
  destruct (read_loop_any _ _ _ _ _ E Hn) as (H1 & H2 & H3).
  destruct e0 as [x|].
  - assert (b0 = b /\ r0 = r' /\ e <> None) as (-> & -> & Hne).
    { destruct x; inversion H; subst; repeat split; try discriminate;
        destruct (0 <? len b); discriminate. }
    repeat split; try assumption. intros ->. contradiction.
  - inversion H; subst. auto.
Qed.

Lemma delivers_whole s : delivers (whole s) s IoEOF.
Proof. unfold whole. rewrite <- (app_nil_r s) at 2. constructor. constructor. Qed.

Lemma delivers_size r s e : delivers r s e -> len s <= Z.of_nat (rd_size r).
Proof.
  induction 1 as [|b r s e H IH|e r|b e r H IH]; cbn [rd_size]; rewrite ?Nat2Z.inj_add, ?len_app; unfold len in *; cbn; try lia.
Qed.

(** ** writers *)
Lemma fullwrite_loop_spec s : forall buf out e o s',
  fullwrite_loop s buf out = (e, o, s') ->
  (e = None -> o = out ++ buf) /\
  (exists k, o = out ++ take k buf) /\
  (forall x, e = Some x -> exists k m, In (m, Some x) s /\ o = out ++ take k buf) /\
  (exists pre, s = pre ++ s').
Proof.
  induction s as [|[k e0] s IH]; intros buf out e o s' H.
  - assert (e = None /\ o = out ++ buf /\ s' = []) as (-> & -> & ->).
    { destruct buf; cbn in H; inversion H; subst; rewrite ?app_nil_r; auto. }
    repeat split; [exists (len buf); rewrite take_all by lia; reflexivity|discriminate|exists []; reflexivity].
  - destruct buf as [|b0 buf].
    { cbn in H; inversion H; subst. rewrite app_nil_r.
      repeat split; [|discriminate|exists []; reflexivity].
      exists 0. cbn. now rewrite app_nil_r. }
    remember (b0 :: buf) as bf. assert (Hf : fullwrite_loop ((k, e0) :: s) bf out =
      match e0 with Some x => (Some x, out ++ take k bf, s)
      | None => fullwrite_loop s (drop (len (take k bf)) bf) (out ++ take k bf) end) by (subst; reflexivity).
    rewrite Hf in H. clear Hf. destruct e0 as [x|].
    + inversion H; subst. repeat split; [discriminate|eauto| |exists [(k,Some x)]; reflexivity].
      intros y Hy. inversion Hy; subst. exists k, k. split; [now left|reflexivity].
    + apply IH in H. destruct H as (H1 & (k2 & H2) & H3 & pre & H4).
      assert (Hd : take k bf ++ drop (len (take k bf)) bf = bf).
      { destruct (Z.leb_spec k 0) as [Hk|Hk].
        - rewrite take_neg by lia. cbn. now rewrite drop_0.
        - destruct (Z.leb_spec (len bf) k).
          + rewrite take_all by lia. rewrite drop_all by lia. apply app_nil_r.
          + rewrite len_take_le by lia. apply take_drop. }
      assert (Hp : forall q, exists q', take k bf ++ take q (drop (len (take k bf)) bf) = take q' bf).
      { intros q. exists (len (take k bf) + Z.max 0 q). 
        match goal with |- _ = take ?n bf =>
          replace (take n bf) with (take n (take k bf ++ drop (len (take k bf)) bf)) by (now rewrite Hd) end.
        rewrite take_app_r by lia. f_equal.
        destruct (Z.leb_spec q 0); [rewrite !take_neg by lia; reflexivity|]. f_equal. lia. }
      repeat split.
      * intros He. rewrite (H1 He), <- app_assoc, Hd. reflexivity.
      * destruct (Hp k2) as [q Hq]. exists q. rewrite H2, <- app_assoc, Hq. reflexivity.
      * intros x Hx. destruct (H3 _ Hx) as (k3 & m & Hin & Ho). destruct (Hp k3) as [q Hq].
        exists q, m. split; [now right|]. rewrite Ho, <- app_assoc, Hq. reflexivity.
      * exists ((k,None)::pre). cbn. now rewrite <- H4.
Qed.

(** later states of one destination *)
Definition later (w w' : writer) : Prop :=
  (exists pre, w_sched w = pre ++ w_sched w') /\ w_closes w' = w_closes w /\ w_nclosed w' = w_nclosed w.
Lemma later_refl w : later w w.
Proof. repeat split. exists []. reflexivity. Qed.
Lemma later_trans a b c : later a b -> later b c -> later a c.
Proof.
  intros [[p1 H1] [H2 H3]] [[p2 H4] [H5 H6]]. repeat split; try congruence.
  exists (p1 ++ p2). rewrite H1, H4, app_assoc. reflexivity.
Qed.
Lemma later_In w w' x : later w w' -> In x (w_sched w') -> In x (w_sched w).
Proof. intros [[p H] _] Hi. rewrite H. apply in_or_app. auto. Qed.

Lemma fullwrite_later buf w e w' : fullwrite buf w = (e, w') -> later w w'.
Proof.
  unfold fullwrite. destruct (fullwrite_loop (w_sched w) buf (w_out w)) as [[e0 o] s] eqn:E.
  intros H; inversion H; subst. cbn. destruct (fullwrite_loop_spec _ _ _ _ _ _ E) as (_ & _ & _ & H4).
  repeat split. exact H4.
Qed.

Lemma fullwrite_None buf w w' : fullwrite buf w = (None, w') ->
  w_out w' = w_out w ++ buf /\ later w w'.
Proof.
  intros H. split; [|eapply fullwrite_later; exact H]. revert H.
  unfold fullwrite. destruct (fullwrite_loop (w_sched w) buf (w_out w)) as [[e o] s] eqn:E.
  intros H; inversion H; subst. cbn. destruct (fullwrite_loop_spec _ _ _ _ _ _ E) as (H1 & _).
  auto.
Qed.

Lemma fullwrite_Some buf w w' x : fullwrite buf w = (Some x, w') ->
  (exists k, w_out w' = w_out w ++ take k buf) /\ (exists m, In (m, Some x) (w_sched w)) /\ later w w'.
Proof.
  intros H. assert (Hl := fullwrite_later _ _ _ _ H). revert H.
  unfold fullwrite. destruct (fullwrite_loop (w_sched w) buf (w_out w)) as [[e o] s] eqn:E.
  intros H; inversion H; subst. cbn. destruct (fullwrite_loop_spec _ _ _ _ _ _ E) as (_ & _ & H3 & _).
  destruct (H3 x eq_refl) as (k & m & Hin & Ho).
  split; [eauto|]. split; [eauto|exact Hl].
Qed.

Lemma fullwrite_accepts buf w : accepts w ->
  exists w', fullwrite buf w = (None, w') /\ w_out w' = w_out w ++ buf /\ accepts w' /\
             w_nclosed w' = w_nclosed w.
Proof.
  intros [Ha Hc]. unfold fullwrite.
  destruct (fullwrite_loop (w_sched w) buf (w_out w)) as [[e o] s] eqn:E.
  destruct (fullwrite_loop_spec _ _ _ _ _ _ E) as (H1 & _ & H3 & pre & H4).
  destruct e as [x|].
  - exfalso. destruct (H3 x eq_refl) as (k & m & Hin & _).
    rewrite Forall_forall in Ha. specialize (Ha _ Hin). discriminate.
  - exists (w_with_out w o s). cbn. repeat split; auto.
    rewrite H4 in Ha. apply Forall_app in Ha. tauto.
Qed.

Lemma w_close_accepts w : accepts w ->
  exists w', w_close w = (None, w') /\ w_out w' = w_out w /\ accepts w' /\ w_nclosed w' = w_nclosed w + 1.
Proof.
  intros [Ha Hc]. unfold w_close. destruct (w_closes w) as [|c cs] eqn:E.
  - eexists; split; [reflexivity|]. cbn. repeat split; auto.
  - inversion Hc; subst. eexists; split; [reflexivity|]. cbn. repeat split; auto.
Qed.

Lemma w_close_out w e w' : w_close w = (e, w') -> w_out w' = w_out w.
Proof. unfold w_close. destruct (w_closes w); intros H; inversion H; reflexivity. Qed.

(** ** random source *)
Lemma len_rng_bytes t p n : len (rng_bytes t p n) = Z.of_nat n.
Proof. revert p; induction n; intros p; cbn [rng_bytes]; [reflexivity|]. rewrite len_cons, IHn. lia. Qed.
Lemma len_rand_buf n g b g' : 0 <= n -> rand_buf n g = (b, g') -> len b = n.
Proof. unfold rand_buf. intros Hn H. inversion H; subst. rewrite len_rng_bytes. lia. Qed.
