(** Proofs about GoText.v. *)
From Verif Require Import Bytes BytesLemmas GoErr Base64 SpecBase64 Base64Proofs GoText Ssh SpecSsh.
Require Import ZifyBool.
Ltac Zify.zify_post_hook ::= Z.div_mod_to_equations.
Local Notation length := List.length.
Local Notation concat := List.concat.

Lemma eqb_iff x y : Byte.eqb x y = true <-> x = y.
Proof. split; [apply eqb_eq|intros ->; apply byte_eqb_refl]. Qed.
Lemma eqb_neq x y : Byte.eqb x y = false <-> x <> y.
Proof. split; [intros H E; apply eqb_iff in E; congruence|intros H; destruct (Byte.eqb x y) eqn:E; [apply eqb_iff in E; contradiction|reflexivity]]. Qed.
Lemma eqb_val x y : Byte.eqb x y = true <-> b2z x = b2z y.
Proof. rewrite eqb_iff. split; [intros ->; reflexivity|apply b2z_inj]. Qed.
Lemma is_blank_spec c : is_blank c = true <-> blank c.
Proof. unfold is_blank, blank. rewrite orb_true_iff, !eqb_val. change (b2z x20) with 32. change (b2z x09) with 9. reflexivity. Qed.
Lemma is_blank_false c : is_blank c = false <-> ~ blank c.
Proof. rewrite <- is_blank_spec. destruct (is_blank c); split; congruence. Qed.
Lemma graphic_not_blank c : graphic c -> ~ blank c.
Proof. unfold graphic, blank. lia. Qed.
Lemma blank_space c : blank c -> space c.
Proof. unfold blank, space. lia. Qed.

(** ** find_byte *)
Lemma find_byte_app f a x b : Forall (fun c => f c = false) a -> f x = true -> find_byte f (a ++ x :: b) = Some (len a).
Proof.
  intros Ha Hx. induction Ha as [|c a Hc Ha IH]; cbn [app find_byte]; [rewrite Hx; reflexivity|]. rewrite Hc, IH, len_cons. f_equal. lia.
Qed.
Lemma find_byte_none f a : Forall (fun c => f c = false) a -> find_byte f a = None.
Proof. intros Ha. induction Ha as [|c a Hc Ha IH]; cbn [find_byte]; [reflexivity|]. rewrite Hc, IH. reflexivity. Qed.
Lemma find_byte_inv f l : match find_byte f l with
  | Some i => exists a x b, l = a ++ x :: b /\ len a = i /\ Forall (fun c => f c = false) a /\ f x = true
  | None => Forall (fun c => f c = false) l
  end.
Proof.
  induction l as [|c l IH]; cbn [find_byte]; [constructor|]. destruct (f c) eqn:E.
  - exists [], c, l. split; [reflexivity|]. split; [reflexivity|]. split; [constructor|exact E].
  - destruct (find_byte f l) as [i|]; [|constructor; assumption]. destruct IH as (a & x & b & -> & H1 & H2 & H3).
    exists (c :: a), x, b. split; [reflexivity|]. split; [rewrite len_cons; lia|]. split; [constructor; assumption|exact H3].
Qed.

(** ** trimming *)
Lemma not_prefix_head forms s : (forall w, In w forms -> exists a w', w = a :: w' /\ hd_error s <> Some a) ->
  find (fun w => is_prefix w s) forms = None.
Proof.
  intros H. induction forms as [|w forms IH]; [reflexivity|]. cbn [find].
  destruct (H w (or_introl eq_refl)) as (a & w' & -> & Hh). cbn [is_prefix]. destruct s as [|c s].
  - apply IH. intros w Hw. apply H. right. exact Hw.
  - cbn in Hh. destruct (Byte.eqb a c) eqn:E; [apply eqb_iff in E; congruence|]. cbn [andb]. apply IH. intros w Hw. apply H. right. exact Hw.
Qed.
Definition headed (forms : list bytes) : bool :=
  forallb (fun w => match w with a :: _ => (b2z a <? 33) || (126 <? b2z a) | [] => false end) forms.
Lemma graphic_stops forms s : headed forms = true -> (s = [] \/ exists c s', s = c :: s' /\ graphic c) -> forall fuel, strip forms fuel s = s.
Proof.
  intros Hf Hs fuel. destruct fuel as [|fuel]; [reflexivity|]. cbn [strip]. rewrite not_prefix_head; [reflexivity|].
  intros w Hw. unfold headed in Hf. rewrite forallb_forall in Hf. specialize (Hf w Hw). destruct w as [|a w']; [discriminate Hf|].
  exists a, w'. split; [reflexivity|]. destruct Hs as [-> | (c & s' & -> & Hg)]; cbn; [congruence|]. intros E. injection E as ->. unfold graphic in Hg. lia.
Qed.
Lemma strip_space forms c s fuel : (forall c, space c -> In [c] forms) -> (forall w, In w forms -> w <> []) ->
  (forall c w, space c -> In w forms -> hd_error w = Some c -> w = [c]) -> space c ->
  strip forms (S fuel) (c :: s) = strip forms fuel s.
Proof.
  intros H1 H0 H2 Hc. cbn [strip]. destruct (find (fun w => is_prefix w (c :: s)) forms) as [w|] eqn:E.
  - apply find_some in E. destruct E as (Hw & Hp). destruct w as [|a w]; [exfalso; exact (H0 _ Hw eq_refl)|].
    cbn [is_prefix] in Hp. apply andb_true_iff in Hp. destruct Hp as (Ha & _). apply eqb_iff in Ha. subst a.
    pose proof (H2 c (c :: w) Hc Hw eq_refl) as E. injection E as ->. cbn [len]. change (len [c]) with 1. cbn [drop Z.leb Z.compare Z.sub].
    change (1 <=? 0) with false. cbv iota. rewrite drop_0. reflexivity.
  - pose proof (find_none _ _ E [c] (H1 c Hc)) as Hn. cbn [is_prefix] in Hn. rewrite byte_eqb_refl in Hn. discriminate Hn.
Qed.
Lemma space_cases c : space c -> In c [x09; x0a; x0b; x0c; x0d; x20].
Proof.
  intros H. unfold space in H. assert (E : b2z c = 9 \/ b2z c = 10 \/ b2z c = 11 \/ b2z c = 12 \/ b2z c = 13 \/ b2z c = 32) by lia.
  repeat destruct E as [E|E]; rewrite <- (z2b_b2z c), E; cbn; tauto.
Qed.
Definition spacy (forms : list bytes) : bool :=
  forallb (fun c => existsb (beq [c]) forms && forallb (fun w => match w with a :: w' => if Byte.eqb a c then beq w' [] else true | [] => false end) forms)
          [x09; x0a; x0b; x0c; x0d; x20].
Lemma spacy_facts forms : spacy forms = true ->
  (forall c, space c -> In [c] forms) /\ (forall w, In w forms -> w <> []) /\ (forall c w, space c -> In w forms -> hd_error w = Some c -> w = [c]).
Proof.
  intros H. unfold spacy in H. rewrite forallb_forall in H.
  assert (K : forall c, space c -> existsb (beq [c]) forms = true /\ forallb (fun w => match w with a :: w' => if Byte.eqb a c then beq w' [] else true | [] => false end) forms = true).
  { intros c Hc. specialize (H c (space_cases c Hc)). apply andb_true_iff in H. exact H. }
  split; [|split].
  - intros c Hc. destruct (K c Hc) as (K1 & _). apply existsb_exists in K1. destruct K1 as (w & Hw & E). apply beq_eq in E. subst. exact Hw.
  - intros w Hw E. subst w. destruct (K x20 (or_intror eq_refl)) as (_ & K2). rewrite forallb_forall in K2. specialize (K2 _ Hw). discriminate K2.
  - intros c w Hc Hw E. destruct (K c Hc) as (_ & K2). rewrite forallb_forall in K2. specialize (K2 _ Hw). destruct w as [|a w']; [discriminate E|].
    cbn in E. injection E as ->. rewrite byte_eqb_refl in K2. apply beq_eq in K2. subst. reflexivity.
Qed.
Lemma strip_spaces forms ws s : spacy forms = true -> headed forms = true -> Forall space ws ->
  (s = [] \/ exists c s', s = c :: s' /\ graphic c) -> forall fuel, (length ws <= fuel)%nat -> strip forms fuel (ws ++ s) = s.
Proof.
  intros Hs Hh Hw Hg. destruct (spacy_facts forms Hs) as (F1 & F2 & F3).
  induction Hw as [|c ws Hc Hw IH]; intros fuel Hf.
  - apply graphic_stops; assumption.
  - destruct fuel as [|fuel]; [cbn in Hf; lia|]. cbn [app]. rewrite strip_space by assumption. apply IH. cbn in Hf. lia.
Qed.
Lemma neat_head s : neat s -> s = [] \/ exists c s', s = c :: s' /\ graphic c.
Proof. intros [->|(a & b & Ha & Hb & [->|(m & ->)])]; [left; reflexivity|right; eauto|right; eauto]. Qed.
Lemma neat_rev s : neat s -> neat (rev s).
Proof.
  intros [->|(a & b & Ha & Hb & [->|(m & ->)])]; [left; reflexivity|right; exists a, a; cbn; auto|].
  right. exists b, a. split; [exact Hb|]. split; [exact Ha|]. right. exists (rev m). cbn [rev]. rewrite rev_app_distr. reflexivity.
Qed.
Lemma trim_core ws s ws' : Forall space ws -> Forall space ws' -> neat s -> trim_space (ws ++ s ++ ws') = s.
Proof.
  intros Hw Hw' Hn. unfold trim_space.
  assert (F : spacy space_forms = true /\ headed space_forms = true /\ spacy (map (@rev byte) space_forms) = true /\ headed (map (@rev byte) space_forms) = true)
    by (repeat split; vm_compute; reflexivity).
  destruct F as (F1 & F2 & F3 & F4).
  destruct (neat_head s Hn) as [->|(c & s' & E & Hg)].
  - cbn [app]. assert (R : strip space_forms (length (ws ++ ws')) (ws ++ ws') = []).
    { rewrite <- (app_nil_r (ws ++ ws')) at 2. apply strip_spaces; auto. apply Forall_app. auto. }
    rewrite R. reflexivity.
  - rewrite (strip_spaces space_forms ws (s ++ ws')); auto.
    + rewrite rev_app_distr. rewrite (strip_spaces (map (@rev byte) space_forms) (rev ws') (rev s)); auto.
      * apply rev_involutive.
      * apply Forall_rev. exact Hw'.
      * apply neat_head. apply neat_rev. exact Hn.
      * rewrite rev_length, app_length. lia.
    + right. exists c, (s' ++ ws'). rewrite E. auto.
    + rewrite app_length. lia.
Qed.
Lemma trim_neat s : neat s -> trim_space s = s.
Proof. intros H. pose proof (trim_core [] s [] (Forall_nil _) (Forall_nil _) H) as E. cbn [app] in E. rewrite app_nil_r in E. exact E. Qed.
Lemma trim_spaces s : Forall space s -> trim_space s = [].
Proof. intros H. pose proof (trim_core s [] [] H (Forall_nil _) (or_introl eq_refl)) as E. cbn [app] in E. rewrite app_nil_r in E. exact E. Qed.

(** whatever is trimmed is a contiguous part of the text *)
Lemma strip_suffix forms fuel : forall s, exists p, s = p ++ strip forms fuel s.
Proof.
  induction fuel as [|fuel IH]; intros s; cbn [strip]; [exists []; reflexivity|].
  destruct (find _ forms) as [w|]; [|exists []; reflexivity]. destruct (IH (drop (len w) s)) as (p & Hp).
  exists (take (len w) s ++ p). rewrite <- app_assoc, <- Hp, take_drop. reflexivity.
Qed.
Lemma trim_part s : exists p q, s = p ++ trim_space s ++ q.
Proof.
  unfold trim_space. set (s1 := strip space_forms (length s) s). destruct (strip_suffix space_forms (length s) s) as (p & Hp). fold s1 in Hp.
  set (s2 := strip _ (length s1) (rev s1)). destruct (strip_suffix (map (@rev byte) space_forms) (length s1) (rev s1)) as (q & Hq). fold s2 in Hq.
  exists p, (rev q). rewrite Hp at 1. f_equal. rewrite <- (rev_involutive s1), Hq, rev_app_distr. reflexivity.
Qed.

(** ** splitting at blanks *)
Lemma split_last u : forall cur inrun, Forall (fun x => ~ blank x) u -> (u <> [] \/ inrun = false \/ cur = []) -> split_blanks u cur inrun = [cur ++ u].
Proof.
  induction u as [|x u IH]; intros cur inrun Hu H; cbn [split_blanks]; [rewrite app_nil_r; reflexivity|].
  inversion Hu; subst. rewrite (proj2 (is_blank_false x)) by assumption. rewrite IH by auto. rewrite <- app_assoc. reflexivity.
Qed.
Lemma split_run bl : forall v, Forall blank bl -> (exists c v', v = c :: v' /\ ~ blank c) \/ v = [] -> split_blanks (bl ++ v) [] true = split_blanks v [] false.
Proof.
  induction bl as [|b bl IH]; intros v Hb Hv.
  - cbn [app]. destruct Hv as [(c & v' & -> & Hc)| ->]; [|reflexivity]. cbn [split_blanks]. rewrite (proj2 (is_blank_false c) Hc). reflexivity.
  - inversion Hb; subst. cbn [app split_blanks]. rewrite (proj2 (is_blank_spec b)) by assumption. apply IH; assumption.
Qed.
(** a word (or nothing), a run of blanks, then something that is not blank *)
Lemma split_at u bl v : forall cur, Forall (fun x => ~ blank x) u -> blanks bl -> (exists c v', v = c :: v' /\ ~ blank c) \/ v = [] ->
  split_blanks (u ++ bl ++ v) cur false = (cur ++ u) :: split_blanks v [] false.
Proof.
  induction u as [|x u IH]; intros cur Hu (Hb0 & Hb) Hv.
  - cbn [app]. destruct bl as [|b bl]; [contradiction|]. inversion Hb; subst. cbn [app split_blanks]. rewrite (proj2 (is_blank_spec b)) by assumption.
    rewrite app_nil_r. f_equal. apply split_run; assumption.
  - inversion Hu; subst. cbn [app split_blanks]. rewrite (proj2 (is_blank_false x)) by assumption. rewrite IH by (auto; split; assumption). rewrite <- app_assoc. reflexivity.
Qed.
(** the number of pieces does not depend on what has been collected *)
Lemma split_len s : forall cur cur' r, length (split_blanks s cur r) = length (split_blanks s cur' r).
Proof.
  induction s as [|c s IH]; intros cur cur' r; cbn [split_blanks]; [reflexivity|]. destruct (is_blank c); [destruct r; cbn [length]; [reflexivity|f_equal]|apply IH].
Qed.
Lemma split_len_app a : forall b cur r, (exists c b', b = c :: b' /\ ~ blank c) -> (length (split_blanks b [] false) <= length (split_blanks (a ++ b) cur r))%nat.
Proof.
  induction a as [|x a IH]; intros b cur r Hb.
  - cbn [app]. destruct Hb as (c & b' & -> & Hc). cbn [split_blanks]. rewrite (proj2 (is_blank_false c) Hc). rewrite (split_len b' _ (cur ++ [c])). apply le_n.
  - cbn [app split_blanks]. destruct (is_blank x); [destruct r; cbn [length]; [|apply le_S]|]; apply IH; exact Hb.
Qed.
(** inverse: three pieces mean two runs of blanks *)
Lemma split_inv s : forall cur r v, split_blanks s cur r = v -> exists first rest, v = first :: rest.
Proof. induction s as [|c s IH]; intros cur r v H; cbn [split_blanks] in H; [subst; eauto|]. destruct (is_blank c); [destruct r; [eapply IH; exact H|subst; eauto]|eapply IH; exact H]. Qed.

(** ** sub-strings *)
Lemma is_prefix_iff p l : is_prefix p l = true <-> exists r, l = p ++ r.
Proof.
  revert l. induction p as [|x p IH]; intros l; cbn [is_prefix]; [split; [intros _; exists l; reflexivity|reflexivity]|].
  destruct l as [|y l]; [split; [intros H; discriminate H|intros (r & H); discriminate H]|]. rewrite andb_true_iff, eqb_iff, IH.
  split; [intros (-> & r & ->); exists r; reflexivity|intros (r & H); injection H as -> ->; split; [reflexivity|eauto]].
Qed.
Definition occurs (sub s : bytes) : Prop := exists a b, s = a ++ sub ++ b.
Lemma index_sub_spec sub b : match index_sub sub b with
  | Some i => exists p q, b = p ++ sub ++ q /\ len p = i
  | None => ~ occurs sub b
  end.
Proof.
  induction b as [|x b IH].
  - cbn [index_sub]. destruct (is_prefix sub []) eqn:E.
    + apply is_prefix_iff in E. destruct E as (r & E). exists [], r. split; [exact E|reflexivity].
    + intros (a & c & H). symmetry in H. apply app_eq_nil in H. destruct H as (_ & H). apply app_eq_nil in H. destruct H as (-> & _). discriminate E.
  - cbn [index_sub]. destruct (is_prefix sub (x :: b)) eqn:E.
    + apply is_prefix_iff in E. destruct E as (r & E). exists [], r. split; [exact E|reflexivity].
    + destruct (index_sub sub b) as [i|].
      * destruct IH as (p & q & -> & Hp). exists (x :: p), q. split; [reflexivity|]. rewrite len_cons. lia.
      * intros (a & c & H). destruct a as [|y a].
        -- cbn [app] in H. assert (is_prefix sub (x :: b) = true) by (apply is_prefix_iff; eauto). congruence.
        -- injection H as -> H. apply IH. exists a, c. exact H.
Qed.
Lemma occurs_chars sub s c : occurs sub s -> In c sub -> In c s.
Proof. intros (a & b & ->) H. apply in_or_app. right. apply in_or_app. left. exact H. Qed.
(** a string without newline cannot span lines *)
Lemma occurs_split sub l x r : ~ In x sub -> occurs sub (l ++ x :: r) -> occurs sub l \/ occurs sub r.
Proof.
  intros Hx (a & b & H). rewrite app_assoc in H. apply app_eq_app in H. destruct H as (m & [(H1 & H2)|(H1 & H2)]).
  - left. exists a, m. rewrite app_assoc. exact H1.
  - destruct m as [|y m]; [left; exists a, []; rewrite app_nil_r in *; symmetry; exact H1|]. cbn [app] in H2. injection H2 as <- ->.
    replace (l ++ x :: m) with ((l ++ [x]) ++ m) in H1 by (rewrite <- app_assoc; reflexivity).
    apply app_eq_app in H1. destruct H1 as (k & [(H1 & H2)|(H1 & H2)]).
    + right. exists k, b. rewrite H2, <- app_assoc. reflexivity.
    + destruct k as [|z k]; [right; exists [], b; cbn in H2; subst; reflexivity|]. exfalso. apply Hx.
      destruct (@exists_last _ (z :: k)) as (k' & w & E); [discriminate|]. rewrite E in H1, H2. rewrite app_assoc in H1. apply app_inj_tail in H1. destruct H1 as (_ & <-).
      rewrite H2. apply in_or_app. left. apply in_or_app. right. left. reflexivity.
Qed.
