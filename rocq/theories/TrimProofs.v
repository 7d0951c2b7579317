(** The model's [trim_space] meets the specification of SpecTrim.v. *)
From Verif Require Import Bytes BytesLemmas GoText TextProofs SpecTrim.
Require Import Lia.
Local Notation length := List.length.
Local Notation concat := List.concat.

Lemma white_forms w : white w <-> In w space_forms.
Proof.
  assert (E : space_forms = map utf8 white_points) by (vm_compute; reflexivity). rewrite E, in_map_iff. unfold white. split; intros (n & H); exists n; intuition congruence.
Qed.

Lemma is_prefix_iff w s : is_prefix w s = true <-> exists r, s = w ++ r.
Proof.
  revert s. induction w as [|x w IH]; intros s; [cbn; split; [eauto|reflexivity]|]. destruct s as [|y s]; cbn [is_prefix].
  - split; [discriminate|]. intros (r & H). discriminate H.
  - rewrite andb_true_iff, eqb_iff, IH. split.
    + intros (-> & r & ->). exists r. reflexivity.
    + intros (r & H). cbn in H. injection H as -> ->. split; [reflexivity|eauto].
Qed.

(** no form is empty or begins with another *)
Definition prefix_free (forms : list bytes) : bool :=
  forallb (fun w => negb (beq w []) && forallb (fun w' => implb (is_prefix w w' || is_prefix w' w) (beq w w')) forms) forms.
Lemma prefix_free_facts forms : prefix_free forms = true ->
  (forall w, In w forms -> w <> []) /\
  (forall w w' r r', In w forms -> In w' forms -> w ++ r = w' ++ r' -> w = w').
Proof.
  intros H. unfold prefix_free in H. rewrite forallb_forall in H. split.
  - intros w Hw E. specialize (H w Hw). rewrite E in H. discriminate H.
  - intros w w' r r' Hw Hw' E. specialize (H w Hw). apply andb_true_iff in H. destruct H as (_ & H). rewrite forallb_forall in H. specialize (H w' Hw').
    assert (P : is_prefix w w' || is_prefix w' w = true).
    { clear - E. revert w' E. induction w as [|x w IH]; intros w' E; [reflexivity|]. destruct w' as [|y w']; [cbn; reflexivity|].
      cbn in E. injection E as -> E. cbn [is_prefix]. rewrite byte_eqb_refl. cbn [andb]. apply IH. exact E. }
    rewrite P in H. cbn [implb] in H. apply beq_eq. exact H.
Qed.

Section Strip.
  Context (forms : list bytes) (PF : prefix_free forms = true).
  Lemma strip_stop fuel s : (forall w r, In w forms -> s <> w ++ r) -> strip forms fuel s = s.
  Proof.
    intros H. destruct fuel as [|fuel]; [reflexivity|]. cbn [strip]. destruct (find _ forms) as [w|] eqn:E; [|reflexivity].
    apply find_some in E. destruct E as (Hw & Hp). apply is_prefix_iff in Hp. destruct Hp as (r & Hr). exfalso. exact (H w r Hw Hr).
  Qed.
  Lemma strip_forms ws : forall fuel s, Forall (fun w => In w forms) ws -> (forall w r, In w forms -> s <> w ++ r) -> (length (concat ws) <= fuel)%nat ->
    strip forms fuel (concat ws ++ s) = s.
  Proof.
    destruct (prefix_free_facts forms PF) as (F1 & F2).
    induction ws as [|w ws IH]; intros fuel s Hw Hs Hf; [apply strip_stop; exact Hs|].
    inversion Hw; subst. cbn [concat] in *. rewrite app_length in Hf. pose proof (F1 w H1) as Hn. assert (0 < length w)%nat by (destruct w; [contradiction|cbn; lia]).
    destruct fuel as [|fuel]; [lia|]. cbn [strip]. rewrite <- app_assoc. destruct (find _ forms) as [w'|] eqn:E.
    - apply find_some in E. destruct E as (Hw' & Hp). apply is_prefix_iff in Hp. destruct Hp as (r & Hr).
      pose proof (F2 _ _ _ _ H1 Hw' Hr) as <-. rewrite drop_app_eq by reflexivity. apply IH; [assumption|assumption|lia].
    - pose proof (find_none _ _ E w H1) as Hx. cbv beta in Hx. assert (is_prefix w (w ++ concat ws ++ s) = true) by (apply is_prefix_iff; eauto). congruence.
  Qed.
  Lemma strip_found fuel : forall s, (length s <= fuel)%nat ->
    exists ws, Forall (fun w => In w forms) ws /\ s = concat ws ++ strip forms fuel s /\ (forall w r, In w forms -> strip forms fuel s <> w ++ r).
  Proof.
    destruct (prefix_free_facts forms PF) as (F1 & _).
    induction fuel as [|fuel IH]; intros s Hl.
    - destruct s; [|cbn in Hl; lia]. exists []. split; [constructor|]. split; [reflexivity|]. cbn [strip]. intros w r Hw E. symmetry in E. apply app_eq_nil in E. exact (F1 w Hw (proj1 E)).
    - cbn [strip]. destruct (find _ forms) as [w|] eqn:E.
      + apply find_some in E. destruct E as (Hw & Hp). apply is_prefix_iff in Hp. destruct Hp as (r & ->). rewrite drop_app_eq by reflexivity.
        pose proof (F1 w Hw) as Hn. assert (0 < length w)%nat by (destruct w; [contradiction|cbn; lia]). rewrite app_length in Hl.
        destruct (IH r ltac:(lia)) as (ws & H1 & H2 & H3). exists (w :: ws). split; [constructor; assumption|]. split; [|exact H3]. cbn [concat]. rewrite <- app_assoc, <- H2. reflexivity.
      + exists []. split; [constructor|]. split; [reflexivity|]. intros w r Hw Es. pose proof (find_none _ _ E w Hw) as Hx. cbv beta in Hx.
        assert (is_prefix w s = true) by (apply is_prefix_iff; eauto). congruence.
  Qed.
End Strip.

Lemma rev_concat (ws : list bytes) : rev (concat ws) = concat (rev (map (@rev byte) ws)).
Proof.
  induction ws as [|w ws IH]; [reflexivity|]. cbn [concat map rev]. rewrite rev_app_distr, IH, concat_app. cbn [concat]. rewrite app_nil_r. reflexivity.
Qed.
Lemma rev_forms w : In w (map (@rev byte) space_forms) <-> In (rev w) space_forms.
Proof.
  rewrite in_map_iff. split; [intros (x & <- & H); rewrite rev_involutive; exact H|intros H; exists (rev w); rewrite rev_involutive; auto].
Qed.
(** a white character that begins inside [t] and ends behind it would contain a first byte of another one *)
Definition heads_only : bool := forallb (fun w => match w with [] => false | _ :: tl => forallb (fun c => forallb (fun w' => match w' with a :: _ => negb (Byte.eqb a c) | [] => false end) space_forms) tl end) space_forms.
Lemma no_white_front t ws' : (forall w r, In w space_forms -> t <> w ++ r) -> t <> [] -> Forall (fun w => In w space_forms) ws' ->
  forall w r, In w space_forms -> t ++ concat ws' <> w ++ r.
Proof.
  intros Ht Hn Hw w r Hin E.
  assert (HO : heads_only = true) by (vm_compute; reflexivity). unfold heads_only in HO. rewrite forallb_forall in HO. specialize (HO w Hin).
  destruct t as [|x t]; [contradiction|]. destruct w as [|y tl]; [discriminate HO|]. cbn [app] in E. injection E as -> E. 
  assert (K : (exists r', t = tl ++ r') \/ (exists c tl1 tl2, tl = tl1 ++ c :: tl2 /\ hd_error (concat ws') = Some c)).
  { clear - E. revert tl E. induction t as [|x t IH]; intros tl E.
    - destruct tl as [|c tl]; [left; exists []; reflexivity|]. right. cbn [app] in E. exists c, [], tl. split; [reflexivity|]. rewrite E. reflexivity.
    - destruct tl as [|c tl]; [left; eexists; reflexivity|]. cbn [app] in E. injection E as -> E. destruct (IH tl E) as [(r' & ->)|(c' & a & b & -> & H)].
      + left. exists r'. reflexivity.
      + right. exists c', (c :: a), b. split; [reflexivity|exact H]. }
  destruct K as [(r' & ->)|(c & a & b & -> & H)]; [exact (Ht (y :: tl) r' Hin eq_refl)|].
  rewrite forallb_forall in HO. specialize (HO c ltac:(apply in_elt)). rewrite forallb_forall in HO.
  destruct ws' as [|w' ws']; [discriminate H|]. inversion Hw; subst. specialize (HO w' H2). destruct w' as [|d w']; [discriminate HO|]. cbn in H. injection H as ->.
  rewrite byte_eqb_refl in HO. discriminate HO.
Qed.

Theorem trimmed_iff s t : trimmed s t <-> t = trim_space s.
Proof.
  assert (P1 : prefix_free space_forms = true) by (vm_compute; reflexivity).
  assert (P2 : prefix_free (map (@rev byte) space_forms) = true) by (vm_compute; reflexivity).
  assert (FW : forall ws, Forall white ws <-> Forall (fun w => In w space_forms) ws) by (intros ws; split; apply Forall_impl; intros w; apply white_forms).
  split.
  - intros (ws & ws' & Hw & Hw' & -> & Hf & Hb). apply FW in Hw, Hw'. unfold trim_space.
    assert (Hf2 : forall w r, In w space_forms -> t <> w ++ r) by (intros w r H; apply Hf, white_forms, H).
    assert (Hb2 : forall w r, In w (map (@rev byte) space_forms) -> rev t <> w ++ r).
    { intros w r H E. apply rev_forms, white_forms in H. apply (Hb (rev w) (rev r) H). rewrite <- rev_app_distr, <- E, rev_involutive. reflexivity. }
    assert (R : forall x, Forall (fun w => In w space_forms) x -> Forall (fun w => In w (map (@rev byte) space_forms)) (rev (map (@rev byte) x))).
    { intros x Hx. apply Forall_rev, Forall_map. revert Hx. apply Forall_impl. intros w H. apply rev_forms. rewrite rev_involutive. exact H. }
    destruct t as [|x t].
    + cbn [app]. rewrite <- concat_app. replace (strip space_forms _ _) with (@nil byte); [reflexivity|]. symmetry.
      rewrite <- (app_nil_r (concat (ws ++ ws'))) at 2. apply strip_forms; [exact P1|apply Forall_app; auto|exact Hf2|apply Nat.le_refl].
    + rewrite (strip_forms space_forms P1 ws); [|exact Hw|apply no_white_front; [exact Hf2|discriminate|exact Hw']|rewrite app_length; lia].
      rewrite rev_app_distr, rev_concat. rewrite (strip_forms _ P2); [rewrite rev_involutive; reflexivity|apply R, Hw'|exact Hb2|].
      rewrite <- rev_concat, rev_length, app_length. lia.
  - intros ->. unfold trim_space. destruct (strip_found space_forms P1 (length s) s (Nat.le_refl _)) as (ws & H1 & H2 & H3). set (s1 := strip space_forms (length s) s) in *.
    destruct (strip_found _ P2 (length s1) (rev s1)) as (ws' & G1 & G2 & G3); [rewrite rev_length; apply Nat.le_refl|]. set (s2 := strip (map (@rev byte) space_forms) (length s1) (rev s1)) in *.
    assert (E1 : s1 = rev s2 ++ concat (rev (map (@rev byte) ws'))). { rewrite <- rev_concat, <- rev_app_distr, <- G2, rev_involutive. reflexivity. }
    exists ws, (rev (map (@rev byte) ws')). split; [apply FW; exact H1|]. split; [|split; [|split]].
    + apply FW. apply Forall_rev, Forall_map. revert G1. apply Forall_impl. intros w H. apply rev_forms. exact H.
    + rewrite H2 at 1. f_equal. exact E1.
    + intros w r Hw E. apply white_forms in Hw. apply (H3 w (r ++ concat (rev (map (@rev byte) ws'))) Hw). rewrite E1, E, <- app_assoc. reflexivity.
    + intros w r Hw E. apply white_forms in Hw. apply (G3 (rev w) (rev r)); [apply rev_forms; rewrite rev_involutive; exact Hw|].
      rewrite <- rev_app_distr, <- E, rev_involutive. reflexivity.
Qed.
