(** Lemmas about command lines. *)
From Verif Require Import Bytes BytesLemmas GoErr GoText TextProofs Cli Main Flags SpecFlags.

(** tables without clashes *)
Definition good_table (fs : list flag) : Prop :=
  NoDup (map fg_name fs) /\ NoDup (filter (fun o => match o with Some _ => true | None => false end) (map fg_short fs)) /\
  Forall (fun f => exists c n, fg_name f = c :: n /\ c <> x2d /\ ~ In x3d (c :: n)) fs.

Fixpoint gives (items : list item) : list (bytes * fval) :=
  match items with [] => [] | Word _ :: l => gives l | Give n v :: l => (n, v) :: gives l end.
Lemma gives_app a b : gives (a ++ b) = gives a ++ gives b.
Proof. induction a as [|[n v|w] a IH]; cbn [gives app]; rewrite ?IH; reflexivity. Qed.
Lemma words_app a b : words (a ++ b) = words a ++ words b.
Proof. induction a as [|[n v|w] a IH]; cbn [words app]; rewrite ?IH; reflexivity. Qed.
Lemma gives_words l : gives (map Word l) = [].
Proof. induction l; cbn [gives map]; auto. Qed.
Lemma words_words l : words (map Word l) = l.
Proof. induction l as [|a l IH]; cbn [words map]; [reflexivity | rewrite IH; reflexivity]. Qed.

Lemma among s l : existsb (beq s) l = true <-> In s l.
Proof.
  rewrite existsb_exists. split; [intros (x & H & Hx); apply beq_iff in Hx; subst; assumption | intros H; exists s; split; [assumption|apply beq_iff; reflexivity]].
Qed.
Lemma parse_bool_cases s : parse_bool s =
  if existsb (beq s) [str "1"; str "t"; str "T"; str "true"; str "True"; str "TRUE"] then Some true
  else if existsb (beq s) [str "0"; str "f"; str "F"; str "false"; str "False"; str "FALSE"] then Some false else None.
Proof.
  unfold parse_bool. cbn [existsb]. destruct (beq s (str "1")), (beq s (str "t")), (beq s (str "T")), (beq s (str "TRUE")), (beq s (str "true")), (beq s (str "True")); try reflexivity.
  destruct (beq s (str "0")), (beq s (str "f")), (beq s (str "F")), (beq s (str "FALSE")), (beq s (str "false")), (beq s (str "False")); reflexivity.
Qed.
Lemma parse_bool_true s : parse_bool s = Some true <-> In s [str "1"; str "t"; str "T"; str "true"; str "True"; str "TRUE"].
Proof.
  rewrite parse_bool_cases, <- among. set (a := existsb _ [str "1"; _; _; _; _; _]). set (b := existsb _ [str "0"; _; _; _; _; _]).
  destruct a, b; split; congruence.
Qed.
Lemma parse_bool_false s : parse_bool s = Some false <-> In s [str "0"; str "f"; str "F"; str "false"; str "False"; str "FALSE"].
Proof.
  split.
  - rewrite parse_bool_cases, <- among. set (a := existsb _ [str "1"; _; _; _; _; _]). set (b := existsb _ [str "0"; _; _; _; _; _]). destruct a, b; congruence.
  - intros H. cbn [In] in H. decompose [or] H; subst; try reflexivity; contradiction.
Qed.
Lemma set_value_says f t v : set_value f t = Some v <-> says f t v.
Proof.
  unfold set_value. split.
  - destruct (fg_bool f) eqn:B.
    + destruct (parse_bool t) as [[|]|] eqn:P; intros [= <-]; [apply sa_yes | apply sa_no]; auto; [apply parse_bool_true | apply parse_bool_false]; assumption.
    + intros [= <-]. constructor; assumption.
  - intros [t' B|t' B H|t' B H]; rewrite B; [reflexivity | apply parse_bool_true in H | apply parse_bool_false in H]; rewrite H; reflexivity.
Qed.

Lemma by_name_in fs n f : by_name fs n = Some f -> In f fs /\ fg_name f = n.
Proof. intros H. apply find_some in H. destruct H as [H1 H2]. apply beq_iff in H2. auto. Qed.
Lemma by_name_ok fs f : NoDup (map fg_name fs) -> In f fs -> by_name fs (fg_name f) = Some f.
Proof.
  unfold by_name. induction fs as [|g fs IH]; [contradiction|]. cbn [map In find]. intros HN Hin. inversion HN as [|? ? N1 N2]; subst.
  destruct Hin as [<-|Hin]. { replace (beq _ _) with true; [reflexivity|]. symmetry. apply beq_iff. reflexivity. }
  destruct (beq (fg_name g) (fg_name f)) eqn:B; [|auto]. apply beq_iff in B. exfalso. apply N1. rewrite B. apply in_map. assumption.
Qed.
Lemma by_short_in fs c f : by_short fs c = Some f -> In f fs /\ fg_short f = Some c.
Proof. intros H. apply find_some in H. destruct H as [H1 H2]. destruct (fg_short f) as [d|]; [|discriminate]. apply Byte.byte_dec_bl in H2. subst. auto. Qed.
Lemma by_short_ok fs f c : NoDup (filter (fun o => match o with Some _ => true | None => false end) (map fg_short fs)) -> In f fs -> fg_short f = Some c -> by_short fs c = Some f.
Proof.
  unfold by_short. induction fs as [|g fs IH]; [contradiction|]. cbn [map In find]. intros HN Hin Hs.
  destruct Hin as [<-|Hin]. { rewrite Hs. replace (Byte.eqb c c) with true by (symmetry; apply Byte.byte_dec_lb; reflexivity). reflexivity. }
  destruct (fg_short g) as [d|] eqn:G; cbn [filter] in HN; [|auto]. inversion HN as [|? ? N1 N2]; subst.
  destruct (Byte.eqb d c) eqn:B; [|auto]. apply Byte.byte_dec_bl in B. subst d. exfalso. apply N1. apply filter_In. split; [|reflexivity].
  rewrite <- Hs. apply in_map. assumption.
Qed.

Lemma split_eq_spec s : match split_eq s with
  | (n, None) => s = n /\ ~ In x3d n
  | (n, Some t) => s = n ++ x3d :: t /\ ~ In x3d n end.
Proof.
  induction s as [|c s IH]; cbn [split_eq]; [auto|]. destruct (Byte.eqb c x3d) eqn:B.
  - apply Byte.byte_dec_bl in B. subst c. cbn. auto.
  - assert (c <> x3d). { intros ->. discriminate. }
    destruct (split_eq s) as [n [t|]]; destruct IH as [-> IH]; cbn [app In]; (split; [reflexivity|]); intros [?|?]; auto.
Qed.
Lemma split_eq_none n : ~ In x3d n -> split_eq n = (n, None).
Proof.
  induction n as [|c n IH]; cbn [split_eq]; [auto|]. intros H. destruct (Byte.eqb c x3d) eqn:B; [apply Byte.byte_dec_bl in B; subst; exfalso; apply H; left; reflexivity|].
  rewrite IH by (intros Hn; apply H; right; assumption). reflexivity.
Qed.
Lemma split_eq_some n t : ~ In x3d n -> split_eq (n ++ x3d :: t) = (n, Some t).
Proof.
  induction n as [|c n IH]; cbn [split_eq app]; [reflexivity|]. intros H. destruct (Byte.eqb c x3d) eqn:B; [apply Byte.byte_dec_bl in B; subst; exfalso; apply H; left; reflexivity|].
  rewrite IH by (intros Hn; apply H; right; assumption). reflexivity.
Qed.

Lemma test_word_iff s : is_prefix (str "test.") s = true <-> test_word s.
Proof.
  split.
  - intros H. unfold test_word. apply is_prefix_iff in H. destruct H as [r ->]. exists r. reflexivity.
  - intros [r ->]. apply is_prefix_iff. exists r. reflexivity.
Qed.
Lemma is_test_false s : ~ test_word s -> is_prefix (str "test.") s = false.
Proof. intros H. destruct (is_prefix (str "test.") s) eqn:T; [apply test_word_iff in T; contradiction|reflexivity]. Qed.
Lemma eq_text_iff e t : Byte.eqb e x3d && (0 <? len t) = true <-> eq_text (e :: t).
Proof.
  rewrite andb_true_iff. split.
  - intros [B L]. apply Byte.byte_dec_bl in B. subst e. exists t. split; [destruct t; [discriminate|discriminate] | reflexivity].
  - intros (t' & N & [= -> ->]). split; [reflexivity|]. destruct t' as [|x t']; [contradiction|]. apply Z.ltb_lt. unfold len. cbn [length]. lia.
Qed.
Lemma eq_text_false e t : ~ eq_text (e :: t) -> Byte.eqb e x3d && (0 <? len t) = false.
Proof. intros H. destruct (_ && _) eqn:B; [apply eq_text_iff in B; contradiction|reflexivity]. Qed.
Lemma short_not_test c : ~ test_word [c].
Proof. intros [r H]. discriminate. Qed.

Lemma letters_parse fs s next items left : good_table fs -> letters fs s next items left ->
  words items = [] /\
  ((left = next /\ parse_short fs s = SGood (gives items) None) \/
   (exists f t sets, next = t :: left /\ parse_short fs s = SGood sets (Some f) /\ fg_bool f = false /\ gives items = sets ++ [(fg_name f, VText t)])).
Proof.
  intros (GN & GS & GF) H. induction H as [next|s next T|f c s next items left Hin Hs Hb T E H IH|f c t v next Hin Hs N V|f c s next Hin Hs Hb T N E|f c t next Hin Hs Hb].
  - split; [reflexivity|]. left. auto.
  - split; [reflexivity|]. left. split; [reflexivity|]. apply test_word_iff in T. destruct s; cbn [parse_short gives]; rewrite T; reflexivity.
  - destruct IH as [W IH]. split; [exact W|]. cbn [parse_short gives]. rewrite (is_test_false _ T), (by_short_ok _ _ _ GS Hin Hs), Hb. destruct s as [|e s].
    + inversion H; subst; cbn [gives].
      * left. auto.
      * match goal with HH : test_word [] |- _ => destruct HH as [r HH]; discriminate end.
    + rewrite (eq_text_false _ _ E). destruct IH as [[-> ->]|(g & t & sets & -> & -> & Hg & EG)].
      * left. auto.
      * right. exists g, t, ((fg_name f, VBool true) :: sets). split; [reflexivity|]. split; [reflexivity|]. split; [exact Hg|]. rewrite EG. reflexivity.
  - split; [reflexivity|]. left. split; [reflexivity|]. cbn [parse_short gives].
    assert (T : is_prefix (str "test.") (c :: x3d :: t) = false) by (apply is_test_false; intros [r Hr]; discriminate). rewrite T.
    rewrite (by_short_ok _ _ _ GS Hin Hs). assert (B : Byte.eqb x3d x3d && (0 <? len t) = true) by (apply eq_text_iff; exists t; auto). rewrite B.
    apply set_value_says in V. rewrite V. reflexivity.
  - split; [reflexivity|]. left. split; [reflexivity|]. cbn [parse_short gives]. rewrite (is_test_false _ T), (by_short_ok _ _ _ GS Hin Hs), Hb.
    destruct s as [|e s]; [contradiction|]. rewrite (eq_text_false _ _ E). unfold set_value. rewrite Hb. reflexivity.
  - split; [reflexivity|]. right. exists f, t, []. split; [reflexivity|]. split; [|auto]. cbn [parse_short]. rewrite (is_test_false _ (short_not_test c)), (by_short_ok _ _ _ GS Hin Hs), Hb. reflexivity.
Qed.

Lemma parse_letters fs s : forall sets need, parse_short fs s = SGood sets need ->
  match need with
  | None => forall next, exists items, letters fs s next items next /\ gives items = sets /\ words items = []
  | Some f => fg_bool f = false /\ forall t next, exists items, letters fs s (t :: next) items next /\ gives items = sets ++ [(fg_name f, VText t)] /\ words items = []
  end.
Proof.
  induction s as [|c s IH]; intros sets need; cbn [parse_short].
  - destruct (is_prefix _ _); intros [= <- <-]; intros next; exists []; (split; [constructor|auto]).
  - destruct (is_prefix _ _) eqn:T.
    { intros [= <- <-] next. exists []. split; [|auto]. apply le_test. apply test_word_iff. assumption. }
    assert (NT : ~ test_word (c :: s)) by (intros H; apply test_word_iff in H; congruence).
    destruct (by_short fs c) as [f|] eqn:F; [|destruct (Byte.eqb c x68); discriminate]. apply by_short_in in F. destruct F as [Hin Hs].
    destruct s as [|e s'].
    + destruct (fg_bool f) eqn:B.
      * intros [= <- <-] next. exists [Give (fg_name f) (VBool true)]. split; [|auto]. apply le_switch; auto; [intros (t & _ & H); discriminate | constructor].
      * intros [= <- <-]. split; [exact B|]. intros t next. exists [Give (fg_name f) (VText t)]. split; [|auto]. apply le_next; auto.
    + destruct (_ && _) eqn:Q.
      * apply eq_text_iff in Q. destruct Q as (t & N & [= -> ->]). destruct (set_value f t) as [v|] eqn:V; [|discriminate]. intros [= <- <-] next.
        exists [Give (fg_name f) v]. split; [|auto]. apply le_equals; auto. apply set_value_says. assumption.
      * assert (NE : ~ eq_text (e :: s')) by (intros H; apply eq_text_iff in H; congruence).
        destruct (fg_bool f) eqn:B.
        -- destruct (parse_short fs (e :: s')) as [| |sets' need'] eqn:P; try discriminate. cbn [s_set]. intros [= <- <-]. specialize (IH _ _ eq_refl).
           destruct need' as [g|].
           ++ destruct IH as [Hg IH]. split; [exact Hg|]. intros t next. destruct (IH t next) as (items & L & G & W). exists (Give (fg_name f) (VBool true) :: items).
              split; [apply le_switch; auto|]. cbn [gives words]. rewrite G. auto.
           ++ intros next. destruct (IH next) as (items & L & G & W). exists (Give (fg_name f) (VBool true) :: items). split; [apply le_switch; auto|]. cbn [gives words]. rewrite G. auto.
        -- unfold set_value. rewrite B. intros [= <- <-] next. exists [Give (fg_name f) (VText (e :: s'))]. split; [|auto]. apply le_glued; auto. discriminate.
Qed.

Lemma p_sets_good l p sets args : p_sets l p = PGood sets args <-> exists s, p = PGood s args /\ sets = l ++ s.
Proof.
  revert sets. induction l as [|[n v] l IH]; intros sets; cbn [p_sets app].
  - split; [intros ->; eauto | intros (s & -> & ->); reflexivity].
  - destruct (p_sets l p) as [| |s' a'] eqn:P; cbn [p_set].
    + split; [discriminate|]. intros (s & -> & ->). assert (X : PHelp = PGood (l ++ s) args) by (apply IH; eauto). discriminate.
    + split; [discriminate|]. intros (s & -> & ->). assert (X : PBad = PGood (l ++ s) args) by (apply IH; eauto). discriminate.
    + split.
      * intros [= <- <-]. destruct (proj1 (IH s') eq_refl) as (s & -> & ->). eauto.
      * intros (s & -> & ->). assert (X : PGood s' a' = PGood (l ++ s) args) by (apply IH; eauto). injection X as -> ->. reflexivity.
Qed.

Lemma dashed_iff c c2 r : dashed (c :: c2 :: r) <-> c = x2d.
Proof. split; [intros (a & b & [= -> -> ->]); reflexivity | intros ->; exists c2, r; reflexivity]. Qed.

Theorem command_line_parse fs mixed argv items : good_table fs -> command_line fs mixed argv items -> parse_args fs mixed argv = PGood (gives items) (words items).
Proof.
  intros G. pose proof G as (GN & GS & GF). induction 1 as [|w rest items ND M H IH|w rest ND M|rest|f t v rest items Hin V H IH|f rest items Hin B H IH|f t rest items Hin B H IH|s next items left items' N1 N2 L H IH].
  - reflexivity.
  - subst mixed. cbn [parse_args]. destruct w as [|c [|c2 r]]; try (rewrite IH; reflexivity). destruct (Byte.eqb c x2d) eqn:D.
    { exfalso. apply ND. apply Byte.byte_dec_bl in D. subst. eexists _, _. reflexivity. } cbn [negb]. rewrite IH. reflexivity.
  - subst mixed. rewrite gives_words, words_words. cbn [parse_args]. destruct w as [|c [|c2 r]]; try reflexivity. destruct (Byte.eqb c x2d) eqn:D.
    { exfalso. apply ND. apply Byte.byte_dec_bl in D. subst. eexists _, _. reflexivity. } reflexivity.
  - rewrite gives_words, words_words. reflexivity.
  - rewrite Forall_forall in GF. destruct (GF _ Hin) as (c & n & E & C1 & C2). cbn [parse_args]. change (str "--") with [x2d; x2d]. change (str "=") with [x3d]. cbn [app].
    assert (S : split_eq (fg_name f ++ x3d :: t) = (fg_name f, Some t)) by (apply split_eq_some; rewrite E; assumption).
    destruct (fg_name f ++ x3d :: t) as [|a l] eqn:Q; [rewrite E in Q; discriminate|]. assert (a = c) by (rewrite E in Q; injection Q; auto). subst a.
    change (negb (Byte.eqb x2d x2d)) with false. change (Byte.eqb x2d x2d) with true. cbv iota.
    assert (D1 : Byte.eqb c x2d = false). { destruct (Byte.eqb c x2d) eqn:D; [apply Byte.byte_dec_bl in D; contradiction|reflexivity]. }
    assert (D2 : Byte.eqb c x3d = false). { destruct (Byte.eqb c x3d) eqn:D; [apply Byte.byte_dec_bl in D; subst; exfalso; apply C2; left; reflexivity|reflexivity]. }
    rewrite D1, D2. cbn [orb]. rewrite S. rewrite (by_name_ok _ _ GN Hin). apply set_value_says in V. rewrite V, IH. reflexivity.
  - rewrite Forall_forall in GF. destruct (GF _ Hin) as (c & n & E & C1 & C2). cbn [parse_args]. change (str "--") with [x2d; x2d]. cbn [app].
    assert (S : split_eq (fg_name f) = (fg_name f, None)) by (apply split_eq_none; rewrite E; assumption).
    destruct (fg_name f) as [|a l] eqn:Q; [discriminate|]. injection E as -> ->.
    change (negb (Byte.eqb x2d x2d)) with false. change (Byte.eqb x2d x2d) with true. cbv iota.
    assert (D1 : Byte.eqb c x2d = false). { destruct (Byte.eqb c x2d) eqn:D; [apply Byte.byte_dec_bl in D; contradiction|reflexivity]. }
    assert (D2 : Byte.eqb c x3d = false). { destruct (Byte.eqb c x3d) eqn:D; [apply Byte.byte_dec_bl in D; subst; exfalso; apply C2; left; reflexivity|reflexivity]. }
    rewrite D1, D2. cbn [orb]. rewrite S. rewrite <- Q at 1. rewrite (by_name_ok _ _ GN Hin), B, IH, Q. reflexivity.
  - rewrite Forall_forall in GF. destruct (GF _ Hin) as (c & n & E & C1 & C2). cbn [parse_args]. change (str "--") with [x2d; x2d]. cbn [app].
    assert (S : split_eq (fg_name f) = (fg_name f, None)) by (apply split_eq_none; rewrite E; assumption).
    destruct (fg_name f) as [|a l] eqn:Q; [discriminate|]. injection E as -> ->.
    change (negb (Byte.eqb x2d x2d)) with false. change (Byte.eqb x2d x2d) with true. cbv iota.
    assert (D1 : Byte.eqb c x2d = false). { destruct (Byte.eqb c x2d) eqn:D; [apply Byte.byte_dec_bl in D; contradiction|reflexivity]. }
    assert (D2 : Byte.eqb c x3d = false). { destruct (Byte.eqb c x3d) eqn:D; [apply Byte.byte_dec_bl in D; subst; exfalso; apply C2; left; reflexivity|reflexivity]. }
    rewrite D1, D2. cbn [orb]. rewrite S. rewrite <- Q at 1. rewrite (by_name_ok _ _ GN Hin), B, IH, Q. unfold set_value. rewrite B. reflexivity.
  - destruct s as [|c s]; [contradiction|]. cbn [hd] in N2. cbn [parse_args]. change (Byte.eqb x2d x2d) with true. cbn [negb].
    assert (D1 : Byte.eqb c x2d = false). { destruct (Byte.eqb c x2d) eqn:D; [apply Byte.byte_dec_bl in D; contradiction|reflexivity]. } rewrite D1.
    rewrite gives_app, words_app. destruct (letters_parse _ _ _ _ _ G L) as (W & [[-> P]|(f & t & sets & -> & P & B & EG)]); rewrite P, W; cbn [app].
    + apply p_sets_good. exists (gives items'). auto.
    + apply p_sets_good. unfold set_value. rewrite B, IH. cbn [p_set]. eexists. split; [reflexivity|]. rewrite EG, <- app_assoc. reflexivity.
Qed.

Lemma p_set_good n v p sets args : p_set n v p = PGood sets args -> exists s, p = PGood s args /\ sets = (n, v) :: s.
Proof. destruct p; try discriminate. intros [= <- <-]. eauto. Qed.
Lemma p_arg_good a p sets args : p_arg a p = PGood sets args -> exists l, p = PGood sets l /\ args = a :: l.
Proof. destruct p; try discriminate. intros [= <- <-]. eauto. Qed.

Theorem parse_command_line fs mixed : good_table fs -> forall n argv, (length argv <= n)%nat -> forall sets args, parse_args fs mixed argv = PGood sets args ->
  exists items, command_line fs mixed argv items /\ sets = gives items /\ args = words items.
Proof.
  intros G. pose proof G as (GN & GS & GF). rewrite Forall_forall in GF. induction n as [|n IH]; intros argv Hl sets args.
  { destruct argv; [|cbn in Hl; lia]. intros [= <- <-]. exists []. split; [constructor|auto]. }
  destruct argv as [|w rest]. { intros [= <- <-]. exists []. split; [constructor|auto]. }
  cbn [length] in Hl. cbn [parse_args].
  assert (PL : ~ dashed w -> (if mixed then p_arg w (parse_args fs mixed rest) else PGood [] (w :: rest)) = PGood sets args ->
    exists items, command_line fs mixed (w :: rest) items /\ sets = gives items /\ args = words items).
  { intros ND H. destruct (Bool.bool_dec mixed true) as [M|M].
    - rewrite M in H. rewrite <- M in H. apply p_arg_good in H. destruct H as (l & H & ->). destruct (IH rest ltac:(lia) _ _ H) as (items & CL & -> & ->).
      exists (Word w :: items). split; [apply cl_word; assumption|auto].
    - apply Bool.not_true_is_false in M. rewrite M in H. injection H as <- <-. exists (map Word (w :: rest)). split; [apply cl_rest; assumption|].
      rewrite gives_words, words_words. auto. }
  destruct w as [|c [|c2 name]]. { apply PL. intros (a & b & ?). discriminate. } { apply PL. intros (a & b & ?). discriminate. }
  destruct (Byte.eqb c x2d) eqn:D; cbn [negb]; [|apply PL; intros Hd; apply dashed_iff in Hd; subst c; discriminate].
  apply Byte.byte_dec_bl in D. subst c. clear PL. destruct (Byte.eqb c2 x2d) eqn:D2.
  - apply Byte.byte_dec_bl in D2. subst c2. destruct name as [|n0 nm].
    { intros [= <- <-]. exists (map Word rest). split; [apply cl_dashes|]. rewrite gives_words, words_words. auto. }
    destruct (_ || _) eqn:B0; [discriminate|]. pose proof (split_eq_spec (n0 :: nm)) as S. destruct (split_eq (n0 :: nm)) as [nn text].
    destruct (by_name fs nn) as [f|] eqn:F; [|destruct (beq nn (str "help")); discriminate]. apply by_name_in in F. destruct F as [Hin Hn]. subst nn.
    destruct text as [t|].
    + destruct S as [S _]. rewrite S. destruct (set_value f t) as [v|] eqn:V; [|discriminate]. apply set_value_says in V. intros H. apply p_set_good in H. destruct H as (s & H & ->).
      destruct (IH rest ltac:(lia) _ _ H) as (items & CL & -> & ->). exists (Give (fg_name f) v :: items). split; [|auto].
      apply (cl_equals fs mixed f t v rest items Hin V CL).
    + destruct S as [S _]. rewrite S. destruct (fg_bool f) eqn:B.
      * intros H. apply p_set_good in H. destruct H as (s & H & ->). destruct (IH rest ltac:(lia) _ _ H) as (items & CL & -> & ->). exists (Give (fg_name f) (VBool true) :: items). split; [|auto].
        apply (cl_switch fs mixed f rest items Hin B CL).
      * destruct rest as [|t rest']; [discriminate|]. unfold set_value. rewrite B. intros H. apply p_set_good in H. destruct H as (s & H & ->). cbn [length] in Hl.
        destruct (IH rest' ltac:(lia) _ _ H) as (items & CL & -> & ->). exists (Give (fg_name f) (VText t) :: items). split; [|auto].
        apply (cl_text fs mixed f t rest' items Hin B CL).
  - assert (N2 : c2 <> x2d) by (intros ->; discriminate).
    destruct (parse_short fs (c2 :: name)) as [| |ss need] eqn:P; try discriminate. apply parse_letters in P. destruct need as [f|].
    + destruct P as [B P]. destruct rest as [|t rest']; [discriminate|]. unfold set_value. rewrite B. intros H. apply p_sets_good in H. destruct H as (s & H & ->).
      apply p_set_good in H. destruct H as (s' & H & ->). cbn [length] in Hl. destruct (IH rest' ltac:(lia) _ _ H) as (items & CL & -> & ->). destruct (P t rest') as (li & L & EG & W).
      exists (li ++ items). split; [apply (cl_letters fs mixed (c2 :: name) (t :: rest') li rest' items); [discriminate | exact N2 | exact L | exact CL]|].
      rewrite gives_app, words_app, W, EG, <- app_assoc. auto.
    + intros H. apply p_sets_good in H. destruct H as (s & H & ->). destruct (IH rest ltac:(lia) _ _ H) as (items & CL & -> & ->). destruct (P rest) as (li & L & EG & W).
      exists (li ++ items). split; [apply (cl_letters fs mixed (c2 :: name) rest li rest items); [discriminate | exact N2 | exact L | exact CL]|].
      rewrite gives_app, words_app, W, EG. auto.
Qed.

(** ** values *)
Definition typed (items : list item) (n : string) (b : bool) : Prop :=
  forall v, In (Give (str n) v) items -> match v with VBool _ => b = true | VText _ => b = false end.
Lemma chosen_unique items n d v v' : chosen items n d v -> chosen items n d v' -> v = v'.
Proof.
  intros [(a & b & E & H)|[-> H]] [(a' & b' & E' & H')|[-> H']].
  - rewrite E in E'. clear E. revert a' E'. induction a as [|x a IH]; intros [|y a'] E'; cbn [app] in E'.
    + injection E' as <- _. reflexivity.
    + injection E' as _ ->. exfalso. apply (H v'). apply in_or_app. right. left. reflexivity.
    + injection E' as -> <-. exfalso. apply (H' v). apply in_or_app. right. left. reflexivity.
    + injection E' as _ E'. exact (IH a' E').
  - exfalso. apply (H' v). rewrite E. apply in_or_app. right. left. reflexivity.
  - exfalso. apply (H v'). rewrite E'. apply in_or_app. right. left. reflexivity.
  - reflexivity.
Qed.
Lemma chosen_cons x items n d v :
  chosen items n (match x with Give m u => if beq m (str n) then u else d | _ => d end) v -> chosen (x :: items) n d v.
Proof.
  intros [(a & b & -> & H)|[-> H]].
  - left. exists (x :: a), b. auto.
  - destruct x as [m u|w].
    + destruct (beq m (str n)) eqn:B.
      * apply beq_iff in B. subst m. left. exists [], items. auto.
      * right. split; [reflexivity|]. intros v' [Hv|Hv]; [|exact (H _ Hv)]. injection Hv as -> ->. rewrite beq_refl in B. discriminate.
    + right. split; [reflexivity|]. intros v' [Hv|Hv]; [discriminate | exact (H _ Hv)].
Qed.
Lemma get_bool_chosen items n : typed items n true -> forall d, chosen items n (VBool d) (VBool (get_bool (gives items) (str n) d)).
Proof.
  induction items as [|x items IH]; intros T d. { right. auto. }
  apply chosen_cons. assert (T' : typed items n true) by (intros v Hv; apply (T v); right; assumption). destruct x as [m [b|t]|w]; cbn [gives get_bool].
  - destruct (beq m (str n)); apply IH; assumption.
  - destruct (beq m (str n)) eqn:B; [|apply IH; assumption]. apply beq_iff in B. subst m. specialize (T (VText t) (or_introl eq_refl)). discriminate.
  - apply IH; assumption.
Qed.
Lemma get_text_chosen items n : typed items n false -> forall d, chosen items n (VText d) (VText (get_text (gives items) (str n) d)).
Proof.
  induction items as [|x items IH]; intros T d. { right. auto. }
  apply chosen_cons. assert (T' : typed items n false) by (intros v Hv; apply (T v); right; assumption). destruct x as [m [b|t]|w]; cbn [gives get_text].
  - destruct (beq m (str n)) eqn:B; [|apply IH; assumption]. apply beq_iff in B. subst m. specialize (T (VBool b) (or_introl eq_refl)). discriminate.
  - destruct (beq m (str n)); apply IH; assumption.
  - apply IH; assumption.
Qed.
Lemma switch_iff items n b : typed items n true -> get_bool (gives items) (str n) false = b <-> switch items n b.
Proof.
  intros T. pose proof (get_bool_chosen items n T false) as H. split; [intros <-; exact H|]. intros H'. pose proof (chosen_unique _ _ _ _ _ H H') as E. injection E; auto.
Qed.
Lemma text_iff items n d t : typed items n false -> get_text (gives items) (str n) d = t <-> text items n d t.
Proof.
  intros T. pose proof (get_text_chosen items n T d) as H. split; [intros <-; exact H|]. intros H'. pose proof (chosen_unique _ _ _ _ _ H H') as E. injection E; auto.
Qed.

Definition fits (fs : list flag) (x : item) : Prop :=
  match x with Word _ => True | Give n v => exists f, In f fs /\ fg_name f = n /\ match v with VBool _ => fg_bool f = true | VText _ => fg_bool f = false end end.
Lemma says_fits fs f t v : In f fs -> says f t v -> fits fs (Give (fg_name f) v).
Proof. intros H [t' B|t' B _|t' B _]; exists f; auto. Qed.
Lemma letters_fit fs s next items left : letters fs s next items left -> Forall (fits fs) items.
Proof.
  induction 1; repeat constructor; auto; try (eexists; eauto; fail). eapply says_fits; eauto.
Qed.
Lemma words_fit fs l : Forall (fits fs) (map Word l).
Proof. induction l; constructor; cbn; auto. Qed.
Lemma line_fits fs mixed argv items : command_line fs mixed argv items -> Forall (fits fs) items.
Proof.
  induction 1; try (constructor; [|assumption]); try apply words_fit; try (cbn; eauto; fail); auto.
  - eapply says_fits; eauto.
  - apply Forall_app. split; [eapply letters_fit; eauto | assumption].
Qed.
Lemma line_typed fs mixed argv items f n : good_table fs -> command_line fs mixed argv items -> In f fs -> fg_name f = str n -> typed items n (fg_bool f).
Proof.
  intros (GN & _) CL Hin Hn v Hv. pose proof (line_fits _ _ _ _ CL) as HF. rewrite Forall_forall in HF. destruct (HF _ Hv) as (g & Hg & En & Ev).
  assert (g = f). { pose proof (by_name_ok _ _ GN Hg) as A. pose proof (by_name_ok _ _ GN Hin) as B. rewrite En in A. rewrite Hn in B. congruence. }
  subst g. exact Ev.
Qed.
Lemma parse_iff fs mixed argv sets args : good_table fs ->
  (parse_args fs mixed argv = PGood sets args <-> exists items, command_line fs mixed argv items /\ sets = gives items /\ args = words items).
Proof.
  intros G. split; [apply (parse_command_line fs mixed G (length argv)); lia|]. intros (items & CL & -> & ->). apply command_line_parse; assumption.
Qed.
