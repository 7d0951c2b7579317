(** C101: the names of the key files, and the name the program calls itself by. *)
From Verif Require Import Bytes BytesLemmas GoErr GoIO Crypto Keys Sign KeyFiles GoText TextProofs Ssh Fs Store Cli Main Paths.
Require Import ZifyBool.
Local Notation length := List.length.
Local Notation concat := List.concat.

(** ** Specification *)
(** the pieces of a path between its slashes, and a path from its elements *)
Fixpoint pieces (p : bytes) : list bytes :=
  match p with
  | [] => [[]]
  | c :: p' => if Byte.eqb c x2f then [] :: pieces p' else match pieces p' with e :: l => (c :: e) :: l | [] => [[c]] end
  end.
Fixpoint joined (l : list bytes) : bytes := match l with [] => [] | [e] => e | e :: l' => e ++ str "/" ++ joined l' end.
(** walking along a path: where one is (the way back first) after the next piece; above the root there is nothing *)
Definition step (rooted : bool) (way : list bytes) (e : bytes) : list bytes :=
  if beq e [] || beq e (str ".") then way
  else if beq e (str "..") then
    match way with
    | e' :: way' => if beq e' (str "..") then e :: way else way'
    | [] => if rooted then [] else [e]
    end
  else e :: way.
Definition root (rooted : bool) : bytes := if rooted then str "/" else [].
(** the shortest name of the same file *)
Definition short_name (p : bytes) : bytes :=
  let rooted := is_prefix (str "/") p in
  match root rooted ++ joined (rev (fold_left (step rooted) (pieces p) [])) with [] => str "." | q => q end.
(** an element that names something *)
Definition proper (e : bytes) : Prop := e <> [] /\ e <> str "." /\ e <> str ".." /\ ~ In x2f e.

(** ** Lemmas *)
Lemma pieces_join p : joined (pieces p) = p /\ pieces p <> [] /\ forall e, In e (pieces p) -> ~ In x2f e.
Proof.
  induction p as [|c p (J & N & S)]; [cbn; split; [reflexivity|]; split; [discriminate|]; intros e [<-|[]] []|]. cbn [pieces]. destruct (Byte.eqb c x2f) eqn:E.
  - apply eqb_iff in E. subst c. split; [|split; [discriminate|]].
    + destruct (pieces p) as [|e l] eqn:P; [contradiction|]. cbn [joined app]. change (str "/") with [x2f]. cbn [app]. f_equal. exact J.
    + intros e [<-|H]; [intros []|exact (S e H)].
  - destruct (pieces p) as [|e l] eqn:P; [contradiction|]. split; [|split; [discriminate|]].
    + destruct l as [|e2 l]; cbn [joined app] in J |- *; f_equal; exact J.
    + intros e' [<-|H]; [|apply S; right; exact H]. intros [H|H]; [subst c; cbn in E; discriminate|]. exact (S e (or_introl eq_refl) H).
Qed.
Lemma element_noslash r : ~ In x2f (element r).
Proof. induction r as [|c r IH]; cbn [element]; [intros []|]. destruct (Byte.eqb c x2f) eqn:E; [intros []|]. intros [H|H]; [subst c; cbn in E; discriminate|exact (IH H)]. Qed.
Lemma after_shape r : after r = [] \/ exists t, after r = x2f :: t.
Proof. induction r as [|c r IH]; cbn [after]; [auto|]. destruct (Byte.eqb c x2f) eqn:E; [right; apply eqb_iff in E; subst c; eauto|exact IH]. Qed.
Lemma after_len r : (length (after r) <= length r)%nat.
Proof. induction r as [|c r IH]; cbn [after length]; [lia|]. destruct (Byte.eqb c x2f); cbn [length]; lia. Qed.
Lemma pieces_first r : pieces r = element r :: match after r with [] => [] | _ :: t => pieces t end.
Proof.
  induction r as [|c r IH]; [reflexivity|]. cbn [pieces element after]. destruct (Byte.eqb c x2f); [reflexivity|]. rewrite IH. reflexivity.
Qed.
Lemma at_end_after r1 : at_end r1 = true -> element r1 = [] /\ after r1 = r1.
Proof. destruct r1 as [|c r]; [auto|]. cbn [at_end element after]. intros ->. auto. Qed.
Lemma step_empty rooted st : step rooted st [] = st.
Proof. reflexivity. Qed.
Lemma walk_after rooted r st : fold_left (step rooted) (match after r with [] => [] | _ :: t => pieces t end) st = fold_left (step rooted) (pieces (after r)) st.
Proof. destruct (after_shape r) as [->|(t & ->)]; reflexivity. Qed.
(** one piece at a time *)
Lemma walk_step rooted r st : fold_left (step rooted) (pieces r) st = fold_left (step rooted) (pieces (after r)) (step rooted st (element r)).
Proof. rewrite pieces_first. cbn [fold_left]. apply walk_after. Qed.

Lemma joined_snoc l e : l <> [] -> joined (l ++ [e]) = joined l ++ str "/" ++ e.
Proof.
  induction l as [|a l IH]; intros N; [contradiction|]. destruct l as [|b l]; [reflexivity|]. change ((a :: b :: l) ++ [e]) with (a :: ((b :: l) ++ [e])).
  assert (H : joined (a :: ((b :: l) ++ [e])) = a ++ str "/" ++ joined ((b :: l) ++ [e])) by reflexivity. rewrite H, IH by discriminate.
  assert (H2 : joined (a :: b :: l) = a ++ str "/" ++ joined (b :: l)) by reflexivity. rewrite H2, <- !app_assoc. reflexivity.
Qed.
Lemma joined_one e : joined [e] = e. Proof. reflexivity. Qed.
Lemma joined_empty l : Forall (fun e => e <> []) l -> joined l = [] -> l = [].
Proof. intros F H. destruct l as [|e [|e2 l]]; [reflexivity| |]; inversion F; subst; cbn [joined] in H; [contradiction|]. destruct e; [contradiction|discriminate]. Qed.

(** going back over the last element *)
Lemma back_to_spec out dd t : 0 <= t -> (dd < t -> nth (Z.to_nat t) out x00 = x2f) -> forall w, t <= Z.of_nat w ->
  (forall i, t < i <= Z.of_nat w -> dd < i /\ nth (Z.to_nat i) out x00 <> x2f) -> back_to w out dd = t.
Proof.
  intros T0 St. induction w as [|w IH]; intros L H; cbn [back_to]; [lia|]. destruct (Z.eq_dec t (Z.of_nat (S w))) as [E|N].
  - destruct (Z.ltb_spec dd (Z.of_nat (S w))) as [D|D]; cbn [andb]; [|lia]. assert (X : nth (S w) out x00 = x2f) by (replace (S w) with (Z.to_nat t) by lia; apply St; lia). rewrite X. cbn. lia.
  - destruct (H (Z.of_nat (S w)) ltac:(lia)) as [D X]. rewrite Nat2Z.id in X. destruct (Z.ltb_spec dd (Z.of_nat (S w))) as [_|D2]; [|lia]. apply eqb_neq in X. rewrite X. cbn [andb negb].
    apply IH; [lia|]. intros i Hi. apply H. lia.
Qed.
Lemma nth_app_r' {A} (a b : list A) i d : (length a <= i)%nat -> nth i (a ++ b) d = nth (i - length a) b d.
Proof. intros H. apply app_nth2. lia. Qed.
Lemma back_over A n dd : n <> [] -> ~ In x2f n -> dd = len A -> take (back_to (Z.to_nat (len (A ++ n) - 1)) (A ++ n) dd) (A ++ n) = A.
Proof.
  intros N Sl D. rewrite len_app. assert (P : 1 <= len n) by (destruct n; [contradiction|rewrite len_cons; pose proof (len_nonneg n); lia]). pose proof (len_nonneg A) as LA.
  rewrite (back_to_spec _ _ (len A)); [apply take_app_exact|lia|lia|lia|]. intros i Hi. split; [lia|]. intros X. apply Sl. rewrite nth_app_r' in X by (unfold len in *; lia). rewrite <- X. apply nth_In. unfold len in *. lia.
Qed.
Lemma back_over_slash A n dd : n <> [] -> ~ In x2f n -> dd <= len A ->
  take (back_to (Z.to_nat (len (A ++ x2f :: n) - 1)) (A ++ x2f :: n) dd) (A ++ x2f :: n) = A.
Proof.
  intros N Sl D. rewrite len_app, len_cons. assert (P : 1 <= len n) by (destruct n; [contradiction|rewrite len_cons; pose proof (len_nonneg n); lia]). pose proof (len_nonneg A) as LA.
  rewrite (back_to_spec _ _ (len A)); [apply take_app_exact|lia| |lia|].
  - intros _. rewrite nth_app_r' by (unfold len; lia). replace (Z.to_nat (len A) - length A)%nat with 0%nat by (unfold len; lia). reflexivity.
  - intros i Hi. split; [lia|]. intros X. apply Sl. rewrite nth_app_r' in X by (unfold len in *; lia).
    replace (Z.to_nat i - length A)%nat with (S (Z.to_nat i - length A - 1))%nat in X by (unfold len in *; lia). cbn [nth] in X. rewrite <- X. apply nth_In. unfold len in *. lia.
Qed.

(** what the loop keeps: the way back, what is written, and the mark that ".." does not go below *)
Definition kept (rooted : bool) (ups names : list bytes) (out : bytes) (dd : Z) : Prop :=
  Forall (fun e => e = str "..") ups /\ Forall proper names /\ (rooted = true -> ups = []) /\
  out = root rooted ++ joined (ups ++ names) /\ dd = len (root rooted ++ joined ups).
Lemma proper_ne e : proper e -> e <> []. Proof. intros H. apply H. Qed.
Lemma kept_ne rooted ups names out dd : kept rooted ups names out dd -> Forall (fun e => e <> []) (ups ++ names).
Proof.
  intros (U & N & _). apply Forall_app. split; [eapply Forall_impl; [|exact U]; intros e ->; discriminate | eapply Forall_impl; [|exact N]; apply proper_ne].
Qed.
Lemma joined_ext l n : Forall (fun e => e <> []) l -> n <> [] -> joined (l ++ [n]) = match l with [] => n | _ => joined l ++ x2f :: n end.
Proof. intros F N. destruct l as [|a l]; [reflexivity|]. rewrite joined_snoc by discriminate. reflexivity. Qed.
Lemma joined_longer l1 l2 : Forall (fun e => e <> []) (l1 ++ l2) -> len (joined l1) <= len (joined (l1 ++ l2)) /\ (l2 <> [] -> len (joined l1) < len (joined (l1 ++ l2))).
Proof.
  induction l2 as [|n l2 IH] using rev_ind; intros F; [rewrite app_nil_r; split; [lia|contradiction]|]. rewrite app_assoc in *. apply Forall_app in F. destruct F as [F Fn]. inversion Fn; subst.
  specialize (IH F). rewrite (joined_ext (l1 ++ l2) n F H1). assert (P : 1 <= len n) by (destruct n; [contradiction|rewrite len_cons; pose proof (len_nonneg n); lia]).
  assert (X : len (joined (l1 ++ l2)) < len match l1 ++ l2 with [] => n | _ => joined (l1 ++ l2) ++ x2f :: n end).
  { destruct (l1 ++ l2) as [|a l] eqn:E; [cbn [joined]; rewrite len_nil; lia|]. rewrite len_app, len_cons. lia. }
  split; [lia|intros _; lia].
Qed.
Lemma len_root rooted : len (root rooted) = if rooted then 1 else 0. Proof. destruct rooted; reflexivity. Qed.
Lemma len_pos_ne (l : bytes) : (len l =? 0) = match l with [] => true | _ => false end.
Proof. destruct l as [|c l]; [reflexivity|]. rewrite len_cons. pose proof (len_nonneg l). apply Z.eqb_neq. lia. Qed.

(** a slash before an element, unless it is the first *)
Lemma slash_before rooted ups names out dd : kept rooted ups names out dd ->
  (if rooted && negb (len out =? 1) || negb rooted && negb (len out =? 0) then out ++ [x2f] else out) =
  match ups ++ names with [] => out | _ => out ++ [x2f] end.
Proof.
  intros K. pose proof (kept_ne _ _ _ _ _ K) as F. destruct K as (_ & _ & _ & -> & _). rewrite len_app, len_root.
  destruct (ups ++ names) as [|a l] eqn:E.
  - destruct rooted; reflexivity.
  - pose proof (joined_longer [] (a :: l) F) as [_ H]. specialize (H ltac:(discriminate)). cbn [app] in H. change (len (joined [])) with 0 in H.
    destruct rooted; cbn [andb orb negb].
    + destruct (Z.eqb_spec (1 + len (joined (a :: l))) 1); [lia|reflexivity].
    + destruct (Z.eqb_spec (0 + len (joined (a :: l))) 0); [lia|reflexivity].
Qed.
Lemma add_element rooted ups names out dd n : kept rooted ups names out dd -> n <> [] ->
  (if rooted && negb (len out =? 1) || negb rooted && negb (len out =? 0) then out ++ [x2f] else out) ++ n = root rooted ++ joined ((ups ++ names) ++ [n]).
Proof.
  intros K N. rewrite (slash_before _ _ _ _ _ K), (joined_ext _ n (kept_ne _ _ _ _ _ K) N). destruct K as (_ & _ & _ & -> & _).
  destruct (ups ++ names) as [|a l]; [cbn [joined]; rewrite app_nil_r; reflexivity|]. rewrite <- !app_assoc. reflexivity.
Qed.

Lemma step_proper rooted w e : proper e -> step rooted w e = e :: w.
Proof. intros (P0 & P1 & P2 & _). apply beq_neq in P0, P1, P2. unfold step. rewrite P0, P1, P2. reflexivity. Qed.
Lemma clean_loop_is fuel : forall rooted r ups names out dd, (length r <= fuel)%nat -> kept rooted ups names out dd ->
  clean_loop fuel rooted r out dd = root rooted ++ joined (rev (fold_left (step rooted) (pieces r) (rev (ups ++ names)))).
Proof.
  assert (Nil : forall rooted ups names out dd, kept rooted ups names out dd -> out = root rooted ++ joined (rev (fold_left (step rooted) (pieces []) (rev (ups ++ names))))).
  { intros rooted ups names out dd K. cbn [pieces fold_left]. rewrite step_empty, rev_involutive. apply K. }
  induction fuel as [|f IH]; intros rooted r ups names out dd Hf K; [destruct r; [cbn [clean_loop]; apply (Nil _ _ _ _ _ K)|cbn [length] in Hf; lia]|]. destruct r as [|c r1]; [cbn [clean_loop]; apply (Nil _ _ _ _ _ K)|]. clear Nil.
  rewrite walk_step. cbn [length] in Hf.
  assert (Real : ~ (c = x2f) -> ~ (c = x2e /\ at_end r1 = true) -> ~ (exists r2, c = x2e /\ r1 = x2e :: r2 /\ at_end r2 = true) ->
    clean_loop f rooted (after (c :: r1)) ((if rooted && negb (len out =? 1) || negb rooted && negb (len out =? 0) then out ++ [x2f] else out) ++ element (c :: r1)) dd
    = root rooted ++ joined (rev (fold_left (step rooted) (pieces (after (c :: r1))) (step rooted (rev (ups ++ names)) (element (c :: r1)))))).
  { intros N1 N2 N3. assert (P : proper (element (c :: r1))).
    { pose proof (element_noslash (c :: r1)) as Sl. cbn [element] in *. destruct (Byte.eqb c x2f) eqn:E; [apply eqb_iff in E; contradiction|].
      split; [discriminate|]. split; [|split; [|exact Sl]].
      - intros H. injection H as -> H. apply N2. split; [reflexivity|]. destruct r1 as [|d r2]; [reflexivity|]. cbn [element] in H. cbn [at_end]. destruct (Byte.eqb d x2f); [reflexivity|discriminate].
      - intros H. injection H as -> H. apply N3. destruct r1 as [|d r2]; [discriminate|]. cbn [element] in H. destruct (Byte.eqb d x2f); [discriminate|]. injection H as -> H.
        exists r2. split; [reflexivity|]. split; [reflexivity|]. destruct r2 as [|d r3]; [reflexivity|]. cbn [element] in H. cbn [at_end]. destruct (Byte.eqb d x2f); [reflexivity|discriminate]. }
    rewrite (add_element _ _ _ _ _ _ K (proper_ne _ P)). rewrite <- app_assoc. rewrite (IH rooted _ ups (names ++ [element (c :: r1)]) _ dd).
    - rewrite (step_proper _ _ _ P), app_assoc, (rev_app_distr (ups ++ names)). reflexivity.
    - cbn [after]. destruct (Byte.eqb c x2f) eqn:E; [apply eqb_iff in E; contradiction|]. pose proof (after_len r1). lia.
    - destruct K as (U & Nm & R & _ & D). split; [exact U|]. split; [apply Forall_app; auto|]. split; [exact R|]. split; [reflexivity|exact D]. }
  cbn [clean_loop]. destruct (Byte.eqb c x2f) eqn:E1.
  { apply eqb_iff in E1. subst c. cbn [element after]. change (Byte.eqb x2f x2f) with true. cbv iota. rewrite step_empty. rewrite (IH rooted r1 ups names out dd ltac:(lia) K). reflexivity. }
  assert (N1 : ~ c = x2f) by (apply eqb_neq; exact E1).
  destruct (Byte.eqb c x2e) eqn:E2; cbn [andb].
  2:{ apply eqb_neq in E2. assert (R : clean_loop f rooted (after (c :: r1)) ((if rooted && negb (len out =? 1) || negb rooted && negb (len out =? 0) then out ++ [x2f] else out) ++ element (c :: r1)) dd
        = root rooted ++ joined (rev (fold_left (step rooted) (pieces (after (c :: r1))) (step rooted (rev (ups ++ names)) (element (c :: r1)))))).
      { apply Real; [exact N1|intros [H _]; contradiction|intros (r2 & H & _); contradiction]. } destruct r1; exact R. }
  apply eqb_iff in E2. subst c. destruct (at_end r1) eqn:E3.
  { destruct (at_end_after _ E3) as [A1 A2]. cbn [element after]. change (Byte.eqb x2e x2f) with false. cbv iota. rewrite A1, A2. change (step rooted (rev (ups ++ names)) [x2e]) with (rev (ups ++ names)).
    apply IH; [lia|exact K]. }
  destruct r1 as [|c2 r2]; [discriminate E3|]. destruct (Byte.eqb c2 x2e) eqn:E4; cbn [andb].
  2:{ apply Real; [exact N1|intros [_ H]; discriminate H|]. intros (r3 & _ & H & _). injection H as -> _. discriminate E4. }
  apply eqb_iff in E4. subst c2. destruct (at_end r2) eqn:E5.
  2:{ apply Real; [exact N1|intros [_ H]; discriminate H|]. intros (r3 & _ & H & A). injection H as <-. congruence. }
  destruct (at_end_after _ E5) as [A1 A2]. cbn [element after]. change (Byte.eqb x2e x2f) with false. cbv iota. rewrite A1, A2. clear Real. cbn [length] in Hf.
  assert (St : forall w, step rooted w [x2e; x2e] = match w with e' :: w' => if beq e' (str "..") then [x2e; x2e] :: w else w' | [] => if rooted then [] else [[x2e; x2e]] end) by reflexivity.
  rewrite St. clear St. pose proof (kept_ne _ _ _ _ _ K) as F. destruct K as (U & Nm & R & Ho & Hd).
  assert (Lo : dd <? len out = negb (match names with [] => true | _ => false end)).
  { rewrite Ho, Hd, !len_app. pose proof (joined_longer ups names F) as [L1 L2]. destruct names as [|n names]; cbn [negb]; [rewrite app_nil_r; apply Z.ltb_ge; lia|apply Z.ltb_lt; specialize (L2 ltac:(discriminate)); lia]. }
  rewrite Lo. destruct names as [|n0 names0] using rev_ind; cbn [negb].
  - clear Lo. rewrite app_nil_r in *. destruct rooted; cbn [negb].
    + rewrite (R eq_refl) in *. cbn [rev]. rewrite (IH true r2 [] [] out dd); [reflexivity|lia|]. split; [constructor|]. split; [constructor|]. split; [reflexivity|]. split; [exact Ho|exact Hd].
    + set (out2 := (if 0 <? len out then out ++ [x2f] else out) ++ [x2e; x2e]).
      assert (O2 : out2 = root false ++ joined ((ups ++ [str ".."]) ++ [])).
      { unfold out2. rewrite app_nil_r. rewrite (joined_ext ups (str "..") F ltac:(discriminate)). cbn [root app] in *. rewrite Ho. destruct ups as [|a l]; [reflexivity|].
        pose proof (joined_longer [] (a :: l) F) as [_ H]. specialize (H ltac:(discriminate)). cbn [app] in H. change (len (joined [])) with 0 in H.
        destruct (Z.ltb_spec 0 (len (joined (a :: l)))) as [_|X]; [|lia]. rewrite <- app_assoc. reflexivity. }
      rewrite (IH false r2 (ups ++ [str ".."]) [] out2 (len out2)).
      * do 2 f_equal. f_equal. f_equal. rewrite app_nil_r, rev_app_distr. cbn [rev app]. destruct (rev ups) as [|e w] eqn:Er; [reflexivity|].
        assert (X : e = str ".."). { rewrite Forall_forall in U. apply U. apply in_rev. rewrite Er. left. reflexivity. }
        subst e. reflexivity.
      * lia.
      * split; [apply Forall_app; auto|]. split; [constructor|]. split; [discriminate|]. split; [exact O2|]. rewrite O2, app_nil_r. reflexivity.
  - clear IHnames0. assert (X : match names0 ++ [n0] with [] => true | _ => false end = false) by (destruct names0; reflexivity). rewrite X. cbn [negb]. clear X Lo.
    apply Forall_app in Nm. destruct Nm as [Nm Nn]. inversion Nn as [|? ? Pn _]; subst. rewrite app_assoc in *. apply Forall_app in F. destruct F as [F _]. rewrite rev_app_distr. cbn [rev app].
    destruct Pn as (P0 & P1 & P2 & P3). assert (Q2 := P2). apply beq_neq in Q2. rewrite Q2.
    rewrite (IH rooted r2 ups names0 _ (len (root rooted ++ joined ups))); [reflexivity|lia|].
    split; [exact U|]. split; [exact Nm|]. split; [exact R|]. split; [|reflexivity].
    rewrite (joined_ext _ n0 F P0). destruct (ups ++ names0) as [|a l] eqn:E.
    + apply app_eq_nil in E. destruct E as [-> ->]. cbn [joined]. rewrite app_nil_r. apply back_over; auto.
    + rewrite app_assoc. apply back_over_slash; auto. rewrite <- E, !len_app. pose proof (joined_longer ups names0) as J. rewrite E in J. specialize (J F). rewrite <- E in J. lia.
Qed.

(** *** C101.  Cleaning a path gives the shortest name: "." pieces and double slashes are left out, ".." takes back the piece before. *)
Theorem C101_clean : forall p, clean p = short_name p.
Proof.
  intros p. unfold clean, short_name. destruct p as [|c p1]; [reflexivity|]. change (is_prefix (str "/") (c :: p1)) with (Byte.eqb x2f c && true). rewrite andb_true_r.
  destruct (Byte.eqb c x2f) eqn:E.
  - apply eqb_iff in E. subst c. change (Byte.eqb x2f x2f) with true. cbv iota. rewrite (clean_loop_is (length (x2f :: p1)) true p1 [] [] [x2f] 1).
    + change (pieces (x2f :: p1)) with ([] :: pieces p1). cbn [fold_left]. rewrite step_empty. reflexivity.
    + cbn [length]. lia.
    + split; [constructor|]. split; [constructor|]. split; [reflexivity|]. split; reflexivity.
  - assert (E' : Byte.eqb x2f c = false) by (apply eqb_neq; apply eqb_neq in E; congruence). rewrite E'.
    assert (K : kept false [] [] [] 0) by (split; [constructor|]; split; [constructor|]; split; [reflexivity|]; split; reflexivity).
    rewrite (clean_loop_is (length (c :: p1)) false (c :: p1) [] [] [] 0 (le_n _) K). change (rev ([] ++ @nil bytes)) with (@nil bytes). destruct (root false ++ joined (rev (fold_left (step false) (pieces (c :: p1)) []))); reflexivity.
Qed.

(** ** Consequences for the file names *)
Lemma walk_proper rooted l : forall w, Forall proper l -> fold_left (step rooted) l w = rev l ++ w.
Proof.
  induction l as [|e l IH]; intros w F; [reflexivity|]. inversion F; subst. cbn [fold_left rev]. rewrite step_proper by assumption. rewrite IH by assumption. rewrite <- app_assoc. reflexivity.
Qed.
Lemma pieces_joined l : Forall (fun e => ~ In x2f e) l -> l <> [] -> pieces (joined l) = l.
Proof.
  assert (One : forall e t, ~ In x2f e -> pieces (e ++ t) = match t with [] => [e] | c :: t' => if Byte.eqb c x2f then e :: pieces t' else pieces (e ++ t) end).
  { induction e as [|c e IH]; intros t N.
    - destruct t as [|c t]; [reflexivity|]. cbn [app pieces]. destruct (Byte.eqb c x2f); reflexivity.
    - assert (Nc : Byte.eqb c x2f = false) by (apply eqb_neq; intros ->; apply N; left; reflexivity). assert (Ne : ~ In x2f e) by (intros H; apply N; right; exact H). specialize (IH t Ne).
      cbn [app pieces]. rewrite Nc. destruct t as [|d t]; [rewrite IH; reflexivity|]. destruct (Byte.eqb d x2f) eqn:Ed; [rewrite IH; reflexivity|]. reflexivity. }
  induction l as [|e l IH]; intros F N; [contradiction|]. inversion F; subst. destruct l as [|e2 l].
  - cbn [joined]. pose proof (One e [] H1) as X. rewrite app_nil_r in X. exact X.
  - assert (J : joined (e :: e2 :: l) = e ++ x2f :: joined (e2 :: l)) by reflexivity. rewrite J, (One e (x2f :: joined (e2 :: l)) H1). change (Byte.eqb x2f x2f) with true. cbv iota. rewrite IH by (assumption || discriminate). reflexivity.
Qed.
Lemma proper_noslash l : Forall proper l -> Forall (fun e => ~ In x2f e) l.
Proof. intros F. eapply Forall_impl; [|exact F]. intros e H. apply H. Qed.
Lemma joined_head l : Forall proper l -> is_prefix (str "/") (joined l) = false.
Proof.
  intros F. destruct l as [|e l]; [reflexivity|]. inversion F as [|? ? (P0 & _ & _ & P3) _]; subst. destruct e as [|c e]; [contradiction|].
  assert (X : exists t, joined ((c :: e) :: l) = c :: t) by (destruct l; [exists e; reflexivity | eexists; reflexivity]). destruct X as (t & ->).
  change (Byte.eqb x2f c && true = false). rewrite andb_true_r. apply eqb_neq. intros <-. apply P3. left. reflexivity.
Qed.

(** What is put in for a path may be written with "." pieces, further slashes, and ".." after a name: it means the same. *)
Inductive spelt : list bytes -> list bytes -> Prop :=
| sp_nil : spelt [] []
| sp_elem e l l' : proper e -> spelt l l' -> spelt (e :: l) (e :: l')
| sp_dot l l' : spelt l l' -> spelt (str "." :: l) l'
| sp_slash l l' : spelt l l' -> spelt ([] :: l) l'
| sp_back mid e l l' : proper e -> spelt mid [] -> spelt l l' -> spelt (e :: mid ++ str ".." :: l) l'.
Lemma spelt_walk rooted l l' : spelt l l' -> forall w, fold_left (step rooted) l w = fold_left (step rooted) l' w /\ Forall proper l' /\ Forall (fun e => ~ In x2f e) l.
Proof.
  induction 1 as [|e l l' P S IH|l l' S IH|l l' S IH|mid e l l' P S1 IH1 S2 IH2]; intros w.
  - split; [reflexivity|]. split; constructor.
  - cbn [fold_left]. destruct (IH (step rooted w e)) as (A & B & D). split; [exact A|]. split; constructor; auto. apply P.
  - cbn [fold_left]. destruct (IH (step rooted w (str "."))) as (A & B & D). split; [exact A|]. split; [exact B|]. constructor; [|exact D]. intros [X|[]]. discriminate.
  - cbn [fold_left]. destruct (IH (step rooted w [])) as (A & B & D). split; [exact A|]. split; [exact B|]. constructor; [|exact D]. intros [].
  - cbn [fold_left]. destruct (IH2 w) as (A & B & D). destruct (IH1 (step rooted w e)) as (A1 & _ & D1). rewrite fold_left_app, A1. cbn [fold_left]. rewrite (step_proper _ _ _ P).
    assert (X : step rooted (e :: w) (str "..") = w). { unfold step. destruct P as (_ & _ & P2 & _). apply beq_neq in P2. rewrite P2. reflexivity. }
    rewrite X. split; [exact A|]. split; [exact B|]. constructor; [apply P|]. apply Forall_app. split; [exact D1|]. constructor; [|exact D]. intros [Y|[Y|[]]]; discriminate.
Qed.
(** *** C101.  However a path is spelt, its clean form is the plain spelling (in particular a plain path stays as it is). *)
Theorem C101_spellings : forall rooted l l', spelt l l' -> l' <> [] -> l <> [] -> (rooted = false -> hd [] l <> []) ->
  clean (root rooted ++ joined l) = root rooted ++ joined l' /\ clean (root rooted ++ joined l') = root rooted ++ joined l'.
Proof.
  assert (G : forall rooted l l', spelt l l' -> l' <> [] -> l <> [] -> (rooted = false -> hd [] l <> []) -> clean (root rooted ++ joined l) = root rooted ++ joined l').
  { intros rooted l l' S N N0 H0. rewrite C101_clean. unfold short_name. destruct (spelt_walk rooted l l' S []) as (A & B & D).
    assert (R : is_prefix (str "/") (root rooted ++ joined l) = rooted).
    { destruct rooted; [reflexivity|]. cbn [root app]. specialize (H0 eq_refl). destruct l as [|e l]; [contradiction|]. cbn [hd] in H0. inversion D; subst. destruct e as [|c e]; [contradiction|].
      assert (X : exists t, joined ((c :: e) :: l) = c :: t) by (destruct l; [exists e; reflexivity | eexists; reflexivity]). destruct X as (t & ->).
      change (Byte.eqb x2f c && true = false). rewrite andb_true_r. apply eqb_neq. intros <-. apply H2. left. reflexivity. }
    rewrite R. assert (Pc : fold_left (step rooted) (pieces (root rooted ++ joined l)) [] = rev l').
    { transitivity (fold_left (step rooted) l []); [|rewrite A, walk_proper by exact B; apply app_nil_r]. destruct rooted; cbn [root].
      - change (pieces (str "/" ++ joined l)) with ([] :: pieces (joined l)). cbn [fold_left]. rewrite step_empty, pieces_joined by assumption. reflexivity.
      - cbn [app]. rewrite pieces_joined by assumption. reflexivity. }
    rewrite Pc, rev_involutive. destruct (root rooted ++ joined l') eqn:E; [|reflexivity]. exfalso. apply app_eq_nil in E. destruct E as [_ E]. apply N. apply joined_empty; [|exact E].
    eapply Forall_impl; [|exact B]. apply proper_ne. }
  intros rooted l l' S N N0 H0. split; [apply G; assumption|]. destruct (spelt_walk rooted l l' S []) as (_ & B & _). apply G; [|exact N|exact N|].
  - clear -B. induction B; constructor; assumption.
  - intros _. destruct l' as [|e l']; [contradiction|]. inversion B; subst. cbn [hd]. apply proper_ne. assumption.
Qed.

(** *** C101.  The key files of generate, in a world whose path.Clean is Go's: next to each other, at the path that was given, with .key and .pub;
    no other spelling of that path leads to other files. *)
Theorem C101_generate_names : forall C E W v1 v2 o rooted l l' more,
  (forall b, wo_clean W b = clean b) -> spelt l l' -> l' <> [] -> l <> [] -> (rooted = false -> hd [] l <> []) ->
  ge_args o = (root rooted ++ joined l) :: more ->
  cli_generate C E W v1 v2 o = cli_generate C E W v1 v2 (mkGen (ge_nopw o) (ge_comment o) (ge_envpw o) (ge_force o) [root rooted ++ joined l']) /\
  wo_clean W (root rooted ++ joined l) ++ str ".key" = root rooted ++ joined l' ++ str ".key" /\
  wo_clean W (root rooted ++ joined l) ++ str ".pub" = root rooted ++ joined l' ++ str ".pub".
Proof.
  intros C E W v1 v2 o rooted l l' more HW S N N0 H0 A. destruct (C101_spellings rooted l l' S N N0 H0) as [X Y]. split; [|rewrite HW, X, <- !app_assoc; auto].
  unfold cli_generate. rewrite A. cbn [ge_args ge_nopw ge_comment ge_envpw ge_force]. rewrite !HW, X, Y. reflexivity.
Qed.

(** *** C101.  The program calls itself by the last element of the path it was called by. *)
Theorem C101_program_name : forall d name k, name <> [] -> ~ In x2f name ->
  base (d ++ str "/" ++ name ++ repeat x2f k) = name /\ base (name ++ repeat x2f k) = name.
Proof.
  intros d name k N S.
  assert (St : forall j q, strip_slashes (repeat x2f j ++ q) = strip_slashes q) by (induction j as [|j IH]; intros q; [reflexivity|exact (IH q)]).
  assert (El : forall a t, ~ In x2f a -> element (a ++ t) = a ++ element t).
  { induction a as [|c a IH]; intros t H; [reflexivity|]. cbn [app element]. destruct (Byte.eqb c x2f) eqn:E; [apply eqb_iff in E; subst c; exfalso; apply H; left; reflexivity|]. f_equal. apply IH. intros X. apply H. right. exact X. }
  assert (Rr : rev (repeat x2f k) = repeat x2f k).
  { clear. induction k as [|k IH]; [reflexivity|]. cbn [repeat rev]. rewrite IH. clear. induction k as [|k IH]; [reflexivity|]. cbn [repeat app]. f_equal. exact IH. }
  assert (Nr : rev name <> []) by (intros X; apply N; rewrite <- (rev_involutive name), X; reflexivity).
  assert (Sr : ~ In x2f (rev name)) by (intros X; apply S, in_rev; exact X).
  assert (Sn : forall t, strip_slashes (rev name ++ t) = rev name ++ t).
  { intros t. destruct (rev name) as [|c q]; [contradiction|]. cbn [app strip_slashes]. destruct (Byte.eqb c x2f) eqn:E; [apply eqb_iff in E; subst c; exfalso; apply Sr; left; reflexivity|reflexivity]. }
  assert (G : forall p, rev p = repeat x2f k ++ rev name \/ (exists t, rev p = repeat x2f k ++ rev name ++ x2f :: t) -> base p = name).
  { intros p H. assert (B : element (strip_slashes (rev p)) = rev name).
    { destruct H as [-> |(t & ->)]; rewrite St.
      - rewrite <- (app_nil_r (rev name)), Sn, El by exact Sr. reflexivity.
      - rewrite Sn, El by exact Sr. cbn [element]. change (Byte.eqb x2f x2f) with true. cbv iota. apply app_nil_r. }
    destruct p as [|c p].
    - exfalso. cbn [rev] in H. destruct H as [H|(t & H)]; symmetry in H; apply app_eq_nil in H; destruct H as [_ H]; [exact (Nr H)|]. apply app_eq_nil in H. destruct H as [_ H]. discriminate.
    - unfold base. rewrite B, rev_involutive. destruct name; [contradiction|reflexivity]. }
  split; apply G.
  - right. exists (rev d). rewrite !rev_app_distr. change (rev (str "/")) with [x2f]. rewrite Rr, <- !app_assoc. reflexivity.
  - left. rewrite rev_app_distr, Rr. reflexivity.
Qed.

(** Instances.  "generate ./keys//old/../me/" writes keys/me.key; with "" or ".." the names begin with the dots and the files are in the current directory. *)
Example C101_instance :
  spelt [str "."; str "keys"; []; str "old"; str ".."; str "me"; []] [str "keys"; str "me"] /\
  joined [str "."; str "keys"; []; str "old"; str ".."; str "me"; []] = str "./keys//old/../me/" /\
  clean (str "./keys//old/../me/") = str "keys/me" /\ clean (str "/../a/./b") = str "/a/b" /\
  clean [] ++ str ".key" = str "..key" /\ clean (str "x/../..") ++ str ".key" = str "...key" /\
  base (str "/usr/bin/sigtool") = str "sigtool".
Proof.
  assert (P : forall e, existsb (beq e) [[]; str "."; str ".."] = false -> existsb (Byte.eqb x2f) e = false -> proper e).
  { intros e H S. cbn [existsb] in H. apply orb_false_iff in H. destruct H as [A H]. apply orb_false_iff in H. destruct H as [B H]. apply orb_false_iff in H. destruct H as [D _].
    apply beq_neq in A, B, D. split; [exact A|]. split; [exact B|]. split; [exact D|]. intros X. assert (Y : existsb (Byte.eqb x2f) e = true) by (apply existsb_exists; exists x2f; split; [exact X|reflexivity]). congruence. }
  split; [|repeat split; vm_compute; reflexivity].
  apply sp_dot, sp_elem; [apply P; reflexivity|]. apply sp_slash. apply (sp_back [] (str "old")); [apply P; reflexivity|constructor|].
  apply sp_elem; [apply P; reflexivity|]. apply sp_slash. constructor.
Qed.
Print Assumptions C101_clean.
Print Assumptions C101_spellings.
Print Assumptions C101_generate_names.
Print Assumptions C101_program_name.
