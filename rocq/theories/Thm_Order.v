(** C106: the order of commands on different files does not matter. *)
From Verif Require Import Bytes BytesLemmas GoErr GoIO SpecIO Crypto Keys Sign Encrypt KeyFiles GoText Fs FsProofs Store SpecFs SpecCli Cli Main Flags Told
  TextProofs CliProofs Toy ToyExt Scene CliScene Thm_Commands Thm_Main Thm_Pipe Thm_EndToEnd Thm_Touch Thm_Told Thm_Reads Thm_Past.
Local Notation length := List.length.
Local Notation concat := List.concat.

(** ** Specification (on that of Thm_Past.v: on_disk, leaves, concerns) *)
(** the places of the files a command line has to do with *)
Definition places (W : world) (P : flags) (argv : list bytes) (q : slot) : Prop := exists n, concerns W P argv n /\ q = wo_place W n.
(** path [q] is no symbolic link *)
Definition no_link (f : fs) (q : slot) : Prop := forall t, f_node f q <> Some (NLink t).

(** ** Proofs *)
Lemma runs_same P argv c args c' args' : runs P argv c args -> runs P argv c' args' -> c = c' /\ args = args'.
Proof.
  intros (o & a & E1 & _ & _ & A1 & S1) (o' & a' & E2 & _ & _ & A2 & S2). assert (o = o') by congruence. subst o'. assert (a = a' /\ args = args') as [<- <-] by (split; congruence).
  split; [|reflexivity]. apply stands_iff in S1, S2. destruct S1 as (N & r & S1), S2 as (_ & r' & S2). exact (called_inj_prefix _ _ _ _ _ N S1 S2).
Qed.
Lemma asked_one W P argv n n' : (forall args, ~ runs P argv Generate args) -> asked W P argv n -> asked W P argv n' -> n = n'.
Proof.
  intros G H H'. destruct H as [args o bn rest R|args o bn rest R|args o kn fn rest R F A|args o R F A|args o R F A]; try (exfalso; exact (G _ R));
    destruct H' as [args' o' bn' rest' R'|args' o' bn' rest' R'|args' o' kn' fn' rest' R' F' A'|args' o' R' F' A'|args' o' R' F' A']; try (exfalso; exact (G _ R'));
    destruct (runs_same _ _ _ _ _ _ R R') as (C & <-); try discriminate C; congruence.
Qed.
Lemma key_not_pub s : s ++ str ".key" <> s ++ str ".pub".
Proof. intros H. apply app_inv_head in H. discriminate H. Qed.
(** the system calls of a command other than generate *)
Lemma one_file C E W P v1 v2 argv : (forall args, ~ runs P argv Generate args) -> let o := x_ops (main C E W P v1 v2 argv) in
  o = [] \/ exists n d c, asked W P argv n /\ trace v1 (wo_place W n) d o c.
Proof.
  intros G o. destruct (main_ops C E W P v1 v2 argv) as [X|[X|(bn & n & n2 & m & kt & ops2 & d & c & -> & -> & A1 & A2 & _)]]; [left; exact X|right; exact X|].
  exfalso. exact (key_not_pub _ (asked_one _ _ _ _ _ G A1 A2)).
Qed.
Lemma leads_no_link f dst q : no_link f q -> leads f dst q -> q = dst.
Proof. intros N H. inversion H as [|? t Hn]; [reflexivity|]. exfalso. exact (N _ Hn). Qed.
(** what one SafeFile does to a path that is no link *)
Lemma write_step v g dst d o c q : fresh v g dst -> trace v dst d o c -> q <> se_tmp v -> no_link g q ->
  content (run_ops g o) q = (if c && (q =? dst) then Some d else content g q) /\ no_link (run_ops g o) q.
Proof.
  intros Hf Ht Hq Hn. pose proof (trace_end v dst d o c g Hf Ht) as X. destruct c; cbn [andb].
  - destruct (swapped_replaced _ _ _ _ _ Hf X) as (R1 & R2). destruct (Z.eqb_spec q dst) as [->|D].
    + split; [exact R1|]. intros t. rewrite (sw_dst _ _ _ _ _ X). discriminate.
    + split; [apply R2; [exact Hq|intros L; exact (D (leads_no_link _ _ _ Hn L))]|]. intros t. rewrite (sw_node _ _ _ _ _ X) by assumption. apply Hn.
  - split; [apply (like_unchanged _ _ _ _ Hf X); exact Hq|]. intros t. rewrite (lk_node _ _ _ X) by exact Hq. apply Hn.
Qed.
Lemma commute f oA oB vA vB dA dB xA xB cA cB q :
  let fA := run_ops f oA in let fB := run_ops f oB in
  (oA = [] \/ trace vA dA xA oA cA /\ fresh vA f dA /\ fresh vA fB dA) -> (oB = [] \/ trace vB dB xB oB cB /\ fresh vB f dB /\ fresh vB fA dB) ->
  (oA <> [] -> oB <> [] -> dA <> dB) -> q <> se_tmp vA -> q <> se_tmp vB -> no_link f q -> content (run_ops fA oB) q = content (run_ops fB oA) q.
Proof.
  intros fA fB [-> |(TA & FA & FA')] HB D QA QB N; [reflexivity|]. destruct HB as [-> |(TB & FB & FB')]; [reflexivity|].
  assert (DD : dA <> dB) by (apply D; intros X; [rewrite X in TA; inversion TA|rewrite X in TB; inversion TB]).
  destruct (write_step _ _ _ _ _ _ q FA TA QA N) as (A1 & A2). destruct (write_step _ _ _ _ _ _ q FB TB QB N) as (B1 & B2). fold fA in A1, A2. fold fB in B1, B2.
  rewrite (proj1 (write_step _ _ _ _ _ _ q FB' TB QB A2)), (proj1 (write_step _ _ _ _ _ _ q FA' TA QA B2)), A1, B1.
  destruct (Z.eqb_spec q dA) as [X|X], (Z.eqb_spec q dB) as [Y|Y]; rewrite ?andb_true_r, ?andb_false_r; try reflexivity. exfalso. apply DD. congruence.
Qed.

(** ** C106 *)
Theorem C106_order :
  forall T C E P W argv1 v1 w1 argv2 v2 w2,
  let x1 := main C E W P v1 w1 argv1 in let x2 := main C E W P v2 w2 argv2 in
  let W1 := on_disk (run_ops (wo_fs W) (x_ops x1)) W in let W2 := on_disk (run_ops (wo_fs W) (x_ops x2)) W in
  (forall args, ~ runs P argv1 Generate args) -> (forall args, ~ runs P argv2 Generate args) ->
  leaves C E (places W P argv2) W P v1 w1 argv1 -> leaves C E (places W P argv1) W P v2 w2 argv2 ->
  leaves C E (places W P argv2) W2 P v1 w1 argv1 -> leaves C E (places W P argv1) W1 P v2 w2 argv2 ->
  main_told T C E W1 P v2 w2 argv2 = main_told T C E W P v2 w2 argv2 /\ main_told T C E W2 P v1 w1 argv1 = main_told T C E W P v1 w1 argv1 /\
  forall q, q <> se_tmp v1 -> q <> se_tmp v2 -> no_link (wo_fs W) q ->
    content (run_ops (wo_fs W1) (x_ops (main C E W1 P v2 w2 argv2))) q = content (run_ops (wo_fs W2) (x_ops (main C E W2 P v1 w1 argv1))) q.
Proof.
  intros T C E P W argv1 v1 w1 argv2 v2 w2 x1 x2 W1 W2 G1 G2 L1 L2 L1' L2'.
  assert (P1 : past C E P (places W P argv2) (wo_fs W) (wo_fs W1)).
  { eapply pa_more with (W := W); [apply pa_nothing|exact L1| |left; reflexivity]. rewrite <- (app_nil_r (x_ops (main _ _ _ _ _ _ _))). apply cr_between. }
  assert (P2 : past C E P (places W P argv1) (wo_fs W) (wo_fs W2)).
  { eapply pa_more with (W := W); [apply pa_nothing|exact L2| |left; reflexivity]. rewrite <- (app_nil_r (x_ops (main _ _ _ _ _ _ _))). apply cr_between. }
  assert (E2 : forall T, main_told T C E W1 P v2 w2 argv2 = main_told T C E W P v2 w2 argv2) by (intros T'; apply (C105_past T' C E P _ W _ P1); [intros n Hn; exists n; auto|exact G2]).
  assert (E1 : forall T, main_told T C E W2 P v1 w1 argv1 = main_told T C E W P v1 w1 argv1) by (intros T'; apply (C105_past T' C E P _ W _ P2); [intros n Hn; exists n; auto|exact G1]).
  split; [apply E2|]. split; [apply E1|]. intros q Q1 Q2 N. rewrite <- (C96_same_outcome T C E W1), <- (C96_same_outcome T C E W2), E1, E2, !C96_same_outcome. fold x1 x2.
  change (wo_fs W1) with (run_ops (wo_fs W) (x_ops x1)). change (wo_fs W2) with (run_ops (wo_fs W) (x_ops x2)).
  assert (AS : forall f argv n, asked W P argv n -> asked (on_disk f W) P argv n).
  { intros f argv n H. destruct H as [args o bn rest R F A|args o bn rest R F A|args o kn fn rest R F A S|args o R F A|args o R F A B].
    - exact (as_key (on_disk f W) P argv args o bn rest R F A).
    - exact (as_pub (on_disk f W) P argv args o bn rest R F A).
    - exact (as_sig (on_disk f W) P argv args o kn fn rest R F A S).
    - exact (as_enc (on_disk f W) P argv args o R F A).
    - exact (as_dec (on_disk f W) P argv args o R F A B). }
  destruct (one_file C E W P v1 w1 argv1 G1) as [X1|(n1 & d1 & c1 & A1 & T1)]; [fold x1 in X1; rewrite X1; reflexivity|fold x1 in T1].
  destruct (one_file C E W P v2 w2 argv2 G2) as [X2|(n2 & d2 & c2 & A2 & T2)]; [fold x2 in X2; rewrite X2; reflexivity|fold x2 in T2].
  apply (commute (wo_fs W) (x_ops x1) (x_ops x2) v1 v2 (wo_place W n1) (wo_place W n2) d1 d2 c1 c2 q); try assumption.
  - right. split; [exact T1|]. split; [exact (proj1 (proj1 L1 n1 A1))|]. exact (proj1 (proj1 L1' n1 (AS _ _ _ A1))).
  - right. split; [exact T2|]. split; [exact (proj1 (proj1 L2 n2 A2))|]. exact (proj1 (proj1 L2' n2 (AS _ _ _ A2))).
  - intros _ _ X. destruct L1 as (_ & _ & _ & _ & _ & _ & L). destruct (L (wo_place W n2)) as (_ & _ & L3); [exists n2; split; [apply co_out; exact A2|reflexivity]|].
    apply (L3 n1 A1). rewrite X. apply ld_here.
Qed.
Print Assumptions C106_order.

(** The hypotheses are met: in the town, sign and encrypt on their own files (they share the signing key, which both only read), in either order. *)
Definition sfn (k : Z) : sf_env := mkSf k (50 + k) None [] None None None (oct 0 2 2).
Lemma enc_runs c args : runs any_flags [str "enc"] c args -> c = Encrypt_.
Proof.
  intros (o & a & X & _ & _ & Y & Z). injection X as <-. cbn [mo_args] in Y. injection Y as <- _. apply stands_iff in Z. destruct Z as (_ & r & Z). destruct c; try discriminate Z. reflexivity.
Qed.
Lemma enc_asked W n : asked W any_flags [str "enc"] n -> n = str "out".
Proof.
  intros H. destruct H as [args o bn rest R|args o bn rest R|args o kn fn rest R|args o R G A|args o R]; try (apply enc_runs in R; discriminate R). injection G as <-. reflexivity.
Qed.
Lemma sign_asked W n : asked W any_flags [str "sign"] n -> n = sig_file sign1 (str "plain").
Proof.
  intros H. destruct H as [args o bn rest R|args o bn rest R|args o kn fn rest R G A|args o R|args o R]; try (apply sign_runs in R; discriminate R). injection G as <-. injection A as _ <- _. reflexivity.
Qed.
Lemma enc_concerns n : concerns town any_flags [str "enc"] n -> In n [str "out"; str "s.key"; str "a.pub"; str "plain"; str "/h/.ssh/authorized_keys"].
Proof.
  intros H. destruct H as [n H|args q a n R G I|args o n R G I|args o n R|args o R|args o R G|args o n R G I U|args o R G|args o home R G A];
    try (apply enc_runs in R; discriminate R).
  - apply enc_asked in H. subst n. left. reflexivity.
  - injection G as <-. right. left. reflexivity.
  - injection G as <-. destruct I as [<-|[<-|[]]]; [cbn; auto|]. exfalso. apply U. apply is_user_iff. reflexivity.
  - injection G as <-. cbn; auto 6.
  - injection A as <-. cbn; auto 8.
Qed.
Definition after_one (k : Z) (argv : list bytes) : fs := run_ops (wo_fs town) (x_ops (main toy toyE town any_flags (sfn k) (sfn (k + 1)) argv)).
Lemma after_fresh k argv m b dst d2 : 0 < k <= 3 -> x_ops (main toy toyE town any_flags (sfn k) (sfn (k + 1)) argv) = commit_ops (sfn k) m dst b ->
  10 < dst -> 10 < d2 -> forall j, 0 < j <= 4 -> j <> k -> fresh (sfn j) (after_one k argv) d2.
Proof.
  intros Hk E D1 D2 j Hj Hn. unfold after_one. rewrite E.
  apply (fresh_after (sfn k) (sfn j)); cbn [sfn se_tmp se_ino]; try lia; apply town_fresh; cbn [sfn se_tmp se_ino]; lia.
Qed.
Lemma runs_not c argv : (forall args, runs any_flags argv c args -> False) -> forall args, ~ runs any_flags argv c args.
Proof. intros H args R. exact (H args R). Qed.
Definition S1 : slot := Eval vm_compute in wo_place town (sig_file sign1 (str "plain")).
Definition O1 : slot := Eval vm_compute in wo_place town (str "out").
Lemma sign_writes : exists m b, x_ops (main toy toyE town any_flags (sfn 1) (sfn 2) [str "sign"]) = commit_ops (sfn 1) m S1 b.
Proof. eexists. eexists. vm_compute. reflexivity. Qed.
Lemma enc_writes : exists m b, x_ops (main toy toyE town any_flags (sfn 3) (sfn 4) [str "enc"]) = commit_ops (sfn 3) m O1 b.
Proof. eexists. eexists. vm_compute. reflexivity. Qed.
(** a command that writes dst, on a disk f where the only links are none: it leaves [kept] alone *)
Lemma leaves_it f (kept : slot -> Prop) argv j dst : (forall n, asked (on_disk f town) any_flags argv n -> wo_place town n = dst) -> (forall args, ~ runs any_flags argv Generate args) ->
  fresh (sfn j) f dst -> fresh (sfn (j + 1)) f dst -> (forall q, kept q -> 10 < q /\ q <> dst /\ no_link f q) -> 0 < j <= 3 ->
  leaves toy toyE kept (on_disk f town) any_flags (sfn j) (sfn (j + 1)) argv.
Proof.
  intros HA HG F1 F2 HK Hj. split; [intros n Hn; change (wo_place (on_disk f town) n) with (wo_place town n); rewrite (HA n Hn); split; assumption|].
  split; [cbn [sfn se_tmp se_ino]; lia|]. split; [cbn [sfn se_tmp se_ino]; lia|]. split.
  { intros bn A1 A2. exfalso. exact (key_not_pub _ (asked_one _ _ _ _ _ HG A1 A2)). }
  split; [exact (proj1 (proj2 F1))|]. split; [exact (proj1 (proj2 F2))|]. intros q Hq. destruct (HK q Hq) as (Q1 & Q2 & Q3).
  split; [cbn [sfn se_tmp se_ino]; lia|]. split; [cbn [sfn se_tmp se_ino]; lia|]. intros n Hn L. change (wo_place (on_disk f town) n) with (wo_place town n) in L. rewrite (HA n Hn) in L. exact (Q2 (leads_no_link _ _ _ Q3 L)).
Qed.
Lemma no_link_after k argv m b dst q : x_ops (main toy toyE town any_flags (sfn k) (sfn (k + 1)) argv) = commit_ops (sfn k) m dst b -> no_link (after_one k argv) q.
Proof.
  intros E t. unfold after_one. rewrite E, commit_nodes. destruct (q =? se_tmp (sfn k)); [discriminate|]. destruct (q =? dst); [discriminate|].
  unfold town, mk_world, dir. cbn [wo_fs f_node]. destruct (find_slot files q); discriminate.
Qed.
Lemma no_link_town q : no_link (wo_fs town) q.
Proof. intros t. unfold town, mk_world, dir. cbn [wo_fs f_node]. destruct (find_slot files q); discriminate. Qed.
Lemma sign_places q : places town any_flags [str "sign"] q -> 10 < q /\ q <> O1.
Proof. intros (n & Hn & ->). apply sign_concerns in Hn. destruct Hn as [->|[->| ->]]; (split; [reflexivity|vm_compute; discriminate]). Qed.
Lemma enc_places q : places town any_flags [str "enc"] q -> 10 < q /\ q <> S1.
Proof. intros (n & Hn & ->). apply enc_concerns in Hn. destruct Hn as [<-|[<-|[<-|[<-|[<-|[]]]]]]; (split; [reflexivity|vm_compute; discriminate]). Qed.
Example C106_instance :
  (forall args, ~ runs any_flags [str "sign"] Generate args) /\ (forall args, ~ runs any_flags [str "enc"] Generate args) /\
  leaves toy toyE (places town any_flags [str "enc"]) town any_flags (sfn 1) (sfn 2) [str "sign"] /\
  leaves toy toyE (places town any_flags [str "sign"]) town any_flags (sfn 3) (sfn 4) [str "enc"] /\
  leaves toy toyE (places town any_flags [str "enc"]) (on_disk (after_one 3 [str "enc"]) town) any_flags (sfn 1) (sfn 2) [str "sign"] /\
  leaves toy toyE (places town any_flags [str "sign"]) (on_disk (after_one 1 [str "sign"]) town) any_flags (sfn 3) (sfn 4) [str "enc"] /\
  x_code (main toy toyE town any_flags (sfn 1) (sfn 2) [str "sign"]) = 0 /\ x_code (main toy toyE town any_flags (sfn 3) (sfn 4) [str "enc"]) = 0 /\
  content (after_one 1 [str "sign"]) S1 <> content (wo_fs town) S1 /\ content (after_one 3 [str "enc"]) O1 <> content (wo_fs town) O1.
Proof.
  assert (GS : forall args, ~ runs any_flags [str "sign"] Generate args) by (intros args R; apply sign_runs in R; discriminate R).
  assert (GE : forall args, ~ runs any_flags [str "enc"] Generate args) by (intros args R; apply enc_runs in R; discriminate R).
  assert (AS : forall f n, asked (on_disk f town) any_flags [str "sign"] n -> wo_place town n = S1) by (intros f n H; apply sign_asked in H; subst n; vm_compute; reflexivity).
  assert (AE : forall f n, asked (on_disk f town) any_flags [str "enc"] n -> wo_place town n = O1) by (intros f n H; apply enc_asked in H; subst n; vm_compute; reflexivity).
  assert (HS : 10 < S1) by reflexivity. assert (HO : 10 < O1) by reflexivity.
  destruct sign_writes as (ms & bs & WS), enc_writes as (me & be & WE).
  assert (TF : forall j d, 0 < j <= 4 -> 10 < d -> fresh (sfn j) (wo_fs town) d) by (intros j d H1 H2; apply town_fresh; cbn [sfn se_tmp se_ino]; lia).
  split; [exact GS|]. split; [exact GE|]. split; [|split; [|split; [|split]]].
  - change town with (on_disk (wo_fs town) town) at 2. apply (leaves_it _ _ _ 1 S1 (AS _) GS); [apply TF; lia|apply TF; lia| |lia].
    intros q Hq. apply enc_places in Hq. split; [exact (proj1 Hq)|]. split; [exact (proj2 Hq)|apply no_link_town].
  - change town with (on_disk (wo_fs town) town) at 2. apply (leaves_it _ _ _ 3 O1 (AE _) GE); [apply TF; lia|apply TF; lia| |lia].
    intros q Hq. apply sign_places in Hq. split; [exact (proj1 Hq)|]. split; [exact (proj2 Hq)|apply no_link_town].
  - apply (leaves_it _ _ _ 1 S1 (AS _) GS); [apply (after_fresh 3 _ _ _ _ _ ltac:(lia) WE HO HS); lia|apply (after_fresh 3 _ _ _ _ _ ltac:(lia) WE HO HS); lia| |lia].
    intros q Hq. apply enc_places in Hq. split; [exact (proj1 Hq)|]. split; [exact (proj2 Hq)|exact (no_link_after 3 _ _ _ _ q WE)].
  - apply (leaves_it _ _ _ 3 O1 (AE _) GE); [apply (after_fresh 1 _ _ _ _ _ ltac:(lia) WS HS HO); lia|apply (after_fresh 1 _ _ _ _ _ ltac:(lia) WS HS HO); lia| |lia].
    intros q Hq. apply sign_places in Hq. split; [exact (proj1 Hq)|]. split; [exact (proj2 Hq)|exact (no_link_after 1 _ _ _ _ q WS)].
  - split; [vm_compute; reflexivity|]. split; [vm_compute; reflexivity|]. split; vm_compute; discriminate.
Qed.
