(** C75: the permission bits of what sigtool writes. *)
From Verif Require Import Bytes BytesLemmas GoErr GoIO SpecIO IOProofs Support Pb SpecPb Crypto CryptoLaws Keys Sign SpecSign Encrypt Decrypt Spec
  KeyFiles ExtLaws Base64 GoText TextProofs Ssh SpecSsh Fs SpecFs FsProofs Store Cli Main SpecCli CliProofs Toy Scene ToyExt Thm_Files CliScene Thm_Cli Thm_Commands Thm_Main Thm_Pipe Thm_Touch.
Require Import ZifyBool.
Ltac Zify.zify_post_hook ::= Z.div_mod_to_equations.
Local Notation length := List.length.

(** ** Specification *)
(** the path leads to the very file it led to before, which has the permissions it had *)
Definition same_file (f f' : fs) (q : slot) : Prop := exists i, follow 40 f q = Some i /\ follow 40 f' q = Some i /\ f_mode f' i = f_mode f i.
(** files whose contents are secret, or were made from something that may be: the private key, what encrypt and decrypt write, and the
    temporary files of these *)
Inductive secret (W : world) (P : flags) (argv : list bytes) (v1 : sf_env) (f : fs) : slot -> Prop :=
| se_key args o bn rest q : runs P argv Generate args -> fl_gen P args = Options o -> ge_args o = bn :: rest ->
    leads f (wo_place W (wo_clean W bn ++ str ".key")) q -> secret W P argv v1 f q
| se_enc args q : runs P argv Encrypt_ args -> secret W P argv v1 f q
| se_dec args q : runs P argv Decrypt_ args -> secret W P argv v1 f q
| se_keytmp args : runs P argv Generate args -> secret W P argv v1 f (se_tmp v1).

(** ** Proofs *)
Lemma main_runs C E W P v1 v2 argv : x_ops (main C E W P v1 v2 argv) = [] \/
  exists c args, runs P argv c args /\ main C E W P v1 v2 argv = run_command C E W P v1 v2 c args /\ forall c' args', runs P argv c' args' -> c' = c /\ args' = args.
Proof.
  destruct (fl_main P argv) as [code|o] eqn:Em; [left; unfold main; rewrite Em; reflexivity|].
  destruct (C55_dispatch C E W P v1 v2 argv o Em) as (H1 & H2). destruct (mo_version o) eqn:Ev; [rewrite H1 by auto; left; reflexivity|]. destruct (mo_help o) eqn:Eh; [rewrite H1 by auto; left; reflexivity|].
  specialize (H2 eq_refl eq_refl). destruct (mo_args o) as [|a args] eqn:Ea; [rewrite H2; left; reflexivity|]. destruct H2 as (H2 & H3).
  destruct (stands_dec a) as [(c & Hc)|N]; [|rewrite (H3 N); left; reflexivity]. destruct (H2 _ Hc) as (E1 & U). right. exists c, args.
  split; [exists o, a; auto 8|]. split; [exact E1|]. intros c' args' (o' & a' & X1 & _ & _ & X2 & X3). rewrite Em in X1. injection X1 as <-. rewrite Ea in X2. injection X2 as <- <-. split; [apply U; exact X3|reflexivity].
Qed.

Lemma sf_ops_creates v m dst w s i x : In (OCreate s i x) (sf_ops v m dst w) -> s = se_tmp v /\ i = se_ino v /\ x = granted v m.
Proof.
  unfold sf_ops. intros [H|[H|H]]; [injection H as <- <- <-; auto|discriminate H|]. exfalso. destruct (_ && _); [|destruct H as [H|[]]; discriminate H].
  destruct (se_sync v); [destruct H as [H|[]]; discriminate H|]. destruct H as [H|H]; [discriminate H|].
  destruct (se_close v); [destruct H as [H|[]]; discriminate H|]. destruct (se_rename v); destruct H as [H|[]]; discriminate H.
Qed.
Lemma write_file_creates v m f dst b ov ops r s i x : write_file v m f dst b ov = (ops, r) -> In (OCreate s i x) ops -> s = se_tmp v /\ i = se_ino v /\ x = granted v m.
Proof.
  unfold write_file. intros H Hi. assert (G : forall w, ops = sf_ops v m dst w -> s = se_tmp v /\ i = se_ino v /\ x = granted v m) by (intros w ->; exact (sf_ops_creates _ _ _ _ _ _ _ Hi)).
  destruct (safe_open v f dst ov); [|injection H as <- _; destruct Hi..]. destruct (fullwrite b (sf_sink v)) as [[e|] w]; [injection H as <- _; exact (G _ eq_refl)|].
  destruct (w_close w) as [[e|] w']; injection H as <- _; exact (G _ eq_refl).
Qed.
Lemma with_output_creates W v m out tofile force body s i x : In (OCreate s i x) (x_ops (with_output W v m out tofile force body)) ->
  s = se_tmp v /\ i = se_ino v /\ x = granted v m.
Proof.
  unfold with_output. destruct tofile; [|destruct (body (wo_stdout W)); intros []]. destruct (safe_open v (wo_fs W) (wo_place W out) force); [|intros []..].
  destruct (body (sf_sink v)) as [c w]. apply sf_ops_creates.
Qed.
(** every file a run makes, with its permissions *)
Lemma run_creates C E W P v1 v2 c args s i x : In (OCreate s i x) (x_ops (run_command C E W P v1 v2 c args)) ->
  s = se_tmp v1 /\ i = se_ino v1 /\ x = granted v1 (match c with Sign => oct 6 4 4 | _ => oct 6 0 0 end) \/
  c = Generate /\ s = se_tmp v2 /\ i = se_ino v2 /\ x = granted v2 (oct 6 4 4).
Proof.
  unfold run_command. destruct c.
  - destruct (fl_gen P args) as [code|o]; [intros []|]. unfold cli_generate. destruct (ge_args o) as [|bn rest]; [intros []|]. destruct (negb (ge_force o) && _); [intros []|].
    destruct (get_pass W (ge_nopw o) (ge_envpw o)) as [pw|e|p]; [|intros []..]. destruct (rand_buf 32 (wo_rng W)) as [seed g]. unfold serialize_private.
    destruct (marshal_private C E (new_private_key C seed) (ge_comment o) pw g) as [[kt|e|p] g']; [|intros []..].
    destruct (write_file v1 _ _ _ kt (ge_force o)) as [ops1 r1] eqn:E1. destruct r1 as [u|e|p]; cbn [x_ops].
    + unfold serialize_public. destruct (write_file v2 _ _ _ _ (ge_force o)) as [ops2 r2] eqn:E2. cbn [x_ops]. intros H. apply in_app_or in H. destruct H as [H|H].
      * left. exact (write_file_creates _ _ _ _ _ _ _ _ _ _ _ E1 H).
      * right. split; [reflexivity|]. exact (write_file_creates _ _ _ _ _ _ _ _ _ _ _ E2 H).
    + intros H. left. exact (write_file_creates _ _ _ _ _ _ _ _ _ _ _ E1 H).
    + intros H. left. exact (write_file_creates _ _ _ _ _ _ _ _ _ _ _ E1 H).
  - destruct (fl_sign P args) as [code|o]; [intros []|]. unfold cli_sign. destruct (so_args o) as [|kn [|fn more]]; [intros []..|]. intros H. left. exact (with_output_creates _ _ _ _ _ _ _ _ _ _ H).
  - destruct (fl_verify P args) as [code|[q av]]; [intros []|]. rewrite (proj1 (C62_verify_report C E W q av)). intros [].
  - destruct (fl_enc P args) as [code|oe] eqn:Eg; [intros []|]. destruct (cli_encrypt_any C E W v1 oe) as [(_ & -> & _)|(blk & sk & rd & pka & _ & _ & _ & _ & _ & ->)]; [intros []|].
    intros H. left. exact (with_output_creates _ _ _ _ _ _ _ _ _ _ H).
  - destruct (fl_dec P args) as [code|od] eqn:Eg; [intros []|]. destruct (do_test od) eqn:Et; [destruct (C45_test_mode C E W v1 od Et) as (-> & _); intros []|].
    destruct (cli_decrypt_any C E W v1 od Et) as [(_ & -> & _)|(kf & more & sk & pk & rd & _ & _ & _ & _ & ->)]; [intros []|].
    intros H. left. exact (with_output_creates _ _ _ _ _ _ _ _ _ _ H).
  - intros [].
Qed.

Lemma crash_dir ops dn : crash ops dn -> exists r, filter dir_op ops = filter dir_op dn ++ r.
Proof. intros [a b|a i d1 d2 b]; rewrite !filter_app; cbn; rewrite ?app_nil_r; eauto. Qed.
Lemma crash_creates ops dn s i m : crash ops dn -> In (OCreate s i m) dn -> In (OCreate s i m) ops.
Proof.
  intros Hc Hi. destruct (crash_dir _ _ Hc) as (r & E). assert (H : In (OCreate s i m) (filter dir_op ops)) by (rewrite E; apply in_or_app; left; apply filter_In; auto).
  apply filter_In in H. tauto.
Qed.
Lemma mode_run ops : forall f i, (f_mode (run_ops f ops) i = f_mode f i /\ forall s m, ~ In (OCreate s i m) ops) \/ exists s, In (OCreate s i (f_mode (run_ops f ops) i)) ops.
Proof.
  induction ops as [|o ops IH]; intros f i; [left; split; [reflexivity|intros s m []]|]. cbn [run_ops fold_left]. change (fold_left do_op ops (do_op f o)) with (run_ops (do_op f o) ops).
  destruct (IH (do_op f o) i) as [(A & B)|(s & A)]; [|right; exists s; right; exact A].
  destruct o as [s j m|j d|j|a b|s]; try (left; split; [rewrite A; reflexivity|intros s' m' [X|X]; [discriminate X|exact (B _ _ X)]]).
  destruct (Z.eq_dec i j) as [->|N].
  - right. exists s. left. rewrite A. cbn [do_op f_mode]. rewrite upd_same. reflexivity.
  - left. split; [rewrite A; cbn [do_op f_mode]; apply upd_other; exact N|]. intros s' m' [X|X]; [congruence|exact (B _ _ X)].
Qed.

(** nodes that change: they are new files, made in slots of [T] *)
Section Nodes.
  Variables (f : fs) (T : slot -> Prop).
  Hypothesis HT : forall t, T t -> f_node f t = None.
  Definition tame (o : fop) : Prop := match o with OCreate s _ _ => T s | ORename a _ => T a | ORemove s => T s | _ => True end.
  Definition made_by (ops : list fop) (n : option node) : Prop := n = None \/ exists s i m, n = Some (NFile i) /\ In (OCreate s i m) ops.
  Lemma nodes_tame ops : Forall tame ops ->
    (forall s, f_node (run_ops f ops) s = f_node f s \/ made_by ops (f_node (run_ops f ops) s)) /\ (forall t, T t -> made_by ops (f_node (run_ops f ops) t)).
  Proof.
    induction ops as [|o ops IH] using rev_ind; intros H.
    - split; [left; reflexivity|]. intros t Ht. left. cbn. apply HT. exact Ht.
    - apply Forall_app in H. destruct H as (H & Ho). destruct (IH H) as (A & B). inversion Ho as [|x l Hx _]; subst. rewrite run_app. cbn [run_ops fold_left].
      assert (L : forall n, made_by ops n -> made_by (ops ++ [o]) n) by (intros n [->|(s & i & m & -> & X)]; [left; reflexivity|right; exists s, i, m; split; [reflexivity|apply in_or_app; left; exact X]]).
      assert (A' : forall s, f_node (run_ops f ops) s = f_node f s \/ made_by (ops ++ [o]) (f_node (run_ops f ops) s)) by (intros s; destruct (A s); auto).
      assert (B' : forall t, T t -> made_by (ops ++ [o]) (f_node (run_ops f ops) t)) by auto.
      change (fold_left do_op ops f) with (run_ops f ops). destruct o as [s j m|j d|j|a b|s]; cbn [do_op f_node]; try (split; assumption).
      + assert (M : made_by (ops ++ [OCreate s j m]) (Some (NFile j))) by (right; exists s, j, m; split; [reflexivity|apply in_or_app; right; left; reflexivity]).
        unfold upd_at. split; intros q; destruct (q =? s); auto.
      + unfold upd_at. split; intros q; [destruct (q =? a); [right; left; reflexivity|]; destruct (q =? b); auto|intros Hq; destruct (q =? a); [left; reflexivity|]; destruct (q =? b); auto].
      + unfold upd_at. split; intros q; [destruct (q =? s); [right; left; reflexivity|auto]|intros Hq; destruct (q =? s); [left; reflexivity|auto]].
  Qed.
End Nodes.
Lemma follow_new f f' i : (forall s j, f_node f' s = Some (NFile j) -> j = i -> f_node f s = f_node f' s) -> (forall s t, f_node f' s = Some (NLink t) -> f_node f s = f_node f' s) ->
  forall n q, follow n f' q = Some i -> follow n f q = Some i.
Proof.
  intros H1 H2. induction n as [|n IH]; intros q; cbn [follow]; destruct (f_node f' q) as [[j|t]|] eqn:E; try discriminate.
  - intros X. injection X as ->. rewrite (H1 _ _ E eq_refl), E. reflexivity.
  - intros X. injection X as ->. rewrite (H1 _ _ E eq_refl), E. reflexivity.
  - intros X. rewrite (H2 _ _ E), E. exact (IH t X).
Qed.

Lemma follow_ends f i : forall n q, follow n f q = Some i -> exists s, f_node f s = Some (NFile i).
Proof.
  induction n as [|n IH]; intros q; cbn [follow]; destruct (f_node f q) as [[j|t]|] eqn:E; try discriminate; intros X; try (injection X as ->; eauto). exact (IH t X).
Qed.
Lemma trace_tame v dst d ops c (T : slot -> Prop) : T (se_tmp v) -> trace v dst d ops c -> Forall (tame T) ops.
Proof. intros Ht H. inversion H; subst; repeat constructor; exact Ht. Qed.
(** generate: while the public key's inode is anywhere, the private key's path has the private key's *)
Lemma key_path v1 v2 f K Q m kt d ops2 c k f' : fresh v1 f K -> fresh v2 f Q -> se_tmp v1 <> Q -> se_tmp v2 <> K -> se_tmp v1 <> se_tmp v2 -> se_ino v1 <> se_ino v2 -> ~ leads f K Q ->
  trace v2 Q d ops2 c -> (forall s, f_node f' s = f_node (run_ops f (firstn k (filter dir_op (commit_ops v1 m K kt ++ ops2)))) s) ->
  forall q, leads f K q \/ q = se_tmp v1 -> follow 40 f' q <> Some (se_ino v2).
Proof.
  intros (A1 & A2 & A3 & A4) (B1 & B2 & B3 & B4) H1 H2 H3 H4 HKQ Ht Hn q Hq Hf. destruct (follow_ends _ _ _ _ Hf) as (s & Hs). rewrite Hn in Hs.
  assert (X : (forall x, x <> se_tmp v1 -> x <> se_tmp v2 -> x <> K -> x <> Q -> f_node f' x = f_node f x) /\ f_node f' K = Some (NFile (se_ino v1)) /\ f_node f' (se_tmp v1) = None).
  { assert (KQ : K <> Q) by (intros Z; apply HKQ; rewrite <- Z; constructor).
    assert (G : forall L, firstn k (filter dir_op (commit_ops v1 m K kt ++ ops2)) = L ->
      (exists x y, L = OCreate (se_tmp v1) (se_ino v1) m :: ORename (se_tmp v1) K :: OCreate (se_tmp v2) (se_ino v2) y :: x /\ (x = [] \/ x = [ORemove (se_tmp v2)] \/ x = [ORename (se_tmp v2) Q])) \/
      (L = [] \/ L = [OCreate (se_tmp v1) (se_ino v1) m] \/ L = [OCreate (se_tmp v1) (se_ino v1) m; ORename (se_tmp v1) K])).
    { intros L <-. rewrite filter_app. cbn [commit_ops filter dir_op app]. inversion Ht; subst; cbn [filter dir_op]; destruct k as [|[|[|[|k]]]]; cbn [firstn]; rewrite ?firstn_nil; eauto 8; left; eexists; eexists; (split; [reflexivity|auto]). }
    destruct (G _ eq_refl) as [(x & y & EL & Hx)|Hx].
    - split; [|split].
      + intros z Z1 Z2 Z3 Z4. rewrite Hn, EL. destruct Hx as [->|[->| ->]]; cbn [run_ops fold_left do_op f_node]; rewrite ?upd_other by assumption; reflexivity.
      + rewrite Hn, EL. destruct Hx as [->|[->| ->]]; cbn [run_ops fold_left do_op f_node]; repeat (rewrite upd_other by congruence); rewrite !upd_same; reflexivity.
      + rewrite Hn, EL. destruct Hx as [->|[->| ->]]; cbn [run_ops fold_left do_op f_node]; repeat (rewrite upd_other by congruence); rewrite upd_same; reflexivity.
    - exfalso. destruct Hx as [E|[E|E]]; rewrite E in Hs; cbn [run_ops fold_left do_op f_node] in Hs.
      + exact (B4 _ Hs).
      + unfold upd_at in Hs. destruct (s =? se_tmp v1); [congruence|]. exact (B4 _ Hs).
      + unfold upd_at in Hs. rewrite Z.eqb_refl in Hs. destruct (s =? se_tmp v1); [congruence|]. destruct (s =? K); [congruence|]. exact (B4 _ Hs). }
  destruct X as (X1 & X2 & X3). destruct Hq as [Hq|Hq]; [|subst q; cbn [follow] in Hf; rewrite X3 in Hf; discriminate Hf].
  revert Hf. generalize 40%nat. induction Hq as [|q t E L IH]; intros n Hf.
  - destruct n; cbn [follow] in Hf; rewrite X2 in Hf; congruence.
  - destruct (Z.eq_dec q K) as [->|N]; [destruct n; cbn [follow] in Hf; rewrite X2 in Hf; congruence|].
    assert (E' : f_node f' q = Some (NLink t)).
    { rewrite X1; [exact E|congruence|congruence|exact N|]. intros ->. apply HKQ. exact (ld_link _ _ _ _ E L). }
    destruct n; cbn [follow] in Hf; rewrite E' in Hf; [discriminate Hf|]. exact (IH n Hf).
Qed.

Lemma In_firstn {A} k (l : list A) x : In x (firstn k l) -> In x l.
Proof. intros H. rewrite <- (firstn_skipn k l). apply in_or_app. left. exact H. Qed.

(** Whatever the command line and wherever the program is stopped: each path leads to the file it led to before, with the permissions it
    had, or to a new file, whose permissions are 0600 without the bits of the umask; a signature or a public key has 0644 instead.  The private key and
    the outputs of encrypt and decrypt (and the temporary files for them) never have 0644, also when they replace a file that had. *)
Theorem C75_permissions :
  forall C E W P v1 v2 argv, let f := wo_fs W in
  (forall n, asked W P argv n -> fresh v1 f (wo_place W n) /\ fresh v2 f (wo_place W n)) -> se_tmp v1 <> se_tmp v2 -> se_ino v1 <> se_ino v2 ->
  (forall bn, asked W P argv (wo_clean W bn ++ str ".key") -> asked W P argv (wo_clean W bn ++ str ".pub") ->
     ~ leads f (wo_place W (wo_clean W bn ++ str ".key")) (wo_place W (wo_clean W bn ++ str ".pub"))) ->
  f_node f (se_tmp v1) = None -> f_node f (se_tmp v2) = None ->
  let ops := x_ops (main C E W P v1 v2 argv) in
  forall dn f', crash ops dn -> f' = run_ops f dn \/ survives f dn f' ->
  forall q m, mode f' q = Some m -> same_file f f' q \/
    (m = Z.ldiff (oct 6 0 0) (se_umask v1) /\ forall args, ~ runs P argv Sign args) \/
    (~ secret W P argv v1 f q /\ exists args, runs P argv Sign args /\ m = Z.ldiff (oct 6 4 4) (se_umask v1) \/
                                              runs P argv Generate args /\ m = Z.ldiff (oct 6 4 4) (se_umask v2)).
Proof.
  intros C E W P v1 v2 argv f Hfr T12 I12 HKP N1 N2 ops dn f' Hc Hs q m Hm.
  apply to_survives in Hs. destruct Hs as ((k & Hn) & _ & Hmo). unfold mode in Hm. destruct (follow 40 f' q) as [i|] eqn:Hq; [|discriminate Hm]. injection Hm as <-.
  set (T := fun t => t = se_tmp v1 \/ t = se_tmp v2). assert (HT : forall t, T t -> f_node f t = None) by (intros t [->| ->]; assumption).
  destruct (crash_dir _ _ Hc) as (r & Er). set (L := firstn k (filter dir_op dn)) in *.
  assert (LL : exists k', L = firstn k' (filter dir_op ops)).
  { unfold L. rewrite Er. generalize (filter dir_op dn). intros l. destruct (Nat.leb_spec k (length l)) as [X|X].
    - exists k. rewrite firstn_app. replace (k - length l)%nat with 0%nat by lia. cbn [firstn]. rewrite app_nil_r. reflexivity.
    - exists (length l). rewrite firstn_app, Nat.sub_diag, firstn_all. cbn [firstn]. rewrite app_nil_r. apply firstn_all2. lia. }
  assert (TA : Forall (tame T) ops).
  { unfold ops. destruct (main_ops C E W P v1 v2 argv) as [X|[(n & d & c & An & Ht)|(bn & n & n2 & m & kt & ops2 & d & c & E1 & E2 & A1 & A2 & X & Ht)]].
    - rewrite X. constructor.
    - eapply trace_tame; [left; reflexivity|exact Ht].
    - rewrite X. apply Forall_app. split; [|eapply trace_tame; [right; reflexivity|exact Ht]]. unfold commit_ops. repeat constructor. }
  assert (TL : Forall (tame T) L).
  { destruct LL as (k' & ->). rewrite Forall_forall in TA. apply Forall_forall. intros o Ho. apply TA. apply (In_firstn k') in Ho. apply filter_In in Ho. tauto. }
  assert (LD : forall s i m, In (OCreate s i m) L -> In (OCreate s i m) dn) by (intros s j x X; unfold L in X; apply (In_firstn k) in X; apply filter_In in X; tauto).
  destruct (nodes_tame f T HT L TL) as (ND & _).
  assert (ND' : forall s, f_node f' s = f_node f s \/ made_by L (f_node f' s)) by (intros s; rewrite Hn; apply ND).
  rewrite Hmo. destruct (mode_run dn f i) as [(M1 & M2)|(s & M)].
  - left. exists i. split; [|split; [exact Hq|rewrite Hmo; exact M1]]. apply (follow_new f f' i); [| |exact Hq].
    + intros s j Ej ->. destruct (ND' s) as [X|[X|(s' & j & x & X & Y)]]; [congruence|congruence|]. exfalso. rewrite Ej in X. injection X as <-. apply (M2 s' x). apply LD. exact Y.
    + intros s t Et. destruct (ND' s) as [X|[X|(s' & j & x & X & Y)]]; congruence.
  - right. pose proof (crash_creates _ _ _ _ _ Hc M) as Mo. unfold ops in Mo.
    destruct (main_runs C E W P v1 v2 argv) as [X|(c & args & R & X & U)]; [rewrite X in Mo; destruct Mo|]. rewrite X in Mo.
    destruct (run_creates C E W P v1 v2 c args _ _ _ Mo) as [(_ & -> & ->)|(-> & _ & -> & ->)].
    + assert (NS : c <> Sign -> forall a, ~ runs P argv Sign a) by (intros N a R'; destruct (U _ _ R') as (Z & _); congruence).
      destruct c; try (left; split; [reflexivity|apply NS; discriminate]). right. split; [|exists args; left; split; [exact R|reflexivity]]. intros Sec.
      destruct Sec as [a o bn rest q R'|a q R'|a q R'|a R']; destruct (U _ _ R') as (Z & _); discriminate Z.
    + right. split; [|exists args; right; split; [exact R|reflexivity]]. intros Sec. destruct (main_ops C E W P v1 v2 argv) as [Y|[(n & d & c & An & Ht)|(bn & n & n2 & m & kt & ops2 & d & c & E1 & E2 & A1 & A2 & Y & Ht)]].
      * rewrite <- X, Y in Mo. destruct Mo.
      * rewrite <- X in Mo. apply (stage_only _ _ _ _ (st_all _ _ _ _ _ Ht)) in Mo. destruct Mo. congruence.
      * subst n n2. destruct (Hfr _ A1) as (F1 & F1'). destruct (Hfr _ A2) as (F2' & F2). destruct LL as (k' & LL). unfold ops in LL. rewrite Y in LL.
        revert Hq. apply (key_path v1 v2 f _ _ m kt d ops2 c k' f' F1 F2 (proj1 F2') (proj1 F1') T12 I12 (HKP bn A1 A2) Ht).
        { intros x. rewrite Hn, LL. reflexivity. }
        assert (UB : forall a o b rest, runs P argv Generate a -> fl_gen P a = Options o -> ge_args o = b :: rest -> wo_place W (wo_clean W b ++ str ".key") = wo_place W (wo_clean W bn ++ str ".key")).
        { clear Sec. intros a o b rest R' G A. inversion A1 as [a1 o1 b1 r1 R1 G1 B1 Z1|a1 o1 b1 r1 R1 G1 B1 Z1|a1 o1 kn fn r1 R1|a1 o1 R1|a1 o1 R1]; try (destruct (U _ _ R1) as (Z & _); discriminate Z).
          - destruct (U _ _ R1) as (_ & ->). destruct (U _ _ R') as (_ & ->). congruence.
          - exfalso. pose proof (f_equal (@rev byte) Z1) as Z. rewrite !rev_app_distr in Z. discriminate Z. }
        destruct Sec as [a o b rest q R' G A Ld|a q R'|a q R'|a R']; [left|destruct (U _ _ R') as (Z & _); discriminate Z..|right; reflexivity].
        rewrite <- (UB _ _ _ _ R' G A). exact Ld.
Qed.
Print Assumptions C75_permissions.

(** The same, bit by bit.  The permission bits of a file: 8, 7, 6 - its owner may read, write, execute; 5, 4, 3 - its group; 2, 1, 0 - everybody. *)
Definition grants (m umask : Z) (bits : list Z) : Prop := forall i, 0 <= i -> Z.testbit m i = true <-> In i bits /\ Z.testbit umask i = false.
Lemma grants_ldiff m umask bits : (forall i, 0 <= i -> Z.testbit m i = true <-> In i bits) -> grants (Z.ldiff m umask) umask bits.
Proof.
  intros H i Hi. rewrite Z.ldiff_spec, andb_true_iff, negb_true_iff, (H i Hi). reflexivity.
Qed.
Lemma bits_of m bits : 0 <= m < 512 -> (forall i, 0 <= i < 9 -> Z.testbit m i = existsb (Z.eqb i) bits) -> (forall i, In i bits -> i < 9) ->
  forall i, 0 <= i -> Z.testbit m i = true <-> In i bits.
Proof.
  intros Hm H B i Hi. assert (X : existsb (Z.eqb i) bits = true <-> In i bits).
  { rewrite existsb_exists. split; [intros (x & Hx & E); apply Z.eqb_eq in E; subst x; exact Hx | intros Hx; exists i; split; [exact Hx|apply Z.eqb_refl]]. }
  destruct (Z.ltb_spec i 9) as [L|G]; [rewrite (H i) by lia; exact X|].
  split; [intros T|intros Hx; specialize (B i Hx); lia]. exfalso. destruct (Z.eqb_spec m 0) as [->|N]; [rewrite Z.bits_0 in T; discriminate|].
  rewrite Z.bits_above_log2 in T; [discriminate|lia|]. assert (Z.log2 m < 9) by (apply Z.log2_lt_pow2; [lia|]; change (2 ^ 9) with 512; lia). lia.
Qed.
Ltac nine := intros i Hi; assert (D : i = 0 \/ i = 1 \/ i = 2 \/ i = 3 \/ i = 4 \/ i = 5 \/ i = 6 \/ i = 7 \/ i = 8) by lia;
  destruct D as [-> | [-> | [-> | [-> | [-> | [-> | [-> | [-> | ->]]]]]]]]; reflexivity.
Lemma owner_bits : forall i, 0 <= i -> Z.testbit (oct 6 0 0) i = true <-> In i [8; 7].
Proof. apply bits_of; [vm_compute; split; congruence | nine | cbn [In]; lia]. Qed.
Lemma reader_bits : forall i, 0 <= i -> Z.testbit (oct 6 4 4) i = true <-> In i [8; 7; 5; 2].
Proof. apply bits_of; [vm_compute; split; congruence | nine | cbn [In]; lia]. Qed.
Theorem C75_who_may :
  forall C E W P v1 v2 argv, let f := wo_fs W in
  (forall n, asked W P argv n -> fresh v1 f (wo_place W n) /\ fresh v2 f (wo_place W n)) -> se_tmp v1 <> se_tmp v2 -> se_ino v1 <> se_ino v2 ->
  (forall bn, asked W P argv (wo_clean W bn ++ str ".key") -> asked W P argv (wo_clean W bn ++ str ".pub") ->
     ~ leads f (wo_place W (wo_clean W bn ++ str ".key")) (wo_place W (wo_clean W bn ++ str ".pub"))) ->
  f_node f (se_tmp v1) = None -> f_node f (se_tmp v2) = None ->
  let ops := x_ops (main C E W P v1 v2 argv) in
  forall dn f', crash ops dn -> f' = run_ops f dn \/ survives f dn f' ->
  forall q m, mode f' q = Some m -> same_file f f' q \/
    ((forall args, ~ runs P argv Sign args) /\ grants m (se_umask v1) [8; 7]) \/
    (~ secret W P argv v1 f q /\ exists args, runs P argv Sign args /\ grants m (se_umask v1) [8; 7; 5; 2] \/
                                              runs P argv Generate args /\ grants m (se_umask v2) [8; 7; 5; 2]).
Proof.
  intros C E W P v1 v2 argv f Hfr T12 I12 HKP N1 N2 ops dn f' Hc Hs q m Hm.
  destruct (C75_permissions C E W P v1 v2 argv Hfr T12 I12 HKP N1 N2 dn f' Hc Hs q m Hm) as [S|[[-> N]|(NS & args & [[R ->]|[R ->]])]].
  - left. exact S.
  - right. left. split; [exact N|]. apply grants_ldiff, owner_bits.
  - right. right. split; [exact NS|]. exists args. left. split; [exact R|]. apply grants_ldiff, reader_bits.
  - right. right. split; [exact NS|]. exists args. right. split; [exact R|]. apply grants_ldiff, reader_bits.
Qed.
Print Assumptions C75_who_may.

(** after a successful generate: both files, with their permissions *)
Theorem C75_generated_pair :
  forall C E W v1 v2 o bn rest, ge_args o = bn :: rest -> let f := wo_fs W in
  let K := wo_place W (wo_clean W bn ++ str ".key") in let Q := wo_place W (wo_clean W bn ++ str ".pub") in
  K <> Q -> fresh v1 f K -> fresh v2 f Q -> se_tmp v1 <> Q -> se_tmp v2 <> K -> se_tmp v1 <> se_tmp v2 -> se_ino v1 <> se_ino v2 ->
  let x := cli_generate C E W v1 v2 o in x_code x = 0 ->
  mode (run_ops f (x_ops x)) K = Some (Z.ldiff (oct 6 0 0) (se_umask v1)) /\ mode (run_ops f (x_ops x)) Q = Some (Z.ldiff (oct 6 4 4) (se_umask v2)).
Proof.
  intros C E W v1 v2 o bn rest Ha f K Q KQ F1 F2 T1 T2 T12 I12 x. unfold x, cli_generate. rewrite Ha. destruct (negb (ge_force o) && _); [discriminate|].
  destruct (get_pass W (ge_nopw o) (ge_envpw o)) as [pw|e|p]; [|discriminate..]. destruct (rand_buf 32 (wo_rng W)) as [seed g]. unfold serialize_private.
  destruct (marshal_private C E (new_private_key C seed) (ge_comment o) pw g) as [[kt|e|p] g']; [|discriminate..]. fold K Q.
  destruct (write_file v1 (oct 6 0 0) (wo_fs W) K kt (ge_force o)) as [ops1 r1] eqn:E1.
  destruct (write_file_spec _ _ _ _ _ _ _ _ E1) as [(-> & Ht & _)|(e & -> & Ho)]; [|discriminate]. unfold serialize_public.
  destruct (write_file v2 (oct 6 4 4) _ Q _ (ge_force o)) as [ops2 r2] eqn:E2. cbn [x_code x_ops].
  destruct (write_file_spec _ _ _ _ _ _ _ _ E2) as [(-> & Ht2 & _)|(e & -> & Ho)]; [|discriminate]. intros _. fold f.
  inversion Ht as [| |m1 M1]; subst. inversion Ht2 as [| |m2 M2]; subst.
  destruct (write_file_creates _ _ _ _ _ _ _ _ _ _ _ E1 (or_introl eq_refl)) as (_ & _ & ->). destruct (write_file_creates _ _ _ _ _ _ _ _ _ _ _ E2 (or_introl eq_refl)) as (_ & _ & ->).
  destruct F1 as (A1 & _), F2 as (B1 & _). cbn [app]. unfold mode.
  assert (G : forall f' q i, f_node f' q = Some (NFile i) -> follow 40 f' q = Some i) by (intros f' q i Hq; cbn [follow]; rewrite Hq; reflexivity).
  split.
  - erewrite G; [|cbn [run_ops fold_left do_op f_node]; repeat (rewrite upd_other by congruence); rewrite !upd_same; reflexivity].
    cbn [run_ops fold_left do_op f_mode]. rewrite upd_other by congruence. rewrite upd_same. reflexivity.
  - erewrite G; [|cbn [run_ops fold_left do_op f_node]; repeat (rewrite upd_other by congruence); rewrite !upd_same; reflexivity].
    cbn [run_ops fold_left do_op f_mode]. rewrite upd_same. reflexivity.
Qed.
Print Assumptions C75_generated_pair.

(** ** The same for the library: PrivateKey.Serialize, PublicKey.Serialize and Signature.Serialize.  Nothing they do, even when they fail or
    are stopped half-way, creates a file with other permissions; and what they leave behind when they succeed has exactly these *)
Definition owner_only : list Z := [8; 7].
Definition all_may_read : list Z := [8; 7; 5; 2].
Definition creates_only (ops : list fop) (umask : Z) (bits : list Z) : Prop :=
  forall dn s i m, crash ops dn -> In (OCreate s i m) dn -> grants m umask bits.
Definition leaves_at (f : fs) (ops : list fop) (dst : slot) (umask : Z) (bits : list Z) : Prop :=
  exists m, mode (run_ops f ops) dst = Some m /\ grants m umask bits.
Lemma write_file_leaves v m f dst b ov ops r : write_file v m f dst b ov = (ops, r) -> fresh v f dst ->
  (forall dn s i x, crash ops dn -> In (OCreate s i x) dn -> x = Z.ldiff m (se_umask v)) /\
  (r = Ok tt -> mode (run_ops f ops) dst = Some (Z.ldiff m (se_umask v))).
Proof.
  intros H F. split.
  - intros dn s i x Hc Hi. destruct (write_file_creates _ _ _ _ _ _ _ _ _ _ _ H (crash_creates _ _ _ _ _ Hc Hi)) as (_ & _ & ->). reflexivity.
  - intros ->. destruct (write_file_spec _ _ _ _ _ _ _ _ H) as [(_ & Ht & _)|(e & N & _)]; [|discriminate N]. inversion Ht as [| |m1 M1]; subst.
    destruct (write_file_creates _ _ _ _ _ _ _ _ _ _ _ H (or_introl eq_refl)) as (_ & _ & ->). destruct F as (A1 & _). unfold mode.
    assert (G : forall f' q i, f_node f' q = Some (NFile i) -> follow 40 f' q = Some i) by (intros f' q i Hq; cbn [follow]; rewrite Hq; reflexivity).
    erewrite G; [|cbn [run_ops fold_left do_op f_node]; repeat (rewrite upd_other by congruence); rewrite !upd_same; reflexivity].
    cbn [run_ops fold_left do_op f_mode]. rewrite upd_same. reflexivity.
Qed.
Theorem C75_library :
  forall C E v f dst comment ov, fresh v f dst -> let u := se_umask v in
  (forall sk pw g, let '(ops, r, _) := serialize_private C E v f dst sk comment ov pw g in
     creates_only ops u owner_only /\ (r = Ok tt -> leaves_at f ops dst u owner_only)) /\
  (forall pk, let '(ops, r) := serialize_public E v f dst pk comment ov in
     creates_only ops u all_may_read /\ (r = Ok tt -> leaves_at f ops dst u all_may_read)) /\
  (forall s, let '(ops, r) := serialize_signature E v f dst s comment ov in
     creates_only ops u all_may_read /\ (r = Ok tt -> leaves_at f ops dst u all_may_read)).
Proof.
  intros C E v f dst comment ov F u. unfold creates_only, leaves_at, owner_only, all_may_read.
  assert (PR : forall b bits m ops r, (forall i, 0 <= i -> Z.testbit m i = true <-> In i bits) -> write_file v m f dst b ov = (ops, r) ->
    (forall dn s i x, crash ops dn -> In (OCreate s i x) dn -> grants x u bits) /\
    (r = Ok tt -> exists x, mode (run_ops f ops) dst = Some x /\ grants x u bits)).
  { intros b bits m ops r HB H. destruct (write_file_leaves _ _ _ _ _ _ _ _ H F) as (A & B). split.
    - intros dn s i x Hc Hi. rewrite (A _ _ _ _ Hc Hi). apply grants_ldiff, HB.
    - intros Hr. eexists. split; [exact (B Hr)|]. apply grants_ldiff, HB. }
  split; [|split].
  - intros sk pw g. unfold serialize_private. destruct (marshal_private C E sk comment pw g) as [[b|e|p] g'].
    + destruct (write_file v (oct 6 0 0) f dst b ov) as [ops r] eqn:H. exact (PR _ _ _ _ _ owner_bits H).
    + split; [|discriminate]. intros dn s i m Hc Hi. destruct (crash_creates _ _ _ _ _ Hc Hi).
    + split; [|discriminate]. intros dn s i m Hc Hi. destruct (crash_creates _ _ _ _ _ Hc Hi).
  - intros pk. unfold serialize_public. destruct (write_file v (oct 6 4 4) f dst _ ov) as [ops r] eqn:H. exact (PR _ _ _ _ _ reader_bits H).
  - intros s. unfold serialize_signature. destruct (write_file v (oct 6 4 4) f dst _ ov) as [ops r] eqn:H. exact (PR _ _ _ _ _ reader_bits H).
Qed.
Print Assumptions C75_library.
(** both kinds of write go through in the town of CliScene *)
Example C75_library_instance :
  let K := wo_place town (str "new") in
  let '(ops, r, _) := serialize_private toy toyE sf1 (wo_fs town) K (new_private_key toy (repeat x00 32)) [] false (str "pw") (wo_rng town) in
  let '(ops', r') := serialize_signature toyE sf1 (wo_fs town) K (mkSig (repeat x00 64) (repeat x00 16)) [] false in
  fresh sf1 (wo_fs town) K /\ r = Ok tt /\ mode (run_ops (wo_fs town) ops) K = Some (oct 6 0 0) /\
  r' = Ok tt /\ mode (run_ops (wo_fs town) ops') K = Some (oct 6 4 4).
Proof.
  assert (Fr : fresh sf1 (wo_fs town) (wo_place town (str "new"))) by (apply town_fresh; vm_compute; congruence).
  cbv zeta. destruct (serialize_private _ _ _ _ _ _ _ _ _ _) as [[ops r] g] eqn:H1. destruct (serialize_signature _ _ _ _ _ _ _) as [ops' r'] eqn:H2.
  split; [exact Fr|]. vm_compute in H1. vm_compute in H2. injection H1 as <- <- _. injection H2 as <- <-.
  split; [reflexivity|]. split; [vm_compute; reflexivity|]. split; [reflexivity|]. vm_compute. reflexivity.
Qed.

(** "sigtool gen --overwrite ... a" in the town of CliScene, where a.key and a.pub are there, readable by everybody *)
Definition over_flags : flags := mkFlags (fun l => Options (mkMain false false l)) (fun _ => Options gen_over) (fun _ => Options sign1) (fun l => Options (false, l)) (fun _ => Options enc1) (fun _ => Quit 2).
Lemma over_runs c args : runs over_flags [str "gen"] c args -> c = Generate.
Proof. intros (o & a & X & _ & _ & Y & Z). injection X as <-. cbn [mo_args] in Y. injection Y as <- _. exact (gen_only c Z). Qed.
Lemma over_asked n : asked town over_flags [str "gen"] n -> n = str "a.key" \/ n = str "a.pub".
Proof.
  intros H. destruct H as [args o bn rest R G A|args o bn rest R G A|args o kn fn rest R|args o R|args o R]; try (apply over_runs in R; discriminate R).
  - injection G as <-. injection A as <- _. left. vm_compute. reflexivity.
  - injection G as <-. injection A as <- _. right. vm_compute. reflexivity.
Qed.
Example C75_instance :
  let x := main toy toyE town over_flags sf1 sf2 [str "gen"] in
  let K := wo_place town (str "a.key") in let Q := wo_place town (str "a.pub") in
  x_code x = 0 /\ secret town over_flags [str "gen"] sf1 (wo_fs town) K /\ mode (wo_fs town) K = Some (oct 6 4 4) /\
  mode (run_ops (wo_fs town) (x_ops x)) K = Some (oct 6 0 0) /\ mode (run_ops (wo_fs town) (x_ops x)) Q = Some (oct 6 4 4) /\
  (forall dn f', crash (x_ops x) dn -> f' = run_ops (wo_fs town) dn \/ survives (wo_fs town) dn f' ->
   forall m, mode f' K = Some m -> same_file (wo_fs town) f' K \/ m = oct 6 0 0).
Proof.
  cbv zeta. split; [vm_compute; reflexivity|].
  assert (SK : secret town over_flags [str "gen"] sf1 (wo_fs town) (wo_place town (str "a.key"))).
  { apply (se_key town over_flags [str "gen"] sf1 (wo_fs town) [] gen_over (str "a") []); [|reflexivity|reflexivity|constructor].
    exists (mkMain false false [str "gen"]), (str "gen"). split; [reflexivity|]. split; [reflexivity|]. split; [reflexivity|]. split; [reflexivity|]. apply stands_iff. split; [discriminate|]. exists (str "erate"). reflexivity. }
  split; [exact SK|]. split; [vm_compute; reflexivity|]. split; [vm_compute; reflexivity|]. split; [vm_compute; reflexivity|].
  intros dn f' Hc Hs m Hm. destruct (C75_permissions toy toyE town over_flags sf1 sf2 [str "gen"]) with (dn := dn) (f' := f') (q := wo_place town (str "a.key")) (m := m) as [H|[(H & _)|(H & _)]]; [| | | | | | | | |left; exact H|right; rewrite H; reflexivity|contradiction (H SK)].
  - intros n Hn. apply over_asked in Hn. destruct Hn as [->| ->]; (split; apply town_fresh; vm_compute; congruence).
  - discriminate.
  - discriminate.
  - intros bn A1 A2 Ld. apply dir_leads in Ld. revert Ld. apply over_asked in A1, A2.
    assert (T : forall s, (s ++ str ".key" = str "a.key" -> s ++ str ".pub" = str "a.pub" -> wo_place town (s ++ str ".pub") <> wo_place town (s ++ str ".key"))).
    { intros s S1 S2. rewrite S1, S2. vm_compute. discriminate. }
    assert (R : forall s t u : bytes, s ++ t = u -> exists r, rev u = rev t ++ r) by (intros s t u <-; exists (rev s); apply rev_app_distr).
    destruct A1 as [A1|A1]; [|apply R in A1; destruct A1 as (r & A1); discriminate A1]. destruct A2 as [A2|A2]; [apply R in A2; destruct A2 as (r & A2); discriminate A2|]. exact (T _ A1 A2).
  - vm_compute. reflexivity.
  - vm_compute. reflexivity.
  - exact Hc.
  - exact Hs.
  - exact Hm.
Qed.
