(** Proofs about SafeFile traces. *)
From Verif Require Import Bytes BytesLemmas GoErr GoIO SpecIO IOProofs Support Fs SpecFs.
Require Import ZifyBool.
Local Notation length := List.length.

Lemma upd_same {A} (f : Z -> A) k v : upd_at f k v k = v.
Proof. unfold upd_at. rewrite Z.eqb_refl. reflexivity. Qed.
Lemma upd_other {A} (f : Z -> A) k v x : x <> k -> upd_at f k v x = f x.
Proof. intros H. unfold upd_at. destruct (Z.eqb_spec x k); [contradiction|reflexivity]. Qed.

(** ** states of a file system during one SafeFile *)
(** nothing but the temporary entry differs *)
Record like (v : sf_env) (f f' : fs) : Prop := {
  lk_node : forall s, s <> se_tmp v -> f_node f' s = f_node f s;
  lk_data : forall s i, f_node f s = Some (NFile i) -> f_data f' i = f_data f i }.
(** the destination is the new inode *)
Record swapped (v : sf_env) (dst : slot) (b : bytes) (f f' : fs) : Prop := {
  sw_node : forall s, s <> se_tmp v -> s <> dst -> f_node f' s = f_node f s;
  sw_dst : f_node f' dst = Some (NFile (se_ino v));
  sw_new : f_data f' (se_ino v) = b;
  sw_data : forall s i, f_node f s = Some (NFile i) -> f_data f' i = f_data f i }.

Lemma follow_like v f f' dst : fresh v f dst -> like v f f' -> forall n q, q <> se_tmp v -> follow n f' q = follow n f q.
Proof.
  intros (_ & _ & Hl & _) [Hn _]. induction n as [|n IH]; intros q Hq; cbn [follow]; rewrite Hn by exact Hq;
    destruct (f_node f q) as [[i|t]|] eqn:E; try reflexivity.
  apply IH. intros ->. exact (Hl _ E).
Qed.
Lemma follow_file f n q i : follow n f q = Some i -> exists s, f_node f s = Some (NFile i).
Proof.
  revert q. induction n as [|n IH]; intros q; cbn [follow]; destruct (f_node f q) as [[j|t]|] eqn:E; try discriminate.
  - intros H. injection H as <-. eauto.
  - intros H. injection H as <-. eauto.
  - apply IH.
Qed.
Lemma like_unchanged v f f' dst : fresh v f dst -> like v f f' -> unchanged v f f'.
Proof.
  intros Hf Hk q Hq. unfold content. rewrite (follow_like v f f' dst Hf Hk 40 q Hq). destruct (follow 40 f q) as [i|] eqn:E; [|reflexivity].
  destruct (follow_file _ _ _ _ E) as (s & Hs). rewrite (lk_data _ _ _ Hk s i Hs). reflexivity.
Qed.
Lemma follow_swapped v f f' dst b : fresh v f dst -> swapped v dst b f f' -> forall n q, q <> se_tmp v -> ~ leads f dst q -> follow n f' q = follow n f q.
Proof.
  intros (_ & _ & Hl & _) Hs. induction n as [|n IH]; intros q Hq Hd; cbn [follow];
    rewrite (sw_node _ _ _ _ _ Hs) by (exact Hq || (intros ->; apply Hd; constructor)); destruct (f_node f q) as [[i|t]|] eqn:E; try reflexivity.
  apply IH; [intros ->; exact (Hl _ E)|]. intros H. apply Hd. econstructor; eauto.
Qed.
Lemma swapped_replaced v f f' dst b : fresh v f dst -> swapped v dst b f f' -> replaced v dst b f f'.
Proof.
  intros Hf Hs. split.
  - unfold content. cbn [follow]. rewrite (sw_dst _ _ _ _ _ Hs), (sw_new _ _ _ _ _ Hs). reflexivity.
  - intros q Hq Hd. unfold content. rewrite (follow_swapped v f f' dst b Hf Hs 40 q Hq Hd). destruct (follow 40 f q) as [i|] eqn:E; [|reflexivity].
    destruct (follow_file _ _ _ _ E) as (s & Hi). rewrite (sw_data _ _ _ _ _ Hs s i Hi). reflexivity.
Qed.

(** ** crash points *)
Lemma crash_prefix ops dn : crash ops dn -> exists k, dn = firstn k ops \/
  exists i d1 d2, nth_error ops k = Some (OAppend i (d1 ++ d2)) /\ dn = firstn k ops ++ [OAppend i d1].
Proof.
  intros [a b|a i d1 d2 b].
  - exists (length a). left. rewrite firstn_app, Nat.sub_diag, firstn_all. cbn. rewrite app_nil_r. reflexivity.
  - exists (length a). right. exists i, d1, d2. split; [rewrite nth_error_app2 by lia; rewrite Nat.sub_diag; reflexivity|].
    rewrite firstn_app, Nat.sub_diag, firstn_all. cbn. rewrite app_nil_r. reflexivity.
Qed.

Lemma crash_nil dn : crash [] dn -> dn = [].
Proof. intros H. destruct (crash_prefix _ _ H) as (k & [->|(i & d1 & d2 & N & _)]); [apply firstn_nil|destruct k; discriminate N]. Qed.

(** a SafeFile's system calls: begun, perhaps synced, perhaps finished *)
Inductive trace (v : sf_env) (dst : slot) (b : bytes) : list fop -> bool -> Prop :=
| tr_abort m : trace v dst b [OCreate (se_tmp v) (se_ino v) m; OAppend (se_ino v) b; ORemove (se_tmp v)] false
| tr_abort_synced m : trace v dst b [OCreate (se_tmp v) (se_ino v) m; OAppend (se_ino v) b; OSync (se_ino v); ORemove (se_tmp v)] false
| tr_commit m : trace v dst b [OCreate (se_tmp v) (se_ino v) m; OAppend (se_ino v) b; OSync (se_ino v); ORename (se_tmp v) dst] true.
Definition committed (v : sf_env) (w : writer) : bool :=
  (0 <? w_nclosed w) && negb (write_failed v w) && match close_err v with None => true | Some _ => false end.
Lemma sf_ops_trace v m dst w : trace v dst (w_out w) (sf_ops v m dst w) (committed v w).
Proof.
  unfold sf_ops, committed, close_err. destruct ((0 <? w_nclosed w) && negb (write_failed v w)); cbn [andb]; [|constructor].
  destruct (se_sync v); [constructor|]. destruct (se_close v); [constructor|]. destruct (se_rename v); constructor.
Qed.

(** the stages a SafeFile goes through; what is on disk after each *)
Inductive stage (v : sf_env) (dst : slot) (b : bytes) : list fop -> Prop :=
| st_0 : stage v dst b []
| st_1 m : stage v dst b [OCreate (se_tmp v) (se_ino v) m]
| st_2 m d e : b = d ++ e -> stage v dst b [OCreate (se_tmp v) (se_ino v) m; OAppend (se_ino v) d]
| st_3 m : stage v dst b [OCreate (se_tmp v) (se_ino v) m; OAppend (se_ino v) b; OSync (se_ino v)]
| st_all ops c : trace v dst b ops c -> stage v dst b ops.
Lemma crash_stage v dst b ops c dn : trace v dst b ops c -> crash ops dn -> stage v dst b dn.
Proof.
  intros Ht Hc. pose proof Ht as Ht'. destruct (crash_prefix _ _ Hc) as (k & [->|(i & d1 & d2 & Hn & ->)]).
  - inversion Ht; subst; destruct k as [|[|[|[|k]]]]; cbn [firstn]; try constructor;
      try (eapply st_2; symmetry; apply app_nil_r); try (eapply st_all; constructor).
    all: rewrite firstn_nil; eapply st_all; constructor.
  - inversion Ht; subst; destruct k as [|[|[|[|[|k]]]]]; cbn in Hn; try discriminate Hn; injection Hn as <- Hb; subst b; cbn [firstn app]; eapply st_2; reflexivity.
Qed.

Lemma node_simpl f ops : forall s, f_node (run_ops f (filter dir_op ops)) s = f_node (run_ops f ops) s.
Proof.
  assert (G : forall ops f g, (forall s, f_node f s = f_node g s) -> forall s, f_node (run_ops f (filter dir_op ops)) s = f_node (run_ops g ops) s).
  { clear. induction ops as [|o ops IH]; intros f g H s; cbn [filter run_ops fold_left]; [apply H|].
    destruct o as [x i m|i d|i|x y|x]; cbn [dir_op]; try (apply IH; intros; cbn [do_op f_node]; apply H);
    apply (IH (do_op f _) (do_op g _)); intros q; cbn [do_op f_node]; unfold upd_at; rewrite ?H; reflexivity. }
  apply G. reflexivity.
Qed.
Lemma survives_run f ops : survives f ops (run_ops f ops).
Proof.
  split; [|split; reflexivity]. exists (length (filter dir_op ops)). intros s. rewrite firstn_all. symmetry. apply node_simpl.
Qed.

Lemma settled_other ops i : (forall d, ~ In (OAppend i d) ops) -> settled ops i.
Proof. intros H a d b E. exfalso. apply (H d). rewrite E. apply in_or_app. right. left. reflexivity. Qed.
Lemma data_other ops f i : (forall d, ~ In (OAppend i d) ops) -> (forall s m, ~ In (OCreate s i m) ops) -> f_data (run_ops f ops) i = f_data f i.
Proof.
  revert f. induction ops as [|o ops IH]; intros f H1 H2; [reflexivity|]. cbn [run_ops fold_left]. change (fold_left do_op ops (do_op f o)) with (run_ops (do_op f o) ops).
  rewrite IH; [|intros d Hd; apply (H1 d); right; exact Hd|intros s m Hs; apply (H2 s m); right; exact Hs].
  destruct o as [x j m|j d|j|x y|x]; cbn [do_op f_data]; try reflexivity; apply upd_other; intros ->.
  - apply (H2 x m). left. reflexivity.
  - apply (H1 d). left. reflexivity.
Qed.
Lemma run_app f a b : run_ops f (a ++ b) = run_ops (run_ops f a) b.
Proof. apply fold_left_app. Qed.

(** node changes of a stage *)
Lemma stage_nodes v dst b dn k f : stage v dst b dn -> se_tmp v <> dst ->
  let f' := run_ops f (firstn k (filter dir_op dn)) in
  (forall s, s <> se_tmp v -> f_node f' s = f_node f s) \/
  ((forall s, s <> se_tmp v -> s <> dst -> f_node f' s = f_node f s) /\ f_node f' dst = Some (NFile (se_ino v)) /\
   (exists m, dn = [OCreate (se_tmp v) (se_ino v) m; OAppend (se_ino v) b; OSync (se_ino v); ORename (se_tmp v) dst]) /\ (2 <= k)%nat).
Proof.
  intros H Ht. cbv zeta. inversion H as [|m|m d e E|m|ops c Htr]; subst; [| | | |inversion Htr; subst]; cbn [filter dir_op];
    destruct k as [|[|k]]; cbn [firstn run_ops fold_left do_op f_node]; rewrite ?firstn_nil; cbn [fold_left do_op f_node];
    try (left; intros s Hs; rewrite ?upd_other by exact Hs; reflexivity).
  right. split; [|split; [|split; [eexists; reflexivity|lia]]].
  - intros s H1 H2. rewrite !upd_other by assumption. reflexivity.
  - rewrite upd_other by congruence. rewrite upd_same. rewrite upd_same. reflexivity.
Qed.

Lemma stage_only v dst b dn : stage v dst b dn -> forall o, In o dn -> match o with
  | OCreate s i _ => s = se_tmp v /\ i = se_ino v | OAppend i _ => i = se_ino v | OSync i => i = se_ino v | ORename a c => a = se_tmp v /\ c = dst | ORemove s => s = se_tmp v end.
Proof.
  intros H o Hi. inversion H as [|m|m d e E|m|ops c Htr]; subst; [| | | |inversion Htr; subst]; cbn in Hi;
    repeat (destruct Hi as [<-|Hi]; [cbn; auto|]); contradiction.
Qed.
Lemma stage_data v dst b dn f i : stage v dst b dn -> i <> se_ino v -> settled dn i /\ f_data (run_ops f dn) i = f_data f i.
Proof.
  intros H Hi. assert (N : forall d, ~ In (OAppend i d) dn) by (intros d Hd; apply (stage_only _ _ _ _ H) in Hd; contradiction).
  split; [apply settled_other; exact N|]. apply data_other; [exact N|]. intros s m Hs. apply (stage_only _ _ _ _ H) in Hs. destruct Hs. contradiction.
Qed.
Lemma commit_data v dst b m f : let dn := [OCreate (se_tmp v) (se_ino v) m; OAppend (se_ino v) b; OSync (se_ino v); ORename (se_tmp v) dst] in
  settled dn (se_ino v) /\ f_data (run_ops f dn) (se_ino v) = b.
Proof.
  cbv zeta. split.
  - intros a d c E. destruct a as [|o1 [|o2 [|o3 [|o4 a]]]]; cbn in E; try discriminate E.
    + injection E as _ _ <-. left. reflexivity.
    + destruct a; discriminate E.
  - cbn [run_ops fold_left do_op f_data]. rewrite upd_same, upd_same. reflexivity.
Qed.

(** ** atomicity *)
Theorem stage_atomic v dst b dn f f' : fresh v f dst -> stage v dst b dn -> survives f dn f' -> like v f f' \/ swapped v dst b f f'.
Proof.
  intros Hf Hs ((k & Hn) & Hd & _). pose proof Hf as (Ht & Hv & Hl & Hi).
  assert (D : forall s i, f_node f s = Some (NFile i) -> f_data f' i = f_data f i).
  { intros s i E. assert (i <> se_ino v) by (intros ->; exact (Hi _ E)). destruct (stage_data v dst b dn f i Hs) as (A & B); [assumption|]. rewrite Hd by exact A. exact B. }
  destruct (stage_nodes v dst b dn k f Hs Ht) as [A|(A & B & (m & E) & _)].
  - left. constructor; [|exact D]. intros s Hx. rewrite Hn. apply A. exact Hx.
  - right. subst dn. destruct (commit_data v dst b m f) as (S1 & S2). constructor.
    + intros s H1 H2. rewrite Hn. apply A; assumption.
    + rewrite Hn. exact B.
    + rewrite Hd by exact S1. exact S2.
    + exact D.
Qed.
Lemma trace_end v dst b ops c f : fresh v f dst -> trace v dst b ops c ->
  if c then swapped v dst b f (run_ops f ops) else like v f (run_ops f ops).
Proof.
  intros Hf Ht. pose proof (st_all _ _ _ _ _ Ht) as Hs. destruct (stage_atomic v dst b ops f _ Hf Hs (survives_run f ops)) as [A|A].
  - destruct c; [|exact A]. exfalso. inversion Ht; subst. pose proof (lk_node _ _ _ A dst ltac:(destruct Hf; congruence)) as E.
    cbn [run_ops fold_left do_op f_node] in E. rewrite upd_other in E by (destruct Hf; congruence). rewrite upd_same, upd_same in E.
    destruct Hf as (_ & _ & _ & Hi). apply (Hi dst). congruence.
  - destruct c; [exact A|]. exfalso. pose proof (sw_dst _ _ _ _ _ A) as E. inversion Ht; subst; cbn [run_ops fold_left do_op f_node] in E;
    rewrite !upd_other in E by (destruct Hf; congruence); destruct Hf as (_ & _ & _ & Hi); exact (Hi _ E).
Qed.

Lemma crash_rename ops dn a c : crash ops dn -> In (ORename a c) dn -> In (ORename a c) ops.
Proof.
  intros [x y|x i d1 d2 y] H; [apply in_or_app; left; exact H|]. apply in_app_or in H. apply in_or_app. destruct H as [H|[H|[]]]; [left; exact H|discriminate H].
Qed.
Lemma abort_like v dst d ops dn f f' : fresh v f dst -> trace v dst d ops false -> crash ops dn -> survives f dn f' -> like v f f'.
Proof.
  intros Hf Ht Hc Hs. pose proof (crash_stage _ _ _ _ _ _ Ht Hc) as Hg. destruct (stage_atomic _ _ _ _ _ _ Hf Hg Hs) as [A|A]; [exact A|].
  destruct Hs as ((k & Hn) & Hd & _). destruct (stage_nodes v dst d dn k f Hg (proj1 Hf)) as [B|(B & C & (m & E) & _)].
  - exfalso. pose proof (sw_dst _ _ _ _ _ A) as E. rewrite Hn, B in E by (destruct Hf; congruence). destruct Hf as (_ & _ & _ & Hi). exact (Hi _ E).
  - exfalso. subst dn. pose proof (crash_rename _ _ (se_tmp v) dst Hc ltac:(cbn; tauto)) as H. inversion Ht; subst; cbn in H; intuition discriminate.
Qed.

(** ** writeFile *)
Lemma nth_used {A} (used rest : list A) : firstn (length (used ++ rest) - length rest) (used ++ rest) = used.
Proof. rewrite app_length. replace (length used + length rest - length rest)%nat with (length used) by lia. rewrite firstn_app, Nat.sub_diag, firstn_all. cbn. apply app_nil_r. Qed.
Lemma clean_not_failed v w : clean (sf_sink v) w -> write_failed v w = false.
Proof.
  intros (used & E & F). unfold write_failed. cbn [sf_sink w_sched] in E. rewrite E, nth_used.
  destruct (existsb _ used) eqn:X; [|reflexivity]. apply existsb_exists in X. destruct X as (p & Hp & Hs). rewrite Forall_forall in F. rewrite (F p Hp) in Hs. discriminate Hs.
Qed.
Lemma fullwrite_closes buf w err w' : fullwrite buf w = (err, w') -> w_closes w' = w_closes w /\ w_nclosed w' = w_nclosed w.
Proof. unfold fullwrite. destruct (fullwrite_loop _ _ _) as [[e o] s]. intros H. injection H as <- <-. split; reflexivity. Qed.
Lemma write_file_spec v m f dst b ov ops r : write_file v m f dst b ov = (ops, r) ->
  (r = Ok tt /\ trace v dst b ops true /\ (ov = true \/ content f dst = None)) \/
  (exists e, r = Fail e /\ (ops = [] \/ exists d, trace v dst d ops false)).
Proof.
  unfold write_file. intros H.
  assert (Hop : safe_open v f dst ov = Ok tt /\ (ov = true \/ content f dst = None) \/ exists e, safe_open v f dst ov = Fail e).
  { unfold safe_open. destruct (content f dst), ov, (se_open v); eauto. }
  destruct Hop as [(Ho & Hov)|(e & Ho)]; rewrite Ho in H; [|injection H as <- <-; right; eauto].
  destruct (fullwrite b (sf_sink v)) as [[e|] w] eqn:Ew.
  - injection H as <- <-. right. exists e. split; [reflexivity|]. right. exists (w_out w). pose proof (sf_ops_trace v m dst w) as T.
    unfold committed in T. destruct (fullwrite_closes _ _ _ _ Ew) as (_ & Hn). rewrite Hn in T. cbn in T. exact T.
  - destruct (fullwrite_closes _ _ _ _ Ew) as (Hc & Hn). destruct (fullwrite_None _ _ _ Ew) as (Ho' & _). pose proof (fullwrite_clean _ _ _ Ew) as Hcl. unfold w_close in H. rewrite Hc in H. cbn [sf_sink w_closes] in H.
    assert (Hnf : forall a c d, write_failed v (mkWriter a (w_sched w) c d) = false) by (intros; apply clean_not_failed in Hcl; exact Hcl).
    set (w' := mkWriter (w_out w) (w_sched w) [Some ErrClosed] (w_nclosed w + 1)) in H.
    pose proof (sf_ops_trace v m dst w') as T. unfold committed in T. change (write_failed v w') with (write_failed v (mkWriter (w_out w) (w_sched w) [Some ErrClosed] (w_nclosed w + 1))) in T.
    rewrite Hnf in T. replace (0 <? w_nclosed w') with true in T by (cbn; rewrite Hn; reflexivity). cbn [andb negb] in T.
    destruct (close_err v) as [e|] eqn:Ee.
    + injection H as <- <-. right. exists e. split; [reflexivity|]. right. eauto.
    + injection H as <- <-. left. split; [reflexivity|]. split; [|exact Hov]. change (w_out w') with (w_out w) in T. rewrite Ho' in T. exact T.
Qed.

(** ** one SafeFile after another *)
Lemma crash_app a b dn : crash (a ++ b) dn -> crash a dn \/ exists dn2, dn = a ++ dn2 /\ crash b dn2.
Proof.
  intros H. remember (a ++ b) as c eqn:Ec. destruct H as [x y|x i d1 d2 y].
  - symmetry in Ec. apply app_eq_app in Ec. destruct Ec as (l & [(-> & ->)|(-> & ->)]).
    + left. constructor.
    + right. exists l. split; [reflexivity|]. constructor.
  - symmetry in Ec. apply app_eq_app in Ec. destruct Ec as (l & [(-> & E)|(-> & ->)]).
    + destruct l as [|o l].
      * cbn in E. subst b. right. exists [OAppend i d1]. split; [rewrite app_nil_r; reflexivity|]. apply (cr_within []).
      * injection E as <- ->. left. apply cr_within.
    + right. exists (l ++ [OAppend i d1]). split; [rewrite app_assoc; reflexivity|]. apply cr_within.
Qed.
Lemma settled_app a b i : settled a i -> settled b i -> settled (a ++ b) i.
Proof.
  intros Ha Hb x d y E. apply app_eq_app in E. destruct E as (l & [(-> & E)|(-> & E)]).
  - destruct l as [|o l]; [cbn in E; apply (Hb [] d y); symmetry; exact E|]. injection E as <- ->. apply in_or_app. left. apply (Ha x d l). reflexivity.
  - apply (Hb l d y). exact E.
Qed.
Lemma nodes_ext ops : forall f g, (forall s, f_node f s = f_node g s) -> forall s, f_node (run_ops f ops) s = f_node (run_ops g ops) s.
Proof.
  induction ops as [|o ops IH]; intros f g H s; cbn [run_ops fold_left]; [apply H|].
  apply (IH (do_op f o) (do_op g o)). intros q. destruct o; cbn [do_op f_node]; unfold upd_at; rewrite ?H; reflexivity.
Qed.
Lemma survives_app f a b f' : survives f (a ++ b) f' -> (forall i, settled a i) ->
  (exists k, (forall s, f_node f' s = f_node (run_ops f (firstn k (filter dir_op a))) s) /\
     forall i, settled b i -> f_data f' i = f_data (run_ops f (a ++ b)) i) \/
  survives (run_ops f a) b f'.
Proof.
  intros ((k & Hn) & Hd & Hm) Ha. rewrite filter_app, firstn_app in Hn. set (fa := filter dir_op a) in *.
  destruct (Nat.leb_spec k (length fa)) as [L|L].
  - left. exists k. split.
    + intros s. rewrite Hn. replace (k - length fa)%nat with 0%nat by lia. cbn [firstn]. rewrite app_nil_r. reflexivity.
    + intros i Hi. apply Hd. apply settled_app; auto.
  - right. split; [|split].
    + exists (k - length fa)%nat. intros s. rewrite Hn, firstn_all2 by lia. rewrite run_app. apply nodes_ext. intros q. apply node_simpl.
    + intros i Hi. rewrite Hd by (apply settled_app; auto). rewrite run_app. reflexivity.
    + intros i. rewrite Hm, run_app. reflexivity.
Qed.
Lemma commit_settled v dst b m i : settled [OCreate (se_tmp v) (se_ino v) m; OAppend (se_ino v) b; OSync (se_ino v); ORename (se_tmp v) dst] i.
Proof.
  destruct (Z.eq_dec i (se_ino v)) as [->|N]; [apply (commit_data v dst b m (mkFs (fun _ => None) (fun _ => []) (fun _ => 0)))|].
  apply (stage_data v dst b _ (mkFs (fun _ => None) (fun _ => []) (fun _ => 0)) i); [eapply st_all; constructor|exact N].
Qed.

Definition commit_ops (v : sf_env) (m : Z) (dst : slot) (b : bytes) : list fop :=
  [OCreate (se_tmp v) (se_ino v) m; OAppend (se_ino v) b; OSync (se_ino v); ORename (se_tmp v) dst].
Lemma commit_nodes v m dst b f s : f_node (run_ops f (commit_ops v m dst b)) s =
  if s =? se_tmp v then None else if s =? dst then Some (NFile (se_ino v)) else f_node f s.
Proof. cbn [commit_ops run_ops fold_left do_op f_node]. unfold upd_at. rewrite Z.eqb_refl. destruct (s =? se_tmp v) eqn:E1, (s =? dst) eqn:E2; reflexivity. Qed.
Lemma fresh_after v1 v2 m f d1 d2 b : fresh v1 f d1 -> fresh v2 f d2 -> se_tmp v2 <> d1 -> se_tmp v1 <> se_tmp v2 -> se_ino v1 <> se_ino v2 ->
  fresh v2 (run_ops f (commit_ops v1 m d1 b)) d2.
Proof.
  intros (A1 & A2 & A3 & A4) (B1 & B2 & B3 & B4) H1 H2 H3. split; [exact B1|]. split; [|split].
  - rewrite commit_nodes. destruct (Z.eqb_spec (se_tmp v2) (se_tmp v1)); [congruence|]. destruct (Z.eqb_spec (se_tmp v2) d1); [congruence|exact B2].
  - intros s. rewrite commit_nodes. destruct (s =? se_tmp v1); [discriminate|]. destruct (s =? d1); [discriminate|apply B3].
  - intros s. rewrite commit_nodes. destruct (s =? se_tmp v1); [discriminate|]. destruct (s =? d1); [congruence|apply B4].
Qed.
(** links that led through the first destination, seen afterwards *)
Lemma leads_after v m f d1 d2 b q : fresh v f d1 -> d1 <> d2 -> leads (run_ops f (commit_ops v m d1 b)) d2 q -> leads f d2 q.
Proof.
  intros (A1 & A2 & A3 & A4) Hd H. induction H as [|q t Hn _ IH]; [constructor|]. rewrite commit_nodes in Hn.
  destruct (q =? se_tmp v); [discriminate|]. destruct (q =? d1); [discriminate|]. econstructor; eauto.
Qed.

(** ** two files *)
Section Two.
  Variables (v1 v2 : sf_env) (f : fs) (K P : slot) (kt pt : bytes) (m : Z).
  Hypotheses (HKP : K <> P) (HL : ~ leads f K P) (F1 : fresh v1 f K) (F2 : fresh v2 f P) (T1 : se_tmp v1 <> P) (T2 : se_tmp v2 <> K)
    (T12 : se_tmp v1 <> se_tmp v2) (I12 : se_ino v1 <> se_ino v2).
  Let f1 := run_ops f (commit_ops v1 m K kt).
  Definition two_states (f' : fs) : Prop :=
    (content f' K = content f K \/ content f' K = Some kt) /\ (content f' P = content f P \/ content f' P = Some pt /\ content f' K = Some kt) /\
    (forall q, q <> se_tmp v1 -> q <> se_tmp v2 -> ~ leads f K q -> ~ leads f P q -> content f' q = content f q).
  Lemma F2' : fresh v2 f1 P. Proof. apply fresh_after; assumption. Qed.
  Lemma S1 : swapped v1 K kt f f1. Proof. exact (trace_end v1 K kt _ true f F1 (tr_commit _ _ _ _)). Qed.
  Lemma like1 f' : like v1 f f' -> two_states f'.
  Proof.
    intros H. pose proof (like_unchanged _ _ _ _ F1 H) as U. split; [left; apply U; destruct F1; congruence|]. split; [left; apply U; congruence|].
    intros q Hq _ _ _. apply U. exact Hq.
  Qed.
  Lemma swapped1 f' : swapped v1 K kt f f' -> two_states f'.
  Proof.
    intros H. destruct (swapped_replaced _ _ _ _ _ F1 H) as (A & B). split; [right; exact A|]. split; [left; apply B; [congruence|exact HL]|].
    intros q Hq _ Hk _. apply B; assumption.
  Qed.
  Lemma K_alone : ~ leads f1 P K.
  Proof.
    intros H. inversion H as [E|q t Hn _ E]; [congruence|]. subst q. unfold f1 in Hn. rewrite commit_nodes in Hn.
    destruct (K =? se_tmp v1); [discriminate|]. rewrite Z.eqb_refl in Hn. discriminate.
  Qed.
  Lemma like2 f' : like v2 f1 f' -> two_states f' /\ content f' K = Some kt /\ content f' P = content f P.
  Proof.
    intros H. pose proof (like_unchanged _ _ _ _ F2' H) as U. pose proof (swapped1 f1 S1) as (_ & _ & Q).
    destruct (swapped_replaced _ _ _ _ _ F1 S1) as (A & B).
    assert (EP : content f1 P = content f P) by (apply B; [congruence|exact HL]).
    assert (EK : content f' K = Some kt) by (rewrite U by congruence; exact A).
    assert (EP' : content f' P = content f P) by (rewrite U by (destruct F2; congruence); exact EP).
    split; [|split; [exact EK|exact EP']]. split; [right; exact EK|]. split; [left; exact EP'|].
    intros q H1 H2 H3 H4. rewrite U by exact H2. apply Q; assumption.
  Qed.
  Lemma swapped2 f' : swapped v2 P pt f1 f' -> two_states f' /\ content f' K = Some kt /\ content f' P = Some pt.
  Proof.
    intros H. destruct (swapped_replaced _ _ _ _ _ F2' H) as (X & Y). destruct (swapped_replaced _ _ _ _ _ F1 S1) as (A & B).
    assert (EK : content f' K = Some kt) by (rewrite Y by (congruence || apply K_alone); exact A).
    split; [|split; [exact EK|exact X]]. split; [right; exact EK|]. split; [right; split; assumption|].
    intros q H1 H2 H3 H4. rewrite Y; [apply B; assumption|exact H2|]. intros L. apply H4. exact (leads_after v1 m f K P kt q F1 HKP L).
  Qed.

  (** crash states of: first file committed, then [ops2] of the second *)
  Lemma two_crash ops2 c dn f' : (ops2 = [] \/ exists d, trace v2 P d ops2 c /\ (c = true -> d = pt)) ->
    crash (commit_ops v1 m K kt ++ ops2) dn -> survives f dn f' -> two_states f'.
  Proof.
    intros H2 Hc Hs. apply crash_app in Hc. destruct Hc as [Hc|(dn2 & -> & Hc)].
    - destruct (stage_atomic v1 K kt dn f f' F1 (crash_stage _ _ _ _ _ _ (tr_commit v1 K kt m) Hc) Hs) as [A|A]; [apply like1|apply swapped1]; exact A.
    - apply survives_app in Hs; [|apply commit_settled]. fold f1 in Hs.
      assert (G2 : exists d, stage v2 P d dn2).
      { destruct H2 as [->|(d & Ht & _)]; [apply crash_nil in Hc; subst; exists []; constructor|exists d; eapply crash_stage; eauto]. }
      destruct G2 as (d2 & G2). destruct Hs as [(k & Hn & Hd)|Hs].
      + pose proof (st_all _ _ _ _ _ (tr_commit v1 K kt m)) as G1.
        assert (D1 : forall i, i <> se_ino v2 -> f_data f' i = f_data f1 i).
        { intros i Hi. destruct (stage_data v2 P d2 dn2 f1 i G2 Hi) as (A & B). rewrite Hd by exact A. rewrite run_app. exact B. }
        assert (D0 : forall s i, f_node f s = Some (NFile i) -> f_data f' i = f_data f i).
        { intros s i E. rewrite D1 by (intros ->; destruct F2 as (_ & _ & _ & X); exact (X _ E)). exact (sw_data _ _ _ _ _ S1 s i E). }
        destruct (stage_nodes v1 K kt (commit_ops v1 m K kt) k f G1 (proj1 F1)) as [A|(A & B & _)].
        * apply like1. constructor; [|exact D0]. intros s X. rewrite Hn. apply A. exact X.
        * apply swapped1. constructor.
          -- intros s X Y. rewrite Hn. apply A; assumption.
          -- rewrite Hn. exact B.
          -- rewrite D1 by congruence. exact (sw_new _ _ _ _ _ S1).
          -- exact D0.
      + destruct H2 as [->|(d & Ht & Hd)].
        * apply crash_nil in Hc. subst dn2. apply like2.
          destruct Hs as ((k & Hn) & Hd & _). constructor; [intros s Hx; rewrite Hn; cbn; rewrite firstn_nil; reflexivity|].
          intros s i _. apply Hd. intros a d c0 E. destruct a; discriminate E.
        * destruct c.
          -- specialize (Hd eq_refl). subst d. destruct (stage_atomic v2 P pt dn2 f1 f' F2' (crash_stage _ _ _ _ _ _ Ht Hc) Hs) as [A|A]; [apply like2|apply swapped2]; exact A.
          -- apply like2. eapply abort_like; eauto. apply F2'.
  Qed.
End Two.
