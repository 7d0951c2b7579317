(** C77: several runs of sigtool at the same time.  C78: without --overwrite. *)
From Verif Require Import Bytes BytesLemmas GoErr GoIO SpecIO IOProofs Support Pb SpecPb Crypto CryptoLaws Keys Sign SpecSign Encrypt Decrypt Spec
  KeyFiles ExtLaws Base64 GoText TextProofs Ssh SpecSsh Fs SpecFs FsProofs Store Cli Main SpecCli CliProofs Toy Scene ToyExt Thm_Files CliScene Thm_Cli Thm_Commands Thm_Main Thm_Pipe Thm_Touch Thm_Modes.
Require Import ZifyBool.
Ltac Zify.zify_post_hook ::= Z.div_mod_to_equations.
Local Notation length := List.length.

(** ** Specification *)
(** One run of sigtool: what it finds in the world (its file system is the one the run sees, which may be any, as others change it meanwhile), what
    the system answers to its SafeFiles, its command line.  Simplification: a run sees the files as they are at one moment. *)
Record process : Type := mkProc { p_world : world; p_sf1 : sf_env; p_sf2 : sf_env; p_argv : list bytes }.
Definition system_calls (C : crypto) (E : ext) (P : flags) (p : process) : list fop :=
  x_ops (main C E (p_world p) P (p_sf1 p) (p_sf2 p) (p_argv p)).
(** A schedule: which run made which system call, one after the other *)
Definition schedule : Type := list (nat * fop).
Definition calls_of (k : nat) (sched : schedule) : list fop := map snd (filter (fun x => Nat.eqb (fst x) k) sched).
(** the runs [ps] have been going on, each being now somewhere between its beginning and its end, or having been killed there *)
Definition going_on (C : crypto) (E : ext) (P : flags) (ps : list process) (sched : schedule) : Prop :=
  (forall k p, nth_error ps k = Some p -> crash (system_calls C E P p) (calls_of k sched)) /\
  (forall k o, In (k, o) sched -> nth_error ps k <> None).
Definition temps (p : process) : list slot := [se_tmp (p_sf1 p); se_tmp (p_sf2 p)].
Definition inodes (p : process) : list Z := [se_ino (p_sf1 p); se_ino (p_sf2 p)].
Definition a_temp (ps : list process) (t : slot) : Prop := exists p, In p ps /\ In t (temps p).
Definition writes_to (P : flags) (p : process) (s : slot) : Prop := exists n, asked (p_world p) P (p_argv p) n /\ s = wo_place (p_world p) n.
(** all temporary names and inodes are new and different; nobody is asked to write to a temporary name; the two files of one run of generate
    are two names *)
Definition apart (P : flags) (f : fs) (ps : list process) : Prop :=
  (forall j k p q, nth_error ps j = Some p -> nth_error ps k = Some q -> j <> k ->
     (forall t, In t (temps p) -> ~ In t (temps q)) /\ (forall i, In i (inodes p) -> ~ In i (inodes q))) /\
  (forall p, In p ps -> se_tmp (p_sf1 p) <> se_tmp (p_sf2 p) /\ se_ino (p_sf1 p) <> se_ino (p_sf2 p) /\
     (forall t, In t (temps p) -> f_node f t = None /\ forall s, f_node f s <> Some (NLink t)) /\
     (forall i, In i (inodes p) -> forall s, f_node f s <> Some (NFile i)) /\
     (forall s, writes_to P p s -> ~ a_temp ps s) /\
     forall bn, asked (p_world p) P (p_argv p) (wo_clean (p_world p) bn ++ str ".key") -> asked (p_world p) P (p_argv p) (wo_clean (p_world p) bn ++ str ".pub") ->
       wo_place (p_world p) (wo_clean (p_world p) bn ++ str ".key") <> wo_place (p_world p) (wo_clean (p_world p) bn ++ str ".pub")).
(** content and permissions of the file under a path *)
Definition seen (f : fs) (q : slot) : option bytes * option Z := (content f q, mode f q).

(** ** Proofs *)
(** a system call that uses the temporary names T and the inodes I only, and renames only to slots of D *)
Definition fit (T : list slot) (I : list Z) (D : slot -> Prop) (f : fs) (o : fop) : Prop :=
  match o with
  | OCreate s i _ => In s T /\ In i I
  | OAppend i _ => In i I
  | OSync _ => True
  | ORename a b => In a T /\ D b /\ exists i, In i I /\ f_node f a = Some (NFile i)
  | ORemove s => In s T
  end.
Fixpoint fits (T : list slot) (I : list Z) (D : slot -> Prop) (f : fs) (ops : list fop) : Prop :=
  match ops with [] => True | o :: r => fit T I D f o /\ fits T I D (do_op f o) r end.
Lemma fits_app T I D a : forall f b, fits T I D f (a ++ b) <-> fits T I D f a /\ fits T I D (run_ops f a) b.
Proof. induction a as [|o a IH]; intros f b; cbn [app fits run_ops fold_left]; [tauto|]. rewrite IH. unfold run_ops. tauto. Qed.
Lemma fits_crash T I D f ops dn : fits T I D f ops -> crash ops dn -> fits T I D f dn.
Proof.
  intros H Hc. inversion Hc; subst.
  - apply fits_app in H. tauto.
  - apply fits_app in H. apply fits_app. cbn [fits fit] in *. tauto.
Qed.
Lemma fits_trace v dst d ops c T I (D : slot -> Prop) f : In (se_tmp v) T -> In (se_ino v) I -> D dst -> trace v dst d ops c -> fits T I D f ops.
Proof.
  intros H1 H2 H3 H. inversion H; subst; cbn [fits fit do_op f_node]; repeat split; try assumption. exists (se_ino v). split; [assumption|]. apply upd_same.
Qed.
Lemma process_fits C E P p f : fits (temps p) (inodes p) (writes_to P p) f (system_calls C E P p).
Proof.
  unfold system_calls. destruct (main_ops C E (p_world p) P (p_sf1 p) (p_sf2 p) (p_argv p)) as [->|[(n & d & c & A & H)|(bn & n & n2 & m & kt & ops2 & d & c & _ & _ & A & A2 & -> & H)]].
  - exact I.
  - eapply fits_trace; [left; reflexivity|left; reflexivity|exists n; split; [exact A|reflexivity]|exact H].
  - apply fits_app. split.
    + eapply (fits_trace (p_sf1 p)); [left; reflexivity|left; reflexivity| |constructor]. exists n. split; [exact A|reflexivity].
    + eapply fits_trace; [right; left; reflexivity|right; left; reflexivity|exists n2; split; [exact A2|reflexivity]|exact H].
Qed.

(** what a crashed run has written *)
Lemma trace_data v dst d ops c g i : i <> se_ino v -> trace v dst d ops c -> f_data (run_ops g ops) i = f_data g i /\ f_mode (run_ops g ops) i = f_mode g i.
Proof. intros Hi H. inversion H; subst; cbn [run_ops fold_left do_op f_data f_mode]; rewrite ?upd_other by assumption; auto. Qed.
Lemma trace_done v dst d ops c g dn s : trace v dst d ops c -> crash ops dn -> s <> se_tmp v ->
  (f_node (run_ops g dn) s = f_node g s /\ forall i, i <> se_ino v -> f_data (run_ops g dn) i = f_data g i /\ f_mode (run_ops g dn) i = f_mode g i) \/
  s = dst /\ dn = ops /\ f_node (run_ops g dn) s = Some (NFile (se_ino v)).
Proof.
  intros Ht Hc Hs. destruct (Z.eq_dec s dst) as [->|Nd].
  - assert (Z : dn = ops /\ c = true \/ ~ In (ORename (se_tmp v) dst) dn).
    { destruct (crash_prefix _ _ Hc) as (k & [->|(i & d1 & d2 & Hn & ->)]).
      - inversion Ht; subst; destruct k as [|[|[|[|k]]]]; cbn [firstn]; rewrite ?firstn_nil; auto; right; cbn [In]; intuition discriminate.
      - right. inversion Ht; subst; destruct k as [|[|[|[|[|k]]]]]; cbn in Hn; try discriminate Hn; cbn [firstn app In]; intuition discriminate. }
    destruct Z as [(-> & ->)|Z].
    + right. split; [reflexivity|]. split; [reflexivity|]. inversion Ht; subst. cbn [run_ops fold_left do_op f_node]. rewrite upd_other by assumption. rewrite !upd_same. reflexivity.
    + left. pose proof (crash_stage _ _ _ _ _ _ Ht Hc) as S. destruct S as [|m|m x y|m|ops' c' Ht']; try (inversion Ht'; subst; try (exfalso; apply Z; cbn; tauto));
        cbn [run_ops fold_left do_op f_node f_data f_mode]; rewrite ?upd_other by assumption; (split; [reflexivity|]); intros i Hi; rewrite ?upd_other by assumption; auto.
  - left. pose proof (crash_stage _ _ _ _ _ _ Ht Hc) as S. destruct S as [|m|m x y|m|ops' c' Ht']; try (inversion Ht'; subst);
      cbn [run_ops fold_left do_op f_node f_data f_mode]; rewrite ?upd_other by assumption; (split; [reflexivity|]); intros i Hi; rewrite ?upd_other by assumption; auto.
Qed.
Lemma crashed_wrote C E P p f dn s : se_tmp (p_sf1 p) <> se_tmp (p_sf2 p) -> se_ino (p_sf1 p) <> se_ino (p_sf2 p) -> (forall s, writes_to P p s -> ~ In s (temps p)) ->
  (forall bn, asked (p_world p) P (p_argv p) (wo_clean (p_world p) bn ++ str ".key") -> asked (p_world p) P (p_argv p) (wo_clean (p_world p) bn ++ str ".pub") ->
       wo_place (p_world p) (wo_clean (p_world p) bn ++ str ".key") <> wo_place (p_world p) (wo_clean (p_world p) bn ++ str ".pub")) ->
  crash (system_calls C E P p) dn -> ~ In s (temps p) ->
  f_node (run_ops f dn) s = f_node f s \/
  writes_to P p s /\ exists i, In i (inodes p) /\ let full := run_ops f (system_calls C E P p) in
    f_node (run_ops f dn) s = Some (NFile i) /\ f_node full s = Some (NFile i) /\ f_data full i = f_data (run_ops f dn) i /\ f_mode full i = f_mode (run_ops f dn) i.
Proof.
  intros T12 I12 HT HKP Hc Hs. unfold system_calls in *. cbv zeta.
  destruct (main_ops C E (p_world p) P (p_sf1 p) (p_sf2 p) (p_argv p)) as [X|[(n & d & c & A & H)|(bn & n & n2 & m & kt & ops2 & d & c & -> & -> & A & A2 & X & H)]].
  - rewrite X in Hc. apply crash_nil in Hc. subst dn. left. reflexivity.
  - destruct (trace_done _ _ _ _ _ f dn s H Hc) as [(Z & _)|(-> & -> & Z)]; [intros ->; apply Hs; left; reflexivity|left; exact Z|].
    right. split; [exists n; auto|]. exists (se_ino (p_sf1 p)). split; [left; reflexivity|]. auto.
  - rewrite X in *. assert (S1 : s <> se_tmp (p_sf1 p)) by (intros ->; apply Hs; left; reflexivity). assert (S2 : s <> se_tmp (p_sf2 p)) by (intros ->; apply Hs; right; left; reflexivity).
    set (K := wo_place (p_world p) (wo_clean (p_world p) bn ++ str ".key")) in *. set (Q := wo_place (p_world p) (wo_clean (p_world p) bn ++ str ".pub")) in *.
    assert (KQ : K <> Q) by (apply HKP; assumption). assert (WK : writes_to P p K) by (exists (wo_clean (p_world p) bn ++ str ".key"); auto).
    assert (WQ : writes_to P p Q) by (exists (wo_clean (p_world p) bn ++ str ".pub"); auto).
    assert (Ht1 : trace (p_sf1 p) K kt (commit_ops (p_sf1 p) m K kt) true) by (unfold commit_ops; constructor).
    assert (K2 : K <> se_tmp (p_sf2 p)) by (intros Z; apply (HT _ WK); rewrite Z; right; left; reflexivity).
    assert (FK : f_node (run_ops f (commit_ops (p_sf1 p) m K kt ++ ops2)) K = Some (NFile (se_ino (p_sf1 p)))).
    { rewrite run_app, (trace_other _ _ _ _ _ _ K K2 KQ H), commit_nodes, Z.eqb_refl. destruct (Z.eqb_spec K (se_tmp (p_sf1 p))) as [Z|_]; [|reflexivity].
      exfalso. apply (HT _ WK). rewrite Z. left. reflexivity. }
    destruct (crash_app _ _ _ Hc) as [Hc1|(dn2 & -> & Hc2)].
    + destruct (trace_done _ _ _ _ _ f dn s Ht1 Hc1 S1) as [(Z & _)|(-> & -> & Z)]; [left; exact Z|]. right. split; [exact WK|]. exists (se_ino (p_sf1 p)).
      split; [left; reflexivity|]. split; [exact Z|]. split; [exact FK|]. rewrite run_app. apply (trace_data _ _ _ _ _ _ _ I12 H).
    + rewrite run_app. set (g := run_ops f (commit_ops (p_sf1 p) m K kt)) in *. destruct (trace_done _ _ _ _ _ g dn2 s H Hc2 S2) as [(Z & ZD)|(-> & -> & Z)].
      * assert (N : f_node g s = if s =? se_tmp (p_sf1 p) then None else if s =? K then Some (NFile (se_ino (p_sf1 p))) else f_node f s) by apply commit_nodes.
        destruct (Z.eqb_spec s (se_tmp (p_sf1 p))) as [E1|_]; [contradiction|]. destruct (Z.eqb_spec s K) as [->|_]; [|left; congruence].
        right. split; [exact WK|]. exists (se_ino (p_sf1 p)). split; [left; reflexivity|]. split; [congruence|]. split; [exact FK|]. rewrite run_app. fold g.
        destruct (ZD _ I12) as (-> & ->). apply (trace_data _ _ _ _ _ _ _ I12 H).
      * right. split; [exact WQ|]. exists (se_ino (p_sf2 p)). split; [right; left; reflexivity|]. rewrite run_app. auto.
Qed.

(** the state after a schedule *)
Definition alone (f : fs) (sched : schedule) (k : nat) : fs := run_ops f (calls_of k sched).
Record woven (f : fs) (ps : list process) (sched : schedule) (st : fs) : Prop := {
  wv_tmp : forall k p t, nth_error ps k = Some p -> In t (temps p) -> f_node st t = f_node (alone f sched k) t;
  wv_ino : forall k p i, nth_error ps k = Some p -> In i (inodes p) -> f_data st i = f_data (alone f sched k) i /\ f_mode st i = f_mode (alone f sched k) i;
  wv_old : forall i, (forall p, In p ps -> ~ In i (inodes p)) -> f_data st i = f_data f i /\ f_mode st i = f_mode f i;
  wv_node : forall s, ~ a_temp ps s ->
    (f_node st s = f_node f s /\ forall k p, nth_error ps k = Some p -> f_node (alone f sched k) s = f_node f s) \/
    exists k p i, nth_error ps k = Some p /\ In i (inodes p) /\ f_node st s = Some (NFile i) /\ f_node (alone f sched k) s = Some (NFile i) }.
Lemma calls_snoc k sched j o : calls_of k (sched ++ [(j, o)]) = if Nat.eqb j k then calls_of k sched ++ [o] else calls_of k sched.
Proof. unfold calls_of. rewrite filter_app, map_app. cbn [filter fst]. destruct (Nat.eqb j k); [reflexivity|apply app_nil_r]. Qed.
Lemma run_snoc f l o : run_ops f (l ++ [o]) = do_op (run_ops f l) o.
Proof. unfold run_ops. rewrite fold_left_app. reflexivity. Qed.
Lemma alone_other f sched j o k : j <> k -> alone f (sched ++ [(j, o)]) k = alone f sched k.
Proof. intros H. unfold alone. rewrite calls_snoc. destruct (Nat.eqb_spec j k); [contradiction|reflexivity]. Qed.
Lemma alone_same f sched j o : alone f (sched ++ [(j, o)]) j = do_op (alone f sched j) o.
Proof. unfold alone. rewrite calls_snoc, Nat.eqb_refl. apply run_snoc. Qed.

Lemma weave P f ps : apart P f ps -> forall sched,
  (forall k p, nth_error ps k = Some p -> fits (temps p) (inodes p) (writes_to P p) f (calls_of k sched)) ->
  (forall k o, In (k, o) sched -> nth_error ps k <> None) -> woven f ps sched (run_ops f (map snd sched)).
Proof.
  intros (Hap & Hpr) sched. induction sched as [|(j, o) sched IH] using rev_ind; intros Hf Hin.
  { constructor; cbn; auto. }
  assert (IHs : woven f ps sched (run_ops f (map snd sched))).
  { apply IH; [|intros k x Hx; eapply Hin; apply in_or_app; left; exact Hx]. intros k p Hk. specialize (Hf k p Hk). rewrite calls_snoc in Hf. destruct (Nat.eqb j k); [apply fits_app in Hf; tauto|exact Hf]. }
  clear IH. destruct (nth_error ps j) as [p|] eqn:Ej; [|exfalso; eapply Hin; [apply in_or_app; right; left; reflexivity|exact Ej]].
  assert (Fo : fit (temps p) (inodes p) (writes_to P p) (alone f sched j) o).
  { specialize (Hf j p Ej). rewrite calls_snoc, Nat.eqb_refl in Hf. apply fits_app in Hf. unfold alone. cbn [fits] in Hf. tauto. }
  rewrite map_app. cbn [map snd]. rewrite run_snoc. set (st := run_ops f (map snd sched)) in *. destruct IHs as [A B Cc D].
  assert (Pin : In p ps) by (eapply nth_error_In; exact Ej).
  assert (OT : forall k q t, nth_error ps k = Some q -> j <> k -> In t (temps q) -> ~ In t (temps p)).
  { intros k q t Hk Hjk Ht Ht'. exact (proj1 (Hap k j q p Hk Ej (not_eq_sym Hjk)) t Ht Ht'). }
  assert (OI : forall k q i, nth_error ps k = Some q -> j <> k -> In i (inodes q) -> ~ In i (inodes p)).
  { intros k q t Hk Hjk Ht Ht'. exact (proj2 (Hap k j q p Hk Ej (not_eq_sym Hjk)) t Ht Ht'). }
  assert (DT : forall s, writes_to P p s -> ~ a_temp ps s) by apply (Hpr p Pin).
  assert (NT : forall s, ~ a_temp ps s -> ~ In s (temps p)) by (intros s Hs X; apply Hs; exists p; auto).
  assert (TT : forall k q t, nth_error ps k = Some q -> In t (temps q) -> a_temp ps t) by (intros k q t Hk Ht; exists q; split; [eapply nth_error_In; exact Hk|exact Ht]).
  destruct o as [s i m|i b|i|a b|s]; cbn [fit] in Fo.
  - destruct Fo as (Fs & Fi). constructor; cbn [do_op f_node f_data f_mode].
    + intros k q t Hk Ht. destruct (Nat.eq_dec j k) as [<-|N].
      * rewrite alone_same. cbn [do_op f_node]. unfold upd_at. destruct (t =? s); [reflexivity|]. eapply A; eauto.
      * rewrite alone_other by exact N. rewrite upd_other; [eapply A; eauto|]. intros ->. eapply OT; eauto.
    + intros k q x Hk Hx. destruct (Nat.eq_dec j k) as [<-|N].
      * rewrite alone_same. cbn [do_op f_data f_mode]. unfold upd_at. destruct (x =? i); [auto|]. eapply B; eauto.
      * rewrite alone_other by exact N. rewrite !upd_other; [eapply B; eauto| |]; (intros ->; eapply OI; eauto).
    + intros x Hx. rewrite !upd_other; [apply Cc; exact Hx| |]; (intros ->; exact (Hx p Pin Fi)).
    + intros x Hx. assert (Nx : x <> s) by (intros ->; exact (NT _ Hx Fs)). rewrite upd_other by exact Nx. destruct (D x Hx) as [(D1 & D2)|(k & q & y & D1 & D2 & D3 & D4)]; [left|right].
      * split; [exact D1|]. intros k q Hk. destruct (Nat.eq_dec j k) as [<-|N]; [rewrite alone_same; cbn [do_op f_node]; rewrite upd_other by exact Nx|rewrite alone_other by exact N]; eauto.
      * exists k, q, y. split; [exact D1|]. split; [exact D2|]. split; [exact D3|]. destruct (Nat.eq_dec j k) as [<-|N]; [rewrite alone_same; cbn [do_op f_node]; rewrite upd_other by exact Nx|rewrite alone_other by exact N]; assumption.
  - constructor; cbn [do_op f_node f_data f_mode].
    + intros k q t Hk Ht. destruct (Nat.eq_dec j k) as [<-|N]; [rewrite alone_same|rewrite alone_other by exact N]; cbn [do_op f_node]; eapply A; eauto.
    + intros k q x Hk Hx. destruct (Nat.eq_dec j k) as [<-|N].
      * rewrite alone_same. cbn [do_op f_data f_mode]. split; [|eapply B; eauto]. unfold upd_at. destruct (Z.eqb_spec x i) as [->|_]; [f_equal|]; eapply B; eauto.
      * rewrite alone_other by exact N. rewrite upd_other; [eapply B; eauto|]. intros ->. eapply OI; eauto.
    + intros x Hx. rewrite upd_other; [apply Cc; exact Hx|]. intros ->. exact (Hx p Pin Fo).
    + intros x Hx. destruct (D x Hx) as [(D1 & D2)|(k & q & y & D1 & D2 & D3 & D4)]; [left|right].
      * split; [exact D1|]. intros k q Hk. destruct (Nat.eq_dec j k) as [<-|N]; [rewrite alone_same|rewrite alone_other by exact N]; cbn [do_op f_node]; eauto.
      * exists k, q, y. split; [exact D1|]. split; [exact D2|]. split; [exact D3|]. destruct (Nat.eq_dec j k) as [<-|N]; [rewrite alone_same|rewrite alone_other by exact N]; assumption.
  - assert (X : forall k, alone f (sched ++ [(j, OSync i)]) k = alone f sched k) by (intros k; destruct (Nat.eq_dec j k) as [<-|N]; [apply alone_same|apply alone_other; exact N]).
    constructor; cbn [do_op].
    + intros k q t Hk Ht. rewrite X. eapply A; eauto.
    + intros k q t Hk Ht. rewrite X. eapply B; eauto.
    + exact Cc.
    + intros s Hs. destruct (D s Hs) as [(D1 & D2)|(k & q & y & D1 & D2 & D3 & D4)]; [left|right].
      * split; [exact D1|]. intros k q Hk. rewrite X. eauto.
      * exists k, q, y. rewrite X. auto.
  - destruct Fo as (Fa & Fb & i & Fi & Fn). assert (Nb : forall t, In t (temps p) -> t <> b) by (intros t Ht ->; exact (NT _ (DT _ Fb) Ht)).
    assert (Sa : f_node st a = Some (NFile i)) by (rewrite (A j p a Ej Fa); exact Fn).
    constructor; cbn [do_op f_node f_data f_mode].
    + intros k q t Hk Ht. assert (t <> b) by (intros ->; exact (DT _ Fb (TT _ _ _ Hk Ht))). destruct (Nat.eq_dec j k) as [<-|N].
      * rewrite alone_same. cbn [do_op f_node]. unfold upd_at. destruct (t =? a); [reflexivity|]. destruct (Z.eqb_spec t b); [contradiction|]. eapply A; eauto.
      * rewrite alone_other by exact N. rewrite !upd_other; [eapply A; eauto|assumption|]. intros ->. eapply OT; eauto.
    + intros k q x Hk Hx. destruct (Nat.eq_dec j k) as [<-|N]; [rewrite alone_same|rewrite alone_other by exact N]; cbn [do_op f_data f_mode]; eapply B; eauto.
    + exact Cc.
    + intros x Hx. assert (Nx : x <> a) by (intros ->; exact (NT _ Hx Fa)). rewrite upd_other by exact Nx. destruct (Z.eq_dec x b) as [->|Nxb].
      * right. exists j, p, i. rewrite upd_same. split; [exact Ej|]. split; [exact Fi|]. split; [exact Sa|]. rewrite alone_same. cbn [do_op f_node]. rewrite upd_other, upd_same by exact Nx. exact Fn.
      * rewrite upd_other by exact Nxb. destruct (D x Hx) as [(D1 & D2)|(k & q & y & D1 & D2 & D3 & D4)]; [left|right].
        -- split; [exact D1|]. intros k q Hk. destruct (Nat.eq_dec j k) as [<-|N]; [rewrite alone_same; cbn [do_op f_node]; rewrite !upd_other by assumption|rewrite alone_other by exact N]; eauto.
        -- exists k, q, y. split; [exact D1|]. split; [exact D2|]. split; [exact D3|]. destruct (Nat.eq_dec j k) as [<-|N]; [rewrite alone_same; cbn [do_op f_node]; rewrite !upd_other by assumption|rewrite alone_other by exact N]; assumption.
  - constructor; cbn [do_op f_node f_data f_mode].
    + intros k q t Hk Ht. destruct (Nat.eq_dec j k) as [<-|N].
      * rewrite alone_same. cbn [do_op f_node]. unfold upd_at. destruct (t =? s); [reflexivity|]. eapply A; eauto.
      * rewrite alone_other by exact N. rewrite upd_other; [eapply A; eauto|]. intros ->. eapply OT; eauto.
    + intros k q x Hk Hx. destruct (Nat.eq_dec j k) as [<-|N]; [rewrite alone_same|rewrite alone_other by exact N]; cbn [do_op f_data f_mode]; eapply B; eauto.
    + exact Cc.
    + intros x Hx. assert (Nx : x <> s) by (intros ->; exact (NT _ Hx Fo)). rewrite upd_other by exact Nx. destruct (D x Hx) as [(D1 & D2)|(k & q & y & D1 & D2 & D3 & D4)]; [left|right].
      * split; [exact D1|]. intros k q Hk. destruct (Nat.eq_dec j k) as [<-|N]; [rewrite alone_same; cbn [do_op f_node]; rewrite upd_other by exact Nx|rewrite alone_other by exact N]; eauto.
      * exists k, q, y. split; [exact D1|]. split; [exact D2|]. split; [exact D3|]. destruct (Nat.eq_dec j k) as [<-|N]; [rewrite alone_same; cbn [do_op f_node]; rewrite upd_other by exact Nx|rewrite alone_other by exact N]; assumption.
Qed.

Lemma seen_eq f g q i : follow 40 f q = Some i -> follow 40 g q = Some i -> f_data f i = f_data g i -> f_mode f i = f_mode g i -> seen f q = seen g q.
Proof. intros H1 H2 H3 H4. unfold seen, content, mode. rewrite H1, H2, H3, H4. reflexivity. Qed.
Lemma fits_old T I D i : ~ In i I -> forall ops f, fits T I D f ops -> f_data (run_ops f ops) i = f_data f i /\ f_mode (run_ops f ops) i = f_mode f i.
Proof.
  intros Hi. induction ops as [|o ops IH]; intros f; cbn [fits run_ops fold_left]; [auto|]. intros (H & Hr). destruct (IH _ Hr) as (I1 & I2). fold (run_ops (do_op f o) ops). rewrite I1, I2.
  destruct o as [s j m|j b|j|a b|s]; cbn [fit do_op f_data f_mode] in *; auto; rewrite ?upd_other; auto; intros ->; tauto.
Qed.
(** where a path leads after a schedule: nowhere new, or through untouched links to a slot that some run has replaced *)
Lemma woven_follow P f ps sched st : apart P f ps -> woven f ps sched st -> forall n q, ~ a_temp ps q ->
  (follow n st q = follow n f q /\ (forall i, follow n f q = Some i -> forall p, In p ps -> ~ In i (inodes p)) /\ forall k p, nth_error ps k = Some p -> follow n (alone f sched k) q = follow n f q) \/
  exists k p i s, nth_error ps k = Some p /\ In i (inodes p) /\ ~ a_temp ps s /\ leads f s q /\ follow n st q = Some i /\ follow n (alone f sched k) q = Some i /\
    f_node st s = Some (NFile i) /\ f_node (alone f sched k) s = Some (NFile i).
Proof.
  intros (_ & Hpr) W n. induction n as [|n IH]; intros q Hq; cbn [follow].
  - destruct (wv_node _ _ _ _ W q Hq) as [(D1 & D2)|(k & p & i & D1 & D2 & D3 & D4)].
    + left. rewrite D1. split; [reflexivity|]. split; [|intros k p Hk; rewrite (D2 k p Hk); reflexivity].
      intros i Hi p Hp Hx. destruct (f_node f q) as [[x|t]|] eqn:Eq; try discriminate Hi. injection Hi as ->. eapply (proj1 (proj2 (proj2 (proj2 (Hpr p Hp))))); eauto.
    + right. exists k, p, i, q. rewrite D3, D4. do 3 (split; [assumption|]). split; [constructor|auto].
  - destruct (wv_node _ _ _ _ W q Hq) as [(D1 & D2)|(k & p & i & D1 & D2 & D3 & D4)].
    + rewrite D1. destruct (f_node f q) as [[x|t]|] eqn:Eq.
      * left. split; [reflexivity|]. split; [|intros k p Hk; rewrite (D2 k p Hk); reflexivity]. intros i Hi p Hp Hx. injection Hi as ->. eapply (proj1 (proj2 (proj2 (proj2 (Hpr p Hp))))); eauto.
      * assert (Ht : ~ a_temp ps t) by (intros (p & Hp & Ht); exact (proj2 (proj1 (proj2 (proj2 (Hpr p Hp))) t Ht) q Eq)).
        destruct (IH t Ht) as [(I1 & I2 & I3)|(k & p & i & s & I1 & I2 & I3 & I4 & I5 & I6 & I7)]; [left|right].
        -- split; [exact I1|]. split; [exact I2|]. intros k p Hk. rewrite (D2 k p Hk). eauto.
        -- exists k, p, i, s. rewrite (D2 k p I1). split; [exact I1|]. split; [exact I2|]. split; [exact I3|]. split; [eapply ld_link; eauto|]. split; [exact I5|]. split; [exact I6|exact I7].
      * left. split; [reflexivity|]. split; [discriminate|]. intros k p Hk. rewrite (D2 k p Hk). reflexivity.
    + right. exists k, p, i, q. rewrite D3, D4. do 3 (split; [assumption|]). split; [constructor|auto].
Qed.
Lemma going_woven C E P f ps sched : apart P f ps -> going_on C E P ps sched -> woven f ps sched (run_ops f (map snd sched)).
Proof.
  intros Ha (H1 & H2). apply (weave P); [exact Ha| |exact H2]. intros k p Hk. eapply fits_crash; [apply (process_fits C E)|apply H1; exact Hk].
Qed.

(** At every moment of any number of simultaneous runs, each with any command line, seeing any files, meeting any errors and killed anywhere:
    under every path there is what was there before, or, complete and with its permissions, what one of the runs leaves under a name it was
    asked to write.  A path which no other run is asked to write shows what the run would have made of it alone. *)
Theorem C77_concurrent_runs :
  forall C E P f ps sched, apart P f ps -> going_on C E P ps sched ->
  let now := run_ops f (map snd sched) in forall q, ~ a_temp ps q ->
  (seen now q = seen f q \/
   exists p s, In p ps /\ writes_to P p s /\ leads f s q /\ seen now q = seen (run_ops f (system_calls C E P p)) s) /\
  (forall k p, nth_error ps k = Some p -> (forall j p' s, nth_error ps j = Some p' -> j <> k -> writes_to P p' s -> ~ leads f s q) ->
     seen now q = seen (run_ops f (calls_of k sched)) q).
Proof.
  intros C E P f ps sched Ha Hg now q Hq. pose proof (going_woven _ _ _ _ _ _ Ha Hg) as W. fold now in W.
  pose proof Ha as (_ & Hpr). destruct Hg as (Hg & _).
  assert (CW : forall k p s, nth_error ps k = Some p -> ~ a_temp ps s -> f_node (alone f sched k) s = f_node f s \/
    writes_to P p s /\ exists i, In i (inodes p) /\ let full := run_ops f (system_calls C E P p) in
    f_node (alone f sched k) s = Some (NFile i) /\ f_node full s = Some (NFile i) /\ f_data full i = f_data (alone f sched k) i /\ f_mode full i = f_mode (alone f sched k) i).
  { intros k p s Hk Hs. assert (Hp : In p ps) by (eapply nth_error_In; exact Hk). destruct (Hpr p Hp) as (P1 & P2 & P3 & P4 & P5 & P6). apply crashed_wrote; auto.
    - intros x Hx Hx'. apply (P5 x Hx). exists p. auto.
    - intros Hx. apply Hs. exists p. auto. }
  destruct (woven_follow P f ps sched now Ha W 40 q Hq) as [(F1 & F2 & F3)|(k & p & i & s & F1 & F2 & F3 & F4 & F5 & F6 & F7 & F8)].
  - assert (S : seen now q = seen f q).
    { unfold seen, content, mode. rewrite F1. destruct (follow 40 f q) as [i|] eqn:Ei; [|reflexivity]. destruct (wv_old _ _ _ _ W i (F2 i eq_refl)) as (-> & ->). reflexivity. }
    split; [left; exact S|]. intros k p Hk _. rewrite S. fold (alone f sched k). unfold seen, content, mode. rewrite (F3 k p Hk).
    destruct (follow 40 f q) as [i|] eqn:Ei; [|reflexivity].
    assert (O : f_data (alone f sched k) i = f_data f i /\ f_mode (alone f sched k) i = f_mode f i).
    { eapply fits_old; [|eapply fits_crash; [apply (process_fits C E P p)|apply Hg; exact Hk]]. apply (F2 i eq_refl). eapply nth_error_In; exact Hk. }
    destruct O as (-> & ->). reflexivity.
  - destruct (CW k p s F1 F3) as [X|(X & i' & _ & X1 & X2 & X3 & X4)].
    { exfalso. rewrite F8 in X. destruct (Hpr p (nth_error_In _ _ F1)) as (_ & _ & _ & P4 & _). exact (P4 i F2 s (eq_sym X)). }
    rewrite F8 in X1. injection X1 as <-. destruct (wv_ino _ _ _ _ W k p i F1 F2) as (B1 & B2). split.
    + right. exists p, s. split; [eapply nth_error_In; exact F1|]. split; [exact X|]. split; [exact F4|]. unfold seen, content, mode. rewrite F5. cbn [follow]. rewrite X2, X3, X4, B1, B2. reflexivity.
    + intros k0 p0 Hk0 Hno. destruct (Nat.eq_dec k k0) as [<-|N]; [|exfalso; exact (Hno k p s F1 N X F4)]. exact (seen_eq _ _ _ _ F5 F6 B1 B2).
Qed.
Print Assumptions C77_concurrent_runs.

(** an instance: two runs of "sigtool gen" for the same name, at the same time *)
Definition sf3 : sf_env := mkSf 7 70 None [] None None None (oct 0 2 2).
Definition sf4 : sf_env := mkSf 8 80 None [(1, None)] None None None (oct 0 2 2).
Definition town_b : world := mkWorld (wo_fs town) (wo_place town) (wo_clean town) (wo_refused town) (wo_pieces town) (wo_mapped town) (wo_getenv town) (wo_ask town)
  (wo_home town) (wo_stdin town) (wo_stdout town) (mkRng (fun p => z2b (p * p * 3 + p + 1)) 0) (wo_size town).
Definition runA : process := mkProc town sf1 sf2 [str "gen"].
Definition runB : process := mkProc town_b sf3 sf4 [str "gen"].
Definition opsA : list fop := Eval vm_compute in system_calls toy toyE any_flags runA.
Definition opsB : list fop := Eval vm_compute in system_calls toy toyE any_flags runB.
Definition tag (k : nat) (l : list fop) : schedule := map (fun o => (k, o)) l.
(** A and B find no file and open their temporary files; A writes id.key, B writes id.key; the same for id.pub, B first *)
Definition race : schedule :=
  tag 0 (take 1 opsA) ++ tag 1 (take 1 opsB) ++ tag 0 (drop 1 (take 4 opsA)) ++ tag 1 (drop 1 (take 4 opsB)) ++
  tag 1 (take 1 (drop 4 opsB)) ++ tag 0 (take 1 (drop 4 opsA)) ++ tag 1 (drop 5 opsB) ++ tag 0 (drop 5 opsA).
Definition at_step (n : Z) : fs := run_ops (wo_fs town) (map snd (take n race)).

Lemma gen_asked_b n : asked town_b any_flags [str "gen"] n <-> n = str "id.key" \/ n = str "id.pub".
Proof.
  rewrite <- gen_asked. split; (intros H; destruct H as [args o bn rest R G A|args o bn rest R G A|args o kn fn rest R G A B|args o R G A|args o R G A B]).
  - exact (as_key town any_flags _ args o bn rest R G A).
  - exact (as_pub town any_flags _ args o bn rest R G A).
  - exact (as_sig town any_flags _ args o kn fn rest R G A B).
  - exact (as_enc town any_flags _ args o R G A).
  - exact (as_dec town any_flags _ args o R G A B).
  - exact (as_key town_b any_flags _ args o bn rest R G A).
  - exact (as_pub town_b any_flags _ args o bn rest R G A).
  - exact (as_sig town_b any_flags _ args o kn fn rest R G A B).
  - exact (as_enc town_b any_flags _ args o R G A).
  - exact (as_dec town_b any_flags _ args o R G A B).
Qed.
Lemma run_asked p n : p = runA \/ p = runB -> asked (p_world p) any_flags (p_argv p) n -> n = str "id.key" \/ n = str "id.pub".
Proof. intros [->| ->] H; [apply gen_asked|apply gen_asked_b]; exact H. Qed.
Lemma gen_place p s : p = runA \/ p = runB -> writes_to any_flags p s -> 10 < s.
Proof.
  intros Hp (n & Hn & ->). destruct (run_asked p n Hp Hn) as [->| ->]; destruct Hp as [->| ->]; vm_compute; reflexivity.
Qed.
Lemma race_apart : apart any_flags (wo_fs town) [runA; runB].
Proof.
  split.
  - intros [|[|j]] [|[|k]] p q Hj Hk Hjk; cbn in Hj, Hk; try (destruct j; discriminate Hj); try (destruct k; discriminate Hk); try congruence; injection Hj as <-; injection Hk as <-;
      (split; intros x; vm_compute; intuition discriminate || intuition congruence).
  - intros p Hp. assert (Hp' : p = runA \/ p = runB) by (destruct Hp as [<-|[<-|[]]]; auto).
    assert (Hv : forall v, (v = sf1 \/ v = sf2) \/ (v = sf3 \/ v = sf4) -> f_node (wo_fs town) (se_tmp v) = None /\ (forall s, f_node (wo_fs town) s <> Some (NLink (se_tmp v))) /\ (forall s, f_node (wo_fs town) s <> Some (NFile (se_ino v)))).
    { intros v Hv. destruct (town_fresh v 20) as (_ & X); [destruct Hv as [[->| ->]|[->| ->]]; vm_compute; discriminate + reflexivity..|exact X]. }
    split; [destruct Hp' as [->| ->]; discriminate|]. split; [destruct Hp' as [->| ->]; discriminate|]. split; [|split; [|split]].
    + intros t Ht. destruct Hp' as [->| ->], Ht as [<-|[<-|[]]]; (match goal with |- context [se_tmp ?v] => destruct (Hv v) as (X1 & X2 & X3); [auto|split; [exact X1|exact X2]] end).
    + intros t Ht. destruct Hp' as [->| ->], Ht as [<-|[<-|[]]]; (match goal with |- context [se_ino ?v] => destruct (Hv v) as (X1 & X2 & X3); [auto|exact X3] end).
    + intros s Hs (q & Hq & Hq'). pose proof (gen_place p s Hp' Hs). assert (s <= 10); [|lia]. destruct Hq as [<-|[<-|[]]], Hq' as [<-|[<-|[]]]; vm_compute; discriminate.
    + intros bn H1 H2. destruct (run_asked p _ Hp' H1) as [X|X]; [|exfalso; apply (f_equal (@rev _)) in X; rewrite rev_app_distr in X; discriminate X].
      destruct (run_asked p _ Hp' H2) as [Y|Y]; [exfalso; apply (f_equal (@rev _)) in Y; rewrite rev_app_distr in Y; discriminate Y|]. rewrite X, Y. destruct Hp' as [->| ->]; vm_compute; discriminate.
Qed.
Lemma opsA_eq : system_calls toy toyE any_flags runA = opsA. Proof. vm_compute. reflexivity. Qed.
Lemma opsB_eq : system_calls toy toyE any_flags runB = opsB. Proof. vm_compute. reflexivity. Qed.
Lemma race_done : calls_of 0 race = opsA /\ calls_of 1 race = opsB.
Proof. split; vm_compute; reflexivity. Qed.
Lemma race_going : going_on toy toyE any_flags [runA; runB] race.
Proof.
  split.
  - intros [|[|[|k]]] p Hk; cbn [nth_error] in Hk; try discriminate Hk; injection Hk as <-.
    + rewrite (proj1 race_done), opsA_eq. rewrite <- (app_nil_r opsA) at 1. apply cr_between.
    + rewrite (proj2 race_done), opsB_eq. rewrite <- (app_nil_r opsB) at 1. apply cr_between.
  - intros k o Hk. assert (Z : forallb (fun x => Nat.ltb (fst x) 2) race = true) by (vm_compute; reflexivity). rewrite forallb_forall in Z. specialize (Z _ Hk). cbn [fst] in Z.
    apply Nat.ltb_lt in Z. destruct k as [|[|k]]; [discriminate|discriminate|lia].
Qed.
Example C77_instance : apart any_flags (wo_fs town) [runA; runB] /\ going_on toy toyE any_flags [runA; runB] race /\
  length race = 16%nat /\ content (at_step 16) (wo_place town (str "plain")) = Some text.
Proof. split; [exact race_apart|]. split; [exact race_going|]. split; vm_compute; reflexivity. Qed.

(** ** C78: without --overwrite *)
(** the command line does not ask to overwrite *)
Definition no_overwrite (P : flags) (argv : list bytes) : Prop :=
  (forall args o, runs P argv Generate args -> fl_gen P args = Options o -> ge_force o = false) /\
  (forall args o, runs P argv Sign args -> fl_sign P args = Options o -> so_force o = false) /\
  (forall args o, runs P argv Encrypt_ args -> fl_enc P args = Options o -> eo_force o = false) /\
  (forall args o, runs P argv Decrypt_ args -> fl_dec P args = Options o -> do_force o = false).
(** Refuted for runs at the same time.  Two runs of "sigtool gen" for the same name, without --overwrite: at the moments when each of them looks (just
    before it makes a temporary file) there is no such file; both exit with status 0; id.key, which the first has completely written, is
    replaced by the second's; and in the end id.pub is not the public key of id.key. *)
Theorem C78_refuted_race :
  apart any_flags (wo_fs town) [runA; runB] /\ going_on toy toyE any_flags [runA; runB] race /\
  calls_of 0 race = system_calls toy toyE any_flags runA /\ calls_of 1 race = system_calls toy toyE any_flags runB /\
  no_overwrite any_flags [str "gen"] /\
  x_code (main toy toyE town any_flags sf1 sf2 [str "gen"]) = 0 /\ x_code (main toy toyE town_b any_flags sf3 sf4 [str "gen"]) = 0 /\
  let key := wo_place town (str "id.key") in let pub := wo_place town (str "id.pub") in
  (exists m m' b b', take 2 race = [(0%nat, OCreate 5 50 m); (1%nat, OCreate 7 70 m')] /\ take 2 (drop 8 race) = [(1%nat, OCreate 8 80 b); (0%nat, OCreate 6 60 b')]) /\
  content (at_step 0) key = None /\ content (at_step 1) key = None /\ content (at_step 8) pub = None /\ content (at_step 9) pub = None /\
  exists k1 k2 p sk pk, content (at_step 5) key = Some k1 /\ content (at_step 8) key = Some k2 /\ k1 <> k2 /\
    content (at_step 16) key = Some k2 /\ content (at_step 16) pub = Some p /\
    make_private_key toy toyE k2 (Some (Ok (str "pass"))) = Ok sk /\ make_public_key toy toyE p = Ok pk /\ pk_Pk pk <> pk_Pk (sk_pk sk).
Proof.
  split; [exact race_apart|]. split; [exact race_going|]. split; [rewrite opsA_eq; exact (proj1 race_done)|]. split; [rewrite opsB_eq; exact (proj2 race_done)|].
  split.
  { split; [|split; [|split]]; intros args o R G; try (apply gen_runs in R; discriminate R). injection G as <-. reflexivity. }
  split; [vm_compute; reflexivity|]. split; [vm_compute; reflexivity|]. cbv zeta.
  split; [eexists _, _, _, _; split; vm_compute; reflexivity|]. split; [vm_compute; reflexivity|]. split; [vm_compute; reflexivity|]. split; [vm_compute; reflexivity|]. split; [vm_compute; reflexivity|].
  eexists _, _, _, _, _. split; [vm_compute; reflexivity|]. split; [vm_compute; reflexivity|]. split; [vm_compute; discriminate|]. split; [vm_compute; reflexivity|]. split; [vm_compute; reflexivity|].
  split; [vm_compute; reflexivity|]. split; [vm_compute; reflexivity|]. vm_compute. discriminate.
Qed.
Print Assumptions C78_refuted_race.

(** the system gives the run [p], which sees the file system [f], unused temporary names and inodes; the two files of generate are two files *)
Definition prepared (P : flags) (f : fs) (p : process) : Prop :=
  let W := p_world p in
  (forall n, asked W P (p_argv p) n -> fresh (p_sf1 p) f (wo_place W n) /\ fresh (p_sf2 p) f (wo_place W n)) /\
  se_tmp (p_sf1 p) <> se_tmp (p_sf2 p) /\ se_ino (p_sf1 p) <> se_ino (p_sf2 p) /\ f_node f (se_tmp (p_sf1 p)) = None /\ f_node f (se_tmp (p_sf2 p)) = None /\
  forall bn, asked W P (p_argv p) (wo_clean W bn ++ str ".key") -> asked W P (p_argv p) (wo_clean W bn ++ str ".pub") ->
    ~ leads f (wo_place W (wo_clean W bn ++ str ".key")) (wo_place W (wo_clean W bn ++ str ".pub")).
(** runs of sigtool without --overwrite, one after the other, each of which may be stopped anywhere, also by a power failure *)
Inductive careful_history (C : crypto) (E : ext) (P : flags) : fs -> fs -> Prop :=
| ch_none f : careful_history C E P f f
| ch_run p dn f1 f2 : let f := wo_fs (p_world p) in prepared P f p -> no_overwrite P (p_argv p) ->
    crash (system_calls C E P p) dn -> f1 = run_ops f dn \/ survives f dn f1 -> careful_history C E P f1 f2 -> careful_history C E P f f2.

Lemma leads_exists f s : forall n q i, (n <= 40)%nat -> leads f s q -> follow n f q = Some i -> content f s <> None.
Proof.
  assert (M : forall n m q i, (n <= m)%nat -> follow n f q = Some i -> follow m f q = Some i).
  { induction n as [|n IH]; intros m q i Hm H; destruct m as [|m]; cbn [follow] in *; try lia; destruct (f_node f q) as [[x|t]|]; try exact H; try discriminate H. apply IH; [lia|exact H]. }
  intros n q i Hn L. revert n i Hn. induction L as [|q t Hq L IH]; intros n i Hn H.
  - unfold content. rewrite (M n 40%nat s i Hn H). discriminate.
  - destruct n as [|n]; cbn [follow] in H; rewrite Hq in H; [discriminate H|]. apply (IH n i); [lia|exact H].
Qed.
Lemma with_output_refuses W v m out tofile body : tofile = true -> content (wo_fs W) (wo_place W out) <> None -> x_ops (with_output W v m out tofile false body) = [].
Proof. intros -> H. unfold with_output, safe_open. destruct (content (wo_fs W) (wo_place W out)); [reflexivity|contradiction]. Qed.
Lemma careful_refuses C E P p n : no_overwrite P (p_argv p) -> asked (p_world p) P (p_argv p) n -> content (wo_fs (p_world p)) (wo_place (p_world p) n) <> None -> system_calls C E P p = [].
Proof.
  intros (N1 & N2 & N3 & N4) A Hc. unfold system_calls. destruct p as [W v1 v2 argv]. cbn [p_world p_sf1 p_sf2 p_argv] in *.
  destruct (main_runs C E W P v1 v2 argv) as [X|(c & args & R & -> & U)]; [exact X|]. unfold run_command.
  destruct A as [a o bn rest R' G A|a o bn rest R' G A|a o kn fn rest R' G A B|a o R' G A|a o R' G A B]; destruct (U _ _ R') as (<- & <-); rewrite G.
  - unfold cli_generate. rewrite A, (N1 _ _ R' G). unfold exists_. destruct (content (wo_fs W) (wo_place W (wo_clean W bn ++ str ".key"))); [|contradiction]. rewrite orb_true_r. reflexivity.
  - unfold cli_generate. rewrite A, (N1 _ _ R' G). unfold exists_. destruct (content (wo_fs W) (wo_place W (wo_clean W bn ++ str ".pub"))); [|contradiction]. reflexivity.
  - unfold cli_sign. rewrite A, !sig_out, (N2 _ _ R' G). apply with_output_refuses; [|exact Hc]. destruct (beq (sig_file o fn) (str "-")) eqn:Z; [|reflexivity]. apply beq_eq in Z. contradiction.
  - destruct (cli_encrypt_any C E W v1 o) as [(_ & X & _)|(blk & sk & rd & pka & _ & _ & _ & _ & _ & X)]; [exact X|]. rewrite X, (N3 _ _ R' G). apply with_output_refuses; [apply names_ok; exact A|exact Hc].
  - destruct (cli_decrypt_any C E W v1 o B) as [(_ & X & _)|(kf & more & sk & pk & rd & _ & _ & _ & _ & X)]; [exact X|]. rewrite X, (N4 _ _ R' G). apply with_output_refuses; [apply names_ok; exact A|exact Hc].
Qed.
Lemma nothing_done f f' q : f' = run_ops f [] \/ survives f [] f' -> content f' q = content f q.
Proof.
  intros [->|((k & Hn) & Hd & _)]; [reflexivity|]. cbn [filter] in Hn. rewrite firstn_nil in Hn. cbn [run_ops fold_left] in Hn.
  assert (L : forall n p, follow n f' p = follow n f p) by (induction n as [|n IH]; intros p; cbn [follow]; rewrite Hn; destruct (f_node f p) as [[i|t]|]; auto).
  unfold content. rewrite L. destruct (follow 40 f q) as [i|]; [|reflexivity]. rewrite Hd; [reflexivity|]. intros a d b Z. destruct a; discriminate Z.
Qed.
(** Full property: also for runs at the same time; false, see the refutation.  Here: one after the other.  No file that exists is ever changed or removed. *)
Theorem C78_history_partial :
  forall C E P f f', careful_history C E P f f' -> forall q b, content f q = Some b -> content f' q = Some b.
Proof.
  intros C E P f f' H. induction H as [f|p dn f1 f2 f Hp Hn Hc Hs _ IH]; intros q b Hq; [exact Hq|]. apply IH. clear IH f2.
  destruct Hp as (P1 & P2 & P3 & P4 & P5 & P6).
  assert (Hf : exists i, follow 40 f q = Some i) by (unfold content in Hq; destruct (follow 40 f q) as [i|]; [eauto|discriminate Hq]). destruct Hf as (i & Hf).
  assert (Hq1 : forall v, f_node f (se_tmp v) = None -> q <> se_tmp v) by (intros v Hv ->; cbn [follow] in Hf; rewrite Hv in Hf; discriminate Hf).
  destruct (C68_only_outputs C E (p_world p) P (p_sf1 p) (p_sf2 p) (p_argv p) P1 P2 P3 P6 P4 P5) as (H1 & _). fold f in H1.
  destruct (system_calls C E P p) as [|o0 ops0] eqn:Es.
  - apply crash_nil in Hc. subst dn. rewrite <- Hq. exact (nothing_done f f1 q Hs).
  - rewrite <- Hq. apply (H1 dn f1); [unfold system_calls in Es; rewrite Es; exact Hc|exact Hs|apply Hq1; exact P4|apply Hq1; exact P5|].
    intros n Hn' L. assert (Z : system_calls C E P p = []); [|rewrite Z in Es; discriminate Es]. apply (careful_refuses C E P p n Hn Hn').
    exact (leads_exists f _ 40 q i (le_n 40) L Hf).
Qed.
Print Assumptions C78_history_partial.

(** an instance: A generates id.key and id.pub and exits; then B, which finds them, is refused *)
Definition town_a : world := mkWorld (run_ops (wo_fs town) opsA) (wo_place town) (wo_clean town) (wo_refused town) (wo_pieces town) (wo_mapped town) (wo_getenv town) (wo_ask town)
  (wo_home town) (wo_stdin town) (wo_stdout town) (mkRng (fun p => z2b (p * p * 3 + p + 1)) 0) (wo_size town).
Lemma prepA : prepared any_flags (wo_fs town) runA.
Proof.
  split; [|split; [discriminate|split; [discriminate|split; [vm_compute; reflexivity|split; [vm_compute; reflexivity|]]]]].
  - intros n Hn. apply gen_asked in Hn. destruct Hn as [->| ->]; (split; apply town_fresh; vm_compute; congruence).
  - intros bn A1 A2 L. apply dir_leads in L. revert L. apply gen_asked in A1, A2. cbn [runA p_world] in *.
    destruct A1 as [A1|A1]; [|apply (f_equal (@rev _)) in A1; rewrite rev_app_distr in A1; discriminate A1]. destruct A2 as [A2|A2]; [apply (f_equal (@rev _)) in A2; rewrite rev_app_distr in A2; discriminate A2|].
    rewrite A1, A2. vm_compute. discriminate.
Qed.
Example C78_instance :
  careful_history toy toyE any_flags (wo_fs town) (run_ops (wo_fs town) opsA) /\ content (wo_fs town) (wo_place town (str "a.key")) = Some ak_text /\
  content (run_ops (wo_fs town) opsA) (wo_place town (str "id.key")) <> None /\
  x_code (main toy toyE town_a any_flags sf3 sf4 [str "gen"]) = 1 /\ x_ops (main toy toyE town_a any_flags sf3 sf4 [str "gen"]) = [].
Proof.
  split; [|split; [vm_compute; reflexivity|split; [vm_compute; discriminate|split; vm_compute; reflexivity]]].
  apply (ch_run toy toyE any_flags runA opsA (run_ops (wo_fs town) opsA)); [exact prepA| | | |apply ch_none].
  - apply C78_refuted_race.
  - rewrite opsA_eq. rewrite <- (app_nil_r opsA) at 1. apply cr_between.
  - left. reflexivity.
Qed.
