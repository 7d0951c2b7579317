(** C55: which command a word on the command line runs. *)
From Verif Require Import Bytes BytesLemmas GoErr GoIO Crypto Keys Sign KeyFiles GoText TextProofs Ssh Encrypt Decrypt Fs Store Cli Main.

(** ** Specification *)
(** The word [a] in any mixture of upper and lower case letters spells [t].  In Unicode the lower case of U+0130 is i and
    that of U+212A (the Kelvin sign) is k. *)
Inductive spells : bytes -> bytes -> Prop :=
| sp_end : spells [] []
| sp_same c s t : spells s t -> spells (c :: s) (c :: t)
| sp_upper c d s t : 65 <= b2z c <= 90 -> b2z d = b2z c + 32 -> spells s t -> spells (c :: s) (d :: t)
| sp_i s t : spells s t -> spells (xc4 :: xb0 :: s) (x69 :: t)
| sp_k s t : spells s t -> spells (xe2 :: x84 :: xaa :: s) (x6b :: t).
(** the documented names (usage: sigtool.go:95-107, and help) *)
Definition called (c : command) : bytes :=
  match c with
  | Generate => str "generate" | Sign => str "sign" | Verify => str "verify"
  | Encrypt_ => str "encrypt" | Decrypt_ => str "decrypt" | Help => str "help"
  end.
(** a word stands for a command: it spells its name, or the beginning of its name, in any letter case *)
Definition stands_for (a : bytes) (c : command) : Prop := exists t rest, t <> [] /\ spells a t /\ called c = t ++ rest.

(** ** Proof *)
Lemma to_lower_spells n : forall a, (length a <= n)%nat -> spells a (to_lower a).
Proof.
  induction n as [|n IH]; intros a Hl.
  - destruct a; [constructor | cbn in Hl; lia].
  - destruct a as [|c s]; [constructor |].
    assert (Hd : spells (c :: s) ((if (65 <=? b2z c) && (b2z c <=? 90) then z2b (b2z c + 32) else c) :: to_lower s)).
    { destruct ((65 <=? b2z c) && (b2z c <=? 90)) eqn:R.
      - apply andb_true_iff in R. destruct R as [R1 R2]. apply Z.leb_le in R1, R2.
        apply sp_upper; [lia | | apply IH; cbn in Hl; lia].
        revert R1 R2. clear. destruct c; vm_compute; intros; try reflexivity; exfalso; auto.
      - apply sp_same, IH. cbn in Hl. lia. }
    cbn [to_lower]. destruct s as [|d s2]; [exact Hd|].
    destruct (Byte.eqb c xc4 && Byte.eqb d xb0) eqn:E1.
    { apply andb_true_iff in E1. destruct E1 as [E1 E2]. apply Byte.byte_dec_bl in E1, E2. subst c d. apply sp_i, IH. cbn in Hl. lia. }
    destruct s2 as [|e s3]; [exact Hd|].
    destruct (Byte.eqb c xe2 && Byte.eqb d x84 && Byte.eqb e xaa) eqn:E2; [|exact Hd].
    apply andb_true_iff in E2. destruct E2 as [E2 E3]. apply andb_true_iff in E2. destruct E2 as [E2 E4].
    apply Byte.byte_dec_bl in E2, E3, E4. subst c d e. apply sp_k, IH. cbn in Hl. lia.
Qed.

Definition lower_letter (c : byte) : Prop := 97 <= b2z c <= 122.
Lemma to_lower_ascii c s : b2z c < 128 ->
  to_lower (c :: s) = (if (65 <=? b2z c) && (b2z c <=? 90) then z2b (b2z c + 32) else c) :: to_lower s.
Proof.
  intros Hc. cbn [to_lower]. destruct s as [|d s2]; [reflexivity|].
  assert (N1 : Byte.eqb c xc4 = false).
  { destruct (Byte.eqb c xc4) eqn:E1; [|reflexivity]. apply Byte.byte_dec_bl in E1. subst c. vm_compute in Hc. discriminate. }
  assert (N2 : Byte.eqb c xe2 = false).
  { destruct (Byte.eqb c xe2) eqn:E1; [|reflexivity]. apply Byte.byte_dec_bl in E1. subst c. vm_compute in Hc. discriminate. }
  rewrite N1, N2. cbn [andb]. destruct s2; reflexivity.
Qed.
Lemma spells_to_lower a t : spells a t -> Forall lower_letter t -> to_lower a = t.
Proof.
  induction 1 as [|c s t H IH|c d s t Hc Hd H IH|s t H IH|s t H IH]; intros HF; [reflexivity | ..];
    inversion HF as [|x l Hx Hl Ex]; subst; specialize (IH Hl).
  - unfold lower_letter in Hx. rewrite to_lower_ascii by lia.
    replace ((65 <=? b2z c) && (b2z c <=? 90)) with false; [rewrite IH; reflexivity|].
    symmetry. apply andb_false_iff. right. apply Z.leb_gt. lia.
  - rewrite to_lower_ascii by lia. replace ((65 <=? b2z c) && (b2z c <=? 90)) with true.
    + rewrite <- Hd, z2b_b2z, IH. reflexivity.
    + symmetry. apply andb_true_iff. split; apply Z.leb_le; lia.
  - cbn [to_lower]. cbn [Byte.eqb andb]. change (Byte.eqb xc4 xc4 && Byte.eqb xb0 xb0) with true. cbn [andb]. rewrite IH. reflexivity.
  - cbn [to_lower]. change (Byte.eqb xe2 xc4 && Byte.eqb x84 xb0) with false.
    change (Byte.eqb xe2 xe2 && Byte.eqb x84 x84 && Byte.eqb xaa xaa) with true. cbv iota. rewrite IH. reflexivity.
Qed.

Lemma called_lower c : Forall lower_letter (called c).
Proof.
  assert (H : forallb (fun c => (97 <=? b2z c) && (b2z c <=? 122)) (called c) = true) by (destruct c; reflexivity).
  apply Forall_forall. intros x Hx. apply (proj1 (forallb_forall _ _) H) in Hx. apply andb_true_iff in Hx.
  destruct Hx as [H1 H2]. apply Z.leb_le in H1, H2. split; lia.
Qed.

Lemma stands_iff a c : stands_for a c <-> to_lower a <> [] /\ exists rest, called c = to_lower a ++ rest.
Proof.
  split.
  - intros (t & rest & Ht & Hs & Hc). assert (E : to_lower a = t).
    { apply spells_to_lower; [exact Hs|]. pose proof (called_lower c) as H. rewrite Hc in H. apply Forall_app in H. tauto. }
    rewrite E. split; [exact Ht|]. exists rest. exact Hc.
  - intros (Ht & rest & Hc). exists (to_lower a), rest. split; [exact Ht|]. split; [|exact Hc].
    apply (to_lower_spells (length a)). lia.
Qed.

Lemma abbrev_prefix c w rest : w <> [] -> called c = w ++ rest ->
  abbrev (map fst cmds) w = Some (called c) /\ find_cmd cmds (called c) = Some c.
Proof.
  intros Hw H. split; [| destruct c; reflexivity].
  destruct c; cbn in H;
    repeat (destruct w as [|? w]; [try congruence; try reflexivity | cbn in H; injection H as <- H || discriminate H]);
    destruct rest; discriminate.
Qed.

Lemma cmds_called name c : In (name, c) cmds -> name = called c.
Proof. unfold cmds. intros H. repeat (destruct H as [H|H]; [injection H as <- <-; reflexivity|]). destruct H. Qed.
Lemma abbrev_other w : (forall c rest, w <> [] -> called c <> w ++ rest) -> abbrev (map fst cmds) w = None.
Proof.
  intros H. unfold abbrev. destruct w as [|x w]; [reflexivity|].
  assert (Hn : forall name, In name (map fst cmds) -> is_prefix (x :: w) name = false).
  { intros name Hi. destruct (is_prefix (x :: w) name) eqn:Ep; [|reflexivity].
    apply is_prefix_iff in Ep. destruct Ep as [r Er]. apply in_map_iff in Hi. destruct Hi as ([n c] & En & Hi). cbn in En. subst n.
    apply cmds_called in Hi. subst name. exfalso. apply (H c r); [congruence | exact Hi || congruence]. }
  destruct (existsb (beq (x :: w)) (map fst cmds)) eqn:Ex.
  - apply existsb_exists in Ex. destruct Ex as (name & Hi & Eb). apply beq_iff in Eb. subst name.
    specialize (Hn _ Hi). assert (is_prefix (x :: w) (x :: w) = true) by (apply is_prefix_iff; exists []; rewrite app_nil_r; reflexivity).
    congruence.
  - assert (Hf : filter (is_prefix (x :: w)) (map fst cmds) = []).
    { clear -Hn. induction (map fst cmds) as [|n l IH]; [reflexivity|]. cbn [filter]. rewrite (Hn n) by (left; reflexivity).
      apply IH. intros. apply Hn. right. assumption. }
    rewrite Hf. reflexivity.
Qed.

Lemma called_inj_prefix c c' w r r' : w <> [] -> called c = w ++ r -> called c' = w ++ r' -> c = c'.
Proof.
  intros Hw H1 H2. destruct (abbrev_prefix c w r Hw H1) as [A B], (abbrev_prefix c' w r' Hw H2) as [A' B']. congruence.
Qed.

(** C55.  The first word on the command line runs exactly the command whose name it begins, in any letter case: no word
    stands for two commands.  Any other word, or none, makes the program exit with 1 without having touched a file or written
    to standard output; --version and --help exit with 0 and touch no file either, whatever else is on the command line. *)
Theorem C55_dispatch : forall C E W P v1 v2 argv o,
  fl_main P argv = Options o ->
  let quits code := main C E W P v1 v2 argv = mkOut code [] (wo_stdout W) in
  (mo_version o = true \/ mo_help o = true -> quits 0) /\
  (mo_version o = false -> mo_help o = false ->
   match mo_args o with
   | [] => quits 1
   | a :: args =>
       (forall c, stands_for a c ->
          main C E W P v1 v2 argv = run_command C E W P v1 v2 c args /\ forall c', stands_for a c' -> c' = c) /\
       ((forall c, ~ stands_for a c) -> quits 1)
   end).
Proof.
  intros C E W P v1 v2 argv o Ho quits. subst quits. unfold main. rewrite Ho. split.
  - intros [H|H]; rewrite H; [reflexivity | destruct (mo_version o); reflexivity].
  - intros -> ->. destruct (mo_args o) as [|a args]; [reflexivity|]. split.
    + intros c Hc. apply stands_iff in Hc. destruct Hc as (Hn & rest & Hc).
      destruct (abbrev_prefix c _ rest Hn Hc) as [A B]. rewrite A, B. split; [reflexivity|].
      intros c' Hc'. apply stands_iff in Hc'. destruct Hc' as (_ & r' & Hc'). apply (called_inj_prefix c' c _ r' rest Hn Hc' Hc).
    + intros H. rewrite abbrev_other; [reflexivity|].
      intros c rest Hn Hc. apply (H c). apply stands_iff. eauto.
Qed.

(** Instances: Enc stands for encrypt; the Kelvin sign does not help, and neither does the empty word or x *)
Example c55_enc : stands_for (str "Enc") Encrypt_.
Proof. exists (str "enc"), (str "rypt"). split; [discriminate|]. split; [|reflexivity].
  cbn. apply sp_upper; [vm_compute; intuition congruence | reflexivity | repeat constructor]. Qed.
Example c55_dotted : stands_for (str "S" ++ [xc4; xb0] ++ str "GN") Sign.
Proof. exists (str "sign"), []. split; [discriminate|]. split; [|reflexivity].
  cbn. apply sp_upper; [vm_compute; intuition congruence | reflexivity |]. apply sp_i.
  apply sp_upper; [vm_compute; intuition congruence | reflexivity |]. apply sp_upper; [vm_compute; intuition congruence | reflexivity |]. constructor. Qed.
Example c55_none : forall c, ~ stands_for (str "x") c /\ ~ stands_for [] c /\ ~ stands_for (str "signx") c.
Proof.
  intros c. rewrite !stands_iff. repeat split; intros (H & r & Hr); destruct c; cbn in *; congruence.
Qed.
