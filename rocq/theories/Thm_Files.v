(** Writing key and signature files (C42), and the generate command (C43). *)
From Verif Require Import Bytes BytesLemmas GoErr GoIO SpecIO IOProofs Crypto CryptoLaws Keys Sign SpecSign Spec KeyFiles ExtLaws
  GoText Ssh SpecSsh Fs SpecFs FsProofs Store Cli SpecCli CliProofs Toy Scene ToyExt Thm_KeyFiles CliScene.
Require Import ZifyBool.
Local Notation length := List.length.

(** ** C42 *)
(** writeFile, on which Serialize of private keys, public keys and signatures is built.  Whatever the system calls
    return (errors of open, write, fsync, close, rename), and wherever the program is stopped - between or within system
    calls, by itself or by a power failure that loses unsynced data and recent directory changes: under every path the
    file is as before, or the destination holds the complete new content.  After an error it is as before, after a
    success it is the new content.  Without overwrite an existing file is refused and nothing is done at all. *)
Theorem C42_write_atomic :
  forall v m f dst b overwrite ops r, fresh v f dst -> write_file v m f dst b overwrite = (ops, r) ->
  (forall dn f', crash ops dn -> f' = run_ops f dn \/ survives f dn f' -> unchanged v f f' \/ r = Ok tt /\ replaced v dst b f f') /\
  (r = Ok tt -> replaced v dst b f (run_ops f ops)) /\
  (r <> Ok tt -> (exists e, r = Fail e) /\ unchanged v f (run_ops f ops)) /\
  (overwrite = false -> content f dst <> None -> r <> Ok tt /\ ops = []).
Proof.
  intros v m f dst b ov ops r Hf H.
  assert (L0 : forall f', survives f [] f' -> like v f f').
  { intros f' ((k & Hn) & Hd & _). constructor; [intros s Hs; rewrite Hn; cbn; rewrite firstn_nil; reflexivity|].
    intros s i _. apply Hd. intros a d c E. destruct a; discriminate E. }
  assert (S : forall dn f', f' = run_ops f dn \/ survives f dn f' -> survives f dn f') by (intros dn f' [->|X]; [apply survives_run|exact X]).
  destruct (write_file_spec _ _ _ _ _ _ _ _ H) as [(-> & Ht & Hov)|(e & -> & Ho)].
  - split; [|split; [|split]].
    + intros dn f' Hc Hs. apply S in Hs. destruct (stage_atomic _ _ _ _ _ _ Hf (crash_stage _ _ _ _ _ _ Ht Hc) Hs) as [A|A].
      * left. eapply like_unchanged; eauto.
      * right. split; [reflexivity|]. apply swapped_replaced; assumption.
    + intros _. apply swapped_replaced; [exact Hf|]. exact (trace_end _ _ _ _ _ _ Hf Ht).
    + congruence.
    + intros -> Hc. destruct Hov as [Hov|Hov]; [discriminate Hov|contradiction].
  - split; [|split; [discriminate|split]].
    + intros dn f' Hc Hs. apply S in Hs. left. apply (like_unchanged v f f' dst Hf). destruct Ho as [->|(d & Ht)].
      * assert (dn = []) as ->; [|apply L0; exact Hs]. exact (crash_nil _ Hc).
      * eapply abort_like; eauto.
    + intros _. split; [eauto|]. apply (like_unchanged v f _ dst Hf). destruct Ho as [->|(d & Ht)]; [apply L0; apply survives_run|exact (trace_end _ _ _ _ _ _ Hf Ht)].
    + intros -> Hc. split; [discriminate|]. unfold write_file, safe_open in H. destruct (content f dst); [|contradiction]. injection H as <- _. reflexivity.
Qed.
Print Assumptions C42_write_atomic.

(** Reading the file back after Serialize: at every crash point (and power failure) one reads what was there before, or
    the complete key or signature that was written; after success the latter. *)
Theorem C42_stored_objects :
  forall C E, crypto_ok C -> ext_ok E -> forall comment, yaml_keeps E comment ->
  forall v f dst overwrite, fresh v f dst ->
  (forall pk ops r, len (pk_Pk pk) = 32 -> named C pk -> serialize_public E v f dst pk comment overwrite = (ops, r) ->
     forall dn f', crash ops dn -> f' = run_ops f dn \/ survives f dn f' ->
     let got := read_public_key C E (read_file f' dst None) in
     let new := exists pk', got = Ok pk' /\ pk_Pk pk' = pk_Pk pk /\ pk_hash pk' = pk_hash pk in
     (got = read_public_key C E (read_file f dst None) \/ new) /\ (r = Ok tt -> f' = run_ops f ops -> new)) /\
  (forall s ops r, serialize_signature E v f dst s comment overwrite = (ops, r) ->
     forall dn f', crash ops dn -> f' = run_ops f dn \/ survives f dn f' ->
     let got := read_signature E (read_file f' dst None) in
     (got = read_signature E (read_file f dst None) \/ got = Ok s) /\ (r = Ok tt -> f' = run_ops f ops -> got = Ok s)) /\
  (~ part_of (str "OPENSSH PRIVATE KEY-") (y_scalar E comment) ->
   forall sk pw g ops r g', len (sk_Sk sk) = 64 -> named C (sk_pk sk) -> pk_Pk (sk_pk sk) = drop 32 (sk_Sk sk) ->
     serialize_private C E v f dst sk comment overwrite pw g = (ops, r, g') ->
     forall dn f', crash ops dn -> f' = run_ops f dn \/ survives f dn f' ->
     let got := read_private_key C E (read_file f' dst None) (Some (Ok pw)) in
     let new := exists sk', got = Ok sk' /\ sk_Sk sk' = sk_Sk sk /\ pk_Pk (sk_pk sk') = pk_Pk (sk_pk sk) in
     (got = read_private_key C E (read_file f dst None) (Some (Ok pw)) \/ new) /\ (r = Ok tt -> f' = run_ops f ops -> new)).
Proof.
  intros C E HC HE comment Hk v f dst ov Hf.
  assert (G : forall m b ops r, write_file v m f dst b ov = (ops, r) -> forall dn f', crash ops dn -> f' = run_ops f dn \/ survives f dn f' ->
    (read_file f' dst None = read_file f dst None \/ read_file f' dst None = Ok b) /\ (r = Ok tt -> f' = run_ops f ops -> read_file f' dst None = Ok b)).
  { intros m b ops r Hw dn f' Hc Hs. destruct (C42_write_atomic _ _ _ _ _ _ _ _ Hf Hw) as (A & B & _).
    assert (T : dst <> se_tmp v) by (destruct Hf; congruence). split.
    - destruct (A dn f' Hc Hs) as [U|(_ & (R & _))]; unfold read_file; [left; rewrite (U dst T); reflexivity|right; rewrite R; reflexivity].
    - intros Hr ->. destruct (B Hr) as (R & _). unfold read_file. rewrite R. reflexivity. }
  split; [|split].
  - intros pk ops r Hl Hn Hs dn f' Hc Hv. cbv zeta. destruct (G _ _ _ _ Hs dn f' Hc Hv) as (A & B).
    assert (N : read_file f' dst None = Ok (marshal_public E pk comment) ->
      exists pk', read_public_key C E (read_file f' dst None) = Ok pk' /\ pk_Pk pk' = pk_Pk pk /\ pk_hash pk' = pk_hash pk).
    { intros ->. destruct (C33_public_round_trip C E HC HE comment Hk pk zero_pub Hl Hn) as (pk' & P1 & P2). exists pk'. split; [|exact P2].
      unfold read_public_key, make_public_key. cbn [bind]. rewrite P1. reflexivity. }
    split; [destruct A as [->|A]; [left; reflexivity|right; exact (N A)]|]. intros Hr He. exact (N (B Hr He)).
  - intros s ops r Hs dn f' Hc Hv. cbv zeta. destruct (G _ _ _ _ Hs dn f' Hc Hv) as (A & B).
    destruct (C32_signature_round_trip E comment Hk s zero_sig) as (_ & R).
    split; [destruct A as [->|A]; [left; reflexivity|right; rewrite A; exact R]|]. intros Hr He. rewrite (B Hr He). exact R.
  - intros Hm sk pw g ops r g' Hl Hn Hp Hs dn f' Hc Hv. cbv zeta.
    destruct (C34_private_round_trip_partial C E HC HE comment Hk Hm sk pw g Hl Hn Hp) as (file & g2 & salt & M & _ & R & _).
    unfold serialize_private in Hs. rewrite M in Hs. assert (Hw : write_file v (oct 6 0 0) f dst file ov = (ops, r)) by congruence.
    destruct (G _ _ _ _ Hw dn f' Hc Hv) as (A & B).
    assert (N : read_file f' dst None = Ok file -> exists sk', read_private_key C E (read_file f' dst None) (Some (Ok pw)) = Ok sk' /\
      sk_Sk sk' = sk_Sk sk /\ pk_Pk (sk_pk sk') = pk_Pk (sk_pk sk)).
    { intros ->. destruct (R zero_priv) as (sk' & R1 & R2 & R3 & _). exists sk'. split; [|auto]. unfold read_private_key, make_private_key. cbn [bind]. rewrite R1. reflexivity. }
    split; [destruct A as [->|A]; [left; reflexivity|right; exact (N A)]|]. intros Hr He. exact (N (B Hr He)).
Qed.
Print Assumptions C42_stored_objects.

(** a file (slot 1), a symbolic link to it (2), another name of it (3), a second file (4) *)
Definition disk : fs := mkFs (fun s => match s with 1 => Some (NFile 100) | 2 => Some (NLink 1) | 3 => Some (NFile 100) | 4 => Some (NFile 101) | _ => None end)
  (fun i => match i with 100 => str "old" | 101 => str "other" | _ => [] end) (fun _ => oct 6 4 4).
Definition good_sf : sf_env := mkSf 9 200 None [(2, None)] None None None (oct 0 2 2).
Definition full_sf : sf_env := mkSf 9 200 None [(2, None); (0, Some (EExt 28))] None None None (oct 0 2 2).
Definition norename_sf : sf_env := mkSf 9 200 None [] None None (Some (EExt 5)) (oct 0 2 2).
Lemma disk_fresh dst : dst <> 9 -> fresh good_sf disk dst /\ fresh full_sf disk dst /\ fresh norename_sf disk dst.
Proof.
  intros H. assert (F : se_tmp good_sf <> dst /\ f_node disk 9 = None /\ (forall s, f_node disk s <> Some (NLink 9)) /\ (forall s, f_node disk s <> Some (NFile 200))).
  { split; [cbn; congruence|]. split; [reflexivity|]. split; intros s; cbn; destruct s as [|[[[p|p|]|[p|p|]|]|[[p|p|]|[p|p|]|]|]|]; discriminate. }
  split; [exact F|]. split; exact F.
Qed.
Example C42_instance :
  (* the new file under its name and through the link; the hard link and the other file keep their content *)
  (exists ops, write_file good_sf (oct 6 4 4) disk 1 (str "brand new") true = (ops, Ok tt) /\
     map (content (run_ops disk ops)) [1; 2; 3; 4; 9] = [Some (str "brand new"); Some (str "brand new"); Some (str "old"); Some (str "other"); None] /\
     (* stopped in the middle of the write *)
     crash ops [OCreate 9 200 (oct 6 4 4); OAppend 200 (str "brand")] /\
     map (content (run_ops disk [OCreate 9 200 (oct 6 4 4); OAppend 200 (str "brand")])) [1; 2; 3; 4; 9] = [Some (str "old"); Some (str "old"); Some (str "old"); Some (str "other"); Some (str "brand")]) /\
  (* disk full; a rename that fails; no overwrite; a new file; replacing the link itself *)
  (exists ops, write_file full_sf (oct 6 4 4) disk 1 (str "brand new") true = (ops, Fail (EExt 28)) /\ map (content (run_ops disk ops)) [1; 9] = [Some (str "old"); None]) /\
  (exists ops, write_file norename_sf (oct 6 4 4) disk 1 (str "brand new") true = (ops, Fail (EExt 5)) /\ map (content (run_ops disk ops)) [1; 9] = [Some (str "old"); None]) /\
  (exists e, write_file good_sf (oct 6 4 4) disk 2 (str "brand new") false = ([], Fail e)) /\
  (exists ops, write_file good_sf (oct 6 4 4) disk 7 (str "x") false = (ops, Ok tt) /\ content (run_ops disk ops) 7 = Some (str "x")) /\
  (exists ops, write_file good_sf (oct 6 4 4) disk 2 (str "x") true = (ops, Ok tt) /\ map (content (run_ops disk ops)) [1; 2] = [Some (str "old"); Some (str "x")]).
Proof.
  split; [|split; [|split; [|split; [|split]]]]; try (eexists; split; vm_compute; reflexivity).
  eexists. split; [vm_compute; reflexivity|]. split; [vm_compute; reflexivity|]. split; [|vm_compute; reflexivity].
  apply (cr_within [OCreate 9 200 (oct 6 4 4)] 200 (str "brand") (str " new")).
Qed.

(** ** C43 *)
(** the texts of a private and of a public key file for one and the same key *)
Definition pair_texts (C : crypto) (E : ext) (comment pw keytext pubtext : bytes) : Prop :=
  exists seed g g', len seed = 32 /\ marshal_private C E (new_private_key C seed) comment pw g = (Ok keytext, g') /\
    pubtext = marshal_public E (sk_pk (new_private_key C seed)) comment.

(** K, P: the entries of PREFIX.key and PREFIX.pub.  Without --overwrite an existing file is refused and nothing is done.
    Otherwise, at every crash point (and after every power failure): each of the two files is as before or complete, the
    new public key file is there only if the new private key file is, and no other file is changed.  On success both are
    there and are those of one key pair; on failure the public key file is as before. *)
Theorem C43_generate :
  forall C E W v1 v2 o bn rest, ge_args o = bn :: rest ->
  let f := wo_fs W in let K := wo_place W (wo_clean W bn ++ str ".key") in let P := wo_place W (wo_clean W bn ++ str ".pub") in
  K <> P -> ~ leads f K P -> fresh v1 f K -> fresh v2 f P -> se_tmp v1 <> P -> se_tmp v2 <> K -> se_tmp v1 <> se_tmp v2 -> se_ino v1 <> se_ino v2 ->
  let x := cli_generate C E W v1 v2 o in
  (ge_force o = false -> content f K <> None \/ content f P <> None -> x_code x = 1 /\ x_ops x = []) /\
  (x_code x <> 0 /\ x_ops x = [] \/
   exists pw keytext pubtext, passphrase W (ge_nopw o) (ge_envpw o) (Ok pw) /\ pair_texts C E (ge_comment o) pw keytext pubtext /\
   (forall dn f', crash (x_ops x) dn -> f' = run_ops f dn \/ survives f dn f' ->
      (content f' K = content f K \/ content f' K = Some keytext) /\
      (content f' P = content f P \/ content f' P = Some pubtext /\ content f' K = Some keytext) /\
      (forall q, q <> se_tmp v1 -> q <> se_tmp v2 -> ~ leads f K q -> ~ leads f P q -> content f' q = content f q)) /\
   (x_code x = 0 -> content (run_ops f (x_ops x)) K = Some keytext /\ content (run_ops f (x_ops x)) P = Some pubtext) /\
   (x_code x <> 0 -> content (run_ops f (x_ops x)) P = content f P)).
Proof.
  intros C E W v1 v2 o bn rest Ha f K P HKP HL F1 F2 T1 T2 T12 I12 x. unfold x, cli_generate. rewrite Ha. fold f K P. split.
  - intros Hfo Hex. rewrite Hfo. cbn [negb andb]. unfold exists_. fold f K P. destruct (content f P) eqn:EP; cbn [orb]; [split; reflexivity|].
    destruct (content f K) eqn:EK; [split; reflexivity|]. destruct Hex as [Hex|Hex]; contradiction.
  - destruct (negb (ge_force o) && _); [left; split; [discriminate|reflexivity]|].
    destruct (get_pass W (ge_nopw o) (ge_envpw o)) as [pw|e|p] eqn:Ep; [|left; split; [discriminate|reflexivity]..].
    destruct (rand_buf 32 (wo_rng W)) as [seed g] eqn:Er. assert (Hsl : len seed = 32) by (eapply len_rand_buf; [|exact Er]; lia).
    set (sk := new_private_key C seed). unfold serialize_private. destruct (marshal_private C E sk (ge_comment o) pw g) as [[kt|e|p] g'] eqn:Em; [|left; split; [discriminate|reflexivity]..].
    destruct (write_file v1 (oct 6 0 0) f K kt (ge_force o)) as [ops1 r1] eqn:E1.
    set (pt := marshal_public E (sk_pk sk) (ge_comment o)).
    assert (SV : forall dn f', f' = run_ops f dn \/ survives f dn f' -> survives f dn f') by (intros dn f' [->|X]; [apply survives_run|exact X]).
    destruct (write_file_spec _ _ _ _ _ _ _ _ E1) as [(-> & Ht & _)|(e & -> & Ho)].
    + assert (exists m, ops1 = commit_ops v1 m K kt) as (m & ->) by (inversion Ht; subst; eexists; reflexivity).
      unfold serialize_public. fold pt. set (f1 := run_ops f (commit_ops v1 m K kt)) in *.
      destruct (write_file v2 (oct 6 4 4) f1 P pt (ge_force o)) as [ops2 r2] eqn:E2. cbn [x_code x_ops]. right. exists pw, kt, pt.
      split; [pose proof (get_pass_ok W (ge_nopw o) (ge_envpw o)) as G; rewrite Ep in G; exact G|]. split; [exists seed, g, g'; auto|].
      pose proof (F2' v1 v2 f K P kt m F1 F2 T2 T12 I12) as F2f1. fold f1 in F2f1.
      assert (Two : exists c, (ops2 = [] \/ exists d, trace v2 P d ops2 c /\ (c = true -> d = pt)) /\ (c = true <-> r2 = Ok tt) /\ (ops2 = [] -> c = false)).
      { destruct (write_file_spec _ _ _ _ _ _ _ _ E2) as [(-> & Ht2 & _)|(e & -> & Ho)].
        - exists true. split; [right; exists pt; auto|]. split; [tauto|]. intros ->. inversion Ht2.
        - exists false. split; [|split; [split; discriminate|reflexivity]]. destruct Ho as [->|(d & Ht2)]; [left; reflexivity|]. right. exists d. split; [exact Ht2|discriminate]. }
      destruct Two as (c & Hops & Hc & H0). split; [|split].
      * intros dn f' Hcr Hsv. apply SV in Hsv.
        exact (two_crash v1 v2 f K P kt pt m HKP HL F1 F2 T1 T2 T12 I12 ops2 c dn f' Hops Hcr Hsv).
      * intros Hz. assert (r2 = Ok tt) by (destruct r2 as [[]|?|?]; [reflexivity|discriminate..]). assert (c = true) as -> by (apply Hc; assumption).
        destruct Hops as [Hops|(d & Ht2 & Hd)]; [discriminate (H0 Hops)|]. specialize (Hd eq_refl). subst d. rewrite run_app. fold f1.
        pose proof (trace_end v2 P pt ops2 true f1 F2f1 Ht2) as Sw. apply (swapped2 v1 v2 f K P kt pt m HKP F1 F2 T2 T12 I12) in Sw. tauto.
      * intros Hz. assert (c = false) as -> by (destruct c; [|reflexivity]; rewrite (proj1 Hc eq_refl) in Hz; contradiction).
        rewrite run_app. fold f1. eapply (like2 v1 v2 f K P kt pt m HL F1 F2 T1 T2 T12 I12). fold f1.
        destruct Hops as [->|(d & Ht2 & _)]; [constructor; reflexivity|exact (trace_end v2 P d ops2 false f1 F2f1 Ht2)].
    + cbn [x_code x_ops code_of]. destruct Ho as [->|(d & Ht)]; [left; split; [discriminate|reflexivity]|]. right. exists pw, kt, pt.
      split; [pose proof (get_pass_ok W (ge_nopw o) (ge_envpw o)) as G; rewrite Ep in G; exact G|]. split; [exists seed, g, g'; auto|]. split; [|split; [discriminate|]].
      * intros dn f' Hcr Hsv. apply SV in Hsv. apply (like1 v1 v2 f K P kt pt F1 T1). eapply abort_like; eauto.
      * intros _. pose proof (trace_end v1 K d ops1 false f F1 Ht) as L. apply (like_unchanged _ _ _ _ F1 L). congruence.
Qed.
Print Assumptions C43_generate.
(** The two texts are read back, with the passphrase, as a private key and its public key, made from one 32-byte seed.
    The comment must not contain the OpenSSH marker (C34). *)
Theorem C43_pair_usable_partial :
  forall C E, crypto_ok C -> ext_ok E -> forall comment, yaml_keeps E comment -> ~ part_of (str "OPENSSH PRIVATE KEY-") (y_scalar E comment) ->
  forall pw keytext pubtext, pair_texts C E comment pw keytext pubtext ->
  exists seed sk pk, read_private_key C E (Ok keytext) (Some (Ok pw)) = Ok sk /\ read_public_key C E (Ok pubtext) = Ok pk /\
    keypair C seed sk /\ pubof C seed pk /\ pk_hash pk = pk_hash (sk_pk sk).
Proof.
  intros C E HC HE comment HY Hm pw kt pt (seed & g & g' & Hs & Hk & ->). pose proof (ok_ed_public_len C HC seed) as Hp.
  set (sk0 := new_private_key C seed) in *.
  destruct (C34_private_round_trip_partial C E HC HE comment HY Hm sk0 pw g) as (file & g2 & salt & Hf & _ & Hr & _).
  - unfold sk0. cbn. rewrite len_app, Hs, Hp. reflexivity.
  - reflexivity.
  - unfold sk0. cbn [new_private_key sk_Sk sk_pk pk_Pk]. rewrite drop_app_eq; [reflexivity|symmetry; exact Hs].
  - assert (file = kt) as -> by congruence. destruct (Hr zero_priv) as (sk & Hu & Hsk & Hpk & Hh).
    destruct (C33_public_round_trip C E HC HE comment HY (sk_pk sk0) zero_pub Hp eq_refl) as (pk & Hv & Hvk & Hvh).
    exists seed, sk, pk. unfold read_private_key, read_public_key, make_private_key, make_public_key. cbn [bind]. rewrite Hu, Hv.
    split; [reflexivity|]. split; [reflexivity|]. split; [|split].
    + constructor; [exact Hs|rewrite Hsk; reflexivity|rewrite Hpk; reflexivity|]. left.
      destruct (read_private_loaded C E (Ok kt) (Some (Ok pw)) sk) as (skb & _ & ->); [|reflexivity]. unfold read_private_key, make_private_key. cbn [bind]. rewrite Hu. reflexivity.
    + constructor; [exact Hs|rewrite Hvk; reflexivity|]. left.
      destruct (read_public_loaded C E (Ok (marshal_public E (sk_pk sk0) comment)) pk) as (key & c & _ & ->); [|reflexivity]. unfold read_public_key, make_public_key. cbn [bind]. rewrite Hv. reflexivity.
    + rewrite Hvh, Hh. reflexivity.
Qed.
Print Assumptions C43_pair_usable_partial.
Definition gen1 : gen_opts := mkGen false (str "me") (str "PW") false [str "id"].
Example C43_instance :
  let K := wo_place town (str "id.key") in let P := wo_place town (str "id.pub") in
  (* the hypotheses *)
  (K <> P /\ ~ leads (wo_fs town) K P /\ fresh sf1 (wo_fs town) K /\ fresh sf2 (wo_fs town) P /\ se_tmp sf1 <> P /\ se_tmp sf2 <> K /\
   yaml_keeps toyE (str "me") /\ ~ part_of (str "OPENSSH PRIVATE KEY-") (y_scalar toyE (str "me"))) /\
  (* success: both files are there; the passphrase is that of the environment variable *)
  (let x := cli_generate toy toyE town sf1 sf2 gen1 in x_code x = 0 /\
     (exists a b, content (run_ops (wo_fs town) (x_ops x)) K = Some a /\ content (run_ops (wo_fs town) (x_ops x)) P = Some b /\ (100 <? len a) && (50 <? len b) = true)) /\
  (* the second file fails *)
  (let x := cli_generate toy toyE town sf2 sf_full gen1 in x_code x = 1 /\ content (run_ops (wo_fs town) (x_ops x)) K <> None /\
     content (run_ops (wo_fs town) (x_ops x)) P = None) /\
  (* an existing file *)
  (let x := cli_generate toy toyE town sf1 sf2 (mkGen false (str "me") [] false [str "a"]) in x_code x = 1 /\ x_ops x = []).
Proof.
  cbv zeta. split; [|split; [|split]].
  - split; [vm_compute; discriminate|]. split; [intros L; apply dir_leads in L; revert L; vm_compute; discriminate|].
    split; [apply town_fresh; vm_compute; congruence|]. split; [apply town_fresh; vm_compute; congruence|]. split; [vm_compute; discriminate|]. split; [vm_compute; discriminate|].
    split; [apply toyE_keeps|]. intros (a & b & E). apply (f_equal len) in E. rewrite !len_app in E. pose proof (len_nonneg a). pose proof (len_nonneg b). revert E. vm_compute (len (str _)). vm_compute (len (y_scalar toyE _)). lia.
  - split; [vm_compute; reflexivity|]. eexists _, _. split; [vm_compute; reflexivity|]. split; vm_compute; reflexivity.
  - split; [vm_compute; reflexivity|]. split; [vm_compute; discriminate|vm_compute; reflexivity].
  - split; vm_compute; reflexivity.
Qed.

(** ** C50: generate and the pair of files *)
(** New files: whenever the program is stopped (or the power fails), there is neither file, only the complete private key
    file, or both, complete and of one key. *)
Theorem C50_new_pair_partial :
  forall C E W v1 v2 o bn rest, ge_args o = bn :: rest ->
  let f := wo_fs W in let K := wo_place W (wo_clean W bn ++ str ".key") in let P := wo_place W (wo_clean W bn ++ str ".pub") in
  K <> P -> ~ leads f K P -> fresh v1 f K -> fresh v2 f P -> se_tmp v1 <> P -> se_tmp v2 <> K -> se_tmp v1 <> se_tmp v2 -> se_ino v1 <> se_ino v2 ->
  content f K = None -> content f P = None ->
  let x := cli_generate C E W v1 v2 o in
  always f (x_ops x) (fun f' => content f' K = None /\ content f' P = None) \/
  exists pw keytext pubtext, pair_texts C E (ge_comment o) pw keytext pubtext /\
  always f (x_ops x) (fun f' =>
    (content f' K = None /\ content f' P = None) \/ (content f' K = Some keytext /\ content f' P = None) \/
    (content f' K = Some keytext /\ content f' P = Some pubtext)).
Proof.
  intros C E W v1 v2 o bn rest Ha f K P HKP HL F1 F2 T1 T2 T12 I12 HK HP x.
  destruct (C43_generate C E W v1 v2 o bn rest Ha HKP HL F1 F2 T1 T2 T12 I12) as (_ & [(_ & H0)|(pw & kt & pt & _ & Hp & H & _)]).
  - left. unfold x. rewrite H0. intros dn f' Hc Hs. pose proof (always_nil v1 f K F1 dn f' Hc Hs) as U. split; [rewrite (U K); [exact HK|destruct F1; congruence]|rewrite (U P); [exact HP|congruence]].
  - right. exists pw, kt, pt. split; [exact Hp|]. intros dn f' Hc Hs. destruct (H dn f' Hc Hs) as (A & B & _). change (content f' K = content f K \/ content f' K = Some kt) in A. change (content f' P = content f P \/ content f' P = Some pt /\ content f' K = Some kt) in B. rewrite HK in A. rewrite HP in B. destruct A as [A|A], B as [B|(B & B')]; auto.
Qed.
Print Assumptions C50_new_pair_partial.
(** Refuted with --overwrite: stopped between the two files, generate leaves the new private key beside the old public
    key.  Here: generate --overwrite a. *)
Definition gen_over : gen_opts := mkGen true (str "me") [] true [str "a"].
Definition town_mid : fs := run_ops (wo_fs town) (firstn 4 (x_ops (cli_generate toy toyE town sf1 sf2 gen_over))).
Definition two_files (f : fs) : option bytes * option bytes := (content f (wo_place town (str "a.key")), content f (wo_place town (str "a.pub"))).
Theorem C50_refuted :
  ~ (forall C E W v1 v2 o bn rest, crypto_ok C -> ext_ok E -> ge_args o = bn :: rest ->
       let f := wo_fs W in let K := wo_place W (wo_clean W bn ++ str ".key") in let P := wo_place W (wo_clean W bn ++ str ".pub") in
       K <> P -> ~ leads f K P -> fresh v1 f K -> fresh v2 f P -> se_tmp v1 <> P -> se_tmp v2 <> K -> se_tmp v1 <> se_tmp v2 -> se_ino v1 <> se_ino v2 ->
       let x := cli_generate C E W v1 v2 o in
       always f (x_ops x) (fun f' => (content f' K = content f K /\ content f' P = content f P) \/
         (content f' K = content (run_ops f (x_ops x)) K /\ content f' P = content (run_ops f (x_ops x)) P))).
Proof.
  intros H. specialize (H toy toyE town sf1 sf2 gen_over (str "a") [] toy_ok toyE_ok eq_refl).
  assert (Q : (fst (two_files town_mid) = fst (two_files (wo_fs town)) /\ snd (two_files town_mid) = snd (two_files (wo_fs town))) \/
    (fst (two_files town_mid) = fst (two_files (run_ops (wo_fs town) (x_ops (cli_generate toy toyE town sf1 sf2 gen_over)))) /\
     snd (two_files town_mid) = snd (two_files (run_ops (wo_fs town) (x_ops (cli_generate toy toyE town sf1 sf2 gen_over)))))).
  { apply H with (dn := firstn 4 (x_ops (cli_generate toy toyE town sf1 sf2 gen_over))).
    - vm_compute. discriminate.
    - intros L. apply dir_leads in L. revert L. vm_compute. discriminate.
    - apply town_fresh; vm_compute; congruence.
    - apply town_fresh; vm_compute; congruence.
    - vm_compute. discriminate.
    - vm_compute. discriminate.
    - discriminate.
    - discriminate.
    - rewrite <- (firstn_skipn 4 (x_ops (cli_generate toy toyE town sf1 sf2 gen_over))) at 1. apply cr_between.
    - left. reflexivity. }
  clear H. revert Q. vm_compute. intros [(Q & _)|(_ & Q)]; discriminate Q.
Qed.
Print Assumptions C50_refuted.
(** the new key and the old public key file *)
Example C50_instance :
  x_code (cli_generate toy toyE town sf1 sf2 gen_over) = 0 /\ snd (two_files town_mid) = Some apub /\
  match fst (two_files town_mid) with Some t => negb (beq t ak_text) | None => false end = true /\
  (* the hypotheses of C50_new_pair_partial for gen1: those of C43_instance, and *)
  content (wo_fs town) (wo_place town (str "id.key")) = None /\ content (wo_fs town) (wo_place town (str "id.pub")) = None.
Proof. split; [vm_compute; reflexivity|]. split; [vm_compute; reflexivity|]. split; [vm_compute; reflexivity|]. split; vm_compute; reflexivity. Qed.
