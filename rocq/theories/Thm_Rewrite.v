(** C98: a private key read from a file and written again, any number of times. *)
From Verif Require Import Bytes BytesLemmas GoErr GoIO SpecIO IOProofs Support Pb SpecPb Crypto CryptoLaws Keys Sign SpecSign Encrypt Decrypt Spec
  KeyFiles ExtLaws Base64 GoText Ssh SpecSsh SshProofs Toy Scene ToyExt TextProofs Thm_KeyFiles Thm_Ssh Thm_Accept CliScene.
Local Notation length := List.length.
Local Notation concat := List.concat.

(** a comment that YAML keeps and that does not make the file look like an OpenSSH one (see C34) *)
Definition good_comment (E : ext) (c : bytes) : Prop := yaml_keeps E c /\ ~ part_of (str "OPENSSH PRIVATE KEY-") (y_scalar E c).
(** File [f] with passphrase [pw] came from file [b] by reading the key and writing it again with another comment and passphrase, once or
    more often; the passphrases given on the way are right (the reads succeed). [used]: what the program did with the key object in between,
    of which only the cached curve key can differ. *)
Definition used (sk sk' : privkey) : Prop := sk_Sk sk' = sk_Sk sk.
Inductive rewritten (C : crypto) (E : ext) (b : bytes) (getpw : getpw_fn) : bytes -> bytes -> Prop :=
| Rw_first sk sk' comment pw g f g' : make_private_key C E b getpw = Ok sk -> used sk sk' -> good_comment E comment ->
    marshal_private C E sk' comment pw g = (Ok f, g') -> rewritten C E b getpw f pw
| Rw_again f0 pw0 sk sk' comment pw g f g' : rewritten C E b getpw f0 pw0 -> make_private_key C E f0 (Some (Ok pw0)) = Ok sk -> used sk sk' -> good_comment E comment ->
    marshal_private C E sk' comment pw g = (Ok f, g') -> rewritten C E b getpw f pw.

Lemma written_reads C E : crypto_ok C -> ext_ok E -> forall sk comment pw g f g', len (sk_Sk sk) = 64 -> good_comment E comment -> marshal_private C E sk comment pw g = (Ok f, g') ->
  make_private_key C E f (Some (Ok pw)) = Ok (private_key_of C (sk_Sk sk)) /\
  exists salt, rand_buf 32 g = (salt, g') /\ forall pw', gcm_open C (file_key C pw' salt) (take 12 salt) (sealed C pw salt (sk_Sk sk)) [] = None ->
    exists e, make_private_key C E f (Some (Ok pw')) = Fail e.
Proof.
  intros HC HE sk comment pw g f g' Hl ((_ & _ & K) & Hm) HM. pose proof (marshal_private_spec C E sk comment pw g HC) as M.
  destruct (rand_buf 32 g) as [salt g2] eqn:Eg. assert (Hs : len salt = 32) by (eapply len_rand_buf; [|exact Eg]; lia). rewrite M in HM. clear M. set (file := yaml_priv E _) in HM. injection HM as <- <-.
  assert (He : len (sealed C pw salt (sk_Sk sk)) = 80) by (unfold sealed; rewrite (ok_seal_len C HC), Hl; reflexivity).
  assert (Hk : looks_openssh file = false).
  { apply not_looks. intros H. apply (yaml_priv_marker E HE) in H; [|rewrite He; discriminate|rewrite Hs; discriminate]. apply Hm. apply H. }
  specialize (K (sealed C pw salt (sk_Sk sk)) salt). cbv zeta in K. fold file in K.
  assert (U : forall old p, unmarshal_private C E old file (Some (Ok p)) = _) by (intros old p; apply (unmarshal_yaml C E old file p (sealed C pw salt (sk_Sk sk)) salt comment HC Hk Hs); [rewrite He; lia|exact K]).
  split.
  - unfold make_private_key. rewrite U. unfold sealed. rewrite (ok_open_seal C HC). unfold make_private_from_bytes. rewrite Hl. cbn [Z.eqb Pos.eqb negb]. reflexivity.
  - exists salt. split; [reflexivity|]. intros pw' Ho. unfold make_private_key. rewrite U, Ho. eauto.
Qed.

(** However often it was rewritten, the last file with its passphrase gives the key object that the first file gave - so everything encrypted
    to it, signed by it or naming it goes on working - and can be rewritten once more.  A passphrase that is not the last one is refused,
    unless its AES key happens to open what was sealed with the key of the last one. *)
Theorem C98_rewritten_key :
  forall C E, crypto_ok C -> ext_ok E -> forall b getpw, (forall blk, pem_decode E b = Some blk -> len (pem_bytes blk) < 2^32 /\ 0 <= pem_spare blk) ->
  forall sk, make_private_key C E b getpw = Ok sk -> forall f pw, rewritten C E b getpw f pw ->
  make_private_key C E f (Some (Ok pw)) = Ok sk /\
  (forall comment pw' g, exists f' g', marshal_private C E sk comment pw' g = (Ok f', g')) /\
  exists salt, len salt = 32 /\ forall pw', gcm_open C (file_key C pw' salt) (take 12 salt) (sealed C pw salt (sk_Sk sk)) [] = None ->
    exists e, make_private_key C E f (Some (Ok pw')) = Fail e.
Proof.
  intros C E HC HE b getpw Hpem sk Hr. destruct (proj1 (C67_private_exact C E HC b getpw Hpem sk) Hr) as (priv & Hkf & Hsk).
  assert (Hl : len priv = 64).
  { destruct Hkf as [(_ & blk & ci & kdf & op & pu & bl & se & _ & _ & _ & _ & _ & Hp)|(_ & p & r & sa & es & H)]; [|apply H]. destruct Hp as (? & ? & ? & ? & Hp & _). exact Hp. }
  assert (P : forall f pw, rewritten C E b getpw f pw -> make_private_key C E f (Some (Ok pw)) = Ok sk /\
     exists salt, len salt = 32 /\ forall pw', gcm_open C (file_key C pw' salt) (take 12 salt) (sealed C pw salt (sk_Sk sk)) [] = None ->
       exists e, make_private_key C E f (Some (Ok pw')) = Fail e).
  { assert (S : forall sk' comment pw g f g', used sk sk' -> good_comment E comment -> marshal_private C E sk' comment pw g = (Ok f, g') ->
        make_private_key C E f (Some (Ok pw)) = Ok sk /\
        exists salt, len salt = 32 /\ forall pw', gcm_open C (file_key C pw' salt) (take 12 salt) (sealed C pw salt (sk_Sk sk)) [] = None ->
          exists e, make_private_key C E f (Some (Ok pw')) = Fail e).
    { intros sk' comment pw g f g' Hu Hc HM. unfold used in Hu.
      destruct (written_reads C E HC HE sk' comment pw g f g') as (H1 & salt & Hs & H2); [rewrite Hu, Hsk; exact Hl|exact Hc|exact HM|].
      rewrite Hu in H1, H2. split; [rewrite H1, Hsk; reflexivity|]. exists salt. split; [eapply len_rand_buf; [|exact Hs]; lia|exact H2]. }
    intros f pw H. induction H as [s s' comment pw g f g' H1 H2 H3 H4|f0 pw0 s s' comment pw g f g' H0 IH H1 H2 H3 H4].
    - assert (s = sk) as -> by congruence. eapply S; eassumption.
    - destruct IH as [IH _]. assert (s = sk) as -> by congruence. eapply S; eassumption. }
  intros f pw H. destruct (P f pw H) as [H1 H2]. split; [exact H1|]. split; [|exact H2].
  intros comment pw' g. pose proof (marshal_private_spec C E sk comment pw' g HC) as M. destruct (rand_buf 32 g) as [salt g2]. eauto.
Qed.
Print Assumptions C98_rewritten_key.

(** an encrypted OpenSSH key turned into sigtool's form with another passphrase, and then into one without *)
Definition step1 : bytes := Eval vm_compute in match fst (marshal_private toy toyE (private_key_of toy skbytes) odd_comment (str "second") g0) with Ok f => f | _ => [] end.
Definition step2 : bytes := Eval vm_compute in match fst (marshal_private toy toyE (private_key_of toy skbytes) [] [] g1) with Ok f => f | _ => [] end.
Lemma good_odd : good_comment toyE odd_comment.
Proof. destruct C34_instance as (H1 & H2 & _). split; assumption. Qed.
Lemma good_nil : good_comment toyE [].
Proof.
  split; [apply toyE_keeps|]. intros H. pose proof (index_sub_spec (str "OPENSSH PRIVATE KEY-") (y_scalar toyE [])) as I.
  assert (N : index_sub (str "OPENSSH PRIVATE KEY-") (y_scalar toyE []) = None) by (vm_compute; reflexivity). rewrite N in I. exact (I H).
Qed.
Example C98_instance :
  crypto_ok toy /\ ext_ok toyE /\ (forall blk, pem_decode toyE sshA = Some blk -> len (pem_bytes blk) < 2^32 /\ 0 <= pem_spare blk) /\
  (exists sk, make_private_key toy toyE sshA (Some (Ok (str "secret"))) = Ok sk) /\
  rewritten toy toyE sshA (Some (Ok (str "secret"))) step1 (str "second") /\ rewritten toy toyE sshA (Some (Ok (str "secret"))) step2 [] /\
  (exists e, make_private_key toy toyE step1 (Some (Ok (str "secret"))) = Fail e) /\ (exists e, make_private_key toy toyE step2 (Some (Ok (str "second"))) = Fail e).
Proof.
  split; [exact toy_ok|]. split; [exact toyE_ok|]. destruct C67_instance as (B & _). split; [apply B; right; left; reflexivity|].
  assert (R0 : make_private_key toy toyE sshA (Some (Ok (str "secret"))) = Ok (private_key_of toy skbytes)) by (vm_compute; reflexivity).
  assert (R1 : make_private_key toy toyE step1 (Some (Ok (str "second"))) = Ok (private_key_of toy skbytes)) by (vm_compute; reflexivity).
  split; [eexists; exact R0|].
  assert (H1 : rewritten toy toyE sshA (Some (Ok (str "secret"))) step1 (str "second")).
  { eapply (Rw_first _ _ _ _ _ (private_key_of toy skbytes) odd_comment _ g0); [exact R0|reflexivity|exact good_odd|]. vm_compute. reflexivity. }
  split; [exact H1|]. split.
  { eapply (Rw_again _ _ _ _ _ _ _ (private_key_of toy skbytes) [] _ g1); [exact H1|exact R1|reflexivity|exact good_nil|]. vm_compute. reflexivity. }
  split; eexists; vm_compute; reflexivity.
Qed.
