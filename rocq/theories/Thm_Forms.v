(** C88: the forms in which a key pair can be kept are interchangeable. *)
From Verif Require Import Bytes BytesLemmas GoErr GoIO SpecIO Crypto CryptoLaws Keys Sign SpecSign Base64 SpecBase64 Base64Proofs GoText TextProofs
  Ssh SpecSsh KeyFiles ExtLaws IOProofs Encrypt Decrypt Stream Spec SpecStream EncryptProofs RoundTrip Support
  Thm_Ssh Thm_KeyFiles Thm_Accept Thm_Sign Thm_Encrypt Thm_Stream Thm_Chain Toy Scene ToyExt.
Require Import ZifyBool.
Ltac Zify.zify_post_hook ::= Z.div_mod_to_equations.
Local Notation length := List.length.
Local Notation concat := List.concat.

(** ** Specification *)
(** the 32 public key bytes [key], kept as: a file (YAML, or one OpenSSH line); a text on the command line, base64 of the OpenSSH
    blob or of the key itself (unless that reads as the blob of another key type: C54); an entry of an authorized_keys file *)
Inductive public_form (E : ext) (key : bytes) : Type :=
| pf_file (b comment : bytes) : len b < 2^32 -> pub_file E b key comment -> public_form E key
| pf_text (s : bytes) : len s < 2^32 -> b64_text (unbroken s) (wire_key key) \/ b64_text (unbroken s) key /\ ~ foreign_blob key -> public_form E key
| pf_entry (f : bytes) (entries : list (bytes * bytes)) (i : nat) (comment : bytes) :
    auth_file f entries -> nth_error entries i = Some (key, comment) -> public_form E key.
(** reading it: MakePublicKey / ReadPublicKey, MakePublicKeyFromString, ParseAuthorizedKeys *)
Definition read_as (C : crypto) {E key} (p : public_form E key) (pk : pubkey) : Prop :=
  match p with
  | pf_file _ _ b _ _ _ => make_public_key C E b = Ok pk
  | pf_text _ _ s _ _ => make_public_from_string C s = Ok (Some pk)
  | pf_entry _ _ f _ i _ _ _ => exists ks, parse_authorized_keys C f = Ok ks /\ nth_error ks i = Some pk
  end.

Lemma form_loads C E key (p : public_form E key) : len key = 32 ->
  (exists pk, read_as C p pk) /\ (forall pk, read_as C p pk -> exists comment, loaded C key comment pk).
Proof.
  intros Hk. destruct p as [b comment Hb H|s Hs H|f es i comment Hf Hi]; cbn [read_as].
  - split.
    + eexists. apply C67_public_exact; [exact Hb|]. exists key, comment. split; [exact H|reflexivity].
    + intros pk Hp. apply C67_public_exact in Hp; [|exact Hb]. destruct Hp as (k & c & H2 & ->).
      assert (X1 : make_public_key C E b = Ok (mkPub key comment None (take 16 (sha256 C key)))) by (apply C67_public_exact; [exact Hb|eauto]).
      assert (X2 : make_public_key C E b = Ok (mkPub k c None (take 16 (sha256 C k)))) by (apply C67_public_exact; [exact Hb|eauto]).
      rewrite X1 in X2. injection X2 as <- <- _. exists comment. reflexivity.
  - assert (X : exists blob c, b64_text (unbroken s) blob /\ loaded C key c (mkPub key c None (take 16 (sha256 C key))) /\
      make_public_from_string C s = Ok (Some (mkPub key c None (take 16 (sha256 C key))))).
    { destruct H as [H|[H F]].
      - exists (wire_key key), (str "command-line-pk"). split; [exact H|]. split; [reflexivity|]. apply C54_string_exact; [exact Hs|]. exists (wire_key key). split; [exact H|].
        left. exists key. split; [exact Hk|]. split; reflexivity.
      - exists key, []. split; [exact H|]. split; [reflexivity|]. apply C54_string_exact; [exact Hs|]. exists key. split; [exact H|]. right. split; [exact Hk|]. split; [exact F|reflexivity]. }
    destruct X as (blob & c & _ & Hl & Hm). split; [eauto|]. intros pk Hp. rewrite Hm in Hp. injection Hp as <-. eauto.
  - destruct (C38_entries_partial C f es Hf) as (pks & Hp & H2).
    assert (X : forall i kc, nth_error es i = Some kc -> exists pk, nth_error pks i = Some pk /\ loaded C (fst kc) (snd kc) pk).
    { clear - H2. induction H2 as [|kc pk es pks H H2 IH]; intros i kc' Hi; [destruct i; discriminate|].
      destruct i as [|i]; [injection Hi as <-; exists pk; auto|exact (IH _ _ Hi)]. }
    destruct (X _ _ Hi) as (pk & Hn & Hl). split; [exists pk, pks; auto|].
    intros pk' (ks & Hp' & Hn'). rewrite Hp in Hp'. injection Hp' as <-. rewrite Hn in Hn'. injection Hn' as <-. exists comment. exact Hl.
Qed.

(** Take any file that holds the private key of a seed (YAML with any password and scrypt parameters, OpenSSH plain or encrypted)
    and any form that holds its public key.  Both are read successfully; what the one signs the other verifies, and they name the
    same key; whoever encrypts to the public key can be read with the private one, by Decrypt, and the authenticated sender is
    reported; and with the private key as the sender, the public key vouches for it. *)
Theorem C88_any_form :
  forall C E, crypto_ok C -> forall seed, len seed = 32 -> let pub := ed_public C seed in
  forall b getpw, (forall blk, pem_decode E b = Some blk -> len (pem_bytes blk) < 2^32 /\ 0 <= pem_spare blk) -> key_file C E getpw b (seed ++ pub) ->
  forall (p : public_form E pub),
  (exists sk, make_private_key C E b getpw = Ok sk) /\ (exists pk, read_as C p pk) /\
  forall sk pk, make_private_key C E b getpw = Ok sk -> read_as C p pk ->
    (forall f content, holds f content -> exists s, sign_file C sk f = Ok s /\ is_pk_match s pk = true /\
       forall f', holds f' content -> verify_file C pk f' s = Ok true) /\
    (forall sender blksize pks e s file0 spk, made C sender blksize pks e s file0 -> In pk pks -> sender_matches C sender spk -> no_accident C (e_hdr e) seed (e_key e) ->
       forall file ef, delivers file file0 ef -> exists d, opened_by C file sk spk d /\ authenticated_sender d = signed sender /\
       forall out, accepts out -> exists d' out', decrypt C d out = (d', out', Ok tt) /\ wrote out out' s) /\
    (forall blksize pks e s file0 seed' pk' sk', made C (Some sk) blksize pks e s file0 -> In pk' pks -> pubof C seed' pk' -> keypair C seed' sk' -> no_accident C (e_hdr e) seed' (e_key e) ->
       forall file ef, delivers file file0 ef -> exists d, opened_by C file sk' (Some pk) d /\ authenticated_sender d = true /\
       forall out, accepts out -> exists d' out', decrypt C d out = (d', out', Ok tt) /\ wrote out out' s).
Proof.
  intros C E HC seed Hs pub b getpw Hb Hkf p.
  assert (Lp : len pub = 32) by apply (ok_ed_public_len C HC).
  destruct (form_loads C E pub p Lp) as (Hex & Hall).
  split; [eexists; apply C67_private_exact; [exact HC|exact Hb|eauto]|]. split; [exact Hex|].
  intros sk pk Hsk Hpk. destruct (Hall _ Hpk) as (comment & Hl).
  assert (sk = private_key_of C (seed ++ pub)) as ->.
  { assert (X : make_private_key C E b getpw = Ok (private_key_of C (seed ++ pub))) by (apply C67_private_exact; [exact HC|exact Hb|eauto]).
    rewrite X in Hsk. injection Hsk as <-. reflexivity. }
  assert (D : drop 32 (seed ++ pub) = pub) by (rewrite <- Hs; apply drop_app_exact).
  assert (K : keypair C seed (private_key_of C (seed ++ pub))).
  { constructor; cbn; [exact Hs|reflexivity|exact D|left; reflexivity]. }
  assert (N1 : named C (sk_pk (private_key_of C (seed ++ pub)))) by reflexivity.
  unfold loaded in Hl. subst pk.
  assert (N2 : named C (mkPub pub comment None (take 16 (sha256 C pub)))) by reflexivity.
  assert (P : pubof C seed (mkPub pub comment None (take 16 (sha256 C pub)))) by (constructor; cbn; auto).
  split; [|split].
  - destruct (C30_signatures_verify C HC seed _ _ K P N2 N1) as (_ & F & _). exact F.
  - intros sender blk pks e s file0 spk Hm Hin Hse Hna file ef Hf.
    destruct (made_readable C _ _ _ _ _ _ HC Hm _ _ _ _ _ _ Hf Hin P K Hse Hna) as (d & H1 & H2 & H3 & _). eauto.
  - intros blk pks e s file0 seed' pk' sk' Hm Hin P' K' Hna file ef Hf.
    assert (Hse : sender_matches C (Some (private_key_of C (seed ++ pub))) (Some (mkPub pub comment None (take 16 (sha256 C pub))))) by (exists seed; eauto).
    destruct (made_readable C _ _ _ _ _ _ HC Hm _ _ _ _ _ _ Hf Hin P' K' Hse Hna) as (d & H1 & H2 & H3 & _). exists d. split; [exact H1|]. split; [exact H2|exact H3].
Qed.
Print Assumptions C88_any_form.

(** the key pair of A: an encrypted OpenSSH private key file, and its public key as an OpenSSH line, as text and in authorized_keys.
    A file encrypted to the key of the line is decrypted with the key of the private key file. *)
Definition getpw1 : getpw_fn := Some (Ok (str "secret")).
Definition stringA : bytes := Eval vm_compute in b64_encode (wire_key Thm_Ssh.keyA).
Definition pkL : pubkey := Eval vm_compute in match make_public_key toy toyE lineA with Ok pk => pk | _ => zero_pub end.
Definition skL : privkey := Eval vm_compute in match make_private_key toy toyE sshA getpw1 with Ok sk => sk | _ => skA end.
Definition eL : encryptor := Eval vm_compute in match mk_session None 4 [pkL] with Some (e, _) => e | None => dummy end.
Definition gL : rng := mkRng (tape g0) 108.
Definition fileL : bytes := Eval vm_compute in match encrypt toy eL src dst gL with (_, _, w, _, Ok _) => w_out w | _ => [] end.
Example C88_instance :
  len seedA = 32 /\ key_file toy toyE getpw1 sshA (seedA ++ ed_public toy seedA) /\ make_private_key toy toyE sshA getpw1 = Ok skL /\
  (exists p q r : public_form toyE (ed_public toy seedA), read_as toy p pkL /\ read_as toy q (mkPub Thm_Ssh.keyA (str "command-line-pk") None (pk_hash pkL)) /\
     read_as toy r (mkPub Thm_Ssh.keyA (str "joe@host laptop") None (pk_hash pkL))) /\
  made toy None 4 [pkL] eL text fileL /\ no_accident toy (e_hdr eL) seedA (e_key eL).
Proof.
  destruct C67_instance as (B & _ & _ & K & _ & _ & _ & P & _ & L & _).
  assert (KA : Thm_Ssh.keyA = ed_public toy seedA) by (vm_compute; reflexivity).
  split; [vm_compute; reflexivity|]. split.
  { replace (seedA ++ ed_public toy seedA) with skbytes by (vm_compute; reflexivity). exact K. }
  split; [vm_compute; reflexivity|]. split.
  { assert (P' : pub_file toyE lineA (ed_public toy seedA) (str "a@b")) by exact P.
    assert (Q : b64_text (unbroken stringA) (wire_key (ed_public toy seedA))).
    { replace (unbroken stringA) with (b64_encode (wire_key Thm_Ssh.keyA)) by (vm_compute; reflexivity). rewrite KA. apply C40_round_trip. }
    assert (Lq : len stringA < 2^32) by (vm_compute; reflexivity).
    assert (R : nth_error [(Thm_Ssh.keyA, str "joe@host laptop"); (Thm_Ssh.keyB, [])] 0 = Some (ed_public toy seedA, str "joe@host laptop")) by (rewrite <- KA; reflexivity).
    exists (pf_file _ _ _ _ L P'), (pf_text _ _ _ Lq (or_introl Q)), (pf_entry _ _ _ _ _ _ file_ok R).
    cbn [read_as]. split; [vm_compute; reflexivity|]. split; [vm_compute; reflexivity|].
    destruct (parse_authorized_keys toy keys_file) as [ks|x|x] eqn:X; [|vm_compute in X; discriminate X|vm_compute in X; discriminate X].
    exists ks. split; [reflexivity|]. vm_compute in X. injection X as <-. vm_compute. reflexivity. }
  split; [|apply no_accident_ok; vm_compute; reflexivity].
  split; [lia|]. split; [cbn; lia|]. split; [discriminate|]. left.
  assert (M : exists e r w g, encrypt toy eL src dst gL = (e, r, w, g, Ok tt) /\ w_out w = fileL) by (apply enc_made_ok; vm_compute; reflexivity).
  destruct M as (e & r & w & g & He & Hw). exists g0, gL, src, IoEOF, dst, e, r, w, g.
  split; [apply mk_session_ok; vm_compute; reflexivity|]. split; [apply src_delivers|]. auto.
Qed.
