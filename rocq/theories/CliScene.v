(** A concrete directory for the command theorems. *)
From Verif Require Import Bytes BytesLemmas GoErr GoIO Crypto CryptoLaws Keys Sign SpecSign Encrypt Decrypt Base64 KeyFiles ExtLaws GoText Ssh SpecSsh
  Fs SpecFs Store Cli Toy Scene ToyExt Thm_Ssh.
Require Import ZifyBool.

Definition keytext (sk : privkey) (pw : bytes) : bytes := match marshal_private toy toyE sk (str "me") pw g0 with (Ok b, _) => b | _ => [] end.
Definition sk_text : bytes := Eval vm_compute in keytext skS (str "pass").
Definition ak_text : bytes := Eval vm_compute in keytext skA [].
Definition apub : bytes := Eval vm_compute in marshal_public toyE pkA (str "alice").
Definition spub : bytes := Eval vm_compute in marshal_public toyE pkS (str "sender").
Definition auth_text : bytes := Eval vm_compute in str "# keys" ++ [x0a] ++ str "ssh-ed25519 " ++ b64_encode (wire_key (pk_Pk pkB)) ++ str " bob@host" ++ [x0a].
Definition files : list (bytes * slot * bytes) :=
  [(str "a.pub", 11, apub); (str "s.pub", 12, spub); (str "s.key", 13, sk_text); (str "a.key", 14, ak_text); (str "plain", 15, text);
   (str "/h/.ssh/authorized_keys", 16, auth_text); (str "signed", 17, file1); (str "anon", 18, file2)].
Fixpoint place_in (l : list (bytes * slot * bytes)) (p : bytes) : slot :=
  match l with [] => 1000 + unle p | (n, s, _) :: l' => if beq n p then s else place_in l' p end.
Fixpoint find_slot (l : list (bytes * slot * bytes)) (s : slot) : option bytes :=
  match l with [] => None | (_, s', b) :: l' => if s =? s' then Some b else find_slot l' s end.
Definition dir (l : list (bytes * slot * bytes)) : fs :=
  mkFs (fun s => match find_slot l s with Some _ => Some (NFile (s + 100)) | None => None end)
       (fun i => match find_slot l (i - 100) with Some b => b | None => [] end) (fun _ => oct 6 4 4).
(** files are read in pieces of 7 bytes and then the rest, mapped in two windows *)
Definition mk_world (l : list (bytes * slot * bytes)) : world :=
  mkWorld (dir l) (place_in l) (fun p => p) (fun _ => None) (fun _ b => [(take 7 b, None); (drop 7 b, None)]) (fun _ b => Opened [take 4 b; drop 4 b] None)
    (fun v => if beq v (str "PW") then str "pass" else []) (Some (str "pass")) (Some (str "/h"))
    [(str "std", None); (str "in", None)] (mkWriter [] [] [] 0) g0 (fun s => if beq s (str "4") then Ok 4 else Fail (EMsg "size")).
Definition town : world := mk_world files.

Lemma dir_fresh l v dst : (forall s b, find_slot l s = Some b -> 0 < s /\ s <> se_tmp v) -> se_ino v < 100 -> se_tmp v <> dst -> fresh v (dir l) dst.
Proof.
  intros H Hi Hd. split; [exact Hd|]. unfold dir; cbn [f_node]. split; [|split].
  - destruct (find_slot l (se_tmp v)) eqn:E; [|reflexivity]. apply H in E. lia.
  - intros s. destruct (find_slot l s); discriminate.
  - intros s. destruct (find_slot l s) eqn:E; [|discriminate]. apply H in E. intros X. assert (s + 100 = se_ino v) by congruence. lia.
Qed.
Lemma files_low s b : find_slot files s = Some b -> 10 < s.
Proof. unfold files. cbn [find_slot]. repeat match goal with |- context [?a =? ?b] => destruct (Z.eqb_spec a b); [intros _; lia|] end. discriminate. Qed.
Lemma dir_leads l dst q : leads (dir l) dst q -> q = dst.
Proof. intros H. inversion H as [|? t Hn]; [reflexivity|]. unfold dir in Hn. cbn [f_node] in Hn. destruct (find_slot l q); discriminate Hn. Qed.
(** SafeFiles: all goes well, writes being split; the disk is full after 3 bytes; the rename fails *)
Definition sf1 : sf_env := mkSf 5 50 None [(2, None)] None None None (oct 0 2 2).
Definition sf2 : sf_env := mkSf 6 60 None [] None None None (oct 0 2 2).
Definition sf_full : sf_env := mkSf 5 50 None [(3, None); (0, Some (EExt 28))] None None None (oct 0 2 2).
Definition sf_noren : sf_env := mkSf 5 50 None [] None None (Some (EExt 5)) (oct 0 2 2).
Lemma town_fresh v dst : se_tmp v <= 10 -> se_ino v < 100 -> se_tmp v <> dst -> fresh v (wo_fs town) dst.
Proof. intros H1 H2 H3. apply dir_fresh; [|exact H2|exact H3]. intros s b E. apply files_low in E. lia. Qed.
