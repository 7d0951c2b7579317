(** Goroutines: any number of callers at work at the same time, each with Encryptors and Decryptors of its own, all of them with the same
    key objects and the one random source.  The code has no locks; what the callers share is touched in single steps, and the steps of the
    callers may be interleaved in any way.

    Shared: the random source (crypto/rand.Reader, one Read is one step); the conversion caches PublicKey.ck (/repo/sign/keys.go:433-463)
    and PrivateKey.ck (keys.go:198-208).  The other fields of key objects are only read by these calls.

    Simplification: a slice variable is read or written in one step.  Go does not promise this (see [words_pk] below and C94_torn_refuted). *)
From Verif Require Import Bytes GoErr GoIO Pb Crypto Keys Sign Encrypt Decrypt Stream SpecCalls SpecWorld.

(** a shared variable: of a public or private key, the number of the key, and (only in the word-by-word version) which word of the slice *)
Inductive cell : Type := PkCache (k word : nat) | SkCache (k word : nat).
Definition cell_eqb (a b : cell) : bool :=
  match a, b with
  | PkCache k w, PkCache k' w' | SkCache k w, SkCache k' w' => Nat.eqb k k' && Nat.eqb w w'
  | _, _ => false
  end.

(** what remains to be done of a call: it returns, or makes one step on shared data and goes on *)
Inductive prog (A : Type) : Type :=
| Ret (a : A)
| Rand (f : rng -> prog A * rng)                       (* one use of the random source *)
| Load (c : cell) (k : option bytes -> prog A)         (* None: nil *)
| Store (c : cell) (v : option bytes) (k : prog A).
Arguments Ret {A} a.
Arguments Rand {A} f.
Arguments Load {A} c k.
Arguments Store {A} c v k.

(** rand.go:35-45 randRead *)
Definition draw {A} (n : Z) (k : bytes -> prog A) : prog A := Rand (fun g => let '(b, g') := rand_buf n g in (k b, g')).

(** a slice variable as a value: nil has no bytes *)
Definition slice (v : option bytes) : bytes := match v with Some b => b | None => [] end.
Definition pk_with (pk : pubkey) (c : option bytes) : pubkey := mkPub (pk_Pk pk) (pk_comment pk) c (pk_hash pk).
Definition sk_with (sk : privkey) (c : option bytes) : privkey := mkPriv (sk_Sk sk) c (sk_pk sk).

(** keys.go:432-465 ToCurve25519PK on shared key number k, then [K] with the result; line 433 reads the cache, line 434 reads it again,
    line 463 writes it.  [P]: what happens if the computation panics. *)
Definition conv_pk {A} (k : nat) (pk : pubkey) (K : res bytes -> prog A) : prog A :=
  Load (PkCache k 0) (fun c =>
    match c with
    | Some _ => Load (PkCache k 0) (fun c' => K (Ok (slice c')))
    | None => match to_curve_pk (pk_with pk None) with
              | Ok (out, _) => Store (PkCache k 0) (Some out) (K (Ok out))
              | Fail x => K (Fail x)
              | Panic p => K (Panic p)
              end
    end).
(** keys.go:196-209 ToCurve25519SK on shared key number k: lines 198, 205, 208 *)
Definition conv_sk {A} (C : crypto) (k : nat) (sk : privkey) (K : bytes -> prog A) : prog A :=
  Load (SkCache k 0) (fun c =>
    match c with
    | Some _ => Load (SkCache k 0) (fun c' => K (slice c'))
    | None => Store (SkCache k 0) (Some (fst (to_curve_sk C (sk_with sk None)))) (Load (SkCache k 0) (fun c' => K (slice c')))
    end).

(** encrypt.go:169-181, 755-796 AddRecipient with shared key number k; the random nonce is drawn (line 767) when the key exchange has
    succeeded.  What is left to do then is what [add_recipient] does with the converted key at hand. *)
Definition add_prog {A} (C : crypto) (conv : (res bytes -> prog A) -> prog A) (e : encryptor) (pk : pubkey)
  (K : encryptor -> res unit -> prog A) : prog A :=
  if e_started e then K e (Fail ErrEncStarted)
  else conv (fun r =>
    match r with
    | Fail x => K e (Fail x)
    | Panic p => K e (Panic p)
    | Ok ck =>
        match X25519 C (e_encSK e) ck with
        | Ok _ => Rand (fun g => let '(e', _, g', r) := add_recipient C e (pk_with pk (Some ck)) g in (K e' r, g'))
        | Fail x => K e (Fail (EWrap "wrap" x))
        | Panic p => K e (Panic p)
        end
    end).

(** encrypt.go:469-481, 798-800: the loop of SetPrivateKey over the wrapped keys; every round converts the private key *)
Fixpoint find_prog {A} (C : crypto) (conv : (bytes -> prog A) -> prog A) (h : header) (ks : list wkey) (sk : privkey) (K : res bytes -> prog A) : prog A :=
  match ks with
  | [] => K (Fail ErrBadKey)
  | w :: ks' => conv (fun c =>
      match fst (unwrap_key C h w (sk_with sk (Some c))) with
      | Ok (Some key) => K (Ok key)
      | Ok None => find_prog C conv h ks' sk K
      | Fail x => K (Fail (EWrap "decrypt: can't unwrap key" x))
      | Panic p => K (Panic p)
      end)
  end.
(** encrypt.go:482-517: the rest of SetPrivateKey, as in [set_private_key] *)
Definition set_rest (C : crypto) (d : decryptor) (senderPk : option pubkey) (found : res bytes) : decryptor * res unit :=
  match found with
  | Fail x => (d, Fail x)
  | Panic p => (d, Panic p)
  | Ok key =>
      let d1 auth := mkDec (d_hdr d) (d_ae d) (d_hmac d) senderPk (d_rd d) (d_buf d) (d_buflen d)
                           (d_nonce d) (Some key) (d_hdrsum d) auth (d_eof d) (d_stream d) in
      match verify_sender C (d_hdr d) key senderPk with
      | Fail x => (d1 (d_auth d), Fail (EWrap "decrypt" x))
      | Panic p => (d1 (d_auth d), Panic p)
      | Ok signed =>
          let auth := d_auth d || signed in
          let buf := expand C (sha256_size + aes_key_size + aead_nonce_size) key (d_hdrsum d) data_key_expansion in
          let nonce := take aead_nonce_size buf in
          let buf := drop aead_nonce_size buf in
          let dkey := take aes_key_size buf in
          let hmackey := drop aes_key_size buf in
          match new_gcm dkey with
          | Fail x => (mkDec (d_hdr d) (d_ae d) (Some (hmackey, [])) senderPk (d_rd d) (d_buf d) (d_buflen d)
                             nonce (Some key) (d_hdrsum d) auth (d_eof d) (d_stream d), Fail (EWrap "decrypt" x))
          | Panic p => (d1 auth, Panic p)
          | Ok ae =>
              (mkDec (d_hdr d) (Some ae) (Some (hmackey, [])) senderPk (d_rd d) []
                     (h_chunk (d_hdr d) + gcm_overhead) nonce (Some key) (d_hdrsum d) auth (d_eof d) (d_stream d), Ok tt)
          end
      end
  end.

(** ** One goroutine *)
(** its own objects *)
Record loc : Type := mkLoc { l_encs : list (encryptor * list (encw * writer)); l_decs : list dobj }.
(** the calls, in the notation of SpecWorld.v; the objects are those of the goroutine.  NewEncryptor makes three separate draws
    (encrypt.go:127-167, 873-881); any other call on an Encryptor at most one (the trailer of an unsigned file, encrypt.go:343; or the nonce
    of AddRecipient with a key object that is not shared). *)
Definition call_prog (C : crypto)
  (cpk : nat -> pubkey -> (res bytes -> prog (loc * xret)) -> prog (loc * xret))
  (csk : nat -> privkey -> (bytes -> prog (loc * xret)) -> prog (loc * xret))
  (pks : list pubkey) (sks : list privkey) (l : loc) (c : xcall) : prog (loc * xret) :=
  match c with
  | XNewEnc sender blksize =>
      draw 32 (fun r => draw aes_key_size (fun key => draw salt_size (fun salt =>
        Ret (let csk := clamp r in let epk := x25519 C csk basepoint in
             match add_sender_sig C sender epk salt key with
             | Ok (snd_, auth) =>
                 (mkLoc (l_encs l ++ [(mkEnc (mkHeader (block_size blksize) salt epk snd_ [] []) key [] 0 None None csk sender auth false false, [])]) (l_decs l),
                  XEncMade (length (l_encs l)))
             | _ => (l, XFailed)
             end))))
  | XAdd i k =>
      match nth_error (l_encs l) i, nth_error pks k with
      | Some (e, ss), Some pk =>
          add_prog C (cpk k pk) e pk (fun e' r => Ret (mkLoc (set_nth (l_encs l) i (e', ss)) (l_decs l), XE (ERet r None)))
      | _, _ => Ret (l, XNone)
      end
  | XEnc i c =>
      match nth_error (l_encs l) i with
      | Some (e, ss) => Rand (fun g => let '(st, r) := estep C (mkEobj e g ss) c in
          (Ret (mkLoc (set_nth (l_encs l) i (es_enc st, es_streams st)) (l_decs l), XE r), es_rng st))
      | None => Ret (l, XNone)
      end
  | XNewDec rd =>
      match new_decryptor C rd with
      | (Ok d, _) => Ret (mkLoc (l_encs l) (l_decs l ++ [mkDobj d []]), XDecMade (length (l_decs l)))
      | _ => Ret (l, XFailed)
      end
  | XSet i k spk =>
      match nth_error (l_decs l) i, nth_error sks k with
      | Some st, Some sk =>
          find_prog C (csk k sk) (d_hdr (ds_dec st)) (h_keys (d_hdr (ds_dec st))) sk (fun found =>
            let '(d', r) := set_rest C (ds_dec st) spk found in
            Ret (mkLoc (l_encs l) (set_nth (l_decs l) i (mkDobj d' (after_set (ds_dec st) r (ds_streams st)))), XD (DRet r None [])))
      | _, _ => Ret (l, XNone)
      end
  | XDec i c =>
      match nth_error (l_decs l) i with
      | Some st => let '(st', r) := dstep C st c in Ret (mkLoc (l_encs l) (set_nth (l_decs l) i st'), XD r)
      | None => Ret (l, XNone)
      end
  end.

(** ** All of them *)
(** the calls still to be made, the call at work, the objects, and the calls made with what they returned *)
Record goroutine : Type := mkGo { t_todo : list xcall; t_cur : option (xcall * prog (loc * xret)); t_loc : loc; t_done : list (xcall * xret) }.
Record machine : Type := mkM { m_rng : rng; m_cells : cell -> option bytes; m_gos : list goroutine }.
(** one step of goroutine i: it begins its next call, makes one step on shared data, or returns from the call *)
Definition step (call : loc -> xcall -> prog (loc * xret)) (m : machine) (i : nat) : machine :=
  match nth_error (m_gos m) i with
  | None => m
  | Some t =>
      let put g cells t' := mkM g cells (set_nth (m_gos m) i t') in
      match t_cur t with
      | None => match t_todo t with
                | [] => m
                | c :: cs => put (m_rng m) (m_cells m) (mkGo cs (Some (c, call (t_loc t) c)) (t_loc t) (t_done t))
                end
      | Some (c, Ret (l, r)) => put (m_rng m) (m_cells m) (mkGo (t_todo t) None l (t_done t ++ [(c, r)]))
      | Some (c, Rand f) => let '(p, g) := f (m_rng m) in put g (m_cells m) (mkGo (t_todo t) (Some (c, p)) (t_loc t) (t_done t))
      | Some (c, Load x k) => put (m_rng m) (m_cells m) (mkGo (t_todo t) (Some (c, k (m_cells m x))) (t_loc t) (t_done t))
      | Some (c, Store x v k) => put (m_rng m) (fun y => if cell_eqb y x then v else m_cells m y) (mkGo (t_todo t) (Some (c, k)) (t_loc t) (t_done t))
      end
  end.
(** a schedule says who makes the next step *)
Definition run (call : loc -> xcall -> prog (loc * xret)) (m : machine) (schedule : list nat) : machine := fold_left (step call) schedule m.
(** the beginning: the goroutines with the calls they are going to make *)
Definition begin_ (g : rng) (cells : cell -> option bytes) (todos : list (list xcall)) : machine :=
  mkM g cells (map (fun cs => mkGo cs None (mkLoc [] []) []) todos).
Definition cells_of (pks : list pubkey) (sks : list privkey) (c : cell) : option bytes :=
  match c with
  | PkCache k 0 => match nth_error pks k with Some pk => pk_ck pk | None => None end
  | SkCache k 0 => match nth_error sks k with Some sk => sk_ck sk | None => None end
  | _ => None
  end.
Definition call_code (C : crypto) (pks : list pubkey) (sks : list privkey) : loc -> xcall -> prog (loc * xret) :=
  call_prog C (fun k pk => conv_pk k pk) (fun k sk => conv_sk C k sk) pks sks.

(** ** Word by word *)
(** The same with a slice variable of two words, each read and written on its own: word 0 the pointer, word 1 the length (as four bytes;
    nil: 0).  Lines 433-434 read the pointer, then the pointer and the length; line 463 writes the pointer, then the length. *)
Definition words_pk {A} (k : nat) (pk : pubkey) (K : res bytes -> prog A) : prog A :=
  Load (PkCache k 0) (fun p =>
    match p with
    | Some _ => Load (PkCache k 0) (fun p' => Load (PkCache k 1) (fun n => K (Ok (take (match n with Some b => unbe32 b | None => 0 end) (slice p')))))
    | None => match to_curve_pk (pk_with pk None) with
              | Ok (out, _) => Store (PkCache k 0) (Some out) (Store (PkCache k 1) (Some (be32 (len out))) (K (Ok out)))
              | Fail x => K (Fail x)
              | Panic p => K (Panic p)
              end
    end).
