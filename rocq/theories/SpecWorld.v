(** One process: any number of Encryptors and Decryptors at work at the same time.  They share the random source of the process and the key
    objects which AddRecipient and SetPrivateKey write their conversion caches into. *)
From Verif Require Import Bytes GoErr GoIO Crypto Keys Encrypt Decrypt Stream SpecCalls.

(** the shared random source, the shared key objects, the Encryptors (with their stream writers and these writers' destinations), the
    Decryptors (with their stream readers) *)
Record world : Type := mkWorld {
  wd_rng : rng; wd_pks : list pubkey; wd_sks : list privkey;
  wd_encs : list (encryptor * list (encw * writer)); wd_decs : list dobj }.
(** One call of somebody.  Calls follow one another in any order (a schedule); a call is not interrupted.  Objects are numbered in the order
    they were made. *)
Inductive xcall : Type :=
| XNewEnc (sender : option privkey) (blksize : Z)       (* NewEncryptor *)
| XAdd (i k : nat)                                      (* AddRecipient on Encryptor i with the shared public key k *)
| XEnc (i : nat) (c : ecall)                            (* any other call on Encryptor i or its stream writers *)
| XNewDec (rd : reader)                                 (* NewDecryptor *)
| XSet (i k : nat) (spk : option pubkey)                (* SetPrivateKey on Decryptor i with the shared private key k *)
| XDec (i : nat) (c : dcall).                           (* any other call on Decryptor i or its stream readers *)
(** what it returned; [XNone]: there is no such object *)
Inductive xret : Type := XNone | XEncMade (i : nat) | XDecMade (i : nat) | XFailed | XE (r : eret) | XD (r : dret).

Definition xstep (C : crypto) (w : world) (c : xcall) : world * xret :=
  match c with
  | XNewEnc sender blksize =>
      match new_encryptor C sender blksize (wd_rng w) with
      | (Ok e, g) => (mkWorld g (wd_pks w) (wd_sks w) (wd_encs w ++ [(e, [])]) (wd_decs w), XEncMade (length (wd_encs w)))
      | (_, g) => (mkWorld g (wd_pks w) (wd_sks w) (wd_encs w) (wd_decs w), XFailed)
      end
  | XAdd i k =>
      match nth_error (wd_encs w) i, nth_error (wd_pks w) k with
      | Some (e, ss), Some pk =>
          let '(e', pk', g, r) := add_recipient C e pk (wd_rng w) in
          (mkWorld g (set_nth (wd_pks w) k pk') (wd_sks w) (set_nth (wd_encs w) i (e', ss)) (wd_decs w), XE (ERet r None))
      | _, _ => (w, XNone)
      end
  | XEnc i c =>
      match nth_error (wd_encs w) i with
      | Some (e, ss) =>
          let '(st, r) := estep C (mkEobj e (wd_rng w) ss) c in
          (mkWorld (es_rng st) (wd_pks w) (wd_sks w) (set_nth (wd_encs w) i (es_enc st, es_streams st)) (wd_decs w), XE r)
      | None => (w, XNone)
      end
  | XNewDec rd =>
      match new_decryptor C rd with
      | (Ok d, _) => (mkWorld (wd_rng w) (wd_pks w) (wd_sks w) (wd_encs w) (wd_decs w ++ [mkDobj d []]), XDecMade (length (wd_decs w)))
      | _ => (w, XFailed)
      end
  | XSet i k spk =>
      match nth_error (wd_decs w) i, nth_error (wd_sks w) k with
      | Some st, Some sk =>
          let '(d', sk', r) := set_private_key C (ds_dec st) sk spk in
          (mkWorld (wd_rng w) (wd_pks w) (set_nth (wd_sks w) k sk') (wd_encs w) (set_nth (wd_decs w) i (mkDobj d' (after_set (ds_dec st) r (ds_streams st)))), XD (DRet r None []))
      | _, _ => (w, XNone)
      end
  | XDec i c =>
      match nth_error (wd_decs w) i with
      | Some st => let '(st', r) := dstep C st c in
                   (mkWorld (wd_rng w) (wd_pks w) (wd_sks w) (wd_encs w) (set_nth (wd_decs w) i st'), XD r)
      | None => (w, XNone)
      end
  end.
(** a history: calls with what they returned *)
Inductive happens (C : crypto) (w0 : world) : list (xcall * xret) -> world -> Prop :=
| hp_start : happens C w0 [] w0
| hp_call h w c w' r : happens C w0 h w -> xstep C w c = (w', r) -> happens C w0 (h ++ [(c, r)]) w'.

(** the part of a history that concerns Encryptor i (Decryptor i), as calls with key values ([pks], [sks]: the key objects as they were in
    the beginning) *)
Definition on_enc (pks : list pubkey) (i : nat) (x : xcall * xret) : list (ecall * eret) :=
  match x with
  | (XAdd j k, XE r) => if Nat.eqb j i then match nth_error pks k with Some pk => [(EAdd pk, r)] | None => [] end else []
  | (XEnc j c, XE r) => if Nat.eqb j i then [(c, r)] else []
  | _ => []
  end.
Definition on_dec (sks : list privkey) (i : nat) (x : xcall * xret) : list (dcall * dret) :=
  match x with
  | (XSet j k spk, XD r) => if Nat.eqb j i then match nth_error sks k with Some sk => [(DSet sk spk, r)] | None => [] end else []
  | (XDec j c, XD r) => if Nat.eqb j i then [(c, r)] else []
  | _ => []
  end.
(** key objects: not converted yet, or with the right conversion in the cache *)
Definition right_pk (pk : pubkey) : Prop := pk_ck pk = None \/ (len (pk_Pk pk) <= 32 /\ pk_ck pk = Some (curve_of (pk_Pk pk))).
Definition right_sk (C : crypto) (sk : privkey) : Prop := sk_ck sk = None \/ sk_ck sk = Some (clamp (take 32 (sha512 C (take 32 (sk_Sk sk))))).
