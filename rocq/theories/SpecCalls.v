(** Arbitrary sequences of calls on one Encryptor and on one Decryptor, with all the stream writers and readers made from it. *)
From Verif Require Import Bytes GoErr GoIO SpecIO Crypto Keys Encrypt Decrypt Stream.

(** ** One Encryptor *)
(** the encryptor, the random source, and the stream writers made so far, each with its destination *)
Record eobj : Type := mkEobj { es_enc : encryptor; es_rng : rng; es_streams : list (encw * writer) }.
Inductive ecall : Type :=
| EAdd (pk : pubkey)                    (* AddRecipient *)
| EEncrypt (rd : reader) (wr : writer)  (* Encrypt *)
| EStream (wr : writer)                 (* NewStreamWriter; the new writer is the last one in es_streams *)
| EWrite (i : nat) (b : bytes)          (* Write on the i-th stream writer *)
| EClose (i : nat).                     (* Close of the i-th stream writer *)
(** what a call returned, and the destination of Encrypt (or of a failed NewStreamWriter) afterwards.  A call on a stream writer that
    does not exist returns nothing. *)
Inductive eret : Type := ERet (r : res unit) (dst : option writer) | ENone.

Definition set_nth {A} (l : list A) (i : nat) (x : A) : list A := firstn i l ++ x :: skipn (S i) l.

Definition estep (C : crypto) (st : eobj) (c : ecall) : eobj * eret :=
  match c with
  | EAdd pk => let '(e, _, g, r) := add_recipient C (es_enc st) pk (es_rng st) in (mkEobj e g (es_streams st), ERet r None)
  | EEncrypt rd wr => let '(e, _, wr', g, r) := encrypt C (es_enc st) rd wr (es_rng st) in (mkEobj e g (es_streams st), ERet r (Some wr'))
  | EStream wr =>
      let '(e, wr', r) := new_stream_writer C (es_enc st) wr in
      match r with
      | Ok s => (mkEobj e (es_rng st) (es_streams st ++ [(s, wr')]), ERet (Ok tt) None)
      | Fail x => (mkEobj e (es_rng st) (es_streams st), ERet (Fail x) (Some wr'))
      | Panic p => (mkEobj e (es_rng st) (es_streams st), ERet (Panic p) (Some wr'))
      end
  | EWrite i b =>
      match nth_error (es_streams st) i with
      | Some (s, wr) => let '(e, wr', g, s', (_, r)) := ew_write C (es_enc st) wr (es_rng st) s b in
                        (mkEobj e g (set_nth (es_streams st) i (s', wr')), ERet r None)
      | None => (st, ENone)
      end
  | EClose i =>
      match nth_error (es_streams st) i with
      | Some (s, wr) => let '(e, wr', g, s', r) := ew_close C (es_enc st) wr (es_rng st) s in
                        (mkEobj e g (set_nth (es_streams st) i (s', wr')), ERet r None)
      | None => (st, ENone)
      end
  end.
Fixpoint ecalls (C : crypto) (st : eobj) (cs : list ecall) : eobj * list eret :=
  match cs with
  | [] => (st, [])
  | c :: cs' => let '(st1, r) := estep C st c in let '(st2, rs) := ecalls C st1 cs' in (st2, r :: rs)
  end.
(** Encrypt or NewStreamWriter *)
Definition starts (c : ecall) : Prop := match c with EEncrypt _ _ | EStream _ => True | _ => False end.

(** ** One Decryptor *)
(** the decryptor, and the stream readers made so far, each with what it keeps of a former buffer of the decryptor (Stream.v, er_keep) *)
Record dobj : Type := mkDobj { ds_dec : decryptor; ds_streams : list (encr * option bytes) }.
Inductive dcall : Type :=
| DSet (sk : privkey) (spk : option pubkey)  (* SetPrivateKey *)
| DDecrypt (wr : writer)                     (* Decrypt *)
| DStream                                    (* NewStreamReader *)
| DRead (i : nat) (n : Z).                   (* Read into n bytes from the i-th stream reader *)
Inductive dret : Type := DRet (r : res unit) (out : option writer) (got : bytes) | DNone.
(** SetPrivateKey allocates a new buffer when, and only when, it succeeds *)
Definition after_set (d : decryptor) (r : res unit) (ss : list (encr * option bytes)) : list (encr * option bytes) :=
  match r with Ok _ => map (er_keep d) ss | _ => ss end.
Definition dstep (C : crypto) (st : dobj) (c : dcall) : dobj * dret :=
  match c with
  | DSet sk spk => let '(d, _, r) := set_private_key C (ds_dec st) sk spk in (mkDobj d (after_set (ds_dec st) r (ds_streams st)), DRet r None [])
  | DDecrypt wr => let '(d, wr', r) := decrypt C (ds_dec st) wr in (mkDobj d (ds_streams st), DRet r (Some wr') [])
  | DStream =>
      let '(d, r) := new_stream_reader (ds_dec st) in
      match r with
      | Ok s => (mkDobj d (ds_streams st ++ [(s, None)]), DRet (Ok tt) None [])
      | Fail x => (mkDobj d (ds_streams st), DRet (Fail x) None [])
      | Panic p => (mkDobj d (ds_streams st), DRet (Panic p) None [])
      end
  | DRead i n =>
      match nth_error (ds_streams st) i with
      | Some s => let '(d, s', (b, r)) := er_read_kept C (ds_dec st) s n in (mkDobj d (set_nth (ds_streams st) i s'), DRet r None b)
      | None => (st, DNone)
      end
  end.
Fixpoint dcalls (C : crypto) (st : dobj) (cs : list dcall) : dobj * list dret :=
  match cs with
  | [] => (st, [])
  | c :: cs' => let '(st1, r) := dstep C st c in let '(st2, rs) := dcalls C st1 cs' in (st2, r :: rs)
  end.

(** ** Files *)
(** NewDecryptor refuses every source that delivers [s] *)
Definition refused (C : crypto) (s : bytes) : Prop :=
  forall rd er, delivers rd s er -> forall d rd', new_decryptor C rd <> (Ok d, rd').
