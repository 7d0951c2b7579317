(** Sequences of calls on stream writers and readers. *)
From Verif Require Import Bytes GoErr GoIO SpecIO Crypto Keys Encrypt Decrypt Stream Spec.

(** Write(b) for each b in turn, whatever each call returned; the results in order *)
Fixpoint write_all (C : crypto) (e : encryptor) (w : writer) (g : rng) (s : encw) (bs : list bytes)
  : encryptor * writer * rng * encw * list (Z * res unit) :=
  match bs with
  | [] => (e, w, g, s, [])
  | b :: bs' =>
      let '(e1, w1, g1, s1, r) := ew_write C e w g s b in
      let '(e2, w2, g2, s2, rs) := write_all C e1 w1 g1 s1 bs' in
      (e2, w2, g2, s2, r :: rs)
  end.

(** Read(buffer of n bytes) for each n in turn, whatever each call returned; the results in order *)
Fixpoint read_all (C : crypto) (d : decryptor) (s : encr) (ns : list Z)
  : decryptor * encr * list (bytes * res unit) :=
  match ns with
  | [] => (d, s, [])
  | n :: ns' =>
      let '(d1, s1, r) := er_read C d s n in
      let '(d2, s2, rs) := read_all C d1 s1 ns' in
      (d2, s2, r :: rs)
  end.
(** all the bytes the calls returned *)
Definition returned (rs : list (bytes * res unit)) : bytes := concat (map fst rs).

(** ** Produced files *)
(** [file] is what Encrypt wrote for plaintext [s] in a session with encryptor [e], returning nil *)
Definition made_by_encrypt (C : crypto) (sender : option privkey) (blksize : Z) (pks : list pubkey) (e : encryptor) (s file : bytes) : Prop :=
  exists g g' rd er wr e2 rd2 wr2 g2, session C sender blksize pks g e g' /\ delivers rd s er /\ w_out wr = [] /\
    encrypt C e rd wr g' = (e2, rd2, wr2, g2, Ok tt) /\ w_out wr2 = file.
(** [file] is what NewStreamWriter, Writes of all the bytes of [s] and a successful Close wrote *)
Definition made_by_stream (C : crypto) (sender : option privkey) (blksize : Z) (pks : list pubkey) (e : encryptor) (s file : bytes) : Prop :=
  exists g g' wr e1 wr1 w1 bs e2 wr2 g2 w2 rs e3 wr3 g3 w3, session C sender blksize pks g e g' /\ w_out wr = [] /\
    new_stream_writer C e wr = (e1, wr1, Ok w1) /\ write_all C e1 wr1 g' w1 bs = (e2, wr2, g2, w2, rs) /\
    ew_close C e2 wr2 g2 w2 = (e3, wr3, g3, w3, Ok tt) /\ concat bs = s /\ w_out wr3 = file.
(** either way, within the limits of C23 and C24, with a 64-byte sender key *)
Definition made (C : crypto) (sender : option privkey) (blksize : Z) (pks : list pubkey) (e : encryptor) (s file : bytes) : Prop :=
  0 <= blksize < 2^30 /\ 1 <= len pks <= 15885 /\ (forall sk, sender = Some sk -> len (sk_Sk sk) = 64) /\
  (made_by_encrypt C sender blksize pks e s file \/ made_by_stream C sender blksize pks e s file).

(** Write and Close calls in any order; the results (n, err), with n = 0 for Close *)
Inductive wop : Type := WWrite (b : bytes) | WClose.
Fixpoint write_ops (C : crypto) (e : encryptor) (w : writer) (g : rng) (s : encw) (ops : list wop)
  : encryptor * writer * rng * encw * list (Z * res unit) :=
  match ops with
  | [] => (e, w, g, s, [])
  | op :: ops' =>
      let '(e1, w1, g1, s1, r) := match op with
                                  | WWrite b => ew_write C e w g s b
                                  | WClose => let '(e1, w1, g1, s1, r) := ew_close C e w g s in (e1, w1, g1, s1, (0, r))
                                  end in
      let '(e2, w2, g2, s2, rs) := write_ops C e1 w1 g1 s1 ops' in
      (e2, w2, g2, s2, r :: rs)
  end.
