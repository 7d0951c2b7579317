(** /repo/sign/stream.go *)
From Verif Require Import Bytes GoErr GoIO Pb Crypto Keys Sign Encrypt Decrypt.

(** stream.go:21-30 encWriter.  [ew_buf] is w.buf[:w.n] (so w.n = len ew_buf); the destination and the
    encryptor it points to are passed separately. *)
Record encw : Type := mkEw { ew_buf : bytes; ew_blk : Z; ew_err : option goerr }.

(** stream.go:34-52 NewStreamWriter *)
Definition new_stream_writer (C : crypto) (e : encryptor) (w : writer)
  : encryptor * writer * res encw :=
  let '(e, w, rs) := if e_started e then (e, w, Ok tt) else enc_start C e w in
  match rs with
  | Ok _ => (mkEnc (e_hdr e) (e_key e) (e_nonce e) (e_buflen e) (e_ae e) (e_hmac e) (e_encSK e)
                   (e_sender e) (e_auth e) (e_started e) true, w, Ok (mkEw [] 0 None))
  | Fail x => (e, w, Fail x)
  | Panic p => (e, w, Panic p)
  end.

(** stream.go:66-84: the copy/flush loop.  Each round consumes a byte or is a flush followed by such a
    round: 2*len(b)+2 rounds suffice (ChunkSize >= 1). *)
Fixpoint ew_loop (C : crypto) (fuel : nat) (e : encryptor) (w : writer) (g : rng) (s : encw) (b : bytes)
  : encryptor * writer * rng * encw * res unit :=
  match b with
  | [] => (e, w, g, s, Ok tt)
  | _ :: _ =>
      match fuel with
      | O => (e, w, g, s, Panic "stream write: out of fuel")
      | S f =>
          let max := h_chunk (e_hdr e) in
          let z := Z.min (max - len (ew_buf s)) (len b) in       (* copy(w.buf[w.n:], b) *)
          let buf := ew_buf s ++ take z b in
          let b := drop z b in
          if (len buf =? max) && (0 <? len b) then
            let '(e, w, g, rs) := enc_block C e buf w (ew_blk s) false g in
            match rs with
            | Ok _ => ew_loop C f e w g (mkEw [] (u32 (ew_blk s + 1)) (ew_err s)) b
            | Fail x => (e, w, g, mkEw buf (ew_blk s) (Some x), Fail x)
            | Panic p => (e, w, g, mkEw buf (ew_blk s) (ew_err s), Panic p)
            end
          else ew_loop C f e w g (mkEw buf (ew_blk s) (ew_err s)) b
      end
  end.

(** stream.go:54-86 Write: (n, err) *)
Definition ew_write (C : crypto) (e : encryptor) (w : writer) (g : rng) (s : encw) (b : bytes)
  : encryptor * writer * rng * encw * (Z * res unit) :=
  match ew_err s with
  | Some x => (e, w, g, s, (0, Fail x))
  | None =>
      if len b =? 0 then (e, w, g, s, (0, Ok tt))
      else
        let '(e, w, g, s, rs) := ew_loop C (2 * length b + 2) e w g s b in
        (e, w, g, s, (match rs with Ok _ => len b | _ => 0 end, rs))
  end.

(** stream.go:88-103 Close *)
Definition ew_close (C : crypto) (e : encryptor) (w : writer) (g : rng) (s : encw)
  : encryptor * writer * rng * encw * res unit :=
  match ew_err s with
  | Some x => (e, w, g, s, Fail x)
  | None =>
      let '(e, w, g, rs) := enc_block C e (ew_buf s) w (ew_blk s) true g in
      match rs with
      | Ok _ =>
          let s := mkEw [] (ew_blk s) (Some ErrClosed) in
          match w_close w with
          | (None, w) => (e, w, g, s, Ok tt)
          | (Some x, w) => (e, w, g, s, Fail x)
          end
      | Fail x => (e, w, g, mkEw (ew_buf s) (ew_blk s) (Some x), Fail x)
      | Panic p => (e, w, g, s, Panic p)
      end
  end.

(** stream.go:105-112 encReader.  The slice r.unread always points into the decryptor's buffer:
    it is d.buf[er_off : er_off+er_len].  (r.buf is allocated but never used by the code.) *)
Record encr : Type := mkEr { er_off : Z; er_len : Z; er_blk : Z; er_err : option goerr }.

Definition d_set_stream (d : decryptor) : decryptor :=
  mkDec (d_hdr d) (d_ae d) (d_hmac d) (d_sender d) (d_rd d) (d_buf d) (d_buflen d) (d_nonce d) (d_key d)
        (d_hdrsum d) (d_auth d) (d_eof d) true.

(** stream.go:116-131 NewStreamReader *)
Definition new_stream_reader (d : decryptor) : decryptor * res encr :=
  match d_key d with
  | None => (d, Fail ErrNoKey)
  | Some _ =>
      if d_eof d then (d, Fail IoEOF)
      else (d_set_stream d, Ok (mkEr 0 0 0 None))
  end.

(** stream.go:155-162: hand out unread data, or EOF *)
Definition er_deliver (d : decryptor) (s : encr) (n : Z) : decryptor * encr * (bytes * res unit) :=
  if 0 <? er_len s then
    let m := Z.min n (er_len s) in
    (d, mkEr (er_off s + m) (er_len s - m) (er_blk s) (er_err s), (take m (drop (er_off s) (d_buf d)), Ok tt))
  else (d, mkEr (er_off s) (er_len s) (er_blk s) (Some IoEOF), ([], Fail IoEOF)).

(** stream.go:133-163 Read(b) with len(b) = n: the bytes stored in b, and the error *)
Definition er_read (C : crypto) (d : decryptor) (s : encr) (n : Z)
  : decryptor * encr * (bytes * res unit) :=
  match er_err s with
  | Some x => (d, s, ([], Fail x))
  | None =>
      if er_len s =? 0 then
        if d_eof d then (d, mkEr (er_off s) (er_len s) (er_blk s) (Some IoEOF), ([], Fail IoEOF))
        else
          match dec_chunk C d (er_blk s) with
          | (d, Ok (m, eof)) =>
              er_deliver (d_set_eof d eof) (mkEr 0 m (u32 (er_blk s + 1)) None) n
          | (d, Fail x) => (d, mkEr (er_off s) (er_len s) (er_blk s) (Some x), ([], Fail x))
          | (d, Panic p) => (d, s, ([], Panic p))
          end
      else er_deliver d s n
  end.

(** encrypt.go:515 SetPrivateKey gives the Decryptor a new I/O buffer: what a stream reader has not handed out yet (stream.go:150 r.unread) stays
    in the old buffer, which nobody writes to any more.  [(s, None)]: r.unread points into the Decryptor's buffer; [(s, Some b)]: it is b. *)
Definition er_keep (d : decryptor) (x : encr * option bytes) : encr * option bytes :=
  match x with
  | (s, None) => if 0 <? er_len s then (s, Some (take (er_len s) (drop (er_off s) (d_buf d)))) else x
  | (s, Some b) => x
  end.
(** stream.go:130-163 Read, for both *)
Definition er_read_kept (C : crypto) (d : decryptor) (x : encr * option bytes) (n : Z)
  : decryptor * (encr * option bytes) * (bytes * res unit) :=
  match x with
  | (s, None) => let '(d', s', r) := er_read C d s n in (d', (s', None), r)
  | (s, Some b) =>
      match er_err s with
      | Some e => (d, x, ([], Fail e))
      | None =>
          let m := Z.min n (len b) in
          (d, (mkEr 0 (len b - m) (er_blk s) None, if m <? len b then Some (drop m b) else None), (take m b, Ok tt))
      end
  end.
