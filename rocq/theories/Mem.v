(** /repo/sign/encrypt.go:183-326 and /repo/sign/stream.go:23-103 at the level of the memory they work in: the header's buffer, the encryptor's
    chunk buffer e.buf, Encrypt's read buffer and the stream writer's buffer w.buf, each with whatever it held before.  (Encrypt.v and Stream.v
    say only which bytes end up in them.)  The slices of one buffer share its memory; append-style calls (Seal, Sum) store in place if there is
    capacity and otherwise leave the buffer alone. *)
From Verif Require Import Bytes GoErr GoIO Pb PbBuf Crypto Keys Sign Encrypt Decrypt Stream.

(** work on the memory of d[lo:hi] *)
Definition in_slice (d : bytes) (lo hi : Z) (f : bytes -> res bytes) : res bytes :=
  s <- slice d lo hi ;; s' <- f s ;; Ok (take lo d ++ s' ++ drop hi d).
(** binary.BigEndian.PutUint32(d[i:], v) *)
Definition put32 (d : bytes) (i v : Z) : res bytes :=
  if (0 <=? i) && (i + 4 <=? len d) then Ok (take i d ++ be32 v ++ drop (i + 4) d) else Panic "index out of range".
(** what x.Seal(d[:0], ...) and h.Sum(d[:0]) leave in d's memory when the result is [s] *)
Definition append_front (d s : bytes) : bytes := if len s <=? len d then s ++ drop (len s) d else d.

(** encrypt.go:225-246 start: the header's buffer (buffer, fixHdr, varHdr, sumHdr) and the checksum *)
Definition header_mem (C : crypto) (h : header) : res (bytes * bytes) :=
  let varSize := size_header h in
  let d := zeros (fixed_hdr_len + varSize + sha256_size) in
  let var := fixed_hdr_len + varSize in
  d <- in_slice d 0 fixed_hdr_len (fun s => copy_at s 0 magic) ;;
  d <- in_slice d 0 fixed_hdr_len (fun s => store s (len magic) (z2b sigtool_version)) ;;
  d <- in_slice d 0 fixed_hdr_len (fun s => put32 s (len magic + 1) (u32 varSize)) ;;
  d <- in_slice d fixed_hdr_len var (fun s => '(s, _) <- header_to h s ;; Ok s) ;;
  hashed <- slice d 0 var ;;
  let cksum := sha256 C hashed in
  d <- in_slice d var (len d) (fun s => Ok (append_front s cksum)) ;;
  Ok (d, cksum).

(** encrypt.go:286-326 encrypt, with [eb] = e.buf: the 4 bytes [b] and the ciphertext are stored in e.buf, [b] stays a view of it *)
Definition enc_block_mem (C : crypto) (e : encryptor) (eb pt : bytes) (w : writer) (i : Z) (eof : bool) (g : rng)
  : bytes * (encryptor * writer * rng * res unit) :=
  let z := u32 (len pt) in
  let z := if eof then Z.lor z eof_bit else z in
  match e_ae e, e_hmac e with
  | Some k, Some (hk, hd) =>
      match in_slice eb 0 4 (fun b => put32 b 0 z) with
      | Ok eb =>
          let ct := gcm_seal C k (chunk_nonce (e_nonce e) i) pt (take 4 eb) in
          let eb := take 4 eb ++ append_front (drop 4 eb) ct in
          match slice eb 0 (len ct + 4) with
          | Ok frame =>
              match fullwrite frame w with
              | (Some x, w') => (eb, (e, w', g, Fail (EWrap "encrypt" x)))
              | (None, w') =>
                  let e' := mkEnc (e_hdr e) (e_key e) (e_nonce e) (e_buflen e) (e_ae e)
                                  (Some (hk, hd ++ take 4 eb ++ pt)) (e_encSK e) (e_sender e) (e_auth e)
                                  (e_started e) (e_stream e) in
                  if eof then let '(w', g, r) := write_trailer C e' w' g in (eb, (e', w', g, r))
                  else (eb, (e', w', g, Ok tt))
              end
          | Fail x => (eb, (e, w, g, Fail x))
          | Panic p => (eb, (e, w, g, Panic p))
          end
      | Fail x => (eb, (e, w, g, Fail x))
      | Panic p => (eb, (e, w, g, Panic p))
      end
  | _, _ => (eb, (e, w, g, Panic "nil pointer dereference"))
  end.

(** encrypt.go:196-219, with [buf] = the read buffer: every round reads into it and encrypts buf[:n] *)
Fixpoint enc_loop_mem (C : crypto) (fuel : nat) (e : encryptor) (eb buf : bytes) (r : reader) (w : writer) (i : Z) (g : rng)
  : encryptor * reader * writer * rng * res unit :=
  match fuel with
  | O => (e, r, w, g, Panic "encrypt: out of fuel")
  | S f =>
      let '(got, err, r) := read_full r (len buf) in
      let n := len got in
      let buf := buf_put got buf in
      let eof := match err with
                 | None => Ok false
                 | Some IoEOF | Some ErrClosedPipe | Some ErrUnexpectedEOF => Ok true
                 | Some x => Fail (EWrap "encrypt: I/O read error" x)
                 end in
      match eof with
      | Ok eof =>
          let '(eb, (e, w, g, rs)) := enc_block_mem C e eb (take n buf) w i eof g in
          match rs with
          | Ok _ => if eof then (e, r, w, g, Ok tt) else enc_loop_mem C f e eb buf r w (u32 (i + 1)) g
          | x => (e, r, w, g, x)
          end
      | Fail x => (e, r, w, g, Fail x)
      | Panic p => (e, r, w, g, Panic p)
      end
  end.

(** encrypt.go:183-222 Encrypt, with [eb] = e.buf (nil before start makes it): the read buffer is made for this call *)
Definition encrypt_mem (C : crypto) (e : encryptor) (eb : bytes) (r : reader) (w : writer) (g : rng)
  : encryptor * reader * writer * rng * res unit :=
  if e_stream e then (e, r, w, g, Fail ErrEncIsStream)
  else
    let '(e, eb, w, rs) := if e_started e then (e, eb, w, Ok tt)
                           else let '(e, w, rs) := enc_start C e w in (e, zeros (e_buflen e), w, rs) in
    match rs with
    | Ok _ =>
        let '(e, r, w, g, rs) := enc_loop_mem C (S (rd_size r)) e eb (zeros (h_chunk (e_hdr e))) r w 0 g in
        match rs with
        | Ok _ => match w_close w with
                  | (None, w) => (e, r, w, g, Ok tt)
                  | (Some x, w) => (e, r, w, g, Fail x)
                  end
        | x => (e, r, w, g, x)
        end
    | x => (e, r, w, g, x)
    end.

(** stream.go:21-30 encWriter, with its whole buffer and w.n *)
Record encw_mem : Type := mkEwm { em_buf : bytes; em_n : Z; em_blk : Z; em_err : option goerr }.

(** stream.go:66-84: w.buf[w.n:] is filled; a full buffer is encrypted if more is to come *)
Fixpoint ew_loop_mem (C : crypto) (fuel : nat) (e : encryptor) (eb : bytes) (w : writer) (g : rng) (s : encw_mem) (b : bytes)
  : encryptor * bytes * writer * rng * encw_mem * res unit :=
  match b with
  | [] => (e, eb, w, g, s, Ok tt)
  | _ :: _ =>
      match fuel with
      | O => (e, eb, w, g, s, Panic "stream write: out of fuel")
      | S f =>
          let max := h_chunk (e_hdr e) in
          match copy_at (em_buf s) (em_n s) b with
          | Ok buf =>
              let z := Z.min (len (em_buf s) - em_n s) (len b) in
              let n := em_n s + z in
              let b := drop z b in
              if (n =? max) && (0 <? len b) then
                let '(eb, (e, w, g, rs)) := enc_block_mem C e eb buf w (em_blk s) false g in
                match rs with
                | Ok _ => ew_loop_mem C f e eb w g (mkEwm buf 0 (u32 (em_blk s + 1)) (em_err s)) b
                | Fail x => (e, eb, w, g, mkEwm buf n (em_blk s) (Some x), Fail x)
                | Panic p => (e, eb, w, g, mkEwm buf n (em_blk s) (em_err s), Panic p)
                end
              else ew_loop_mem C f e eb w g (mkEwm buf n (em_blk s) (em_err s)) b
          | Fail x => (e, eb, w, g, s, Fail x)
          | Panic p => (e, eb, w, g, s, Panic p)
          end
      end
  end.
(** stream.go:54-86 Write *)
Definition ew_write_mem (C : crypto) (e : encryptor) (eb : bytes) (w : writer) (g : rng) (s : encw_mem) (b : bytes)
  : encryptor * bytes * writer * rng * encw_mem * (Z * res unit) :=
  match em_err s with
  | Some x => (e, eb, w, g, s, (0, Fail x))
  | None =>
      if len b =? 0 then (e, eb, w, g, s, (0, Ok tt))
      else
        let '(e, eb, w, g, s, rs) := ew_loop_mem C (2 * length b + 2) e eb w g s b in
        (e, eb, w, g, s, (match rs with Ok _ => len b | _ => 0 end, rs))
  end.
(** stream.go:88-103 Close: w.buf[:w.n] is the last chunk *)
Definition ew_close_mem (C : crypto) (e : encryptor) (eb : bytes) (w : writer) (g : rng) (s : encw_mem)
  : encryptor * bytes * writer * rng * encw_mem * res unit :=
  match em_err s with
  | Some x => (e, eb, w, g, s, Fail x)
  | None =>
      match slice (em_buf s) 0 (em_n s) with
      | Ok pt =>
          let '(eb, (e, w, g, rs)) := enc_block_mem C e eb pt w (em_blk s) true g in
          match rs with
          | Ok _ =>
              let s := mkEwm (em_buf s) 0 (em_blk s) (Some ErrClosed) in
              match w_close w with
              | (None, w) => (e, eb, w, g, s, Ok tt)
              | (Some x, w) => (e, eb, w, g, s, Fail x)
              end
          | Fail x => (e, eb, w, g, mkEwm (em_buf s) (em_n s) (em_blk s) (Some x), Fail x)
          | Panic p => (e, eb, w, g, s, Panic p)
          end
      | Fail x => (e, eb, w, g, s, Fail x)
      | Panic p => (e, eb, w, g, s, Panic p)
      end
  end.
(** any sequence of calls of Write (Some b) and Close (None): what each returned, and the state afterwards *)
Fixpoint ew_calls_mem (C : crypto) (e : encryptor) (eb : bytes) (w : writer) (g : rng) (s : encw_mem) (cs : list (option bytes))
  : encryptor * writer * rng * list (Z * res unit) :=
  match cs with
  | [] => (e, w, g, [])
  | c :: cs =>
      let '(e, eb, w, g, s, r) := match c with
        | Some b => ew_write_mem C e eb w g s b
        | None => let '(e, eb, w, g, s, r) := ew_close_mem C e eb w g s in (e, eb, w, g, s, (0, r)) end in
      let '(e, w, g, rs) := ew_calls_mem C e eb w g s cs in (e, w, g, r :: rs)
  end.
