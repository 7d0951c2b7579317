(** io.Reader / io.WriteCloser environments, io.ReadFull / io.ReadAtLeast, fullwrite. *)
From Verif Require Import Bytes GoErr.

(** A source of bytes is the list of results its Read calls will produce: each event is the data
    that becomes available and the error returned together with the last byte of it.  A Read(p) with
    a buffer smaller than the event's data gets the first len(p) bytes and a nil error, the rest stays.
    After the script is used up, Read returns (0, io.EOF) for ever.  Every terminating run against any
    Go io.Reader is described by such a script (a reader that returns (0,nil) for ever is not; the
    code then loops for ever). *)
Definition revent : Type := (bytes * option goerr)%type.
Definition reader : Type := list revent.

(** r.Read(p) with len(p) = n *)
Definition rd_read (r : reader) (n : Z) : bytes * option goerr * reader :=
  match r with
  | [] => ([], Some IoEOF, [])
  | (b, e) :: r' =>
      if n <? len b then (take n b, None, (drop n b, e) :: r')
      else (b, e, r')
  end.

(** the loop of io.ReadAtLeast(r, buf, n) with len(buf) = n (Go's io package; used at
    /repo/sign/encrypt.go:201,383,411,565,593,620).  The error is reported raw. *)
Fixpoint read_loop (r : reader) (n : Z) {struct r} : bytes * option goerr * reader :=
  if n <=? 0 then ([], None, r)
  else
    match r with
    | [] => ([], Some IoEOF, [])
    | (b, e) :: r' =>
        if n <? len b then (take n b, None, (drop n b, e) :: r')
        else if n =? len b then (b, None, r')      (* n >= min: "err = nil" *)
        else match e with
             | Some x => (b, Some x, r')
             | None => match read_loop r' (n - len b) with
                       | (b2, e2, r2) => (b ++ b2, e2, r2)
                       end
             end
    end.

(** io.ReadFull / io.ReadAtLeast(r, buf, len(buf)): an EOF after some bytes becomes
    io.ErrUnexpectedEOF *)
Definition read_full (r : reader) (n : Z) : bytes * option goerr * reader :=
  match read_loop r n with
  | (b, Some IoEOF, r') => (b, Some (if 0 <? len b then ErrUnexpectedEOF else IoEOF), r')
  | x => x
  end.

(** A destination: the bytes accepted so far, the script of its Write calls (how many bytes each
    call accepts, and the error it returns; beyond the script every Write accepts everything), and
    the script of its Close calls. *)
Record writer : Type := mkWriter {
  w_out : bytes;
  w_sched : list (Z * option goerr);
  w_closes : list (option goerr);
  w_nclosed : Z
}.

Definition w_with_out (w : writer) (o : bytes) (s : list (Z * option goerr)) : writer :=
  mkWriter o s (w_closes w) (w_nclosed w).

(** wr.Write(p) = (m, err) *)
Definition w_write (w : writer) (p : bytes) : Z * option goerr * writer :=
  match w_sched w with
  | [] => (len p, None, w_with_out w (w_out w ++ p) [])
  | (k, e) :: s => let a := take k p in (len a, e, w_with_out w (w_out w ++ a) s)
  end.

(** wr.Close() *)
Definition w_close (w : writer) : option goerr * writer :=
  match w_closes w with
  | [] => (None, mkWriter (w_out w) (w_sched w) [] (w_nclosed w + 1))
  | e :: cs => (e, mkWriter (w_out w) (w_sched w) cs (w_nclosed w + 1))
  end.

(** /repo/sign/encrypt.go:847-861 fullwrite: "for n > 0 { m, err := wr.Write(buf); ...; n -= m; buf = buf[m:] }".
    Recursion on the remaining script; a destination that accepts 0 bytes with a nil error for ever
    is not representable (the code loops for ever). *)
Fixpoint fullwrite_loop (s : list (Z * option goerr)) (buf out : bytes)
  : option goerr * bytes * list (Z * option goerr) :=
  match buf with
  | [] => (None, out, s)
  | _ :: _ =>
      match s with
      | [] => (None, out ++ buf, [])
      | (k, e) :: s' =>
          let a := take k buf in
          match e with
          | Some x => (Some x, out ++ a, s')
          | None => fullwrite_loop s' (drop (len a) buf) (out ++ a)
          end
      end
  end.

Definition fullwrite (buf : bytes) (w : writer) : option goerr * writer :=
  match fullwrite_loop (w_sched w) buf (w_out w) with
  | (e, o, s) => (e, w_with_out w o s)
  end.

(** crypto/rand as an infinite tape read from a moving position.
    /repo/sign/rand.go:34-45 randRead, randBuf (the panic on a failing system source is not modelled). *)
Record rng : Type := mkRng { tape : Z -> byte; pos : Z }.
Fixpoint rng_bytes (t : Z -> byte) (p : Z) (n : nat) : bytes :=
  match n with O => [] | S n' => t p :: rng_bytes t (p + 1) n' end.
Definition rand_buf (n : Z) (g : rng) : bytes * rng :=
  (rng_bytes (tape g) (pos g) (Z.to_nat n), mkRng (tape g) (pos g + Z.max 0 n)).
