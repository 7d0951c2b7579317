(** Go errors as values and function outcomes. *)
From Verif Require Import Bytes.

(** error values.  The first group is /repo/sign/errors.go:21-44 verbatim; the io errors are those
    the code compares against; [EExt n] is any error value created outside this code base (an OS
    error, a caller's reader/writer error); [EMsg s] is errors.New/fmt.Errorf without %w (also used
    where the code wraps with %s, which does not keep the cause); [EWrap s e] is fmt.Errorf("s: %w", e).
    Simplification: formatted numbers inside messages are dropped. *)
Inductive goerr : Type :=
| ErrClosed | ErrNoKey | ErrEncStarted | ErrDecStarted | ErrEncIsStream | ErrNotSigTool
| ErrHeaderTooBig | ErrHeaderTooSmall | ErrBadHeader | ErrNoWrappedKeys | ErrBadKey
| ErrBadTrailer | ErrBadSender | ErrNoSenderPK
| ErrIncorrectPassword | ErrNoPEMFound | ErrBadPublicKey | ErrKeyTooShort | ErrBadTrailers
| ErrBadFormat | ErrBadLength | ErrBadPadding
| IoEOF | ErrUnexpectedEOF | ErrClosedPipe
| EExt (n : Z)
| EMsg (s : string)
| EWrap (s : string) (e : goerr).

(** errors.Is: the error itself or anything it wraps *)
Fixpoint cause (e : goerr) : goerr := match e with EWrap _ e' => cause e' | _ => e end.

(** outcome of a Go call returning (A, error); [Panic] is a run-time panic (nil dereference,
    slice bounds out of range, explicit panic) *)
Inductive res (A : Type) : Type :=
| Ok (a : A)
| Fail (e : goerr)
| Panic (why : string).
Arguments Ok {A} a.
Arguments Fail {A} e.
Arguments Panic {A} why.

Definition bind {A B} (r : res A) (f : A -> res B) : res B :=
  match r with Ok a => f a | Fail e => Fail e | Panic w => Panic w end.

Declare Scope res_scope.
Notation "x <- e ;; k" := (bind e (fun x => k))
  (at level 61, e at next level, right associativity) : res_scope.
Notation "' p <- e ;; k" := (bind e (fun x => match x with p => k end))
  (at level 61, p pattern, e at next level, right associativity) : res_scope.
Open Scope res_scope.

(** an "if err != nil { return fmt.Errorf("ctx: %w", err) }" wrapper *)
Definition wrapf {A} (ctx : string) (r : res A) : res A :=
  match r with Fail e => Fail (EWrap ctx e) | _ => r end.
Definition wrapo (ctx : string) (o : option goerr) : option goerr :=
  match o with Some e => Some (EWrap ctx e) | None => None end.

Definition is_panic {A} (r : res A) : bool := match r with Panic _ => true | _ => false end.

(** s[i] and s[lo:hi] with Go's run-time bounds checks (here with cap = len) *)
Definition at_ (d : bytes) (i : Z) : res byte :=
  if i <? 0 then Panic "index out of range"
  else match drop i d with b :: _ => Ok b | [] => Panic "index out of range" end.
Definition slice (d : bytes) (lo hi : Z) : res bytes :=
  if (0 <=? lo) && (lo <=? hi) && (hi <=? len d)
  then Ok (take (hi - lo) (drop lo d))
  else Panic "slice bounds out of range".
