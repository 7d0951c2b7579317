(** Specification vocabulary for sources and destinations: what a Go io.Reader / io.Writer delivers or
    accepts, independent of how the library loops over it. *)
From Verif Require Import Bytes GoErr GoIO.

(** [delivers r s e]: the source hands out exactly the bytes [s], in some fragmentation (short reads,
    zero-byte reads, the error together with the last bytes or alone), and then reports [e]; a source that
    returned data together with its error reports the error again when asked again.
    A healthy source of s is [delivers r s IoEOF]. *)
Inductive delivers : reader -> bytes -> goerr -> Prop :=
| dl_end : delivers [] [] IoEOF
| dl_data b r s e : delivers r s e -> delivers ((b, None) :: r) (b ++ s) e
| dl_fail e r : delivers (([], Some e) :: r) [] e
| dl_data_fail b e r : delivers r [] e -> delivers ((b, Some e) :: r) b e.

(** the destination never fails and never closes with an error (it may still split writes) *)
Definition accepts (w : writer) : Prop :=
  Forall (fun p => snd p = None) (w_sched w) /\ Forall (fun c => c = None) (w_closes w).

(** what a call appended to a destination *)
Definition wrote (w w' : writer) (s : bytes) : Prop := w_out w' = w_out w ++ s.

(** a is an initial segment of b *)
Definition prefix_of (a b : bytes) : Prop := exists c, b = a ++ c.

(** the source in one piece *)
Definition whole (s : bytes) : reader := [(s, None)].
(** a destination that accepts everything *)
Definition sink : writer := mkWriter [] [] [] 0.

(** every Write call made between the states w and w' returned a nil error *)
Definition clean (w w' : writer) : Prop := exists used, w_sched w = used ++ w_sched w' /\ Forall (fun p => snd p = None) used.
