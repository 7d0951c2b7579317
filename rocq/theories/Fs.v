(** Files as the operating system and github.com/opencoff/go-fio v0.5.15 (external; modelled by its documented contract)
    present them, and /repo/sign/iomisc.go:25-43 writeFile. *)
From Verif Require Import Bytes GoErr GoIO.

(** A slot is a directory entry (several path strings may name the same one); it holds a file (an inode number) or a
    symbolic link to another slot.  An inode has contents and permission bits.  Simplification: no directories or devices; nobody else
    changes the file system while a command runs, except in Thm_Parallel.v (C77, C78). *)
Definition slot : Type := Z.
Inductive node : Type := NFile (ino : Z) | NLink (to : slot).
Record fs : Type := mkFs { f_node : slot -> option node; f_data : Z -> bytes; f_mode : Z -> Z }.

(** permission bits as octal digits: user, group, others *)
Definition oct (u g o : Z) : Z := u * 64 + g * 8 + o.

(** the system calls that change it *)
Inductive fop : Type :=
| OCreate (s : slot) (i m : Z)        (* open with O_CREATE|O_TRUNC of a name that does not exist: a new inode, with permission bits m *)
| OAppend (i : Z) (b : bytes)         (* write *)
| OSync (i : Z)                       (* fsync *)
| ORename (a b : slot)                (* rename *)
| ORemove (s : slot).                 (* unlink *)
Definition upd_at {A} (f : Z -> A) (k : Z) (v : A) : Z -> A := fun x => if x =? k then v else f x.
Definition do_op (f : fs) (o : fop) : fs :=
  match o with
  | OCreate s i m => mkFs (upd_at (f_node f) s (Some (NFile i))) (upd_at (f_data f) i []) (upd_at (f_mode f) i m)
  | OAppend i b => mkFs (f_node f) (upd_at (f_data f) i (f_data f i ++ b)) (f_mode f)
  | OSync _ => f
  | ORename a b => mkFs (upd_at (upd_at (f_node f) b (f_node f a)) a None) (f_data f) (f_mode f)
  | ORemove s => mkFs (upd_at (f_node f) s None) (f_data f) (f_mode f)
  end.
Definition run_ops (f : fs) (ops : list fop) : fs := fold_left do_op ops f.

(** the inode a path leads to; the system gives up (ELOOP) after 40 symbolic links *)
Fixpoint follow (n : nat) (f : fs) (s : slot) : option Z :=
  match f_node f s with
  | None => None
  | Some (NFile i) => Some i
  | Some (NLink t) => match n with O => None | S n' => follow n' f t end
  end.
(** the content of the file under a path: None = does not exist (os.Stat, os.Open fail) *)
Definition content (f : fs) (s : slot) : option bytes :=
  match follow 40 f s with Some i => Some (f_data f i) | None => None end.

(** the permission bits of the file under a path *)
Definition mode (f : fs) (s : slot) : option Z :=
  match follow 40 f s with Some i => Some (f_mode f i) | None => None end.

(** What the operating system will answer to one SafeFile: the temporary name and inode it gets, the umask of
    the process, and the errors of open, of each Write (as in GoIO: how many bytes it accepts, and its error), and of fsync, close and rename. *)
Record sf_env : Type := mkSf {
  se_tmp : slot; se_ino : Z; se_open : option goerr; se_writes : list (Z * option goerr);
  se_sync : option goerr; se_close : option goerr; se_rename : option goerr; se_umask : Z }.

(** fio.NewSafeFile(nm, opts, flags, mode): (the mode is used by [sf_ops]) refuses an existing file unless OPT_OVERWRITE, else opens a temporary file *)
Definition safe_open (v : sf_env) (f : fs) (dst : slot) (overwrite : bool) : res unit :=
  match content f dst with
  | Some _ => if overwrite then match se_open v with Some e => Fail e | None => Ok tt end
              else Fail (EMsg "safefile: won't overwrite existing %s")
  | None => match se_open v with Some e => Fail e | None => Ok tt end
  end.

(** SafeFile.Close when no Write failed: fsync, close, rename to the final name; the first error is returned *)
Definition close_err (v : sf_env) : option goerr :=
  match se_sync v with Some e => Some e | None => match se_close v with Some e => Some e | None => se_rename v end end.
(** the SafeFile as an io.WriteCloser; a second Close fails *)
Definition sf_sink (v : sf_env) : writer := mkWriter [] (se_writes v) [close_err v; Some ErrClosed] 0.
(** a Write failed: SafeFile remembers it, and Close then only reports it *)
Definition write_failed (v : sf_env) (w : writer) : bool :=
  existsb (fun p => match snd p with Some _ => true | None => false end)
          (firstn (List.length (se_writes v) - List.length (w_sched w)) (se_writes v)).

(** os.OpenFile(tmp, flags, mode): the umask takes bits away *)
Definition granted (v : sf_env) (m : Z) : Z := Z.ldiff m (se_umask v).

(** All system calls of a SafeFile for [dst] which was written to as [w] says, closed if [w] says so, and on which Abort is
    called at the end (iomisc.go:37 defer; crypt.go:153-154, 319-320, sign.go:82-83: at exit).  Abort does nothing after a
    successful Close, otherwise it removes the temporary file. *)
Definition sf_ops (v : sf_env) (m : Z) (dst : slot) (w : writer) : list fop :=
  OCreate (se_tmp v) (se_ino v) (granted v m) :: OAppend (se_ino v) (w_out w) ::
  (if (0 <? w_nclosed w) && negb (write_failed v w) then
     match se_sync v with
     | Some _ => [ORemove (se_tmp v)]
     | None => OSync (se_ino v) ::
         match se_close v with
         | Some _ => [ORemove (se_tmp v)]
         | None => match se_rename v with
                   | Some _ => [ORemove (se_tmp v)]
                   | None => [ORename (se_tmp v) dst]
                   end
         end
     end
   else [ORemove (se_tmp v)]).

(** iomisc.go:25-43 writeFile *)
Definition write_file (v : sf_env) (m : Z) (f : fs) (dst : slot) (b : bytes) (overwrite : bool) : list fop * res unit :=
  match safe_open v f dst overwrite with
  | Fail e => ([], Fail e)
  | Panic p => ([], Panic p)
  | Ok _ =>
      match fullwrite b (sf_sink v) with
      | (Some e, w) => (sf_ops v m dst w, Fail e)
      | (None, w) => match w_close w with
                     | (Some e, w) => (sf_ops v m dst w, Fail e)
                     | (None, w) => (sf_ops v m dst w, Ok tt)
                     end
      end
  end.
