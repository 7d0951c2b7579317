(** Specification vocabulary for files: crash points, what survives a crash, atomic replacement (C42, C43, C45, C48). *)
From Verif Require Import Bytes GoErr GoIO Fs.

(** [crash ops done]: the program was stopped after the system calls [done] of [ops]; the last one may be a write that
    was only partly carried out *)
Inductive crash : list fop -> list fop -> Prop :=
| cr_between a b : crash (a ++ b) a
| cr_within a i d1 d2 b : crash (a ++ OAppend i (d1 ++ d2) :: b) (a ++ [OAppend i d1]).

(** system calls that change directory entries *)
Definition dir_op (o : fop) : bool := match o with OCreate _ _ _ | ORename _ _ | ORemove _ => true | _ => false end.
(** everything written to inode i has been synced since *)
Definition settled (ops : list fop) (i : Z) : Prop := forall a d b, ops = a ++ OAppend i d :: b -> In (OSync i) b.
(** [survives f ops f']: [f'] may be found on disk after a power failure following the system calls [ops] on [f]: the
    directory changes are lost from some point on, and files not synced since they were last written hold anything
    (permission bits are set when the inode is made) *)
Definition survives (f : fs) (ops : list fop) (f' : fs) : Prop :=
  (exists k, forall s, f_node f' s = f_node (run_ops f (firstn k (filter dir_op ops))) s) /\
  (forall i, settled ops i -> f_data f' i = f_data (run_ops f ops) i) /\
  (forall i, f_mode f' i = f_mode (run_ops f ops) i).

(** the temporary name and inode a SafeFile gets are unused *)
Definition fresh (v : sf_env) (f : fs) (dst : slot) : Prop :=
  se_tmp v <> dst /\ f_node f (se_tmp v) = None /\
  (forall s, f_node f s <> Some (NLink (se_tmp v))) /\ (forall s, f_node f s <> Some (NFile (se_ino v))).

(** the path [q] names the slot [dst], or is a symbolic link that leads through it *)
Inductive leads (f : fs) (dst : slot) : slot -> Prop :=
| ld_here : leads f dst dst
| ld_link q t : f_node f q = Some (NLink t) -> leads f dst t -> leads f dst q.

(** every file is as it was, under every path (but the temporary one) *)
Definition unchanged (v : sf_env) (f f' : fs) : Prop := forall q, q <> se_tmp v -> content f' q = content f q.
(** the file [dst] now holds [b], and under every other path everything is as it was *)
Definition replaced (v : sf_env) (dst : slot) (b : bytes) (f f' : fs) : Prop :=
  content f' dst = Some b /\ forall q, q <> se_tmp v -> ~ leads f dst q -> content f' q = content f q.
