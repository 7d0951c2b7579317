(** Text helpers of Go's standard library (external) used by /repo/sign/ssh.go and /repo/src: bytes.IndexByte,
    bytes.IndexAny, bytes.Index, bytes/strings.TrimSpace, regexp Split. *)
From Verif Require Import Bytes.

Definition is_blank (c : byte) : bool := Byte.eqb c x20 || Byte.eqb c x09.

(** index of the first byte satisfying [f]; None = -1.  bytes.IndexByte(in, c) and bytes.IndexAny(in, " \t") *)
Fixpoint find_byte (f : byte -> bool) (l : bytes) : option Z :=
  match l with
  | [] => None
  | x :: l' => if f x then Some 0 else match find_byte f l' with Some i => Some (i + 1) | None => None end
  end.

Fixpoint is_prefix (p l : bytes) : bool :=
  match p, l with
  | [], _ => true
  | x :: p', y :: l' => Byte.eqb x y && is_prefix p' l'
  | _ :: _, [] => false
  end.
(** bytes.Index(b, sub); None = -1 *)
Fixpoint index_sub (sub b : bytes) : option Z :=
  if is_prefix sub b then Some 0
  else match b with
       | [] => None
       | _ :: b' => match index_sub sub b' with Some i => Some (i + 1) | None => None end
       end.

(** regexp.MustCompile("[ \\t]+").Split(s, -1): the pieces between maximal runs of blanks; a leading or trailing run
    gives an empty piece *)
Fixpoint split_blanks (s cur : bytes) (inrun : bool) : list bytes :=
  match s with
  | [] => [cur]
  | c :: s' =>
      if is_blank c then (if inrun then split_blanks s' [] true else cur :: split_blanks s' [] true)
      else split_blanks s' (cur ++ [c]) false
  end.

(** UTF-8 encodings of the characters of unicode.IsSpace *)
Definition space_forms : list bytes :=
  [[x09]; [x0a]; [x0b]; [x0c]; [x0d]; [x20]; [xc2; x85]; [xc2; xa0]; [xe1; x9a; x80];
   [xe2; x80; x80]; [xe2; x80; x81]; [xe2; x80; x82]; [xe2; x80; x83]; [xe2; x80; x84]; [xe2; x80; x85];
   [xe2; x80; x86]; [xe2; x80; x87]; [xe2; x80; x88]; [xe2; x80; x89]; [xe2; x80; x8a];
   [xe2; x80; xa8]; [xe2; x80; xa9]; [xe2; x80; xaf]; [xe2; x81; x9f]; [xe3; x80; x80]].
Fixpoint strip (forms : list bytes) (fuel : nat) (s : bytes) : bytes :=
  match fuel with
  | O => s
  | S f => match find (fun w => is_prefix w s) forms with
           | Some w => strip forms f (drop (len w) s)
           | None => s
           end
  end.
(** strings.TrimSpace, bytes.TrimSpace *)
Definition trim_space (s : bytes) : bytes :=
  let s := strip space_forms (List.length s) s in
  rev (strip (map (@rev byte) space_forms) (List.length s) (rev s)).
