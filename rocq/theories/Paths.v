(** path.Clean and path.Base of the Go standard library (external; written after path.go of go 1.24), called at gen.go:61-62 and sigtool.go:28. *)
From Verif Require Import Bytes.

(** r+1 == n || path[r+1] == '/' *)
Definition at_end (r : bytes) : bool := match r with [] => true | c :: _ => Byte.eqb c x2f end.
(** "for out.w > dotdot && out.index(out.w) != '/' { out.w-- }" with out.w = [w], from the highest index down *)
Fixpoint back_to (w : nat) (out : bytes) (dotdot : Z) : Z :=
  match w with
  | O => 0
  | S v => if (dotdot <? Z.of_nat w) && negb (Byte.eqb (nth w out x00) x2f) then back_to v out dotdot else Z.of_nat w
  end.
(** the element at the head of [r]: "for ; r < n && path[r] != '/'; r++" *)
Fixpoint element (r : bytes) : bytes := match r with [] => [] | c :: r' => if Byte.eqb c x2f then [] else c :: element r' end.
Fixpoint after (r : bytes) : bytes := match r with [] => [] | c :: r' => if Byte.eqb c x2f then r else after r' end.

(** path.go Clean, the loop "for r < n"; [r]: path[r:], [out]: out.buf[:out.w].  [fuel]: each round consumes at least one byte. *)
Fixpoint clean_loop (fuel : nat) (rooted : bool) (r out : bytes) (dotdot : Z) : bytes :=
  match fuel with
  | O => out
  | S f =>
      let real :=
        let out := if rooted && negb (len out =? 1) || negb rooted && negb (len out =? 0) then out ++ [x2f] else out in
        clean_loop f rooted (after r) (out ++ element r) dotdot in
      match r with
      | [] => out
      | c :: r1 =>
          if Byte.eqb c x2f then clean_loop f rooted r1 out dotdot
          else if Byte.eqb c x2e && at_end r1 then clean_loop f rooted r1 out dotdot
          else match r1 with
               | c2 :: r2 =>
                   if Byte.eqb c x2e && Byte.eqb c2 x2e && at_end r2 then
                     if dotdot <? len out then clean_loop f rooted r2 (take (back_to (Z.to_nat (len out - 1)) out dotdot) out) dotdot
                     else if negb rooted then
                       let out := (if 0 <? len out then out ++ [x2f] else out) ++ [x2e; x2e] in clean_loop f rooted r2 out (len out)
                     else clean_loop f rooted r2 out dotdot
                   else real
               | [] => real
               end
      end
  end.
(** path.go Clean *)
Definition clean (p : bytes) : bytes :=
  match p with
  | [] => [x2e]
  | c :: p1 =>
      let out := if Byte.eqb c x2f then clean_loop (length p) true p1 [x2f] 1 else clean_loop (length p) false p [] 0 in
      match out with [] => [x2e] | _ => out end
  end.

(** path.go Base: "for len(path) > 0 && path[len(path)-1] == '/' { path = path[0 : len(path)-1] }" *)
Fixpoint strip_slashes (rev_p : bytes) : bytes := match rev_p with c :: r => if Byte.eqb c x2f then strip_slashes r else rev_p | [] => [] end.
(** "if i := LastIndexByte(path, '/'); i >= 0 { path = path[i+1:] }", on the reversed path *)
Definition base (p : bytes) : bytes :=
  match p with
  | [] => [x2e]
  | _ => match rev (element (strip_slashes (rev p))) with [] => [x2f] | b => b end
  end.
