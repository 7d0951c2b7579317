(** Specification vocabulary for command lines (C71, C72): how options are spelled, after the usage texts of the commands and
    the GNU/POSIX conventions. *)
From Verif Require Import Bytes GoErr Cli Main Flags.

(** ** The documented options *)
(** long name, letter, and whether it takes a text *)
Definition opt (n : string) (c : string) (text : bool) : flag :=
  mkFlag (str n) (match str c with [x] => Some x | _ => None end) (negb text).
Definition main_options : list flag := [opt "version" "v" false; opt "help" "h" false; opt "debug" "" false].
Definition generate_options : list flag :=
  [opt "help" "h" false; opt "no-password" "" false; opt "comment" "c" true; opt "env-password" "E" true; opt "overwrite" "" false].
Definition sign_options : list flag :=
  [opt "help" "h" false; opt "no-password" "" false; opt "env-password" "E" true; opt "output" "o" true; opt "overwrite" "" false].
Definition verify_options : list flag := [opt "help" "h" false; opt "quiet" "q" false].
Definition encrypt_options : list flag :=
  [opt "outfile" "o" true; opt "sign" "s" true; opt "no-password" "" false; opt "env-password" "E" true; opt "block-size" "B" true; opt "overwrite" "" false].
Definition decrypt_options : list flag :=
  [opt "outfile" "o" true; opt "no-password" "" false; opt "env-password" "E" true; opt "verify-sender" "v" true; opt "test" "t" false; opt "overwrite" "" false].

(** ** Spelling *)
(** One thing on a command line: an option with its value, or an argument *)
Inductive item : Type := Give (name : bytes) (v : fval) | Word (w : bytes).

(** the value an option gets from a text *)
Inductive says (f : flag) : bytes -> fval -> Prop :=
| sa_text t : fg_bool f = false -> says f t (VText t)
| sa_yes t : fg_bool f = true -> In t [str "1"; str "t"; str "T"; str "true"; str "True"; str "TRUE"] -> says f t (VBool true)
| sa_no t : fg_bool f = true -> In t [str "0"; str "f"; str "F"; str "false"; str "False"; str "FALSE"] -> says f t (VBool false).

(** a word that starts with "-" and is not just "-" *)
Definition dashed (w : bytes) : Prop := exists c r, w = x2d :: c :: r.
Definition eq_text (s : bytes) : Prop := exists t, t <> [] /\ s = x3d :: t.
Definition test_word (s : bytes) : Prop := exists r, s = str "test." ++ r.

(** The letters after a single "-", followed by the words [next]: they say [items], and the words [left] remain. *)
Inductive letters (fs : list flag) : bytes -> list bytes -> list item -> list bytes -> Prop :=
| le_end next : letters fs [] next [] next
| le_test s next : test_word s -> letters fs s next [] next
| le_switch f c s next items left : In f fs -> fg_short f = Some c -> fg_bool f = true -> ~ test_word (c :: s) -> ~ eq_text s ->
    letters fs s next items left -> letters fs (c :: s) next (Give (fg_name f) (VBool true) :: items) left
| le_equals f c t v next : In f fs -> fg_short f = Some c -> t <> [] -> says f t v -> letters fs (c :: x3d :: t) next [Give (fg_name f) v] next
| le_glued f c s next : In f fs -> fg_short f = Some c -> fg_bool f = false -> ~ test_word (c :: s) -> s <> [] -> ~ eq_text s ->
    letters fs (c :: s) next [Give (fg_name f) (VText s)] next
| le_next f c t next : In f fs -> fg_short f = Some c -> fg_bool f = false -> letters fs [c] (t :: next) [Give (fg_name f) (VText t)] next.

(** The words of a command line and what they say.  [mixed]: options may follow arguments; otherwise everything from the first
    argument on is an argument. *)
Inductive command_line (fs : list flag) (mixed : bool) : list bytes -> list item -> Prop :=
| cl_end : command_line fs mixed [] []
| cl_word w rest items : ~ dashed w -> mixed = true -> command_line fs mixed rest items -> command_line fs mixed (w :: rest) (Word w :: items)
| cl_rest w rest : ~ dashed w -> mixed = false -> command_line fs mixed (w :: rest) (map Word (w :: rest))
| cl_dashes rest : command_line fs mixed (str "--" :: rest) (map Word rest)
| cl_equals f t v rest items : In f fs -> says f t v -> command_line fs mixed rest items ->
    command_line fs mixed ((str "--" ++ fg_name f ++ str "=" ++ t) :: rest) (Give (fg_name f) v :: items)
| cl_switch f rest items : In f fs -> fg_bool f = true -> command_line fs mixed rest items ->
    command_line fs mixed ((str "--" ++ fg_name f) :: rest) (Give (fg_name f) (VBool true) :: items)
| cl_text f t rest items : In f fs -> fg_bool f = false -> command_line fs mixed rest items ->
    command_line fs mixed ((str "--" ++ fg_name f) :: t :: rest) (Give (fg_name f) (VText t) :: items)
| cl_letters s next items left items' : s <> [] -> hd x00 s <> x2d -> letters fs s next items left -> command_line fs mixed left items' ->
    command_line fs mixed ((x2d :: s) :: next) (items ++ items').

(** ** Meaning *)
(** the arguments, in order *)
Fixpoint words (items : list item) : list bytes :=
  match items with [] => [] | Word w :: l => w :: words l | Give _ _ :: l => words l end.
(** the value of an option: the last one given, or else the default *)
Definition chosen (items : list item) (n : string) (default v : fval) : Prop :=
  (exists a b, items = a ++ Give (str n) v :: b /\ forall v', ~ In (Give (str n) v') b) \/
  (v = default /\ forall v', ~ In (Give (str n) v') items).
Definition switch (items : list item) (n : string) (b : bool) : Prop := chosen items n (VBool false) (VBool b).
Definition text (items : list item) (n : string) (default t : bytes) : Prop := chosen items n (VText default) (VText t).

Definition generate_means (items : list item) (o : gen_opts) : Prop :=
  switch items "no-password" (ge_nopw o) /\ text items "comment" [] (ge_comment o) /\ text items "env-password" [] (ge_envpw o) /\
  switch items "overwrite" (ge_force o) /\ ge_args o = words items.
Definition sign_means (items : list item) (o : sign_opts) : Prop :=
  text items "output" [] (so_output o) /\ text items "env-password" [] (so_envpw o) /\ switch items "no-password" (so_nopw o) /\
  switch items "overwrite" (so_force o) /\ so_args o = words items.
Definition encrypt_means (items : list item) (o : enc_opts) : Prop :=
  text items "outfile" [] (eo_outfile o) /\ text items "sign" [] (eo_keyfile o) /\ text items "block-size" (str "128k") (eo_size o) /\
  text items "env-password" [] (eo_envpw o) /\ switch items "no-password" (eo_nopw o) /\ switch items "overwrite" (eo_force o) /\
  eo_args o = words items.
Definition decrypt_means (items : list item) (o : dec_opts) : Prop :=
  text items "outfile" [] (do_outfile o) /\ text items "verify-sender" [] (do_pubkey o) /\ text items "env-password" [] (do_envpw o) /\
  switch items "no-password" (do_nopw o) /\ switch items "test" (do_test o) /\ switch items "overwrite" (do_force o) /\
  do_args o = words items.
