(** CmdLineSpec.v -- what a command line says, in the words of a user. *)
From Verif Require Import Base.
Local Open Scope list_scope.

(** What is on a command line: a configuration file is named, help is asked for (or not, as in --help=false), a word, a
    word after "--". *)
Inductive item := IConfig (file : bytes) | IHelp (on : bool) | IWord (w : bytes) | ILate (w : bytes).
(** The texts for true and false. *)
Inductive bool_text : bool -> bytes -> Prop :=
| bt_true s : In s [B "1"; B "t"; B "T"; B "true"; B "TRUE"; B "True"] -> bool_text true s
| bt_false s : In s [B "0"; B "f"; B "F"; B "false"; B "FALSE"; B "False"] -> bool_text false s.
(** A word is anything that does not begin with a dash, and the dash itself. *)
Definition word (w : bytes) : Prop := w = B "-" \/ forall t, w <> "-"%char :: t.

(** The letters after a single dash: h, several times, perhaps with a truth value; letters beginning with test. are
    ignored. *)
Inductive letters : bytes -> list item -> Prop :=
| le_h : letters (B "h") [IHelp true]
| le_value b v : bool_text b v -> letters (B "h=" ++ v) [IHelp b]
| le_test t : letters (B "test." ++ t) []
| le_more s l : letters s l -> letters (B "h" ++ s) (IHelp true :: l).

Inductive reads : list bytes -> list item -> Prop :=
| re_nil : reads [] []
| re_config f t l : reads t l -> reads (B "--config" :: f :: t) (IConfig f :: l)
| re_config_eq f t l : reads t l -> reads ((B "--config=" ++ f) :: t) (IConfig f :: l)
| re_help t l : reads t l -> reads (B "--help" :: t) (IHelp true :: l)
| re_help_eq b v t l : bool_text b v -> reads t l -> reads ((B "--help=" ++ v) :: t) (IHelp b :: l)
| re_letters s k t l : letters s k -> reads t l -> reads ((B "-" ++ s) :: t) (k ++ l)
| re_word w t l : word w -> reads t l -> reads (w :: t) (IWord w :: l)
| re_late t : reads (B "--" :: t) (map ILate t).

(** The configuration file named last, else the default one. *)
Definition file_of (l : list item) : bytes :=
  last (flat_map (fun i => match i with IConfig f => [f] | _ => [] end) l) (B "./conf/config.json").
(** Whether help is asked for: the last request counts. *)
Definition help_of (l : list item) : bool := last (flat_map (fun i => match i with IHelp b => [b] | _ => [] end) l) false.
Definition words_of (l : list item) : list bytes := flat_map (fun i => match i with IWord w | ILate w => [w] | _ => [] end) l.
(** The words among which the command is looked for: not those after "--", not the dash, not the empty word. *)
Definition early (l : list item) : list bytes :=
  flat_map (fun i => match i with IWord w => if beq w (B "-") then [] else if beq w [] then [] else [w] | _ => [] end) l.
Definition commands : list bytes := [B "version"; B "torrent"; B "help"].
Fixpoint without (w : bytes) (l : list bytes) : list bytes := match l with [] => [] | x :: t => if beq x w then t else x :: without w t end.

(** No command name is used as the name of a configuration file (separated by a space). *)
Definition tame (args : list bytes) : Prop := forall l1 c l2, In c commands -> args <> l1 ++ B "--config" :: c :: l2.
