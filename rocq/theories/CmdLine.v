(** CmdLine.v -- the command line: cmd/root.go:12-34, cmd/version.go:9-16, cmd/torrent.go:13-16, and what the program gets from
    cobra v0.0.6 (command.go: ExecuteC, Find, stripFlags, argsMinusFirstX, legacyArgs, execute, ParseFlags, InitDefaultHelpCmd,
    InitDefaultHelpFlag) and pflag v1.0.3 (flag.go: parseArgs, parseLongArg, parseShortArg, parseSingleShortArg; bool.go,
    string.go), written down from their sources: /repo has none of its dependencies.
    Simplified: error texts and help texts are not modelled, only which of them is printed. *)
From Verif Require Import Base Startup.
Local Open Scope list_scope.

(** The commands: rootCmd (cmd/root.go:14-19), version, torrent (:26-27), and the help command cobra adds. *)
Inductive ccmd := CRoot | CVersion | CTorrent | CHelp.
(** cobra's findNext: a subcommand of the root by its name (the first word of Use); the others have none. *)
Definition findNext (c : ccmd) (w : bytes) : option ccmd :=
  match c with
  | CRoot => if beq w (B "version") then Some CVersion else if beq w (B "torrent") then Some CTorrent else if beq w (B "help") then Some CHelp else None
  | _ => None
  end.

(** strings.HasPrefix(s, p) *)
Fixpoint has_prefix (p s : bytes) : bool :=
  match p, s with [], _ => true | a :: p', b :: s' => Ascii.eqb a b && has_prefix p' s' | _ :: _, [] => false end.
(** strings.Contains(s, "=") *)
Definition has_eq (s : bytes) : bool := existsb (fun c => Ascii.eqb c "=") s.

(** cobra's stripFlags: the words in front of the first "--" that are no flags; whatever follows a flag without "=" is
    taken for its value.  The only flag known at that point is --config, which has no NoOptDefVal (hasNoOptDefVal and
    shortHasNoOptDefVal are false for every flag; the help flag is added in execute, later). *)
Fixpoint stripFlags (fuel : nat) (args : list bytes) : list bytes :=
  match fuel with
  | O => []
  | S f =>
      match args with
      | [] => []
      | s :: rest =>
          if beq s (B "--") then []
          else if (has_prefix (B "--") s && negb (has_eq s)) || (has_prefix (B "-") s && negb (has_eq s) && (length s =? 2)) then
            if length rest <=? 1 then [] else stripFlags f (skipn 1 rest)
          else if negb (beq s []) && negb (has_prefix (B "-") s) then s :: stripFlags f rest
          else stripFlags f rest
      end
  end.
Definition strip (args : list bytes) : list bytes := stripFlags (length args) args.

(** cobra's argsMinusFirstX *)
Fixpoint argsMinusFirstX (args : list bytes) (x : bytes) : list bytes :=
  match args with [] => [] | y :: t => if beq x y then t else y :: argsMinusFirstX t x end.

(** cobra's Find: innerfind (two levels of commands), then legacyArgs for the command found: the root has subcommands and
    no parent, so it takes no words; the others take any. *)
Definition find_cmd (args : list bytes) : (ccmd * list bytes) :=
  match strip args with
  | [] => (CRoot, args)
  | w :: _ => match findNext CRoot w with Some c => (c, argsMinusFirstX args w) | None => (CRoot, args) end
  end.
Definition legacyArgs (c : ccmd) (words : list bytes) : bool := match c, words with CRoot, _ :: _ => false | _, _ => true end.

(** ** pflag *)
(** The flags of a command when it is executed: --config (persistent, a string) and --help/-h (a bool, NoOptDefVal "true").
    The variable cfgFile, whether help is set, and the words. *)
Record pf := { pf_config : bytes; pf_help : bool; pf_args : list bytes }.
(** strconv.ParseBool *)
Definition ParseBool (s : bytes) : option bool :=
  if existsb (beq s) [B "1"; B "t"; B "T"; B "true"; B "TRUE"; B "True"] then Some true
  else if existsb (beq s) [B "0"; B "f"; B "F"; B "false"; B "FALSE"; B "False"] then Some false else None.
Definition set_config (p : pf) (v : bytes) : pf := {| pf_config := v; pf_help := pf_help p; pf_args := pf_args p |}.
Definition set_help (p : pf) (v : bytes) : option pf := match ParseBool v with Some b => Some {| pf_config := pf_config p; pf_help := b; pf_args := pf_args p |} | None => None end.
Definition add_args (p : pf) (l : list bytes) : pf := {| pf_config := pf_config p; pf_help := pf_help p; pf_args := pf_args p ++ l |}.

(** strings.SplitN(name, "=", 2) *)
Fixpoint split_eq (s : bytes) : bytes * option bytes :=
  match s with
  | [] => ([], None)
  | c :: t => if Ascii.eqb c "=" then ([], Some t) else let (a, b) := split_eq t in (c :: a, b)
  end.
(** pflag's parseLongArg on "--" ++ name; None: an error. *)
Definition parseLongArg (p : pf) (name : bytes) (rest : list bytes) : option (pf * list bytes) :=
  match name with
  | [] => None
  | c :: _ =>
      if Ascii.eqb c "-" || Ascii.eqb c "=" then None
      else match split_eq name with
           | (n, v) =>
               if beq n (B "config") then
                 match v with
                 | Some w => Some (set_config p w, rest)
                 | None => match rest with w :: r => Some (set_config p w, r) | [] => None end
                 end
               else if beq n (B "help") then option_map (fun q => (q, rest)) (set_help p (match v with Some w => w | None => B "true" end))
               else None
           end
  end.
(** pflag's parseShortArg and parseSingleShortArg on "-" ++ shorthands: the only shorthand is h; what begins with "test." is
    ignored. *)
Fixpoint parseShortArg (fuel : nat) (p : pf) (sh : bytes) : option pf :=
  match fuel with
  | O => Some p
  | S f =>
      match sh with
      | [] => Some p
      | c :: t =>
          if has_prefix (B "test.") sh then Some p
          else if Ascii.eqb c "h" then
            match t with
            | c2 :: (c3 :: t3) => if Ascii.eqb c2 "=" then set_help p (c3 :: t3)
                                 else match set_help p (B "true") with Some q => parseShortArg f q t | None => None end
            | _ => match set_help p (B "true") with Some q => parseShortArg f q t | None => None end
            end
          else None
      end
  end.
(** pflag's parseArgs, interspersed. *)
Fixpoint parseArgs (fuel : nat) (p : pf) (args : list bytes) : option pf :=
  match fuel with
  | O => Some p
  | S f =>
      match args with
      | [] => Some p
      | s :: rest =>
          match s with
          | c1 :: (c2 :: t) =>
              if negb (Ascii.eqb c1 "-") then parseArgs f (add_args p [s]) rest
              else if Ascii.eqb c2 "-" then
                match t with
                | [] => Some (add_args p rest)
                | _ => match parseLongArg p t rest with Some (q, r) => parseArgs f q r | None => None end
                end
              else match parseShortArg (length s) p (c2 :: t) with Some q => parseArgs f q rest | None => None end
          | _ => parseArgs f (add_args p [s]) rest
          end
      end
  end.

(** config.FileAbsPath, the default of --config (config/config.go:13, cmd/root.go:23) *)
Definition default_config : bytes := B "./conf/config.json".

(** ** What happens *)
(** An error (printed, and returned to cmd/root.go:31); help printed; or the Run function of a command, with cfgFile and the
    words. *)
Inductive cli := CliError | CliHelp | CliRun (c : ccmd) (config : bytes) (args : list bytes).
(** cobra's execute of a command on its flags. *)
Definition execute (c : ccmd) (flags : list bytes) : cli :=
  match parseArgs (length flags) {| pf_config := default_config; pf_help := false; pf_args := [] |} flags with
  | None => CliError
  | Some p => if pf_help p then CliHelp else CliRun c (pf_config p) (pf_args p)
  end.
(** cobra's ExecuteC on os.Args[1:]. *)
Definition command_line (args : list bytes) : cli :=
  let (c, flags) := find_cmd args in
  if legacyArgs c (strip flags) then execute c flags else CliError.

(** main.go:9-12 with cmd/root.go:30-34: the command's Run function, cfgFile having been set by the flag; an error makes
    ExecuteBackgroud panic.  The help command (InitDefaultHelpCmd) prints a page, or that there is no such topic. *)
Definition with_flag (v : surroundings) (f : bytes) : surroundings :=
  {| su_file := su_file v; su_flag := f; su_named := su_named v; su_can_listen := su_can_listen v; su_resolve := su_resolve v; su_env := su_env v; su_uni := su_uni v; su_fs := su_fs v |}.
Definition program (v : surroundings) (page : bytes) (args : list bytes) : proc :=
  match command_line args with
  | CliError => process v CmdBad
  | CliHelp => process v (CmdHelp page)
  | CliRun CRoot f _ => process (with_flag v f) CmdCrawl
  | CliRun CVersion f _ => process (with_flag v f) CmdVersion
  | CliRun CTorrent f ws => process (with_flag v f) (CmdTorrent ws)
  | CliRun CHelp f _ => process (with_flag v f) (CmdHelp page)
  end.
