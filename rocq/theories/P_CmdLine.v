(** P_CmdLine.v -- property theorems (generated by tools/gen_p.py from CmdLinePf.v).
    Each statement is repeated in full and closed by [exact]. *)
From Verif Require Import Base TorrentCmd Startup StartupSpec StartupPf CmdLine CmdLineSpec CmdLineProofs.
Local Open Scope list_scope.
From Verif Require Import CmdLinePf.

(** C128: a command line without help flags, in which no command name is used as the name of a configuration file, means
    what it says: the first word that is not "-", not empty and not after "--" is the command - without one the crawler
    is started, and any other word is an error -; the configuration file is the one named last, by default
    ./conf/config.json, wherever the flag stands; the command gets all other words. *)
Theorem C128_meaning : forall args l, tame args -> reads args l -> (forall b, ~ In (IHelp b) l) ->
  (early l = [] -> command_line args = CliRun CRoot (file_of l) (words_of l)) /\
  (forall w r, early l = w :: r ->
     (w = B "version" -> command_line args = CliRun CVersion (file_of l) (without w (words_of l))) /\
     (w = B "torrent" -> command_line args = CliRun CTorrent (file_of l) (without w (words_of l))) /\
     (w = B "help" -> command_line args = CliRun CHelp (file_of l) (without w (words_of l))) /\
     (~ In w commands -> command_line args = CliError)).
Proof. exact C128_meaning_pf. Qed.
Print Assumptions C128_meaning.

(** C128: flags may stand anywhere and be given repeatedly, but there are only --config and the help flags: everything
    else that begins with a dash, and --config without a file, is an error, whatever else is on the command line. *)
Theorem C128_bad : forall args, tame args -> (forall l, ~ reads args l) -> command_line args = CliError.
Proof. exact C128_bad_pf. Qed.
Print Assumptions C128_bad.

(** C128: whatever runs was not asked for help, and is given the configuration file named last and the words; if help is
    asked for (and not turned off again), no command runs: help is shown, or an error. *)
Theorem C128_help : forall args l, tame args -> reads args l ->
  (help_of l = true -> command_line args = CliHelp \/ command_line args = CliError) /\
  (forall c f ws, command_line args = CliRun c f ws -> help_of l = false /\ f = file_of l /\
     (c = CRoot /\ ws = words_of l \/ exists w, (w = B "version" /\ c = CVersion \/ w = B "torrent" /\ c = CTorrent \/ w = B "help" /\ c = CHelp) /\ In w (words_of l) /\ ws = without w (words_of l))).
Proof. exact C128_help_pf. Qed.
Print Assumptions C128_help.

(** C128: the whole program: a process that comes to crawl was started with a command line that reads as configuration
    files and words, and does what starting up with the file named last does (C105); one that sends packets or starts
    to crawl was not given a command. *)
Theorem C128_program : forall v page args, tame args ->
  (forall effs w port z, program v page args = (effs, Crawling w port z) ->
     exists l, reads args l /\ help_of l = false /\ process (with_flag v (file_of l)) CmdCrawl = (effs, Crawling w port z)) /\
  (forall l w r, reads args l -> (forall b, ~ In (IHelp b) l) -> early l = w :: r ->
     queries (fst (program v page args)) = [] /\ ~ In EfRun (fst (program v page args))) /\
  ((forall l, ~ reads args l) -> program v page args = process v CmdBad).
Proof. exact C128_program_pf. Qed.
Print Assumptions C128_program.

(** C128: the usual command lines. *)
Theorem C128_usage : forall v page f p, ~ In f commands -> word p ->
  program v page [] = process (with_flag v (B "./conf/config.json")) CmdCrawl /\
  program v page [B "--config"; f] = process (with_flag v f) CmdCrawl /\
  program v page [B "--config=" ++ f] = process (with_flag v f) CmdCrawl /\
  program v page [B "version"] = process (with_flag v (B "./conf/config.json")) CmdVersion /\
  program v page [B "torrent"; p] = process (with_flag v (B "./conf/config.json")) (CmdTorrent [p]) /\
  program v page [B "torrent"; B "--"; p] = process (with_flag v (B "./conf/config.json")) (CmdTorrent [p]) /\
  program v page [B "--help"] = process v (CmdHelp page) /\ program v page [B "torrent"; B "-h"] = process v (CmdHelp page).
Proof. exact C128_usage_pf. Qed.
Print Assumptions C128_usage.

(** C128 refuted, "a command runs with the file and the words it is given" for configuration files named like commands:
    the program forgets the file name instead of the command word, and prints the wrong torrent, with --config as its configuration file. *)
Theorem C128_file_named_torrent_refuted : exists args l, reads args l /\ (forall b, ~ In (IHelp b) l) /\ early l = [B "torrent"; B "x.torrent"] /\ file_of l = B "my.json" /\
  command_line args = CliRun CTorrent (B "--config") [B "my.json"; B "torrent"; B "x.torrent"].
Proof. exact C128_file_named_torrent_refuted_pf. Qed.
Print Assumptions C128_file_named_torrent_refuted.

(** C128 refuted, "words that are no command are refused": after "--" they are not looked at, and the crawler starts. *)
Theorem C128_ignored_words_refuted : command_line [B "--"; B "version"] = CliRun CRoot (B "./conf/config.json") [B "version"] /\ command_line [B "-"; B ""] = CliRun CRoot (B "./conf/config.json") [B "-"; B ""] /\
  command_line [B "stop"] = CliError.
Proof. exact C128_ignored_words_refuted_pf. Qed.
Print Assumptions C128_ignored_words_refuted.

(** C128 refuted, "asking for help in front of a command shows its help": the command word is skipped, and the next word
    taken for the command - an error, so that the program crashes - or the general help is shown. *)
Theorem C128_help_in_front_refuted : command_line [B "--help"; B "torrent"; B "x.torrent"] = CliError /\ command_line [B "-h"; B "torrent"] = CliHelp /\
  command_line [B "torrent"; B "-h"; B "x.torrent"] = CliHelp /\ (forall v page, snd (program v page [B "--help"; B "torrent"; B "x.torrent"]) = snd (process v CmdBad)).
Proof. exact C128_help_in_front_refuted_pf. Qed.
Print Assumptions C128_help_in_front_refuted.

(** C128: the cases occur. *)
Theorem C128_example :
  command_line [B "--config=a"; B "torrent"; B "x"; B "--config"; B "b"; B "-test.v"; B "y"] = CliRun CTorrent (B "b") [B "x"; B "y"] /\
  reads [B "--config=a"; B "torrent"; B "x"; B "--config"; B "b"; B "-test.v"; B "y"] [IConfig (B "a"); IWord (B "torrent"); IWord (B "x"); IConfig (B "b"); IWord (B "y")] /\
  tame [B "--config=a"; B "torrent"; B "x"; B "--config"; B "b"; B "-test.v"; B "y"] /\
  command_line [B "torrent"; B "--config"] = CliError /\ command_line [B "-c"; B "a"] = CliError /\ command_line [B "--Config=a"] = CliError /\ command_line [B "---config=a"] = CliError /\
  command_line [B "version"; B "-hh=0"] = CliRun CVersion (B "./conf/config.json") [] /\ command_line [B "version"; B "--help=yes"] = CliError /\
  (forall l, ~ reads [B "-c"; B "a"] l).
Proof. exact C128_example_pf. Qed.
Print Assumptions C128_example.
