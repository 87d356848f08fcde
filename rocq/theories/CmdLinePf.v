(** CmdLinePf.v -- proofs of C128 (the command line). *)
From Verif Require Import Base TorrentCmd Startup StartupSpec StartupPf CmdLine CmdLineSpec CmdLineProofs.
Local Open Scope list_scope.

Lemma cmd_word w : In w commands -> word w /\ beq w (B "-") = false /\ beq w [] = false.
Proof. intros [<-|[<-|[<-|[]]]]; (split; [right; intros t; discriminate|split; reflexivity]). Qed.
Lemma next_some w c : findNext CRoot w = Some c -> In w commands.
Proof.
  cbn [findNext]. destruct (beq w (B "version")) eqn:E1; [apply beq_eq in E1; subst; intros _; left; reflexivity|].
  destruct (beq w (B "torrent")) eqn:E2; [apply beq_eq in E2; subst; intros _; right; left; reflexivity|].
  destruct (beq w (B "help")) eqn:E3; [apply beq_eq in E3; subst; intros _; right; right; left; reflexivity|discriminate].
Qed.
Lemma next_none w : findNext CRoot w = None -> ~ In w commands.
Proof. intros H [<-|[<-|[<-|[]]]]; discriminate. Qed.

(** What stripFlags finds, without help flags, is the words that may be commands. *)
Lemma strip_fuel f : forall args, length args <= f -> stripFlags f args = strip args.
Proof.
  unfold strip. assert (H : forall n f args, length args <= n -> length args <= f -> stripFlags f args = stripFlags (length args) args).
  { induction n as [|n IH]; intros f0 args Hn Hf.
    - destruct args; [|cbn in Hn; lia]. destruct f0; reflexivity.
    - destruct args as [|s rest]; [destruct f0; reflexivity|]. destruct f0 as [|f0]; [cbn in Hf; lia|]. cbn [length] in *. cbn [stripFlags].
      destruct (beq s (B "--")); [reflexivity|]. destruct ((has_prefix (B "--") s && negb (has_eq s)) || (has_prefix (B "-") s && negb (has_eq s) && (length s =? 2)))%bool.
      + destruct (length rest <=? 1) eqn:E; [reflexivity|]. apply Nat.leb_gt in E. destruct rest as [|x rest]; [cbn in E; lia|]. cbn [skipn length] in *.
        rewrite (IH f0 rest) by lia. rewrite (IH (S (length rest)) rest) by lia. reflexivity.
      + rewrite (IH f0 rest) by lia. reflexivity. }
  intros args Hf. apply (H (length args)); [lia|exact Hf].
Qed.
Lemma strip_cons s rest : strip (s :: rest) =
  if beq s (B "--") then []
  else if (has_prefix (B "--") s && negb (has_eq s)) || (has_prefix (B "-") s && negb (has_eq s) && (length s =? 2)) then
    if length rest <=? 1 then [] else strip (skipn 1 rest)
  else if negb (beq s []) && negb (has_prefix (B "-") s) then s :: strip rest else strip rest.
Proof.
  unfold strip at 1. cbn [length stripFlags]. rewrite (strip_fuel (length rest) rest) by lia. rewrite (strip_fuel (length rest) (skipn 1 rest)) by (rewrite List.skipn_length; lia). reflexivity.
Qed.

Lemma letters_test s k : letters s k -> (forall b, ~ In (IHelp b) k) -> k = [] /\ exists t, s = B "test." ++ t.
Proof. intros H Hn. destruct H as [|b v Hb|t|s l Hs]; [elim (Hn true); left; reflexivity|elim (Hn b); left; reflexivity|split; [reflexivity|exists t; reflexivity]|elim (Hn true); left; reflexivity]. Qed.

Lemma strip_early args l : reads args l -> (forall b, ~ In (IHelp b) l) -> strip args = early l.
Proof.
  induction 1 as [|v t l H IH|v t l H IH|t l H IH|b v t l Hb H IH|s k t l Hs H IH|w t l Hw H IH|t]; intros Hn.
  - reflexivity.
  - rewrite strip_cons. cbn -[strip Nat.leb length]. destruct (length (v :: t) <=? 1) eqn:E.
    + apply Nat.leb_le in E. destruct t; [|cbn in E; lia]. inversion H; subst. reflexivity.
    + apply IH. intros b Hb. apply (Hn b). right. exact Hb.
  - rewrite strip_cons. change (has_eq (B "--config=" ++ v)) with true. change (has_prefix (B "-") (B "--config=" ++ v)) with true. cbn -[strip]. apply IH. intros b Hb. apply (Hn b). right. exact Hb.
  - elim (Hn true). left. reflexivity.
  - elim (Hn b). left. reflexivity.
  - destruct (letters_test _ _ Hs) as (-> & u & ->); [intros b Hb; apply (Hn b); apply in_or_app; left; exact Hb|]. rewrite strip_cons.
    change (beq (B "-" ++ B "test." ++ u) (B "--")) with false. change (has_prefix (B "--") (B "-" ++ B "test." ++ u)) with false. change (has_prefix (B "-") (B "-" ++ B "test." ++ u)) with true.
    change (length (B "-" ++ B "test." ++ u) =? 2) with false. rewrite andb_false_r. cbn -[strip]. apply IH. intros b Hb. apply (Hn b). exact Hb.
  - assert (IH' : strip t = early l) by (apply IH; intros b Hb; apply (Hn b); right; exact Hb). rewrite strip_cons, IH'. destruct (word_cases w Hw) as [->|[->|(c & u & -> & Hc)]]; [reflexivity|reflexivity|].
    assert (H1 : has_prefix (B "-") (c :: u) = false) by (change (has_prefix (B "-") (c :: u)) with (Ascii.eqb "-" c && true)%bool; rewrite Ascii.eqb_sym, Hc; reflexivity).
    assert (H2 : has_prefix (B "--") (c :: u) = false) by (change (has_prefix (B "--") (c :: u)) with (Ascii.eqb "-" c && has_prefix (B "-") u)%bool; rewrite Ascii.eqb_sym, Hc; reflexivity).
    assert (H3 : beq (c :: u) (B "--") = false) by (apply beq_neq; intros E; injection E as -> _; discriminate).
    assert (H4 : beq (c :: u) (B "-") = false) by (apply beq_neq; intros E; injection E as -> _; discriminate).
    rewrite H1, H2, H3. change (early (IWord (c :: u) :: l)) with ((if beq (c :: u) (B "-") then [] else if beq (c :: u) [] then [] else [c :: u]) ++ early l). rewrite H4. reflexivity.
  - cbn. unfold early. clear Hn; induction t; [reflexivity|]. cbn [map flat_map]. exact IHt.
Qed.

(** Where argsMinusFirstX cuts. *)
Lemma minus_first args x : In x args -> exists a b, args = a ++ x :: b /\ argsMinusFirstX args x = a ++ b /\ ~ In x a.
Proof.
  induction args as [|y t IH]; [intros []|]. cbn [argsMinusFirstX]. destruct (beq x y) eqn:E.
  - intros _. apply beq_eq in E. subst y. exists [], t. split; [reflexivity|]. split; [reflexivity|intros []].
  - apply beq_neq in E. intros [Hy|Hin]; [congruence|]. destruct (IH Hin) as (a & b & -> & -> & Ha). exists (y :: a), b. split; [reflexivity|]. split; [reflexivity|]. intros [Hy|Hy]; [congruence|contradiction].
Qed.
Lemma strip_incl : forall n args, length args <= n -> incl (strip args) args.
Proof.
  induction n as [|n IH]; intros args Hn; [destruct args; [intros x []|cbn in Hn; lia]|]. destruct args as [|s rest]; [intros x []|]. cbn [length] in Hn. rewrite strip_cons.
  destruct (beq s (B "--")); [intros x []|]. destruct (_ || _)%bool.
  - destruct (length rest <=? 1); [intros x []|]. intros x Hx. right. apply IH in Hx; [|rewrite List.skipn_length; lia]. destruct rest; [destruct Hx|right; exact Hx].
  - destruct (_ && _)%bool; intros x Hx; [destruct Hx as [<-|Hx]; [left; reflexivity|]|]; right; apply IH in Hx; [exact Hx|lia|exact Hx|lia].
Qed.
Lemma tame_cut args a w b : tame args -> In w commands -> args = a ++ w :: b -> ~ pending a.
Proof. intros Ht Hw -> (a' & ->). apply (Ht a' w b Hw). rewrite <- app_assoc. reflexivity. Qed.
Lemma words_app a b : words_of (a ++ b) = words_of a ++ words_of b.
Proof. apply flat_map_app. Qed.
Lemma without_app w a b : ~ In w a -> without w (a ++ w :: b) = a ++ b.
Proof.
  induction a as [|x a IH]; cbn [app without]; intros H; [rewrite (proj2 (beq_eq w w) eq_refl); reflexivity|].
  replace (beq x w) with false by (symmetry; apply beq_neq; intros ->; apply H; left; reflexivity). rewrite IH; [reflexivity|]. intros Hin. apply H. right. exact Hin.
Qed.
Lemma file_mid l1 w i l2 : is_word w i -> file_of (l1 ++ i :: l2) = file_of (l1 ++ l2) /\ help_of (l1 ++ i :: l2) = help_of (l1 ++ l2) /\ words_of (l1 ++ i :: l2) = words_of l1 ++ w :: words_of l2.
Proof. intros [->| ->]; unfold file_of, help_of, words_of; rewrite !flat_map_app; repeat split; reflexivity. Qed.

(** The command that runs, and what it is given. *)
Lemma dispatch args : tame args ->
  (exists c w, find_cmd args = (c, argsMinusFirstX args w) /\ findNext CRoot w = Some c /\ In w commands /\ (exists r, strip args = w :: r) /\
     exists a b, args = a ++ w :: b /\ argsMinusFirstX args w = a ++ b /\ ~ In w a /\ ~ pending a) \/
  (find_cmd args = (CRoot, args) /\ forall w r, strip args = w :: r -> ~ In w commands).
Proof.
  intros Ht. unfold find_cmd. destruct (strip args) as [|w r] eqn:Es; [right; split; [reflexivity|intros w r E; discriminate]|].
  destruct (findNext CRoot w) as [c|] eqn:En; [|right; split; [reflexivity|intros w' r' E; injection E as <- <-; apply next_none; exact En]].
  left. exists c, w. split; [reflexivity|]. split; [exact En|]. split; [exact (next_some _ _ En)|]. split; [exists r; reflexivity|].
  assert (Hin : In w args) by (apply (strip_incl (length args)); [lia|rewrite Es; left; reflexivity]).
  destruct (minus_first _ _ Hin) as (a & b & Ha & Hm & Hn). exists a, b. split; [exact Ha|]. split; [exact Hm|]. split; [exact Hn|]. exact (tame_cut _ _ _ _ Ht (next_some _ _ En) Ha).
Qed.
Lemma next_not_root w c : findNext CRoot w = Some c -> c <> CRoot.
Proof. cbn [findNext]. destruct (beq w (B "version")); [congruence|]. destruct (beq w (B "torrent")); [congruence|]. destruct (beq w (B "help")); congruence. Qed.
Lemma legacy_sub c ws : c <> CRoot -> legacyArgs c ws = true.
Proof. destruct c; [congruence|reflexivity|reflexivity|reflexivity]. Qed.

Lemma reads_dec args : (exists l, reads args l) \/ (forall l, ~ reads args l).
Proof.
  destruct (parseArgs (length args) {| pf_config := []; pf_help := false; pf_args := [] |} args) as [q|] eqn:E.
  - left. exact (parse_reads _ _ _ _ (le_n _) E).
  - right. intros l Hl. rewrite (reads_parse _ _ Hl) in E by lia. discriminate.
Qed.
Lemma silent v cmd : cmd <> CmdCrawl -> queries (fst (process v cmd)) = [] /\ ~ In EfRun (fst (process v cmd)).
Proof.
  intros Hc. destruct (no_init v cmd) as [(d & f & lvl & Hi)|(l & p & Hp & Hl & _)].
  - destruct (C105_other_commands_pf _ _ _ _ Hi) as (_ & _ & _ & H). destruct (H cmd Hc) as (H1 & H2 & _). auto.
  - rewrite Hp. cbn [fst]. split.
    + destruct (queries l) as [|g t] eqn:E; [reflexivity|]. assert (Hg : In g (queries l)) by (rewrite E; left; reflexivity). apply in_flat_map in Hg as (x & Hx & Hg). apply Hl in Hx as [<-|[<-|[]]]; destruct Hg.
    + intros H. apply Hl in H as [H|[H|[]]]; discriminate.
Qed.
Lemma never_crawls v cmd : cmd <> CmdCrawl -> forall effs w port z, process v cmd <> (effs, Crawling w port z).
Proof.
  intros Hc effs w port z E. destruct (no_init v cmd) as [(d & f & lvl & Hi)|(l & p & Hp & Hl & _)]; [|congruence].
  destruct (crawl_init _ _ _ _ Hi) as (w0 & _ & _ & _ & c & _ & Hproc). rewrite Hproc in E. apply (f_equal snd) in E. destruct cmd as [| |args|text|]; [elim Hc; reflexivity| | | |]; cbn in E; try discriminate.
  destruct (torrent_run (su_fs v) args) as [o [p|]]; cbn in E; discriminate.
Qed.

Fixpoint tameb (args : list bytes) : bool :=
  match args with
  | a :: t => match t with b :: _ => negb (beq a (B "--config") && existsb (beq b) commands) | [] => true end && tameb t
  | [] => true
  end.
Lemma tameb_ok args : tameb args = true -> tame args.
Proof.
  intros H l1. revert args H. induction l1 as [|x l1 IH]; intros args H c l2 Hc ->; cbn [app tameb] in H; apply andb_true_iff in H as [H1 H2].
  - rewrite (proj2 (beq_eq (B "--config") (B "--config")) eq_refl) in H1. apply negb_true_iff in H1. cbn [andb] in H1.
    assert (H3 : existsb (beq c) commands = true) by (apply existsb_exists; exists c; split; [exact Hc|apply beq_eq; reflexivity]). congruence.
  - exact (IH _ H2 c l2 Hc eq_refl).
Qed.

(** ** C128 *)
(** C128: a command line without help flags, in which no command name is used as the name of a configuration file, means
    what it says: the first word that is not "-", not empty and not after "--" is the command - without one the crawler
    is started, and any other word is an error -; the configuration file is the one named last, by default
    ./conf/config.json, wherever the flag stands; the command gets all other words. *)
Lemma C128_meaning_pf : forall args l, tame args -> reads args l -> (forall b, ~ In (IHelp b) l) ->
  (early l = [] -> command_line args = CliRun CRoot (file_of l) (words_of l)) /\
  (forall w r, early l = w :: r ->
     (w = B "version" -> command_line args = CliRun CVersion (file_of l) (without w (words_of l))) /\
     (w = B "torrent" -> command_line args = CliRun CTorrent (file_of l) (without w (words_of l))) /\
     (w = B "help" -> command_line args = CliRun CHelp (file_of l) (without w (words_of l))) /\
     (~ In w commands -> command_line args = CliError)).
Proof.
  intros args l Ht Hr Hn. pose proof (strip_early _ _ Hr Hn) as Hs.
  assert (Hh : help_of l = false).
  { unfold help_of. replace (flat_map _ l) with (@nil bool); [reflexivity|]. clear -Hn. induction l as [|i l IH]; [reflexivity|]. cbn [flat_map]. rewrite <- IH by (intros b Hb; apply (Hn b); right; exact Hb).
    destruct i; try reflexivity. elim (Hn on). left. reflexivity. }
  split.
  - intros He. unfold command_line, find_cmd. rewrite Hs, He. cbv beta iota. rewrite Hs, He. cbn [legacyArgs]. rewrite (execute_reads _ _ _ Hr), Hh. reflexivity.
  - intros w r He. assert (Hin : In w commands -> forall c, findNext CRoot w = Some c -> command_line args = CliRun c (file_of l) (without w (words_of l))).
    { intros Hw c Hc. unfold command_line. destruct (dispatch _ Ht) as [(c' & w' & Ef & En & Hw' & (r' & Es) & a & b & Ea & Em & Ha & Hp)|[_ Hno]].
      2: { elim (Hno w r); [rewrite Hs; exact He|exact Hw]. }
      rewrite Hs, He in Es. injection Es as <- <-. rewrite Hc in En. injection En as <-. rewrite Ef. rewrite (legacy_sub c) by exact (next_not_root _ _ Hc).
      rewrite Ea in Hr. apply (take_out w b (length a)) in Hr as (l1 & i & l2 & El & Hi & Hr2 & Hinc); [|lia|exact Hp|exact (proj1 (cmd_word _ Hw))].
      rewrite Em, (execute_reads _ _ _ Hr2). destruct (file_mid l1 w i l2 Hi) as (E1 & E2 & E3). rewrite El, E1, E3, without_app, <- words_app by (intros Hx; apply Ha, Hinc, Hx).
      rewrite <- E2, <- El, Hh. reflexivity. }
    split; [intros ->; apply Hin; [left; reflexivity|reflexivity]|]. split; [intros ->; apply Hin; [right; left; reflexivity|reflexivity]|].
    split; [intros ->; apply Hin; [right; right; left; reflexivity|reflexivity]|].
    intros Hno. unfold command_line, find_cmd. rewrite Hs, He. destruct (findNext CRoot w) as [c|] eqn:En; [elim Hno; exact (next_some _ _ En)|]. rewrite Hs, He. reflexivity.
Qed.

(** C128: flags may stand anywhere and be given repeatedly, but there are only --config and the help flags: everything
    else that begins with a dash, and --config without a file, is an error, whatever else is on the command line. *)
Lemma C128_bad_pf : forall args, tame args -> (forall l, ~ reads args l) -> command_line args = CliError.
Proof.
  intros args Ht Hb. unfold command_line. destruct (dispatch _ Ht) as [(c & w & Ef & En & Hw & _ & a & b & Ea & Em & _ & Hp)|[Ef _]]; rewrite Ef.
  - rewrite (legacy_sub c) by exact (next_not_root _ _ En). apply execute_bad. intros l Hl. rewrite Em in Hl. apply (put_in w b (length a)) in Hl as (l1 & i & l2 & _ & _ & Hr); [|lia|exact Hp|exact (proj1 (cmd_word _ Hw))].
    rewrite Ea in Hb. elim (Hb _ Hr).
  - destruct (legacyArgs CRoot (strip args)); [|reflexivity]. apply execute_bad. exact Hb.
Qed.

(** C128: whatever runs was not asked for help, and is given the configuration file named last and the words; if help is
    asked for (and not turned off again), no command runs: help is shown, or an error. *)
Lemma C128_help_pf : forall args l, tame args -> reads args l ->
  (help_of l = true -> command_line args = CliHelp \/ command_line args = CliError) /\
  (forall c f ws, command_line args = CliRun c f ws -> help_of l = false /\ f = file_of l /\
     (c = CRoot /\ ws = words_of l \/ exists w, (w = B "version" /\ c = CVersion \/ w = B "torrent" /\ c = CTorrent \/ w = B "help" /\ c = CHelp) /\ In w (words_of l) /\ ws = without w (words_of l))).
Proof.
  intros args l Ht Hr. unfold command_line. destruct (dispatch _ Ht) as [(c & w & Ef & En & Hw & _ & a & b & Ea & Em & Ha & Hp)|[Ef _]]; rewrite Ef.
  - rewrite (legacy_sub c) by exact (next_not_root _ _ En). rewrite Ea in Hr. apply (take_out w b (length a)) in Hr as (l1 & i & l2 & El & Hi & Hr2 & Hinc); [|lia|exact Hp|exact (proj1 (cmd_word _ Hw))].
    rewrite Em, (execute_reads _ _ _ Hr2). destruct (file_mid l1 w i l2 Hi) as (E1 & E2 & E3). rewrite <- E2, <- El, <- E1, <- El. destruct (help_of l) eqn:Eh.
    + split; [auto|]. intros c' f ws E. discriminate.
    + split; [discriminate|]. intros c' f ws E. injection E as <- <- <-. split; [reflexivity|]. split; [reflexivity|]. right. exists w. split; [|split].
      * destruct Hw as [<-|[<-|[<-|[]]]]; cbn in En; injection En as <-; auto.
      * rewrite El, E3. apply in_or_app. right. left. reflexivity.
      * rewrite words_app, El, E3, without_app; [reflexivity|]. intros Hx. apply Ha, Hinc, Hx.
  - destruct (legacyArgs CRoot (strip args)); [|split; [auto|intros c f ws E; discriminate]]. rewrite (execute_reads _ _ _ Hr). destruct (help_of l); [split; [auto|intros c f ws E; discriminate]|].
    split; [discriminate|]. intros c f ws E. injection E as <- <- <-. auto.
Qed.

(** C128: the whole program: a process that comes to crawl was started with a command line that reads as configuration
    files and words, and does what starting up with the file named last does (C105); one that sends packets or starts
    to crawl was not given a command. *)
Lemma C128_program_pf : forall v page args, tame args ->
  (forall effs w port z, program v page args = (effs, Crawling w port z) ->
     exists l, reads args l /\ help_of l = false /\ process (with_flag v (file_of l)) CmdCrawl = (effs, Crawling w port z)) /\
  (forall l w r, reads args l -> (forall b, ~ In (IHelp b) l) -> early l = w :: r ->
     queries (fst (program v page args)) = [] /\ ~ In EfRun (fst (program v page args))) /\
  ((forall l, ~ reads args l) -> program v page args = process v CmdBad).
Proof.
  intros v page args Ht. split; [|split].
  - intros effs w port z E. destruct (reads_dec args) as [(l & Hl)|Hno].
    2: { unfold program in E. rewrite (C128_bad_pf _ Ht Hno) in E. exfalso. exact (never_crawls v CmdBad ltac:(discriminate) _ _ _ _ E). }
    exists l. split; [exact Hl|]. destruct (C128_help_pf _ _ Ht Hl) as [_ H]. unfold program in E. destruct (command_line args) as [| |c f ws] eqn:Ec;
      [exfalso; exact (never_crawls v CmdBad ltac:(discriminate) _ _ _ _ E)|exfalso; exact (never_crawls v (CmdHelp page) ltac:(discriminate) _ _ _ _ E)|].
    destruct (H c f ws eq_refl) as (Hh & -> & _). split; [exact Hh|]. destruct c; [exact E| | |]; exfalso; refine (never_crawls _ _ _ _ _ _ _ E); discriminate.
  - intros l w r Hl Hn He. destruct (C128_meaning_pf _ _ Ht Hl Hn) as [_ H]. destruct (H w r He) as (H1 & H2 & H3 & H4).
    assert (Hq : exists v' cmd, cmd <> CmdCrawl /\ program v page args = process v' cmd).
    { unfold program. destruct (in_dec (list_eq_dec ascii_dec) w commands) as [[Hw|[Hw|[Hw|[]]]]|Hw].
      - rewrite (H1 (eq_sym Hw)). do 2 eexists. split; [|reflexivity]. discriminate.
      - rewrite (H2 (eq_sym Hw)). do 2 eexists. split; [|reflexivity]. discriminate.
      - rewrite (H3 (eq_sym Hw)). do 2 eexists. split; [|reflexivity]. discriminate.
      - rewrite (H4 Hw). do 2 eexists. split; [|reflexivity]. discriminate. }
    destruct Hq as (v' & cmd & Hc & ->). apply silent. exact Hc.
  - intros Hno. unfold program. rewrite (C128_bad_pf _ Ht Hno). reflexivity.
Qed.

(** C128: the usual command lines. *)
Lemma C128_usage_pf : forall v page f p, ~ In f commands -> word p ->
  program v page [] = process (with_flag v (B "./conf/config.json")) CmdCrawl /\
  program v page [B "--config"; f] = process (with_flag v f) CmdCrawl /\
  program v page [B "--config=" ++ f] = process (with_flag v f) CmdCrawl /\
  program v page [B "version"] = process (with_flag v (B "./conf/config.json")) CmdVersion /\
  program v page [B "torrent"; p] = process (with_flag v (B "./conf/config.json")) (CmdTorrent [p]) /\
  program v page [B "torrent"; B "--"; p] = process (with_flag v (B "./conf/config.json")) (CmdTorrent [p]) /\
  program v page [B "--help"] = process v (CmdHelp page) /\ program v page [B "torrent"; B "-h"] = process v (CmdHelp page).
Proof.
  intros v page f p Hf Hp. unfold program.
  split; [reflexivity|]. split; [reflexivity|]. split; [reflexivity|]. split; [reflexivity|]. split.
  - assert (Hr : reads [B "torrent"; p] [IWord (B "torrent"); IWord p]) by (constructor; [right; intros t; discriminate|constructor; [exact Hp|constructor]]).
    destruct (C128_meaning_pf _ _ (tameb_ok [B "torrent"; p] eq_refl) Hr) as [_ H].
    { intros b [E|[E|[]]]; discriminate. }
    destruct (H (B "torrent") (early [IWord p]) eq_refl) as (_ & H2 & _). rewrite (H2 eq_refl). reflexivity.
  - split; [reflexivity|]. split; reflexivity.
Qed.

(** C128 refuted, "a command runs with the file and the words it is given" for configuration files named like commands:
    the program forgets the file name instead of the command word, and prints the wrong torrent, with --config as its configuration file. *)
Lemma C128_file_named_torrent_refuted_pf : exists args l, reads args l /\ (forall b, ~ In (IHelp b) l) /\ early l = [B "torrent"; B "x.torrent"] /\ file_of l = B "my.json" /\
  command_line args = CliRun CTorrent (B "--config") [B "my.json"; B "torrent"; B "x.torrent"].
Proof.
  exists [B "--config"; B "torrent"; B "--config"; B "my.json"; B "torrent"; B "x.torrent"], [IConfig (B "torrent"); IConfig (B "my.json"); IWord (B "torrent"); IWord (B "x.torrent")].
  split; [repeat (constructor; try (right; intros t; discriminate))|]. split; [intros b H; cbn in H; repeat destruct H as [H|H]; try discriminate; exact H|]. repeat split; vm_compute; reflexivity.
Qed.
(** C128 refuted, "words that are no command are refused": after "--" they are not looked at, and the crawler starts. *)
Lemma C128_ignored_words_refuted_pf : command_line [B "--"; B "version"] = CliRun CRoot (B "./conf/config.json") [B "version"] /\ command_line [B "-"; B ""] = CliRun CRoot (B "./conf/config.json") [B "-"; B ""] /\
  command_line [B "stop"] = CliError.
Proof. repeat split; vm_compute; reflexivity. Qed.
(** C128 refuted, "asking for help in front of a command shows its help": the command word is skipped, and the next word
    taken for the command - an error, so that the program crashes - or the general help is shown. *)
Lemma C128_help_in_front_refuted_pf : command_line [B "--help"; B "torrent"; B "x.torrent"] = CliError /\ command_line [B "-h"; B "torrent"] = CliHelp /\
  command_line [B "torrent"; B "-h"; B "x.torrent"] = CliHelp /\ (forall v page, snd (program v page [B "--help"; B "torrent"; B "x.torrent"]) = snd (process v CmdBad)).
Proof. repeat split; vm_compute; reflexivity. Qed.

(** C128: the cases occur. *)
Lemma C128_example_pf :
  command_line [B "--config=a"; B "torrent"; B "x"; B "--config"; B "b"; B "-test.v"; B "y"] = CliRun CTorrent (B "b") [B "x"; B "y"] /\
  reads [B "--config=a"; B "torrent"; B "x"; B "--config"; B "b"; B "-test.v"; B "y"] [IConfig (B "a"); IWord (B "torrent"); IWord (B "x"); IConfig (B "b"); IWord (B "y")] /\
  tame [B "--config=a"; B "torrent"; B "x"; B "--config"; B "b"; B "-test.v"; B "y"] /\
  command_line [B "torrent"; B "--config"] = CliError /\ command_line [B "-c"; B "a"] = CliError /\ command_line [B "--Config=a"] = CliError /\ command_line [B "---config=a"] = CliError /\
  command_line [B "version"; B "-hh=0"] = CliRun CVersion (B "./conf/config.json") [] /\ command_line [B "version"; B "--help=yes"] = CliError /\
  (forall l, ~ reads [B "-c"; B "a"] l).
Proof.
  split; [vm_compute; reflexivity|]. split.
  { refine (re_config_eq _ _ _ _). refine (re_word _ _ _ _ _); [right; intros t; discriminate|]. refine (re_word _ _ _ _ _); [right; intros t; discriminate|]. refine (re_config _ _ _ _).
    refine (re_letters (B "test.v") [] _ _ (le_test _) _). refine (re_word _ _ _ _ _); [right; intros t; discriminate|constructor]. }
  split; [apply tameb_ok; vm_compute; reflexivity|].
  do 6 (split; [vm_compute; reflexivity|]). intros l Hl. pose proof (reads_parse _ _ Hl 2 {| pf_config := []; pf_help := false; pf_args := [] |} (le_n 2)) as E. vm_compute in E. discriminate E.
Qed.
