(** P_Pprof.v -- property theorems (generated by tools/gen_p.py from PprofPf.v).
    Each statement is repeated in full and closed by [exact]. *)
From Verif Require Import Base GoLib Node NetAddr KrpcSpec DhtSpec Conc ConcSpec System Startup StartupSpec StartupPf FileSys FileSysProofs Pprof PprofSpec LoggerPf.
Local Open Scope list_scope.
From Verif Require Import PprofPf.

(** C127: starting the debug server cannot fail, whatever happens to its port; it asks to listen on port 10080 of every
    interface. *)
Theorem C127_start : exists m, StartPProf = Ok (m, B ":10080") /\ forall nm, dial_tries nm (B ":10080") = NOk [mkaddr [] 10080].
Proof. exact C127_start_pf. Qed.
Print Assumptions C127_start.

(** C127: the pages.  A page is only ever served below /debug/pprof/, and it is the page of that name; and a request whose
    path has no detours gets the page of its name. *)
Theorem C127_pages : forall m a q, StartPProf = Ok (m, a) ->
  (forall pg, debug_reply m q = RPage pg -> exists rest, hq_path q = B "/debug/pprof/" ++ rest /\ page_at rest pg) /\
  (forall rest pg, hq_path q = B "/debug/pprof/" ++ rest -> tidy (hq_path q) -> page_at rest pg -> debug_reply m q = RPage pg).
Proof. exact C127_pages_pf. Qed.
Print Assumptions C127_pages.

(** C127: everything else is redirected or not found; a redirection leads to a path without detours, and is the last. *)
Theorem C127_redirect : forall m a q p, StartPProf = Ok (m, a) -> debug_reply m q = RRedirect p ->
  let q' := {| hq_connect := hq_connect q; hq_urlhost := hq_urlhost q; hq_host := hq_host q; hq_path := p |} in
  (hq_connect q = false -> tidy p) /\ (forall p', debug_reply m q' <> RRedirect p') /\
  (hq_connect q = false -> tidy (hq_path q) -> p = hq_path q ++ B "/" /\ exists host, (host = [] \/ host = stripHostPort (hq_host q)) /\ host ++ hq_path q = B "/debug/pprof").
Proof. exact C127_redirect_pf. Qed.
Print Assumptions C127_redirect.

(** C127: what lies elsewhere is not found. *)
Theorem C127_not_found : forall m a q, StartPProf = Ok (m, a) -> hq_connect q = false -> tidy (hq_path q) ->
  (forall rest, hq_path q <> B "/debug/pprof/" ++ rest) -> hq_path q <> B "/debug/pprof" -> stripHostPort (hq_host q) ++ hq_path q <> B "/debug/pprof" -> debug_reply m q = RNotFound.
Proof. exact C127_not_found_pf. Qed.
Print Assumptions C127_not_found.

(** C127 refuted, "nobody can look into the crawler unless the user asked for it": with the default configuration a
    crawler that starts has started the debug server, which listens on every interface and shows everybody who asks the
    command line and the profiles of the process. *)
Theorem C127_open_by_default_refuted : forall v uf effs w port z, runtime_ok (su_env v) uf -> in_force v = Some defaults -> su_flag v = [] ->
  process v CmdCrawl = (effs, Crawling w port z) ->
  In EfPprof effs /\ exists m, StartPProf = Ok (m, B ":10080") /\ (forall nm, dial_tries nm (B ":10080") = NOk [mkaddr [] 10080]) /\
  forall host, debug_reply m {| hq_connect := false; hq_urlhost := []; hq_host := host; hq_path := B "/debug/pprof/cmdline" |} = RPage PgCmdline /\
               debug_reply m {| hq_connect := false; hq_urlhost := []; hq_host := host; hq_path := B "/debug/pprof/heap" |} = RPage (PgProfile (B "heap")).
Proof. exact C127_open_by_default_refuted_pf. Qed.
Print Assumptions C127_open_by_default_refuted.

(** C127: requests as they occur; in particular a detour cannot leave the directory. *)
Theorem C127_example : exists m, StartPProf = Ok (m, B ":10080") /\
  let get p := debug_reply m {| hq_connect := false; hq_urlhost := []; hq_host := B "10.0.0.1:10080"; hq_path := p |} in
  get (B "/debug/pprof/") = RPage PgList /\ get (B "/debug/pprof/heap") = RPage (PgProfile (B "heap")) /\ get (B "/debug/pprof/etc") = RPage (PgUnknown (B "etc")) /\
  get (B "/debug/pprof/trace") = RPage PgTrace /\ get (B "/debug/pprof") = RRedirect (B "/debug/pprof/") /\ get (B "/debug/pprof/../../conf/config.json") = RRedirect (B "/conf/config.json") /\
  get (B "/conf/config.json") = RNotFound /\ get (B "//debug/./pprof/") = RRedirect (B "/debug/pprof/") /\ get [] = RRedirect (B "/") /\ get (B "/") = RNotFound.
Proof. exact C127_example_pf. Qed.
Print Assumptions C127_example.
