(** Pprof.v -- model of misc/pprof.go and of what it uses of Go's net/http and net/http/pprof (go 1.12: ServeMux in
    net/http/server.go, Index and handler in net/http/pprof/pprof.go), modelled from the Go sources.
    A request is its method (only CONNECT is treated differently), its Host header and the decoded path of its URL.
    Not modelled: the contents of the profiles, the special request target "*" (answered with 400). *)
From Verif Require Import Base Node NetAddr FileSys.
Local Open Scope list_scope.

(** The functions registered at misc/pprof.go:13-17. *)
Inductive dhandler := HIndex | HCmdline | HProfile | HSymbol | HTrace.

(** ServeMux: the registered patterns.  Handle panics if the pattern is empty or registered already. *)
Definition mux := list (bytes * dhandler).
Fixpoint mux_get (m : mux) (p : bytes) : option dhandler := match m with [] => None | (q, h) :: t => if beq q p then Some h else mux_get t p end.
Definition HandleFunc (m : mux) (p : bytes) (h : dhandler) : res mux :=
  if is_empty p then Panic (PStr (B "http: invalid pattern"))
  else match mux_get m p with Some _ => Panic (PStr (B "http: multiple registrations for " ++ p)) | None => Ok (m ++ [(p, h)]) end.

(** ServeMux.match: the exact pattern, otherwise the longest pattern that ends in a slash and begins the path. *)
Fixpoint starts (p s : bytes) : bool := match p, s with [] , _ => true | x :: p', y :: s' => Ascii.eqb x y && starts p' s' | _ :: _, [] => false end.
Definition ends_slash (p : bytes) : bool := match rev p with c :: _ => Ascii.eqb c slash | [] => false end.
Fixpoint mux_longest (m : mux) (path : bytes) (best : option (bytes * dhandler)) : option (bytes * dhandler) :=
  match m with
  | [] => best
  | (q, h) :: t =>
      let better := match best with Some (b, _) => length b <? length q | None => true end in
      mux_longest t path (if ends_slash q && starts q path && better then Some (q, h) else best)
  end.
Definition mux_match (m : mux) (path : bytes) : option dhandler :=
  match mux_get m path with Some h => Some h | None => option_map snd (mux_longest m path None) end.
(** ServeMux.handler: patterns with a host part are tried with the host first; None: NotFoundHandler. *)
Definition mux_hosts (m : mux) : bool := existsb (fun x => negb (rooted (fst x))) m.
Definition mux_handler (m : mux) (host path : bytes) : option dhandler :=
  match (if mux_hosts m then mux_match m (host ++ path) else None) with Some h => Some h | None => mux_match m path end.

(** http.cleanPath *)
Definition cleanPath (p : bytes) : bytes :=
  match p with
  | [] => B "/"
  | c :: _ =>
      let p1 := if Ascii.eqb c slash then p else slash :: p in
      let np := Clean p1 in
      if ends_slash p1 && negb (beq np (B "/")) then np ++ [slash] else np
  end.
(** ServeMux.shouldRedirect *)
Definition registered (m : mux) (p : bytes) : bool := match mux_get m p with Some _ => true | None => false end.
Definition shouldRedirect (m : mux) (host path : bytes) : bool :=
  if registered m path || registered m (host ++ path) then false
  else match path with
       | [] => false
       | _ => (registered m (path ++ [slash]) || registered m (host ++ path ++ [slash])) && negb (ends_slash path)
       end.

(** http.stripHostPort: an unreadable host is used as it is. *)
Definition stripHostPort (h : bytes) : bytes :=
  if existsb (fun c => Ascii.eqb c ":") h then match SplitHostPort h with NOk (x, _) => x | NErr _ => h end else h.

(** ServeMux.Handler *)
Inductive answer := AServe (h : dhandler) | ARedirect (path : bytes) | ANotFound.
Definition served (o : option dhandler) : answer := match o with Some h => AServe h | None => ANotFound end.
Record hreq := { hq_connect : bool; hq_urlhost : bytes; hq_host : bytes; hq_path : bytes }.
Definition mux_answer (m : mux) (q : hreq) : answer :=
  if hq_connect q then
    if shouldRedirect m (hq_urlhost q) (hq_path q) then ARedirect (hq_path q ++ [slash]) else served (mux_handler m (hq_host q) (hq_path q))
  else
    let host := stripHostPort (hq_host q) in
    let path := cleanPath (hq_path q) in
    if shouldRedirect m host path then ARedirect (path ++ [slash])
    else if negb (beq path (hq_path q)) then ARedirect path
    else served (mux_handler m host path).

(** pprof.Index and pprof.handler: the profiles of runtime/pprof (go 1.12); this program adds none. *)
Definition builtin_profiles : list bytes := [B "goroutine"; B "threadcreate"; B "heap"; B "allocs"; B "block"; B "mutex"].
Inductive page := PgList | PgProfile (name : bytes) | PgUnknown (name : bytes) | PgCmdline | PgCpu | PgSymbol | PgTrace.
Definition index_prefix : bytes := B "/debug/pprof/".
Definition Index (path : bytes) : page :=
  if starts index_prefix path then
    match skipn (length index_prefix) path with
    | [] => PgList
    | name => if existsb (beq name) builtin_profiles then PgProfile name else PgUnknown name
    end
  else PgList.
Definition run_handler (h : dhandler) (path : bytes) : page :=
  match h with HIndex => Index path | HCmdline => PgCmdline | HProfile => PgCpu | HSymbol => PgSymbol | HTrace => PgTrace end.

(** What the client gets. *)
Inductive reply := RPage (p : page) | RRedirect (path : bytes) | RNotFound.
Definition debug_reply (m : mux) (q : hreq) : reply :=
  match mux_answer m q with AServe h => RPage (run_handler h (hq_path q)) | ARedirect p => RRedirect p | ANotFound => RNotFound end.

(** misc/pprof.go:10-24 StartPProf: the patterns, and the address net.Listen is asked to listen on - in a goroutine of
    its own, whose result nobody looks at. *)
Definition debug_addr : bytes := B ":10080".
Definition StartPProf : res (mux * bytes) :=
  do m1 <- HandleFunc [] (B "/debug/pprof/") HIndex;
  do m2 <- HandleFunc m1 (B "/debug/pprof/cmdline") HCmdline;
  do m3 <- HandleFunc m2 (B "/debug/pprof/profile") HProfile;
  do m4 <- HandleFunc m3 (B "/debug/pprof/symbol") HSymbol;
  do m5 <- HandleFunc m4 (B "/debug/pprof/trace") HTrace;
  Ok (m5, debug_addr).
