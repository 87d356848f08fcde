(** Lifecycle.v -- one run of the crawler from the end of package initialisation to its end: the main goroutine
    (cmd/root.go:47-52), the goroutine of dht.Run (dht/dht.go:22-43), the socket reader that package initialisation
    started (dht/krpc/udp.go:92), the dispatch loop, handlers, signals and the clean functions, interleaved in any way.

    The parts have models of their own: Startup.v (what bootstrapping sends), Shutdown.v (WaitShutdown and
    runCleans: its states and steps are used here), Udp.v (buffers, concurrent Close calls), WorkPool.v, Krpc.v and
    Dht.v (what a handler does).  Here a submitted packet is handled once, at any later time; a handler is one step; a packet is the
    sender and at most 1024 bytes; bootstrapping a host is one step.  The context of the shutdown is context.Background
    (misc/shutdown.go:21; InitShutdownCtx has no caller), so it is never cancelled. *)
From Verif Require Import Base Node Krpc Dht WorkPool Shutdown.
Local Open Scope list_scope.

(** cmd/root.go:47-52, the main goroutine: bootstrapping, with the hosts still to be contacted; before :50; in Wait4Shutdown
    (from there [d_main] says where). *)
Inductive lmain := LBoot (rest : list bytes) | LGo | LWaiting.
(** dht/dht.go:22-43: not started; registering, with the registrations still to be made; before :35; before :37; before :42;
    in Listen waiting for a packet (dht/krpc/server.go:41); before :44 of it. *)
Inductive lrun := LrIdle | LrReg (rest : list (bytes * hid)) | LrFetch | LrClean | LrListen | LrTake | LrSubmit (p : udpaddr * bytes).
(** dht/krpc/udp.go:96-107: before :97, in ReadFromUDP, in the send of :105, ended. *)
Inductive lread := LdTop | LdRead | LdSend (p : udpaddr * bytes) | LdGone.
(** dht/dht.go:37-40 and dht/krpc/udp.go:30-45, the one clean function: not running, before closed.Store, before conn.Close, done. *)
Inductive lclose := LcIdle | LcStore | LcConn | LcDone.
(** The process: running, its main function returned, an unrecovered panic. *)
Inductive lend := LAlive | LExited | LCrashed.

Record life := {
  l_main : lmain; l_run : lrun; l_srv : server hid; l_sd : sd; l_read : lread; l_q : list (udpaddr * bytes); l_jobs : list (udpaddr * bytes);
  l_close : lclose; l_closed : bool; l_sock : bool; l_end : lend }.

(** What can be seen. *)
Inductive lev :=
| LvBoot (host : bytes)                                  (* a host was contacted *)
| LvSignal                                               (* SIGINT or SIGTERM *)
| LvFetch                                                (* the fetch loop starts *)
| LvListen                                               (* Listen is entered *)
| LvRead (p : udpaddr * bytes)                           (* a datagram was read *)
| LvTaken (p : udpaddr * bytes)                          (* Listen took a packet *)
| LvHandle (p : udpaddr * bytes) (srv : server hid)      (* a handler runs, with the routes as they are *)
| LvCleaning                                             (* the cleaning starts *)
| LvClosed                                               (* the socket is closed *)
| LvExit (finished : bool)                               (* main returns, the clean functions finished or timed out *)
| LvCrash                                                (* an unrecovered panic *)
| LvTau.

(** dht/dht.go:29-32 *)
Definition registrations : list (bytes * hid) := [(B "ping", HPing); (B "find_node", HFindNode); (B "get_peers", HGetPeers); (B "announce_peer", HAnnounce)].

(** dht/krpc/udp.go:15 *)
Definition LRecvChanLen : nat := 100.

(** After package initialisation (dht/dht.go:19, misc/shutdown.go:21), with the configured hosts. *)
Definition life_init (hosts : list bytes) : life :=
  {| l_main := LBoot hosts; l_run := LrIdle; l_srv := NewRpcServer (H:=hid); l_sd := WithShutdownContext; l_read := LdTop; l_q := []; l_jobs := [];
     l_close := LcIdle; l_closed := false; l_sock := true; l_end := LAlive |}.

Definition ls_main (s : life) (m : lmain) (r : lrun) : life :=
  {| l_main := m; l_run := r; l_srv := l_srv s; l_sd := l_sd s; l_read := l_read s; l_q := l_q s; l_jobs := l_jobs s;
     l_close := l_close s; l_closed := l_closed s; l_sock := l_sock s; l_end := l_end s |}.
Definition ls_srv (s : life) (r : lrun) (x : server hid) : life :=
  {| l_main := l_main s; l_run := r; l_srv := x; l_sd := l_sd s; l_read := l_read s; l_q := l_q s; l_jobs := l_jobs s;
     l_close := l_close s; l_closed := l_closed s; l_sock := l_sock s; l_end := l_end s |}.
Definition ls_sd (s : life) (r : lrun) (d : sd) (c : lclose) : life :=
  {| l_main := l_main s; l_run := r; l_srv := l_srv s; l_sd := d; l_read := l_read s; l_q := l_q s; l_jobs := l_jobs s;
     l_close := c; l_closed := l_closed s; l_sock := l_sock s; l_end := l_end s |}.
Definition ls_net (s : life) (r : lrun) (d : lread) (q j : list (udpaddr * bytes)) : life :=
  {| l_main := l_main s; l_run := r; l_srv := l_srv s; l_sd := l_sd s; l_read := d; l_q := q; l_jobs := j;
     l_close := l_close s; l_closed := l_closed s; l_sock := l_sock s; l_end := l_end s |}.
Definition ls_close (s : life) (c : lclose) (closed sock : bool) : life :=
  {| l_main := l_main s; l_run := l_run s; l_srv := l_srv s; l_sd := l_sd s; l_read := l_read s; l_q := l_q s; l_jobs := l_jobs s;
     l_close := c; l_closed := closed; l_sock := sock; l_end := l_end s |}.
Definition ls_end (s : life) (x : lend) : life :=
  {| l_main := l_main s; l_run := l_run s; l_srv := l_srv s; l_sd := l_sd s; l_read := l_read s; l_q := l_q s; l_jobs := l_jobs s;
     l_close := l_close s; l_closed := l_closed s; l_sock := l_sock s; l_end := x |}.

(** The steps WaitShutdown and runCleans make by themselves: those of Shutdown.v other than [sd_cancel], [sd_signal] and [sd_clean]
    (which come from elsewhere), [sd_begin] (it is an event here), [sd_call], [sd_end] (what the clean function does matters here), [sd_panic] (it does not panic)
    and [sd_negative] (it ends the process). *)
Inductive sd_own (s : sd) : sd -> Prop :=
| so_wake : d_main s = MWait -> d_cancelled s = true \/ d_signalled s = true -> sd_own s (set_main s MGot (d_status s) (d_run s))
| so_timeout : d_main s = MSelect -> sd_own s (set_main s (MWoken false) (d_status s) (d_run s))
| so_meet : d_main s = MSelect -> d_run s = RSend -> sd_own s (set_main s (MWoken true) (d_status s) RGone)
| so_return b : d_main s = MWoken b -> sd_own s (set_main s (MReturned b) Shutdowned (d_run s))
| so_add : d_run s = RAdd -> sd_own s (set_run s RRange (d_gos s) (d_wg s + length (d_cleans s)) (d_calls s) (d_ended s))
| so_range : d_run s = RRange -> sd_own s (set_run s (RLoop (d_cleans s)) (d_gos s) (d_wg s) (d_calls s) (d_ended s))
| so_launch c rest : d_run s = RLoop (c :: rest) -> sd_own s (set_run s (RLoop rest) (d_gos s ++ [(c, CStart)]) (d_wg s) (d_calls s) (d_ended s))
| so_launched : d_run s = RLoop [] -> sd_own s (set_run s RWait (d_gos s) (d_wg s) (d_calls s) (d_ended s))
| so_waited : d_run s = RWait -> d_wg s = 0 -> sd_own s (set_run s RSend (d_gos s) (d_wg s) (d_calls s) (d_ended s))
| so_done l1 c l2 n : d_gos s = l1 ++ (c, CEnd) :: l2 -> d_wg s = S n -> sd_own s (set_run s (d_run s) (l1 ++ l2) n (d_calls s) (d_ended s)).

Inductive life_step (e : env) (s : life) : lev -> life -> Prop :=
(** cmd/root.go:47-49: a host answers to its name and the query is sent, or BootStrap panics; :50 *)
| lf_boot h t : l_end s = LAlive -> l_main s = LBoot (h :: t) -> life_step e s (LvBoot h) (ls_main s (LBoot t) (l_run s))
| lf_badhost h t : l_end s = LAlive -> l_main s = LBoot (h :: t) -> life_step e s LvCrash (ls_end s LCrashed)
| lf_booted : l_end s = LAlive -> l_main s = LBoot [] -> life_step e s LvTau (ls_main s LGo (l_run s))
| lf_go : l_end s = LAlive -> l_main s = LGo -> life_step e s LvTau (ls_main s LWaiting (LrReg registrations))
(** misc/shutdown.go:102: the handler is installed by package initialisation; the channel holds one signal, more are dropped *)
| lf_signal : l_end s = LAlive -> life_step e s LvSignal (ls_sd s (l_run s) (set_env (l_sd s) (d_cancelled (l_sd s)) true (d_cleans (l_sd s)) (d_late (l_sd s))) (l_close s))
(** dht/dht.go:29-32 *)
| lf_register q h t x : l_end s = LAlive -> l_run s = LrReg ((q, h) :: t) -> RegisteHandler e (l_srv s) q (Some h) = Ok x -> life_step e s LvTau (ls_srv s (LrReg t) x)
| lf_refused q h t p : l_end s = LAlive -> l_run s = LrReg ((q, h) :: t) -> RegisteHandler e (l_srv s) q (Some h) = Panic p -> life_step e s LvCrash (ls_end s LCrashed)
| lf_registered : l_end s = LAlive -> l_run s = LrReg [] -> life_step e s LvTau (ls_srv s LrFetch (l_srv s))
(** dht/dht.go:35, :37-40, :42 *)
| lf_fetch : l_end s = LAlive -> l_run s = LrFetch -> life_step e s LvFetch (ls_srv s LrClean (l_srv s))
| lf_clean : l_end s = LAlive -> l_run s = LrClean ->
    life_step e s LvTau (ls_sd s LrListen (set_env (l_sd s) (d_cancelled (l_sd s)) (d_signalled (l_sd s)) (d_cleans (l_sd s) ++ [0]) (d_late (l_sd s) || started_running (d_run (l_sd s)))) (l_close s))
| lf_listen : l_end s = LAlive -> l_run s = LrListen -> life_step e s LvListen (ls_srv s LrTake (l_srv s))
(** dht/krpc/udp.go:97, :99, :99-103, :105 *)
| lf_gone : l_end s = LAlive -> l_read s = LdTop -> l_closed s = true -> life_step e s LvTau (ls_net s (l_run s) LdGone (l_q s) (l_jobs s))
| lf_top : l_end s = LAlive -> l_read s = LdTop -> l_closed s = false -> life_step e s LvTau (ls_net s (l_run s) LdRead (l_q s) (l_jobs s))
| lf_read p : l_end s = LAlive -> l_read s = LdRead -> l_sock s = true -> length (snd p) <= 1024 -> life_step e s (LvRead p) (ls_net s (l_run s) (LdSend p) (l_q s) (l_jobs s))
| lf_readerr : l_end s = LAlive -> l_read s = LdRead -> life_step e s LvTau (ls_net s (l_run s) LdTop (l_q s) (l_jobs s))
| lf_send p : l_end s = LAlive -> l_read s = LdSend p -> length (l_q s) < LRecvChanLen -> life_step e s LvTau (ls_net s (l_run s) LdTop (l_q s ++ [p]) (l_jobs s))
(** dht/krpc/server.go:41, :44, :111-144 *)
| lf_take p q : l_end s = LAlive -> l_run s = LrTake -> l_q s = p :: q -> life_step e s (LvTaken p) (ls_net s (LrSubmit p) (l_read s) q (l_jobs s))
| lf_submit p : l_end s = LAlive -> l_run s = LrSubmit p -> life_step e s LvTau (ls_net s LrTake (l_read s) (l_q s) (l_jobs s ++ [p]))
| lf_handle l1 p l2 : l_end s = LAlive -> l_jobs s = l1 ++ p :: l2 -> life_step e s (LvHandle p (l_srv s)) (ls_net s (l_run s) (l_read s) (l_q s) (l1 ++ l2))
(** misc/shutdown.go: WaitShutdown, from cmd/root.go:51, and runCleans *)
| lf_begin : l_end s = LAlive -> d_main (l_sd s) = MGot -> life_step e s LvCleaning (ls_sd s (l_run s) (set_main (l_sd s) MSelect Shutdowning RAdd) (l_close s))
| lf_wait d : l_end s = LAlive -> l_main s = LWaiting -> sd_own (l_sd s) d -> life_step e s LvTau (ls_sd s (l_run s) d (l_close s))
| lf_call l1 c l2 : l_end s = LAlive -> d_gos (l_sd s) = l1 ++ (c, CStart) :: l2 ->
    life_step e s LvTau (ls_sd s (l_run s) (set_run (l_sd s) (d_run (l_sd s)) (l1 ++ (c, CRun) :: l2) (d_wg (l_sd s)) (d_calls (l_sd s) ++ [c]) (d_ended (l_sd s))) LcStore)
(** dht/krpc/udp.go:41, :42-43, and the return of the clean function *)
| lf_store : l_end s = LAlive -> l_close s = LcStore -> life_step e s LvTau (ls_close s LcConn true (l_sock s))
| lf_conn : l_end s = LAlive -> l_close s = LcConn -> life_step e s LvClosed (ls_close s LcDone (l_closed s) false)
| lf_cleaned l1 c l2 : l_end s = LAlive -> l_close s = LcDone -> d_gos (l_sd s) = l1 ++ (c, CRun) :: l2 ->
    life_step e s LvTau (ls_sd s (l_run s) (set_run (l_sd s) (d_run (l_sd s)) (l1 ++ (c, CEnd) :: l2) (d_wg (l_sd s)) (d_calls (l_sd s)) (d_ended (l_sd s) ++ [c])) LcDone)
(** misc/shutdown.go:86: a negative counter panics *)
| lf_negative l1 c l2 : l_end s = LAlive -> d_gos (l_sd s) = l1 ++ (c, CEnd) :: l2 -> d_wg (l_sd s) = 0 -> life_step e s LvCrash (ls_end s LCrashed)
(** cmd/root.go:52, main.go:12: main returns, which ends every other goroutine *)
| lf_exit b : l_end s = LAlive -> d_main (l_sd s) = MReturned b -> life_step e s (LvExit b) (ls_end s LExited).

(** All runs, with the events in order. *)
Inductive life_run (e : env) (hosts : list bytes) : list lev -> life -> Prop :=
| lr_nil : life_run e hosts [] (life_init hosts)
| lr_step tr s v s' : life_run e hosts tr s -> life_step e s v s' -> life_run e hosts (tr ++ [v]) s'.
