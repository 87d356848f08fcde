(** System.v -- the whole crawler process: socket reader, packet queue, Listen loop, KRPC work pool,
    handlers (Conc.v), announcement queue, fetchTorrent loop, fetch work pool, downloads
    (FetchTorrent.v), files; every interleaving.

    Simplified: packets are values (the buffers that carry them are the subject of Udp.v: C75 shows
    that a handler sees exactly the first 1024 bytes of its datagram); the work pools are their queue
    and a bound on the number of running tasks (WorkPool.v; nobody calls Shutdown on these two pools and
    their context is never cancelled, so AsyncSubmit never panics: C99); a download is one step up
    to its first file operation (Fetch.v: it shares only the buffer pool with other goroutines,
    whose interference is part of its environment); the socket is never closed. *)
From Verif Require Import Base GoLib Bencode Types Node RouteTable Middleware Krpc Dht Conc BytesPool PeerWire Fetch FetchTorrent Udp.
Local Open Scope list_scope.

Notation ann := (request hid * udpaddr)%type.

(** One execution of fetchHandler that has got past its download: the announcement, the behaviour
    of the file system, what the handler does, the file operations left, and whether its worker is
    still busy with it. *)
Record frun := { u_x : ann; u_os : osenv; u_f : fetched; u_left : list fsop; u_busy : bool }.

(** config/config.go: sizes of the KRPC work pool, of the announcement queue and of the fetch work pool. *)
Record sizes := { z_krpc : nat; z_ann : nat; z_fetch : nat }.

Record sys := {
  y_dead : bool;               (* the process was killed: out of memory *)
  y_recv : option packet;      (* dht/krpc/udp.go:96-107: in ReadFromUDP, or in the send of :105 *)
  y_q : list packet;           (* recvq *)
  y_listen : option packet;    (* dht/krpc/server.go:40-47: in the receive, or in AsyncSubmit *)
  y_pool : list packet;        (* queue of krpc-workerpool *)
  y_core : conc;               (* its workers, and the state they share *)
  y_fetch : option ann;        (* dht/fetchtorrent.go:19-24: in the receive, or in AsyncSubmit *)
  y_fpool : list ann;          (* queue of fetchtorrent-workpool *)
  y_loads : list ann;          (* its workers that are downloading *)
  y_runs : list frun;          (* downloads that ended, or hang *)
  y_disk : disk;
  y_read : list packet;        (* history: packets read from the socket *)
  y_ops : list fsop }.         (* history: file operations *)

(** The workers of the fetch pool that are busy. *)
Definition busy (s : sys) : nat := length (y_loads s) + length (filter u_busy (y_runs s)).

(** dht/krpc/udp.go:14, :98-99: what ReadFromUDP makes of a datagram. *)
Definition cut (d : dgram) : packet := {| p_addr := dg_from d; p_bytes := firstn 1024 (dg_bytes d); p_buf := 0 |}.

Definition set_in (s : sys) (r : option packet) (q : list packet) (l : option packet) (p : list packet) (c : conc) (rd : list packet) : sys :=
  {| y_dead := y_dead s; y_recv := r; y_q := q; y_listen := l; y_pool := p; y_core := c; y_fetch := y_fetch s; y_fpool := y_fpool s;
     y_loads := y_loads s; y_runs := y_runs s; y_disk := y_disk s; y_read := rd; y_ops := y_ops s |}.
Definition set_out (s : sys) (c : conc) (f : option ann) (fp ld : list ann) (rs : list frun) (dd : disk) (os : list fsop) : sys :=
  {| y_dead := y_dead s; y_recv := y_recv s; y_q := y_q s; y_listen := y_listen s; y_pool := y_pool s; y_core := c; y_fetch := f; y_fpool := fp;
     y_loads := ld; y_runs := rs; y_disk := dd; y_read := y_read s; y_ops := os |}.
Definition kill (s : sys) : sys :=
  {| y_dead := true; y_recv := y_recv s; y_q := y_q s; y_listen := y_listen s; y_pool := y_pool s; y_core := y_core s; y_fetch := y_fetch s; y_fpool := y_fpool s;
     y_loads := y_loads s; y_runs := y_runs s; y_disk := y_disk s; y_read := y_read s; y_ops := y_ops s |}.

Definition core_begin (c : conc) (pk : packet) : conc :=
  {| k_world := k_world c; k_jobs := k_jobs c ++ [(k_next c, pk, JStart)]; k_next := S (k_next c); k_taken := k_taken c;
     k_log := k_log c ++ [(k_next c, EvStart pk)] |}.
Definition core_take (c : conc) (x : ann) (q : list ann) : conc :=
  {| k_world := set_app (k_world c) {| a_rt := a_rt (w_app (k_world c)); a_tx := a_tx (w_app (k_world c)); a_queue := q |};
     k_jobs := k_jobs c; k_next := k_next c; k_taken := k_taken c ++ [x]; k_log := k_log c |}.

(** A step of one of the running handlers (Conc.v), or its end. *)
Inductive core_step (e : nat -> env) (me : bytes) (cap : nat) (s : conc) : conc -> Prop :=
| co_job k l1 i pk pc l2 w' pc' evs : k_jobs s = l1 ++ (i, pk, pc) :: l2 -> job_step (e k) me cap (k_world s) pk pc w' pc' evs ->
    core_step e me cap s {| k_world := w'; k_jobs := l1 ++ (i, pk, pc') :: l2; k_next := k_next s; k_taken := k_taken s; k_log := k_log s ++ map (pair i) evs |}
| co_end l1 i pk l2 : k_jobs s = l1 ++ (i, pk, JEnd) :: l2 ->
    core_step e me cap s {| k_world := k_world s; k_jobs := l1 ++ l2; k_next := k_next s; k_taken := k_taken s; k_log := k_log s ++ [(i, EvEnd)] |}.

Inductive sys_step (e : nat -> env) (me : bytes) (z : sizes) (s : sys) : sys -> Prop :=
(** udp.go:99: any datagram may arrive *)
| ys_read d : y_dead s = false -> y_recv s = None ->
    sys_step e me z s (set_in s (Some (cut d)) (y_q s) (y_listen s) (y_pool s) (y_core s) (y_read s ++ [cut d]))
(** udp.go:105 *)
| ys_queue pk : y_dead s = false -> y_recv s = Some pk -> length (y_q s) < RecvChanLen ->
    sys_step e me z s (set_in s None (y_q s ++ [pk]) (y_listen s) (y_pool s) (y_core s) (y_read s))
(** server.go:41 *)
| ys_listen pk q : y_dead s = false -> y_listen s = None -> y_q s = pk :: q ->
    sys_step e me z s (set_in s (y_recv s) q (Some pk) (y_pool s) (y_core s) (y_read s))
(** server.go:44, misc/workpool.go:52 *)
| ys_submit pk : y_dead s = false -> y_listen s = Some pk -> length (y_pool s) < z_krpc z ->
    sys_step e me z s (set_in s (y_recv s) (y_q s) None (y_pool s ++ [pk]) (y_core s) (y_read s))
(** misc/workpool.go:41-42: an idle worker takes the next task *)
| ys_begin pk p : y_dead s = false -> y_pool s = pk :: p -> length (k_jobs (y_core s)) < z_krpc z ->
    sys_step e me z s (set_in s (y_recv s) (y_q s) (y_listen s) p (core_begin (y_core s) pk) (y_read s))
| ys_core c : y_dead s = false -> core_step e me (z_ann z) (y_core s) c ->
    sys_step e me z s (set_in s (y_recv s) (y_q s) (y_listen s) (y_pool s) c (y_read s))
(** dht/fetchtorrent.go:20 *)
| ys_take x q : y_dead s = false -> y_fetch s = None -> a_queue (w_app (k_world (y_core s))) = x :: q ->
    sys_step e me z s (set_out s (core_take (y_core s) x q) (Some x) (y_fpool s) (y_loads s) (y_runs s) (y_disk s) (y_ops s))
(** dht/fetchtorrent.go:21, misc/workpool.go:52 *)
| ys_fsubmit x : y_dead s = false -> y_fetch s = Some x -> length (y_fpool s) < z_fetch z ->
    sys_step e me z s (set_out s (y_core s) None (y_fpool s ++ [x]) (y_loads s) (y_runs s) (y_disk s) (y_ops s))
(** misc/workpool.go:41-42 *)
| ys_fbegin x p : y_dead s = false -> y_fpool s = x :: p -> busy s < z_fetch z ->
    sys_step e me z s (set_out s (y_core s) (y_fetch s) p (y_loads s ++ [x]) (y_runs s) (y_disk s) (y_ops s))
(** dht/fetchtorrent.go:34-42: the download ends, or blocks its worker forever *)
| ys_load l1 x l2 fe p h dial o r : y_dead s = false -> y_loads s = l1 ++ x :: l2 -> r = fetchHandler fe p h dial o x -> t_res r <> FStop OutOfMemory ->
    sys_step e me z s (set_out s (y_core s) (y_fetch s) (y_fpool s) (l1 ++ l2)
      (y_runs s ++ [{| u_x := x; u_os := o; u_f := r; u_left := t_ops r; u_busy := true |}]) (y_disk s) (y_ops s))
(** ... or exhausts the memory *)
| ys_oom l1 x l2 fe p h dial o : y_dead s = false -> y_loads s = l1 ++ x :: l2 -> t_res (fetchHandler fe p h dial o x) = FStop OutOfMemory ->
    sys_step e me z s (kill s)
(** dht/fetchtorrent.go:61-71 *)
| ys_op l1 u l2 op ops : y_dead s = false -> y_runs s = l1 ++ u :: l2 -> u_left u = op :: ops ->
    sys_step e me z s (set_out s (y_core s) (y_fetch s) (y_fpool s) (y_loads s)
      (l1 ++ {| u_x := u_x u; u_os := u_os u; u_f := u_f u; u_left := ops; u_busy := u_busy u |} :: l2) (fs_op (y_disk s) op) (y_ops s ++ [op]))
(** dht/fetchtorrent.go:43: the worker is idle again *)
| ys_fend l1 u l2 : y_dead s = false -> y_runs s = l1 ++ u :: l2 -> u_left u = [] -> u_busy u = true -> t_res (u_f u) = FOk tt ->
    sys_step e me z s (set_out s (y_core s) (y_fetch s) (y_fpool s) (y_loads s)
      (l1 ++ {| u_x := u_x u; u_os := u_os u; u_f := u_f u; u_left := []; u_busy := false |} :: l2) (y_disk s) (y_ops s)).

(** cmd/root.go:36-52, dht/dht.go:17-42: start-up, BootStrap for every configured host, then the loops. *)
Definition sys_init (c : conc) (d0 : disk) : sys :=
  {| y_dead := false; y_recv := None; y_q := []; y_listen := None; y_pool := []; y_core := c; y_fetch := None; y_fpool := []; y_loads := []; y_runs := [];
     y_disk := d0; y_read := []; y_ops := [] |}.

Inductive sys_steps (e : nat -> env) (me : bytes) (z : sizes) : sys -> sys -> Prop :=
| yss_refl s : sys_steps e me z s s
| yss_step s s' s'' : sys_steps e me z s s' -> sys_step e me z s' s'' -> sys_steps e me z s s''.

Inductive sys_reach (e : nat -> env) (me : bytes) (local : udpaddr) (hosts : list udpaddr) (z : sizes) (d0 : disk) : sys -> Prop :=
| yr_start w0 w : crawler_init me local = Ok w0 -> boot e me hosts w0 = Ok w ->
    sys_reach e me local hosts z d0 (sys_init {| k_world := w; k_jobs := []; k_next := 0; k_taken := []; k_log := [] |} d0)
| yr_step s s' : sys_reach e me local hosts z d0 s -> sys_step e me z s s' -> sys_reach e me local hosts z d0 s'.
