(** InfoLog.v -- model of the crawler's info-hash log, logs/infohash.log (dht/requesthandler.go:9,
    :30, :41), on top of Conc.v (the handlers) and ZapLog.v (the logger).

    The file is the sequence of bytes the handlers of the interleaved crawler append; each Info call appends one
    line in one step (lumberjack holds a lock while writing).  The line's time stamp and the order of its context fields (map
    iteration) are inputs.  The call lies before the handler's first access to shared state, hence it is part of the
    job's first step.  Write errors, rotation and deletion of old files are not modelled. *)
From Verif Require Import Base GoLib Bencode Types Logger Node RouteTable Middleware Krpc Dht Conc ZapLog ZapLogSpec.
Local Open Scope list_scope.

(** dht/requesthandler.go:9 *)
Definition infoHashLogger : zlogger := NewZapLogger (B "info").
(** Iteration orders of a map. *)
Definition order := list (bytes * jval) -> list (bytes * jval).
Definition info (o : order) (msg : bytes) (ctx : list (bytes * jval)) : list zentry :=
  match fst (zcall MInfo infoHashLogger msg (Some (o ctx))) with Some e => [e] | None => [] end.

(** dht/requesthandler.go:11-44, what the handlers log there. *)
Definition request_log (o : order) (h : hid) (req : request hid) (addr : udpaddr) : list zentry :=
  let body := dict_of (rq_body req) in
  match h with
  | HGetPeers => match GetString body (B "info_hash") with
                 | Ok ih => info o (B "get_peer") [(B "addr", JStr (addr_string addr)); (B "infoHash", JStr (hex ih))]
                 | _ => [] end
  | HAnnounce => match (do ih <- GetString body (B "info_hash"); do p <- GetInteger body (B "port"); Ok (ih, p)) with
                 | Ok (ih, p) => info o (B "announce_peer") [(B "addr", JStr (addr_string addr)); (B "port", JInt p); (B "infoHash", JStr (hex ih))]
                 | _ => [] end
  | _ => []
  end.

(** dht/krpc/server.go:191-207, the same checks as [query_pc]. *)
Definition query_log (e : env) (o : order) (addr : udpaddr) (dict : entries) (tx q : bytes) : list zentry :=
  match (do ok <- ContainsString (e_uf e) supportQueryType q;
         do body <- GetDict dict (B "a");
         do sourceId <- GetString (dict_of body) (B "id");
         Ok (ok, body, sourceId)) with
  | Ok (ok, body, sourceId) =>
      if negb ok then [] else
      if negb (length sourceId =? 20) then [] else
      match crawler_router q with
      | None => []
      | Some h => request_log o h {| rq_tx := tx; rq_type := q; rq_body := body; rq_handler := None |} addr
      end
  | _ => []
  end.

(** dht/krpc/server.go:120-131, :175-189 *)
Definition start_log (e : env) (o : order) (pk : packet) : list zentry :=
  match DecodeDictNoLimit (p_bytes pk) with
  | Ok (dict, _) =>
      if negb (Exist dict (B "y")) then [] else
      match GetString dict (B "y") with
      | Ok y => if beq y (B "q") then
          match (do t <- GetString dict (B "t"); do q <- GetString dict (B "q"); Ok (t, q)) with
          | Ok (tx, q) => query_log e o (p_addr pk) dict tx q
          | _ => []
          end else []
      | _ => []
      end
  | _ => []
  end.

(** The crawler with its log file; [l_recs] is the history of the file: job, time, entry. *)
Record lconc := { l_conc : conc; l_file : bytes; l_recs : list (nat * bytes * zentry) }.

(** [os k] is an iteration order; steps other than a job's first do not write. *)
Inductive lstep (e : nat -> env) (os : nat -> order) (me : bytes) (cap : nat) (s : lconc) : lconc -> Prop :=
| ls_start k l1 i pk l2 w' pc' evs now : k_jobs (l_conc s) = l1 ++ (i, pk, JStart) :: l2 -> numeric now ->
    job_step (e k) me cap (k_world (l_conc s)) pk JStart w' pc' evs ->
    lstep e os me cap s
      {| l_conc := {| k_world := w'; k_jobs := l1 ++ (i, pk, pc') :: l2; k_next := k_next (l_conc s); k_taken := k_taken (l_conc s); k_log := k_log (l_conc s) ++ map (pair i) evs |};
         l_file := l_file s ++ concat (map (line now) (start_log (e k) (os k) pk)); l_recs := l_recs s ++ map (fun en => (i, now, en)) (start_log (e k) (os k) pk) |}
| ls_job k l1 i pk pc l2 w' pc' evs : k_jobs (l_conc s) = l1 ++ (i, pk, pc) :: l2 -> pc <> JStart ->
    job_step (e k) me cap (k_world (l_conc s)) pk pc w' pc' evs ->
    lstep e os me cap s
      {| l_conc := {| k_world := w'; k_jobs := l1 ++ (i, pk, pc') :: l2; k_next := k_next (l_conc s); k_taken := k_taken (l_conc s); k_log := k_log (l_conc s) ++ map (pair i) evs |};
         l_file := l_file s; l_recs := l_recs s |}
| ls_begin pk : lstep e os me cap s
      {| l_conc := {| k_world := k_world (l_conc s); k_jobs := k_jobs (l_conc s) ++ [(k_next (l_conc s), pk, JStart)]; k_next := S (k_next (l_conc s)); k_taken := k_taken (l_conc s);
                      k_log := k_log (l_conc s) ++ [(k_next (l_conc s), EvStart pk)] |};
         l_file := l_file s; l_recs := l_recs s |}
| ls_end l1 i pk l2 : k_jobs (l_conc s) = l1 ++ (i, pk, JEnd) :: l2 -> lstep e os me cap s
      {| l_conc := {| k_world := k_world (l_conc s); k_jobs := l1 ++ l2; k_next := k_next (l_conc s); k_taken := k_taken (l_conc s); k_log := k_log (l_conc s) ++ [(i, EvEnd)] |};
         l_file := l_file s; l_recs := l_recs s |}
| ls_take x q : a_queue (w_app (k_world (l_conc s))) = x :: q -> lstep e os me cap s
      {| l_conc := {| k_world := set_app (k_world (l_conc s)) {| a_rt := a_rt (w_app (k_world (l_conc s))); a_tx := a_tx (w_app (k_world (l_conc s))); a_queue := q |};
                      k_jobs := k_jobs (l_conc s); k_next := k_next (l_conc s); k_taken := k_taken (l_conc s) ++ [x]; k_log := k_log (l_conc s) |};
         l_file := l_file s; l_recs := l_recs s |}.

(** The file is empty at first (an existing file is appended to; its old contents are left out). *)
Inductive lreach (e : nat -> env) (os : nat -> order) (me : bytes) (local : udpaddr) (hosts : list udpaddr) (cap : nat) : lconc -> Prop :=
| lr_start w0 w : crawler_init me local = Ok w0 -> boot e me hosts w0 = Ok w ->
    lreach e os me local hosts cap {| l_conc := {| k_world := w; k_jobs := []; k_next := 0; k_taken := []; k_log := [] |}; l_file := []; l_recs := [] |}
| lr_step s s' : lreach e os me local hosts cap s -> lstep e os me cap s s' -> lreach e os me local hosts cap s'.
