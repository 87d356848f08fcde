(** RecvLog.v -- model of what the receiving goroutines print: the calls of udpLogger in dht/krpc/udp.go:101 and :104 and of serverLogger in
    dht/krpc/server.go:42, on top of Udp.v.  A goroutine at its log call does nothing else until the line is out; everything else
    goes on meanwhile, and other goroutines print other lines at any time.  A line is printed in one piece (Logger.v).
    Simplification: the text of a read error is an input. *)
From Verif Require Import Base GoLib Bencode Types Logger Node ConsoleLog BytesPool Udp.
Local Open Scope list_scope.

(** The server, the line the receive goroutine is about to print, the one Listen is about to print, and the console. *)
Record rlog := { g_udp : udp; g_rline : option centry; g_lline : option centry; g_out : list centry }.
Definition rlog0 (h : heap) : rlog := {| g_udp := StartUdpServer h; g_rline := None; g_lline := None; g_out := [] |}.

(** udp.go:104, server.go:42, udp.go:101; [buf] shows [len] bytes in the heap. *)
Definition received_entry (h : heap) (p : rpkt) : centry :=
  entry "udp" MInfo "<<< received Bytes" [(B "raddr", VStr (addr_string (k_addr p))); (B "length", VInt (Z.of_nat (length (h_read h (k_buf p)))))].
Definition taken_entry (h : heap) (p : rpkt) : centry :=
  entry "server" MInfo "<<<rpc received" [(B "from", VStr (addr_string (k_addr p))); (B "len", VInt (Z.of_nat (length (h_read h (k_buf p)))))].
Definition failed_entry (t : bytes) : centry := entry "udp" MError "<<< receive udp err" [(B "err", VStr t)].
(** The three kinds of lines, by logger and message. *)
Definition is_line (lg msg : string) (en : centry) : bool := beq (ce_log en) (B lg) && beq (ce_msg en) (B msg).
Definition is_received := is_line "udp" "<<< received Bytes".
Definition is_taken := is_line "server" "<<<rpc received".
Definition is_failed := is_line "udp" "<<< receive udp err".

(** What the receive goroutine and Listen have to print after a step. *)
Definition recv_says (t : bytes) (e : uev) (s' : udp) (old : option centry) : option centry :=
  match e, u_recv s' with
  | ERead _, RvSend p => Some (received_entry (u_heap s') p)
  | EReadErr, _ => Some (failed_entry t)
  | _, _ => old
  end.
Definition listen_says (e : uev) (s' : udp) (old : option centry) : option centry :=
  match e, u_listen s' with
  | ETake _ _, LvSubmit p => Some (taken_entry (u_heap s') p)
  | _, _ => old
  end.

Inductive rl_step (g : rlog) : list uev -> rlog -> Prop :=
| rl_udp t e s' : udp_step (g_udp g) e s' ->
    (g_rline g <> None -> u_recv s' = u_recv (g_udp g)) -> (g_lline g <> None -> u_listen s' = u_listen (g_udp g)) ->
    rl_step g [e] {| g_udp := s'; g_rline := recv_says t e s' (g_rline g); g_lline := listen_says e s' (g_lline g); g_out := g_out g |}
| rl_recv en : g_rline g = Some en ->
    rl_step g [] {| g_udp := g_udp g; g_rline := None; g_lline := g_lline g; g_out := g_out g ++ [en] |}
| rl_listen en : g_lline g = Some en ->
    rl_step g [] {| g_udp := g_udp g; g_rline := g_rline g; g_lline := None; g_out := g_out g ++ [en] |}
| rl_other en : is_received en = false -> is_taken en = false -> is_failed en = false ->
    rl_step g [] {| g_udp := g_udp g; g_rline := g_rline g; g_lline := g_lline g; g_out := g_out g ++ [en] |}.

(** All executions, with the events of Udp.v in order. *)
Inductive rl_run (h : heap) : list uev -> rlog -> Prop :=
| rlr_nil : rl_run h [] (rlog0 h)
| rlr_step tr g es g' : rl_run h tr g -> rl_step g es g' -> rl_run h (tr ++ es) g'.
