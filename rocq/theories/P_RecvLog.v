(** P_RecvLog.v -- property theorems (generated by tools/gen_p.py from RecvLogPf.v).
    Each statement is repeated in full and closed by [exact]. *)
From Verif Require Import Base GoLib Bencode Types Logger Node ConsoleLog BytesPool Udp UdpSpec UdpProofs UdpPf RecvLog RecvLogSpec.
Local Open Scope list_scope.
From Verif Require Import RecvLogPf.

(** C137: in every execution the "<<< received Bytes" lines are those of the first n datagrams read, in order, and the "<<<rpc received" lines those of the first m of
    these, in order, with the sender and the number of bytes kept (at most 1024); at most one datagram read is without its line yet, m lags behind n by at most 102, and
    no more than m packets have been looked at by a handler.  Every failed read but possibly the last has its line.  With nothing left to print the lines are complete. *)
Theorem C137_receive_lines : forall h tr g, rl_run h tr g -> exists n m,
  said_by "udp" "<<< received Bytes" (g_out g) = map received_line (firstn n (map trunc1024 (reads tr))) /\
  said_by "server" "<<<rpc received" (g_out g) = map taken_line (firstn m (map trunc1024 (reads tr))) /\
  length (parses tr) <= m /\ m <= n /\ n <= m + 102 /\ n <= length (reads tr) /\ length (reads tr) <= n + 1 /\
  length (said_by "udp" "<<< receive udp err" (g_out g)) <= read_errs tr /\ read_errs tr <= length (said_by "udp" "<<< receive udp err" (g_out g)) + 1 /\
  (g_rline g = None -> n = length (reads tr) /\ read_errs tr = length (said_by "udp" "<<< receive udp err" (g_out g))) /\
  (g_lline g = None -> m = length (takes tr)).
Proof. exact C137_receive_lines_pf. Qed.
Print Assumptions C137_receive_lines.

(** C137: every execution of the receiving goroutines is one with the lines, and with nothing left to print. *)
Theorem C137_covers_all_runs : forall h tr s, udp_run h tr s -> exists g, rl_run h tr g /\ g_udp g = s /\ g_rline g = None /\ g_lline g = None.
Proof. exact C137_covers_all_runs_pf. Qed.
Print Assumptions C137_covers_all_runs.

(** C137: a concrete execution: two datagrams read, one taken, three lines. *)
Theorem C137_example : forall h d1 d2, exists tr g, rl_run h tr g /\ reads tr = [d1; d2] /\
  said_by "udp" "<<< received Bytes" (g_out g) = [received_line (trunc1024 d1); received_line (trunc1024 d2)] /\ said_by "server" "<<<rpc received" (g_out g) = [taken_line (trunc1024 d1)].
Proof. exact C137_example_pf. Qed.
Print Assumptions C137_example.

(** C137: the lines do not say what was received: contents and, beyond 1024 bytes, the size of a datagram are not in them. *)
Theorem C137_lines_tell_datagrams_refuted : (forall a b b', length b = length b' -> received_line (a, b) = received_line (a, b') /\ taken_line (a, b) = taken_line (a, b')) /\
  (forall d d', dg_from d = dg_from d' -> 1024 <= length (dg_bytes d) -> 1024 <= length (dg_bytes d') -> received_line (trunc1024 d) = received_line (trunc1024 d')).
Proof. exact C137_lines_tell_datagrams_refuted_pf. Qed.
Print Assumptions C137_lines_tell_datagrams_refuted.
