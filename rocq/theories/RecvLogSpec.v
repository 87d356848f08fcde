(** RecvLogSpec.v -- the lines of the receiving goroutines, apart from the model.  A packet is its sender and what was read of it. *)
From Verif Require Import Base GoLib Bencode Types Logger Node ConsoleLog.
Local Open Scope list_scope.
Definition received_line (p : udpaddr * bytes) : centry :=
  {| ce_log := B "udp"; ce_m := MInfo; ce_msg := B "<<< received Bytes"; ce_ctx := Some [(B "raddr", VStr (addr_string (fst p))); (B "length", VInt (Z.of_nat (length (snd p))))] |}.
Definition taken_line (p : udpaddr * bytes) : centry :=
  {| ce_log := B "server"; ce_m := MInfo; ce_msg := B "<<<rpc received"; ce_ctx := Some [(B "from", VStr (addr_string (fst p))); (B "len", VInt (Z.of_nat (length (snd p))))] |}.
(** The lines of one logger with one message, in order. *)
Definition said_by (lg msg : string) (out : list centry) : list centry := filter (fun en => beq (ce_log en) (B lg) && beq (ce_msg en) (B msg)) out.
