(** JobLogSpec.v -- the lines of a download worker, apart from the model. *)
From Verif Require Import Base GoLib Bencode Types Logger ConsoleLog.
Local Open Scope list_scope.
(** A line of the logger "dht" with an error's text. *)
Definition complaint (msg : string) (t : bytes) : centry := {| ce_log := B "dht"; ce_m := MError; ce_msg := B msg; ce_ctx := Some [(B "err", VStr t)] |}.
Definition by_dht (en : centry) : Prop := ce_log en = B "dht".
