(** InfoFilesSpec.v -- what C130 assumes of packets. *)
From Verif Require Import Base GoLib Node Krpc Dht Conc ConcSpec ZapLog InfoLog.
Local Open Scope list_scope.

(** A packet as the network delivers it: a UDP payload, from an address whose text is not absurdly long (zones are names of interfaces); the time stamp of a line is a number
    of seconds. *)
Definition modest (s : lconc) : Prop :=
  (forall i pk, In (i, EvStart pk) (k_log (l_conc s)) -> (N.of_nat (length (p_bytes pk)) <= 65535 /\ N.of_nat (length (addr_string (p_addr pk))) <= 1000)%N) /\
  (forall i now en, In (i, now, en) (l_recs s) -> (N.of_nat (length now) <= 1000)%N).

