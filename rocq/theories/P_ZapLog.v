(** P_ZapLog.v -- property theorems (generated by tools/gen_p.py from ZapLogPf.v).
    Each statement is repeated in full and closed by [exact]. *)
From Verif Require Import Base GoLib Types Logger ErrorsPf ZapLog ZapLogSpec ZapLogProofs.
Local Open Scope list_scope.
From Verif Require Import ZapLogPf.

(** C107: what a call writes, for each of the six methods and every logger: at most one entry, with the method's level, the prefix before the message and
    every context entry once, exactly if the level is at least the logger's.  Panic panics in any case, with the prefixed message, and no other method does.  A logger made
    with any level name writes errors unless the name is PANIC, and always panics and traces. *)
Theorem C107_what_is_written : forall m c msg ctx,
  ((zl_level c <= zlevel m)%Z -> fst (zcall m c msg ctx) = Some {| ze_level := zlevel m; ze_msg := zl_prefix c ++ msg; ze_fields := match ctx with Some l => l | None => [] end |}) /\
  ((zlevel m < zl_level c)%Z -> fst (zcall m c msg ctx) = None) /\
  (snd (zcall m c msg ctx) = match m with MPanic => Some (PStr (zl_prefix c ++ msg)) | _ => None end) /\
  (forall name, In m [MPanic; MTrace] \/ m = MError /\ name <> B "PANIC" -> (zl_level (NewZapLogger name) <= zlevel m)%Z).
Proof. exact C107_what_is_written_pf. Qed.
Print Assumptions C107_what_is_written.

(** C107: a new prefix replaces the old one, in brackets; the level stays. *)
Theorem C107_prefix : forall c p q m msg ctx, ZSetPrefix (ZSetPrefix c p) q = ZSetPrefix c q /\
  (forall e, fst (zcall m (ZSetPrefix c q) msg ctx) = Some e -> ze_msg e = B "[" ++ q ++ B "]" ++ msg).
Proof. exact C107_prefix_pf. Qed.
Print Assumptions C107_prefix.

(** C107: every call adds nothing or one line: whatever bytes a message or a context contains, the text
    ends with a line break and contains no other control character: entries cannot be forged by what is logged. *)
Theorem C107_one_line : forall now m c msg ctx, numeric now ->
  written now m c msg ctx = [] \/ exists text, written now m c msg ctx = text ++ [byte_of 10] /\ Forall (fun b => control b = false) text.
Proof. exact C107_one_line_pf. Qed.
Print Assumptions C107_one_line.

(** C107: a line determines the entry it was written for: time stamp, level, message and all fields (of valid UTF-8), for entries written by the six methods. *)
Theorem C107_lines_identify_entries : forall now now' e e', numeric now -> numeric now' -> (exists m, ze_level e = zlevel m) -> (exists m, ze_level e' = zlevel m) -> utf8_entry e -> utf8_entry e' ->
  line now e = line now' e' -> now = now' /\ e = e'.
Proof. exact C107_lines_identify_entries_pf. Qed.
Print Assumptions C107_lines_identify_entries.

(** C107: this is false of strings that are not UTF-8, such as raw info hashes: different messages give the same line. *)
Theorem C107_raw_bytes_refuted : forall now, exists c msg msg', msg <> msg' /\ written now MInfo c msg None = written now MInfo c msg' None /\ written now MInfo c msg None <> [].
Proof. exact C107_raw_bytes_refuted_pf. Qed.
Print Assumptions C107_raw_bytes_refuted.

(** C107: an example: a message with a line break is one line. *)
Theorem C107_example : written (B "1.5") MWarn (ZSetPrefix (NewZapLogger (B "WARN")) (B "dht")) (B "a" ++ [byte_of 10] ++ B "b") (Some [(B "port", JInt (-1))]) =
  map (fun c => if Ascii.eqb c "'" then quote else c) (B "{'level':'warn','ts':1.5,'msg':'[dht]a\nb','port':-1}") ++ [byte_of 10] /\
  numeric (B "1.5") /\ utf8_entry {| ze_level := 1; ze_msg := B "x"; ze_fields := [(B "port", JInt (-1))] |}.
Proof. exact C107_example_pf. Qed.
Print Assumptions C107_example.
