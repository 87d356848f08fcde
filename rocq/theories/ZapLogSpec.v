(** ZapLogSpec.v -- what C107 means. *)
From Verif Require Import Base GoLib Types Logger ZapLog.
Local Open Scope list_scope.

(** A control character, such as a line break. *)
Definition control (c : byte) : bool := (bval c <? 32)%N.
(** A string of whole UTF-8 sequences. *)
Inductive utf8 : bytes -> Prop :=
| utf8_nil : utf8 []
| utf8_cons s n : 0 < n -> n = snd (decode_rune s) -> decode_rune s <> (RuneError, 1) -> utf8 (skipn n s) -> utf8 s.
Definition utf8_val (v : jval) : Prop := match v with JStr s => utf8 s | JInt _ => True end.
Definition utf8_entry (e : zentry) : Prop := utf8 (ze_msg e) /\ Forall (fun f => utf8 (fst f) /\ utf8_val (snd f)) (ze_fields e).
(** A time stamp: a number. *)
Definition numeric (s : bytes) : Prop := Forall (fun c => is_digit c = true \/ c = byte_of 46 \/ c = byte_of 101 \/ c = byte_of 43 \/ c = byte_of 45) s.
