(** P_Mem.v -- property theorems (generated by tools/gen_p.py from MemPf.v).
    Each statement is repeated in full and closed by [exact]. *)
From Verif Require Import Base GoLib Mem MemSpec MemProofs.
Local Open Scope list_scope.
From Verif Require Import MemPf.

(** C119: the conversions keep the contents and are inverse to each other; the slice has no room to grow in place. *)
Theorem C119_contents : forall m s l,
  (exists l', Str2Bytes s = Some l' /\ slice_bytes m l' = str_text m s /\ l_len l' = s_len s /\ l_cap l' = s_len s /\ Bytes2Str l' = Some s) /\
  (exists s', Bytes2Str l = Some s' /\ str_text m s' = slice_bytes m l /\ s_len s' = l_len l /\
     (l_cap l = l_len l -> Str2Bytes s' = Some l)).
Proof. exact C119_contents_pf. Qed.
Print Assumptions C119_contents.

(** C119: a program that keeps the rule (nothing is stored into memory given to Bytes2Str or got from Str2Bytes) cannot tell
    the conversions from copying ones: it ends the same way with the same strings, slices and capacities. *)
Theorem C119_like_copying : forall p, keeps_rule book0 p ->
  match exec_all cfg0 p with
  | Run c => exists d, exec_all cfg0 (map copying p) = Run d /\ texts c = texts d /\ contents c = contents d
  | x => x <> Crash /\ exec_all cfg0 (map copying p) = x
  end.
Proof. exact C119_like_copying_pf. Qed.
Print Assumptions C119_like_copying.

(** C119: in such a program a string never changes. *)
Theorem C119_strings_constant : forall p q c c', keeps_rule book0 (p ++ q) -> exec_all cfg0 p = Run c -> exec_all c q = Run c' ->
  exists more, texts c' = texts c ++ more.
Proof. exact C119_strings_constant_pf. Qed.
Print Assumptions C119_strings_constant.

(** C119: Str2Hex allocates its result, which is the hexadecimal text of the string, and changes nothing else. *)
Theorem C119_hex : forall c i s, nth_error (c_strs c) i = Some s ->
  exists c' h, exec c (OHex i) = Run c' /\ c_strs c' = c_strs c ++ [h] /\ str_text (c_mem c') h = hex (str_text (c_mem c) s) /\
    (forall b, b < length (c_mem c) -> nth_error (c_mem c') b = nth_error (c_mem c) b) /\ ~ s_blk h < length (c_mem c).
Proof. exact C119_hex_pf. Qed.
Print Assumptions C119_hex.

(** C119: without the rule strings change: whatever is stored into a slice shows in the string made from it. *)
Theorem C119_immutable_refuted : forall c l r i x k, nth_error (c_slcs c) r = Some l -> i < l_len l ->
  nth_error (c_mem c) (l_blk l) = Some k -> bk_rw k = true -> l_off l + l_len l <= length (bk_data k) ->
  exists c1 c2 s, exec c (OBytes2Str r) = Run c1 /\ c_strs c1 = c_strs c ++ [s] /\ exec c1 (OSet r i x) = Run c2 /\
    str_text (c_mem c1) s = slice_bytes (c_mem c) l /\ str_text (c_mem c2) s = list_set (slice_bytes (c_mem c) l) i x.
Proof. exact C119_immutable_refuted_pf. Qed.
Print Assumptions C119_immutable_refuted.

(** C119: appending to a part of the result of Str2Bytes overwrites the string. *)
Theorem C119_append_refuted : exists p q c c', exec_all cfg0 p = Run c /\ exec_all c q = Run c' /\
  q = [OStr2Bytes 1; OSlice 1 0 1; OAppend 2 (B "X") 8] /\ texts c = [B "abc"; B "abc"] /\ texts c' = [B "abc"; B "aXc"].
Proof. exact C119_append_refuted_pf. Qed.
Print Assumptions C119_append_refuted.

(** C119: storing into the bytes of a string literal ends the process. *)
Theorem C119_literal_refuted : forall bs i x, i < length bs -> exec_all cfg0 [OLit bs; OStr2Bytes 0; OSet 0 i x] = Crash.
Proof. exact C119_literal_refuted_pf. Qed.
Print Assumptions C119_literal_refuted.

(** C119: the buffer of a download: the strings of the dictionary decoded from it change when the next message is received
    into it (bep9.go:97; the code keeps only numbers from that dictionary). *)
Theorem C119_pooled_buffer_refuted : exists p q c c', exec_all cfg0 p = Run c /\ exec_all c q = Run c' /\
  texts c = [B "d8:msg_typei1ee"; B "msg_type"] /\ texts c' = [B "d8:Xsg_typei1ee"; B "Xsg_type"].
Proof. exact C119_pooled_buffer_refuted_pf. Qed.
Print Assumptions C119_pooled_buffer_refuted.

(** C119: an example that keeps the rule: all operations, storing before Bytes2Str and appending to a result of Str2Bytes. *)
Theorem C119_example : exists c, keeps_rule book0 [OLit (B "abc"); OMake 1 8; OAppend 0 (B "xy") 0; OSet 1 0 "w"%char; OBytes2Str 1; OSubStr 1 1 3; OStr2Bytes 2; OAppend 2 (B "!") 9; OSet 3 0 "z"%char; OHex 2; OBytes 1 5; OSlice 4 0 2; OString 5] /\
  exec_all cfg0 [OLit (B "abc"); OMake 1 8; OAppend 0 (B "xy") 0; OSet 1 0 "w"%char; OBytes2Str 1; OSubStr 1 1 3; OStr2Bytes 2; OAppend 2 (B "!") 9; OSet 3 0 "z"%char; OHex 2; OBytes 1 5; OSlice 4 0 2; OString 5] = Run c /\
  texts c = [B "abc"; B "wxy"; B "xy"; B "7879"; B "wx"] /\
  contents c = [(B "w", 8); (B "wxy", 8); (B "xy", 2); (B "zy!", 9); (B "wxy", 5); (B "wx", 5)].
Proof. exact C119_example_pf. Qed.
Print Assumptions C119_example.
