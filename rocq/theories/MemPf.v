(** MemPf.v -- C119: conversions between strings and slices without copying. *)
From Verif Require Import Base GoLib Mem MemSpec MemProofs.
Local Open Scope list_scope.

(** C119: the conversions keep the contents and are inverse to each other; the slice has no room to grow in place. *)
Lemma C119_contents_pf : forall m s l,
  (exists l', Str2Bytes s = Some l' /\ slice_bytes m l' = str_text m s /\ l_len l' = s_len s /\ l_cap l' = s_len s /\ Bytes2Str l' = Some s) /\
  (exists s', Bytes2Str l = Some s' /\ str_text m s' = slice_bytes m l /\ s_len s' = l_len l /\
     (l_cap l = l_len l -> Str2Bytes s' = Some l)).
Proof.
  intros m [b o n] [b' o' n' k']. split.
  - eexists. split; [reflexivity|]. repeat split.
  - eexists. split; [reflexivity|]. split; [reflexivity|]. split; [reflexivity|]. cbn. intros ->. reflexivity.
Qed.

(** C119: a program that keeps the rule (nothing is stored into memory given to Bytes2Str or got from Str2Bytes) cannot tell
    the conversions from copying ones: it ends the same way with the same strings, slices and capacities. *)
Lemma C119_like_copying_pf : forall p, keeps_rule book0 p ->
  match exec_all cfg0 p with
  | Run c => exists d, exec_all cfg0 (map copying p) = Run d /\ texts c = texts d /\ contents c = contents d
  | x => x <> Crash /\ exec_all cfg0 (map copying p) = x
  end.
Proof.
  intros p K. rewrite <- (app_nil_r p) in K. pose proof (run_sim p [] book0 cfg0 cfg0 K rel0) as S. destruct (exec_all cfg0 p); cbn [simulated] in S; try (split; [discriminate|exact S]); [|destruct S].
  destruct S as (k & d & E & R & _). exists d. split; [exact E|apply (rel_same _ _ _ R)].
Qed.

(** C119: in such a program a string never changes. *)
Lemma C119_strings_constant_pf : forall p q c c', keeps_rule book0 (p ++ q) -> exec_all cfg0 p = Run c -> exec_all c q = Run c' ->
  exists more, texts c' = texts c ++ more.
Proof.
  intros p q c c' K E E'. pose proof (run_sim p q book0 cfg0 cfg0 K rel0) as S. rewrite E in S. destruct S as (k & d & _ & R & Kq & _).
  rewrite <- (app_nil_r q) in Kq. pose proof (run_sim q [] k c d Kq R) as S. rewrite E' in S. destruct S as (_ & _ & _ & _ & _ & Hk). apply keeps_texts, Hk.
Qed.

(** C119: Str2Hex allocates its result, which is the hexadecimal text of the string, and changes nothing else. *)
Lemma C119_hex_pf : forall c i s, nth_error (c_strs c) i = Some s ->
  exists c' h, exec c (OHex i) = Run c' /\ c_strs c' = c_strs c ++ [h] /\ str_text (c_mem c') h = hex (str_text (c_mem c) s) /\
    (forall b, b < length (c_mem c) -> nth_error (c_mem c') b = nth_error (c_mem c) b) /\ ~ s_blk h < length (c_mem c).
Proof.
  intros c i s E. cbn [exec]. rewrite E. cbn [on]. eexists _, _. split; [reflexivity|]. split; [reflexivity|]. unfold new_str. cbn [c_mem].
  split; [apply text_new|]. split; [intros b Hb; apply nth_ext, Hb|cbn [s_blk]; lia].
Qed.

(** C119: without the rule strings change: whatever is stored into a slice shows in the string made from it. *)
Lemma C119_immutable_refuted_pf : forall c l r i x k, nth_error (c_slcs c) r = Some l -> i < l_len l ->
  nth_error (c_mem c) (l_blk l) = Some k -> bk_rw k = true -> l_off l + l_len l <= length (bk_data k) ->
  exists c1 c2 s, exec c (OBytes2Str r) = Run c1 /\ c_strs c1 = c_strs c ++ [s] /\ exec c1 (OSet r i x) = Run c2 /\
    str_text (c_mem c1) s = slice_bytes (c_mem c) l /\ str_text (c_mem c2) s = list_set (slice_bytes (c_mem c) l) i x.
Proof.
  intros c l r i x k El Hi Ek Hrw Hb. cbn [exec]. rewrite El. cbn [on]. unfold Bytes2Str, slice_words, str_at. cbn [on]. eexists _. eexists. eexists. split; [reflexivity|]. split; [reflexivity|].
  unfold add_str. cbn [c_slcs]. rewrite El. cbn [on]. destruct (Nat.ltb_spec i (l_len l)); [|lia]. unfold poke. cbn [c_mem]. rewrite Ek, Hrw. split; [reflexivity|]. split; [reflexivity|].
  unfold str_text, slice_bytes, bytes_at. cbn [c_mem s_blk s_off s_len]. assert (Lb : l_blk l < length (c_mem c)) by (apply nth_error_Some; rewrite Ek; discriminate).
  rewrite list_set_nth_eq by exact Lb. rewrite Ek. cbn [bk_data store].
  assert (F : forall (a : bytes) j, firstn (l_len l) (skipn (l_off l) (list_set a (l_off l + j) x)) = list_set (firstn (l_len l) (skipn (l_off l) a)) j x \/ l_len l <= j).
  { clear. intros a j. destruct (Nat.le_gt_cases (l_len l) j) as [H|H]; [right; exact H|left]. generalize (l_off l) as o. intros o. revert a. induction o as [|o IH]; intros a.
    - cbn [Nat.add skipn]. revert j H a. generalize (l_len l) as n. intros n. induction n as [|n IH]; intros j H a; [lia|]. destruct a as [|y a]; [destruct j; reflexivity|]. destruct j as [|j]; [reflexivity|]. cbn [list_set firstn]. f_equal. apply IH. lia.
    - destruct a as [|y a]; [cbn [Nat.add list_set skipn]; rewrite firstn_nil; destruct j; reflexivity|]. cbn [Nat.add list_set skipn]. apply IH. }
  destruct (F (bk_data k) i) as [->|H']; [reflexivity|lia].
Qed.

(** C119: appending to a part of the result of Str2Bytes overwrites the string. *)
Lemma C119_append_refuted_pf : exists p q c c', exec_all cfg0 p = Run c /\ exec_all c q = Run c' /\
  q = [OStr2Bytes 1; OSlice 1 0 1; OAppend 2 (B "X") 8] /\ texts c = [B "abc"; B "abc"] /\ texts c' = [B "abc"; B "aXc"].
Proof. exists [OLit (B "abc"); OBytes 0 0; OString 0], [OStr2Bytes 1; OSlice 1 0 1; OAppend 2 (B "X") 8]. eexists _, _. split; [reflexivity|]. split; [reflexivity|]. repeat split. Qed.

(** C119: storing into the bytes of a string literal ends the process. *)
Lemma C119_literal_refuted_pf : forall bs i x, i < length bs -> exec_all cfg0 [OLit bs; OStr2Bytes 0; OSet 0 i x] = Crash.
Proof.
  intros bs i x H. cbn -[Nat.ltb]. destruct (Nat.ltb_spec i (length bs)); [reflexivity|lia].
Qed.

(** C119: the buffer of a download: the strings of the dictionary decoded from it change when the next message is received
    into it (bep9.go:97; the code keeps only numbers from that dictionary). *)
Lemma C119_pooled_buffer_refuted_pf : exists p q c c', exec_all cfg0 p = Run c /\ exec_all c q = Run c' /\
  texts c = [B "d8:msg_typei1ee"; B "msg_type"] /\ texts c' = [B "d8:Xsg_typei1ee"; B "Xsg_type"].
Proof.
  exists [OMake 0 64; OAppend 0 (B "d8:msg_typei1ee") 0; OBytes2Str 1; OSubStr 0 3 11], [OSet 1 3 "X"%char]. eexists _, _. split; [reflexivity|]. split; [reflexivity|]. split; reflexivity.
Qed.

(** C119: an example that keeps the rule: all operations, storing before Bytes2Str and appending to a result of Str2Bytes. *)
Lemma C119_example_pf : exists c, keeps_rule book0 [OLit (B "abc"); OMake 1 8; OAppend 0 (B "xy") 0; OSet 1 0 "w"%char; OBytes2Str 1; OSubStr 1 1 3; OStr2Bytes 2; OAppend 2 (B "!") 9; OSet 3 0 "z"%char; OHex 2; OBytes 1 5; OSlice 4 0 2; OString 5] /\
  exec_all cfg0 [OLit (B "abc"); OMake 1 8; OAppend 0 (B "xy") 0; OSet 1 0 "w"%char; OBytes2Str 1; OSubStr 1 1 3; OStr2Bytes 2; OAppend 2 (B "!") 9; OSet 3 0 "z"%char; OHex 2; OBytes 1 5; OSlice 4 0 2; OString 5] = Run c /\
  texts c = [B "abc"; B "wxy"; B "xy"; B "7879"; B "wx"] /\
  contents c = [(B "w", 8); (B "wxy", 8); (B "xy", 2); (B "zy!", 9); (B "wxy", 5); (B "wx", 5)].
Proof.
  match goal with |- exists c, _ /\ ?e = Run c /\ _ => let v := eval vm_compute in e in match v with Run ?c => exists c end end.
  split; [|split; [vm_compute; reflexivity|split; vm_compute; reflexivity]].
  apply kr_str; [exact I|]. apply kr_new; [exact I|]. eapply kr_append; [reflexivity|cbn; tauto|]. eapply kr_set; [reflexivity|cbn; tauto|]. eapply kr_b2s; [reflexivity|].
  apply kr_str; [exact I|]. apply kr_s2b. apply kr_append_direct; [discriminate|reflexivity|]. eapply kr_set; [reflexivity|cbn; intuition discriminate|].
  apply kr_str; [exact I|]. apply kr_new; [exact I|]. eapply kr_slice; [reflexivity|]. apply kr_str; [exact I|]. apply kr_nil.
Qed.
