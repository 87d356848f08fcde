(** TruncPf.v -- C100, the KRPC messages that do not fit the receive buffer. *)
From Verif Require Import Base GoLib Bencode BencodeSpec BencodeProofs BencodePf Types CodecSpec CodecPf Node RouteTable Middleware Krpc KrpcSpec Dht DhtSpec Udp System.
Local Open Scope list_scope.

Lemma truncated_get d d' k v' : truncated_entries d d' -> dget d' k = Some v' -> exists v, dget d k = Some v /\ (v = v' \/ truncated v v').
Proof.
  intros H. induction H as [d|k0 v v0 d Hv|k0 v d d' H IH]; cbn [dget]; intros Hg.
  - discriminate.
  - destruct (beq k0 k); [|discriminate]. injection Hg as <-. eauto.
  - destruct (beq k0 k); [injection Hg as <-; eauto|auto].
Qed.

(** C100: if a query longer than the receive buffer is understood as a query, then it is understood as the
    query it is: same transaction id and method, the same node id, and arguments that are those sent
    or what remains of them after a cut. *)
Lemma C100_long_query_pf : forall m d tx q a, bencoding (VDict m) (dg_bytes d) -> (1024 < length (dg_bytes d))%nat ->
  proper_query (p_bytes (cut d)) tx q a ->
  field m "y" (VStr (B "q")) /\ field m "t" (VStr tx) /\ field m "q" (VStr (B q)) /\
  exists a0 id, field m "a" (VDict a0) /\ (a0 = a \/ truncated (VDict a0) (VDict a)) /\ field a0 "id" (VStr id) /\ field a "id" (VStr id).
Proof.
  intros m d tx q a Hb Hl (d' & id & [n Hd] & Hy & Ht & Hq & Ha & Hid & _). cbn [cut p_bytes] in Hd.
  assert (Hf : fits (firstn 1024 (dg_bytes d))) by (unfold fits; rewrite firstn_length, Nat.min_l by lia; vm_compute; discriminate).
  destruct (C100_truncated_dict_pf m (dg_bytes d) (firstn 1024 (dg_bytes d)) (skipn 1024 (dg_bytes d)) d' n Hb (eq_sym (firstn_skipn _ _))) as [Htr _]; [| exact Hf|exact Hd|].
  { intros E. apply (f_equal (@length _)) in E. rewrite skipn_length in E. cbn [length] in E. lia. }
  inversion Htr as [|m0 d0 Hte]; subst.
  assert (Hleaf : forall k s, field d' k (VStr s) -> field m k (VStr s)).
  { intros k s Hk. destruct (truncated_get _ _ _ _ Hte Hk) as (v & Hv & [->|Hv']); [exact Hv|inversion Hv']. }
  split; [auto|]. split; [auto|]. split; [auto|].
  destruct (truncated_get _ _ _ _ Hte Ha) as (v & Hv & Hor).
  assert (Hex : exists a0, v = VDict a0 /\ (a0 = a \/ truncated (VDict a0) (VDict a))).
  { destruct Hor as [->|Hv']; [eauto|]. inversion Hv'; subst. eauto. }
  destruct Hex as (a0 & -> & Ha0). exists a0, id. split; [exact Hv|]. split; [exact Ha0|]. split; [|exact Hid].
  destruct Ha0 as [->|Ha0]; [exact Hid|]. inversion Ha0 as [|a1 a2 Hae]; subst. destruct (truncated_get _ _ _ _ Hae Hid) as (v & Hv' & [->|Hv'']); [exact Hv'|inversion Hv''].
Qed.

(** C100: such queries exist: this one has 1031 bytes, the cut falls between its last two entries. *)
Definition long_query : entries :=
  [(B "y", VStr (B "q")); (B "q", VStr (B "ping")); (B "z", VStr (repeat "z"%char 956)); (B "a", VDict [(B "id", VStr (B "iiiiiiiiiiiiiiiiiiii"))]); (B "t", VStr (B "aa")); (B "v", VInt 5); (B "w", VInt 7)].
Lemma C100_long_query_example_pf : exists bs a, bencoding (VDict long_query) bs /\ length bs = 1031 /\
  proper_query (p_bytes (cut {| dg_from := mkaddr [] 0; dg_bytes := bs |})) (B "aa") "ping" a.
Proof.
  assert (E : exists bs, encodeItem (VDict long_query) = Ok bs) by (eexists; vm_compute; reflexivity). destruct E as (bs & E).
  exists bs. eexists. split; [apply bencoding_iff; split; [apply go_valueb_ok; vm_compute; reflexivity|exact E]|].
  vm_compute in E. injection E as <-. split; [vm_compute; reflexivity|].
  eexists _, _. split; [eexists; vm_compute; reflexivity|]. repeat (split; [vm_compute; reflexivity|]). vm_compute. reflexivity.
Qed.
