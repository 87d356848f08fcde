(** P_InfoFiles.v -- property theorems (generated by tools/gen_p.py from InfoFilesPf.v).
    Each statement is repeated in full and closed by [exact]. *)
From Verif Require Import Base GoLib Bencode BencodeSpec BencodeProofs BencodePf CodecSpec CodecPf SizeProofs Types Node RouteTable Middleware Krpc KrpcSpec Dht DhtSpec Conc ConcSpec FetchTorrentSpec
  ZapLog ZapLogSpec InfoLog InfoLogSpec InfoLogPf LogFiles LogFilesSpec LogFilesProofs LogFilesPf InfoFilesSpec.
From Coq Require Import Lia ZifyBool ZifyN ZifyNat Permutation.
Local Open Scope list_scope.
From Verif Require Import InfoFilesPf.

(** C130: a line of the info-hash log is never refused: it is shorter than MaxSize - and not longer than the packet allows. *)
Theorem C130_info_lines_fit : forall e uf os me local hosts cap s, runtime_ok e uf -> orders_ok os -> lreach e os me local hosts cap s -> modest s ->
  forall i now en, In (i, now, en) (l_recs s) -> (blen (line now en) <= lj_max zap_rotation)%N /\
    exists pk, handled (l_conc s) i pk /\ length (line now en) <= 300 + length now + 6 * length (addr_string (p_addr pk)) + 12 * length (p_bytes pk).
Proof. exact C130_info_lines_fit_pf. Qed.
Print Assumptions C130_info_lines_fit.

(** C130: as long as there were at most three rotations and no backup grew too old, every info hash the crawler was asked for or that was announced
    to it is on the disk, in one piece, in the log or in a backup. *)
Theorem C130_info_hashes_found : forall e uf os me local hosts cap s tr f, runtime_ok e uf -> orders_ok os -> lreach e os me local hosts cap s ->
  lj_run zap_rotation tr f -> steady tr -> lines tr = map rec_line (l_recs s) -> length (closed tr) <= 3 ->
  (forall x now, In x (closed tr) -> In (LMill now) tr -> (now <= fst x + 28 * 24 * 3600 * 1000)%N) ->
  forall i pk ih po, handled (l_conc s) i pk -> seeks pk ih po -> exists now en file pre post, record_of pk ih po en /\
    (file = text (j_cur f) \/ In file (map snd (j_old f))) /\ file = pre ++ line now en ++ post.
Proof. exact C130_info_hashes_found_pf. Qed.
Print Assumptions C130_info_hashes_found.

(** C130: the last theorem is not empty: whatever was logged, if it is not longer than a file altogether there is such a history, without any rotation. *)
Theorem C130_info_example : forall ls, (blen (concat ls) <= lj_max zap_rotation)%N ->
  exists tr f, lj_run zap_rotation tr f /\ steady tr /\ lines tr = ls /\ closed tr = [] /\ (forall now, ~ In (LMill now) tr).
Proof. exact C130_info_example_pf. Qed.
Print Assumptions C130_info_example.
