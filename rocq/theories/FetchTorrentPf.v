(** FetchTorrentPf.v -- proofs of C62-C65 and C81 (torrent files, fetch addresses). *)
From Verif Require Import Base GoLib Bencode BencodeSpec Types TypesPf Node NodePf RouteTable Middleware Krpc KrpcSpec Dht DhtSpec BytesPool Sha1 PeerWire Fetch FetchPf FetchTorrent FetchTorrentSpec.
Local Open Scope list_scope.

(** ** Names *)
Lemma hexdigit_table n : (n < 16)%N -> hexdigit n = nth (N.to_nat n) hex_digits "?"%char.
Proof.
  intros H. assert (Hn : (N.to_nat n < 16)%nat) by lia. rewrite <- (N2Nat.id n) at 1.
  remember (N.to_nat n) as k. clear - Hn. do 16 (destruct k as [|k]; [reflexivity|]). lia.
Qed.
Lemma hex_hex_text s : hex s = hex_text s.
Proof.
  unfold hex, hex_text. induction s as [|b s IH]; cbn [map concat flat_map app]; [reflexivity|]. rewrite IH.
  pose proof (bval_lt b). unfold hex_byte. rewrite !hexdigit_table; [reflexivity| |].
  - apply N.mod_lt. discriminate.
  - apply N.div_lt_upper_bound; [discriminate|]. lia.
Qed.
Lemma file_of_path s : torrent_path (hex s) = file_of s.
Proof. unfold torrent_path, file_of. rewrite hex_hex_text. reflexivity. Qed.
Lemma hex_text_forall s : Forall (fun c => In c hex_digits) (hex_text s).
Proof.
  unfold hex_text. induction s as [|b s IH]; cbn [flat_map app]; [constructor|].
  pose proof (bval_lt b). assert (L : length hex_digits = 16) by reflexivity.
  constructor; [|constructor; [|exact IH]]; apply nth_In; rewrite L.
  - assert (bval b / 16 < 16)%N by (apply N.div_lt_upper_bound; [discriminate|lia]). lia.
  - pose proof (N.mod_lt (bval b) 16 ltac:(discriminate)). lia.
Qed.
Lemma file_of_inj a b : file_of a = file_of b -> a = b.
Proof.
  unfold file_of. intros H. apply app_inv_head in H. apply app_inv_tail in H.
  rewrite <- !hex_hex_text in H. apply hex_inj. exact H.
Qed.

(** ** What a run of the handler does *)
Lemma field_string d k ih : GetString d (B k) = Ok ih -> field d k (VStr ih).
Proof.
  unfold GetString, GetVal, field. destruct (dget d (B k)) as [v|]; [|discriminate].
  destruct v; cbn [bind]; intros E; try discriminate. injection E as <-. reflexivity.
Qed.
Lemma field_int d k z : GetInteger d (B k) = Ok z <-> field d k (VInt z).
Proof.
  unfold GetInteger, GetVal, field. destruct (dget d (B k)) as [v|]; [|split; discriminate].
  destruct v; cbn [bind]; split; intros E; try discriminate; try (injection E as ->; reflexivity).
Qed.

Lemma handler_cases e p h dial o x :
  let r := fetchHandler e p h dial o x in
  (t_data r = None /\ t_ops r = []) \/
  exists d, t_data r = Some d /\ field (dict_of (rq_body (fst x))) "info_hash" (VStr (sha1 d)) /\ t_ops r = flushTorrentFile o (hex (sha1 d)) d.
Proof.
  cbv zeta. unfold fetchHandler.
  destruct (GetString (dict_of (rq_body (fst x))) (B "info_hash")) as [ih| |] eqn:E1; cbn [bind]; [|left; split; reflexivity..].
  destruct (parseFetchAddr x) as [a| |]; cbn [bind]; [|left; split; reflexivity..].
  destruct (FetchMetaData e p h (dial a) LocalPeerId ih) as [s [d| | |]] eqn:E2; cbn [snd]; [|left; split; reflexivity..].
  right. exists d. apply C56_authentic_pf in E2. cbn [t_data t_ops]. rewrite E2. split; [reflexivity|]. split; [apply field_string; exact E1|reflexivity].
Qed.

(** ** Writing a file *)
Lemma dset_same d p c : dset d p c p = Some c.
Proof. unfold dset. rewrite beq_refl. reflexivity. Qed.
Lemma dset_other d p c q : q <> p -> dset d p c q = d q.
Proof. unfold dset. intros H. apply beq_neq in H. rewrite H. reflexivity. Qed.
Lemma fs_op_other d o q : q <> op_path o -> fs_op d o q = d q.
Proof.
  destruct o as [p|p off c|p]; cbn [op_path fs_op]; intros H; [apply dset_other; exact H| |reflexivity].
  destruct (d p); [apply dset_other; exact H|reflexivity].
Qed.
Lemma fs_run_other ops d q : Forall (fun o => op_path o <> q) ops -> fs_run ops d q = d q.
Proof.
  unfold fs_run. revert d; induction ops as [|o ops IH]; intros d H; cbn [fold_left]; [reflexivity|].
  inversion H as [|? ? H1 H2]; subst. rewrite IH by exact H2. apply fs_op_other. congruence.
Qed.
Lemma write_ops_paths path off sizes data : Forall (fun o => op_path o = path) (write_ops path off sizes data).
Proof.
  revert off data; induction sizes as [|n t IH]; intros off data; cbn [write_ops].
  - repeat constructor.
  - destruct (n <? length data); [constructor; [reflexivity|apply IH]|repeat constructor].
Qed.
Lemma flush_paths o name data : Forall (fun op => op_path op = torrent_path name) (flushTorrentFile o name data).
Proof.
  unfold flushTorrentFile. destruct (os_create o); [|constructor]. constructor; [reflexivity|]. apply Forall_app.
  split; [apply write_ops_paths|repeat constructor].
Qed.

(** The write(2) calls of one Write are consecutive pieces of the data. *)
Inductive writes (path data : bytes) : nat -> list fsop -> Prop :=
| ws_end k : length data <= k -> writes path data k []
| ws_step k c ops : firstn (length c) (skipn k data) = c -> writes path data (k + length c) ops -> writes path data k (OWrite path k c :: ops).

Lemma skipn_skipn' {A} n k (l : list A) : skipn n (skipn k l) = skipn (k + n) l.
Proof. revert l; induction k as [|k IH]; intros l; [reflexivity|]. destruct l as [|a l]; cbn [skipn Nat.add]; [apply skipn_nil|apply IH]. Qed.
Lemma write_ops_writes path data sizes : forall k, k <= length data -> writes path data k (write_ops path k sizes (skipn k data)).
Proof.
  assert (Hlast : forall k, k <= length data -> writes path data k [OWrite path k (skipn k data)]).
  { intros k Hk. apply ws_step; [apply firstn_all|]. apply ws_end. rewrite skipn_length. lia. }
  induction sizes as [|n t IH]; intros k Hk; cbn [write_ops]; [apply Hlast; exact Hk|].
  destruct (n <? length (skipn k data)) eqn:E; [|apply Hlast; exact Hk].
  apply Nat.ltb_lt in E. rewrite skipn_length in E.
  assert (L : length (firstn n (skipn k data)) = n) by (rewrite firstn_length, skipn_length; lia).
  apply ws_step; rewrite L; [reflexivity|].
  rewrite skipn_skipn'. apply IH. lia.
Qed.

Lemma overlay_next data k c : k <= length data -> firstn (length c) (skipn k data) = c ->
  overlay (firstn k data) k c = firstn (k + length c) data.
Proof.
  intros Hk Hc. unfold overlay. rewrite firstn_length, Nat.min_l, Nat.sub_diag by exact Hk. cbn [repeat]. rewrite app_nil_r.
  rewrite firstn_firstn, Nat.min_id. rewrite skipn_all2 by (rewrite firstn_length; lia). rewrite app_nil_r.
  rewrite <- Hc at 1.
  rewrite <- (firstn_skipn k (firstn (k + length c) data)). f_equal.
  - rewrite firstn_firstn. f_equal. lia.
  - rewrite firstn_skipn_comm. reflexivity.
Qed.

(** After any number of the operations of a Write the file holds a prefix of the data. *)
Lemma writes_prefix path data ops : forall k d, k <= length data -> writes path data k ops -> d path = Some (firstn k data) ->
  forall pre post, ops = pre ++ post -> exists k', k <= k' <= length data /\ fs_run pre d path = Some (firstn k' data) /\ (post = [] -> k' = length data).
Proof.
  induction ops as [|o ops IH]; intros k d Hk Hw Hd pre post E.
  - symmetry in E. apply app_eq_nil in E as [-> ->]. exists k. split; [lia|]. split; [exact Hd|]. intros _. inversion Hw; subst. lia.
  - inversion Hw as [|k0 c ops0 Hc Hw']; subst. destruct pre as [|o pre]; cbn [app] in E.
    + exists k. split; [lia|]. split; [exact Hd|]. intros ->. discriminate.
    + injection E as <- E. assert (Hl : k + length c <= length data).
      { apply (f_equal (@length _)) in Hc. rewrite firstn_length, skipn_length in Hc. lia. }
      destruct (IH (k + length c) (fs_op d (OWrite path k c)) Hl Hw') with (pre := pre) (post := post) as (k' & H1 & H2 & H3); [|exact E|].
      * cbn [fs_op]. rewrite Hd, dset_same, overlay_next by assumption. reflexivity.
      * exists k'. split; [lia|]. split; [exact H2|exact H3].
Qed.

Lemma flush_states o name data d pre post : flushTorrentFile o name data = pre ++ post ->
  fs_run pre d (torrent_path name) = d (torrent_path name) \/
  (exists k, fs_run pre d (torrent_path name) = Some (firstn k data)).
Proof.
  unfold flushTorrentFile. destruct (os_create o); [|intros E; symmetry in E; apply app_eq_nil in E as [-> _]; left; reflexivity].
  set (path := torrent_path name). set (dat := match os_fail o with Some k => firstn k data | None => data end).
  assert (Hd : exists k, dat = firstn k data).
  { unfold dat. destruct (os_fail o) as [k|]; [exists k; reflexivity|exists (length data); symmetry; apply firstn_all]. }
  intros E. destruct pre as [|o0 pre]; [left; reflexivity|]. cbn [app] in E. injection E as <- E. right.
  assert (Hgen : forall pre' post', write_ops path 0 (os_sizes o) dat = pre' ++ post' -> exists k, fs_run (OCreate path :: pre') d path = Some (firstn k data)).
  { intros pre' post' E'. pose proof (write_ops_writes path dat (os_sizes o) 0 ltac:(lia)) as Hw. cbn [skipn] in Hw.
    destruct (writes_prefix path dat _ 0 (dset d path []) ltac:(lia) Hw (dset_same _ _ _) _ _ E') as (k' & _ & H2 & _).
    destruct Hd as [k Hk]. exists (Nat.min k' k). rewrite Hk, firstn_firstn in H2. exact H2. }
  destruct post as [|o1 post'] using rev_ind.
  - rewrite app_nil_r in E. subst pre. destruct (Hgen (write_ops path 0 (os_sizes o) dat) []) as [k Hk]; [rewrite app_nil_r; reflexivity|].
    exists k. rewrite app_comm_cons. unfold fs_run in *. rewrite fold_left_app. cbn [fold_left fs_op]. exact Hk.
  - clear IHpost'. rewrite app_assoc in E. apply app_inj_tail in E as [E _]. apply (Hgen pre post' E).
Qed.

Lemma flush_complete o name data d : os_ok o -> fs_run (flushTorrentFile o name data) d (torrent_path name) = Some data.
Proof.
  intros [H1 H2]. unfold flushTorrentFile. rewrite H1, H2. set (path := torrent_path name).
  pose proof (write_ops_writes path data (os_sizes o) 0 ltac:(lia)) as Hw. cbn [skipn] in Hw.
  destruct (writes_prefix path data _ 0 (dset d path []) ltac:(lia) Hw (dset_same _ _ _) (write_ops path 0 (os_sizes o) data) []) as (k' & _ & H3 & H4); [rewrite app_nil_r; reflexivity|].
  rewrite (H4 eq_refl), firstn_all in H3. rewrite app_comm_cons. unfold fs_run in *. rewrite fold_left_app. cbn [fold_left fs_op]. exact H3.
Qed.

(** ** C62 *)

(** C62: for every announcement, peer, environment and disk: whatever file fetchHandler changes is
    torrent/<hex of the SHA-1 of the downloaded data>.torrent, that SHA-1 is the announced info hash,
    and unless the file system failed the file ends up holding exactly that data. *)
Lemma C62_named_by_content_pf : forall e p h dial o x (d0 : disk) r, fetchHandler e p h dial o x = r ->
  forall q, fs_run (t_ops r) d0 q <> d0 q ->
  exists d, q = file_of (sha1 d) /\ t_data r = Some d /\ field (dict_of (rq_body (fst x))) "info_hash" (VStr (sha1 d)) /\
    (os_ok o -> fs_run (t_ops r) d0 q = Some d).
Proof.
  intros e p h dial o x d0 r <- q Hq. destruct (handler_cases e p h dial o x) as [[H1 H2]|(d & H1 & H2 & H3)].
  - rewrite H2 in Hq. contradiction Hq. reflexivity.
  - exists d. assert (E : q = file_of (sha1 d)).
    { destruct (bytes_eq_dec q (file_of (sha1 d))) as [E|E]; [exact E|]. contradiction Hq. apply fs_run_other.
      rewrite H3. eapply Forall_impl; [|apply flush_paths]. cbn beta. intros op Ho. rewrite Ho, file_of_path. congruence. }
    split; [exact E|]. split; [exact H1|]. split; [exact H2|]. intros Hok. rewrite E, H3, <- file_of_path. apply flush_complete. exact Hok.
Qed.

(** C62: and every successful download ends up on disk, complete. *)
Lemma C62_download_is_stored_pf : forall e p h dial o x d0 d, os_ok o ->
  t_data (fetchHandler e p h dial o x) = Some d ->
  fs_run (t_ops (fetchHandler e p h dial o x)) d0 (file_of (sha1 d)) = Some d.
Proof.
  intros e p h dial o x d0 d Hok Hd. destruct (handler_cases e p h dial o x) as [[H1 H2]|(d' & H1 & H2 & H3)]; [congruence|].
  assert (d' = d) by congruence. subst d'. rewrite H3, <- file_of_path. apply flush_complete. exact Hok.
Qed.

(** A concrete announcement and peer. *)
Definition announce0 (ih : bytes) (more : entries) : request hid :=
  {| rq_tx := B "aa"; rq_type := B "announce_peer"; rq_body := Some ([(B "id", VStr (repeat "i"%char 20)); (B "info_hash", VStr ih); (B "port", VInt 6881)] ++ more); rq_handler := None |}.
Definition peer0 : udpaddr := mkaddr (map ascii_of_nat [10; 0; 0; 7]) 4711.
Definition dial0 : bytes -> option (list bytes) := fun a => if beq a (B "10.0.0.7:6881") then Some script1 else None.
Definition os0 : osenv := {| os_create := true; os_sizes := [4]; os_fail := None |}.
Definition run0 : fetched := fetchHandler calm0 pool0 heap0 dial0 os0 (announce0 (sha1 meta1) [], peer0).

Definition is_stored (r : fetched) (a d : bytes) : bool :=
  match t_dial r, t_data r with Some a', Some d' => beq a' a && beq d' d | _, _ => false end.
Lemma is_stored_ok r a d : is_stored r a d = true -> t_dial r = Some a /\ t_data r = Some d.
Proof.
  unfold is_stored. destruct (t_dial r), (t_data r); try discriminate. intros H. apply andb_true_iff in H as [H1 H2].
  apply beq_eq in H1, H2. subst. split; reflexivity.
Qed.
Lemma run0_data : t_dial run0 = Some (B "10.0.0.7:6881") /\ t_data run0 = Some meta1.
Proof. apply is_stored_ok. vm_compute. reflexivity. Qed.

(** C62: a concrete announcement, downloaded and stored. *)
Lemma C62_example_pf : t_dial run0 = Some (B "10.0.0.7:6881") /\ t_data run0 = Some meta1 /\
  file_of (sha1 meta1) = B "torrent/ceff46bbeb156d9d8ebecb01d6f8bbb8213bb97b.torrent" /\
  fs_run (t_ops run0) (fun _ => None) (file_of (sha1 meta1)) = Some meta1.
Proof.
  split; [apply run0_data|]. split; [apply run0_data|]. split; [vm_compute; reflexivity|].
  apply C62_download_is_stored_pf; [split; reflexivity|]. apply run0_data.
Qed.

(** ** C63 *)

(** C63: for every announcement (any info hash, of any length) every file fetchHandler touches has the
    fixed prefix and suffix around 40 lowercase hexadecimal digits - so it lies directly in torrent/ -
    and belongs to the announced info hash. *)
Lemma C63_path_shape_pf : forall e p h dial o x op, In op (t_ops (fetchHandler e p h dial o x)) ->
  exists ih name, field (dict_of (rq_body (fst x))) "info_hash" (VStr ih) /\ op_path op = file_of ih /\
    op_path op = B "torrent/" ++ name ++ B ".torrent" /\ length name = 40 /\ Forall (fun c => In c (B "0123456789abcdef")) name.
Proof.
  intros e p h dial o x op Hin. destruct (handler_cases e p h dial o x) as [[H1 H2]|(d & H1 & H2 & H3)]; [rewrite H2 in Hin; contradiction|].
  rewrite H3 in Hin. pose proof (flush_paths o (hex (sha1 d)) d) as Hf. rewrite Forall_forall in Hf. specialize (Hf op Hin).
  exists (sha1 d), (hex_text (sha1 d)). split; [exact H2|]. rewrite Hf, file_of_path. split; [reflexivity|]. split; [reflexivity|].
  split; [rewrite <- hex_hex_text, hex_length, sha1_length; reflexivity|apply hex_text_forall].
Qed.

(** C63: the path the code builds is injective and stays in the directory for every byte string, also
    for info hashes of a wrong length or with separators in them. *)
Lemma C63_path_injective_pf : forall a b,
  torrent_path (hex a) = file_of a /\ Forall (fun c => In c (B "0123456789abcdef")) (hex a) /\
  (torrent_path (hex a) = torrent_path (hex b) -> a = b).
Proof.
  intros a b. split; [apply file_of_path|]. split; [rewrite hex_hex_text; apply hex_text_forall|].
  rewrite !file_of_path. apply file_of_inj.
Qed.

(** C63: an info hash that tries to leave the directory. *)
Lemma C63_example_pf : torrent_path (hex (B "../../etc/x")) = B "torrent/2e2e2f2e2e2f6574632f78.torrent" /\ t_ops run0 <> [].
Proof.
  split; [vm_compute; reflexivity|]. intros E. pose proof (proj2 (proj2 (proj2 C62_example_pf))) as H. rewrite E in H. discriminate.
Qed.

(** ** C64 *)

(** C64: without a crash and without an I/O error the file is complete (see C62); after a crash at
    any point (the operations [pre] happened, [post] did not), or a failed write, every file other
    than the one of this download is untouched and that one is unchanged or holds a prefix of the data. *)
Lemma C64_crash_damage_pf : forall e p h dial o x (d0 : disk) pre post r, fetchHandler e p h dial o x = r -> t_ops r = pre ++ post ->
  forall q, fs_run pre d0 q = d0 q \/
    exists d k, t_data r = Some d /\ q = file_of (sha1 d) /\ fs_run pre d0 q = Some (firstn k d).
Proof.
  intros e p h dial o x d0 pre post r <- E q. destruct (handler_cases e p h dial o x) as [[H1 H2]|(d & H1 & H2 & H3)].
  - rewrite H2 in E. symmetry in E. apply app_eq_nil in E as [-> _]. left. reflexivity.
  - destruct (bytes_eq_dec q (file_of (sha1 d))) as [Eq|Eq].
    + rewrite H3 in E. destruct (flush_states o (hex (sha1 d)) d d0 pre post E) as [H|[k H]]; rewrite file_of_path, <- Eq in H; [left; exact H|].
      right. exists d, k. split; [exact H1|]. split; [exact Eq|exact H].
    + left. apply fs_run_other. pose proof (flush_paths o (hex (sha1 d)) d) as Hf. rewrite <- H3, E in Hf. apply Forall_app in Hf as [Hf _].
      eapply Forall_impl; [|exact Hf]. cbn beta. intros op Ho. rewrite Ho, file_of_path. congruence.
Qed.

(** C64: the full claim is false.  A crash can leave a partial file under the final name, and when a
    complete file was already there (the hash was announced before) it is destroyed. *)
Lemma C64_not_atomic_refuted_pf : exists e p h dial o x d, let r := fetchHandler e p h dial o x in
  os_ok o /\ t_data r = Some d /\
  (exists pre post, t_ops r = pre ++ post /\ fs_run pre (fun _ => None) (file_of (sha1 d)) = Some (firstn 4 d) /\ firstn 4 d <> d) /\
  (exists d0 pre post, d0 (file_of (sha1 d)) = Some d /\ t_ops r = pre ++ post /\ fs_run pre d0 (file_of (sha1 d)) = Some [] /\ d <> []).
Proof.
  exists calm0, pool0, heap0, dial0, os0, (announce0 (sha1 meta1) [], peer0), meta1. cbv zeta. fold run0.
  split; [split; reflexivity|]. split; [apply run0_data|].
  assert (Hops : t_ops run0 = flushTorrentFile os0 (hex (sha1 meta1)) meta1).
  { unfold run0. destruct (handler_cases calm0 pool0 heap0 dial0 os0 (announce0 (sha1 meta1) [], peer0)) as [[H1 _]|(d & H1 & _ & H3)]; fold run0 in *.
    - rewrite (proj2 run0_data) in H1. discriminate.
    - rewrite (proj2 run0_data) in H1. injection H1 as <-. exact H3. }
  rewrite Hops, <- file_of_path. set (path := torrent_path (hex (sha1 meta1))). split.
  - exists [OCreate path; OWrite path 0 (firstn 4 meta1)]. eexists. split; [reflexivity|]. split; [|discriminate].
    unfold fs_run. cbn [fold_left fs_op]. rewrite dset_same. cbn [fs_op]. rewrite dset_same. reflexivity.
  - exists (fun _ => Some meta1), [OCreate path]. eexists. split; [reflexivity|]. split; [reflexivity|]. split; [|discriminate].
    unfold fs_run. cbn [fold_left fs_op]. apply dset_same.
Qed.

(** ** C65 *)
Definition host_char (c : byte) : Prop := c <> ":"%char /\ c <> "["%char /\ c <> "]"%char.
Lemma digit_host c : is_digit c = true -> host_char c.
Proof. intros H. repeat split; intros ->; discriminate. Qed.
Lemma utoa_host n : Forall host_char (utoa n).
Proof. eapply Forall_impl; [|apply utoa_digits]. cbn beta. intros c H. apply digit_host; exact H. Qed.
Lemma itoa_host z : Forall host_char (itoa z).
Proof.
  unfold itoa. destruct (z <? 0)%Z; [constructor; [repeat split; discriminate|]|]; apply utoa_host.
Qed.
Lemma host_dot : Forall host_char (B ".").
Proof. repeat constructor; discriminate. Qed.
Lemma dotted_host a b c d : Forall host_char (dotted a b c d).
Proof. unfold dotted. repeat (apply Forall_app; split; try apply itoa_host; try apply host_dot). Qed.

Lemma itoa_bval b : itoa (Z.of_N (bval b)) = utoa (bval b).
Proof. unfold itoa. destruct (Z.ltb_spec (Z.of_N (bval b)) 0); [lia|]. rewrite N2Z.id. reflexivity. Qed.
Lemma ip_string_v4 i a b c d : v4 i a b c d -> ip_string i = dotted a b c d /\ i <> [].
Proof.
  intros H. unfold dotted. rewrite !itoa_bval. destruct H as [->| ->]; (split; [|discriminate]); unfold ip_string, To4.
  - cbn [length Nat.eqb]. unfold join. cbn [map concat]. rewrite app_nil_r. rewrite <- !app_assoc. reflexivity.
  - cbn [length repeat app Nat.eqb andb]. change (firstn 12 _) with v4prefix. rewrite beq_refl. cbn [skipn andb].
    unfold join. cbn [map concat]. rewrite app_nil_r, <- !app_assoc. reflexivity.
Qed.
Lemma no_colon l : Forall host_char l -> existsb (fun c => Ascii.eqb c ":") l = false.
Proof.
  intros H. destruct (existsb _ l) eqn:E; [|reflexivity]. apply existsb_exists in E as (c & Hin & Hc). apply Ascii.eqb_eq in Hc. subst.
  rewrite Forall_forall in H. destruct (H _ Hin) as [H1 _]. congruence.
Qed.
Lemma addr_string_v4 i p a b c d : v4 i a b c d -> addr_string (mkaddr i p) = dotted a b c d ++ B ":" ++ itoa p.
Proof.
  intros H. destruct (ip_string_v4 _ _ _ _ _ H) as [E Hn]. unfold addr_string, mkaddr. cbn [ip port zone].
  destruct i as [|i0 i]; [congruence|]. rewrite E. unfold JoinHostPort. rewrite no_colon by apply dotted_host. reflexivity.
Qed.

(** C65: for an IPv4 source the handler dials source-ip:port with the announced port, or the UDP
    source port when implied_port is an int > 0. *)
Lemma C65_ipv4_pf : forall (x : request hid * udpaddr) i a b c d udp tcp, let body := dict_of (rq_body (fst x)) in
  v4 i a b c d -> snd x = mkaddr i udp -> field body "port" (VInt tcp) ->
  (forall k, field body "implied_port" (VInt k) -> (0 < k)%Z ->
     exists s, parseFetchAddr x = Ok s /\ endpoint s (dotted a b c d) (itoa udp)) /\
  (dget body (B "implied_port") = None \/ (exists k, field body "implied_port" (VInt k) /\ (k <= 0)%Z) ->
     exists s, parseFetchAddr x = Ok s /\ endpoint s (dotted a b c d) (itoa tcp)).
Proof.
  intros x i a b c d udp tcp body Hv Hs Hp. destruct (ip_string_v4 _ _ _ _ _ Hv) as [Ei _].
  apply field_int in Hp. unfold parseFetchAddr. fold body. rewrite Hp. cbn [bind]. rewrite Hs. cbn [ip mkaddr].
  assert (Hep : forall z, endpoint (dotted a b c d ++ B ":" ++ itoa z) (dotted a b c d) (itoa z)).
  { intros z. apply ep_plain. apply Forall_app. split; [apply dotted_host|apply itoa_host]. }
  split.
  - intros k Hk Hpos. assert (Hex : Exist body (B "implied_port") = true) by (unfold Exist; unfold field in Hk; rewrite Hk; reflexivity).
    apply field_int in Hk. rewrite Hex, Hk. cbn [bind]. rewrite (proj2 (Z.ltb_lt 0 k) Hpos). eexists. split; [reflexivity|].
    fold (mkaddr i udp). rewrite (addr_string_v4 _ _ _ _ _ _ Hv). apply Hep.
  - intros [Hn|(k & Hk & Hle)].
    + unfold Exist. rewrite Hn. cbn [bind]. eexists. split; [reflexivity|]. rewrite Ei. apply Hep.
    + assert (Hex : Exist body (B "implied_port") = true) by (unfold Exist; unfold field in Hk; rewrite Hk; reflexivity).
      apply field_int in Hk. rewrite Hex, Hk. cbn [bind]. rewrite (proj2 (Z.ltb_ge 0 k) Hle). eexists. split; [reflexivity|]. rewrite Ei. apply Hep.
Qed.

(** C65: that address is the one dialled; without an int port, or with an implied_port of another
    type, nothing is dialled and no file is touched. *)
Lemma C65_what_is_dialled_pf : forall e p h dial o x a,
  (t_dial (fetchHandler e p h dial o x) = Some a <->
   parseFetchAddr x = Ok a /\ exists ih, field (dict_of (rq_body (fst x))) "info_hash" (VStr ih)) /\
  ((forall z, ~ field (dict_of (rq_body (fst x))) "port" (VInt z)) \/
   (exists v, field (dict_of (rq_body (fst x))) "implied_port" v /\ forall z, v <> VInt z) ->
   t_dial (fetchHandler e p h dial o x) = None /\ t_ops (fetchHandler e p h dial o x) = [] /\ t_res (fetchHandler e p h dial o x) = FOk tt).
Proof.
  intros e p h dial o x a. split.
  - unfold fetchHandler. destruct (GetString (dict_of (rq_body (fst x))) (B "info_hash")) as [ih| |] eqn:E1; cbn [bind].
    + destruct (parseFetchAddr x) as [a'| |] eqn:E2; cbn [bind].
      * transitivity (Some a' = Some a); [destruct (snd _); reflexivity|]. split.
        -- intros E. injection E as ->. split; [reflexivity|]. exists ih. apply field_string. exact E1.
        -- intros [E _]. congruence.
      * split; [discriminate|]. intros [E _]. discriminate.
      * split; [discriminate|]. intros [E _]. discriminate.
    + split; [discriminate|]. intros [_ [ih Hf]]. unfold GetString, GetVal, field in *. rewrite Hf in E1. discriminate.
    + split; [discriminate|]. intros [_ [ih Hf]]. unfold GetString, GetVal, field in *. rewrite Hf in E1. discriminate.
  - intros H. assert (Hp : forall a', parseFetchAddr x <> Ok a').
    { intros a' Ea. unfold parseFetchAddr in Ea.
      destruct (GetInteger (dict_of (rq_body (fst x))) (B "port")) as [z| |] eqn:Ez; cbn [bind] in Ea; try discriminate.
      destruct H as [H|(v & Hv & Hn)]; [apply (H z); apply field_int; exact Ez|].
      unfold Exist in Ea. unfold field in Hv. rewrite Hv in Ea.
      destruct (GetInteger (dict_of (rq_body (fst x))) (B "implied_port")) as [k| |] eqn:Ek; cbn [bind] in Ea; try discriminate.
      apply field_int in Ek. unfold field in Ek. apply (Hn k). congruence. }
    unfold fetchHandler. destruct (GetString (dict_of (rq_body (fst x))) (B "info_hash")); cbn [bind]; [|repeat split; reflexivity..].
    destruct (parseFetchAddr x) as [a'| |]; cbn [bind]; [exfalso; apply (Hp a' eq_refl)| |]; repeat split; reflexivity.
Qed.

(** An IPv6 address contains a colon. *)
Lemma groups16_len n : forall i, length i = 2 * n -> length (groups16 i) = n.
Proof.
  induction n as [|n IH]; intros i H; [destruct i; [reflexivity|cbn in H; lia]|].
  destruct i as [|a [|b i]]; cbn [length] in H; try lia. cbn [groups16 length]. rewrite IH by lia. reflexivity.
Qed.
Lemma ip6_colon i : length i = 16 -> In ":"%char (ip6_text i).
Proof.
  intros H. pose proof (groups16_len 8 i H) as Hg. unfold ip6_text. destruct (best_run 0 (groups16 i) (0, 0)) as [e0 n].
  destruct (n <=? 1).
  - destruct (groups16 i) as [|g0 [|g1 gs]]; cbn [length] in Hg; try lia.
    cbn [map join concat]. apply in_or_app. right. left. reflexivity.
  - apply in_or_app. right. left. reflexivity.
Qed.
Lemma hexnum_first n t : hd "x"%char (hexnum n ++ t) <> "["%char.
Proof.
  assert (H : forall f m u, 0 < f -> hd "x"%char (hex_groups_fuel f m ++ u) <> "["%char).
  { induction f as [|f IH]; intros m u Hf; [lia|]. cbn [hex_groups_fuel].
    assert (Hd : hexdigit (m mod 16) <> "["%char).
    { assert (Hm : (m mod 16 < 16)%N) by (apply N.mod_lt; discriminate). rewrite hexdigit_table by exact Hm.
      assert (Hk : N.to_nat (m mod 16) < 16) by lia. remember (N.to_nat (m mod 16)) as k. clear - Hk.
      do 16 (destruct k as [|k]; [discriminate|]). lia. }
    destruct (m <? 16)%N; [exact Hd|]. destruct f as [|f]; [exact Hd|]. rewrite <- app_assoc. apply IH. lia. }
  apply H. lia.
Qed.
Lemma ip6_first i t : length i = 16 -> hd "x"%char (ip6_text i ++ t) <> "["%char.
Proof.
  intros H. pose proof (groups16_len 8 i H) as Hg. unfold ip6_text. destruct (best_run 0 (groups16 i) (0, 0)) as [e0 n]. destruct (n <=? 1) eqn:En.
  - destruct (groups16 i) as [|g0 gs] eqn:Eg; [discriminate|]. cbn [map join]. rewrite <- app_assoc. apply hexnum_first.
  - destruct (firstn e0 (groups16 i)) as [|g0 gs]; cbn [map join app]; [discriminate|]. rewrite <- !app_assoc. apply hexnum_first.
Qed.
Lemma ip_string_v6 i : v6 i -> ip_string i = ip6_text i /\ i <> [].
Proof.
  intros [H1 H2]. split; [|intros ->; discriminate]. unfold ip_string, To4. destruct i as [|i0 i']; [discriminate|].
  rewrite H1. change (16 =? 4) with false. change (16 =? 16) with true. cbn [andb].
  apply beq_neq in H2. fold v4prefix in H2. rewrite H2. reflexivity.
Qed.

Lemma hex_groups_chars f n : Forall (fun c => is_hexdigit c = true) (hex_groups_fuel f n).
Proof.
  revert n; induction f as [|f IH]; intros n; cbn [hex_groups_fuel]; [constructor|].
  apply Forall_app. split; [destruct (n <? 16)%N; [constructor|apply IH]|]. constructor; [|constructor]. apply hexdigit_ok, N.mod_lt. discriminate.
Qed.
Definition v6_char (c : byte) : Prop := c <> "["%char /\ c <> "]"%char.
Lemma hexnum_chars n : Forall v6_char (hexnum n).
Proof. eapply Forall_impl; [|apply hex_groups_chars]. cbn beta. intros c H. split; intros ->; discriminate. Qed.
Lemma join_chars l : Forall (Forall v6_char) l -> Forall v6_char (join (B ":") l).
Proof.
  destruct l as [|x l]; intros H; cbn [join]; [constructor|]. inversion H as [|? ? H1 H2]; subst. apply Forall_app. split; [exact H1|].
  clear H H1. induction H2 as [|y l Hy _ IH]; cbn [map concat]; [constructor|]. apply Forall_app. split; [|exact IH].
  constructor; [split; discriminate|exact Hy].
Qed.
Lemma ip6_chars i : Forall v6_char (ip6_text i).
Proof.
  assert (Hm : forall g, Forall (Forall v6_char) (map hexnum g)).
  { intros g. apply Forall_map, Forall_forall. intros n _. apply hexnum_chars. }
  unfold ip6_text. destruct (best_run 0 (groups16 i) (0, 0)) as [e0 n]. destruct (n <=? 1); [apply join_chars, Hm|].
  apply Forall_app. split; [apply join_chars, Hm|]. apply Forall_app. split; [repeat constructor; discriminate|apply join_chars, Hm].
Qed.
(** C65: for an IPv6 source with implied_port the address is well formed ... *)
Lemma C65_ipv6_implied_pf : forall (x : request hid * udpaddr) i udp tcp k, let body := dict_of (rq_body (fst x)) in
  v6 i -> snd x = mkaddr i udp -> field body "port" (VInt tcp) -> field body "implied_port" (VInt k) -> (0 < k)%Z ->
  exists s host, parseFetchAddr x = Ok s /\ endpoint s host (itoa udp) /\ host = ip_string i.
Proof.
  intros x i udp tcp k body Hv Hs Hp Hk Hpos. destruct (ip_string_v6 i Hv) as [Ei Hn].
  assert (Hex : Exist body (B "implied_port") = true) by (unfold Exist; unfold field in Hk; rewrite Hk; reflexivity).
  apply field_int in Hp, Hk. unfold parseFetchAddr. fold body. rewrite Hp, Hex, Hk. cbn [bind]. rewrite (proj2 (Z.ltb_lt 0 k) Hpos).
  eexists. exists (ip_string i). split; [reflexivity|]. split; [|reflexivity]. rewrite Hs. unfold addr_string, mkaddr. cbn [ip port zone].
  destruct i as [|i0 i']; [congruence|]. set (i := i0 :: i') in *. unfold JoinHostPort.
  destruct Hv as [Hl _]. assert (Hc : existsb (fun c => Ascii.eqb c ":") (ip_string i) = true).
  { apply existsb_exists. exists ":"%char. split; [rewrite Ei; apply ip6_colon; exact Hl|reflexivity]. }
  rewrite Hc. apply ep_bracket.
  - rewrite Ei. apply Forall_app. split; [apply ip6_chars|]. eapply Forall_impl; [|apply itoa_host]. intros c (H1 & H2 & H3). split; assumption.
  - eapply Forall_impl; [|apply itoa_host]. intros c (H1 & H2 & H3). exact H1.
Qed.

(** C65: ... and without implied_port it never is, whatever the address: the brackets are missing,
    so the download cannot start. *)
Lemma C65_ipv6_refuted_pf : forall (x : request hid * udpaddr) i udp tcp, let body := dict_of (rq_body (fst x)) in
  v6 i -> snd x = mkaddr i udp -> field body "port" (VInt tcp) -> dget body (B "implied_port") = None ->
  exists s, parseFetchAddr x = Ok s /\ forall host port, ~ endpoint s host port.
Proof.
  intros x i udp tcp body Hv Hs Hp Hk. destruct (ip_string_v6 i Hv) as [Ei Hn]. destruct Hv as [Hl _].
  apply field_int in Hp. unfold parseFetchAddr. fold body. rewrite Hp. cbn [bind]. unfold Exist. rewrite Hk. cbn [bind].
  eexists. split; [reflexivity|]. rewrite Hs. cbn [ip mkaddr]. rewrite Ei. intros host port He.
  remember (ip6_text i ++ B ":" ++ itoa tcp) as s eqn:Es. destruct He as [hh pp Hf|hh pp Hf Hf2].
  - apply (f_equal (count_occ ascii_dec)) in Es. apply (f_equal (fun f => f ":"%char)) in Es. rewrite !count_occ_app in Es.
    assert (Hz : forall l, Forall host_char l -> count_occ ascii_dec l ":"%char = 0).
    { intros l Hl'. apply count_occ_not_In. intros Hin. rewrite Forall_forall in Hl'. destruct (Hl' _ Hin). congruence. }
    apply Forall_app in Hf as [Hf1 Hf2]. rewrite (Hz hh Hf1), (Hz pp Hf2), (Hz _ (itoa_host tcp)) in Es.
    change (count_occ ascii_dec (B ":") ":"%char) with 1 in Es.
    pose proof (proj1 (count_occ_In ascii_dec (ip6_text i) ":"%char) (ip6_colon i Hl)). lia.
  - apply (f_equal (hd "x"%char)) in Es. symmetry in Es. apply (ip6_first i (B ":" ++ itoa tcp) Hl). rewrite Es. reflexivity.
Qed.

(** C65: the cases occur. *)
Definition ip6_a : bytes := map ascii_of_nat [32; 1; 13; 184; 0; 0; 0; 0; 0; 0; 0; 0; 0; 0; 0; 1].
Lemma C65_example_pf :
  parseFetchAddr (announce0 (B "h") [], peer0) = Ok (B "10.0.0.7:6881") /\
  parseFetchAddr (announce0 (B "h") [(B "implied_port", VInt 1)], peer0) = Ok (B "10.0.0.7:4711") /\
  v6 ip6_a /\ parseFetchAddr (announce0 (B "h") [], mkaddr ip6_a 4711) = Ok (B "2001:db8::1:6881") /\
  parseFetchAddr (announce0 (B "h") [(B "implied_port", VInt 1)], mkaddr ip6_a 4711) = Ok (B "[2001:db8::1]:4711").
Proof. split; [reflexivity|]. split; [reflexivity|]. split; [split; [reflexivity|discriminate]|]. split; reflexivity. Qed.

(** ** C81: several downloads at once *)
Section Concurrent.
  Variable q data : bytes.
  (** A goroutine that has created the file and written [k] bytes. *)
  Definition act (k : nat) (l : list fsop) : Prop := exists W tl, l = W ++ tl /\ writes q data k W /\ k <= length data /\ (tl = [] \/ tl = [OClose q]).
  Definition fresh (l : list fsop) : Prop := exists l', l = OCreate q :: l' /\ act 0 l'.
  Definition other (l : list fsop) : Prop := Forall (fun o => op_path o <> q) l.
  Definition th (l : list fsop) : Prop := other l \/ fresh l \/ exists k, act k l.
  Definition good (c : bytes) (k : nat) : Prop := k <= length c /\ length c <= length data /\ firstn k c = firstn k data.
  Definition inv (d : disk) (ls : list (list fsop)) : Prop :=
    Exists fresh ls \/ exists c, d q = Some c /\ Exists (fun l => exists k, act k l /\ good c k) ls.

  Lemma act_step k x l : act k (x :: l) ->
    (exists c, x = OWrite q k c /\ firstn (length c) (skipn k data) = c /\ act (k + length c) l) \/ (x = OClose q /\ l = [] /\ length data <= k /\ k <= length data).
  Proof.
    intros (W & tl & E & Hw & Hk & Ht). inversion Hw as [k0 Hk0|k0 c ops Hc Hw']; subst.
    - cbn [app] in E. destruct Ht as [->| ->]; [discriminate|]. injection E as -> ->. right. repeat split; assumption.
    - cbn [app] in E. injection E as -> ->. left. exists c. split; [reflexivity|]. split; [exact Hc|].
      exists ops, tl. split; [reflexivity|]. split; [exact Hw'|]. split; [|exact Ht].
      apply (f_equal (@length _)) in Hc. rewrite firstn_length, skipn_length in Hc. lia.
  Qed.

  Lemma overlay_length c off ch : length (overlay c off ch) = Nat.max (off + length ch) (length c).
  Proof. unfold overlay. rewrite !app_length, firstn_length, app_length, repeat_length, skipn_length. lia. Qed.
  Lemma overlay_keep c off ch k : firstn (length ch) (skipn off data) = ch -> off + length ch <= length data -> good c k ->
    firstn k (overlay c off ch) = firstn k data.
  Proof.
    intros Hc Hb (H1 & H2 & H3).
    assert (Hpre : forall n, n <= k -> firstn n c = firstn n data).
    { intros n Hn.
      replace (firstn n c) with (firstn n (firstn k c)) by (rewrite firstn_firstn; f_equal; lia).
      rewrite H3, firstn_firstn. f_equal. lia. }
    unfold overlay. destruct (Nat.le_gt_cases k off) as [Hle|Hgt].
    - rewrite firstn_app. replace (k - length _) with 0 by (rewrite firstn_length, app_length, repeat_length; lia).
      cbn [firstn]. rewrite app_nil_r, firstn_firstn, Nat.min_l by exact Hle. rewrite firstn_app. replace (k - length c) with 0 by lia.
      cbn [firstn]. rewrite app_nil_r. exact H3.
    - replace (off - length c) with 0 by lia. cbn [repeat]. rewrite app_nil_r. rewrite (Hpre off) by lia.
      destruct (Nat.le_gt_cases k (off + length ch)) as [Hle2|Hgt2].
      + rewrite app_assoc, firstn_app. replace (k - length _) with 0 by (rewrite app_length, firstn_length; lia). cbn [firstn]. rewrite app_nil_r.
        rewrite <- Hc at 1. rewrite firstn_skipn_comm.
        replace (firstn off data) with (firstn off (firstn (off + length ch) data)) by (rewrite firstn_firstn; f_equal; lia).
        rewrite firstn_skipn, firstn_firstn. f_equal. lia.
      + assert (E : firstn off data ++ ch = firstn (off + length ch) data).
        { rewrite <- Hc at 1. rewrite firstn_skipn_comm.
          replace (firstn off data) with (firstn off (firstn (off + length ch) data)) by (rewrite firstn_firstn; f_equal; lia).
          apply firstn_skipn. }
        rewrite app_assoc, E, <- (Hpre (off + length ch)) by lia. rewrite firstn_skipn. exact H3.
  Qed.
  Lemma overlay_good c off ch k : firstn (length ch) (skipn off data) = ch -> off + length ch <= length data -> good c k -> good (overlay c off ch) k.
  Proof.
    intros Hc Hb Hg. pose proof (overlay_keep c off ch k Hc Hb Hg) as Hk. destruct Hg as (H1 & H2 & H3).
    split; [rewrite overlay_length; lia|]. split; [rewrite overlay_length; lia|exact Hk].
  Qed.
  Lemma overlay_advance c ch k : firstn (length ch) (skipn k data) = ch -> k + length ch <= length data -> good c k -> good (overlay c k ch) (k + length ch).
  Proof.
    intros Hc Hb (H1 & H2 & H3). split; [rewrite overlay_length; lia|]. split; [rewrite overlay_length; lia|].
    unfold overlay. replace (k - length c) with 0 by lia. cbn [repeat]. rewrite app_nil_r, H3.
    rewrite app_assoc. assert (L : length (firstn k data ++ ch) = k + length ch) by (rewrite app_length, firstn_length; lia).
    rewrite <- L at 1. rewrite firstn_app, Nat.sub_diag, firstn_all. cbn [firstn]. rewrite app_nil_r.
    rewrite <- Hc at 1. rewrite firstn_skipn_comm.
    replace (firstn k data) with (firstn k (firstn (k + length ch) data)) by (rewrite firstn_firstn; f_equal; lia).
    apply firstn_skipn.
  Qed.

  Lemma Exists_mid {A} (P : A -> Prop) l1 x l2 : Exists P (l1 ++ x :: l2) <-> P x \/ Exists P (l1 ++ l2).
  Proof. rewrite !Exists_app, Exists_cons. tauto. Qed.
  Lemma Forall_mid {A} (P : A -> Prop) l1 x l2 : Forall P (l1 ++ x :: l2) <-> P x /\ Forall P (l1 ++ l2).
  Proof. rewrite !Forall_app, Forall_cons_iff. tauto. Qed.

  Lemma all_finish ls ops : interleaved ls ops -> forall d, Forall th ls -> inv d ls -> fs_run ops d q = Some data.
  Proof.
    induction 1 as [ls Hd|ls1 x l ls2 r Hi IH]; intros d Hth Hinv.
    - rewrite Forall_forall in Hd. destruct Hinv as [He|(c & Hc & He)]; apply Exists_exists in He as (l & Hin & He); rewrite (Hd l Hin) in He.
      + destruct He as (l' & E & _). discriminate.
      + destruct He as (k & (W & tl & E & Hw & Hk & _) & (H1 & H2 & H3)). symmetry in E. apply app_eq_nil in E as [-> ->].
        inversion Hw; subst. unfold fs_run. cbn [fold_left]. rewrite Hc. f_equal.
        replace k with (length data) in * by lia. rewrite firstn_all in H3. rewrite <- H3. replace (length data) with (length c) by lia. symmetry. apply firstn_all.
    - change (fs_run (x :: r) d) with (fs_run r (fs_op d x)). apply Forall_mid in Hth as [Hx Hth].
      (* the goroutine that moves stays well formed *)
      assert (Hth' : Forall th (ls1 ++ l :: ls2)).
      { apply Forall_mid. split; [|exact Hth]. destruct Hx as [Hx|[Hx|[k Hx]]].
        - left. inversion Hx; assumption.
        - destruct Hx as (l' & E & Ha). injection E as -> ->. right. right. exists 0. exact Ha.
        - apply act_step in Hx as [(c & _ & _ & Ha)|(_ & -> & _)]; [right; right; eexists; exact Ha|left; constructor]. }
      apply IH; [exact Hth'|].
      (* the operation keeps a good file good *)
      assert (Hkeep : forall c k, d q = Some c -> good c k -> ((exists l', x = OCreate q /\ l' = l /\ act 0 l) \/ exists c', fs_op d x q = Some c' /\ good c' k)).
      { intros c k Hc Hg. destruct Hx as [Hx|[Hx|[k' Hx]]].
        - right. exists c. split; [|exact Hg]. rewrite <- Hc. apply fs_op_other. inversion Hx; subst. congruence.
        - destruct Hx as (l' & E & Ha). injection E as -> ->. left. exists l'. repeat split. exact Ha.
        - right. pose proof Hx as (_ & _ & _ & _ & Hk' & _). apply act_step in Hx as [(ch & -> & Hch & (W & tl & _ & _ & Hb & _))|(-> & _)].
          + exists (overlay c k' ch). cbn [fs_op]. rewrite Hc, dset_same. split; [reflexivity|]. apply overlay_good; assumption.
          + exists c. split; [exact Hc|exact Hg]. }
      destruct Hinv as [He|(c & Hc & He)].
      + apply Exists_mid in He as [Hf|He]; [|left; apply Exists_mid; right; exact He].
        destruct Hf as (l' & E & Ha). injection E as -> ->. right. exists []. cbn [fs_op]. split; [apply dset_same|].
        apply Exists_mid. left. exists 0. split; [exact Ha|]. split; [cbn [length]; lia|]. split; [cbn [length]; lia|reflexivity].
      + apply Exists_mid in He as [(k & Ha & Hg)|He].
        * right. pose proof Ha as (_ & _ & _ & _ & Hk & _). apply act_step in Ha as [(ch & -> & Hch & Ha)|(-> & -> & H1 & H2)].
          -- exists (overlay c k ch). cbn [fs_op]. rewrite Hc. split; [apply dset_same|]. apply Exists_mid. left. exists (k + length ch). split; [exact Ha|].
             apply overlay_advance; [exact Hch| |exact Hg]. destruct Ha as (_ & _ & _ & _ & Hb & _). exact Hb.
          -- exists c. cbn [fs_op]. split; [exact Hc|]. apply Exists_mid. left. exists k. split; [|exact Hg].
             exists [], []. split; [reflexivity|]. split; [apply ws_end; exact H1|]. split; [exact H2|left; reflexivity].
        * apply Exists_exists in He as (l0 & Hin & k & Ha & Hg).
          destruct (Hkeep c k Hc Hg) as [(l' & -> & _ & Ha0)|(c' & Hc' & Hg')].
          -- right. exists []. cbn [fs_op]. split; [apply dset_same|]. apply Exists_mid. left. exists 0. split; [exact Ha0|].
             split; [cbn [length]; lia|]. split; [cbn [length]; lia|reflexivity].
          -- right. exists c'. split; [exact Hc'|]. apply Exists_mid. right. apply Exists_exists. exists l0. split; [exact Hin|]. exists k. split; assumption.
  Qed.
End Concurrent.

Lemma interleaved_in {A} (ls : list (list A)) r : interleaved ls r -> forall x, In x r -> exists l, In l ls /\ In x l.
Proof.
  induction 1 as [|ls1 x l ls2 r Hi IH]; intros y Hy; [contradiction|]. destruct Hy as [<-|Hy].
  - exists (x :: l). split; [apply in_or_app; right; left; reflexivity|left; reflexivity].
  - destruct (IH y Hy) as (l' & H1 & H2). apply in_app_or in H1 as [H1|[<-|H1]].
    + exists l'. split; [apply in_or_app; left; exact H1|exact H2].
    + exists (x :: l). split; [apply in_or_app; right; left; reflexivity|right; exact H2].
    + exists l'. split; [apply in_or_app; right; right; exact H1|exact H2].
Qed.

Lemma flush_fresh o name data : os_ok o -> fresh (torrent_path name) data (flushTorrentFile o name data).
Proof.
  intros [H1 H2]. unfold flushTorrentFile. rewrite H1, H2. eexists. split; [reflexivity|].
  exists (write_ops (torrent_path name) 0 (os_sizes o) data), [OClose (torrent_path name)]. split; [reflexivity|].
  split; [apply (write_ops_writes (torrent_path name) data (os_sizes o) 0); lia|]. split; [lia|right; reflexivity].
Qed.

(** C81: any number of fetchHandler calls run at the same time, their file operations interleaved in
    any way - also several for the same info hash.  Unless two of them downloaded different data with
    the same SHA-1, at the end every file that changed holds complete data matching its name, and the
    data of every download is on disk. *)
Lemma C81_concurrent_downloads_pf : forall (rs : list fetched) ops (d0 : disk),
  (forall r, In r rs -> exists e p h dial o x, os_ok o /\ r = fetchHandler e p h dial o x) ->
  (forall r1 r2 d1 d2, In r1 rs -> In r2 rs -> t_data r1 = Some d1 -> t_data r2 = Some d2 -> sha1 d1 = sha1 d2 -> d1 = d2) ->
  interleaved (map t_ops rs) ops ->
  (forall r d, In r rs -> t_data r = Some d -> fs_run ops d0 (file_of (sha1 d)) = Some d) /\
  (forall q, fs_run ops d0 q <> d0 q -> exists d, q = file_of (sha1 d) /\ fs_run ops d0 q = Some d).
Proof.
  intros rs ops d0 Hrs Hcol Hi.
  assert (Hops : forall r, In r rs -> (t_data r = None /\ t_ops r = []) \/ exists o d, os_ok o /\ t_data r = Some d /\ t_ops r = flushTorrentFile o (hex (sha1 d)) d).
  { intros r Hin. destruct (Hrs r Hin) as (e & p & h & dial & o & x & Hok & ->).
    destruct (handler_cases e p h dial o x) as [H|(d & H1 & _ & H3)]; [left; exact H|]. right. exists o, d. split; [exact Hok|]. split; assumption. }
  assert (Hall : forall r d, In r rs -> t_data r = Some d -> fs_run ops d0 (file_of (sha1 d)) = Some d).
  { intros r d Hin Hd. apply (all_finish (file_of (sha1 d)) d (map t_ops rs)); [exact Hi| |].
    - apply Forall_map, Forall_forall. intros r' Hin'. destruct (Hops r' Hin') as [[_ ->]|(o' & d' & Hok & Hd' & ->)]; [left; constructor|].
      destruct (bytes_eq_dec (sha1 d') (sha1 d)) as [E|E].
      + assert (d' = d) by (eapply (Hcol r' r d' d); assumption). subst d'. right. left. rewrite <- file_of_path. apply flush_fresh. exact Hok.
      + left. unfold other. eapply Forall_impl; [|apply flush_paths]. cbn beta. intros op ->. rewrite file_of_path. intros E'. apply E, file_of_inj, E'.
    - left. apply Exists_exists. exists (t_ops r). split; [apply in_map; exact Hin|].
      destruct (Hops r Hin) as [[H _]|(o' & d' & Hok & Hd' & ->)]; [congruence|]. assert (d' = d) by congruence. subst d'.
      rewrite <- file_of_path. apply flush_fresh. exact Hok. }
  split; [exact Hall|]. intros q Hq.
  destruct (Exists_dec (fun o => op_path o = q) ops (fun o => bytes_eq_dec (op_path o) q)) as [He|He].
  - apply Exists_exists in He as (op & Hin & <-). destruct (interleaved_in _ _ Hi op Hin) as (l & Hl & Hop).
    apply in_map_iff in Hl as (r & <- & Hr). destruct (Hops r Hr) as [[_ E]|(o & d & Hok & Hd & E)]; rewrite E in Hop; [contradiction|].
    pose proof (flush_paths o (hex (sha1 d)) d) as Hf. rewrite Forall_forall in Hf. rewrite (Hf op Hop), file_of_path.
    exists d. split; [reflexivity|]. apply (Hall r d Hr Hd).
  - contradiction Hq. apply fs_run_other. apply Forall_forall. intros op Hin E. apply He. apply Exists_exists. exists op. split; assumption.
Qed.

(** C81: two handlers of the same announcement, the second truncating what the first has written. *)
Lemma run0_ops : t_ops run0 = flushTorrentFile os0 (hex (sha1 meta1)) meta1.
Proof.
  destruct (handler_cases calm0 pool0 heap0 dial0 os0 (announce0 (sha1 meta1) [], peer0)) as [[H1 _]|(d & H1 & _ & H3)]; fold run0 in *.
  - rewrite (proj2 run0_data) in H1. discriminate.
  - rewrite (proj2 run0_data) in H1. injection H1 as <-. exact H3.
Qed.
Lemma C81_example_pf : exists a b c d e f, t_ops run0 = [a; b; c; d] /\ interleaved (map t_ops [run0; run0]) (a :: b :: a :: c :: b :: c :: [d; d]) /\
  fs_run [a; b; a; c] (fun _ => None) (file_of (sha1 meta1)) = Some e /\ e <> meta1 /\ length e = length meta1 /\
  fs_run (a :: b :: a :: c :: b :: c :: [d; d]) (fun _ => None) (file_of (sha1 meta1)) = Some f /\ f = meta1.
Proof.
  set (path := torrent_path (hex (sha1 meta1))).
  exists (OCreate path), (OWrite path 0 (firstn 4 meta1)), (OWrite path 4 (skipn 4 meta1)), (OClose path), (repeat (byte_of 0) 4 ++ skipn 4 meta1), meta1.
  assert (E : t_ops run0 = [OCreate path; OWrite path 0 (firstn 4 meta1); OWrite path 4 (skipn 4 meta1); OClose path]) by (rewrite run0_ops; reflexivity).
  split; [exact E|]. split.
  { cbn [map]. rewrite E. apply (il_step [] _ _ [_]). apply (il_step [] _ _ [_]). apply (il_step [_] _ _ []). apply (il_step [] _ _ [_]).
    apply (il_step [_] _ _ []). apply (il_step [_] _ _ []). apply (il_step [_] _ _ []). apply (il_step [] _ _ [_]). apply il_done. repeat constructor. }
  rewrite <- file_of_path. fold path. unfold fs_run. cbn [fold_left fs_op]. repeat (rewrite dset_same; cbn [fs_op]).
  split; [reflexivity|]. split; [discriminate|]. split; [reflexivity|]. split; reflexivity.
Qed.

(** C64: the download of C62, interrupted after the file was created, and not interrupted. *)
Lemma C64_example_pf : exists rest, t_ops run0 = OCreate (file_of (sha1 meta1)) :: rest /\
  fs_run [OCreate (file_of (sha1 meta1))] (fun _ => None) (file_of (sha1 meta1)) = Some (firstn 0 meta1) /\
  fs_run (t_ops run0) (fun _ => None) (file_of (sha1 meta1)) = Some meta1.
Proof.
  assert (Hops : t_ops run0 = flushTorrentFile os0 (hex (sha1 meta1)) meta1).
  { unfold run0. destruct (handler_cases calm0 pool0 heap0 dial0 os0 (announce0 (sha1 meta1) [], peer0)) as [[H1 _]|(d & H1 & _ & H3)]; fold run0 in *.
    - rewrite (proj2 run0_data) in H1. discriminate.
    - rewrite (proj2 run0_data) in H1. injection H1 as <-. exact H3. }
  pose proof (proj2 (proj2 (proj2 C62_example_pf))) as H. eexists. split; [rewrite Hops, <- file_of_path; reflexivity|]. split; [|exact H].
  unfold fs_run. cbn [fold_left fs_op]. apply dset_same.
Qed.
