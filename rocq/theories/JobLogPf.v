(** JobLogPf.v -- proofs of C136 (what a download worker prints). *)
From Verif Require Import Base GoLib Bencode BencodeSpec Types Logger Node Json ConsoleLog Krpc KrpcSpec Dht BytesPool Sha1 PeerWire Fetch FetchSpec FetchProofs FetchPf FetchTorrent FetchTorrentSpec FetchTorrentPf FetchLog FetchLogSpec FetchLogProofs FetchLogPf JobLog JobLogSpec.
Local Open Scope list_scope.

(** C136: the function with the log calls does what fetchHandler does. *)
Lemma C136_same_job_pf : forall txt ptxt ce we e p h dial o x, fst (fetchHandler_log txt ptxt ce we e p h dial o x) = fetchHandler e p h dial o x.
Proof.
  intros. unfold fetchHandler_log, fetchHandler. cbv zeta.
  destruct (do ih <- GetString (dict_of (rq_body (fst x))) (B "info_hash"); do a <- parseFetchAddr x; Ok (ih, a)) as [[ih a]|er|pn]; [|reflexivity..].
  pose proof (C135_same_download_pf e a txt ptxt p h (dial a) LocalPeerId ih) as H.
  destruct (FetchMetaData_log e a txt ptxt p h (dial a) LocalPeerId ih) as [[s r] l]. cbn [fst] in H. rewrite <- H. cbn [snd]. destruct r; reflexivity.
Qed.

Lemma about_dht laddr how m o : about laddr how m o -> Forall (fun en => ~ by_dht en) o.
Proof. intros H; destruct H; repeat constructor; try discriminate. destruct H1; repeat constructor; discriminate. Qed.
Lemma talk_dht laddr how l o : conversation laddr how l o -> Forall (fun en => ~ by_dht en) o.
Proof. induction 1; [constructor|assumption| |eauto using about_dht]. apply Forall_app. eauto using about_dht. Qed.
Lemma transcript_dht laddr pid ih how l o : transcript laddr pid ih how l o -> Forall (fun en => ~ by_dht en) o.
Proof.
  intros H. destruct H as [how o H _|how l o H|l o t H|l o H].
  - destruct H; repeat constructor; discriminate.
  - eauto using talk_dht.
  - apply Forall_app. split; [eauto using talk_dht|]. repeat constructor. discriminate.
  - eauto using talk_dht.
Qed.
Lemma download_dht e laddr txt ptxt p h peer ih : (forall n d, deq d (e_ford e n d)) -> Forall (fun en => ~ by_dht en) (lines_of (snd (FetchMetaData_log e laddr txt ptxt p h peer LocalPeerId ih))).
Proof.
  intros Hord. destruct peer as [script|]; [|constructor]. destruct (FetchMetaData_log e laddr txt ptxt p h (Some script) LocalPeerId ih) as [[s r] o] eqn:E.
  destruct (C135_transcript_pf _ _ _ _ _ _ _ _ _ _ _ _ Hord E) as (how & body & closing & El & T & C). cbn [snd]. rewrite El. apply Forall_app. split; [eauto using transcript_dht|].
  destruct C; repeat constructor; discriminate.
Qed.
Lemma no_err_string d k er : GetString d k <> Err er.
Proof. unfold GetString, GetVal. destruct (dget d k) as [[]|]; cbn; discriminate. Qed.
Lemma no_err_int d k er : GetInteger d k <> Err er.
Proof. unfold GetInteger, GetVal. destruct (dget d k) as [[]|]; cbn; discriminate. Qed.
Lemma no_err_addr x er : parseFetchAddr x <> Err er.
Proof.
  unfold parseFetchAddr. cbv zeta. destruct (GetInteger _ (B "port")) as [po|er'|] eqn:E; cbn [bind]; [|exfalso; exact (no_err_int _ _ _ E)|discriminate].
  destruct (Exist _ _); [|discriminate]. destruct (GetInteger _ (B "implied_port")) as [po'|er'|] eqn:E'; cbn [bind]; [discriminate|exfalso; exact (no_err_int _ _ _ E')|discriminate].
Qed.

(** C136: a worker prints the lines of its download and nothing else, except that it complains once about a file it could not create or
    complete, or (instead of everything else, and having neither dialled nor touched a file) about an announcement without info hash or port. *)
Lemma C136_lines_pf : forall txt ptxt ce we e p h dial o x r out, (forall n d, deq d (e_ford e n d)) ->
  fetchHandler_log txt ptxt ce we e p h dial o x = (r, out) ->
  match t_dial r with
  | None => t_data r = None /\ t_ops r = [] /\ exists t, out = [complaint "fetchHandler panic" t]
  | Some a => exists ih tail, field (dict_of (rq_body (fst x))) "info_hash" (VStr ih) /\
      out = lines_of (snd (FetchMetaData_log e a txt ptxt p h (dial a) LocalPeerId ih)) ++ tail /\
      (tail = [] \/ t_data r <> None /\ (tail = [complaint "create file err" ce] \/ tail = [complaint "write file err" we])) /\
      forall en, In en out -> (by_dht en <-> In en tail)
  end.
Proof.
  intros txt ptxt ce we e p h dial o x r out Hord E. unfold fetchHandler_log in E. cbv zeta in E.
  destruct (GetString (dict_of (rq_body (fst x))) (B "info_hash")) as [ih|er|pn] eqn:E1; cbn [bind] in E; [|exfalso; exact (no_err_string _ _ _ E1)|injection E as <- <-; cbn [t_dial t_data t_ops]; split; [reflexivity|]; split; [reflexivity|]; eexists; reflexivity].
  destruct (parseFetchAddr x) as [a|er|pn] eqn:E2; cbn [bind] in E; [|exfalso; exact (no_err_addr _ _ E2)|injection E as <- <-; cbn [t_dial t_data t_ops]; split; [reflexivity|]; split; [reflexivity|]; eexists; reflexivity].
  pose proof (download_dht e a txt ptxt p h (dial a) ih Hord) as D.
  assert (T : forall tail, Forall by_dht tail -> forall en, In en (lines_of (snd (FetchMetaData_log e a txt ptxt p h (dial a) LocalPeerId ih)) ++ tail) -> (by_dht en <-> In en tail)).
  { intros tail Ht en Hin. rewrite Forall_forall in D, Ht. apply in_app_iff in Hin. split; [|apply Ht]. intros Hb. destruct Hin as [Hin|Hin]; [destruct (D _ Hin Hb)|exact Hin]. }
  apply field_string in E1.
  destruct (FetchMetaData_log e a txt ptxt p h (dial a) LocalPeerId ih) as [[s [d|er|pn|st]] l] eqn:E3; injection E as <- <-; cbn [t_dial t_data snd] in *; exists ih.
  - exists (flush_log ce we o d). split; [exact E1|]. rewrite E3. cbn [snd]. split; [reflexivity|]. split.
    + unfold flush_log. destruct (os_create o); [|right; split; [discriminate|left; reflexivity]]. destruct (os_fail o) as [k|]; [|left; reflexivity].
      destruct (k <? length d); [right; split; [discriminate|right; reflexivity]|left; reflexivity].
    + apply T. unfold flush_log. destruct (os_create o); [destruct (os_fail o) as [k|]; [destruct (k <? length d)|]|]; repeat constructor.
  - exists []. rewrite E3. cbn [snd]. split; [exact E1|]. split; [symmetry; apply app_nil_r|]. split; [left; reflexivity|]. pose proof (T [] (Forall_nil _)) as T0. rewrite app_nil_r in T0. exact T0.
  - exists []. rewrite E3. cbn [snd]. split; [exact E1|]. split; [symmetry; apply app_nil_r|]. split; [left; reflexivity|]. pose proof (T [] (Forall_nil _)) as T0. rewrite app_nil_r in T0. exact T0.
  - exists []. rewrite E3. cbn [snd]. split; [exact E1|]. split; [symmetry; apply app_nil_r|]. split; [left; reflexivity|]. pose proof (T [] (Forall_nil _)) as T0. rewrite app_nil_r in T0. exact T0.
Qed.

Lemma flush_short o name data d : os_create o = true -> fs_run (flushTorrentFile o name data) d (torrent_path name) = Some (match os_fail o with Some k => firstn k data | None => data end).
Proof.
  intros H1. unfold flushTorrentFile. rewrite H1. set (path := torrent_path name). set (dat := match os_fail o with Some k => firstn k data | None => data end).
  pose proof (write_ops_writes path dat (os_sizes o) 0 ltac:(lia)) as Hw. cbn [skipn] in Hw.
  destruct (writes_prefix path dat _ 0 (dset d path []) ltac:(lia) Hw (dset_same _ _ _) (write_ops path 0 (os_sizes o) dat) []) as (k' & _ & H3 & H4); [rewrite app_nil_r; reflexivity|].
  rewrite (H4 eq_refl), firstn_all in H3. rewrite app_comm_cons. unfold fs_run in *. rewrite fold_left_app. cbn [fold_left fs_op]. exact H3.
Qed.

(** C136: after a successful download the worker is silent exactly if the file is complete, whatever the directory held before. *)
Lemma C136_silence_means_stored_pf : forall txt ptxt ce we e p h dial o x r out d, (forall n d, deq d (e_ford e n d)) ->
  fetchHandler_log txt ptxt ce we e p h dial o x = (r, out) -> t_data r = Some d ->
  ((forall en, In en out -> ~ by_dht en) <-> forall d0, fs_run (t_ops r) d0 (file_of (sha1 d)) = Some d).
Proof.
  intros txt ptxt ce we e p h dial o x r out d Hord E Hd.
  pose proof (C136_same_job_pf txt ptxt ce we e p h dial o x) as S. rewrite E in S. cbn [fst] in S.
  assert (F : exists l, out = lines_of l ++ flush_log ce we o d /\ Forall (fun en => ~ by_dht en) (lines_of l)).
  { unfold fetchHandler_log in E. cbv zeta in E.
    destruct (do ih <- GetString (dict_of (rq_body (fst x))) (B "info_hash"); do a <- parseFetchAddr x; Ok (ih, a)) as [[ih a]|er|pn]; [|injection E as <- _; discriminate Hd..].
    pose proof (download_dht e a txt ptxt p h (dial a) ih Hord) as D.
    destruct (FetchMetaData_log e a txt ptxt p h (dial a) LocalPeerId ih) as [[s [d'|er|pn|st]] l]; injection E as <- <-; try discriminate Hd. injection Hd as ->. exists l. split; [reflexivity|exact D]. }
  destruct F as (l & -> & D). destruct (handler_cases e p h dial o x) as [[H1 H2]|(d' & H1 & H2 & H3)]; rewrite <- S in *; [congruence|].
  assert (d' = d) by congruence. subst d'. rewrite H3, <- file_of_path.
  assert (Q : (forall en, In en (lines_of l ++ flush_log ce we o d) -> ~ by_dht en) <-> flush_log ce we o d = []).
  { rewrite Forall_forall in D. split.
    - intros H. destruct (flush_log ce we o d) as [|en t] eqn:Ef; [reflexivity|]. exfalso. apply (H en); [apply in_app_iff; right; left; reflexivity|].
      unfold flush_log in Ef. destruct (os_create o); [destruct (os_fail o) as [k|]; [destruct (k <? length d)|]|]; try discriminate Ef; injection Ef as <- _; reflexivity.
    - intros -> en Hin. rewrite app_nil_r in Hin. apply D. exact Hin. }
  rewrite Q. unfold flush_log. destruct (os_create o) eqn:Ec.
  - split.
    + intros Hf d0. rewrite flush_short by exact Ec. destruct (os_fail o) as [k|]; [|reflexivity]. destruct (Nat.ltb_spec k (length d)); [discriminate|]. rewrite firstn_all2 by lia. reflexivity.
    + intros Hf. specialize (Hf (fun _ => None)). rewrite flush_short in Hf by exact Ec. destruct (os_fail o) as [k|]; [|reflexivity]. destruct (Nat.ltb_spec k (length d)) as [Hk|Hk]; [|reflexivity].
      injection Hf as Hf. apply (f_equal (@length _)) in Hf. rewrite firstn_length in Hf. lia.
  - split; [discriminate|]. intros Hf. specialize (Hf (fun _ => None)). unfold flushTorrentFile in Hf. rewrite Ec in Hf. discriminate Hf.
Qed.

(** C136: a worker's lines say whether the metadata was downloaded: the line with the checksum and the info hash in hexadecimal is printed exactly if it was. *)
Lemma C136_success_is_logged_pf : forall txt ptxt ce we e p h dial o x r out a ih, (forall n d, deq d (e_ford e n d)) ->
  fetchHandler_log txt ptxt ce we e p h dial o x = (r, out) -> t_dial r = Some a -> field (dict_of (rq_body (fst x))) "info_hash" (VStr ih) ->
  (t_data r <> None <-> In (fline a MInfo "chesum metadata match" [(B "infohash", VStr (hex_text ih))]) out) /\
  (t_data r = None -> forall en, In en out -> ce_log en = B "FetchMetadata" -> ce_msg en <> B "chesum metadata match").
Proof.
  intros txt ptxt ce we e p h dial o x r out a ih Hord E Ha Hi. rewrite <- hex_hex_text. unfold fetchHandler_log in E. cbv zeta in E.
  destruct (GetString (dict_of (rq_body (fst x))) (B "info_hash")) as [ih'|er|pn] eqn:E1; cbn [bind] in E; [|injection E as <- _; discriminate Ha..].
  assert (ih' = ih) by (apply field_string in E1; unfold field in *; congruence). subst ih'.
  destruct (parseFetchAddr x) as [a'|er|pn] eqn:E2; cbn [bind] in E; [|injection E as <- _; discriminate Ha..].
  destruct (dial a') as [script|].
  2:{ cbn [FetchMetaData_log] in E. injection E as <- <-. cbn [t_data lines_of flat_map In]. split; [split; [congruence|intros []]|intros _ en []]. }
  destruct (FetchMetaData_log e a' txt ptxt p h (Some script) LocalPeerId ih) as [[s r'] l] eqn:E3.
  destruct (C135_closing_line_pf _ _ _ _ _ _ _ _ _ _ _ _ Hord E3) as (body & closing & El & Hb & Hc).
  assert (N : closing = [] \/ (exists m ctx, (m = "chesum metadata not match" \/ m = "FetchMetaData err")%string /\ closing = [fline a' MError m ctx]) ->
    forall en, In en (lines_of l) -> ce_log en = B "FetchMetadata" -> ce_msg en <> B "chesum metadata match").
  { intros Hcl en Hin Hlg Hms. rewrite El in Hin. apply in_app_iff in Hin. destruct Hin as [Hin|Hin].
    - rewrite Forall_forall in Hb. apply (Hb en Hin). split; [exact Hlg|]. rewrite Hms. left. reflexivity.
    - destruct Hcl as [->|(m & ctx & [-> | ->] & ->)]; [destruct Hin| |]; destruct Hin as [<-|[]]; discriminate Hms. }
  assert (K : forall en, en = fline a MInfo "chesum metadata match" [(B "infohash", VStr (hex ih))] -> ce_log en = B "FetchMetadata" /\ ce_msg en = B "chesum metadata match") by (intros en ->; split; reflexivity).
  assert (X : closing = [] \/ (exists m ctx, (m = "chesum metadata not match" \/ m = "FetchMetaData err")%string /\ closing = [fline a' MError m ctx]) ->
    (@None bytes <> None <-> In (fline a MInfo "chesum metadata match" [(B "infohash", VStr (hex ih))]) (lines_of l)) /\
    (@None bytes = None -> forall en, In en (lines_of l) -> ce_log en = B "FetchMetadata" -> ce_msg en <> B "chesum metadata match")).
  { intros Hcl. split; [split; [congruence|]|intros _; exact (N Hcl)]. intros Hin. destruct (K _ eq_refl) as [K1 K2]. destruct (N Hcl _ Hin K1 K2). }
  destruct r' as [d|er|pn|st]; injection E as <- <-; cbn [t_data t_dial] in *; injection Ha as ->.
  - split; [|discriminate]. split; [intros _|discriminate]. rewrite El, Hc. apply in_app_iff. left. apply in_app_iff. right. left. reflexivity.
  - apply X. destruct Hc as [[_ ->]|[[_ [t ->]]|[_ ->]]]; eauto 8.
  - destruct Hc.
  - apply X. left. exact Hc.
Qed.

(** C136: a concrete announcement: stored without a complaint; with a directory that cannot be written; with a full disk; and an announcement without a port. *)
Definition job0 (o : osenv) (r : request hid) : list (bytes * bytes) :=
  map (fun en => (ce_log en, ce_msg en)) (snd (fetchHandler_log said died (B "create: denied") (B "write: no space") calm0 pool0 heap0 dial0 o (r, peer0))).
Lemma C136_examples_pf :
  let fine := [(B "FetchMetadata", B "get extended handshake"); (B "FetchMetadata", B "request pieces"); (B "FetchMetadata", B "fetch extended msg"); (B "FetchMetadata", B "chesum metadata match")] in
  job0 os0 (announce0 (sha1 meta1) []) = fine /\
  job0 {| os_create := false; os_sizes := []; os_fail := None |} (announce0 (sha1 meta1) []) = fine ++ [(B "dht", B "create file err")] /\
  job0 {| os_create := true; os_sizes := [4]; os_fail := Some 3 |} (announce0 (sha1 meta1) []) = fine ++ [(B "dht", B "write file err")] /\
  job0 os0 {| rq_tx := B "aa"; rq_type := B "announce_peer"; rq_body := Some [(B "info_hash", VStr (sha1 meta1))]; rq_handler := None |} = [(B "dht", B "fetchHandler panic")].
Proof. repeat split; vm_compute; reflexivity. Qed.

(** C136: not every announcement a worker handled leaves a line: it prints nothing if the peer cannot be reached. *)
Lemma C136_every_job_is_logged_refuted_pf : exists e p h dial o x, forall txt ptxt ce we,
  snd (fetchHandler_log txt ptxt ce we e p h dial o x) = [] /\ t_dial (fst (fetchHandler_log txt ptxt ce we e p h dial o x)) = Some (B "10.0.0.7:6881").
Proof.
  exists calm0, pool0, heap0, (fun _ => None), os0, (announce0 (sha1 meta1) [], peer0). intros.
  assert (H : (do ih <- GetString (dict_of (rq_body (fst (announce0 (sha1 meta1) [], peer0)))) (B "info_hash"); do a <- parseFetchAddr (announce0 (sha1 meta1) [], peer0); Ok (ih, a)) = Ok (sha1 meta1, B "10.0.0.7:6881")) by (vm_compute; reflexivity).
  unfold fetchHandler_log. cbv zeta. rewrite H. split; reflexivity.
Qed.
