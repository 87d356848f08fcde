(** StartupPf.v -- proofs of C105 (start-up). *)
From Verif Require Import Base GoLib Bencode Types Node RouteTable Middleware Krpc KrpcSpec KrpcPf Dht DhtSpec DhtPf Conc ConcSpec ConcProofs ConcPf Config Logger TorrentCmd Sha1 BytesPool PeerWire Fetch FetchTorrent Udp System NetAddr NetAddrProofs NetAddrPf Startup StartupSpec.
Local Open Scope list_scope.

Lemma Run_total e : exists s, Run_server e = Ok s.
Proof. unfold Run_server, RegisteHandler. eexists. cbv. reflexivity. Qed.

Lemma init_total me local : exists w, crawler_init me local = Ok w /\ w_sent w = [] /\ a_tx (w_app w) = 1000%N.
Proof. eexists. split; [reflexivity|]. split; reflexivity. Qed.

(** The process with the configuration reads resolved. *)
Definition s_main (c : conf) d f l : cfg section :=
  {| cf_map := [(loggerConfigKey, SLogger l); (fetchTorrentConfigKey, SFetch f); (dhtConfigKey, SDht d)]; cf_cur := sec_of c |}.
Definition noconf (key : bytes) : proc := crash (PBiz GenericErr (B "cannot find " ++ key ++ B " config")).

Lemma process_eq v cmd : process v cmd =
  match in_force v with
  | None => match su_file v with CfMissing _ => crash (PBiz GenericErr (B "init flush config err")) | _ => crash (PBiz GenericErr (B "read config panic")) end
  | Some c =>
    emits (match su_file v with CfMissing _ => [EfConfWritten] | _ => [] end)
    match cn_dht c with None => noconf (B "dht") | Some d =>
    if negb ((0 <=? sec_port d) && (sec_port d <=? 65535))%Z then crash (PStr (B "resolve remote host err")) else
    need (crawler_init localNodeId (mkaddr [] (sec_port d))) (fun w0 =>
    if negb (su_can_listen v (sec_port d)) then crash (PStr (B "listen udp err")) else
    emit (EfListen (sec_port d))
    match cn_fetch c with None => noconf (B "fetchTorrent") | Some f =>
    need (pool_size (fc_queue f)) (fun queue =>
    match cn_logger c with None => noconf (B "logger") | Some l =>
    emit (EfLevel (TransLogLevel (su_uni v) l))
    match cmd with
    | CmdCrawl => rootExectueFunc v (s_main c d f l) w0 (sec_port d) queue
    | CmdVersion => emit (EfPrint version_text) ([], Exited)
    | CmdTorrent args => let (o, r) := torrent_run (su_fs v) args in emit (EfPrint o) ([], match r with None => Exited | Some p => Crashed p end)
    | CmdHelp text => emit (EfPrint text) ([], Exited)
    | CmdBad => crash (PBiz GenericErr (B "execute cobra cmd err"))
    end end) end) end
  end.
Proof.
  unfold process, in_force.
  assert (Hgo : forall (c : conf) pre,
    emits pre (need (DhtConfig {| cf_map := []; cf_cur := sec_of c |}) (fun '(s1, d) =>
      if negb ((0 <=? sec_port d) && (sec_port d <=? 65535))%Z then crash (PStr (B "resolve remote host err")) else
      need (crawler_init localNodeId (mkaddr [] (sec_port d))) (fun w0 =>
      if negb (su_can_listen v (sec_port d)) then crash (PStr (B "listen udp err")) else
      emit (EfListen (sec_port d)) (
      need (FetchTorrentConfig s1) (fun '(s2, f) =>
      need (pool_size (fc_queue f)) (fun queue =>
      main_run v cmd s2 w0 (sec_port d) queue)))))) =
    emits pre match cn_dht c with None => noconf (B "dht") | Some d =>
    if negb ((0 <=? sec_port d) && (sec_port d <=? 65535))%Z then crash (PStr (B "resolve remote host err")) else
    need (crawler_init localNodeId (mkaddr [] (sec_port d))) (fun w0 =>
    if negb (su_can_listen v (sec_port d)) then crash (PStr (B "listen udp err")) else
    emit (EfListen (sec_port d))
    match cn_fetch c with None => noconf (B "fetchTorrent") | Some f =>
    need (pool_size (fc_queue f)) (fun queue =>
    match cn_logger c with None => noconf (B "logger") | Some l =>
    emit (EfLevel (TransLogLevel (su_uni v) l))
    match cmd with
    | CmdCrawl => rootExectueFunc v (s_main c d f l) w0 (sec_port d) queue
    | CmdVersion => emit (EfPrint version_text) ([], Exited)
    | CmdTorrent args => let (o, r) := torrent_run (su_fs v) args in emit (EfPrint o) ([], match r with None => Exited | Some p => Crashed p end)
    | CmdHelp text => emit (EfPrint text) ([], Exited)
    | CmdBad => crash (PBiz GenericErr (B "execute cobra cmd err"))
    end end) end) end).
  { intros c pre. f_equal. unfold DhtConfig, getSubConfig. cbn [cf_map cf_cur cfg_get].
    change (sec_of c dhtConfigKey) with (sect (cn_dht c) SDht). destruct (cn_dht c) as [d|]; cbn [sect bind need]; [|reflexivity].
    destruct (negb _); [reflexivity|]. destruct (init_total localNodeId (mkaddr [] (sec_port d))) as (w & Ew & _). rewrite Ew. cbn [need].
    destruct (negb _); [reflexivity|]. f_equal. unfold FetchTorrentConfig, getSubConfig. cbn [cf_map cf_cur cfg_get].
    change (beq dhtConfigKey fetchTorrentConfigKey) with false. cbv iota.
    change (sec_of c fetchTorrentConfigKey) with (sect (cn_fetch c) SFetch). destruct (cn_fetch c) as [f|]; cbn [sect bind need]; [|reflexivity].
    destruct (pool_size (fc_queue f)) as [q|x|p]; cbn [need]; try reflexivity.
    unfold main_run, LoggerConfig, getSubConfig. cbn [cf_map cf_cur cfg_get].
    change (beq fetchTorrentConfigKey loggerConfigKey) with false. change (beq dhtConfigKey loggerConfigKey) with false. cbv iota.
    change (sec_of c loggerConfigKey) with (sect (cn_logger c) SLogger). destruct (cn_logger c) as [l|]; cbn [sect bind need]; reflexivity. }
  destruct (su_file v) as [c|[|]|]; cbn [read_of ResetConfig need cf_map]; try reflexivity; apply Hgo.
Qed.

Lemma root_eq v c d f l w0 port queue : in_force v = Some c -> rootExectueFunc v (s_main c d f l) w0 port queue =
  match named v with
  | None => crash (PBiz GenericErr (B "read config panic"))
  | Some c2 =>
    match cn_pprof c2 with None => noconf (B "pprof") | Some b =>
    emits (if b then [EfPprof] else []) (boot_hosts v (ds_nodes d) w0 (fun w => emit EfRun (
      need (pool_size (fc_pool f)) (fun fp => need (pool_size (ds_pool d)) (fun kp =>
      ([], Crawling w port {| z_krpc := kp; z_ann := queue; z_fetch := fp |})))))) end
  end.
Proof.
  intros Hc. unfold rootExectueFunc, named.
  assert (Hgo : forall c2, need (PProfConfig {| cf_map := cf_map (s_main c d f l); cf_cur := sec_of c2 |}) (fun '(s2, b) =>
     emits (if b then [EfPprof] else []) (need (DhtConfig s2) (fun '(s3, d) => boot_hosts v (ds_nodes d) w0 (fun w => emit EfRun (run_dht v s3 w port queue))))) =
     match cn_pprof c2 with None => noconf (B "pprof") | Some b =>
     emits (if b then [EfPprof] else []) (boot_hosts v (ds_nodes d) w0 (fun w => emit EfRun (
       need (pool_size (fc_pool f)) (fun fp => need (pool_size (ds_pool d)) (fun kp =>
       ([], Crawling w port {| z_krpc := kp; z_ann := queue; z_fetch := fp |})))))) end).
  { intros c2. unfold PProfConfig, getSubConfig. cbn [cf_map cf_cur s_main cfg_get].
    change (beq loggerConfigKey pprofConfigKey) with false. change (beq fetchTorrentConfigKey pprofConfigKey) with false. change (beq dhtConfigKey pprofConfigKey) with false. cbv iota.
    change (sec_of c2 pprofConfigKey) with (sect (cn_pprof c2) SPprof). destruct (cn_pprof c2) as [b|]; cbn [sect bind need]; [|reflexivity].
    reflexivity. }
  destruct (su_flag v) as [|x fl] eqn:Ef.
  - rewrite Hc. cbn [need]. rewrite <- (Hgo c). reflexivity.
  - destruct (su_named v (x :: fl)) as [c2|]; cbn [ResetConfig need]; [|reflexivity]. apply Hgo.
Qed.

(** ** BootStrap *)
Lemma boot_one e w a : env_ok e -> exists b, let w' := fst (BootStrap e localNodeId w a) in
  w_sent w' = w_sent w ++ [{| g_bytes := b; g_to := a |}] /\
  carries b (query_msg (txid_string ((a_tx (w_app w) + 1) mod 65536)) "find_node" [(B "id", VStr localNodeId); (B "target", VStr localNodeId)]) /\
  a_tx (w_app w') = ((a_tx (w_app w) + 1) mod 65536)%N /\
  snd (BootStrap e localNodeId w a) = if e_sok e (length (w_sent w)) then Ok tt else Panic (PStr (B "bootstrap findnode err")).
Proof.
  intros He. unfold BootStrap. set (tx := txid_string (a_tx (w_app (draw_tx w)))).
  set (wp := {| w_app := w_app (draw_tx w); w_reqs := mput (w_reqs (draw_tx w)) tx (find_msg localNodeId tx); w_sent := w_sent (draw_tx w); w_queries := w_queries (draw_tx w) ++ [find_msg localNodeId tx] |}).
  destruct (find_encodes e localNodeId wp tx He) as (b & Eb & Hc). exists b. cbv zeta.
  assert (EQ : Query e (draw_tx w) a (WithFindNodeMsg tx localNodeId localNodeId (Some HGenericResp)) = (fst (send e wp b a), if e_sok e (length (w_sent wp)) then Ok tt else Err EIO)).
  { unfold Query. change (WithFindNodeMsg tx localNodeId localNodeId (Some HGenericResp)) with (find_msg localNodeId tx). change (rq_tx (find_msg localNodeId tx)) with tx. fold wp. rewrite Eb. reflexivity. }
  rewrite EQ. cbn [fst snd send w_sent w_app wp]. split; [reflexivity|]. split; [exact Hc|]. split; [reflexivity|].
  change (length (w_sent (draw_tx w))) with (length (w_sent w)). destruct (e_sok e (length (w_sent w))); reflexivity.
Qed.

Definition resolved (v : surroundings) : list bytes -> list udpaddr -> Prop := Forall2 (fun n a => su_resolve v n = Some a).
Lemma emits_app a b p : emits a (emits b p) = emits (a ++ b) p.
Proof. unfold emits. cbn. rewrite app_assoc. reflexivity. Qed.
Lemma skipn_length {A} (l m : list A) : skipn (length l) (l ++ m) = m.
Proof. rewrite skipn_app, skipn_all, Nat.sub_diag. reflexivity. Qed.

Lemma boot_hosts_cases v k : (forall i, env_ok (su_env v i)) -> forall nodes w,
  (exists hosts w' gs, resolved v nodes hosts /\ (forall i, i < length hosts -> e_sok (su_env v (length (w_sent w) + i)) (length (w_sent w) + i) = true) /\
     boot (su_env v) localNodeId hosts w = Ok w' /\ w_sent w' = w_sent w ++ gs /\ boot_sent localNodeId (a_tx (w_app w)) hosts gs /\
     boot_hosts v nodes w k = emits (map EfQuery gs) (k w')) \/
  (exists l1 h l2 hosts gs p, nodes = l1 ++ h :: l2 /\ resolved v l1 hosts /\ boot_hosts v nodes w k = (map EfQuery gs, Crashed p) /\
     (su_resolve v h = None /\ p = PStr (B "bootstrap resolve host err") /\ boot_sent localNodeId (a_tx (w_app w)) hosts gs \/
      exists a, su_resolve v h = Some a /\ p = PStr (B "bootstrap findnode err") /\ boot_sent localNodeId (a_tx (w_app w)) (hosts ++ [a]) gs /\
        e_sok (su_env v (length (w_sent w) + length l1)) (length (w_sent w) + length l1) = false)).
Proof.
  intros He. induction nodes as [|h t IH]; intros w; cbn [boot_hosts].
  - left. exists [], w, []. split; [constructor|]. split; [cbn; lia|]. split; [reflexivity|]. split; [rewrite app_nil_r; reflexivity|]. split; [constructor|]. destruct (k w). reflexivity.
  - destruct (su_resolve v h) as [a|] eqn:Er.
    2: { right. exists [], h, t, [], [], (PStr (B "bootstrap resolve host err")). split; [reflexivity|]. split; [constructor|]. split; [reflexivity|]. left. split; [exact Er|]. split; [reflexivity|constructor]. }
    destruct (boot_one (su_env v (length (w_sent w))) w a (He _)) as (b & Hb). cbv zeta in Hb. cbn [boot].
    destruct (BootStrap (su_env v (length (w_sent w))) localNodeId w a) as [w1 r] eqn:Eb1. cbn [fst snd] in Hb. destruct Hb as (Hs & Hc & Htx & Hr).
    rewrite Hs, skipn_length. set (g := {| g_bytes := b; g_to := a |}) in *. cbn [map].
    assert (Hlen : length (w_sent w1) = S (length (w_sent w))) by (rewrite Hs, app_length; cbn; lia).
    destruct (e_sok (su_env v (length (w_sent w))) (length (w_sent w))) eqn:Eok; subst r; cbn [need].
    + destruct (IH w1) as [(hosts & w' & gs & H1 & H2 & H3 & H4 & H5 & H6)|(l1 & h' & l2 & hosts & gs & p & H1 & H2 & H3 & H4)].
      * left. exists (a :: hosts), w', (g :: gs). split; [constructor; assumption|]. split.
        { intros [|i] Hi; [rewrite Nat.add_0_r; exact Eok|]. cbn in Hi. specialize (H2 i ltac:(lia)). rewrite Hlen in H2. replace (length (w_sent w) + S i) with (S (length (w_sent w)) + i) by lia. exact H2. }
        split; [cbn [boot]; rewrite Eb1; exact H3|]. split; [rewrite H4, Hs, <- app_assoc; reflexivity|]. split; [|rewrite H6, emits_app; reflexivity].
        econstructor; [reflexivity|exact Hc|]. rewrite Htx in H5. exact H5.
      * right. exists (h :: l1), h', l2, (a :: hosts), (g :: gs), p. split; [rewrite H1; reflexivity|]. split; [constructor; assumption|]. split; [rewrite H3; reflexivity|].
        destruct H4 as [(H4 & H5 & H6)|(a' & H4 & H5 & H6 & H7)].
        -- left. split; [exact H4|]. split; [exact H5|]. econstructor; [reflexivity|exact Hc|]. rewrite Htx in H6. exact H6.
        -- right. exists a'. split; [exact H4|]. split; [exact H5|]. split.
           ++ cbn [app]. econstructor; [reflexivity|exact Hc|]. rewrite Htx in H6. exact H6.
           ++ rewrite Hlen in H7. cbn [length]. replace (length (w_sent w) + S (length l1)) with (S (length (w_sent w)) + length l1) by lia. exact H7.
    + right. exists [], h, t, [], [g], (PStr (B "bootstrap findnode err")). split; [reflexivity|]. split; [constructor|]. split; [reflexivity|]. right. exists a. split; [exact Er|]. split; [reflexivity|].
      split; [|rewrite Nat.add_0_r; exact Eok]. econstructor; [reflexivity|exact Hc|constructor].
Qed.

Lemma resolved_len v l hosts : resolved v l hosts -> length l = length hosts.
Proof. induction 1; cbn; congruence. Qed.
Lemma boot_sent_len me tx hosts gs : boot_sent me tx hosts gs -> length gs = length hosts.
Proof. induction 1; cbn; lia. Qed.
Lemma queries_app a b : queries (a ++ b) = queries a ++ queries b.
Proof. apply flat_map_app. Qed.
Lemma queries_map gs : queries (map EfQuery gs) = gs.
Proof. induction gs as [|g gs IH]; [reflexivity|]. cbn. f_equal. exact IH. Qed.
Lemma pool_cases n : (0 <= n)%Z /\ pool_size n = Ok (Z.to_nat n) \/ (n < 0)%Z /\ pool_size n = Panic PRuntime.
Proof. unfold pool_size. destruct (n <? 0)%Z eqn:E; [right|left]; split; auto; lia. Qed.

(** The effects before the crawler's own work. *)
Definition prelude (v : surroundings) (port lvl : Z) : list eff :=
  (match su_file v with CfMissing _ => [EfConfWritten] | _ => [] end) ++ [EfListen port; EfLevel lvl].

(** What CmdCrawl does once package initialisation and main.go succeeded. *)
Lemma crawl_init v d f lvl : initialises v d f lvl -> exists w0, crawler_init localNodeId (mkaddr [] (sec_port d)) = Ok w0 /\ w_sent w0 = [] /\ a_tx (w_app w0) = 1000%N /\
  exists c, in_force v = Some c /\ forall cmd, process v cmd = emits (prelude v (sec_port d) (TransLogLevel (su_uni v) lvl))
    match cmd with
    | CmdCrawl => rootExectueFunc v (s_main c d f lvl) w0 (sec_port d) (Z.to_nat (fc_queue f))
    | CmdVersion => emit (EfPrint version_text) ([], Exited)
    | CmdTorrent args => let (o, r) := torrent_run (su_fs v) args in emit (EfPrint o) ([], match r with None => Exited | Some p => Crashed p end)
    | CmdHelp text => emit (EfPrint text) ([], Exited)
    | CmdBad => crash (PBiz GenericErr (B "execute cobra cmd err"))
    end.
Proof.
  intros [(c & Hc & Hd & Hf & Hl) (Hp & Hlis) Hq]. destruct (init_total localNodeId (mkaddr [] (sec_port d))) as (w0 & Ew & H1 & H2). exists w0.
  split; [exact Ew|]. split; [exact H1|]. split; [exact H2|]. exists c. split; [exact Hc|]. intros cmd. rewrite process_eq, Hc, Hd, Ew, Hlis, Hf, Hl. cbn [need negb].
  replace ((0 <=? sec_port d)%Z && (sec_port d <=? 65535)%Z) with true by (symmetry; apply andb_true_iff; lia). cbn [negb].
  destruct (pool_cases (fc_queue f)) as [[_ ->]|[Hn _]]; [|lia]. cbn [need]. unfold prelude. rewrite <- emits_app. reflexivity.
Qed.

(** A process that prints, queries or runs has initialised. *)
Lemma no_init v cmd : (exists d f lvl, initialises v d f lvl) \/ exists l p, process v cmd = (l, Crashed p) /\ incl l [EfConfWritten; EfListen (match in_force v with Some c => match cn_dht c with Some d => sec_port d | None => 0%Z end | None => 0%Z end)] /\
  (forall port, In (EfListen port) l -> su_can_listen v port = true).
Proof.
  rewrite process_eq. destruct (in_force v) as [c|] eqn:Hc.
  2: { right. destruct (su_file v); eexists [], _; (split; [reflexivity|]; split; [intros x []|intros port []]). }
  destruct (cn_dht c) as [d|] eqn:Hd.
  2: { right. eexists _, _. split; [reflexivity|]. cbn [fst]. rewrite app_nil_r. split; [|intros port]; destruct (su_file v) as [|[]|]; intros H; cbn in *; intuition (try discriminate; auto). }
  destruct ((0 <=? sec_port d)%Z && (sec_port d <=? 65535)%Z) eqn:Hp; cbn [negb].
  2: { right. eexists _, _. split; [reflexivity|]. cbn [fst crash]. rewrite app_nil_r. split; [|intros port]; destruct (su_file v) as [|[]|]; intros H; cbn in *; intuition (try discriminate; auto). }
  destruct (init_total localNodeId (mkaddr [] (sec_port d))) as (w0 & Ew & _). rewrite Ew. cbn [need].
  destruct (su_can_listen v (sec_port d)) eqn:Hl; cbn [negb].
  2: { right. eexists _, _. split; [reflexivity|]. cbn [fst crash]. rewrite app_nil_r. split; [|intros port]; destruct (su_file v) as [|[]|]; intros H; cbn in *; intuition (try discriminate; auto). }
  assert (Hfin : forall p, exists l q, emits (match su_file v with CfMissing _ => [EfConfWritten] | _ => [] end) (emit (EfListen (sec_port d)) (crash p)) = (l, Crashed q) /\ incl l [EfConfWritten; EfListen (sec_port d)] /\ (forall port, In (EfListen port) l -> su_can_listen v port = true)).
  { intros p. eexists _, _. split; [reflexivity|]. cbn [fst crash emit]. split; [|intros port]; destruct (su_file v) as [|[]|]; intros H; cbn in *; intuition (try congruence). }
  destruct (cn_fetch c) as [f|] eqn:Hf; [|right; apply Hfin].
  destruct (pool_cases (fc_queue f)) as [[Hq ->]|[_ ->]]; cbn [need]; [|right; apply Hfin].
  destruct (cn_logger c) as [l|] eqn:Hlg; [|right; apply Hfin].
  left. exists d, f, l. split; [exists c; auto|split; [lia|exact Hl]|exact Hq].
Qed.

Lemma started_iff v : (forall i, env_ok (su_env v i)) -> forall effs w port z, process v CmdCrawl = (effs, Crawling w port z) ->
  exists d f lvl pp hosts gs w0, initialises v d f lvl /\ boots v d f pp hosts /\ port = sec_port d /\
    z = {| z_krpc := Z.to_nat (ds_pool d); z_ann := Z.to_nat (fc_queue f); z_fetch := Z.to_nat (fc_pool f) |} /\
    crawler_init localNodeId (mkaddr [] port) = Ok w0 /\ boot (su_env v) localNodeId hosts w0 = Ok w /\
    w_sent w = gs /\ boot_sent localNodeId 1000 hosts gs /\
    effs = prelude v port (TransLogLevel (su_uni v) lvl) ++ (if pp then [EfPprof] else []) ++ map EfQuery gs ++ [EfRun].
Proof.
  intros He effs w port z E. destruct (no_init v CmdCrawl) as [(d & f & lvl & Hi)|(l & p & Hp & _)]; [|congruence].
  destruct (crawl_init _ _ _ _ Hi) as (w0 & Ew & Hs & Ht & c & Hc & Hproc). rewrite Hproc, (root_eq _ _ _ _ _ _ _ _ Hc) in E.
  destruct (named v) as [c2|] eqn:Hn; [|discriminate]. destruct (cn_pprof c2) as [pp|] eqn:Hpp; [|discriminate].
  match type of E with context [boot_hosts v (ds_nodes d) w0 ?k] => destruct (boot_hosts_cases v k He (ds_nodes d) w0) as [(hosts & w' & gs & H1 & H2 & H3 & H4 & H5 & H6)|(l1 & h & l2 & hosts & gs & p & H1 & H2 & H3 & H4)] end.
  2: { rewrite H3 in E. discriminate. }
  rewrite H6 in E. destruct (pool_cases (fc_pool f)) as [[Hfp Ef]|[_ Ef]]; rewrite Ef in E; [|discriminate]. destruct (pool_cases (ds_pool d)) as [[Hkp Ek]|[_ Ek]]; rewrite Ek in E; [|discriminate].
  cbn [need emits emit fst snd] in E. injection E as E1 E2 E3 E4. subst w' port z. rewrite Hs in H4. rewrite Ht in H5. exists d, f, lvl, pp, hosts, gs, w0.
  split; [exact Hi|]. split; [split; [exists c2; auto|exact H1|intros i Hi'; specialize (H2 i Hi'); rewrite Hs in H2; exact H2|auto]|].
  split; [reflexivity|]. split; [reflexivity|]. split; [exact Ew|]. split; [exact H3|]. split; [exact H4|]. split; [exact H5|]. symmetry. exact E1.
Qed.

(** C105: the crawler starts exactly if the configuration in ./conf (or the defaults, written there) can be read, its port
    is valid and free, its sizes are not negative, the file named with --config can be read, and every
    bootstrap host can be resolved and be sent a packet. *)
Lemma C105_starts_iff_pf : forall v uf, runtime_ok (su_env v) uf ->
  ((exists effs w port z, process v CmdCrawl = (effs, Crawling w port z)) <->
   exists d f lvl pp hosts, initialises v d f lvl /\ boots v d f pp hosts).
Proof.
  intros v uf Hrt. assert (He : forall i, env_ok (su_env v i)) by (intros i; apply Hrt). split.
  - intros (effs & w & port & z & E). destruct (started_iff v He _ _ _ _ E) as (d & f & lvl & pp & hosts & gs & w0 & H1 & H2 & _). exists d, f, lvl, pp, hosts. auto.
  - intros (d & f & lvl & pp & hosts & Hi & [(c2 & Hn & Hpp) Hh Hok [Hkp Hfp]]). destruct (crawl_init _ _ _ _ Hi) as (w0 & Ew & Hs & Ht & c & Hc & Hproc).
    rewrite Hproc, (root_eq _ _ _ _ _ _ _ _ Hc), Hn, Hpp.
    match goal with |- context [boot_hosts v (ds_nodes d) w0 ?k] => destruct (boot_hosts_cases v k He (ds_nodes d) w0) as [(hosts' & w' & gs & H1 & H2 & H3 & H4 & H5 & H6)|(l1 & h & l2 & hosts' & gs & p & H1 & H2 & H3 & H4)] end.
    + rewrite H6. destruct (pool_cases (fc_pool f)) as [[_ ->]|[? _]]; [|lia]. destruct (pool_cases (ds_pool d)) as [[_ ->]|[? _]]; [|lia]. eexists _, _, _, _. reflexivity.
    + exfalso. rewrite H1 in Hh. apply Forall2_app_inv_l in Hh. destruct Hh as (k1 & k2 & Hk1 & Hk2 & ->). inversion Hk2 as [|? a ? k3 Ha Hk3]; subst.
      destruct H4 as [(H4 & _)|(a' & H4 & _ & _ & H7)]; [congruence|]. rewrite Hs in H7. cbn [length Nat.add] in H7.
      assert (Hl : length l1 < length (k1 ++ a :: k3)) by (rewrite app_length, <- (resolved_len _ _ _ Hk1); cbn; lia). specialize (Hok _ Hl). congruence.
Qed.

(** C105: a crawler that started has, in this order: written the default configuration if there was none, opened its
    port, set the log level, started the debug server if configured, sent one find_node query for its own id to
    each bootstrap host in the order of the configuration with transaction ids 1001, 1002, ..., and started to
    run - in the initial state of the whole-process model, with the sizes of the configuration. *)
Lemma C105_started_pf : forall v uf effs w port z, runtime_ok (su_env v) uf -> process v CmdCrawl = (effs, Crawling w port z) ->
  exists d f lvl pp hosts gs, initialises v d f lvl /\ boots v d f pp hosts /\ port = sec_port d /\
    z_krpc z = Z.to_nat (ds_pool d) /\ z_ann z = Z.to_nat (fc_queue f) /\ z_fetch z = Z.to_nat (fc_pool f) /\
    boot_sent localNodeId 1000 hosts gs /\
    effs = (match su_file v with CfMissing _ => [EfConfWritten] | _ => [] end) ++ [EfListen port; EfLevel (TransLogLevel (su_uni v) lvl)] ++
           (if pp then [EfPprof] else []) ++ map EfQuery gs ++ [EfRun] /\
    forall d0, sys_reach (su_env v) localNodeId (mkaddr [] port) hosts z d0 (sys_init {| k_world := w; k_jobs := []; k_next := 0; k_taken := []; k_log := [] |} d0).
Proof.
  intros v uf effs w port z Hrt E. destruct (started_iff v (fun i => proj1 (Hrt i)) _ _ _ _ E) as (d & f & lvl & pp & hosts & gs & w0 & H1 & H2 & H3 & H4 & H5 & H6 & H7 & H8 & H9).
  exists d, f, lvl, pp, hosts, gs. subst z. cbn [z_krpc z_ann z_fetch]. split; [exact H1|]. split; [exact H2|]. split; [exact H3|]. split; [reflexivity|]. split; [reflexivity|]. split; [reflexivity|].
  split; [exact H8|]. split; [rewrite H9; unfold prelude; rewrite <- app_assoc; reflexivity|]. intros d0. econstructor; eassumption.
Qed.

(** C105: if one bootstrap host cannot be resolved, the crawler does not start: the process crashes, at most the hosts
    before it have been sent a query, nobody after it, and nothing has run. *)
Lemma C105_bad_host_pf : forall v uf l1 h l2, runtime_ok (su_env v) uf -> hosts_configured v (l1 ++ h :: l2) -> su_resolve v h = None ->
  (exists p, snd (process v CmdCrawl) = Crashed p) /\ length (queries (fst (process v CmdCrawl))) <= length l1 /\ ~ In EfRun (fst (process v CmdCrawl)).
Proof.
  intros v uf l1 h l2 Hrt (c & d & Hc & Hd & Hn) Hr. assert (He : forall i, env_ok (su_env v i)) by (intros i; apply Hrt).
  destruct (no_init v CmdCrawl) as [(d' & f & lvl & Hi)|(l & p & Hp & Hl & _)].
  2: { rewrite Hp. cbn [fst snd]. split; [eexists; reflexivity|]. rewrite Hc, Hd in Hl. split.
       - assert (Hq : queries l = []); [|rewrite Hq; cbn; lia]. destruct (queries l) as [|g gs] eqn:Eq; [reflexivity|]. exfalso.
         assert (Hin : In g (queries l)) by (rewrite Eq; left; reflexivity). apply in_flat_map in Hin. destruct Hin as (x & Hx & Hg). apply Hl in Hx. destruct Hx as [<-|[<-|[]]]; destruct Hg.
       - intros H. apply Hl in H. destruct H as [H|[H|[]]]; discriminate. }
  destruct (crawl_init _ _ _ _ Hi) as (w0 & Ew & Hs & Ht & c' & Hc' & Hproc). assert (c' = c) by congruence. subst c'.
  destruct Hi as [(c' & Hc'' & Hd' & _) _ _]. assert (c' = c) by congruence. subst c'. assert (d' = d) by congruence. subst d'.
  rewrite Hproc, (root_eq _ _ _ _ _ _ _ _ Hc).
  assert (Hpre : queries (prelude v (sec_port d) (TransLogLevel (su_uni v) lvl)) = [] /\ ~ In EfRun (prelude v (sec_port d) (TransLogLevel (su_uni v) lvl))).
  { unfold prelude. split; [destruct (su_file v) as [|[]|]; reflexivity|]. intros H. destruct (su_file v) as [|[]|]; cbn in H; intuition discriminate. }
  destruct Hpre as [Hp1 Hp2]. set (pre := prelude _ _ _) in *.
  assert (Hcr : forall p, (exists q, snd (emits pre (crash p)) = Crashed q) /\ length (queries (fst (emits pre (crash p)))) <= length l1 /\ ~ In EfRun (fst (emits pre (crash p)))).
  { intros p. cbn [emits crash fst snd]. rewrite app_nil_r, Hp1. split; [eexists; reflexivity|]. split; [cbn; lia|exact Hp2]. }
  destruct (named v) as [c2|]; [|apply Hcr]. destruct (cn_pprof c2) as [pp|]; [|apply Hcr].
  match goal with |- context [boot_hosts v (ds_nodes d) w0 ?k] => destruct (boot_hosts_cases v k He (ds_nodes d) w0) as [(hosts & w' & gs & H1 & _)|(m1 & h' & m2 & hosts & gs & p & H1 & H2 & H3 & H4)] end.
  - exfalso. rewrite Hn in H1. apply Forall2_app_inv_l in H1. destruct H1 as (k1 & k2 & _ & Hk2 & _). inversion Hk2; subst. congruence.
  - rewrite H3, emits_app. cbn [emits fst snd]. split; [eexists; reflexivity|].
    assert (Hle : length gs <= length l1).
    { rewrite Hn in H1. assert (Hm : length m1 <= length l1).
      { destruct (le_lt_dec (length m1) (length l1)) as [Hm|Hm]; [exact Hm|exfalso]. assert (Hnth : nth_error m1 (length l1) = Some h).
        { rewrite <- (nth_error_app1 m1 (h' :: m2) Hm), <- H1, nth_error_app2 by lia. rewrite Nat.sub_diag. reflexivity. }
        apply nth_error_In in Hnth. clear -Hnth H2 Hr. induction H2; [destruct Hnth|]. destruct Hnth as [->|Hnth]; [congruence|auto]. }
      pose proof (resolved_len _ _ _ H2) as Hlen. destruct H4 as [(_ & _ & H4)|(a & H4 & _ & H5 & _)].
      - apply boot_sent_len in H4. lia.
      - apply boot_sent_len in H5. rewrite app_length in H5. cbn in H5. assert (length m1 <> length l1); [|lia]. intros El.
        assert (Hh : nth_error (l1 ++ h :: l2) (length l1) = nth_error (m1 ++ h' :: m2) (length m1)) by (rewrite H1, El; reflexivity).
        rewrite !nth_error_app2, !Nat.sub_diag in Hh by lia. cbn in Hh. congruence. }
    split.
    + rewrite !queries_app, queries_map, Hp1. replace (queries (if pp then [EfPprof] else [])) with (@nil datagram) by (destruct pp; reflexivity). exact Hle.
    + intros H. rewrite !in_app_iff in H. destruct H as [[H|H]|H]; [contradiction|destruct pp; cbn in H; intuition discriminate|]. apply in_map_iff in H. destruct H as (x & Hx & _). discriminate.
Qed.

(** Splitting an effect list at its first port. *)
Definition port_first (l : list eff) : Prop := forall l1 x l2, l = l1 ++ x :: l2 -> x = EfConfWritten \/ (exists p, x = EfListen p) \/ exists p, In (EfListen p) l1.
Lemma port_first_listen pre p l : incl pre [EfConfWritten] -> port_first (pre ++ EfListen p :: l).
Proof.
  intros Hp l1 x l2 E. revert l1 E. induction pre as [|y pre IH]; intros [|z l1] E; cbn in E; injection E as E1 E2.
  - subst x. right. left. eexists. reflexivity.
  - subst z. right. right. exists p. left. reflexivity.
  - subst y. destruct (Hp x (or_introl eq_refl)) as [->|[]]. left. reflexivity.
  - destruct (IH (fun a Ha => Hp a (or_intror Ha)) _ E2) as [H|[H|(q & H)]]; [auto|auto|]. right. right. exists q. right. exact H.
Qed.
Lemma port_first_short l p : incl l [EfConfWritten; EfListen p] -> port_first l.
Proof. intros H l1 x l2 ->. destruct (H x (in_elt x l1 l2)) as [<-|[<-|[]]]; [left|right; left; exists p]; reflexivity. Qed.

(** C105: every command - also version, torrent and wrong ones - opens the UDP port before it does anything else
    that can be seen, except that it writes the default configuration when there is none. *)
Lemma C105_port_first_pf : forall v cmd l1 x l2, fst (process v cmd) = l1 ++ x :: l2 ->
  x = EfConfWritten \/ (exists p, x = EfListen p) \/ exists p, In (EfListen p) l1.
Proof.
  intros v cmd. change (port_first (fst (process v cmd))). destruct (no_init v cmd) as [(d & f & lvl & Hi)|(l & p & Hp & Hl & _)].
  - destruct (crawl_init _ _ _ _ Hi) as (w0 & _ & _ & _ & c & _ & Hproc). rewrite Hproc. cbn [emits fst]. unfold prelude. rewrite <- app_assoc. apply port_first_listen.
    destruct (su_file v) as [|[]|]; intros y Hy; cbn in *; tauto.
  - rewrite Hp. eapply port_first_short. exact Hl.
Qed.

(** C105: while a crawler runs (on a fixed port), no command works with the same configuration: it crashes without
    having printed or sent anything. *)
Lemma C105_one_process_pf : forall v effs w port z v' cmd, process v CmdCrawl = (effs, Crawling w port z) ->
  in_force v' = in_force v -> su_can_listen v' port = false ->
  snd (process v' cmd) = Crashed (PStr (B "listen udp err")) /\ incl (fst (process v' cmd)) [EfConfWritten].
Proof.
  intros v effs w port z v' cmd E Hf Hl. destruct (no_init v CmdCrawl) as [(d & f & lvl & Hi)|(l & p & Hp & _)]; [|congruence].
  destruct (crawl_init _ _ _ _ Hi) as (w0 & _ & _ & _ & c & Hc & Hproc). rewrite Hproc in E.
  assert (Hport : port = sec_port d).
  { rewrite (root_eq _ _ _ _ _ _ _ _ Hc) in E. destruct (named v) as [c2|]; [|discriminate]. destruct (cn_pprof c2) as [b|]; [|discriminate].
    set (kk := fun w : cworld => emit EfRun _) in E. assert (Hk : forall nodes w1, (exists w2, snd (boot_hosts v nodes w1 kk) = snd (kk w2)) \/ exists p, snd (boot_hosts v nodes w1 kk) = Crashed p).
    { induction nodes as [|h t IH]; intros w1; cbn [boot_hosts]; [left; eexists; reflexivity|]. destruct (su_resolve v h) as [a|]; [|right; eexists; reflexivity].
      destruct (BootStrap _ _ _ _) as [w2 r]. destruct r; cbn [need emits snd]; [apply IH|right; eexists; reflexivity|right; eexists; reflexivity]. }
    apply (f_equal snd) in E. cbn [snd emits] in E. destruct (Hk (ds_nodes d) w0) as [(w2 & H)|(p & H)]; rewrite H in E; [|discriminate].
    unfold kk in E. destruct (pool_size (fc_pool f)); cbn [need emit crash snd] in E; try discriminate. destruct (pool_size (ds_pool d)); cbn [need emit crash snd] in E; try discriminate. congruence. }
  subst port. destruct Hi as [(c' & Hc' & Hd & _) (Hp & _) _]. rewrite process_eq, Hf, Hc', Hd.
  replace ((0 <=? sec_port d)%Z && (sec_port d <=? 65535)%Z) with true by (symmetry; apply andb_true_iff; lia). cbn [negb].
  destruct (init_total localNodeId (mkaddr [] (sec_port d))) as (w1 & Ew & _). rewrite Ew. cbn [need]. rewrite Hl. cbn [negb emits crash fst snd]. split; [reflexivity|].
  rewrite app_nil_r. destruct (su_file v') as [|[]|]; intros y Hy; cbn in *; tauto.
Qed.

(** C105: the other commands, when the port is free: version prints the version, torrent prints what C80 says and
    ends as it does; both have opened the port; neither sends a packet; a wrong command line crashes. *)
Lemma C105_other_commands_pf : forall v d f lvl, initialises v d f lvl ->
  (printed (fst (process v CmdVersion)) = B "p2pcrlawer version 0.1.0" ++ [byte_of 13; byte_of 10] /\ snd (process v CmdVersion) = Exited) /\
  (forall args, printed (fst (process v (CmdTorrent args))) = fst (torrent_run (su_fs v) args) /\
     (snd (process v (CmdTorrent args)) = Exited <-> snd (torrent_run (su_fs v) args) = None)) /\
  (exists p, snd (process v CmdBad) = Crashed p) /\
  (forall cmd, cmd <> CmdCrawl -> queries (fst (process v cmd)) = [] /\ ~ In EfRun (fst (process v cmd)) /\ In (EfListen (sec_port d)) (fst (process v cmd))).
Proof.
  intros v d f lvl Hi. destruct (crawl_init _ _ _ _ Hi) as (w0 & _ & _ & _ & c & _ & Hproc).
  assert (Hpre : queries (prelude v (sec_port d) (TransLogLevel (su_uni v) lvl)) = [] /\ printed (prelude v (sec_port d) (TransLogLevel (su_uni v) lvl)) = [] /\
    ~ In EfRun (prelude v (sec_port d) (TransLogLevel (su_uni v) lvl)) /\ In (EfListen (sec_port d)) (prelude v (sec_port d) (TransLogLevel (su_uni v) lvl))).
  { unfold prelude. split; [destruct (su_file v) as [|[]|]; reflexivity|]. split; [destruct (su_file v) as [|[]|]; reflexivity|].
    split; [|apply in_app_iff; right; left; reflexivity]. intros H. destruct (su_file v) as [|[]|]; cbn in H; intuition discriminate. }
  destruct Hpre as (Hq & Hp & Hr & Hl). set (pre := prelude _ _ _) in *.
  assert (Hpr : forall l, printed (pre ++ l) = printed l) by (intros l; unfold printed; rewrite flat_map_app; fold (printed pre); rewrite Hp; reflexivity).
  split; [|split; [|split]].
  - rewrite Hproc. cbn [emits emit fst snd]. rewrite Hpr. split; reflexivity.
  - intros args. rewrite Hproc. destruct (torrent_run (su_fs v) args) as [o [p|]]; cbn [emits emit fst snd]; rewrite Hpr; (split; [cbn; apply app_nil_r|]); split; congruence.
  - rewrite Hproc. eexists. reflexivity.
  - intros cmd Hc. rewrite Hproc. destruct cmd as [| |args|text|]; [elim Hc; reflexivity| | | |].
    + cbn [emits emit fst snd]. rewrite queries_app, Hq. split; [reflexivity|]. split; rewrite in_app_iff; [|left; exact Hl]. intros [H|[H|[]]]; [contradiction|discriminate].
    + destruct (torrent_run (su_fs v) args) as [o r]. cbn [emits emit fst snd]. rewrite queries_app, Hq. split; [reflexivity|]. split; rewrite in_app_iff; [|left; exact Hl]. intros [H|[H|[]]]; [contradiction|discriminate].
    + cbn [emits emit fst snd]. rewrite queries_app, Hq. split; [reflexivity|]. split; rewrite in_app_iff; [|left; exact Hl]. intros [H|[H|[]]]; [contradiction|discriminate].
    + cbn [emits crash fst snd]. rewrite app_nil_r. auto.
Qed.

Lemma boot_sent_in me : forall hosts tx gs g, boot_sent me tx hosts gs -> In g gs -> exists tx', carries (g_bytes g) (query_msg tx' "find_node" [(B "id", VStr me); (B "target", VStr me)]).
Proof. intros hosts tx gs g H. induction H as [|tx h hs g' gs Hto Hc Hb IH]; [intros []|]. intros [<-|Hin]; [eexists; exact Hc|auto]. Qed.

(** C105: all crawlers claim the same node id: there is one 20-byte id which every process, wherever and however it is
    started, puts into all of its bootstrap queries, as its own id and as the id it looks for. *)
Lemma C105_same_id_pf : exists id, length id = 20 /\ forall v uf cmd, runtime_ok (su_env v) uf -> forall g, In g (queries (fst (process v cmd))) ->
  exists tx, carries (g_bytes g) (query_msg tx "find_node" [(B "id", VStr id); (B "target", VStr id)]).
Proof.
  exists localNodeId. split; [apply sha1_length|]. intros v uf cmd Hrt g Hg. assert (He : forall i, env_ok (su_env v i)) by (intros i; apply Hrt).
  destruct (no_init v cmd) as [(d & f & lvl & Hi)|(l & p & Hp & Hl & _)].
  2: { exfalso. rewrite Hp in Hg. cbn [fst] in Hg. apply in_flat_map in Hg. destruct Hg as (x & Hx & Hg). apply Hl in Hx. destruct Hx as [<-|[<-|[]]]; destruct Hg. }
  destruct (C105_other_commands_pf _ _ _ _ Hi) as (_ & _ & _ & Hoth). destruct (crawl_init _ _ _ _ Hi) as (w0 & Ew & Hs & Ht & c & Hc & Hproc).
  assert (Hcmd : cmd = CmdCrawl) by (destruct cmd; try reflexivity; exfalso; match type of Hg with context [process v ?k] => rewrite (proj1 (Hoth k ltac:(discriminate))) in Hg end; destruct Hg).
  subst cmd.
  rewrite Hproc, (root_eq _ _ _ _ _ _ _ _ Hc) in Hg. cbn [emits fst] in Hg. rewrite queries_app in Hg.
  assert (Hq : queries (prelude v (sec_port d) (TransLogLevel (su_uni v) lvl)) = []) by (unfold prelude; destruct (su_file v) as [|[]|]; reflexivity). rewrite Hq in Hg. cbn [app] in Hg.
  destruct (named v) as [c2|]; [|destruct Hg]. destruct (cn_pprof c2) as [pp|]; [|destruct Hg]. cbn [emits fst] in Hg. rewrite queries_app in Hg.
  replace (queries (if pp then [EfPprof] else [])) with (@nil datagram) in Hg by (destruct pp; reflexivity). cbn [app] in Hg.
  match type of Hg with context [boot_hosts v (ds_nodes d) w0 ?k] => destruct (boot_hosts_cases v k He (ds_nodes d) w0) as [(hosts & w' & gs & H1 & H2 & H3 & H4 & H5 & H6)|(l1 & h & l2 & hosts & gs & p & H1 & H2 & H3 & H4)] end.
  - rewrite H6 in Hg. cbn [emits fst] in Hg. rewrite queries_app, queries_map in Hg. apply in_app_iff in Hg. destruct Hg as [Hg|Hg]; [eapply boot_sent_in; eassumption|exfalso].
    destruct (pool_size (fc_pool f)); cbn [need emit crash fst queries flat_map app] in Hg; try contradiction. destruct (pool_size (ds_pool d)); cbn in Hg; contradiction.
  - rewrite H3 in Hg. cbn [fst] in Hg. rewrite queries_map in Hg. destruct H4 as [(_ & _ & H4)|(a & _ & _ & H4 & _)]; eapply boot_sent_in; eassumption.
Qed.

(** ** A crawler configured with no KRPC workers *)
Lemma zero_inv e me local hosts z d0 s : z_krpc z = 0 -> sys_reach e me local hosts z d0 s -> y_pool s = [] /\ k_jobs (y_core s) = [] /\ k_log (y_core s) = [] /\ length (y_q s) <= RecvChanLen.
Proof.
  intros Hz Hr. induction Hr as [w0 w Hi Hb|s s' Hr (IH1 & IH2 & IH3 & IH4) Hst]; [cbn; repeat split; auto; lia|].
  destruct Hst as [d Hd Hrc|pk Hd Hrc Hq|pk q Hd Hl Hq|pk Hd Hl Hp|pk p Hd Hp Hj|c Hd Hc|x q Hd Hf Hq|x Hd Hf Hq|x p Hd Hp Hb|l1 x l2 fe p h dial o r Hd Hl Er Hx|l1 x l2 fe p h dial o Hd Hl Hx|l1 u l2 op ops Hd Hu Ho|l1 u l2 Hd Hu Ho Hb Ht];
    cbn [set_in set_out kill y_pool y_core y_q k_jobs k_log core_take]; try (repeat split; assumption).
  - rewrite app_length. cbn. repeat split; auto. lia.
  - rewrite Hq in IH4. cbn in IH4. repeat split; auto. lia.
  - lia.
  - lia.
  - destruct Hc as [k l1 i pk pc l2 w' pc' evs E Hs|l1 i pk l2 E]; rewrite IH2 in E; destruct l1; discriminate.
Qed.

(** C105 refuted, "a configuration with which the crawler starts lets it work": with WorkPoolSize 0 it starts like any
    other, but whatever is sent to it and however it is scheduled, no packet is ever handled and nothing is ever sent
    after the bootstrap queries. *)
Lemma C105_zero_workers_refuted_pf : exists v effs w port z, process v CmdCrawl = (effs, Crawling w port z) /\ length (queries effs) = 1 /\
  forall e me local hosts d0 s, sys_reach e me local hosts z d0 s -> k_jobs (y_core s) = [] /\ k_log (y_core s) = [].
Proof.
  set (c := {| cn_dht := Some {| ds_port := 21000; ds_pool := 0; ds_nodes := [B "a"] |}; cn_fetch := Some {| fc_queue := 10; fc_pool := 5 |}; cn_pprof := Some false; cn_logger := Some (B "info") |}).
  exists {| su_file := CfOk c; su_flag := B "f"; su_named := fun _ => Some c; su_can_listen := fun _ => true; su_resolve := fun _ => Some (mkaddr (B "1234") 6881); su_env := fun _ => ex_env; su_uni := fun s => s;
    su_fs := {| f_isdir := fun _ => false; f_readdir := fun _ => None; f_read := fun _ => FrOpenErr; f_join := fun a b => a ++ b |} |}.
  match goal with |- exists _ _ _ _, process ?V _ = _ /\ _ => set (v := V) end.
  assert (Hrt : runtime_ok (su_env v) (fun _ _ => false)) by (intros k; split; [exact ex_env_ok|reflexivity]).
  assert (Hst : exists effs w port z, process v CmdCrawl = (effs, Crawling w port z)).
  { apply (C105_starts_iff_pf v _ Hrt). do 4 eexists. exists [mkaddr (B "1234") 6881]. split.
    - split; [exists c; repeat split|split; [vm_compute; split; discriminate|reflexivity]|cbn; lia].
    - split; [exists c; split; reflexivity|repeat constructor|intros i _; reflexivity|cbn; lia]. }
  destruct Hst as (effs & w & port & z & E). exists effs, w, port, z. split; [exact E|].
  destruct (C105_started_pf v _ _ _ _ _ Hrt E) as (d & f & lvl & pp & hosts & gs & [(c' & Hc & Hd & Hf & _) _ _] & [_ Hh _ _] & _ & Hz & _ & _ & Hb & He & _).
  cbn in Hc. injection Hc as <-. cbn in Hd, Hf. injection Hd as <-. injection Hf as <-. split.
  - rewrite He, !queries_app, queries_map. cbn in Hh. inversion Hh as [|? ? ? ? _ Hh2]; subst. inversion Hh2; subst. apply boot_sent_len in Hb. destruct pp; cbn; rewrite app_length, Hb; reflexivity.
  - intros e me local hosts' d0 s Hr. destruct (zero_inv e me local hosts' z d0 s Hz Hr) as (_ & H1 & H2 & _). auto.
Qed.

(** C105 refuted, "the other commands can be used while the crawler runs": version does not even print. *)
Definition ex_conf : conf := {| cn_dht := Some {| ds_port := 6881; ds_pool := 2; ds_nodes := [B "good"; B "bad"; B "fine"] |}; cn_fetch := Some {| fc_queue := 10; fc_pool := 5 |}; cn_pprof := Some true; cn_logger := Some (B "info") |}.
Definition ex_su (busy : bool) (bad : option udpaddr) (flag : bytes) : surroundings :=
  {| su_file := CfOk ex_conf; su_flag := flag; su_named := fun _ => Some ex_conf; su_can_listen := fun p => negb (busy && (p =? 6881)%Z);
     su_resolve := fun h => if beq h (B "bad") then bad else Some (mkaddr (h ++ h) 6881); su_env := fun _ => ex_env; su_uni := fun s => s;
     su_fs := {| f_isdir := fun _ => false; f_readdir := fun _ => None; f_read := fun _ => FrOpenErr; f_join := fun a b => a ++ b |} |}.
Lemma ex_su_starts : exists d f lvl pp hosts, initialises (ex_su false (Some (mkaddr (B "abcd") 1)) (B "x")) d f lvl /\ boots (ex_su false (Some (mkaddr (B "abcd") 1)) (B "x")) d f pp hosts /\ length hosts = 3.
Proof.
  do 4 eexists. exists [mkaddr (B "goodgood") 6881; mkaddr (B "abcd") 1; mkaddr (B "finefine") 6881]. split; [|split; [|reflexivity]].
  - split; [exists ex_conf; repeat split|split; [vm_compute; split; discriminate|vm_compute; reflexivity]|cbn; lia].
  - split; [exists ex_conf; split; reflexivity|repeat constructor|intros i _; reflexivity|cbn; lia].
Qed.
Lemma C105_version_refuted_pf : exists v v' effs w port z, process v CmdCrawl = (effs, Crawling w port z) /\ su_file v' = su_file v /\
  snd (process v CmdVersion) = Exited /\
  process v' CmdVersion = ([], Crashed (PStr (B "listen udp err"))).
Proof.
  exists (ex_su false (Some (mkaddr (B "abcd") 1)) (B "x")), (ex_su true (Some (mkaddr (B "abcd") 1)) (B "x")).
  set (v := ex_su false _ _). assert (Hrt : runtime_ok (su_env v) (fun _ _ => false)) by (intros k; split; [exact ex_env_ok|reflexivity]).
  destruct ex_su_starts as (d & f & lvl & pp & hosts & H1 & H2 & _). destruct (proj2 (C105_starts_iff_pf v _ Hrt)) as (effs & w & port & z & E); [exists d, f, lvl, pp, hosts; auto|].
  exists effs, w, port, z. split; [exact E|]. split; [reflexivity|]. split; [exact (proj2 (proj1 (C105_other_commands_pf _ _ _ _ H1)))|vm_compute; reflexivity].
Qed.
(** C105 refuted, "one bad bootstrap host does not keep the crawler from starting". *)
Lemma C105_bad_host_refuted_pf : exists v, hosts_configured v [B "good"; B "bad"; B "fine"] /\ su_resolve v (B "good") <> None /\ su_resolve v (B "fine") <> None /\
  snd (process v CmdCrawl) = Crashed (PStr (B "bootstrap resolve host err")) /\ map g_to (queries (fst (process v CmdCrawl))) = [mkaddr (B "goodgood") 6881].
Proof.
  exists (ex_su false None (B "x.json")). split; [exists ex_conf; eexists; repeat split|]. split; [discriminate|]. split; [discriminate|]. split; vm_compute; reflexivity.
Qed.

(** C105: a number in the configuration means the port with that number if there is one, and keeps the program from
    starting if it is negative or a bit too large. *)
Lemma C105_port_number_pf : forall d,
  ((0 <= ds_port d <= 65535)%Z -> sec_port d = ds_port d) /\
  ((ds_port d < 0 \/ 65535 < ds_port d < 4294967300)%Z -> (forall v, ~ port_usable v (sec_port d)) /\
     forall v c, in_force v = Some c -> cn_dht c = Some d -> forall cmd, snd (process v cmd) = Crashed (PStr (B "resolve remote host err"))).
Proof.
  assert (Hs : forall z, ResolveUDPAddr no_names NetUdp4 (B ":" ++ itoa z) = match LookupPort (nm_service no_names) (itoa z) with NOk p => NOk (mkaddr [] p) | NErr e => NErr e end).
  { intros z. unfold ResolveUDPAddr, internetAddrList. pose proof (split_plain [] (itoa z)) as Hsp. cbn [app] in Hsp. specialize (Hsp (FetchTorrentPf.itoa_host z)).
    change (B ":" ++ itoa z) with (":"%char :: itoa z) in *. rewrite Hsp. cbn [nbind fst snd]. destruct (LookupPort (nm_service no_names) (itoa z)); reflexivity. }
  intros d. split.
  - intros H. unfold sec_port, resolveHost. rewrite Hs, lookup_small by exact H. reflexivity.
  - intros H. assert (E : sec_port d = (-1)%Z) by (unfold sec_port, resolveHost; rewrite Hs, lookup_bad by exact H; reflexivity). split.
    + intros v [Hp _]. rewrite E in Hp. lia.
    + intros v c Hc Hd cmd. rewrite process_eq, Hc, Hd, E. reflexivity.
Qed.

(** C105 refuted, "a number that is no port keeps the program from starting": with port 4294967300 it listens on
    port 4. *)
Lemma C105_port_refuted_pf : exists v c d, in_force v = Some c /\ cn_dht c = Some d /\ ds_port d = 4294967300%Z /\ In (EfListen 4) (fst (process v CmdVersion)) /\ snd (process v CmdVersion) = Exited.
Proof.
  set (c := {| cn_dht := Some {| ds_port := 4294967300; ds_pool := 2; ds_nodes := [] |}; cn_fetch := Some {| fc_queue := 10; fc_pool := 5 |}; cn_pprof := Some true; cn_logger := Some (B "info") |}).
  exists {| su_file := CfOk c; su_flag := []; su_named := fun _ => None; su_can_listen := fun _ => true; su_resolve := fun _ => None; su_env := fun _ => ex_env; su_uni := fun s => s;
    su_fs := {| f_isdir := fun _ => false; f_readdir := fun _ => None; f_read := fun _ => FrOpenErr; f_join := fun a b => a ++ b |} |}.
  exists c. eexists. split; [reflexivity|]. split; [reflexivity|]. split; [reflexivity|]. split; [vm_compute; auto|vm_compute; reflexivity].
Qed.

(** Non-vacuity: a start with three hosts; a first start without a configuration file uses the defaults; the id. *)
Lemma C105_example_pf :
  (exists d f lvl pp hosts, initialises (ex_su false (Some (mkaddr (B "abcd") 1)) (B "x")) d f lvl /\ boots (ex_su false (Some (mkaddr (B "abcd") 1)) (B "x")) d f pp hosts /\ length hosts = 3) /\
  (let v := {| su_file := CfMissing true; su_flag := []; su_named := fun _ => None; su_can_listen := fun _ => true; su_resolve := fun _ => Some (mkaddr (B "WbX!") 6881); su_env := fun _ => ex_env;
     su_uni := fun s => s; su_fs := {| f_isdir := fun _ => false; f_readdir := fun _ => None; f_read := fun _ => FrOpenErr; f_join := fun a b => a ++ b |} |} in
   let effs := fst (process v CmdCrawl) in
   length effs = 6 /\ nth_error effs 0 = Some EfConfWritten /\ nth_error effs 1 = Some (EfListen 21000) /\ nth_error effs 3 = Some EfPprof /\ nth_error effs 5 = Some EfRun /\
   match snd (process v CmdCrawl) with Crawling _ p z => p = 21000%Z /\ z_fetch z = 500 | _ => False end) /\
  hex localNodeId = B "9be1696018a69ba161651978c76c46f34a6aba74".
Proof.
  split; [exact ex_su_starts|split].
  - vm_compute. repeat split.
  - vm_compute. reflexivity.
Qed.
