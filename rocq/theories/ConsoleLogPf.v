(** ConsoleLogPf.v -- proofs of C133. *)
From Verif Require Import Base GoLib Bencode BencodeSpec BencodeProofs Types TypesPf Logger LoggerSpec Node NodePf RouteTable RouteTableProofs RouteTablePf Middleware Krpc KrpcSpec KrpcProofs KrpcPf Dht DhtSpec DhtProofs DhtPf
  Conc ConcSpec ConcProofs ConcPf FetchTorrentSpec FetchTorrentPf Json InfoLogSpec InfoLogProofs ConsoleLog ConsoleLogSpec ConsoleLogProofs.
Local Open Scope list_scope.

(** C133: the runs with the console are the runs of the crawler: printing changes nothing. *)
Lemma C133_same_runs_pf : forall e me laddr local hosts cap c, conc_reach e me local hosts cap c <-> exists s, creach e me laddr local hosts cap s /\ c_conc s = c.
Proof. intros. split; [apply conc_creach|]. intros (s & Hs & <-). eapply creach_conc. exact Hs. Qed.

(** C133: however the handlers are interleaved, what a finished one printed is a transcript of its packet and of what it did:
    nothing is missing, nothing is added, and the lines are in this order. *)
Lemma C133_transcript_pf : forall e uf me laddr local hosts cap s i pk l, runtime_ok e uf -> creach e me laddr local hosts cap s ->
  evs i (k_log (c_conc s)) = EvStart pk :: l ++ [EvEnd] -> transcript uf laddr pk l (calls_of i (c_calls s)).
Proof. intros e uf me laddr local hosts cap s i pk l Hrt Hr E. exact (ci_done _ _ _ (creach_inv _ _ _ _ _ _ _ _ Hrt Hr) _ _ _ E). Qed.

(** C133: only handlers that were started print, and one that has not run yet has printed nothing. *)
Lemma C133_only_handlers_print_pf : forall e uf me laddr local hosts cap s, runtime_ok e uf -> creach e me laddr local hosts cap s ->
  (forall i en, In (i, en) (c_calls s) -> exists pk, In (i, EvStart pk) (k_log (c_conc s))) /\
  (forall i pk, In (i, pk, JStart) (k_jobs (c_conc s)) -> calls_of i (c_calls s) = []).
Proof.
  intros e uf me laddr local hosts cap s Hrt Hr. pose proof (creach_inv _ _ _ _ _ _ _ _ Hrt Hr) as [F1 F2 F3]. pose proof (conc_inv _ _ _ _ _ _ _ Hrt (creach_conc _ _ _ _ _ _ _ Hr)) as HI. split.
  - intros i en Hin. destruct (le_lt_dec (k_next (c_conc s)) i) as [H|H].
    + exfalso. pose proof (F3 _ H) as E. assert (Hc : In en (calls_of i (c_calls s))). { unfold calls_of. apply in_map_iff. exists (i, en). split; [reflexivity|]. apply filter_In. split; [exact Hin|]. apply Nat.eqb_refl. } rewrite E in Hc. exact Hc.
    + destruct (i_known _ _ _ _ HI i H) as [(pk & pc & Hj)|(pk & l & E & Hj)]; exists pk; apply evs_in.
      * eapply jok_hd. apply (i_jobs _ _ _ _ HI _ _ _ Hj).
      * rewrite E. apply in_app_iff. left. eapply jok_hd. exact Hj.
  - intros i pk Hin. destruct (F1 _ _ _ Hin) as (l & _ & Hl). inversion Hl; subst; [reflexivity|discriminate].
Qed.

(** Every call has a named logger and a level that is printed. *)
Definition shown (en : centry) : Prop := ce_log en <> [] /\ ce_m en <> MDebug.
Lemma entry_shown lg m msg ctx : lg <> ""%string -> m <> MDebug -> shown (entry lg m msg ctx).
Proof. intros H1 H2. split; [|exact H2]. cbn. destruct lg; [congruence|discriminate]. Qed.
Ltac showt := repeat first [apply Forall_nil | apply Forall_cons; [apply entry_shown; discriminate|] | apply Forall_app; split].
Lemma addNode_log_shown uf f : forall t n i, Forall shown (addNode_log uf f t n i).
Proof.
  induction f as [|f IH]; intros t n i; cbn [addNode_log]; destruct (bget t i) as [b|x|p]; showt; destruct (_ && _);
    try (destruct (bFull b); showt; fail); destruct (_ <=? _)%Z; showt.
  destruct (bget t (rlast t)) as [src|x|p]; showt.
  match goal with |- context [fold_left ?g _ _] => set (G := g) end.
  assert (Hf : forall l r, Forall shown (snd r) -> Forall shown (snd (fold_left G l r))).
  { induction l as [|m l IHl]; intros r Hr; cbn [fold_left]; [exact Hr|]. apply IHl. unfold G. destruct (fst r); [|exact Hr|exact Hr]. cbn [snd]. apply Forall_app. split; [exact Hr|apply IH]. }
  specialize (Hf (bAll src) (Ok (split_empty t src), [l_split (split_empty t src)]) ltac:(cbn [snd]; showt)).
  destruct (fst (fold_left G _ _)) as [t2|x|p]; [|exact Hf|exact Hf]. destruct (addNode uf f t2 n _) as [x|x|p]; [|apply Forall_app; auto|apply Forall_app; auto].
  apply Forall_app; split; [exact Hf|]. apply Forall_app; split; [apply IH|]. destruct (nodeCount (fst x)); showt. destruct (_ =? _)%Z; showt.
Qed.
Lemma step_log_shown e o la me w pk pc : Forall shown (step_log e o la me w pk pc).
Proof.
  assert (Hsend : forall w bs to, Forall shown (send_log e o la w bs to)) by (intros; unfold send_log; destruct (snd _); showt).
  destruct pc; cbn [step_log]; showt.
  - unfold start_log. destruct (DecodeDictNoLimit _) as [[d n]|x|p]; showt. destruct (negb _); showt. destruct (GetString d (B "y")) as [y|x|p]; showt.
    destruct (beq y _); [|destruct (beq y _); [|destruct (beq y _)]]; showt.
    + unfold start_query_log. destruct (bind _ _) as [[tx q]|x|p]; showt.
      * unfold query_line. destruct (bind _ _) as [l|x|p] eqn:E; showt. destruct (ContainsString _ _ _) as [ok|x|p]; cbn [bind] in E; try discriminate. destruct (negb ok); [injection E as <-; showt|].
        destruct (GetDict d (B "a")) as [b|x|p]; cbn [bind] in E; try discriminate. destruct (GetString _ _) as [id|x|p]; cbn [bind] in E; try discriminate.
        destruct (negb _); [injection E as <-; showt|]. destruct (crawler_router q) as [h|]; injection E as <-; showt. unfold request_line. destruct h; showt.
        -- destruct (GetString _ _); showt.
        -- destruct (bind _ _) as [[ih p]|x|p]; showt.
      * destruct (query_pc _ _ _ _ _ _) as [x|x|p]; showt. destruct p; showt.
    + unfold start_resp_log. destruct (bind _ _) as [[tx q]|x|p]; showt.
    + unfold start_err_log. destruct (bind _ _) as [[tx q]|x|p]; showt.
  - unfold reply_log. destruct (resp_RawData r) as [raw|x|p]; showt. destruct (encode_now _ _ _); showt; apply Hsend.
  - unfold look_log. destruct (w_reqs w tx); showt. destruct (bind _ _); showt.
  - destruct ns as [|n ns].
    + unfold done_log. constructor; [apply entry_shown; discriminate|]. constructor; [|constructor]. split; discriminate.
    + unfold add_log. showt; [apply addNode_log_shown|]. destruct (AddNode _ _ _) as [[t' [er|]]|x|p]; showt.
  - unfold query_log. destruct (encode_now _ _ _); showt; [apply Hsend|]. destruct (snd _); showt.
Qed.

(** C133: standard output consists of exactly these lines, in the order of the calls; no level is suppressed. *)
Lemma C133_output_pf : forall e me laddr local hosts cap s, creach e me laddr local hosts cap s ->
  exists outs, c_out s = concat outs /\ Forall2 rendered (map snd (c_calls s)) outs.
Proof.
  intros e me laddr local hosts cap s Hr. induction Hr as [w0 w Hi Hb|s s' Hr (outs & E & IH) Hst]; [exists []; split; [reflexivity|constructor]|].
  destruct Hst as [k o l1 i pk pc l2 w' pc' v outs' Hsplit Hstep Houts|pk|l1 i pk l2 Hsplit|x q Hq]; cbn [c_out c_calls]; eauto.
  exists (outs ++ outs'). rewrite E, concat_app, map_app, map_map, map_id. split; [reflexivity|]. apply Forall2_app; [exact IH|].
  pose proof (step_log_shown (e k) o laddr me (k_world (c_conc s)) pk pc) as Hs. revert Hs. induction Houts as [|en out l lo Hp _ IHo]; intros Hs; constructor; inversion Hs as [|? ? [S1 S2] S3]; subst.
  - apply prints_rendered; assumption.
  - apply IHo. exact S3.
Qed.

(** C133: what AddNode prints: one line per new bucket, one line if the node found no place (whether AddNode returned an error or not), and
    complaints exactly when buckets were made and the count of nodes is not the table's size plus one. *)
Lemma C133_table_lines_pf : forall uf host k capacity t n t' er, rt_reach uf host k capacity t -> AddNode uf t n = Ok (t', er) -> table_says uf t n t' er (AddNode_log uf t n).
Proof. intros uf host k capacity t n t' er Hr E. unfold AddNode_log. eapply addNode_says; [eapply reach_inv; exact Hr|lia|exact E]. Qed.

(** Lines that are neither of the two of a matched response. *)
Definition other (en : centry) : Prop := ce_msg en <> B "cannot match request ignore" /\ ce_msg en <> B "handle response".
Ltac othert := repeat first [apply Forall_nil | apply Forall_cons; [split; vm_compute; discriminate|] | apply Forall_app; split].
Lemma table_other uf t n t' er ls : table_says uf t n t' er ls -> Forall other ls.
Proof.
  intros [sizes full -> _ Hf]. apply Forall_app; split; [|apply Forall_app; split].
  - apply Forall_forall. intros x Hx. apply in_map_iff in Hx as (p & <- & _). split; vm_compute; discriminate.
  - destruct Hf as [(-> & _)|(x & -> & Hx & _)]; [constructor|]. destruct Hx; othert.
  - destruct (_ =? _)%Z; [constructor|]. apply Forall_forall. intros x Hx. apply repeat_spec in Hx. subst x. split; vm_compute; discriminate.
Qed.
Lemma ev_other uf la v vs : ev_lines uf la v vs -> Forall other vs.
Proof.
  intros [x|tx|n t t' ls _ H|n t m size ls _ H|g ok u H|g u H|g u text size H]; othert; try (eapply table_other; exact H); constructor; try (inversion H; subst; split; vm_compute; discriminate); othert.
Qed.
Lemma says_other uf la l ls : says uf la l ls -> Forall other ls.
Proof. induction 1 as [|l ls v vs _ IH Hv]; [constructor|]. apply Forall_app. split; [exact IH|eapply ev_other; exact Hv]. Qed.
Lemma remark_other uf pk tx q r : remark uf pk tx q r -> Forall other r.
Proof. intros []; othert. Qed.
Lemma other_not ls : Forall other ls -> ~ In ignore_line ls /\ forall tx, ~ In (matched_line tx) ls.
Proof. intros H. rewrite Forall_forall in H. split; [|intros tx]; intros Hin; destruct (H _ Hin) as [H1 H2]; [apply H1|apply H2]; reflexivity. Qed.

(** C133: the line "cannot match request ignore" is printed exactly by those handlers whose response WAS matched and carries nodes. *)
Lemma C133_ignore_line_pf : forall e uf me laddr local hosts cap s i pk l, runtime_ok e uf -> creach e me laddr local hosts cap s ->
  evs i (k_log (c_conc s)) = EvStart pk :: l ++ [EvEnd] ->
  (In ignore_line (calls_of i (c_calls s)) <-> (exists tx, In (matched_line tx) (calls_of i (c_calls s))) /\ exists tx ns, lists_nodes pk tx ns).
Proof.
  intros e uf me laddr local hosts cap s i pk l Hrt Hr E. pose proof (C133_transcript_pf _ _ _ _ _ _ _ _ _ _ _ Hrt Hr E) as H. set (calls := calls_of i (c_calls s)) in *. clearbody calls. clear - H.
  assert (K : Forall other calls -> (In ignore_line calls <-> (exists tx, In (matched_line tx) calls) /\ exists tx ns, lists_nodes pk tx ns)).
  { intros Ho. destruct (other_not _ Ho) as [N1 N2]. split; [contradiction|]. intros ((tx & Hx) & _). destruct (N2 _ Hx). }
  destruct H as [er text _|text _|d _ _|d y _ _ _|tx v _|tx q r g l ls _ Hq Hs _ _|tx b id _|tx b id text Hb Hn|tx b id ns l ls size Hb Hl Hs _ _]; try (apply K; othert; fail).
  - apply K. constructor; [split; vm_compute; discriminate|]. apply Forall_app. split; [eapply remark_other; exact Hq|eapply says_other; exact Hs].
  - split.
    + intros [H|[H|[H|[]]]]; exfalso; apply (f_equal ce_msg) in H; revert H; vm_compute; discriminate.
    + intros (_ & tx' & ns & Hl). exfalso. apply (Hn ns). destruct Hb as (d & Hd & Hy & Ht & _). destruct Hl as (d' & b' & id' & nodes & Hd' & Hy' & Ht' & Hrest).
      assert (d' = d). { destruct Hd as (k1 & Hd), Hd' as (k2 & Hd'). congruence. } subst d'. assert (tx' = tx) by (unfold field in *; congruence). subst tx'. exists d, b', id', nodes. auto.
  - split; [|intros _; apply in_app_iff; right; apply in_app_iff; right; right; left; reflexivity].
    intros _. split; [exists tx; right; left; reflexivity|]. exists tx, ns. exact Hl.
Qed.

(** ** Concrete runs *)
Definition orc : oracle := {| or_err := fun _ => []; or_panic := fun _ => []; or_size := 0 |}.
Definition now_of (la : udpaddr) (e : nat -> env) (me : bytes) (s : conc) (a : ConcPf.act) : list (nat * centry) :=
  match a with
  | AJob n => match ConcPf.cut n (k_jobs s) with Some (_, (i, pk, pc), _) => map (pair i) (step_log (e 0) orc la me (k_world s) pk pc) | None => [] end
  | _ => []
  end.
Fixpoint cexecs (la : udpaddr) (e : nat -> env) (me : bytes) (cap : nat) (s : conc) (calls : list (nat * centry)) (l : list ConcPf.act) : option (conc * list (nat * centry)) :=
  match l with [] => Some (s, calls) | a :: t => match exec e me cap s a with Some s' => cexecs la e me cap s' (calls ++ now_of la e me s a) t | None => None end end.
Lemma cexecs_reach la e me local hosts cap l : forall s s' calls', creach e me la local hosts cap s -> cexecs la e me cap (c_conc s) (c_calls s) l = Some (s', calls') ->
  exists t, creach e me la local hosts cap t /\ c_conc t = s' /\ c_calls t = calls'.
Proof.
  induction l as [|a l IH]; intros s s' calls' Hr H; cbn [cexecs] in H; [injection H as <- <-; eauto|].
  destruct (exec e me cap (c_conc s) a) as [s1|] eqn:E; [|discriminate].
  assert (Hs : exists t, creach e me la local hosts cap t /\ c_conc t = s1 /\ c_calls t = c_calls s ++ now_of la e me (c_conc s) a).
  { destruct a as [pk|n|n|]; cbn [exec now_of] in *.
    - injection E as <-. rewrite app_nil_r. eexists; split; [eapply cr_step; [exact Hr|eapply cs_begin]|split; reflexivity].
    - destruct (ConcPf.cut n (k_jobs (c_conc s))) as [[[l1 [[i pk] pc]] l2]|] eqn:Ec; [|discriminate]. destruct (job_fun _ _ _ _ _ _) as [[[w' pc'] v]|] eqn:F; [|discriminate]. injection E as <-.
      destruct (prints_some (step_log (e 0) orc la me (k_world (c_conc s)) pk pc)) as (outs & Ho).
      eexists; split; [eapply cr_step; [exact Hr|eapply cs_job; [eapply cut_ok; exact Ec|apply job_fun_ok; exact F|exact Ho]]|split; reflexivity].
    - destruct (ConcPf.cut n (k_jobs (c_conc s))) as [[[l1 [[i pk] pc]] l2]|] eqn:Ec; [|discriminate]. destruct pc; try discriminate. injection E as <-. rewrite app_nil_r.
      eexists; split; [eapply cr_step; [exact Hr|eapply cs_end; eapply cut_ok; exact Ec]|split; reflexivity].
    - destruct (a_queue (w_app (k_world (c_conc s)))) as [|x q] eqn:Eq; [discriminate|]. injection E as <-. rewrite app_nil_r.
      eexists; split; [eapply cr_step; [exact Hr|eapply cs_take; exact Eq]|split; reflexivity]. }
  destruct Hs as (t & Ht & <- & Ec). rewrite <- Ec in H. exact (IH _ _ _ Ht H).
Qed.
Definition ex_crun (e : env) cap l := match cexecs (ex_addr 9) (fun _ => e) ex_me cap ex_conc0 [] l with Some x => x | None => (ex_conc0, []) end.
Lemma ex_crun_reach e cap l : boot (fun _ => e) ex_me [ex_addr 1] ex_crawler = Ok (k_world ex_conc0) ->
  exists t, creach (fun _ => e) ex_me (ex_addr 9) (mkaddr [] 6881) [ex_addr 1] cap t /\ c_conc t = fst (ex_crun e cap l) /\ c_calls t = snd (ex_crun e cap l).
Proof.
  intros Hb. assert (H0 : creach (fun _ => e) ex_me (ex_addr 9) (mkaddr [] 6881) [ex_addr 1] cap {| c_conc := ex_conc0; c_out := []; c_calls := [] |}) by (eapply cr_start; [exact ex_crawler_ok|exact Hb]).
  unfold ex_crun. destruct (cexecs _ _ _ _ _ _ _) as [[s' c']|] eqn:E; [exact (cexecs_reach _ _ _ _ _ _ _ _ _ _ H0 E)|]. eexists; split; [exact H0|split; reflexivity].
Qed.

(** C133: the theorems apply: three interleaved handlers, all finished; the lines of each, and one of them spelled out. *)
Lemma C133_example_pf : exists s l, runtime_ok (fun _ => ex_env) (fun _ _ => false) /\ creach (fun _ => ex_env) ex_me (ex_addr 9) (mkaddr [] 6881) [ex_addr 1] 1 s /\
  evs 1 (k_log (c_conc s)) = EvStart ex_list :: l ++ [EvEnd] /\
  map (fun en => (ce_log en, ce_msg en)) (calls_of 1 (c_calls s)) =
    [(B "server", B "response handle"); (B "dht", B "handle response"); (B "udp", B ">>> send Bytes"); (B "server", B ">>>rpc sended"); (B "udp", B ">>> send Bytes"); (B "server", B ">>>rpc sended");
     (B "dht", B "add nodes"); (B "dht", B "cannot match request ignore")] /\
  map (fun en => (ce_log en, ce_msg en)) (calls_of 0 (c_calls s)) =
    [(B "server", B "response handle"); (B "dht", B "get announce_peer request"); (B "udp", B ">>> send Bytes"); (B "server", B ">>>  Bytes sended")] /\
  map (fun en => (ce_log en, ce_msg en)) (calls_of 2 (c_calls s)) = [(B "server", B "response handle"); (B "udp", B ">>> send Bytes"); (B "server", B ">>>  Bytes sended")] /\
  map fst (c_calls s) <> map (fun _ => 0) (calls_of 0 (c_calls s)) ++ map (fun _ => 1) (calls_of 1 (c_calls s)) ++ map (fun _ => 2) (calls_of 2 (c_calls s)).
Proof.
  destruct (ex_crun_reach ex_env 1 ex_sched ltac:(vm_compute; reflexivity)) as (s & Hs & E1 & E2). exists s, (removelast (tl (evs 1 (k_log (c_conc s))))). split; [exact ex_runtime|]. split; [exact Hs|]. rewrite E1, E2.
  split; [vm_compute; reflexivity|]. split; [vm_compute; reflexivity|]. split; [vm_compute; reflexivity|]. split; [vm_compute; reflexivity|]. vm_compute. discriminate.
Qed.

(** A response whose transaction id was never used. *)
Definition ex_unasked := ex_pk 1 "d1:t2:zz1:y1:r1:rd2:id1:z5:nodes0:ee".
(** C133, refuted as "a line saying that a request cannot be matched means just that": the response to a query of the crawler prints
    "cannot match request ignore" after its nodes were added; a response nobody asked for never prints it. *)
Lemma C133_ignored_refuted_pf : exists s, creach (fun _ => ex_env) ex_me (ex_addr 9) (mkaddr [] 6881) [ex_addr 1] 1 s /\
  (exists l, evs 0 (k_log (c_conc s)) = EvStart ex_list :: l ++ [EvEnd] /\ length (tried_in l) = 2) /\ In ignore_line (calls_of 0 (c_calls s)) /\
  (evs 1 (k_log (c_conc s)) = [EvStart ex_unasked; EvEnd] /\ ~ In ignore_line (calls_of 1 (c_calls s)) /\ In (entry "server" MError "cannot match request" [(B "txId", str (B "zz")); (B "nodeId", str (B "z"))]) (calls_of 1 (c_calls s))).
Proof.
  destruct (ex_crun_reach ex_env 1 [ABegin ex_list; AJob 0; AJob 0; AJob 0; AJob 0; AJob 0; AJob 0; AJob 0; AJob 0; AJob 0; AJob 0; AJob 0; AEnd 0; ABegin ex_unasked; AJob 0; AJob 0; AEnd 0] ltac:(vm_compute; reflexivity)) as (s & Hs & E1 & E2).
  exists s. split; [exact Hs|]. split; [exists (removelast (tl (evs 0 (k_log (c_conc s))))); rewrite E1; split; vm_compute; reflexivity|]. rewrite E1, E2. split; [|split; [|split]].
  - vm_compute. do 7 right. left. reflexivity.
  - vm_compute. reflexivity.
  - match goal with |- ~ In ?x ?l => assert (K : forallb (fun en => negb (beq (ce_msg en) (ce_msg x))) l = true) by (vm_compute; reflexivity) end. intros H. rewrite forallb_forall in K. specialize (K _ H). revert K. vm_compute. discriminate.
  - vm_compute. right. left. reflexivity.
Qed.

(** The same runtime with a network that takes only the first datagram. *)
Definition ex_env1 : env := {| e_uf := fun _ _ => false; e_ord := fun _ d => d; e_sok := fun n => n =? 0; e_stack := []; e_slack := fun n => n |}.
Lemma ex_runtime1 : runtime_ok (fun _ => ex_env1) (fun _ _ => false).
Proof. intros k. split; [intros n d; apply deq_refl|reflexivity]. Qed.
(** C133, refuted as "sent means sent": the handler of a query whose reply could not be sent says so and then reports the bytes as sent. *)
Lemma C133_sent_refuted_pf : exists s, runtime_ok (fun _ => ex_env1) (fun _ _ => false) /\ creach (fun _ => ex_env1) ex_me (ex_addr 9) (mkaddr [] 6881) [ex_addr 1] 1 s /\
  (exists g, evs 0 (k_log (c_conc s)) = [EvStart ex_vote; EvReply g; EvEnd]) /\
  map (fun en => (ce_log en, ce_m en, ce_msg en)) (calls_of 0 (c_calls s)) =
    [(B "server", MInfo, B "response handle"); (B "udp", MError, B ">>> send udp err"); (B "server", MInfo, B ">>>  Bytes sended")].
Proof.
  destruct (ex_crun_reach ex_env1 1 [ABegin ex_vote; AJob 0; AJob 0; AEnd 0] ltac:(vm_compute; reflexivity)) as (s & Hs & E1 & E2).
  exists s. split; [exact ex_runtime1|]. split; [exact Hs|]. rewrite E1, E2. split; [eexists; vm_compute; reflexivity|vm_compute; reflexivity].
Qed.

(** C133, refuted as "AddNode's error log tells what AddNode did": a node can be dropped, with two errors printed, although AddNode reports
    success; and once a node was announced twice, "add fail" is printed for a node that was stored. *)
Lemma C133_table_log_refuted_pf : forall uf,
  (exists t n t', rt_reach uf (nd 64 1) 2 1 t /\ AddNode uf t n = Ok (t', None) /\ stored t' = stored t /\ map ce_msg (AddNode_log uf t n) = [B "the route table has split new bucket"; B "the route table has full"; B "the route table add fail"]) /\
  (exists t n t', rt_reach uf (nd 64 1) 2 8 t /\ AddNode uf t n = Ok (t', None) /\ In n (stored t') /\ map ce_msg (AddNode_log uf t n) = [B "the route table has split new bucket"; B "the route table has split new bucket"; B "the route table add fail"; B "the route table add fail"]).
Proof.
  intros uf. split.
  - exists (tab uf (nd 64 1) 2 1 [nd 65 2]), (nd 66 9), (fst (get_or (AddNode uf (tab uf (nd 64 1) 2 1 [nd 65 2]) (nd 66 9)) (dummy_rt, None))).
    split; [apply tab_reach; lia|]. split; [vm_compute; reflexivity|]. split; vm_compute; reflexivity.
  - exists (tab uf (nd 64 1) 2 8 [nd 64 1; nd 65 2]), (nd 0 9), (fst (get_or (AddNode uf (tab uf (nd 64 1) 2 8 [nd 64 1; nd 65 2]) (nd 0 9)) (dummy_rt, None))).
    split; [apply tab_reach; lia|]. split; [vm_compute; reflexivity|]. split; [vm_compute; tauto|vm_compute; reflexivity].
Qed.
