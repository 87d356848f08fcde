(** InfoLogProofs.v -- lemmas about the info-hash log. *)
From Verif Require Import Base GoLib Bencode BencodeSpec BencodeProofs Types TypesPf Logger Node NodePf RouteTable Middleware Krpc KrpcSpec KrpcProofs KrpcPf Dht DhtSpec DhtProofs DhtPf Conc ConcSpec ConcProofs ConcPf
  FetchTorrentSpec FetchTorrentPf ZapLog ZapLogSpec ZapLogProofs ZapLogPf InfoLog InfoLogSpec.
From Coq Require Import Permutation.
Local Open Scope list_scope.

Lemma record_det pk ih po en ih' po' en' : record_of pk ih po en -> record_of pk ih' po' en' -> ih = ih' /\ po = po'.
Proof.
  intros H H'. destruct H as [tx a ih fs Hp Hi _|tx a ih p fs Hp Hi Ho _], H' as [tx' a' ih' fs' Hp' Hi' _|tx' a' ih' p' fs' Hp' Hi' Ho' _].
  - destruct (proper_det _ _ _ _ _ _ _ Hp Hp') as (-> & _ & ->). unfold field in *. rewrite Hi in Hi'. injection Hi' as ->. auto.
  - destruct (proper_det _ _ _ _ _ _ _ Hp Hp') as (_ & E & _). discriminate.
  - destruct (proper_det _ _ _ _ _ _ _ Hp Hp') as (_ & E & _). discriminate.
  - destruct (proper_det _ _ _ _ _ _ _ Hp Hp') as (-> & _ & ->). unfold field in *. rewrite Hi in Hi'. rewrite Ho in Ho'. injection Hi' as ->. injection Ho' as ->. auto.
Qed.

Inductive log_case (pk : packet) : list zentry -> Prop :=
| lc_none : (forall ih po, ~ seeks pk ih po) -> log_case pk []
| lc_one ih po en : record_of pk ih po en -> log_case pk [en].

Lemma seeks_asks pk ih po : seeks pk ih po -> exists tx q a, proper_query (p_bytes pk) tx q a /\ (q = "get_peers" \/ q = "announce_peer")%string /\
  field a "info_hash" (VStr ih) /\ (q = "announce_peer"%string -> exists p, po = Some p /\ field a "port" (VInt p)).
Proof.
  intros [en H]. destruct H as [tx a ih fs Hp Hi _|tx a ih p fs Hp Hi Ho _]; exists tx; eexists; exists a; (split; [exact Hp|]); (split; [auto|]); (split; [exact Hi|]); intros E; [discriminate|eauto].
Qed.

Lemma start_log_case e o pk : (forall l, Permutation (o l) l) -> log_case pk (start_log e o pk).
Proof.
  intros Ho. unfold start_log. destruct (DecodeDictNoLimit (p_bytes pk)) as [[d n]|x|p] eqn:Hd.
  2,3: apply lc_none; intros ih po Hs; destruct (seeks_asks _ _ _ Hs) as (tx & q & a & (d' & id & [n' Hd'] & _) & _); congruence.
  assert (Hex : (forall ih po tx q a id, seeks pk ih po -> dget d (B "y") = Some (VStr (B "q")) -> dget d (B "t") = Some (VStr tx) -> dget d (B "q") = Some (VStr (B q)) ->
            (q = "get_peers" \/ q = "announce_peer")%string -> dget d (B "a") = Some (VDict a) -> dget a (B "id") = Some (VStr id) -> length id = 20 -> dget a (B "info_hash") = Some (VStr ih) ->
            (q = "announce_peer"%string -> exists p, po = Some p /\ dget a (B "port") = Some (VInt p)) -> False) -> log_case pk []).
  { intros H. apply lc_none. intros ih po Hs. destruct (seeks_asks _ _ _ Hs) as (tx & q & a & (d' & id & [n' Hd'] & Hy & Ht & Hq & Ha & Hi & Hl) & H1 & H2 & H3). unfold field in *.
    rewrite Hd in Hd'. injection Hd' as <- _. exact (H ih po tx q a id Hs Hy Ht Hq H1 Ha Hi Hl H2 H3). }
  unfold Exist. destruct (dget d (B "y")) as [v|] eqn:Ey; cbn [negb]; [|apply Hex; intros; congruence].
  unfold GetString at 1, GetVal at 1. rewrite Ey. cbn [bind].
  destruct v as [z|y|l|a| | | |k]; cbn [bind]; try (apply Hex; intros; congruence).
  destruct (beq y (B "q")) eqn:E1.
  2: { apply Hex. intros ih po tx q a id _ E. injection E as ->. rewrite beq_refl in E1. discriminate. }
  apply beq_eq in E1. subst y.
  destruct (getstring_cases d (B "t")) as [(tx & E1 & E2)|(Hn & m & E2)]; rewrite E2; cbn [bind].
  2: { apply Hex. intros. eapply Hn. eassumption. }
  destruct (getstring_cases d (B "q")) as [(q & E3 & E4)|(Hn & m & E4)]; rewrite E4; cbn [bind].
  2: { apply Hex. intros. eapply Hn. eassumption. }
  assert (Hex2 : (forall ih po q' a id, seeks pk ih po -> q = B q' -> (q' = "get_peers" \/ q' = "announce_peer")%string -> dget d (B "a") = Some (VDict a) -> dget a (B "id") = Some (VStr id) ->
     length id = 20 -> dget a (B "info_hash") = Some (VStr ih) -> (q' = "announce_peer"%string -> exists p, po = Some p /\ dget a (B "port") = Some (VInt p)) -> False) -> log_case pk []).
  { intros H. apply Hex. intros ih po tx' q' a id Hs _ _ Hq. rewrite E3 in Hq. injection Hq as ->. intros H1 H2 H3 H4 H5 H6. eapply H; eauto. }
  unfold query_log. destruct (contains_supported (e_uf e) q) as [[-> Hs]|[-> Hs]]; cbn [bind].
  2: { replace (match _ with Ok (_, _, _) => _ | Err _ => _ | Panic _ => _ end) with (@nil zentry).
       - apply Hex2. intros ih po q' a id _ -> Hq. elim Hs. exists (B q'). split; [|apply EqualFold_refl]. destruct Hq as [-> | ->]; cbn; auto.
       - destruct (GetDict d (B "a")) as [b|b|b]; [|reflexivity|reflexivity]. cbn [bind]. destruct (GetString (dict_of b) (B "id")); reflexivity. }
  unfold GetDict, GetVal. destruct (dget d (B "a")) as [v|] eqn:Ea; cbn [bind]; [|apply Hex2; intros; congruence].
  destruct v as [z|x|l|a| | | |k]; cbn [bind]; try (apply Hex2; intros; congruence).
  cbn [dict_of]. destruct (getstring_cases a (B "id")) as [(id & Ei & Eg)|(Hn & m & Eg)]; rewrite Eg; cbn [bind negb].
  2: { apply Hex2. intros ih po q' a' id _ _ _ E H. injection E as <-. intros. eapply Hn. eassumption. }
  destruct (length id =? 20) eqn:El; cbn [negb].
  2: { apply Nat.eqb_neq in El. apply Hex2. intros ih po q' a' id' _ _ _ E H Hl. injection E as <-. congruence. }
  apply Nat.eqb_eq in El.
  assert (Hprop : forall q', q = B q' -> proper_query (p_bytes pk) tx q' a).
  { intros q' ->. exists d, id. unfold field. repeat split; auto. exists n. exact Hd. }
  destruct (crawler_router q) as [h|] eqn:Er.
  2: { apply Hex2. intros ih po q' a' id' _ -> [-> | ->]; discriminate Er. }
  destruct (router_cases q h Er) as [[-> ->]|[[-> ->]|[[-> ->]|[-> ->]]]]; cbn [request_log rq_tx rq_body dict_of].
  - apply Hex2. intros ih po q' a' id' _ E [-> | ->]; discriminate E.
  - apply Hex2. intros ih po q' a' id' _ E [-> | ->]; discriminate E.
  - destruct (getstring_cases a (B "info_hash")) as [(ih & Eh & Eg2)|(Hn & m & Eg2)]; rewrite Eg2; cbn [bind].
    + eapply lc_one. econstructor; [apply Hprop; reflexivity|exact Eh|]. rewrite <- hex_hex_text. apply Ho.
    + apply Hex2. intros ih po q' a' id' _ _ _ E _ _. injection E as <-. intros H _. eapply Hn. eassumption.
  - destruct (getstring_cases a (B "info_hash")) as [(ih & Eh & Eg2)|(Hn & m & Eg2)]; rewrite Eg2; cbn [bind].
    + destruct (getint_cases a (B "port")) as [(po & Ep & Eg3)|(Hn & m & Eg3)]; rewrite Eg3; cbn [bind].
      * eapply lc_one. econstructor; [apply Hprop; reflexivity|exact Eh|exact Ep|]. rewrite <- hex_hex_text. etransitivity; [apply Ho|]. apply perm_skip. apply perm_swap.
      * apply Hex2. intros ih' po q' a' id' _ Eq _ E _ _ _ H. injection E as <-. destruct H as (p & _ & Hp); [apply B_inj; symmetry; exact Eq|]. eapply Hn. eassumption.
    + apply Hex2. intros ih po q' a' id' _ _ _ E _ _. injection E as <-. intros H _. eapply Hn. eassumption.
Qed.

(** ** Runs with and without the log *)
Lemma lstep_conc e os me cap s s' : lstep e os me cap s s' -> conc_step e me cap (l_conc s) (l_conc s').
Proof. intros H. destruct H; cbn [l_conc]; [eapply ks_job|eapply ks_job|eapply ks_begin|eapply ks_end|eapply ks_take]; eassumption. Qed.
Lemma lreach_conc e os me local hosts cap s : lreach e os me local hosts cap s -> conc_reach e me local hosts cap (l_conc s).
Proof. induction 1; [eapply kr_start; eassumption|eapply kr_step; [eassumption|eapply lstep_conc; eassumption]]. Qed.
Lemma conc_lreach e os me local hosts cap c : conc_reach e me local hosts cap c -> exists s, lreach e os me local hosts cap s /\ l_conc s = c.
Proof.
  induction 1 as [w0 w Hi Hb|c c' Hr (s & Hs & <-) Hst]; [eexists; split; [eapply lr_start; eassumption|reflexivity]|].
  destruct Hst as [pk|k l1 i pk pc l2 w' pc' v Hsplit Hstep|l1 i pk l2 Hsplit|x q Hq].
  - eexists; split; [eapply lr_step; [exact Hs|eapply ls_begin]|reflexivity].
  - assert (Hd : pc = JStart \/ pc <> JStart) by (destruct pc; (left; reflexivity) || (right; discriminate)). destruct Hd as [->|Hd].
    + eexists; split; [eapply lr_step; [exact Hs|eapply ls_start with (k := k) (now := B "0"); [exact Hsplit|repeat constructor|exact Hstep]]|reflexivity].
    + eexists; split; [eapply lr_step; [exact Hs|eapply ls_job; [exact Hsplit|exact Hd|exact Hstep]]|reflexivity].
  - eexists; split; [eapply lr_step; [exact Hs|eapply ls_end; exact Hsplit]|reflexivity].
  - eexists; split; [eapply lr_step; [exact Hs|eapply ls_take; exact Hq]|reflexivity].
Qed.

(** ** The invariant *)
Record linv (s : lconc) : Prop := {
  li_file : l_file s = concat (map rec_line (l_recs s));
  li_once : NoDup (map rec_job (l_recs s));
  li_sound : forall i now en, In (i, now, en) (l_recs s) -> numeric now /\ exists pk ih po, handled (l_conc s) i pk /\ record_of pk ih po en;
  li_complete : forall i pk ih po, handled (l_conc s) i pk -> seeks pk ih po -> exists now en, In (i, now, en) (l_recs s) /\ record_of pk ih po en }.

(** A step that keeps the jobs that are past their first step, and the waiting ones, needs nothing new. *)
Lemma linv_keep s s' : linv s -> l_file s' = l_file s -> l_recs s' = l_recs s ->
  (forall i pk, handled (l_conc s) i pk <-> handled (l_conc s') i pk) -> linv s'.
Proof.
  intros [H1 H2 H3 H4] Ef Er Hh. split; rewrite ?Ef, ?Er; auto.
  - intros i now en Hi. destruct (H3 _ _ _ Hi) as (Hn & pk & ih & po & Hk & Hr). split; [exact Hn|]. exists pk, ih, po. split; [apply Hh; exact Hk|exact Hr].
  - intros i pk ih po Hk Hs. apply Hh in Hk. eauto.
Qed.

Lemma start_pc_ne e me pk : start_pc e me pk <> JStart.
Proof. intros E. pose proof (start_cases e me pk) as H. rewrite E in H. inversion H; subst; discriminate. Qed.
Lemma job_step_ne e me cap w pk pc w' pc' v : job_step e me cap w pk pc w' pc' v -> pc' <> JStart.
Proof.
  intros H. destruct H; try discriminate; [apply start_pc_ne|].
  unfold look_pc. destruct (w_reqs w tx) as [r|]; [|discriminate]. destruct (rq_handler r) as [[]|]; try discriminate. destruct (beq _ _); [|discriminate].
  destruct (bind _ _); discriminate.
Qed.
Lemma job_step_nostart e me cap w pk pc w' pc' v p : job_step e me cap w pk pc w' pc' v -> ~ In (EvStart p) v.
Proof. intros H. destruct H; cbn; intros K; repeat destruct K as [K|K]; try discriminate K; exact K. Qed.

Lemma lreach_inv e uf os me local hosts cap s : runtime_ok e uf -> orders_ok os -> lreach e os me local hosts cap s -> linv s.
Proof.
  intros Hrt Ho Hr. induction Hr as [w0 w Hi Hb|s s' Hr IH Hst].
  - split; cbn [l_file l_recs l_conc map concat]; [reflexivity|constructor|intros i now en []|]. intros i pk ih po [[] _].
  - pose proof (conc_inv _ _ _ _ _ _ _ Hrt (lreach_conc _ _ _ _ _ _ _ Hr)) as HI.
    destruct Hst as [k l1 i pk l2 w' pc' v now Hsplit Hnow Hstep|k l1 i pk pc l2 w' pc' v Hsplit Hne Hstep|pk|l1 i pk l2 Hsplit|x q Hq].
    + (* the first step of a job *)
      assert (Hin : In (i, pk, JStart) (k_jobs (l_conc s))) by (rewrite Hsplit; apply in_elt).
      destruct (i_jobs _ _ _ _ HI _ _ _ Hin) as [Hlt Hj].
      pose proof (i_nodup _ _ _ _ HI) as Hnd. rewrite Hsplit, nums_split in Hnd. apply NoDup_remove_2 in Hnd. cbn [num fst] in Hnd.
      assert (Hoth : forall j p, j <> i -> (In (j, p, JStart) (l1 ++ (i, pk, pc') :: l2) <-> In (j, p, JStart) (k_jobs (l_conc s)))).
      { intros j p Hji. rewrite Hsplit, !in_app_iff. cbn. intuition congruence. }
      assert (Hself : forall p, ~ In (i, p, JStart) (l1 ++ (i, pk, pc') :: l2)).
      { intros p H. apply in_app_iff in H. destruct H as [H|[H|H]].
        - apply Hnd. apply in_app_iff. left. eapply in_num. exact H.
        - injection H as _ E. eapply job_step_ne; eassumption.
        - apply Hnd. apply in_app_iff. right. eapply in_num. exact H. }
      set (s' := {| l_conc := _; l_file := _; l_recs := _ |}).
      assert (Hlog : forall j p, In (j, EvStart p) (k_log (l_conc s')) <-> In (j, EvStart p) (k_log (l_conc s))).
      { intros j p. cbn [s' l_conc k_log]. rewrite in_app_iff. split; [intros [H|H]; [exact H|]|auto]. apply in_map_iff in H as (v0 & E & H). injection E as _ ->. elim (job_step_nostart _ _ _ _ _ _ _ _ _ _ Hstep H). }
      assert (Hh : forall j p, j <> i -> (handled (l_conc s) j p <-> handled (l_conc s') j p)).
      { intros j p Hji. unfold handled. rewrite Hlog. cbn [s' l_conc k_jobs]. split; intros [H1 H2]; (split; [exact H1|]); intros p' H; apply (H2 p'); apply (Hoth j p' Hji); exact H. }
      assert (Hpk : forall p, In (i, EvStart p) (k_log (l_conc s)) -> p = pk). { intros p H. apply evs_in in H. eapply jok_start; eassumption. }
      assert (Hhi : handled (l_conc s') i pk). { split; [apply Hlog, evs_in; eapply jok_hd; exact Hj|]. cbn [s' l_conc k_jobs]. exact Hself. }
      assert (Hnew : forall now0 en, ~ In (i, now0, en) (l_recs s)).
      { intros now0 en H. destruct (li_sound _ IH _ _ _ H) as (_ & p & _ & _ & [_ Hk] & _). apply (Hk pk). exact Hin. }
      destruct IH as [F1 F2 F3 F4]. split.
      * cbn [s' l_file l_recs]. rewrite F1, map_app, concat_app, map_map. reflexivity.
      * cbn [s' l_recs]. rewrite map_app, map_map. destruct (start_log_case (e k) (os k) pk (Ho k)) as [_|ih po en Hen]; cbn [map]; [rewrite app_nil_r; exact F2|].
        apply NoDup_snoc; [exact F2|]. intros H. apply in_map_iff in H as ([[j t] en'] & E & H). unfold rec_job in E. cbn in E. subst j. exact (Hnew _ _ H).
      * intros j t en H. cbn [s' l_recs] in H. apply in_app_iff in H as [H|H].
        -- destruct (F3 _ _ _ H) as (Ht & p & ih & po & Hk & Hrec). split; [exact Ht|]. exists p, ih, po. split; [|exact Hrec]. apply Hh; [|exact Hk]. intros ->. exact (Hnew _ _ H).
        -- apply in_map_iff in H as (en' & E & H). injection E as <- <- ->. split; [exact Hnow|].
           destruct (start_log_case (e k) (os k) pk (Ho k)) as [_|ih po en0 Hen]; [elim H|]. destruct H as [<-|[]]. exists pk, ih, po. auto.
      * intros j p ih po Hk Hs. destruct (Nat.eq_dec j i) as [->|Hji].
        -- assert (p = pk) by (apply Hpk, Hlog, Hk). subst p. cbn [s' l_recs].
           destruct (start_log_case (e k) (os k) pk (Ho k)) as [Hno|ih' po' en0 Hen]; [elim (Hno _ _ Hs)|]. exists now, en0. split; [apply in_app_iff; right; left; reflexivity|].
           destruct Hs as [en' Hs]. destruct (record_det _ _ _ _ _ _ _ Hs Hen) as [-> ->]. exact Hen.
        -- apply Hh in Hk; [|exact Hji]. destruct (F4 _ _ _ _ Hk Hs) as (t & en & H & Hrec). exists t, en. split; [apply in_app_iff; auto|exact Hrec].
    + eapply linv_keep; [exact IH|reflexivity|reflexivity|]. intros j p. unfold handled. cbn [l_conc k_log k_jobs]. rewrite in_app_iff.
      assert (Hx : ~ In (j, EvStart p) (map (pair i) v)). { intros H. apply in_map_iff in H as (v0 & E & H). injection E as _ ->. elim (job_step_nostart _ _ _ _ _ _ _ _ _ _ Hstep H). }
      assert (Hy : forall p', In (j, p', JStart) (l1 ++ (i, pk, pc') :: l2) <-> In (j, p', JStart) (k_jobs (l_conc s))).
      { intros p'. pose proof (job_step_ne _ _ _ _ _ _ _ _ _ Hstep). rewrite Hsplit, !in_app_iff. cbn. intuition congruence. }
      split; intros [H1 H2]; (split; [tauto|]); intros p' H; apply (H2 p'), Hy, H.
    + eapply linv_keep; [exact IH|reflexivity|reflexivity|]. intros j p. unfold handled. cbn [l_conc k_log k_jobs]. rewrite in_app_iff. split; intros [H1 H2].
      * split; [auto|]. intros p' H. apply in_app_iff in H as [H|[H|[]]]; [exact (H2 p' H)|]. injection H as <- <-.
        apply evs_in in H1. rewrite (i_fresh _ _ _ _ HI _ (le_n _)) in H1. exact H1.
      * assert (Hj : forall p', ~ In (j, p', JStart) (k_jobs (l_conc s))) by (intros p' H; apply (H2 p'), in_app_iff; auto).
        split; [|exact Hj]. destruct H1 as [H1|[E|[]]]; [exact H1|]. injection E as <- <-. elim (H2 pk). apply in_app_iff. right. left. reflexivity.
    + eapply linv_keep; [exact IH|reflexivity|reflexivity|]. intros j p. unfold handled. cbn [l_conc k_log k_jobs]. rewrite in_app_iff.
      assert (Hy : forall p', In (j, p', JStart) (l1 ++ l2) <-> In (j, p', JStart) (k_jobs (l_conc s))).
      { intros p'. rewrite Hsplit, !in_app_iff. cbn. intuition congruence. }
      split; intros [H1 H2]; (split; [|intros p' H; apply (H2 p'), Hy, H]); [auto|]. destruct H1 as [H1|[E|[]]]; [exact H1|discriminate E].
    + eapply linv_keep; [exact IH|reflexivity|reflexivity|]. intros j p. unfold handled. cbn [l_conc k_log k_jobs]. tauto.
Qed.
