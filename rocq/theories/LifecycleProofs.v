(** LifecycleProofs.v -- invariants of the runs of Lifecycle.v. *)
From Verif Require Import Base Node Krpc KrpcPf Dht DhtPf Conc ConcPf StartupPf WorkPool Shutdown ShutdownPf Lifecycle LifecycleSpec.
Local Open Scope list_scope.

Lemma sd_own_step s s' : d_dead s = false -> sd_own s s' -> sd_step s s' /\ d_dead s' = false.
Proof.
  intros Hd Ho. destruct Ho; (split; [|exact Hd]).
  - apply sd_wake; assumption.
  - apply sd_timeout; assumption.
  - apply sd_meet; assumption.
  - apply sd_return; assumption.
  - apply sd_add; assumption.
  - apply sd_range; assumption.
  - eapply sd_launch; eassumption.
  - apply sd_launched; assumption.
  - apply sd_waited; assumption.
  - eapply sd_done; eassumption.
Qed.

(** The registrations still to be made. *)
Fixpoint regs (e : env) (rest : list (bytes * hid)) (x : server hid) : res (server hid) :=
  match rest with [] => Ok x | (q, h) :: t => do y <- RegisteHandler e x q (Some h); regs e t y end.
Lemma regs_all e : regs e registrations (NewRpcServer (H:=hid)) = Run_server e.
Proof. reflexivity. Qed.

Definition listening (r : lrun) : Prop := match r with LrTake | LrSubmit _ => True | _ => False end.
Definition cleanset (r : lrun) : Prop := match r with LrListen | LrTake | LrSubmit _ => True | _ => False end.
Definition fetching (r : lrun) : Prop := match r with LrClean | LrListen | LrTake | LrSubmit _ => True | _ => False end.
Definition sdrest (r : rpc) : nat := match r with RLoop l => length l | _ => 0 end.
Definition early (r : rpc) : Prop := match r with RIdle | RAdd | RRange => True | _ => False end.

Definition before_cleaning (m : mpc) : bool := match m with MWait | MGot => true | _ => false end.
Definition late_ok (tr : list lev) : Prop := In LvCleaning tr /\ forall a b, tr = a ++ LvListen :: b -> In LvCleaning a.
(** The order of start-up and the way of the packets. *)
Record linv (e : env) (hosts : list bytes) (tr : list lev) (s : life) : Prop := {
  li_boot : match l_main s with
            | LBoot rest => booted tr ++ rest = hosts /\ l_run s = LrIdle
            | LGo => booted tr = hosts /\ l_run s = LrIdle
            | LWaiting => booted tr = hosts /\ l_run s <> LrIdle end;
  li_wait : d_main (l_sd s) <> MWait -> l_main s = LWaiting;
  li_srv : match l_run s with LrIdle => regs e registrations (l_srv s) | LrReg rest => regs e rest (l_srv s) | _ => Ok (l_srv s) end = Run_server e;
  li_fetch : fetching (l_run s) <-> In LvFetch tr;
  li_listen : listening (l_run s) <-> In LvListen tr;
  li_jobs : ~ listening (l_run s) -> l_jobs s = [] /\ ltaken tr = [];
  li_fifo : lreads tr = ltaken tr ++ l_q s ++ match l_read s with LdSend p => [p] | _ => [] end;
  li_perm : Permutation (ltaken tr) (lhandled tr ++ l_jobs s ++ match l_run s with LrSubmit p => [p] | _ => [] end);
  li_len : length (l_q s) <= LRecvChanLen /\ Forall (fun p => length (snd p) <= 1024) (lreads tr) }.
(** The shutdown. *)
Record lsinv (tr : list lev) (s : life) : Prop := {
  li_sd : sd_reach (l_sd s) /\ d_dead (l_sd s) = false /\ d_cancelled (l_sd s) = false;
  li_sig : d_signalled (l_sd s) = true <-> In LvSignal tr;
  li_cleans : (cleanset (l_run s) -> d_cleans (l_sd s) = [0]) /\ (~ cleanset (l_run s) -> d_cleans (l_sd s) = []);
  li_cleaning : if before_cleaning (d_main (l_sd s)) then ~ In LvCleaning tr else In LvCleaning tr;
  li_idle : started_running (d_run (l_sd s)) = negb (before_cleaning (d_main (l_sd s)));
  li_late : d_late (l_sd s) = true -> late_ok tr }.
(** The clean function. *)
Record lcinv (tr : list lev) (s : life) : Prop := {
  li_zero : forall c, In c (d_cleans (l_sd s)) -> c = 0;
  li_lz : forall rest, d_run (l_sd s) = RLoop rest -> forall c, In c rest -> c = 0;
  li_few : length (d_cleans (l_sd s)) <= 1;
  li_early : early (d_run (l_sd s)) -> d_gos (l_sd s) = [] /\ d_calls (l_sd s) = [];
  li_one : length (d_calls (l_sd s)) + length (names (d_gos (l_sd s)) is_start) + sdrest (d_run (l_sd s)) <= 1;
  li_close : match l_close s with
             | LcIdle => d_calls (l_sd s) = [] /\ d_ended (l_sd s) = [] /\ l_closed s = false /\ l_sock s = true /\ (d_gos (l_sd s) = [] \/ d_gos (l_sd s) = [(0, CStart)])
             | LcStore => d_gos (l_sd s) = [(0, CRun)] /\ length (d_calls (l_sd s)) = 1 /\ d_ended (l_sd s) = [] /\ l_closed s = false /\ l_sock s = true
             | LcConn => d_gos (l_sd s) = [(0, CRun)] /\ length (d_calls (l_sd s)) = 1 /\ d_ended (l_sd s) = [] /\ l_closed s = true /\ l_sock s = true
             | LcDone => l_closed s = true /\ l_sock s = false /\ length (d_calls (l_sd s)) = 1 /\ (d_gos (l_sd s) = [(0, CRun)] \/ d_gos (l_sd s) = [(0, CEnd)] \/ d_gos (l_sd s) = [])
             end;
  li_sock : l_sock s = false <-> In LvClosed tr }.

Lemma booted_snoc tr v : booted (tr ++ [v]) = booted tr ++ match v with LvBoot h => [h] | _ => [] end.
Proof. unfold booted. rewrite flat_map_app. cbn [flat_map]. rewrite app_nil_r. reflexivity. Qed.
Lemma lreads_snoc tr v : lreads (tr ++ [v]) = lreads tr ++ match v with LvRead p => [p] | _ => [] end.
Proof. unfold lreads. rewrite flat_map_app. cbn [flat_map]. rewrite app_nil_r. reflexivity. Qed.
Lemma ltaken_snoc tr v : ltaken (tr ++ [v]) = ltaken tr ++ match v with LvTaken p => [p] | _ => [] end.
Proof. unfold ltaken. rewrite flat_map_app. cbn [flat_map]. rewrite app_nil_r. reflexivity. Qed.
Lemma lhandled_snoc tr v : lhandled (tr ++ [v]) = lhandled tr ++ match v with LvHandle p _ => [p] | _ => [] end.
Proof. unfold lhandled. rewrite flat_map_app. cbn [flat_map]. rewrite app_nil_r. reflexivity. Qed.

Lemma in_snoc {A} (x v : A) l : In x (l ++ [v]) <-> In x l \/ v = x.
Proof. rewrite in_app_iff. cbn. tauto. Qed.

Lemma snoc_split {A} (tr : list A) v a x b : tr ++ [v] = a ++ x :: b -> (b = [] /\ v = x /\ tr = a) \/ (exists b', b = b' ++ [v] /\ tr = a ++ x :: b').
Proof.
  intros H. destruct (exists_last (l:=x :: b)) as (l' & y & E); [discriminate|].
  destruct l' as [|x' l'].
  - cbn in E. injection E as <- ->. apply app_inj_tail in H as [-> ->]. left. auto.
  - cbn in E. injection E as <- ->. right. exists l'. rewrite app_comm_cons, app_assoc in H. apply app_inj_tail in H as [-> ->]. auto.
Qed.

(** Every prefix of a run is a run, and the next event a step. *)
Lemma run_prefix e hosts tr s : life_run e hosts tr s -> forall a v b, tr = a ++ v :: b -> exists s1 s2, life_run e hosts a s1 /\ life_step e s1 v s2 /\ life_run e hosts (a ++ [v]) s2.
Proof.
  induction 1 as [|tr s w s' Hr IH Hs]; intros a v b E; [destruct a; discriminate|].
  apply snoc_split in E as [(-> & -> & ->)|(b' & -> & E)].
  - exists s, s'. split; [exact Hr|split; [exact Hs|]]. eapply lr_step; eassumption.
  - eapply IH. exact E.
Qed.

Ltac lcases Hs := destruct Hs as [h t He Em|h t He Em|He Em|He Em|He|q h t x He Er Ex|q h t p He Er Ex|He Er|He Er|He Er|He Er|He Ed Ec|He Ed Ec|p He Ed Ek Hle|He Ed|p He Ed Hlt|p q He Er Eq|p He Er|l1 p l2 He Ej
  |He Em|d He Em Ho|l1 c l2 He Eg|He Ec|He Ec|l1 c l2 He Ec Eg|l1 c l2 He Eg Ew|b He Em].
Ltac lsimp := cbn [l_main l_run l_srv l_sd l_read l_q l_jobs l_close l_closed l_sock l_end ls_main ls_srv ls_sd ls_net ls_close ls_end];
  rewrite ?booted_snoc, ?lreads_snoc, ?ltaken_snoc, ?lhandled_snoc; cbv iota; rewrite ?app_nil_r.
Lemma in_other (x v : lev) tr : v <> x -> (In x (tr ++ [v]) <-> In x tr).
Proof. intros H. rewrite in_snoc. tauto. Qed.
Ltac oth := rewrite ?in_other by discriminate.
Opaque Run_server regs RegisteHandler registrations.

Lemma regs_cons e q h t x y : RegisteHandler e x q (Some h) = Ok y -> regs e ((q, h) :: t) x = regs e t y.
Proof. intros H. Transparent regs. cbn [regs]. rewrite H. reflexivity. Qed.
Lemma regs_nil e x : regs e [] x = Ok x. Proof. reflexivity. Qed.
Opaque regs.
Lemma regs_fails e q h t x p : RegisteHandler e x q (Some h) = Panic p -> regs e ((q, h) :: t) x = Panic p.
Proof. intros H. Transparent regs. cbn [regs]. rewrite H. reflexivity. Qed.
Opaque regs.

Lemma linv_step e hosts tr s v s' : linv e hosts tr s -> life_step e s v s' -> linv e hosts (tr ++ [v]) s'.
Proof.
  intros [Hb Hw Hv Hf Hl Hj Hq Hp Hn] Hs.
  assert (Hm : l_main s = LWaiting \/ l_run s = LrIdle) by (destruct (l_main s); [right; apply Hb|right; apply Hb|left; reflexivity]).
  lcases Hs; constructor; lsimp; try assumption; oth; try assumption;
    try (rewrite Em in *; first [tauto | discriminate | congruence]).
  all: try (rewrite Er in *; destruct Hm as [Hm|Hm]; [rewrite Hm in *|discriminate Hm]; cbn [fetching listening] in *; rewrite ?app_nil_r in *; try (rewrite in_snoc); try tauto).
  - rewrite Em in Hb. destruct Hb as [Hb1 Hb2]. split; [|exact Hb2]. rewrite <- app_assoc. exact Hb1.
  - intros H. apply Hw in H. rewrite Em in H. discriminate.
  - rewrite Em in Hb. rewrite app_nil_r in Hb. exact Hb.
  - intros H. apply Hw in H. rewrite Em in H. discriminate.
  - rewrite Em in Hb. destruct Hb as [Hb1 Hb2]. split; [exact Hb1|discriminate].
  - rewrite Em in Hb. destruct Hb as [Hb1 Hb2]. rewrite Hb2 in Hv. exact Hv.
  - rewrite Em in Hb. destruct Hb as [Hb1 Hb2]. rewrite Hb2 in Hf. exact Hf.
  - rewrite Em in Hb. destruct Hb as [Hb1 Hb2]. rewrite Hb2 in Hl. exact Hl.
  - rewrite Em in Hb. destruct Hb as [Hb1 Hb2]. rewrite Hb2 in Hj. exact Hj.
  - rewrite Em in Hb. destruct Hb as [Hb1 Hb2]. rewrite Hb2, app_nil_r in Hp. exact Hp.
  - split; [apply Hb|discriminate].
  - rewrite (regs_cons _ _ _ _ _ _ Ex) in Hv. exact Hv.
  - split; [apply Hb|discriminate].
  - split; [apply Hb|discriminate].
  - split; [apply Hb|discriminate].
  - split; [apply Hb|discriminate].
  - rewrite Ed, app_nil_r in Hq. exact Hq.
  - rewrite Ed, app_nil_r in Hq. exact Hq.
  - rewrite Ed, app_nil_r in Hq. rewrite Hq, app_assoc. reflexivity.
  - split; [apply Hn|]. apply Forall_app. split; [apply Hn|]. constructor; [exact Hle|constructor].
  - rewrite Ed, app_nil_r in Hq. exact Hq.
  - rewrite Ed in Hq. exact Hq.
  - split; [|apply Hn]. rewrite app_length. cbn [length]. lia.
  - split; [apply Hb|discriminate].
  - rewrite Eq in Hq. rewrite Hq, <- app_assoc. reflexivity.
  - rewrite app_assoc. apply Permutation_app_tail. exact Hp.
  - split; [|apply Hn]. destruct Hn as [Hn _]. rewrite Eq in Hn. cbn [length] in Hn. lia.
  - split; [apply Hb|discriminate].
  - intros H. destruct (Hj H) as [H1 _]. rewrite H1 in Ej. destruct l1; discriminate.
  - eapply Permutation_trans; [exact Hp|]. rewrite Ej, <- !app_assoc. apply Permutation_app_head. cbn [app].
    apply Permutation_sym. apply (Permutation_middle l1 (l2 ++ _) p).
  - intros _. apply Hw. rewrite Em. discriminate.
Qed.

Lemma linv_run e hosts tr s : life_run e hosts tr s -> linv e hosts tr s.
Proof.
  induction 1 as [|tr s v s' Hr IH Hs]; [|eapply linv_step; eassumption].
  constructor; cbn [life_init l_main l_run l_srv l_sd l_read l_q l_jobs]; cbn [booted lreads ltaken lhandled flat_map app].
  - auto.
  - intros H. elim H. reflexivity.
  - apply regs_all.
  - cbn. tauto.
  - cbn. tauto.
  - auto.
  - reflexivity.
  - constructor.
  - split; [unfold LRecvChanLen; cbn; lia|constructor].
Qed.

Lemma late_snoc tr v : late_ok tr -> late_ok (tr ++ [v]).
Proof.
  intros [H1 H2]. split; [apply in_snoc; auto|]. intros a b E. apply snoc_split in E as [(_ & _ & <-)|(b' & _ & E)]; [exact H1|]. eapply H2. exact E.
Qed.

Lemma sd_own_facts d d' : sd_own d d' ->
  d_cancelled d' = d_cancelled d /\ d_signalled d' = d_signalled d /\ d_cleans d' = d_cleans d /\ d_late d' = d_late d /\ d_calls d' = d_calls d /\ d_ended d' = d_ended d /\
  started_running (d_run d') = started_running (d_run d) /\ before_cleaning (d_main d') = before_cleaning (d_main d).
Proof.
  intros H. destruct H; cbn [set_main set_run d_cancelled d_signalled d_cleans d_late d_calls d_ended d_run d_main].
  all: repeat match goal with H : d_main _ = _ |- _ => rewrite H; clear H | H : d_run _ = _ |- _ => rewrite H; clear H end.
  all: repeat split; reflexivity.
Qed.

Lemma lsinv_step e tr s v s' : lsinv tr s -> life_step e s v s' -> (l_run s = LrClean -> ~ In LvListen tr) -> (l_main s <> LWaiting -> l_run s = LrIdle) -> lsinv (tr ++ [v]) s'.
Proof.
  intros [Hd Hg Hc Hn Hi Hl] Hs Hnl Hmw. destruct Hd as (Hd1 & Hd2 & Hd3).
  lcases Hs; constructor; lsimp; try assumption; oth; try assumption; try (split; [assumption|split; assumption]).
  all: try (intros H; apply late_snoc, Hl; exact H).
  all: try (rewrite Er in Hc; exact Hc).
  all: try (cbn [set_env set_run d_main]; destruct (before_cleaning (d_main (l_sd _))); rewrite in_other by discriminate; exact Hn).
  - rewrite Hmw in Hc by (rewrite Em; discriminate). exact Hc.
  - split; [|split; assumption]. eapply sdr_step; [exact Hd1|]. apply sd_signal. exact Hd2.
  - cbn. rewrite in_snoc. tauto.
  - split; [|split; assumption]. eapply sdr_step; [exact Hd1|]. apply sd_clean. exact Hd2.
  - split; intros H; [|elim H; exact I]. cbn [set_env d_cleans]. rewrite Er in Hc. destruct Hc as [_ Hc]. rewrite Hc by (cbn; tauto). reflexivity.
  - intros H. apply late_snoc. cbn [set_env d_late] in H. apply orb_true_iff in H as [H|H]; [exact (Hl H)|].
    rewrite Hi in H. destruct (before_cleaning (d_main (l_sd s))); [discriminate|]. split; [exact Hn|].
    intros a b E. elim (Hnl Er). rewrite E. apply in_app_iff. right. left. reflexivity.
  - split; [|split; assumption]. eapply sdr_step; [exact Hd1|]. apply sd_begin; assumption.
  - cbn. rewrite in_snoc. tauto.
  - reflexivity.
  - destruct (sd_own_step _ _ Hd2 Ho) as [Ho1 Ho2]. destruct (sd_own_facts _ _ Ho) as (-> & _). split; [|split; assumption]. eapply sdr_step; eassumption.
  - destruct (sd_own_facts _ _ Ho) as (_ & -> & _). exact Hg.
  - destruct (sd_own_facts _ _ Ho) as (_ & _ & -> & _). exact Hc.
  - destruct (sd_own_facts _ _ Ho) as (_ & _ & _ & _ & _ & _ & _ & ->). destruct (before_cleaning (d_main (l_sd s))); rewrite in_other by discriminate; exact Hn.
  - destruct (sd_own_facts _ _ Ho) as (_ & _ & _ & _ & _ & _ & -> & ->). exact Hi.
  - destruct (sd_own_facts _ _ Ho) as (_ & _ & _ & -> & _). intros H. apply late_snoc, Hl, H.
  - split; [|split; assumption]. eapply sdr_step; [exact Hd1|]. eapply sd_call; eassumption.
  - split; [|split; assumption]. eapply sdr_step; [exact Hd1|]. eapply sd_end; eassumption.
Qed.

Lemma lsinv_run e hosts tr s : life_run e hosts tr s -> lsinv tr s.
Proof.
  induction 1 as [|tr s v s' Hr IH Hs].
  - constructor; cbn.
    + split; [apply sdr_init|auto].
    + split; [discriminate|tauto].
    + split; [tauto|reflexivity].
    + tauto.
    + reflexivity.
    + discriminate.
  - pose proof (linv_run _ _ _ _ Hr) as Hi. eapply lsinv_step; [exact IH|exact Hs| |].
    + intros E H. apply (li_listen _ _ _ _ Hi) in H. rewrite E in H. exact H.
    + intros E. pose proof (li_boot _ _ _ _ Hi) as H. destruct (l_main s); [apply H|apply H|elim E; reflexivity].
Qed.

Lemma names_len_app a x b f : length (names (a ++ x :: b) f) = length (names a f) + (if f (snd x) then 1 else 0) + length (names b f).
Proof. destruct x as [c k]. rewrite names_app, names_cons, !app_length. cbn [snd]. destruct (f k); cbn [length]; lia. Qed.

Lemma one_elem {A} (x y : A) l1 l2 : [x] = l1 ++ y :: l2 -> l1 = [] /\ l2 = [] /\ y = x.
Proof. destruct l1 as [|a l1]; cbn [app]; intros H; [injection H as -> <-; auto|injection H as _ H; destruct l1; discriminate]. Qed.

Lemma lcinv_step e tr s v s' : lcinv tr s -> life_step e s v s' -> (l_run s = LrClean -> d_cleans (l_sd s) = []) -> (before_cleaning (d_main (l_sd s)) = true -> d_run (l_sd s) = RIdle) -> lcinv (tr ++ [v]) s'.
Proof.
  intros [Hz Hlz Hf Ey H1 Hk Hso] Hs Hcl Hri.
  lcases Hs; constructor; lsimp; try assumption; oth; try assumption.
  - cbn [set_env d_cleans]. intros c H. apply in_snoc in H as [H|H]; [exact (Hz c H)|symmetry; exact H].
  - cbn [set_env d_cleans]. rewrite Hcl by exact Er. cbn. lia.
  - discriminate.
  - intros _. cbn [set_main d_gos d_calls]. apply Ey. rewrite Hri by (rewrite Em; reflexivity). exact I.
  - cbn [set_main d_gos d_calls d_run sdrest]. lia.
  - destruct (sd_own_facts _ _ Ho) as (_ & _ & -> & _). exact Hz.
  - destruct Ho; cbn [set_main set_run d_run]; intros r E c0 Hi; try (eapply Hlz; eassumption); try discriminate E.
    + injection E as <-. exact (Hz _ Hi).
    + injection E as ->. eapply Hlz; [eassumption|right; exact Hi].
  - destruct (sd_own_facts _ _ Ho) as (_ & _ & -> & _). exact Hf.
  - destruct Ho as [Hm _|Hm|Hm Er|b Hm|Er|Er|c rest Er|Er|Er Ew|l1 c l2 n Eg Ew]; cbn [set_main set_run d_run d_gos d_calls]; intros E; try exact (Ey E); try (cbn in E; contradiction).
    + apply Ey. rewrite Er. exact I.
    + destruct (Ey E) as [H _]. rewrite H in Eg. destruct l1; discriminate.
  - destruct Ho as [Hm _|Hm|Hm Er|b Hm|Er|Er|c rest Er|Er|Er Ew|l1 c l2 n Eg Ew]; cbn [set_main set_run d_run d_gos d_calls]; try rewrite Er in *; cbn [sdrest] in *; try lia.
    + destruct (Ey I) as [-> ->]. change (names [] is_start) with (@nil nat). cbn [length]. lia.
    + rewrite names_app, app_length. unfold names at 2. cbn [filter snd is_start map length] in *. lia.
    + rewrite Eg, names_len_app in H1. cbn [snd is_start] in H1. rewrite names_app, app_length. lia.
  - destruct (sd_own_facts _ _ Ho) as (_ & _ & _ & _ & -> & -> & _).
    destruct Ho as [Hm _|Hm|Hm Er|b Hm|Er|Er|c rest Er|Er|Er Ew|l1 c l2 n Eg Ew]; cbn [set_main set_run d_gos]; try exact Hk.
    + rewrite Er in *. cbn [sdrest length] in H1. destruct (l_close s); try (exfalso; lia).
      destruct Hk as (K1 & K2 & K3 & K4 & [K5|K5]); repeat (split; [assumption|]); rewrite K5 in *.
      * right. cbn [app]. rewrite (Hlz _ eq_refl c (or_introl eq_refl)). reflexivity.
      * exfalso. unfold names in H1. cbn [filter snd is_start map length] in H1. lia.
    + destruct (l_close s).
      * destruct Hk as (_ & _ & _ & _ & [K|K]); rewrite K in Eg; [destruct l1; discriminate|apply one_elem in Eg as (_ & _ & E); discriminate].
      * destruct Hk as (K & _). rewrite K in Eg. apply one_elem in Eg as (_ & _ & E). discriminate.
      * destruct Hk as (K & _). rewrite K in Eg. apply one_elem in Eg as (_ & _ & E). discriminate.
      * destruct Hk as (K1 & K2 & K3 & [K|[K|K]]); rewrite K in Eg; [apply one_elem in Eg as (_ & _ & E); discriminate| |destruct l1; discriminate].
        apply one_elem in Eg as (-> & -> & _). cbn [app]. auto 10.
  - cbn [set_run d_run]. intros E. destruct (Ey E) as [H _]. rewrite H in Eg. destruct l1; discriminate.
  - cbn [set_run d_run d_calls d_gos]. rewrite Eg, names_len_app in H1. cbn [snd is_start] in H1. rewrite names_len_app, app_length. cbn [snd is_start length]. lia.
  - cbn [set_run d_gos d_calls d_ended]. rewrite Eg, names_len_app in H1. cbn [snd is_start] in H1.
    destruct (l_close s).
    + destruct Hk as (K1 & K2 & K3 & K4 & [K|K]); rewrite K in Eg; [destruct l1; discriminate|]. apply one_elem in Eg as (-> & -> & E). injection E as ->.
      cbn [app]. rewrite K1. cbn. auto 10.
    + exfalso. lia.
    + exfalso. lia.
    + exfalso. lia.
  - rewrite Ec in Hk. destruct Hk as (K1 & K2 & K3 & K4 & K5). auto 10.
  - rewrite Ec in Hk. destruct Hk as (K1 & K2 & K3 & K4 & K5). auto 10.
  - rewrite in_snoc. tauto.
  - cbn [set_run d_run]. intros E. destruct (Ey E) as [H _]. rewrite H in Eg. destruct l1; discriminate.
  - cbn [set_run d_run d_calls d_gos]. rewrite Eg, names_len_app in H1. cbn [snd is_start] in H1. rewrite names_len_app. cbn [snd is_start length]. lia.
  - cbn [set_run d_gos d_calls d_ended]. rewrite Ec in Hk. destruct Hk as (K1 & K2 & K3 & [K|[K|K]]); rewrite K in Eg; [|apply one_elem in Eg as (_ & _ & E); discriminate|destruct l1; discriminate].
    apply one_elem in Eg as (-> & -> & E). injection E as ->. cbn [app]. auto 10.
Qed.

Lemma lcinv_run e hosts tr s : life_run e hosts tr s -> lcinv tr s.
Proof.
  induction 1 as [|tr s v s' Hr IH Hs].
  - constructor; cbn.
    + tauto.
    + discriminate.
    + lia.
    + auto.
    + change (names [] is_start) with (@nil nat). cbn. lia.
    + auto 10.
    + split; [discriminate|tauto].
  - pose proof (lsinv_run _ _ _ _ Hr) as Hi. eapply lcinv_step; [exact IH|exact Hs| |].
    + intros E. apply (li_cleans _ _ Hi). rewrite E. cbn. tauto.
    + intros E. pose proof (li_idle _ _ Hi) as H. rewrite E in H. destruct (d_run (l_sd s)); try discriminate. reflexivity.
Qed.
