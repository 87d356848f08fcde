(** PprofPf.v -- proofs of C127 (the debug server). *)
From Verif Require Import Base GoLib Node NetAddr KrpcSpec DhtSpec Conc ConcSpec System Startup StartupSpec StartupPf FileSys FileSysProofs Pprof PprofSpec LoggerPf.
Local Open Scope list_scope.

(** ** Lemmas: paths *)
Lemma path_join l : l <> [] -> slash :: join_slash l = path_of l.
Proof.
  induction l as [|x l IH]; [congruence|]. intros _. cbn [path_of]. unfold slash at 1. f_equal. destruct l as [|y l]; [cbn [join_slash path_of]; rewrite app_nil_r; reflexivity|].
  change (join_slash (x :: y :: l)) with (x ++ slash :: join_slash (y :: l)). rewrite IH by discriminate. reflexivity.
Qed.
Lemma beq_no a b : a <> b -> beq a b = false.
Proof. intros H. destruct (beq a b) eqn:E; [apply beq_true in E; contradiction|reflexivity]. Qed.
Lemma step_element abs out c : element c -> clean_step abs out c = c :: out.
Proof. intros (H1 & H2 & H3 & _). unfold clean_step. destruct c; [congruence|]. cbn [is_empty orb]. rewrite (beq_no _ _ H2), (beq_no _ _ H3). reflexivity. Qed.
Lemma fold_elements l : forall out, Forall element l -> fold_left (clean_step true) l out = rev l ++ out.
Proof.
  induction l as [|x l IH]; intros out H; [reflexivity|]. inversion_clear H as [|? ? Hx Hl]. cbn [fold_left rev]. rewrite step_element by exact Hx. rewrite IH by exact Hl. rewrite <- app_assoc. reflexivity.
Qed.
Lemma fold_clean l : forall out, Forall (fun c => ~ In slash c) l -> Forall element out -> Forall element (fold_left (clean_step true) l out).
Proof.
  induction l as [|x l IH]; intros out Hl Ho; [exact Ho|]. inversion_clear Hl as [|? ? Hx Hl']. cbn [fold_left]. apply IH; [exact Hl'|]. unfold clean_step.
  destruct (is_empty x) eqn:E1; [exact Ho|]. destruct (beq x (B ".")) eqn:E2; [exact Ho|]. cbn [orb]. destruct (beq x (B "..")) eqn:E3.
  - destruct out as [|y o]; [constructor|]. inversion_clear Ho as [|? ? Hy Ho']. destruct Hy as (_ & _ & Hy & _). rewrite (beq_no _ _ Hy). exact Ho'.
  - constructor; [|exact Ho]. split; [intros ->; discriminate|]. split; [intros ->; discriminate|]. split; [intros ->; discriminate|exact Hx].
Qed.
Lemma clean_rooted p : rooted p = true -> exists l, Forall element l /\ Clean p = match l with [] => B "/" | _ => path_of l end.
Proof.
  intros Hr. unfold Clean. rewrite Hr. exists (rev (fold_left (clean_step true) (comps p) [])). split; [apply Forall_rev, fold_clean; [apply split_free|constructor]|].
  destruct (rev _) as [|x l]; [reflexivity|]. apply path_join. discriminate.
Qed.
Lemma comps_path l : Forall element l -> comps (path_of l) = match l with [] => [[]] | _ => [] :: l end.
Proof.
  intros H. destruct l as [|x l]; [reflexivity|]. rewrite <- path_join by discriminate. unfold comps. cbn [split_on]. rewrite Ascii.eqb_refl. f_equal.
  destruct (exists_last (l := x :: l)) as (l' & y & E); [discriminate|]. rewrite E in *. apply (comps_join l' y). eapply Forall_impl; [|exact H]. intros c (_ & _ & _ & Hc). exact Hc.
Qed.
Lemma clean_path l : l <> [] -> Forall element l -> Clean (path_of l) = path_of l /\ Clean (path_of l ++ B "/") = path_of l.
Proof.
  intros Hn H. assert (Hr : rooted (path_of l) = true) by (destruct l; [congruence|reflexivity]). assert (Hr2 : rooted (path_of l ++ B "/") = true) by (destruct l; [congruence|reflexivity]).
  unfold Clean. rewrite Hr, Hr2. assert (E1 : comps (path_of l) = [] :: l) by (rewrite comps_path by exact H; destruct l; [congruence|reflexivity]).
  assert (E2 : comps (path_of l ++ B "/") = ([] :: l) ++ [[]]). { change (B "/") with [slash]. unfold comps in *. rewrite split_app, E1. reflexivity. }
  rewrite E1, E2, fold_left_app. cbn [fold_left clean_step is_empty orb]. rewrite fold_elements by exact H. rewrite app_nil_r, rev_involutive. split; apply path_join; exact Hn.
Qed.
Lemma ends_app s c : ends_slash (s ++ [c]) = Ascii.eqb c slash.
Proof. unfold ends_slash. rewrite rev_app_distr. reflexivity. Qed.
Lemma ends_path l : l <> [] -> Forall element l -> ends_slash (path_of l) = false.
Proof.
  intros Hn H. destruct (exists_last Hn) as (l' & y & ->). apply Forall_app in H as [_ H]. inversion_clear H as [|? ? Hy _]. destruct Hy as (Hy1 & _ & _ & Hy).
  assert (E : path_of (l' ++ [y]) = path_of l' ++ slash :: y). { clear. induction l' as [|x l IH]; cbn [app path_of]; [rewrite app_nil_r; reflexivity|]. rewrite IH, <- app_assoc. reflexivity. }
  rewrite E. destruct (exists_last Hy1) as (y' & c & ->). change (path_of l' ++ slash :: y' ++ [c]) with (path_of l' ++ (slash :: y') ++ [c]). rewrite app_assoc, ends_app. apply Ascii.eqb_neq. intros ->. apply Hy. apply in_or_app. right. left. reflexivity.
Qed.
Lemma path_not_root l : Forall element l -> path_of l <> B "/".
Proof. intros H E. destruct l as [|x l]; [discriminate|]. inversion_clear H as [|? ? Hx _]. destruct Hx as (Hx & _). cbn [path_of] in E. destruct x; [congruence|discriminate]. Qed.
Lemma tidy_clean p : tidy p -> cleanPath p = p.
Proof.
  intros [->|(l & Hn & Hl & [->| ->])]; [reflexivity| |].
  - destruct (clean_path l Hn Hl) as [E _]. unfold cleanPath. destruct (path_of l) as [|c t] eqn:Ep; [destruct l; [congruence|discriminate]|].
    assert (Hc : c = slash) by (destruct l; [congruence|injection Ep; auto]). subst c. rewrite Ascii.eqb_refl, E. rewrite <- Ep, ends_path by assumption. reflexivity.
  - destruct (clean_path l Hn Hl) as [_ E]. unfold cleanPath. destruct (path_of l ++ B "/") as [|c t] eqn:Ep; [destruct l; discriminate|].
    assert (Hc : c = slash) by (destruct l; [congruence|injection Ep; auto]). subst c. rewrite Ascii.eqb_refl, E, <- Ep. change (B "/") with [slash] at 1. rewrite ends_app, Ascii.eqb_refl.
    rewrite beq_no by (apply path_not_root; exact Hl). reflexivity.
Qed.
Lemma cleaned_tidy p : tidy (cleanPath p).
Proof.
  unfold cleanPath. destruct p as [|c t]; [left; reflexivity|]. set (p1 := if Ascii.eqb c slash then c :: t else slash :: c :: t).
  assert (Hr : rooted p1 = true) by (unfold p1; destruct (Ascii.eqb c slash) eqn:E; [exact E|reflexivity]). destruct (clean_rooted p1 Hr) as (l & Hl & E). rewrite E. destruct l as [|x l].
  - change (beq (B "/") (B "/")) with true. cbn [negb]. rewrite andb_false_r. left. reflexivity.
  - right. exists (x :: l). split; [discriminate|]. split; [exact Hl|]. destruct (ends_slash p1 && negb (beq (path_of (x :: l)) (B "/"))); [right|left]; reflexivity.
Qed.
Lemma tidy_slash p : tidy p -> ends_slash p = false -> tidy (p ++ [slash]).
Proof. intros [->|(l & Hn & Hl & [->| ->])] H; [discriminate| |change (B "/") with [slash] in H; rewrite ends_app in H; discriminate]. right. exists l. split; [exact Hn|]. split; [exact Hl|]. right. reflexivity. Qed.

(** ** Lemmas: the patterns *)
Definition the_mux : mux := [(B "/debug/pprof/", HIndex); (B "/debug/pprof/cmdline", HCmdline); (B "/debug/pprof/profile", HProfile); (B "/debug/pprof/symbol", HSymbol); (B "/debug/pprof/trace", HTrace)].
Lemma started : StartPProf = Ok (the_mux, debug_addr).
Proof. vm_compute. reflexivity. Qed.
Lemma starts_iff p s : starts p s = true <-> exists r, s = p ++ r.
Proof.
  revert s. induction p as [|x p IH]; intros s; [split; [intros _; exists s; reflexivity|reflexivity]|]. destruct s as [|y s]; [split; [intros E; discriminate E|intros [r E]; discriminate E]|].
  cbn [starts]. rewrite andb_true_iff, IH, Ascii.eqb_eq. split; [intros (-> & r & ->); exists r; reflexivity|]. intros [r E]. injection E as -> ->. split; [reflexivity|exists r; reflexivity].
Qed.
Lemma reg_iff p : registered the_mux p = true <-> In p (map fst the_mux).
Proof.
  unfold registered. assert (H : forall m, (exists h, mux_get m p = Some h) <-> In p (map fst m)).
  { induction m as [|[q h] m IH]; cbn [mux_get map fst In]; [split; [intros [h E]; discriminate|intros []]|]. destruct (beq q p) eqn:E; [apply beq_true in E; split; [intros _; left; exact E|intros _; exists h; reflexivity]|].
    rewrite IH. split; [auto|]. intros [->|Hx]; [|exact Hx]. rewrite (proj2 (beq_true _ _) eq_refl) in E. discriminate. }
  rewrite <- H. destruct (mux_get the_mux p) as [h|]; [split; [intros _; exists h; reflexivity|reflexivity]|]. split; [discriminate|intros [h E]; discriminate].
Qed.
Lemma reg_slash x : registered the_mux (x ++ [slash]) = true -> x = B "/debug/pprof".
Proof.
  rewrite reg_iff. unfold the_mux. cbn [map fst In]. intros [E|[E|[E|[E|[E|[]]]]]]; symmetry in E;
    [change (B "/debug/pprof/") with (B "/debug/pprof" ++ [slash]) in E; apply app_inj_tail in E; tauto|..];
    exfalso; apply (f_equal ends_slash) in E; rewrite ends_app in E; vm_compute in E; discriminate E.
Qed.
Lemma match_path p : mux_match the_mux p =
  if beq dir p then Some HIndex else if beq (dir ++ B "cmdline") p then Some HCmdline else if beq (dir ++ B "profile") p then Some HProfile
  else if beq (dir ++ B "symbol") p then Some HSymbol else if beq (dir ++ B "trace") p then Some HTrace else if starts dir p then Some HIndex else None.
Proof.
  unfold mux_match, the_mux. cbn [mux_get mux_longest]. change (dir ++ B "cmdline") with (B "/debug/pprof/cmdline"). change (dir ++ B "profile") with (B "/debug/pprof/profile").
  change (dir ++ B "symbol") with (B "/debug/pprof/symbol"). change (dir ++ B "trace") with (B "/debug/pprof/trace"). change (B "/debug/pprof/") with dir.
  change (ends_slash dir) with true. change (ends_slash (B "/debug/pprof/cmdline")) with false. change (ends_slash (B "/debug/pprof/profile")) with false.
  change (ends_slash (B "/debug/pprof/symbol")) with false. change (ends_slash (B "/debug/pprof/trace")) with false. cbn [andb]. rewrite andb_true_r.
  destruct (beq dir p); [reflexivity|]. destruct (beq (B "/debug/pprof/cmdline") p); [reflexivity|]. destruct (beq (B "/debug/pprof/profile") p); [reflexivity|].
  destruct (beq (B "/debug/pprof/symbol") p); [reflexivity|]. destruct (beq (B "/debug/pprof/trace") p); [reflexivity|]. destruct (starts dir p); reflexivity.
Qed.
Lemma index_page rest : ~ In rest [B "cmdline"; B "profile"; B "symbol"; B "trace"] -> page_at rest (Index (dir ++ rest)).
Proof.
  intros H. unfold Index. change index_prefix with dir. rewrite (proj2 (starts_iff dir (dir ++ rest)) (ex_intro _ rest eq_refl)).
  rewrite skipn_app, skipn_all, Nat.sub_diag. cbn [app skipn]. destruct rest as [|c r]; [exact pa_list|]. destruct (existsb (beq (c :: r)) builtin_profiles) eqn:E.
  - apply existsb_exists in E as (n & Hin & Hn). apply beq_true in Hn. subst n. apply pa_profile. exact Hin.
  - apply pa_other; [discriminate|]. intros Hin.
    assert (Hb : In (c :: r) builtin_profiles -> False). { intros Hi. assert (Hx : existsb (beq (c :: r)) builtin_profiles = true) by (apply existsb_exists; exists (c :: r); split; [exact Hi|apply beq_true; reflexivity]). congruence. }
    cbn [In] in H, Hin. unfold builtin_profiles in Hb. cbn [In] in Hb. tauto.
Qed.
Lemma page_match p h : mux_match the_mux p = Some h -> exists rest, p = dir ++ rest /\ page_at rest (run_handler h p).
Proof.
  rewrite match_path. intros H.
  destruct (beq dir p) eqn:E0. { apply beq_true in E0. subst p. injection H as <-. exists []. split; [reflexivity|exact pa_list]. }
  destruct (beq (dir ++ B "cmdline") p) eqn:E1. { apply beq_true in E1. subst p. injection H as <-. eexists. split; [reflexivity|exact pa_cmdline]. }
  destruct (beq (dir ++ B "profile") p) eqn:E2. { apply beq_true in E2. subst p. injection H as <-. eexists. split; [reflexivity|exact pa_cpu]. }
  destruct (beq (dir ++ B "symbol") p) eqn:E3. { apply beq_true in E3. subst p. injection H as <-. eexists. split; [reflexivity|exact pa_symbol]. }
  destruct (beq (dir ++ B "trace") p) eqn:E4. { apply beq_true in E4. subst p. injection H as <-. eexists. split; [reflexivity|exact pa_trace]. }
  destruct (starts dir p) eqn:E5; [|discriminate]. injection H as <-. apply starts_iff in E5 as [rest ->]. exists rest. split; [reflexivity|]. cbn [run_handler]. apply index_page.
  intros Hin. cbn [In] in Hin. destruct Hin as [<-|[<-|[<-|[<-|[]]]]]; [rewrite (proj2 (beq_true _ _) eq_refl) in E1|rewrite (proj2 (beq_true _ _) eq_refl) in E2|rewrite (proj2 (beq_true _ _) eq_refl) in E3|rewrite (proj2 (beq_true _ _) eq_refl) in E4]; discriminate.
Qed.
Lemma page_fun rest a b : page_at rest a -> page_at rest b -> a = b.
Proof.
  intros Ha Hb. inversion Ha; subst; inversion Hb; subst; try reflexivity; try congruence; repeat match goal with H : In _ _ |- _ => cbn [In] in H; repeat destruct H as [H|H]; try discriminate H; try contradiction | H : ~ In _ _ |- _ => exfalso; apply H; cbn [In]; tauto end.
  all: try (exfalso; match goal with H : ~ In _ _ |- _ => apply H; subst; cbn [In]; tauto end).
Qed.
Lemma match_page rest pg : page_at rest pg -> exists h, mux_match the_mux (dir ++ rest) = Some h /\ run_handler h (dir ++ rest) = pg.
Proof.
  intros H. assert (Hs : exists h, mux_match the_mux (dir ++ rest) = Some h).
  { rewrite match_path. rewrite (proj2 (starts_iff dir (dir ++ rest)) (ex_intro _ rest eq_refl)). repeat (match goal with |- context [if ?b then _ else _] => destruct b end; [eexists; reflexivity|]). eexists; reflexivity. }
  destruct Hs as [h Hh]. exists h. split; [exact Hh|]. destruct (page_match _ _ Hh) as (r & E & Hp). apply app_inv_head in E. subst r. eapply page_fun; eassumption.
Qed.
Lemma no_hosts host p : mux_handler the_mux host p = mux_match the_mux p.
Proof. unfold mux_handler. change (mux_hosts the_mux) with false. reflexivity. Qed.
Lemma below_no_redirect host rest : shouldRedirect the_mux host (dir ++ rest) = false.
Proof.
  unfold shouldRedirect. destruct (registered the_mux (dir ++ rest) || registered the_mux (host ++ dir ++ rest)); [reflexivity|].
  change (dir ++ rest) with ("/"%char :: tl dir ++ rest) at 1. cbv iota. apply andb_false_iff. left. apply orb_false_iff. split.
  - destruct (registered the_mux ((dir ++ rest) ++ [slash])) eqn:E; [|reflexivity]. apply reg_slash in E. apply (f_equal (@length byte)) in E. rewrite app_length in E. cbn in E. lia.
  - destruct (registered the_mux (host ++ (dir ++ rest) ++ [slash])) eqn:E; [|reflexivity]. rewrite app_assoc in E. apply reg_slash in E. apply (f_equal (@length byte)) in E. rewrite !app_length in E. cbn in E. lia.
Qed.

(** ** C127 *)

(** C127: starting the debug server cannot fail, whatever happens to its port; it asks to listen on port 10080 of every
    interface. *)
Lemma C127_start_pf : exists m, StartPProf = Ok (m, B ":10080") /\ forall nm, dial_tries nm (B ":10080") = NOk [mkaddr [] 10080].
Proof. exists the_mux. split; [exact started|]. intros nm. vm_compute. reflexivity. Qed.

(** C127: the pages.  A page is only ever served below /debug/pprof/, and it is the page of that name; and a request whose
    path has no detours gets the page of its name. *)
Lemma C127_pages_pf : forall m a q, StartPProf = Ok (m, a) ->
  (forall pg, debug_reply m q = RPage pg -> exists rest, hq_path q = B "/debug/pprof/" ++ rest /\ page_at rest pg) /\
  (forall rest pg, hq_path q = B "/debug/pprof/" ++ rest -> tidy (hq_path q) -> page_at rest pg -> debug_reply m q = RPage pg).
Proof.
  intros m a q H. rewrite started in H. injection H as <- <-. change (B "/debug/pprof/") with dir. split.
  - intros pg E. unfold debug_reply, mux_answer in E.
    assert (K : forall host, served (mux_handler the_mux host (hq_path q)) = AServe HIndex \/ True) by auto. clear K.
    assert (G : forall host, match served (mux_handler the_mux host (hq_path q)) with AServe h => RPage (run_handler h (hq_path q)) | ARedirect p => RRedirect p | ANotFound => RNotFound end = RPage pg -> exists rest, hq_path q = dir ++ rest /\ page_at rest pg).
    { intros host G. rewrite no_hosts in G. destruct (mux_match the_mux (hq_path q)) as [h|] eqn:Em; cbn [served] in G; [|discriminate]. injection G as <-. apply page_match in Em. exact Em. }
    destruct (hq_connect q).
    + destruct (shouldRedirect _ _ _); [discriminate|]. eapply G; exact E.
    + destruct (shouldRedirect _ _ _); [discriminate|]. destruct (beq (cleanPath (hq_path q)) (hq_path q)) eqn:Eb; cbn [negb] in E; [|discriminate]. apply beq_true in Eb. rewrite Eb in E. eapply G; exact E.
  - intros rest pg Ep Ht Hp. destruct (match_page _ _ Hp) as (h & Em & Er). unfold debug_reply, mux_answer. rewrite (tidy_clean _ Ht), Ep, !below_no_redirect, (proj2 (beq_true _ _) eq_refl). cbn [negb].
    rewrite !no_hosts, Em. cbn [served]. destruct (hq_connect q); rewrite Er; reflexivity.
Qed.

(** C127: everything else is redirected or not found; a redirection leads to a path without detours, and is the last. *)
Lemma C127_redirect_pf : forall m a q p, StartPProf = Ok (m, a) -> debug_reply m q = RRedirect p ->
  let q' := {| hq_connect := hq_connect q; hq_urlhost := hq_urlhost q; hq_host := hq_host q; hq_path := p |} in
  (hq_connect q = false -> tidy p) /\ (forall p', debug_reply m q' <> RRedirect p') /\
  (hq_connect q = false -> tidy (hq_path q) -> p = hq_path q ++ B "/" /\ exists host, (host = [] \/ host = stripHostPort (hq_host q)) /\ host ++ hq_path q = B "/debug/pprof").
Proof.
  intros m a q p H E q'. rewrite started in H. injection H as <- <-. unfold debug_reply, mux_answer in E.
  assert (G : forall host x, shouldRedirect the_mux host x = true -> ends_slash x = false /\ exists h, (h = [] \/ h = host) /\ h ++ x = B "/debug/pprof").
  { intros host x. unfold shouldRedirect. destruct (_ || _); [discriminate|]. destruct x as [|c x]; [discriminate|]. intros Hx. apply andb_prop in Hx as [Hx1 Hx2]. apply negb_true_iff in Hx2. split; [exact Hx2|].
    apply orb_prop in Hx1 as [Hx1|Hx1]; [exists []; split; [left; reflexivity|]; apply reg_slash in Hx1; exact Hx1|]. exists host. split; [right; reflexivity|]. rewrite app_assoc in Hx1. apply reg_slash in Hx1. exact Hx1. }
  assert (NS : forall host x, shouldRedirect the_mux host (x ++ [slash]) = false).
  { intros host x. destruct (shouldRedirect the_mux host (x ++ [slash])) eqn:Es; [|reflexivity]. apply G in Es as [Es _]. rewrite ends_app in Es. discriminate. }
  assert (NR : forall host x, match served (mux_handler the_mux host x) with AServe h => RPage (run_handler h x) | ARedirect y => RRedirect y | ANotFound => RNotFound end <> RRedirect p).
  { intros host x. destruct (mux_handler the_mux host x); discriminate. }
  unfold debug_reply, mux_answer. subst q'. cbn [hq_connect hq_urlhost hq_host hq_path]. destruct (hq_connect q).
  - split; [discriminate|]. split; [|discriminate]. destruct (shouldRedirect the_mux (hq_urlhost q) (hq_path q)) eqn:Es; [|elim (NR _ _ E)]. injection E as <-. rewrite NS.
    intros p'. destruct (mux_handler _ _ _); discriminate.
  - destruct (shouldRedirect the_mux (stripHostPort (hq_host q)) (cleanPath (hq_path q))) eqn:Es.
    + injection E as <-. destruct (G _ _ Es) as [Hs Hh]. assert (Ht : tidy (cleanPath (hq_path q) ++ [slash])) by (apply tidy_slash; [apply cleaned_tidy|exact Hs]).
      split; [intros _; exact Ht|]. split.
      * rewrite (tidy_clean _ Ht), NS, (proj2 (beq_true _ _) eq_refl). cbn [negb]. intros p'. destruct (mux_handler _ _ _); discriminate.
      * intros _ Hq. rewrite (tidy_clean _ Hq) in *. split; [reflexivity|exact Hh].
    + destruct (beq (cleanPath (hq_path q)) (hq_path q)) eqn:Eb; cbn [negb] in E.
      * exfalso. apply beq_true in Eb. rewrite Eb in E. exact (NR _ _ E).
      * injection E as <-. split; [intros _; apply cleaned_tidy|]. split.
        -- rewrite (tidy_clean _ (cleaned_tidy _)), Es, (proj2 (beq_true _ _) eq_refl). cbn [negb]. intros p'. destruct (mux_handler _ _ _); discriminate.
        -- intros _ Hq. rewrite (tidy_clean _ Hq) in Eb. rewrite (proj2 (beq_true _ _) eq_refl) in Eb. discriminate.
Qed.

(** C127: what lies elsewhere is not found. *)
Lemma C127_not_found_pf : forall m a q, StartPProf = Ok (m, a) -> hq_connect q = false -> tidy (hq_path q) ->
  (forall rest, hq_path q <> B "/debug/pprof/" ++ rest) -> hq_path q <> B "/debug/pprof" -> stripHostPort (hq_host q) ++ hq_path q <> B "/debug/pprof" -> debug_reply m q = RNotFound.
Proof.
  intros m a q H Hc Ht H1 H2 H3. destruct (debug_reply m q) as [pg|p|] eqn:E; [| |reflexivity]; exfalso.
  - destruct (C127_pages_pf m a q H) as [Hp _]. destruct (Hp pg E) as (rest & Er & _). exact (H1 _ Er).
  - destruct (C127_redirect_pf m a q p H E) as (_ & _ & Hr). destruct (Hr Hc Ht) as (_ & host & [->| ->] & Eh); [exact (H2 Eh)|exact (H3 Eh)].
Qed.

(** C127 refuted, "nobody can look into the crawler unless the user asked for it": with the default configuration a
    crawler that starts has started the debug server, which listens on every interface and shows everybody who asks the
    command line and the profiles of the process. *)
Lemma C127_open_by_default_refuted_pf : forall v uf effs w port z, runtime_ok (su_env v) uf -> in_force v = Some defaults -> su_flag v = [] ->
  process v CmdCrawl = (effs, Crawling w port z) ->
  In EfPprof effs /\ exists m, StartPProf = Ok (m, B ":10080") /\ (forall nm, dial_tries nm (B ":10080") = NOk [mkaddr [] 10080]) /\
  forall host, debug_reply m {| hq_connect := false; hq_urlhost := []; hq_host := host; hq_path := B "/debug/pprof/cmdline" |} = RPage PgCmdline /\
               debug_reply m {| hq_connect := false; hq_urlhost := []; hq_host := host; hq_path := B "/debug/pprof/heap" |} = RPage (PgProfile (B "heap")).
Proof.
  intros v uf effs w port z Hu Hf Hn Hp. split.
  - destruct (C105_started_pf v uf effs w port z Hu Hp) as (d & f & lvl & pp & hosts & gs & Hi & [(c & Ec & Epp) _ _ _] & _ & _ & _ & _ & _ & Ee & _).
    unfold named in Ec. rewrite Hn, Hf in Ec. injection Ec as <-. cbn [defaults cn_pprof] in Epp. injection Epp as <-. rewrite Ee. apply in_or_app. right. right. right. left. reflexivity.
  - destruct C127_start_pf as (m & Em & Ed). exists m. split; [exact Em|]. split; [exact Ed|]. intros host.
    assert (Ht : forall x, element x -> tidy (B "/debug/pprof/" ++ x)).
    { intros x Hx. right. exists [B "debug"; B "pprof"; x]. split; [discriminate|]. split; [repeat constructor; first [discriminate|exact Hx|apply Hx|intros Hin; cbn in Hin; repeat (destruct Hin as [Hin|Hin]; [discriminate|]); exact Hin|idtac]|].
      left. cbn [path_of]. rewrite app_nil_r. reflexivity. }
    split; (eapply (proj2 (C127_pages_pf m _ _ Em)); [reflexivity| |]).
    + apply (Ht (B "cmdline")). repeat split; try discriminate. intros Hin. cbn in Hin. repeat (destruct Hin as [Hin|Hin]; [discriminate|]). exact Hin.
    + exact pa_cmdline.
    + apply (Ht (B "heap")). repeat split; try discriminate. intros Hin. cbn in Hin. repeat (destruct Hin as [Hin|Hin]; [discriminate|]). exact Hin.
    + apply pa_profile. right. right. left. reflexivity.
Qed.

(** C127: requests as they occur; in particular a detour cannot leave the directory. *)
Lemma C127_example_pf : exists m, StartPProf = Ok (m, B ":10080") /\
  let get p := debug_reply m {| hq_connect := false; hq_urlhost := []; hq_host := B "10.0.0.1:10080"; hq_path := p |} in
  get (B "/debug/pprof/") = RPage PgList /\ get (B "/debug/pprof/heap") = RPage (PgProfile (B "heap")) /\ get (B "/debug/pprof/etc") = RPage (PgUnknown (B "etc")) /\
  get (B "/debug/pprof/trace") = RPage PgTrace /\ get (B "/debug/pprof") = RRedirect (B "/debug/pprof/") /\ get (B "/debug/pprof/../../conf/config.json") = RRedirect (B "/conf/config.json") /\
  get (B "/conf/config.json") = RNotFound /\ get (B "//debug/./pprof/") = RRedirect (B "/debug/pprof/") /\ get [] = RRedirect (B "/") /\ get (B "/") = RNotFound.
Proof. exists the_mux. split; [exact started|]. vm_compute. repeat split; reflexivity. Qed.
