(** FileSysProofs.v -- path resolution, creation of names, cleaning of paths. *)
From Verif Require Import Base GoLib TorrentCmd FileSys FileSysSpec.
From Coq Require Import Sorted.
Local Open Scope list_scope.

Lemma walk_nil fs l f cur up : walk fs l f cur up [] = Found cur. Proof. destruct l; reflexivity. Qed.
Lemma walk_cons fs l f cur up c t : walk fs l f cur up (c :: t) =
  match fs_at fs cur with
  | Some (NDir es p) =>
      if is_empty c then walk fs l f cur up t
      else if negb (may_search p) then Failed EACCES
      else if beq c (B ".") then walk fs l f cur up t
      else if beq c (B "..") then match up with [] => walk fs l f cur [] t | d :: up' => walk fs l f d up' t end
      else match entry es c with
           | None => if forallb is_empty t then Missing cur c else Failed ENOENT
           | Some i =>
               match fs_at fs i with
               | Some (NLink target) =>
                   if negb f && match t with [] => true | _ => false end then Found i
                   else match l with
                        | 0 => Failed ELOOP
                        | S l => if is_empty target then Failed ENOENT
                                 else if rooted target then walk fs l f (fs_root fs) [] (comps target ++ t)
                                 else walk fs l f cur up (comps target ++ t)
                        end
               | _ => walk fs l f i (cur :: up) t
               end
           end
  | _ => Failed ENOTDIR
  end.
Proof. destruct l; reflexivity. Qed.
#[global] Opaque walk.

(** ** Following the last link or not *)
Lemma walk_follow fs l : forall cs cur up,
  match walk fs l false cur up cs with
  | Found i => is_link fs i \/ walk fs l true cur up cs = Found i
  | r => walk fs l true cur up cs = r
  end.
Proof.
  induction l as [l IHl] using lt_wf_ind. induction cs as [|c t IH]; intros cur up; [rewrite !walk_nil; right; reflexivity|]. rewrite !walk_cons.
  destruct (fs_at fs cur) as [[d p|es p|tg]|]; try reflexivity.
  destruct (is_empty c); [apply IH|]. destruct (negb (may_search p)); [reflexivity|]. destruct (beq c (B ".")); [apply IH|].
  destruct (beq c (B "..")); [destruct up; apply IH|]. destruct (entry es c) as [i|]; [|destruct (forallb is_empty t); reflexivity].
  destruct (fs_at fs i) as [[d' p'|es' p'|tg]|] eqn:Ei; try apply IH. cbn [negb andb].
  destruct t as [|c' t'].
  - left. exists tg. exact Ei.
  - destruct l as [|l]; [reflexivity|]. destruct (is_empty tg); [reflexivity|]. destruct (rooted tg); apply IHl; lia.
Qed.

Lemma lookup_follow fs path : match lookup fs false path with Found i => is_link fs i \/ lookup fs true path = Found i | r => lookup fs true path = r end.
Proof. unfold lookup. destruct path as [|c path]; [reflexivity|]. destruct (rooted (c :: path)); apply walk_follow. Qed.

(** ** Dropping empty and "." components *)
Definition trivial (c : bytes) : bool := is_empty c || beq c (B ".").
Inductive slim : list bytes -> list bytes -> Prop :=
| slim_nil : slim [] []
| slim_keep c a b : slim a b -> slim (c :: a) (c :: b)
| slim_drop c a b : trivial c = true -> existsb (fun x => negb (trivial x)) b = true -> slim a b -> slim (c :: a) b.

Lemma slim_refl a : slim a a. Proof. induction a; constructor; assumption. Qed.
Lemma slim_app p a b : slim a b -> slim (p ++ a) (p ++ b). Proof. intros H. induction p; [exact H|]. cbn [app]. apply slim_keep. assumption. Qed.
Lemma slim_exists a b : slim a b -> existsb (fun x => negb (trivial x)) a = existsb (fun x => negb (trivial x)) b.
Proof. induction 1 as [|c a b H IH|c a b Hc Hb H IH]; [reflexivity|cbn [existsb]; rewrite IH; reflexivity|]. cbn [existsb]. rewrite Hc, IH. reflexivity. Qed.
Lemma ex_nonempty b : existsb (fun x => negb (trivial x)) b = true -> forallb is_empty b = false.
Proof.
  induction b as [|x b IH]; [discriminate|]. cbn [existsb forallb]. unfold trivial at 1. destruct (is_empty x); [|reflexivity]. cbn [orb negb]. exact IH.
Qed.
Lemma slim_empty a b : slim a b -> forallb is_empty a = forallb is_empty b.
Proof.
  induction 1 as [|c a b H IH|c a b Hc Hb H IH]; [reflexivity|cbn [forallb]; rewrite IH; reflexivity|]. cbn [forallb]. rewrite IH, (ex_nonempty b Hb). apply andb_false_r.
Qed.
Lemma slim_null a b : slim a b -> (match a with [] => true | _ => false end) = (match b with [] => true | _ => false end).
Proof. intros [| |c a' b' Hc Hb H]; try reflexivity. destruct b'; [discriminate|reflexivity]. Qed.

Lemma walk_stuck fs l f cur up b : b <> [] -> node_is_dir fs cur = false -> walk fs l f cur up b = Failed ENOTDIR.
Proof. unfold node_is_dir. destruct b as [|c b]; [congruence|]. rewrite walk_cons. destruct (fs_at fs cur) as [[| |]|]; try reflexivity. discriminate. Qed.
Lemma walk_barred fs l f cur up b es p : existsb (fun x => negb (trivial x)) b = true -> fs_at fs cur = Some (NDir es p) -> may_search p = false ->
  walk fs l f cur up b = Failed EACCES.
Proof.
  intros Hb Hc Hp. induction b as [|x b IH]; [discriminate|]. rewrite walk_cons, Hc, Hp. cbn [existsb] in Hb. unfold trivial at 1 in Hb.
  destruct (is_empty x); [|reflexivity]. cbn [orb negb] in Hb. exact (IH Hb).
Qed.

Lemma walk_slim fs f l : forall a b, slim a b -> forall cur up, walk fs l f cur up a = walk fs l f cur up b.
Proof.
  induction l as [l IHl] using lt_wf_ind. induction 1 as [|c a b H IH|c a b Hc Hb H IH]; intros cur up; [reflexivity| |].
  - rewrite !walk_cons. rewrite (slim_empty _ _ H). destruct (fs_at fs cur) as [[d p|es p|tg]|]; try reflexivity.
    rewrite IH. destruct (is_empty c); [reflexivity|]. destruct (negb (may_search p)); [reflexivity|]. destruct (beq c (B ".")); [reflexivity|].
    destruct (beq c (B "..")); [destruct up; apply IH|]. destruct (entry es c) as [i|]; [|reflexivity].
    destruct (fs_at fs i) as [[d' p'|es' p'|tg]|]; try apply IH.
    rewrite (slim_null _ _ H). destruct (negb f && match b with [] => true | _ => false end); [reflexivity|].
    destruct l as [|l]; [reflexivity|]. destruct (is_empty tg); [reflexivity|]. destruct (rooted tg); apply IHl; try lia; apply slim_app, H.
  - rewrite walk_cons. destruct (node_is_dir fs cur) eqn:Ed.
    + unfold node_is_dir in Ed. destruct (fs_at fs cur) as [[d p|es p|tg]|] eqn:En; try discriminate. rewrite IH.
      destruct (is_empty c) eqn:Ee; [reflexivity|]. destruct (may_search p) eqn:Es; cbn [negb].
      * unfold trivial in Hc. rewrite Ee in Hc. cbn [orb] in Hc. rewrite Hc. reflexivity.
      * symmetry. eapply walk_barred; eassumption.
    + rewrite (walk_stuck fs l f cur up b); [|intros ->; discriminate|exact Ed]. unfold node_is_dir in Ed. destruct (fs_at fs cur) as [[| |]|]; try reflexivity. discriminate.
Qed.

(** ** Splitting paths *)
Lemma split_app sep a b : split_on sep (a ++ sep :: b) = split_on sep a ++ split_on sep b.
Proof.
  induction a as [|c a IH]; cbn [app split_on]; [rewrite Ascii.eqb_refl; reflexivity|]. destruct (Ascii.eqb c sep); [rewrite IH; reflexivity|].
  rewrite IH. destruct (split_on sep a) eqn:E; [exfalso; eapply split_on_nonempty; exact E|]. reflexivity.
Qed.
Lemma split_free sep s : Forall (fun c => ~ In sep c) (split_on sep s).
Proof.
  induction s as [|c s IH]; cbn [split_on]; [constructor; [intros []|constructor]|]. destruct (Ascii.eqb c sep) eqn:E; [constructor; [intros []|exact IH]|].
  destruct (split_on sep s) as [|x t]; [constructor; [|constructor]; intros [->|[]]; rewrite Ascii.eqb_refl in E; discriminate|].
  inversion_clear IH as [|? ? Hx Ht]. constructor; [|exact Ht]. intros [->|H]; [rewrite Ascii.eqb_refl in E; discriminate|exact (Hx H)].
Qed.
Lemma comps_join l x : Forall (fun c => ~ In slash c) (l ++ [x]) -> comps (join_slash (l ++ [x])) = l ++ [x].
Proof.
  intros H. induction l as [|y l IH]; cbn [app join_slash] in *; [unfold comps; apply split_on_none; inversion_clear H; assumption|].
  inversion_clear H as [|? ? Hy Hl]. destruct (l ++ [x]) eqn:E; [destruct l; discriminate|]. unfold comps in *.
  rewrite split_on_app by exact Hy. f_equal. apply IH. exact Hl.
Qed.

Lemma clean_fold abs cs : ~ In (B "..") cs -> forall out, Forall (fun c => c <> B "..") out ->
  fold_left (clean_step abs) cs out = rev (filter (fun c => negb (trivial c)) cs) ++ out.
Proof.
  induction cs as [|c cs IH]; intros Hn out Ho; [reflexivity|]. cbn [fold_left filter].
  assert (Hc : beq c (B "..") = false) by (destruct (beq c (B "..")) eqn:E; [apply beq_eq in E; exfalso; apply Hn; left; exact E|reflexivity]).
  unfold clean_step at 2. unfold trivial at 1. destruct (is_empty c || beq c (B ".")) eqn:Et; cbn [negb].
  - apply IH; [intros H; apply Hn; right; exact H|exact Ho].
  - rewrite Hc. rewrite IH; [|intros H; apply Hn; right; exact H|constructor; [intros ->; apply Hn; left; reflexivity|exact Ho]]. cbn [rev]. rewrite <- app_assoc. reflexivity.
Qed.

Lemma slim_filter cs n : trivial n = false -> slim (cs ++ [n]) (filter (fun c => negb (trivial c)) cs ++ [n]).
Proof.
  intros Hn. induction cs as [|c cs IH]; cbn [app filter]; [apply slim_refl|]. destruct (trivial c) eqn:E; cbn [negb app]; [|apply slim_keep; exact IH].
  apply slim_drop; [exact E| |exact IH]. rewrite existsb_app. cbn [existsb]. rewrite Hn. apply orb_true_r.
Qed.

Lemma name_trivial n : name_ok n -> trivial n = false.
Proof.
  intros (H1 & H2 & _). unfold trivial. apply orb_false_iff. split; [destruct n; [congruence|reflexivity]|].
  destruct (beq n (B ".")) eqn:E; [apply beq_eq in E; congruence|reflexivity].
Qed.

(** Where a name in a directory is found: joining cleans the path, which changes nothing when the path has no "..". *)
Lemma join_lookup fs f path n : path <> [] -> no_dotdot path -> name_ok n -> lookup fs f (Join path n) = lookup fs f (path ++ slash :: n).
Proof.
  intros Hp Hd Hn. pose proof (name_trivial n Hn) as Ht. destruct Hn as (Hn1 & Hn2 & Hn3 & Hn4).
  assert (EJ : Join path n = Clean (path ++ slash :: n)) by (destruct path; [congruence|]; destruct n; [congruence|]; reflexivity). rewrite EJ. clear EJ.
  assert (Er : rooted (path ++ slash :: n) = rooted path) by (destruct path; [congruence|reflexivity]).
  assert (Ec : comps (path ++ slash :: n) = comps path ++ [n]) by (unfold comps; rewrite split_app, (split_on_none slash n Hn4); reflexivity).
  set (fl := filter (fun c => negb (trivial c)) (comps path)).
  assert (Eo : rev (fold_left (clean_step (rooted path)) (comps path ++ [n]) []) = fl ++ [n]).
  { rewrite clean_fold; [|intros H; apply in_app_or in H as [H|[H|[]]]; [exact (Hd H)|congruence]|constructor].
    rewrite app_nil_r, rev_involutive, filter_app. cbn [filter]. rewrite Ht. reflexivity. }
  assert (Hf : Forall (fun c => ~ In slash c) (fl ++ [n])).
  { apply Forall_app. split; [|constructor; [exact Hn4|constructor]]. apply Forall_forall. intros c H. apply filter_In in H as [H _]. revert c H. apply Forall_forall. apply split_free. }
  assert (Ef : exists c0 r0, fl ++ [n] = c0 :: r0 /\ c0 <> []).
  { destruct fl as [|c0 r0] eqn:E; [exists n, []; split; [reflexivity|exact Hn1]|]. exists c0, (r0 ++ [n]). split; [reflexivity|]. intros ->.
    assert (H : In [] fl) by (rewrite E; left; reflexivity). apply filter_In in H as [_ H]. discriminate. }
  unfold Clean. rewrite Er, Ec, Eo. pose proof (comps_join fl n Hf) as Ej.
  pose proof (slim_filter (comps path) n Ht) as Hs. fold fl in Hs.
  assert (Hne : path ++ slash :: n <> []) by (destruct path; discriminate).
  unfold lookup at 2. destruct (path ++ slash :: n) as [|z zs] eqn:Ez; [congruence|]. rewrite <- Ez in *. clear Hne.
  assert (Hj : join_slash (fl ++ [n]) <> []).
  { destruct Ef as (c0 & r0 & E & Hc0). rewrite E. cbn [join_slash]. destruct r0; [exact Hc0|]. destruct c0; discriminate. }
  destruct (rooted path) eqn:Erp.
  - unfold lookup. rewrite Er, Ec. cbn [rooted]. rewrite Ascii.eqb_refl. unfold comps at 1. cbn [split_on]. rewrite Ascii.eqb_refl.
    fold (comps (join_slash (fl ++ [n]))). rewrite Ej. symmetry. destruct path as [|c0 path]; [congruence|]. cbn [rooted] in Erp. apply Ascii.eqb_eq in Erp. subst c0.
    pose proof (slim_filter (split_on slash path) n Ht) as Hs'. subst fl. unfold comps. cbn [split_on]. rewrite Ascii.eqb_refl. cbn [filter trivial is_empty orb negb app]. apply walk_slim.
    apply slim_keep. exact Hs'.
  - assert (Er2 : rooted (join_slash (fl ++ [n])) = false).
    { destruct Ef as (c0 & r0 & E & Hc0). rewrite E in *. cbn [join_slash]. inversion_clear Hf as [|? ? Hs0 _]. destruct c0 as [|y c0]; [congruence|].
      assert (y <> slash) by (intros ->; apply Hs0; left; reflexivity). destruct r0; cbn [app rooted]; apply Ascii.eqb_neq; assumption. }
    destruct (join_slash (fl ++ [n])) as [|y ys] eqn:Ey; [congruence|]. unfold lookup. rewrite Er2, Er, Ej, Ec. symmetry. apply walk_slim. exact Hs.
Qed.

(** Cleaning when no link is met: ".." undoes the component before it. *)
Section Run.
  Variable fs : fsys.
  Definition step1 (s : nat * list nat) (c : bytes) : option (nat * list nat) :=
    match fs_at fs (fst s) with
    | Some (NDir es p) =>
        if is_empty c then Some s else if negb (may_search p) then None else if beq c (B ".") then Some s
        else if beq c (B "..") then match snd s with [] => Some (fst s, []) | d :: up => Some (d, up) end
        else match entry es c with Some i => match fs_at fs i with Some (NLink _) => None | _ => Some (i, fst s :: snd s) end | None => None end
    | _ => None
    end.
  Fixpoint run (cs : list bytes) (s : nat * list nat) : option (nat * list nat) :=
    match cs with [] => Some s | c :: t => match step1 s c with Some s' => run t s' | None => None end end.
  Lemma run_app a b s : run (a ++ b) s = match run a s with Some s' => run b s' | None => None end.
  Proof. revert s. induction a as [|c a IH]; intros s; [reflexivity|]. cbn [run app]. destruct (step1 s c); [apply IH|reflexivity]. Qed.
  Lemma walk_run cs : forall cur up i, walk fs 0 true cur up cs = Found i -> exists up', run cs (cur, up) = Some (i, up').
  Proof.
    induction cs as [|c t IH]; intros cur up i H; [rewrite walk_nil in H; injection H as <-; exists up; reflexivity|]. rewrite walk_cons in H. cbn [run]. unfold step1. cbn [fst snd].
    destruct (fs_at fs cur) as [[|es p|]|]; try discriminate. destruct (is_empty c); [exact (IH _ _ _ H)|]. destruct (negb (may_search p)); [discriminate|].
    destruct (beq c (B ".")); [exact (IH _ _ _ H)|]. destruct (beq c (B "..")); [destruct up; exact (IH _ _ _ H)|].
    destruct (entry es c) as [k|]; [|destruct (forallb is_empty t); discriminate]. destruct (fs_at fs k) as [[| |tg]|]; try exact (IH _ _ _ H). cbn [negb andb] in H. discriminate.
  Qed.
  Lemma run_walk l f cs : forall s s' t, run cs s = Some s' -> t <> [] -> walk fs l f (fst s) (snd s) (cs ++ t) = walk fs l f (fst s') (snd s') t.
  Proof.
    induction cs as [|c cs IH]; intros s s' t H Ht; [injection H as <-; reflexivity|]. cbn [run] in H. destruct (step1 s c) as [s1|] eqn:E; [|discriminate]. rewrite <- (IH _ _ _ H Ht). clear IH H.
    cbn [app]. rewrite walk_cons. unfold step1 in E. destruct (fs_at fs (fst s)) as [[|es p|]|]; try discriminate. destruct (is_empty c); [injection E as <-; reflexivity|]. destruct (negb (may_search p)); [discriminate|].
    destruct (beq c (B ".")); [injection E as <-; reflexivity|]. destruct (beq c (B "..")); [destruct (snd s); injection E as <-; reflexivity|].
    destruct (entry es c) as [k|]; [|discriminate]. destruct (fs_at fs k) as [[| |tg]|]; try discriminate; injection E as <-; reflexivity.
  Qed.
  Lemma clean_run abs s0 : (abs = true -> snd s0 = []) -> forall cs out s s', Forall (fun c => trivial c = false) out -> run (rev out) s0 = Some s -> run cs s = Some s' ->
    run (rev (fold_left (clean_step abs) cs out)) s0 = Some s' /\ Forall (fun c => trivial c = false) (fold_left (clean_step abs) cs out).
  Proof.
    intros Habs. induction cs as [|c cs IH]; intros out s s' Ho H1 H2; [injection H2 as <-; split; assumption|]. cbn [run fold_left] in *. destruct (step1 s c) as [s1|] eqn:E; [|discriminate].
    assert (Hpush : run (rev (c :: out)) s0 = Some s1) by (cbn [rev]; rewrite run_app, H1; cbn [run]; rewrite E; reflexivity).
    unfold clean_step at 2 4. destruct (is_empty c || beq c (B ".")) eqn:Et.
    - apply (IH out s1); [exact Ho| |exact H2]. rewrite H1. unfold step1 in E. destruct (fs_at fs (fst s)) as [[|es p|]|]; try discriminate. apply orb_true_iff in Et as [Et|Et]; rewrite Et in E; [congruence|].
      destruct (is_empty c); [congruence|]. destruct (negb (may_search p)); congruence.
    - destruct (beq c (B "..")) eqn:Ed.
      + assert (Hup : Some s1 = match snd s with [] => Some (fst s, []) | d :: up => Some (d, up) end).
        { apply orb_false_iff in Et as [Et1 Et2]. unfold step1 in E. destruct (fs_at fs (fst s)) as [[|es p|]|]; try discriminate. rewrite Et1, Et2, Ed in E. destruct (negb (may_search p)); congruence. }
        destruct out as [|x o].
        * destruct abs.
          { apply (IH [] s1); [constructor| |exact H2]. cbn [rev run] in *. injection H1 as <-. rewrite (Habs eq_refl) in Hup. rewrite Hup. destruct s0 as [c0 u0]. cbn [fst snd] in *. rewrite (Habs eq_refl). reflexivity. }
          { apply (IH [c] s1); [constructor; [exact Et|constructor]|exact Hpush|exact H2]. }
        * destruct (beq x (B "..")) eqn:Ex; [apply (IH (c :: x :: o) s1); [constructor; [exact Et|exact Ho]|exact Hpush|exact H2]|].
          inversion_clear Ho as [|? ? Hx Ho']. apply (IH o s1); [exact Ho'| |exact H2].
          cbn [rev] in H1. rewrite run_app in H1. destruct (run (rev o) s0) as [s2|] eqn:E2; [|discriminate]. cbn [run] in H1. destruct (step1 s2 x) as [s3|] eqn:E3; [|discriminate]. injection H1 as ->.
          unfold step1 in E3. destruct (fs_at fs (fst s2)) as [[|es p|]|]; try discriminate. unfold trivial in Hx. apply orb_false_iff in Hx as [Hx1 Hx2]. rewrite Hx1, Hx2, Ex in E3.
          destruct (negb (may_search p)); [discriminate|]. destruct (entry es x) as [k|]; [|discriminate].
          assert (Es : s = (k, fst s2 :: snd s2)) by (destruct (fs_at fs k) as [[| |]|]; congruence). rewrite Es in Hup. cbn [snd] in Hup. rewrite Hup. destruct s2; reflexivity.
      + apply (IH (c :: out) s1); [constructor; [exact Et|exact Ho]|exact Hpush|exact H2].
  Qed.
End Run.

Lemma clean_noslash abs cs : forall out, Forall (fun c => ~ In slash c) cs -> Forall (fun c => ~ In slash c) out -> Forall (fun c => ~ In slash c) (fold_left (clean_step abs) cs out).
Proof.
  induction cs as [|c cs IH]; intros out Hc Ho; [exact Ho|]. inversion_clear Hc as [|? ? H1 H2]. cbn [fold_left]. apply IH; [exact H2|]. unfold clean_step.
  destruct (is_empty c || beq c (B ".")); [exact Ho|]. destruct (beq c (B "..")); [|constructor; assumption]. destruct out as [|x o]; [destruct abs; constructor; assumption || constructor|].
  destruct (beq x (B "..")); [constructor; assumption|]. inversion Ho; assumption.
Qed.

(** Looking up a cleaned path. *)
Lemma lookup_joined fs f (abs : bool) fl n : Forall (fun c => trivial c = false) fl -> Forall (fun c => ~ In slash c) fl -> name_ok n ->
  lookup fs f (if abs then slash :: join_slash (fl ++ [n]) else match join_slash (fl ++ [n]) with [] => B "." | _ => join_slash (fl ++ [n]) end) =
  if abs then walk fs 40 f (fs_root fs) [] ([] :: fl ++ [n]) else walk fs 40 f (fs_cwd fs) (fs_above fs) (fl ++ [n]).
Proof.
  intros Ht Hfl Hn. destruct Hn as (Hn1 & Hn2 & Hn3 & Hn4).
  assert (Hf : Forall (fun c => ~ In slash c) (fl ++ [n])) by (apply Forall_app; split; [exact Hfl|constructor; [exact Hn4|constructor]]).
  assert (Ef : exists c0 r0, fl ++ [n] = c0 :: r0 /\ c0 <> []).
  { destruct fl as [|c0 r0]; [exists n, []; split; [reflexivity|exact Hn1]|]. exists c0, (r0 ++ [n]). split; [reflexivity|]. inversion_clear Ht as [|? ? H _]. intros ->. discriminate. }
  pose proof (comps_join fl n Hf) as Ej.
  destruct abs.
  - unfold lookup. cbn [rooted]. rewrite Ascii.eqb_refl. unfold comps. cbn [split_on]. rewrite Ascii.eqb_refl. fold (comps (join_slash (fl ++ [n]))). rewrite Ej. reflexivity.
  - assert (Hj : join_slash (fl ++ [n]) <> []).
    { destruct Ef as (c0 & r0 & E & Hc0). rewrite E. cbn [join_slash]. destruct r0; [exact Hc0|]. destruct c0; discriminate. }
    assert (Er2 : rooted (join_slash (fl ++ [n])) = false).
    { destruct Ef as (c0 & r0 & E & Hc0). rewrite E in *. cbn [join_slash]. inversion_clear Hf as [|? ? Hs0 _]. destruct c0 as [|y c0]; [congruence|].
      assert (y <> slash) by (intros ->; apply Hs0; left; reflexivity). destruct r0; cbn [app rooted]; apply Ascii.eqb_neq; assumption. }
    destruct (join_slash (fl ++ [n])) as [|y ys] eqn:Ey; [congruence|]. unfold lookup. rewrite Er2, Ej. reflexivity.
Qed.

Lemma join_plain fs f path n d : plain fs path d -> name_ok n -> lookup fs f (Join path n) = lookup fs f (path ++ slash :: n).
Proof.
  intros [Hp Hpl] Hn. pose proof (name_trivial n Hn) as Ht. pose proof Hn as (Hn1 & Hn2 & Hn3 & Hn4).
  assert (EJ : Join path n = Clean (path ++ slash :: n)) by (destruct path; [congruence|]; destruct n; [congruence|]; reflexivity). rewrite EJ. clear EJ.
  assert (Er : rooted (path ++ slash :: n) = rooted path) by (destruct path; [congruence|reflexivity]).
  assert (Ec : comps (path ++ slash :: n) = comps path ++ [n]) by (unfold comps; rewrite split_app, (split_on_none slash n Hn4); reflexivity).
  set (s0 := if rooted path then (fs_root fs, []) else (fs_cwd fs, fs_above fs)).
  assert (Hrun : exists up', run fs (comps path) s0 = Some (d, up')) by (unfold s0; destruct (rooted path); apply walk_run; exact Hpl). destruct Hrun as (up' & Hrun).
  set (fl := fold_left (clean_step (rooted path)) (comps path) []).
  assert (Habs : rooted path = true -> snd s0 = []) by (unfold s0; intros ->; reflexivity).
  destruct (clean_run fs (rooted path) s0 Habs (comps path) [] s0 (d, up') (Forall_nil _) eq_refl Hrun) as [Hcl Htr]. fold fl in Hcl, Htr.
  assert (Eo : rev (fold_left (clean_step (rooted path)) (comps path ++ [n]) []) = rev fl ++ [n]).
  { rewrite fold_left_app. fold fl. cbn [fold_left]. unfold clean_step. unfold trivial in Ht. rewrite Ht. destruct (beq n (B "..")) eqn:E; [apply beq_eq in E; congruence|]. reflexivity. }
  unfold Clean. rewrite Er, Ec, Eo, lookup_joined.
  - unfold lookup. destruct (path ++ slash :: n) as [|z zs] eqn:Ez; [destruct path; discriminate|]. rewrite <- Ez in *. rewrite Er, Ec. unfold s0 in *. destruct (rooted path) eqn:Erp.
    + transitivity (walk fs 40 f d up' [n]); [|symmetry; exact (run_walk fs 40 f (comps path) (fs_root fs, []) (d, up') [n] Hrun ltac:(discriminate))].
      change ([] :: rev fl ++ [n]) with (([] :: rev fl) ++ [n]). apply (run_walk fs 40 f ([] :: rev fl) (fs_root fs, []) (d, up') [n]); [|discriminate].
      cbn [run]. replace (step1 fs (fs_root fs, []) []) with (Some (fs_root fs, @nil nat)); [exact Hcl|].
      destruct path as [|c0 path']; [congruence|]. cbn [rooted] in Erp. apply Ascii.eqb_eq in Erp. subst c0. unfold comps in Hrun. cbn [split_on] in Hrun. rewrite Ascii.eqb_refl in Hrun.
      cbn [run] in Hrun. unfold step1 in *. cbn [fst is_empty] in *. destruct (fs_at fs (fs_root fs)) as [[| |]|]; try discriminate. reflexivity.
    + transitivity (walk fs 40 f d up' [n]); [|symmetry; exact (run_walk fs 40 f (comps path) (fs_cwd fs, fs_above fs) (d, up') [n] Hrun ltac:(discriminate))].
      apply (run_walk fs 40 f (rev fl) (fs_cwd fs, fs_above fs) (d, up') [n]); [exact Hcl|discriminate].
  - apply Forall_rev. exact Htr.
  - apply Forall_rev. apply clean_noslash; [apply split_free|constructor].
  - exact Hn.
Qed.

(** ** Creating a name *)
Lemma entry_in es c i : entry es c = Some i -> In (c, i) es.
Proof. induction es as [|[n j] es IH]; cbn [entry]; [discriminate|]. destruct (beq n c) eqn:E; [apply beq_eq in E; intros [= ->]; left; congruence|right; auto]. Qed.
Lemma entry_none es c : entry es c = None <-> ~ In c (map fst es).
Proof.
  induction es as [|[n j] es IH]; cbn [entry map fst In]; [tauto|]. destruct (beq n c) eqn:E; [apply beq_eq in E; subst; split; [discriminate|tauto]|].
  rewrite IH. assert (n <> c) by (intros ->; rewrite beq_refl in E; discriminate). tauto.
Qed.
Lemma in_entry es c i : NoDup (map fst es) -> In (c, i) es -> entry es c = Some i.
Proof.
  induction es as [|[n j] es IH]; cbn [entry map fst In]; [intros _ []|]. intros Hd [H|H]; inversion_clear Hd as [|? ? Hn Hd'].
  - injection H as -> ->. rewrite beq_refl. reflexivity.
  - destruct (beq n c) eqn:E; [|exact (IH Hd' H)]. apply beq_eq in E. subst n. exfalso. apply Hn. apply (in_map fst) in H. exact H.
Qed.
Lemma entry_app es c d : entry (es ++ [d]) c = match entry es c with Some i => Some i | None => if beq (fst d) c then Some (snd d) else None end.
Proof. induction es as [|[n j] es IH]; cbn [entry app]; [destruct d; reflexivity|]. destruct (beq n c); [reflexivity|exact IH]. Qed.

(** The last component is a name, not the empty one behind a trailing slash. *)
Definition ends_in_name (cs : list bytes) : Prop := cs = [] \/ is_empty (last cs []) = false.
Lemma ein_tail c t : ends_in_name (c :: t) -> ends_in_name t.
Proof. intros [H|H]; [discriminate|]. destruct t; [left; reflexivity|right; exact H]. Qed.
Lemma last_app_r (a b : list bytes) x : b <> [] -> last (a ++ b) x = last b x.
Proof. intros Hb. induction a as [|y a IH]; [reflexivity|]. cbn [app last]. destruct (a ++ b) eqn:E; [destruct a; [exact (False_ind _ (Hb E))|discriminate]|exact IH]. Qed.
Lemma ein_app p t : ends_in_name t -> t <> [] -> ends_in_name (p ++ t).
Proof. intros [H|H] Ht; [congruence|]. right. rewrite last_app_r by exact Ht. exact H. Qed.
Lemma ein_empty t : ends_in_name t -> forallb is_empty t = true -> t = [].
Proof.
  intros [H|H] He; [exact H|]. destruct t as [|c t]; [reflexivity|]. exfalso. rewrite forallb_forall in He.
  assert (In (last (c :: t) []) (c :: t)) by (destruct (exists_last (l := c :: t)) as (l' & z & E); [discriminate|]; rewrite E, last_last; apply in_or_app; right; left; reflexivity).
  rewrite He in H by assumption. discriminate.
Qed.

Definition new_at (n : fnode) (f : bool) (cs : list bytes) : Prop := (exists es p, n = NDir es p) \/ (exists d p, n = NFile d p) /\ f = false /\ ends_in_name cs.

Section Added.
  Variables (fs : fsys) (dir : nat) (name : bytes) (n : fnode) (es : list (bytes * nat)) (p : perm).
  Hypothesis Hw : wf_fs fs.
  Hypothesis Hd : fs_at fs dir = Some (NDir es p).
  Hypothesis Hn : entry es name = None.
  Let fs' := add_node fs dir name n.

  Lemma dir_old : dir <> fs_next fs. Proof. intros E. pose proof (wf_fresh fs Hw dir ltac:(lia)). congruence. Qed.
  Lemma at_new : fs_at fs' (fs_next fs) = Some n. Proof. cbn. rewrite Nat.eqb_refl. reflexivity. Qed.
  Lemma at_dir : fs_at fs' dir = Some (NDir (es ++ [(name, fs_next fs)]) p).
  Proof. cbn. rewrite (proj2 (Nat.eqb_neq _ _) dir_old), Nat.eqb_refl, Hd. reflexivity. Qed.
  Lemma at_old i : fs_at fs i <> None -> i <> dir -> fs_at fs' i = fs_at fs i.
  Proof. intros Hi Hid. cbn. destruct (Nat.eqb_spec i (fs_next fs)) as [->|]; [exfalso; apply Hi, (wf_fresh fs Hw); lia|]. rewrite (proj2 (Nat.eqb_neq _ _) Hid). reflexivity. Qed.

  Lemma new_tail f l up t : new_at n f t -> forallb is_empty t = true -> walk fs' l f (fs_next fs) up t = Found (fs_next fs).
  Proof.
    intros [(es0 & p0 & E)|((d0 & p0 & E) & _ & He)] Ht.
    - revert Ht. induction t as [|c t IH]; [intros _; apply walk_nil|]. cbn [forallb]. intros Ht. apply andb_true_iff in Ht as [Hc Ht]. rewrite walk_cons, at_new, E, Hc. apply IH. exact Ht.
    - rewrite (ein_empty t He Ht). apply walk_nil.
  Qed.
  Lemma new_at_tail f c t : new_at n f (c :: t) -> new_at n f t.
  Proof. intros [H|(H & E & He)]; [left; exact H|right; split; [exact H|split; [exact E|exact (ein_tail c t He)]]]. Qed.

  (** How a resolution in [fs] continues in [fs']. *)
  Definition goes_on (f : bool) (cs : list bytes) (r r' : walked) : Prop :=
    match r with
    | Found i => fs_at fs i <> None /\ r' = Found i
    | Missing d c => d = dir -> c = name -> new_at n f cs -> r' = Found (fs_next fs)
    | Failed _ => True
    end.
  Lemma goes_on_weak f cs cs' r r' : (new_at n f cs' -> new_at n f cs) -> goes_on f cs r r' -> goes_on f cs' r r'.
  Proof. intros H. destruct r; cbn [goes_on]; auto. Qed.

  Lemma walk_added f l : forall cs cur up, fs_at fs cur <> None -> Forall (fun i => fs_at fs i <> None) up ->
    goes_on f cs (walk fs l f cur up cs) (walk fs' l f cur up cs).
  Proof.
    induction l as [l IHl] using lt_wf_ind. induction cs as [|c t IH]; intros cur up Hc Hu; [rewrite !walk_nil; split; [exact Hc|reflexivity]|].
    pose proof (new_at_tail f c t) as Ht.
    assert (IH' : forall cur up, fs_at fs cur <> None -> Forall (fun i => fs_at fs i <> None) up -> goes_on f (c :: t) (walk fs l f cur up t) (walk fs' l f cur up t)).
    { intros cur' up' H1 H2. eapply goes_on_weak; [exact Ht|]. apply IH; assumption. }
    rewrite !walk_cons. destruct (fs_at fs cur) as [[d0 p0|es0 p0|tg]|] eqn:Ecur; try exact I.
    assert (Ecur' : exists es1, fs_at fs' cur = Some (NDir es1 p0) /\ forall c i, entry es0 c = Some i -> entry es1 c = Some i).
    { destruct (Nat.eq_dec cur dir) as [->|Hne]; [|exists es0; split; [rewrite at_old; [exact Ecur|congruence|exact Hne]|auto]].
      rewrite Hd in Ecur. injection Ecur as <- <-. exists (es ++ [(name, fs_next fs)]). split; [apply at_dir|]. intros c' i' E. rewrite entry_app, E. reflexivity. }
    destruct Ecur' as (es1 & E1 & Hes). rewrite E1.
    assert (Hcn : fs_at fs cur <> None) by congruence.
    destruct (is_empty c) eqn:Eec; [apply IH'; assumption|]. destruct (may_search p0) eqn:Esr; cbn [negb]; [|exact I].
    destruct (beq c (B ".")) eqn:Edot; [apply IH'; assumption|].
    destruct (beq c (B "..")) eqn:Edd.
    { destruct up as [|d1 up1]; [apply IH'; assumption|]. inversion_clear Hu as [|? ? H1 H2]. apply IH'; assumption. }
    destruct (entry es0 c) as [i|] eqn:Ee.
    - rewrite (Hes c i Ee). pose proof (proj2 (proj2 (wf_names fs Hw cur es0 p0 Ecur) c i (entry_in _ _ _ Ee))) as Hi.
      assert (Hkind : forall tg, fs_at fs' i = Some (NLink tg) <-> fs_at fs i = Some (NLink tg)).
      { intros tg. destruct (Nat.eq_dec i dir) as [->|Hne]; [rewrite at_dir, Hd; split; discriminate|rewrite (at_old i Hi Hne); reflexivity]. }
      destruct (fs_at fs i) as [[d2 p2|es2 p2|tg]|] eqn:Ei; [| | |congruence].
      + replace (match fs_at fs' i with Some (NLink _) => _ | _ => _ end) with (walk fs' l f i (cur :: up) t); [apply IH'; [congruence|constructor; assumption]|].
        destruct (fs_at fs' i) as [[| |tg]|] eqn:Ei'; try reflexivity. pose proof (proj1 (Hkind tg) eq_refl). discriminate.
      + replace (match fs_at fs' i with Some (NLink _) => _ | _ => _ end) with (walk fs' l f i (cur :: up) t); [apply IH'; [congruence|constructor; assumption]|].
        destruct (fs_at fs' i) as [[| |tg]|] eqn:Ei'; try reflexivity. pose proof (proj1 (Hkind tg) eq_refl). discriminate.
      + rewrite (proj2 (Hkind tg) eq_refl). destruct (negb f && match t with [] => true | _ => false end) eqn:Eb; [split; [congruence|reflexivity]|].
        destruct l as [|l]; [exact I|]. destruct (is_empty tg); [exact I|].
        assert (Ha' : new_at n f (c :: t) -> new_at n f (comps tg ++ t)).
        { intros H. apply Ht in H as [H|(H1 & H2 & H3)]; [left; exact H|]. right. split; [exact H1|]. split; [exact H2|]. apply ein_app; [exact H3|]. intros ->. subst f. discriminate. }
        destruct (rooted tg); eapply goes_on_weak; try exact Ha'; apply IHl; try lia; try assumption; try constructor. pose proof (wf_top fs Hw) as H. inversion_clear H. assumption.
    - destruct (forallb is_empty t) eqn:Et; [|exact I]. cbn [goes_on].
      intros -> -> Ha. rewrite at_dir in E1. injection E1 as <-. rewrite Hd in Ecur. injection Ecur as <- <-.
      rewrite entry_app, Hn. cbn [fst snd]. rewrite beq_refl. rewrite at_new. rewrite (new_tail f l (dir :: up) t (Ht Ha) Et).
      destruct Ha as [(x & y & ->)|((x & y & ->) & _)]; reflexivity.
  Qed.
End Added.

Lemma lookup_added fs f path dir name n es p : wf_fs fs -> fs_at fs dir = Some (NDir es p) -> entry es name = None ->
  goes_on fs dir name n f (comps path) (lookup fs f path) (lookup (add_node fs dir name n) f path).
Proof.
  intros Hw Hd Hn. pose proof (wf_top fs Hw) as Ht. inversion_clear Ht as [|? ? Hr Ht']. inversion_clear Ht' as [|? ? Hc Hu].
  unfold lookup. destruct path as [|c path]; [exact I|]. destruct (rooted (c :: path)).
  - apply (walk_added fs dir name n es p Hw Hd Hn f 40); [exact Hr|constructor].
  - apply (walk_added fs dir name n es p Hw Hd Hn f 40); assumption.
Qed.

(** Missing tells a place where the name can be created. *)
Lemma walk_missing fs f l : forall cs cur up d c, Forall (fun c => ~ In slash c) cs -> walk fs l f cur up cs = Missing d c ->
  exists es p, fs_at fs d = Some (NDir es p) /\ may_search p = true /\ entry es c = None /\ name_ok c.
Proof.
  induction l as [l IHl] using lt_wf_ind. induction cs as [|x t IH]; intros cur up d c Hs; [rewrite walk_nil; discriminate|]. inversion_clear Hs as [|? ? Hx Ht].
  rewrite walk_cons. destruct (fs_at fs cur) as [[d0 p0|es0 p0|tg]|] eqn:Ecur; try discriminate.
  destruct (is_empty x) eqn:Ex; [apply IH; exact Ht|]. destruct (may_search p0) eqn:Es; cbn [negb]; [|discriminate].
  destruct (beq x (B ".")) eqn:E1; [apply IH; exact Ht|]. destruct (beq x (B "..")) eqn:E2; [destruct up; apply IH; exact Ht|].
  destruct (entry es0 x) as [i|] eqn:Ee.
  - destruct (fs_at fs i) as [[| |tg]|]; try (apply IH; exact Ht). destruct (negb f && match t with [] => true | _ => false end); [discriminate|].
    destruct l as [|l]; [discriminate|]. destruct (is_empty tg); [discriminate|].
    assert (Forall (fun c => ~ In slash c) (comps tg ++ t)) by (apply Forall_app; split; [apply split_free|exact Ht]).
    destruct (rooted tg); apply IHl; try lia; assumption.
  - destruct (forallb is_empty t); [|discriminate]. intros [= <- <-]. exists es0, p0. split; [exact Ecur|]. split; [exact Es|]. split; [exact Ee|].
    split; [intros ->; discriminate|]. split; [intros ->; rewrite beq_refl in E1; discriminate|]. split; [intros ->; rewrite beq_refl in E2; discriminate|exact Hx].
Qed.
Lemma lookup_missing fs f path d c : lookup fs f path = Missing d c ->
  exists es p, fs_at fs d = Some (NDir es p) /\ may_search p = true /\ entry es c = None /\ name_ok c.
Proof.
  unfold lookup. destruct path as [|x path]; [discriminate|]. destruct (rooted (x :: path)); apply walk_missing; apply split_free.
Qed.

Lemma add_wf fs dir name n es p : wf_fs fs -> fs_at fs dir = Some (NDir es p) -> entry es name = None -> name_ok name ->
  (forall es0 p0, n = NDir es0 p0 -> es0 = []) -> wf_fs (add_node fs dir name n).
Proof.
  intros Hw Hd Hn Hok Hnew. constructor.
  - intros i Hi. cbn in *. destruct (Nat.eqb_spec i (fs_next fs)); [lia|]. destruct (Nat.eqb_spec i dir) as [->|]; [rewrite (wf_fresh fs Hw dir) in Hd by lia; discriminate|apply (wf_fresh fs Hw); lia].
  - assert (Hold : forall i, fs_at fs i <> None -> fs_at (add_node fs dir name n) i <> None).
    { intros i Hi. cbn. destruct (Nat.eqb_spec i (fs_next fs)); [discriminate|]. destruct (Nat.eqb_spec i dir); [rewrite Hd; discriminate|exact Hi]. }
    intros d es0 p0 E. cbn in E. destruct (Nat.eqb_spec d (fs_next fs)).
    + injection E as E. rewrite (Hnew es0 p0 E). split; [constructor|intros c i []].
    + destruct (Nat.eqb_spec d dir) as [->|Hne].
      * rewrite Hd in E. injection E as <- <-. destruct (wf_names fs Hw dir es p Hd) as [H1 H2]. split.
        { rewrite map_app. cbn [map fst]. apply (Permutation_NoDup (Permutation_app_comm [name] (map fst es))). constructor; [apply entry_none; exact Hn|exact H1]. }
        intros c i Hin. apply in_app_or in Hin as [Hin|[[= <- <-]|[]]]; [destruct (H2 c i Hin); split; [assumption|apply Hold; assumption]|]. split; [exact Hok|]. rewrite (at_new fs dir name n). discriminate.
      * destruct (wf_names fs Hw d es0 p0 E) as [H1 H2]. split; [exact H1|]. intros c i Hin. destruct (H2 c i Hin). split; [assumption|apply Hold; assumption].
  - pose proof (wf_top fs Hw) as H. eapply Forall_impl; [|exact H]. intros i Hi. cbn [fs_at add_node]. destruct (Nat.eqb_spec i (fs_next fs)); [discriminate|]. destruct (Nat.eqb_spec i dir); [rewrite Hd; discriminate|exact Hi].
Qed.

(** Outcome of creating a name. *)
Lemma create_ok fs path n fs' : wf_fs fs -> create fs path n = (fs', None) -> new_at n false (comps path) -> (forall es0 p0, n = NDir es0 p0 -> es0 = []) ->
  exists dir name es p, lookup fs false path = Missing dir name /\ fs_at fs dir = Some (NDir es p) /\ entry es name = None /\ name_ok name /\ may_write p = true /\ may_search p = true /\
    fs' = add_node fs dir name n /\ wf_fs fs' /\ fs_at fs' (fs_next fs) = Some n /\ lookup fs' false path = Found (fs_next fs) /\ lookup fs' true path = Found (fs_next fs).
Proof.
  intros Hw H Ha Hnew. unfold create in H. destruct (lookup fs false path) as [i|dir name|er] eqn:El; try discriminate.
  destruct (lookup_missing fs false path dir name El) as (es & p & Hd & Hs & He & Hok). rewrite Hd in H. destruct (may_write p) eqn:Ew; [|discriminate]. injection H as <-.
  pose proof (lookup_added fs false path dir name n es p Hw Hd He) as HA. rewrite El in HA. cbn [goes_on] in HA.
  specialize (HA eq_refl eq_refl Ha).
  exists dir, name, es, p. repeat (split; [assumption || reflexivity|]). split; [eapply add_wf; eassumption|]. split; [apply at_new|]. split; [exact HA|].
  pose proof (lookup_follow (add_node fs dir name n) path) as HF. rewrite HA in HF. destruct HF as [(t & HF)|HF]; [|exact HF].
  rewrite at_new in HF. destruct Ha as [(x & y & ->)|((x & y & ->) & _)]; congruence.
Qed.
Lemma create_err fs path n fs' e : create fs path n = (fs', Some e) -> fs' = fs.
Proof. unfold create. destruct (lookup fs false path); [congruence| |congruence]. destruct (fs_at fs dir) as [[| |]|]; try congruence. destruct (may_write p); congruence. Qed.

(** What a name means is not changed by creating another. *)
Lemma create_frame fs path n fs' f q i : wf_fs fs -> create fs path n = (fs', None) -> lookup fs f q = Found i -> lookup fs' f q = Found i.
Proof.
  intros Hw H Hq. unfold create in H. destruct (lookup fs false path) as [j|dir name|er] eqn:El; try discriminate.
  destruct (lookup_missing fs false path dir name El) as (es & p & Hd & Hs & He & Hok). rewrite Hd in H. destruct (may_write p) eqn:Ew; [|discriminate]. injection H as <-.
  pose proof (lookup_added fs f q dir name n es p Hw Hd He) as HA. rewrite Hq in HA. apply HA.
Qed.

(** ** Trailing slashes *)
Lemma strip_ends rpath : rpath <> [] -> strip rpath <> [] /\ (strip rpath = [slash] \/ hd slash (strip rpath) <> slash).
Proof.
  induction rpath as [|c t IH]; [congruence|]. intros _. cbn [strip]. destruct t as [|c' t'].
  - split; [discriminate|]. cbn [hd]. destruct (ascii_dec c slash) as [->|]; auto.
  - destruct (Ascii.eqb c slash) eqn:E; [apply IH; discriminate|]. split; [discriminate|]. right. cbn [hd]. apply Ascii.eqb_neq. exact E.
Qed.

(** ** Sorting *)
Lemma insert_perm x l : Permutation (insert_name x l) (x :: l).
Proof. induction l as [|y l IH]; cbn [insert_name]; [reflexivity|]. destruct (name_leb (fst x) (fst y)); [reflexivity|]. rewrite IH. apply perm_swap. Qed.
Lemma sort_perm l : Permutation (sort_names l) l.
Proof. induction l as [|x l IH]; [reflexivity|]. cbn [sort_names fold_right]. rewrite insert_perm. constructor. exact IH. Qed.
Lemma name_leb_le a b : name_leb a b = true <-> name_le a b.
Proof.
  revert b. induction a as [|x a IH]; intros b; cbn [name_leb]; [split; [constructor|reflexivity]|]. destruct b as [|y b]; [split; [discriminate|inversion 1]|].
  rewrite orb_true_iff, andb_true_iff, N.ltb_lt, N.eqb_eq, IH. split.
  - intros [H|[E H]]; [constructor; exact H|]. assert (x = y) as -> by (unfold bval in E; rewrite <- (ascii_N_embedding x), <- (ascii_N_embedding y), E; reflexivity). apply nle_eq. exact H.
  - inversion 1; subst; [left; assumption|right; split; [reflexivity|assumption]].
Qed.
Lemma name_leb_total a b : name_leb a b = false -> name_leb b a = true.
Proof.
  revert b. induction a as [|x a IH]; intros [|y b]; cbn [name_leb]; try discriminate; try reflexivity. intros H. apply orb_false_iff in H as [H1 H2].
  apply N.ltb_ge in H1. apply orb_true_iff. destruct (N.eq_dec (bval x) (bval y)) as [E|E].
  - right. rewrite E, N.eqb_refl in *. cbn [andb] in *. apply IH. exact H2.
  - left. apply N.ltb_lt. lia.
Qed.
Lemma name_le_trans a b c : name_le a b -> name_le b c -> name_le a c.
Proof.
  intros H. revert c. induction H as [b|x y a b Hxy|x a b H IH]; intros c Hc; [constructor| |]; inversion Hc; subst; try (constructor; try lia; assumption).
  apply nle_eq. apply IH. assumption.
Qed.
Lemma insert_sorted x l : StronglySorted (fun a b => name_le (fst a) (fst b)) l -> StronglySorted (fun a b => name_le (fst a) (fst b)) (insert_name x l).
Proof.
  induction 1 as [|y l H IH HF]; cbn [insert_name]; [constructor; constructor|]. destruct (name_leb (fst x) (fst y)) eqn:E.
  - apply name_leb_le in E. constructor; [constructor; assumption|]. constructor; [exact E|]. eapply Forall_impl; [|exact HF]. cbn beta. intros a Ha. eapply name_le_trans; eassumption.
  - apply name_leb_total, name_leb_le in E. constructor; [exact IH|]. eapply Permutation_Forall; [symmetry; apply insert_perm|]. constructor; assumption.
Qed.
Lemma sort_sorted l : StronglySorted (fun a b => name_le (fst a) (fst b)) (sort_names l).
Proof. induction l as [|x l IH]; [constructor|]. apply insert_sorted, IH. Qed.

(** ** One more component *)
Lemma walk_snoc fs l f c : forall cs cur up, c <> [] ->
  match walk fs l true cur up cs with
  | Found d => exists l' up', walk fs l f cur up (cs ++ [c]) = walk fs l' f d up' [c]
  | Missing _ _ => walk fs l f cur up (cs ++ [c]) = Failed ENOENT
  | Failed e => walk fs l f cur up (cs ++ [c]) = Failed e
  end.
Proof.
  intros cs cur up Hc. revert cs cur up.
  assert (Hf : forall t, forallb is_empty (t ++ [c]) = false) by (intros t; rewrite forallb_app; cbn [forallb]; destruct c; [congruence|]; apply andb_false_r).
  induction l as [l IHl] using lt_wf_ind. induction cs as [|x t IH]; intros cur up; [rewrite walk_nil; cbn [app]; eauto|]. cbn [app]. rewrite !walk_cons.
  destruct (fs_at fs cur) as [[d p|es p|tg]|]; try reflexivity.
  destruct (is_empty x); [apply IH|]. destruct (negb (may_search p)); [reflexivity|]. destruct (beq x (B ".")); [apply IH|].
  destruct (beq x (B "..")); [destruct up; apply IH|]. destruct (entry es x) as [i|]; [|rewrite Hf; destruct (forallb is_empty t); reflexivity].
  destruct (fs_at fs i) as [[d' p'|es' p'|tg]|]; try apply IH. cbn [negb andb].
  replace (negb f && match t ++ [c] with [] => true | _ => false end) with false by (destruct t; cbn [app]; rewrite andb_false_r; reflexivity).
  destruct l as [|l]; [reflexivity|]. destruct (is_empty tg); [reflexivity|]. rewrite app_assoc. destruct (rooted tg); apply IHl; lia.
Qed.

Lemma walk_one fs l f d up c es p : fs_at fs d = Some (NDir es p) -> name_ok c -> f = false \/ (forall i, entry es c = Some i -> ~ is_link fs i) ->
  walk fs l f d up [c] = if may_search p then match entry es c with Some i => Found i | None => Missing d c end else Failed EACCES.
Proof.
  intros Hd (H1 & H2 & H3 & _) Hl. rewrite walk_cons, Hd. destruct c as [|x c]; [congruence|]. cbn [is_empty].
  destruct (may_search p); cbn [negb]; [|reflexivity].
  destruct (beq (x :: c) (B ".")) eqn:E1; [apply beq_eq in E1; congruence|]. destruct (beq (x :: c) (B "..")) eqn:E2; [apply beq_eq in E2; congruence|].
  destruct (entry es (x :: c)) as [i|] eqn:Ee; [|reflexivity]. destruct (fs_at fs i) as [[| |tg]|] eqn:Ei; try apply walk_nil.
  destruct Hl as [->|Hl]; [reflexivity|]. exfalso. apply (Hl i eq_refl). exists tg. exact Ei.
Qed.

Lemma lookup_child fs f path c : path <> [] -> name_ok c ->
  match lookup fs true path with
  | Found d => forall es p, fs_at fs d = Some (NDir es p) -> f = false \/ (forall i, entry es c = Some i -> ~ is_link fs i) ->
                 lookup fs f (path ++ slash :: c) = if may_search p then match entry es c with Some i => Found i | None => Missing d c end else Failed EACCES
  | Missing _ _ => lookup fs f (path ++ slash :: c) = Failed ENOENT
  | Failed e => lookup fs f (path ++ slash :: c) = Failed e
  end.
Proof.
  intros Hp Hc. assert (Hc' : c <> []) by apply Hc. destruct path as [|x path]; [congruence|].
  assert (Ec : comps ((x :: path) ++ slash :: c) = comps (x :: path) ++ [c]) by (unfold comps; rewrite split_app, (split_on_none slash c); [reflexivity|apply Hc]).
  unfold lookup. cbn [app]. replace (rooted (x :: path ++ slash :: c)) with (rooted (x :: path)) by reflexivity.
  change (x :: path ++ slash :: c) with ((x :: path) ++ slash :: c). rewrite Ec.
  destruct (rooted (x :: path)); match goal with |- context [walk fs 40 true ?cur ?up (comps (x :: path))] => pose proof (walk_snoc fs 40 f c (comps (x :: path)) cur up Hc') as H; destruct (walk fs 40 true cur up (comps (x :: path))) as [d|d n|e]; try exact H; destruct H as (l' & up' & ->); intros es p Hd Hl; apply walk_one; assumption end.
Qed.
Lemma lookup_notdir fs f path c d : path <> [] -> name_ok c -> lookup fs true path = Found d -> node_is_dir fs d = false -> lookup fs f (path ++ slash :: c) = Failed ENOTDIR.
Proof.
  intros Hp Hc. assert (Hc' : c <> []) by apply Hc. destruct path as [|x path]; [congruence|].
  assert (Ec : comps ((x :: path) ++ slash :: c) = comps (x :: path) ++ [c]) by (unfold comps; rewrite split_app, (split_on_none slash c); [reflexivity|apply Hc]).
  unfold lookup. cbn [app]. replace (rooted (x :: path ++ slash :: c)) with (rooted (x :: path)) by reflexivity.
  change (x :: path ++ slash :: c) with ((x :: path) ++ slash :: c). rewrite Ec.
  destruct (rooted (x :: path)); match goal with |- context [walk fs 40 true ?cur ?up (comps (x :: path))] => pose proof (walk_snoc fs 40 f c (comps (x :: path)) cur up Hc') as H; intros E Hn; rewrite E in H; destruct H as (l' & up' & ->); apply walk_stuck; [discriminate|exact Hn] end.
Qed.

Lemma strip_keep path c : c <> slash -> strip_slashes (path ++ [c]) = path ++ [c].
Proof.
  intros Hc. unfold strip_slashes. assert (E : strip (rev (path ++ [c])) = rev (path ++ [c])); [|rewrite E; apply rev_involutive].
  rewrite rev_app_distr. cbn [rev app strip]. apply Ascii.eqb_neq in Hc. rewrite Hc. destruct (rev path); reflexivity.
Qed.
Lemma strip_child path c : name_ok c -> strip_slashes (path ++ slash :: c) = path ++ slash :: c.
Proof.
  intros (H1 & _ & _ & H4). destruct (exists_last (l := c)) as (c' & z & ->); [exact H1|]. replace (path ++ slash :: c' ++ [z]) with ((path ++ slash :: c') ++ [z]) by (rewrite <- app_assoc; reflexivity).
  apply strip_keep. intros ->. apply H4. apply in_or_app. right. left. reflexivity.
Qed.

(** The walk never leaves the existing nodes. *)
Lemma lookup_exists fs f path i : wf_fs fs -> lookup fs f path = Found i -> fs_at fs i <> None.
Proof.
  intros Hw Hl. assert (Hx : forall cs l cur up j, fs_at fs cur <> None -> Forall (fun i => fs_at fs i <> None) up -> walk fs l f cur up cs = Found j -> fs_at fs j <> None).
  { intros cs l. revert cs. induction l as [l IHl] using lt_wf_ind. induction cs as [|x t IH]; intros cur up j Hc Hu; [rewrite walk_nil; congruence|].
    rewrite walk_cons. destruct (fs_at fs cur) as [[d0 p0|es0 p0|tg]|] eqn:Ecur; try discriminate. assert (Hcn : fs_at fs cur <> None) by congruence.
    destruct (is_empty x); [apply IH; assumption|]. destruct (negb (may_search p0)); [discriminate|]. destruct (beq x (B ".")); [apply IH; assumption|].
    destruct (beq x (B "..")); [destruct up; [apply IH; assumption|inversion_clear Hu; apply IH; assumption]|].
    destruct (entry es0 x) as [k|] eqn:Ee; [|destruct (forallb is_empty t); discriminate].
    pose proof (proj2 (proj2 (wf_names fs Hw cur es0 p0 Ecur) x k (entry_in _ _ _ Ee))) as Hk.
    destruct (fs_at fs k) as [[| |tg]|] eqn:Ek; [apply IH; [congruence|constructor; assumption]|apply IH; [congruence|constructor; assumption]| |congruence].
    destruct (negb f && match t with [] => true | _ => false end); [intros [= <-]; congruence|]. destruct l as [|l]; [discriminate|]. destruct (is_empty tg); [discriminate|].
    pose proof (wf_top fs Hw) as Ht. inversion_clear Ht.
    destruct (rooted tg); apply IHl; try lia; try assumption; constructor. }
  pose proof (wf_top fs Hw) as Ht. inversion_clear Ht as [|? ? Hr Ht']. inversion_clear Ht' as [|? ? Hc Hu].
  unfold lookup in Hl. destruct path as [|x path]; [discriminate|]. destruct (rooted (x :: path)); eapply Hx in Hl; try assumption. constructor.
Qed.
Lemma walk_true_nolink fs l : forall cs cur up i, node_is_dir fs cur = true -> (forall d, In d up -> node_is_dir fs d = true) -> node_is_dir fs (fs_root fs) = true -> walk fs l true cur up cs = Found i -> ~ is_link fs i.
Proof.
  assert (Hd : forall d, node_is_dir fs d = true -> ~ is_link fs d) by (intros d H (t & E); unfold node_is_dir in H; rewrite E in H; discriminate).
  assert (Hx : forall cs cur up i, ~ is_link fs cur -> (forall d, In d up -> ~ is_link fs d) -> node_is_dir fs (fs_root fs) = true -> walk fs l true cur up cs = Found i -> ~ is_link fs i); [|intros cs cur up i H1 H2; apply Hx; auto].
  induction l as [l IHl] using lt_wf_ind. induction cs as [|x t IH]; intros cur up i Hc Hu Hr; [rewrite walk_nil; congruence|].
  rewrite walk_cons. destruct (fs_at fs cur) as [[d0 p0|es0 p0|tg]|] eqn:Ecur; try discriminate.
  destruct (is_empty x); [apply IH; assumption|]. destruct (negb (may_search p0)); [discriminate|]. destruct (beq x (B ".")); [apply IH; assumption|].
  destruct (beq x (B "..")); [destruct up; [apply IH; assumption|apply IH; [apply Hu; left; reflexivity|intros d Hd'; apply Hu; right; exact Hd'|exact Hr]]|].
  destruct (entry es0 x) as [k|] eqn:Ee; [|destruct (forallb is_empty t); discriminate].
  assert (Hstep : ~ is_link fs k -> walk fs l true k (cur :: up) t = Found i -> ~ is_link fs i).
  { intros Hk. apply IH; [exact Hk| |exact Hr]. intros d [<-|H]; [exact Hc|apply Hu; exact H]. }
  destruct (fs_at fs k) as [[| |tg]|] eqn:Ek; try (apply Hstep; intros (t' & E'); congruence). cbn [negb andb].
  destruct l as [|l]; [discriminate|]. destruct (is_empty tg); [discriminate|]. destruct (rooted tg); apply IHl; try lia; try assumption; [apply Hd; exact Hr|intros d []].
Qed.
