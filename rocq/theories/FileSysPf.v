(** FileSysPf.v -- C113: the file helpers of misc/file.go; C114: the torrent command on a file system. *)
From Verif Require Import Base GoLib Bencode BencodeSpec BencodeProofs BencodePf Types TorrentCmd TorrentCmdPf FileSys FileSysSpec FileSysProofs.
From Coq Require Import Sorted.
Local Open Scope list_scope.

(** ** C113 *)

(** C113: IsExist says whether the path, links followed, names something; GetFileSize is the length of the file so
    named, and -1 exactly when IsExist says no. *)
Lemma C113_exist_size_pf : forall fs path,
  (IsExist fs path = true <-> exists i, named fs true path i) /\
  (forall i d p, named fs true path i -> fs_at fs i = Some (NFile d p) -> GetFileSize fs path = Z.of_nat (length d)) /\
  (GetFileSize fs path = -1 <-> IsExist fs path = false)%Z /\ (-1 <= GetFileSize fs path)%Z.
Proof.
  intros fs path. unfold IsExist, GetFileSize, named, stat. destruct (lookup fs true path) as [i|d n|e] eqn:E.
  - split; [split; [eauto|reflexivity]|]. split; [intros j d p [= <-] Hf; unfold node_size; rewrite Hf; reflexivity|]. split; [split; [lia|discriminate]|lia].
  - split; [split; [discriminate|intros (i & H); discriminate]|]. split; [intros i d' p H; discriminate|]. split; [split; reflexivity|lia].
  - assert (He : err_exist e = false).
    { destruct (err_exist e) eqn:Ee; [|reflexivity]. exfalso. assert (e = EEXIST) as -> by (destruct e; try discriminate; reflexivity).
      assert (Hw : forall l cs cur up, walk fs l true cur up cs <> Failed EEXIST).
      { induction l as [l IHl] using lt_wf_ind. induction cs as [|x t IH]; intros cur up; [rewrite walk_nil; discriminate|]. rewrite walk_cons.
        destruct (fs_at fs cur) as [[| |]|]; try discriminate. destruct (is_empty x); [apply IH|]. destruct (negb (may_search p)); [discriminate|].
        destruct (beq x (B ".")); [apply IH|]. destruct (beq x (B "..")); [destruct up; apply IH|]. destruct (entry es x); [|destruct (forallb is_empty t); discriminate].
        destruct (fs_at fs n) as [[| |]|]; try apply IH. cbn [negb andb]. destruct l as [|l]; [discriminate|]. destruct (is_empty target); [discriminate|]. destruct (rooted target); apply IHl; lia. }
      unfold lookup in E. destruct path as [|x path]; [discriminate|]. destruct (rooted (x :: path)); exact (Hw _ _ _ _ E). }
    rewrite He. split; [split; [discriminate|intros (i & H); discriminate]|]. split; [intros i d p H; discriminate|]. split; [split; reflexivity|lia].
Qed.

(** C113: IsDir says whether the path itself, a last link not followed, is a directory; such a path exists. *)
Lemma C113_isdir_pf : forall fs path,
  (IsDir fs path = true <-> exists i, named fs false path i /\ is_dir fs i) /\
  (IsDir fs path = true -> IsExist fs path = true /\ exists i, named fs true path i /\ is_dir fs i).
Proof.
  intros fs path.
  assert (H1 : IsDir fs path = true <-> exists i, named fs false path i /\ is_dir fs i).
  { unfold IsDir, named, stat, is_dir, node_is_dir. destruct (lookup fs false path) as [i|d n|e].
    - split.
      + intros H. exists i. split; [reflexivity|]. destruct (fs_at fs i) as [[| |]|]; try discriminate. eauto.
      + intros (j & [= <-] & es & p & H). rewrite H. reflexivity.
    - split; [cbn; discriminate|intros (i & H & _); discriminate].
    - destruct (err_not_exist e); (split; [discriminate|intros (i & H & _); discriminate]). }
  split; [exact H1|]. intros H. apply H1 in H as (i & Hi & Hd). unfold named in Hi. pose proof (lookup_follow fs path) as Hf. rewrite Hi in Hf.
  assert (Ht : lookup fs true path = Found i) by (destruct Hf as [(t & Hl)|Hf]; [destruct Hd as (es & p & Hd); congruence|exact Hf]).
  split; [unfold IsExist, stat; rewrite Ht; reflexivity|exists i; split; assumption].
Qed.

(** C113: how Mkdir(parent/name) ends. *)
Lemma C113_mkdir_outcome_pf : forall fs parent name, parent <> [] -> name_ok name ->
  (forall d, named fs true parent d -> ~ is_dir fs d -> Mkdir fs (parent ++ slash :: name) = (fs, Some ENOTDIR)) /\
  (forall e, stat fs true parent = SErr e -> Mkdir fs (parent ++ slash :: name) = (fs, Some e)) /\
  (forall d es p, named fs true parent d -> fs_at fs d = Some (NDir es p) ->
     (may_search p = false -> Mkdir fs (parent ++ slash :: name) = (fs, Some EACCES)) /\
     (may_search p = true -> In name (map fst es) -> Mkdir fs (parent ++ slash :: name) = (fs, Some EEXIST)) /\
     (may_search p = true -> ~ In name (map fst es) -> may_write p = false -> Mkdir fs (parent ++ slash :: name) = (fs, Some EACCES)) /\
     (may_search p = true -> ~ In name (map fst es) -> may_write p = true -> snd (Mkdir fs (parent ++ slash :: name)) = None)).
Proof.
  intros fs parent name Hp Hn. unfold Mkdir. rewrite (strip_child parent name Hn). pose proof (lookup_child fs false parent name Hp Hn) as HL. unfold create, named.
  split; [|split].
  - intros d Hd Hno. rewrite (lookup_notdir fs false parent name d Hp Hn Hd); [reflexivity|]. unfold node_is_dir. destruct (fs_at fs d) as [[| |]|] eqn:E; try reflexivity. exfalso. apply Hno. red. eauto.
  - intros e He. unfold stat in He. destruct (lookup fs true parent) as [d|d n|e']; [discriminate| |]; injection He as <-; rewrite HL; reflexivity.
  - intros d es p Hd He. rewrite Hd in HL. specialize (HL es p He (or_introl eq_refl)). rewrite HL.
    split; [intros ->; reflexivity|]. split; [intros -> Hin|]; [|split; intros -> Hno].
    + destruct (entry es name) eqn:E; [reflexivity|]. apply entry_none in E. contradiction.
    + apply entry_none in Hno. rewrite Hno, He. intros ->. reflexivity.
    + apply entry_none in Hno. rewrite Hno, He. intros ->. reflexivity.
Qed.

(** C113: a successful Mkdir makes the path an existing, empty directory that was not there before; nothing else changes:
    every path that named something names the same thing, and every file and link is as before. *)
Lemma C113_mkdir_effect_pf : forall fs parent name fs', wf_fs fs -> parent <> [] -> name_ok name -> Mkdir fs (parent ++ slash :: name) = (fs', None) ->
  IsExist fs (parent ++ slash :: name) = false /\
  IsDir fs' (parent ++ slash :: name) = true /\ IsExist fs' (parent ++ slash :: name) = true /\ read_dir fs' (parent ++ slash :: name) = Some [] /\
  (forall f q i, named fs f q i -> named fs' f q i) /\
  (forall i, fs_at fs i <> None -> ~ is_dir fs i -> fs_at fs' i = fs_at fs i) /\
  wf_fs fs'.
Proof.
  intros fs parent name fs' Hw Hp Hn HM. unfold Mkdir in HM. rewrite (strip_child parent name Hn) in HM.
  assert (Ha : forall f cs, new_at (NDir [] all_perm) f cs) by (intros; left; eauto).
  destruct (create_ok fs _ _ fs' Hw HM (Ha _ _) ltac:(congruence)) as (dir & nm & es & p & El & Hd & He & Hok & Hwr & Hs & -> & Hw' & Hnew & Hf & Ht).
  set (fs' := add_node fs dir nm (NDir [] all_perm)) in *.
  split; [unfold IsExist, stat; pose proof (lookup_follow fs (parent ++ slash :: name)) as HF; rewrite El in HF; rewrite HF; reflexivity|].
  split; [unfold IsDir, stat; rewrite Hf; unfold node_is_dir; rewrite Hnew; reflexivity|].
  split; [unfold IsExist, stat; rewrite Ht; reflexivity|]. split; [unfold read_dir, stat; rewrite Ht, Hnew; reflexivity|].
  split; [intros f q i Hq; exact (create_frame fs _ _ fs' f q i Hw HM Hq)|]. split; [|exact Hw'].
  intros i Hi Hno. subst fs'. apply (at_old fs dir nm (NDir [] all_perm) Hw i Hi). intros ->. apply Hno. red. eauto.
Qed.

(** A small file system: / has the directory d, a link l to it, a dangling link g and the directory x that may not be
    searched; d has a file, x has one too.  The working directory is /. *)
Definition no_search : perm := {| may_read := true; may_write := true; may_search := false |}.
Definition tfile : bytes := B "d6:lengthi12e4:name3:abc12:piece lengthi4ee".
Definition small_nodes (i : nat) : option fnode :=
  match i with
  | 0 => Some (NDir [(B "d", 1); (B "l", 2); (B "g", 3); (B "x", 4)] all_perm)
  | 1 => Some (NDir [(B "b.torrent", 5); (B "a.torrent", 6); (B "note", 6)] all_perm)
  | 2 => Some (NLink (B "d"))
  | 3 => Some (NLink (B "nowhere"))
  | 4 => Some (NDir [(B "in", 5)] no_search)
  | 5 => Some (NFile tfile all_perm)
  | 6 => Some (NFile (B "d4:name1:xe") all_perm)
  | _ => None
  end.
Definition small_fs : fsys := {| fs_at := small_nodes; fs_root := 0; fs_cwd := 0; fs_above := []; fs_dirsize := fun _ => 4096; fs_next := 7 |}.

Fixpoint nodupb (l : list bytes) : bool := match l with [] => true | x :: t => negb (existsb (beq x) t) && nodupb t end.
Lemma nodup_dec_true (l : list bytes) : nodupb l = true -> NoDup l.
Proof.
  induction l as [|x t IH]; [constructor|]. cbn [nodupb]. rewrite andb_true_iff, negb_true_iff. intros [H1 H2]. constructor; [|exact (IH H2)].
  intros Hin. assert (existsb (beq x) t = true); [|congruence]. apply existsb_exists. exists x. split; [exact Hin|apply beq_refl].
Qed.
Definition name_okb (c : bytes) : bool := negb (is_empty c) && negb (beq c (B ".")) && negb (beq c (B "..")) && negb (existsb (Ascii.eqb slash) c).
Lemma name_okb_ok c : name_okb c = true -> name_ok c.
Proof.
  unfold name_okb. rewrite !andb_true_iff, !negb_true_iff. intros [[[H1 H2] H3] H4].
  split; [intros ->; discriminate|]. split; [intros ->; rewrite beq_refl in H2; discriminate|]. split; [intros ->; rewrite beq_refl in H3; discriminate|].
  intros Hin. assert (existsb (Ascii.eqb slash) c = true); [|congruence]. apply existsb_exists. exists slash. split; [exact Hin|apply Ascii.eqb_refl].
Qed.
(** A check for [wf_fs] of a file system with finitely many nodes. *)
Definition node_okb (at_ : nat -> option fnode) (i : nat) : bool :=
  match at_ i with
  | Some (NDir es _) => nodupb (map fst es) &&
                        forallb (fun x => name_okb (fst x) && match at_ (snd x) with Some _ => true | None => false end) es
  | _ => true
  end.
Lemma wf_check fs : (forall i, fs_next fs <= i -> fs_at fs i = None) -> forallb (node_okb (fs_at fs)) (seq 0 (fs_next fs)) = true ->
  forallb (fun i => match fs_at fs i with Some _ => true | None => false end) (fs_root fs :: fs_cwd fs :: fs_above fs) = true -> wf_fs fs.
Proof.
  intros H1 H2 H3. constructor; [exact H1| |].
  - intros d es p Hd. assert (Hlt : d < fs_next fs) by (destruct (Nat.lt_ge_cases d (fs_next fs)); [assumption|rewrite H1 in Hd by assumption; discriminate]).
    rewrite forallb_forall in H2. specialize (H2 d). rewrite in_seq in H2. specialize (H2 ltac:(lia)). unfold node_okb in H2. rewrite Hd in H2. apply andb_true_iff in H2 as [H4 H5].
    split; [apply nodup_dec_true; exact H4|]. intros c i Hin. rewrite forallb_forall in H5. specialize (H5 _ Hin). cbn [fst snd] in H5. apply andb_true_iff in H5 as [H5 H6].
    split; [apply name_okb_ok; exact H5|]. destruct (fs_at fs i); [discriminate|discriminate H6].
  - apply Forall_forall. rewrite forallb_forall in H3. intros i Hi. specialize (H3 i Hi). cbn beta in H3. destruct (fs_at fs i); [discriminate|discriminate H3].
Qed.
Lemma small_wf : wf_fs small_fs.
Proof. apply wf_check; [|reflexivity|reflexivity]. intros i Hi. cbn [fs_next small_fs] in Hi. do 7 (destruct i as [|i]; [lia|]). reflexivity. Qed.

(** C113, refuted: "IsDir is false" does not mean that the path cannot be listed - a link to a directory can -
    and "IsExist is false" does not mean that there is nothing, nor that Mkdir can create it: a dangling link is
    there (Mkdir fails), and what lies in a directory that may not be searched is not seen. *)
Lemma C113_links_refuted_pf : exists fs, wf_fs fs /\
  (exists items, IsDir fs (B "l") = false /\ read_dir fs (B "l") = Some items /\ items <> [] /\ IsDir fs (B "l/") = true) /\
  (IsExist fs (B "./g") = false /\ Mkdir fs (B "./g") = (fs, Some EEXIST)) /\
  (IsExist fs (B "x/in") = false /\ GetFileSize fs (B "x/in") = (-1)%Z /\ exists i, named fs true (B "x") i /\ is_dir fs i /\ fs_at fs i = Some (NDir [(B "in", 5)] no_search)).
Proof.
  exists small_fs. split; [exact small_wf|]. split; [|split].
  - exists [(B "a.torrent", false); (B "b.torrent", false); (B "note", false)]. split; [vm_compute; reflexivity|]. split; [vm_compute; reflexivity|]. split; [discriminate|vm_compute; reflexivity].
  - split; vm_compute; reflexivity.
  - split; [vm_compute; reflexivity|]. split; [vm_compute; reflexivity|]. exists 4. split; [vm_compute; reflexivity|]. split; [|reflexivity]. exists [(B "in", 5)], no_search. reflexivity.
Qed.

Lemma upto_none r : ~ In slash r -> upto_slash r = [].
Proof. induction r as [|c r IH]; [reflexivity|]. cbn [upto_slash]. intros H. destruct (Ascii.eqb c slash) eqn:E; [apply Ascii.eqb_eq in E; exfalso; apply H; left; exact E|apply IH; intros H'; apply H; right; exact H']. Qed.
Lemma clean_dot wd : wd <> [] -> Clean (wd ++ slash :: B ".") = Clean wd.
Proof.
  intros Hw. unfold Clean. replace (rooted (wd ++ slash :: B ".")) with (rooted wd) by (destruct wd; [congruence|reflexivity]).
  unfold comps. rewrite split_app. change (split_on slash (B ".")) with [B "."]. rewrite fold_left_app. reflexivity.
Qed.

(** C113: BaseDir is absolute whenever the working directory is; refuted as "the directory of the program": for a program started by
    its bare name (found through PATH) it is the working directory. *)
Lemma C113_basedir_refuted_pf : forall wd arg0, rooted wd = true ->
  rooted (BaseDir wd arg0) = true /\ (~ In slash arg0 -> ~ In (byte_of 92) (Clean wd) -> BaseDir wd arg0 = Clean wd).
Proof.
  intros wd arg0 Hr. assert (Hw : wd <> []) by (intros ->; discriminate).
  assert (Hc : forall p, rooted p = true -> rooted (Clean p) = true) by (intros p Hp; unfold Clean; rewrite Hp; reflexivity).
  assert (Hm : forall p, rooted p = true -> rooted (map (fun c => if Ascii.eqb c (byte_of 92) then slash else c) p) = true).
  { intros [|c p]; [discriminate|]. cbn [rooted map]. intros Hp. apply Ascii.eqb_eq in Hp. subst c. reflexivity. }
  split.
  - unfold BaseDir. apply Hm. unfold Abs. destruct (rooted (Dir arg0)) eqn:Ed; [apply Hc; exact Ed|]. unfold Join. destruct wd as [|x wd]; [congruence|]. destruct (Dir arg0); apply Hc; exact Hr.
  - intros H1 H2. unfold BaseDir, Dir. rewrite upto_none by (intros H; apply H1; apply in_rev; exact H). cbn [rev].
    replace (Abs wd (Clean [])) with (Clean wd).
    + induction (Clean wd) as [|c p IH]; [reflexivity|]. cbn [map]. destruct (Ascii.eqb c (byte_of 92)) eqn:E; [apply Ascii.eqb_eq in E; exfalso; apply H2; left; exact E|]. f_equal. apply IH. intros H; apply H2; right; exact H.
    + change (Clean []) with (B "."). unfold Abs. change (rooted (B ".")) with false. cbn iota. unfold Join. destruct wd as [|x wd]; [congruence|]. symmetry. apply clean_dot. discriminate.
Qed.

Definition real (c : bytes) : bool := negb (is_empty c || beq c (B ".")).
Lemma upto_found d n : ~ In slash n -> upto_slash (rev (d ++ slash :: n)) = slash :: rev d.
Proof.
  intros Hn. rewrite rev_app_distr. cbn [rev]. assert (Hr : ~ In slash (rev n)) by (intros H; apply Hn; apply in_rev; exact H). clear Hn. rewrite <- app_assoc. cbn [app].
  revert Hr. generalize (rev n). intros l. induction l as [|c l IH]; intros Hr; cbn [app upto_slash]; [rewrite Ascii.eqb_refl; reflexivity|].
  destruct (Ascii.eqb c slash) eqn:E; [apply Ascii.eqb_eq in E; exfalso; apply Hr; left; exact E|]. apply IH. intros H. apply Hr. right. exact H.
Qed.
Lemma comps_filtered l : Forall (fun c => ~ In slash c) l -> filter real (comps (join_slash (filter real l))) = filter real l.
Proof.
  intros Hl. destruct (filter real l) as [|x t] eqn:E; [reflexivity|]. destruct (exists_last (l := x :: t) ltac:(discriminate)) as (a & y & Ea). rewrite Ea.
  assert (Hf : Forall (fun c => ~ In slash c) (a ++ [y])). { rewrite <- Ea, <- E. apply Forall_forall. intros c H. apply filter_In in H as [H _]. revert c H. apply Forall_forall. exact Hl. }
  rewrite comps_join by exact Hf. rewrite <- Ea, <- E. clear. induction l as [|c l IH]; [reflexivity|]. cbn [filter]. destruct (real c) eqn:Ec; [cbn [filter]; rewrite Ec, IH; reflexivity|exact IH].
Qed.
Lemma clean_real p : no_dotdot p -> Clean p = if rooted p then slash :: join_slash (filter real (comps p)) else match join_slash (filter real (comps p)) with [] => B "." | o => o end.
Proof.
  intros Hd. unfold Clean. rewrite clean_fold by (exact Hd || constructor). rewrite app_nil_r, rev_involutive. change (fun c => negb (trivial c)) with real. destruct (rooted p); [reflexivity|]. destruct (join_slash (filter real (comps p))); reflexivity.
Qed.
Lemma join_in x l : In x (join_slash l) -> x = slash \/ exists c, In c l /\ In x c.
Proof.
  induction l as [|c l IH]; [intros []|]. cbn [join_slash]. destruct l as [|c' l']; [intros H; right; exists c; split; [left; reflexivity|exact H]|].
  intros H. apply in_app_or in H as [H|[H|H]]; [right; exists c; split; [left; reflexivity|exact H]|left; congruence|]. destruct (IH H) as [H'|(c0 & H1 & H2)]; [left; exact H'|right; exists c0; split; [right; exact H1|exact H2]].
Qed.
Lemma comps_in x c p : In c (comps p) -> In x c -> In x p.
Proof.
  unfold comps. revert c. induction p as [|y p IH]; cbn [split_on]; intros c; [intros [<-|[]] []|].
  destruct (Ascii.eqb y slash); [intros [<-|H] Hx; [destruct Hx|right; exact (IH _ H Hx)]|].
  destruct (split_on slash p) as [|z t] eqn:E; [intros [<-|[]] [<-|[]]; left; reflexivity|].
  intros [<-|H] Hx; [destruct Hx as [<-|Hx]; [left; reflexivity|right; apply (IH z); [left; reflexivity|exact Hx]]|right; apply (IH c); [right; exact H|exact Hx]].
Qed.

(** C113: for a program started as d/name, BaseDir is the directory d - seen from the working directory if d is relative - written without
    superfluous slashes and dots (paths with ".." or backslashes aside). *)
Lemma C113_basedir_pf : forall wd d name, rooted wd = true -> no_dotdot wd -> no_dotdot d -> ~ In slash name -> ~ In (byte_of 92) (wd ++ d) ->
  BaseDir wd (d ++ slash :: name) = slash :: join_slash (filter (fun c => negb (is_empty c || beq c (B "."))) (comps (if rooted (d ++ [slash]) then d else wd ++ slash :: d))).
Proof.
  intros wd d name Hr Hw Hd Hn Hb. change (fun c => negb (is_empty c || beq c (B "."))) with real.
  assert (Hdd : no_dotdot (d ++ [slash])). { unfold no_dotdot, comps in *. rewrite split_app. intros H. apply in_app_or in H as [H|[H|[]]]; [exact (Hd H)|discriminate H]. }
  assert (Ef : filter real (comps (d ++ [slash])) = filter real (comps d)). { unfold comps. rewrite split_app, filter_app. cbn. apply app_nil_r. }
  assert (EA : Abs wd (Dir (d ++ slash :: name)) = slash :: join_slash (filter real (comps (if rooted (d ++ [slash]) then d else wd ++ slash :: d)))).
  { unfold Dir. rewrite upto_found by exact Hn. cbn [rev]. rewrite rev_involutive. rewrite clean_real by exact Hdd. rewrite Ef. unfold Abs. destruct (rooted (d ++ [slash])) eqn:Erd.
    - cbn [rooted]. rewrite Ascii.eqb_refl. rewrite clean_real.
      + cbn [rooted]. rewrite Ascii.eqb_refl. f_equal. f_equal. unfold comps at 1. cbn [split_on]. rewrite Ascii.eqb_refl. cbn [filter real is_empty orb negb]. change (split_on slash) with comps. apply comps_filtered. apply split_free.
      + unfold no_dotdot, comps. cbn [split_on]. rewrite Ascii.eqb_refl. intros [H|H]; [discriminate H|]. change (split_on slash) with comps in H.
        assert (H2 : In (B "..") (filter real (comps (join_slash (filter real (comps d)))))) by (apply filter_In; split; [exact H|reflexivity]).
        rewrite comps_filtered in H2 by apply split_free. apply filter_In in H2 as [H2 _]. exact (Hd H2).
    - set (fl := filter real (comps d)). set (r := match join_slash fl with [] => B "." | o => o end).
      assert (Hfree : Forall (fun c => ~ In slash c) (comps d)) by apply split_free.
      assert (Er : filter real (comps r) = fl). { unfold r. destruct (join_slash fl) eqn:Ej; [|rewrite <- Ej; apply comps_filtered; exact Hfree].
        destruct fl as [|c l] eqn:Efl; [reflexivity|]. exfalso. destruct c as [|x c]; [assert (H : In [] (filter real (comps d))) by (fold fl; rewrite Efl; left; reflexivity); apply filter_In in H as [_ H]; discriminate H|]. destruct l; cbn in Ej; discriminate Ej. }
      assert (Err : rooted r = false). { unfold r. destruct (join_slash fl) as [|x t] eqn:Ej; [reflexivity|]. cbn [rooted]. destruct (Ascii.eqb x slash) eqn:Ex; [|reflexivity]. apply Ascii.eqb_eq in Ex. subst x.
        exfalso. destruct fl as [|c l] eqn:Efl; [discriminate Ej|]. assert (H : In c (filter real (comps d))) by (fold fl; rewrite Efl; left; reflexivity). apply filter_In in H as [H1 H2].
        destruct c as [|y c]; [discriminate H2|]. assert (y = slash) by (destruct l; cbn [join_slash app] in Ej; congruence). subst y. rewrite Forall_forall in Hfree. apply (Hfree _ H1). left. reflexivity. }
      rewrite Err. assert (Hwn : wd <> []) by (intros ->; discriminate). assert (Hrn : r <> []) by (unfold r; destruct (join_slash fl); discriminate).
      assert (EJ : Join wd r = Clean (wd ++ slash :: r)) by (destruct wd; [congruence|]; destruct r; [congruence|]; reflexivity). rewrite EJ.
      assert (Erw : rooted (wd ++ slash :: r) = true) by (destruct wd; [congruence|exact Hr]).
      rewrite clean_real, Erw.
      + f_equal. f_equal. unfold comps. rewrite !split_app, !filter_app. f_equal. exact Er.
      + unfold no_dotdot, comps. rewrite split_app. intros H. apply in_app_or in H as [H|H]; [exact (Hw H)|].
        assert (H2 : In (B "..") (filter real (comps r))) by (apply filter_In; split; [exact H|reflexivity]). rewrite Er in H2. apply filter_In in H2 as [H2 _]. exact (Hd H2). }
  unfold BaseDir. rewrite EA. rewrite (map_ext_in _ (fun c => c)); [apply map_id|]. intros x Hx. destruct (Ascii.eqb x (byte_of 92)) eqn:E; [|reflexivity]. apply Ascii.eqb_eq in E. subst x. exfalso.
  destruct Hx as [H|H]; [discriminate H|]. apply join_in in H as [H|(c & Hc & H)]; [discriminate H|]. apply filter_In in Hc as [Hc _].
  apply (comps_in _ _ _ Hc) in H. apply Hb. destruct (rooted (d ++ [slash])); [apply in_app_iff; right; exact H|]. apply in_app_or in H as [H|[H|H]]; [apply in_app_iff; left; exact H|discriminate H|apply in_app_iff; right; exact H].
Qed.
Lemma C113_basedir_example_pf : BaseDir (B "/home/u") (B "./bin//crawler") = B "/home/u/bin" /\ BaseDir (B "/home/u") (B "/opt/./p2p/crawler") = B "/opt/p2p" /\ BaseDir (B "/w") (B "/crawler") = B "/".
Proof. split; [vm_compute; reflexivity|]. split; vm_compute; reflexivity. Qed.

(** C113: the theorems apply. *)
Lemma C113_example_pf : wf_fs small_fs /\ GetFileSize small_fs (B "l/a.torrent") = 11%Z /\ GetFileSize small_fs (B "/d/../d//b.torrent") = 43%Z /\
  IsDir small_fs (B "d") = true /\ IsExist small_fs (B "no") = false /\
  exists fs', Mkdir small_fs (B "d" ++ slash :: B "new") = (fs', None) /\ name_ok (B "new") /\ IsDir fs' (B "l/new/.") = true.
Proof.
  split; [exact small_wf|]. split; [vm_compute; reflexivity|]. split; [vm_compute; reflexivity|]. split; [vm_compute; reflexivity|]. split; [vm_compute; reflexivity|].
  eexists. split; [vm_compute; reflexivity|]. split; [apply name_okb_ok; reflexivity|vm_compute; reflexivity].
Qed.

(** ** C114 *)

(** What the command shows for a file with contents [bs] listed as [name]. *)
Definition line_for (name bs line : bytes) : Prop :=
  fits bs /\ exists d n l p, item bs (VDict d) [] 0 /\ line = report n name l p /\
    shows_str d (B "name") (B "name err") n /\ shows_int d (B "length") 0 l /\ shows_int d (B "piece length") 0 p.

(** C114: joining a directory path and the name of an entry names that entry, with superfluous slashes and dots too:
    also through links if the path has no "..", and also with ".." if no link is met on the way. *)
Lemma C114_join_pf : forall fs f path n, path <> [] -> no_dotdot path \/ (exists d, plain fs path d) -> name_ok n -> lookup fs f (Join path n) = lookup fs f (path ++ slash :: n).
Proof. intros fs f path n Hp [Hd|(d & Hd)] Hn; [exact (join_lookup fs f path n Hp Hd Hn)|exact (join_plain fs f path n d Hd Hn)]. Qed.

(** C114: an entry that is not a link is what path/name names. *)
Lemma C114_entry_pf : forall fs path d es p n i, wf_fs fs -> path <> [] -> named fs true path d -> fs_at fs d = Some (NDir es p) -> may_search p = true ->
  In (n, i) es -> ~ is_link fs i -> named fs true (path ++ slash :: n) i.
Proof.
  intros fs path d es p n i Hw Hp Hd He Hs Hin Hl. destruct (wf_names fs Hw d es p He) as [Hnd Hok]. pose proof (proj1 (Hok n i Hin)) as Hn.
  pose proof (lookup_child fs true path n Hp Hn) as H. unfold named in *. rewrite Hd in H. rewrite (H es p He), Hs, (in_entry es n i Hnd Hin); [reflexivity|].
  right. intros j Ej. rewrite (in_entry es n i Hnd Hin) in Ej. injection Ej as <-. exact Hl.
Qed.

Lemma sorted_filter {A} (R : A -> A -> Prop) g l : StronglySorted R l -> StronglySorted R (filter g l).
Proof.
  induction 1 as [|x l H IH HF]; cbn [filter]; [constructor|]. destruct (g x); [|exact IH]. constructor; [exact IH|]. apply Forall_forall. intros y Hy. apply filter_In in Hy as [Hy _].
  rewrite Forall_forall in HF. apply HF. exact Hy.
Qed.
Lemma sorted_map {A C} (R : A -> A -> Prop) (Q : C -> C -> Prop) g l : (forall x y, R x y -> Q (g x) (g y)) -> StronglySorted R l -> StronglySorted Q (map g l).
Proof.
  intros Hg. induction 1 as [|x l H IH HF]; cbn [map]; constructor; [exact IH|]. apply Forall_forall. intros y Hy. apply in_map_iff in Hy as (z & <- & Hz).
  apply Hg. rewrite Forall_forall in HF. apply HF. exact Hz.
Qed.
Lemma nodup_filter_fst (l : list (bytes * bool)) g : NoDup (map fst l) -> NoDup (map fst (filter g l)).
Proof.
  induction l as [|x l IH]; cbn [map filter]; [auto|]. intros H. inversion_clear H as [|? ? H1 H2]. destruct (g x); [|exact (IH H2)]. cbn [map]. constructor; [|exact (IH H2)].
  intros Hin. apply H1. apply in_map_iff in Hin as (y & <- & Hy). apply filter_In in Hy as [Hy _]. apply in_map. exact Hy.
Qed.

(** C114: what a listing contains, and when there is one: the path names - links followed - a directory that may be read and, unless it
    is empty, searched. *)
Lemma C114_listing_pf : forall fs path,
  (forall items, read_dir fs path = Some items -> exists d es p, named fs true path d /\ fs_at fs d = Some (NDir es p) /\ may_read p = true /\ (may_search p = true \/ es = []) /\
     StronglySorted name_le (map fst items) /\ Permutation (map fst items) (map fst es) /\
     forall n b, In (n, b) items <-> exists i, In (n, i) es /\ (b = true <-> is_dir fs i)) /\
  (forall d es p, named fs true path d -> fs_at fs d = Some (NDir es p) -> may_read p = true -> may_search p = true \/ es = [] -> exists items, read_dir fs path = Some items).
Proof.
  intros fs path. split.
  - intros items H. unfold read_dir, stat in H. destruct (lookup fs true path) as [d|m nm|m] eqn:E; try discriminate H.
    destruct (fs_at fs d) as [[b p|es p|t]|] eqn:Ed; try discriminate H.
    destruct (may_read p && _)%bool eqn:Eb; [|discriminate H]. injection H as <-. apply andb_true_iff in Eb as [Eb1 Eb2]. exists d, es, p.
    split; [exact E|]. split; [exact Ed|]. split; [exact Eb1|]. split. { apply orb_true_iff in Eb2 as [H|H]; [left; exact H|right]. destruct es; [reflexivity|discriminate H]. }
    split; [|split].
    + eapply sorted_map; [|apply sort_sorted]. cbn beta. auto.
    + transitivity (map fst (map (fun x => (fst x, node_is_dir fs (snd x))) es)); [apply Permutation_map, sort_perm|]. rewrite map_map. reflexivity.
    + assert (Hd : forall i, node_is_dir fs i = true <-> is_dir fs i).
      { intros i. unfold node_is_dir, is_dir. split; [|intros (es' & p' & ->); reflexivity]. destruct (fs_at fs i) as [[b p0|es' p'|t]|]; try discriminate. eauto. }
      intros n b. split.
      * intros H. apply (Permutation_in _ (sort_perm _)) in H. apply in_map_iff in H as ([m i] & [= -> <-] & Hi). exists i. split; [exact Hi|apply Hd].
      * intros (i & Hi & Hb). apply (Permutation_in _ (Permutation_sym (sort_perm _))). apply in_map_iff. exists (n, i). split; [|exact Hi]. cbn [fst snd]. f_equal.
        destruct (node_is_dir fs i) eqn:Ei, b; try reflexivity; [apply Hd in Ei; apply Hb in Ei; discriminate|]. rewrite (proj2 (Hd i) (proj1 Hb eq_refl)) in Ei. discriminate.
  - intros d es p Hd Hn Hr Hs. unfold read_dir, stat. unfold named in Hd. rewrite Hd, Hn, Hr. destruct Hs as [->| ->]; [cbn [orb andb]; eauto|rewrite orb_true_r; cbn [andb]; eauto].
Qed.

(** C114: a directory (path without "..", or without links on the way): every entry whose name ends in ".torrent" and that is not a directory is
    shown, in the order of the names, nothing else, provided each names - links followed - a readable file that holds a bencoded
    dictionary. *)
Lemma C114_directory_pf : forall fs path rest d es p, wf_fs fs -> named fs false path d -> fs_at fs d = Some (NDir es p) -> may_read p = true -> may_search p = true -> no_dotdot path \/ plain fs path d ->
  (forall n i, In (n, i) es -> (exists stem, n = stem ++ B ".torrent") -> ~ is_dir fs i ->
     exists j bs q line, named fs true (path ++ slash :: n) j /\ fs_at fs j = Some (NFile bs q) /\ may_read q = true /\ line_for n bs line) ->
  exists shown : list (bytes * bytes), torrent_run (os_files fs) (path :: rest) = (concat (map snd shown), None) /\
    StronglySorted name_le (map fst shown) /\ NoDup (map fst shown) /\
    (forall n, In n (map fst shown) <-> exists i, In (n, i) es /\ (exists stem, n = stem ++ B ".torrent") /\ ~ is_dir fs i) /\
    (forall n line, In (n, line) shown -> exists j bs q, named fs true (path ++ slash :: n) j /\ fs_at fs j = Some (NFile bs q) /\ line_for n bs line).
Proof.
  intros fs path rest d es p Hw Hd He Hr Hs Hdd Hall. destruct (wf_names fs Hw d es p He) as [Hnd Hok].
  assert (Hp : path <> []) by (intros ->; discriminate).
  destruct (proj1 (C113_isdir_pf fs path)) as [_ Hid]. specialize (Hid (ex_intro _ d (conj Hd (ex_intro _ es (ex_intro _ p He))))).
  destruct (proj2 (C113_isdir_pf fs path) Hid) as (_ & d' & Hd' & _).
  assert (d' = d) as ->. { unfold named in *. pose proof (lookup_follow fs path) as HF. rewrite Hd in HF. destruct HF as [(t & HF)|HF]; congruence. }
  set (items := sort_names (map (fun x => (fst x, node_is_dir fs (snd x))) es)).
  assert (Hrd : read_dir fs path = Some items) by (unfold read_dir, stat; unfold named in Hd'; rewrite Hd', He, Hr, Hs; reflexivity).
  assert (Hcand : forall n, In n (candidates items) <-> exists i, In (n, i) es /\ (exists stem, n = stem ++ B ".torrent") /\ ~ is_dir fs i).
  { intros n. rewrite (proj1 (C80_candidates_pf items) n). unfold items. split.
    - intros [H Hst]. apply (Permutation_in _ (sort_perm _)) in H. apply in_map_iff in H as ([m i] & E & Hin). cbn [fst snd] in E. injection E as <- E. exists i. split; [exact Hin|]. split; [exact Hst|].
      intros (es' & p' & E'). unfold node_is_dir in E. rewrite E' in E. discriminate.
    - intros (i & Hin & Hst & Hno). split; [|exact Hst]. apply (Permutation_in _ (Permutation_sym (sort_perm _))). apply in_map_iff. exists (n, i). split; [|exact Hin]. cbn [fst snd]. f_equal.
      unfold node_is_dir. destruct (fs_at fs i) as [[| |]|] eqn:E; try reflexivity. exfalso. apply Hno. red. eauto. }
  assert (Hline : forall n, In n (candidates items) -> exists j bs q, named fs true (path ++ slash :: n) j /\ fs_at fs j = Some (NFile bs q) /\
            snd (line_of (os_files fs) path n) = None /\ line_for n bs (fst (line_of (os_files fs) path n))).
  { intros n Hn. apply Hcand in Hn as (i & Hin & Hst & Hno). destruct (Hall n i Hin Hst Hno) as (j & bs & q & line & Hj & Hf & Hq & Hfit & dd & nn & ll & pp & Hi & _).
    exists j, bs, q. split; [exact Hj|]. split; [exact Hf|].
    assert (Hrd' : f_read (os_files fs) (f_join (os_files fs) path n) = FrData bs).
    { cbn [f_read f_join os_files]. unfold open_read, stat. rewrite (C114_join_pf fs true path n Hp ltac:(destruct Hdd as [Hdd|Hdd]; [left; exact Hdd|right; exists d; exact Hdd]) (proj1 (Hok n i Hin))). unfold named in Hj. rewrite Hj, Hf, Hq. reflexivity. }
    destruct (C80_report_pf (os_files fs) n _ bs dd Hrd' Hfit Hi) as (n' & l' & p' & E & S1 & S2 & S3). unfold line_of. rewrite E. split; [reflexivity|]. cbn [fst].
    split; [exact Hfit|]. exists dd, n', l', p'. split; [exact Hi|]. split; [reflexivity|]. split; [exact S1|]. split; assumption. }
  exists (map (fun n => (n, fst (line_of (os_files fs) path n))) (candidates items)).
  assert (Hfst : map fst (map (fun n => (n, fst (line_of (os_files fs) path n))) (candidates items)) = candidates items) by (rewrite map_map; apply map_id).
  rewrite Hfst. split; [|split; [|split; [|split]]].
  - destruct (C80_directory_pf (os_files fs) path rest items Hid Hrd) as [H _]. rewrite H; [rewrite map_map; reflexivity|]. intros n Hn. destruct (Hline n Hn) as (j & bs & q & _ & _ & E & _). exact E.
  - unfold candidates. eapply sorted_map; [|apply sorted_filter, sort_sorted]. cbn beta. auto.
  - unfold candidates. apply nodup_filter_fst. eapply Permutation_NoDup; [apply Permutation_map; symmetry; apply sort_perm|]. rewrite map_map. cbn [fst]. exact Hnd.
  - exact Hcand.
  - intros n line H. apply in_map_iff in H as (m & [= <- <-] & Hm). destruct (Hline m Hm) as (j & bs & q & H1 & H2 & _ & H3). exists j, bs, q. split; [exact H1|]. split; [exact H2|exact H3].
Qed.

(** C114: a path that is not itself a directory is taken as one file, links followed. *)
Lemma C114_single_pf : forall fs path rest j bs q, ~ (exists i, named fs false path i /\ is_dir fs i) -> named fs true path j -> fs_at fs j = Some (NFile bs q) -> may_read q = true ->
  (exists line, line_for path bs line) -> exists line, line_for path bs line /\ torrent_run (os_files fs) (path :: rest) = (line, None).
Proof.
  intros fs path rest j bs q Hno Hj Hf Hq (line & Hfit & dd & nn & ll & pp & Hi & _).
  assert (Hid : IsDir fs path = false) by (destruct (IsDir fs path) eqn:E; [exfalso; apply Hno; apply (proj1 (C113_isdir_pf fs path)); exact E|reflexivity]).
  assert (Hrd : f_read (os_files fs) path = FrData bs) by (cbn [f_read os_files]; unfold open_read, stat; unfold named in Hj; rewrite Hj, Hf, Hq; reflexivity).
  rewrite (C80_single_file_pf (os_files fs) path rest Hid). destruct (C80_report_pf (os_files fs) path path bs dd Hrd Hfit Hi) as (n' & l' & p' & E & S1 & S2 & S3).
  exists (report n' path l' p'). split; [|exact E]. split; [exact Hfit|]. exists dd, n', l', p'. split; [exact Hi|]. split; [reflexivity|]. split; [exact S1|]. split; assumption.
Qed.

(** C114, refuted for links to directories: named without a trailing slash such a link crashes the command, although
    with a slash the directory is shown; the same link inside a directory, named like a torrent, ends the listing. *)
Lemma C114_link_refuted_pf : forall fs path rest i j es p, named fs false path i -> is_link fs i -> named fs true path j -> fs_at fs j = Some (NDir es p) -> may_read p = true ->
  torrent_run (os_files fs) (path :: rest) = ([], Some (sys_panic (B "read torrent file err"))).
Proof.
  intros fs path rest i j es p Hi (t & Hl) Hj Hd Hr. assert (Hid : IsDir fs path = false).
  { destruct (IsDir fs path) eqn:E; [|reflexivity]. apply (proj1 (C113_isdir_pf fs path)) in E as (k & Hk & es' & p' & Hk'). unfold named in *. congruence. }
  rewrite (C80_single_file_pf (os_files fs) path rest Hid). unfold printTorrentInfo. cbn [f_read os_files]. unfold open_read, stat. unfold named in Hj. rewrite Hj, Hd, Hr. reflexivity.
Qed.

Lemma one_name c d s : digit_is c d -> d = N.of_nat (length s) -> item (B "d4:name" ++ [c] ++ B ":" ++ s ++ B "e") (VDict [(B "name", VStr s)]) [] 0.
Proof.
  intros Hc Hd. change 0 with (0 + 0). change (B "d4:name" ++ ?x) with ("d"%char :: B "4:name" ++ x). apply (it_dict _ [(B "name", VStr s)]).
  - apply (ps_cons _ (B "name") ([c] ++ B ":" ++ s ++ B "e") (VStr s) (B "e") 0 [] [] 0).
    + apply (it_str (B "4") (B "name")); [|discriminate|discriminate]. refine (digits_snoc [] 0 "4"%char 4 digits_nil _). split; [reflexivity|lia].
    + apply (it_str [c] s (B "e")); [|discriminate|discriminate]. subst d. refine (digits_snoc [] 0 c _ digits_nil _). exact Hc.
    + apply ps_close.
  - split; [constructor; [intros []|constructor]|]. intros k v. unfold last_value. cbn [fold_left fst snd In]. destruct (bytes_eq_dec (B "name") k) as [<-|Hk].
    + split; [intros [[= <-]|[]]; reflexivity|]. intros [= <-]. left. reflexivity.
    + split; [intros [H|[]]; exfalso; apply Hk; exact (f_equal fst H)|discriminate].
Qed.

Definition crlf : bytes := [byte_of 13; byte_of 10].
(** A link named like a torrent. *)
Definition tricky_nodes (i : nat) : option fnode :=
  match i with
  | 0 => Some (NDir [(B "t.torrent", 3); (B "a", 1); (B "b", 2)] all_perm)
  | 1 => Some (NDir [(B "t.torrent", 4); (B "up", 5); (B "u.torrent", 5)] all_perm)
  | 2 => Some (NDir [] all_perm)
  | 3 => Some (NFile (B "d4:name6:wantede") all_perm)
  | 4 => Some (NFile (B "d4:name5:othere") all_perm)
  | 5 => Some (NLink (B "/b"))
  | _ => None
  end.
Definition tricky_fs : fsys := {| fs_at := tricky_nodes; fs_root := 0; fs_cwd := 0; fs_above := []; fs_dirsize := fun _ => 4096; fs_next := 6 |}.
Lemma tricky_wf : wf_fs tricky_fs.
Proof. apply wf_check; [|reflexivity|reflexivity]. intros i Hi. cbn [fs_next tricky_fs] in Hi. do 6 (destruct i as [|i]; [lia|]). reflexivity. Qed.

(** C114, refuted for paths with "..": a/up/.. is the directory /, whose t.torrent is the file with the name "wanted",
    but the command shows the contents of a/t.torrent. *)
Lemma C114_dotdot_refuted_pf : exists fs path d es p i bs, wf_fs fs /\ named fs false path d /\ fs_at fs d = Some (NDir es p) /\ In (B "t.torrent", i) es /\
  fs_at fs i = Some (NFile bs all_perm) /\ line_for (B "t.torrent") bs (B "wanted||t.torrent||0||0" ++ crlf) /\
  torrent_run (os_files fs) [path] = (B "other||t.torrent||0||0" ++ crlf, None).
Proof.
  exists tricky_fs, (B "a/up/.."), 0, [(B "t.torrent", 3); (B "a", 1); (B "b", 2)], all_perm, 3, (B "d4:name6:wantede").
  split; [exact tricky_wf|]. split; [vm_compute; reflexivity|]. split; [reflexivity|]. split; [left; reflexivity|]. split; [reflexivity|].
  split; [|vm_compute; reflexivity]. split; [unfold fits; vm_compute; discriminate|]. exists [(B "name", VStr (B "wanted"))], (B "wanted"), 0%Z, 0%Z.
  split; [|split; [reflexivity|split; [left; exists (B "wanted"); split; [left; reflexivity|reflexivity]|split; right; (split; [intros z [H|[]]; discriminate|reflexivity])]]].
  apply (one_name "6"%char 6 (B "wanted")); [split; [reflexivity|lia]|reflexivity].
Qed.

(** C114: in the example of C113 the command shows the directory d under several of its names; the link l needs a slash. *)
Lemma C114_example_pf : wf_fs small_fs /\ named small_fs false (B "./d") 1 /\ no_dotdot (B "./d") /\ plain small_fs (B "../d/.././/d") 1 /\ ~ no_dotdot (B "../d/.././/d") /\
  torrent_run (os_files small_fs) [B "./d"] = (B "x||a.torrent||0||0" ++ crlf ++ B "abc||b.torrent||12||4" ++ crlf, None) /\
  torrent_run (os_files small_fs) [B "l/"] = (B "x||a.torrent||0||0" ++ crlf ++ B "abc||b.torrent||12||4" ++ crlf, None) /\
  torrent_run (os_files small_fs) [B "l"] = ([], Some (sys_panic (B "read torrent file err"))) /\
  torrent_run (os_files small_fs) [B "l/b.torrent"] = (B "abc||l/b.torrent||12||4" ++ crlf, None) /\
  torrent_run (os_files tricky_fs) [B "a"] = (B "other||t.torrent||0||0" ++ crlf, Some (sys_panic (B "read torrent file err"))) /\
  torrent_run (os_files small_fs) [B "x"] = ([], Some (sys_panic (B "open torrent dir err"))).
Proof.
  split; [exact small_wf|]. split; [vm_compute; reflexivity|]. split; [intros [H|[H|[]]]; discriminate|].
  split; [split; [discriminate|vm_compute; reflexivity]|]. split; [intros H; apply H; vm_compute; left; reflexivity|].
  repeat (split; [vm_compute; reflexivity|]). vm_compute. reflexivity.
Qed.
