(** TorrentCmdPf.v -- proofs of C80 (the torrent command). *)
From Verif Require Import Base GoLib Bencode BencodeSpec BencodeProofs BencodePf Types TorrentCmd.
Local Open Scope list_scope.

(** Specification: the value shown for a key of a dictionary - the value stored under it if it has the right
    type, a fixed default otherwise. *)
Definition shows_str (d : list (bytes * val)) (key dflt out : bytes) : Prop :=
  (exists s, In (key, VStr s) d /\ out = s) \/ ((forall s, ~ In (key, VStr s) d) /\ out = dflt).
Definition shows_int (d : list (bytes * val)) (key : bytes) (dflt out : Z) : Prop :=
  (exists z, In (key, VInt z) d /\ out = z) \/ ((forall z, ~ In (key, VInt z) d) /\ out = dflt).
Definition report (n filename : bytes) (l p : Z) : bytes :=
  n ++ B "||" ++ filename ++ B "||" ++ itoa l ++ B "||" ++ itoa p ++ [byte_of 13; byte_of 10].

Lemma str_default d k v : NoDup (map fst d) -> shows_str d k v (GetStringOrDefault d k v).
Proof.
  intros Hd. unfold shows_str, GetStringOrDefault, GetValOrDefault. destruct (dget d k) as [x|] eqn:E.
  - apply dget_In in E; [|exact Hd]. destruct x; try (right; split; [intros s' Hin; apply (dget_In d) in Hin; [|exact Hd]; apply (dget_In d) in E; [|exact Hd]; congruence|reflexivity]). left. eauto.
  - right. split; [|reflexivity]. intros s Hin. apply (dget_In d) in Hin; [congruence|exact Hd].
Qed.
Lemma int_default d k v : NoDup (map fst d) -> shows_int d k v (GetIntegerOrDefault d k v).
Proof.
  intros Hd. unfold shows_int, GetIntegerOrDefault, GetValOrDefault. destruct (dget d k) as [x|] eqn:E.
  - apply dget_In in E; [|exact Hd]. destruct x; try (right; split; [intros s' Hin; apply (dget_In d) in Hin; [|exact Hd]; apply (dget_In d) in E; [|exact Hd]; congruence|reflexivity]). left. eauto.
  - right. split; [|reflexivity]. intros s Hin. apply (dget_In d) in Hin; [congruence|exact Hd].
Qed.

Lemma deq_in_str d d' k s : deq d d' -> (In (k, VStr s) d <-> In (k, VStr s) d').
Proof.
  intros [a b c HP HF]. rewrite HP. clear HP. induction HF as [|[k1 v1] [k2 v2] l l' [E1 E2] HF IH]; [reflexivity|]. cbn [fst snd] in *. subst k2. cbn [In]. rewrite IH.
  split; intros [H|H]; auto; left; injection H as -> ->; inversion E2; reflexivity.
Qed.
Lemma deq_in_int d d' k z : deq d d' -> (In (k, VInt z) d <-> In (k, VInt z) d').
Proof.
  intros [a b c HP HF]. rewrite HP. clear HP. induction HF as [|[k1 v1] [k2 v2] l l' [E1 E2] HF IH]; [reflexivity|]. cbn [fst snd] in *. subst k2. cbn [In]. rewrite IH.
  split; intros [H|H]; auto; left; injection H as -> ->; inversion E2; reflexivity.
Qed.
Lemma shows_str_deq d d' k v o : deq d d' -> shows_str d' k v o -> shows_str d k v o.
Proof.
  intros Hd [(s & H & E)|[H E]]; [left; exists s; split; [apply (deq_in_str _ _ k s Hd); exact H|exact E]|].
  right. split; [|exact E]. intros s Hs. apply (H s). apply (deq_in_str _ _ k s Hd). exact Hs.
Qed.
Lemma shows_int_deq d d' k v o : deq d d' -> shows_int d' k v o -> shows_int d k v o.
Proof.
  intros Hd [(s & H & E)|[H E]]; [left; exists s; split; [apply (deq_in_int _ _ k s Hd); exact H|exact E]|].
  right. split; [|exact E]. intros s Hs. apply (H s). apply (deq_in_int _ _ k s Hd). exact Hs.
Qed.
Lemma deq_keys d d' : deq d d' -> NoDup (map fst d) -> NoDup (map fst d').
Proof.
  intros [a b c HP HF] H. apply (Permutation_NoDup (Permutation_map fst HP)) in H. replace (map fst b) with (map fst c); [exact H|].
  clear -HF. induction HF as [|x y l l' [E _] HF IH]; cbn [map]; congruence.
Qed.

(** C80: for every readable file that is a complete bencoded dictionary (in the decoder's dialect), the command prints
    exactly one line: the top-level name, the file name, the top-level length and piece length, with "name err",
    0 and 0 for values that are missing or of the wrong type; it never panics. *)
Lemma C80_report_pf : forall fs filename path bs d, f_read fs path = FrData bs -> fits bs -> item bs (VDict d) [] 0 ->
  exists n l p, printTorrentInfo fs filename path = (report n filename l p, None) /\
    shows_str d (B "name") (B "name err") n /\ shows_int d (B "length") 0 l /\ shows_int d (B "piece length") 0 p.
Proof.
  intros fs fn path bs d Hr Hf Hi. destruct (C13_decode_dict_outcomes_pf bs Hf) as (_ & _ & H & _). destruct (H d Hi) as (d' & Hd & E).
  assert (Hn : NoDup (map fst d)) by (inversion Hi; subst; match goal with H : denotes _ _ |- _ => exact (proj1 H) end).
  pose proof (deq_keys _ _ Hd Hn) as Hn'.
  unfold printTorrentInfo. rewrite Hr, E. cbn [dict_of]. eexists _, _, _. split; [reflexivity|].
  split; [eapply shows_str_deq; [exact Hd|apply str_default; exact Hn']|].
  split; eapply shows_int_deq; try exact Hd; apply int_default; exact Hn'.
Qed.

(** C80 for the files this repository's own encoder writes. *)
Lemma C80_encoded_pf : forall fs filename path d d' bs, go_value (VDict d) -> plain (VDict d) -> deq d d' ->
  EncodeDict (Some d') = Ok bs -> fits bs -> f_read fs path = FrData bs ->
  exists n l p, printTorrentInfo fs filename path = (report n filename l p, None) /\
    shows_str d (B "name") (B "name err") n /\ shows_int d (B "length") 0 l /\ shows_int d (B "piece length") 0 p.
Proof.
  intros fs fn path d d' bs Hg Hp Hd He Hf Hr. destruct (C05_dict_roundtrip_pf d d' Hg Hp Hd) as (s & Es & H).
  assert (s = bs) as -> by congruence. destruct (H Hf) as (r & Hr1 & E & _).
  assert (Hn : NoDup (map fst d)) by (inversion Hg; assumption). pose proof (deq_keys _ _ Hr1 Hn) as Hn'.
  unfold printTorrentInfo. rewrite Hr, E. cbn [dict_of]. eexists _, _, _. split; [reflexivity|].
  split; [eapply shows_str_deq; [exact Hr1|apply str_default; exact Hn']|].
  split; eapply shows_int_deq; try exact Hr1; apply int_default; exact Hn'.
Qed.

(** C80, refuted for rejecting garbage: a dictionary followed by other bytes (ending in 'e') is reported with the
    defaults, as if it had no name, and without an error. *)
Lemma C80_trailing_refuted_pf : forall fs filename path bs d rest, f_read fs path = FrData bs -> fits bs ->
  item bs (VDict d) rest 0 -> rest <> [] -> ends_with_e bs ->
  printTorrentInfo fs filename path = (report (B "name err") filename 0 0, None).
Proof.
  intros fs fn path bs d rest Hr Hf Hi Hne He. destruct (C13_decode_dict_outcomes_pf bs Hf) as (_ & _ & _ & H).
  unfold printTorrentInfo. rewrite Hr, (H d rest Hi Hne He). reflexivity.
Qed.

(** The files of a directory the command looks at. *)
Definition candidates (items : list (bytes * bool)) : list bytes :=
  map fst (filter (fun x => negb (snd x) && HasSuffix (fst x) (B ".torrent")) items).
Definition line_of (fs : filesys) (path name : bytes) : cmd_out := printTorrentInfo fs name (f_join fs path name).

(** C80, directories: if every candidate can be printed the output is their lines in directory order; otherwise the
    first one that cannot ends the command with a panic and the later ones are not shown. *)
Lemma C80_directory_pf : forall fs path rest items, f_isdir fs path = true -> f_readdir fs path = Some items ->
  ((forall n, In n (candidates items) -> snd (line_of fs path n) = None) ->
     torrent_run fs (path :: rest) = (concat (map (fun n => fst (line_of fs path n)) (candidates items)), None)) /\
  (forall before bad after p, candidates items = before ++ bad :: after ->
     (forall n, In n before -> snd (line_of fs path n) = None) -> snd (line_of fs path bad) = Some p ->
     torrent_run fs (path :: rest) = (concat (map (fun n => fst (line_of fs path n)) before), Some p)).
Proof.
  intros fs path rest items Hd Hr. unfold torrent_run. rewrite Hd, Hr. clear Hd Hr.
  assert (Hnone : forall nm fnm p, snd (printTorrentInfo fs nm fnm) = Some p -> fst (printTorrentInfo fs nm fnm) = []).
  { intros nm fnm p. unfold printTorrentInfo. destruct (f_read fs fnm) as [| |bs]; [reflexivity|reflexivity|]. destruct (DecodeDict bs); [discriminate|reflexivity|reflexivity]. }
  split.
  - unfold candidates. induction items as [|[n b] items IH]; cbn [print_dir filter map concat fst snd]; [reflexivity|]. intros H.
    destruct (negb b && HasSuffix n (B ".torrent")); [|apply IH; exact H]. cbn [map concat fst].
    pose proof (H n (or_introl eq_refl)) as Hn. unfold line_of in Hn at 1. unfold line_of at 1.
    destruct (printTorrentInfo fs n (f_join fs path n)) as [o r]. cbn [snd fst] in *. subst r.
    rewrite IH; [reflexivity|]. intros m Hm. apply H. right. exact Hm.
  - unfold candidates. induction items as [|[n b] items IH]; cbn [print_dir filter map concat fst snd]; intros before bad after p E Hb Hp; [destruct before; discriminate|].
    destruct (negb b && HasSuffix n (B ".torrent")) eqn:Ec; [|eapply IH; eassumption]. cbn [map fst] in E.
    destruct before as [|b0 before]; cbn [app] in E; injection E as <- E.
    + unfold line_of in Hp. pose proof (Hnone _ _ _ Hp) as Ho. destruct (printTorrentInfo fs n (f_join fs path n)) as [o r]. cbn [snd fst] in *. subst r o. reflexivity.
    + pose proof (Hb n (or_introl eq_refl)) as Hn. unfold line_of in Hn. cbn [map concat]. unfold line_of at 1.
      destruct (printTorrentInfo fs n (f_join fs path n)) as [o r]. cbn [snd fst] in *. subst r.
      erewrite IH; [reflexivity|exact E| |exact Hp]. intros m Hm. apply Hb. right. exact Hm.
Qed.

(** C80: the files looked at are, in directory order, exactly the entries that are not directories and whose
    name ends in ".torrent"; without a directory, exactly the file named. *)
Lemma C80_candidates_pf : forall items,
  (forall n, In n (candidates items) <-> In (n, false) items /\ exists stem, n = stem ++ B ".torrent") /\
  (forall a b, candidates (a ++ b) = candidates a ++ candidates b) /\
  (forall n, candidates [(n, true)] = []) /\ (forall stem, candidates [(stem ++ B ".torrent", false)] = [stem ++ B ".torrent"]).
Proof.
  assert (Hs : forall n suf, HasSuffix n suf = true <-> exists stem, n = stem ++ suf).
  { intros n suf. unfold HasSuffix. rewrite andb_true_iff, Nat.leb_le, beq_eq. split.
    - intros [Hl E]. exists (firstn (length n - length suf) n). rewrite <- E at 2. symmetry. apply firstn_skipn.
    - intros (stem & ->). rewrite app_length. split; [lia|]. replace (length stem + length suf - length suf)%nat with (length stem) by lia.
      rewrite skipn_app, skipn_all, Nat.sub_diag. reflexivity. }
  intros items. split; [|split; [|split]].
  - intros n. unfold candidates. rewrite in_map_iff. split.
    + intros ([m b] & <- & H). apply filter_In in H as [Hin H]. cbn [fst snd] in *. apply andb_true_iff in H as [Hb H].
      destruct b; [discriminate|]. split; [exact Hin|]. apply Hs. exact H.
    + intros [Hin Hex]. exists (n, false). split; [reflexivity|]. apply filter_In. split; [exact Hin|]. cbn [fst snd negb andb]. apply Hs. exact Hex.
  - intros a b. unfold candidates. rewrite filter_app, map_app. reflexivity.
  - reflexivity.
  - intros stem. unfold candidates. cbn [filter fst snd negb andb]. replace (HasSuffix (stem ++ B ".torrent") (B ".torrent")) with true; [reflexivity|]. symmetry. apply Hs. eauto.
Qed.
Lemma C80_single_file_pf : forall fs path rest, f_isdir fs path = false -> torrent_run fs (path :: rest) = printTorrentInfo fs path path.
Proof. intros fs path rest H. unfold torrent_run. rewrite H. reflexivity. Qed.

(** C80: the panics: the file cannot be opened, cannot be read, is not bencode; the directory cannot be listed; no argument. *)
Lemma C80_panics_pf : forall fs,
  (forall filename path, f_read fs path = FrOpenErr -> printTorrentInfo fs filename path = ([], Some (PBiz 201 (B "open torrent file err")))) /\
  (forall filename path, f_read fs path = FrReadErr -> printTorrentInfo fs filename path = ([], Some (PBiz 201 (B "read torrent file err")))) /\
  (forall filename path bs err, f_read fs path = FrData bs -> DecodeDict bs = Err err -> printTorrentInfo fs filename path = ([], Some (PBiz 201 (B "DecodeDict torrent file err")))) /\
  (forall path rest, f_isdir fs path = true -> f_readdir fs path = None -> torrent_run fs (path :: rest) = ([], Some (PBiz 201 (B "open torrent dir err")))) /\
  torrent_run fs [] = ([], Some PRuntime).
Proof.
  intros fs. repeat split.
  - intros f path H. unfold printTorrentInfo. rewrite H. reflexivity.
  - intros f path H. unfold printTorrentInfo. rewrite H. reflexivity.
  - intros f path bs err H D. unfold printTorrentInfo. rewrite H, D. reflexivity.
  - intros path rest H R. unfold torrent_run. rewrite H, R. reflexivity.
Qed.

(** Non-vacuity: a single file and a directory with a good, a foreign and a broken file. *)
Definition demo_fs : filesys :=
  {| f_isdir := fun p => beq p (B "dir");
     f_readdir := fun _ => Some [(B "a.torrent", false); (B "b.txt", false); (B "c.torrent", true); (B "d.torrent", false); (B "e.torrent", false)];
     f_read := fun p => if beq p (B "dir/a.torrent") then FrData (B "d6:lengthi12e4:name3:abc12:piece lengthi4ee")
                        else if beq p (B "dir/d.torrent") then FrData (B "junk") else FrData (B "d4:namei7eed1:ae");
     f_join := fun a b => a ++ B "/" ++ b |}.
Lemma C80_example_pf :
  torrent_run demo_fs [B "dir"] = (B "abc||a.torrent||12||4" ++ [byte_of 13; byte_of 10], Some (sys_panic (B "DecodeDict torrent file err"))) /\
  torrent_run demo_fs [B "x"] = (B "name err||x||0||0" ++ [byte_of 13; byte_of 10], None) /\
  torrent_run demo_fs [] = ([], Some PRuntime) /\
  f_read {| f_isdir := fun _ => true; f_readdir := fun _ => None; f_read := fun _ => FrOpenErr; f_join := fun a b => a |} [] = FrOpenErr /\ (exists err, DecodeDict (B "junk") = Err err).
Proof. vm_compute. repeat split. eexists. reflexivity. Qed.
