(** P_TorrentCmd.v -- property theorems (generated by tools/gen_p.py from TorrentCmdPf.v).
    Each statement is repeated in full and closed by [exact]. *)
From Verif Require Import Base GoLib Bencode BencodeSpec BencodeProofs BencodePf Types TorrentCmd.
Local Open Scope list_scope.
From Verif Require Import TorrentCmdPf.

(** C80: for every readable file that is a complete bencoded dictionary (in the decoder's dialect), the command prints
    exactly one line: the top-level name, the file name, the top-level length and piece length, with "name err",
    0 and 0 for values that are missing or of the wrong type; it never panics. *)
Theorem C80_report : forall fs filename path bs d, f_read fs path = FrData bs -> fits bs -> item bs (VDict d) [] 0 ->
  exists n l p, printTorrentInfo fs filename path = (report n filename l p, None) /\
    shows_str d (B "name") (B "name err") n /\ shows_int d (B "length") 0 l /\ shows_int d (B "piece length") 0 p.
Proof. exact C80_report_pf. Qed.
Print Assumptions C80_report.

(** C80 for the files this repository's own encoder writes. *)
Theorem C80_encoded : forall fs filename path d d' bs, go_value (VDict d) -> plain (VDict d) -> deq d d' ->
  EncodeDict (Some d') = Ok bs -> fits bs -> f_read fs path = FrData bs ->
  exists n l p, printTorrentInfo fs filename path = (report n filename l p, None) /\
    shows_str d (B "name") (B "name err") n /\ shows_int d (B "length") 0 l /\ shows_int d (B "piece length") 0 p.
Proof. exact C80_encoded_pf. Qed.
Print Assumptions C80_encoded.

(** C80, refuted for rejecting garbage: a dictionary followed by other bytes (ending in 'e') is reported with the
    defaults, as if it had no name, and without an error. *)
Theorem C80_trailing_refuted : forall fs filename path bs d rest, f_read fs path = FrData bs -> fits bs ->
  item bs (VDict d) rest 0 -> rest <> [] -> ends_with_e bs ->
  printTorrentInfo fs filename path = (report (B "name err") filename 0 0, None).
Proof. exact C80_trailing_refuted_pf. Qed.
Print Assumptions C80_trailing_refuted.

(** C80, directories: if every candidate can be printed the output is their lines in directory order; otherwise the
    first one that cannot ends the command with a panic and the later ones are not shown. *)
Theorem C80_directory : forall fs path rest items, f_isdir fs path = true -> f_readdir fs path = Some items ->
  ((forall n, In n (candidates items) -> snd (line_of fs path n) = None) ->
     torrent_run fs (path :: rest) = (concat (map (fun n => fst (line_of fs path n)) (candidates items)), None)) /\
  (forall before bad after p, candidates items = before ++ bad :: after ->
     (forall n, In n before -> snd (line_of fs path n) = None) -> snd (line_of fs path bad) = Some p ->
     torrent_run fs (path :: rest) = (concat (map (fun n => fst (line_of fs path n)) before), Some p)).
Proof. exact C80_directory_pf. Qed.
Print Assumptions C80_directory.

(** C80: the files looked at are, in directory order, exactly the entries that are not directories and whose
    name ends in ".torrent"; without a directory, exactly the file named. *)
Theorem C80_candidates : forall items,
  (forall n, In n (candidates items) <-> In (n, false) items /\ exists stem, n = stem ++ B ".torrent") /\
  (forall a b, candidates (a ++ b) = candidates a ++ candidates b) /\
  (forall n, candidates [(n, true)] = []) /\ (forall stem, candidates [(stem ++ B ".torrent", false)] = [stem ++ B ".torrent"]).
Proof. exact C80_candidates_pf. Qed.
Print Assumptions C80_candidates.

Theorem C80_single_file : forall fs path rest, f_isdir fs path = false -> torrent_run fs (path :: rest) = printTorrentInfo fs path path.
Proof. exact C80_single_file_pf. Qed.
Print Assumptions C80_single_file.

(** C80: the panics: the file cannot be opened, cannot be read, is not bencode; the directory cannot be listed; no argument. *)
Theorem C80_panics : forall fs,
  (forall filename path, f_read fs path = FrOpenErr -> printTorrentInfo fs filename path = ([], Some (PBiz 201 (B "open torrent file err")))) /\
  (forall filename path, f_read fs path = FrReadErr -> printTorrentInfo fs filename path = ([], Some (PBiz 201 (B "read torrent file err")))) /\
  (forall filename path bs err, f_read fs path = FrData bs -> DecodeDict bs = Err err -> printTorrentInfo fs filename path = ([], Some (PBiz 201 (B "DecodeDict torrent file err")))) /\
  (forall path rest, f_isdir fs path = true -> f_readdir fs path = None -> torrent_run fs (path :: rest) = ([], Some (PBiz 201 (B "open torrent dir err")))) /\
  torrent_run fs [] = ([], Some PRuntime).
Proof. exact C80_panics_pf. Qed.
Print Assumptions C80_panics.

Theorem C80_example :
  torrent_run demo_fs [B "dir"] = (B "abc||a.torrent||12||4" ++ [byte_of 13; byte_of 10], Some (sys_panic (B "DecodeDict torrent file err"))) /\
  torrent_run demo_fs [B "x"] = (B "name err||x||0||0" ++ [byte_of 13; byte_of 10], None) /\
  torrent_run demo_fs [] = ([], Some PRuntime) /\
  f_read {| f_isdir := fun _ => true; f_readdir := fun _ => None; f_read := fun _ => FrOpenErr; f_join := fun a b => a |} [] = FrOpenErr /\ (exists err, DecodeDict (B "junk") = Err err).
Proof. exact C80_example_pf. Qed.
Print Assumptions C80_example.
