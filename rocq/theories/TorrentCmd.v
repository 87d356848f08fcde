(** TorrentCmd.v -- model of cmd/torrent.go.  The file system is an input; standard output is a byte string. *)
From Verif Require Import Base GoLib Bencode Types.
Local Open Scope list_scope.

(** os.Open fails; it succeeds and ioutil.ReadAll fails; or the contents. *)
Inductive fileread := FrOpenErr | FrReadErr | FrData (bs : bytes).

(** What the file system answers: misc.IsDir (misc/file.go:37-48), ioutil.ReadDir (entries sorted by name, with
    the Lstat "is a directory" bit), os.Open followed by ioutil.ReadAll, and filepath.Join.  FileSys.v gives the
    answers of a file system with directories, links and permissions. *)
Record filesys := {
  f_isdir : bytes -> bool; f_readdir : bytes -> option (list (bytes * bool));
  f_read : bytes -> fileread; f_join : bytes -> bytes -> bytes }.

(** misc/errors.go:50-55: a *misc.Error panic when err is not nil. *)
Definition sys_panic (msg : bytes) : gopanic := PBiz GenericErr msg.

(** Output and the panic that ended the call, if any. *)
Definition cmd_out := (bytes * option gopanic)%type.

(** cmd/torrent.go:33-42 *)
Definition printTorrentInfo (fs : filesys) (filename path : bytes) : cmd_out :=
  match f_read fs path with
  | FrOpenErr => ([], Some (sys_panic (B "open torrent file err")))
  | FrReadErr => ([], Some (sys_panic (B "read torrent file err")))
  | FrData bs =>
      match DecodeDict bs with
      | Err _ => ([], Some (sys_panic (B "DecodeDict torrent file err")))
      | Panic p => ([], Some p)
      | Ok d =>
          let dict := dict_of d in
          (GetStringOrDefault dict (B "name") (B "name err") ++ B "||" ++ filename ++ B "||" ++
           itoa (GetIntegerOrDefault dict (B "length") 0) ++ B "||" ++
           itoa (GetIntegerOrDefault dict (B "piece length") 0) ++ [byte_of 13; byte_of 10], None)
      end
  end.

(** strings.HasSuffix *)
Definition HasSuffix (s suf : bytes) : bool :=
  (length suf <=? length s)%nat && beq (skipn (length s - length suf) s) suf.

(** cmd/torrent.go:23-27, the loop over the directory. *)
Fixpoint print_dir (fs : filesys) (path : bytes) (items : list (bytes * bool)) : cmd_out :=
  match items with
  | [] => ([], None)
  | (name, isdir) :: t =>
      if negb isdir && HasSuffix name (B ".torrent") then
        match printTorrentInfo fs name (f_join fs path name) with
        | (o, Some p) => (o, Some p)
        | (o, None) => let (o', r) := print_dir fs path t in (o ++ o', r)
        end
      else print_dir fs path t
  end.

(** cmd/torrent.go:17-31; args[0] panics without an argument. *)
Definition torrent_run (fs : filesys) (args : list bytes) : cmd_out :=
  match args with
  | [] => ([], Some PRuntime)
  | path :: _ =>
      if f_isdir fs path then
        match f_readdir fs path with
        | None => ([], Some (sys_panic (B "open torrent dir err")))
        | Some items => print_dir fs path items
        end
      else printTorrentInfo fs path path
  end.
