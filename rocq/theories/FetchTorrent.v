(** FetchTorrent.v -- model of dht/fetchtorrent.go: what the crawler does with an announcement it
    took from the channel.  The work pool that runs the handlers is modelled in WorkPool.v, the
    loop that feeds it (dht/fetchtorrent.go:16-25) is the step [cs_take] of Dht.v. *)
From Verif Require Import Base GoLib Bencode Types Node RouteTable Middleware Krpc Dht BytesPool PeerWire Fetch.
Local Open Scope list_scope.

(** ** Files.  The disk maps a path to the contents of the regular file there. *)
Definition disk := bytes -> option bytes.
(** The effects of os.Create, of one write(2) of a file opened by this goroutine, and of Close. *)
Inductive fsop := OCreate (path : bytes) | OWrite (path : bytes) (off : nat) (chunk : bytes) | OClose (path : bytes).

Definition dset (d : disk) (p c : bytes) : disk := fun q => if beq q p then Some c else d q.
(** Writing [chunk] at offset [off]; a gap reads as zero bytes. *)
Definition overlay (c : bytes) (off : nat) (chunk : bytes) : bytes :=
  firstn off (c ++ repeat (byte_of 0) (off - length c)) ++ chunk ++ skipn (off + length chunk) c.
(** os.Create truncates an existing file. *)
Definition fs_op (d : disk) (o : fsop) : disk :=
  match o with
  | OCreate p => dset d p []
  | OWrite p off chunk => match d p with Some c => dset d p (overlay c off chunk) | None => d end
  | OClose _ => d
  end.
Definition fs_run (ops : list fsop) (d : disk) : disk := fold_left fs_op ops d.

(** What the operating system does: whether the file can be created, how many bytes each
    write(2) takes (os.File.Write repeats it until everything is written), and after how many
    bytes writing fails, if it does. *)
Record osenv := { os_create : bool; os_sizes : list nat; os_fail : option nat }.

(** file.Write(data): the write(2) calls. *)
Fixpoint write_ops (path : bytes) (off : nat) (sizes : list nat) (data : bytes) : list fsop :=
  match sizes with
  | [] => [OWrite path off data]
  | n :: t => if n <? length data
              then OWrite path off (firstn n data) :: write_ops path (off + n) t (skipn n data)
              else [OWrite path off data]
  end.

(** dht/fetchtorrent.go:60-72.  The deferred Close runs in any case; on a nil file (create
    failed) it only returns an error. *)
Definition torrent_path (fileName : bytes) : bytes := B "torrent/" ++ fileName ++ B ".torrent".
Definition flushTorrentFile (o : osenv) (fileName data : bytes) : list fsop :=
  let path := torrent_path fileName in
  if os_create o
  then OCreate path :: write_ops path 0 (os_sizes o) (match os_fail o with Some k => firstn k data | None => data end) ++ [OClose path]
  else [].

(** dht/fetchtorrent.go:45-58 *)
Definition parseFetchAddr (x : request hid * udpaddr) : res bytes :=
  let body := dict_of (rq_body (fst x)) in
  do port <- GetInteger body (B "port");
  do useUdpPort <- (if Exist body (B "implied_port") then do i <- GetInteger body (B "implied_port"); Ok (0 <? i)%Z else Ok false);
  Ok (if useUdpPort then addr_string (snd x) else ip_string (ip (snd x)) ++ B ":" ++ itoa port).

(** What one run of fetchHandler did: the address dialled, the data downloaded, the operations on
    files, and how it ended ([FOk] or, if the download never returns, [FStop]). *)
Record fetched := { t_dial : option bytes; t_data : option bytes; t_ops : list fsop; t_res : fres unit }.

(** dht/fetchtorrent.go:27-43.  [dial a] is the peer behind the address [a] (None: the connection
    fails); the deferred recover (:29-33) swallows every panic. *)
Definition fetchHandler (e : fenv) (p : pool) (h : heap) (dial : bytes -> option (list bytes)) (o : osenv) (x : request hid * udpaddr) : fetched :=
  let body := dict_of (rq_body (fst x)) in
  match (do ih <- GetString body (B "info_hash"); do a <- parseFetchAddr x; Ok (ih, a)) with
  | Ok (ih, a) =>
      match snd (FetchMetaData e p h (dial a) LocalPeerId ih) with
      | FOk d => {| t_dial := Some a; t_data := Some d; t_ops := flushTorrentFile o (hex ih) d; t_res := FOk tt |}
      | FStop s => {| t_dial := Some a; t_data := None; t_ops := []; t_res := FStop s |}
      | _ => {| t_dial := Some a; t_data := None; t_ops := []; t_res := FOk tt |}
      end
  | _ => {| t_dial := None; t_data := None; t_ops := []; t_res := FOk tt |}
  end.
