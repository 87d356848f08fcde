(** JobLog.v -- model of what one run of a download worker prints: the calls of dhtLogger in dht/fetchtorrent.go:27-72 and the
    lines of the download in between (FetchLog.v), on top of FetchTorrent.v.
    Simplification: the texts of runtime errors, of printed structs and of the operating system's errors are inputs. *)
From Verif Require Import Base GoLib Bencode Types Logger Node Json ConsoleLog Krpc Dht BytesPool PeerWire Fetch FetchTorrent FetchLog.
Local Open Scope list_scope.

Section JobLog.
  (** As in FetchLog.v; the texts of the errors of os.Create and of file.Write. *)
  Variable txt : nat -> bytes.
  Variable ptxt : gopanic -> bytes.
  Variable create_err write_err : bytes.

  (** fetchtorrent.go:60-72.  A write that took every byte has not failed. *)
  Definition flush_log (o : osenv) (data : bytes) : list centry :=
    if os_create o
    then match os_fail o with
         | Some k => if k <? length data then [entry "dht" MError "write file err" [(B "err", VStr write_err)]] else []
         | None => []
         end
    else [entry "dht" MError "create file err" [(B "err", VStr create_err)]].

  (** fetchtorrent.go:27-43 *)
  Definition fetchHandler_log (e : fenv) (p : pool) (h : heap) (dial : bytes -> option (list bytes)) (o : osenv) (x : request hid * udpaddr) : fetched * list centry :=
    let body := dict_of (rq_body (fst x)) in
    match (do ih <- GetString body (B "info_hash"); do a <- parseFetchAddr x; Ok (ih, a)) with
    | Ok (ih, a) =>
        match FetchMetaData_log e a txt ptxt p h (dial a) LocalPeerId ih with
        | ((_, FOk d), l) => ({| t_dial := Some a; t_data := Some d; t_ops := flushTorrentFile o (hex ih) d; t_res := FOk tt |}, lines_of l ++ flush_log o d)
        | ((_, FStop s), l) => ({| t_dial := Some a; t_data := None; t_ops := []; t_res := FStop s |}, lines_of l)
        | (_, l) => ({| t_dial := Some a; t_data := None; t_ops := []; t_res := FOk tt |}, lines_of l)
        end
    | Panic pn => ({| t_dial := None; t_data := None; t_ops := []; t_res := FOk tt |}, [entry "dht" MError "fetchHandler panic" [(B "err", VStr (panic_said ptxt pn))]])
    | Err _ => ({| t_dial := None; t_data := None; t_ops := []; t_res := FOk tt |}, [])
    end.
End JobLog.
