(** SystemSpec.v -- vocabulary for C96-C98. *)
From Verif Require Import Base GoLib Bencode BencodeSpec Types Node RouteTable Middleware Krpc KrpcSpec Dht DhtSpec Conc ConcSpec BytesPool PeerWire Fetch FetchTorrent FetchTorrentSpec Udp System.
Local Open Scope list_scope.

Definition opt {A} (o : option A) : list A := match o with Some a => [a] | None => [] end.

(** The packets whose handlers were started, in that order. *)
Definition started (log : list (nat * ev)) : list packet := flat_map (fun p => match snd p with EvStart pk => [pk] | _ => [] end) log.

(** The downloads that never return. *)
Definition stuck (u : frun) : bool := u_busy u && match t_res (u_f u) with FStop _ => true | _ => false end.
Definition hung (s : sys) : list frun := filter stuck (y_runs s).

(** A TCP address an announcement leads to: its source address, or its source IP with the announced port. *)
Inductive target (pk : packet) : bytes -> Prop :=
| tg_implied k a tx : proper_query (p_bytes pk) tx "announce_peer" a -> field a "implied_port" (VInt k) -> (0 < k)%Z -> target pk (addr_string (p_addr pk))
| tg_port p a tx : proper_query (p_bytes pk) tx "announce_peer" a -> field a "port" (VInt p) ->
    (forall k, field a "implied_port" (VInt k) -> (k <= 0)%Z) -> target pk (ip_string (ip (p_addr pk)) ++ B ":" ++ itoa p).

(** Nothing is left to do: all queues are empty, all handlers are done, and so are all downloads except
    those that hang. *)
Record idle (s : sys) : Prop := {
  id_recv : y_recv s = None; id_q : y_q s = []; id_listen : y_listen s = None; id_pool : y_pool s = []; id_jobs : k_jobs (y_core s) = [];
  id_queue : a_queue (w_app (k_world (y_core s))) = []; id_fetch : y_fetch s = None; id_fpool : y_fpool s = []; id_loads : y_loads s = [];
  id_runs : forall u, In u (y_runs s) -> u_left u = [] /\ (u_busy u = true -> stuck u = true) }.
