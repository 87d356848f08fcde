(** InfoLogSpec.v -- what C108 means. *)
From Verif Require Import Base GoLib Bencode BencodeSpec Types Node RouteTable Middleware Krpc KrpcSpec Dht DhtSpec Conc ConcSpec FetchTorrentSpec ZapLog ZapLogSpec InfoLog.
From Coq Require Import Permutation.
Local Open Scope list_scope.

(** The entry the log owes to a packet: the packet asks for, or announces, the info hash [ih] ([po] is the announced port); the
    entry names the sender and the info hash in hexadecimal. *)
Inductive record_of (pk : packet) : bytes -> option Z -> zentry -> Prop :=
| ro_get tx a ih fs : proper_query (p_bytes pk) tx "get_peers" a -> field a "info_hash" (VStr ih) ->
    Permutation fs [(B "addr", JStr (addr_string (p_addr pk))); (B "infoHash", JStr (hex_text ih))] ->
    record_of pk ih None {| ze_level := 0; ze_msg := B "get_peer"; ze_fields := fs |}
| ro_announce tx a ih p fs : proper_query (p_bytes pk) tx "announce_peer" a -> field a "info_hash" (VStr ih) -> field a "port" (VInt p) ->
    Permutation fs [(B "addr", JStr (addr_string (p_addr pk))); (B "infoHash", JStr (hex_text ih)); (B "port", JInt p)] ->
    record_of pk ih (Some p) {| ze_level := 0; ze_msg := B "announce_peer"; ze_fields := fs |}.

(** The packet asks for or announces an info hash. *)
Definition seeks (pk : packet) (ih : bytes) (po : option Z) : Prop := exists en, record_of pk ih po en.

(** Job [i] handles [pk] and is past its first step. *)
Definition handled (s : conc) (i : nat) (pk : packet) : Prop := In (i, EvStart pk) (k_log s) /\ forall pk', ~ In (i, pk', JStart) (k_jobs s).

Definition orders_ok (os : nat -> order) : Prop := forall k l, Permutation (os k l) l.
Definition ascii (s : bytes) : Prop := Forall (fun c => (bval c < 128)%N) s.
Definition rec_job (r : nat * bytes * zentry) : nat := fst (fst r).
Definition rec_line (r : nat * bytes * zentry) : bytes := line (snd (fst r)) (snd r).
