(** FetchTorrentSpec.v -- vocabulary for C62-C65 and C81. *)
From Verif Require Import Base GoLib Bencode BencodeSpec Types Node Krpc KrpcSpec Dht FetchTorrent.
Local Open Scope list_scope.

(** Lowercase hexadecimal, two digits per byte. *)
Definition hex_digits : bytes := B "0123456789abcdef".
Definition hex_text (s : bytes) : bytes :=
  flat_map (fun b => [nth (N.to_nat (bval b / 16)) hex_digits "?"%char; nth (N.to_nat (bval b mod 16)) hex_digits "?"%char]) s.
(** The file for an info hash. *)
Definition file_of (ih : bytes) : bytes := B "torrent/" ++ hex_text ih ++ B ".torrent".

(** The path a file operation touches. *)
Definition op_path (o : fsop) : bytes := match o with OCreate p => p | OWrite p _ _ => p | OClose p => p end.
(** The file system never failed. *)
Definition os_ok (o : osenv) : Prop := os_create o = true /\ os_fail o = None.

(** [s] names host [h] and port [p] in the syntax net.Dial accepts: host:port or [host]:port. *)
Inductive endpoint : bytes -> bytes -> bytes -> Prop :=
| ep_plain h p : Forall (fun c => c <> ":"%char /\ c <> "["%char /\ c <> "]"%char) (h ++ p) -> endpoint (h ++ B ":" ++ p) h p
| ep_bracket h p : Forall (fun c => c <> "["%char /\ c <> "]"%char) (h ++ p) -> Forall (fun c => c <> ":"%char) p -> endpoint (B "[" ++ h ++ B "]:" ++ p) h p.

(** An IPv4 address of a packet: 4 bytes, or 16 bytes as Go's sockets deliver it. *)
Definition v4 (i : bytes) (a b c d : byte) : Prop := i = [a; b; c; d] \/ i = repeat (byte_of 0) 10 ++ [byte_of 255; byte_of 255; a; b; c; d].
Definition dotted (a b c d : byte) : bytes :=
  itoa (Z.of_N (bval a)) ++ B "." ++ itoa (Z.of_N (bval b)) ++ B "." ++ itoa (Z.of_N (bval c)) ++ B "." ++ itoa (Z.of_N (bval d)).
(** A real IPv6 address. *)
Definition v6 (i : bytes) : Prop := length i = 16 /\ firstn 12 i <> repeat (byte_of 0) 10 ++ [byte_of 255; byte_of 255].

(** All ways to interleave the operations of several goroutines. *)
Inductive interleaved {A} : list (list A) -> list A -> Prop :=
| il_done ls : Forall (fun l => l = []) ls -> interleaved ls []
| il_step ls1 x l ls2 r : interleaved (ls1 ++ l :: ls2) r -> interleaved (ls1 ++ (x :: l) :: ls2) (x :: r).
