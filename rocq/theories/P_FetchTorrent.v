(** P_FetchTorrent.v -- property theorems (generated by tools/gen_p.py from FetchTorrentPf.v).
    Each statement is repeated in full and closed by [exact]. *)
From Verif Require Import Base GoLib Bencode BencodeSpec Types TypesPf Node NodePf RouteTable Middleware Krpc KrpcSpec Dht DhtSpec BytesPool Sha1 PeerWire Fetch FetchPf FetchTorrent FetchTorrentSpec.
Local Open Scope list_scope.
From Verif Require Import FetchTorrentPf.

(** C62: for every announcement, peer, environment and disk: whatever file fetchHandler changes is
    torrent/<hex of the SHA-1 of the downloaded data>.torrent, that SHA-1 is the announced info hash,
    and unless the file system failed the file ends up holding exactly that data. *)
Theorem C62_named_by_content : forall e p h dial o x (d0 : disk) r, fetchHandler e p h dial o x = r ->
  forall q, fs_run (t_ops r) d0 q <> d0 q ->
  exists d, q = file_of (sha1 d) /\ t_data r = Some d /\ field (dict_of (rq_body (fst x))) "info_hash" (VStr (sha1 d)) /\
    (os_ok o -> fs_run (t_ops r) d0 q = Some d).
Proof. exact C62_named_by_content_pf. Qed.
Print Assumptions C62_named_by_content.

(** C62: and every successful download ends up on disk, complete. *)
Theorem C62_download_is_stored : forall e p h dial o x d0 d, os_ok o ->
  t_data (fetchHandler e p h dial o x) = Some d ->
  fs_run (t_ops (fetchHandler e p h dial o x)) d0 (file_of (sha1 d)) = Some d.
Proof. exact C62_download_is_stored_pf. Qed.
Print Assumptions C62_download_is_stored.

(** C62: a concrete announcement, downloaded and stored. *)
Theorem C62_example : t_dial run0 = Some (B "10.0.0.7:6881") /\ t_data run0 = Some meta1 /\
  file_of (sha1 meta1) = B "torrent/ceff46bbeb156d9d8ebecb01d6f8bbb8213bb97b.torrent" /\
  fs_run (t_ops run0) (fun _ => None) (file_of (sha1 meta1)) = Some meta1.
Proof. exact C62_example_pf. Qed.
Print Assumptions C62_example.

(** C63: for every announcement (any info hash, of any length) every file fetchHandler touches has the
    fixed prefix and suffix around 40 lowercase hexadecimal digits - so it lies directly in torrent/ -
    and belongs to the announced info hash. *)
Theorem C63_path_shape : forall e p h dial o x op, In op (t_ops (fetchHandler e p h dial o x)) ->
  exists ih name, field (dict_of (rq_body (fst x))) "info_hash" (VStr ih) /\ op_path op = file_of ih /\
    op_path op = B "torrent/" ++ name ++ B ".torrent" /\ length name = 40 /\ Forall (fun c => In c (B "0123456789abcdef")) name.
Proof. exact C63_path_shape_pf. Qed.
Print Assumptions C63_path_shape.

(** C63: the path the code builds is injective and stays in the directory for every byte string, also
    for info hashes of a wrong length or with separators in them. *)
Theorem C63_path_injective : forall a b,
  torrent_path (hex a) = file_of a /\ Forall (fun c => In c (B "0123456789abcdef")) (hex a) /\
  (torrent_path (hex a) = torrent_path (hex b) -> a = b).
Proof. exact C63_path_injective_pf. Qed.
Print Assumptions C63_path_injective.

(** C63: an info hash that tries to leave the directory. *)
Theorem C63_example : torrent_path (hex (B "../../etc/x")) = B "torrent/2e2e2f2e2e2f6574632f78.torrent" /\ t_ops run0 <> [].
Proof. exact C63_example_pf. Qed.
Print Assumptions C63_example.

(** C64: without a crash and without an I/O error the file is complete (see C62); after a crash at
    any point (the operations [pre] happened, [post] did not), or a failed write, every file other
    than the one of this download is untouched and that one is unchanged or holds a prefix of the data. *)
Theorem C64_crash_damage : forall e p h dial o x (d0 : disk) pre post r, fetchHandler e p h dial o x = r -> t_ops r = pre ++ post ->
  forall q, fs_run pre d0 q = d0 q \/
    exists d k, t_data r = Some d /\ q = file_of (sha1 d) /\ fs_run pre d0 q = Some (firstn k d).
Proof. exact C64_crash_damage_pf. Qed.
Print Assumptions C64_crash_damage.

(** C64: the full claim is false.  A crash can leave a partial file under the final name, and when a
    complete file was already there (the hash was announced before) it is destroyed. *)
Theorem C64_not_atomic_refuted : exists e p h dial o x d, let r := fetchHandler e p h dial o x in
  os_ok o /\ t_data r = Some d /\
  (exists pre post, t_ops r = pre ++ post /\ fs_run pre (fun _ => None) (file_of (sha1 d)) = Some (firstn 4 d) /\ firstn 4 d <> d) /\
  (exists d0 pre post, d0 (file_of (sha1 d)) = Some d /\ t_ops r = pre ++ post /\ fs_run pre d0 (file_of (sha1 d)) = Some [] /\ d <> []).
Proof. exact C64_not_atomic_refuted_pf. Qed.
Print Assumptions C64_not_atomic_refuted.

(** C65: for an IPv4 source the handler dials source-ip:port with the announced port, or the UDP
    source port when implied_port is an int > 0. *)
Theorem C65_ipv4 : forall (x : request hid * udpaddr) i a b c d udp tcp, let body := dict_of (rq_body (fst x)) in
  v4 i a b c d -> snd x = mkaddr i udp -> field body "port" (VInt tcp) ->
  (forall k, field body "implied_port" (VInt k) -> (0 < k)%Z ->
     exists s, parseFetchAddr x = Ok s /\ endpoint s (dotted a b c d) (itoa udp)) /\
  (dget body (B "implied_port") = None \/ (exists k, field body "implied_port" (VInt k) /\ (k <= 0)%Z) ->
     exists s, parseFetchAddr x = Ok s /\ endpoint s (dotted a b c d) (itoa tcp)).
Proof. exact C65_ipv4_pf. Qed.
Print Assumptions C65_ipv4.

(** C65: that address is the one dialled; without an int port, or with an implied_port of another
    type, nothing is dialled and no file is touched. *)
Theorem C65_what_is_dialled : forall e p h dial o x a,
  (t_dial (fetchHandler e p h dial o x) = Some a <->
   parseFetchAddr x = Ok a /\ exists ih, field (dict_of (rq_body (fst x))) "info_hash" (VStr ih)) /\
  ((forall z, ~ field (dict_of (rq_body (fst x))) "port" (VInt z)) \/
   (exists v, field (dict_of (rq_body (fst x))) "implied_port" v /\ forall z, v <> VInt z) ->
   t_dial (fetchHandler e p h dial o x) = None /\ t_ops (fetchHandler e p h dial o x) = [] /\ t_res (fetchHandler e p h dial o x) = FOk tt).
Proof. exact C65_what_is_dialled_pf. Qed.
Print Assumptions C65_what_is_dialled.

(** C65: for an IPv6 source with implied_port the address is well formed ... *)
Theorem C65_ipv6_implied : forall (x : request hid * udpaddr) i udp tcp k, let body := dict_of (rq_body (fst x)) in
  v6 i -> snd x = mkaddr i udp -> field body "port" (VInt tcp) -> field body "implied_port" (VInt k) -> (0 < k)%Z ->
  exists s host, parseFetchAddr x = Ok s /\ endpoint s host (itoa udp) /\ host = ip_string i.
Proof. exact C65_ipv6_implied_pf. Qed.
Print Assumptions C65_ipv6_implied.

(** C65: ... and without implied_port it never is, whatever the address: the brackets are missing,
    so the download cannot start. *)
Theorem C65_ipv6_refuted : forall (x : request hid * udpaddr) i udp tcp, let body := dict_of (rq_body (fst x)) in
  v6 i -> snd x = mkaddr i udp -> field body "port" (VInt tcp) -> dget body (B "implied_port") = None ->
  exists s, parseFetchAddr x = Ok s /\ forall host port, ~ endpoint s host port.
Proof. exact C65_ipv6_refuted_pf. Qed.
Print Assumptions C65_ipv6_refuted.

Theorem C65_example :
  parseFetchAddr (announce0 (B "h") [], peer0) = Ok (B "10.0.0.7:6881") /\
  parseFetchAddr (announce0 (B "h") [(B "implied_port", VInt 1)], peer0) = Ok (B "10.0.0.7:4711") /\
  v6 ip6_a /\ parseFetchAddr (announce0 (B "h") [], mkaddr ip6_a 4711) = Ok (B "2001:db8::1:6881") /\
  parseFetchAddr (announce0 (B "h") [(B "implied_port", VInt 1)], mkaddr ip6_a 4711) = Ok (B "[2001:db8::1]:4711").
Proof. exact C65_example_pf. Qed.
Print Assumptions C65_example.

(** C81: any number of fetchHandler calls run at the same time, their file operations interleaved in
    any way - also several for the same info hash.  Unless two of them downloaded different data with
    the same SHA-1, at the end every file that changed holds complete data matching its name, and the
    data of every download is on disk. *)
Theorem C81_concurrent_downloads : forall (rs : list fetched) ops (d0 : disk),
  (forall r, In r rs -> exists e p h dial o x, os_ok o /\ r = fetchHandler e p h dial o x) ->
  (forall r1 r2 d1 d2, In r1 rs -> In r2 rs -> t_data r1 = Some d1 -> t_data r2 = Some d2 -> sha1 d1 = sha1 d2 -> d1 = d2) ->
  interleaved (map t_ops rs) ops ->
  (forall r d, In r rs -> t_data r = Some d -> fs_run ops d0 (file_of (sha1 d)) = Some d) /\
  (forall q, fs_run ops d0 q <> d0 q -> exists d, q = file_of (sha1 d) /\ fs_run ops d0 q = Some d).
Proof. exact C81_concurrent_downloads_pf. Qed.
Print Assumptions C81_concurrent_downloads.

Theorem C81_example : exists a b c d e f, t_ops run0 = [a; b; c; d] /\ interleaved (map t_ops [run0; run0]) (a :: b :: a :: c :: b :: c :: [d; d]) /\
  fs_run [a; b; a; c] (fun _ => None) (file_of (sha1 meta1)) = Some e /\ e <> meta1 /\ length e = length meta1 /\
  fs_run (a :: b :: a :: c :: b :: c :: [d; d]) (fun _ => None) (file_of (sha1 meta1)) = Some f /\ f = meta1.
Proof. exact C81_example_pf. Qed.
Print Assumptions C81_example.

(** C64: the download of C62, interrupted after the file was created, and not interrupted. *)
Theorem C64_example : exists rest, t_ops run0 = OCreate (file_of (sha1 meta1)) :: rest /\
  fs_run [OCreate (file_of (sha1 meta1))] (fun _ => None) (file_of (sha1 meta1)) = Some (firstn 0 meta1) /\
  fs_run (t_ops run0) (fun _ => None) (file_of (sha1 meta1)) = Some meta1.
Proof. exact C64_example_pf. Qed.
Print Assumptions C64_example.
