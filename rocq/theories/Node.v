(** Node.v -- model of misc/bits.go, dht/node.go and of the prefix length in
    dht/routetable.go, with the parts of package net they use. *)
From Verif Require Import Base GoLib Bencode Types.
Local Open Scope list_scope.

(** ** Xor and prefix length *)

(** a ^ b on bytes. *)
Definition bxor (a b : byte) : byte := byte_of (N.lxor (bval a) (bval b)).

(** misc/bits.go:3-14 *)
Fixpoint Xor (a b : bytes) : bytes :=
  match a, b with
  | x :: a', y :: b' => bxor x y :: Xor a' b'
  | _, _ => []
  end.

(** math/bits.LeadingZeros8. *)
Definition lz8 (v : byte) : nat := 8 - N.to_nat (N.size (bval v)).

(** dht/routetable.go:225-233: the loop over the xor. *)
Fixpoint prefix_scan (i : nat) (l : bytes) : nat :=
  match l with
  | [] => i * 8
  | v :: t => if (bval v =? 0)%N then prefix_scan (S i) t else i * 8 + lz8 v
  end.
Definition solvePrefixLen (a b : bytes) : nat := prefix_scan 0 (Xor a b).

(** ** Transaction ids *)

(** dht/node.go:22-27 nextVal (uint16 increment) *)
Definition nextVal (txId : N) : N := ((txId + 1) mod 65536)%N.
(** dht/node.go:29-33: the string made from a drawn value. *)
Definition txid_string (v : N) : bytes := hex (put_u16 v).
(** dht/node.go:29-33 Next, called without interference. *)
Definition Next (txId : N) : N * bytes := (nextVal txId, txid_string (nextVal txId)).

(** dht/node.go:22-33 under concurrency.  Each thread runs
      Lock; g.txId++ (read, then write); result := g.txId; Unlock; return
    The increment is split into a read and a write step. *)
Inductive tx_pc := TIdle | TWant | TLocked | TRead (v : N) | TWrote | TResult (v : N).
Record tx_state := { tx_val : N; tx_owner : option nat; tx_pcs : nat -> tx_pc; tx_out : list bytes }.
Definition upd {A} (f : nat -> A) (t : nat) (x : A) : nat -> A := fun t' => if Nat.eqb t' t then x else f t'.
Inductive tx_step : tx_state -> tx_state -> Prop :=
| tx_call s t : tx_pcs s t = TIdle ->
    tx_step s {| tx_val := tx_val s; tx_owner := tx_owner s; tx_pcs := upd (tx_pcs s) t TWant; tx_out := tx_out s |}
| tx_lock s t : tx_pcs s t = TWant -> tx_owner s = None ->
    tx_step s {| tx_val := tx_val s; tx_owner := Some t; tx_pcs := upd (tx_pcs s) t TLocked; tx_out := tx_out s |}
| tx_read s t : tx_pcs s t = TLocked ->
    tx_step s {| tx_val := tx_val s; tx_owner := tx_owner s; tx_pcs := upd (tx_pcs s) t (TRead (tx_val s)); tx_out := tx_out s |}
| tx_write s t v : tx_pcs s t = TRead v ->
    tx_step s {| tx_val := nextVal v; tx_owner := tx_owner s; tx_pcs := upd (tx_pcs s) t TWrote; tx_out := tx_out s |}
| tx_result s t : tx_pcs s t = TWrote ->
    tx_step s {| tx_val := tx_val s; tx_owner := tx_owner s; tx_pcs := upd (tx_pcs s) t (TResult (tx_val s)); tx_out := tx_out s |}
| tx_unlock s t v : tx_pcs s t = TResult v ->
    tx_step s {| tx_val := tx_val s; tx_owner := None; tx_pcs := upd (tx_pcs s) t TIdle; tx_out := tx_out s ++ [txid_string v] |}.
(** dht/node.go:18-20 NewTxIdGenerator *)
Definition tx_init (init : N) : tx_state := {| tx_val := init; tx_owner := None; tx_pcs := fun _ => TIdle; tx_out := [] |}.
Inductive tx_reach (init : N) : tx_state -> Prop :=
| txr_init : tx_reach init (tx_init init)
| txr_step s s' : tx_reach init s -> tx_step s s' -> tx_reach init s'.

(** ** net.UDPAddr (external package, modelled as far as it is used) *)

(** net.UDPAddr{IP, Port, Zone}. *)
Record udpaddr := { ip : bytes; port : Z; zone : bytes }.
Definition mkaddr (i : bytes) (p : Z) : udpaddr := {| ip := i; port := p; zone := [] |}.

(** net.IP.To4: nil (here []) unless 4 bytes or 16 bytes with the ::ffff: prefix. *)
Definition v4prefix : bytes := repeat (byte_of 0) 10 ++ [byte_of 255; byte_of 255].
Definition To4 (i : bytes) : bytes :=
  if length i =? 4 then i
  else if (length i =? 16) && beq (firstn 12 i) v4prefix then skipn 12 i
  else [].

Definition join (sep : bytes) (l : list bytes) : bytes :=
  match l with
  | [] => []
  | x :: t => x ++ concat (map (fun y => sep ++ y) t)
  end.

(** Hexadecimal without leading zeros (net.appendHex). *)
Fixpoint hex_groups_fuel (f : nat) (n : N) : bytes :=
  match f with
  | O => []
  | S f' => (if (n <? 16)%N then [] else hex_groups_fuel f' (n / 16)) ++ [hexdigit (n mod 16)]
  end.
Definition hexnum (n : N) : bytes := hex_groups_fuel 4 n.

Fixpoint groups16 (i : bytes) : list N :=
  match i with a :: b :: t => get_u16 a b :: groups16 t | _ => [] end.
Fixpoint zero_run (g : list N) : nat :=
  match g with x :: t => if (x =? 0)%N then S (zero_run t) else 0 | [] => 0 end.
(** First longest run of zero groups: (start, length). *)
Fixpoint best_run (i : nat) (g : list N) (best : nat * nat) : nat * nat :=
  match g with
  | [] => best
  | _ :: t => let r := zero_run g in best_run (S i) t (if snd best <? r then (i, r) else best)
  end.
Definition ip6_text (i : bytes) : bytes :=
  let g := groups16 i in
  let '(e0, n) := best_run 0 g (0, 0) in
  if n <=? 1 then join (B ":") (map hexnum g)
  else join (B ":") (map hexnum (firstn e0 g)) ++ B "::" ++ join (B ":") (map hexnum (skipn (e0 + n) g)).

(** net.IP.String *)
Definition ip_string (i : bytes) : bytes :=
  match i with
  | [] => B "<nil>"
  | _ => match To4 i with
         | [] => if length i =? 16 then ip6_text i else B "?" ++ hex i
         | p4 => join (B ".") (map (fun b => utoa (bval b)) p4)
         end
  end.

(** net.JoinHostPort *)
Definition JoinHostPort (host p : bytes) : bytes :=
  if existsb (fun c => Ascii.eqb c ":") host then B "[" ++ host ++ B "]:" ++ p else host ++ B ":" ++ p.

(** net.UDPAddr.String for a non-nil address *)
Definition addr_string (a : udpaddr) : bytes :=
  let h := match ip a with [] => [] | _ => ip_string (ip a) end in
  JoinHostPort (match zone a with [] => h | z => h ++ B "%" ++ z end) (itoa (port a)).

(** ** Nodes *)

(** dht/node.go:35-38; the Addr pointer is never nil for the nodes the code creates
    (parseNodeInfo, NewNodeInfo with a packet source, resolveHost). *)
Record ninfo := { nid : bytes; naddr : udpaddr }.

(** dht/node.go:48-56 (argument non-nil) *)
Definition Equals (uf : N -> N -> bool) (n m : ninfo) : bool :=
  EqualFold uf (nid n) (nid m) && EqualFold uf (addr_string (naddr n)) (addr_string (naddr m)).

(** uint16(port) for a Go int. *)
Definition u16_of_int (p : Z) : N := Z.to_N (p mod 65536).

(** dht/node.go:66-77 *)
Definition joinNodeInfos (nodes : list ninfo) : bytes :=
  concat (map (fun v => nid v ++ To4 (ip (naddr v)) ++ put_u16 (u16_of_int (port (naddr v)))) nodes).

(** dht/node.go:83-88: one entry from bytes [j, j+26). *)
Definition parse_node26 (c : bytes) : res ninfo :=
  let b := slice c 20 26 in
  do p1 <- idx b 4; do p2 <- idx b 5;
  Ok {| nid := slice c 0 20; naddr := mkaddr (firstn 4 b) (Z.of_N (get_u16 p1 p2)) |}.

(** dht/node.go:79-91: [len/26] iterations over consecutive 26-byte windows. *)
Fixpoint parse_nodes (n : nat) (infos : bytes) : res (list ninfo) :=
  match n with
  | O => Ok []
  | S n' =>
      if length infos <? 26 then Panic PRuntime else
      do x <- parse_node26 (firstn 26 infos);
      do r <- parse_nodes n' (skipn 26 infos);
      Ok (x :: r)
  end.
Definition parseNodeInfo (infos : bytes) : res (list ninfo) := parse_nodes (length infos / 26) infos.

(** dht/node.go:93-105.  [bytes[:4]] and [bytes[4:6]] may reach up to the capacity of
    []byte(val); [slack n] is that capacity for length n (decided by the runtime; the
    bytes beyond the length are zero). *)
Definition parse_peer (slack : nat -> nat) (s : bytes) : res udpaddr :=
  if Nat.max (length s) (slack (length s)) <? 6 then Panic PRuntime else
  let b := s ++ repeat (byte_of 0) 6 in
  do p1 <- idx b 4; do p2 <- idx b 5;
  Ok (mkaddr (firstn 4 b) (Z.of_N (get_u16 p1 p2))).
Fixpoint parsePeerInfo (slack : nat -> nat) (vals : list val) : res (list udpaddr) :=
  match vals with
  | [] => Ok []
  | v :: t =>
      do s <- LGetString [v] 0;
      do a <- parse_peer slack s;
      do r <- parsePeerInfo slack t;
      Ok (a :: r)
  end.

(** dht/node.go:107-118 *)
Definition joinPeerInfos (addrs : list udpaddr) : list val :=
  map (fun a => VStr (To4 (ip a) ++ put_u16 (u16_of_int (port a)))) addrs.

(** Tests against dht/node_test.go, misc/bits_test.go, net documentation. *)
Example nt1 : ip_string [byte_of 127; byte_of 0; byte_of 0; byte_of 1] = B "127.0.0.1". Proof. vm_compute. reflexivity. Qed.
Example nt2 : ip_string (repeat (byte_of 0) 15 ++ [byte_of 1]) = B "::1". Proof. vm_compute. reflexivity. Qed.
Example nt3 : ip_string ([byte_of 32; byte_of 1; byte_of 13; byte_of 184] ++ repeat (byte_of 0) 6 ++ [byte_of 1; byte_of 0; byte_of 0; byte_of 0; byte_of 0; byte_of 171]) = B "2001:db8::100:0:ab".
Proof. vm_compute. reflexivity. Qed.
Example nt4 : addr_string (mkaddr (repeat (byte_of 0) 15 ++ [byte_of 1]) 6881) = B "[::1]:6881". Proof. vm_compute. reflexivity. Qed.
Example nt5 : ip_string (v4prefix ++ [byte_of 1; byte_of 2; byte_of 3; byte_of 4]) = B "1.2.3.4". Proof. vm_compute. reflexivity. Qed.
Example nt6 : solvePrefixLen (B "aaaa") (B "aaab") = 30. Proof. vm_compute. reflexivity. Qed.
