(** NetAddr.v -- addresses as text: the functions of Go's package net (go 1.12: net/ipsock.go, net/port.go,
    net/ip.go, net/parse.go, net/lookup.go) behind net.ResolveUDPAddr, used by dht/node.go:58-64 (resolveHost),
    dht/dht.go:49 (BootStrap), dht/krpc/udp.go:59 (SendPacketToHost) and :74 (StartUdpServer), and behind
    net.DialTimeout, used by dht/peerwire/bep9.go:123.  They are not repository code; they are modelled from the
    Go sources.  The name service and the table of service names are parameters.
    Simplification: the resolver's context (time-outs) is part of the name service's answer. *)
From Verif Require Import Base GoLib Node.
Local Open Scope list_scope.

(** What can go wrong: net.AddrError, net.DNSError. *)
Inductive neterr := NoPort | ManyColons | NoBracket | StrayLeft | StrayRight | BadPort | NoService | NoName | NotSuitable.
Inductive netres (A : Type) := NOk (a : A) | NErr (e : neterr).
Arguments NOk {A} a.
Arguments NErr {A} e.
Definition nbind {A B} (r : netres A) (k : A -> netres B) : netres B := match r with NOk a => k a | NErr e => NErr e end.

(** net.byteIndex and net.last (net/parse.go). *)
Fixpoint index_of (c : byte) (s : bytes) : option nat :=
  match s with [] => None | x :: t => if Ascii.eqb x c then Some 0 else option_map S (index_of c t) end.
Fixpoint last_of (c : byte) (s : bytes) : option nat :=
  match s with
  | [] => None
  | x :: t => match last_of c t with Some n => Some (S n) | None => if Ascii.eqb x c then Some 0 else None end
  end.

(** net.SplitHostPort (net/ipsock.go). *)
Definition tail_checks (s : bytes) (j k : nat) (host port : bytes) : netres (bytes * bytes) :=
  match index_of "["%char (skipn j s) with
  | Some _ => NErr StrayLeft
  | None => match index_of "]"%char (skipn k s) with Some _ => NErr StrayRight | None => NOk (host, port) end
  end.
Definition SplitHostPort (s : bytes) : netres (bytes * bytes) :=
  match last_of ":"%char s with
  | None => NErr NoPort
  | Some i =>
      if match s with c :: _ => Ascii.eqb c "[" | [] => false end then
        match index_of "]"%char s with
        | None => NErr NoBracket
        | Some e =>
            if S e =? length s then NErr NoPort
            else if S e =? i then tail_checks s 1 (S e) (firstn (e - 1) (skipn 1 s)) (skipn (S i) s)
            else if match skipn (S e) s with c :: _ => Ascii.eqb c ":" | [] => false end then NErr ManyColons else NErr NoPort
        end
      else
        match index_of ":"%char (firstn i s) with
        | Some _ => NErr ManyColons
        | None => tail_checks s 0 0 (firstn i s) (skipn (S i) s)
        end
  end.

(** net.parsePort (net/port.go): uint32 arithmetic, which wraps; None: the text is not a number. *)
Definition u32 (n : N) : N := (n mod 4294967296)%N.
Definition port_cutoff : N := 1073741824%N.
Definition port_max : N := 4294967295%N.
Fixpoint port_digits (n : N) (s : bytes) : option N :=
  match s with
  | [] => Some n
  | c :: t =>
      if is_digit c then
        if (port_cutoff <=? n)%N then Some port_max
        else let m := u32 (n * 10) in let mm := u32 (m + digit_val c) in
             if (mm <? m)%N then Some port_max else port_digits mm t
      else None
  end.
Definition port_signed (neg : bool) (s : bytes) : option Z :=
  match port_digits 0 s with
  | None => None
  | Some n =>
      let p := if negb neg && (port_cutoff <=? n)%N then (port_cutoff - 1)%N
               else if neg && (port_cutoff <? n)%N then port_cutoff else n in
      Some (if neg then - Z.of_N p else Z.of_N p)%Z
  end.
Definition parsePort (s : bytes) : option Z :=
  match s with
  | [] => Some 0%Z
  | c :: t => if Ascii.eqb c "+" then port_signed false t else if Ascii.eqb c "-" then port_signed true t else port_signed false s
  end.

(** Resolver.LookupPort (net/lookup.go). *)
Definition LookupPort (svc : bytes -> option Z) (s : bytes) : netres Z :=
  nbind (match parsePort s with Some p => NOk p | None => match svc s with Some p => NOk p | None => NErr NoService end end)
    (fun p => if ((p <? 0) || (65535 <? p))%Z then NErr BadPort else NOk p).

(** net.dtoi and net.xtoi (net/parse.go): the number at the front of [s] and the rest of [s]. *)
Definition big : N := 16777215%N.
Fixpoint dtoi_from (n : N) (s : bytes) : option (N * bytes) :=
  match s with
  | c :: t => if is_digit c then let m := (n * 10 + digit_val c)%N in if (big <=? m)%N then None else dtoi_from m t else Some (n, s)
  | [] => Some (n, [])
  end.
Definition dtoi (s : bytes) : option (N * bytes) := match s with c :: _ => if is_digit c then dtoi_from 0 s else None | [] => None end.
Definition hex_val (c : byte) : option N :=
  let v := bval c in
  if ((48 <=? v) && (v <=? 57))%N then Some (v - 48)%N
  else if ((97 <=? v) && (v <=? 102))%N then Some (v - 87)%N
  else if ((65 <=? v) && (v <=? 70))%N then Some (v - 55)%N else None.
Fixpoint xtoi_from (n : N) (s : bytes) : option (N * bytes) :=
  match s with
  | c :: t => match hex_val c with
              | Some d => let m := (n * 16 + d)%N in if (big <=? m)%N then None else xtoi_from m t
              | None => Some (n, s)
              end
  | [] => Some (n, [])
  end.
Definition xtoi (s : bytes) : option (N * bytes) := match s with c :: _ => match hex_val c with Some _ => xtoi_from 0 s | None => None end | [] => None end.

(** net.parseIPv4 (net/ip.go): [k] numbers separated by dots; the result is the 16-byte form of net.IPv4. *)
Fixpoint v4_numbers (k : nat) (first : bool) (s : bytes) : option bytes :=
  match k with
  | O => match s with [] => Some [] | _ => None end
  | S k' =>
      match (if first then Some s else match s with c :: t => if Ascii.eqb c "." then Some t else None | [] => None end) with
      | None => None
      | Some s1 =>
          match dtoi s1 with
          | Some (n, r) => if (255 <? n)%N then None else option_map (cons (byte_of n)) (v4_numbers k' false r)
          | None => None
          end
      end
  end.
Definition parseIPv4 (s : bytes) : option bytes := option_map (app v4prefix) (v4_numbers 4 true s).

(** net.parseIPv6 (net/ip.go): the loop, with at most [f] numbers to come, the bytes so far and the place of the "::". *)
Fixpoint v6_loop (f : nat) (acc : bytes) (ell : option nat) (s : bytes) : option (bytes * option nat * bytes) :=
  match f with
  | O => Some (acc, ell, s)
  | S f' =>
      match xtoi s with
      | None => None
      | Some (n, r) =>
          if (65535 <? n)%N then None
          else match r with
               | c :: t =>
                   if Ascii.eqb c "." then
                     if (match ell with None => negb (length acc =? 12) | Some _ => false end) || (16 <? length acc + 4) then None
                     else match v4_numbers 4 true s with Some p => Some (acc ++ p, ell, []) | None => None end
                   else if Ascii.eqb c ":" then
                     let acc' := acc ++ put_u16 n in
                     match t with
                     | [] => None
                     | d :: u =>
                         if Ascii.eqb d ":" then
                           match ell with
                           | Some _ => None
                           | None => match u with [] => Some (acc', Some (length acc'), []) | _ => v6_loop f' acc' (Some (length acc')) u end
                           end
                         else v6_loop f' acc' ell t
                     end
                   else None
               | [] => Some (acc ++ put_u16 n, ell, [])
               end
      end
  end.
(** ... and the expansion of "::". *)
Definition v6_finish (r : bytes * option nat * bytes) : option bytes :=
  let '(acc, ell, s) := r in
  match s with
  | _ :: _ => None
  | [] =>
      if length acc <? 16 then
        match ell with
        | None => None
        | Some e => Some (firstn e acc ++ repeat (byte_of 0) (16 - length acc) ++ skipn e acc)
        end
      else match ell with Some _ => None | None => Some acc end
  end.
Definition parseIPv6 (s : bytes) : option bytes :=
  match s with
  | c :: d :: t =>
      if (Ascii.eqb c ":" && Ascii.eqb d ":") then
        match t with [] => Some (repeat (byte_of 0) 16) | _ => match v6_loop 8 [] (Some 0) t with Some r => v6_finish r | None => None end end
      else match v6_loop 8 [] None s with Some r => v6_finish r | None => None end
  | _ => match v6_loop 8 [] None s with Some r => v6_finish r | None => None end
  end.

(** net.splitHostZone (net/ipsock.go) and net.parseIPZone (net/ip.go). *)
Definition splitHostZone (s : bytes) : bytes * bytes :=
  match last_of "%"%char s with
  | Some (S i) => (firstn (S i) s, skipn (S (S i)) s)
  | _ => (s, [])
  end.
Record ipaddr := { ia_ip : bytes; ia_zone : bytes }.
Fixpoint first_sep (s : bytes) : option byte :=
  match s with [] => None | c :: t => if Ascii.eqb c "." || Ascii.eqb c ":" then Some c else first_sep t end.
Definition parseIPZone (s : bytes) : option ipaddr :=
  match first_sep s with
  | None => None
  | Some c =>
      if Ascii.eqb c "." then option_map (fun i => {| ia_ip := i; ia_zone := [] |}) (parseIPv4 s)
      else let (h, z) := splitHostZone s in option_map (fun i => {| ia_ip := i; ia_zone := z |}) (parseIPv6 h)
  end.

(** Resolver.lookupIPAddr (net/lookup.go): a literal address is its own answer, everything else is asked of the name
    service (files and DNS), which answers with at least one address or fails. *)
Record names := { nm_host : bytes -> option (list ipaddr); nm_service : bytes -> option Z }.
Definition lookupIPAddr (nm : names) (host : bytes) : netres (list ipaddr) :=
  match parseIPZone host with
  | Some i => NOk [i]
  | None => match nm_host nm host with Some l => NOk l | None => NErr NoName end
  end.

(** The networks the code names: "udp4" (dht/node.go:59), "udp" (dht/dht.go:49, dht/krpc/udp.go:59,74), "tcp"
    (dht/peerwire/bep9.go:123). *)
Inductive network := NetUdp | NetUdp4 | NetTcp.

Definition is4 (i : ipaddr) : bool := negb (beq (To4 (ia_ip i)) []).
Definition v6zero : bytes := repeat (byte_of 0) 16.
Definition v4zero : bytes := v4prefix ++ repeat (byte_of 0) 4.

(** Resolver.internetAddrList (net/ipsock.go); IP.Equal with IPv6unspecified holds of the 16 zero bytes only. *)
Definition internetAddrList (nm : names) (net : network) (addr : bytes) : netres (list udpaddr) :=
  nbind (match addr with
         | [] => NOk ([], 0%Z)
         | _ => nbind (SplitHostPort addr) (fun hp => nbind (LookupPort (nm_service nm) (snd hp)) (fun p => NOk (fst hp, p)))
         end) (fun hp =>
  match fst hp with
  | [] => NOk [mkaddr [] (snd hp)]
  | host =>
      nbind (lookupIPAddr nm host) (fun ips =>
      let ips' := match ips with
                  | [i] => if beq (ia_ip i) v6zero then [i; {| ia_ip := v4zero; ia_zone := [] |}] else ips
                  | _ => ips
                  end in
      let l := match net with NetUdp4 => filter is4 ips' | _ => ips' end in
      match l with
      | [] => NErr NotSuitable
      | _ => NOk (map (fun i => {| ip := ia_ip i; port := snd hp; zone := ia_zone i |}) l)
      end)
  end).

(** addrList.forResolve and addrList.first (net/ipsock.go); isIPv4 of an address without IP is false. *)
Definition first_such (f : udpaddr -> bool) (l : list udpaddr) : option udpaddr :=
  match filter f l with a :: _ => Some a | [] => hd_error l end.
Definition addr4 (a : udpaddr) : bool := negb (beq (To4 (ip a)) []).
Definition forResolve (net : network) (addr : bytes) (l : list udpaddr) : option udpaddr :=
  let want6 := match net with NetUdp4 => false | _ => existsb (fun c => Ascii.eqb c "[") addr end in
  if want6 then first_such (fun a => negb (addr4 a)) l else first_such addr4 l.

(** net.ResolveUDPAddr (net/udpsock.go). *)
Definition ResolveUDPAddr (nm : names) (net : network) (addr : bytes) : netres udpaddr :=
  nbind (internetAddrList nm net addr) (fun l =>
  match forResolve net addr l with Some a => NOk a | None => NErr NotSuitable end).

(** net.DialTimeout("tcp", addr) (net/dial.go): the addresses it tries to connect to, or the error with which it gives
    up before. *)
Definition dial_tries (nm : names) (addr : bytes) : netres (list udpaddr) := internetAddrList nm NetTcp addr.

(** dht/node.go:58-64 resolveHost: None is the panic "resolve remote host err". *)
Definition resolveHost (nm : names) (addr : bytes) : option udpaddr := match ResolveUDPAddr nm NetUdp4 addr with NOk a => Some a | NErr _ => None end.
(** dht/dht.go:49 *)
Definition boot_resolve (nm : names) (host : bytes) : option udpaddr := match ResolveUDPAddr nm NetUdp host with NOk a => Some a | NErr _ => None end.

(** Examples checked against the documentation of package net. *)
Definition no_names : names := {| nm_host := fun _ => None; nm_service := fun _ => None |}.
Example na1 : ResolveUDPAddr no_names NetUdp (B "87.98.162.88:6881") = NOk (mkaddr (v4prefix ++ map byte_of [87; 98; 162; 88]%N) 6881). Proof. vm_compute. reflexivity. Qed.
Example na2 : ResolveUDPAddr no_names NetUdp (B "[2001:db8::1]:6881") = NOk (mkaddr (map byte_of [32; 1; 13; 184; 0; 0; 0; 0; 0; 0; 0; 0; 0; 0; 0; 1]%N) 6881). Proof. vm_compute. reflexivity. Qed.
Example na3 : SplitHostPort (B "2001:db8::1:6881") = NErr ManyColons. Proof. vm_compute. reflexivity. Qed.
Example na4 : SplitHostPort (B "[::1]") = NErr NoPort /\ SplitHostPort (B "[::1]x:1") = NErr NoPort /\ SplitHostPort (B "[::1]:1:2") = NErr ManyColons /\ SplitHostPort (B "[::1:1") = NErr NoBracket /\
  SplitHostPort (B "a[b:1") = NErr StrayLeft /\ SplitHostPort (B "a]b:1") = NErr StrayRight /\ SplitHostPort (B "host") = NErr NoPort. Proof. vm_compute. repeat split; reflexivity. Qed.
Example na5 : parseIPv6 (B "::ffff:1.2.3.4") = Some (v4prefix ++ map byte_of [1; 2; 3; 4]%N) /\ parseIPv6 (B "::") = Some v6zero /\ parseIPv6 (B "1:2:3:4:5:6:7:8::") = None /\
  parseIPv6 (B "1::2::3") = None /\ parseIPv6 (B "1:2:3") = None /\ parseIPv6 (B "fe80::") = Some (map byte_of [254; 128]%N ++ repeat (byte_of 0) 14). Proof. vm_compute. repeat split; reflexivity. Qed.
Example na6 : parsePort (B "+80") = Some 80%Z /\ parsePort (B "-1") = Some (-1)%Z /\ parsePort (B "http") = None /\ parsePort (B "4294967296") = Some 1073741823%Z /\ parsePort (B "9999999999") = Some 1073741823%Z /\ parsePort [] = Some 0%Z.
Proof. vm_compute. repeat split; reflexivity. Qed.
Example na7 : ResolveUDPAddr no_names NetUdp4 (B ":21000") = NOk (mkaddr [] 21000) /\ ResolveUDPAddr no_names NetUdp4 (B "[::1]:1") = NErr NotSuitable /\ dial_tries no_names (B "[::]:1") = NOk [mkaddr v6zero 1; mkaddr v4zero 1].
Proof. vm_compute. repeat split; reflexivity. Qed.
Example na8 : boot_resolve no_names (B "[fe80::1%eth0]:6881") = Some {| ip := map byte_of [254; 128]%N ++ repeat (byte_of 0) 13 ++ [byte_of 1]; port := 6881; zone := B "eth0" |}. Proof. vm_compute. reflexivity. Qed.
