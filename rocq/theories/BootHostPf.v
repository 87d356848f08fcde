(** BootHostPf.v -- proofs of C125 (bootstrap hosts). *)
From Verif Require Import Base GoLib Node Krpc KrpcSpec Dht DhtSpec Conc ConcSpec FetchTorrentSpec NetAddr NetAddrSpec NetAddrProofs NetAddrPf NetLitProofs Startup StartupSpec StartupPf.
Local Open Scope list_scope.

(** ** C125 *)
Lemma first_such_in f l a : first_such f l = Some a -> In a l.
Proof.
  unfold first_such. destruct (filter f l) as [|b t] eqn:E.
  - destruct l; cbn; [discriminate|]. intros H. injection H as ->. left. reflexivity.
  - intros H. injection H as ->. assert (Hin : In a (filter f l)) by (rewrite E; left; reflexivity). apply filter_In in Hin. tauto.
Qed.

Lemma first_sep_cases s c : first_sep s = Some c -> In c s /\ (c = "."%char \/ c = ":"%char).
Proof.
  induction s as [|x s IH]; cbn [first_sep]; [discriminate|]. destruct (Ascii.eqb_spec x ".") as [->|H1]; cbn [orb]; [intros H; injection H as <-; split; [left; reflexivity|auto]|].
  destruct (Ascii.eqb_spec x ":") as [->|H2]; [intros H; injection H as <-; split; [left; reflexivity|auto]|]. intros H. destruct (IH H) as [H3 H4]. split; [right; exact H3|exact H4].
Qed.

Lemma where_raw : forall nm h a, boot_resolve nm h = Some a ->
  (h = [] /\ a = mkaddr [] 0) \/
  exists host p, endpoint h host p /\ (0 <= port a <= 65535)%Z /\ (forall z, (0 <= z <= 65535)%Z -> p = itoa z -> port a = z) /\
   ((host = [] /\ ip a = [] /\ zone a = []) \/
    (exists b, parseIPZone host = Some b /\ ip a = ia_ip b /\ zone a = ia_zone b) \/
    (parseIPZone host = None /\ exists l, nm_host nm host = Some l /\ (In {| ia_ip := ip a; ia_zone := zone a |} l \/ (exists z, l = [{| ia_ip := repeat (byte_of 0) 16; ia_zone := z |}]) /\ ip a = wide (repeat (byte_of 0) 4)))).
Proof.
  intros nm h a. unfold boot_resolve, ResolveUDPAddr. destruct h as [|h0 h]; [intros H; left; split; [reflexivity|]; injection H as <-; reflexivity|].
  intros H. right. destruct (internetAddrList nm NetUdp (h0 :: h)) as [l|] eqn:El; [|discriminate]. cbn [nbind] in H.
  destruct (forResolve NetUdp (h0 :: h) l) as [a'|] eqn:Ef; [|discriminate]. injection H as ->.
  unfold internetAddrList in El. destruct (SplitHostPort (h0 :: h)) as [[host p]|] eqn:Es; [|discriminate]. cbn [nbind fst snd] in El.
  destruct (LookupPort (nm_service nm) p) as [z|] eqn:Ep; [|discriminate]. cbn [nbind fst snd] in El.
  exists host, p. split; [apply C124_endpoint_pf; exact Es|].
  assert (Hz : (0 <= z <= 65535)%Z).
  { unfold LookupPort in Ep. destruct (match parsePort p with Some q => NOk q | None => match nm_service nm p with Some q => NOk q | None => NErr NoService end end) as [q|]; [|discriminate].
    cbn [nbind] in Ep. destruct ((q <? 0) || (65535 <? q))%Z eqn:Eq; [discriminate|]. injection Ep as <-. apply orb_false_iff in Eq. lia. }
  assert (Hin : In a l). { unfold forResolve in Ef. destruct (existsb _ _); apply first_such_in in Ef; exact Ef. }
  assert (Hport : port a = z).
  { destruct host as [|c host]; [injection El as <-; destruct Hin as [<-|[]]; reflexivity|].
    destruct (lookupIPAddr nm (c :: host)) as [ips|]; [|discriminate]. cbn [nbind] in El. set (ips' := match ips with [i] => _ | _ => _ end) in El. clearbody ips'. destruct ips' as [|i ips']; [discriminate|].
    injection El as <-. assert (Hm : In a (map (fun i0 => {| ip := ia_ip i0; port := z; zone := ia_zone i0 |}) (i :: ips'))) by exact Hin. apply in_map_iff in Hm as (j & <- & _). reflexivity. }
  split; [rewrite Hport; exact Hz|]. split.
  { intros z' Hz' ->. rewrite lookup_small in Ep by exact Hz'. congruence. }
  destruct host as [|c host]; [left; injection El as <-; destruct Hin as [<-|[]]; auto|]. right. unfold lookupIPAddr in El.
  destruct (parseIPZone (c :: host)) as [b|] eqn:Eb.
  - left. exists b. split; [reflexivity|]. cbn [nbind] in El. destruct (beq (ia_ip b) v6zero) eqn:E0.
    2: { injection El as <-. destruct Hin as [<-|[]]. auto. }
    injection El as <-. apply beq_eq in E0. assert (Hw : existsb (fun c0 => Ascii.eqb c0 "[") (h0 :: h) = true).
    { apply C124_endpoint_pf in Es. destruct (parseIPZone (c :: host)) as [b'|] eqn:Eb'; [injection Eb as ->|discriminate]. clear -Es Eb' E0. remember (c :: host) as hs eqn:Eh. remember (h0 :: h) as s0 eqn:Eh0. destruct Es as [hh pp Hf|hh pp Hf Hf2].
      - exfalso. unfold parseIPZone in Eb'. destruct (first_sep hh) as [c1|] eqn:E1; [|discriminate]. apply first_sep_cases in E1 as [Hin1 [->| ->]].
        + rewrite Ascii.eqb_refl in Eb'. unfold parseIPv4 in Eb'. destruct (v4_numbers 4 true hh) as [q|]; [|discriminate]. cbn [option_map] in Eb'. injection Eb' as <-. cbn [ia_ip] in E0. discriminate E0.
        + apply Forall_app in Hf as [Hf _]. rewrite Forall_forall in Hf. apply (proj1 (Hf _ Hin1)). reflexivity.
      - reflexivity. }
    unfold forResolve in Ef. rewrite Hw in Ef. unfold first_such in Ef. cbn [filter] in Ef. unfold addr4 in Ef. cbn [ip] in Ef. rewrite E0 in Ef.
    change (beq (To4 v6zero) []) with true in Ef. cbn [negb] in Ef. injection Ef as <-. cbn [ip zone]. rewrite E0. auto.
  - right. split; [reflexivity|]. destruct (nm_host nm (c :: host)) as [ans|]; [|discriminate]. exists ans. split; [reflexivity|]. cbn [nbind] in El.
    assert (Hans : l = map (fun i0 => {| ip := ia_ip i0; port := z; zone := ia_zone i0 |}) ans \/ (exists zn, ans = [{| ia_ip := repeat (byte_of 0) 16; ia_zone := zn |}]) /\ exists i, ans = [i] /\ l = map (fun i0 => {| ip := ia_ip i0; port := z; zone := ia_zone i0 |}) [i; {| ia_ip := v4zero; ia_zone := [] |}]).
    { destruct ans as [|i [|i2 ans]]; [discriminate| |injection El as <-; left; reflexivity]. destruct (beq (ia_ip i) v6zero) eqn:E0; [|injection El as <-; left; reflexivity].
      right. apply beq_eq in E0. split; [exists (ia_zone i); destruct i; cbn in *; subst; reflexivity|]. exists i. split; [reflexivity|]. injection El as <-. reflexivity. }
    destruct Hans as [->|(Hz0 & i & -> & ->)].
    + left. apply in_map_iff in Hin as (j & <- & Hj). destruct j. exact Hj.
    + apply in_map_iff in Hin as (j & <- & [<-|[<-|[]]]); [left; left; destruct i; reflexivity|right; split; [exact Hz0|reflexivity]].
Qed.

(** C125: whatever a bootstrap host is resolved to comes from the configured text: it must read host:port or
    [host]:port; the port is the one written; the IP is the one written if the host is a literal address, and otherwise
    one of the name service's answers for exactly that host (for the answer ::, also 0.0.0.0).  Without a host, the address has no IP; an empty text gives no IP and
    port 0. *)
Lemma C125_where_pf : forall nm h a, boot_resolve nm h = Some a ->
  (h = [] /\ a = mkaddr [] 0) \/
  exists host p, endpoint h host p /\ (0 <= port a <= 65535)%Z /\ (forall z, (0 <= z <= 65535)%Z -> p = itoa z -> port a = z) /\
   ((host = [] /\ ip a = [] /\ zone a = []) \/
    ip_literal host (ip a) (zone a) \/
    ((forall i z, ~ ip_literal host i z) /\ exists l, nm_host nm host = Some l /\ (In {| ia_ip := ip a; ia_zone := zone a |} l \/ (exists z, l = [{| ia_ip := repeat (byte_of 0) 16; ia_zone := z |}]) /\ ip a = wide (repeat (byte_of 0) 4)))).
Proof.
  intros nm h a H. apply where_raw in H as [H|(host & p & He & Hp & Hz & H)]; [left; exact H|]. right. exists host, p. split; [exact He|]. split; [exact Hp|]. split; [exact Hz|].
  destruct H as [H|[(b & Hb & -> & ->)|(Hn & H)]]; [left; exact H|right; left; apply literal_iff; exact Hb|right; right; split; [apply literal_none; exact Hn|exact H]].
Qed.

(** C125: a literal address - the address of a running node as the log shows it - is used as it is, whatever the name
    service says. *)
Lemma C125_literal_pf : forall nm a, sock_addr a -> boot_resolve nm (addr_string a) = Some (widened a).
Proof. intros nm a Ha. unfold boot_resolve. rewrite C123_read_back_pf by exact Ha. reflexivity. Qed.

Lemma prefers_ipv4_raw : forall nm host z l1 i l2, Forall (fun c => c <> ":"%char /\ c <> "["%char /\ c <> "]"%char) host -> host <> [] -> parseIPZone host = None -> (0 <= z <= 65535)%Z ->
  nm_host nm host = Some (l1 ++ i :: l2) -> Forall (fun j => length (ia_ip j) = 4 \/ length (ia_ip j) = 16) (l1 ++ i :: l2) -> Forall (fun j => ~ is_v4 (ia_ip j)) l1 -> is_v4 (ia_ip i) ->
  boot_resolve nm (host ++ B ":" ++ itoa z) = Some {| ip := ia_ip i; port := z; zone := ia_zone i |}.
Proof.
  intros nm host z l1 i l2 Hh Hne Hp Hz Hn Hl H1 Hi. unfold boot_resolve, ResolveUDPAddr, internetAddrList.
  assert (Hs : SplitHostPort (host ++ B ":" ++ itoa z) = NOk (host, itoa z)) by (apply split_plain; apply Forall_app; split; [exact Hh|apply FetchTorrentPf.itoa_host]).
  assert (Hb : existsb (fun c => Ascii.eqb c "[") (host ++ B ":" ++ itoa z) = false).
  { destruct (existsb _ _) eqn:E; [|reflexivity]. apply existsb_exists in E as (c & Hin & Hc). apply Ascii.eqb_eq in Hc. subst c. apply in_app_or in Hin as [Hin|Hin].
    - rewrite Forall_forall in Hh. destruct (Hh _ Hin) as (_ & H & _). congruence.
    - apply in_app_or in Hin as [[Hin|[]]|Hin]; [discriminate|]. pose proof (FetchTorrentPf.itoa_host z) as Ht. rewrite Forall_forall in Ht. destruct (Ht _ Hin) as (_ & H & _). congruence. }
  unfold forResolve. rewrite Hb. destruct (host ++ B ":" ++ itoa z) as [|s0 s] eqn:Es; [destruct host; discriminate|]. rewrite Hs. cbn [nbind fst snd]. rewrite lookup_small by exact Hz. cbn [nbind fst snd].
  destruct host as [|c host]; [congruence|]. unfold lookupIPAddr. rewrite Hp, Hn. cbn [nbind].
  assert (H4 : forall j, length (ia_ip j) = 4 \/ length (ia_ip j) = 16 -> (beq (To4 (ia_ip j)) [] = true <-> ~ is_v4 (ia_ip j))).
  { intros j [Hj|Hj]; unfold is_v4, To4; rewrite Hj; cbn [Nat.eqb andb].
    - split; [|intros H; elim H; left; reflexivity]. intros E. apply beq_eq in E. rewrite E in Hj. discriminate.
    - fold v4prefix. destruct (beq (firstn 12 (ia_ip j)) v4prefix) eqn:E.
      + apply beq_eq in E. split; [|intros H; elim H; right; split; [reflexivity|exact E]]. intros E2. apply beq_eq in E2. apply (f_equal (@length _)) in E2. rewrite List.skipn_length, Hj in E2. discriminate.
      + split; [|reflexivity]. intros _ [H|[_ H]]; [discriminate|]. apply beq_neq in E. contradiction. }
  set (lst := l1 ++ i :: l2) in *. assert (Hi16 : length (ia_ip i) = 4 \/ length (ia_ip i) = 16) by (rewrite Forall_forall in Hl; apply Hl; apply in_or_app; right; left; reflexivity).
  assert (Hbi : beq (To4 (ia_ip i)) [] = false) by (destruct (beq (To4 (ia_ip i)) []) eqn:E; [|reflexivity]; apply (proj1 (H4 i Hi16) E) in Hi; destruct Hi).
  assert (Hsame : (match lst with [i0] => if beq (ia_ip i0) v6zero then [i0; {| ia_ip := v4zero; ia_zone := [] |}] else lst | _ => lst end) = lst).
  { unfold lst. destruct l1 as [|j l1]; cbn [app]; [|destruct l1; reflexivity]. destruct l2; [|reflexivity]. destruct (beq (ia_ip i) v6zero) eqn:E0; [|reflexivity].
    apply beq_eq in E0. rewrite E0 in Hbi. discriminate. }
  rewrite Hsame. unfold first_such. set (mk := fun i0 => {| ip := ia_ip i0; port := z; zone := ia_zone i0 |}).
  assert (Hfil : forall pre, Forall (fun j => ~ is_v4 (ia_ip j)) pre -> Forall (fun j => length (ia_ip j) = 4 \/ length (ia_ip j) = 16) pre -> filter addr4 (map mk (pre ++ i :: l2)) = mk i :: filter addr4 (map mk l2)).
  { induction pre as [|j pre IH]; intros Hv Hlen; cbn [app map filter].
    - unfold addr4 at 1. cbn [ip mk]. unfold mk at 1. cbn [ip]. rewrite Hbi. reflexivity.
    - inversion Hv as [|? ? Hj Hv']; subst. inversion Hlen as [|? ? Hjl Hlen']; subst. unfold addr4 at 1. unfold mk at 1. cbn [ip]. rewrite (proj2 (H4 j Hjl) Hj). cbn [negb]. apply IH; assumption. }
  assert (Hlst : filter addr4 (map mk lst) = mk i :: filter addr4 (map mk l2)) by (apply Hfil; [exact H1|apply Forall_app in Hl; tauto]).
  destruct lst as [|j lst'] eqn:El; [destruct l1; discriminate|]. cbn [nbind]. rewrite Hlst. reflexivity.
Qed.

(** C125: a name with a port is given its first IPv4 answer, if it has one. *)
Lemma C125_prefers_ipv4_pf : forall nm host z l1 i l2, Forall (fun c => c <> ":"%char /\ c <> "["%char /\ c <> "]"%char) host -> host <> [] -> (forall j zn, ~ ip_literal host j zn) -> (0 <= z <= 65535)%Z ->
  nm_host nm host = Some (l1 ++ i :: l2) -> Forall (fun j => length (ia_ip j) = 4 \/ length (ia_ip j) = 16) (l1 ++ i :: l2) -> Forall (fun j => ~ is_v4 (ia_ip j)) l1 -> is_v4 (ia_ip i) ->
  boot_resolve nm (host ++ B ":" ++ itoa z) = Some {| ip := ia_ip i; port := z; zone := ia_zone i |}.
Proof. intros nm host z l1 i l2 Hh Hne Hp. apply prefers_ipv4_raw; [exact Hh|exact Hne|apply literal_none; exact Hp]. Qed.

(** C125: a literal address can be written in any of its spellings (leading zeros, either case, "::" or not, an IPv4
    tail, a zone), and is used as it is. *)
Lemma C125_spelling_pf : forall nm h host i zn z, endpoint h host (itoa z) -> (0 <= z <= 65535)%Z -> ip_literal host i zn ->
  boot_resolve nm h = Some {| ip := i; port := z; zone := zn |}.
Proof.
  intros nm h host i zn z He Hz Hl. pose proof (proj2 (C124_endpoint_pf _ _ _) He) as Hs. pose proof (proj2 (literal_iff host {| ia_ip := i; ia_zone := zn |}) Hl) as Hp.
  destruct (boot_resolve nm h) as [a|] eqn:E.
  - apply where_raw in E as [[-> ->]|(host' & p' & He' & _ & Hport & Hw)]; [discriminate Hs|]. apply C124_endpoint_pf in He'. rewrite Hs in He'. injection He' as <- <-.
    specialize (Hport z Hz eq_refl). destruct Hw as [(-> & _)|[(b & Hb & E1 & E2)|(Hn & _)]]; [discriminate Hp| |congruence].
    rewrite Hp in Hb. injection Hb as <-. cbn [ia_ip ia_zone] in *. destruct a as [i' p' z']; cbn [ip port zone] in *. congruence.
  - exfalso. unfold boot_resolve, ResolveUDPAddr in E. destruct h as [|h0 h]; [discriminate|]. unfold internetAddrList in E. rewrite Hs in E. cbn [nbind fst snd] in E. rewrite lookup_small in E by exact Hz. cbn [nbind fst snd] in E.
    destruct host as [|c host]; [discriminate|]. unfold lookupIPAddr in E. rewrite Hp in E. cbn [nbind ia_ip] in E.
    destruct (beq i v6zero); cbn [nbind map] in E; unfold forResolve, first_such in E; destruct (existsb _ _) in E; cbn [filter] in E; repeat match type of E with context [if ?c then _ else _] => destruct c end; discriminate.
Qed.

(** C125: a host without a port keeps the crawler from starting: the process crashes, and nobody after it in the list is
    contacted. *)
Lemma C125_no_port_pf : forall v uf nm l1 h l2, runtime_ok (su_env v) uf -> su_resolve v = boot_resolve nm -> hosts_configured v (l1 ++ h :: l2) ->
  h <> [] -> ~ In ":"%char h ->
  (exists p, snd (process v CmdCrawl) = Crashed p) /\ length (queries (fst (process v CmdCrawl))) <= length l1 /\ ~ In EfRun (fst (process v CmdCrawl)).
Proof.
  intros v uf nm l1 h l2 Hrt Hr Hh Hne Hc. apply (C105_bad_host_pf v uf l1 h l2 Hrt Hh). rewrite Hr. destruct (boot_resolve nm h) as [a|] eqn:E; [|reflexivity].
  exfalso. apply C125_where_pf in E as [[E _]|(host & p & He & _)]; [contradiction|]. apply Hc. clear - He. destruct He; apply in_or_app; right; [left|apply in_or_app; right; right; left]; reflexivity.
Qed.

(** C125: a first start, with the default configuration, needs no name service: it sends its one query to 87.98.162.88:6881,
    whatever names there are. *)
Lemma C125_defaults_pf : forall v uf nm effs w port z, runtime_ok (su_env v) uf -> su_resolve v = boot_resolve nm -> su_file v = CfMissing true ->
  process v CmdCrawl = (effs, Crawling w port z) ->
  map g_to (queries effs) = [mkaddr (wide (map byte_of [87; 98; 162; 88]%N)) 6881] /\ port = 21000%Z.
Proof.
  intros v uf nm effs w port z Hrt Hr Hf E. destruct (C105_started_pf v uf effs w port z Hrt E) as (d & f & lvl & pp & hosts & gs & [(c & Hc & Hd & _) _ _] & [_ Hh _ _] & Hp & _ & _ & _ & Hb & He & _).
  unfold in_force in Hc. rewrite Hf in Hc. injection Hc as <-. cbn [cn_dht defaults] in Hd. injection Hd as <-. cbn [ds_nodes] in Hh.
  inversion Hh as [|? a ? hs Ha Hh2]; subst. inversion Hh2; subst. rewrite Hr in Ha.
  assert (Ea : boot_resolve nm (B "87.98.162.88:6881") = Some (mkaddr (wide (map byte_of [87; 98; 162; 88]%N)) 6881)) by (vm_compute; reflexivity).
  change (boot_resolve nm (B "87.98.162.88:6881") = Some a) in Ha. rewrite Ea in Ha. injection Ha as <-. split; [|vm_compute; reflexivity].
  inversion Hb as [|? ? ? g ? Hg _ Hb2]; subst. inversion Hb2; subst. rewrite Hf. destruct pp; cbn [app queries flat_map map]; rewrite Hg; reflexivity.
Qed.

(** C125: the cases occur: names, a name without port, two answers. *)
Definition ex_names : names :=
  {| nm_host := fun h => if beq h (B "router.example") then Some [{| ia_ip := repeat (byte_of 1) 16; ia_zone := [] |}; {| ia_ip := map byte_of [10; 0; 0; 9]%N; ia_zone := [] |}] else None;
     nm_service := fun s => if beq s (B "http") then Some 80%Z else None |}.
Lemma C125_example_pf :
  boot_resolve ex_names (B "router.example:6881") = Some (mkaddr (map byte_of [10; 0; 0; 9]%N) 6881) /\
  boot_resolve ex_names (B "[router.example]:6881") = Some (mkaddr (repeat (byte_of 1) 16) 6881) /\
  boot_resolve ex_names (B "router.example") = None /\ boot_resolve ex_names (B "nosuch:6881") = None /\ boot_resolve ex_names (B "router.example:99999") = None /\
  boot_resolve ex_names (B "router.example:http") = Some (mkaddr (map byte_of [10; 0; 0; 9]%N) 80) /\
  boot_resolve ex_names [] = Some (mkaddr [] 0) /\
  boot_resolve ex_names (B "010.0.0.009:80") = Some (mkaddr (wide (map byte_of [10; 0; 0; 9]%N)) 80) /\
  boot_resolve ex_names (B "[1:02::FfFF:10.0.0.9%eth0]:80") = Some {| ip := map byte_of [0; 1; 0; 2; 0; 0; 0; 0; 0; 0; 255; 255; 10; 0; 0; 9]%N; port := 80; zone := B "eth0" |} /\
  boot_resolve ex_names (B "10.0.0.256:80") = None /\ boot_resolve ex_names (B "[1::2::3]:80") = None /\
  ip_literal (B "1::10.0.0.9%e") (map byte_of [0; 1; 0; 0; 0; 0; 0; 0; 0; 0; 0; 0; 10; 0; 0; 9]%N) (B "e") /\ (forall i z, ~ ip_literal (B "10.0.0.256") i z) /\
  (exists v effs w port z, su_resolve v = boot_resolve ex_names /\ runtime_ok (su_env v) (fun _ _ => false) /\ su_file v = CfMissing true /\ process v CmdCrawl = (effs, Crawling w port z)).
Proof.
  do 11 (split; [vm_compute; reflexivity|]). split; [apply (proj1 (literal_iff _ {| ia_ip := _; ia_zone := _ |})); vm_compute; reflexivity|]. split; [apply literal_none; vm_compute; reflexivity|].
  exists {| su_file := CfMissing true; su_flag := []; su_named := fun _ => None; su_can_listen := fun _ => true; su_resolve := boot_resolve ex_names; su_env := fun _ => KrpcPf.ex_env; su_uni := fun s => s;
    su_fs := {| TorrentCmd.f_isdir := fun _ => false; TorrentCmd.f_readdir := fun _ => None; TorrentCmd.f_read := fun _ => TorrentCmd.FrOpenErr; TorrentCmd.f_join := fun a b => a ++ b |} |}.
  match goal with |- exists _ _ _ _, _ /\ _ /\ _ /\ process ?V _ = _ => set (v := V) end.
  assert (Hrt : runtime_ok (su_env v) (fun _ _ => false)) by (intros k; split; [exact KrpcPf.ex_env_ok|reflexivity]).
  destruct (proj2 (C105_starts_iff_pf v _ Hrt)) as (effs & w & port & z & E).
  - do 4 eexists. exists [mkaddr (wide (map byte_of [87; 98; 162; 88]%N)) 6881]. split.
    + split; [exists defaults; repeat split|split; [vm_compute; split; discriminate|reflexivity]|cbn; lia].
    + split; [exists defaults; split; reflexivity|constructor; [vm_compute; reflexivity|constructor]|intros i _; reflexivity|cbn; lia].
  - exists effs, w, port, z. split; [reflexivity|]. split; [exact Hrt|]. split; [reflexivity|exact E].
Qed.
