(** CrawlPf.v -- C109: how far the crawl reaches. *)
From Verif Require Import Base GoLib Bencode BencodeSpec BencodeProofs BencodePf Types TypesPf Node NodePf RouteTable RouteTableProofs RouteTablePf Middleware Krpc KrpcSpec KrpcPf Dht DhtSpec DhtPf Conc ConcSpec ConcProofs ConcPf CrawlSpec CrawlProofs.
Local Open Scope list_scope.

(** C109: however many packets arrive and however they are interleaved, the handlers of one process
    send find_node queries to at most 8 * 161 different addresses. *)
Lemma C109_reach_bounded_pf : forall e uf me port hosts cap s, runtime_ok e uf -> length me = 20 -> conc_reach e me (mkaddr [] port) hosts cap s ->
  (exists addrs, length addrs <= 8 * 161 /\ incl (contacted (k_log s)) addrs) /\
  (forall l, NoDup l -> incl l (contacted (k_log s)) -> length l <= 8 * 161).
Proof.
  intros e uf me port hosts cap s Hrt Hme Hr. destruct (reach_covered _ _ _ _ _ _ _ Hrt Hme Hr) as (al & Hal & Hlen).
  destruct (C90_table_any_schedule_pf _ _ _ _ _ _ _ Hrt Hr) as (_ & Hmax & _). fold (table s) in Hmax.
  assert (Hb : length al <= 8 * 161) by (destruct Hlen as [H|[_ H]]; lia).
  assert (Hin : incl (contacted (k_log s)) al) by (intros a Ha; apply Hal; eapply contacted_accepted; eassumption).
  split; [exists al; auto|]. intros l Hnd Hl. pose proof (NoDup_incl_length Hnd (incl_tran Hl Hin)). lia.
Qed.

(** C109: once eight nodes that share exactly i < 160 bits with the local id are stored, no other node
    at that distance is ever accepted, whatever arrives later. *)
Lemma C109_distance_exhausted_pf : forall e uf me local hosts cap s s' i, runtime_ok e uf -> length me = 20 -> conc_reach e me local hosts cap s ->
  i < 160 -> held me s i = 8 -> conc_steps e me cap s s' ->
  held me s' i = 8 /\ forall n, shared_bits me n = i -> (In n (accepted (k_log s')) <-> In n (accepted (k_log s))).
Proof.
  intros e uf me local hosts cap s s' i Hrt Hme Hr Hi Hh Hs. induction Hs as [s|s s1 s2 Hs IH Hst]; [split; [exact Hh|reflexivity]|].
  destruct (IH Hr Hh) as [IH1 IH2]. pose proof (steps_reach _ _ _ _ _ _ _ Hr Hs) as Hr1. clear IH.
  destruct (step_cases _ _ _ _ _ _ Hrt Hst) as [[Et Ea]|(j & n & er & Ea & El)]; [unfold held; rewrite Et, Ea; auto|].
  destruct (C90_table_any_schedule_pf _ _ _ _ _ _ _ Hrt Hr1) as (Hreach & _ & _ & _). fold (table s1) in Hreach.
  destruct (held_bucket _ _ _ _ _ Hreach Hme Hi IH1) as [Hlt Hb].
  destruct (C26_no_eviction_pf _ _ _ _ _ Hreach) as [Hperm _].
  assert (Hhe : forall l l', Permutation l l' -> length (filter (fun n => Nat.eqb (shared_bits me n) i) l) = length (filter (fun n => Nat.eqb (shared_bits me n) i) l')).
  { intros l l' P. induction P as [|x l l' P IH|x y l|l l' l'' P IH P' IH']; [reflexivity| | |congruence]; cbn [filter].
    - destruct (_ =? i); cbn [length]; congruence.
    - destruct (shared_bits me y =? i), (shared_bits me x =? i); reflexivity. }
  assert (Hno : shared_bits me n = i -> er <> None). { intros <-. eapply full_refuses; eassumption. }
  destruct (Nat.eq_dec (shared_bits me n) i) as [E|E].
  - specialize (Hno E). destruct (C27_add_result_pf _ _ _ _ _ _ _ _ Hreach Ea) as (Herr & _). split; [unfold held; rewrite (Herr Hno); exact IH1|].
    intros m Hm. rewrite El, accepted_app. destruct er as [er|]; [|congruence]. change (accepted [(j, EvAdd n false)]) with (@nil ninfo). rewrite app_nil_r. apply IH2. exact Hm.
  - split.
    + unfold held. destruct (Hperm _ _ _ Ea) as [P|P]; rewrite (Hhe _ _ P); [exact IH1|]. cbn [filter]. destruct (Nat.eqb_spec (shared_bits me n) i); [contradiction|exact IH1].
    + intros m Hm. rewrite El, accepted_app, in_app_iff, IH2 by exact Hm. split; [|auto]. intros [H|H]; [exact H|].
      destruct er; cbn in H; [contradiction|]. destruct H as [->|[]]. contradiction.
Qed.

(** C109: once the table holds 8 * 161 nodes it never changes again, no node is accepted any more, and
    the handlers send no more queries than they still owe to nodes accepted before. *)
Lemma C109_frozen_pf : forall e uf me local hosts cap s s', runtime_ok e uf -> conc_reach e me local hosts cap s ->
  length (stored (table s)) = 8 * 161 -> conc_steps e me cap s s' ->
  table s' = table s /\ accepted (k_log s') = accepted (k_log s) /\
  length (contacted (k_log s')) <= length (accepted (k_log s)) /\
  (length (contacted (k_log s)) = length (accepted (k_log s)) -> contacted (k_log s') = contacted (k_log s)).
Proof.
  intros e uf me local hosts cap s s' Hrt Hr Hfull Hs.
  assert (H : table s' = table s /\ accepted (k_log s') = accepted (k_log s)).
  { induction Hs as [s|s s1 s2 Hs IH Hst]; [auto|]. destruct (IH Hr Hfull) as [IH1 IH2]. pose proof (steps_reach _ _ _ _ _ _ _ Hr Hs) as Hr1.
    destruct (step_cases _ _ _ _ _ _ Hrt Hst) as [[Et Ea]|(j & n & er & Ea & El)]; [rewrite Et, Ea; auto|].
    destruct (C90_table_any_schedule_pf _ _ _ _ _ _ _ Hrt Hr1) as (Hreach & _). fold (table s1) in Hreach.
    destruct (full_refuses_all _ _ _ _ _ _ Hreach ltac:(rewrite IH1; exact Hfull) Ea) as [He ->]. split; [exact IH1|].
    rewrite El, accepted_app. destruct er as [er|]; [|congruence]. change (accepted [(j, EvAdd n false)]) with (@nil ninfo). rewrite app_nil_r. exact IH2. }
  destruct H as [H1 H2]. pose proof (queries_le_accepted _ _ _ _ _ _ (steps_reach _ _ _ _ _ _ _ Hr Hs)) as Hq.
  split; [exact H1|]. split; [exact H2|]. rewrite H2 in Hq. split; [lia|]. intros E. destruct (steps_log _ _ _ _ _ Hs) as (more & El). rewrite El, contacted_app, app_length in Hq.
  rewrite El, contacted_app. destruct (contacted more); [apply app_nil_r|cbn in Hq; lia].
Qed.

(** C109: nothing remembers which node was asked.  A response to any earlier query that lists nodes
    which are in the table already, in buckets with room, is followed by one new query to each of them;
    handled one after the other, any number of such responses cause that many queries, and the table
    holds what it held before. *)
Lemma C109_asked_again_pf : forall e uf me local hosts cap s, runtime_ok e uf -> conc_reach e me local hosts cap s ->
  let self := {| nid := me; naddr := local |} in
  forall answers, Forall (fun r => exists tx, lists_nodes (fst r) tx (snd r) /\ w_reqs (k_world s) tx <> None /\
    forall n, In n (snd r) -> In n (stored (table s)) /\ length (bucket_nodes (table s) (home_of self (table s) (nid n))) < 8) answers ->
  exists s', conc_steps e me cap s s' /\ k_next s' = k_next s + length answers /\
    contacted (k_log s') = contacted (k_log s) ++ map naddr (concat (map snd answers)) /\ stored (table s') = stored (table s).
Proof.
  intros e uf me local hosts cap s Hrt Hr self answers Ha.
  assert (Ha' : Forall (fun r => exists tx, lists_nodes (fst r) tx (snd r) /\ w_reqs (k_world s) tx <> None /\ Forall (known_node (table s)) (snd r)) answers).
  { eapply Forall_impl; [|exact Ha]. intros r (tx & H1 & H2 & H3). exists tx. split; [exact H1|]. split; [exact H2|]. apply Forall_forall. intros n Hn. destruct (H3 n Hn) as [H4 H5].
    destruct (C90_table_any_schedule_pf _ _ _ _ _ _ _ Hrt Hr) as (Hreach & _). fold (table s) self in Hreach.
    assert (Eh : home_of self (table s) (nid n) = solveMaxPreLen (table s) (nid n)) by (symmetry; exact (smpl_lcp _ _ _ _ _ (nid n) Hreach)). rewrite Eh in H5.
    split; [|exact H5]. apply (in_stored uf) in H4; [exact H4|eapply reach_inv; exact Hreach]. }
  clear Ha. revert s Hr Ha'. induction answers as [|[pk ns] t IH]; intros s Hr Ha.
  - exists s. cbn. rewrite app_nil_r. split; [constructor|]. split; [lia|]. auto.
  - inversion Ha as [|? ? (tx & H1 & H2 & H3) Ht]; subst. cbn [fst snd] in *.
    destruct (known_answer _ _ _ _ _ _ _ _ _ _ Hrt Hr H1 H2 H3) as (s1 & v & Hs1 & Hn1 & _ & El & Eq & _ & _ & _ & Hm & Est & Hkn & _).
    destruct (IH s1) as (s' & Hs' & Hn' & Ec & Est').
    + eapply steps_reach; eassumption.
    + eapply Forall_impl; [|exact Ht]. intros r (tx' & G1 & G2 & G3). exists tx'. split; [exact G1|]. split; [apply Hm; exact G2|]. eapply Forall_impl; [|exact G3]. exact Hkn.
    + exists s'. split. { clear - Hs1 Hs'. induction Hs' as [|a b c Hs' IH Hst]; [exact Hs1|]. eapply kst_step; [apply IH; exact Hs1|exact Hst]. }
      assert (Ec1 : contacted (map (pair (k_next s)) (EvStart pk :: v ++ [EvEnd])) = map naddr ns).
      { unfold contacted. rewrite map_map. change (map (fun x : ev => snd (k_next s, x)) (EvStart pk :: v ++ [EvEnd])) with (map id (EvStart pk :: v ++ [EvEnd])). rewrite map_id.
        change (queries_in (EvStart pk :: v ++ [EvEnd])) with (queries_in (v ++ [EvEnd])). rewrite queries_app, app_nil_r. exact Eq. }
      split; [cbn [length]; lia|]. split; [|congruence]. rewrite Ec, El, contacted_app, Ec1, <- app_assoc. cbn [map concat snd]. rewrite map_app. reflexivity.
Qed.
(** ** Examples and refutations *)

(** An attacker's node list: eight for each number of shared bits below 159, eight with the crawler's own id, eight that differ from it in the last bit. *)
Definition flip_bit (j : nat) (s : bytes) : bytes := firstn (j / 8) s ++ match skipn (j / 8) s with c :: t => byte_of (N.lxor (bval c) (2 ^ (7 - N.of_nat (j mod 8)))) :: t | [] => [] end.
Definition flood_ids : list bytes := flat_map (fun j => repeat (flip_bit j ex_me) 8) (seq 0 159) ++ repeat ex_me 8 ++ repeat (flip_bit 159 ex_me) 8.
Definition flood_nodes : list ninfo := map (fun p => {| nid := fst p; naddr := mkaddr (v4 10 0 1 1) (Z.of_nat (snd p)) |}) (combine flood_ids (seq 1000 1288)).
Fixpoint chunks {X} (fuel n : nat) (l : list X) : list (list X) := match fuel, l with S f, _ :: _ => firstn n l :: chunks f n (skipn n l) | _, _ => [] end.
Definition answer_bytes (tx : bytes) (ns : list ninfo) : bytes :=
  B "d1:t4:" ++ tx ++ B "1:y1:r1:rd2:id20:zzzzzzzzzzzzzzzzzzzz5:nodes" ++ utoa (26 * N.of_nat (length ns)) ++ B ":" ++ joinNodeInfos ns ++ B "ee".
Definition flood_packets : list packet := map (fun ns => {| p_addr := ex_addr 1; p_bytes := answer_bytes (B "03e9") ns; p_buf := 0 |}) (chunks 100 37 flood_nodes).
Definition flood : list act := flat_map (fun pk => ABegin pk :: repeat (AJob 0) (3 + 4 * 37) ++ [AEnd 0]) (firstn 34 flood_packets) ++
  flat_map (fun pk => ABegin pk :: repeat (AJob 0) (3 + 4 * 30) ++ [AEnd 0]) (skipn 34 flood_packets).
Definition addr_eqb (a b : udpaddr) : bool := beq (ip a) (ip b) && (port a =? port b)%Z && beq (zone a) (zone b).
Lemma addr_eqb_ok a b : addr_eqb a b = true -> a = b.
Proof.
  destruct a as [i p z], b as [i' p' z']. unfold addr_eqb. cbn [ip port zone]. intros H. apply andb_true_iff in H as [H H3]. apply andb_true_iff in H as [H1 H2].
  apply beq_eq in H1, H3. apply Z.eqb_eq in H2. congruence.
Qed.
Fixpoint all_differ (l : list udpaddr) : bool := match l with [] => true | a :: t => negb (existsb (addr_eqb a) t) && all_differ t end.
Lemma all_differ_ok l : all_differ l = true -> NoDup l.
Proof.
  induction l as [|a l IH]; intros H; constructor; cbn [all_differ] in H; apply andb_true_iff in H as [H1 H2]; [|apply IH; exact H2].
  intros Hin. apply negb_true_iff in H1. assert (existsb (addr_eqb a) l = true); [|congruence]. apply existsb_exists. exists a. split; [exact Hin|].
  unfold addr_eqb. rewrite !beq_refl, Z.eqb_refl. reflexivity.
Qed.
Definition flood_check (s : conc) : bool :=
  (k_next s =? 35) && (length (stored (table s)) =? 8 * 161) && (length (contacted (k_log s)) =? length (accepted (k_log s))) && (length (contacted (k_log s)) =? 8 * 161) && all_differ (contacted (k_log s)) &&
  forallb (fun x => match snd x with EvStart pk => (length (p_bytes pk) <=? 1024) && addr_eqb (p_addr pk) (ex_addr 1) | _ => true end) (k_log s).
Lemma flood_checked : flood_check (ex_run 1 flood) = true.
Proof. vm_cast_no_check (eq_refl true). Qed.

Lemma flood_facts : exists s, conc_reach (fun _ => ex_env) ex_me (mkaddr [] 6881) [ex_addr 1] 1 s /\ k_next s = 35 /\
  (forall i pk, In (i, EvStart pk) (k_log s) -> p_addr pk = ex_addr 1 /\ length (p_bytes pk) <= 1024) /\
  length (stored (table s)) = 8 * 161 /\ length (contacted (k_log s)) = length (accepted (k_log s)) /\ length (contacted (k_log s)) = 8 * 161 /\ NoDup (contacted (k_log s)).
Proof.
  exists (ex_run 1 flood). pose proof (ex_run_reach 1 flood) as Hr. pose proof flood_checked as H. revert Hr H. generalize (ex_run 1 flood). intros s Hr H.
  unfold flood_check in H. apply andb_true_iff in H as [H H4]. apply andb_true_iff in H as [H H6]. apply andb_true_iff in H as [H H5]. apply andb_true_iff in H as [H H3]. apply andb_true_iff in H as [H1 H2].
  apply Nat.eqb_eq in H1, H2, H3, H5. apply all_differ_ok in H6. split; [exact Hr|]. split; [exact H1|]. split; [|auto].
  intros i pk Hin. rewrite forallb_forall in H4. specialize (H4 _ Hin). cbn [snd] in H4. apply andb_true_iff in H4 as [H7 H8]. apply Nat.leb_le in H7. apply addr_eqb_ok in H8. auto.
Qed.

(** C109: the bound of C109_reach_bounded is met exactly. *)
Lemma C109_bound_reached_pf : exists s, runtime_ok (fun _ => ex_env) (fun _ _ => false) /\ length ex_me = 20 /\
  conc_reach (fun _ => ex_env) ex_me (mkaddr [] 6881) [ex_addr 1] 1 s /\ NoDup (contacted (k_log s)) /\ length (contacted (k_log s)) = 8 * 161.
Proof. destruct flood_facts as (s & H1 & _ & _ & _ & _ & H2 & H3). exists s. split; [exact ex_runtime|]. auto. Qed.

(** C109 refuted for "the crawler goes on crawling": thirty-five datagrams of at most 1024 bytes from one
    address, all with the transaction id of the first query, fill the table; from then on, whatever
    arrives, no table entry changes and no query is sent to anyone. *)
Lemma C109_keeps_crawling_refuted_pf : exists s, conc_reach (fun _ => ex_env) ex_me (mkaddr [] 6881) [ex_addr 1] 1 s /\ k_next s = 35 /\
  (forall i pk, In (i, EvStart pk) (k_log s) -> p_addr pk = ex_addr 1 /\ length (p_bytes pk) <= 1024) /\
  length (stored (table s)) = 8 * 161 /\
  forall s', conc_steps (fun _ => ex_env) ex_me 1 s s' -> table s' = table s /\ contacted (k_log s') = contacted (k_log s).
Proof.
  destruct flood_facts as (s & Hr & H1 & H4 & H2 & H3 & _). exists s. split; [exact Hr|]. split; [exact H1|]. split; [exact H4|]. split; [exact H2|].
  intros s' Hs. destruct (C109_frozen_pf _ _ _ _ _ _ _ _ ex_runtime Hr H2 Hs) as (E1 & _ & _ & E2). split; [exact E1|apply E2; exact H3].
Qed.

(** A network of six nodes, each of which answers with all six. *)
Definition six : list ninfo := map (fun a => {| nid := repeat (byte_of (N.of_nat a)) 20; naddr := mkaddr (v4 10 0 2 (N.of_nat a)) 6881 |}) (seq 1 6).
Definition six_answer (tx : bytes) : packet := {| p_addr := ex_addr 1; p_bytes := answer_bytes tx six; p_buf := 0 |}.
(** The hypotheses of C109_distance_exhausted are met: twenty-four nodes of the list above, eight of which
    share no bit with the local id. *)
Lemma C109_distance_example_pf : exists s, conc_reach (fun _ => ex_env) ex_me (mkaddr [] 6881) [ex_addr 1] 1 s /\ held ex_me s 0 = 8 /\ held ex_me s 1 = 8 /\ held ex_me s 159 = 0 /\ length (accepted (k_log s)) = 24.
Proof. exists (ex_run 1 (ABegin (hd (six_answer []) flood_packets) :: repeat (AJob 0) (2 + 4 * 24))). split; [apply ex_run_reach|]. vm_compute. auto. Qed.

Lemma six_lists tx : length tx = 4 -> lists_nodes (six_answer tx) tx six.
Proof.
  intros H. destruct tx as [|a [|b [|c [|d [|? ?]]]]]; try discriminate H.
  eexists _, _, _, _. split; [eexists; vm_compute; reflexivity|]. repeat (split; [vm_compute; reflexivity|]). vm_compute. reflexivity.
Qed.
Lemma txid_len v : length (txid_string v) = 4.
Proof. reflexivity. Qed.
Definition storm_start : conc := ex_run 1 (ABegin (six_answer (B "03e9")) :: repeat (AJob 0) (3 + 4 * 6) ++ [AEnd 0]).
Lemma storm_known : Forall (known_node (table storm_start)) six.
Proof.
  assert (H : forallb (fun n => existsb (fun m => beq (nid m) (nid n) && addr_eqb (naddr m) (naddr n)) (bucket_nodes (table storm_start) (solveMaxPreLen (table storm_start) (nid n))) &&
    (length (bucket_nodes (table storm_start) (solveMaxPreLen (table storm_start) (nid n))) <? 8)) six = true) by (vm_compute; reflexivity).
  revert H. generalize (table storm_start). intros t H. apply Forall_forall. intros n Hn. rewrite forallb_forall in H. specialize (H n Hn). apply andb_true_iff in H as [H1 H2].
  apply Nat.ltb_lt in H2. split; [|exact H2]. apply existsb_exists in H1 as (m & Hm & E). apply andb_true_iff in E as [E1 E2]. apply beq_eq in E1. apply addr_eqb_ok in E2.
  destruct m as [i a], n as [i' a']. cbn [nid naddr] in *. subst. exact Hm.
Qed.

(** C109 refuted for "the crawl of a finite network comes to rest": in a network of six other nodes, where
    the i-th query is answered once, by a list of the six, every answer is followed by six more queries;
    after N + 1 answers 6 * (N + 1) queries were sent, for every N, and the table still holds seven nodes. *)
Lemma C109_comes_to_rest_refuted_pf : forall N, exists s, conc_reach (fun _ => ex_env) ex_me (mkaddr [] 6881) [ex_addr 1] 1 s /\ k_next s = S N /\ k_jobs s = [] /\
  (forall i pk, In (i, EvStart pk) (k_log s) -> exists tx, nth_error (B "03e9" :: drawn_in (map snd (k_log s))) i = Some tx /\ lists_nodes pk tx six) /\
  length (stored (table s)) = 7 /\ length (contacted (k_log s)) = 6 * S N.
Proof.
  assert (H : forall N, exists s, conc_reach (fun _ => ex_env) ex_me (mkaddr [] 6881) [ex_addr 1] 1 s /\ k_next s = S N /\ k_jobs s = [] /\
    (forall i pk, In (i, EvStart pk) (k_log s) -> exists tx, nth_error (B "03e9" :: drawn_in (map snd (k_log s))) i = Some tx /\ lists_nodes pk tx six) /\
    length (stored (table s)) = 7 /\ length (contacted (k_log s)) = 6 * S N /\
    Forall (known_node (table s)) six /\ length (drawn_in (map snd (k_log s))) = 6 * S N /\ (forall tx, In tx (drawn_in (map snd (k_log s))) -> w_reqs (k_world s) tx <> None)).
  { induction N as [|N IH].
    - exists storm_start. split; [apply ex_run_reach|]. split; [vm_compute; reflexivity|]. split; [vm_compute; reflexivity|]. split.
      { assert (Hf : forallb (fun x => match snd x with EvStart pk => Nat.eqb (fst x) 0 | _ => true end) (k_log storm_start) = true) by (vm_compute; reflexivity).
        assert (Hf2 : flat_map (fun x => match snd x with EvStart pk => [pk] | _ => [] end) (k_log storm_start) = [six_answer (B "03e9")]) by (vm_compute; reflexivity).
        revert Hf Hf2. generalize (k_log storm_start). intros l Hf Hf2 i pk Hin. rewrite forallb_forall in Hf. specialize (Hf _ Hin). cbn [fst snd] in Hf. apply Nat.eqb_eq in Hf. subst i.
        assert (Hpk : In pk [six_answer (B "03e9")]). { rewrite <- Hf2. apply in_flat_map. exists (0, EvStart pk). split; [exact Hin|left; reflexivity]. }
        destruct Hpk as [<-|[]]. exists (B "03e9"). split; [reflexivity|]. apply six_lists. reflexivity. }
      split; [vm_compute; reflexivity|]. split; [vm_compute; reflexivity|]. split; [exact storm_known|]. split; [vm_compute; reflexivity|].
      assert (Hf : forallb (fun tx => match w_reqs (k_world storm_start) tx with None => false | Some _ => true end) (drawn_in (map snd (k_log storm_start))) = true) by (vm_compute; reflexivity).
      intros tx Hin. rewrite forallb_forall in Hf. specialize (Hf _ Hin). destruct (w_reqs _ _); [discriminate|discriminate Hf].
    - destruct IH as (s & Hr & Hn & Hj & Hst & Hlen & Hc & Hk & Hd & Hdk).
      destruct (nth_error (drawn_in (map snd (k_log s))) N) as [tx|] eqn:Etx; [|apply nth_error_None in Etx; lia].
      assert (Htx4 : length tx = 4).
      { destruct (C88_ids_any_schedule_pf _ _ _ _ _ _ _ ex_runtime Hr) as [E _]. rewrite E in Etx. apply nth_error_In in Etx. apply in_map_iff in Etx as (k & <- & _). apply txid_len. }
      destruct (known_answer _ _ _ _ _ _ _ (six_answer tx) tx six ex_runtime Hr (six_lists tx Htx4) (Hdk _ (nth_error_In _ _ Etx)) Hk) as (s1 & v & Hs1 & Hn1 & Hj1 & El & Eq & _ & Edl & Hdk1 & Hm & Est & Hkn & Hnv).
      exists s1.
      assert (Esnd : map snd (k_log s1) = map snd (k_log s) ++ EvStart (six_answer tx) :: v ++ [EvEnd]).
      { rewrite El, map_app, map_map. f_equal. change (map (fun x : ev => snd (k_next s, x)) (EvStart (six_answer tx) :: v ++ [EvEnd])) with (map id (EvStart (six_answer tx) :: v ++ [EvEnd])). apply map_id. }
      assert (Ed : drawn_in (map snd (k_log s1)) = drawn_in (map snd (k_log s)) ++ drawn_in v).
      { rewrite Esnd, drawn_app. f_equal. change (drawn_in (EvStart (six_answer tx) :: v ++ [EvEnd])) with (drawn_in (v ++ [EvEnd])). rewrite drawn_app. apply app_nil_r. }
      split; [eapply steps_reach; eassumption|]. split; [lia|]. split; [congruence|]. split.
      { intros i pk Hin. rewrite Ed. rewrite El in Hin. apply in_app_iff in Hin as [Hin|Hin].
        - destruct (Hst _ _ Hin) as (tx' & E & Hl). exists tx'. split; [|exact Hl]. change (B "03e9" :: drawn_in (map snd (k_log s)) ++ drawn_in v) with ((B "03e9" :: drawn_in (map snd (k_log s))) ++ drawn_in v).
          rewrite nth_error_app1; [exact E|]. apply nth_error_Some. congruence.
        - apply in_map_iff in Hin as (w & E & Hin). injection E as <- ->. rewrite Hn.
          destruct Hin as [E|Hin]; [|apply in_app_iff in Hin as [Hin|[E|[]]]; [elim (Hnv _ Hin)|discriminate E]]. injection E as <-.
          exists tx. split; [|apply six_lists; exact Htx4]. cbn [nth_error]. rewrite nth_error_app1; [exact Etx|]. lia. }
      split; [congruence|]. split.
      { unfold contacted. rewrite Esnd, queries_app, map_app. change (queries_in (EvStart (six_answer tx) :: v ++ [EvEnd])) with (queries_in (v ++ [EvEnd])). rewrite queries_app, app_nil_r, Eq, app_length.
        unfold contacted in Hc. rewrite Hc, map_length. change (length six) with 6. lia. }
      split; [eapply Forall_impl; [|exact Hk]; exact Hkn|]. split; [rewrite Ed, app_length, Hd, Edl; change (length six) with 6; lia|].
      intros tx' Hin. rewrite Ed in Hin. apply in_app_iff in Hin as [Hin|Hin]; [apply Hm, Hdk, Hin|apply Hdk1, Hin]. }
  intros N. destruct (H N) as (s & H1 & H2 & H3 & H4 & H5 & H6 & _). exists s. auto 10.
Qed.
