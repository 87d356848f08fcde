(** SharePf.v -- C112: downloads that share the buffer pool. *)
From Verif Require Import Base GoLib Bencode BencodeSpec BencodeProofs BencodePf Types TypesPf Krpc KrpcProofs BytesPool BytesPoolPf Sha1 PeerWire PeerWirePf Fetch FetchSpec FetchProofs FetchPf SessionSpec SessionProofs SessionRun SessionPf ShareSpec ShareProofs.
From Verif Require Import BytesPool.
Local Open Scope list_scope.

(** C112: the others take, fill and give back buffers at any time, in any order.  If the big buffers they
    take during this download and the messages it receives together do not exceed the big buffers
    in the pool at its start, outcome and writes are those of a download alone. *)
Lemma C112_outcome_pf : forall e acts k p h hs bodies peerId infoHash,
  sharing e acts -> (forall t, taken acts t <= k) ->
  calm e -> sane_folding (e_fold e) -> sound_shared p h -> length peerId = 20 -> length infoHash = 20 ->
  length hs <= 68 -> accepted hs -> Forall (fun m => (N.of_nat (length m) < 2 ^ 32)%N) bodies ->
  k + spoken bodies <= length (chan_of (p_chans p) 32768) ->
  exists s r out asked ext msgs, FetchMetaData e p h (Some (hs :: map frame bodies)) peerId infoHash = (s, r) /\
    session first_contact bodies out asked /\ verdict sha1 infoHash out r /\
    written (f_trace s) = our_handshake peerId infoHash :: ext :: msgs /\ our_ext_handshake ext /\ Forall2 is_request asked msgs.
Proof. exact fetch_shared. Qed.

(** C112: hence the same data, or the same error, as with nobody else around and any other sound pool
    that is large enough. *)
Lemma C112_as_if_alone_pf : forall e acts k e' p h p' h' hs bodies peerId infoHash,
  sharing e acts -> (forall t, taken acts t <= k) -> alone e' ->
  calm e -> calm e' -> sane_folding (e_fold e) -> sane_folding (e_fold e') -> sound_shared p h -> sound_pool p' h' ->
  length peerId = 20 -> length infoHash = 20 -> length hs <= 68 -> accepted hs -> Forall (fun m => (N.of_nat (length m) < 2 ^ 32)%N) bodies ->
  k + spoken bodies <= length (chan_of (p_chans p) 32768) -> spoken bodies <= length (chan_of (p_chans p') 32768) ->
  snd (FetchMetaData e p h (Some (hs :: map frame bodies)) peerId infoHash) = snd (FetchMetaData e' p' h' (Some (hs :: map frame bodies)) peerId infoHash).
Proof.
  intros e acts k e' p h p' h' hs bodies peerId infoHash Hs Hk Ha Hc Hc' Hu Hu' Hp Hp' Hi1 Hi2 Hl Hacc Hb Hr Hr'.
  destruct (fetch_shared e acts k p h hs bodies peerId infoHash Hs Hk Hc Hu Hp Hi1 Hi2 Hl Hacc Hb Hr) as (s & r & out & asked & ext & msgs & E & S1 & V1 & _).
  destruct (fetch_session e' p' h' hs bodies peerId infoHash Ha Hc' Hu' Hp' Hi1 Hi2 Hl Hacc Hb (or_introl Hr')) as (s' & r' & out' & asked' & ext' & msgs' & E' & S2 & V2 & _).
  rewrite E, E'. cbn [snd]. destruct (C111_deterministic_pf _ _ _ _ _ _ S1 S2) as [<- _].
  destruct out as [st|]; cbn [verdict] in V1, V2; [|congruence]. destruct V1 as [V1 V1'], V2 as [V2 V2'].
  destruct (Z.lt_ge_cases (announced st) 0); [rewrite V1, V2 by lia; reflexivity|]. destruct (Z.lt_ge_cases (2 ^ 48) (announced st)); [rewrite V1, V2 by lia; reflexivity|].
  destruct (V1' ltac:(lia)) as [W1 W1'], (V2' ltac:(lia)) as [W2 W2']. destruct (bytes_eq_dec (sha1 (content st)) infoHash) as [D|D]; [rewrite W1, W2 by exact D|rewrite W1', W2' by exact D]; reflexivity.
Qed.

(** C112: whatever the peer sends, whatever the others do and however the download ends, the pool is
    sound afterwards, and no buffer is at once in the pool and with another download. *)
Lemma C112_pool_stays_sound_pf : forall e acts p h peer peerId infoHash s r,
  sharing e acts -> sound_shared p h -> FetchMetaData e p h peer peerId infoHash = (s, r) -> sound_shared (f_pool s) (f_heap s).
Proof. intros e acts p h peer peerId infoHash s r Hs Hp E. exact (proj1 (fetch_fair e acts p h peer peerId infoHash s r Hs Hp E)). Qed.

(** C112: and it never touches a buffer another download holds: if the others write nothing and give
    nothing back meanwhile, they still hold the same buffers, with the same contents. *)
Lemma C112_others_unharmed_pf : forall e acts p h peer peerId infoHash s r,
  sharing e acts -> (forall t a, In a (acts t) -> exists big, a = OGet big) -> sound_shared p h -> FetchMetaData e p h peer peerId infoHash = (s, r) ->
  (exists more, theirs (f_pool s) = theirs p ++ more) /\ forall b, In b (theirs p) -> h_read (f_heap s) b = h_read h b.
Proof.
  intros e acts p h peer peerId infoHash s r Hs Ho Hp E. destruct (fetch_fair e acts p h peer peerId infoHash s r Hs Hp E) as [_ H].
  destruct (H Ho) as [H1 H2]. split; [exact H1|]. intros b Hb. unfold h_read. cbn [fst snd] in H2. rewrite (H2 b Hb). reflexivity.
Qed.

Definition follow (acts : nat -> list oact) : fenv :=
  {| e_intf := fun t x => fold_left other_step (acts t) x; e_exp := fun _ => false; e_write := fun _ => WOk; e_mem := fun _ => true;
     e_ford := fun _ d => d; e_fold := fun _ _ => false |}.
Lemma follow_sharing acts : sharing (follow acts) acts. Proof. intros t x. reflexivity. Qed.
Lemma follow_calm acts : calm (follow acts). Proof. constructor; try reflexivity. intros n x. apply deq_refl. Qed.

(** The others: take a big buffer early and fill it, take two small ones, give one back. *)
Definition busy (t : nat) : list oact :=
  if t =? 1 then [OGet true; OWrite 0 (B "zzz"); OGet false] else if t =? 4 then [OGet false; OPut 1; OWrite 1 (B "!")] else if t =? 6 then [OWrite 0 (repeat "z"%char 100); OPut 0] else [].
Definition one_data : list bytes := [data_of (B "0") (B "15") meta1].

Lemma shared2 : sound_shared pool2 heap2.
Proof. split; [exact pool2_sound|]. split; [constructor|]. cbn [theirs]. apply pool2_sound. Qed.

Lemma busy_taken t : taken busy t <= 1.
Proof.
  assert (H : forall n, taken busy (7 + n) = 1) by (induction n as [|n IH]; [reflexivity|]; replace (7 + S n) with (S (7 + n)) by lia; cbn [taken]; rewrite IH; reflexivity).
  destruct (Nat.le_gt_cases 7 t) as [Ht|Ht]; [replace t with (7 + (t - 7)) by lia; rewrite H; lia|].
  do 7 (destruct t as [|t]; [cbn; lia|]). lia.
Qed.

(** C112: the theorems apply: a pool of two big buffers, others that take one of them, and one message. *)
Lemma C112_example_pf :
  sharing (follow busy) busy /\ (forall t, taken busy t <= 1) /\ calm (follow busy) /\ sane_folding (e_fold (follow busy)) /\ sound_shared pool2 heap2 /\
  accepted hs0 /\ 1 + spoken one_data <= length (chan_of (p_chans pool2) 32768) /\
  (exists s, FetchMetaData (follow busy) pool2 heap2 (Some (hs0 :: map frame one_data)) LocalPeerId (sha1 meta1) = (s, FOk meta1)).
Proof.
  split; [apply follow_sharing|]. split; [exact busy_taken|]. split; [apply follow_calm|]. split; [intros c _; reflexivity|]. split; [exact shared2|].
  split; [apply accepted_by; vm_compute; reflexivity|]. split; [apply Nat.leb_le; vm_compute; reflexivity|]. apply result_ok_spec. vm_compute. reflexivity.
Qed.

(** The others take two big buffers before the pieces are joined, and write into the second one. *)
Definition greedy (t : nat) : list oact := if t =? 6 then [OGet true; OGet true; OWrite 1 (repeat "z"%char 100)] else [].

(** C112: one buffer more and it is false: of a pool of two, the others take two, the second of which
    is the one in which this download left its only piece. *)
Lemma C112_overdrawn_refuted_pf :
  sharing (follow greedy) greedy /\ calm (follow greedy) /\ sound_shared pool2 heap2 /\ taken greedy 7 = 2 /\ spoken one_data = 1 /\
  length (chan_of (p_chans pool2) 32768) = 2 /\
  (exists s, FetchMetaData calm0 pool2 heap2 (Some (hs0 :: map frame one_data)) LocalPeerId (sha1 meta1) = (s, FOk meta1)) /\
  exists s, FetchMetaData (follow greedy) pool2 heap2 (Some (hs0 :: map frame one_data)) LocalPeerId (sha1 meta1) = (s, FErr (ENew (B "check sum err"))).
Proof.
  split; [apply follow_sharing|]. split; [apply follow_calm|]. split; [exact shared2|]. split; [reflexivity|]. split; [vm_compute; reflexivity|]. split; [vm_compute; reflexivity|].
  split; [apply result_ok_spec; vm_compute; reflexivity|apply result_err_spec; vm_compute; reflexivity].
Qed.

(** The others already hold a buffer of each kind. *)
Definition heap4 : heap := {| h_next := 4; h_data := fun a => if a =? 3 then B "abcd" else repeat (ascii_of_nat 7) (Z.to_nat 32768) |}.
Definition pool4 : pool :=
  {| p_chans := [(32768%Z, [{| s_arr := 1; s_off := 0; s_len := 32768; s_cap := 32768 |}; {| s_arr := 2; s_off := 0; s_len := 32768; s_cap := 32768 |}]);
       ((-1)%Z, [{| s_arr := 0; s_off := 0; s_len := 5; s_cap := 32768 |}; {| s_arr := 3; s_off := 0; s_len := 4; s_cap := 4 |}])];
     p_width := 32768; p_max := Z.to_nat 10000 |}.
Lemma C112_holding_example_pf : sound_shared pool4 heap4 /\ length (theirs pool4) = 2 /\
  (exists s, FetchMetaData calm0 pool4 heap4 (Some (hs0 :: map frame one_data)) LocalPeerId (sha1 meta1) = (s, FOk meta1)).
Proof.
  split; [|split; [reflexivity|apply result_ok_spec; vm_compute; reflexivity]].
  assert (U : forall a n, a < 3 -> usable heap4 32768 {| s_arr := a; s_off := 0; s_len := 32768; s_cap := n |} <-> n = 32768%Z).
  { intros a n Ha. unfold usable. cbn [s_len s_cap s_off s_arr heap4 h_next h_data]. destruct (Nat.eqb_spec a 3); [lia|]. rewrite repeat_length. split; [tauto|]. intros ->. repeat split; lia. }
  assert (V : usable heap4 4 {| s_arr := 3; s_off := 0; s_len := 4; s_cap := 4 |}) by (repeat split; cbn; lia).
  assert (N : NoDup (map s_arr (theirs pool4 ++ chan_of (p_chans pool4) 4 ++ chan_of (p_chans pool4) 32768))) by (cbn; repeat constructor; cbn; intuition discriminate).
  split; [|split; [|exact N]].
  - split; [reflexivity|]. split; [constructor|]. split; [apply Nat.le_0_l|]. split; [repeat constructor; apply U; lia|]. split; [|cbn; repeat constructor; cbn; intuition discriminate].
    cbn [pool4 p_chans chan_of Z.eqb Pos.eqb length p_max]. lia.
  - constructor; [right; apply (U 0 32768%Z); [lia|reflexivity]|]. constructor; [left; exact V|constructor].
Qed.
