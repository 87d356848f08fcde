(** FetchLogProofs.v -- lemmas for C135. *)
From Verif Require Import Base GoLib Bencode BencodeSpec BencodeProofs BencodePf Types Logger Node Json ConsoleLog Krpc BytesPool Sha1 PeerWire PeerWirePf Fetch FetchSpec FetchProofs SessionRun FetchLog FetchLogSpec.
Local Open Scope list_scope.

(** ** Printing does not change what is done *)
Definition same {A} (l : L A) (m : M A) : Prop := forall s, fst (l s) = m s.
Lemma sm_quiet {A} (m : M A) : same (quiet m) m. Proof. intros s. reflexivity. Qed.
Lemma sm_bind {A C} (l : L A) m (k : A -> L C) k' : same l m -> (forall a, same (k a) (k' a)) -> same (lbind l k) (mbind m k').
Proof. intros H1 H2 s. unfold lbind, mbind. specialize (H1 s). destruct (l s) as [[s1 r] o]. cbn [fst] in H1. rewrite <- H1. destruct r; cbn [fst]; [apply H2|reflexivity..]. Qed.
Lemma sm_drop {A} (l : L unit) (k : unit -> L A) m : (forall s, fst (l s) = (s, FOk tt)) -> same (k tt) m -> same (lbind l k) m.
Proof. intros H1 H2 s. unfold lbind. specialize (H1 s). destruct (l s) as [[s1 r] o]. cbn [fst] in H1. injection H1 as -> ->. cbn [fst]. apply H2. Qed.
Lemma sm_wired {A} c (r : res A) : same (wired c r) (lift r). Proof. intros s. reflexivity. Qed.
Lemma sm_cry {A} laddr msg c : same (@cry laddr A msg c) (mpanic (B msg)). Proof. intros s. reflexivity. Qed.
Lemma sm_say laddr m msg c : same (say laddr m msg c) (ret tt). Proof. intros s. reflexivity. Qed.
Lemma sm_if {A} (b : bool) (l1 l2 : L A) m1 m2 : same l1 m1 -> same l2 m2 -> same (if b then l1 else l2) (if b then m1 else m2).
Proof. destruct b; auto. Qed.
Ltac sm := repeat match goal with
  | |- same (lbind (say _ _ _ _) _) _ => apply sm_drop; [reflexivity|cbv beta]
  | |- same (lbind (note _) _) _ => apply sm_drop; [reflexivity|cbv beta]
  | |- same (lbind _ _) (mbind _ _) => apply sm_bind; [|intros ?; cbv beta zeta]
  | |- same (if _ then _ else _) (if _ then _ else _) => apply sm_if
  | |- same (quiet _) _ => apply sm_quiet
  | |- same (wired _ _) _ => apply sm_wired
  | |- same (cry _ _ _) _ => apply sm_cry
  | |- same (say _ _ _ _) _ => apply sm_say
  end.

Section Same.
  Variable e : fenv.
  Variable laddr : bytes.
  Variable txt : nat -> bytes.
  Lemma sm_requests is : same (request_pieces_log e laddr txt is) (request_pieces e is).
  Proof. induction is as [|i t IH]; cbn [request_pieces_log request_pieces]; sm. exact IH. Qed.
  Lemma sm_ext data : same (handle_ext_handshake_log e laddr txt data) (handle_ext_handshake e data).
  Proof.
    unfold handle_ext_handshake_log, handle_ext_handshake. apply sm_bind; [apply sm_wired|]. intros d. cbv beta. apply sm_drop; [reflexivity|]. sm.
    intros s. unfold lbind. pose proof (sm_requests (seq 0 (Z.to_nat (piece_count a))) s) as H. destruct (request_pieces_log _ _ _ _ s) as [[s1 [u| | |]] o]; cbn [fst] in H; rewrite <- H; try reflexivity.
    destruct u. reflexivity.
  Qed.
  Lemma sm_piece b data : same (handle_piece_log laddr txt b data) (handle_piece b data).
  Proof.
    intros s. unfold handle_piece_log, handle_piece, lbind, mbind, wired, lift, say. destruct (parseExtendedFetchMetaMsg data) as [m| |] eqn:E; [|reflexivity..]. cbn [fst].
    destruct (negb (fm_type m =? ExData)%Z); reflexivity.
  Qed.
  Lemma sm_extended b data : same (handleExtendedMsg_log e laddr txt b data) (handleExtendedMsg e b data).
  Proof. unfold handleExtendedMsg_log, handleExtendedMsg. sm; [apply sm_ext|apply sm_piece|]. cbv zeta. destruct (_ =? 2)%N; sm. Qed.
  Lemma sm_msg b : same (handle_msg_log e laddr txt b) (handle_msg e b).
  Proof. unfold handle_msg_log, handle_msg. sm. apply sm_extended. Qed.
  Lemma sm_handler : same (readMetaDataHandler_log e laddr txt) (readMetaDataHandler e).
  Proof.
    intros s. unfold readMetaDataHandler_log, readMetaDataHandler. destruct (readBytesByPrefixLenMsg e s) as [s1 [[b|]|x|p|x]]; try reflexivity.
    unfold with_put_log, with_put. pose proof (sm_msg b s1) as H. destruct (handle_msg_log e laddr txt b s1) as [[s2 r] o]. cbn [fst] in H. rewrite <- H. destruct r; cbn [fst]; reflexivity.
  Qed.
  Lemma sm_loop f : same (readMetaDataLoop_log e laddr txt f) (readMetaDataLoop e f).
  Proof.
    induction f as [|f IH]; intros s; cbn [readMetaDataLoop_log readMetaDataLoop]; [reflexivity|]. destruct (_ && _); [|reflexivity].
    exact (sm_bind _ _ _ _ sm_handler (fun _ => IH) s).
  Qed.
  Lemma sm_hello peerId infoHash : same (handshakePeer_log e laddr txt peerId infoHash) (handshakePeer e peerId infoHash).
  Proof.
    unfold handshakePeer_log, handshakePeer. sm. intros s. destruct (m_recv handShakeLen s) as [s1 [d|x|p|x]]; try reflexivity.
    match goal with |- fst (?l s1) = ?m s1 => assert (H : same l m) by sm; exact (H s1) end.
  Qed.
  Lemma sm_initial : same (initialMessages_log e laddr txt) (initialMessages e).
  Proof. unfold initialMessages_log, initialMessages. sm. Qed.
  Lemma sm_body peerId infoHash : same (fetch_body_log e laddr txt peerId infoHash) (fetch_body e peerId infoHash).
  Proof.
    unfold fetch_body_log, fetch_body. apply sm_bind; [apply sm_hello|]. intros _. apply sm_bind; [apply sm_initial|]. intros _. apply sm_bind; [intros s; apply sm_loop|]. intros _ s.
    destruct (negb (CompledMetaData s)); [reflexivity|].
    match goal with |- fst (?l s) = ?m s => assert (H : same l m); [|exact (H s)] end.
    apply sm_bind; [apply sm_quiet|]. intros _. apply sm_bind; [apply sm_quiet|]. intros d. cbv beta. apply sm_if; (apply sm_drop; [reflexivity|]; apply sm_quiet).
  Qed.
End Same.

(** ** What is printed *)
Definition how_of {A} (r : fres A) : ending := match r with FOk _ => Goes | FPanic (PStr m) => Panics m | _ => Dies end.
Definition noerr {A} (r : fres A) : Prop := match r with FErr _ => False | _ => True end.
Definition nostr {A} (r : res A) : Prop := match r with Panic (PStr _) => False | _ => True end.

Lemma lines_app a b : lines_of (a ++ b) = lines_of a ++ lines_of b. Proof. apply flat_map_app. Qed.
Lemma seen_app a b : seen_of (a ++ b) = seen_of a ++ seen_of b. Proof. apply flat_map_app. Qed.

Lemma ns_idx {A} (l : list A) i : nostr (idx l i). Proof. unfold idx. destruct (nth_error l i); exact I. Qed.
Lemma ns_bind {A C} (r : res A) (k : A -> res C) : nostr r -> (forall a, nostr (k a)) -> nostr (bind r k).
Proof. destruct r as [a|x|p]; cbn [bind]; intros H1 H2; [apply H2|exact I|exact H1]. Qed.
Lemma ns_atoi s : nostr (atoi s).
Proof.
  assert (H : forall n d, nostr (atoi_mag n d)). { intros n d. unfold atoi_mag. destruct d; [exact I|]. destruct (udigits _ _); [|exact I]. cbv zeta. destruct (is_intb _); exact I. }
  unfold atoi. destruct s as [|c t]; [exact I|]. destruct (Ascii.eqb c "-"); [apply H|]. destruct (Ascii.eqb c "+"); apply H.
Qed.
Lemma ns_int_loop f : forall src i, nostr (int_loop f src i).
Proof.
  induction f as [|f IH]; intros src i; cbn [int_loop]; [exact I|]. destruct (i <? length src); [|exact I]. apply ns_bind; [apply ns_idx|]. intros c. destruct (Ascii.eqb c "e"); [exact I|].
  apply ns_bind; [apply ns_idx|]. intros p. destruct (_ && _); [exact I|]. destruct (_ && _); [|apply IH]. apply ns_bind; [apply ns_idx|]. intros n. destruct (negb _); [exact I|apply IH].
Qed.
Lemma ns_int src i : nostr (innerDecodeInteger src i).
Proof.
  unfold innerDecodeInteger. apply ns_bind; [apply ns_idx|]. intros c. destruct (negb _); [exact I|]. apply ns_bind; [apply ns_int_loop|]. intros j. apply ns_bind; [apply ns_idx|]. intros c'.
  destruct (Ascii.eqb c' "e"); [|exact I]. pose proof (ns_atoi (slice src (S i) j)). destruct (atoi _) as [| |[]]; try exact I. exact H.
Qed.
Lemma ns_str src i : nostr (innerDecodeString src i).
Proof.
  unfold innerDecodeString. destruct (indexFirstByteInStr _ _ _); [|exact I]. destruct (_ <=? _); [exact I|]. match goal with |- nostr (match ?a with _ => _ end) => pose proof (ns_atoi (slice src i n)) as H; destruct a as [z| |[]] end; try exact I; [|exact H].
  cbv zeta. destruct (_ <=? _)%Z; [exact I|]. destruct (_ <? _)%Z; exact I.
Qed.
Lemma ns_decode f : (forall src i, nostr (decodeItem f src i)) /\ (forall src i l, nostr (sliceLoop f src i l)) /\ (forall src i d, nostr (dictLoop f src i d)).
Proof.
  induction f as [|f (IH1 & IH2 & IH3)]; (split; [|split]); intros src i; try (intros d); cbn [decodeItem sliceLoop dictLoop]; try exact I.
  - apply ns_bind; [apply ns_idx|]. intros c. destruct (Ascii.eqb c "i"); [apply ns_bind; [apply ns_int|intros []; exact I]|]. destruct (Ascii.eqb c "l"); [apply ns_bind; [apply IH2|intros []; exact I]|].
    destruct (Ascii.eqb c "d"); [apply ns_bind; [apply IH3|intros []; exact I]|]. destruct (is_digit c); [apply ns_bind; [apply ns_str|intros []; exact I]|exact I].
  - destruct (i <? length src); [|exact I]. apply ns_bind; [apply ns_idx|]. intros c. destruct (Ascii.eqb c "e"); [exact I|]. apply ns_bind; [apply IH1|]. intros [v n]. apply IH2.
  - destruct (i <? length src); [|exact I]. apply ns_bind; [apply ns_idx|]. intros c. destruct (Ascii.eqb c "e"); [exact I|]. apply ns_bind; [apply IH1|]. intros [v n]. destruct v; try exact I.
    apply ns_bind; [apply IH1|]. intros [v n']. apply IH3.
Qed.
Lemma ns_inner src i : nostr (innerDecodeDict src i).
Proof. unfold innerDecodeDict. apply ns_bind; [apply ns_idx|]. intros c. destruct (negb _); [exact I|]. apply ns_decode. Qed.
Lemma ns_DecodeDict src : nostr (DecodeDict src).
Proof.
  unfold DecodeDict. destruct (_ <? _); [exact I|]. apply ns_bind; [apply ns_idx|]. intros c. apply ns_bind; [apply ns_idx|]. intros c'. destruct (_ || _); [exact I|].
  apply ns_bind; [apply ns_inner|]. intros [d n]. destruct (_ <? _); exact I.
Qed.
Lemma ns_NoLimit src : nostr (DecodeDictNoLimit src).
Proof. unfold DecodeDictNoLimit. destruct (_ <? _); [exact I|]. apply ns_bind; [apply ns_idx|]. intros c. destruct (negb _); [exact I|]. apply ns_inner. Qed.
Lemma ns_GetInteger d k : nostr (GetInteger d k).
Proof. unfold GetInteger, GetVal. destruct (dget d k) as [[]|]; exact I. Qed.
Lemma ns_get p h n : nostr (GetBySize p h n).
Proof. unfold GetBySize. repeat match goal with |- nostr (match ?x with _ => _ end) => destruct x end; exact I. Qed.
Lemma ns_GetDict d k : nostr (GetDict d k).
Proof. unfold GetDict, GetVal. destruct (dget d k) as [[]|]; exact I. Qed.

Lemma lb {A C} (m : L A) (k : A -> L C) s s' r o : lbind m k s = ((s', r), o) ->
  (exists s1 a o1 o2, m s = ((s1, FOk a), o1) /\ k a s1 = ((s', r), o2) /\ o = o1 ++ o2) \/
  (exists r1, m s = ((s', r1), o) /\ how_of r1 = how_of r /\ how_of r <> Goes /\ (noerr r1 -> noerr r)).
Proof.
  unfold lbind. destruct (m s) as [[s1 r1] o1]. destruct r1 as [a|x|p|x]; intros E.
  - left. destruct (k a s1) as [[s2 r2] o2] eqn:Ek. cbn [fst snd] in E. injection E as <- <- <-. exists s1, a, o1, o2. auto.
  - right. injection E as <- <- <-. eexists. split; [reflexivity|]. split; [reflexivity|]. split; [discriminate|auto].
  - right. injection E as <- <- <-. eexists. split; [reflexivity|]. split; [destruct p; reflexivity|]. split; [destruct p; discriminate|auto].
  - right. injection E as <- <- <-. eexists. split; [reflexivity|]. split; [reflexivity|]. split; [discriminate|auto].
Qed.
(** A step that prints nothing and does not panic with a string. *)
Definition silent {A} (m : L A) : Prop := forall s s' r o, m s = ((s', r), o) -> o = [] /\ noerr r /\ (how_of r = Goes \/ how_of r = Dies).
Lemma si_bind {A C} (m : L A) (k : A -> L C) : silent m -> (forall a, silent (k a)) -> silent (lbind m k).
Proof.
  intros H1 H2 s s' r o E. apply lb in E. destruct E as [(s1 & a & o1 & o2 & E1 & E2 & ->)|(r1 & E1 & Hh & Hg & Hn)].
  - destruct (H1 _ _ _ _ E1) as (-> & _ & _). apply (H2 _ _ _ _ _ E2).
  - destruct (H1 _ _ _ _ E1) as (-> & N & H). rewrite Hh in H. auto.
Qed.
Lemma si_lift {A} (r : res A) : nostr r -> (forall x, r <> Err x) -> silent (quiet (lift r)).
Proof. intros H1 H2 s s' r' o E. unfold quiet, lift in E. injection E as <- <- <-. destruct r as [a|x|[]]; cbn in *; try (exfalso; eapply H2; reflexivity); try contradiction; auto. Qed.
Lemma si_make e a b : silent (quiet (m_make e a b)).
Proof. intros s s' r o E. unfold quiet, m_make in E. destruct (_ || _); [injection E as <- <- <-; cbn; auto|]. destruct (e_mem _ _); injection E as <- <- <-; cbn; auto. Qed.
Lemma si_pure {A} (f : fstate -> fstate) (g : fstate -> A) : silent (quiet (fun s => (f s, FOk (g s)))).
Proof. intros s s' r o E. injection E as <- <- <-. cbn. auto. Qed.
Lemma idx_noerr {A} (l : list A) i x : idx l i <> Err x. Proof. unfold idx. destruct (nth_error l i); discriminate. Qed.

(** One step: either it stops (silently) or it goes on. *)
Lemma quiet_step {A C} (m : M A) (k : A -> L C) s s' r o : silent (quiet m) -> lbind (quiet m) k s = ((s', r), o) ->
  (exists s1 a, m s = (s1, FOk a) /\ k a s1 = ((s', r), o)) \/ (o = [] /\ noerr r /\ how_of r = Dies).
Proof.
  intros H E. apply lb in E. destruct E as [(s1 & a & o1 & o2 & E1 & E2 & ->)|(r1 & E1 & Hh & Hg & Hn)].
  - destruct (H _ _ _ _ E1) as (-> & _). left. exists s1, a. split; [|exact E2]. unfold quiet in E1. injection E1 as E1. exact E1.
  - destruct (H _ _ _ _ E1) as (-> & N & [G|G]); [congruence|]. right. rewrite Hh in G. auto.
Qed.
Lemma say_step {C} laddr m msg c (k : unit -> L C) s s' r o : lbind (say laddr m msg c) k s = ((s', r), o) ->
  exists o2, k tt s = ((s', r), o2) /\ o = LLine (fetch_entry laddr m msg (c (f_tick s))) :: o2.
Proof. unfold lbind, say. destruct (k tt s) as [[s2 r2] o2]. cbn [fst snd app]. intros E. injection E as <- <- <-. exists o2. auto. Qed.
Lemma wired_step {A C} c (x : res A) (k : A -> L C) s s' r o : lbind (wired c x) k s = ((s', r), o) ->
  (exists a, x = Ok a /\ k a s = ((s', r), o)) \/ (exists er, x = Err er /\ o = []) \/
  (exists m, x = Panic (PStr m) /\ how_of r = Panics m /\ noerr r /\ o = [LLine {| ce_log := B "peerwire"; ce_m := MPanic; ce_msg := m; ce_ctx := Some (c (f_tick s)) |}]) \/
  (exists p, x = Panic p /\ nostr x /\ how_of r = Dies /\ noerr r /\ o = []).
Proof.
  unfold lbind, wired, lift. destruct x as [a|er|p].
  - destruct (k a s) as [[s2 r2] o2] eqn:Ek. cbn [fst snd app]. intros E. injection E as <- <- <-. left. exists a. auto.
  - intros E. injection E as <- <- <-. right. left. eauto.
  - intros E. injection E as <- <- <-. right. right. destruct p; [right|right|left|right]; eexists; (split; [reflexivity|]); cbn; auto.
Qed.

Section Lines.
  Variable e : fenv.
  Variable laddr : bytes.
  Variable txt : nat -> bytes.
  Hypothesis Hord : forall n d, deq d (e_ford e n d).

  Lemma requests_lines is : (forall i, In i is -> (Z.of_nat i <= max_int)%Z) -> forall s s' r o, request_pieces_log e laddr txt is s = ((s', r), o) ->
    noerr r /\ seen_of o = [] /\ ((lines_of o = [] /\ (how_of r = Goes \/ how_of r = Dies)) \/
      (how_of r = Panics (B "write request piece err") /\ exists t, lines_of o = [fline laddr MPanic "write request piece err" [(B "err", VStr t)]])).
  Proof.
    induction is as [|i l IH]; intros Hi s s' r o E; cbn [request_pieces_log] in E.
    - injection E as <- <- <-. cbn. auto 8.
    - apply quiet_step in E; [|apply si_pure]. destruct E as [(s1 & ord & E1 & E)|(-> & N & H)]; [|cbn; auto 8]. unfold m_ord in E1. injection E1 as <- <-.
      destruct (request_ok e i Hord (Hi i (or_introl eq_refl)) (length (f_trace s))) as (msg & Em). rewrite Em in E.
      apply wired_step in E. destruct E as [(a & Ea & E)|[(er & Ea & _)|[(m & Ea & _)|(p & Ea & _)]]]; try discriminate. injection Ea as <-.
      apply lb in E. destruct E as [(s1 & ok & o1 & o2 & E1 & E2 & ->)|(r1 & E1 & Hh & Hg & Hn)].
      + unfold quiet in E1. injection E1 as E1 <-. cbn [app]. destruct ok; [eapply IH; [|exact E2]; intros j Hj; apply Hi; right; exact Hj|].
        unfold cry in E2. injection E2 as <- <- <-. cbn. split; [exact I|]. split; [reflexivity|]. right. split; [reflexivity|]. eexists. reflexivity.
      + unfold quiet, m_write in E1. destruct (e_write e _); injection E1 as <- <- <-; cbn in *; try congruence. split; [apply Hn; exact I|]. split; [reflexivity|]. left. auto.
  Qed.

  Lemma has_int_get d k z : GetInteger d (B k) = Ok z <-> has_int d k z.
  Proof. unfold GetInteger, GetVal, has_int. destruct (dget d (B k)) as [[]|]; cbn; split; intros H; try discriminate; try congruence. Qed.
  Lemma no_int_get d k : (forall z, GetInteger d (B k) <> Ok z) -> no_int d k.
  Proof. intros H z Hz. apply (H z). apply has_int_get. exact Hz. Qed.

  Lemma asking_lines d m s s' r o :
    (if negb (Exist (dset d (B "m") m) (B "metadata_size")) then cry laddr "get extended handshake wrong format" (fun t => [(B "exHandShakeResp", VStr (txt t))]) else
     log* metaSize := quiet (lift (GetInteger (dset d (B "m") m) (B "metadata_size"))) in
     log* _ := quiet (fun s => (set_meta s (f_meta s) metaSize (f_req s), FOk tt)) in
     let n := piece_count metaSize in
     log* _ := quiet (m_make e 24 n) in
     log* _ := quiet (fun s => (set_meta s (repeat None (Z.to_nat n)) (f_size s) (f_req s), FOk tt)) in
     log* _ := quiet (m_make e 1 n) in
     log* _ := quiet (fun s => (set_meta s (f_meta s) (f_size s) (repeat false (Z.to_nat n)), FOk tt)) in
     log* _ := request_pieces_log e laddr txt (seq 0 (Z.to_nat n)) in
     say laddr MInfo "request pieces" (fun _ => [(B "metaSize", VInt metaSize); (B "pieceCount", VInt n)])) s = ((s', r), o) ->
    noerr r /\ seen_of o = [] /\ asking laddr d (how_of r) (lines_of o).
  Proof.
    assert (Hg : dget (dset d (B "m") m) (B "metadata_size") = dget d (B "metadata_size")) by (rewrite dget_dset; reflexivity).
    assert (Hx : Exist (dset d (B "m") m) (B "metadata_size") = Exist d (B "metadata_size")) by (unfold Exist; rewrite Hg; reflexivity).
    assert (Hi : GetInteger (dset d (B "m") m) (B "metadata_size") = GetInteger d (B "metadata_size")) by (unfold GetInteger, GetVal; rewrite Hg; reflexivity).
    rewrite Hx, Hi. clear Hg Hx Hi. unfold Exist. destruct (dget d (B "metadata_size")) as [v|] eqn:Ev; cbn [negb].
    2:{ intros E. unfold cry in E. injection E as <- <- <-. split; [exact I|]. split; [reflexivity|]. apply as_no_size. exact Ev. }
    destruct (GetInteger d (B "metadata_size")) as [size|x|p] eqn:Es.
    2:{ exfalso. eapply getint_no_err. exact Es. }
    2:{ intros E. apply quiet_step in E; [|apply si_lift; [pose proof (ns_GetInteger d (B "metadata_size")) as H; rewrite Es in H; exact H|discriminate]].
        destruct E as [(s1 & a & E1 & E)|(-> & N & H)]; [discriminate|]. split; [exact N|]. split; [reflexivity|]. rewrite H. eapply as_bad_size; [exact Ev|]. apply no_int_get. congruence. }
    pose proof (proj1 (has_int_get _ _ _) Es) as Hz. intros E.
    assert (D : forall (r : fres unit) o, o = [] /\ noerr r /\ how_of r = Dies -> noerr r /\ seen_of o = [] /\ asking laddr d (how_of r) (lines_of o)).
    { intros r0 o0 (-> & N & H). split; [exact N|]. split; [reflexivity|]. rewrite H. eapply as_dies. exact Hz. }
    apply quiet_step in E; [|apply si_lift; [exact I|discriminate]]. destruct E as [(s1 & a & E1 & E)|K]; [|exact (D _ _ K)]. unfold lift in E1. injection E1 as <- <-.
    apply quiet_step in E; [|apply (si_pure (fun s => _) (fun s => tt))]. destruct E as [(s2 & u & _ & E)|K]; [|exact (D _ _ K)]. cbv zeta in E.
    apply quiet_step in E; [|apply si_make]. destruct E as [(s3 & u3 & E3 & E)|K]; [|exact (D _ _ K)].
    apply quiet_step in E; [|apply (si_pure (fun s => _) (fun s => tt))]. destruct E as [(s4 & u4 & _ & E)|K]; [|exact (D _ _ K)].
    apply quiet_step in E; [|apply si_make]. destruct E as [(s5 & u5 & _ & E)|K]; [|exact (D _ _ K)].
    apply quiet_step in E; [|apply (si_pure (fun s => _) (fun s => tt))]. destruct E as [(s6 & u6 & _ & E)|K]; [|exact (D _ _ K)].
    assert (Hn : (0 <= piece_count size)%Z /\ (24 * piece_count size <= 2 ^ 48)%Z).
    { unfold m_make in E3. destruct ((piece_count size <? 0)%Z || (2 ^ 48 <? 24 * piece_count size)%Z) eqn:Eb; [discriminate|]. apply orb_false_iff in Eb as [H1 H2]. split; lia. }
    assert (Hk : pieces_needed size (piece_count size)).
    { destruct Hn as [Hn _]. unfold pieces_needed. unfold piece_count, SizeOf16KB in *. pose proof (Z.quot_rem' size (16 * 1024)). pose proof (Z.rem_bound_abs size (16 * 1024)).
      destruct (Z.ltb_spec 0 (Z.rem size (16 * 1024))); lia. }
    assert (Hq : forall i, In i (seq 0 (Z.to_nat (piece_count size))) -> (Z.of_nat i <= max_int)%Z).
    { intros i Hin. apply in_seq in Hin. unfold max_int. lia. }
    apply lb in E. destruct E as [(s7 & u7 & o1 & o2 & E1 & E2 & ->)|(r1 & E1 & Hh & Hg & Hno)].
    - destruct (requests_lines _ Hq _ _ _ _ E1) as (_ & S1 & [(L1 & _)|(Hb & _)]); [|discriminate]. unfold say in E2. injection E2 as <- <- <-.
      split; [exact I|]. split; [rewrite seen_app, S1; reflexivity|]. rewrite lines_app, L1. cbn [app]. apply as_asked; assumption.
    - destruct (requests_lines _ Hq _ _ _ _ E1) as (N & S1 & [(L1 & [G|G])|(Hb & t & L1)]).
      + congruence.
      + split; [auto|]. split; [exact S1|]. rewrite L1, <- Hh, G. eapply as_dies. exact Hz.
      + split; [auto|]. split; [exact S1|]. rewrite L1, <- Hh, Hb. eapply as_write. exact Hz.
  Qed.

  Lemma ascii_bval c n : (n < 256)%N -> bval c = n -> c = ascii_of_nat (N.to_nat n).
  Proof. intros Hn H. rewrite <- (ascii_N_embedding c). unfold bval in H. rewrite H. rewrite <- (N2Nat.id n) at 1. apply Nat2N_ascii || (unfold ascii_of_nat; rewrite N2Nat.id; reflexivity). Qed.

  Lemma ext_lines rest s s' r o : handle_ext_handshake_log e laddr txt (ascii_of_nat 20 :: ascii_of_nat 0 :: rest) s = ((s', r), o) ->
    noerr r /\ seen_of o = [] /\ about laddr (how_of r) (ascii_of_nat 20 :: ascii_of_nat 0 :: rest) (lines_of o).
  Proof.
    intros E. unfold handle_ext_handshake_log in E. 
    assert (Ep : parseExtendedHandShake (ascii_of_nat 20 :: ascii_of_nat 0 :: rest) = match DecodeDict rest with
      | Ok dict => do m <- GetDict (dict_of dict) (B "m"); Ok (NewBaseExHandShakeMsg m dict) | Err _ => LogPanic (B "decode extended handshake err") | Panic p => Panic p end) by reflexivity.
    rewrite Ep in E. clear Ep. destruct (DecodeDict rest) as [g|er|p] eqn:Ed.
    - destruct (GetDict (dict_of g) (B "m")) as [m|x|p] eqn:Em; cbn [bind] in E.
      + apply wired_step in E. destruct E as [(a & Ea & E)|[(er & Ea & _)|[(m' & Ea & _)|(p & Ea & _)]]]; try discriminate. injection Ea as <-.
        apply say_step in E. destruct E as (o2 & E & ->). cbn [lines_of seen_of flat_map app].
        destruct g as [d|]; [|discriminate Em]. cbn [dict_of] in *. unfold NewBaseExHandShakeMsg in E. cbn [dict_of] in E. apply asking_lines in E. destruct E as (N & S & A).
        split; [exact N|]. split; [exact S|]. eapply (ab_handshake laddr rest d _ _ _ Ed); [|exact A].
        unfold GetDict, GetVal in Em. destruct (dget d (B "m")) as [v|] eqn:Ev; [|discriminate]. exists v. split; [exact Ev|]. cbn in Em. destruct v; try discriminate; eauto.
      + exfalso. eapply getdict_no_err. exact Em.
      + pose proof (ns_GetDict (dict_of g) (B "m")) as Hns. rewrite Em in Hns.
        apply wired_step in E. destruct E as [(a & Ea & E)|[(er & Ea & _)|[(m' & Ea & _)|(p' & Ea & _ & Hd & N & ->)]]]; try discriminate; [injection Ea as ->; contradiction|].
        split; [exact N|]. split; [reflexivity|]. rewrite Hd. eapply ab_handshake_no_m; [exact Ed|]. intros (v & Hv & Hk). unfold GetDict, GetVal in Em. rewrite Hv in Em. destruct Hk as [->|(x & ->)]; discriminate.
    - apply wired_step in E. destruct E as [(a & Ea & E)|[(er' & Ea & _)|[(m' & Ea & Hh & N & ->)|(p' & Ea & Hns & _)]]]; try discriminate; [|injection Ea as <-; contradiction].
      injection Ea as <-. split; [exact N|]. split; [reflexivity|]. rewrite Hh. eapply ab_handshake_bad. exact Ed.
    - pose proof (ns_DecodeDict rest) as Hns. rewrite Ed in Hns. apply wired_step in E. destruct E as [(a & Ea & E)|[(er' & Ea & _)|[(m' & Ea & _)|(p' & Ea & _ & Hd & N & ->)]]]; try discriminate; [injection Ea as ->; contradiction|].
      split; [exact N|]. split; [reflexivity|]. rewrite Hd. eapply ab_handshake_dies. exact Ed.
  Qed.

  Lemma no_int_panic d k p : GetInteger d (B k) = Panic p -> no_int d k.
  Proof. intros H. apply no_int_get. intros z. rewrite H. discriminate. Qed.
  Lemma piece_parse rest :
    (exists d n f ty, DecodeDictNoLimit rest = Ok (d, n) /\ parseExtendedFetchMetaMsg (ascii_of_nat 20 :: ascii_of_nat 1 :: rest) = Ok f /\ has_int d "msg_type" ty /\ fm_type f = ty) \/
    (exists er, DecodeDictNoLimit rest = Err er /\ parseExtendedFetchMetaMsg (ascii_of_nat 20 :: ascii_of_nat 1 :: rest) = Panic (PStr (B "decode extended fetchmetadata err"))) \/
    (exists p, parseExtendedFetchMetaMsg (ascii_of_nat 20 :: ascii_of_nat 1 :: rest) = Panic p /\ nostr (@Panic unit p) /\ about laddr Dies (ascii_of_nat 20 :: ascii_of_nat 1 :: rest) []).
  Proof.
    assert (Ep : parseExtendedFetchMetaMsg (ascii_of_nat 20 :: ascii_of_nat 1 :: rest) = match DecodeDictNoLimit rest with
      | Ok (dict, next0) => if length rest <=? next0 then
            do ty <- GetInteger dict (B "msg_type"); do pc <- GetInteger dict (B "piece"); Ok {| fm_id := 1; fm_type := ty; fm_piece := pc; fm_total := 0; fm_data := None |}
          else do total <- GetInteger dict (B "total_size"); do ty <- GetInteger dict (B "msg_type"); do pc <- GetInteger dict (B "piece");
            Ok {| fm_id := 1; fm_type := ty; fm_piece := pc; fm_total := total; fm_data := Some (next0 + 2) |}
      | Err _ => LogPanic (B "decode extended fetchmetadata err") | Panic p => Panic p end).
    { unfold parseExtendedFetchMetaMsg. cbn [idx nth_error bind skipn]. change (negb (ExtendedPeerMsg =? bval (ascii_of_nat 20))%N) with false. cbv iota.
      destruct (DecodeDictNoLimit rest) as [[d n]| |]; try reflexivity. cbv zeta. cbn [length]. replace (S (S (length rest)) <=? n + 2) with (length rest <=? n); [reflexivity|].
      apply eq_true_iff_eq. rewrite !Nat.leb_le. lia. }
    rewrite Ep. clear Ep. destruct (DecodeDictNoLimit rest) as [[d n]|er|p] eqn:Ed.
    - assert (G : forall k, (exists z, GetInteger d (B k) = Ok z) \/ (exists p, GetInteger d (B k) = Panic p /\ nostr (@Panic unit p))).
      { intros k. pose proof (ns_GetInteger d (B k)) as H. pose proof (getint_no_err d (B k)) as H'. destruct (GetInteger d (B k)) as [z|x|p]; [eauto|exfalso; eapply H'; reflexivity|right; exists p; split; [reflexivity|exact H]]. }
      destruct (G "msg_type"%string) as [(ty & Ht)|(pt & Ht & Nt)]; destruct (G "piece"%string) as [(pc & Hp)|(pp & Hp & Np)]; destruct (G "total_size"%string) as [(tt0 & Hs)|(ps & Hs & Ns)];
        destruct (Nat.leb_spec (length rest) n) as [Hl|Hl]; rewrite ?Hs, ?Ht, ?Hp; cbn [bind]; rewrite ?Ht, ?Hp; cbn [bind]; rewrite ?Hp; cbn [bind];
        first [ left; eexists d, n, _, ty; (split; [reflexivity|]); (split; [reflexivity|]); (split; [apply has_int_get; exact Ht|reflexivity])
              | right; right; eexists; (split; [reflexivity|]); (split; [assumption|]); eapply ab_piece_fields; [exact Ed|];
                first [ left; eapply no_int_panic; eassumption | right; left; eapply no_int_panic; eassumption | right; right; split; [assumption|eapply no_int_panic; eassumption] ] ].
    - right. left. exists er. auto.
    - right. right. exists p. split; [reflexivity|]. split; [pose proof (ns_NoLimit rest) as H; rewrite Ed in H; exact H|]. eapply ab_piece_dies. exact Ed.
  Qed.
  Lemma piece_lines b rest s s' r o : handle_piece_log laddr txt b (ascii_of_nat 20 :: ascii_of_nat 1 :: rest) s = ((s', r), o) ->
    noerr r /\ seen_of o = [] /\ about laddr (how_of r) (ascii_of_nat 20 :: ascii_of_nat 1 :: rest) (lines_of o).
  Proof.
    intros E. unfold handle_piece_log in E. destruct (piece_parse rest) as [(d & n & f & ty & Ed & Ef & Ht & Hty)|[(er & Ed & Ef)|(p & Ef & Np & Ha)]]; apply wired_step in E.
    - destruct E as [(a & Ea & E)|[(er' & Ea & _)|[(m' & Ea & _)|(p' & Ea & _)]]]; try congruence. assert (a = f) by congruence. subst a.
      apply say_step in E. destruct E as (o2 & E & ->). cbn [lines_of seen_of flat_map app]. destruct (Z.eqb_spec (fm_type f) ExData) as [Hd|Hd]; cbn [negb] in E.
      + unfold quiet in E. injection E as E <-. assert (K : noerr r /\ (how_of r = Goes \/ how_of r = Dies)).
        { unfold handle_piece, mbind, lift in E. rewrite Ef in E. rewrite (proj2 (Z.eqb_eq _ _) Hd) in E. cbn [negb] in E. cbv zeta in E.
          destruct (_ || _); [injection E as <- <-; cbn; auto|]. destruct (_ <=? _)%Z; injection E as <- <-; cbn; auto. }
        split; [apply K|]. split; [reflexivity|]. eapply ab_piece_data; [exact Ed| |apply K]. rewrite Hd in Hty. subst ty. exact Ht.
      + unfold say in E. injection E as <- <- <-. split; [exact I|]. split; [reflexivity|]. eapply ab_piece_no_data; [exact Ed|exact Ht|]. rewrite <- Hty. exact Hd.
    - destruct E as [(a & Ea & _)|[(er' & Ea & _)|[(m' & Ea & Hh & N & ->)|(p' & Ea & Hn & _)]]]; try congruence; [|rewrite Ef in Hn; contradiction].
      assert (m' = B "decode extended fetchmetadata err") by congruence. subst m'. split; [exact N|]. split; [reflexivity|]. rewrite Hh. eapply ab_piece_bad. exact Ed.
    - destruct E as [(a & Ea & _)|[(er' & Ea & _)|[(m' & Ea & _)|(p' & Ea & _ & Hd & N & ->)]]]; try congruence.
      + exfalso. assert (p = PStr m') by congruence. subst p. exact Np.
      + split; [exact N|]. split; [reflexivity|]. rewrite Hd. exact Ha.
  Qed.

  Lemma go_step {A C} (m : M A) (k : A -> L C) s s1 a : m s = (s1, FOk a) -> lbind (quiet m) k s = k a s1.
  Proof. intros H. unfold lbind, quiet. rewrite H. destruct (k a s1). reflexivity. Qed.
  Lemma note_step {C} i (k : unit -> L C) s s' r o : lbind (note i) k s = ((s', r), o) -> exists o2, k tt s = ((s', r), o2) /\ o = i :: o2.
  Proof. unfold lbind, note. destruct (k tt s) as [[s2 r2] o2]. cbn [fst snd app]. intros E. injection E as <- <- <-. exists o2. auto. Qed.
  Lemma bval_eqb c n : (n < 256)%N -> (bval c =? n)%N = Ascii.eqb c (ascii_of_N n).
  Proof.
    intros Hn. apply eq_true_iff_eq. rewrite N.eqb_eq, Ascii.eqb_eq. unfold bval. split; intros H; [rewrite <- H; symmetry; apply ascii_N_embedding|subst c; apply N_ascii_embedding; exact Hn].
  Qed.
  Lemma msg_lines b s s' r o : handle_msg_log e laddr txt b s = ((s', r), o) ->
    noerr r /\ exists body, seen_of o = [Some body] /\ about laddr (how_of r) body (lines_of o).
  Proof.
    intros E. unfold handle_msg_log in E. erewrite go_step in E by reflexivity. apply note_step in E. destruct E as (o2 & E & ->).
    set (data := h_read (f_heap s) b) in *. clearbody data.
    enough (K : noerr r /\ seen_of o2 = [] /\ about laddr (how_of r) data (lines_of o2)).
    { destruct K as (N & S & K). split; [exact N|]. exists data. cbn [seen_of lines_of flat_map app]. split; [f_equal; exact S|exact K]. }
    destruct data as [|c t].
    { apply quiet_step in E; [|apply si_lift; [exact I|discriminate]]. destruct E as [(s1 & a & E1 & _)|(-> & N & H)]; [discriminate|]. split; [exact N|]. split; [reflexivity|]. rewrite H. constructor. }
    erewrite go_step in E by reflexivity. unfold ExtendedPeerMsg in E. rewrite bval_eqb in E by lia. change (ascii_of_N 20) with (ascii_of_nat 20) in E.
    destruct (Ascii.eqb_spec c (ascii_of_nat 20)) as [->|Hc].
    2:{ unfold say in E. injection E as <- <- <-. split; [exact I|]. split; [reflexivity|]. apply ab_other. exact Hc. }
    unfold handleExtendedMsg_log in E. destruct t as [|d rest].
    { apply quiet_step in E; [|apply si_lift; [exact I|discriminate]]. destruct E as [(s1 & a & E1 & _)|(-> & N & H)]; [discriminate|]. split; [exact N|]. split; [reflexivity|]. rewrite H. constructor. }
    erewrite go_step in E by reflexivity. cbv zeta in E. rewrite !bval_eqb in E by lia.
    change (ascii_of_N 0) with (ascii_of_nat 0) in E. change (ascii_of_N 1) with (ascii_of_nat 1) in E. change (ascii_of_N 2) with (ascii_of_nat 2) in E.
    destruct (Ascii.eqb_spec d (ascii_of_nat 0)) as [->|H0]; [eapply ext_lines; exact E|].
    destruct (Ascii.eqb_spec d (ascii_of_nat 1)) as [->|H1]; [eapply piece_lines; exact E|].
    destruct (Ascii.eqb_spec d (ascii_of_nat 2)) as [->|H2]; unfold say in E; injection E as <- <- <-; (split; [exact I|]); (split; [reflexivity|]).
    - apply ab_pex.
    - apply ab_unknown. change (~ (ascii_of_nat 0 = d \/ ascii_of_nat 1 = d \/ ascii_of_nat 2 = d \/ False)). intros [X|[X|[X|[]]]]; congruence.
  Qed.

  Lemma recv_quiet want s s' r : m_recv want s = (s', r) -> match r with FPanic _ => False | FStop _ => False | _ => True end.
  Proof. unfold m_recv. destruct (want =? 0); [intros E; injection E as <- <-; exact I|]. destruct (f_script s); [intros E; injection E as <- <-; exact I|]. intros E. injection E as <- <-. exact I. Qed.
  (** Reading a message never panics with a string. *)
  Definition plainly {A} (m : M A) : Prop := forall s s' r, m s = (s', r) -> match r with FPanic (PStr _) => False | _ => True end.
  Lemma pl_bind {A C} (m : M A) (k : A -> M C) : plainly m -> (forall a, plainly (k a)) -> plainly (mbind m k).
  Proof. intros H1 H2 s s' r E. unfold mbind in E. destruct (m s) as [s1 [a|x|p|x]] eqn:Em; [eapply H2; exact E|..]; injection E as <- <-; try exact I. apply (H1 _ _ _ Em). Qed.
  Lemma pl_interfere : plainly (interfere e).
  Proof. intros s s' r E. unfold interfere in E. destruct (e_intf _ _ _). injection E as <- <-. exact I. Qed.
  Lemma pl_get n : plainly (m_get e n).
  Proof. apply pl_bind; [apply pl_interfere|]. intros _ s s' r E. pose proof (ns_get (f_pool s) (f_heap s) n) as H. destruct (GetBySize (f_pool s) (f_heap s) n) as [[[p h] b]| |[]]; injection E as <- <-; try exact I. exact H. Qed.
  Lemma pl_read b : plainly (m_read e b).
  Proof.
    apply pl_bind; [apply pl_interfere|]. intros _. apply pl_bind; [|intros d s s' r E; injection E as <- <-; exact I].
    intros s s' r E. apply recv_quiet in E. destruct r as [| |[]|]; try exact I; contradiction.
  Qed.
  Lemma pl_put b : plainly (m_put e b).
  Proof. apply pl_bind; [apply pl_interfere|]. intros _ s s' r E. injection E as <- <-. exact I. Qed.
  Lemma pl_lift {A} (x : res A) : nostr x -> plainly (lift x).
  Proof. intros H s s' r E. injection E as <- <-. destruct x as [| |[]]; try exact I. exact H. Qed.
  Lemma pl_readBytes : plainly (readBytesByPrefixLenMsg e).
  Proof.
    unfold readBytesByPrefixLenMsg. apply pl_bind; [apply pl_get|]. intros pre. apply pl_bind; [apply pl_read|]. intros _. apply pl_bind; [intros s s' r E; injection E as <- <-; exact I|]. intros bs.
    apply pl_bind; [apply pl_lift; unfold Uint32; destruct bs as [|? [|? [|? [|? ?]]]]; exact I|]. intros n. destruct (n =? 0)%N; [intros s s' r E; injection E as <- <-; exact I|].
    apply pl_bind; [apply pl_put|]. intros _. destruct (_ <? _)%N; [apply pl_lift; exact I|]. apply pl_bind; [apply pl_get|]. intros buf. apply pl_bind; [apply pl_read|]. intros k s s' r E. injection E as <- <-. exact I.
  Qed.

  (** One turn of the read loop. *)
  Inductive turn : ending -> list (option bytes) -> list centry -> Prop :=
  | tu_keep : turn Goes [None] []
  | tu_msg how body o : about laddr how body o -> turn how [Some body] o
  | tu_broken t : turn (Panics (B "read prefix length err")) [] [fline laddr MPanic "read prefix length err" [(B "err", VStr t)]]
  | tu_dies : turn Dies [] [].
  Lemma handler_lines s s' r o : readMetaDataHandler_log e laddr txt s = ((s', r), o) -> noerr r /\ turn (how_of r) (seen_of o) (lines_of o).
  Proof.
    unfold readMetaDataHandler_log. destruct (readBytesByPrefixLenMsg e s) as [s1 r1] eqn:E1. pose proof (pl_readBytes _ _ _ E1) as Hp. destruct r1 as [[b|]|x|p|x]; intros E.
    - unfold with_put_log in E. destruct (handle_msg_log e laddr txt b s1) as [[s2 r2] o2] eqn:E2. apply msg_lines in E2. destruct E2 as (N & body & S & A).
      assert (K : r = r2 /\ o = o2). { destruct r2; injection E as E <-; destruct (0 <? s_cap b)%Z; try (injection E as <- <-); auto. all: split; congruence. }
      destruct K as [-> ->]. split; [exact N|]. rewrite S. constructor. exact A.
    - injection E as <- <- <-. split; [exact I|constructor].
    - unfold cry in E. injection E as <- <- <-. split; [exact I|apply tu_broken].
    - injection E as <- <- <-. split; [exact I|]. destruct p; try contradiction; constructor.
    - injection E as <- <- <-. split; [exact I|constructor].
  Qed.
  (** What the loop prints. *)
  Definition looped (how : ending) (l : list (option bytes)) (o : list centry) : Prop :=
    conversation laddr how l o \/ (exists o' t, conversation laddr Goes l o' /\ how = Panics (B "read prefix length err") /\ o = o' ++ [fline laddr MPanic "read prefix length err" [(B "err", VStr t)]]) \/
    (conversation laddr Goes l o /\ how = Dies).
  Lemma loop_lines f : forall s s' r o, readMetaDataLoop_log e laddr txt f s = ((s', r), o) -> noerr r /\ looped (how_of r) (seen_of o) (lines_of o).
  Proof.
    induction f as [|f IH]; intros s s' r o E; cbn [readMetaDataLoop_log] in E.
    - injection E as <- <- <-. split; [exact I|]. right. right. split; [constructor|reflexivity].
    - destruct (_ && _); [|injection E as <- <- <-; split; [exact I|left; constructor]]. apply lb in E. destruct E as [(s1 & a & o1 & o2 & E1 & E2 & ->)|(r1 & E1 & Hh & Hg & Hn)].
      + apply handler_lines in E1. destruct E1 as (_ & T). apply IH in E2. destruct E2 as (N & K). split; [exact N|]. rewrite seen_app, lines_app. cbn [how_of] in T. inversion T; subst.
        * destruct K as [K|[(o' & t & K & -> & K2)|(K & ->)]]; [left|right; left; exists o', t; split; [|split; [reflexivity|exact K2]]|right; right; split; [|reflexivity]]; apply cv_keepalive; exact K.
        * destruct K as [K|[(o' & t & K & -> & K2)|(K & ->)]].
          -- left. apply cv_message; assumption.
          -- right. left. exists (lines_of o1 ++ o'), t. split; [apply cv_message; assumption|]. split; [reflexivity|]. rewrite K2, app_assoc. reflexivity.
          -- right. right. split; [apply cv_message; assumption|reflexivity].
      + apply handler_lines in E1. destruct E1 as (N & T). split; [auto|]. rewrite Hh in T. inversion T; subst; try congruence.
        * left. apply cv_last; [assumption|congruence].
        * right. left. exists [], t. split; [constructor|]. split; [reflexivity|reflexivity].
        * right. right. split; [constructor|reflexivity].
  Qed.

  Lemma hello_lines peerId infoHash s s' r o : handshakePeer_log e laddr txt peerId infoHash s = ((s', r), o) -> noerr r /\ seen_of o = [] /\ greeting laddr peerId infoHash (how_of r) (lines_of o).
  Proof.
    intros E. unfold handshakePeer_log in E. destruct (withHandShakeMsg peerId infoHash) as [msg|x|p] eqn:Em.
    2:{ unfold withHandShakeMsg in Em. destruct (_ || _); discriminate. }
    2:{ unfold withHandShakeMsg in Em. destruct (negb _ || negb _) eqn:El; [|discriminate]. injection Em as <-. apply wired_step in E.
        destruct E as [(a & Ea & _)|[(er & Ea & _)|[(m & Ea & Hh & N & ->)|(p & Ea & Hn & _)]]]; try discriminate; [|contradiction]. injection Ea as <-. split; [exact N|]. split; [reflexivity|]. rewrite Hh.
        apply gr_args. apply orb_true_iff in El. rewrite !negb_true_iff, !Nat.eqb_neq in El. unfold PeerIdLen, InfoHashLen in El. intuition congruence. }
    apply wired_step in E. destruct E as [(a & Ea & E)|[(er & Ea & _)|[(m & Ea & _)|(p & Ea & _)]]]; try discriminate. injection Ea as <-.
    apply lb in E. destruct E as [(s1 & ok & o1 & o2 & E1 & E & ->)|(r1 & E1 & Hh & Hg & Hn)].
    2:{ unfold quiet, m_write in E1. destruct (e_write e _); injection E1 as <- <- <-; cbn in *; try congruence. split; [apply Hn; exact I|]. split; [reflexivity|]. rewrite <- Hh. constructor. }
    unfold quiet in E1. injection E1 as E1 <-. cbn [app]. destruct ok; cbn [negb] in E.
    2:{ unfold cry in E. injection E as <- <- <-. split; [exact I|]. split; [reflexivity|]. apply (gr_err _ _ _ "write handshake err"). cbn. auto. }
    destruct (m_recv handShakeLen s1) as [s2 r2] eqn:E2. pose proof (recv_quiet _ _ _ _ E2) as Hq. destruct r2 as [d|x|p|x]; try contradiction.
    2:{ unfold cry in E. injection E as <- <- <-. split; [exact I|]. split; [reflexivity|]. apply (gr_err _ _ _ "get handshake response err"). cbn. auto. }
    assert (Hd : length d <= handShakeLen).
    { revert E2. unfold m_recv. change (handShakeLen =? 0) with false. cbv iota. destruct (f_script s1) as [|seg rest]; [discriminate|]. intros X. assert (d = firstn handShakeLen seg) as -> by congruence. rewrite firstn_length. lia. }
    set (hs := d ++ repeat (byte_of 0) (handShakeLen - length d)) in *.
    assert (Hl : length hs = handShakeLen) by (unfold hs; rewrite app_length, repeat_length; lia). clearbody hs.
    assert (Hp : nostr (parseHandShakeMsg hs) /\ forall x, parseHandShakeMsg hs <> Err x).
    { unfold parseHandShakeMsg. rewrite Hl, Nat.eqb_refl. cbn [negb].
      assert (G : forall i j, nostr (gslice hs i j)) by (intros i j; unfold gslice; destruct (_ && _); exact I). assert (G' : forall i j x, gslice hs i j <> Err x) by (intros i j x; unfold gslice; destruct (_ && _); discriminate).
      split.
      - apply ns_bind; [apply ns_idx|]. intros c. cbv zeta. do 4 (apply ns_bind; [apply G|]; intros ?). exact I.
      - intros x. assert (Bd : forall (A C : Type) (a : res A) (k : A -> res C), (forall y, a <> Err y) -> (forall y, k y <> Err x) -> bind a k <> Err x).
        { intros A C a k H1 H2. destruct a; cbn [bind]; [apply H2|exfalso; eapply H1; reflexivity|discriminate]. }
        apply Bd; [intros y; apply idx_noerr|]. intros c. cbv zeta. do 4 (apply Bd; [intros ?; apply G'|intros ?]). discriminate. }
    destruct Hp as [Hp Hp'].
    apply wired_step in E. destruct E as [(a & Ea & E)|[(er & Ea & _)|[(m & Ea & _)|(p & Ea & _ & Hdd & N & ->)]]]; [|exfalso; eapply Hp'; exact Ea|rewrite Ea in Hp; contradiction|split; [exact N|]; split; [reflexivity|]; rewrite Hdd; constructor].
    destruct (negb (EqualFold _ _ _)).
    { unfold cry in E. injection E as <- <- <-. split; [exact I|]. split; [reflexivity|]. apply (gr_peer _ _ _ "get handshake not support bittoroute protocol"). cbn. auto. }
    apply quiet_step in E; [|apply si_lift; [unfold SupportExtended; apply ns_bind; [apply ns_idx|intros; exact I]|intros y; unfold SupportExtended; pose proof (idx_noerr (hs_rbytes a) 5) as Q; destruct (idx (hs_rbytes a) 5); cbn [bind]; try discriminate; intros X; exfalso; eapply Q; reflexivity]].
    destruct E as [(s3 & ext & _ & E)|(-> & N & H)]; [|split; [exact N|]; split; [reflexivity|]; rewrite H; constructor].
    destruct ext; cbn [negb] in E; [unfold quiet, ret in E; injection E as <- <- <-; split; [exact I|]; split; [reflexivity|constructor]|].
    unfold cry in E. injection E as <- <- <-. split; [exact I|]. split; [reflexivity|]. apply (gr_peer _ _ _ "get handshake not support extended protocol"). cbn. auto.
  Qed.
  Lemma initial_lines peerId infoHash s s' r o : initialMessages_log e laddr txt s = ((s', r), o) -> noerr r /\ seen_of o = [] /\ greeting laddr peerId infoHash (how_of r) (lines_of o).
  Proof.
    intros E. unfold initialMessages_log in E. erewrite go_step in E by reflexivity.
    assert (H : exists msg, withExtendedhandShake (e_ford e (length (f_trace s))) (Some [(B "ut_metadata", VInt 1)]) None = Ok msg).
    { destruct (C53_extended_handshake_pf (e_ford e (length (f_trace s))) [(B "ut_metadata", VInt 1)] []) as (msg & Em & _); [apply go_valueb_ok; reflexivity|apply plainb_ok; reflexivity|apply go_valueb_ok; reflexivity|apply plainb_ok; reflexivity|apply Hord|]. exists msg. exact Em. }
    destruct H as (msg & Em). rewrite Em in E. apply wired_step in E. destruct E as [(a & Ea & E)|[(er & Ea & _)|[(m & Ea & _)|(p & Ea & _)]]]; try discriminate. injection Ea as <-.
    apply lb in E. destruct E as [(s1 & ok & o1 & o2 & E1 & E & ->)|(r1 & E1 & Hh & Hg & Hn)].
    - unfold quiet in E1. injection E1 as E1 <-. cbn [app]. destruct ok; [unfold quiet, ret in E; injection E as <- <- <-; split; [exact I|]; split; [reflexivity|constructor]|].
      unfold cry in E. injection E as <- <- <-. split; [exact I|]. split; [reflexivity|]. apply (gr_err _ _ _ "write extended handshake err"). cbn. auto.
    - unfold quiet, m_write in E1. destruct (e_write e _); injection E1 as <- <- <-; cbn in *; try congruence. split; [apply Hn; exact I|]. split; [reflexivity|]. rewrite <- Hh. constructor.
  Qed.

  Lemma si_merge is : forall acc, silent (quiet (merge e is acc)).
  Proof.
    induction is as [|i t IH]; intros acc s s' r o E; unfold quiet in E; cbn [merge] in E.
    - injection E as <- <- <-. cbn. auto.
    - unfold mbind in E. destruct (interfere e s) as [s1 r1] eqn:E1. assert (r1 = FOk tt) as -> by (unfold interfere in E1; destruct (e_intf _ _ _); injection E1 as _ <-; reflexivity).
      destruct (nth_error (f_meta s1) i) as [[b|]|]; [apply (IH _ s1 s' r o E)|apply (IH _ s1 s' r o E)|]. injection E as <- <- <-. cbn. auto.
  Qed.
  Lemma merge_size is : forall acc s s' r, merge e is acc s = (s', r) -> f_size s' = f_size s.
  Proof.
    induction is as [|i t IH]; intros acc s s' r E; cbn [merge] in E; [injection E as <- _; reflexivity|]. unfold mbind in E. destruct (interfere e s) as [s1 r1] eqn:E1.
    assert (f_size s1 = f_size s /\ r1 = FOk tt) as [Hs ->] by (unfold interfere in E1; destruct (e_intf _ _ _); injection E1 as <- <-; auto).
    destruct (nth_error (f_meta s1) i) as [[b|]|]; [rewrite <- Hs; eapply IH; exact E..|]. injection E as <- _. exact Hs.
  Qed.
  (** The whole body: the transcript, then at most one closing line. *)
  Lemma body_lines peerId infoHash s s' r o : fetch_body_log e laddr txt peerId infoHash s = ((s', r), o) ->
    exists how o1 o2, lines_of o = o1 ++ o2 /\ transcript laddr peerId infoHash how (seen_of o) o1 /\
      match r with
      | FOk _ => how = Goes /\ o2 = [fline laddr MInfo "chesum metadata match" [(B "infohash", VStr (hex infoHash))]]
      | FErr x => how = Goes /\ ((x = ENew (B "check sum err") /\ o2 = [fline laddr MError "chesum metadata not match" [(B "metasize", VInt (f_size s'))]]) \/
                                 (x = ENew (B "cannot completed download metadata") /\ o2 = []))
      | FPanic (PStr m) => how = Panics m /\ o2 = []
      | _ => (how = Goes \/ how = Dies) /\ o2 = []
      end.
  Proof.
    assert (G : forall (s s' : fstate) (r : fres unit) (r0 : fres bytes) o, noerr r /\ seen_of o = [] /\ greeting laddr peerId infoHash (how_of r) (lines_of o) -> how_of r = how_of r0 -> how_of r0 <> Goes -> (noerr r -> noerr r0) ->
      exists how o1 o2, lines_of o = o1 ++ o2 /\ transcript laddr peerId infoHash how (seen_of o) o1 /\
      match r0 with FOk _ => how = Goes /\ o2 = [fline laddr MInfo "chesum metadata match" [(B "infohash", VStr (hex infoHash))]]
      | FErr x => how = Goes /\ ((x = ENew (B "check sum err") /\ o2 = [fline laddr MError "chesum metadata not match" [(B "metasize", VInt (f_size s'))]]) \/ (x = ENew (B "cannot completed download metadata") /\ o2 = []))
      | FPanic (PStr m) => how = Panics m /\ o2 = [] | _ => (how = Goes \/ how = Dies) /\ o2 = [] end).
    { intros s0 s0' r1 r0 o0 (N & S & K) Hh Hg Hn. exists (how_of r0), (lines_of o0), []. rewrite app_nil_r, S. split; [reflexivity|]. split; [apply tr_greeting; [rewrite <- Hh; exact K|exact Hg]|].
      specialize (Hn N). destruct r0 as [d|x|[]|x]; cbn in *; try contradiction; try congruence; auto. }
    intros E. unfold fetch_body_log in E. apply lb in E. destruct E as [(s1 & u1 & o1 & o2 & E1 & E & ->)|(r1 & E1 & Hh & Hg & Hn)]; [|apply hello_lines in E1; eapply (G s); eassumption].
    apply hello_lines in E1. destruct E1 as (_ & S1 & K1). inversion K1 as [X1 L1| | | |]; clear K1. symmetry in L1.
    apply lb in E. destruct E as [(s2 & u2 & o3 & o4 & E2 & E & ->)|(r1 & E2 & Hh & Hg & Hn)].
    2:{ apply (initial_lines peerId infoHash) in E2. rewrite lines_app, seen_app, L1, S1. cbn [app]. eapply (G s); eassumption. }
    apply (initial_lines peerId infoHash) in E2. destruct E2 as (_ & S2 & K2). inversion K2 as [X2 L2| | | |]; clear K2. symmetry in L2.
    rewrite !lines_app, !seen_app, L1, L2, S1, S2. cbn [app].
    apply lb in E. destruct E as [(s3 & u3 & o5 & o6 & E3 & E & ->)|(r1 & E3 & Hh & Hg & Hn)].
    2:{ apply loop_lines in E3. destruct E3 as (N & K). exists (how_of r), (lines_of o4), []. rewrite app_nil_r. split; [reflexivity|]. rewrite Hh in K.
        split; [|specialize (Hn N); destruct r as [d|x|[]|x]; cbn in *; try contradiction; try congruence; auto].
        destruct K as [K|[(o' & t & K & -> & ->)|(K & ->)]]; [apply tr_talk; exact K|apply tr_broken; exact K|apply tr_dies; exact K]. }
    apply loop_lines in E3. destruct E3 as (_ & K). cbn [how_of] in K. assert (K' : conversation laddr Goes (seen_of o5) (lines_of o5)) by (destruct K as [K|[(o' & t & _ & K & _)|(_ & K)]]; [exact K|discriminate|discriminate]). clear K.
    rewrite lines_app, seen_app.
    assert (D : forall rest, seen_of rest = [] -> transcript laddr peerId infoHash Goes (seen_of o5 ++ seen_of rest) (lines_of o5)) by (intros rest Hr; rewrite Hr, app_nil_r; apply tr_talk; exact K').
    exists Goes, (lines_of o5), (lines_of o6). split; [reflexivity|].
    destruct (negb (CompledMetaData s3)); [injection E as <- <- <-; split; [apply (D []); reflexivity|auto 8]|].
    apply quiet_step in E; [|apply si_make]. destruct E as [(s4 & u4 & Ek & E)|(-> & N & H)].
    2:{ split; [apply (D []); reflexivity|]. destruct r as [d|x|[]|x]; cbn in *; try contradiction; try congruence; auto. }
    apply quiet_step in E; [|apply si_merge]. destruct E as [(s5 & d & Eg & E)|(-> & N & H)].
    2:{ split; [apply (D []); reflexivity|]. destruct r as [d|x|[]|x]; cbn in *; try contradiction; try congruence; auto. }
    apply merge_size in Eg. assert (s4 = s3) as -> by (unfold m_make in Ek; destruct (_ || _); [discriminate|]; destruct (e_mem _ _); congruence).
    destruct (negb (beq infoHash (GenerateInfoHash d))); apply say_step in E; destruct E as (o7 & E & ->); injection E as <- <- <-; (split; [apply D; reflexivity|]); split; try reflexivity. left. split; [reflexivity|]. unfold fetch_entry, fline. rewrite Eg. reflexivity.
  Qed.
End Lines.
