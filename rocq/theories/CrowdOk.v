(** CrowdOk.v -- what a download does with the buffers it has taken, seen from the tree alone. *)
From Verif Require Import Base GoLib Bencode BencodeSpec BencodeProofs BencodePf Types TypesPf Krpc KrpcProofs BytesPool BytesPoolPf Sha1 PeerWire PeerWirePf Fetch FetchSpec FetchProofs FetchPf SessionSpec SessionProofs SessionRun ShareSpec ShareProofs Crowd CrowdSim.
From Verif Require Import BytesPool.
Local Open Scope list_scope.

(** The buffers in its hands, the last one taken first, each with the bytes it is known to begin with. *)
Definition hand := list (slc * bytes).
Definition sees (W : hand) (b : slc) (x : bytes) : Prop :=
  match W with (b', d) :: _ => s_arr b' = s_arr b -> s_off b' = s_off b -> firstn (length d) x = firstn (Z.to_nat (s_len b)) d | [] => True end.

(** It takes at most [m] more big buffers, gives back and fills only the buffer it took last, and
    ends with [Q]. *)
Fixpoint okp {A} (m : nat) (W : hand) (t : tree A) (Q : nat -> hand -> fstate -> fres A -> Prop) : Prop :=
  match t with
  | TDone s r => Q m W s r
  | TGet big k => exists m', m = (if big then S m' else m') /\
      forall b, s_len b = (if big then 32768 else 4)%Z -> s_cap b = (if big then 32768 else 4)%Z -> (0 <= s_off b)%Z -> okp m' ((b, []) :: W) (k b) Q
  | TPut b k => match W with (b', _) :: W' => full_slice b' = full_slice b /\ okp m W' k Q | [] => False end
  | TRead b d k => match W with (b', _) :: W' => b' = b /\ (Z.of_nat (length d) <= s_cap b)%Z /\ okp m ((b, d) :: W') k Q | [] => False end
  | TWait k => okp m W k Q
  | TShow b k => match W with (b', _) :: _ => s_arr b' = s_arr b | [] => False end /\ forall x, sees W b x -> okp m W (k x) Q
  | TLook b k => forall x, okp m W (k x) Q
  end.

Lemma okp_bind {A C} (t : tree A) (k : fstate -> fres A -> tree C) Q Q' : forall m W,
  okp m W t Q -> (forall m' W' s r, Q m' W' s r -> okp m' W' (k s r) Q') -> okp m W (tbind t k) Q'.
Proof.
  induction t as [s r|big f IH|b f IH|b d f IH|f IH|b f IH|b f IH]; intros m W H Hk; cbn [tbind okp] in *.
  - apply Hk, H.
  - destruct H as (m' & -> & H). exists m'. split; [reflexivity|]. intros b H1 H2 H3. apply IH; [apply H; assumption|exact Hk].
  - destruct W as [|[b' x] W]; [exact H|]. destruct H as [H1 H2]. split; [exact H1|]. apply IH; assumption.
  - destruct W as [|[b' x] W]; [exact H|]. destruct H as (H1 & H2 & H3). split; [exact H1|]. split; [exact H2|]. apply IH; assumption.
  - apply IH; assumption.
  - destruct H as [H1 H]. split; [exact H1|]. intros x Hx. apply IH; [apply H, Hx|exact Hk].
  - intros x. apply IH; [apply H|exact Hk].
Qed.
Definition onok {A} (Q : nat -> hand -> fstate -> A -> Prop) : nat -> hand -> fstate -> fres A -> Prop :=
  fun m W s r => match r with FOk a => Q m W s a | _ => True end.
Lemma okp_seq {A C} (t : T A) (k : A -> T C) Q Q' m W s :
  okp m W (t s) (onok Q) -> (forall m' W' s a, Q m' W' s a -> okp m' W' (k a s) (onok Q')) -> okp m W (tseq t k s) (onok Q').
Proof. intros H Hk. unfold tseq. eapply okp_bind; [exact H|]. intros m' W' s' [a|x|x|x] HQ; [apply Hk, HQ|exact I..]. Qed.
Lemma okp_local {A} (f : M A) (Q : nat -> hand -> fstate -> A -> Prop) m W s : (forall s' a, f s = (s', FOk a) -> Q m W s' a) -> okp m W (local f s) (onok Q).
Proof. intros H. unfold local. destruct (f s) as [s' [a|x|x|x]]; cbn; auto. Qed.

(** Private parts do not receive. *)
Definition mute {A} (m : M A) : Prop := forall s, f_script (fst (m s)) = f_script s.
Lemma mute_bind {A C} (m : M A) (k : A -> M C) : mute m -> (forall a, mute (k a)) -> mute (mbind m k).
Proof. intros Hm Hk s. unfold mbind. specialize (Hm s). destruct (m s) as [s' [a|x|x|x]]; cbn [fst] in *; [rewrite Hk|..]; exact Hm. Qed.
Lemma mute_const {A} (r : fres A) : mute (fun s => (s, r)). Proof. intros s. reflexivity. Qed.
Lemma mute_write e bs : mute (m_write e bs).
Proof. intros s. unfold m_write. destruct (e_write e (length (f_trace s))); reflexivity. Qed.
Lemma mute_make e a n : mute (m_make e a n).
Proof. intros s. unfold m_make. destruct (_ || _); [reflexivity|]. destruct (e_mem e (a * n)); reflexivity. Qed.
Lemma mute_requests e is : mute (request_pieces e is).
Proof.
  induction is as [|i t IH]; cbn [request_pieces]; [apply mute_const|]. apply mute_bind; [intros s; reflexivity|]. intros ord.
  apply mute_bind; [apply mute_const|]. intros msg. apply mute_bind; [apply mute_write|]. intros [|]; [exact IH|apply mute_const].
Qed.
Lemma mute_on_data e b data : mute (on_data e b data).
Proof.
  unfold on_data. apply mute_bind; [apply mute_const|]. intros ty. destruct (ty =? ExtendedPeerMsg)%N; [|apply mute_const].
  unfold handleExtendedMsg. apply mute_bind; [apply mute_const|]. intros id. destruct (bval id =? 0)%N; [|destruct (bval id =? 1)%N; [|apply mute_const]].
  - unfold handle_ext_handshake. apply mute_bind; [apply mute_const|]. intros dict. destruct (negb _); [apply mute_const|].
    apply mute_bind; [apply mute_const|]. intros sz. apply mute_bind; [intros s; reflexivity|]. intros _. cbv zeta.
    apply mute_bind; [apply mute_make|]. intros _. apply mute_bind; [intros s; reflexivity|]. intros _.
    apply mute_bind; [apply mute_make|]. intros _. apply mute_bind; [intros s; reflexivity|]. intros _. apply mute_requests.
  - unfold handle_piece. apply mute_bind; [apply mute_const|]. intros m. destruct (negb _); [apply mute_const|]. cbv zeta.
    intros s. destruct (_ || _); [reflexivity|]. destruct (_ <=? _)%Z; reflexivity.
Qed.
Lemma mute_initial e : mute (initialMessages e).
Proof.
  apply mute_bind; [intros s; reflexivity|]. intros ord. apply mute_bind; [apply mute_const|]. intros msg. apply mute_bind; [apply mute_write|].
  intros [|]; apply mute_const.
Qed.

(** * Any peer *)
Lemma okp_get (big : bool) m W s (Q : nat -> hand -> fstate -> slc -> Prop) : (forall b, s_len b = (if big then 32768 else 4)%Z -> s_cap b = (if big then 32768 else 4)%Z -> (0 <= s_off b)%Z -> Q m ((b, []) :: W) (ticked s) b) ->
  okp (if big then S m else m) W (t_get big s) (onok Q).
Proof. intros H. cbn [t_get okp]. exists m. split; [destruct big; reflexivity|]. exact H. Qed.
Lemma okp_put b b' d m W s (Q : nat -> hand -> fstate -> unit -> Prop) : full_slice b' = full_slice b -> Q m W (ticked s) tt -> okp m ((b', d) :: W) (t_put b s) (onok Q).
Proof. intros E H. cbn [t_put okp]. split; [exact E|exact H]. Qed.
(** A read that delivers. *)
Lemma okp_read b d0 m W s (Q : nat -> hand -> fstate -> nat -> Prop) : s_len b = s_cap b -> (0 < s_cap b)%Z ->
  (forall seg rest, f_script s = seg :: rest -> let w := Z.to_nat (s_cap b) in
    forall s', f_script s' = (match skipn w seg with [] => rest | l => l :: rest end) -> Q m ((b, firstn w seg) :: W) s' (length (firstn w seg))) ->
  okp m ((b, d0) :: W) (t_read b s) (onok Q).
Proof.
  intros El Hc H. unfold t_read, m_recv. rewrite El. destruct (Nat.eqb_spec (Z.to_nat (s_cap b)) 0); [lia|]. cbn [ticked f_script].
  destruct (f_script s) as [|seg rest]; [exact I|]. cbn [okp]. split; [reflexivity|]. split; [rewrite firstn_length; lia|].
  cbn [onok]. apply (H seg rest eq_refl). cbn [set_io f_script]. destruct (skipn (Z.to_nat (s_cap b)) seg); reflexivity.
Qed.

Lemma okp_readBytes m W s : okp (S m) W (c_readBytes s) (onok (fun m' W' s' a =>
  m <= m' /\ match a with None => True | Some b => exists b0 d, W' = (b0, d) :: W /\ full_slice b0 = full_slice b end)).
Proof.
  unfold c_readBytes. eapply (okp_seq _ _ (fun m' W' s' b => m' = S m /\ W' = (b, []) :: W /\ s_len b = 4%Z /\ s_cap b = 4%Z)); [apply (okp_get false); auto|].
  intros m1 W1 s1 pre (-> & -> & L1 & C1).
  eapply (okp_seq _ _ (fun m' W' s' _ => m' = S m /\ exists d, W' = (pre, d) :: W)); [apply okp_read; [congruence|lia|]; intros seg rest _ w s' _; split; [reflexivity|]; eauto|].
  intros m2 W2 s2 _ (-> & d & ->).
  eapply (okp_seq _ _ (fun m' W' s' _ => m' = S m /\ W' = (pre, d) :: W)); [split; [reflexivity|]; intros x _; split; reflexivity|].
  intros m3 W3 s3 bs (-> & ->).
  eapply (okp_seq _ _ (fun m' W' s' _ => m' = S m /\ W' = (pre, d) :: W)); [apply okp_local; auto|].
  intros m4 W4 s4 n (-> & ->). destruct (n =? 0)%N.
  { apply okp_local. intros s' a E. injection E as _ <-. split; [lia|exact I]. }
  eapply (okp_seq _ _ (fun m' W' s' _ => m' = S m /\ W' = W)); [apply okp_put; auto|].
  intros m5 W5 s5 _ (-> & ->). destruct (_ <? _)%N; [apply okp_local; intros s' a E; discriminate|].
  eapply (okp_seq _ _ (fun m' W' s' b => m' = m /\ W' = (b, []) :: W /\ s_len b = 32768%Z /\ s_cap b = 32768%Z)); [apply (okp_get true); auto|].
  intros m6 W6 s6 buf (-> & -> & L6 & C6).
  eapply (okp_seq _ _ (fun m' W' s' _ => m' = m /\ exists d, W' = (buf, d) :: W)); [apply okp_read; [congruence|lia|]; intros seg rest _ w s' _; split; [reflexivity|]; eauto|].
  intros m7 W7 s7 k (-> & d7 & ->). apply okp_local. intros s' a E. injection E as _ <-. split; [lia|]. exists buf, d7. split; reflexivity.
Qed.

Lemma okp_with_put e b b0 d m W s (Q : nat -> hand -> fstate -> unit -> Prop) : full_slice b0 = full_slice b -> (forall s' W', f_script s' = f_script s -> Q m W' s' tt) ->
  okp m ((b0, d) :: W) (c_with_put b (c_handle e b) s) (onok Q).
Proof.
  intros E H. unfold c_with_put. apply (okp_bind _ _ (fun m' W' s' r => m' = m /\ W' = (b0, d) :: W /\ (r = FOk tt -> f_script s' = f_script s))).
  - unfold c_handle, tseq, t_show. cbn [tbind okp]. split; [apply (f_equal s_arr) in E; exact E|]. intros x _. unfold local. pose proof (mute_on_data e b x s) as Hm.
    destruct (on_data e b x s) as [s' r]. cbn [okp fst] in *. auto.
  - intros m' W' s' r (-> & -> & Hs). destruct r as [[]|x|x|x]; cbn [okp]; try exact I;
      (destruct (0 <? s_cap b)%Z; cbn [okp onok]; [split; [exact E|]|]); try exact I; apply H; cbn [ticked f_script]; auto.
Qed.

Lemma okp_handler e m W s : okp (S m) W (c_handler e s) (onok (fun m' _ _ _ => m <= m')).
Proof.
  unfold c_handler. eapply okp_bind; [apply okp_readBytes|]. intros m1 W1 s1 [[b|]|x|x|x] H; cbn [onok okp] in *; try exact I; destruct H as [H1 H2].
  - destruct H2 as (b0 & d & -> & E). apply okp_with_put; [exact E|]. auto.
  - exact H1.
Qed.
Lemma okp_loop e : forall f m W s, f <= m -> okp m W (c_loop e f s) (onok (fun _ _ _ _ => True)).
Proof.
  induction f as [|f IH]; intros m W s Hm; cbn [c_loop]; [exact I|]. destruct (_ && _); [|exact I]. destruct m as [|m]; [lia|].
  eapply okp_seq; [apply okp_handler|]. intros m1 W1 s1 a H. apply IH. cbn beta in H. lia.
Qed.
Lemma okp_merge m W : forall is acc s, okp m W (c_merge is acc s) (onok (fun _ _ _ _ => True)).
Proof.
  induction is as [|i t IH]; intros acc s; cbn [c_merge]; [exact I|]. destruct (nth_error (f_meta s) i) as [[b|]|]; cbn [okp]; [intros x; apply IH|apply IH|exact I].
Qed.
Lemma okp_rest e h m W s : okp m W ((fun s => if negb (CompledMetaData s) then TDone s (FErr (ENew (B "cannot completed download metadata"))) else
      (let+ _ := local (m_make e 1 (f_size s)) in
       let+ result := c_merge (seq 0 (length (f_req s))) [] in
       if negb (beq h (GenerateInfoHash result)) then local (lift (Err (ENew (B "check sum err")))) else local (ret result)) s) s) (onok (fun _ _ _ _ => True)).
Proof.
  cbv beta. destruct (negb (CompledMetaData s)); [exact I|]. eapply (okp_seq _ _ (fun _ _ _ _ => True)); [apply okp_local; auto|]. intros m1 W1 s1 _ _.
  eapply (okp_seq _ _ (fun _ _ _ _ => True)); [apply okp_merge|]. intros m2 W2 s2 res _. destruct (negb _); apply okp_local; auto.
Qed.

Definition whatever {A} : nat -> hand -> fstate -> fres A -> Prop := fun _ _ _ _ => True.

Lemma okp_end e m W peerId infoHash s0 : okp m W (c_body e peerId infoHash s0) (onok (fun _ _ _ _ => True)) ->
  okp m W (tbind (c_body e peerId infoHash s0) (fun s r =>
          match r with
          | FStop x => TDone s (FStop x)
          | FPanic _ => TDone (set_io s (f_script s) CClose) (FErr (ENew (B "FetchMetaData err")))
          | _ => TDone (set_io s (f_script s) CClose) r
          end)) whatever.
Proof. intros H. eapply okp_bind; [exact H|]. intros m1 W1 s1 [a|x|x|x] _; exact I. Qed.

(** A download takes finitely many big buffers, and uses only buffers it holds. *)
Lemma ok_fetch e peer peerId infoHash : exists m, okp m [] (c_fetch e peer peerId infoHash) whatever.
Proof.
  destruct peer as [script|]; [|exists 0; exact I]. unfold c_fetch. set (s0 := NewPeerConn _ _ _).
  destruct (handshakePeer e peerId infoHash s0) as [s1 r1] eqn:E1. exists (loop_fuel (f_script s1)). apply okp_end. unfold c_body.
  eapply (okp_seq _ _ (fun m W s _ => m = loop_fuel (f_script s1) /\ W = [] /\ s = s1)).
  { apply okp_local. intros s' a E. rewrite E1 in E. injection E as <- _. auto. }
  intros m W s _ (-> & -> & ->). eapply (okp_seq _ _ (fun m W s _ => m = loop_fuel (f_script s))).
  { apply okp_local. intros s' a E. pose proof (mute_initial e s1) as Hm. rewrite E in Hm. cbn [fst] in Hm. rewrite Hm. reflexivity. }
  intros m W s _ ->. eapply (okp_seq _ _ (fun _ _ _ _ => True)); [apply okp_loop; lia|]. intros m' W' s' _ _. apply okp_rest.
Qed.

(** * A peer whose messages come whole *)
Lemma okp_readBytes_framed m W s body rest : f_script s = frame body :: rest -> (N.of_nat (length body) < 2 ^ 32)%N ->
  okp (cost body + m) W (c_readBytes s) (onok (fun m' W' s' a =>
    m' = m /\ f_script s' = rest /\ match a with None => True | Some b => exists b0 d, W' = (b0, d) :: W /\ full_slice b0 = full_slice b end)).
Proof.
  intros Hs Hl. unfold c_readBytes. set (N := cost body + m).
  eapply (okp_seq _ _ (fun m' W' s' b => m' = N /\ W' = (b, []) :: W /\ f_script s' = f_script s /\ s_len b = 4%Z /\ s_cap b = 4%Z)); [apply (okp_get false); auto|].
  intros m1 W1 s1 pre (-> & -> & S1 & L1 & C1).
  eapply (okp_seq _ _ (fun m' W' s' _ => m' = N /\ W' = (pre, be32 (length body)) :: W /\ f_script s' = match body with [] => rest | _ => body :: rest end)).
  { apply okp_read; [congruence|lia|]. intros seg rest' Es w s' Hs'. rewrite S1, Hs in Es. injection Es as <- <-. subst w. rewrite C1 in Hs' |- *.
    change (Z.to_nat 4) with (length (be32 (length body))) in Hs' |- *. unfold frame in *. rewrite skipn_len_app in Hs'. rewrite firstn_app, firstn_all, Nat.sub_diag. cbn [firstn]. rewrite app_nil_r.
    split; [reflexivity|]. split; [reflexivity|]. destruct body; exact Hs'. }
  intros m2 W2 s2 _ (-> & -> & S2).
  eapply (okp_seq _ _ (fun m' W' s' x => m' = N /\ W' = (pre, be32 (length body)) :: W /\ s' = s2 /\ firstn 4 x = be32 (length body))).
  { split; [reflexivity|]. intros x Hx. cbn [sees] in Hx. specialize (Hx eq_refl eq_refl). rewrite L1 in Hx. change (Z.to_nat 4) with 4 in Hx. cbn [okp onok]. auto. }
  intros m3 W3 s3 bs (-> & -> & -> & Hbs).
  assert (Eu : Uint32 bs = Ok (N.of_nat (length body))) by (rewrite <- (firstn_skipn 4 bs), Hbs; apply Uint32_be32; exact Hl).
  eapply (okp_seq _ _ (fun m' W' s' n => m' = N /\ W' = (pre, be32 (length body)) :: W /\ s' = s2 /\ n = N.of_nat (length body))).
  { apply okp_local. intros s' a E. unfold lift in E. rewrite Eu in E. injection E as <- <-. auto. }
  intros m4 W4 s4 n (-> & -> & -> & ->). destruct (N.eqb_spec (N.of_nat (length body)) 0) as [Ez|Ez].
  { apply okp_local. intros s' a E. injection E as <- <-. destruct body; [|cbn in Ez; lia]. split; [reflexivity|]. split; [exact S2|exact I]. }
  assert (EN : N = S m) by (destruct body; [cbn in Ez; lia|reflexivity]). rewrite EN in *. clear N EN.
  eapply (okp_seq _ _ (fun m' W' s' _ => m' = S m /\ W' = W /\ f_script s' = f_script s2)); [apply okp_put; auto|].
  intros m5 W5 s5 _ (-> & -> & S5). change (Z.to_N maxReadLength) with 32768%N. destruct (N.ltb_spec 32768 (N.of_nat (length body))) as [Hb|Hb]; [apply okp_local; intros s' a E; discriminate|].
  eapply (okp_seq _ _ (fun m' W' s' b => m' = m /\ W' = (b, []) :: W /\ f_script s' = f_script s5 /\ s_len b = 32768%Z /\ s_cap b = 32768%Z)); [apply (okp_get true); auto|].
  intros m6 W6 s6 buf (-> & -> & S6 & L6 & C6).
  eapply (okp_seq _ _ (fun m' W' s' _ => m' = m /\ f_script s' = rest /\ exists d, W' = (buf, d) :: W)).
  { apply okp_read; [congruence|lia|]. intros seg rest' Es w s' Hs'. rewrite S6, S5, S2 in Es. destruct body as [|c body]; [cbn in Ez; lia|]. injection Es as <- <-.
    subst w. rewrite C6 in Hs' |- *. rewrite skipn_all2 in Hs' by (cbn [length] in *; lia). split; [reflexivity|]. split; [exact Hs'|]. eauto. }
  intros m7 W7 s7 k (-> & S7 & d7 & ->). apply okp_local. intros s' a E. injection E as <- <-. split; [reflexivity|]. split; [exact S7|]. exists buf, d7. split; reflexivity.
Qed.
Lemma okp_handler_framed e m W s body rest : f_script s = frame body :: rest -> (N.of_nat (length body) < 2 ^ 32)%N ->
  okp (cost body + m) W (c_handler e s) (onok (fun m' _ s' _ => m' = m /\ f_script s' = rest)).
Proof.
  intros Hs Hl. unfold c_handler. eapply okp_bind; [apply okp_readBytes_framed; eassumption|]. intros m1 W1 s1 [[b|]|x|x|x] H; cbn [onok okp] in *; try exact I; destruct H as (-> & S1 & H2).
  - destruct H2 as (b0 & d & -> & E). apply okp_with_put; [exact E|]. intros s' W' Hs'. rewrite Hs'. auto.
  - auto.
Qed.
Lemma okp_loop_framed e : forall bodies f W s, f_script s = map frame bodies -> Forall (fun m => (N.of_nat (length m) < 2 ^ 32)%N) bodies ->
  okp (spoken bodies) W (c_loop e f s) (onok (fun _ _ _ _ => True)).
Proof.
  induction bodies as [|body bodies IH]; intros f W s Hs Hl; (destruct f as [|f]; [exact I|]); cbn [c_loop]; (destruct (_ && _); [|exact I]).
  - unfold tseq, c_handler, c_readBytes, tseq, t_get. cbn [tbind okp]. exists 0. split; [reflexivity|]. intros b Eb _ _. unfold t_read, m_recv. cbn [ticked f_script]. rewrite Eb, Hs. exact I.
  - rewrite spoken_cons. apply Forall_cons_iff in Hl as [Hb Hl]. eapply okp_seq; [apply okp_handler_framed; [exact Hs|exact Hb]|].
    intros m1 W1 s1 a (-> & S1). apply IH; assumption.
Qed.

(** Of a peer whose messages come whole it takes one big buffer for each message that is not a keep-alive. *)
Lemma ok_fetch_framed e hs bodies peerId infoHash : length hs <= 68 -> Forall (fun m => (N.of_nat (length m) < 2 ^ 32)%N) bodies ->
  okp (spoken bodies) [] (c_fetch e (Some (hs :: map frame bodies)) peerId infoHash) whatever.
Proof.
  intros Hh Hl. unfold c_fetch. set (s0 := NewPeerConn _ _ _). apply okp_end. unfold c_body.
  eapply (okp_seq _ _ (fun m W s _ => m = spoken bodies /\ f_script s = map frame bodies)).
  { apply okp_local. intros s' a E. split; [reflexivity|]. unfold handshakePeer, mbind at 1, lift at 1 in E. destruct (withHandShakeMsg peerId infoHash) as [msg| |]; [|discriminate..].
    unfold mbind at 1, m_write in E. destruct (e_write e (length (f_trace s0))); cbn [negb] in E; [|discriminate..].
    unfold m_recv in E. change (handShakeLen =? 0) with false in E. cbv iota in E. cbn [s0 NewPeerConn set_io f_script] in E.
    rewrite skipn_all2 in E by (unfold handShakeLen; lia). unfold mbind, lift in E.
    destruct (parseHandShakeMsg _) as [hh| |]; [|discriminate..]. destruct (negb _); [discriminate|]. destruct (SupportExtended hh) as [ext| |]; [|discriminate..].
    destruct (negb ext); [discriminate|]. apply pair_equal_spec in E as [<- _]. reflexivity. }
  intros m W s _ (-> & Hs). eapply (okp_seq _ _ (fun m W s _ => m = spoken bodies /\ f_script s = map frame bodies)).
  { apply okp_local. intros s' a E. split; [reflexivity|]. pose proof (mute_initial e s) as Hm. rewrite E in Hm. cbn [fst] in Hm. congruence. }
  intros m' W' s' _ (-> & Hs'). eapply (okp_seq _ _ (fun _ _ _ _ => True)); [apply okp_loop_framed; assumption|]. intros m1 W1 s1 _ _. apply okp_rest.
Qed.
