(** SessionSpec.v -- a download seen from the outside: which handshakes are accepted and how a
    sequence of messages from an arbitrary peer decides the outcome.  Written without the functions of
    Fetch.v and PeerWire.v; messages are described with the grammar of BencodeSpec.v. *)
From Verif Require Import Base Bencode BencodeSpec Fetch FetchSpec.
Local Open Scope list_scope.

(** ASCII letters compare without case. *)
Definition small (c : byte) : byte :=
  if ((65 <=? N_of_ascii c) && (N_of_ascii c <=? 90))%N then ascii_of_N (N_of_ascii c + 32) else c.
Definition names_bittorrent (name : bytes) : Prop := map small name = map small (B "BitTorrent protocol").

(** What arrived is taken as the 68 bytes of a handshake, missing bytes as zero: a length byte, the
    protocol name, eight reserved bytes - bit 4 of the sixth announces extensions - and forty bytes
    of which nothing is demanded. *)
Definition accepted (arrived : bytes) : Prop :=
  exists name a r5 b ids,
    firstn 68 (arrived ++ repeat (ascii_of_nat 0) 68) = ascii_of_nat 19 :: name ++ a ++ r5 :: b ++ ids /\
    names_bittorrent name /\ length a = 5 /\ length b = 2 /\ length ids = 40 /\ N.testbit (N_of_ascii r5) 4 = true.

(** The state of a download: the announced size, and for every piece its data once it has come. *)
Record sess := { announced : Z; slots : list (option bytes) }.
Definition first_contact : sess := {| announced := 0; slots := [None] |}.
Definition complete (s : sess) : Prop := forall x, In x (slots s) -> x <> None.
Definition content (s : sess) : bytes := concat (map (fun x => match x with Some b => b | None => [] end) (slots s)).

(** [hears s m s' asked]: the message m (without its length prefix) is understood; it changes the
    state to s' and makes the client ask for the pieces [asked]. *)
Inductive hears (s : sess) : bytes -> sess -> list nat -> Prop :=
| h_keepalive : hears s [] s []
| h_other c t : c <> ascii_of_nat 20 -> hears s (c :: t) s []
| h_extension c t : c <> ascii_of_nat 0 -> c <> ascii_of_nat 1 -> hears s (ascii_of_nat 20 :: c :: t) s []
| h_announce enc d u m size k :
    item enc (VDict d) [] u -> ends_with_e enc -> In (B "m", VDict m) d -> In (B "metadata_size", VInt size) d ->
    pieces_needed size (Z.of_nat k) -> (24 * Z.of_nat k <= 2 ^ 48)%Z ->
    hears s (ascii_of_nat 20 :: ascii_of_nat 0 :: enc) {| announced := size; slots := repeat None k |} (seq 0 k)
| h_data enc d payload u a x b :
    item enc (VDict d) payload u -> In (B "msg_type", VInt 1) d -> In (B "piece", VInt (Z.of_nat (length a))) d ->
    (payload <> [] -> exists t, In (B "total_size", VInt t) d) -> slots s = a ++ x :: b ->
    hears s (ascii_of_nat 20 :: ascii_of_nat 1 :: enc) {| announced := announced s; slots := a ++ Some payload :: b |} []
| h_not_data enc d payload u ty i :
    item enc (VDict d) payload u -> In (B "msg_type", VInt ty) d -> ty <> 1%Z -> In (B "piece", VInt i) d ->
    (payload <> [] -> exists t, In (B "total_size", VInt t) d) ->
    hears s (ascii_of_nat 20 :: ascii_of_nat 1 :: enc) s [].

(** The message m announces this size. *)
Definition announces (msg : bytes) (size : Z) : Prop :=
  exists enc d u m, msg = ascii_of_nat 20 :: ascii_of_nat 0 :: enc /\ item enc (VDict d) [] u /\ ends_with_e enc /\
    In (B "m", VDict m) d /\ In (B "metadata_size", VInt size) d.
(** No message announces more than one piece. *)
Definition small_only (bodies : list bytes) : Prop := forall m size, In m bodies -> announces m size -> (size <= 16384)%Z.
(** Messages that are not keep-alives. *)
Definition spoken (msgs : list bytes) : nat := length (filter (fun m => negb (length m =? 0)) msgs).

(** [session s msgs out asked]: how the messages are heard until all pieces are there (out = Some state),
    or until a message is not understood, is too long, or none is left (out = None). *)
Inductive session : sess -> list bytes -> option sess -> list nat -> Prop :=
| se_done s msgs : complete s -> session s msgs (Some s) []
| se_over s : ~ complete s -> session s [] None []
| se_hear s m s' asked t out more : ~ complete s -> length m <= Z.to_nat 32768 -> hears s m s' asked -> session s' t out more ->
    session s (m :: t) out (asked ++ more)
| se_fail s m t : ~ complete s -> Z.to_nat 32768 < length m \/ (forall s' asked, ~ hears s m s' asked) -> session s (m :: t) None [].

(** What the caller gets; [sum] is the checksum of the data. *)
Definition verdict (sum : bytes -> bytes) (infoHash : bytes) (out : option sess) (r : fres bytes) : Prop :=
  match out with
  | None => r = FErr (ENew (B "FetchMetaData err"))
  | Some s =>
      ((announced s < 0 \/ 2 ^ 48 < announced s)%Z -> r = FErr (ENew (B "FetchMetaData err"))) /\
      ((0 <= announced s <= 2 ^ 48)%Z ->
        (sum (content s) = infoHash -> r = FOk (content s)) /\ (sum (content s) <> infoHash -> r = FErr (ENew (B "check sum err"))))
  end.
(** U+FFFD, which stands for a byte that is not UTF-8, is no variant of an ASCII letter. *)
Definition sane_folding (uf : N -> N -> bool) : Prop := forall c, (c < 128)%N -> uf c 65533%N = false.
