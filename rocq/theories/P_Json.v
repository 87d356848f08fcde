(** P_Json.v -- property theorems (generated by tools/gen_p.py from JsonPf.v).
    Each statement is repeated in full and closed by [exact]. *)
From Coq Require Import Sorted.
From Verif Require Import Base GoLib FileSys Bencode BencodeSpec BencodeProofs BencodePf Types Logger ErrorsPf ZapLog ZapLogSpec ZapLogProofs ZapLogPf Krpc KrpcProofs Json JsonSpec JsonProofs.
Local Open Scope list_scope.
From Verif Require Import JsonPf.

(** C118: the text of every value is JSON that stands for it, with the bytes that are not UTF-8
    replaced by U+FFFD; the text of a UTF-8 value stands for exactly this value. *)
Theorem C118_json : forall v, plain v ->
  (exists v', repaired_value v v' /\ jtext (json v) v') /\ (utf8_value v -> jtext (json v) v).
Proof. exact C118_json_pf. Qed.
Print Assumptions C118_json.

(** C118: it is one line without control characters, whatever bytes the value holds. *)
Theorem C118_one_line : forall v, Forall (fun c => 32 <= bval c)%N (json v).
Proof. exact C118_one_line_pf. Qed.
Print Assumptions C118_one_line.

(** C118: it does not depend on the order in which the entries of a dictionary are visited. *)
Theorem C118_order_free : forall v v', go_value v -> veq v v' -> json v = json v'.
Proof. exact C118_order_free_pf. Qed.
Print Assumptions C118_order_free.

(** C118: values of UTF-8 strings with the same text are equal. *)
Theorem C118_faithful : forall v v', utf8_value v -> utf8_value v' -> json v = json v' -> veq v v'.
Proof. exact C118_faithful_pf. Qed.
Print Assumptions C118_faithful.

(** C118: the String of a response is the JSON text of the dictionary that is sent for it, and determines it. *)
Theorem C118_response : forall r r' d d', resp_RawData r = Ok d -> resp_RawData r' = Ok d' ->
  resp_String r = Ok (json (VDict d)) /\ (utf8_value (VDict d) -> jtext (json (VDict d)) (VDict d)) /\
  (utf8_value (VDict d) -> utf8_value (VDict d') -> resp_String r = resp_String r' -> deq d d').
Proof. exact C118_response_pf. Qed.
Print Assumptions C118_response.

(** C118: a console line stays one line if no plain string in it holds a line break: dictionaries, lists and numbers in the
    context cannot break it, whatever strings they hold. *)
Theorem C118_console_one_line : forall now c lvl msg d,
  let fine := Forall (fun b => 32 <= bval b)%N in
  fine now -> fine (lg_prefix c) -> fine lvl -> fine msg ->
  (forall k v, In (k, v) d -> fine k /\ match v with VStr s => fine s | _ => True end) ->
  exists t, print_line now c lvl msg (ctx_of (Some d)) = t ++ crlf /\ fine t.
Proof. exact C118_console_one_line_pf. Qed.
Print Assumptions C118_console_one_line.

(** C107: every line of a log file is a JSON object of the level, the time, the message and the fields, in this order, each
    standing for what was logged (bytes that are not UTF-8 replaced by U+FFFD). *)
Theorem C107_line_is_json : forall now m c msg ctx, (zl_level c <= zlevel m)%Z ->
  exists tl tm ts msg' fs, written now m c msg ctx =
      B "{" ++ commas (tl :: (byte_of 34 :: B "ts" ++ [byte_of 34] ++ B ":" ++ now) :: tm :: ts) ++ B "}" ++ [byte_of 10] /\
    jmember tl (B "level", VStr (match m with MDebug => B "debug" | MInfo => B "info" | MWarn => B "warn" | MError => B "error" | MPanic => B "panic" | MTrace => B "Level(10)" end)) /\
    jmember tm (B "msg", VStr msg') /\ repaired (zl_prefix c ++ msg) msg' /\ Forall2 jmember ts fs /\
    Forall2 (fun f f' => repaired (fst f) (fst f') /\ repaired_value (match snd f with JStr s => VStr s | JInt z => VInt z end) (snd f'))
      (match ctx with Some l => l | None => [] end) fs.
Proof. exact C107_line_is_json_pf. Qed.
Print Assumptions C107_line_is_json.

(** C118: an example: a reply whose dictionary is shown with its keys in order. *)
Theorem C118_example :
  let r := WithResponse (B "aa") (Some [(B "nodes", VStr (B "n<m")); (B "id", VStr (B "me"))]) in
  (exists d, resp_RawData r = Ok d /\ utf8_value (VDict d) /\ go_value (VDict d)) /\
  resp_String r = Ok (map (fun c => if Ascii.eqb c "'" then quote else c) (B "{'r':{'id':'me','nodes':'n\u003cm'},'t':'aa','y':'r'}")).
Proof. exact C118_example_pf. Qed.
Print Assumptions C118_example.

(** C118: the String of a request says nothing: it is the same for all. *)
Theorem C118_request_refuted : exists r r' : request nat, rq_tx r <> rq_tx r' /\ rq_type r <> rq_type r' /\ req_String r = req_String r'.
Proof. exact C118_request_refuted_pf. Qed.
Print Assumptions C118_request_refuted.

(** C118: responses with different ids can have the same String (ids are raw bytes). *)
Theorem C118_raw_bytes_refuted : exists a b, a <> b /\ length a = 20 /\ length b = 20 /\
  resp_String (WithResponse (B "aa") (Some [(B "id", VStr a)])) = resp_String (WithResponse (B "aa") (Some [(B "id", VStr b)])).
Proof. exact C118_raw_bytes_refuted_pf. Qed.
Print Assumptions C118_raw_bytes_refuted.

(** C118: console lines can be forged: for every line any logger of the crawler could print there is a ping query, of not
    much more bytes, for which the crawler prints the line of an ordinary ping followed by that line. *)
Theorem C118_forged_line_refuted : forall now now' c lvl msg ctx, length (print_line now' c lvl msg ctx) <= 400 ->
  exists packet d txId, length packet <= 600 /\ DecodeDict packet = Ok (Some d) /\
    dget d (B "y") = Some (VStr (B "q")) /\ dget d (B "q") = Some (VStr (B "ping")) /\ dget d (B "t") = Some (VStr txId) /\
    ping_log now txId = ping_log now (B "x") ++ print_line now' c lvl msg ctx.
Proof. exact C118_forged_line_refuted_pf. Qed.
Print Assumptions C118_forged_line_refuted.
