(** Json.v -- the texts made with encoding/json: misc/strings.go:10-25 (ToString), dht/krpc/messages.go:65-72 and
    :124-131 (String of responses and requests), and what the console logger makes of them (misc/logger.go:203-223).

    json.Marshal is modelled from the source of encoding/json (encode.go: string with HTML escaping, mapEncoder,
    arrayEncoder, intEncoder) as in the releases up to Go 1.21 (later ones write \b and \f for bytes 8 and 12).
    Values are those of Bencode.v; other kinds of values ([VOther]) and cyclic maps are not modelled. *)
From Verif Require Import Base GoLib Bencode Types Logger Krpc ZapLog FileSys.
Local Open Scope list_scope.

(** encode.go, func (e *encodeState) string, a byte below 128. *)
Definition jesc_ascii (c : byte) : bytes :=
  if ((bval c =? 34) || (bval c =? 92))%N then [bslash; c]
  else if (bval c =? 10)%N then bslash :: B "n"
  else if (bval c =? 13)%N then bslash :: B "r"
  else if (bval c =? 9)%N then bslash :: B "t"
  else if ((bval c <? 32) || (bval c =? 60) || (bval c =? 62) || (bval c =? 38))%N then bslash :: B "u00" ++ hex_byte c
  else [c].
(** The rest of that function: invalid bytes, and the separators U+2028 and U+2029. *)
Fixpoint jesc_fuel (fuel : nat) (s : bytes) : bytes :=
  match fuel, s with
  | S f, c :: t =>
      if (bval c <? 128)%N then jesc_ascii c ++ jesc_fuel f t
      else let (r, n) := decode_rune s in
           if ((r =? RuneError)%N && (n =? 1))%nat then bslash :: B "ufffd" ++ jesc_fuel f t
           else if ((r =? 8232) || (r =? 8233))%N then bslash :: B "u202" ++ [hexdigit (r mod 16)] ++ jesc_fuel f (skipn n s)
           else firstn n s ++ jesc_fuel f (skipn n s)
  | _, _ => []
  end.
Definition jquoted (s : bytes) : bytes := quote :: jesc_fuel (length s) s ++ [quote].

(** mapEncoder: the keys are sorted. *)
Fixpoint kinsert {A} (x : bytes * A) (l : list (bytes * A)) : list (bytes * A) :=
  match l with [] => [x] | y :: t => if name_leb (fst x) (fst y) then x :: y :: t else y :: kinsert x t end.
Definition ksort {A} (l : list (bytes * A)) : list (bytes * A) := fold_right kinsert [] l.
Fixpoint jjoin (l : list bytes) : bytes :=
  match l with [] => [] | [x] => x | x :: t => x ++ B "," ++ jjoin t end.
Definition jentry (e : bytes * bytes) : bytes := jquoted (fst e) ++ B ":" ++ snd e.

(** json.Marshal *)
Fixpoint json (v : val) : bytes :=
  match v with
  | VInt z => itoa z
  | VStr s => jquoted s
  | VList l => B "[" ++ jjoin (map json l) ++ B "]"
  | VDict d => B "{" ++ jjoin (map jentry (ksort (map (fun e => (fst e, json (snd e))) d))) ++ B "}"
  | VNilList | VNilDict | VNil => B "null"
  | VOther _ => []
  end.

(** misc/strings.go:10-25 on such a value *)
Definition text_of (v : val) : bytes := match v with VStr s => s | _ => json v end.

(** dht/krpc/messages.go:65-72 *)
Definition resp_String (r : response) : res bytes := do d <- resp_RawData r; Ok (json (VDict d)).
(** dht/krpc/messages.go:124-131: the fields of BaseRequest (:83-88) are not exported, so json.Marshal sees none. *)
Definition req_String {H} (r : request H) : bytes := B "{}".

(** misc/logger.go:203-223: the context of a call, in iteration order. *)
Definition ctx_of (d : gdict) : context :=
  match d with None => None | Some l => Some (map (fun e => (fst e, text_of (snd e))) l) end.
(** dht/dht.go:11 *)
Definition dhtLogger : clogger := SetPrefix (snd (GetLogger registry0 [])) (B "dht").
(** dht/requesthandler.go:12-13: what the crawler prints for a ping query. *)
Definition ping_log (now txId : bytes) : bytes := fst (Info now dhtLogger (B "get ping request") (ctx_of (Some [(B "txId", VStr txId)]))).

Example jt1 : json (VDict [(B "b", VList [VInt (-5); VStr (B "a<" ++ [byte_of 10; byte_of 255])]); (B "a", VNilDict)]) =
  map (fun c => if Ascii.eqb c "'" then quote else c) (B "{'a':null,'b':[-5,'a\u003c\n\ufffd']}").
Proof. vm_compute. reflexivity. Qed.
