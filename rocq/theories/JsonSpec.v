(** JsonSpec: JSON texts and what they say (RFC 8259, RFC 3629, RFC 4648), independent of the
    model, and what the program's values mean as JSON (C86-C92). *)
From Coq Require Import Reals Floats.SpecFloat Permutation.
From Flocq Require Import Core IEEE754.BinarySingleNaN.
From Verif Require Import GoBase CanModel NmeaTypes NmeaModel NmeaSpec SignalkModel SignalkSpec ApiModel.
Open Scope Z_scope.
Open Scope list_scope.

(* ------------------------------------------------------------------ JSON values *)

(** A JSON value.  [JNum m e] is the number m * 10^e; texts are lists of Unicode code points;
    an object is the list of its members in the order of the text. *)
Inductive jv :=
| JNull | JBool (b : bool) | JNum (m e : Z) | JStr (cs : list Z)
| JArr (l : list jv) | JObj (ms : list (list Z * jv)).

(* ------------------------------------------------------------------ UTF-8 *)

(** [enc] is the UTF-8 encoding of the code point c (RFC 3629: surrogates have none). *)
Inductive utf8 : Z -> bytes -> Prop :=
| utf8_1 c : 0 <= c < 128 -> utf8 c [c]
| utf8_2 c : 128 <= c < 2048 -> utf8 c [192 + c / 64; 128 + c mod 64]
| utf8_3 c : 2048 <= c < 65536 -> ~ 55296 <= c < 57344 ->
    utf8 c [224 + c / 4096; 128 + c / 64 mod 64; 128 + c mod 64]
| utf8_4 c : 65536 <= c < 1114112 ->
    utf8 c [240 + c / 262144; 128 + c / 4096 mod 64; 128 + c / 64 mod 64; 128 + c mod 64].
(** A byte string that is valid UTF-8, and its code points. *)
Inductive utf8_text : bytes -> list Z -> Prop :=
| ut_end : utf8_text [] []
| ut_char c enc r cs : utf8 c enc -> utf8_text r cs -> utf8_text (enc ++ r) (c :: cs).
(** Any byte string read as text: every byte that does not start an encoded character counts
    as U+FFFD, the replacement character. *)
Inductive reads : bytes -> list Z -> Prop :=
| rd_end : reads [] []
| rd_char c enc r cs : utf8 c enc -> reads r cs -> reads (enc ++ r) (c :: cs)
| rd_bad b r cs : (forall c enc r', utf8 c enc -> b :: r <> enc ++ r') -> reads r cs ->
    reads (b :: r) (65533 :: cs).

(* ------------------------------------------------------------------ JSON texts *)

(** Number texts (RFC 8259 section 6): an optional minus, digits without superfluous leading
    zeros, an optional fraction and an optional exponent. *)
Definition number_text (s : bytes) (m e : Z) : Prop :=
  exists (neg : bool) ip fp fd ep x n,
    s = (if neg then [45] else []) ++ ip ++ fp ++ ep /\
    ip <> [] /\ (ip = [48] \/ forall r, ip <> 48 :: r) /\
    (fp = [] /\ fd = [] \/ fp = 46 :: fd /\ fd <> []) /\
    (ep = [] /\ x = 0 \/ exists c xd, (c = 101 \/ c = 69) /\ ep = c :: xd /\ int_text xd x) /\
    decimal (ip ++ fd) n /\ m = (if neg then - n else n) /\ e = x - zlen fd.

Definition hex_value (c v : Z) : Prop :=
  (48 <= c <= 57 /\ v = c - 48) \/ (97 <= c <= 102 /\ v = c - 87) \/ (65 <= c <= 70 /\ v = c - 55).
Definition hex4 (s : bytes) (v : Z) : Prop :=
  exists a b c d x y z w, s = [a; b; c; d] /\ hex_value a x /\ hex_value b y /\ hex_value c z /\ hex_value d w /\
    v = 4096 * x + 256 * y + 16 * z + w.
(** One character inside a JSON string (section 7). *)
Inductive char_text : bytes -> Z -> Prop :=
| ct_plain c enc : utf8 c enc -> 32 <= c -> c <> 34 -> c <> 92 -> char_text enc c
| ct_short x c : In (x, c) [(34, 34); (92, 92); (47, 47); (98, 8); (102, 12); (110, 10); (114, 13); (116, 9)] ->
    char_text [92; x] c
| ct_hex h c : hex4 h c -> ~ 55296 <= c < 57344 -> char_text (92 :: 117 :: h) c
| ct_pair h l a b : hex4 h a -> hex4 l b -> 55296 <= a < 56320 -> 56320 <= b < 57344 ->
    char_text ((92 :: 117 :: h) ++ (92 :: 117 :: l)) (65536 + 1024 * (a - 55296) + (b - 56320)).
Inductive chars_text : bytes -> list Z -> Prop :=
| cs_end : chars_text [] []
| cs_char s c r cs : char_text s c -> chars_text r cs -> chars_text (s ++ r) (c :: cs).
Definition string_text (s : bytes) (cs : list Z) : Prop := exists b, s = [34] ++ b ++ [34] /\ chars_text b cs.

(** Insignificant white space (section 2). *)
Definition blank_text (w : bytes) : Prop := Forall (fun c => In c [32; 9; 10; 13]) w.

(** [json s v]: the text s is the JSON value v. *)
Inductive json : bytes -> jv -> Prop :=
| js_null : json (str "null") JNull
| js_true : json (str "true") (JBool true)
| js_false : json (str "false") (JBool false)
| js_num s m e : number_text s m e -> json s (JNum m e)
| js_str s cs : string_text s cs -> json s (JStr cs)
| js_arr0 w : blank_text w -> json ([91] ++ w ++ [93]) (JArr [])
| js_arr s l : l <> [] -> items s l -> json ([91] ++ s ++ [93]) (JArr l)
| js_obj0 w : blank_text w -> json ([123] ++ w ++ [125]) (JObj [])
| js_obj s l : l <> [] -> members s l -> json ([123] ++ s ++ [125]) (JObj l)
with items : bytes -> list jv -> Prop :=
| it_one w s w' v : blank_text w -> json s v -> blank_text w' -> items (w ++ s ++ w') [v]
| it_cons w s w' v r l : blank_text w -> json s v -> blank_text w' -> items r l ->
    items ((w ++ s ++ w') ++ [44] ++ r) (v :: l)
with members : bytes -> list (list Z * jv) -> Prop :=
| me_one k s v : member k s v -> members s [(k, v)]
| me_cons k s v r l : member k s v -> members r l -> members (s ++ [44] ++ r) ((k, v) :: l)
with member : list Z -> bytes -> jv -> Prop :=
| mb w1 k ks w2 w3 s w4 v : blank_text w1 -> string_text k ks -> blank_text w2 -> blank_text w3 -> json s v -> blank_text w4 ->
    member ks (w1 ++ k ++ w2 ++ [58] ++ w3 ++ s ++ w4) v.

(* ------------------------------------------------------------------ what values mean *)

(** Base 64 (RFC 4648 section 4, with padding). *)
Definition b64_digit (v c : Z) : Prop :=
  (0 <= v < 26 /\ c = 65 + v) \/ (26 <= v < 52 /\ c = 97 + (v - 26)) \/ (52 <= v < 62 /\ c = 48 + (v - 52)) \/
  (v = 62 /\ c = 43) \/ (v = 63 /\ c = 47).
Inductive base64 : bytes -> bytes -> Prop :=
| b64_0 : base64 [] []
| b64_1 a v w c d : 16 * a = 64 * v + w -> b64_digit v c -> b64_digit w d -> base64 [a] [c; d; 61; 61]
| b64_2 a b u v w c d e : 4 * (256 * a + b) = 4096 * u + 64 * v + w ->
    b64_digit u c -> b64_digit v d -> b64_digit w e -> base64 [a; b] [c; d; e; 61]
| b64_3 a b c u v w x d e f g r t : 65536 * a + 256 * b + c = 262144 * u + 4096 * v + 64 * w + x ->
    b64_digit u d -> b64_digit v e -> b64_digit w f -> b64_digit x g -> base64 r t ->
    base64 (a :: b :: c :: r) (d :: e :: f :: g :: t).

(** RFC 3339 text with the fraction of a second, trailing zeros and an empty fraction left out. *)
Definition fraction_text (ns : Z) (f : bytes) : Prop :=
  (ns = 0 /\ f = []) \/
  (exists fd n, f = 46 :: fd /\ decimal fd n /\ ns = n * 10 ^ (9 - zlen fd) /\ zlen fd <= 9 /\ forall r, fd <> r ++ [48]).
Definition time_text (y m d s ns tz : Z) (t : bytes) : Prop :=
  exists Y M D h mi sc f z, digits 4 y Y /\ digits 2 m M /\ digits 2 d D /\
    digits 2 (s / 3600) h /\ digits 2 (s mod 3600 / 60) mi /\ digits 2 (s mod 60) sc /\ fraction_text ns f /\
    t = Y ++ str "-" ++ M ++ str "-" ++ D ++ str "T" ++ h ++ str ":" ++ mi ++ str ":" ++ sc ++ f ++ z /\
    (tz = 0 /\ z = str "Z" \/
     tz <> 0 /\ exists H I, digits 2 (Z.abs tz / 3600) H /\ digits 2 (Z.abs tz mod 3600 / 60) I /\
       z = (if tz <=? -60 then str "-" else str "+") ++ H ++ str ":" ++ I).
(** The text of the instant sec, ns (since 1970 UTC) on a clock tz seconds east of UTC. *)
Definition instant_text (tz sec ns : Z) (t : bytes) : Prop :=
  exists y m d, calendar ((sec + tz) / 86400) y m d /\ 0 <= y <= 9999 /\
    time_text y m d ((sec + tz) mod 86400) ns tz t.

(** The number m * 10^e. *)
Definition ten_to (m e : Z) : R := (IZR m * powerRZ 10 e)%R.

(** The meaning of a decoded value: absent values are null, integers are themselves, a floating
    point value is a number whose nearest double (single) it is, texts are their characters,
    octets are base 64 texts (no octets may also be null) and instants are RFC 3339 texts on the local clock. *)
Inductive jmeans (tz : Z) : gval -> jv -> Prop :=
| jm_nil : jmeans tz VNil JNull
| jm_u64 n : jmeans tz (VUint64 n) (JNum n 0)
| jm_i8 n : jmeans tz (VInt8 n) (JNum n 0)
| jm_i16 n : jmeans tz (VInt16 n) (JNum n 0)
| jm_i32 n : jmeans tz (VInt32 n) (JNum n 0)
| jm_i64 n : jmeans tz (VInt64 n) (JNum n 0)
| jm_f32 x m e : float_is x (nearest32 (ten_to m e)) -> jmeans tz (VFloat32 x) (JNum m e)
| jm_f64 x m e : float_is x (nearest64 (ten_to m e)) -> jmeans tz (VFloat64 x) (JNum m e)
| jm_text s cs : reads s cs -> jmeans tz (VString s) (JStr cs)
| jm_no_bytes : jmeans tz (VBytes []) JNull
| jm_bytes s t : base64 s t -> jmeans tz (VBytes s) (JStr t)
| jm_time sec ns t : instant_text tz sec ns t -> jmeans tz (VTime sec ns) (JStr t).

(** The meaning of a delta written at the instant (sec, ns). *)
Definition value_means (tz : Z) (x : skvalue) (v : jv) : Prop :=
  exists p w, reads (v_path x) p /\ jmeans tz (v_value x) w /\ v = JObj [(str "path", JStr p); (str "value", w)].
Definition update_means (tz sec ns : Z) (u : update) (v : jv) : Prop :=
  exists dev t vs, reads (u_device u) dev /\ instant_text tz sec ns t /\ Forall2 (value_means tz) (u_values u) vs /\
    v = JObj [(str "source", JObj [(str "pgn", JNum (u_pgn u) 0); (str "device", JStr dev); (str "src", JNum (u_src u) 0)]);
              (str "timestamp", JStr t); (str "values", JArr vs)].
Definition delta_means (tz sec ns : Z) (d : delta) (v : jv) : Prop :=
  exists c us, reads (d_context d) c /\ Forall2 (update_means tz sec ns) (d_updates d) us /\
    v = JObj [(str "context", JStr c); (str "updates", JArr us)].

(** The numeral of a number that is not negative, as people write it. *)
Definition numeral (n : Z) (s : bytes) : Prop := decimal s n /\ (s = [48] \/ forall r, s <> 48 :: r).
(** The meaning of a parsed message received at the instant (sec, ns). *)
Definition header_means (tz sec ns : Z) (h : raw_message) (v : jv) : Prop :=
  exists t d, instant_text tz sec ns t /\ jmeans tz (VBytes (rm_data h)) d /\
    v = JObj [(str "Timestamp", JStr t); (str "Priority", JNum (rm_priority h) 0); (str "Pgn", JNum (rm_pgn h) 0);
              (str "Source", JNum (rm_source h) 0); (str "Destination", JNum (rm_dest h) 0);
              (str "Length", JNum (rm_length h) 0); (str "Data", d)].
(** Every field of the message is a member, named by its number. *)
Definition data_means (tz : Z) (data : dmap) (ms : list (list Z * jv)) : Prop :=
  exists fields, Permutation fields data /\
    Forall2 (fun kv m => numeral (fst kv) (fst m) /\ jmeans tz (snd kv) (snd m)) fields ms.
Definition message_means (tz sec ns : Z) (p : parsed) (v : jv) : Prop :=
  exists h ms, header_means tz sec ns (pm_header p) h /\ data_means tz (pm_data p) ms /\
    v = JObj [(str "Header", h); (str "Index", JNum (pm_index p) 0); (str "Data", JObj ms)].

(** The meaning of an entry of the message index, and of the index (none: null). *)
Definition entry_means (e : index_entry) (v : jv) : Prop :=
  exists name cat typ link, reads (str (ie_name e)) name /\ reads (str (ie_category e)) cat /\
    reads (str (ie_type e)) typ /\ reads (ie_details e) link /\
    v = JObj [(str "Pgn", JNum (ie_pgn e) 0); (str "Name", JStr name); (str "Category", JStr cat);
              (str "Verified", JBool (ie_verified e)); (str "Size", JNum (ie_size e) 0);
              (str "RepeatingFields", JNum (ie_repeating e) 0); (str "Type", JStr typ); (str "@Details", JStr link)].
Definition index_means (l : list index_entry) (v : jv) : Prop :=
  (l = [] /\ v = JNull) \/ (l <> [] /\ exists vs, Forall2 entry_means l vs /\ v = JArr vs).
