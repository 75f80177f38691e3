(** TomlSpec: TOML texts (TOML 0.4, the part the configuration needs) and what a configuration
    file says (C101, C102).  Relations on the bytes, independent of the reader.

    Left out, see TomlModel: arrays, inline tables, floats, dates, multi-line strings and a few
    corners where releases of the library differ. *)
From Coq Require Import Permutation.
From Verif Require Import GoBase ApiSpec NmeaSpec JsonSpec ConfigModel ConfigSpec TomlModel.
Open Scope Z_scope.
Open Scope list_scope.

Definition blank (c : Z) : Prop := c = 32 \/ c = 9.
Definition newline (c : Z) : Prop := c = 10 \/ c = 13.
Definition blanks (w : bytes) : Prop := Forall blank w.
Definition bare_char (c : Z) : Prop := 65 <= c <= 90 \/ 97 <= c <= 122 \/ 48 <= c <= 57 \/ c = 95 \/ c = 45.

(* ------------------------------------------------------------------ strings, names, values *)

Inductive escape : bytes -> Z -> Prop :=
| es_b : escape (str "\b") 8 | es_t : escape (str "\t") 9 | es_n : escape (str "\n") 10
| es_f : escape (str "\f") 12 | es_r : escape (str "\r") 13 | es_q : escape [92; 34] 34
| es_s : escape (str "\\") 92
| es_u h n : hex4 h n -> escape (str "\u" ++ h) n
| es_U h m g n : hex4 h m -> hex4 g n -> escape (str "\U" ++ h ++ g) (65536 * m + n).
(** The inside of a string in double quotes, and the text it stands for. *)
Inductive string_body : bytes -> bytes -> Prop :=
| sb_end : string_body [] []
| sb_byte c r t : ~ newline c -> c <> 34 -> c <> 92 -> string_body r t -> string_body (c :: r) (c :: t)
| sb_escape e c enc r t : escape e c -> utf8 c enc -> string_body r t -> string_body (e ++ r) (enc ++ t).
Inductive string_text : bytes -> bytes -> Prop :=
| st_basic b t : string_body b t -> string_text ([34] ++ b ++ [34]) t
| st_raw b : Forall (fun c => ~ newline c /\ c <> 39) b -> string_text ([39] ++ b ++ [39]) b.
(** A name: bare or a string; not empty. *)
Inductive name_text : bytes -> bytes -> Prop :=
| nt_bare n : n <> [] -> Forall bare_char n -> name_text n n
| nt_string s n : string_text s n -> n <> [] -> name_text s n.
(** Values: integers have no leading zeros and fit into 64 bits. *)
Inductive value_text : bytes -> scalar -> Prop :=
| vt_string s t : string_text s t -> value_text s (TStr t)
| vt_int sg d m n : NmeaSpec.decimal d m -> d = [48] \/ (forall r, d <> 48 :: r) ->
    (sg = [] \/ sg = str "+") /\ n = m \/ sg = str "-" /\ n = - m -> - 2 ^ 63 <= n < 2 ^ 63 -> value_text (sg ++ d) (TInt n)
| vt_true : value_text (str "true") (TBool true)
| vt_false : value_text (str "false") (TBool false).
(** Names with dots between them. *)
Inductive names_text : bytes -> path -> Prop :=
| ns_one w s n w' : blanks w -> name_text s n -> blanks w' -> names_text (w ++ s ++ w') [n]
| ns_more w s n w' r p : blanks w -> name_text s n -> blanks w' -> names_text r p -> names_text (w ++ s ++ w' ++ [46] ++ r) (n :: p).

(* ------------------------------------------------------------------ documents *)

(** What may follow a statement and its blanks: the end, a line end or a comment. *)
Definition line_ends (r : bytes) : Prop := r = [] \/ exists c q, r = c :: q /\ (newline c \/ c = 35).
(** Two corners left open: an empty string at the very end of the text, and a truth value right
    before a comment. *)
Definition follows (v : scalar) (w r : bytes) : Prop :=
  (v = TStr [] -> w ++ r <> []) /\ ((exists b, v = TBool b) -> w = [] -> forall q, r <> 35 :: q).
Inductive document : bytes -> list stmt -> Prop :=
| dc_end : document [] []
| dc_blank c r l : blank c \/ newline c -> document r l -> document (c :: r) l
| dc_comment b r l : Forall (fun c => ~ newline c) b -> r = [] \/ (exists c q, r = c :: q /\ newline c) -> document r l ->
    document ([35] ++ b ++ r) l
| dc_head s p w r l : names_text s p -> blanks w -> line_ends r -> document r l ->
    document ([91] ++ s ++ [93] ++ w ++ r) (SHead p :: l)
| dc_set k n w1 w2 s v w r l : name_text k n -> blanks w1 -> blanks w2 -> value_text s v -> blanks w -> line_ends r -> follows v w r ->
    document r l -> document (k ++ w1 ++ [61] ++ w2 ++ s ++ w ++ r) (SSet n v :: l).
Definition toml_text (s : bytes) (l : list stmt) : Prop := document s l /\ ~ In 0 s /\ exists cs, utf8_text s cs.

(* ------------------------------------------------------------------ tables *)

(** The tables a text names, and the values it gives, with their paths. *)
Fixpoint headers (l : list stmt) : list path :=
  match l with [] => [] | SHead p :: r => p :: headers r | SSet _ _ :: r => headers r end.
Fixpoint assigned (ctx : path) (l : list stmt) : list (path * scalar) :=
  match l with
  | [] => []
  | SHead p :: r => assigned p r
  | SSet k v :: r => (ctx ++ [k], v) :: assigned ctx r
  end.
Definition gives (l : list stmt) (p : path) (v : scalar) : Prop := In (p, v) (assigned [] l).
Definition has_table (l : list stmt) (p : path) : Prop := p <> [] /\ exists q, In (p ++ q) (headers l).
(** No table and no value is given twice, and none is both.  The library tells paths apart by
    their dotted form only, so two tables must not have the same. *)
Definition proper (l : list stmt) : Prop :=
  NoDup (headers l) /\ NoDup (map fst (assigned [] l)) /\
  (forall p v, gives l p v -> ~ has_table l p) /\
  (forall p q, has_table l p -> has_table l q -> dotted p = dotted q -> p = q).

(* ------------------------------------------------------------------ the configuration *)

(** Where an option stands in a file. *)
Definition place (o : opt) : option path :=
  match o with
  | LogLevel => Some [str "LogLevel"] | MapFile => Some [str "MapFile"]
  | ServerEnableWebsockets => Some [str "Server"; str "EnableWebsockets"]
  | ServerUseTls => Some [str "Server"; str "UseTls"]
  | ServerPort => Some [str "Server"; str "Port"]
  | ServerListenOn => Some [str "Server"; str "ListenOn"]
  | ServerAssetPath => Some [str "Server"; str "AssetPath"]
  | ServerPublicKeyFile => Some [str "Server"; str "PublicKeyFile"]
  | ServerPrivateKeyFile => Some [str "Server"; str "PrivateKeyFile"]
  | MqttEnable => Some [str "Mqtt"; str "Enable"] | MqttUseTls => Some [str "Mqtt"; str "UseTls"]
  | MqttPort => Some [str "Mqtt"; str "Port"] | MqttHost => Some [str "Mqtt"; str "Host"]
  | MqttClientId => Some [str "Mqtt"; str "ClientId"] | MqttUsername => Some [str "Mqtt"; str "Username"]
  | MqttPassword => Some [str "Mqtt"; str "Password"] | MqttChannel => Some [str "Mqtt"; str "Channel"]
  | VesselName => Some [str "Vessel"; str "Name"] | VesselManufacturer => Some [str "Vessel"; str "Manufacturer"]
  | VesselModel => Some [str "Vessel"; str "Model"] | VesselYear => Some [str "Vessel"; str "Year"]
  | VesselMmsi => Some [str "Vessel"; str "Mmsi"] | VesselCallsign => Some [str "Vessel"; str "Callsign"]
  | VesselRegistration => Some [str "Vessel"; str "Registration"] | VesselUuid => Some [str "Vessel"; str "Uuid"]
  | ServerCertificate | VesselUuid0 | VesselUuid1 | VesselUuid2 | VesselUuid3 | VesselUuid4 => None
  end.
(** What kind of value an option has. *)
Inductive kind := KBool | KInt | KText.
Definition kind_of (o : opt) : kind :=
  match o with
  | ServerEnableWebsockets | ServerUseTls | MqttEnable | MqttUseTls => KBool
  | ServerPort | MqttPort | VesselYear | VesselMmsi => KInt
  | _ => KText
  end.
Definition of_kind (k : kind) (v : scalar) : Prop :=
  match k, v with KBool, TBool _ | KInt, TInt _ | KText, TStr _ => True | _, _ => False end.
Definition value_of (v : scalar) : ConfigSpec.value :=
  match v with TStr s => VText s | TInt n => VInt n | TBool b => VBool b end.
Definition off (k : kind) : ConfigSpec.value := match k with KBool => VBool false | KInt => VInt 0 | KText => VText [] end.
(** The name is spelled n, in any case. *)
Definition spelled (p q : path) : Prop := Forall2 reads_as p q.
(** The text gives the option the value v. *)
Definition sets (l : list stmt) (o : opt) (v : scalar) : Prop :=
  exists q p, place o = Some q /\ spelled p q /\ gives l p v.

(** The fields of an interface. *)
Inductive iopt := IPath | IType | ISpeed.
Definition iplace (f : iopt) : bytes := match f with IPath => str "Path" | IType => str "Type" | ISpeed => str "Speed" end.
Definition ikind (f : iopt) : kind := match f with ISpeed => KInt | _ => KText end.
Definition iget (f : iopt) (i : iface_cfg) : ConfigSpec.value :=
  match f with IPath => VText (ic_path i) | IType => VText (ic_type i) | ISpeed => VInt (ic_speed i) end.
(** An interface speed below 0 is taken modulo 2^64. *)
Definition ivalue (f : iopt) (v : scalar) : ConfigSpec.value :=
  match f, v with ISpeed, TInt n => VInt (n mod 2 ^ 64) | _, _ => value_of v end.
(** The table s.k describes an interface called k. *)
Definition iface_table (l : list stmt) (s k : bytes) : Prop := reads_as s (str "Interfaces") /\ has_table l [s; k].
Definition isets (l : list stmt) (s k : bytes) (f : iopt) (v : scalar) : Prop :=
  exists x, reads_as x (iplace f) /\ gives l [s; k; x] v.

(** What stands where an option is expected is a value of its kind; what stands where a table
    is expected is a table ([lax]: a value given for Interfaces is ignored). *)
Definition fits (lax : bool) (l : list stmt) : Prop :=
  (forall o q p, place o = Some q -> spelled p q -> ~ has_table l p /\ forall v, gives l p v -> of_kind (kind_of o) v) /\
  (forall s k v, In k [str "Server"; str "Mqtt"; str "Vessel"] \/ (lax = false /\ k = str "Interfaces") -> reads_as s k -> ~ gives l [s] v) /\
  (forall s k v, reads_as s (str "Interfaces") -> ~ gives l [s; k] v) /\
  (forall s k f x, reads_as s (str "Interfaces") -> reads_as x (iplace f) ->
     ~ has_table l [s; k; x] /\ forall v, gives l [s; k; x] v -> of_kind (ikind f) v).
(** The text says the configuration c: every option has a value the text gives it, and is off,
    0 or empty if it gives none; the interfaces are those of the text. *)
Definition says (l : list stmt) (c : config) : Prop :=
  (forall o, (exists v, sets l o v /\ get o c = value_of v) \/ ((forall v, ~ sets l o v) /\ get o c = off (kind_of o))) /\
  (forall k i, iface_of c k i -> exists s, iface_table l s k /\
     forall f, (exists v, isets l s k f v /\ iget f i = ivalue f v) \/ ((forall v, ~ isets l s k f v) /\ iget f i = off (ikind f))) /\
  (forall s k, iface_table l s k -> exists i, iface_of c k i) /\ well_keyed c.
(** An order of iteration goes through all entries once. *)
Definition fair (order : path -> list (bytes * node) -> list (bytes * node)) : Prop :=
  forall p l, Permutation l (order p l).

(* ------------------------------------------------------------------ what a file can hold *)

Definition plain_text (s : bytes) : Prop := (exists cs, utf8_text s cs) /\ ~ In 0 s.
(** A configuration a file can hold: every text is UTF-8 without NUL, every number has 64 bits
    with a sign, and the name of an interface is not empty and has no backslash or line end. *)
Definition storable (c : config) : Prop :=
  (forall o, match get o c with VText s => not_in_file o \/ plain_text s | VInt n => - 2 ^ 63 <= n < 2 ^ 63 | VBool _ => True end) /\
  (forall k i, iface_of c k i -> k <> [] /\ plain_text k /\ ~ In 92 k /\ Forall (fun b => ~ newline b) k /\
     plain_text (ic_path i) /\ plain_text (ic_type i) /\ 0 <= ic_speed i < 2 ^ 63) /\
  well_keyed c.

(** No name contains a dot. *)
Definition undotted (l : list stmt) : Prop := forall p n, In p (headers l ++ map fst (assigned [] l)) -> In n p -> ~ In 46 n.
