(** TomlModel: the configuration file as text: what toml.DecodeFile (/repo/config/config.go:106)
    and toml.NewEncoder(buf).Encode (/repo/config/config.go:128) do, library
    github.com/burntsushi/toml v0.2.0 (lex.go, parse.go, decode.go, encode.go), on the types of
    /repo/config/config.go:30-81.

    Simplifications, once for the file:
    - the lexer's state functions are functions on the rest of the text;
    - the lexer gives all statements before the parser runs (in Go the two take turns; an error
      in either is the same error to the program);
    - the nested maps of the parser are one list of paths with what stands at each;
    - Go's order of iteration over a map is a parameter;
    - parts of TOML the saved file never uses, and points where releases of the library differ,
      are left open: on such a text the decoder is an arbitrary function ([Other] below).  These
      are arrays, inline tables, arrays of tables, floats, dates, underscores and leading zeros
      in numbers, multi-line strings, empty names, the escape \/, escapes of surrogates, a truth
      value right before a comment, an empty string at the very end of the text or right before
      a character above U+007F, NUL bytes, and texts that are not UTF-8. *)
From Verif Require Import GoBase Strconv SignalkModel ApiModel ConfigModel JsonModel UnjsonModel XmlModel.
Open Scope Z_scope.
Open Scope list_scope.

Inductive out (A : Type) := Ok (a : A) | Bad | Other.
Arguments Ok {A} a. Arguments Bad {A}. Arguments Other {A}.
Definition obind {A B} (o : out A) (f : A -> out B) : out B :=
  match o with Ok a => f a | Bad => Bad | Other => Other end.

(** Values, and the statements of a text. *)
Inductive scalar := TStr (s : bytes) | TInt (n : Z) | TBool (b : bool).
Inductive stmt := SHead (p : list bytes) | SSet (k : bytes) (v : scalar).

(* ------------------------------------------------------------------ lexer *)

(** isWhitespace, isNL, isBareKeyChar, lex.go. *)
Definition is_blank (c : Z) : bool := (c =? 32) || (c =? 9).
Definition is_nl (c : Z) : bool := (c =? 10) || (c =? 13).
Definition bare (c : Z) : bool :=
  ((65 <=? c) && (c <=? 90)) || ((97 <=? c) && (c <=? 122)) || ((48 <=? c) && (c <=? 57)) || (c =? 95) || (c =? 45).
Fixpoint skip_blank (s : bytes) : bytes :=
  match s with c :: r => if is_blank c then skip_blank r else s | [] => [] end.
Fixpoint span_bare (s : bytes) : bytes * bytes :=
  match s with
  | c :: r => if bare c then let '(n, r') := span_bare r in (c :: n, r') else ([], s)
  | [] => ([], [])
  end.
(** lexComment, lex.go: up to the end of the line. *)
Fixpoint drop_line (s : bytes) : bytes :=
  match s with c :: r => if is_nl c then s else drop_line r | [] => [] end.

(** lexStringEscape, lex.go, with replaceEscapes, parse.go: the escapes of one character. *)
Definition escape1 (e : Z) : option Z :=
  if e =? 98 then Some 8 else if e =? 116 then Some 9 else if e =? 110 then Some 10
  else if e =? 102 then Some 12 else if e =? 114 then Some 13 else if e =? 34 then Some 34
  else if e =? 92 then Some 92 else None.
Definition before (p : bytes) (o : out (bytes * bytes)) : out (bytes * bytes) :=
  obind o (fun '(d, r) => Ok (p ++ d, r)).
Definition char_ok (n : Z) : bool := (n <? 55296) || ((57344 <=? n) && (n <=? 1114111)).
(** lexString, lex.go, after the opening quote: the text and what follows the closing quote. *)
Fixpoint basic (s : bytes) : out (bytes * bytes) :=
  match s with
  | [] => Bad
  | c :: r =>
      if is_nl c then Bad
      else if c =? 34 then Ok ([], r)
      else if c =? 92 then
        match r with
        | [] => Bad
        | e :: r1 =>
            match escape1 e with
            | Some d => before [d] (basic r1)
            | None =>
                if e =? 117 then
                  match r1 with
                  | a0 :: a1 :: a2 :: a3 :: r2 =>
                      match hexv4 a0 a1 a2 a3 with
                      | Some n => if char_ok n then before (encode_rune n) (basic r2) else Other
                      | None => Bad
                      end
                  | _ => Bad
                  end
                else if e =? 85 then
                  match r1 with
                  | a0 :: a1 :: a2 :: a3 :: b0 :: b1 :: b2 :: b3 :: r2 =>
                      match hexv4 a0 a1 a2 a3, hexv4 b0 b1 b2 b3 with
                      | Some m, Some n =>
                          if char_ok (m * 65536 + n) then before (encode_rune (m * 65536 + n)) (basic r2) else Other
                      | _, _ => Bad
                      end
                  | _ => Bad
                  end
                else if e =? 47 then Other
                else Bad
            end
        end
      else before [c] (basic r)
  end.
(** lexRawString, lex.go. *)
Fixpoint raw (s : bytes) : out (bytes * bytes) :=
  match s with
  | [] => Bad
  | c :: r => if is_nl c then Bad else if c =? 39 then Ok ([], r) else before [c] (raw r)
  end.
(** The two cases of lexValue, lex.go, for strings, after the opening quote q. *)
Definition quoted (q : Z) (s : bytes) : out (bytes * bytes) :=
  match s with
  | [] => Bad
  | c :: r =>
      if c =? q then
        match r with
        | [] => Other
        | d :: _ => if (d =? q) || (128 <=? d) then Other else Ok ([], r)
        end
      else if q =? 34 then basic s else raw s
  end.
(** lexTableNameStart, lexKeyStart, lexBareTableName, lexBareKey, lex.go: one name. *)
Definition name_part (s : bytes) : out (bytes * bytes) :=
  match s with
  | [] => Bad
  | c :: r =>
      obind (if (c =? 34) || (c =? 39) then quoted c r
             else match span_bare s with ([], _) => Bad | (n, r') => Ok (n, r') end)
        (fun '(n, r') => match n with [] => Other | _ => Ok (n, r') end)
  end.
(** lexTableNameStart, lexTableNameEnd, lex.go: the names of a table up to the bracket. *)
Fixpoint names (fuel : nat) (s : bytes) : out (list bytes * bytes) :=
  match fuel with
  | O => Other
  | S f =>
      obind (name_part (skip_blank s)) (fun '(n, r) =>
        match skip_blank r with
        | [] => Bad
        | c :: r' =>
            if c =? 46 then obind (names f r') (fun '(p, q) => Ok (n :: p, q))
            else if c =? 93 then Ok ([n], r')
            else Bad
        end)
  end.
(** lexKeyStart, lexKeyEnd, lex.go: a key and the equals sign. *)
Definition key (s : bytes) : out (bytes * bytes) :=
  obind (name_part s) (fun '(n, r) =>
    match skip_blank r with
    | [] => Bad
    | c :: r' => if c =? 61 then Ok (n, r') else Bad
    end).
Definition take_sign (s : bytes) : bytes * bytes :=
  match s with c :: r => if (c =? 43) || (c =? 45) then ([c], r) else ([], s) | [] => ([], []) end.
(** lexNumberOrDateStart, lexNumberStart, lexNumber, lex.go, with value, parse.go
    (itemInteger: strconv.ParseInt(s, 10, 64)). *)
Definition number (s : bytes) : out (scalar * bytes) :=
  let '(sg, s1) := take_sign s in
  let '(d, r) := span_digits s1 in
  match d with
  | [] => Bad
  | c :: d' =>
      if (c =? 48) && negb (empty d') then Other
      else if match r with x :: _ => (x =? 46) || (x =? 69) || (x =? 101) || (x =? 95) || (x =? 45) | [] => false end then Other
      else match parse_int 64 (sg ++ d) with Some n => Ok (TInt n, r) | None => Bad end
  end.
(** lexBool, lex.go. *)
Definition word (b : bool) (r : bytes) : out (scalar * bytes) :=
  match r with
  | [] => Ok (TBool b, r)
  | c :: _ => if is_blank c || is_nl c then Ok (TBool b, r) else if c =? 35 then Other else Bad
  end.
(** lexValue, lex.go, after the blanks. *)
Definition value (s : bytes) : out (scalar * bytes) :=
  match s with
  | [] => Bad
  | c :: r =>
      if (c =? 34) || (c =? 39) then obind (quoted c r) (fun '(d, r') => Ok (TStr d, r'))
      else if is_digit c || (c =? 43) || (c =? 45) then number s
      else if (c =? 91) || (c =? 123) then Other
      else if SignalkModel.has_prefix (str "true") s then word true (skipn 4 s)
      else if SignalkModel.has_prefix (str "false") s then word false (skipn 5 s)
      else Bad
  end.
(** lexTop, lexTopEnd, lexTableStart, lex.go. *)
Fixpoint lex (fuel : nat) (s : bytes) : out (list stmt) :=
  match fuel with
  | O => Other
  | S f =>
      let ended (st : stmt) (r : bytes) : out (list stmt) :=
        match skip_blank r with
        | [] => Ok [st]
        | c :: r' => if is_nl c || (c =? 35) then obind (lex f (c :: r')) (fun l => Ok (st :: l)) else Bad
        end in
      match s with
      | [] => Ok []
      | c :: r =>
          if is_blank c || is_nl c then lex f r
          else if c =? 35 then lex f (drop_line r)
          else if c =? 91 then
            match r with
            | [] => Bad
            | x :: _ => if x =? 91 then Other
                        else obind (names (S (List.length r)) r) (fun '(p, r') => ended (SHead p) r')
            end
          else obind (key s) (fun '(k, r') => obind (value (skip_blank r')) (fun '(v, r2) => ended (SSet k v) r2))
      end
  end.

(* ------------------------------------------------------------------ parser *)

Notation path := (list bytes).
Inductive node := NLeaf (v : scalar) | NTable.
(** p.mapping, parse.go: what stands at each path. *)
Definition tree := list (path * node).
Fixpoint path_eqb (p q : path) : bool :=
  match p, q with
  | [], [] => true
  | a :: p', b :: q' => bytes_eqb a b && path_eqb p' q'
  | _, _ => false
  end.
Fixpoint find_path (t : tree) (p : path) : option node :=
  match t with [] => None | (q, n) :: r => if path_eqb q p then Some n else find_path r p end.
(** Key.String, decode_meta.go: the names with dots between them. *)
Fixpoint dotted (p : path) : bytes :=
  match p with [] => [] | [n] => n | n :: r => n ++ 46 :: dotted r end.
(** The parser: mapping, context, implicits (by their dotted names). *)
Record pstate := mkpstate { p_tree : tree; p_ctx : path; p_impl : list bytes }.
Definition is_implicit (s : pstate) (p : path) : bool := existsb (bytes_eqb (dotted p)) (p_impl s).
Definition no_longer (s : pstate) (p : path) : list bytes := filter (fun x => negb (bytes_eqb (dotted p) x)) (p_impl s).
(** setValue, parse.go: None is an error. *)
Definition set_value (s : pstate) (k : bytes) (n : node) : option pstate :=
  let p := p_ctx s ++ [k] in
  match (match p_ctx s with [] => Some NTable | _ => find_path (p_tree s) (p_ctx s) end) with
  | Some NTable =>
      match find_path (p_tree s) p with
      | Some _ => if is_implicit s p then Some (mkpstate (p_tree s) (p_ctx s) (no_longer s p)) else None
      | None => Some (mkpstate (p_tree s ++ [(p, n)]) (p_ctx s) (p_impl s))
      end
  | _ => None
  end.
(** The loop of establishContext, parse.go, over all names but the last. *)
Fixpoint walk (t : tree) (impl : list bytes) (done rest : path) : option (tree * list bytes) :=
  match rest with
  | [] => Some (t, impl)
  | k :: r =>
      let p := done ++ [k] in
      match find_path t p with
      | None => walk (t ++ [(p, NTable)]) (dotted p :: impl) p r
      | Some NTable => walk t impl p r
      | Some (NLeaf _) => None
      end
  end.
(** topLevel and establishContext, parse.go. *)
Definition step (s : pstate) (st : stmt) : option pstate :=
  match st with
  | SSet k v => set_value s k (NLeaf v)
  | SHead p =>
      match walk (p_tree s) (p_impl s) [] (removelast p) with
      | None => None
      | Some (t, impl) =>
          match set_value (mkpstate t (removelast p) impl) (last p []) NTable with
          | None => None
          | Some s' => Some (mkpstate (p_tree s') p (p_impl s'))
          end
      end
  end.
Fixpoint parse (s : pstate) (l : list stmt) : option pstate :=
  match l with [] => Some s | st :: r => match step s st with Some s' => parse s' r | None => None end end.
Definition parse_all (l : list stmt) : option tree :=
  match parse (mkpstate [] [] []) l with Some s => Some (p_tree s) | None => None end.

(* ------------------------------------------------------------------ decoding into the structs *)

(** unifyString, unifyInt, unifyBool, decode.go: None is a type mismatch.  int and uint have 64
    bits; a negative number for a uint wraps around. *)
Definition into_string {T} (put : bytes -> T -> T) (n : node) (x : T) : option T :=
  match n with NLeaf (TStr s) => Some (put s x) | _ => None end.
Definition into_int {T} (put : Z -> T -> T) (n : node) (x : T) : option T :=
  match n with NLeaf (TInt v) => Some (put v x) | _ => None end.
Definition into_uint {T} (put : Z -> T -> T) (n : node) (x : T) : option T :=
  match n with NLeaf (TInt v) => Some (put (v mod 2 ^ 64) x) | _ => None end.
Definition into_bool {T} (put : bool -> T -> T) (n : node) (x : T) : option T :=
  match n with NLeaf (TBool b) => Some (put b x) | _ => None end.
(** unifyStruct, decode.go: every key of the table into the field of that name (typeFields,
    type_fields.go: exactly, or else with EqualFold); a key without a field is ignored. *)
Fixpoint fill {T} (fs : list (bytes * (bytes -> node -> T -> option T))) (l : list (bytes * node)) (x : T) : option T :=
  match l with
  | [] => Some x
  | (k, n) :: r =>
      match (match field_for fs k with Some f => f k n x | None => Some x end) with
      | Some y => fill fs r y
      | None => None
      end
  end.
(** The entries of the table at p. *)
Fixpoint strip (p q : path) : option path :=
  match p, q with
  | [], _ => Some q
  | a :: p', b :: q' => if bytes_eqb a b then strip p' q' else None
  | _, [] => None
  end.
Definition children (t : tree) (p : path) : list (bytes * node) :=
  flat_map (fun e => match strip p (fst e) with Some [k] => [(k, snd e)] | _ => [] end) t.

(** InterfaceConfig, config.go:61-65. *)
Definition iface_keys : list (bytes * (node -> iface_cfg -> option iface_cfg)) :=
  [(str "Path", into_string (fun x i => mkiface x (ic_type i) (ic_speed i)));
   (str "Type", into_string (fun x i => mkiface (ic_path i) x (ic_speed i)));
   (str "Speed", into_uint (fun x i => mkiface (ic_path i) (ic_type i) x))].
(** serverConfig, config.go:39-48 (Certificate is marked toml:"-"). *)
Definition with_server (c : config) (x : server_cfg) : config :=
  mkconfig (cf_log c) (cf_map c) x (cf_mqtt c) (cf_ifaces c) (cf_vessel c).
Definition server_keys : list (bytes * (node -> config -> option config)) :=
  [(str "EnableWebsockets", into_bool (fun x c => let s := cf_server c in with_server c (mkserver x (sv_tls s) (sv_port s) (sv_listen s) (sv_assets s) (sv_cert s) (sv_public s) (sv_private s))));
   (str "UseTls", into_bool (fun x c => let s := cf_server c in with_server c (mkserver (sv_websockets s) x (sv_port s) (sv_listen s) (sv_assets s) (sv_cert s) (sv_public s) (sv_private s))));
   (str "Port", into_int (fun x c => let s := cf_server c in with_server c (mkserver (sv_websockets s) (sv_tls s) x (sv_listen s) (sv_assets s) (sv_cert s) (sv_public s) (sv_private s))));
   (str "ListenOn", into_string (fun x c => let s := cf_server c in with_server c (mkserver (sv_websockets s) (sv_tls s) (sv_port s) x (sv_assets s) (sv_cert s) (sv_public s) (sv_private s))));
   (str "AssetPath", into_string (fun x c => let s := cf_server c in with_server c (mkserver (sv_websockets s) (sv_tls s) (sv_port s) (sv_listen s) x (sv_cert s) (sv_public s) (sv_private s))));
   (str "PublicKeyFile", into_string (fun x c => let s := cf_server c in with_server c (mkserver (sv_websockets s) (sv_tls s) (sv_port s) (sv_listen s) (sv_assets s) (sv_cert s) x (sv_private s))));
   (str "PrivateKeyFile", into_string (fun x c => let s := cf_server c in with_server c (mkserver (sv_websockets s) (sv_tls s) (sv_port s) (sv_listen s) (sv_assets s) (sv_cert s) (sv_public s) x)))].
(** mqttConfig, config.go:50-59. *)
Definition with_mqtt (c : config) (x : mqtt_cfg) : config :=
  mkconfig (cf_log c) (cf_map c) (cf_server c) x (cf_ifaces c) (cf_vessel c).
Definition mqtt_keys : list (bytes * (node -> config -> option config)) :=
  [(str "Enable", into_bool (fun x c => let s := cf_mqtt c in with_mqtt c (mkmqtt x (mq_tls s) (mq_port s) (mq_host s) (mq_client s) (mq_user s) (mq_password s) (mq_channel s))));
   (str "UseTls", into_bool (fun x c => let s := cf_mqtt c in with_mqtt c (mkmqtt (mq_enable s) x (mq_port s) (mq_host s) (mq_client s) (mq_user s) (mq_password s) (mq_channel s))));
   (str "Port", into_int (fun x c => let s := cf_mqtt c in with_mqtt c (mkmqtt (mq_enable s) (mq_tls s) x (mq_host s) (mq_client s) (mq_user s) (mq_password s) (mq_channel s))));
   (str "Host", into_string (fun x c => let s := cf_mqtt c in with_mqtt c (mkmqtt (mq_enable s) (mq_tls s) (mq_port s) x (mq_client s) (mq_user s) (mq_password s) (mq_channel s))));
   (str "ClientId", into_string (fun x c => let s := cf_mqtt c in with_mqtt c (mkmqtt (mq_enable s) (mq_tls s) (mq_port s) (mq_host s) x (mq_user s) (mq_password s) (mq_channel s))));
   (str "Username", into_string (fun x c => let s := cf_mqtt c in with_mqtt c (mkmqtt (mq_enable s) (mq_tls s) (mq_port s) (mq_host s) (mq_client s) x (mq_password s) (mq_channel s))));
   (str "Password", into_string (fun x c => let s := cf_mqtt c in with_mqtt c (mkmqtt (mq_enable s) (mq_tls s) (mq_port s) (mq_host s) (mq_client s) (mq_user s) x (mq_channel s))));
   (str "Channel", into_string (fun x c => let s := cf_mqtt c in with_mqtt c (mkmqtt (mq_enable s) (mq_tls s) (mq_port s) (mq_host s) (mq_client s) (mq_user s) (mq_password s) x)))].
(** VesselConfig, config.go:67-81 (Uuid0 to Uuid4 are marked toml:"-"). *)
Definition with_vessel (c : config) (x : vessel_cfg) : config :=
  mkconfig (cf_log c) (cf_map c) (cf_server c) (cf_mqtt c) (cf_ifaces c) x.
Definition vessel_keys : list (bytes * (node -> config -> option config)) :=
  [(str "Name", into_string (fun x c => let s := cf_vessel c in with_vessel c (mkvessel x (ve_manufacturer s) (ve_model s) (ve_year s) (ve_mmsi s) (ve_callsign s) (ve_registration s) (ve_uuid s) (ve_uuid0 s) (ve_uuid1 s) (ve_uuid2 s) (ve_uuid3 s) (ve_uuid4 s))));
   (str "Manufacturer", into_string (fun x c => let s := cf_vessel c in with_vessel c (mkvessel (ve_name s) x (ve_model s) (ve_year s) (ve_mmsi s) (ve_callsign s) (ve_registration s) (ve_uuid s) (ve_uuid0 s) (ve_uuid1 s) (ve_uuid2 s) (ve_uuid3 s) (ve_uuid4 s))));
   (str "Model", into_string (fun x c => let s := cf_vessel c in with_vessel c (mkvessel (ve_name s) (ve_manufacturer s) x (ve_year s) (ve_mmsi s) (ve_callsign s) (ve_registration s) (ve_uuid s) (ve_uuid0 s) (ve_uuid1 s) (ve_uuid2 s) (ve_uuid3 s) (ve_uuid4 s))));
   (str "Year", into_int (fun x c => let s := cf_vessel c in with_vessel c (mkvessel (ve_name s) (ve_manufacturer s) (ve_model s) x (ve_mmsi s) (ve_callsign s) (ve_registration s) (ve_uuid s) (ve_uuid0 s) (ve_uuid1 s) (ve_uuid2 s) (ve_uuid3 s) (ve_uuid4 s))));
   (str "Mmsi", into_int (fun x c => let s := cf_vessel c in with_vessel c (mkvessel (ve_name s) (ve_manufacturer s) (ve_model s) (ve_year s) x (ve_callsign s) (ve_registration s) (ve_uuid s) (ve_uuid0 s) (ve_uuid1 s) (ve_uuid2 s) (ve_uuid3 s) (ve_uuid4 s))));
   (str "Callsign", into_string (fun x c => let s := cf_vessel c in with_vessel c (mkvessel (ve_name s) (ve_manufacturer s) (ve_model s) (ve_year s) (ve_mmsi s) x (ve_registration s) (ve_uuid s) (ve_uuid0 s) (ve_uuid1 s) (ve_uuid2 s) (ve_uuid3 s) (ve_uuid4 s))));
   (str "Registration", into_string (fun x c => let s := cf_vessel c in with_vessel c (mkvessel (ve_name s) (ve_manufacturer s) (ve_model s) (ve_year s) (ve_mmsi s) (ve_callsign s) x (ve_uuid s) (ve_uuid0 s) (ve_uuid1 s) (ve_uuid2 s) (ve_uuid3 s) (ve_uuid4 s))));
   (str "Uuid", into_string (fun x c => let s := cf_vessel c in with_vessel c (mkvessel (ve_name s) (ve_manufacturer s) (ve_model s) (ve_year s) (ve_mmsi s) (ve_callsign s) (ve_registration s) x (ve_uuid0 s) (ve_uuid1 s) (ve_uuid2 s) (ve_uuid3 s) (ve_uuid4 s))))].
Definition plain {T} (fs : list (bytes * (node -> T -> option T))) : list (bytes * (bytes -> node -> T -> option T)) :=
  map (fun '(n, f) => (n, fun (_ : bytes) => f)) fs.
Section Decode.
  (** [order]: in which order Go goes through the entries of the table at a path.  [lax]: a value
      that is no table, given for Interfaces, is ignored or is an error, as the release has it. *)
  Variable lax : bool.
  Variable order : path -> list (bytes * node) -> list (bytes * node).
  Variable t : tree.
  Definition entries (p : path) : list (bytes * node) := order p (children t p).
  (** unifyStruct on a section; [k] is its name as written in the text. *)
  Definition into_section (fs : list (bytes * (node -> config -> option config))) (k : bytes) (n : node) (c : config) : option config :=
    match n with NTable => fill (plain fs) (entries [k]) c | NLeaf _ => None end.
  (** unifyMap, decode.go, on Interfaces: every entry is decoded into a fresh zero value. *)
  Fixpoint into_entries (k : bytes) (l : list (bytes * node)) (m : list (bytes * iface_cfg)) : option (list (bytes * iface_cfg)) :=
    match l with
    | [] => Some m
    | (x, NTable) :: r =>
        match fill (plain iface_keys) (entries [k; x]) zero_iface with
        | Some i => into_entries k r (map_set m x i)
        | None => None
        end
    | (_, NLeaf _) :: _ => None
    end.
  Definition into_ifaces (k : bytes) (n : node) (c : config) : option config :=
    match n with
    | NTable =>
        match into_entries k (entries [k]) (match cf_ifaces c with Some m => m | None => [] end) with
        | Some m => Some (mkconfig (cf_log c) (cf_map c) (cf_server c) (cf_mqtt c) (Some m) (cf_vessel c))
        | None => None
        end
    | NLeaf _ => if lax then Some c else None
    end.
  (** TomlConfig, config.go:30-37. *)
  Definition top_keys : list (bytes * (bytes -> node -> config -> option config)) :=
    [(str "LogLevel", fun _ => into_string (fun x c => mkconfig x (cf_map c) (cf_server c) (cf_mqtt c) (cf_ifaces c) (cf_vessel c)));
     (str "MapFile", fun _ => into_string (fun x c => mkconfig (cf_log c) x (cf_server c) (cf_mqtt c) (cf_ifaces c) (cf_vessel c)));
     (str "Server", into_section server_keys);
     (str "Mqtt", into_section mqtt_keys);
     (str "Interfaces", into_ifaces);
     (str "Vessel", into_section vessel_keys)].
  Definition unify : option config := fill top_keys (entries []) zero_config.
End Decode.

(** A text the model says nothing about, whatever it holds. *)
Definition strange (s : bytes) : bool :=
  existsb (fun c => c =? 0) s || match runes (S (List.length s)) s with Some _ => false | None => true end.
(** toml.DecodeFile on the text of a file, as called at config.go:106 with a zero TomlConfig;
    [other] stands for what it does where this model says nothing. *)
Definition toml_decode (lax : bool) (order : path -> list (bytes * node) -> list (bytes * node)) (other : bytes -> option config)
    (s : bytes) : option config :=
  if strange s then other s
  else match lex (S (List.length s)) s with
       | Ok l => match parse_all l with Some t => unify lax order t | None => None end
       | Bad => None
       | Other => other s
       end.

(* ------------------------------------------------------------------ encoding *)

(** quotedReplacer and writeQuoted, encode.go. *)
Definition escape_byte (c : Z) : bytes :=
  if c =? 9 then [92; 116] else if c =? 10 then [92; 110] else if c =? 13 then [92; 114]
  else if c =? 34 then [92; 34] else if c =? 92 then [92; 92] else [c].
Definition quoted_text (s : bytes) : bytes := 34 :: flat_map escape_byte s ++ [34].
(** Key.maybeQuoted, decode_meta.go: only the quotation marks are escaped. *)
Definition maybe_quoted (n : bytes) : bytes :=
  if forallb bare n then n else 34 :: flat_map (fun c => if c =? 34 then [92; 34] else [c]) n ++ [34].
Definition of_bool (b : bool) : bytes := if b then str "true" else str "false".
Fixpoint indent (n : nat) : bytes := match n with O => [] | S m => 32 :: 32 :: indent m end.
(** keyEqElement, encode.go; n is the depth of the table. *)
Definition line (n : nat) (k v : bytes) : bytes := indent n ++ k ++ str " = " ++ v ++ [10].
Definition server_lines (s : server_cfg) : bytes :=
  line 1 (str "EnableWebsockets") (of_bool (sv_websockets s)) ++
  line 1 (str "UseTls") (of_bool (sv_tls s)) ++
  line 1 (str "Port") (itoa (sv_port s)) ++
  line 1 (str "ListenOn") (quoted_text (sv_listen s)) ++
  line 1 (str "AssetPath") (quoted_text (sv_assets s)) ++
  line 1 (str "PublicKeyFile") (quoted_text (sv_public s)) ++
  line 1 (str "PrivateKeyFile") (quoted_text (sv_private s)).
Definition mqtt_lines (s : mqtt_cfg) : bytes :=
  line 1 (str "Enable") (of_bool (mq_enable s)) ++
  line 1 (str "UseTls") (of_bool (mq_tls s)) ++
  line 1 (str "Port") (itoa (mq_port s)) ++
  line 1 (str "Host") (quoted_text (mq_host s)) ++
  line 1 (str "ClientId") (quoted_text (mq_client s)) ++
  line 1 (str "Username") (quoted_text (mq_user s)) ++
  line 1 (str "Password") (quoted_text (mq_password s)) ++
  line 1 (str "Channel") (quoted_text (mq_channel s)).
Definition vessel_lines (s : vessel_cfg) : bytes :=
  line 1 (str "Name") (quoted_text (ve_name s)) ++
  line 1 (str "Manufacturer") (quoted_text (ve_manufacturer s)) ++
  line 1 (str "Model") (quoted_text (ve_model s)) ++
  line 1 (str "Year") (itoa (ve_year s)) ++
  line 1 (str "Mmsi") (itoa (ve_mmsi s)) ++
  line 1 (str "Callsign") (quoted_text (ve_callsign s)) ++
  line 1 (str "Registration") (quoted_text (ve_registration s)) ++
  line 1 (str "Uuid") (quoted_text (ve_uuid s)).
(** eTable on a top-level table: a newline before it. *)
Definition section (k : bytes) : bytes := 10 :: 91 :: k ++ [93; 10].
(** eTable and eStruct on an interface. *)
Definition iface_text (kv : bytes * iface_cfg) : bytes :=
  indent 1 ++ 91 :: str "Interfaces." ++ maybe_quoted (fst kv) ++ [93; 10] ++
  line 2 (str "Path") (quoted_text (ic_path (snd kv))) ++
  line 2 (str "Type") (quoted_text (ic_type (snd kv))) ++
  line 2 (str "Speed") (itoa (ic_speed (snd kv))).
(** eMap, encode.go: the interfaces sorted by name (sort.Strings); a nil map writes nothing. *)
Definition ifaces_text (m : ifaces) : bytes :=
  match m with
  | None => []
  | Some l => section (str "Interfaces") ++ flat_map iface_text (sort_members l)
  end.
(** Encode, encode.go, as called at config.go:128: direct fields first, then the tables in the
    order of the struct.  None: panicIfInvalidKey, a table with an empty name. *)
Definition encode_config (c : config) : option bytes :=
  if existsb (fun kv => empty (fst kv)) (match cf_ifaces c with Some l => l | None => [] end) then None
  else Some (line 0 (str "LogLevel") (quoted_text (cf_log c)) ++ line 0 (str "MapFile") (quoted_text (cf_map c)) ++
    section (str "Server") ++ server_lines (cf_server c) ++
    section (str "Mqtt") ++ mqtt_lines (cf_mqtt c) ++
    ifaces_text (cf_ifaces c) ++
    section (str "Vessel") ++ vessel_lines (cf_vessel c)).
