(** UnjsonModel: how the program reads JSON: Go's encoding/json (scanner.go, decode.go) as
    json.Unmarshal (/repo/nmea2k/parsed_message.go:63) and json.Decoder.Decode
    (/repo/main/ui_server.go:99, 152, /repo/main/api_server.go:149), into the types of
    /repo/nmea2k/parsed_message.go:52-59, /repo/config/config.go:30-81,
    /repo/main/ui_server.go:70-73 and /repo/main/api_server.go:44-47.

    Simplifications, once for the file:
    - the scanner's state machine with its stack is a recursive descent on the text, and a
      string is checked and unquoted in one pass; the decoder runs on the parsed value where Go
      runs over the text a second time;
    - the greatest nesting depth (10000 since Go 1.15, unlimited before) is a parameter;
    - time stamps are not modelled. *)
From Coq Require Import Floats.SpecFloat.
From Verif Require Import GoBase Strconv CanModel NmeaTypes NmeaModel ApiModel ConfigModel FtoaModel JsonModel.
Open Scope Z_scope.
Open Scope list_scope.

(** A parsed text: numbers keep their text (decode.go hands it to strconv), strings are Go
    strings. *)
Inductive gj :=
| GNull | GBool (b : bool) | GNum (t : bytes) | GStr (s : bytes)
| GArr (l : list gj) | GObj (ms : list (bytes * gj)).

(** isSpace, scanner.go. *)
Definition is_space (c : Z) : bool := (c =? 32) || (c =? 9) || (c =? 13) || (c =? 10).
Fixpoint skip_ws (s : bytes) : bytes :=
  match s with c :: r => if is_space c then skip_ws r else s | [] => [] end.

(* ------------------------------------------------------------------ numbers *)

Definition is_digit (c : Z) : bool := (48 <=? c) && (c <=? 57).
Fixpoint span_digits (s : bytes) : bytes * bytes :=
  match s with
  | c :: r => if is_digit c then let '(d, r') := span_digits r in (c :: d, r') else ([], s)
  | [] => ([], [])
  end.
(** stateNeg, state0, state1, scanner.go: the digits before the point. *)
Definition num_int (s : bytes) : option (bytes * bytes) :=
  match s with
  | c :: r => if c =? 48 then Some ([48], r)
              else if is_digit c then let '(d, r') := span_digits r in Some (c :: d, r') else None
  | [] => None
  end.
(** stateDot, stateDot0. *)
Definition num_frac (s : bytes) : option (bytes * bytes) :=
  match s with
  | c :: r => if c =? 46 then match span_digits r with ([], _) => None | (d, r') => Some (46 :: d, r') end
              else Some ([], s)
  | [] => Some ([], s)
  end.
(** stateE, stateESign, stateE0. *)
Definition num_exp (s : bytes) : option (bytes * bytes) :=
  match s with
  | c :: r =>
      if (c =? 101) || (c =? 69) then
        let '(sg, r1) := match r with
          | x :: r' => if (x =? 43) || (x =? 45) then ([x], r') else ([], r)
          | [] => ([], r)
          end in
        match span_digits r1 with ([], _) => None | (d, r2) => Some (c :: sg ++ d, r2) end
      else Some ([], s)
  | [] => Some ([], s)
  end.
Definition pnum (s : bytes) : option (bytes * bytes) :=
  let '(neg, s1) := match s with c :: r => if c =? 45 then ([45], r) else ([], s) | [] => ([], s) end in
  match num_int s1 with
  | Some (ip, s2) =>
      match num_frac s2 with
      | Some (fp, s3) => match num_exp s3 with Some (ep, s4) => Some (neg ++ ip ++ fp ++ ep, s4) | None => None end
      | None => None
      end
  | None => None
  end.

(* ------------------------------------------------------------------ strings *)

(** The value of a hexadecimal digit, getu4, decode.go. *)
Definition hexv (c : Z) : option Z :=
  if (48 <=? c) && (c <=? 57) then Some (c - 48)
  else if (97 <=? c) && (c <=? 102) then Some (c - 97 + 10)
  else if (65 <=? c) && (c <=? 70) then Some (c - 65 + 10)
  else None.
Definition hexv4 (a b c d : Z) : option Z :=
  match hexv a, hexv b, hexv c, hexv d with
  | Some w, Some x, Some y, Some z => Some (w * 4096 + x * 256 + y * 16 + z)
  | _, _, _, _ => None
  end.
(** getu4, decode.go: \uXXXX at the start of s. *)
Definition getu4 (s : bytes) : option (Z * bytes) :=
  match s with
  | q :: u :: a :: b :: c :: d :: r =>
      if (q =? 92) && (u =? 117) then match hexv4 a b c d with Some v => Some (v, r) | None => None end else None
  | _ => None
  end.
(** utf8.EncodeRune on a character that is no surrogate. *)
Definition encode_rune (c : Z) : bytes :=
  if c <? 128 then [c]
  else if c <? 2048 then [192 + c / 64; 128 + c mod 64]
  else if c <? 65536 then [224 + c / 4096; 128 + c / 64 mod 64; 128 + c mod 64]
  else [240 + c / 262144; 128 + c / 4096 mod 64; 128 + c / 64 mod 64; 128 + c mod 64].
(** The replacement character U+FFFD. *)
Definition replacement : bytes := [239; 191; 189].
(** The escapes of one character, unquote, decode.go. *)
Definition short_escape (x : Z) : option Z :=
  if (x =? 34) || (x =? 92) || (x =? 47) then Some x
  else if x =? 98 then Some 8 else if x =? 102 then Some 12 else if x =? 110 then Some 10
  else if x =? 114 then Some 13 else if x =? 116 then Some 9 else None.
Definition prepend (a : bytes) (o : option (bytes * bytes)) : option (bytes * bytes) :=
  match o with Some (s, r) => Some (a ++ s, r) | None => None end.
(** stateInString and its escapes (scanner.go) with unquoteBytes (decode.go), after the opening
    quote: the Go string and what follows the closing quote. *)
Fixpoint pstr (fuel : nat) (s : bytes) : option (bytes * bytes) :=
  match fuel with
  | O => None
  | S f =>
      match s with
      | [] => None
      | c :: r =>
          if c =? 34 then Some ([], r)
          else if c =? 92 then
            match r with
            | [] => None
            | x :: r1 =>
                if x =? 117 then
                  match getu4 s with
                  | None => None
                  | Some (u, r2) =>
                      if (55296 <=? u) && (u <? 57344) then
                        match getu4 r2 with
                        | Some (w, r3) =>
                            if (u <? 56320) && ((56320 <=? w) && (w <? 57344))
                            then prepend (encode_rune ((u - 55296) * 1024 + (w - 56320) + 65536)) (pstr f r3)
                            else prepend replacement (pstr f r2)
                        | None => prepend replacement (pstr f r2)
                        end
                      else prepend (encode_rune u) (pstr f r2)
                  end
                else match short_escape x with Some y => prepend [y] (pstr f r1) | None => None end
            end
          else if c <? 32 then None
          else if c <? 128 then prepend [c] (pstr f r)
          else match decode_rune s with
               | Some (_, n) => prepend (firstn n s) (pstr f (skipn n s))
               | None => prepend replacement (pstr f r)
               end
      end
  end.

(* ------------------------------------------------------------------ values *)

(** stateBeginValue ... stateEndValue, scanner.go: a value at the start of the text and what
    follows it. *)
Fixpoint pvalue (fuel depth : nat) (s : bytes) : option (gj * bytes) :=
  match fuel with
  | O => None
  | S f =>
      match s with
      | [] => None
      | c :: r =>
          if c =? 123 then
            match depth with
            | O => None
            | S d =>
                match skip_ws r with
                | x :: r' => if x =? 125 then Some (GObj [], r')
                             else match pmembers f d r with Some (l, r2) => Some (GObj l, r2) | None => None end
                | [] => None
                end
            end
          else if c =? 91 then
            match depth with
            | O => None
            | S d =>
                match skip_ws r with
                | x :: r' => if x =? 93 then Some (GArr [], r')
                             else match pitems f d r with Some (l, r2) => Some (GArr l, r2) | None => None end
                | [] => None
                end
            end
          else if c =? 34 then match pstr (S (List.length r)) r with Some (t, r2) => Some (GStr t, r2) | None => None end
          else if c =? 116 then
            if bytes_eqb (firstn 4 s) (str "true") then Some (GBool true, skipn 4 s) else None
          else if c =? 102 then
            if bytes_eqb (firstn 5 s) (str "false") then Some (GBool false, skipn 5 s) else None
          else if c =? 110 then
            if bytes_eqb (firstn 4 s) (str "null") then Some (GNull, skipn 4 s) else None
          else match pnum s with Some (t, r2) => Some (GNum t, r2) | None => None end
      end
  end
with pitems (fuel depth : nat) (s : bytes) : option (list gj * bytes) :=
  match fuel with
  | O => None
  | S f =>
      match pvalue f depth (skip_ws s) with
      | Some (v, r) =>
          match skip_ws r with
          | c :: r' => if c =? 44 then match pitems f depth r' with Some (l, r2) => Some (v :: l, r2) | None => None end
                       else if c =? 93 then Some ([v], r') else None
          | [] => None
          end
      | None => None
      end
  end
with pmembers (fuel depth : nat) (s : bytes) : option (list (bytes * gj) * bytes) :=
  match fuel with
  | O => None
  | S f =>
      match skip_ws s with
      | q :: r =>
          if q =? 34 then
            match pstr (S (List.length r)) r with
            | Some (k, r1) =>
                match skip_ws r1 with
                | c :: r2 =>
                    if c =? 58 then
                      match pvalue f depth (skip_ws r2) with
                      | Some (v, r3) =>
                          match skip_ws r3 with
                          | c :: r4 =>
                              if c =? 44 then match pmembers f depth r4 with Some (l, r5) => Some ((k, v) :: l, r5) | None => None end
                              else if c =? 125 then Some ([(k, v)], r4) else None
                          | [] => None
                          end
                      | None => None
                      end
                    else None
                | [] => None
                end
            | None => None
            end
          else None
      | [] => None
      end
  end.

(** Decoder.Decode reads one value; what follows it stays unread (stream.go, readValue).  The
    fuel is enough for every text. *)
Definition read_value (depth : nat) (s : bytes) : option (gj * bytes) :=
  pvalue (2 * List.length s + 2) depth (skip_ws s).
(** Unmarshal: checkValid wants nothing but white space after the value (scanner.go). *)
Definition read_text (depth : nat) (s : bytes) : option gj :=
  match read_value depth s with
  | Some (v, r) => match skip_ws r with [] => Some v | _ => None end
  | None => None
  end.

(* ------------------------------------------------------------------ into Go types *)

(** literalStore, decode.go.  The second component: no error.  An error is remembered and the
    rest decoded all the same; the variable keeps its value; null changes nothing. *)
Definition into_string (g : gj) (old : bytes) : bytes * bool :=
  match g with GStr s => (s, true) | GNull => (old, true) | _ => (old, false) end.
Definition into_bool (g : gj) (old : bool) : bool * bool :=
  match g with GBool b => (b, true) | GNull => (old, true) | _ => (old, false) end.
(** int: strconv.ParseInt(s, 10, 64). *)
Definition into_int (g : gj) (old : Z) : Z * bool :=
  match g with
  | GNum t => match parse_int 64 t with Some n => (n, true) | None => (old, false) end
  | GNull => (old, true)
  | _ => (old, false)
  end.
(** uint8, uint32, uint: strconv.ParseUint(s, 10, 64) and OverflowUint. *)
Definition into_uint (bits : Z) (g : gj) (old : Z) : Z * bool :=
  match g with
  | GNum t => match parse_uint 10 64 t with
              | PUok n => if n <? 2 ^ bits then (n, true) else (old, false)
              | _ => (old, false)
              end
  | GNull => (old, true)
  | _ => (old, false)
  end.

(** object, decode.go: the field for a member's name: the one of the same name, else the first
    that is the same but for case. *)
Fixpoint field_exact {F} (fs : list (bytes * F)) (k : bytes) : option F :=
  match fs with [] => None | (n, f) :: r => if bytes_eqb n k then Some f else field_exact r k end.
Fixpoint field_fold {F} (fs : list (bytes * F)) (k : bytes) : option F :=
  match fs with [] => None | (n, f) :: r => if EqualFold k n then Some f else field_fold r k end.
Definition field_for {F} (fs : list (bytes * F)) (k : bytes) : option F :=
  match field_exact fs k with Some f => Some f | None => field_fold fs k end.
(** object, decode.go, on a struct; [fs] are its fields with how they are filled. *)
Definition setter (T : Type) := gj -> T -> T * bool.
Fixpoint into_members {T} (fs : list (bytes * setter T)) (ms : list (bytes * gj)) (x : T) : T * bool :=
  match ms with
  | [] => (x, true)
  | (k, v) :: r =>
      let '(x1, ok1) := match field_for fs k with Some f => f v x | None => (x, true) end in
      let '(x2, ok2) := into_members fs r x1 in (x2, ok1 && ok2)
  end.
Definition into_struct {T} (fs : list (bytes * setter T)) : setter T := fun g x =>
  match g with
  | GObj ms => into_members fs ms x
  | GNull => (x, true)
  | _ => (x, false)
  end.
(** object, decode.go, on a map: every value is decoded into a fresh zero; the map is made if
    it is nil; null makes it nil. *)
Fixpoint map_set {T} (m : list (bytes * T)) (k : bytes) (v : T) : list (bytes * T) :=
  match m with
  | [] => [(k, v)]
  | (x, w) :: r => if bytes_eqb x k then (k, v) :: r else (x, w) :: map_set r k v
  end.
Fixpoint into_entries {T} (dec : setter T) (zero : T) (ms : list (bytes * gj)) (m : list (bytes * T)) : list (bytes * T) * bool :=
  match ms with
  | [] => (m, true)
  | (k, v) :: r =>
      let '(x, ok1) := dec v zero in
      let '(m2, ok2) := into_entries dec zero r (map_set m k x) in (m2, ok1 && ok2)
  end.
Definition into_map {T} (dec : setter T) (zero : T) : setter (option (list (bytes * T))) := fun g m =>
  match g with
  | GObj ms => let '(m', ok) := into_entries dec zero ms (match m with Some l => l | None => [] end) in (Some m', ok)
  | GNull => (None, true)
  | _ => (m, false)
  end.

(* ------------------------------------------------------------------ numbers as float64 *)

(** Decimal digits as a number. *)
Definition num_digits (s : bytes) : Z := fold_left (fun n c => 10 * n + (c - 48)) s 0.
(** The digits of a number text and the power of ten (strconv.ParseFloat, readFloat;
    simplified: readFloat stops reading the exponent at 10000, which only matters for texts with
    thousands of digits). *)
Definition num_value (t : bytes) : bool * Z * Z :=
  let '(neg, s1) := match t with c :: r => if c =? 45 then (true, r) else (false, t) | [] => (false, t) end in
  let '(ip, s2) := span_digits s1 in
  let '(fd, s3) := match s2 with c :: r => if c =? 46 then span_digits r else ([], s2) | [] => ([], s2) end in
  let x := match s3 with
           | _ :: y :: r => if y =? 45 then - num_digits r else if y =? 43 then num_digits r else num_digits (y :: r)
           | _ => 0
           end in
  (neg, num_digits (ip ++ fd), x - zlen fd).
(** strconv.ParseFloat(s, 64), correctly rounded; None: out of range. *)
Definition parse_float (t : bytes) : option spec_float :=
  let '(neg, m, e) := num_value t in
  match m with
  | Zpos p =>
      let '(n, d) := if 0 <=? e then (Zpos p * 10 ^ e, 1) else (Zpos p, 10 ^ (- e)) in
      let '(q, e', l) := SFdiv_core_binary 53 1024 n 0 d 0 in
      match binary_round_aux 53 1024 neg q e' l with
      | S754_infinity _ => None
      | x => Some x
      end
  | _ => Some (S754_zero neg)
  end.
(** A value into interface{} (decode.go, valueInterface): numbers become float64; truth values,
    lists and objects are opaque to the program, [tag] names them. *)
Section Any.
Variable tag : gj -> Z.
Definition into_any (g : gj) (old : gval) : gval * bool :=
  match g with
  | GNull => (VNil, true)
  | GNum t => match parse_float t with Some x => (VFloat64 x, true) | None => (VNil, false) end
  | GStr s => (VString s, true)
  | _ => (VOther (tag g), true)
  end.

(** CanBoatMessage, parsed_message.go:52-59 (without the time stamp). *)
Definition canboat_fields : list (bytes * setter canboat) :=
  [(str "timestamp", fun g c => (c, match g with GStr _ | GNull => true | _ => false end));
   (str "prio", fun g c => let '(x, ok) := into_uint 8 g (cb_prio c) in (mkcb x (cb_src c) (cb_dst c) (cb_pgn c) (cb_fields c), ok));
   (str "src", fun g c => let '(x, ok) := into_uint 8 g (cb_src c) in (mkcb (cb_prio c) x (cb_dst c) (cb_pgn c) (cb_fields c), ok));
   (str "dst", fun g c => let '(x, ok) := into_uint 8 g (cb_dst c) in (mkcb (cb_prio c) (cb_src c) x (cb_pgn c) (cb_fields c), ok));
   (str "pgn", fun g c => let '(x, ok) := into_uint 32 g (cb_pgn c) in (mkcb (cb_prio c) (cb_src c) (cb_dst c) x (cb_fields c), ok));
   (str "fields", fun g c => let '(m, ok) := into_map into_any VNil g (Some (cb_fields c)) in
      (mkcb (cb_prio c) (cb_src c) (cb_dst c) (cb_pgn c) (match m with Some l => l | None => [] end), ok))].
(** json.Unmarshal of a line, parsed_message.go:62-63: the error is dropped, so a text that is no
    JSON leaves zero (None), and values of the wrong type are left out. *)
Definition unmarshal_canboat (depth : nat) (s : bytes) : option canboat :=
  match read_text depth s with
  | Some g => Some (fst (into_struct canboat_fields g canboat_zero))
  | None => None
  end.
End Any.

(* ------------------------------------------------------------------ the configuration *)

Definition zero_iface : iface_cfg := mkiface [] [] 0.
(** InterfaceConfig, config.go:61-65 (uint has 64 bits). *)
Definition iface_fields : list (bytes * setter iface_cfg) :=
  [(str "Path", fun g i => let '(x, ok) := into_string g (ic_path i) in (mkiface x (ic_type i) (ic_speed i), ok));
   (str "Type", fun g i => let '(x, ok) := into_string g (ic_type i) in (mkiface (ic_path i) x (ic_speed i), ok));
   (str "Speed", fun g i => let '(x, ok) := into_uint 64 g (ic_speed i) in (mkiface (ic_path i) (ic_type i) x, ok))].
(** serverConfig, config.go:39-48. *)
Definition server_fields : list (bytes * setter server_cfg) :=
  [(str "EnableWebsockets", fun g s => let '(x, ok) := into_bool g (sv_websockets s) in
      (mkserver x (sv_tls s) (sv_port s) (sv_listen s) (sv_assets s) (sv_cert s) (sv_public s) (sv_private s), ok));
   (str "UseTls", fun g s => let '(x, ok) := into_bool g (sv_tls s) in
      (mkserver (sv_websockets s) x (sv_port s) (sv_listen s) (sv_assets s) (sv_cert s) (sv_public s) (sv_private s), ok));
   (str "Port", fun g s => let '(x, ok) := into_int g (sv_port s) in
      (mkserver (sv_websockets s) (sv_tls s) x (sv_listen s) (sv_assets s) (sv_cert s) (sv_public s) (sv_private s), ok));
   (str "ListenOn", fun g s => let '(x, ok) := into_string g (sv_listen s) in
      (mkserver (sv_websockets s) (sv_tls s) (sv_port s) x (sv_assets s) (sv_cert s) (sv_public s) (sv_private s), ok));
   (str "AssetPath", fun g s => let '(x, ok) := into_string g (sv_assets s) in
      (mkserver (sv_websockets s) (sv_tls s) (sv_port s) (sv_listen s) x (sv_cert s) (sv_public s) (sv_private s), ok));
   (str "Certificate", fun g s => let '(x, ok) := into_string g (sv_cert s) in
      (mkserver (sv_websockets s) (sv_tls s) (sv_port s) (sv_listen s) (sv_assets s) x (sv_public s) (sv_private s), ok));
   (str "PublicKeyFile", fun g s => let '(x, ok) := into_string g (sv_public s) in
      (mkserver (sv_websockets s) (sv_tls s) (sv_port s) (sv_listen s) (sv_assets s) (sv_cert s) x (sv_private s), ok));
   (str "PrivateKeyFile", fun g s => let '(x, ok) := into_string g (sv_private s) in
      (mkserver (sv_websockets s) (sv_tls s) (sv_port s) (sv_listen s) (sv_assets s) (sv_cert s) (sv_public s) x, ok))].
(** mqttConfig, config.go:50-59. *)
Definition mqtt_fields : list (bytes * setter mqtt_cfg) :=
  [(str "Enable", fun g m => let '(x, ok) := into_bool g (mq_enable m) in
      (mkmqtt x (mq_tls m) (mq_port m) (mq_host m) (mq_client m) (mq_user m) (mq_password m) (mq_channel m), ok));
   (str "UseTls", fun g m => let '(x, ok) := into_bool g (mq_tls m) in
      (mkmqtt (mq_enable m) x (mq_port m) (mq_host m) (mq_client m) (mq_user m) (mq_password m) (mq_channel m), ok));
   (str "Port", fun g m => let '(x, ok) := into_int g (mq_port m) in
      (mkmqtt (mq_enable m) (mq_tls m) x (mq_host m) (mq_client m) (mq_user m) (mq_password m) (mq_channel m), ok));
   (str "Host", fun g m => let '(x, ok) := into_string g (mq_host m) in
      (mkmqtt (mq_enable m) (mq_tls m) (mq_port m) x (mq_client m) (mq_user m) (mq_password m) (mq_channel m), ok));
   (str "ClientId", fun g m => let '(x, ok) := into_string g (mq_client m) in
      (mkmqtt (mq_enable m) (mq_tls m) (mq_port m) (mq_host m) x (mq_user m) (mq_password m) (mq_channel m), ok));
   (str "Username", fun g m => let '(x, ok) := into_string g (mq_user m) in
      (mkmqtt (mq_enable m) (mq_tls m) (mq_port m) (mq_host m) (mq_client m) x (mq_password m) (mq_channel m), ok));
   (str "Password", fun g m => let '(x, ok) := into_string g (mq_password m) in
      (mkmqtt (mq_enable m) (mq_tls m) (mq_port m) (mq_host m) (mq_client m) (mq_user m) x (mq_channel m), ok));
   (str "Channel", fun g m => let '(x, ok) := into_string g (mq_channel m) in
      (mkmqtt (mq_enable m) (mq_tls m) (mq_port m) (mq_host m) (mq_client m) (mq_user m) (mq_password m) x, ok))].
(** VesselConfig, config.go:67-81. *)
Definition vessel_fields : list (bytes * setter vessel_cfg) :=
  [(str "Name", fun g v => let '(x, ok) := into_string g (ve_name v) in
      (mkvessel x (ve_manufacturer v) (ve_model v) (ve_year v) (ve_mmsi v) (ve_callsign v) (ve_registration v) (ve_uuid v) (ve_uuid0 v) (ve_uuid1 v) (ve_uuid2 v) (ve_uuid3 v) (ve_uuid4 v), ok));
   (str "Manufacturer", fun g v => let '(x, ok) := into_string g (ve_manufacturer v) in
      (mkvessel (ve_name v) x (ve_model v) (ve_year v) (ve_mmsi v) (ve_callsign v) (ve_registration v) (ve_uuid v) (ve_uuid0 v) (ve_uuid1 v) (ve_uuid2 v) (ve_uuid3 v) (ve_uuid4 v), ok));
   (str "Model", fun g v => let '(x, ok) := into_string g (ve_model v) in
      (mkvessel (ve_name v) (ve_manufacturer v) x (ve_year v) (ve_mmsi v) (ve_callsign v) (ve_registration v) (ve_uuid v) (ve_uuid0 v) (ve_uuid1 v) (ve_uuid2 v) (ve_uuid3 v) (ve_uuid4 v), ok));
   (str "Year", fun g v => let '(x, ok) := into_int g (ve_year v) in
      (mkvessel (ve_name v) (ve_manufacturer v) (ve_model v) x (ve_mmsi v) (ve_callsign v) (ve_registration v) (ve_uuid v) (ve_uuid0 v) (ve_uuid1 v) (ve_uuid2 v) (ve_uuid3 v) (ve_uuid4 v), ok));
   (str "Mmsi", fun g v => let '(x, ok) := into_int g (ve_mmsi v) in
      (mkvessel (ve_name v) (ve_manufacturer v) (ve_model v) (ve_year v) x (ve_callsign v) (ve_registration v) (ve_uuid v) (ve_uuid0 v) (ve_uuid1 v) (ve_uuid2 v) (ve_uuid3 v) (ve_uuid4 v), ok));
   (str "Callsign", fun g v => let '(x, ok) := into_string g (ve_callsign v) in
      (mkvessel (ve_name v) (ve_manufacturer v) (ve_model v) (ve_year v) (ve_mmsi v) x (ve_registration v) (ve_uuid v) (ve_uuid0 v) (ve_uuid1 v) (ve_uuid2 v) (ve_uuid3 v) (ve_uuid4 v), ok));
   (str "Registration", fun g v => let '(x, ok) := into_string g (ve_registration v) in
      (mkvessel (ve_name v) (ve_manufacturer v) (ve_model v) (ve_year v) (ve_mmsi v) (ve_callsign v) x (ve_uuid v) (ve_uuid0 v) (ve_uuid1 v) (ve_uuid2 v) (ve_uuid3 v) (ve_uuid4 v), ok));
   (str "Uuid", fun g v => let '(x, ok) := into_string g (ve_uuid v) in
      (mkvessel (ve_name v) (ve_manufacturer v) (ve_model v) (ve_year v) (ve_mmsi v) (ve_callsign v) (ve_registration v) x (ve_uuid0 v) (ve_uuid1 v) (ve_uuid2 v) (ve_uuid3 v) (ve_uuid4 v), ok));
   (str "Uuid0", fun g v => let '(x, ok) := into_string g (ve_uuid0 v) in
      (mkvessel (ve_name v) (ve_manufacturer v) (ve_model v) (ve_year v) (ve_mmsi v) (ve_callsign v) (ve_registration v) (ve_uuid v) x (ve_uuid1 v) (ve_uuid2 v) (ve_uuid3 v) (ve_uuid4 v), ok));
   (str "Uuid1", fun g v => let '(x, ok) := into_string g (ve_uuid1 v) in
      (mkvessel (ve_name v) (ve_manufacturer v) (ve_model v) (ve_year v) (ve_mmsi v) (ve_callsign v) (ve_registration v) (ve_uuid v) (ve_uuid0 v) x (ve_uuid2 v) (ve_uuid3 v) (ve_uuid4 v), ok));
   (str "Uuid2", fun g v => let '(x, ok) := into_string g (ve_uuid2 v) in
      (mkvessel (ve_name v) (ve_manufacturer v) (ve_model v) (ve_year v) (ve_mmsi v) (ve_callsign v) (ve_registration v) (ve_uuid v) (ve_uuid0 v) (ve_uuid1 v) x (ve_uuid3 v) (ve_uuid4 v), ok));
   (str "Uuid3", fun g v => let '(x, ok) := into_string g (ve_uuid3 v) in
      (mkvessel (ve_name v) (ve_manufacturer v) (ve_model v) (ve_year v) (ve_mmsi v) (ve_callsign v) (ve_registration v) (ve_uuid v) (ve_uuid0 v) (ve_uuid1 v) (ve_uuid2 v) x (ve_uuid4 v), ok));
   (str "Uuid4", fun g v => let '(x, ok) := into_string g (ve_uuid4 v) in
      (mkvessel (ve_name v) (ve_manufacturer v) (ve_model v) (ve_year v) (ve_mmsi v) (ve_callsign v) (ve_registration v) (ve_uuid v) (ve_uuid0 v) (ve_uuid1 v) (ve_uuid2 v) (ve_uuid3 v) x, ok))].
(** TomlConfig, config.go:30-37; the zero value. *)
Definition zero_config : config :=
  mkconfig [] [] (mkserver false false 0 [] [] [] [] []) (mkmqtt false false 0 [] [] [] [] []) None
    (mkvessel [] [] [] 0 0 [] [] [] [] [] [] [] []).
Definition config_fields : list (bytes * setter config) :=
  [(str "LogLevel", fun g c => let '(x, ok) := into_string g (cf_log c) in
      (mkconfig x (cf_map c) (cf_server c) (cf_mqtt c) (cf_ifaces c) (cf_vessel c), ok));
   (str "MapFile", fun g c => let '(x, ok) := into_string g (cf_map c) in
      (mkconfig (cf_log c) x (cf_server c) (cf_mqtt c) (cf_ifaces c) (cf_vessel c), ok));
   (str "Server", fun g c => let '(x, ok) := into_struct server_fields g (cf_server c) in
      (mkconfig (cf_log c) (cf_map c) x (cf_mqtt c) (cf_ifaces c) (cf_vessel c), ok));
   (str "Mqtt", fun g c => let '(x, ok) := into_struct mqtt_fields g (cf_mqtt c) in
      (mkconfig (cf_log c) (cf_map c) (cf_server c) x (cf_ifaces c) (cf_vessel c), ok));
   (str "Interfaces", fun g c => let '(x, ok) := into_map (into_struct iface_fields) zero_iface g (cf_ifaces c) in
      (mkconfig (cf_log c) (cf_map c) (cf_server c) (cf_mqtt c) x (cf_vessel c), ok));
   (str "Vessel", fun g c => let '(x, ok) := into_struct vessel_fields g (cf_vessel c) in
      (mkconfig (cf_log c) (cf_map c) (cf_server c) (cf_mqtt c) (cf_ifaces c) x, ok))].
(** adminHandler, ui_server.go:97-100: the body, or None on an error. *)
Definition decode_config (depth : nat) (body : bytes) : option config :=
  match read_value depth body with
  | Some (g, _) => let '(c, ok) := into_struct config_fields g zero_config in if ok then Some c else None
  | None => None
  end.
(** adminHandler, ui_server.go:95-106, on the request's method and body. *)
Definition admin_request (depth : nat) (nilp : bool) (sys : config) (post : bool) (body : bytes) : config * admin_result :=
  admin_merge nilp sys post (decode_config depth body).

(* ------------------------------------------------------------------ other requests *)

(** pkgRequest, ui_server.go:70-73, read at line 151-152. *)
Definition pkg_fields : list (bytes * setter (bytes * bytes)) :=
  [(str "Package", fun g p => let '(x, ok) := into_string g (fst p) in ((x, snd p), ok));
   (str "Version", fun g p => let '(x, ok) := into_string g (snd p) in ((fst p, x), ok))].
Definition decode_pkg (depth : nat) (body : bytes) : option (bytes * bytes) :=
  match read_value depth body with
  | Some (g, _) => let '(p, ok) := into_struct pkg_fields g ([], []) in if ok then Some p else None
  | None => None
  end.
(** CommandRequest, api_server.go:44-47, read at lines 148-156: "Invalid JSON" is answered on an
    error, but the command, as far as it was decoded, is passed on all the same. *)
Definition command_fields : list (bytes * setter (bytes * Z)) :=
  [(str "req_type", fun g p => let '(x, ok) := into_string g (fst p) in ((x, snd p), ok));
   (str "req_pgn", fun g p => let '(x, ok) := into_uint 32 g (snd p) in ((fst p, x), ok))].
Definition decode_command (depth : nat) (body : bytes) : (bytes * Z) * bool :=
  match read_value depth body with
  | Some (g, _) => into_struct command_fields g ([], 0)
  | None => (([], 0), false)
  end.
