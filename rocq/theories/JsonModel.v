(** JsonModel: the JSON texts the program writes: Go's encoding/json (encode.go: string,
    floatEncoder, encodeByteSlice, mapEncoder, structEncoder; indent.go: Indent) and
    time.Time.MarshalJSON, on the values /repo hands to json.Marshal and json.MarshalIndent:
    deltas (main/argo.go:198, types of signalk/signalk.go:84-104), parsed messages
    (nmea2k/parsed_message.go:36-51, 144-152), the message index (main/api_server.go:107) and
    UUIDs (main/ui_server.go:85).

    Simplifications, once for the file:
    - values are first turned into a tree of finished texts, which [compact] and [indent]
      lay out; Go writes compact text and indents it afterwards;
    - an empty []byte prints as "", a nil one as null: [nilb] says whether the message's Data,
      of which all the []byte values are parts, is nil. *)
From Coq Require Import Floats.SpecFloat.
From Verif Require Import GoBase Strconv CanModel NmeaTypes NmeaModel SignalkModel MainModel ApiModel FtoaModel.
Open Scope Z_scope.
Open Scope list_scope.

(* ------------------------------------------------------------------ strings *)

(** unicode/utf8.DecodeRuneInString: the character at the start of s and its length in bytes;
    None is (RuneError, 1).  The second byte's range depends on the first (tables first and
    acceptRanges). *)
Definition cont (b : Z) : bool := (128 <=? b) && (b <=? 191).
Definition decode_rune (s : bytes) : option (Z * nat) :=
  match s with
  | [] => None
  | a :: r =>
      if a <? 128 then Some (a, 1%nat)
      else if (194 <=? a) && (a <=? 223) then
        match r with
        | b :: _ => if cont b then Some ((a - 192) * 64 + (b - 128), 2%nat) else None
        | _ => None
        end
      else if (224 <=? a) && (a <=? 239) then
        match r with
        | b :: c :: _ =>
            if ((if a =? 224 then 160 else 128) <=? b) && (b <=? (if a =? 237 then 159 else 191)) && cont c
            then Some ((a - 224) * 4096 + (b - 128) * 64 + (c - 128), 3%nat) else None
        | _ => None
        end
      else if (240 <=? a) && (a <=? 244) then
        match r with
        | b :: c :: d :: _ =>
            if ((if a =? 240 then 144 else 128) <=? b) && (b <=? (if a =? 244 then 143 else 191)) && cont c && cont d
            then Some ((a - 240) * 262144 + (b - 128) * 4096 + (c - 128) * 64 + (d - 128), 4%nat) else None
        | _ => None
        end
      else None
  end.

(** hex[n] of encode.go: "0123456789abcdef". *)
Definition hexl (n : Z) : Z := if n <? 10 then 48 + n else 87 + n.
(** htmlSafeSet, encoding/json tables.go: printable ASCII and DEL except the quote, the
    ampersand, the angle brackets and the backslash. *)
Definition html_safe (b : Z) : bool :=
  (32 <=? b) && negb ((b =? 34) || (b =? 38) || (b =? 60) || (b =? 62) || (b =? 92)).
(** An ASCII byte inside a string, encode.go (encodeState.string). *)
Definition json_ascii (b : Z) : bytes :=
  if html_safe b then [b]
  else if (b =? 92) || (b =? 34) then [92; b]
  else if b =? 10 then [92; 110]
  else if b =? 13 then [92; 114]
  else if b =? 9 then [92; 116]
  else [92; 117; 48; 48; hexl (b / 16); hexl (b mod 16)].
(** The loop of encodeState.string; [skip] bytes of the current character are already dealt
    with. *)
Fixpoint json_body (skip : nat) (s : bytes) : bytes :=
  match s with
  | [] => []
  | b :: r =>
      match skip with
      | S k => json_body k r
      | O =>
          if b <? 128 then json_ascii b ++ json_body O r
          else match decode_rune s with
               | None => [92; 117; 102; 102; 102; 100] ++ json_body O r
               | Some (c, n) =>
                   (if (c =? 8232) || (c =? 8233) then [92; 117; 50; 48; 50; hexl (c mod 16)] else firstn n s) ++
                   json_body (n - 1) r
               end
      end
  end.
Definition json_string (s : bytes) : bytes := 34 :: json_body O s ++ [34].

(* ------------------------------------------------------------------ base 64 and times *)

(** encoding/base64 StdEncoding. *)
Definition b64_char (v : Z) : Z :=
  if v <? 26 then 65 + v else if v <? 52 then 71 + v else if v <? 62 then v - 4 else if v =? 62 then 43 else 47.
Fixpoint b64 (s : bytes) : bytes :=
  match s with
  | [] => []
  | [a] => [b64_char (a / 4); b64_char (a mod 4 * 16); 61; 61]
  | [a; b] => [b64_char (a / 4); b64_char (a mod 4 * 16 + b / 16); b64_char (b mod 16 * 4); 61]
  | a :: b :: c :: r =>
      b64_char (a / 4) :: b64_char (a mod 4 * 16 + b / 16) :: b64_char (b mod 16 * 4 + c / 64) :: b64_char (c mod 64) :: b64 r
  end.

(** Time.MarshalJSON: RFC3339Nano = "2006-01-02T15:04:05.999999999Z07:00" in quotes; an error
    when the year is not 0..9999.  formatNano drops trailing zeros and an empty fraction. *)
Definition nano_text (ns : Z) : bytes :=
  match trim_zeros (pad 9 (itoa ns)) with [] => [] | f => 46 :: f end.
Definition json_time (tz sec ns : Z) : option bytes :=
  let n := (sec + tz) / 86400 in
  let s := (sec + tz) mod 86400 in
  let '(y, m, d) := civil n in
  if (y <? 0) || (10000 <=? y) then None
  else Some (34 ::
    (fmt_int y 4 ++ [45] ++ fmt_int m 2 ++ [45] ++ fmt_int d 2 ++ [84] ++
     fmt_int (s / 3600) 2 ++ [58] ++ fmt_int (s / 60 mod 60) 2 ++ [58] ++ fmt_int (s mod 60) 2 ++ nano_text ns ++
     (if tz =? 0 then [90]
      else let zone := Z.quot tz 60 in
           (if zone <? 0 then [45] else [43]) ++
           fmt_int (Z.abs zone / 60) 2 ++ [58] ++ fmt_int (Z.abs zone mod 60) 2)) ++ [34]).

(* ------------------------------------------------------------------ trees and layouts *)

(** A value ready to be laid out: a finished text, a list, or an object with its member names
    (still unquoted). *)
Inductive jt := TAtom (b : bytes) | TList (l : list jt) | TObj (l : list (bytes * jt)).

Fixpoint joined (sep : bytes) (l : list bytes) : bytes :=
  match l with
  | [] => []
  | [x] => x
  | x :: r => x ++ sep ++ joined sep r
  end.
(** json.Marshal: no white space. *)
Fixpoint compact (t : jt) : bytes :=
  match t with
  | TAtom b => b
  | TList l => [91] ++ joined [44] (map compact l) ++ [93]
  | TObj l => [123] ++ joined [44] (map (fun kv => match kv with (k, v) => json_string k ++ [58] ++ compact v end) l) ++ [125]
  end.
(** json.MarshalIndent(v, "", "  "): a line per element, two blanks per level; empty lists and
    objects stay as they are. *)
Definition newline (depth : nat) : bytes := 10 :: List.concat (repeat [32; 32] depth).
Fixpoint indent (depth : nat) (t : jt) : bytes :=
  match t with
  | TAtom b => b
  | TList [] => [91; 93]
  | TList l => [91] ++ newline (S depth) ++ joined (44 :: newline (S depth)) (map (indent (S depth)) l) ++ newline depth ++ [93]
  | TObj [] => [123; 125]
  | TObj l => [123] ++ newline (S depth) ++
      joined (44 :: newline (S depth)) (map (fun kv => match kv with (k, v) => json_string k ++ [58; 32] ++ indent (S depth) v end) l) ++
      newline depth ++ [125]
  end.

(** A slice: nil prints as null.  (The program's slices are empty only when nil.) *)
Definition tslice (l : list jt) : jt := match l with [] => TAtom (str "null") | _ => TList l end.
Fixpoint all_some {A} (l : list (option A)) : option (list A) :=
  match l with
  | [] => Some []
  | Some x :: r => match all_some r with Some l' => Some (x :: l') | None => None end
  | None :: _ => None
  end.
Definition tnum (n : Z) : jt := TAtom (itoa n).
Definition ttext (s : bytes) : jt := TAtom (json_string s).
Definition tbool (b : bool) : jt := TAtom (if b then str "true" else str "false").

(* ------------------------------------------------------------------ values *)

(** encodeByteSlice; only a slice without elements can be nil. *)
Definition json_bytes (nilb : bool) (s : bytes) : bytes :=
  match s with
  | [] => if nilb then str "null" else [34; 34]
  | _ => 34 :: b64 s ++ [34]
  end.
(** The dynamic values of a message (interface{}), by reflection on their type; [other] stands
    for the values of other types a CanBoat import can bring. *)
Definition json_value (other : Z -> option bytes) (nilb : bool) (tz : Z) (v : gval) : option bytes :=
  match v with
  | VNil => Some (str "null")
  | VUint64 n | VInt8 n | VInt16 n | VInt32 n | VInt64 n => Some (itoa n)
  | VFloat32 x => json_float 24 128 x
  | VFloat64 x => json_float 53 1024 x
  | VString s => Some (json_string s)
  | VBytes s => Some (json_bytes nilb s)
  | VTime sec ns => json_time tz sec ns
  | VOther k => other k
  end.

(** json.Marshal(bj), argo.go:198, for a delta stamped (sec, ns); member names from the tags in
    signalk.go:84-104. *)
Definition tree_delta (other : Z -> option bytes) (nilb : bool) (tz sec ns : Z) (d : delta) : option jt :=
  match all_some (map (fun u =>
          match json_time tz sec ns,
                all_some (map (fun v => match json_value other nilb tz (v_value v) with
                                        | Some b => Some (TObj [(str "path", ttext (v_path v)); (str "value", TAtom b)])
                                        | None => None
                                        end) (u_values u)) with
          | Some t, Some vs =>
              Some (TObj [(str "source", TObj [(str "pgn", tnum (u_pgn u)); (str "device", ttext (u_device u)); (str "src", tnum (u_src u))]);
                          (str "timestamp", TAtom t); (str "values", tslice vs)])
          | _, _ => None
          end) (d_updates d)) with
  | Some us => Some (TObj [(str "context", ttext (d_context d)); (str "updates", tslice us)])
  | None => None
  end.
Definition json_delta (other : Z -> option bytes) (nilb : bool) (tz sec ns : Z) (d : delta) : option bytes :=
  match tree_delta other nilb tz sec ns d with Some t => Some (compact t) | None => None end.
(** The same with the time.Time of an update as one number of nanoseconds since the Unix epoch,
    as the consumer's step has it (MainModel.v, vi_now). *)
Definition marshal_at (other : Z -> option bytes) (nilb : bool) (tz now : Z) (d : delta) : option bytes :=
  json_delta other nilb tz (now / 1000000000) (now mod 1000000000) d.

(** DataMap.MarshalJSON, parsed_message.go:36-44: an object with the fields' numbers as names,
    which json.Marshal sorts as texts. *)
Fixpoint insert_member {A} (kv : bytes * A) (l : list (bytes * A)) : list (bytes * A) :=
  match l with
  | [] => [kv]
  | x :: r => if bytes_ltb (fst x) (fst kv) then x :: insert_member kv r else kv :: l
  end.
Definition sort_members {A} (l : list (bytes * A)) : list (bytes * A) := fold_right insert_member [] l.
Definition tree_data (other : Z -> option bytes) (nilb : bool) (tz : Z) (m : dmap) : option jt :=
  match all_some (map (fun kv => match json_value other nilb tz (snd kv) with
                                 | Some b => Some (fst kv, TAtom b)
                                 | None => None
                                 end) (sort_members (json_members m))) with
  | Some l => Some (TObj l)
  | None => None
  end.
(** ParsedMessage.JSON, parsed_message.go:144-152, for a message received at (sec, ns): no
    tags, so the names are the fields' (those of the embedded can.RawMessage, can/can.go:30-47,
    are promoted).  None: the error is printed and the result is nil. *)
Definition tree_message (other : Z -> option bytes) (nilb : bool) (tz sec ns : Z) (p : parsed) : option jt :=
  match json_time tz sec ns, tree_data other nilb tz (pm_data p) with
  | Some t, Some d =>
      let h := pm_header p in
      Some (TObj [(str "Header", TObj [(str "Timestamp", TAtom t); (str "Priority", tnum (rm_priority h)); (str "Pgn", tnum (rm_pgn h));
                                        (str "Source", tnum (rm_source h)); (str "Destination", tnum (rm_dest h));
                                        (str "Length", tnum (rm_length h)); (str "Data", TAtom (json_bytes nilb (rm_data h)))]);
                  (str "Index", tnum (pm_index p)); (str "Data", d)])
  | _, _ => None
  end.
Definition json_message (other : Z -> option bytes) (nilb : bool) (tz sec ns : Z) (p : parsed) : option bytes :=
  match tree_message other nilb tz sec ns p with Some t => Some (compact t) | None => None end.

(** json.MarshalIndent(pgns, "", "  ") in MessagesIndex, api_server.go:107; IndexEntry,
    api_server.go:33-42. *)
Definition tree_entry (p : index_entry) : jt :=
  TObj [(str "Pgn", tnum (ie_pgn p)); (str "Name", ttext (str (ie_name p))); (str "Category", ttext (str (ie_category p)));
        (str "Verified", tbool (ie_verified p)); (str "Size", tnum (ie_size p)); (str "RepeatingFields", tnum (ie_repeating p));
        (str "Type", ttext (str (ie_type p))); (str "@Details", ttext (ie_details p))].
Definition json_index (l : list index_entry) : bytes := indent O (tslice (map tree_entry l)).

(** json.Marshal(uuid), ui_server.go:85; Uuid, ui_server.go:37-39. *)
Definition json_uuid (parts : list bytes) : bytes := compact (TObj [(str "uuid", tslice (map ttext parts))]).
