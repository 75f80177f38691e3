(** FlagsModel: the command line: /repo/main/flags.go, the functions of Go's package flag and
    strconv it calls (go 1.13 per /repo/go.mod), and the first lines of main, argo.go:66-92. *)
From Verif Require Import GoBase Strconv NmeaTypes MainModel LogModel.
Open Scope Z_scope.
Open Scope list_scope.

(* ------------------------------------------------------------------ strconv *)

(** strconv.lower: c | 0x20. *)
Definition lower32 (c : Z) : Z := Z.lor c 32.

(** strconv.ParseUint with base 0, the choice of the base: (base, rest of the text). *)
Definition pick_base (s : bytes) : Z * bytes :=
  match s with
  | 48 :: c :: d :: r =>
      if lower32 c =? 98 then (2, d :: r)
      else if lower32 c =? 111 then (8, d :: r)
      else if lower32 c =? 120 then (16, d :: r)
      else (8, c :: d :: r)
  | 48 :: r => (8, r)
  | _ => (10, s)
  end.

(** strconv.ParseUint's loop with base 0 (underscores skipped and noted). *)
Fixpoint pu0_loop (base maxv : Z) (s : bytes) (n : Z) (under : bool) : pu_result * bool :=
  match s with
  | [] => (PUok n, under)
  | c :: r =>
      if c =? 95 then pu0_loop base maxv r n true
      else
        let d :=
          if (48 <=? c) && (c <=? 57) then Some (c - 48)
          else if (97 <=? lower32 c) && (lower32 c <=? 122) then Some (lower32 c - 97 + 10)
          else None in
        match d with
        | None => (PUsyntax, under)
        | Some d =>
            if base <=? d then (PUsyntax, under)
            else let n1 := n * base + d in
                 if maxv <? n1 then (PUrange maxv, under) else pu0_loop base maxv r n1 under
        end
  end.

(** strconv.underscoreOK, the part after the optional sign.  The state: last character seen,
    94 = start, 48 = digit or base prefix, 95 = underscore, 33 = none of these. *)
Fixpoint under_loop (hex : bool) (saw : Z) (s : bytes) : bool :=
  match s with
  | [] => negb (saw =? 95)
  | c :: r =>
      if ((48 <=? c) && (c <=? 57)) || (hex && (97 <=? lower32 c) && (lower32 c <=? 102)) then under_loop hex 48 r
      else if c =? 95 then (if saw =? 48 then under_loop hex 95 r else false)
      else if saw =? 95 then false
      else under_loop hex 33 r
  end.
Definition underscore_ok (s : bytes) : bool :=
  let s := match s with c :: r => if (c =? 45) || (c =? 43) then r else s | [] => s end in
  match s with
  | 48 :: c :: r =>
      if (lower32 c =? 98) || (lower32 c =? 111) || (lower32 c =? 120)
      then under_loop (lower32 c =? 120) 48 r
      else under_loop false 94 s
  | _ => under_loop false 94 s
  end.

(** strconv.ParseUint(s, 0, 64). *)
Definition parse_uint0 (s : bytes) : pu_result :=
  match s with
  | [] => PUsyntax
  | _ =>
      let '(base, r) := pick_base s in
      match pu0_loop base (2 ^ 64 - 1) r 0 false with
      | (PUok n, true) => if underscore_ok s then PUok n else PUsyntax
      | (x, _) => x
      end
  end.
(** strconv.ParseInt(s, 0, strconv.IntSize) on a 64 bit machine: Some n on nil error. *)
Definition parse_int0 (s : bytes) : option Z :=
  match s with
  | [] => None
  | c :: r =>
      let neg := c =? 45 in
      let body := if (c =? 43) || (c =? 45) then r else s in
      match parse_uint0 body with
      | PUsyntax => None
      | PUok un | PUrange un =>
          if negb neg && (2 ^ 63 <=? un) then None
          else if neg && (2 ^ 63 <? un) then None
          else Some (if neg then - un else un)
      end
  end.
(** strconv.ParseBool. *)
Definition parse_bool (s : bytes) : option bool :=
  if existsb (bytes_eqb s) [str "1"; str "t"; str "T"; str "TRUE"; str "true"; str "True"] then Some true
  else if existsb (bytes_eqb s) [str "0"; str "f"; str "F"; str "FALSE"; str "false"; str "False"] then Some false
  else None.

(* ------------------------------------------------------------------ flags *)

(** commandArgs, flags.go:28-37. *)
Record command_args := mkargs {
  a_help : bool; a_explain : bool; a_stats : bool; a_pgn : Z; a_src : Z; a_dst : Z;
  a_log : bytes; a_config : bytes }.
(** The default values of flags.go:42-49. *)
Definition default_args : command_args := mkargs false false false 0 255 255 [] (str "argo.conf").

(** The flags defined at flags.go:42-49, by kind. *)
Inductive flag_kind :=
| KBool (set : bool -> command_args -> command_args)
| KInt (set : Z -> command_args -> command_args)
| KString (set : bytes -> command_args -> command_args).
Definition lookup_flag (name : bytes) : option flag_kind :=
  if bytes_eqb name (str "help") then
    Some (KBool (fun v a => mkargs v (a_explain a) (a_stats a) (a_pgn a) (a_src a) (a_dst a) (a_log a) (a_config a)))
  else if bytes_eqb name (str "explain") then
    Some (KBool (fun v a => mkargs (a_help a) v (a_stats a) (a_pgn a) (a_src a) (a_dst a) (a_log a) (a_config a)))
  else if bytes_eqb name (str "statistic") then
    Some (KBool (fun v a => mkargs (a_help a) (a_explain a) v (a_pgn a) (a_src a) (a_dst a) (a_log a) (a_config a)))
  else if bytes_eqb name (str "pgn") then
    Some (KInt (fun v a => mkargs (a_help a) (a_explain a) (a_stats a) v (a_src a) (a_dst a) (a_log a) (a_config a)))
  else if bytes_eqb name (str "source") then
    Some (KInt (fun v a => mkargs (a_help a) (a_explain a) (a_stats a) (a_pgn a) v (a_dst a) (a_log a) (a_config a)))
  else if bytes_eqb name (str "dest") then
    Some (KInt (fun v a => mkargs (a_help a) (a_explain a) (a_stats a) (a_pgn a) (a_src a) v (a_log a) (a_config a)))
  else if bytes_eqb name (str "log") then
    Some (KString (fun v a => mkargs (a_help a) (a_explain a) (a_stats a) (a_pgn a) (a_src a) (a_dst a) v (a_config a)))
  else if bytes_eqb name (str "config") then
    Some (KString (fun v a => mkargs (a_help a) (a_explain a) (a_stats a) (a_pgn a) (a_src a) (a_dst a) (a_log a) v))
  else None.

(** flag.FlagSet.parseOne, the split of a name at its first '=' not in front: the loop from
    index 1. *)
Fixpoint split_eq (s : bytes) : bytes * option bytes :=
  match s with
  | [] => ([], None)
  | c :: r => if c =? 61 then ([], Some r) else let '(n, v) := split_eq r in (c :: n, v)
  end.
Definition split_name (name : bytes) : bytes * option bytes :=
  match name with
  | [] => ([], None)
  | c :: r => let '(n, v) := split_eq r in (c :: n, v)
  end.

(** The word as a flag: what precedes the name is removed. *)
Inductive word_kind := WStop | WStopSkip | WBad | WFlag (name : bytes).
Definition classify (s : bytes) : word_kind :=
  match s with
  | 45 :: 45 :: [] => WStopSkip
  | 45 :: 45 :: name => match name with c :: _ => if (c =? 45) || (c =? 61) then WBad else WFlag name | [] => WBad end
  | 45 :: c :: r => if c =? 61 then WBad else WFlag (c :: r)
  | _ => WStop
  end.

(** What package flag makes of the command line.  The errors (flag.ExitOnError): a message and
    the usage go to standard error and the process exits with status 2. *)
Inductive flag_error := BadSyntax | Undefined | Usage | BadValue | NeedsValue.
Inductive flag_result := FOk (a : command_args) (rest : list bytes) | FExit (e : flag_error).

(** flag.FlagSet.Parse with parseOne, called at flags.go:51. *)
Fixpoint parse_args (args : list bytes) (a : command_args) : flag_result :=
  match args with
  | [] => FOk a []
  | s :: rest =>
      match classify s with
      | WStop => FOk a args
      | WStopSkip => FOk a rest
      | WBad => FExit BadSyntax
      | WFlag name =>
          let '(name, value) := split_name name in
          match lookup_flag name with
          | None => if bytes_eqb name (str "help") || bytes_eqb name (str "h") then FExit Usage else FExit Undefined
          | Some (KBool set) =>
              match parse_bool (match value with Some v => v | None => str "true" end) with
              | Some b => parse_args rest (set b a)
              | None => FExit BadValue
              end
          | Some (KInt set) =>
              match value with
              | Some v => match parse_int0 v with Some n => parse_args rest (set n a) | None => FExit BadValue end
              | None =>
                  match rest with
                  | [] => FExit NeedsValue
                  | v :: rest' => match parse_int0 v with Some n => parse_args rest' (set n a) | None => FExit BadValue end
                  end
              end
          | Some (KString set) =>
              match value with
              | Some v => parse_args rest (set v a)
              | None => match rest with [] => FExit NeedsValue | v :: rest' => parse_args rest' (set v a) end
              end
          end
      end
  end.

(** GetCommandLineOptions, flags.go:39-56; [other] is strings.ToUpper on texts that are not
    ASCII.  None: the process has exited with status 2. *)
Definition GetCommandLineOptions (other : bytes -> bytes) (args : list bytes) : option command_args :=
  match parse_args args default_args with
  | FOk a _ => Some (mkargs (a_help a) (a_explain a) (a_stats a) (a_pgn a) (a_src a) (a_dst a) (to_upper other (a_log a)) (a_config a))
  | FExit _ => None
  end.

(** What main does with them, argo.go:66-92: exit with status 2, print the help, print the
    definitions, or start with the given configuration file and log level. *)
Inductive start := Exit2 | Help | Explain | Start (config level : bytes) (pgn src dst : Z) (stats : bool).
Definition main_start (other : bytes -> bytes) (args : list bytes) : start :=
  match GetCommandLineOptions other args with
  | None => Exit2
  | Some o =>
      if a_help o then Help else if a_explain o then Explain
      else Start (a_config o) (a_log o) (a_pgn o) (a_src o) (a_dst o) (a_stats o)
  end.
(** The options the consumer reads (argo.go:163-166,189), with the two switches of the
    configuration. *)
Definition consumer_options (a : command_args) (ws mqtt : bool) : options :=
  mkopts (a_stats a) (a_pgn a) (a_src a) (a_dst a) ws mqtt.
