(** LogModel: what argo writes to its log: the level in force (/repo/main/argo.go:61-109,158-169,
    flags.go:48-53, package go-logging), and the texts of the two lines per message
    (/repo/can/can.go:65-69, /repo/nmea2k/parsed_message.go:99-131). *)
From Verif Require Import GoBase Strconv CanModel NmeaTypes NmeaModel ApiModel MainModel.
Open Scope Z_scope.
Open Scope list_scope.

(* ------------------------------------------------------------------ levels *)

(** Levels of op/go-logging: CRITICAL = 0 ... DEBUG = 5. *)
Definition level_names : list bytes :=
  [str "CRITICAL"; str "ERROR"; str "WARNING"; str "NOTICE"; str "INFO"; str "DEBUG"].
(** logging.LogLevel: strings.EqualFold(name, level), the first that matches (library; EqualFold
    is symmetric, the model takes the ASCII text second). *)
Fixpoint find_level (names : list bytes) (i : Z) (level : bytes) : option Z :=
  match names with
  | [] => None
  | n :: r => if EqualFold level n then Some i else find_level r (i + 1) level
  end.
Definition LogLevelOf (level : bytes) : option Z := find_level level_names 0 level.

(** The logger after start-up: does it discard everything, and its threshold. *)
Record logger := mklogger { lg_discard : bool; lg_level : Z }.
(** argo.go:94-107.  The threshold of a backend nobody set is DEBUG (go-logging). *)
Definition set_up (level : bytes) : logger :=
  if bytes_eqb level (str "NONE") then mklogger true 5
  else match LogLevelOf level with
       | Some l => mklogger false l
       | None => mklogger false 5
       end.
(** A record of level l is written: go-logging's IsEnabledFor and the backend. *)
Definition written (lg : logger) (l : Z) : bool := negb (lg_discard lg) && (l <=? lg_level lg).
(** argo.go:158. *)
Definition verbose_of (lg : logger) : bool := lg_level lg =? 5.

(** strings.ToUpper at flags.go:53, for ASCII; [other] stands for it on other texts. *)
Definition to_upper_char (c : Z) : Z := if (97 <=? c) && (c <=? 122) then c - 32 else c.
Definition to_upper (other : bytes -> bytes) (s : bytes) : bytes :=
  if forallb (fun c => c <? 128) s then map to_upper_char s else other s.

(* ------------------------------------------------------------------ lines *)

(** The verb "% x": two lower-case hexadecimal digits per byte, spaces between. *)
Definition hex_digit (d : Z) : Z := if d <? 10 then 48 + d else 87 + d.
Fixpoint hex_spaced (l : bytes) : bytes :=
  match l with
  | [] => []
  | [b] => [hex_digit (b / 16); hex_digit (b mod 16)]
  | b :: r => hex_digit (b / 16) :: hex_digit (b mod 16) :: 32 :: hex_spaced r
  end.
(** can.RawMessage.Print, can.go:65-69; [ts] is the formatted time stamp. *)
Definition raw_print (ts : bytes) (m : raw_message) : bytes :=
  ts ++ [32] ++ itoa (rm_priority m) ++ [32] ++ itoa (rm_source m) ++ [32] ++ itoa (rm_dest m) ++ [32] ++
  itoa (rm_pgn m) ++ [32] ++ itoa (rm_length m) ++ [58; 32] ++ hex_spaced (rm_data m).

(** One field, parsed_message.go:111-119; [text] is fmt's %f or %v of the value. *)
Definition field_text (text : gval -> bytes) (e : Z * string * gval) : bytes :=
  let '(i, name, v) := e in
  [32] ++ itoa i ++ [46] ++ str name ++ str " = " ++ (match v with VNil => str "nil" | v => text v end) ++ [59].
(** ParsedMessage.Print, parsed_message.go:99-131, with the final s[:len(s)-1]. *)
Definition msg_print (text : gval -> bytes) (ts : bytes) (t : list pgn_def) (p : parsed) (verbose : bool) : outcome bytes :=
  match zget t (pm_index p), print_fields t p verbose with
  | None, _ => Panic "index out of range"
  | Some pp, Ret l =>
      let h := pm_header p in
      let s := ts ++ [32] ++ itoa (rm_priority h) ++ [32] ++ itoa (rm_source h) ++ [32] ++ itoa (rm_dest h) ++ [32] ++
        itoa (rm_pgn h) ++ [32] ++ str (p_desc pp) ++ [58] ++ flat_map (field_text text) l in
      Ret (firstn (List.length s - 1) s)
  | Some _, Err e => Err e
  | Some _, Panic q => Panic q
  end.

(** What is written for one message, argo.go:163-169.  (Print is called before the level is
    looked at, so its panics do not depend on the level.) *)
Definition log_lines (lg : logger) (text : gval -> bytes) (ts : bytes) (o : options) (t : list pgn_def) (p : parsed) : outcome (list bytes) :=
  if MainModel.shown o (pm_header p) then
    match msg_print text ts t p (verbose_of lg) with
    | Ret s => Ret ((if written lg 5 then [raw_print ts (pm_header p)] else []) ++ (if written lg 4 then [s] else []))
    | Err e => Err e
    | Panic q => Panic q
    end
  else Ret [].
