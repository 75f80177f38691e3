(** FlagsSpec: vocabulary for the theorems about the command line (C97). *)
From Verif Require Import GoBase.
Open Scope Z_scope.
Open Scope list_scope.

(* ------------------------------------------------------------ numbers *)

(** A digit of base [b]: 0-9, then letters of either case from a = 10. *)
Definition digit (b : Z) (c d : Z) : Prop :=
  0 <= d < b /\ (d < 10 /\ c = 48 + d \/ 10 <= d /\ (c = 87 + d \/ c = 55 + d)).
(** Digits of base [b], single underscores allowed between two of them, and their value. *)
Inductive numeral (b : Z) : bytes -> Z -> Prop :=
| num_first c d : digit b c d -> numeral b [c] d
| num_next s n c d : numeral b s n -> digit b c d -> numeral b (s ++ [c]) (n * b + d)
| num_under s n c d : numeral b s n -> digit b c d -> numeral b (s ++ [95; c]) (n * b + d).
(** The prefixes 0b, 0o and 0x, in either case. *)
Inductive prefix : bytes -> Z -> Prop :=
| pre_b c : c = 98 \/ c = 66 -> prefix [48; c] 2
| pre_o c : c = 111 \/ c = 79 -> prefix [48; c] 8
| pre_x c : c = 120 \/ c = 88 -> prefix [48; c] 16.
(** An integer as in Go source text: decimal when it does not start with 0, octal when it does,
    or after a prefix. *)
Inductive literal : bytes -> Z -> Prop :=
| lit_decimal c s n : c <> 48 -> numeral 10 (c :: s) n -> literal (c :: s) n
| lit_octal s n : numeral 8 (48 :: s) n -> literal (48 :: s) n
| lit_prefix p b s n : prefix p b -> numeral b s n -> literal (p ++ s) n
| lit_prefix_under p b s n : prefix p b -> numeral b s n -> literal (p ++ 95 :: s) n.
(** An integer with optional sign that fits in 64 bits. *)
Inductive integer : bytes -> Z -> Prop :=
| int_plain s n : literal s n -> n < 2 ^ 63 -> integer s n
| int_plus s n : literal s n -> n < 2 ^ 63 -> integer (43 :: s) n
| int_minus s n : literal s n -> n <= 2 ^ 63 -> integer (45 :: s) (- n).

(** The texts of the truth values. *)
Definition truth (s : bytes) (b : bool) : Prop :=
  In s (map str (if b then ["1"; "t"; "T"; "TRUE"; "true"; "True"] else ["0"; "f"; "F"; "FALSE"; "false"; "False"])%string).

(* ------------------------------------------------------------ options *)

(** What can be set on the command line. *)
Inductive switch := Help | Explain | Statistic.
Inductive number := Pgn | Source | Dest.
Inductive text := Log | Config.
Definition switch_name (s : switch) : bytes :=
  str (match s with Help => "help" | Explain => "explain" | Statistic => "statistic" end)%string.
Definition number_name (n : number) : bytes :=
  str (match n with Pgn => "pgn" | Source => "source" | Dest => "dest" end)%string.
Definition text_name (t : text) : bytes := str (match t with Log => "log" | Config => "config" end)%string.
Inductive setting := SetSwitch (s : switch) (b : bool) | SetNumber (n : number) (v : Z) | SetText (t : text) (v : bytes).

(** The words that make up one option: one or two dashes and the name; the value after '=' or,
    for numbers and texts only, in the next word. *)
Definition dash (d : bytes) : Prop := d = str "-" \/ d = str "--".
Inductive option_words : list bytes -> setting -> Prop :=
| ow_switch d s : dash d -> option_words [d ++ switch_name s] (SetSwitch s true)
| ow_switch_eq d s v b : dash d -> truth v b -> option_words [d ++ switch_name s ++ str "=" ++ v] (SetSwitch s b)
| ow_number_eq d n v z : dash d -> integer v z -> option_words [d ++ number_name n ++ str "=" ++ v] (SetNumber n z)
| ow_number d n v z : dash d -> integer v z -> option_words [d ++ number_name n; v] (SetNumber n z)
| ow_text_eq d t v : dash d -> option_words [d ++ text_name t ++ str "=" ++ v] (SetText t v)
| ow_text d t v : dash d -> option_words [d ++ text_name t; v] (SetText t v).

(** Where the options end: at the end of the line, at "--", or at a word that does not begin
    with a dash or is nothing but a dash. *)
Inductive no_more : list bytes -> Prop :=
| nm_end : no_more []
| nm_dashes r : no_more (str "--" :: r)
| nm_dash r : no_more (str "-" :: r)
| nm_word w r : (forall t, w <> 45 :: t) -> no_more (w :: r).

(** A command line: options, then words that are ignored. *)
Inductive command_line : list bytes -> list setting -> Prop :=
| cl_end r : no_more r -> command_line r []
| cl_option ws s rest l : option_words ws s -> command_line rest l -> command_line (ws ++ rest) (s :: l).

(** The value in force: the last one given, else the default. *)
Fixpoint last_given {A} (pick : setting -> option A) (l : list setting) (d : A) : A :=
  match l with
  | [] => d
  | s :: r => last_given pick r (match pick s with Some v => v | None => d end)
  end.
Definition switch_of (w : switch) (s : setting) : option bool :=
  match w, s with
  | Help, SetSwitch Help b | Explain, SetSwitch Explain b | Statistic, SetSwitch Statistic b => Some b
  | _, _ => None
  end.
Definition number_of (w : number) (s : setting) : option Z :=
  match w, s with
  | Pgn, SetNumber Pgn b | Source, SetNumber Source b | Dest, SetNumber Dest b => Some b
  | _, _ => None
  end.
Definition text_of (w : text) (s : setting) : option bytes :=
  match w, s with Log, SetText Log b | Config, SetText Config b => Some b | _, _ => None end.
