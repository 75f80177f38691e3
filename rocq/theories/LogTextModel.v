(** LogTextModel: the texts in the lines of the log: fmt's %f of a floating point value
    (fmt/format.go fmtFloat with precision 6, strconv/ftoa.go bigFtoa and fmtF, strconv/decimal.go
    Round, go 1.13) and the time stamp, as ParsedMessage.Print (/repo/nmea2k/parsed_message.go:99-131) and
    RawMessage.Print (/repo/can/can.go:65-69) use them.

    Simplification: the decimal of at most 800 digits is replaced by exact integers; no float64
    has more digits. *)
From Coq Require Import Floats.SpecFloat.
From Verif Require Import GoBase Strconv NmeaTypes NmeaModel SignalkModel LogModel FmtvModel.
Open Scope Z_scope.
Open Scope list_scope.

(** decimal.Round with shouldRoundUp, strconv/decimal.go, on the quotient a/d: exactly halfway goes
    to the even digit. *)
Definition round_even (a d : Z) : Z :=
  let q := a / d in
  let r := a mod d in
  if 2 * r <? d then q else if d <? 2 * r then q + 1 else if Z.even q then q else q + 1.
(** m * 2^e in millionths. *)
Definition millionths (m : positive) (e : Z) : Z :=
  if 0 <=? e then Zpos m * 2 ^ e * 1000000 else round_even (Zpos m * 1000000) (2 ^ (- e)).
(** fmtF, strconv/ftoa.go, with six digits after the point. *)
Definition fixed_digits (n : Z) : bytes := itoa (n / 1000000) ++ [46] ++ pad 6 (itoa (n mod 1000000)).
(** %f. *)
Definition fixed_f (x : spec_float) : bytes :=
  match x with
  | S754_nan => str "NaN"
  | S754_infinity s => if s then str "-Inf" else str "+Inf"
  | S754_zero s => (if s then [45] else []) ++ fixed_digits 0
  | S754_finite s m e => (if s then [45] else []) ++ fixed_digits (millionths m e)
  end.
(** parsed_message.go:113-119. *)
Definition log_value (tz : Z) (zone : bytes) (other : Z -> bytes) (v : gval) : bytes :=
  match v with
  | VFloat32 x | VFloat64 x => fixed_f x
  | _ => fmt_v tz zone other v
  end.
(** Timestamp.Format(layout), parsed_message.go:32 and can.go:27: "2006-01-02T15:04:05.000", with
    - for T in can.go; formatNano with three digits cuts the rest off. *)
Definition log_stamp (sep tz sec ns : Z) : bytes :=
  let n := (sec + tz) / 86400 in
  let s := (sec + tz) mod 86400 in
  let '(y, m, d) := civil n in
  fmt_int y 4 ++ [45] ++ fmt_int m 2 ++ [45] ++ fmt_int d 2 ++ [sep] ++
  fmt_int (s / 3600) 2 ++ [58] ++ fmt_int (s / 60 mod 60) 2 ++ [58] ++ fmt_int (s mod 60) 2 ++ [46] ++ pad 3 (itoa (ns / 1000000)).
(** ParsedMessage.Print of a message received at sec, ns. *)
Definition log_line (tz : Z) (zone : bytes) (other : Z -> bytes) (sec ns : Z) (t : list pgn_def) (p : parsed) (verbose : bool) : outcome bytes :=
  msg_print (log_value tz zone other) (log_stamp 84 tz sec ns) t p verbose.
