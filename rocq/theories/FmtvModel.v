(** FmtvModel: fmt.Sprintf("%v", value) as /repo/signalk/signalk.go:147,156,278 uses it on the values
    of a message: fmt/print.go and fmt/format.go of go 1.13 (printArg, fmtInteger, fmtFloat,
    fmtBytes, handleMethods), time.Time.String (time/format.go:466).

    Simplifications: the buffer and its pool are left out; a value that has no %v text here
    (VOther) has the text [other] gives it. *)
From Coq Require Import Floats.SpecFloat.
From Verif Require Import GoBase Strconv NmeaModel SignalkModel FtoaModel JsonModel.
Open Scope Z_scope.
Open Scope list_scope.

(** pp.fmtFloat, print.go, case 'v': fmtFloat(v, size, 'g', -1), format.go, that is
    strconv.AppendFloat(…, 'g', -1, size), strconv/ftoa.go; a text that starts with + (only
    "+Inf") keeps it. *)
Definition float_v (prec emax : Z) (x : spec_float) : bytes :=
  match x with
  | S754_nan => str "NaN"
  | S754_infinity s => if s then str "-Inf" else str "+Inf"
  | S754_zero s => (if s then [45] else []) ++ [48]
  | S754_finite s m e =>
      let '(ds, dp) := shortest prec emax m e in
      (if s then [45] else []) ++ (if (dp - 1 <? -4) || (6 <=? dp - 1) then fmt_e ds dp else fmt_f ds dp)
  end.
(** pp.fmtBytes, print.go, case 'v': the octets in decimal in brackets, blanks between them. *)
Fixpoint octets_v (s : bytes) : bytes :=
  match s with
  | [] => []
  | [b] => itoa b
  | b :: r => itoa b ++ [32] ++ octets_v r
  end.
(** The zone as -0700, time/format.go stdNumTZ. *)
Definition zone_v (tz : Z) : bytes :=
  let zone := Z.quot tz 60 in
  (if zone <? 0 then [45] else [43]) ++ fmt_int (Z.abs zone / 60) 2 ++ fmt_int (Z.abs zone mod 60) 2.
(** Time.String: Format("2006-01-02 15:04:05.999999999 -0700 MST"), time/format.go:466; [zone] is
    the abbreviated name of the zone, "" if it has none (then the offset is printed again).  The
    times of a message have no monotonic reading. *)
Definition time_v (tz : Z) (zone : bytes) (sec ns : Z) : bytes :=
  let n := (sec + tz) / 86400 in
  let s := (sec + tz) mod 86400 in
  let '(y, m, d) := civil n in
  fmt_int y 4 ++ [45] ++ fmt_int m 2 ++ [45] ++ fmt_int d 2 ++ [32] ++
  fmt_int (s / 3600) 2 ++ [58] ++ fmt_int (s / 60 mod 60) 2 ++ [58] ++ fmt_int (s mod 60) 2 ++ nano_text ns ++
  [32] ++ zone_v tz ++ [32] ++ (match zone with [] => zone_v tz | _ => zone end).
(** pp.printArg, print.go: nil is nilAngleString; integers in base 10; a Time has String
    (handleMethods). *)
Definition fmt_v (tz : Z) (zone : bytes) (other : Z -> bytes) (v : gval) : bytes :=
  match v with
  | VNil => str "<nil>"
  | VUint64 n | VInt8 n | VInt16 n | VInt32 n | VInt64 n => itoa n
  | VFloat32 x => float_v 24 128 x
  | VFloat64 x => float_v 53 1024 x
  | VString s => s
  | VBytes s => [91] ++ octets_v s ++ [93]
  | VTime sec ns => time_v tz zone sec ns
  | VOther k => other k
  end.
