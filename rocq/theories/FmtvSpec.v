(** FmtvSpec: how the value of a field reads in a condition or a path (C111). *)
From Coq Require Import Reals Floats.SpecFloat.
From Verif Require Import GoBase NmeaModel NmeaSpec JsonSpec SignalkSpec XmlSpec XmlOutSpec ApiSpec.
Open Scope Z_scope.
Open Scope list_scope.

Definition negative (x : spec_float) : Prop := match x with S754_zero s | S754_infinity s | S754_finite s _ _ => s = true | S754_nan => False end.
(** A decimal number, with an exponent exactly if it is below 0.0001 or at least 1000000, that
    rounds to the value; it starts with a minus sign exactly if the value has one. *)
Definition real_text (rnd : R -> R) (x : spec_float) (t : bytes) : Prop :=
  exists m e, number_text t m e /\ float_is x (rnd (ten_to m e)) /\ ((exists r, t = 45 :: r) <-> negative x) /\
    (m = 0 /\ ~ In 101 t \/ exists w, weighs m e w /\ (In 101 t <-> w < -4 \/ 6 <= w)).
(** Numbers with blanks between them. *)
Inductive listed : bytes -> bytes -> Prop :=
| ls_none : listed [] []
| ls_one b t : numeral b t -> listed [b] t
| ls_more b c s t u : numeral b t -> listed (c :: s) u -> listed (b :: c :: s) (t ++ str " " ++ u).
(** An offset from UTC: sign, hours, minutes. *)
Definition offset_text (tz : Z) (z : bytes) : Prop :=
  exists H I, digits 2 (Z.abs tz / 3600) H /\ digits 2 (Z.abs tz mod 3600 / 60) I /\ z = (if tz <=? -60 then str "-" else str "+") ++ H ++ I.
(** Date, time with the fraction if there is one, offset and name of the zone. *)
Definition moment_text (tz : Z) (zone : bytes) (sec ns : Z) (t : bytes) : Prop :=
  exists y m d, calendar ((sec + tz) / 86400) y m d /\
  let s := (sec + tz) mod 86400 in
  exists Y M D h mi sc f z, digits 4 y Y /\ digits 2 m M /\ digits 2 d D /\
    digits 2 (s / 3600) h /\ digits 2 (s mod 3600 / 60) mi /\ digits 2 (s mod 60) sc /\ fraction_text ns f /\ offset_text tz z /\
    t = Y ++ str "-" ++ M ++ str "-" ++ D ++ str " " ++ h ++ str ":" ++ mi ++ str ":" ++ sc ++ f ++ str " " ++ z ++ str " " ++
        (match zone with [] => z | _ => zone end).
(** [reads_as tz zone v t]: the value v reads t. *)
Inductive reads_as (tz : Z) (zone : bytes) : gval -> bytes -> Prop :=
| ra_absent : reads_as tz zone VNil (str "<nil>")
| ra_u64 n t : whole n t -> reads_as tz zone (VUint64 n) t
| ra_i8 n t : whole n t -> reads_as tz zone (VInt8 n) t
| ra_i16 n t : whole n t -> reads_as tz zone (VInt16 n) t
| ra_i32 n t : whole n t -> reads_as tz zone (VInt32 n) t
| ra_i64 n t : whole n t -> reads_as tz zone (VInt64 n) t
| ra_f32 x t : real_text nearest32 x t -> reads_as tz zone (VFloat32 x) t
| ra_f64 x t : real_text nearest64 x t -> reads_as tz zone (VFloat64 x) t
| ra_text s : reads_as tz zone (VString s) s
| ra_octets s t : listed s t -> reads_as tz zone (VBytes s) (str "[" ++ t ++ str "]")
| ra_moment sec ns t : moment_text tz zone sec ns t -> reads_as tz zone (VTime sec ns) t.
(** Two values of the same kind. *)
Definition same_kind (a b : gval) : Prop :=
  match a, b with
  | VNil, VNil | VUint64 _, VUint64 _ | VInt8 _, VInt8 _ | VInt16 _, VInt16 _ | VInt32 _, VInt32 _ | VInt64 _, VInt64 _
  | VFloat32 _, VFloat32 _ | VFloat64 _, VFloat64 _ | VString _, VString _ | VBytes _, VBytes _ | VTime _ _, VTime _ _ => True
  | _, _ => False
  end.
