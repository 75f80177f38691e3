(** LogTextSpec: what the texts in the log mean (C112). *)
From Coq Require Import Reals Floats.SpecFloat.
From Flocq Require Import Core BinarySingleNaN.
From Verif Require Import GoBase NmeaModel NmeaSpec JsonSpec SignalkSpec FmtvSpec.
Open Scope Z_scope.
Open Scope list_scope.

(** The value in millionths, rounded to the nearest, half to even, written with a point before
    the last six digits, and a minus sign if the value has one. *)
Definition fixed_text (x : spec_float) (t : bytes) : Prop :=
  exists (neg : bool) n ip fd, (neg = true <-> negative x) /\ n = ZnearestE (Rabs (SF2R radix2 x) * 1000000) /\
    numeral (n / 1000000) ip /\ digits 6 (n mod 1000000) fd /\ t = (if neg then str "-" else []) ++ ip ++ str "." ++ fd.
(** A value in a log line: floating point with six decimals, else as in C111. *)
Inductive logged (tz : Z) (zone : bytes) : gval -> bytes -> Prop :=
| lg_f32 x t : fixed_text x t -> logged tz zone (VFloat32 x) t
| lg_f64 x t : fixed_text x t -> logged tz zone (VFloat64 x) t
| lg_other v t : (forall x, v <> VFloat32 x /\ v <> VFloat64 x) -> reads_as tz zone v t -> logged tz zone v t.
(** Date and time on the local clock to the millisecond, cut off. *)
Definition stamp_text (sep : bytes) (tz sec ns : Z) (t : bytes) : Prop :=
  exists y m d, calendar ((sec + tz) / 86400) y m d /\
  let s := (sec + tz) mod 86400 in
  exists Y M D h mi sc ms, digits 4 y Y /\ digits 2 m M /\ digits 2 d D /\
    digits 2 (s / 3600) h /\ digits 2 (s mod 3600 / 60) mi /\ digits 2 (s mod 60) sc /\ digits 3 (ns / 1000000) ms /\
    t = Y ++ str "-" ++ M ++ str "-" ++ D ++ sep ++ h ++ str ":" ++ mi ++ str ":" ++ sc ++ str "." ++ ms.
