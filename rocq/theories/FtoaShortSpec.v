(** FtoaShortSpec: as few digits as can be (C111, C86). *)
From Coq Require Import Reals.
From Flocq Require Import Core.
From Verif Require Import GoBase NmeaSpec JsonSpec.
Open Scope Z_scope.

(** The numbers of a floating point type, without a limit above. *)
Definition format32 : R -> Prop := generic_format radix2 (FLT_exp (-149) 24).
Definition format64 : R -> Prop := generic_format radix2 (FLT_exp (-1074) 53).
(** r is nearer to x than to any other number of the type. *)
Definition closer (format : R -> Prop) (x r : R) : Prop :=
  forall y, format y -> y <> x -> (Rabs (r - x) < Rabs (r - y))%R.
(** m * 10^e can be written with i significant digits. *)
Definition few (m e i : Z) : Prop := exists n j, ten_to m e = ten_to n j /\ Z.abs n < 10 ^ i.
(** The text is a number, without zeros at the end of its fraction or before its exponent, that
    needs no more digits than any decimal nearer to x than to other
    numbers of its type. *)
Definition short_text (format : R -> Prop) (x : R) (t : bytes) : Prop :=
  exists m e, number_text t m e /\ (In 101 t \/ e < 0 -> m mod 10 <> 0) /\
  forall n j i, 1 <= i -> Z.abs n < 10 ^ i -> closer format x (ten_to n j) -> few m e i.
