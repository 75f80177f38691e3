(** NmeaSpec: what the decoding properties (C28-C48) mean, written with the types of
    NmeaTypes.v / NmeaModel.v but none of its functions. *)
From Coq Require Import Reals Floats.SpecFloat.
From Flocq Require Import Core BinarySingleNaN.
From Verif Require Import GoBase CanModel NmeaTypes NmeaModel.
Open Scope Z_scope.
Open Scope list_scope.

(* ------------------------------------------------------------------ bits of a message *)

(** Little-endian value of a byte string. *)
Definition le_value (l : bytes) : Z := fold_right (fun b r => b + 256 * r) 0 l.
(** Bits [lo, lo+n) of x. *)
Definition bits (x lo n : Z) : Z := (x / 2 ^ lo) mod 2 ^ n.
(** A message's data as seen by a decoder, with whatever lies behind it in memory. *)
Definition window (data spare : bytes) : slice := mkslice (data ++ spare) (zlen data).
(** Two's complement reading of a w-bit number. *)
Definition twos (w x : Z) : Z := if x <? 2 ^ (w - 1) then x else x - 2 ^ w.

(* ------------------------------------------------------------------ floating point *)

(** The double / single nearest to a real, ties to even. *)
Definition nearest64 (r : R) : R := round radix2 (FLT_exp (-1074) 53) ZnearestE r.
Definition nearest32 (r : R) : R := round radix2 (FLT_exp (-149) 24) ZnearestE r.
(** A finite float with this real value. *)
Definition float_is (x : spec_float) (r : R) : Prop := is_finite_SF x = true /\ SF2R radix2 x = r.

(* ------------------------------------------------------------------ the table *)

(** Entry k of the table is a definition of PGN id. *)
Definition defines (t : list pgn_def) (id k : Z) (p : pgn_def) : Prop := zget t k = Some p /\ p_pgn p = id.
Definition is_first (t : list pgn_def) (id k : Z) (p : pgn_def) : Prop :=
  defines t id k p /\ forall k' p', defines t id k' p' -> k <= k'.
Definition is_last (t : list pgn_def) (id k : Z) (p : pgn_def) : Prop :=
  defines t id k p /\ forall k' p', defines t id k' p' -> k' <= k.
Definition no_def (t : list pgn_def) (id : Z) : Prop := forall k p, ~ defines t id k p.

(** A PGN with exactly one definition. *)
Definition single (t : list pgn_def) (id k : Z) (def : pgn_def) : Prop :=
  defines t id k def /\ forall k' p', defines t id k' p' -> k' = k.

(** The definition by which a PGN without alternatives is decoded: its only definition or, for
    an unknown PGN, the first entry of the table. *)
Definition only (t : list pgn_def) (id k : Z) (def : pgn_def) : Prop :=
  single t id k def \/ (no_def t id /\ k = 0 /\ zget t 0 = Some def).

(** Total size in bits of a list of fields. *)
Definition total_bits (fs : list field) : Z := fold_right (fun f r => f_size f + r) 0 fs.

(** A numeric field whose raw integer is reported as it is: resolution 1, integer, lookup or
    manufacturer. *)
Definition integral_res (r : resolution) : Prop :=
  (exists n, r = RPos n n) \/ r = RES_INTEGER \/ r = RES_LOOKUP \/ r = RES_MANUFACTURER.

(** Field number k of a message: the definition's fields, then its last [p_rep] fields over and
    over.  None: there is no such field. *)
Definition nth_field (def : pgn_def) (k : Z) : option field :=
  let n := zlen (p_fields def) in
  if k <? n then zget (p_fields def) k
  else if 0 <? p_rep def then zget (p_fields def) (n - p_rep def + (k - n) mod p_rep def)
  else None.

(** Bits taken by field number k when the message has len bytes (a field never takes more than
    the whole message), and its first bit. *)
Definition width_in (len : Z) (f : field) : Z := Z.min (f_size f) (8 * len).
Fixpoint start_of (def : pgn_def) (len : Z) (k : nat) : Z :=
  match k with
  | O => 0
  | S k' => start_of def len k' +
            match nth_field def (Z.of_nat k') with Some f => width_in len f | None => 0 end
  end.

(** Field number k is there: it exists, a repetition only starts while there are bytes left,
    and the field's bytes (counted from the byte it starts in) lie within the message. *)
Definition fits (def : pgn_def) (len : Z) (k : nat) : Prop :=
  exists f, nth_field def (Z.of_nat k) = Some f /\
    (zlen (p_fields def) <= Z.of_nat k -> (Z.of_nat k - zlen (p_fields def)) mod p_rep def = 0 ->
       start_of def len k / 8 < len) /\
    start_of def len k / 8 + (width_in len f + 7) / 8 <= len.

(* ------------------------------------------------------------------ text and lookups *)

(** [text] is the part of l before the first NUL or 0xFF byte. *)
Definition text_of (l text : bytes) : Prop :=
  exists rest, l = text ++ rest /\ Forall (fun b => b <> 0 /\ b <> 255) text /\
    (rest = [] \/ exists b r, rest = b :: r /\ (b = 0 \/ b = 255)).

(** A lookup table assigns name s to value v; value v has no name. *)
Definition names (l : lookup) (v : Z) (s : string) : Prop := In (v, s) l /\ s <> EmptyString.
Definition unnamed (l : lookup) (v : Z) : Prop := forall s, ~ In (v, s) l.
(** A well-formed Go map literal without empty names. *)
Definition lookup_ok (l : lookup) : Prop := NoDup (map fst l) /\ Forall (fun e => snd e <> EmptyString) l.

(* ------------------------------------------------------------------ several definitions *)

(** Decimal digits, most significant first, and their value. *)
Definition decimal (s : bytes) (v : Z) : Prop :=
  s <> [] /\ Forall (fun c => 48 <= c <= 57) s /\ v = fold_left (fun a c => 10 * a + (c - 48)) s 0.
(** The definition asks for the value v in field f: units "=v". *)
Definition asks (f : field) (v : Z) : Prop :=
  exists r, f_units f = UStr (String "="%char r) /\ decimal (str r) v.
(** A decoded value stands for the raw number x: the number itself or, for a manufacturer
    field, the company's name. *)
Definition stands_for (company : lookup) (v : gval) (x : Z) : Prop :=
  v = VUint64 x \/ exists s, names company x s /\ v = VString (str s).
