(** NmeaMeaning: what the value of a decoded field is, for every kind of field, written without
    any function of the model (specification for C41 and C42). *)
From Coq Require Import Reals Floats.SpecFloat.
From Flocq Require Import Core BinarySingleNaN.
From Verif Require Import GoBase CanModel NmeaTypes NmeaModel LookupTable NmeaSpec.
Open Scope Z_scope.
Open Scope list_scope.

Section Means.
(** The local zone (seconds east of UTC), the data of the message, the field of the definition
    and the bit at which it starts. *)
Variables (tz : Z) (D : bytes) (f : field) (start : Z).

(** Its width in this message, the bytes it is read from, its bits in them. *)
Definition mwidth : Z := width_in (zlen D) f.
Definition mfirst : Z := start / 8.
Definition mbytes : bytes := zsub D mfirst (mfirst + (mwidth + 7) / 8).
Definition mraw : Z := bits (le_value mbytes) (start mod 8) mwidth.
(** The integer it stands for. *)
Definition mint : Z := if f_signed f then twos (f_size f) mraw else mraw.

(** Kinds of fields read as numbers. *)
Definition plain (r : resolution) : Prop := r = RES_INTEGER \/ exists n, r = RPos n n.
Definition numeric (r : resolution) : Prop := (exists p q, r = RPos p q) \/ r = RES_INTEGER \/ r = RES_LOOKUP \/ r = RES_MANUFACTURER.

Inductive means : gval -> Prop :=
(* reserved, and six-bit text: nothing *)
| me_unused : f_res f = RZero \/ f_res f = RES_6BITASCII -> means VNil
(* numbers wider than 64 bits: nothing *)
| me_wide : numeric (f_res f) -> 64 < mwidth -> means VNil
(* whole numbers *)
| me_unsigned : plain (f_res f) -> f_signed f = false -> mwidth <= 64 -> means (VUint64 mraw)
| me_int8 : plain (f_res f) -> f_signed f = true -> f_size f = 8 -> means (VInt8 (twos 8 mraw))
| me_int16 : plain (f_res f) -> f_signed f = true -> f_size f = 16 -> means (VInt16 (twos 16 mraw))
| me_int32 : plain (f_res f) -> f_signed f = true -> f_size f = 32 -> means (VInt32 (twos 32 mraw))
| me_int64 : plain (f_res f) -> f_signed f = true -> f_size f = 64 -> means (VInt64 (twos 64 mraw))
(* scaled numbers *)
| me_scaled p q x : f_res f = RPos p q -> p <> q -> mwidth <= 64 ->
    float_is x (nearest64 (nearest64 (IZR mint) * nearest64 (IZR (Zpos p) / IZR (Zpos q)))) -> means (VFloat64 x)
(* lookups *)
| me_named l name : f_res f = RES_LOOKUP -> f_units f = ULookup l -> mwidth <= 64 -> names l mraw name -> means (VString (str name))
| me_unnamed l : f_res f = RES_LOOKUP -> f_units f = ULookup l -> mwidth <= 64 -> unnamed l mraw -> means (VUint64 mraw)
| me_no_table : f_res f = RES_LOOKUP -> (forall l, f_units f <> ULookup l) -> mwidth <= 64 -> means (VUint64 mraw)
| me_company name : f_res f = RES_MANUFACTURER -> mwidth <= 64 -> names lookupCompanyCode mraw name -> means (VString (str name))
| me_no_company : f_res f = RES_MANUFACTURER -> mwidth <= 64 -> unnamed lookupCompanyCode mraw -> means (VUint64 mraw)
(* positions: 1e-7 degrees in four bytes, 1e-16 in eight *)
| me_position4 x : f_res f = RES_LATITUDE \/ f_res f = RES_LONGITUDE -> zlen mbytes = 4 -> twos 32 (le_value mbytes) <= 2147483645 ->
    float_is x (nearest32 (nearest32 (IZR (twos 32 (le_value mbytes))) / 10000000)) -> means (VFloat32 x)
| me_position8 x : f_res f = RES_LATITUDE \/ f_res f = RES_LONGITUDE -> zlen mbytes = 8 -> twos 64 (le_value mbytes) <= 9223372036854775805 ->
    float_is x (nearest64 (nearest64 (IZR (twos 64 (le_value mbytes))) / 10000000000000000)) -> means (VFloat64 x)
| me_no_position : f_res f = RES_LATITUDE \/ f_res f = RES_LONGITUDE ->
    (zlen mbytes = 4 -> 2147483645 < twos 32 (le_value mbytes)) -> (zlen mbytes = 8 -> 9223372036854775805 < twos 64 (le_value mbytes)) -> means VNil
(* days since 1970 *)
| me_date : f_res f = RES_DATE -> zlen mbytes = 2 -> le_value mbytes < 49711 -> means (VTime (86400 * le_value mbytes) 0)
| me_late_date : f_res f = RES_DATE -> zlen mbytes = 2 -> 49711 <= le_value mbytes < 65535 -> means (VTime (86400 * le_value mbytes - 4294967296) 0)
| me_no_date : f_res f = RES_DATE -> (zlen mbytes = 2 -> le_value mbytes = 65535) -> means VNil
(* time of the first day of 1970, in 0.0001 s; the fraction shown is a tenth of the true one *)
| me_time sec ns : f_res f = RES_TIME -> zlen mbytes = 4 -> le_value mbytes < 4294967295 ->
    sec + tz = le_value mbytes / 10000 -> ns = le_value mbytes mod 10000 * 10000 -> means (VTime sec ns)
| me_no_time : f_res f = RES_TIME -> (zlen mbytes = 4 -> le_value mbytes = 4294967295) -> means VNil
(* hundredths, thousandths *)
| me_temperature x : f_res f = RES_TEMPERATURE -> zlen mbytes = 2 -> le_value mbytes < 65533 ->
    float_is x (nearest32 (IZR (le_value mbytes) / 100)) -> means (VFloat32 x)
| me_pressure x : f_res f = RES_PRESSURE -> zlen mbytes = 2 -> le_value mbytes < 65533 ->
    float_is x (nearest32 (IZR (le_value mbytes) / 1000)) -> means (VFloat32 x)
| me_no_measure : f_res f = RES_TEMPERATURE \/ f_res f = RES_PRESSURE -> (zlen mbytes = 2 -> 65533 <= le_value mbytes) -> means VNil
(* text up to NUL or 0xff, if it is not empty and the field does not end the message *)
| me_text text : f_res f = RES_ASCII -> mfirst + (mwidth + 7) / 8 < zlen D -> text_of mbytes text -> text <> [] -> means (VString text)
| me_no_text : f_res f = RES_ASCII -> mfirst + (mwidth + 7) / 8 = zlen D \/ text_of mbytes [] -> means VNil
(* text after its length (which counts itself) *)
| me_counted n : f_res f = RES_STRINGLZ -> zget D mfirst = Some n -> 1 < n -> mfirst + n <= zlen D -> mfirst + n < 256 ->
    means (VString (zsub D (mfirst + 1) (mfirst + n)))
| me_no_counted : f_res f = RES_STRINGLZ ->
    (forall n, zget D mfirst = Some n -> n = 0 \/ zlen D < (mfirst + n) mod 256 \/ (mfirst + n) mod 256 = mfirst + 1) -> means VNil
(* fixed text; anything else is shown as bytes *)
| me_fixed : f_res f = RES_STRING -> means (VString mbytes)
| me_binary : f_res f = RES_BINARY \/ f_res f = RES_FLOAT -> means (VBytes mbytes).
End Means.

(** Equal, or floats of equal value. *)
Definition same_value (v w : gval) : Prop :=
  v = w \/
  (exists x y, v = VFloat64 x /\ w = VFloat64 y /\ is_finite_SF x = true /\ is_finite_SF y = true /\ SF2R radix2 x = SF2R radix2 y) \/
  (exists x y, v = VFloat32 x /\ w = VFloat32 y /\ is_finite_SF x = true /\ is_finite_SF y = true /\ SF2R radix2 x = SF2R radix2 y).

(** A whole message: data D, decoded with the entries i..j of table t (the definitions of its
    PGN).  [decoding q idx start vs qf]: from field idx of entry q, at bit start, the values vs
    follow and entry qf is reported. *)
Section Decoding.
Variables (tz : Z) (t : list pgn_def) (D : bytes) (i j : Z).

(** The entry to go on with after a field (number idx, at bit start) gave the value v.  With
    several definitions, those asking for another number in their field idx are passed over, up
    to the first that does not, or to the one behind the last. *)
Definition goes_on (q idx : Z) (f : field) (start : Z) (v : gval) (q' : Z) : Prop :=
  ((i = j \/ v = VNil) /\ q' = q) \/
  (i <> j /\ v <> VNil /\ q <= q' <= j + 1 /\
   (forall k, q <= k < q' -> exists p g N, zget t k = Some p /\ zget (p_fields p) idx = Some g /\ asks g N /\ N <> mraw D f start) /\
   (q' <= j -> forall p g N, zget t q' = Some p -> zget (p_fields p) idx = Some g -> asks g N -> N = mraw D f start)).

(** The number of the next field: the group is repeated while there are bytes left. *)
Definition next_field (p : pgn_def) (idx start : Z) : Z :=
  if (idx + 1 =? zlen (p_fields p)) && (0 <? p_rep p) && (start / 8 <? zlen D) then idx + 1 - p_rep p else idx + 1.

Inductive decoding : Z -> Z -> Z -> list gval -> Z -> Prop :=
| de_done q idx start p : zget t q = Some p -> zlen (p_fields p) <= idx -> decoding q idx start [] q
| de_short q idx start p f : zget t q = Some p -> zget (p_fields p) idx = Some f ->
    zlen D < start / 8 + (mwidth D f + 7) / 8 -> decoding q idx start [] q
| de_field q idx start p f v q' p' vs qf : zget t q = Some p -> zget (p_fields p) idx = Some f ->
    start / 8 + (mwidth D f + 7) / 8 <= zlen D -> means tz D f start v -> goes_on q idx f start v q' -> zget t q' = Some p' ->
    decoding q' (next_field p' idx (start + mwidth D f)) (start + mwidth D f) vs qf ->
    decoding q idx start (v :: vs) qf.
End Decoding.
