(** NmeaTypes: the types of /repo/nmea2k/pgn_array.go and lookups.go. *)
From Verif Require Import GoBase.

(** PgnLookup = map[int]string and PgnSubLookup = map[int]PgnLookup,
    /repo/nmea2k/lookups.go:22-24, as association lists (Go forbids duplicate constant keys
    in a map literal, so the order is irrelevant). *)
Definition lookup := list (Z * string).
Definition sublookup := list (Z * lookup).

(** Dynamic value of Field.Units (interface{}), /repo/nmea2k/pgn_array.go:63. *)
Inductive units := UNil | UStr (s : string) | UInt (n : Z) | ULookup (l : lookup) | USubLookup (l : sublookup).

(** Field.Resolution (float64), /repo/nmea2k/pgn_array.go:61 with the constants of lines 28-56:
    0, a negative code -k, or a positive constant given by its exact rational value n/d (the Go
    compiler evaluates constant expressions exactly and rounds once, see [res_f64]). *)
Inductive resolution := RZero | RNeg (k : Z) | RPos (n d : positive).
(** /repo/nmea2k/pgn_array.go:40-55 *)
Definition RES_ASCII := RNeg 1.
Definition RES_LATITUDE := RNeg 2.
Definition RES_LONGITUDE := RNeg 3.
Definition RES_DATE := RNeg 4.
Definition RES_TIME := RNeg 5.
Definition RES_TEMPERATURE := RNeg 6.
Definition RES_6BITASCII := RNeg 7.
Definition RES_INTEGER := RNeg 8.
Definition RES_LOOKUP := RNeg 9.
Definition RES_LOOKUP2 := RNeg 10.
Definition RES_BINARY := RNeg 11.
Definition RES_MANUFACTURER := RNeg 12.
Definition RES_STRING := RNeg 13.
Definition RES_FLOAT := RNeg 14.
Definition RES_PRESSURE := RNeg 15.
Definition RES_STRINGLZ := RNeg 16.

(** Field, /repo/nmea2k/pgn_array.go:58-67 (Description and SignalkPath, only printed, are in PgnTexts). *)
Record field := mkfield {
  f_name : string; f_size : Z; f_res : resolution; f_signed : bool; f_units : units; f_offset : Z }.

(** Pgn, /repo/nmea2k/pgn_array.go:69-77. *)
Record pgn_def := mkpgn {
  p_desc : string; p_cat : string; p_pgn : Z; p_known : bool; p_size : Z; p_rep : Z;
  p_fields : list field }.
