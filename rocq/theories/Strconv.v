(** Strconv: the functions of Go's strconv and fmt packages that argo calls, as executable
    models.  Their source is the Go standard library (go 1.13 per /repo/go.mod), not /repo;
    each definition cites the call site in /repo that needs it. *)
From Verif Require Import GoBase.

(** strconv.ParseUint's result: value, syntax error, or range error (which still carries
    the value [maxVal], used by callers that drop the error). *)
Inductive pu_result := PUok (n : Z) | PUsyntax | PUrange (maxv : Z).

(** strconv.ParseUint, digit value of one byte ('0'-'9', then letters of either case). *)
Definition digit_val (c : byte) : option Z :=
  if (48 <=? c) && (c <=? 57) then Some (c - 48)
  else if (97 <=? c) && (c <=? 122) then Some (c - 97 + 10)
  else if (65 <=? c) && (c <=? 90) then Some (c - 65 + 10)
  else None.

(** strconv.ParseUint main loop (explicit base, so no prefix and no underscores). *)
Fixpoint pu_loop (base maxv : Z) (s : bytes) (n : Z) : pu_result :=
  match s with
  | [] => PUok n
  | c :: r =>
      match digit_val c with
      | None => PUsyntax
      | Some d =>
          if base <=? d then PUsyntax
          else let n1 := n * base + d in
               if maxv <? n1 then PUrange maxv else pu_loop base maxv r n1
      end
  end.

(** strconv.ParseUint(s, base, bitSize); used at /repo/canusb/canframe.go:131,149,168 and
    /repo/nmea2k/raw_message.go:184. *)
Definition parse_uint (base bits : Z) (s : bytes) : pu_result :=
  match s with [] => PUsyntax | _ => pu_loop base (2 ^ bits - 1) s 0 end.

(** Value obtained when the caller writes [v, _ := ParseUint(...)]. *)
Definition pu_value (r : pu_result) : Z :=
  match r with PUok n => n | PUsyntax => 0 | PUrange m => m end.

(** strconv.ParseInt(s, 10, bitSize): Some n on nil error.  Used at
    /repo/signalk/signalk.go:145,151,159 and /repo/main/api_server.go:118. *)
Definition parse_int_raw (bits : Z) (s : bytes) : Z * bool :=
  match s with
  | [] => (0, false)
  | c :: r =>
      let neg := c =? 45 in
      let body := if (c =? 43) || (c =? 45) then r else s in
      let cutoff := 2 ^ (bits - 1) in
      match parse_uint 10 bits body with
      | PUsyntax => (0, false)
      | PUok un =>
          if negb neg && (cutoff <=? un) then (cutoff - 1, false)
          else if neg && (cutoff <? un) then (- cutoff, false)
          else ((if neg then - un else un), true)
      | PUrange un =>
          if negb neg && (cutoff <=? un) then (cutoff - 1, false)
          else if neg && (cutoff <? un) then (- cutoff, false)
          else ((if neg then - un else un), true)
      end
  end.
Definition parse_int (bits : Z) (s : bytes) : option Z :=
  let '(v, ok) := parse_int_raw bits s in if ok then Some v else None.
Definition parse_int_value (bits : Z) (s : bytes) : Z := fst (parse_int_raw bits s).

(** fmt verb %X, one digit (upper case). *)
Definition hexdig (d : Z) : byte := if d <? 10 then 48 + d else 55 + d.
(** fmt.Sprintf("%.2X", b) for a byte b: exactly two upper-case digits.
    /repo/canusb/canport.go:186,192,195,200. *)
Definition fmt_2X (b : Z) : bytes := [hexdig (b / 16); hexdig (b mod 16)].
(** fmt.Sprintf("%.1X", b) for a byte b: at least one digit. /repo/canusb/canport.go:197. *)
Definition fmt_1X (b : Z) : bytes := if b <? 16 then [hexdig b] else fmt_2X b.

(** string(b) for a byte b: the UTF-8 encoding of the rune b.  /repo/canusb/canframe.go:149. *)
Definition string_of_byte (b : Z) : bytes :=
  if b <? 128 then [b] else [192 + b / 64; 128 + b mod 64].

(** Decimal digits of a non-negative integer, most significant first (strconv.Itoa and the
    %v/%d verbs).  /repo/nmea2k/parsed_message.go:40, /repo/main/argo.go:171,
    /repo/main/api_server.go:69. *)
Fixpoint dec_digits (fuel : nat) (n : Z) (acc : bytes) : bytes :=
  match fuel with
  | O => acc
  | S f => let acc' := (48 + n mod 10) :: acc in
           if n / 10 =? 0 then acc' else dec_digits f (n / 10) acc'
  end.
(** strconv.Itoa.  The fuel is the bit length, always enough for the decimal length
    ([itoa_value] in StrconvFacts.v shows nothing is cut off). *)
Definition itoa (n : Z) : bytes :=
  if n <? 0 then 45 :: dec_digits (S (Z.to_nat (Z.log2 (- n)))) (- n) []
  else dec_digits (S (Z.to_nat (Z.log2 n))) n [].
