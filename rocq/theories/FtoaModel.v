(** FtoaModel: how floating point numbers become text.  Go's strconv.FormatFloat with the
    shortest precision (strconv/ftoa.go: bigFtoa, roundShortest, %e, fmtF) and encoding/json's
    floatEncoder (encode.go:515-555), as used by json.Marshal in /repo/main/argo.go:198 and
    /repo/nmea2k/parsed_message.go:145.

    Simplifications: multi-precision decimals are integers with a power of ten, so the digit by
    digit comparisons of roundShortest are comparisons of integers; the fast path
    (extFloat.ShortestDecimal) is left out: it either gives the same digits or gives up. *)
From Coq Require Import Floats.SpecFloat.
From Verif Require Import GoBase Strconv.
Open Scope Z_scope.
Open Scope list_scope.

(** roundShortest, strconv/ftoa.go: cut the exact decimal X after ever more digits (10^k is
    the weight of the last one kept) until rounding down or up stays between [lower] and
    [upper] (which belong to the interval when the mantissa is even).  When both do,
    decimal.Round: to the nearest, a tie to the even digit. *)
Fixpoint short_loop (k : nat) (X lower upper : Z) (inclusive : bool) : Z * Z :=
  let p := 10 ^ Z.of_nat k in
  let f := X / p in
  let okdown := (lower <? f * p) || (inclusive && (lower =? f * p)) in
  let okup := ((f + 1) * p <? upper) || (inclusive && ((f + 1) * p =? upper)) in
  if okdown && okup then
    let r := X mod p in
    ((if (p <? 2 * r) || ((2 * r =? p) && Z.odd f) then f + 1 else f), Z.of_nat k)
  else if okdown then (f, Z.of_nat k)
  else if okup then (f + 1, Z.of_nat k)
  else match k with O => (f, 0) | S k' => short_loop k' X lower upper inclusive end.

(** Trailing zeros are dropped (decimal.trim). *)
Fixpoint drop_zeros (l : bytes) : bytes :=
  match l with c :: r => if c =? 48 then drop_zeros r else l | [] => [] end.
Definition trim_zeros (l : bytes) : bytes := rev (drop_zeros (rev l)).

(** The shortest decimal of the float m * 2^e, m > 0: digits d1 d2 ... and dp with the value
    0.d1d2... * 10^dp.  Everything is scaled by 10^-K to integers; the lower neighbour is half
    as far away when m is the smallest mantissa (ftoa.go, roundShortest: mantlo, explo). *)
Definition shortest (prec emax : Z) (m : positive) (e : Z) : bytes * Z :=
  let q := e - 2 in
  let K := if 0 <=? q then 0 else q in
  let F := if 0 <=? q then 2 ^ q else 5 ^ (- q) in
  let X := 4 * Zpos m * F in
  let upper := (4 * Zpos m + 2) * F in
  let lower := (if (Zpos m =? 2 ^ (prec - 1)) && (3 - emax - prec <? e) then 4 * Zpos m - 1 else 4 * Zpos m - 2) * F in
  let '(d, k) := short_loop (List.length (itoa X) - 1) X lower upper (Z.even (Zpos m)) in
  (trim_zeros (itoa d), zlen (itoa d) + k + K).

(** fmtE, strconv/ftoa.go: d.ddde±dd, at least two digits of exponent. *)
Definition fmt_e (ds : bytes) (dp : Z) : bytes :=
  match ds with
  | [] => [48; 101; 43; 48; 48]
  | d :: r =>
      let exp := dp - 1 in
      d :: (match r with [] => [] | _ => 46 :: r end) ++ [101; (if exp <? 0 then 45 else 43)] ++
      (if Z.abs exp <? 10 then 48 :: itoa (Z.abs exp) else itoa (Z.abs exp))
  end.
(** fmtF, strconv/ftoa.go: ddd.ddd with just the digits there are. *)
Definition fmt_f (ds : bytes) (dp : Z) : bytes :=
  let nd := zlen ds in
  (if 0 <? dp then firstn (Z.to_nat dp) ds ++ repeat 48 (Z.to_nat (dp - nd)) else [48]) ++
  (if 0 <? nd - dp then 46 :: repeat 48 (Z.to_nat (- dp)) ++ skipn (Z.to_nat dp) ds else []).

(** The clean-up of encoding/json's floatEncoder: e-09 becomes e-9. *)
Definition json_exp (b : bytes) : bytes :=
  match rev b with
  | d :: z :: s :: x :: r => if (z =? 48) && (s =? 45) && (x =? 101) then rev r ++ [101; 45; d] else b
  | _ => b
  end.

(** 1e-6 and 1e21 as constants of the float type. *)
Definition f_ratio (prec emax : Z) (n d : positive) : spec_float :=
  let '(m, e, l) := SFdiv_core_binary prec emax (Zpos n) 0 (Zpos d) 0 in
  binary_round_aux prec emax false m e l.
Definition ten6 (prec emax : Z) : spec_float := f_ratio prec emax 1 1000000.
Definition ten21 (prec emax : Z) : spec_float := f_ratio prec emax 1000000000000000000000 1.

(** floatEncoder, encoding/json: NaN and the infinities are errors. *)
Definition json_float (prec emax : Z) (x : spec_float) : option bytes :=
  match x with
  | S754_nan | S754_infinity _ => None
  | S754_zero s => Some ((if s then [45] else []) ++ [48])
  | S754_finite s m e =>
      let '(ds, dp) := shortest prec emax m e in
      let a := S754_finite false m e in
      Some ((if s then [45] else []) ++
            (if SFltb a (ten6 prec emax) || negb (SFltb a (ten21 prec emax))
             then json_exp (fmt_e ds dp) else fmt_f ds dp))
  end.
