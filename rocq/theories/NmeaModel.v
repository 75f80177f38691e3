(** NmeaModel: /repo/nmea2k/raw_message.go, the functions of pgn_array.go and
    parsed_message.go.

    Simplifications, once for the file:
    - uint32 positions (start_byte, bytes, start_bit, bits) are exact integers: they cannot
      wrap for messages below 2^28 bytes (a CAN message has at most 1785);
    - a message's Data is a [slice] whose array is the data followed by arbitrary spare
      capacity; slice expressions are bounds-checked against the capacity as in Go;
    - diagnostics printed by extractLatLon (fmt.Println) are left out;
    - int is 64 bits wide. *)
From Coq Require Import Floats.SpecFloat.
From Verif Require Import GoBase Strconv CanModel NmeaTypes LookupTable.
Open Scope Z_scope.
Open Scope list_scope.

(* ------------------------------------------------------------------ values *)

(** The dynamic values stored in DataMap (map[int]interface{}), parsed_message.go:34.
    Floats are IEEE 754 data; a time.Time is the instant (seconds, nanoseconds since the Unix
    epoch); [VOther] stands for any other dynamic value (JSON import). *)
Inductive gval :=
| VNil
| VUint64 (n : Z) | VInt8 (n : Z) | VInt16 (n : Z) | VInt32 (n : Z) | VInt64 (n : Z)
| VFloat32 (f : spec_float) | VFloat64 (f : spec_float)
| VString (s : bytes) | VBytes (s : bytes)
| VTime (sec nsec : Z)
| VOther (tag : Z).

(** What Go leaves to the platform: the local zone (seconds east of UTC, assumed the same at
    all instants) and float-to-integer conversions whose operand is out of range
    (implementation-defined, Go spec "Conversions between numeric types"). *)
Record platform := mkplatform { pl_tz : Z; pl_f2u32 : spec_float -> Z; pl_f2int : spec_float -> Z }.

(* ------------------------------------------------------------------ IEEE arithmetic *)

(** float64(n), float32(n) for an integer n: round to nearest even. *)
Definition f64_of_Z (n : Z) : spec_float := binary_normalize 53 1024 n 0 false.
Definition f32_of_Z (n : Z) : spec_float := binary_normalize 24 128 n 0 false.
(** A floating constant with exact rational value n/d, rounded once to float64. *)
Definition f64_of_ratio (n d : positive) : spec_float :=
  let '(m, e, l) := SFdiv_core_binary 53 1024 (Zpos n) 0 (Zpos d) 0 in
  binary_round_aux 53 1024 false m e l.
Definition f64_mul := SFmul 53 1024.
Definition f64_div := SFdiv 53 1024.
Definition f32_div := SFdiv 24 128.

(** Truncation towards zero of a finite float. *)
Definition sf_trunc (f : spec_float) : option Z :=
  match f with
  | S754_zero _ => Some 0
  | S754_finite s m e =>
      let a := if 0 <=? e then Zpos m * 2 ^ e else Zpos m / 2 ^ (- e) in
      Some (if s then - a else a)
  | _ => None
  end.
(** uint32(f) and int(f). *)
Definition conv_u32 (pl : platform) (f : spec_float) : Z :=
  match sf_trunc f with
  | Some z => if (0 <=? z) && (z <? 2 ^ 32) then z else u32 (pl_f2u32 pl f)
  | None => u32 (pl_f2u32 pl f)
  end.
Definition conv_int (pl : platform) (f : spec_float) : Z :=
  match sf_trunc f with
  | Some z => if (- 2 ^ 63 <=? z) && (z <? 2 ^ 63) then z else i64 (pl_f2int pl f)
  | None => i64 (pl_f2int pl f)
  end.

(** Value of a Resolution as float64 (the constants 0, -1 ... -16 are exact). *)
Definition res_f64 (r : resolution) : spec_float :=
  match r with
  | RZero => S754_zero false
  | RNeg k => f64_of_Z (- k)
  | RPos n d => f64_of_ratio n d
  end.

(* ------------------------------------------------------------------ table lookup *)

Fixpoint first_from (k : Z) (t : list pgn_def) (id : Z) : option (Z * pgn_def) :=
  match t with
  | [] => None
  | p :: r => if id =? p_pgn p then Some (k, p) else first_from (k + 1) r id
  end.
(** PgnArray.First, /repo/nmea2k/pgn_array.go:3310-3318 (pp[0] of an empty table panics). *)
Definition pgn_first (t : list pgn_def) (id : Z) : outcome (Z * pgn_def) :=
  match first_from 0 t id with
  | Some r => Ret r
  | None => match t with [] => Panic "index out of range" | p :: _ => Ret (0, p) end
  end.

(** PgnArray.Last, /repo/nmea2k/pgn_array.go:3320-3328: the countdown from len-1 keeps the
    highest match. *)
Fixpoint last_from (k : Z) (t : list pgn_def) (id : Z) : option (Z * pgn_def) :=
  match t with
  | [] => None
  | p :: r => match last_from (k + 1) r id with
              | Some x => Some x
              | None => if id =? p_pgn p then Some (k, p) else None
              end
  end.
Definition pgn_last (t : list pgn_def) (id : Z) : outcome (Z * pgn_def) :=
  match last_from 0 t id with
  | Some r => Ret r
  | None => match t with [] => Panic "index out of range" | p :: _ => Ret (0, p) end
  end.

(** Pgn.FieldOffsets, /repo/nmea2k/raw_message.go:61-79: (low_byte, high_byte, start_bit,
    bits).  FieldList[idx] panics when out of range. *)
Fixpoint sum_sizes (fs : list field) : Z :=
  match fs with [] => 0 | f :: r => f_size f + sum_sizes r end.
Definition field_offsets (p : pgn_def) (idx : Z) : outcome (Z * Z * Z * Z) :=
  match zget (p_fields p) idx with
  | None => Panic "index out of range"
  | Some f =>
      let bytes := (f_size f + 7) / 8 in
      let bits := Z.min (bytes * 8) (f_size f) in
      let offset := sum_sizes (firstn (Z.to_nat idx) (p_fields p)) in
      Ret (offset / 8, offset / 8 + bytes, offset mod 8, bits)
  end.

(* ------------------------------------------------------------------ extractors *)

Fixpoint le_uint (l : bytes) : Z :=
  match l with [] => 0 | b :: r => b + 256 * le_uint r end.

Definition sub_or_panic {A} (d : slice) (a b : Z) (k : bytes -> outcome A) : outcome A :=
  match s_sub d a b with Some s => k (s_val s) | None => Panic "slice bounds out of range" end.

(** extractLatLon, raw_message.go:216-251. *)
Definition extract_latlon (d : slice) (start end_ : Z) : outcome gval :=
  sub_or_panic d start end_ (fun data =>
    if zlen data =? 4 then
      let v := i32 (le_uint data) in
      if 2147483645 <? v then Err "Data not present"
      else Ret (VFloat32 (f32_div (f32_of_Z v) (f32_of_Z 10000000)))
    else if zlen data =? 8 then
      let v := i64 (le_uint data) in
      if 9223372036854775805 <? v then Err "Data not present"
      else Ret (VFloat64 (f64_div (f64_of_Z v) (f64_of_Z 10000000000000000)))
    else Err "Invalid float").

(** extractDate, raw_message.go:254-271: d*86400 is a uint32 product. *)
Definition extract_date (d : slice) (start end_ : Z) : outcome gval :=
  sub_or_panic d start end_ (fun data =>
    if negb (zlen data =? 2) then Err "Field size mismatch"
    else let v := le_uint data in
         if v =? 65535 then Err "Data not present"
         else Ret (VTime (u32 (v * 86400)) 0)).

(** extractTime, raw_message.go:273-300: time.Date in the local zone normalises hours above
    23 into days, so the instant is the plain sum minus the zone offset. *)
Definition extract_time (pl : platform) (d : slice) (start end_ : Z) : outcome gval :=
  sub_or_panic d start end_ (fun data =>
    if negb (zlen data =? 4) then Err "Field size mismatch"
    else let v := le_uint data in
         if v =? 4294967295 then Err "Data not present"
         else let seconds := v / 10000 in
              let units := v mod 10000 in
              let minutes := seconds / 60 in
              let seconds := seconds mod 60 in
              let hours := minutes / 60 in
              let minutes := minutes mod 60 in
              Ret (VTime (hours * 3600 + minutes * 60 + seconds - pl_tz pl) (u32 (units * 10000)))).

(** extractTemperature, raw_message.go:304-324. *)
Definition extract_temperature (d : slice) (start end_ : Z) : outcome gval :=
  sub_or_panic d start end_ (fun data =>
    if negb (zlen data =? 2) then Err "Field size mismatch"
    else let v := le_uint data in
         if 65533 <=? v then Err "Data not present"
         else Ret (VFloat32 (f32_div (f32_of_Z v) (f32_of_Z 100)))).

(** extract6BitASCII, raw_message.go:326-334. *)
Definition extract_6bit (d : slice) (start end_ : Z) : outcome gval :=
  sub_or_panic d start end_ (fun _ => Err "Not implemented").

(** extractPressure, raw_message.go:337-357. *)
Definition extract_pressure (d : slice) (start end_ : Z) : outcome gval :=
  sub_or_panic d start end_ (fun data =>
    if negb (zlen data =? 2) then Err "Field size mismatch"
    else let v := le_uint data in
         if 65533 <=? v then Err "Data not present"
         else Ret (VFloat32 (f32_div (f32_of_Z v) (f32_of_Z 1000)))).

(** extractStringLZ, raw_message.go:359-387: [end] is a byte, so end += byte(start) wraps. *)
Definition extract_stringlz (d : slice) (start : Z) : outcome gval :=
  if s_len d <=? start then Err "Data not present"
  else match s_get d start with
       | None => Panic "index out of range"
       | Some n =>
           if n =? 0 then Err "Data not present"
           else let end_ := u8 (n + u8 start) in
                let start := start + 1 in
                if s_len d <? end_ then Err "Data not present"
                else sub_or_panic d start end_ (fun data =>
                       if zlen data =? 0 then Err "Data not present" else Ret (VString data))
       end.

(** extractString, raw_message.go:389-418; [scan_text] is the loop of lines 402-406 and
    returns the stop index. *)
Fixpoint scan_text (n : nat) (d : slice) (i : Z) : outcome Z :=
  match n with
  | O => Ret i
  | S n' => match s_get d i with
            | None => Panic "index out of range"
            | Some b => if (b =? 0) || (b =? 255) then Ret i else scan_text n' d (i + 1)
            end
  end.
Definition extract_string (d : slice) (start end_ : Z) : outcome gval :=
  if (s_len d <=? start) || (s_len d <=? end_) then Err "Data not present"
  else match s_get d start with
       | None => Panic "index out of range"
       | Some b0 =>
           if b0 =? 0 then Err "Data not present"
           else match scan_text (Z.to_nat (end_ - start)) d start with
                | Ret i => sub_or_panic d start i (fun data =>
                             if zlen data =? 0 then Err "Data not present" else Ret (VString data))
                | Err e => Err e
                | Panic p => Panic p
                end
       end.

(** Signed reinterpretation by declared size, raw_message.go:460-468 and 475-483. *)
Definition signed_value (size num : Z) : Z :=
  if size <=? 8 then i8 num else if size <=? 16 then i16 num
  else if size <=? 32 then i32 num else i64 num.

(** The condition of raw_message.go:458: res is none of 1, RES_LOOKUP, RES_MANUFACTURER,
    RES_INTEGER. *)
Definition res_scales (r : resolution) : bool :=
  match r with
  | RZero => true
  | RNeg k => negb ((k =? 9) || (k =? 12) || (k =? 8))
  | RPos n d => negb (Pos.eqb n d)
  end.

(** extractNumber, raw_message.go:420-492 (the commented-out lines 440-456 left out). *)
Definition extract_number (f : field) (d : slice) (start end_ offset width : Z) : outcome gval :=
  sub_or_panic d start end_ (fun part =>
    if 8 <? end_ - start then Err "Numeric field exceeds max width"
    else
      let data := copy_at (repeat 0 8) 0 part in
      let mask := shr64 18446744073709551615 (u32 (64 - width)) in
      let num := Z.land (shr64 (le_uint data) offset) mask in
      if negb (Z.land (shl64 1 width) num =? 0) then Err "Field not present"
      else if res_scales (f_res f) then
        Ret (VFloat64 (f64_mul (f64_of_Z (if f_signed f then signed_value (f_size f) num else num))
                               (res_f64 (f_res f))))
      else if f_signed f then
        Ret (if f_size f <=? 8 then VInt8 (i8 num)
             else if f_size f <=? 16 then VInt16 (i16 num)
             else if f_size f <=? 32 then VInt32 (i32 num)
             else VInt64 (i64 num))
      else Ret (VUint64 num)).

(** Map access m[k] of a PgnLookup: "" when absent. *)
Fixpoint lk_name (l : lookup) (k : Z) : string :=
  match l with [] => EmptyString | (a, s) :: r => if a =? k then s else lk_name r k end.
Fixpoint lk_sub (l : sublookup) (k : Z) : lookup :=
  match l with [] => [] | (a, s) :: r => if a =? k then s else lk_sub r k end.
Definition name_or (n : Z) (s : string) : gval :=
  match s with EmptyString => VUint64 n | _ => VString (str s) end.

(** extractLookupField, raw_message.go:494-515. *)
Definition extract_lookup (f : field) (d : slice) (start end_ sbit bits : Z) : outcome gval :=
  match extract_number f d start end_ sbit bits with
  | Ret n =>
      match f_units f with
      | ULookup l => match n with
                     | VUint64 x => Ret (name_or x (lk_name l (i64 x)))
                     | _ => Panic "interface conversion"
                     end
      | _ => Ret n
      end
  | r => r
  end.

(** extractLookupSubfield, raw_message.go:517-531. *)
Definition extract_sublookup (pl : platform) (f : field) (super : Z) (d : slice) (start end_ sbit bits : Z) : outcome gval :=
  match extract_number f d start end_ sbit bits with
  | Ret n =>
      match f_units f with
      | USubLookup u => match n with
                        | VFloat64 x => Ret (VString (str (lk_name (lk_sub u super) (conv_int pl x))))
                        | _ => Panic "interface conversion"
                        end
      | _ => Ret n
      end
  | r => r
  end.

(** extractManufacturer, raw_message.go:533-550. *)
Definition extract_manufacturer (f : field) (d : slice) (start end_ sbit bits : Z) : outcome gval :=
  match extract_number f d start end_ sbit bits with
  | Ret (VUint64 x) => Ret (name_or x (lk_name lookupCompanyCode (i64 x)))
  | Ret _ => Panic "interface conversion"
  | r => r
  end.

(* ------------------------------------------------------------------ ParsePacket *)

(** DataMap, parsed_message.go:34, as an association list (newest key last). *)
Definition dmap := list (Z * gval).
Fixpoint dm_put (m : dmap) (k : Z) (v : gval) : dmap :=
  match m with
  | [] => [(k, v)]
  | (a, x) :: r => if a =? k then (k, v) :: r else (a, x) :: dm_put r k v
  end.
(** m[k], nil when absent. *)
Fixpoint dm_get (m : dmap) (k : Z) : gval :=
  match m with [] => VNil | (a, x) :: r => if a =? k then x else dm_get r k end.

(** Lines 121-168 of raw_message.go: decoding of one field at bytes [sb, eb), bit [sbit],
    width [bits].  [dm] is pgnParsed.Data so far (RES_LOOKUP2 looks at it). *)
Definition extract_field (pl : platform) (d : slice) (def : pgn_def) (dm : dmap) (f : field)
    (sb eb sbit bits : Z) : outcome gval :=
  match f_res f with
  | RZero => Ret VNil
  | RPos _ _ => extract_number f d sb eb sbit bits
  | RNeg k =>
      if (k =? 2) || (k =? 3) then extract_latlon d sb eb
      else if k =? 4 then extract_date d sb eb
      else if k =? 5 then extract_time pl d sb eb
      else if k =? 6 then extract_temperature d sb eb
      else if k =? 7 then extract_6bit d sb eb
      else if k =? 8 then extract_number f d sb eb sbit bits
      else if k =? 9 then extract_lookup f d sb eb sbit bits
      else if k =? 10 then
        match dm_get dm (f_offset f) with
        | VNil =>
            match field_offsets def (f_offset f) with
            | Ret (sb', eb', sbit', bits') =>
                match extract_number f d sb' eb' sbit' bits' with
                | Ret (VFloat64 x) => extract_sublookup pl f (conv_u32 pl x) d sb eb sbit bits
                | Ret _ => Panic "interface conversion"
                | r => r
                end
            | Err e => Err e
            | Panic p => Panic p
            end
        (* line 155: data = uint32(v.(float64)), so line 157's data.(float64) panics *)
        | _ => Panic "interface conversion"
        end
      else if k =? 12 then extract_manufacturer f d sb eb sbit bits
      else if k =? 15 then extract_pressure d sb eb
      else if k =? 16 then extract_stringlz d sb
      else if k =? 13 then sub_or_panic d sb eb (fun s => Ret (VString s))
      else if k =? 1 then extract_string d sb eb
      else sub_or_panic d sb eb (fun s => Ret (VBytes s))
  end.

Definition is_manufacturer (r : resolution) : bool :=
  match r with RNeg k => k =? 12 | _ => false end.

(** The loop of raw_message.go:178-198 choosing among the definitions of one PGN; [n] is
    max(0, j-i+1), so n = 0 is the loop condition i <= j failing.  [data] is the local
    variable, [res] the resolution of the field first decoded. *)
Fixpoint choose (n : nat) (t : list pgn_def) (d : slice) (res : resolution)
    (sb eb sbit bits idx : Z) (data : gval) (i : Z) (def : pgn_def) (f : field)
    : outcome (Z * pgn_def) :=
  match n with
  | O => Ret (i, def)
  | S n' =>
      match (if is_manufacturer res
             then match extract_number f d sb eb sbit bits with
                  | Err _ => Ret VNil
                  | r => r
                  end
             else Ret data) with
      | Ret data1 =>
          match f_units f with
          | UStr EmptyString => Panic "index out of range"
          | UStr (String c r) =>
              if Ascii.eqb c "="%char then
                match data1 with
                | VUint64 x =>
                    if pu_value (parse_uint 10 64 (str r)) =? x then Ret (i, def)
                    else match zget t (i + 1) with
                         | None => Panic "index out of range"
                         | Some def' =>
                             match zget (p_fields def') idx with
                             | None => Panic "index out of range"
                             | Some f' => choose n' t d res sb eb sbit bits idx data1 (i + 1) def' f'
                             end
                         end
                | _ => Panic "interface conversion"
                end
              else Ret (i, def)
          | _ => Ret (i, def)
          end
      | Err e => Err e
      | Panic p => Panic p
      end
  end.

(** ParsedMessage, parsed_message.go:46-50 (Header is the message itself). *)
Record parsed := mkparsed { pm_header : raw_message; pm_index : Z; pm_data : dmap }.

(** Loop variables of ParsePacket. *)
Record pstate := mkps {
  ps_i : Z; ps_def : pgn_def; ps_idx : Z; ps_odx : Z; ps_byte : Z; ps_bit : Z;
  ps_index : Z; ps_data : dmap }.

Inductive step_result := SStop (s : pstate) | SNext (s : pstate) | SCrash (why : string).

(** Advancing to the next field, raw_message.go:205-211 and the loop's post statement. *)
Definition advance (dlen bits : Z) (s : pstate) : pstate :=
  let byte := ps_byte s + (bits + ps_bit s) / 8 in
  let bit := (ps_bit s + bits) mod 8 in
  let n := zlen (p_fields (ps_def s)) in
  let idx := if (ps_idx s =? n - 1) && (0 <? p_rep (ps_def s)) && (byte <? dlen)
             then ps_idx s - p_rep (ps_def s) else ps_idx s in
  mkps (ps_i s) (ps_def s) (idx + 1) (ps_odx s + 1) byte bit (ps_index s) (ps_data s).

(** One iteration of the loop raw_message.go:106-212; [j] and [one] are fixed before it. *)
Definition parse_step (pl : platform) (t : list pgn_def) (d : slice) (j : Z) (one : bool)
    (s : pstate) : step_result :=
  let fields := p_fields (ps_def s) in
  if zlen fields <=? ps_idx s then SStop s
  else match zget fields (ps_idx s) with
  | None => SCrash "index out of range"
  | Some f =>
      let dlen := s_len d in
      let nbytes := Z.min ((f_size f + 7) / 8) dlen in
      let bits := Z.min (nbytes * 8) (f_size f) in
      let eb := nbytes + ps_byte s in
      if (dlen <? ps_byte s) || (dlen <? eb) then SStop s
      else match extract_field pl d (ps_def s) (ps_data s) f (ps_byte s) eb (ps_bit s) bits with
      | Panic p => SCrash p
      | Err _ =>
          SNext (advance dlen bits
            (mkps (ps_i s) (ps_def s) (ps_idx s) (ps_odx s) (ps_byte s) (ps_bit s)
                  (ps_index s) (dm_put (ps_data s) (ps_odx s) VNil)))
      | Ret v =>
          let dm := dm_put (ps_data s) (ps_odx s) v in
          if one then
            SNext (advance dlen bits
              (mkps (ps_i s) (ps_def s) (ps_idx s) (ps_odx s) (ps_byte s) (ps_bit s) (ps_index s) dm))
          else
            match choose (Z.to_nat (j - ps_i s + 1)) t d (f_res f) (ps_byte s) eb (ps_bit s) bits
                         (ps_idx s) v (ps_i s) (ps_def s) f with
            | Ret (i', def') =>
                SNext (advance dlen bits
                  (mkps i' def' (ps_idx s) (ps_odx s) (ps_byte s) (ps_bit s) i' dm))
            | Err e => SCrash e
            | Panic p => SCrash p
            end
      end
  end.

(** The whole loop, at most [fuel] iterations (None: more are needed). *)
Fixpoint parse_loop (fuel : nat) (pl : platform) (t : list pgn_def) (d : slice) (j : Z)
    (one : bool) (s : pstate) : option (outcome pstate) :=
  match fuel with
  | O => None
  | S n => match parse_step pl t d j one s with
           | SStop s' => Some (Ret s')
           | SCrash p => Some (Panic p)
           | SNext s' => parse_loop n pl t d j one s'
           end
  end.

Definition msg_slice (m : raw_message) (spare : bytes) : slice :=
  mkslice (rm_data m ++ spare) (zlen (rm_data m)).

(** ParsePacket, raw_message.go:81-214, with at most [fuel] loop iterations; [spare] is what
    lies in Data's capacity beyond its length. *)
Definition parse_packet (fuel : nat) (pl : platform) (t : list pgn_def) (m : raw_message)
    (spare : bytes) : option (outcome parsed) :=
  match pgn_first t (rm_pgn m), pgn_last t (rm_pgn m) with
  | Ret (i, def), Ret (j, _) =>
      match parse_loop fuel pl t (msg_slice m spare) j (i =? j) (mkps i def 0 0 0 0 i []) with
      | None => None
      | Some (Ret s) => Some (Ret (mkparsed m (ps_index s) (ps_data s)))
      | Some (Err e) => Some (Err e)
      | Some (Panic p) => Some (Panic p)
      end
  | _, _ => Some (Panic "index out of range")
  end.

(** RawMessage.GetPgnDefinition, raw_message.go:552-555: the argument is not used. *)
Definition get_pgn_definition (t : list pgn_def) (m : raw_message) (pgn : Z) : outcome pgn_def :=
  match pgn_first t (rm_pgn m) with
  | Ret (_, p) => Ret p | Err e => Err e | Panic p => Panic p
  end.

(* ------------------------------------------------------------------ parsed_message.go *)

(** CanBoatMessage, parsed_message.go:52-59, as json.Unmarshal leaves it (Timestamp left
    out); on malformed input Unmarshal leaves it zero and its error is dropped. *)
Record canboat := mkcb { cb_prio : Z; cb_src : Z; cb_dst : Z; cb_pgn : Z; cb_fields : list (bytes * gval) }.
Definition canboat_zero : canboat := mkcb 0 0 0 0 [].

(** The inner loop of FromCanBoat, parsed_message.go:81-85. *)
Fixpoint import_field (fs : list field) (kk : Z) (k : bytes) (v : gval) (dd : dmap) : dmap :=
  match fs with
  | [] => dd
  | f :: r => import_field r (kk + 1) k v (if bytes_eqb (str (f_name f)) k then dm_put dd kk v else dd)
  end.
(** FromCanBoat, parsed_message.go:61-97, on the unmarshalled value; [cb_fields] lists the
    JSON object's members in the order the range statement happens to visit them. *)
Definition from_canboat (t : list pgn_def) (c : canboat) : outcome parsed :=
  match pgn_first t (cb_pgn c), pgn_last t (cb_pgn c) with
  | Ret (f, fpgn), Ret (l, _) =>
      if negb (f =? l) then Err "f != l"
      else Ret (mkparsed (mkraw (cb_prio c) (cb_pgn c) (cb_src c) (cb_dst c) 0 [])
                         f
                         (fold_left (fun dd kv => import_field (p_fields fpgn) 0 (fst kv) (snd kv) dd)
                                    (cb_fields c) []))
  | _, _ => Panic "index out of range"
  end.
(** The string argument: [unmarshal] stands for encoding/json on the CanBoatMessage type
    (None = malformed). *)
Definition FromCanBoat (unmarshal : bytes -> option canboat) (t : list pgn_def) (data : bytes) : outcome parsed :=
  from_canboat t (match unmarshal data with Some c => c | None => canboat_zero end).

(** DataMap.MarshalJSON, parsed_message.go:36-44: the map handed to json.Marshal. *)
Fixpoint sm_put (m : list (bytes * gval)) (k : bytes) (v : gval) : list (bytes * gval) :=
  match m with
  | [] => [(k, v)]
  | (a, x) :: r => if bytes_eqb a k then (k, v) :: r else (a, x) :: sm_put r k v
  end.
Definition json_members (m : dmap) : list (bytes * gval) :=
  fold_left (fun o kv => sm_put o (itoa (fst kv)) (snd kv)) m [].

(** The loop of ParsedMessage.Print, parsed_message.go:108-124: one (index, field name, value)
    per printed field.  The text around them is built by fmt and left out, as is the final
    s[:len(s)-1] (s is never empty). *)
Fixpoint print_loop (n : nat) (pp : pgn_def) (verbose : bool) (data : dmap) (i j : Z)
    (acc : list (Z * string * gval)) : outcome (list (Z * string * gval)) :=
  match n with
  | O => Ret (rev acc)
  | S n' =>
      let f := dm_get data i in
      let next acc' :=
        let j' := if (0 <? p_rep pp) && (j =? zlen (p_fields pp) - 1) then j - p_rep pp else j in
        print_loop n' pp verbose data (i + 1) (j' + 1) acc' in
      match f, verbose with
      | VNil, false => next acc
      | _, _ => match zget (p_fields pp) j with
                | None => Panic "index out of range"
                | Some fd => next ((i, f_name fd, f) :: acc)
                end
      end
  end.
(** ParsedMessage.Print, parsed_message.go:99-130. *)
Definition print_fields (t : list pgn_def) (p : parsed) (verbose : bool) : outcome (list (Z * string * gval)) :=
  match zget t (pm_index p) with
  | None => Panic "index out of range"
  | Some pp => print_loop (List.length (pm_data p)) pp verbose (pm_data p) 0 0 []
  end.
