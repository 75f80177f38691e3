(** SignalkModel: /repo/signalk/signalk.go.

    Simplifications, once for the file:
    - ParseMappings (lines 106-116: file read and XML decoding) is in XmlModel.v; here a
      mapping table is a value of type [mappings] (the shipped one is MapTable.v);
    - the time stamp of an update (time.Now) is left out;
    - fmt.Sprintf("%v", x) of a field value is the parameter [fmtv]; theorems quantify over it;
    - "range msg.Data" visits the entries of a Go map in an unspecified order: the parameter
      [order] is the sequence visited; theorems quantify over every permutation of the map. *)
From Verif Require Import GoBase Strconv CanModel NmeaTypes NmeaModel.
Open Scope Z_scope.
Open Scope list_scope.

(* ------------------------------------------------------------------ types *)

(** condition, signalk.go:33-37. *)
Record condition := mkcond { c_op : bytes; c_field : Z; c_value : bytes }.
(** field and fieldset, signalk.go:39-47: the fields as (type, value) pairs. *)
Record fieldset := mkfs { fs_type : bytes; fs_fields : list (bytes * Z) }.
(** multiplier and classifier, signalk.go:63-71. *)
Record idfield := mkidf { i_id : bytes; i_field : bytes }.
(** parameterGroup, signalk.go:49-56. *)
Record group := mkgroup {
  g_pgn : Z; g_fieldset : fieldset; g_field : bytes; g_mult : idfield; g_class : idfield;
  g_conds : list condition }.
(** mapping, signalk.go:73-77 (Sentences are never read). *)
Record mapping := mkmapping { m_path : bytes; m_groups : list group }.
Definition mappings := list mapping.

(** value, signalk.go:90-93: Value is the field's value, or the text of a fieldset. *)
Record skvalue := mkval { v_path : bytes; v_value : gval }.
(** source, update, delta, signalk.go:84-104, without the time stamp. *)
Record update := mkupdate { u_pgn : Z; u_device : bytes; u_src : Z; u_values : list skvalue }.
Record delta := mkdelta { d_context : bytes; d_updates : list update }.

(* ------------------------------------------------------------------ strings *)

(** strings.Replace(s, old, new, 1) for a non-empty old: the first occurrence. *)
Fixpoint has_prefix (p s : bytes) : bool :=
  match p, s with
  | [], _ => true
  | a :: p', b :: s' => (a =? b) && has_prefix p' s'
  | _ :: _, [] => false
  end.
Fixpoint replace_first (s old new : bytes) : bytes :=
  if has_prefix old s then new ++ skipn (List.length old) s
  else match s with [] => [] | c :: r => c :: replace_first r old new end.

(** toDotNotation, signalk.go:309-311: every "/" becomes ".", then [2:] (panics below two
    bytes). *)
Definition to_dot (s : bytes) : outcome bytes :=
  if zlen s <? 2 then Panic "slice bounds out of range"
  else Ret (skipn 2 (map (fun c => if c =? 47 then 46 else c) s)).

(** fmt.Sprintf("{%v}", id), signalk.go:146 and 155. *)
Definition braced (id : bytes) : bytes := 123 :: id ++ [125].

(* ------------------------------------------------------------------ bool maps *)

(** map[int]bool as an association list; reading an absent key gives false. *)
Definition bmap := list (Z * bool).
Fixpoint b_get (m : bmap) (k : Z) : bool :=
  match m with [] => false | (a, v) :: r => if a =? k then v else b_get r k end.
Fixpoint b_put (m : bmap) (k : Z) (v : bool) : bmap :=
  match m with
  | [] => [(k, v)]
  | (a, x) :: r => if a =? k then (k, v) :: r else (a, x) :: b_put r k v
  end.
(** merge, signalk.go:213-225.  The two ranges visit maps, whose keys are distinct, so the
    visiting order does not matter. *)
Definition merge (left right : bmap) : bmap :=
  fold_left (fun ret kv => b_put ret (fst kv) (snd kv)) right
    (fold_left (fun ret kv => b_put ret (fst kv) (snd kv)) left []).

(* ------------------------------------------------------------------ calendar *)

(** Go's time package (time.Time.Date, time.Date): days since 1970-01-01 to a civil date of
    the proleptic Gregorian calendar, by the 400/100/4/1-year cycles of time.Time.absDate
    (with the year starting in January, as there), shifted by 1970 years. *)
Definition leap (y : Z) : bool := (y mod 4 =? 0) && (negb (y mod 100 =? 0) || (y mod 400 =? 0)).
Definition days_before (m : Z) (lp : bool) : Z :=
  nth (Z.to_nat (m - 1)) [0; 31; 59; 90; 120; 151; 181; 212; 243; 273; 304; 334] 365
  + (if lp && (2 <? m) then 1 else 0).
(** days from 1970-01-01 to January 1st of year y *)
Definition year_start (y : Z) : Z :=
  let p := y - 1 in 365 * (y - 1970) + (p / 4 - 492) - (p / 100 - 19) + (p / 400 - 4).
Fixpoint month_of (n : nat) (m : Z) (lp : bool) (yday : Z) : Z :=
  match n with
  | O => m
  | S n' => if yday <? days_before (m + 1) lp then m else month_of n' (m + 1) lp yday
  end.
(** (year, month, day) of a day number *)
Definition civil (n : Z) : Z * Z * Z :=
  let d := n + 719162 in                         (* days since 0001-01-01 *)
  let q400 := d / 146097 in let d := d - 146097 * q400 in
  let q100 := d / 36524 in let q100 := q100 - q100 / 4 in let d := d - 36524 * q100 in
  let q4 := d / 1461 in let d := d - 1461 * q4 in
  let q1 := d / 365 in let q1 := q1 - q1 / 4 in let yday := d - 365 * q1 in
  let y := 400 * q400 + 100 * q100 + 4 * q4 + q1 + 1 in
  let m := month_of 11 1 (leap y) yday in
  (y, m, yday - days_before m (leap y) + 1).
(** time.Date's day number for a year, month and day: months are normalised to 1..12 first,
    days are added as they are. *)
Definition date_days (y m d : Z) : Z :=
  let y' := y + (m - 1) / 12 in let m' := (m - 1) mod 12 + 1 in
  year_start y' + days_before m' (leap y') + (d - 1).

(** appendInt of package time, zero padded to w digits. *)
Fixpoint pad (w : nat) (s : bytes) : bytes :=
  if (List.length s <? w)%nat then match w with O => s | S w' => 48 :: pad w' s end else s.
Definition fmt_int (n : Z) (w : nat) : bytes :=
  if n <? 0 then 45 :: pad w (itoa (- n)) else pad w (itoa n).
(** Time.Format(time.RFC3339) = "2006-01-02T15:04:05Z07:00" for local day number [n], second
    of the day [s] and zone offset [tz] seconds. *)
Definition rfc3339 (n s tz : Z) : bytes :=
  let '(y, m, d) := civil n in
  fmt_int y 4 ++ [45] ++ fmt_int m 2 ++ [45] ++ fmt_int d 2 ++ [84] ++
  fmt_int (s / 3600) 2 ++ [58] ++ fmt_int (s / 60 mod 60) 2 ++ [58] ++ fmt_int (s mod 60) 2 ++
  (if tz =? 0 then [90]
   else let zone := Z.quot tz 60 in
        (if zone <? 0 then [45] else [43]) ++
        fmt_int (Z.abs zone / 60) 2 ++ [58] ++ fmt_int (Z.abs zone mod 60) 2).

(* ------------------------------------------------------------------ fieldsets *)

(** fieldset.toMap, signalk.go:251-258, and the access f[key] (0 when absent): the last field
    with the key wins. *)
Fixpoint fs_key (l : list (bytes * Z)) (k : bytes) (acc : Z) : Z :=
  match l with
  | [] => acc
  | (a, v) :: r => fs_key r k (if bytes_eqb a k then v else acc)
  end.

(** fieldset.parse, signalk.go:230-248: the text and the used fields (nil: None).
    The date and the time are time.Time values in the local zone; tm.AddDate keeps tm's clock
    reading and shifts its calendar date. *)
Definition fs_parse (tz : Z) (fs : fieldset) (data : dmap) : bytes * bmap :=
  let date := fs_key (fs_fields fs) (str "date") 0 in
  let time := fs_key (fs_fields fs) (str "time") 0 in
  if bytes_eqb (fs_type fs) (str "datetime") then
    match dm_get data date, dm_get data time with
    | VTime ds _, VTime ts _ =>
        let '(y, m, d) := civil ((ds + tz) / 86400) in
        let '(y', m', d') := civil ((ts + tz) / 86400) in
        let n := date_days (y' + (y - 1970)) (m' + (m - 1)) (d' + (d - 1)) in
        (rfc3339 n ((ts + tz) mod 86400) tz, b_put (b_put [] date true) time true)
    | _, _ => ([], [])
    end
  else ([], []).

(** x == "" || x == nil, signalk.go:265. *)
Definition blank (v : gval) : bool :=
  match v with VNil => true | VString [] => true | _ => false end.
(** fieldset.hasAll, signalk.go:263-271. *)
Definition has_all (fs : fieldset) (data : dmap) (used : bmap) : bool :=
  forallb (fun f => negb (b_get used (snd f) || blank (dm_get data (snd f)))) (fs_fields fs).

(* ------------------------------------------------------------------ conditions *)

(** conditionsMatch, signalk.go:276-307. *)
Fixpoint conds_match (fmtv : gval -> bytes) (cs : list condition) (data : dmap) : bool :=
  match cs with
  | [] => true
  | x :: r =>
      let ls := fmtv (dm_get data (c_field x)) in
      if bytes_eqb (c_op x) (str "eq") then
        if negb (bytes_eqb ls (c_value x)) then false else conds_match fmtv r data
      else if bytes_eqb (c_op x) (str "lt") then
        if negb (bytes_ltb ls (c_value x)) then false else conds_match fmtv r data
      else if bytes_eqb (c_op x) (str "gt") then
        if negb (bytes_ltb (c_value x) ls) then false else conds_match fmtv r data
      else if bytes_eqb (c_op x) (str "le") then
        if bytes_ltb (c_value x) ls then false else conds_match fmtv r data
      else if bytes_eqb (c_op x) (str "ge") then
        if bytes_ltb ls (c_value x) then false else conds_match fmtv r data
      else true
  end.

(* ------------------------------------------------------------------ Delta *)

(** What stays fixed during a call of Delta: the zone, fmt's %v, the PGN table, the message. *)
Record skenv := mkenv { e_tz : Z; e_fmt : gval -> bytes; e_table : list pgn_def; e_msg : parsed }.
(** usedFields and upd.Values. *)
Record skst := mkst { k_used : bmap; k_vals : list skvalue }.

Definition nonempty (s : bytes) : bool := match s with [] => false | _ => true end.

(** Path and mlt of signalk.go:139-157.  Both ParseInt errors are ignored (0, or the limit of
    the range, is used then); the division by rpt panics when the definition has no repeating
    group. *)
Definition sk_path (e : skenv) (rpt fid : Z) (dotted : bytes) (g : group) : outcome (bytes * Z) :=
  let data := pm_data (e_msg e) in
  let path :=
    if nonempty (i_id (g_class g)) && nonempty (i_field (g_class g)) then
      replace_first dotted (braced (i_id (g_class g)))
        (e_fmt e (dm_get data (parse_int_value 32 (i_field (g_class g)))))
    else dotted in
  if nonempty (i_id (g_mult g)) && nonempty (i_field (g_mult g)) then
    let mlt := parse_int_value 32 (i_field (g_mult g)) in
    if rpt =? 0 then Panic "integer divide by zero"
    else let sub := Z.quot (fid - mlt) rpt * rpt + mlt in
         Ret (replace_first path (braced (i_id (g_mult g))) (e_fmt e (dm_get data sub)), mlt)
  else Ret (path, -1).

(** append(upd.Values, val) if the path is not "" and the value not nil, signalk.go:169-171 and
    180-182. *)
Definition push (s : skst) (path : bytes) (v : gval) : skst :=
  match path, v with
  | [], _ => s
  | _, VNil => s
  | _, _ => mkst (k_used s) (k_vals s ++ [mkval path v])
  end.

(** The body of the innermost loop, signalk.go:138-186, for one parameter group. *)
Definition sk_group (e : skenv) (fid : Z) (field : gval) (mpath : bytes) (g : group) (s : skst) : outcome skst :=
  if negb (g_pgn g =? rm_pgn (pm_header (e_msg e))) then Ret s
  else match to_dot mpath with
  | Panic p => Panic p | Err x => Err x
  | Ret dotted =>
  match zget (e_table e) (pm_index (e_msg e)) with
  | None => Panic "index out of range"
  | Some def =>
      let rpt := p_rep def in
      match sk_path e rpt fid dotted g with
      | Panic p => Panic p | Err x => Err x
      | Ret (path, mlt) =>
          let data := pm_data (e_msg e) in
          let hit := match parse_int 64 (g_field g) with
                     | Some fld => ((mlt <? fld) && (-1 <? mlt) && (fld =? Z.rem fid rpt)) || (fld =? fid)
                     | None => false
                     end in
          if hit && negb (b_get (k_used s) fid) then
            if conds_match (e_fmt e) (g_conds g) data
            then Ret (push (mkst (b_put (k_used s) fid true) (k_vals s)) path field)
            else Ret s
          else match fs_fields (g_fieldset g) with
               | [] => Ret s
               | _ => if has_all (g_fieldset g) data (k_used s) then
                        let '(txt, u) := fs_parse (e_tz e) (g_fieldset g) data in
                        let s' := push s dotted (VString txt) in
                        Ret (mkst (merge (k_used s') u) (k_vals s'))
                      else Ret s
               end
      end
  end
  end.

Definition bind {A B} (x : outcome A) (f : A -> outcome B) : outcome B :=
  match x with Ret a => f a | Err e => Err e | Panic p => Panic p end.
Fixpoint sk_each {A} (f : A -> skst -> outcome skst) (l : list A) (s : skst) : outcome skst :=
  match l with [] => Ret s | x :: r => bind (f x s) (sk_each f r) end.

(** The three loops, signalk.go:135-189. *)
Definition sk_field (e : skenv) (m : mappings) (kv : Z * gval) (s : skst) : outcome skst :=
  sk_each (fun mp => sk_each (sk_group e (fst kv) (snd kv) (m_path mp)) (m_groups mp)) m s.
Definition sk_loop (e : skenv) (m : mappings) (order : dmap) : outcome skst :=
  sk_each (sk_field e m) order (mkst [] []).

(** Mappings.Delta, signalk.go:118-203. *)
Definition sk_context : bytes := str "vessels.urn:mrn:signalk:uuid:c0d79334-4e25-4245-8892-54e8ccc8021d".
Definition sk_device : bytes := str "/dev/actisense".
Definition sk_delta (e : skenv) (m : mappings) (order : dmap) : outcome delta :=
  bind (sk_loop e m order) (fun s =>
    match k_vals s with
    | [] => Err "unknown PGN"
    | vs => Ret (mkdelta sk_context
                   [mkupdate (rm_pgn (pm_header (e_msg e))) sk_device (rm_source (pm_header (e_msg e))) vs])
    end).
