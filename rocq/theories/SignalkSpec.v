(** SignalkSpec: what the Signal K properties (C49-C57) mean, using the types of the model
    but none of its functions. *)
From Verif Require Import GoBase CanModel NmeaTypes NmeaModel NmeaSpec SignalkModel.
Open Scope Z_scope.
Open Scope list_scope.

(* ------------------------------------------------------------------ text *)

(** Optional sign and decimal digits, and the value. *)
Definition int_text (s : bytes) (k : Z) : Prop :=
  decimal s k \/ (exists r, s = 43 :: r /\ decimal r k) \/ (exists r, s = 45 :: r /\ decimal r (- k)).

(** Byte-wise text order: a proper prefix, or smaller at the first difference. *)
Definition text_lt (a b : bytes) : Prop :=
  exists p, (exists c r, a = p /\ b = p ++ c :: r) \/
            (exists c d r r', a = p ++ c :: r /\ b = p ++ d :: r' /\ c < d).

(** t is s with its first occurrence of [old] replaced by [new] (s itself if there is none). *)
Definition replaced_once (old new s t : bytes) : Prop :=
  (exists pre post, s = pre ++ old ++ post /\ t = pre ++ new ++ post /\
     forall pre' post', s = pre' ++ old ++ post' -> (List.length pre <= List.length pre')%nat) \/
  ((forall pre post, s <> pre ++ old ++ post) /\ t = s).

(** The mapping path "xy..." without its first two bytes and with "." for "/". *)
Definition dotted (path p : bytes) : Prop :=
  exists a b rest, path = a :: b :: rest /\ Forall2 (fun c d => d = if c =? 47 then 46 else c) rest p.

(** A placeholder {id} is in force when both its id and its field are given. *)
Definition in_force (x : idfield) : Prop := i_id x <> [] /\ i_field x <> [].
Definition placeholder (x : idfield) : bytes := str "{" ++ i_id x ++ str "}".

(* ------------------------------------------------------------------ messages *)

(** The value of field k of a message: nil when there is no such field. *)
Definition field_value (data : dmap) (k : Z) (v : gval) : Prop :=
  In (k, v) data \/ (v = VNil /\ forall x, ~ In (k, x) data).

(* ------------------------------------------------------------------ conditions *)

Definition known_op (c : condition) : Prop :=
  In (c_op c) [str "eq"; str "lt"; str "gt"; str "le"; str "ge"].
(** Condition c holds of the text ls. *)
Definition holds (c : condition) (ls : bytes) : Prop :=
  (c_op c = str "eq" -> ls = c_value c) /\
  (c_op c = str "lt" -> text_lt ls (c_value c)) /\
  (c_op c = str "gt" -> text_lt (c_value c) ls) /\
  (c_op c = str "le" -> ls = c_value c \/ text_lt ls (c_value c)) /\
  (c_op c = str "ge" -> ls = c_value c \/ text_lt (c_value c) ls).
(** Every condition up to the first one with an unknown operator holds. *)
Definition applies (fmtv : gval -> bytes) (cs : list condition) (data : dmap) : Prop :=
  exists known rest, cs = known ++ rest /\ (rest = [] \/ exists c r, rest = c :: r /\ ~ known_op c) /\
    Forall (fun c => known_op c /\ forall v, field_value data (c_field c) v -> holds c (fmtv v)) known.

(* ------------------------------------------------------------------ mappings *)

(** Group g of mapping path [path] is one of the table's for this PGN. *)
Definition group_of (m : mappings) (pgn : Z) (path : bytes) (g : group) : Prop :=
  exists mp, In mp m /\ path = m_path mp /\ In g (m_groups mp) /\ g_pgn g = pgn.
(** The table's groups for a PGN, in table order. *)
Definition groups_for (m : mappings) (pgn : Z) : list (bytes * group) :=
  flat_map (fun mp => map (fun g => (m_path mp, g)) (filter (fun g => g_pgn g =? pgn) (m_groups mp))) m.

(** Group g names field number fid, in messages whose definition repeats its last [rpt]
    fields: it gives that number, or it has a multiplier at field [mlt] and gives the number of
    the same field in another repetition. *)
Definition names_field (rpt : Z) (g : group) (fid : Z) : Prop :=
  exists fld, int_text (g_field g) fld /\ - 2 ^ 63 <= fld < 2 ^ 63 /\
    (fld = fid \/
     exists mlt, in_force (g_mult g) /\ mlt = Strconv.parse_int_value 32 (i_field (g_mult g)) /\
       0 <= mlt < fld /\ fld = Z.rem fid rpt).

(** The path of a value taken from field fid: the classifier's placeholder is replaced by the
    text of the classifier field, the multiplier's by the text of the multiplier field of the
    same repetition as fid. *)
Definition substituted (fmtv : gval -> bytes) (data : dmap) (x : idfield) (k : Z) (p q : bytes) : Prop :=
  (in_force x -> exists v, field_value data k v /\ replaced_once (placeholder x) (fmtv v) p q) /\
  (~ in_force x -> q = p).
Definition path_for (fmtv : gval -> bytes) (data : dmap) (rpt : Z) (path : bytes) (g : group) (fid : Z) (q : bytes) : Prop :=
  exists p0 p1, dotted path p0 /\
    substituted fmtv data (g_class g) (Strconv.parse_int_value 32 (i_field (g_class g))) p0 p1 /\
    let mlt := Strconv.parse_int_value 32 (i_field (g_mult g)) in
    substituted fmtv data (g_mult g) (mlt + rpt * Z.quot (fid - mlt) rpt) p1 q.

(** Group g claims field fid of the message. *)
Definition claims (fmtv : gval -> bytes) (data : dmap) (rpt : Z) (g : group) (fid : Z) : Prop :=
  names_field rpt g fid /\ applies fmtv (g_conds g) data.

(** What field fid with value v contributes, groups taken in table order: the value under the
    path of the first group claiming the field; nothing if there is none, or if the value is
    nil or the path empty. *)
Definition contributes (fmtv : gval -> bytes) (data : dmap) (rpt : Z) (gs : list (bytes * group)) (fid : Z) (v : gval)
    (out : list skvalue) : Prop :=
  ((forall path g, In (path, g) gs -> ~ claims fmtv data rpt g fid) /\ out = []) \/
  (exists before path g after q, gs = before ++ (path, g) :: after /\
     (forall path' g', In (path', g') before -> ~ claims fmtv data rpt g' fid) /\
     claims fmtv data rpt g fid /\ path_for fmtv data rpt path g fid q /\
     (v <> VNil /\ q <> [] /\ out = [mkval q v] \/ (v = VNil \/ q = []) /\ out = [])).

(* ------------------------------------------------------------------ calendar *)

Definition leap_year (y : Z) : Prop := y mod 4 = 0 /\ (y mod 100 <> 0 \/ y mod 400 = 0).
Definition month_days (y m n : Z) : Prop :=
  (In m [1; 3; 5; 7; 8; 10; 12] /\ n = 31) \/ (In m [4; 6; 9; 11] /\ n = 30) \/
  (m = 2 /\ (leap_year y /\ n = 29 \/ ~ leap_year y /\ n = 28)).
(** The day after y-m-d is y'-m'-d'. *)
Definition next_day (y m d y' m' d' : Z) : Prop :=
  exists n, month_days y m n /\
    (d < n /\ (y', m', d') = (y, m, d + 1) \/
     d = n /\ m < 12 /\ (y', m', d') = (y, m + 1, 1) \/
     d = n /\ m = 12 /\ (y', m', d') = (y + 1, 1, 1)).
(** Day number n (0 is 1970-01-01) is the date y-m-d. *)
Inductive calendar : Z -> Z -> Z -> Z -> Prop :=
| cal_epoch : calendar 0 1970 1 1
| cal_after n y m d y' m' d' : calendar n y m d -> next_day y m d y' m' d' -> calendar (n + 1) y' m' d'
| cal_before n y m d y' m' d' : calendar (n + 1) y' m' d' -> 1 <= m <= 12 -> 1 <= d -> next_day y m d y' m' d' -> calendar n y m d.

(** w decimal digits with value n. *)
Definition digits (w : nat) (n : Z) (s : bytes) : Prop := List.length s = w /\ decimal s n.
(** t is the RFC 3339 text of the date y-m-d, s seconds into the day, in a zone tz seconds
    east of UTC. *)
Definition rfc3339_text (y m d s tz : Z) (t : bytes) : Prop :=
  exists Y M D h mi sc z, digits 4 y Y /\ digits 2 m M /\ digits 2 d D /\
    digits 2 (s / 3600) h /\ digits 2 (s mod 3600 / 60) mi /\ digits 2 (s mod 60) sc /\
    t = Y ++ str "-" ++ M ++ str "-" ++ D ++ str "T" ++ h ++ str ":" ++ mi ++ str ":" ++ sc ++ z /\
    (tz = 0 /\ z = str "Z" \/
     tz <> 0 /\ exists H I, digits 2 (Z.abs tz / 3600) H /\ digits 2 (Z.abs tz mod 3600 / 60) I /\
       z = (if tz <=? -60 then str "-" else str "+") ++ H ++ str ":" ++ I).

(* ------------------------------------------------------------------ fieldsets *)

(** Field number k is the one the fieldset gives for [key]: the last of that type, 0 when
    there is none. *)
Definition keyed (fs : fieldset) (key : bytes) (k : Z) : Prop :=
  (exists pre post, fs_fields fs = pre ++ (key, k) :: post /\ ~ In key (map fst post)) \/
  (~ In key (map fst (fs_fields fs)) /\ k = 0).
(** The two instants a fieldset combines: the values of its date and its time field. *)
Definition combines (fs : fieldset) (data : dmap) (ds ts : Z) : Prop :=
  fs_type fs = str "datetime" /\
  exists kd kt dn tn, keyed fs (str "date") kd /\ keyed fs (str "time") kt /\
    field_value data kd (VTime ds dn) /\ field_value data kt (VTime ts tn).
(** The text: in local time, the day of the date plus the days the time runs over, and the
    time's clock reading. *)
Definition datetime_text (tz ds ts : Z) (t : bytes) : Prop :=
  exists y m d, calendar ((ds + tz) / 86400 + (ts + tz) / 86400) y m d /\
    rfc3339_text y m d ((ts + tz) mod 86400) tz t.
Definition fieldset_text (tz : Z) (fs : fieldset) (data : dmap) (t : bytes) : Prop :=
  (forall ds ts, combines fs data ds ts -> - 10 ^ 10 < ds < 10 ^ 10 -> 0 <= ts + tz < 31 * 86400 -> datetime_text tz ds ts t) /\
  ((forall ds ts, ~ combines fs data ds ts) -> t = []).
(** All fields of the fieldset are there: neither nil nor "". *)
Definition all_present (fs : fieldset) (data : dmap) : Prop :=
  forall key k v, In (key, k) (fs_fields fs) -> field_value data k v -> v <> VNil /\ v <> VString [].

(** A value that a delta may carry. *)
Definition justified (tz : Z) (fmtv : gval -> bytes) (m : mappings) (rpt : Z) (msg : parsed) (x : skvalue) : Prop :=
  exists path g, group_of m (rm_pgn (pm_header msg)) path g /\ v_path x <> [] /\
    ((exists fid, claims fmtv (pm_data msg) rpt g fid /\ In (fid, v_value x) (pm_data msg) /\ v_value x <> VNil /\
        path_for fmtv (pm_data msg) rpt path g fid (v_path x)) \/
     (exists t, fs_fields (g_fieldset g) <> [] /\ all_present (g_fieldset g) (pm_data msg) /\
        fieldset_text tz (g_fieldset g) (pm_data msg) t /\ v_value x = VString t /\ dotted path (v_path x))).

(** The fields a fieldset can mark as used. *)
Definition footprint (fs : fieldset) (k : Z) : Prop :=
  In k (map snd (fs_fields fs)) \/ keyed fs (str "date") k \/ keyed fs (str "time") k.
(** Groups for a PGN that do not get in each other's way: a group names a field or has a
    fieldset, not both, and no field named by a group belongs to a fieldset of the PGN. *)
Definition separate (rpt : Z) (gs : list (bytes * group)) : Prop :=
  forall path g path' g', In (path, g) gs -> In (path', g') gs -> fs_fields (g_fieldset g) <> [] ->
    (forall k, ~ int_text (g_field g) k) /\
    (forall k, names_field rpt g' k -> ~ footprint (g_fieldset g) k).
