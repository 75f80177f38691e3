(** DetailsModel: the definitions as JSON: MessageDetailsHandler (/repo/main/api_server.go:131-144),
    the option -explain (/repo/main/argo.go:73-81), PgnLookup.MarshalJSON
    (/repo/nmea2k/pgn_array.go:81-92) and the dialog of the statistics page
    (/repo/assets/js/site.js:66-77). *)
From Verif Require Import GoBase Strconv NmeaTypes NmeaModel ApiModel FtoaModel JsonModel JsonSpec.
Open Scope Z_scope.
Open Scope list_scope.

(** PgnLookup.MarshalJSON, pgn_array.go:81-92: a list of objects, whose members encoding/json
    sorts; [l] is in the order in which range goes through the map.  (No entry: outVal is nil.) *)
Definition tree_lookup (l : lookup) : jt :=
  tslice (map (fun kv => TObj [(str "Name", ttext (str (snd kv))); (str "Value", tnum (fst kv))]) l).
(** Field.Units, an interface{}: a PgnSubLookup is a map with integer keys, which encoding/json
    writes in decimal and sorts as texts.  [ord k l] is the order in which range goes through the
    lookup l (k: its key in a PgnSubLookup, 0 otherwise). *)
Definition tree_units (ord : Z -> lookup -> lookup) (u : units) : jt :=
  match u with
  | UNil => TAtom (str "null")
  | UStr s => ttext (str s)
  | UInt n => tnum n
  | ULookup l => tree_lookup (ord 0 l)
  | USubLookup l => TObj (sort_members (map (fun kv => (itoa (fst kv), tree_lookup (ord (fst kv) (snd kv)))) l))
  end.
(** Field, pgn_array.go:58-67, by reflection; [tx] is its Description and SignalkPath.  None: a
    Resolution that JSON cannot write. *)
Definition tree_field (ord : Z -> lookup -> lookup) (f : field) (tx : string * string) : option jt :=
  match json_float 53 1024 (res_f64 (f_res f)) with
  | Some r =>
      Some (TObj [(str "Name", ttext (str (f_name f))); (str "Size", tnum (f_size f)); (str "Resolution", TAtom r);
                  (str "Signed", tbool (f_signed f)); (str "Units", tree_units ord (f_units f));
                  (str "Description", ttext (str (fst tx))); (str "SignalkPath", ttext (str (snd tx)));
                  (str "Offset", tnum (f_offset f))])
  | None => None
  end.
(** FieldList; [ord j] is the order for field j. *)
Fixpoint tree_fields (ord : Z -> Z -> lookup -> lookup) (j : Z) (fs : list field) (tx : list (string * string)) : list (option jt) :=
  match fs, tx with
  | f :: fs', x :: tx' => tree_field (ord j) f x :: tree_fields ord (j + 1) fs' tx'
  | _, _ => []
  end.
(** Pgn, pgn_array.go:69-77. *)
Definition tree_def (ord : Z -> Z -> lookup -> lookup) (p : pgn_def) (tx : list (string * string)) : option jt :=
  match all_some (tree_fields ord 0 (p_fields p) tx) with
  | Some fs =>
      Some (TObj [(str "Description", ttext (str (p_desc p))); (str "Category", ttext (str (p_cat p))); (str "Pgn", tnum (p_pgn p));
                  (str "IsKnown", tbool (p_known p)); (str "Size", tnum (p_size p)); (str "RepeatingFields", tnum (p_rep p));
                  (str "FieldList", tslice fs)])
  | None => None
  end.

(** api_server.go:131-144 for JSON: the page with entry i. *)
Definition details_json (ord : Z -> Z -> lookup -> lookup) (t : list pgn_def) (texts : list (list (string * string))) (i : Z) : option bytes :=
  match zget t i, zget texts i with
  | Some p, Some tx => match tree_def ord p tx with Some x => Some (indent O x) | None => None end
  | _, _ => None
  end.
(** argo.go:74-76: what -explain prints, with the newline of fmt.Println; [ord i] is the order
    for definition i. *)
Fixpoint tree_defs (ord : Z -> Z -> Z -> lookup -> lookup) (i : Z) (t : list pgn_def) (texts : list (list (string * string))) : list (option jt) :=
  match t, texts with
  | p :: t', x :: texts' => tree_def (ord i) p x :: tree_defs ord (i + 1) t' texts'
  | _, _ => []
  end.
Definition explain (ord : Z -> Z -> Z -> lookup -> lookup) (t : list pgn_def) (texts : list (list (string * string))) : option bytes :=
  match all_some (tree_defs ord 0 t texts) with
  | Some l => Some (indent O (tslice l) ++ [10])
  | None => None
  end.

(** data.x in JavaScript on parsed JSON: the last member of that name. *)
Fixpoint js_member (name : list Z) (ms : list (list Z * jv)) : option jv :=
  match ms with
  | [] => None
  | (k, v) :: r => match js_member name r with
                   | Some w => Some w
                   | None => if bytes_eqb k name then Some v else None
                   end
  end.
Definition js_get (name : list Z) (v : jv) : option jv :=
  match v with JObj ms => js_member name ms | _ => None end.
(** site.js:72-74: the markup appended for a field. *)
Definition field_item (x : jv) : option (list Z) :=
  match js_get (str "Name") x with
  | Some (JStr n) => Some (str "<li>" ++ n ++ str "</li>")
  | _ => None
  end.
(** showPgnData, site.js:66-77, after the page has been parsed: the texts put into the title and
    the two spans (jQuery's text, which escapes), and the markup appended per field. *)
Definition show_pgn_data (data : jv) : option (jv * jv * jv * list (list Z)) :=
  match js_get (str "Description") data, js_get (str "Pgn") data, js_get (str "Category") data, js_get (str "FieldList") data with
  | Some d, Some p, Some c, Some (JArr fs) =>
      match all_some (map field_item fs) with
      | Some items => Some (d, p, c, items)
      | None => None
      end
  | _, _, _, _ => None
  end.
