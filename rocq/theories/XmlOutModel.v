(** XmlOutModel: the definitions as XML: MessageDetailsHandler (/repo/main/api_server.go:131-144)
    with xml.Marshal (encoding/xml of go 1.13, marshal.go) on Pgn and Field
    (/repo/nmea2k/pgn_array.go:58-77) and PgnLookup.MarshalXML (pgn_array.go:94-97).

    Simplification: the buffer of the encoder is left out: Marshal gives the whole text, or
    nothing if there was an error anywhere. *)
From Coq Require Import Floats.SpecFloat.
From Verif Require Import GoBase Strconv NmeaTypes NmeaModel ApiModel FtoaModel JsonModel UnjsonModel XmlModel DetailsModel.
Open Scope Z_scope.
Open Scope list_scope.

(** printer.EscapeString, xml.go: what a character becomes; None: it stays. *)
Definition xml_char_ref (c : Z) : option bytes :=
  if c =? 34 then Some (str "&#34;") else if c =? 39 then Some (str "&#39;") else if c =? 38 then Some (str "&amp;")
  else if c =? 60 then Some (str "&lt;") else if c =? 62 then Some (str "&gt;")
  else if c =? 9 then Some (str "&#x9;") else if c =? 10 then Some (str "&#xA;") else if c =? 13 then Some (str "&#xD;")
  else if in_char_range c then None else Some replacement.
(** Its loop; [skip] are the bytes of the present character still to come.  A byte that starts no
    character is replaced. *)
Fixpoint xml_escape (skip : nat) (s : bytes) : bytes :=
  match s with
  | [] => []
  | _ :: r =>
      match skip with
      | S k => xml_escape k r
      | O => match decode_rune s with
             | None => replacement ++ xml_escape O r
             | Some (c, n) => (match xml_char_ref c with Some e => e | None => firstn n s end) ++ xml_escape (n - 1) r
             end
      end
  end.
(** writeStart and writeEnd, marshal.go, without attributes. *)
Definition in_tag (name : string) (b : bytes) : bytes := [60] ++ str name ++ [62] ++ b ++ [60; 47] ++ str name ++ [62].
(** strconv.FormatFloat(x, 'g', -1, 64), strconv/ftoa.go (marshalSimple, marshal.go). *)
Definition float_g (x : spec_float) : bytes :=
  match x with
  | S754_nan => str "NaN"
  | S754_infinity s => if s then str "-Inf" else str "+Inf"
  | S754_zero s => (if s then [45] else []) ++ [48]
  | S754_finite s m e =>
      let '(ds, dp) := shortest 53 1024 m e in
      (if s then [45] else []) ++ (if (dp - 1 <? -4) || (6 <=? dp - 1) then fmt_e ds dp else fmt_f ds dp)
  end.
(** marshalSimple, marshal.go. *)
Definition xml_text_of (s : string) : bytes := xml_escape O (str s).
Definition xml_bool (b : bool) : bytes := if b then str "true" else str "false".
(** Units, an interface{}: nil is left out (marshalValue, marshal.go); MarshalXML of PgnLookup
    writes nothing (pgn_array.go:95-97); None: a map, which is an error. *)
Definition xml_units (u : units) : option bytes :=
  match u with
  | UNil => Some []
  | UStr s => Some (in_tag "Units" (xml_text_of s))
  | UInt n => Some (in_tag "Units" (itoa n))
  | ULookup _ => Some []
  | USubLookup _ => None
  end.
(** Field, pgn_array.go:58-67 (marshalStruct, marshal.go); [tx] is its Description and
    SignalkPath.  An element of a slice has the name of the slice's field. *)
Definition xml_field (f : field) (tx : string * string) : option bytes :=
  match xml_units (f_units f) with
  | Some u =>
      Some (in_tag "FieldList"
        (in_tag "Name" (xml_text_of (f_name f)) ++ in_tag "Size" (itoa (f_size f)) ++ in_tag "Resolution" (float_g (res_f64 (f_res f))) ++
         in_tag "Signed" (xml_bool (f_signed f)) ++ u ++ in_tag "Description" (xml_text_of (fst tx)) ++
         in_tag "SignalkPath" (xml_text_of (snd tx)) ++ in_tag "Offset" (itoa (f_offset f))))
  | None => None
  end.
Fixpoint xml_fields (fs : list field) (tx : list (string * string)) : option bytes :=
  match fs, tx with
  | f :: fs', x :: tx' =>
      match xml_field f x, xml_fields fs' tx' with Some a, Some b => Some (a ++ b) | _, _ => None end
  | _, _ => Some []
  end.
(** Pgn, pgn_array.go:69-77. *)
Definition xml_def (p : pgn_def) (tx : list (string * string)) : option bytes :=
  match xml_fields (p_fields p) tx with
  | Some fs =>
      Some (in_tag "Pgn"
        (in_tag "Description" (xml_text_of (p_desc p)) ++ in_tag "Category" (xml_text_of (p_cat p)) ++ in_tag "Pgn" (itoa (p_pgn p)) ++
         in_tag "IsKnown" (xml_bool (p_known p)) ++ in_tag "Size" (itoa (p_size p)) ++ in_tag "RepeatingFields" (itoa (p_rep p)) ++ fs))
  | None => None
  end.
(** api_server.go:131-144 for XML: the body of the page with entry i, empty if Marshal failed. *)
Definition details_xml (t : list pgn_def) (texts : list (list (string * string))) (i : Z) : bytes :=
  match zget t i, zget texts i with
  | Some p, Some tx => match xml_def p tx with Some b => b | None => [] end
  | _, _ => []
  end.
(** The body of the answer to GET /api/messages/key (api_server.go:114-145), None if the handler
    panics; [ord i] is the order of the maps of entry i. *)
Definition details_body (ord : Z -> Z -> Z -> lookup -> lookup) (t : list pgn_def) (texts : list (list (string * string))) (key : bytes) : option bytes :=
  match MessageDetails t key with
  | Ret (DJson i) => Some match details_json (ord i) t texts i with Some b => b | None => [] end
  | Ret (DXml i) => Some (details_xml t texts i)
  | Ret DNone => Some []
  | _ => None
  end.
