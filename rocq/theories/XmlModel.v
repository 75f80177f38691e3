(** XmlModel: how the program reads its mapping file: signalk.ParseMappings
    (/repo/signalk/signalk.go:106-116) with Go's encoding/xml (go 1.13 per /repo/go.mod:
    xml.go, the decoder, and read.go, Unmarshal) on the bytes of the file, for the types and tags
    of /repo/signalk/signalk.go:33-82.

    Simplifications, once for the file:
    - the decoder is Strict and has no CharsetReader and no Entity map, as Unmarshal makes it;
    - the element tree is read first and stored in the types afterwards, where Go does both at
      once; either way an error anywhere in the root element is an error of Unmarshal, and
      /repo/main/argo.go:117-120 ends the program on every error;
    - of the tables of letters for names (xml.go, first and second) only the ASCII part is
      written down; whether a name with other bytes is a name is the parameter [wide], and
      theorems quantify over it;
    - sentences (signalk.go:58-61 and 76) are read and never used: they are left out of the
      result;
    - Go's stack limit for deeply nested elements is left out. *)
From Verif Require Import GoBase Strconv NmeaTypes NmeaModel SignalkModel JsonModel UnjsonModel.
Open Scope Z_scope.
Open Scope list_scope.

(* ------------------------------------------------------------------ characters *)

(** The characters of a text, None if it is not UTF-8 (utf8.DecodeRune in text, xml.go). *)
Fixpoint runes (fuel : nat) (s : bytes) : option (list Z) :=
  match fuel with
  | O => None
  | S f =>
      match s with
      | [] => Some []
      | _ :: _ =>
          match decode_rune s with
          | Some (c, n) => match runes f (skipn n s) with Some cs => Some (c :: cs) | None => None end
          | None => None
          end
      end
  end.
(** isInCharacterRange, xml.go. *)
Definition in_char_range (c : Z) : bool :=
  (c =? 9) || (c =? 10) || (c =? 13) || ((32 <=? c) && (c <=? 55295)) || ((57344 <=? c) && (c <=? 65533)) ||
  ((65536 <=? c) && (c <=? 1114111)).
(** The check at the end of text, xml.go. *)
Definition checked (d : bytes) : bool :=
  match runes (S (List.length d)) d with Some cs => forallb in_char_range cs | None => false end.

(** The first occurrence of pat in s: what is before and what is after it. *)
Fixpoint cut (pat s : bytes) : option (bytes * bytes) :=
  if has_prefix pat s then Some ([], skipn (List.length pat) s)
  else match s with
       | [] => None
       | c :: r => match cut pat r with Some (a, b) => Some (c :: a, b) | None => None end
       end.

(* ------------------------------------------------------------------ names *)

(** isNameByte, xml.go; readName also takes every byte that is not ASCII. *)
Definition name_byte (c : Z) : bool :=
  ((65 <=? c) && (c <=? 90)) || ((97 <=? c) && (c <=? 122)) || ((48 <=? c) && (c <=? 57)) ||
  (c =? 95) || (c =? 58) || (c =? 46) || (c =? 45) || (128 <=? c).
Fixpoint span_name (s : bytes) : bytes * bytes :=
  match s with
  | c :: r => if name_byte c then let '(n, r') := span_name r in (c :: n, r') else ([], s)
  | [] => ([], [])
  end.
(** isName, xml.go: the first character is a letter, an underscore or a colon. *)
Definition is_name (wide : bytes -> bool) (n : bytes) : bool :=
  if forallb (fun c => c <? 128) n then
    match n with
    | c :: _ => ((65 <=? c) && (c <=? 90)) || ((97 <=? c) && (c <=? 122)) || (c =? 95) || (c =? 58)
    | [] => false
    end
  else wide n.
(** name, xml.go: there must be a byte after the name. *)
Definition read_name (wide : bytes -> bool) (s : bytes) : option (bytes * bytes) :=
  let '(n, r) := span_name s in
  match r with [] => None | _ :: _ => if is_name wide n then Some (n, r) else None end.
(** nsname, xml.go: the name space and the local name. *)
Fixpoint split_colon (n : bytes) : option (bytes * bytes) :=
  match n with
  | [] => None
  | c :: r => if c =? 58 then Some ([], r) else match split_colon r with Some (a, b) => Some (c :: a, b) | None => None end
  end.
Notation qname := (bytes * bytes)%type.
Definition ns_name (n : bytes) : qname := match split_colon n with Some (a, b) => (a, b) | None => ([], n) end.

(* ------------------------------------------------------------------ text *)

(** A number in base 10 or 16: the digits at the start and their value (text, xml.go: the digits
    go to strconv.ParseUint, whose error and a value above unicode.MaxRune are both refused). *)
Fixpoint span_base (hex : bool) (s : bytes) : list Z * bytes :=
  match s with
  | c :: r =>
      match hexv c with
      | Some v => if (v <? 10) || hex then let '(d, r') := span_base hex r in (v :: d, r') else ([], s)
      | None => ([], s)
      end
  | [] => ([], [])
  end.
Definition base_value (hex : bool) (d : list Z) : Z := fold_left (fun a v => a * (if hex then 16 else 10) + v) d 0.
(** string(n): the character in UTF-8, U+FFFD for a surrogate. *)
Definition rune_text (n : Z) : bytes := if (55296 <=? n) && (n <? 57344) then replacement else encode_rune n.
(** The map entity, xml.go. *)
Definition entity (n : bytes) : option Z :=
  if bytes_eqb n (str "lt") then Some 60 else if bytes_eqb n (str "gt") then Some 62
  else if bytes_eqb n (str "amp") then Some 38 else if bytes_eqb n (str "apos") then Some 39
  else if bytes_eqb n (str "quot") then Some 34 else None.
(** A reference, after the ampersand (text, xml.go). *)
Definition reference (s : bytes) : option (bytes * bytes) :=
  match s with
  | c :: r =>
      if c =? 35 then
        let '(hex, r1) := match r with x :: r' => if x =? 120 then (true, r') else (false, r) | [] => (false, r) end in
        let '(d, r2) := span_base hex r1 in
        match r2 with
        | e :: r3 =>
            if e =? 59 then
              match d with [] => None | _ :: _ => if base_value hex d <=? 1114111 then Some (rune_text (base_value hex d), r3) else None end
            else None
        | [] => None
        end
      else
        let '(n, r1) := span_name s in
        match r1 with
        | e :: r2 => if e =? 59 then match entity n with Some x => Some ([x], r2) | None => None end else None
        | [] => None
        end
  | [] => None
  end.
(** The loop of text, xml.go, outside CDATA: up to "<" or the end of the text ([q] None), or up
    to the closing quote ([q] Some).  Where Go looks back at the last two bytes for "]]>" and
    for CR LF, this looks ahead. *)
Fixpoint text_loop (fuel : nat) (q : option Z) (s : bytes) : option (bytes * bytes) :=
  match fuel with
  | O => None
  | S f =>
      match s with
      | [] => match q with None => Some ([], []) | Some _ => None end
      | c :: r =>
          if has_prefix [93; 93; 62] s then None
          else if c =? 60 then match q with None => Some ([], s) | Some _ => None end
          else if match q with Some x => c =? x | None => false end then Some ([], r)
          else if c =? 38 then match reference r with Some (t, r') => prepend t (text_loop f q r') | None => None end
          else if c =? 13 then
            prepend [10] (text_loop f q match r with x :: r' => if x =? 10 then r' else r | [] => r end)
          else prepend [c] (text_loop f q r)
      end
  end.
Definition text_run (q : option Z) (s : bytes) : option (bytes * bytes) :=
  match text_loop (S (List.length s)) q s with
  | Some (d, r) => if checked d then Some (d, r) else None
  | None => None
  end.
(** text, xml.go, in CDATA: line ends are rewritten here too. *)
Fixpoint line_ends (after_cr : bool) (s : bytes) : bytes :=
  match s with
  | [] => []
  | c :: r => if c =? 13 then 10 :: line_ends true r
              else if (c =? 10) && after_cr then line_ends false r
              else c :: line_ends false r
  end.
Definition cdata (s : bytes) : option (bytes * bytes) :=
  match cut [93; 93; 62] s with
  | Some (d, r) => if checked (line_ends false d) then Some (line_ends false d, r) else None
  | None => None
  end.

(* ------------------------------------------------------------------ markup *)

(** procInst, xml.go: the quoted text after "param=". *)
Definition proc_inst (param s : bytes) : bytes :=
  match cut (param ++ [61]) s with
  | Some (_, q :: v) =>
      if (q =? 39) || (q =? 34) then match cut [q] v with Some (x, _) => x | None => [] end else []
  | _ => []
  end.
(** strings.EqualFold(enc, "utf-8"): none of its characters folds to one that is not ASCII. *)
Definition utf8_label (e : bytes) : bool :=
  bytes_eqb (map (fun c => if (65 <=? c) && (c <=? 90) then c + 32 else c) e) (str "utf-8").
(** The checks of <?xml ...?>, rawToken, xml.go. *)
Definition declaration_ok (d : bytes) : bool :=
  let v := proc_inst (str "version") d in let e := proc_inst (str "encoding") d in
  (match v with [] => true | _ => bytes_eqb v (str "1.0") end) && (match e with [] => true | _ => utf8_label e end).
(** A processing instruction, after "<?". *)
Definition instruction (wide : bytes -> bool) (s : bytes) : option bytes :=
  match read_name wide s with
  | Some (n, r) =>
      match cut [63; 62] (skip_ws r) with
      | Some (d, r2) => if bytes_eqb n (str "xml") && negb (declaration_ok d) then None else Some r2
      | None => None
      end
  | None => None
  end.
(** A comment, after "<!--". *)
Definition comment (s : bytes) : option bytes :=
  match cut [45; 45] s with Some (_, c :: r) => if c =? 62 then Some r else None | _ => None end.
(** A directive such as <!DOCTYPE ...>, after "<!" and the first byte, which is not looked at
    (rawToken, xml.go): brackets nest, but not in quotes or comments. *)
Inductive dir_state := DPlain | DQuote (q : Z) | DComment.
Fixpoint directive (fuel : nat) (st : dir_state) (depth : nat) (s : bytes) : option bytes :=
  match fuel with
  | O => None
  | S f =>
      match st with
      | DQuote q =>
          match s with c :: r => directive f (if c =? q then DPlain else DQuote q) depth r | [] => None end
      | DComment =>
          match cut [45; 45; 62] s with Some (_, r) => directive f DPlain depth r | None => None end
      | DPlain =>
          match s with
          | [] => None
          | c :: r =>
              if c =? 62 then match depth with O => Some r | S d => directive f DPlain d r end
              else if (c =? 39) || (c =? 34) then directive f (DQuote c) depth r
              else if c =? 60 then
                if has_prefix [33; 45; 45] r then directive f DComment depth (skipn 3 r) else directive f DPlain (S depth) r
              else directive f DPlain depth r
          end
      end
  end.
(** The attributes of a start tag and whether it is an empty element, up to ">" (rawToken,
    xml.go); no white space is wanted between attributes. *)
Fixpoint attributes (wide : bytes -> bool) (fuel : nat) (s : bytes) : option (list (qname * bytes) * bool * bytes) :=
  match fuel with
  | O => None
  | S f =>
      match skip_ws s with
      | [] => None
      | c :: r =>
          if c =? 47 then match r with x :: r' => if x =? 62 then Some ([], true, r') else None | [] => None end
          else if c =? 62 then Some ([], false, r)
          else match read_name wide (c :: r) with
               | Some (n, r1) =>
                   match skip_ws r1 with
                   | e :: r2 =>
                       if e =? 61 then
                         match skip_ws r2 with
                         | q :: r3 =>
                             if (q =? 34) || (q =? 39) then
                               match text_run (Some q) r3 with
                               | Some (v, r4) =>
                                   match attributes wide f r4 with
                                   | Some (l, b, r5) => Some ((ns_name n, v) :: l, b, r5)
                                   | None => None
                                   end
                               | None => None
                               end
                             else None
                         | [] => None
                         end
                       else None
                   | [] => None
                   end
               | None => None
               end
      end
  end.
(** rawToken, xml.go. *)
Inductive token := TChars (t : bytes) | TSkip | TStart (n : qname) (l : list (qname * bytes)) (empty : bool) | TEnd (n : qname).
Definition raw_token (wide : bytes -> bool) (s : bytes) : option (token * bytes) :=
  match s with
  | [] => None
  | c :: r =>
      if negb (c =? 60) then match text_run None s with Some (t, r') => Some (TChars t, r') | None => None end
      else match r with
      | [] => None
      | x :: r1 =>
          if x =? 47 then
            match read_name wide r1 with
            | Some (n, r2) => match skip_ws r2 with y :: r3 => if y =? 62 then Some (TEnd (ns_name n), r3) else None | [] => None end
            | None => None
            end
          else if x =? 63 then match instruction wide r1 with Some r2 => Some (TSkip, r2) | None => None end
          else if x =? 33 then
            match r1 with
            | [] => None
            | y :: r2 =>
                if y =? 45 then
                  match r2 with
                  | z :: r3 => if z =? 45 then match comment r3 with Some r4 => Some (TSkip, r4) | None => None end else None
                  | [] => None
                  end
                else if y =? 91 then
                  if has_prefix (str "CDATA[") r2 then
                    match cdata (skipn 6 r2) with Some (t, r3) => Some (TChars t, r3) | None => None end
                  else None
                else match directive (S (List.length r2)) DPlain 0 r2 with Some r3 => Some (TSkip, r3) | None => None end
            end
          else match read_name wide r with
               | Some (n, r2) =>
                   match attributes wide (S (List.length r2)) r2 with
                   | Some (l, b, r3) => Some (TStart (ns_name n) l b, r3)
                   | None => None
                   end
               | None => None
               end
      end
  end.

(* ------------------------------------------------------------------ elements *)

(** The name spaces in scope (Decoder.ns, xml.go): newest first. *)
Definition scope := list (bytes * bytes).
Fixpoint scope_get (e : scope) (k : bytes) : option bytes :=
  match e with [] => None | (a, v) :: r => if bytes_eqb a k then Some v else scope_get r k end.
(** Token, xml.go: the attributes xmlns and xmlns:p. *)
Definition declare (e : scope) (a : qname * bytes) : scope :=
  let '((sp, lo), v) := a in
  if bytes_eqb sp (str "xmlns") then (lo, v) :: e
  else if match sp with [] => bytes_eqb lo (str "xmlns") | _ :: _ => false end then ([], v) :: e
  else e.
(** translate, xml.go, for the name of an element. *)
Definition xml_url : bytes := str "http://www.w3.org/XML/1998/namespace".
Definition translate (e : scope) (n : qname) : qname :=
  let '(sp, lo) := n in
  if bytes_eqb sp (str "xmlns") then n
  else if bytes_eqb sp (str "xml") then (match scope_get e xml_url with Some v => v | None => xml_url end, lo)
  else if match sp with [] => bytes_eqb lo (str "xmlns") | _ :: _ => false end then n
  else match scope_get e sp with Some v => (v, lo) | None => n end.
Definition qname_eqb (a b : qname) : bool := bytes_eqb (fst a) (fst b) && bytes_eqb (snd a) (snd b).

(** An element as Unmarshal sees it: its local name, the local names and values of its
    attributes, its own text and its child elements. *)
Inductive xe := XE (name : bytes) (attrs : list (bytes * bytes)) (text : bytes) (kids : list xe).
Definition x_name (x : xe) : bytes := let 'XE n _ _ _ := x in n.
Definition x_attrs (x : xe) : list (bytes * bytes) := let 'XE _ a _ _ := x in a.
Definition x_text (x : xe) : bytes := let 'XE _ _ t _ := x in t.
Definition x_kids (x : xe) : list xe := let 'XE _ _ _ k := x in k.
Definition local_attrs (l : list (qname * bytes)) : list (bytes * bytes) := map (fun a => (snd (fst a), snd a)) l.

(** Token with pushElement and popElement (xml.go), driven by the loop of unmarshal and by Skip
    (read.go): the content of an element up to and including the next end tag of this level,
    which is returned. *)
Fixpoint content (wide : bytes -> bool) (fuel : nat) (e : scope) (s : bytes) : option (bytes * list xe * qname * bytes) :=
  match fuel with
  | O => None
  | S f =>
      match raw_token wide s with
      | None => None
      | Some (TEnd n, r) => Some ([], [], n, r)
      | Some (TSkip, r) => content wide f e r
      | Some (TChars t, r) => match content wide f e r with Some (t', k, n, r') => Some (t ++ t', k, n, r') | None => None end
      | Some (TStart n l b, r) =>
          let e' := fold_left declare l e in
          match (if b then Some (XE (snd n) (local_attrs l) [] [], r)
                 else match content wide f e' r with
                      | Some (t, k, m, r1) =>
                          if qname_eqb (translate e' n) (translate e' m) then Some (XE (snd n) (local_attrs l) t k, r1) else None
                      | None => None
                      end) with
          | Some (x, r1) => match content wide f e r1 with Some (t', k', m, r2) => Some (t', x :: k', m, r2) | None => None end
          | None => None
          end
      end
  end.
(** Unmarshal, read.go: the first element; what comes after it is not read. *)
Fixpoint document (wide : bytes -> bool) (fuel : nat) (s : bytes) : option xe :=
  match fuel with
  | O => None
  | S f =>
      match raw_token wide s with
      | None => None
      | Some (TEnd _, _) => None
      | Some (TSkip, r) | Some (TChars _, r) => document wide f r
      | Some (TStart n l b, r) =>
          let e' := fold_left declare l [] in
          if b then Some (XE (snd n) (local_attrs l) [] [])
          else match content wide f e' r with
               | Some (t, k, m, r1) => if qname_eqb (translate e' n) (translate e' m) then Some (XE (snd n) (local_attrs l) t k) else None
               | None => None
               end
      end
  end.
Definition read_document (wide : bytes -> bool) (s : bytes) : option xe := document wide (S (List.length s)) s.

(* ------------------------------------------------------------------ values *)

(** unicode.IsSpace. *)
Definition uni_space (c : Z) : bool :=
  ((9 <=? c) && (c <=? 13)) || (c =? 32) || (c =? 133) || (c =? 160) || (c =? 5760) || ((8192 <=? c) && (c <=? 8202)) ||
  (c =? 8232) || (c =? 8233) || (c =? 8239) || (c =? 8287) || (c =? 12288).
(** strings.TrimSpace, on the characters of the text (which text has checked to be UTF-8). *)
Fixpoint drop_space (cs : list Z) : list Z := match cs with c :: r => if uni_space c then drop_space r else cs | [] => [] end.
Definition trim_space (s : bytes) : bytes :=
  match runes (S (List.length s)) s with
  | Some cs => flat_map encode_rune (rev (drop_space (rev (drop_space cs))))
  | None => s
  end.
(** copyValue, read.go, for an int and for a uint32. *)
Definition copy_int (t : bytes) : option Z := match t with [] => Some 0 | _ :: _ => parse_int 64 (trim_space t) end.
Definition copy_uint32 (t : bytes) : option Z :=
  match t with [] => Some 0 | _ :: _ => match parse_uint 10 32 (trim_space t) with PUok n => Some n | _ => None end end.

(** unmarshal, read.go, for a struct: the attributes in order, then the elements in order, each
    into the field with its name; [put] stores an element and fails as unmarshal does. *)
Fixpoint store_all {A} (put : xe -> A -> option A) (ks : list xe) (x : A) : option A :=
  match ks with [] => Some x | k :: r => match put k x with Some y => store_all put r y | None => None end end.
Definition named (n : bytes) (k : xe) : bool := bytes_eqb (x_name k) n.

(** condition, signalk.go:33-37. *)
Definition put_condition (k : xe) (c : condition) : option condition :=
  if named (str "op") k then Some (mkcond (x_text k) (c_field c) (c_value c))
  else if named (str "field") k then match copy_int (x_text k) with Some n => Some (mkcond (c_op c) n (c_value c)) | None => None end
  else if named (str "value") k then Some (mkcond (c_op c) (c_field c) (x_text k))
  else Some c.
(** multiplier and classifier, signalk.go:63-71. *)
Definition put_idfield (k : xe) (c : idfield) : option idfield :=
  if named (str "id") k then Some (mkidf (x_text k) (i_field c))
  else if named (str "field") k then Some (mkidf (i_id c) (x_text k))
  else Some c.
(** The attribute type (signalk.go:40 and 45): the last one is kept. *)
Definition type_attr (l : list (bytes * bytes)) (v : bytes) : bytes :=
  fold_left (fun v a => if bytes_eqb (fst a) (str "type") then snd a else v) l v.
(** field and fieldset, signalk.go:39-47. *)
Definition put_fieldset (k : xe) (c : fieldset) : option fieldset :=
  if named (str "field") k then
    match copy_int (x_text k) with Some n => Some (mkfs (fs_type c) (fs_fields c ++ [(type_attr (x_attrs k) [], n)])) | None => None end
  else Some c.
(** parameterGroup, signalk.go:49-56. *)
Definition put_group (k : xe) (g : group) : option group :=
  if named (str "pgn") k then
    match copy_uint32 (x_text k) with Some n => Some (mkgroup n (g_fieldset g) (g_field g) (g_mult g) (g_class g) (g_conds g)) | None => None end
  else if named (str "fieldset") k then
    match store_all put_fieldset (x_kids k) (mkfs (type_attr (x_attrs k) (fs_type (g_fieldset g))) (fs_fields (g_fieldset g))) with
    | Some f => Some (mkgroup (g_pgn g) f (g_field g) (g_mult g) (g_class g) (g_conds g))
    | None => None
    end
  else if named (str "field") k then Some (mkgroup (g_pgn g) (g_fieldset g) (x_text k) (g_mult g) (g_class g) (g_conds g))
  else if named (str "multiplier") k then
    match store_all put_idfield (x_kids k) (g_mult g) with
    | Some m => Some (mkgroup (g_pgn g) (g_fieldset g) (g_field g) m (g_class g) (g_conds g))
    | None => None
    end
  else if named (str "classifier") k then
    match store_all put_idfield (x_kids k) (g_class g) with
    | Some m => Some (mkgroup (g_pgn g) (g_fieldset g) (g_field g) (g_mult g) m (g_conds g))
    | None => None
    end
  else if named (str "condition") k then
    match store_all put_condition (x_kids k) (mkcond [] 0 []) with
    | Some c => Some (mkgroup (g_pgn g) (g_fieldset g) (g_field g) (g_mult g) (g_class g) (g_conds g ++ [c]))
    | None => None
    end
  else Some g.
Definition no_group : group := mkgroup 0 (mkfs [] []) [] (mkidf [] []) (mkidf [] []) [].
(** mapping, signalk.go:73-77; texts of a sentence can always be stored. *)
Definition put_mapping (k : xe) (m : mapping) : option mapping :=
  if named (str "path") k then Some (mkmapping (x_text k) (m_groups m))
  else if named (str "parameter_group") k then
    match store_all put_group (x_kids k) no_group with
    | Some g => Some (mkmapping (m_path m) (m_groups m ++ [g]))
    | None => None
    end
  else Some m.
(** Mappings, signalk.go:79-82. *)
Definition put_mappings (k : xe) (l : mappings) : option mappings :=
  if named (str "mapping") k then
    match store_all put_mapping (x_kids k) (mkmapping [] []) with Some m => Some (l ++ [m]) | None => None end
  else Some l.
(** ParseMappings, signalk.go:106-116, on the bytes of the file; None is an error. *)
Definition parse_mappings (wide : bytes -> bool) (data : bytes) : option mappings :=
  match read_document wide data with
  | Some x => if named (str "mappings") x then store_all put_mappings (x_kids x) [] else None
  | None => None
  end.
