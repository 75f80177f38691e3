(** XmlSpec: XML texts (XML 1.0, Namespaces in XML), what the program takes as an XML text, and
    what a mapping file says (C100, C101).  Relations on the bytes, independent of the reader.

    Liberties of the program, all visible below: white space between attributes may be missing,
    attributes may be repeated, comments and instructions may hold any bytes, a directive
    (<!DOCTYPE ...>) is skipped, text may stand before the root element, anything may stand
    after it, and a reference to a surrogate is U+FFFD. *)
From Verif Require Import GoBase NmeaTypes NmeaModel NmeaSpec SignalkModel SignalkSpec JsonSpec XmlModel.
Open Scope Z_scope.
Open Scope list_scope.

Notation decimal := NmeaSpec.decimal.

(** Byte strings. *)
Definition occurs (p s : bytes) : Prop := exists a b, s = a ++ p ++ b.
(** p occurs in s = a ++ p ++ b for the first time after a. *)
Definition first_at (p a b s : bytes) : Prop := s = a ++ p ++ b /\ forall a' b', s = a' ++ p ++ b' -> (List.length a <= List.length a')%nat.

(* ------------------------------------------------------------------ characters, text *)

(** Char (section 2.2). *)
Definition xml_char (c : Z) : Prop :=
  c = 9 \/ c = 10 \/ c = 13 \/ 32 <= c <= 55295 \/ 57344 <= c <= 65533 \/ 65536 <= c <= 1114111.
Definition xml_text (d : bytes) : Prop := exists cs, utf8_text d cs /\ Forall xml_char cs.
Definition blank (c : Z) : Prop := In c [32; 9; 10; 13].
Definition spaces (w : bytes) : Prop := Forall blank w.

(** A number written in base 10 or 16, with any leading zeros. *)
Inductive number_in (base : Z) : bytes -> Z -> Prop :=
| ni_first c v : hex_value c v -> v < base -> number_in base [c] v
| ni_next ds n c v : number_in base ds n -> hex_value c v -> v < base -> number_in base (ds ++ [c]) (n * base + v).
(** References (sections 4.1 and 4.6) and the text they stand for. *)
Inductive ref_text : bytes -> bytes -> Prop :=
| rt_name n c : In (n, c) [(str "lt", 60); (str "gt", 62); (str "amp", 38); (str "apos", 39); (str "quot", 34)] ->
    ref_text (str "&" ++ n ++ str ";") [c]
| rt_dec ds n enc : number_in 10 ds n -> utf8 n enc -> ref_text (str "&#" ++ ds ++ str ";") enc
| rt_hex ds n enc : number_in 16 ds n -> utf8 n enc -> ref_text (str "&#x" ++ ds ++ str ";") enc
| rt_dec_surrogate ds n enc : number_in 10 ds n -> 55296 <= n < 57344 -> utf8 65533 enc -> ref_text (str "&#" ++ ds ++ str ";") enc
| rt_hex_surrogate ds n enc : number_in 16 ds n -> 55296 <= n < 57344 -> utf8 65533 enc -> ref_text (str "&#x" ++ ds ++ str ";") enc.
(** Text with references resolved and line ends rewritten to LF (section 2.11); [stop] are the
    bytes that end it.  [cd] is the text of a CDATA section, without references. *)
Inductive run (cd : bool) (stop : Z -> Prop) : bytes -> bytes -> Prop :=
| rn_end : run cd stop [] []
| rn_byte c r t : ~ stop c -> c <> 13 -> (cd = true \/ c <> 38) -> run cd stop r t -> run cd stop (c :: r) (c :: t)
| rn_crlf r t : ~ stop 13 -> run cd stop r t -> run cd stop (13 :: 10 :: r) (10 :: t)
| rn_cr r t : ~ stop 13 -> (forall q, r <> 10 :: q) -> run cd stop r t -> run cd stop (13 :: r) (10 :: t)
| rn_ref s u r t : cd = false -> ref_text s u -> run cd stop r t -> run cd stop (s ++ r) (u ++ t).
(** Character data between tags, an attribute value in quotes, a CDATA section. *)
Definition chunk (s d : bytes) : Prop := run false (fun c => c = 60) s d /\ xml_text d /\ ~ occurs (str "]]>") s.
Definition attr_value (s d : bytes) : Prop :=
  exists q b, (q = 34 \/ q = 39) /\ s = [q] ++ b ++ [q] /\ run false (fun c => c = 60 \/ c = q) b d /\ xml_text d /\ ~ occurs (str "]]>") b.
Definition cdata_section (s d : bytes) : Prop :=
  exists b, s = str "<![CDATA[" ++ b ++ str "]]>" /\ first_at (str "]]>") b [] (b ++ str "]]>") /\ run true (fun _ => False) b d /\ xml_text d.

(* ------------------------------------------------------------------ names, tags *)

Definition letter (c : Z) : Prop := 65 <= c <= 90 \/ 97 <= c <= 122 \/ c = 95 \/ c = 58.
Definition name_char (c : Z) : Prop := letter c \/ 48 <= c <= 57 \/ c = 46 \/ c = 45 \/ 128 <= c.
(** Names in ASCII; [wide] decides about the others. *)
Definition name_text (wide : bytes -> bool) (n : bytes) : Prop :=
  Forall name_char n /\
  ((Forall (fun c => c < 128) n /\ exists c r, n = c :: r /\ letter c) \/ (~ Forall (fun c => c < 128) n /\ wide n = true)).
(** Prefix and local name, split at the first colon. *)
Definition splits (n : bytes) (q : bytes * bytes) : Prop :=
  (n = fst q ++ [58] ++ snd q /\ ~ In 58 (fst q)) \/ (~ In 58 n /\ q = ([], n)).
(** What follows a name in a tag. *)
Definition not_name (s : bytes) : Prop := exists c r, s = c :: r /\ ~ name_char c.

(** The attributes of a tag, up to the end of the tag. *)
Inductive attr_list (wide : bytes -> bool) : bytes -> list ((bytes * bytes) * bytes) -> Prop :=
| al_end w : spaces w -> attr_list wide w []
| al_attr w n q w1 w2 s v r l : spaces w -> name_text wide n -> splits n q -> spaces w1 -> spaces w2 -> attr_value s v ->
    attr_list wide r l -> attr_list wide (w ++ n ++ w1 ++ [61] ++ w2 ++ s ++ r) ((q, v) :: l).
Definition start_tag (wide : bytes -> bool) (s : bytes) (q : bytes * bytes) (l : list ((bytes * bytes) * bytes)) (empty : bool) : Prop :=
  exists n a, s = [60] ++ n ++ a ++ (if empty then str "/>" else str ">") /\ name_text wide n /\ splits n q /\ attr_list wide a l /\
    not_name (a ++ [62]).
Definition end_tag (wide : bytes -> bool) (s : bytes) (q : bytes * bytes) : Prop :=
  exists n w, s = str "</" ++ n ++ w ++ [62] /\ name_text wide n /\ splits n q /\ spaces w.

(** Comments, instructions and directives, which say nothing. *)
Definition comment_text (s : bytes) : Prop :=
  exists b, s = str "<!--" ++ b ++ str "-->" /\ first_at (str "--") b [] (b ++ str "--").
(** The value of version= or encoding= in an XML declaration. *)
Definition declares (p d v : bytes) : Prop :=
  exists a q b, (q = 34 \/ q = 39) /\ first_at (p ++ [61]) a ([q] ++ v ++ [q] ++ b) d /\ ~ In q v.
Definition same_letters (a b : bytes) : Prop := Forall2 (fun x y => x = y \/ (65 <= x <= 90 /\ y = x + 32)) a b.
Definition instruction_text (wide : bytes -> bool) (s : bytes) : Prop :=
  exists n w d, s = str "<?" ++ n ++ w ++ d ++ str "?>" /\ name_text wide n /\ spaces w /\ not_name (w ++ d ++ str "?>") /\
    first_at (str "?>") d [] (d ++ str "?>") /\ (forall c r, d = c :: r -> ~ blank c) /\
    (n = str "xml" -> (forall v, declares (str "version") d v -> v = [] \/ v = str "1.0") /\
                      (forall v, declares (str "encoding") d v -> v = [] \/ same_letters v (str "utf-8"))).
(** The inside of a directive after its first byte, [k] brackets deep. *)
Inductive directive_body : nat -> bytes -> Prop :=
| db_end : directive_body 0 [62]
| db_close k r : directive_body k r -> directive_body (S k) (62 :: r)
| db_open k r : (forall q, r <> str "!--" ++ q) -> directive_body (S k) r -> directive_body k (60 :: r)
| db_comment k c r : first_at (str "-->") c r (c ++ str "-->" ++ r) -> directive_body k r -> directive_body k (str "<!--" ++ c ++ str "-->" ++ r)
| db_quote k q b r : q = 34 \/ q = 39 -> ~ In q b -> directive_body k r -> directive_body k ([q] ++ b ++ [q] ++ r)
| db_byte k c r : ~ In c [60; 62; 34; 39] -> directive_body k r -> directive_body k (c :: r).
Definition directive_text (s : bytes) : Prop := exists c r, s = str "<!" ++ c :: r /\ c <> 45 /\ c <> 91 /\ directive_body 0 r.
Definition silent (wide : bytes -> bool) (s : bytes) : Prop := comment_text s \/ instruction_text wide s \/ directive_text s.

(* ------------------------------------------------------------------ elements *)

(** The meaning of a prefixed name where the declarations ds (in order) are in force: the last
    declaration of its prefix counts. *)
Definition declaration (a : (bytes * bytes) * bytes) (p u : bytes) : Prop :=
  u = snd a /\ (fst a = (str "xmlns", p) \/ fst a = ([], str "xmlns") /\ p = []).
Definition in_force (ds : list ((bytes * bytes) * bytes)) (p u : bytes) : Prop :=
  exists x a y, ds = x ++ a :: y /\ declaration a p u /\ forall b v, In b y -> ~ declaration b p v.
Definition undeclared (ds : list ((bytes * bytes) * bytes)) (p : bytes) : Prop := forall a u, In a ds -> ~ declaration a p u.
Definition expands (ds : list ((bytes * bytes) * bytes)) (q : bytes * bytes) (r : bytes * bytes) : Prop :=
  snd r = snd q /\
  ((fst q = str "xmlns" \/ q = ([], str "xmlns")) /\ r = q \/
   fst q <> str "xmlns" /\ q <> ([], str "xmlns") /\
   exists p, (fst q = str "xml" /\ p = str "http://www.w3.org/XML/1998/namespace" \/ fst q <> str "xml" /\ p = fst q) /\
     (in_force ds p (fst r) \/ undeclared ds p /\ fst r = p)).

(** [element ds s x]: the text s is the element x where the declarations ds are in force. *)
Inductive element (wide : bytes -> bool) : list ((bytes * bytes) * bytes) -> bytes -> xe -> Prop :=
| el_empty ds s q l : start_tag wide s q l true -> element wide ds s (XE (snd q) (local_attrs l) [] [])
| el_full ds a b c q q' l t k r : start_tag wide a q l false -> inner wide (ds ++ l) b t k -> end_tag wide c q' ->
    expands (ds ++ l) q r -> expands (ds ++ l) q' r -> element wide ds (a ++ b ++ c) (XE (snd q) (local_attrs l) t k)
(** [inner ds s t k]: the content s of an element has the text t and the child elements k. *)
with inner (wide : bytes -> bool) : list ((bytes * bytes) * bytes) -> bytes -> bytes -> list xe -> Prop :=
| in_chunk ds s d : chunk s d -> inner wide ds s d []
| in_silent ds s d m r t k : chunk s d -> silent wide m -> inner wide ds r t k -> inner wide ds (s ++ m ++ r) (d ++ t) k
| in_cdata ds s d m d' r t k : chunk s d -> cdata_section m d' -> inner wide ds r t k -> inner wide ds (s ++ m ++ r) (d ++ d' ++ t) k
| in_element ds s d m x r t k : chunk s d -> element wide ds m x -> inner wide ds r t k -> inner wide ds (s ++ m ++ r) (d ++ t) (x :: k).
(** A document with root x: text and silent markup, the element, anything. *)
Inductive prolog (wide : bytes -> bool) : bytes -> Prop :=
| pr_chunk s d : chunk s d -> prolog wide s
| pr_silent s d m r : chunk s d -> silent wide m -> prolog wide r -> prolog wide (s ++ m ++ r)
| pr_cdata s d m d' r : chunk s d -> cdata_section m d' -> prolog wide r -> prolog wide (s ++ m ++ r).
Definition xml_document (wide : bytes -> bool) (s : bytes) (x : xe) : Prop :=
  exists p e r, s = p ++ e ++ r /\ prolog wide p /\ element wide [] e x.

(* ------------------------------------------------------------------ mapping files *)

(** The children called n. *)
Definition called (n : bytes) (ks : list xe) : list xe := filter (fun k => bytes_eqb (x_name k) n) ks.
(** The text of the last child called n; no text if there is none. *)
Definition last_text (n : bytes) (ks : list xe) (t : bytes) : Prop :=
  (exists a k, called n ks = a ++ [k] /\ t = x_text k) \/ (called n ks = [] /\ t = []).
(** The value of the last attribute type, or v0. *)
Definition last_type (l : list (bytes * bytes)) (v0 v : bytes) : Prop :=
  (exists a b, l = a ++ (str "type", v) :: b /\ ~ In (str "type") (map fst b)) \/ (~ In (str "type") (map fst l) /\ v = v0).
(** White_Space (Unicode). *)
Definition white (c : Z) : Prop :=
  9 <= c <= 13 \/ c = 32 \/ c = 133 \/ c = 160 \/ c = 5760 \/ 8192 <= c <= 8202 \/ In c [8232; 8233; 8239; 8287; 12288].
Definition white_text (s : bytes) : Prop := exists cs, utf8_text s cs /\ Forall white cs.
(** A text that is a number in the range of the type: with white space around it, or empty. *)
Definition int_said (t : bytes) (n : Z) : Prop :=
  (t = [] /\ n = 0) \/ exists a d b, t = a ++ d ++ b /\ white_text a /\ white_text b /\ int_text d n /\ - 2 ^ 63 <= n < 2 ^ 63.
Definition pgn_said (t : bytes) (n : Z) : Prop :=
  (t = [] /\ n = 0) \/ exists a d b, t = a ++ d ++ b /\ white_text a /\ white_text b /\ decimal d n /\ n < 2 ^ 32.
(** The number in the last child called n, 0 if there is none; all of them must be numbers. *)
Definition last_number (said : bytes -> Z -> Prop) (n : bytes) (ks : list xe) (v : Z) : Prop :=
  (forall k, In k (called n ks) -> exists w, said (x_text k) w) /\
  ((exists a k, called n ks = a ++ [k] /\ said (x_text k) v) \/ (called n ks = [] /\ v = 0)).

Definition condition_says (k : xe) (c : condition) : Prop :=
  last_text (str "op") (x_kids k) (c_op c) /\ last_number int_said (str "field") (x_kids k) (c_field c) /\
  last_text (str "value") (x_kids k) (c_value c).
Definition idfield_says (ks : list xe) (i : idfield) : Prop := last_text (str "id") ks (i_id i) /\ last_text (str "field") ks (i_field i).
Definition field_says (k : xe) (f : bytes * Z) : Prop := last_type (x_attrs k) [] (fst f) /\ int_said (x_text k) (snd f).
(** Several elements of a kind that is wanted once count as one with the content of all. *)
Definition content_of (ks : list xe) : list xe := flat_map x_kids ks.
Definition attrs_of (ks : list xe) : list (bytes * bytes) := flat_map x_attrs ks.
Definition fieldset_says (ks : list xe) (f : fieldset) : Prop :=
  last_type (attrs_of ks) [] (fs_type f) /\ Forall2 field_says (called (str "field") (content_of ks)) (fs_fields f).
Definition group_says (k : xe) (g : group) : Prop :=
  last_number pgn_said (str "pgn") (x_kids k) (g_pgn g) /\ fieldset_says (called (str "fieldset") (x_kids k)) (g_fieldset g) /\
  last_text (str "field") (x_kids k) (g_field g) /\
  idfield_says (content_of (called (str "multiplier") (x_kids k))) (g_mult g) /\
  idfield_says (content_of (called (str "classifier") (x_kids k))) (g_class g) /\
  Forall2 condition_says (called (str "condition") (x_kids k)) (g_conds g).
Definition mapping_says (k : xe) (m : mapping) : Prop :=
  last_text (str "path") (x_kids k) (m_path m) /\ Forall2 group_says (called (str "parameter_group") (x_kids k)) (m_groups m).
Definition mappings_say (x : xe) (t : mappings) : Prop :=
  x_name x = str "mappings" /\ Forall2 mapping_says (called (str "mapping") (x_kids x)) t.
