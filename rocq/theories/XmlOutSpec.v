(** XmlOutSpec: what the definitions mean as XML (C110), in terms of the elements of XmlSpec. *)
From Coq Require Import Reals.
From Verif Require Import GoBase NmeaTypes NmeaSpec JsonSpec XmlModel XmlSpec DetailsSpec.
Open Scope Z_scope.
Open Scope list_scope.

(** The text t shows the bytes s: character by character, with U+FFFD for bytes that are no
    character and for characters that XML does not have. *)
Definition kept (c d : Z) : Prop := xml_char c /\ d = c \/ ~ xml_char c /\ d = 65533.
Definition shows (s t : bytes) : Prop := exists cs ds, reads s cs /\ Forall2 kept cs ds /\ utf8_text t ds.
(** A whole number in decimal. *)
Definition whole (n : Z) (t : bytes) : Prop := (0 <= n /\ numeral n t) \/ (n < 0 /\ exists r, t = 45 :: r /\ numeral (- n) r).
(** The size of a decimal number: 10^x is the weight of its first digit. *)
Definition weighs (m e x : Z) : Prop := (powerRZ 10 x <= Rabs (ten_to m e) < powerRZ 10 (x + 1))%R.
(** A text of a resolution: a decimal number that a reader rounds to the very float, written with
    an exponent exactly if it is below 0.0001 or at least 1000000. *)
Definition resolution_shown (r : resolution) (t : bytes) : Prop :=
  exists m e, number_text t m e /\ nearest64 (ten_to m e) = nearest64 (resolution_value r) /\
    (m = 0 /\ ~ In 101 t \/ exists x, weighs m e x /\ (In 101 t <-> x < -4 \/ 6 <= x)).
Definition truth (b : bool) (t : bytes) : Prop := t = if b then str "true" else str "false".

(** An element with a text and nothing else. *)
Definition leaf (n : string) (P : bytes -> Prop) (x : xe) : Prop := exists t, P t /\ x = XE (str n) [] t [].
(** Of the units only texts and numbers are shown; lookup tables are not. *)
Definition units_shown (u : units) (ks : list xe) : Prop :=
  match u with
  | UNil | ULookup _ => ks = []
  | UStr s => exists x, leaf "Units" (shows (str s)) x /\ ks = [x]
  | UInt n => exists x, leaf "Units" (whole n) x /\ ks = [x]
  | USubLookup _ => False
  end.
Definition field_shown (f : field) (tx : string * string) (x : xe) : Prop :=
  exists ks us ks', x = XE (str "FieldList") [] [] (ks ++ us ++ ks') /\ units_shown (f_units f) us /\
    Forall2 (fun P k => P k)
      [leaf "Name" (shows (str (f_name f))); leaf "Size" (whole (f_size f)); leaf "Resolution" (resolution_shown (f_res f)); leaf "Signed" (truth (f_signed f))] ks /\
    Forall2 (fun P k => P k)
      [leaf "Description" (shows (str (fst tx))); leaf "SignalkPath" (shows (str (snd tx))); leaf "Offset" (whole (f_offset f))] ks'.
Definition definition_shown (p : pgn_def) (tx : list (string * string)) (x : xe) : Prop :=
  exists ks fs, x = XE (str "Pgn") [] [] (ks ++ fs) /\
    Forall2 (fun P k => P k)
      [leaf "Description" (shows (str (p_desc p))); leaf "Category" (shows (str (p_cat p))); leaf "Pgn" (whole (p_pgn p));
       leaf "IsKnown" (truth (p_known p)); leaf "Size" (whole (p_size p)); leaf "RepeatingFields" (whole (p_rep p))] ks /\
    Forall2 (fun ft k => field_shown (fst ft) (snd ft) k) (combine (p_fields p) tx) fs.
(** Definitions that differ in nothing but the tables of their lookups. *)
Definition same_but_tables (f g : field) : Prop :=
  f_name f = f_name g /\ f_size f = f_size g /\ f_res f = f_res g /\ f_signed f = f_signed g /\ f_offset f = f_offset g /\
  (f_units f = f_units g \/ exists l l', f_units f = ULookup l /\ f_units g = ULookup l').
