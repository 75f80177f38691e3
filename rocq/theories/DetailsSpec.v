(** DetailsSpec: what the definitions mean as JSON (C98). *)
From Coq Require Import Reals Permutation.
From Verif Require Import GoBase NmeaTypes NmeaSpec JsonSpec.
Open Scope Z_scope.
Open Scope list_scope.

(** A named value of a lookup table; a table, in any order. *)
Definition named_value (kv : Z * string) (v : jv) : Prop :=
  exists cs, reads (str (snd kv)) cs /\ v = JObj [(str "Name", JStr cs); (str "Value", JNum (fst kv) 0)].
Definition lookup_means (l : lookup) (v : jv) : Prop :=
  exists l' vs, Permutation l' l /\ Forall2 named_value l' vs /\ v = match l with [] => JNull | _ => JArr vs end.
Inductive units_means : units -> jv -> Prop :=
| um_nil : units_means UNil JNull
| um_text s cs : reads (str s) cs -> units_means (UStr s) (JStr cs)
| um_number n : units_means (UInt n) (JNum n 0)
| um_lookup l v : lookup_means l v -> units_means (ULookup l) v
| um_tables l l' ms : Permutation l' l ->
    Forall2 (fun kv m => numeral (fst kv) (fst m) /\ lookup_means (snd kv) (snd m)) l' ms -> units_means (USubLookup l) (JObj ms).
(** The value of a resolution: zero, a negative code, or a positive fraction. *)
Definition resolution_value (r : resolution) : R :=
  match r with RZero => 0 | RNeg k => IZR (- k) | RPos n d => IZR (Zpos n) / IZR (Zpos d) end%R.
Definition field_means (f : field) (tx : string * string) (v : jv) : Prop :=
  exists name m e u ds sk, reads (str (f_name f)) name /\ nearest64 (ten_to m e) = nearest64 (resolution_value (f_res f)) /\
    units_means (f_units f) u /\ reads (str (fst tx)) ds /\ reads (str (snd tx)) sk /\
    v = JObj [(str "Name", JStr name); (str "Size", JNum (f_size f) 0); (str "Resolution", JNum m e); (str "Signed", JBool (f_signed f));
              (str "Units", u); (str "Description", JStr ds); (str "SignalkPath", JStr sk); (str "Offset", JNum (f_offset f) 0)].
Definition definition_means (p : pgn_def) (tx : list (string * string)) (v : jv) : Prop :=
  exists ds cat fs, reads (str (p_desc p)) ds /\ reads (str (p_cat p)) cat /\
    Forall2 (fun ft w => field_means (fst ft) (snd ft) w) (combine (p_fields p) tx) fs /\
    v = JObj [(str "Description", JStr ds); (str "Category", JStr cat); (str "Pgn", JNum (p_pgn p) 0); (str "IsKnown", JBool (p_known p));
              (str "Size", JNum (p_size p) 0); (str "RepeatingFields", JNum (p_rep p) 0); (str "FieldList", JArr fs)].
(** Texts that browsers do not take for markup. *)
Definition no_markup (s : bytes) : Prop := Forall (fun c => c <> 38 /\ c <> 60 /\ c <> 62) s.
