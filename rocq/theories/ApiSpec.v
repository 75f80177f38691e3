(** ApiSpec: vocabulary for the theorems about the HTTP interface (C63-C66, C76). *)
From Verif Require Import GoBase NmeaTypes StrconvFacts.
Open Scope list_scope.

(* ------------------------------------------------------------------ size classes *)

Inductive size_class := SingleFrame | FastPacket | MultiPacket | TooLarge.
Definition class_of (size : Z) (k : size_class) : Prop :=
  match k with
  | SingleFrame => size <= 8
  | FastPacket => 9 <= size <= 223
  | MultiPacket => 224 <= size <= 1785
  | TooLarge => 1786 <= size
  end.
Definition class_name (k : size_class) : string :=
  match k with
  | SingleFrame => "Single Frame"
  | FastPacket => "Fast Packet"
  | MultiPacket => "ISO 11783 Multi-Packet"
  | TooLarge => "Invalid"
  end%string.
Definition class_letter (k : size_class) : bytes :=
  match k with
  | SingleFrame => str "s" | FastPacket => str "f" | MultiPacket => str "i" | TooLarge => str "o"
  end.

(* ------------------------------------------------------------------ texts ignoring case *)

(** The lower case form of an ASCII character. *)
Definition lower (c : Z) : Z := if (65 <=? c) && (c <=? 90) then c + 32 else c.
Definition ascii_text (s : bytes) : Prop := Forall (fun c => 0 <= c < 128) s.

(** [s] reads as the ASCII text [t] apart from case.  Two letters have further forms outside
    ASCII: the Kelvin sign (UTF-8 E2 84 AA) for k and the long s (UTF-8 C5 BF) for s. *)
Inductive reads_as : bytes -> bytes -> Prop :=
| ra_nil : reads_as [] []
| ra_letter c d s t : 0 <= c < 128 -> lower c = lower d -> reads_as s t -> reads_as (c :: s) (d :: t)
| ra_kelvin d s t : lower d = 107 -> reads_as s t -> reads_as (226 :: 132 :: 170 :: s) (d :: t)
| ra_long_s d s t : lower d = 115 -> reads_as s t -> reads_as (197 :: 191 :: s) (d :: t).

(* ------------------------------------------------------------------ keys of details pages *)

(** [s] is a decimal integer, with an optional sign, of value [n]. *)
Definition decimal (s : bytes) (n : Z) : Prop :=
  exists sign ds, ds <> [] /\ Forall dec_char ds /\ s = sign ++ ds /\
    (sign = [] /\ n = dec_value ds \/ sign = str "+" /\ n = dec_value ds \/ sign = str "-" /\ n = - dec_value ds).
Definition clamp32 (n : Z) : Z := Z.max (- 2 ^ 31) (Z.min n (2 ^ 31 - 1)).

(** The number a key stands for: that of a decimal integer, limited to 32 bits.  A text that is
    no decimal integer stands for 0, unless it starts with a decimal integer of 2^32 or more
    (in absolute value), which already gives the limit. *)
Definition key_number (s : bytes) (v : Z) : Prop :=
  (exists n, decimal s n /\ v = clamp32 n) \/
  (~ (exists n, decimal s n)) /\
    ((exists p q n, s = p ++ q /\ decimal p n /\ 2 ^ 32 <= Z.abs n /\ v = clamp32 n) \/
     (~ (exists p q n, s = p ++ q /\ decimal p n /\ 2 ^ 32 <= Z.abs n)) /\ v = 0).

(** The part of a text before its first dot, and the part between the first and the second. *)
Definition before_dot (key head : bytes) : Prop :=
  ~ In 46 head /\ (key = head \/ exists r, key = head ++ 46 :: r).
Definition extension (key ext : bytes) : Prop :=
  (~ In 46 key /\ ext = []) \/
  exists head rest, ~ In 46 head /\ key = head ++ 46 :: rest /\ before_dot rest ext.

(** The entry has a field with a two-level lookup. *)
Definition two_level (p : pgn_def) : Prop := exists f m, In f (p_fields p) /\ f_units f = USubLookup m.

(** Entry k is the first one with this PGN; if there is none, entry 0. *)
Definition first_entry (t : list pgn_def) (pgn k : Z) : Prop :=
  (exists p, zget t k = Some p /\ p_pgn p = pgn /\ forall j q, j < k -> zget t j = Some q -> p_pgn q <> pgn) \/
  ((forall j q, zget t j = Some q -> p_pgn q <> pgn) /\ k = 0).
