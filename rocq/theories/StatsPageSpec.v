(** StatsPageSpec: vocabulary for the theorems about the table of statistics (C109). *)
From Coq Require Import ZArith.
From Verif Require Import GoBase Strconv CanModel NmeaTypes NmeaModel MainSpec JsonSpec.
Open Scope Z_scope.
Open Scope list_scope.

(** The table is about these messages: one row per PGN, with the number of messages of it. *)
Definition table_shows (ms : list parsed) (rows : list (bytes * bytes)) : Prop :=
  NoDup (map fst rows) /\
  forall k v, In (k, v) rows <-> exists p, k = itoa p /\ 0 < occurrences p ms /\ v = itoa (occurrences p ms).
(** JavaScript's text of whole numbers a double holds exactly. *)
Definition exact_texts (js_text : jv -> bytes) : Prop := forall n, 0 <= n <= 2 ^ 53 -> js_text (JNum n 0) = itoa n.
(** The numbers that are not among those seen, each the first time it comes. *)
Fixpoint fresh (seen ps : list Z) : list Z :=
  match ps with
  | [] => []
  | p :: r => if existsb (Z.eqb p) seen then fresh seen r else p :: fresh (p :: seen) r
  end.
Definition pgn_of (m : parsed) : Z := rm_pgn (pm_header m).
(** All PGNs are array indices in JavaScript (real ones have 18 bits). *)
Definition small (ms : list parsed) : Prop := Forall (fun m => 0 <= pgn_of m < 2 ^ 32 - 1) ms.
