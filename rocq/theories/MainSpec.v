(** MainSpec: vocabulary for the theorems about the consumer goroutine (C58, C59). *)
From Coq Require Import Sorting.Sorted.
From Verif Require Import GoBase Strconv CanModel NmeaTypes NmeaModel SignalkModel SignalkSpec MainModel.
Open Scope list_scope.

(** How many of the messages carry PGN p. *)
Definition occurrences (p : Z) (ms : list parsed) : Z :=
  zlen (filter (fun m => rm_pgn (pm_header m) =? p) ms).

(** A table of counters: one row per PGN seen, its decimal text and how often it was seen (as
    an unsigned 64-bit number), in the byte order of the texts. *)
Definition is_statistics (ms : list parsed) (rows : list (bytes * Z)) : Prop :=
  StronglySorted (fun a b => text_lt (fst a) (fst b)) rows /\
  forall k n, In (k, n) rows <-> exists p, k = itoa p /\ 0 < occurrences p ms /\ n = occurrences p ms mod 2 ^ 64.

(** The JSON text of such a table. *)
Definition separated (sep : bytes) (l : list bytes) : bytes :=
  match l with
  | [] => []
  | x :: r => x ++ flat_map (fun y => sep ++ y) r
  end.
Definition quoted (s : bytes) : bytes := str """" ++ s ++ str """".
Definition object_text (rows : list (bytes * Z)) : bytes :=
  str "{" ++ separated (str ",") (map (fun r => quoted (fst r) ++ str ":" ++ itoa (snd r)) rows) ++ str "}".

(** The consumer handles a list of messages (each with the order in which its fields are
    visited and the time), one after the other; the effects of each. *)
Fixpoint handle_all (step : consumer -> parsed -> visit -> outcome (consumer * list effect))
    (c : consumer) (ms : list (parsed * visit)) : outcome (consumer * list (list effect)) :=
  match ms with
  | [] => Ret (c, [])
  | (m, order) :: r =>
      match step c m order with
      | Ret (c', es) =>
          match handle_all step c' r with
          | Ret (c'', ess) => Ret (c'', es :: ess)
          | Err e => Err e | Panic p => Panic p
          end
      | Err e => Err e | Panic p => Panic p
      end
  end.

(** What is sent to the statistics clients and printed on the terminal. *)
Definition stats_sent (es : list effect) : list bytes :=
  flat_map (fun e => match e with EStats b => [b] | _ => [] end) es.
Definition screen (es : list effect) : list (bytes * Z) :=
  flat_map (fun e => match e with ELine k n => [(k, n)] | _ => [] end) es.
Definition clears (es : list effect) : nat :=
  List.length (filter (fun e => match e with EClear => true | _ => false end) es).
Definition displayed (es : list effect) : list parsed :=
  flat_map (fun e => match e with EShow m => [m] | _ => [] end) es.
(** Everything but the display. *)
Definition not_display (es : list effect) : list effect :=
  filter (fun e => match e with EShow _ => false | _ => true end) es.
Definition deltas_sent (es : list effect) : list bytes :=
  flat_map (fun e => match e with EDelta b => [b] | _ => [] end) es.
Definition published (es : list effect) : list bytes :=
  flat_map (fun e => match e with EMqtt b => [b] | _ => [] end) es.
