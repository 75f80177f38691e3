(** LogSpec: vocabulary for the theorems about the log (C83, C84, C48). *)
From Verif Require Import GoBase Strconv CanModel NmeaTypes NmeaModel ApiSpec MainSpec ConfigModel ConfigSpec.
Open Scope Z_scope.
Open Scope list_scope.

(** The levels, from the least to the most talkative. *)
Inductive level := Critical | Error | Warning | Notice | Info | Debug.
Definition level_name (l : level) : bytes :=
  match l with
  | Critical => str "CRITICAL" | Error => str "ERROR" | Warning => str "WARNING" | Notice => str "NOTICE"
  | Info => str "INFO" | Debug => str "DEBUG"
  end.
(** A text that names a level, in any case. *)
Definition names (s : bytes) (l : level) : Prop := reads_as s (level_name l).
Definition no_level (s : bytes) : Prop := forall l, ~ names s l.

(** The text of the log level that is used: the option -log in upper case, else the one of the
    configuration file, else INFO. *)
Definition level_text (option_upper : bytes) (file : config) (s : bytes) : Prop :=
  (option_upper <> [] /\ s = option_upper) \/
  (option_upper = [] /\ cf_log file <> [] /\ s = cf_log file) \/
  (option_upper = [] /\ cf_log file = [] /\ s = str "INFO").

(** A byte in two lower-case hexadecimal digits. *)
Definition hex_value (c : Z) : Z := if c <? 58 then c - 48 else c - 87.
Definition lower_hex (c : Z) : Prop := 48 <= c <= 57 \/ 97 <= c <= 102.
Definition hex_byte (w : bytes) (b : Z) : Prop :=
  exists c d, w = [c; d] /\ lower_hex c /\ lower_hex d /\ b = 16 * hex_value c + hex_value d.
