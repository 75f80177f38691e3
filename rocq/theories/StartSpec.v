(** StartSpec: vocabulary for the theorems about a start of the program (C104). *)
From Verif Require Import GoBase NmeaTypes SignalkModel ConfigModel ConfigSpec LogModel FlagsSpec TomlModel TomlSpec XmlModel XmlSpec StartModel.
Open Scope Z_scope.
Open Scope list_scope.

(** What the options on the command line ask for. *)
Definition asked (l : list setting) (s : switch) : Prop := last_given (switch_of s) l false = true.
Definition config_path (l : list setting) : bytes := last_given (text_of FlagsSpec.Config) l (str "argo.conf").
Definition log_text (upper : bytes -> bytes) (l : list setting) : bytes := to_upper upper (last_given (text_of Log) l []).

(** The value of an option when the program runs: the log level of the command line, else what
    the file gives unless that is false, 0 or empty, else the default, if there is one. *)
Definition file_silent (st : list stmt) (o : opt) : Prop :=
  (forall x, ~ sets st o x) \/ (exists x, sets st o x /\ unset (value_of x)).
Inductive value_in_force (upper : bytes -> bytes) (l : list setting) (st : list stmt) : opt -> ConfigSpec.value -> Prop :=
| vf_line : log_text upper l <> [] -> value_in_force upper l st LogLevel (VText (log_text upper l))
| vf_file o x : (o = LogLevel -> log_text upper l = []) -> sets st o x -> ~ unset (value_of x) ->
    value_in_force upper l st o (value_of x)
| vf_default o v : (o = LogLevel -> log_text upper l = []) -> file_silent st o -> default o v -> value_in_force upper l st o v
| vf_off o : file_silent st o -> (forall v, ~ default o v) -> value_in_force upper l st o (off (kind_of o)).

(** The file [name] is a mapping file that says [t]. *)
Definition loads (wide : bytes -> bool) (w : outside) (name : bytes) (t : mappings) : Prop :=
  exists data x, os_file w name = Some data /\ xml_document wide data x /\ mappings_say x t.

(** The command line says l, asks neither for help nor for the definitions, and names a
    configuration file with the statements st. *)
Record given (w : outside) (args : list bytes) (l : list setting) (st : list stmt) : Prop := mkgiven {
  gv_line : command_line args l;
  gv_help : ~ asked l Help;
  gv_explain : ~ asked l Explain;
  gv_file : exists text, os_file w (config_path l) = Some text /\ toml_text text st;
  gv_proper : proper st }.

(** Files hold bytes, devices deliver bytes. *)
Definition outside_ok (w : outside) : Prop :=
  (forall n d, os_file w n = Some d -> bytes_ok d) /\
  (forall p s ok out input b, os_device w p s = PipelineModel.DChar ok out input -> In (RByte b) input -> is_byte b) /\
  (forall l, Permutation.Permutation l (os_order w l)).
