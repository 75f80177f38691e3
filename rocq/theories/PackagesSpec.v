(** PackagesSpec: vocabulary for the theorems about installed web apps (C71). *)
From Verif Require Import GoBase PackagesModel.
Open Scope list_scope.

(** Names of directory entries: not empty, no slash, not . or .. *)
Definition file_name (n : bytes) : Prop := n <> [] /\ ~ In 47 n /\ n <> str "." /\ n <> str "..".
Inductive well_named : node -> Prop :=
| wn_other : well_named NOther
| wn_dir j x es : well_named_all es -> well_named (NDir j x es)
with well_named_all : list (bytes * node) -> Prop :=
| wa_nil : well_named_all []
| wa_cons k n r : file_name k -> ~ In k (map fst r) -> well_named n -> well_named_all r -> well_named_all ((k, n) :: r).

Definition scope_name (n : bytes) : Prop := exists r, n = 64 :: r.          (* @... *)

(** A directory in which every package directory has a package.json that can be read. *)
Definition level_ok (l : list (bytes * node)) : Prop :=
  forall name x es, In (name, NDir None x es) l -> scope_name name \/ name = str ".bin".

(** Below the entry there is a web app with this path (names from the entry on), package.json
    and (lack of an) index.html; scopes with an unreadable package.json do not count. *)
Inductive web_app : bytes -> node -> list bytes -> package -> bool -> Prop :=
| app_here name p x es : ~ scope_name name -> name <> str ".bin" -> In (str "signalk-webapp") (pk_keywords p) ->
    web_app name (NDir (Some (Some p)) x es) [name] p x
| app_scoped name j x es m n ks p y : scope_name name -> level_ok es -> In (m, n) es -> web_app m n ks p y ->
    web_app name (NDir j x es) (name :: ks) p y.

(** Names with slashes between them. *)
Fixpoint slashed (l : list bytes) : bytes :=
  match l with [] => [] | [x] => x | x :: r => x ++ 47 :: slashed r end.

(** A path in its shortest form: empty elements and . left out, .. left out together with the
    name before it, and .. left out at the top of an absolute path; what remains are names, in a
    relative path with some .. before them, or nothing, written / or . *)
Inductive shorter (abs : bool) : list bytes -> list bytes -> Prop :=
| sh_empty a b : shorter abs (a ++ [] :: b) (a ++ b)
| sh_dot a b : shorter abs (a ++ str "." :: b) (a ++ b)
| sh_back a x b : file_name x -> shorter abs (a ++ x :: str ".." :: b) (a ++ b)
| sh_top b : abs = true -> shorter abs (str ".." :: b) b.
Inductive shortened (abs : bool) : list bytes -> list bytes -> Prop :=
| sd_done l : shortened abs l l
| sd_step l m n : shorter abs l m -> shortened abs m n -> shortened abs l n.
Definition absolute (p : bytes) : Prop := exists r, p = 47 :: r.
Definition cleaned (p q : bytes) : Prop :=
  p = [] /\ q = str "." \/
  p <> [] /\ exists abs elems ups names, (abs = true <-> absolute p) /\
    p = slashed elems /\ elems <> [] /\ Forall (fun e => ~ In 47 e) elems /\
    shortened abs elems (repeat (str "..") ups ++ names) /\ Forall file_name names /\ (abs = true -> ups = O) /\
    (repeat (str "..") ups ++ names = [] /\ q = (if abs then str "/" else str ".") \/
     repeat (str "..") ups ++ names <> [] /\ q = (if abs then str "/" else []) ++ slashed (repeat (str "..") ups ++ names)).

(** What the list says of an app. *)
Definition shown_as (p : package) (no_index : bool) (e : package) : Prop :=
  pk_version e = pk_version p /\ pk_name e = pk_name p /\ pk_keywords e = pk_keywords p /\
  exists base, (pk_location p = [] /\ base = 47 :: pk_name p \/ pk_location p <> [] /\ base = pk_location p) /\
    if no_index then cleaned (base ++ str "/" ++ str "/public") (pk_location e) else pk_location e = base.
