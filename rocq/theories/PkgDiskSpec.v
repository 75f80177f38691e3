(** PkgDiskSpec: vocabulary for the theorems about the files of installed web apps (C106). *)
From Coq Require Import ZArith.
From Verif Require Import GoBase ApiSpec PackagesModel PackagesSpec UnjsonModel UnjsonSpec PkgDiskModel.
Open Scope Z_scope.
Open Scope list_scope.

(** File names as they can be in a directory, and files made of bytes. *)
Inductive disk_ok : disk -> Prop :=
| do_other : disk_ok DOther
| do_file t : (forall s, t = Some s -> bytes_ok s) -> disk_ok (DFile t)
| do_dir es : disk_all es -> disk_ok (DDir es)
with disk_all : list (bytes * disk) -> Prop :=
| da_nil : disk_all []
| da_cons k x r : file_name k -> ~ In k (map fst r) -> disk_ok x -> disk_all r -> disk_all ((k, x) :: r).

(** The type of a package.json. *)
Definition manifest_type : jtype := TRecord (texts [str "version"; str "name"; str "main"; str "_location"] ++ [(str "keywords", TList TText)]).
(** The arrays given for "keywords", in order, since null or [] was last given for it. *)
Inductive keyword_lists : list (bytes * gj) -> list (list gj) -> Prop :=
| kl_none : keyword_lists [] []
| kl_other ms l k g : keyword_lists ms l -> ~ reads_as k (str "keywords") -> keyword_lists (ms ++ [(k, g)]) l
| kl_reset ms l k g : keyword_lists ms l -> reads_as k (str "keywords") -> g = GNull \/ g = GArr [] -> keyword_lists (ms ++ [(k, g)]) []
| kl_array ms l k a : keyword_lists ms l -> reads_as k (str "keywords") -> a <> [] -> keyword_lists (ms ++ [(k, GArr a)]) (l ++ [a]).
(** Word i: the last text at this place of one of the arrays, else empty. *)
Definition word_at (l : list (list gj)) (i : nat) (w : bytes) : Prop :=
  (exists a x b, l = a ++ x :: b /\ nth_error x i = Some (GStr w) /\ forall y s, In y b -> nth_error y i <> Some (GStr s)) \/
  (w = [] /\ forall y s, In y l -> nth_error y i <> Some (GStr s)).
(** There are as many words as the last array has elements. *)
Definition words (l : list (list gj)) (ws : list bytes) : Prop :=
  (l = [] /\ ws = []) \/
  (exists l' a, l = l' ++ [a] /\ List.length ws = List.length a /\ forall i w, nth_error ws i = Some w -> word_at l i w).
(** What a package.json says of the package. *)
Definition manifest_says (ms : list (bytes * gj)) (p : package) : Prop :=
  fits manifest_type (GObj ms) /\
  says a_text ms (str "version") [] (pk_version p) /\ says a_text ms (str "name") [] (pk_name p) /\
  says a_text ms (str "_location") [] (pk_location p) /\
  exists l, keyword_lists ms l /\ words l (pk_keywords p).

(** Every directory of packages, and everything in it that is neither a scope nor .bin, has a
    package.json that can be read. *)
Definition has_manifest (es : list (bytes * disk)) : Prop := exists t, In (str "package.json", DFile (Some t)) es.
Definition level_readable (l : list (bytes * disk)) : Prop :=
  forall name es, In (name, DDir es) l -> scope_name name \/ name = str ".bin" \/ has_manifest es.
(** Below the entry there is, at this path, the directory es of a web app whose package.json
    says p. *)
Inductive app_dir (depth : nat) : bytes -> disk -> list bytes -> list (bytes * disk) -> package -> Prop :=
| ad_here name es t ms p : ~ scope_name name -> name <> str ".bin" ->
    In (str "package.json", DFile (Some t)) es -> lax_text depth t (GObj ms) -> manifest_says ms p -> In (str "signalk-webapp") (pk_keywords p) ->
    app_dir depth name (DDir es) [name] es p
| ad_scoped name es m x ks es' p : scope_name name -> level_readable es -> In (m, x) es -> app_dir depth m x ks es' p ->
    app_dir depth name (DDir es) (name :: ks) es' p.
Definition lacks_index (es : list (bytes * disk)) (b : bool) : Prop := b = true <-> ~ In (str "index.html") (map fst es).
