(** AppsSpec: vocabulary for the theorems about the page of apps and its Install buttons (C108). *)
From Coq Require Import ZArith.
From Verif Require Import GoBase ApiSpec PackagesModel PackagesSpec JsonSpec UnjsonModel UnjsonSpec PkgDiskModel PkgDiskSpec HtmlModel HtmlSpec AppsModel.
Open Scope Z_scope.
Open Scope list_scope.

(** The type of the registry's answer. *)
Definition registry_type : jtype := TRecord [(str "Objects", TList (TRecord
  [(str "Package", TRecord (texts [str "Name"; str "Version"; str "Description"] ++
      [(str "Links", TRecord (texts [str "Npm"; str "Homepage"; str "Repository"])); (str "Author", TRecord (texts [str "Name"; str "Email"]))]));
   (str "Path", TText); (str "Version", TText)]))].
(** The arrays called n, in order, since null or [] was last given for it. *)
Inductive arrays (n : bytes) : list (bytes * gj) -> list (list gj) -> Prop :=
| ar_none : arrays n [] []
| ar_other ms l k g : arrays n ms l -> ~ reads_as k n -> arrays n (ms ++ [(k, g)]) l
| ar_reset ms l k g : arrays n ms l -> reads_as k n -> g = GNull \/ g = GArr [] -> arrays n (ms ++ [(k, g)]) []
| ar_array ms l k a : arrays n ms l -> reads_as k n -> a <> [] -> arrays n (ms ++ [(k, GArr a)]) (l ++ [a]).
(** The members of the objects at place i of these arrays, in order (of one array: of the object
    there; null has none). *)
Inductive place (i : nat) : list (list gj) -> list (bytes * gj) -> Prop :=
| pl_none : place i [] []
| pl_object l m a ms : place i l m -> nth_error a i = Some (GObj ms) -> place i (l ++ [a]) (m ++ ms)
| pl_other l m a : place i l m -> (forall ms, nth_error a i <> Some (GObj ms)) -> place i (l ++ [a]) m.
Definition object_says (ms : list (bytes * gj)) (o : reg_object) : Prop :=
  says a_text ms (str "Path") [] (ro_path o) /\ says a_text ms (str "Version") [] (ro_version o) /\
  exists p, inside (str "Package") ms p /\
    says a_text p (str "Name") [] (pa_name (ro_package o)) /\ says a_text p (str "Version") [] (pa_version (ro_package o)) /\
    says a_text p (str "Description") [] (pa_description (ro_package o)) /\
    (exists l, inside (str "Links") p l /\ says a_text l (str "Npm") [] (ln_npm (pa_links (ro_package o)))) /\
    (exists a, inside (str "Author") p a /\ says a_text a (str "Name") [] (au_name (pa_author (ro_package o)))).
(** The objects of the answer: as many as its last array has. *)
Definition registry_says (ms : list (bytes * gj)) (objects : list reg_object) : Prop :=
  exists l, arrays (str "Objects") ms l /\
    ((l = [] /\ objects = []) \/
     (exists l' a, l = l' ++ [a] /\ List.length objects = List.length a /\
        forall i o, nth_error objects i = Some o -> exists m, place i l m /\ object_says m o)).
Definition lists (d : nat) (body : bytes) (objects : list reg_object) : Prop :=
  exists g, starts_with d body g /\ fits registry_type g /\
    (g = GNull /\ objects = [] \/ exists ms, g = GObj ms /\ registry_says ms objects).

(** The app of this name is installed below node_modules, with this version and location. *)
Definition installed_app (d : nat) (root : option (list (bytes * disk))) (name version location : bytes) : Prop :=
  exists l dir x ks es p b e, root = Some l /\ level_readable l /\ In (dir, x) l /\ app_dir d dir x ks es p /\ lacks_index es b /\
    name = slashed ks /\ shown_as p b e /\ version = pk_version e /\ location = pk_location e.

(** The value of the first input with this name in a row. *)
Fixpoint row_input (name : bytes) (row : list token) : option bytes :=
  match row with
  | [] => None
  | Start n l :: r => match attribute (str "name") l with
                      | Some i => if bytes_eqb n (str "input") && bytes_eqb i name then attribute (str "value") l else row_input name r
                      | None => row_input name r
                      end
  | _ :: r => row_input name r
  end.
(** A text the page may send for name and version (JSON.stringify). *)
Definition request_text (t name version : bytes) : Prop :=
  bytes_ok t /\ exists cs vs, utf8_text name cs /\ utf8_text version vs /\ json t (JObj [(str "package", JStr cs); (str "version", JStr vs)]).
(** What the page sends when the button of a row is pressed (site.js:185-201). *)
Definition pressed (row : list token) (t : bytes) : Prop :=
  exists name version, row_input (str "name") row = Some name /\ row_input (str "version") row = Some version /\ request_text t name version.
(** Texts which pages keep: NUL becomes another character and CR another line break. *)
Definition kept_text (s : bytes) : Prop := ~ In 0 s /\ ~ In 13 s.
