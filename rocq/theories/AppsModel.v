(** AppsModel: the page of apps from the registry's answer, /repo/main/ui_server.go:43-68, 116-145,
    and what its Install buttons do, /repo/assets/js/site.js:185-202. *)
From Coq Require Import ZArith.
From Verif Require Import GoBase PackagesModel UnjsonModel PkgDiskModel HtmlModel.
Open Scope Z_scope.
Open Scope list_scope.

(* ------------------------------------------------------------------ slices of structures *)

(** A Go slice: its backing array and how much of it is in use (PkgDiskModel has the same for
    strings). *)
Record vec (T : Type) := mkvec { vec_slots : list T; vec_len : nat }.
Arguments mkvec {T}. Arguments vec_slots {T}. Arguments vec_len {T}.
Section Vec.
Context {T : Type} (dec : setter T) (zero : T).
Definition vec_items (x : vec T) : list T := firstn (vec_len x) (vec_slots x).
(** array, encoding/json decode.go: room for element i. *)
Definition vec_grow (x : vec T) : vec T :=
  let cap := List.length (vec_slots x) in
  let newcap := Nat.max 4 (cap + Nat.div cap 2) in
  mkvec (firstn (vec_len x) (vec_slots x) ++ repeat zero (newcap - vec_len x)) (vec_len x).
Definition vec_room (i : nat) (x : vec T) : vec T :=
  let x := if Nat.leb (List.length (vec_slots x)) i then vec_grow x else x in
  if Nat.leb (vec_len x) i then mkvec (vec_slots x) (S i) else x.
Fixpoint vec_set (i : nat) (v : T) (l : list T) : list T :=
  match l, i with
  | [], _ => []
  | _ :: r, O => v :: r
  | x :: r, S j => x :: vec_set j v r
  end.
(** array, decode.go: element after element, each into what is in its slot. *)
Fixpoint into_elements (l : list gj) (i : nat) (x : vec T) : vec T * bool :=
  match l with
  | [] => (mkvec (vec_slots x) i, true)
  | g :: r =>
      let y := vec_room i x in
      let '(v, ok1) := dec g (nth i (vec_slots y) zero) in
      let '(z, ok2) := into_elements r (S i) (mkvec (vec_set i v (vec_slots y)) (vec_len y)) in (z, ok1 && ok2)
  end.
Definition into_vec (g : gj) (x : vec T) : vec T * bool :=
  match g with
  | GArr [] => (mkvec [] 0, true)
  | GArr l => into_elements l 0 x
  | GNull => (mkvec [] 0, true)
  | _ => (x, false)
  end.
End Vec.

(* ------------------------------------------------------------------ the registry's answer *)

(** npmLinks, npmAuthor, npmPackage, npmObject, npmPackages, ui_server.go:41-68. *)
Record npm_links := mklinks { ln_npm : bytes; ln_homepage : bytes; ln_repository : bytes }.
Record npm_author := mkauthor { au_name : bytes; au_email : bytes }.
Record npm_package := mkpack { pa_name : bytes; pa_version : bytes; pa_description : bytes; pa_links : npm_links; pa_author : npm_author }.
Record reg_object := mkreg { ro_package : npm_package; ro_path : bytes; ro_version : bytes }.
Definition zero_links := mklinks [] [] [].
Definition zero_author := mkauthor [] [].
Definition zero_pack := mkpack [] [] [] zero_links zero_author.
Definition zero_reg := mkreg zero_pack [] [].
Definition links_fields : list (bytes * setter npm_links) :=
  [(str "Npm", fun g p => let '(x, ok) := into_string g (ln_npm p) in (mklinks x (ln_homepage p) (ln_repository p), ok));
   (str "Homepage", fun g p => let '(x, ok) := into_string g (ln_homepage p) in (mklinks (ln_npm p) x (ln_repository p), ok));
   (str "Repository", fun g p => let '(x, ok) := into_string g (ln_repository p) in (mklinks (ln_npm p) (ln_homepage p) x, ok))].
Definition author_fields : list (bytes * setter npm_author) :=
  [(str "Name", fun g p => let '(x, ok) := into_string g (au_name p) in (mkauthor x (au_email p), ok));
   (str "Email", fun g p => let '(x, ok) := into_string g (au_email p) in (mkauthor (au_name p) x, ok))].
Definition pack_fields : list (bytes * setter npm_package) :=
  [(str "Name", fun g p => let '(x, ok) := into_string g (pa_name p) in (mkpack x (pa_version p) (pa_description p) (pa_links p) (pa_author p), ok));
   (str "Version", fun g p => let '(x, ok) := into_string g (pa_version p) in (mkpack (pa_name p) x (pa_description p) (pa_links p) (pa_author p), ok));
   (str "Description", fun g p => let '(x, ok) := into_string g (pa_description p) in (mkpack (pa_name p) (pa_version p) x (pa_links p) (pa_author p), ok));
   (str "Links", fun g p => let '(x, ok) := into_struct links_fields g (pa_links p) in (mkpack (pa_name p) (pa_version p) (pa_description p) x (pa_author p), ok));
   (str "Author", fun g p => let '(x, ok) := into_struct author_fields g (pa_author p) in (mkpack (pa_name p) (pa_version p) (pa_description p) (pa_links p) x, ok))].
Definition reg_fields : list (bytes * setter reg_object) :=
  [(str "Package", fun g o => let '(x, ok) := into_struct pack_fields g (ro_package o) in (mkreg x (ro_path o) (ro_version o), ok));
   (str "Path", fun g o => let '(x, ok) := into_string g (ro_path o) in (mkreg (ro_package o) x (ro_version o), ok));
   (str "Version", fun g o => let '(x, ok) := into_string g (ro_version o) in (mkreg (ro_package o) (ro_path o) x, ok))].
Definition answer_fields : list (bytes * setter (vec reg_object)) :=
  [(str "Objects", into_vec (into_struct reg_fields) zero_reg)].
(** ui_server.go:129-134: what is decoded of the body, None for an error. *)
Definition decode_registry (depth : nat) (body : bytes) : option (list reg_object) :=
  match read_value depth body with
  | Some (g, _) => let '(x, ok) := into_struct answer_fields g (mkvec [] 0) in if ok then Some (vec_items x) else None
  | None => None
  end.
(** What the template uses of an object. *)
Definition as_shown (o : reg_object) : npm_object :=
  mknpm (pa_name (ro_package o)) (pa_version (ro_package o)) (pa_description (ro_package o)) (ln_npm (pa_links (ro_package o)))
    (au_name (pa_author (ro_package o))) (ro_path o) (ro_version o).
(** appsHandler, ui_server.go:115-145: status and body.  [registry]: the body of the registry's
    answer, None if it could not be asked. *)
Definition apps_answer (depth : nat) (get : bool) (root : option (list (bytes * disk))) (registry : option bytes) : Z * bytes :=
  if get then
    (200, match registry with
          | None => []
          | Some body =>
              match decode_registry depth body with
              | None => []
              | Some objects =>
                  match apps_page (installed_packages depth root) (map as_shown objects) with Some b => b | None => [] end
              end
          end)
  else (405, str "Method not allowed" ++ [10]).

(* ------------------------------------------------------------------ the Install button *)

(** handleAppInstall, site.js:198-199: the text that becomes the markup of the row's cell. *)
Definition cell_markup (url name : bytes) : bytes := str "<a href=""" ++ url ++ str """>" ++ name ++ str "</a>".
