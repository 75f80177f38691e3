(** PkgDiskModel: the installed web apps, /repo/main/packages.go:14-20, 80-133, from the files on
    disk: the texts of the package.json files decoded as encoding/json does. *)
From Coq Require Import ZArith.
From Verif Require Import GoBase PackagesModel UnjsonModel.
Open Scope Z_scope.
Open Scope list_scope.

(** A Go slice of strings: its backing array and how much of it is in use. *)
Record slice := mkslice { sl_slots : list bytes; sl_len : nat }.
Definition slice_items (x : slice) : list bytes := firstn (sl_len x) (sl_slots x).
(** array, encoding/json decode.go: room for element i.  The new capacity is 1.5 times the old
    one, at least 4. *)
Definition grow (x : slice) : slice :=
  let cap := List.length (sl_slots x) in
  let newcap := Nat.max 4 (cap + Nat.div cap 2) in
  mkslice (firstn (sl_len x) (sl_slots x) ++ repeat [] (newcap - sl_len x)) (sl_len x).
Definition room (i : nat) (x : slice) : slice :=
  let x := if Nat.leb (List.length (sl_slots x)) i then grow x else x in
  if Nat.leb (sl_len x) i then mkslice (sl_slots x) (S i) else x.
Fixpoint set_nth (i : nat) (v : bytes) (l : list bytes) : list bytes :=
  match l, i with
  | [], _ => []
  | _ :: r, O => v :: r
  | x :: r, S j => x :: set_nth j v r
  end.
(** array, decode.go: element after element into the slots there are; what was in a slot stays if
    the element is null. *)
Fixpoint into_items (l : list gj) (i : nat) (x : slice) : slice * bool :=
  match l with
  | [] => (mkslice (sl_slots x) i, true)
  | g :: r =>
      let y := room i x in
      let '(v, ok1) := into_string g (nth i (sl_slots y) []) in
      let '(z, ok2) := into_items r (S i) (mkslice (set_nth i v (sl_slots y)) (sl_len y)) in (z, ok1 && ok2)
  end.
(** array and literalStore, decode.go, on a slice: [] makes a new empty slice, null the nil slice
    (neither has slots). *)
Definition into_strings (g : gj) (x : slice) : slice * bool :=
  match g with
  | GArr [] => (mkslice [] 0, true)
  | GArr l => into_items l 0 x
  | GNull => (mkslice [] 0, true)
  | _ => (x, false)
  end.

(** nodePackage, packages.go:14-20. *)
Record node_package := mknp { np_version : bytes; np_name : bytes; np_main : bytes; np_location : bytes; np_keywords : slice }.
Definition zero_np : node_package := mknp [] [] [] [] (mkslice [] 0).
Definition np_fields : list (bytes * setter node_package) :=
  [(str "version", fun g p => let '(x, ok) := into_string g (np_version p) in (mknp x (np_name p) (np_main p) (np_location p) (np_keywords p), ok));
   (str "name", fun g p => let '(x, ok) := into_string g (np_name p) in (mknp (np_version p) x (np_main p) (np_location p) (np_keywords p), ok));
   (str "main", fun g p => let '(x, ok) := into_string g (np_main p) in (mknp (np_version p) (np_name p) x (np_location p) (np_keywords p), ok));
   (str "_location", fun g p => let '(x, ok) := into_string g (np_location p) in (mknp (np_version p) (np_name p) (np_main p) x (np_keywords p), ok));
   (str "keywords", fun g p => let '(x, ok) := into_strings g (np_keywords p) in (mknp (np_version p) (np_name p) (np_main p) (np_location p) x, ok))].
(** packages.go:97-99: json.Unmarshal, None if it gives an error. *)
Definition decode_package (depth : nat) (text : bytes) : option package :=
  match read_text depth text with
  | Some g => let '(p, ok) := into_struct np_fields g zero_np in
              if ok then Some (mkpkg (np_version p) (np_name p) (np_location p) (slice_items (np_keywords p))) else None
  | None => None
  end.

(** What is on disk: files with their bytes (None: cannot be read), directories, anything else.
    Simplified: links are left out, and a directory that ReadDir lists can be read. *)
Inductive disk :=
| DOther
| DFile (text : option bytes)
| DDir (entries : list (bytes * disk)).
Fixpoint entry (l : list (bytes * disk)) (k : bytes) : option disk :=
  match l with [] => None | (n, x) :: r => if bytes_eqb n k then Some x else entry r k end.
(** ioutil.ReadFile of package.json and json.Unmarshal, packages.go:95-99. *)
Definition json_of (depth : nat) (es : list (bytes * disk)) : option (option package) :=
  match entry es (str "package.json") with Some (DFile (Some t)) => Some (decode_package depth t) | _ => None end.
(** os.IsNotExist of os.Stat of index.html, packages.go:104-105. *)
Definition no_index (es : list (bytes * disk)) : bool :=
  match entry es (str "index.html") with None => true | Some _ => false end.
(** What the scan of PackagesModel sees of it. *)
Fixpoint node_of (depth : nat) (x : disk) : node :=
  match x with
  | DDir es => NDir (json_of depth es) (no_index es)
      ((fix all (l : list (bytes * disk)) : list (bytes * node) :=
          match l with [] => [] | (k, y) :: r => (k, node_of depth y) :: all r end) es)
  | _ => NOther
  end.
Definition nodes_of (depth : nat) (l : list (bytes * disk)) : list (bytes * node) :=
  map (fun ky => (fst ky, node_of depth (snd ky))) l.
(** getInstalledPackages("./node_modules"), ui_server.go:137, 201. *)
Definition installed_packages (depth : nat) (root : option (list (bytes * disk))) : option (list (bytes * package)) :=
  getInstalledPackages (option_map (nodes_of depth) root).
