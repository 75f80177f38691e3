(** PackagesModel: /repo/main/packages.go (installed web apps, installation) and the links the
    apps page makes of them, /repo/main/ui_server.go:117-149, 163-179. *)
From Verif Require Import GoBase ApiModel.
Open Scope list_scope.

(* ------------------------------------------------------------------ paths *)

Fixpoint join_with (sep : Z) (l : list bytes) : bytes :=
  match l with [] => [] | [x] => x | x :: r => x ++ sep :: join_with sep r end.

(** filepath.Clean (Go standard library, Unix): remove empty and . elements, and each .. with
    the element before it. *)
Fixpoint clean_elems (rooted : bool) (l stack : list bytes) : list bytes :=   (* stack: last first *)
  match l with
  | [] => rev stack
  | e :: r =>
      if bytes_eqb e [] || bytes_eqb e (str ".") then clean_elems rooted r stack
      else if bytes_eqb e (str "..") then
        match stack with
        | top :: below => if bytes_eqb top (str "..") then clean_elems rooted r (e :: stack) else clean_elems rooted r below
        | [] => clean_elems rooted r (if rooted then [] else [e])
        end
      else clean_elems rooted r (e :: stack)
  end.
Definition clean (p : bytes) : bytes :=
  let rooted := match p with 47 :: _ => true | _ => false end in
  match p, clean_elems rooted (split_at 47 p) [] with
  | [], _ => str "."
  | _, [] => if rooted then str "/" else str "."
  | _, l => (if rooted then [47] else []) ++ join_with 47 l
  end.
(** filepath.Join: the non-empty elements, with slashes between them, cleaned. *)
Definition path_join (l : list bytes) : bytes :=
  match filter (fun e => match e with [] => false | _ => true end) l with
  | [] => []
  | l' => clean (join_with 47 l')
  end.

(* ------------------------------------------------------------------ installed packages *)

(** nodePackage, packages.go:14-20 (Main is not used). *)
Record package := mkpkg { pk_version : bytes; pk_name : bytes; pk_location : bytes; pk_keywords : list bytes }.

(** What ioutil.ReadDir and the reads below it find: a directory with the outcome of reading
    its package.json (None: cannot be read; Some None: read, but not valid JSON), whether
    os.Stat says that index.html does not exist, and its entries; or anything else.
    Simplified: directory entries, package.json and index.html are given separately. *)
Inductive node :=
| NOther
| NDir (json : option (option package)) (no_index : bool) (entries : list (bytes * node)).

(** contains, packages.go:126-133. *)
Definition contains (s : list bytes) (e : bytes) : bool := existsb (fun a => bytes_eqb a e) s.
(** strings.Contains. *)
Fixpoint contains_text (s sub : bytes) : bool :=
  has_prefix sub s || match s with [] => false | _ :: r => contains_text r sub end.
Definition node_modules : bytes := str "node_modules".

(** packages.go:99-107: the entry of a package. *)
Definition located (p : package) (no_index : bool) : package :=
  let loc := match pk_location p with [] => 47 :: pk_name p | l => l end in
  mkpkg (pk_version p) (pk_name p) (if no_index then path_join [loc; str "/public"] else loc) (pk_keywords p).
(** packages.go:109-114: its key. *)
Definition key_of (path name : bytes) : bytes :=
  if contains_text path node_modules then skipn 13 (path_join [path; name]) else path_join [path; name].

(** getInstalledPackages, packages.go:80-124, on the directory [entries] at [path].  None: nil.
    [scan_dir] is one entry: None makes the function return nil. *)
Fixpoint scan_dir (path name : bytes) (n : node) : option (list (bytes * package)) :=
  match n with
  | NOther => Some []
  | NDir json no_index entries =>
      if has_prefix (str "@") name then
        let path' := path_join [path; name] in
        match (fix scan (l : list (bytes * node)) : option (list (bytes * package)) :=
                 match l with
                 | [] => Some []
                 | (k, m) :: r => match scan_dir path' k m with
                                  | None => None
                                  | Some a => match scan r with None => None | Some b => Some (a ++ b) end
                                  end
                 end) entries with
        | None => Some []              (* ranging over the nil map adds nothing *)
        | Some l => Some l
        end
      else if bytes_eqb name (str ".bin") then Some []
      else
        match json with
        | None => None                 (* packages.go:116-118 *)
        | Some (Some p) => if contains (pk_keywords p) (str "signalk-webapp")
                           then Some [(key_of path name, located p no_index)] else Some []
        | Some None => Some []
        end
  end.
Fixpoint scan_entries (path : bytes) (l : list (bytes * node)) : option (list (bytes * package)) :=
  match l with
  | [] => Some []
  | (k, m) :: r => match scan_dir path k m with
                   | None => None
                   | Some a => match scan_entries path r with None => None | Some b => Some (a ++ b) end
                   end
  end.
(** [root]: the content of ./node_modules (None: ReadDir fails). *)
Definition getInstalledPackages (root : option (list (bytes * node))) : option (list (bytes * package)) :=
  match root with None => None | Some l => scan_entries (str "./node_modules") l end.

(** appsHandler's link to an installed app, ui_server.go:137-142. *)
Definition app_link (installed : option (list (bytes * package))) (name : bytes) : option bytes :=
  match installed with
  | None => None
  | Some l => match find (fun kv => bytes_eqb (fst kv) name) l with
              | Some kv => Some (str "/apps" ++ pk_location (snd kv))
              | None => None
              end
  end.

(** getPathForPackage, packages.go:70-78; [no_index]: index.html of the package does not exist. *)
Definition getPathForPackage (pkg : bytes) (no_index : bool) : bytes :=
  if no_index then path_join [str "/apps"; pkg; str "public"] else path_join [str "/apps"; pkg].

(* ------------------------------------------------------------------ installation *)

(** installPackage, packages.go:27-68: the caller and the goroutine that reports progress share
    an unbuffered channel; what each has still to do. *)
Inductive op := OSend | OReceive | OOther.
(** Line 64; 65; 67 (the outcome of yarn is left out). *)
Definition caller_ops : list op := [OSend; OOther; OOther].
(** Line 40; 42; one line of yarn's output after the other, 45-61; the deferred send, 38. *)
Definition reporter_ops (lines : nat) : list op := [OOther; OReceive] ++ repeat OOther lines ++ [OSend].
Inductive install_step : list op * list op -> list op * list op -> Prop :=
| is_caller a b : install_step (OOther :: a, b) (a, b)
| is_reporter a b : install_step (a, OOther :: b) (a, b)
| is_to_reporter a b : install_step (OSend :: a, OReceive :: b) (a, b)
| is_to_caller a b : install_step (OReceive :: a, OSend :: b) (a, b).
