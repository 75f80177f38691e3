(** InstallModel: installing an app from the page /apps (/repo/main/ui_server.go:148-181,
    /repo/assets/js/site.js:185-202) and the command endpoint on the bytes of its request
    (/repo/main/api_server.go:147-161). *)
From Verif Require Import GoBase CanModel NmeaTypes NmeaModel ApiModel ConfigModel PackagesModel JsonSpec UnjsonModel.
Open Scope Z_scope.
Open Scope list_scope.

(** appInstallHandlerFactory, ui_server.go:149-180.  [yarn] is the outcome of
    'yarn add <argument>' (installPackage, packages.go:27-68: the text of the error that Wait
    returns, or None); [no_index] is whether the package has no index.html (packages.go:71-73).
    The result: the status, the body, the argument given to yarn and the route added. *)
Record install_out := mkinst { in_status : Z; in_body : bytes; in_yarn : option bytes; in_route : option bytes }.
Definition install_request (depth : nat) (yarn : bytes -> option bytes) (no_index : bytes -> bool) (post : bool) (body : bytes) : install_out :=
  if post then
    match decode_pkg depth body with
    | None => mkinst 200 [] None None
    | Some (name, version) =>
        let arg := name ++ str "@" ++ version in
        match yarn arg with
        | Some err => mkinst 200 (str "{""result"":""error"",""message"":""" ++ err ++ str """}") (Some arg) None
        | None =>
            let path := getPathForPackage name (no_index name) in
            mkinst 200 (str "{""result"":""ok"",""url"":""" ++ path ++ str """,""dir"":""./node_modules""}") (Some arg) (Some path)
        end
    end
  else mkinst 405 (str "Method not allowed" ++ [10]) None None.

(** SendMessageHandler, api_server.go:147-161: what is written and the command that is sent. *)
Definition send_request (depth : nat) (post : bool) (body : bytes) : bytes * option (bytes * Z) :=
  if post then let '(c, ok) := decode_command depth body in (if ok then [] else str "Invalid JSON", Some c) else ([], None).

(** handleAppInstall, site.js:185-202: the row of the table shows a version and a link; [answer]
    is what JSON.parse makes of the answer (None: it throws).  A missing member reads as
    "undefined"; null has no members, which throws.  Simplified: a member "url" that is not a
    text is taken for "undefined" too (the program sends none). *)
Record app_row := mkrow { row_version : bytes; row_link : option (list Z) }.
Definition js_member (ms : list (list Z * jv)) (n : list Z) : option jv :=
  fold_left (fun o kv => if bytes_eqb (fst kv) n then Some (snd kv) else o) ms None.
Definition page_installed (version : bytes) (row : app_row) (answer : option jv) : app_row :=
  match answer with
  | None | Some JNull => row
  | Some (JObj ms) => mkrow version (Some (match js_member ms (str "url") with Some (JStr cs) => cs | _ => str "undefined" end))
  | Some _ => mkrow version (Some (str "undefined"))
  end.
