(** HtmlModel: the two pages: indexHandler and appsHandler (/repo/main/ui_server.go:189-198,
    116-148) with the templates of /repo/templates, and the part of html/template (Go's standard
    library) that makes pages of them: the parts of a template, the contextual escaping and its
    escapers. *)
From Verif Require Import GoBase Strconv ApiModel ConfigModel PackagesModel PagesText.
Open Scope Z_scope.
Open Scope list_scope.

(* ------------------------------------------------------------------ text/template *)

(** text/template's lexer: text, and actions between {{ and }} without the spaces around. *)
Inductive item := ILit (b : bytes) | IAct (b : bytes).
Fixpoint lex (act : bool) (acc : bytes) (s : bytes) : list item :=
  match s with
  | [] => if act then [] else [ILit (rev acc)]
  | c :: r =>
      if act then match s with 125 :: 125 :: r' => IAct (rev acc) :: lex false [] r' | _ => lex true (c :: acc) r end
      else match s with 123 :: 123 :: r' => ILit (rev acc) :: lex true [] r' | _ => lex false (c :: acc) r end
  end.

(** Nodes of a parsed template.  Out: the value of a field is written. *)
Inductive node :=
| Lit (b : bytes)
| Out (path : bytes)
| If (path : bytes) (yes no : list node)
| Range (body : list node)
| Sub (call : bytes).
Definition has_prefix (p s : bytes) : bool := bytes_eqb (firstn (List.length p) s) p.
(** text/template/parse: a list of nodes up to an {{else}} (true), an {{end}} (false) or the end;
    None: a syntax error.  [n]: the number of items is enough. *)
Fixpoint parse (n : nat) (l : list item) : option (list node * option bool * list item) :=
  match n with
  | O => None
  | S n' =>
      match l with
      | [] => Some ([], None, [])
      | ILit b :: r => match parse n' r with Some (ns, e, r') => Some (Lit b :: ns, e, r') | None => None end
      | IAct a :: r =>
          if bytes_eqb a (str "end") then Some ([], Some false, r)
          else if bytes_eqb a (str "else") then Some ([], Some true, r)
          else
            let go nd r := match parse n' r with Some (ns, e, r') => Some (nd :: ns, e, r') | None => None end in
            if has_prefix (str "if ") a then
              match parse n' r with
              | Some (yes, Some false, r1) => go (If (skipn 3 a) yes []) r1
              | Some (yes, Some true, r1) =>
                  match parse n' r1 with Some (no, Some false, r2) => go (If (skipn 3 a) yes no) r2 | _ => None end
              | _ => None
              end
            else if has_prefix (str "range ") a then
              match parse n' r with Some (body, Some false, r1) => go (Range body) r1 | _ => None end
            else if has_prefix (str "template ") a then go (Sub (skipn 9 a)) r
            else go (Out a) r
      end
  end.
(** A file of the form {{define ...}} nodes {{end}}; what is outside is white space. *)
Definition define (file : string) : option (bytes * list node) :=
  match lex false [] (str file) with
  | ILit _ :: IAct a :: r =>
      if has_prefix (str "define ") a then
        match parse (S (List.length r)) r with Some (ns, Some false, _) => Some (skipn 7 a, ns) | _ => None end
      else None
  | _ => None
  end.
(** template.ParseFiles("templates/layout.gtpl", file) and the template layout with {{template}}
    replaced by the one it names, ui_server.go:118, 191. *)
Definition page_nodes (file : string) : option (list node) :=
  match define layout_gtpl, define file with
  | Some (n1, ns), Some (n2, body) =>
      if bytes_eqb n1 (str """layout""") then
        Some (flat_map (fun nd => match nd with Sub c => if bytes_eqb c (n2 ++ str " .") then body else [nd] | _ => [nd] end) ns)
      else None
  | _, _ => None
  end.

(* ------------------------------------------------------------------ contexts *)

(** html/template's context: where in the page a text or an action is (context.go). *)
Inductive ctx :=
| CText | CComment | CTagName | CTag
| CName (n : bytes) | CAfterName (n : bytes) | CBefore (n : bytes)
| CValue (url : bool) (quote : Z) (started : bool) | COther.
Definition ctx_eqb (a b : ctx) : bool :=
  match a, b with
  | CText, CText | CTag, CTag => true
  | _, _ => false
  end.
(** attrTypeMap of html/template (attr.go): the attributes that hold addresses.  (Attributes with
    styles or scripts hold no action here: they are treated as plain ones.) *)
Definition url_attr (n : bytes) : bool :=
  existsb (bytes_eqb n) (map str ["action"; "archive"; "background"; "cite"; "classid"; "codebase"; "data"; "formaction"; "href";
    "icon"; "longdesc"; "manifest"; "poster"; "profile"; "src"; "usemap"; "xmlns"]%string).
Definition white (c : Z) : bool := existsb (Z.eqb c) [32; 9; 10; 12; 13].
Definition alpha (c : Z) : bool := ((65 <=? c) && (c <=? 90)) || ((97 <=? c) && (c <=? 122)).
(** escapeText (escape.go) with the transitions of transition.go: the context after a text, and
    the text with its comments left out.  A < that begins no tag is escaped, but for <!DOCTYPE. *)
Fixpoint escape_text (c : ctx) (s : bytes) : ctx * bytes :=
  match s with
  | [] => (c, [])
  | x :: r =>
      let keep c' := let (c2, o) := escape_text c' r in (c2, x :: o) in
      let attr (x : Z) := if x =? 62 then CText else if white x then CTag else CName [x] in
      match c with
      | CText =>
          if x =? 60 then
            match r with
            | 33 :: 45 :: 45 :: r' => escape_text CComment r'
            | y :: _ =>
                if alpha y || (y =? 47) then keep CTagName
                else if bytes_eqb (firstn 8 r) (str "!DOCTYPE") then keep CText
                else let (c2, o) := escape_text CText r in (c2, str "&lt;" ++ o)
            | [] => let (c2, o) := escape_text CText r in (c2, str "&lt;" ++ o)
            end
          else keep CText
      | CComment => match s with 45 :: 45 :: 62 :: r' => escape_text CText r' | _ => escape_text CComment r end
      | CTagName => keep (if x =? 62 then CText else if white x then CTag else CTagName)
      | CTag => keep (attr x)
      | CName n => keep (if x =? 62 then CText else if x =? 61 then CBefore n else if white x then CAfterName n else CName (n ++ [x]))
      | CAfterName n => keep (if x =? 61 then CBefore n else if white x then CAfterName n else attr x)
      | CBefore n => keep (if white x then CBefore n else if (x =? 34) || (x =? 39) then CValue (url_attr n) x false else COther)
      | CValue u q _ => keep (if x =? q then CTag else CValue u q true)
      | COther => keep COther
      end
  end.
(** Nodes with the escapers that go with their contexts. *)
Inductive enode :=
| ELit (b : bytes)
| EText (path : bytes)
| EAttr (path : bytes)
| EUrl (path : bytes)
| EIf (path : bytes) (yes no : list enode)
| ERange (body : list enode).
(** join and nudge (escape.go): the context after {{if}}; None: they cannot be joined. *)
Definition in_tag (c : ctx) : bool := match c with CTag | CName _ | CAfterName _ => true | _ => false end.
Definition join (a b : ctx) : option ctx := if ctx_eqb a b then Some a else if in_tag a && in_tag b then Some (CName []) else None.
(** escapeList, escapeAction, escapeBranch (escape.go); None: an error, or an action in a context
    that is not modelled. *)
Fixpoint escape_node (c : ctx) (nd : node) : option (ctx * enode) :=
  let list := fix list c ns :=
    match ns with
    | [] => Some (c, [])
    | nd :: r => match escape_node c nd with
                 | Some (c1, e) => match list c1 r with Some (c2, es) => Some (c2, e :: es) | None => None end
                 | None => None
                 end
    end in
  match nd with
  | Lit b => let (c', o) := escape_text c b in Some (c', ELit o)
  | Out p =>
      match c with
      | CText => Some (c, EText p)
      | CValue false q _ => Some (CValue false q true, EAttr p)
      | CValue true q false => Some (CValue true q true, EUrl p)
      | _ => None
      end
  | If p yes no =>
      match list c yes, list c no with
      | Some (c1, a), Some (c2, b) => match join c1 c2 with Some c' => Some (c', EIf p a b) | None => None end
      | _, _ => None
      end
  | Range body => match list c body with
                  | Some (c', b) => if ctx_eqb c c' then Some (c, ERange b) else None
                  | None => None
                  end
  | Sub _ => None
  end.
Fixpoint escape_list (c : ctx) (ns : list node) : option (ctx * list enode) :=
  match ns with
  | [] => Some (c, [])
  | nd :: r => match escape_node c nd with
               | Some (c1, e) => match escape_list c1 r with Some (c2, es) => Some (c2, e :: es) | None => None end
               | None => None
               end
  end.
(** The page's template, escaped. *)
Definition escaped (file : string) : option (list enode) :=
  match page_nodes file with
  | Some ns => match escape_list CText ns with Some (CText, es) => Some es | _ => None end
  | None => None
  end.

(* ------------------------------------------------------------------ escapers *)

(** htmlReplacementTable (html.go). *)
Definition html_char (c : Z) : bytes :=
  if c =? 0 then [239; 191; 189]
  else if c =? 34 then str "&#34;"
  else if c =? 38 then str "&amp;"
  else if c =? 39 then str "&#39;"
  else if c =? 43 then str "&#43;"
  else if c =? 60 then str "&lt;"
  else if c =? 62 then str "&gt;"
  else [c].
(** htmlEscaper and attrEscaper (html.go) on strings: htmlReplacer with badRunes.  (It goes
    through the runes, but changes only ASCII characters, which are runes of their own in every
    text, valid or not.) *)
Definition html_escape (s : bytes) : bytes := flat_map html_char s.
(** isSafeURL and urlFilter (url.go). *)
Fixpoint before_colon (s : bytes) : option bytes :=
  match s with
  | [] => None
  | c :: r => if c =? 58 then Some [] else match before_colon r with Some p => Some (c :: p) | None => None end
  end.
Definition is_safe_url (s : bytes) : bool :=
  match before_colon s with
  | Some p =>
      if existsb (Z.eqb 47) p then true
      else EqualFold p (str "http") || EqualFold p (str "https") || EqualFold p (str "mailto")
  | None => true
  end.
Definition url_filter (s : bytes) : bytes := if is_safe_url s then s else str "#ZgotmplZ".
(** isHex (css.go). *)
Definition is_hex (c : Z) : bool := ((48 <=? c) && (c <=? 57)) || ((97 <=? c) && (c <=? 102)) || ((65 <=? c) && (c <=? 70)).
Definition hexdigit (d : Z) : Z := if d <? 10 then 48 + d else 87 + d.
(** urlNormalizer: processURLOnto with norm (url.go). *)
Definition url_keeps (c : Z) (r : bytes) : bool :=
  existsb (Z.eqb c) (str "!#$&*+,/:;=?@[]-._~") || alpha c || ((48 <=? c) && (c <=? 57)) ||
  ((c =? 37) && match r with a :: b :: _ => is_hex a && is_hex b | _ => false end).
Fixpoint url_normalize (s : bytes) : bytes :=
  match s with
  | [] => []
  | c :: r => (if url_keeps c r then [c] else [37; hexdigit (c / 16); hexdigit (c mod 16)]) ++ url_normalize r
  end.
(** Template execution: [value] gives the text of a field, [truth] whether it counts as true,
    [items] what {{range}} goes through. *)
Record env := mkenv { value : bytes -> bytes; truth : bytes -> bool }.
Fixpoint exec_node (items : list env) (e : env) (nd : enode) : bytes :=
  match nd with
  | ELit b => b
  | EText p => html_escape (value e p)
  | EAttr p => html_escape (value e p)
  | EUrl p => html_escape (url_normalize (url_filter (value e p)))
  | EIf p yes no => if truth e p then flat_map (exec_node items e) yes else flat_map (exec_node items e) no
  | ERange body => flat_map (fun e' => flat_map (exec_node [] e') body) items
  end.
Definition exec (items : list env) (e : env) (ns : list enode) : bytes := flat_map (exec_node items e) ns.

(* ------------------------------------------------------------------ the pages *)

(** The fields of the configuration that index.gtpl names, /repo/config/config.go:30-81; numbers
    are written as fmt.Sprint does. *)
Definition config_env (c : config) : env :=
  mkenv
    (fun p =>
      match find (fun kv => bytes_eqb p (str (fst kv)))
        [(".Vessel.Name"%string, ve_name (cf_vessel c)); (".Vessel.Manufacturer"%string, ve_manufacturer (cf_vessel c));
         (".Vessel.Model"%string, ve_model (cf_vessel c)); (".Vessel.Year"%string, itoa (ve_year (cf_vessel c)));
         (".Vessel.Mmsi"%string, itoa (ve_mmsi (cf_vessel c))); (".Vessel.Callsign"%string, ve_callsign (cf_vessel c));
         (".Vessel.Registration"%string, ve_registration (cf_vessel c)); (".Vessel.Uuid0"%string, ve_uuid0 (cf_vessel c));
         (".Vessel.Uuid1"%string, ve_uuid1 (cf_vessel c)); (".Vessel.Uuid2"%string, ve_uuid2 (cf_vessel c));
         (".Vessel.Uuid3"%string, ve_uuid3 (cf_vessel c)); (".Vessel.Uuid4"%string, ve_uuid4 (cf_vessel c));
         (".Server.ListenOn"%string, sv_listen (cf_server c)); (".Server.Port"%string, itoa (sv_port (cf_server c)));
         (".Mqtt.Host"%string, mq_host (cf_mqtt c)); (".Mqtt.Port"%string, itoa (mq_port (cf_mqtt c)));
         (".Mqtt.ClientId"%string, mq_client (cf_mqtt c)); (".Mqtt.Username"%string, mq_user (cf_mqtt c));
         (".Mqtt.Password"%string, mq_password (cf_mqtt c))]
      with Some kv => snd kv | None => [] end)
    (fun p =>
      if bytes_eqb p (str ".Server.EnableWebsockets") then sv_websockets (cf_server c)
      else if bytes_eqb p (str ".Server.UseTls") then sv_tls (cf_server c)
      else if bytes_eqb p (str ".Mqtt.Enable") then mq_enable (cf_mqtt c)
      else if bytes_eqb p (str ".Mqtt.UseTls") then mq_tls (cf_mqtt c)
      else false).
(** indexHandler, ui_server.go:189-198. *)
Definition index_page (c : config) : option bytes :=
  match escaped index_gtpl with Some ns => Some (exec [] (config_env c) ns) | None => None end.

(** npmObject with the fields that apps.gtpl shows, ui_server.go:43-68. *)
Record npm_object := mknpm {
  np_name : bytes; np_version : bytes; np_description : bytes; np_npm : bytes; np_author : bytes;
  np_path : bytes; np_installed : bytes }.
(** ui_server.go:136-142: the objects of the registry's answer, with path and version of the
    packages that are installed. *)
Definition with_installed (installed : option (list (bytes * package))) (o : npm_object) : npm_object :=
  match installed with
  | Some l => match find (fun kv => bytes_eqb (fst kv) (np_name o)) l with
              | Some kv => mknpm (np_name o) (np_version o) (np_description o) (np_npm o) (np_author o)
                             (str "/apps" ++ pk_location (snd kv)) (pk_version (snd kv))
              | None => o
              end
  | None => o
  end.
Definition app_env (o : npm_object) : env :=
  mkenv
    (fun p =>
      match find (fun kv => bytes_eqb p (str (fst kv)))
        [("$app.Package.Name"%string, np_name o); ("$app.Package.Version"%string, np_version o);
         ("$app.Package.Description"%string, np_description o); ("$app.Package.Author.Name"%string, np_author o);
         ("$app.Package.Links.Npm"%string, np_npm o); ("$app.Path"%string, np_path o); ("$app.Version"%string, np_installed o)]
      with Some kv => snd kv | None => [] end)
    (fun p => if bytes_eqb p (str "$app.Path") then match np_path o with [] => false | _ => true end else false).
(** appsHandler's page, ui_server.go:116-145, once the registry has answered. *)
Definition apps_page (installed : option (list (bytes * package))) (objects : list npm_object) : option bytes :=
  match escaped apps_gtpl with
  | Some ns => Some (exec (map (fun o => app_env (with_installed installed o)) objects) (mkenv (fun _ => []) (fun _ => false)) ns)
  | None => None
  end.
