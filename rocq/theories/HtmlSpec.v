(** HtmlSpec: how browsers read pages (C99): the tokenizer of the HTML standard (section 13.2.5)
    on bytes, for pages without comments, unquoted attributes or parse errors; and schemes of
    addresses (the URL standard).  Bytes above 127 stand for themselves (the page is UTF-8); line
    breaks are left as they are. *)
From Verif Require Import GoBase ConfigModel FormModel.
Open Scope Z_scope.
Open Scope list_scope.

Inductive token :=
| Ch (c : Z)
| Start (name : bytes) (attributes : list (bytes * bytes))
| End (name : bytes)
| Doctype.
(** The states of the tokenizer, with the tag (name and attributes), the attribute's name and
    value being read. *)
Inductive state :=
| SData | SRef (r : bytes) | SOpen | SMarkup (b : bytes) | SEndOpen | SEnd (n : bytes) | SName (n : bytes)
| SBefore (n : bytes) (l : list (bytes * bytes))
| SAttr (n : bytes) (l : list (bytes * bytes)) (a : bytes)
| SAfter (n : bytes) (l : list (bytes * bytes)) (a : bytes)
| SEqual (n : bytes) (l : list (bytes * bytes)) (a : bytes)
| SValue (q : Z) (n : bytes) (l : list (bytes * bytes)) (a v : bytes)
| SValueRef (q : Z) (n : bytes) (l : list (bytes * bytes)) (a v r : bytes)
| SAfterValue (n : bytes) (l : list (bytes * bytes))
| SSlash (n : bytes) (l : list (bytes * bytes))
| STitle
| SExpect (rest : bytes) (name : bytes).
Definition space (c : Z) : bool := existsb (Z.eqb c) [9; 10; 12; 13; 32].
Definition letter (c : Z) : bool := ((65 <=? c) && (c <=? 90)) || ((97 <=? c) && (c <=? 122)).
Definition lower (c : Z) : Z := if (65 <=? c) && (c <=? 90) then c + 32 else c.
(** Character references: what &r; stands for. *)
Definition digits (r : bytes) : option Z :=
  fold_left (fun a c => match a with Some n => if (48 <=? c) && (c <=? 57) then Some (10 * n + (c - 48)) else None | None => None end) r (Some 0).
Definition reference (r : bytes) : option bytes :=
  if bytes_eqb r (str "amp") then Some (str "&") else if bytes_eqb r (str "lt") then Some (str "<")
  else if bytes_eqb r (str "gt") then Some (str ">") else if bytes_eqb r (str "quot") then Some (str """")
  else if bytes_eqb r (str "copy") then Some [194; 169] else if bytes_eqb r (str "times") then Some [195; 151]
  else match r with
       | 35 :: d => match digits d with Some n => if (32 <=? n) && (n <=? 126) then Some [n] else None | None => None end
       | _ => None
       end.
(** After a start tag: scripts here are empty, titles are text, and elements with other kinds of
    raw text are not read. *)
Definition opened (n : bytes) (l : list (bytes * bytes)) : option (state * list token) :=
  if bytes_eqb n (str "script") then Some (SExpect (str "</script>") n, [Start n l])
  else if bytes_eqb n (str "title") then Some (STitle, [Start n l])
  else if existsb (bytes_eqb n) (map str ["style"; "textarea"; "xmp"; "iframe"; "noembed"; "noframes"; "noscript"; "plaintext"; "svg"; "math"]%string)
  then None
  else Some (SData, [Start n l]).
(** One character.  None: outside of what is read here. *)
Definition step (s : state) (c : Z) : option (state * list token) :=
  if c =? 0 then None else
  let attr n l := if space c then Some (SBefore n l, []) else if c =? 47 then Some (SSlash n l, []) else if c =? 62 then opened n l
                  else if existsb (Z.eqb c) (str """'<=") then None else Some (SAttr n l [lower c], []) in
  match s with
  | SData => if c =? 38 then Some (SRef [], []) else if c =? 60 then Some (SOpen, []) else Some (SData, [Ch c])
  | SRef r => if c =? 59 then match reference r with Some v => Some (SData, map Ch v) | None => None end
              else if letter c || ((48 <=? c) && (c <=? 57)) || (c =? 35) then Some (SRef (r ++ [c]), []) else None
  | SOpen => if c =? 33 then Some (SMarkup [], []) else if c =? 47 then Some (SEndOpen, []) else if letter c then Some (SName [lower c], []) else None
  | SMarkup b => if c =? 62 then if bytes_eqb b (str "DOCTYPE html") then Some (SData, [Doctype]) else None else Some (SMarkup (b ++ [c]), [])
  | SEndOpen => if letter c then Some (SEnd [lower c], []) else None
  | SEnd n => if c =? 62 then Some (SData, [End n]) else if space c || (c =? 47) then None else Some (SEnd (n ++ [lower c]), [])
  | SName n => if space c then Some (SBefore n [], []) else if c =? 47 then Some (SSlash n [], []) else if c =? 62 then opened n []
               else Some (SName (n ++ [lower c]), [])
  | SBefore n l => attr n l
  | SAttr n l a => if space c then Some (SAfter n l a, []) else if c =? 47 then Some (SSlash n (l ++ [(a, [])]), [])
                   else if c =? 62 then opened n (l ++ [(a, [])]) else if c =? 61 then Some (SEqual n l a, [])
                   else if existsb (Z.eqb c) (str """'<") then None else Some (SAttr n l (a ++ [lower c]), [])
  | SAfter n l a => if space c then Some (SAfter n l a, []) else if c =? 61 then Some (SEqual n l a, []) else attr n (l ++ [(a, [])])
  | SEqual n l a => if space c then Some (SEqual n l a, []) else if (c =? 34) || (c =? 39) then Some (SValue c n l a [], []) else None
  | SValue q n l a v => if c =? q then Some (SAfterValue n (l ++ [(a, v)]), []) else if c =? 38 then Some (SValueRef q n l a v [], [])
                        else Some (SValue q n l a (v ++ [c]), [])
  | SValueRef q n l a v r =>
      if c =? 59 then match reference r with Some w => Some (SValue q n l a (v ++ w), []) | None => None end
      else if letter c || ((48 <=? c) && (c <=? 57)) || (c =? 35) then Some (SValueRef q n l a v (r ++ [c]), []) else None
  | SAfterValue n l => if space c then Some (SBefore n l, []) else if c =? 47 then Some (SSlash n l, []) else if c =? 62 then opened n l else None
  | SSlash n l => if c =? 62 then opened n l else None
  | STitle => if c =? 38 then None else if c =? 60 then Some (SExpect (str "/title>") (str "title"), []) else Some (STitle, [Ch c])
  | SExpect r n => match r with
                   | [x] => if c =? x then Some (SData, [End n]) else None
                   | x :: r' => if c =? x then Some (SExpect r' n, []) else None
                   | [] => None
                   end
  end.
Fixpoint read (s : state) (b : bytes) : option (state * list token) :=
  match b with
  | [] => Some (s, [])
  | c :: r => match step s c with
              | Some (s1, t1) => match read s1 r with Some (s2, t2) => Some (s2, t1 ++ t2) | None => None end
              | None => None
              end
  end.
(** The page b consists of these tokens. *)
Definition html (b : bytes) (ts : list token) : Prop := read SData b = Some (SData, ts).

(** The text a page shows for s: there is no character 0 in pages, U+FFFD stands for it. *)
Definition visible (s : bytes) : bytes := flat_map (fun c => if c =? 0 then [239; 191; 189] else [c]) s.

(** The attribute of a name (the first counts). *)
Fixpoint attribute (name : bytes) (l : list (bytes * bytes)) : option bytes :=
  match l with [] => None | (a, v) :: r => if bytes_eqb a name then Some v else attribute name r end.
(** document.getElementById: the first element with the id. *)
Fixpoint by_id (id : bytes) (ts : list token) : option (bytes * list (bytes * bytes)) :=
  match ts with
  | [] => None
  | Start n l :: r => match attribute [105; 100] l with
                      | Some i => if bytes_eqb i id then Some (n, l) else by_id id r
                      | None => by_id id r
                      end
  | _ :: r => by_id id r
  end.
(** The elements of a page: its tags without attributes. *)
Fixpoint tags (ts : list token) : list (bool * bytes) :=
  match ts with
  | [] => []
  | Start n _ :: r => (true, n) :: tags r
  | End n :: r => (false, n) :: tags r
  | _ :: r => tags r
  end.
(** The text box with the id starts with a text; the check box with the id starts checked or not. *)
Definition shows (ts : list token) (id : string) (v : bytes) : Prop :=
  exists l, by_id (str id) ts = Some (str "input", l) /\ attribute (str "value") l = Some v.
Definition ticked (ts : list token) (id : string) (x : bool) : Prop :=
  exists l, by_id (str id) ts = Some (str "input", l) /\ attribute (str "type") l = Some (str "checkbox") /\ (attribute (str "checked") l <> None <-> x = true).
(** The ids under which site.js (lines 134-183) looks for the boxes. *)
Definition box_id (b : tbox) : string :=
  match b with
  | Bname => "vesselName" | Bmanufacturer => "vesselManufacturer" | Bmodel => "vesselModel" | Byear => "vesselYear" | Bmmsi => "mmsi"
  | Bcallsign => "callsign" | Bregistration => "registration"
  | Buuid0 => "uuid_0" | Buuid1 => "uuid_1" | Buuid2 => "uuid_2" | Buuid3 => "uuid_3" | Buuid4 => "uuid_4"
  | BlistenOn => "listenOn" | Bport => "port" | Bcertificate => "certificate"
  | BmqttHost => "mqttHost" | BmqttPort => "mqttPort" | BmqttClientId => "mqttClientId" | BmqttUsername => "mqttUsername" | BmqttPassword => "mqttPassword"
  end.
Definition check_id (b : cbox) : string :=
  match b with CenableWebsockets => "enableWebsockets" | CuseTls => "useTls" | CmqttEnable => "mqttEnable" | CmqttUseTls => "mqttUseTls" end.

(** The scheme of an address, in lower case: browsers leave out control characters and spaces in
    front and tabs and line breaks anywhere; a scheme is a letter followed by letters, digits, +,
    - and . up to a colon.  None: no scheme, the address is on the same server (or //server). *)
Definition clean_url (u : bytes) : bytes :=
  (fix strip l := match l with c :: r => if c <=? 32 then strip r else l | [] => [] end) (filter (fun c => negb (existsb (Z.eqb c) [9; 10; 13])) u).
Fixpoint scheme_rest (u : bytes) : option bytes :=
  match u with
  | [] => None
  | c :: r => if c =? 58 then Some []
              else if letter c || ((48 <=? c) && (c <=? 57)) || existsb (Z.eqb c) (str "+-.")
                   then match scheme_rest r with Some s => Some (lower c :: s) | None => None end
                   else None
  end.
Definition scheme (u : bytes) : option bytes :=
  match clean_url u with c :: r => if letter c then scheme_rest (c :: r) else None | [] => None end.
(** Addresses that no script runs from. *)
Definition harmless (u : bytes) : Prop :=
  match scheme u with None => True | Some s => In s [str "http"; str "https"; str "mailto"] end.
(** Characters that need no change in addresses. *)
Definition url_char (c : Z) : Prop := letter c = true \/ 48 <= c <= 57 \/ In c (str "!#$&*+,/:;=?@[]-._~").

(** A line break and k spaces. *)
Definition nl (k : nat) : list token := Ch 10 :: repeat (Ch 32) k.
Definition text (s : bytes) : list token := map Ch s.
Definition open (n : string) (l : list (string * bytes)) : list token := [Start (str n) (map (fun kv => (str (fst kv), snd kv)) l)].
Definition close (n : string) : list token := [End (str n)].
(** A row of the list of apps (/repo/templates/apps.gtpl:15-39). *)
Definition app_row (name version description author npm : bytes) (path : option bytes) (installed : bytes) : list token :=
  nl 4 ++ open "tr" [] ++
  nl 6 ++ open "td" [] ++
  nl 8 ++ open "form" [("class", str "appInstall")]%string ++
  nl 10 ++ open "input" [("type", str "hidden"); ("name", str "name"); ("value", name)]%string ++
  nl 10 ++ open "input" [("type", str "hidden"); ("name", str "version"); ("value", version)]%string ++
  nl 10 ++ open "button" [("class", str "btn btn-light btn-sm btn-block")]%string ++
  nl 12 ++ text (str "Install ") ++ text version ++
  nl 10 ++ close "button" ++
  nl 8 ++ close "form" ++
  nl 6 ++ close "td" ++
  nl 6 ++ open "td" [("class", str "version")]%string ++ text installed ++ close "td" ++
  nl 6 ++ open "td" [("class", str "path")]%string ++
  nl 8 ++
  match path with
  | Some p => nl 10 ++ open "a" [("href", p)]%string ++ nl 12 ++ text name ++ nl 10 ++ close "a" ++ nl 8
  | None => nl 10 ++ text name ++ nl 8
  end ++
  nl 6 ++ close "td" ++
  nl 6 ++ open "td" [] ++ text description ++ close "td" ++
  nl 6 ++ open "td" [] ++ text author ++ close "td" ++
  nl 6 ++ open "td" [] ++ open "a" [("href", npm)]%string ++ text (str "npm") ++ close "a" ++ close "td" ++
  nl 4 ++ close "tr" ++ nl 2.
(** What an address means to the server that is asked for it (RFC 3986, 2.1): %XX is the byte XX,
    everything else stands for itself. *)
Definition hex_value (c : Z) : option Z :=
  if (48 <=? c) && (c <=? 57) then Some (c - 48)
  else if (65 <=? c) && (c <=? 70) then Some (c - 65 + 10)
  else if (97 <=? c) && (c <=? 102) then Some (c - 97 + 10) else None.
Fixpoint percent_decode (u : bytes) : bytes :=
  match u with
  | [] => []
  | c :: r =>
      match r with
      | a :: b :: r' =>
          match hex_value a, hex_value b with
          | Some x, Some y => if c =? 37 then (16 * x + y) :: percent_decode r' else c :: percent_decode r
          | _, _ => c :: percent_decode r
          end
      | _ => c :: percent_decode r
      end
  end.
