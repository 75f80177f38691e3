(** ApiModel: /repo/main/api_server.go, and the routing of requests in api_server.go:163-172,
    ui_server.go:200-218 and websocket_server.go:147-153,183-186. *)
From Verif Require Import GoBase Strconv NmeaTypes NmeaModel.
Open Scope list_scope.

(* ------------------------------------------------------------------ summaries *)

(** IndexEntry, api_server.go:34-43. *)
Record index_entry := mkie {
  ie_pgn : Z; ie_name : string; ie_category : string; ie_verified : bool; ie_size : Z;
  ie_repeating : Z; ie_type : string; ie_details : bytes }.

(** GetPGNSummary, api_server.go:50-72.  None: index out of range. *)
Definition GetPGNSummary (t : list pgn_def) (i : Z) : option index_entry :=
  match zget t i with
  | None => None
  | Some pgn =>
      let typ :=
        if p_size pgn <=? 8 then "Single Frame"%string
        else if (8 <? p_size pgn) && (p_size pgn <=? 223) then "Fast Packet"%string
        else if (223 <? p_size pgn) && (p_size pgn <=? 1785) then "ISO 11783 Multi-Packet"%string
        else "Invalid"%string in
      Some (mkie (p_pgn pgn) (p_desc pgn) (p_cat pgn) (p_known pgn) (p_size pgn) (p_rep pgn) typ
                 (str "/api/v1/messages/" ++ itoa i))
  end.

(* ------------------------------------------------------------------ index *)

(** Go's unicode.SimpleFold on an ASCII character: the next larger rune that differs in case
    only, or the smallest one of the class.  (SimpleFold goes through k, U+212A, K and s,
    U+017F, S.) *)
Definition simple_fold (c : Z) : Z :=
  if c =? 75 then 107 else if c =? 107 then 8490
  else if c =? 83 then 115 else if c =? 115 then 383
  else if (65 <=? c) && (c <=? 90) then c + 32
  else if (97 <=? c) && (c <=? 122) then c - 32
  else c.
(** ... and on the two other members of these classes. *)
Definition simple_fold_high (c : Z) : Z :=
  if c =? 8490 then 75 else if c =? 383 then 83 else c.
Definition fold1 (c : Z) : Z := if c <? 128 then simple_fold c else simple_fold_high c.

(** utf8.DecodeRuneInString, as far as strings.EqualFold needs it against an ASCII text: the
    two runes above U+007F that fold to ASCII letters; any other sequence, valid or not, yields
    a rune that differs from every ASCII character and every one of their folds, written 65533. *)
Definition next_rune (s : bytes) : option (Z * bytes) :=
  match s with
  | [] => None
  | 197 :: 191 :: r => Some (383, r)
  | 226 :: 132 :: 170 :: r => Some (8490, r)
  | c :: r => Some (if c <? 128 then c else 65533, r)
  end.

(** The comparison of two runes inside strings.EqualFold: [a] smaller than [b]. *)
Definition runes_fold (sr tr : Z) : bool :=
  if tr =? sr then true
  else
    let a := Z.min sr tr in let b := Z.max sr tr in
    if (b <? 128) && ((65 <=? a) && (a <=? 90)) then b =? a + 32
    else
      (* r := SimpleFold(a); for r != a && r < b { r = SimpleFold(r) }: classes have at most
         three members, so at most two rounds *)
      let r := fold1 a in
      let r := if negb (r =? a) && (r <? b) then fold1 r else r in
      let r := if negb (r =? a) && (r <? b) then fold1 r else r in
      r =? b.

(** strings.EqualFold(s, t) (Go standard library) for an ASCII text t; called at
    api_server.go:86 with t a category of the table. *)
Fixpoint equal_fold_loop (n : nat) (s t : bytes) : bool :=
  match n with
  | O => false
  | S n' =>
      match next_rune s, next_rune t with
      | Some (sr, s'), Some (tr, t') => if runes_fold sr tr then equal_fold_loop n' s' t' else false
      | None, None => true
      | _, _ => false
      end
  end.
Definition EqualFold (s t : bytes) : bool := equal_fold_loop (S (List.length t)) s t.

(** MessagesIndex, api_server.go:78-112: the entries it prints.  [category] and [typ] are the
    query parameters, empty when absent.  (An empty result is printed as null.) *)
Fixpoint index_from (t rest : list pgn_def) (i : Z) (category typ : bytes) : list index_entry :=
  match rest with
  | [] => []
  | pgn :: more =>
      let tail := index_from t more (i + 1) category typ in
      if negb (bytes_eqb category []) && negb (EqualFold category (str (p_cat pgn))) then tail
      else
        match GetPGNSummary t i with
        | None => tail
        | Some p =>
            if negb (bytes_eqb typ []) then
              if bytes_eqb typ (str "s") && (ie_size p <=? 8) then p :: tail
              else if bytes_eqb typ (str "f") && (8 <? ie_size p) && (ie_size p <=? 223) then p :: tail
              else if bytes_eqb typ (str "i") && (223 <? ie_size p) && (ie_size p <=? 1785) then p :: tail
              else if bytes_eqb typ (str "o") && (1785 <? ie_size p) then p :: tail
              else tail
            else p :: tail
        end
  end.
Definition MessagesIndex (t : list pgn_def) (category typ : bytes) : list index_entry :=
  index_from t t 0 category typ.

(* ------------------------------------------------------------------ details *)

(** strings.Split(s, sep) for a one-character separator, api_server.go:117, config.go:114. *)
Fixpoint split_at (sep : Z) (s : bytes) : list bytes :=
  match s with
  | [] => [[]]
  | c :: r => if c =? sep then [] :: split_at sep r
              else match split_at sep r with
                   | p :: ps => (c :: p) :: ps
                   | [] => [[c]]
                   end
  end.

(** The body of a details page: the entry in JSON or XML, or nothing if encoding fails. *)
Inductive details := DJson (i : Z) | DXml (i : Z) | DNone.

(** xml.Marshal fails on a map, that is on a two-level lookup (which, unlike PgnLookup,
    pgn_array.go:95-97, has no MarshalXML method). *)
Definition has_map (p : pgn_def) : bool :=
  existsb (fun f => match f_units f with USubLookup _ => true | _ => false end) (p_fields p).

(** MessageDetailsHandler, api_server.go:114-145.  The panic of line 130 is caught by net/http,
    which closes the connection without a response. *)
Definition MessageDetails (t : list pgn_def) (key : bytes) : outcome details :=
  let tok := split_at 46 key in
  let pgn := parse_int_value 32 (nth 0 tok []) in
  let enc := nth 1 tok [] in
  match (if zlen t <=? pgn then match pgn_first t (u32 pgn) with Ret (id, _) => zget t id | _ => None end
         else zget t pgn),
        (if zlen t <=? pgn then match pgn_first t (u32 pgn) with Ret (id, _) => id | _ => 0 end else pgn) with
  | None, _ => Panic "index out of range"
  | Some def, i =>
      if bytes_eqb enc (str "xml") then Ret (if has_map def then DNone else DXml i)
      else Ret (DJson i)
  end.

(* ------------------------------------------------------------------ routing *)

Inductive handler :=
| HRedirect            (* net/http adds the final slash *)
| HApiHome | HIndex | HDetails (key : bytes) | HSend
| HStream | HControl | HWsOther   (* serveWs, websocket_server.go:147-153, by path *)
| HStats
| HAppFiles | HAssets | HUuid | HAdmin | HInstall | HApps | HHome
| HNotFound.

Fixpoint has_prefix (p s : bytes) : bool :=
  match p, s with
  | [], _ => true
  | x :: p', y :: s' => (x =? y) && has_prefix p' s'
  | _, [] => false
  end.

(** The router of ApiServer, api_server.go:163-170: routes in order; {key} stands for one or
    more characters other than a slash. *)
Definition api_router (path : bytes) : handler :=
  let base := str "/signalk/v1/api" in
  let rest := skipn (List.length base) path in
  if bytes_eqb rest (str "/") then HApiHome
  else if bytes_eqb rest (str "/messages") then HIndex
  else if bytes_eqb rest (str "/messages/") then HIndex
  else if has_prefix (str "/messages/") rest && negb (existsb (Z.eqb 47) (skipn 10 rest)) then
    HDetails (skipn 10 rest)
  else if bytes_eqb rest (str "/control/send") then HSend
  else HNotFound.

(** The router of UiServer, ui_server.go:200-217; [apps] are the keys of getInstalledPackages
    at start-up, in any order (all get the same handler), [late] the path prefixes that
    /apps/install has added since (ui_server.go:170-174), after all others.  Simplified: names
    with braces, which the router would read as patterns, are left out. *)
Definition ui_router (apps late : list bytes) (path : bytes) : handler :=
  if existsb (fun k => has_prefix (str "/apps/" ++ k) path) apps then HAppFiles
  else if has_prefix (str "/assets/") path then HAssets
  else if bytes_eqb path (str "/admin/uuid") then HUuid
  else if bytes_eqb path (str "/admin") then HAdmin
  else if bytes_eqb path (str "/apps/install") then HInstall
  else if bytes_eqb path (str "/apps") then HApps
  else if bytes_eqb path (str "/") then HHome
  else if existsb (fun p => has_prefix p path) late then HAppFiles
  else HNotFound.

(** http.DefaultServeMux with the patterns registered at api_server.go:171,
    websocket_server.go:184-185 and ui_server.go:218: the longest matching pattern, a pattern
    ending in a slash matching every path below it, and a redirect for such a path without the
    slash.  The path is assumed to be clean (net/http redirects others to their clean form). *)
Definition route (apps late : list bytes) (path : bytes) : handler :=
  if bytes_eqb path (str "/signalk/v1") || bytes_eqb path (str "/signalk/v1/api") then HRedirect
  else if has_prefix (str "/signalk/v1/api/") path then api_router path
  else if has_prefix (str "/signalk/v1/") path then
    if bytes_eqb path (str "/signalk/v1/stream") then HStream
    else if bytes_eqb path (str "/signalk/v1/control") then HControl else HWsOther
  else if bytes_eqb path (str "/ws/stats") then HStats
  else ui_router apps late path.

(* ------------------------------------------------------------------ the command channel *)

(** cmdch, argo.go:112, is unbuffered.  Its uses in the program: the send of
    SendMessageHandler (api_server.go:158).  ApiServer and UiServer pass it around
    (argo.go:153-154); no function receives from it. *)
Inductive cmd_use := CmdSend | CmdReceive.
Definition cmd_uses : list cmd_use := [CmdSend].

(** A request to the endpoint: its method, and whether its body decodes; where its handler
    stands: not started, blocked in the send, returned; what it has written. *)
Inductive req_state := QNew (post : bool) (valid : bool) | QSending | QDone.
Record request := mkreq { q_state : req_state; q_body : bytes }.
(** Goroutines waiting to receive (none can start: see [cmd_uses]). *)
Record cmd_world := mkcw { cw_reqs : list request; cw_receivers : nat }.
Inductive cmd_step : cmd_world -> cmd_world -> Prop :=
| cs_arrive w post valid :                                   (* a client's request *)
    cmd_step w (mkcw (cw_reqs w ++ [mkreq (QNew post valid) []]) (cw_receivers w))
| cs_get w l r v b :                                         (* api_server.go:149 *)
    cw_reqs w = l ++ mkreq (QNew false v) b :: r ->
    cmd_step w (mkcw (l ++ mkreq QDone b :: r) (cw_receivers w))
| cs_post w l r v b :                                        (* lines 150-158 *)
    cw_reqs w = l ++ mkreq (QNew true v) b :: r ->
    cmd_step w (mkcw (l ++ mkreq QSending (b ++ if v then [] else str "Invalid JSON") :: r) (cw_receivers w))
| cs_receive w :                                             (* a goroutine starts to receive *)
    In CmdReceive cmd_uses ->
    cmd_step w (mkcw (cw_reqs w) (S (cw_receivers w)))
| cs_meet w l r b n :                                        (* rendezvous *)
    cw_reqs w = l ++ mkreq QSending b :: r -> cw_receivers w = S n ->
    cmd_step w (mkcw (l ++ mkreq QDone b :: r) n).
Definition cmd_init : cmd_world := mkcw [] 0.
Inductive cmd_run : cmd_world -> Prop :=
| cr_init : cmd_run cmd_init
| cr_step w w' : cmd_run w -> cmd_step w w' -> cmd_run w'.
