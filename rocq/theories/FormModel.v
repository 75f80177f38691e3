(** FormModel: the settings page: /repo/templates/index.gtpl (what its boxes show),
    /repo/assets/js/site.js (what its buttons do), uuidHandler and adminHandler of
    /repo/main/ui_server.go, and the links of its statistics table.

    Simplifications: the browser is taken to follow the HTML standard; a text box shows the text
    it is given after [sanitize] (line breaks are dropped), Number.parseInt followed by the
    conversion to JSON and encoding/json's into an int is [js_int] (None: the decoder rejects
    the number, Some 0 for NaN, which is sent as null).  Theorems quantify over both. *)
From Verif Require Import GoBase Strconv ApiModel ConfigModel.
Open Scope Z_scope.
Open Scope list_scope.

(* ------------------------------------------------------------------ the form *)

(** The text boxes of the form, index.gtpl:18-164, by their id. *)
Inductive tbox :=
| Bname | Bmanufacturer | Bmodel | Byear | Bmmsi | Bcallsign | Bregistration
| Buuid0 | Buuid1 | Buuid2 | Buuid3 | Buuid4
| BlistenOn | Bport | Bcertificate
| BmqttHost | BmqttPort | BmqttClientId | BmqttUsername | BmqttPassword.
(** The check boxes, index.gtpl:111, 118, 129, 170. *)
Inductive cbox := CenableWebsockets | CuseTls | CmqttEnable | CmqttUseTls.
(** What the boxes hold. *)
Record form := mkform { fm_text : tbox -> bytes; fm_check : cbox -> bool }.

Section Browser.
Variables (sanitize : bytes -> bytes) (js_int : bytes -> option Z).

(** The page as indexHandler (ui_server.go:189-198) makes it: index.gtpl:18-170.  The file
    chooser (line 124) starts empty. *)
Definition shown (c : config) : form :=
  mkform
    (fun b => match b with
      | Bname => sanitize (ve_name (cf_vessel c))
      | Bmanufacturer => sanitize (ve_manufacturer (cf_vessel c))
      | Bmodel => sanitize (ve_model (cf_vessel c))
      | Byear => itoa (ve_year (cf_vessel c))
      | Bmmsi => itoa (ve_mmsi (cf_vessel c))
      | Bcallsign => sanitize (ve_callsign (cf_vessel c))
      | Bregistration => sanitize (ve_registration (cf_vessel c))
      | Buuid0 => sanitize (ve_uuid0 (cf_vessel c))
      | Buuid1 => sanitize (ve_uuid1 (cf_vessel c))
      | Buuid2 => sanitize (ve_uuid2 (cf_vessel c))
      | Buuid3 => sanitize (ve_uuid3 (cf_vessel c))
      | Buuid4 => sanitize (ve_uuid4 (cf_vessel c))
      | BlistenOn => sanitize (sv_listen (cf_server c))
      | Bport => itoa (sv_port (cf_server c))
      | Bcertificate => []
      | BmqttHost => sanitize (mq_host (cf_mqtt c))
      | BmqttPort => itoa (mq_port (cf_mqtt c))
      | BmqttClientId => sanitize (mq_client (cf_mqtt c))
      | BmqttUsername => sanitize (mq_user (cf_mqtt c))
      | BmqttPassword => sanitize (mq_password (cf_mqtt c))
      end)
    (fun b => match b with
      | CenableWebsockets => sv_websockets (cf_server c)
      | CuseTls => sv_tls (cf_server c)
      | CmqttEnable => mq_enable (cf_mqtt c)
      | CmqttUseTls => mq_tls (cf_mqtt c)
      end).

(** Array.prototype.join with a dash, site.js:182. *)
Fixpoint js_join (l : list bytes) : bytes :=
  match l with [] => [] | [x] => x | x :: r => x ++ 45 :: js_join r end.
(** getUUID, site.js:173-183. *)
Definition get_uuid (f : form) : bytes :=
  js_join [fm_text f Buuid0; fm_text f Buuid1; fm_text f Buuid2; fm_text f Buuid3; fm_text f Buuid4].

(** submitForm, site.js:134-171, and the decoding of its text at ui_server.go:98-99 (None: an
    error).  There is no box with the id mqttChannel: its value is undefined, and left out.
    Interfaces added with the other form (site.js:97-132) are shown, but not sent. *)
Definition submit (f : form) : option config :=
  match js_int (fm_text f Byear), js_int (fm_text f Bmmsi), js_int (fm_text f Bport), js_int (fm_text f BmqttPort) with
  | Some year, Some mmsi, Some port, Some mport =>
      Some (mkconfig [] []
        (mkserver (fm_check f CenableWebsockets) (fm_check f CuseTls) port (fm_text f BlistenOn) []
           (fm_text f Bcertificate) [] [])
        (mkmqtt (fm_check f CmqttEnable) (fm_check f CmqttUseTls) mport (fm_text f BmqttHost)
           (fm_text f BmqttClientId) (fm_text f BmqttUsername) (fm_text f BmqttPassword) [])
        None
        (mkvessel (fm_text f Bname) (fm_text f Bmanufacturer) (fm_text f Bmodel) year mmsi
           (fm_text f Bcallsign) (fm_text f Bregistration) (get_uuid f) [] [] [] [] []))
  | _, _, _, _ => None
  end.

(** Pressing "Update Settings": the POST to /admin, site.js:165-168, ui_server.go:95-106. *)
Definition press (nilp : bool) (c : config) (f : form) : config * admin_result :=
  admin_merge nilp c true (submit f).
Definition presses (nilp : bool) (c : config) (fs : list form) : config :=
  fold_left (fun c f => fst (press nilp c f)) fs c.
End Browser.

(* ------------------------------------------------------------------ UUIDs *)

(** encoding/hex, lower case. *)
Definition hexl (d : Z) : Z := if d <? 10 then 48 + d else 87 + d.
Definition hex_bytes (l : bytes) : bytes := flat_map (fun b => [hexl (b / 16); hexl (b mod 16)]) l.
(** uuid.NewV4 (library satori/go.uuid): 16 random bytes, then SetVersion(4) and SetVariant. *)
Definition new_v4 (r : bytes) : bytes :=
  firstn 6 r ++ [Z.lor (Z.land (nth 6 r 0) 15) 64] ++ firstn 1 (skipn 7 r) ++
  [Z.lor (Z.land (nth 8 r 0) 191) 128] ++ skipn 9 r.
(** UUID.String: hex digits in five groups. *)
Definition uuid_string (u : bytes) : bytes :=
  hex_bytes (firstn 4 u) ++ [45] ++ hex_bytes (firstn 2 (skipn 4 u)) ++ [45] ++
  hex_bytes (firstn 2 (skipn 6 u)) ++ [45] ++ hex_bytes (firstn 2 (skipn 8 u)) ++ [45] ++
  hex_bytes (skipn 10 u).
(** strings.ToUpper on ASCII. *)
Definition upper (c : Z) : Z := if (97 <=? c) && (c <=? 122) then c - 32 else c.
(** uuidHandler, ui_server.go:77-93: the parts it sends. *)
Definition uuid_parts (random : bytes) : list bytes :=
  split_at 45 (map upper (uuid_string (new_v4 random))).
(** "Generate new UUID", site.js:31-42: the five boxes get the five parts. *)
Definition generate (random : bytes) (f : form) : form :=
  let u := uuid_parts random in
  mkform (fun b => match b with
      | Buuid0 => nth 0 u [] | Buuid1 => nth 1 u [] | Buuid2 => nth 2 u []
      | Buuid3 => nth 3 u [] | Buuid4 => nth 4 u []
      | b => fm_text f b
      end) (fm_check f).

(* ------------------------------------------------------------------ statistics links *)

(** showPgnData, site.js:66-67: the address behind the entry of a PGN in the statistics table
    (site.js:50-61; its key is the PGN in decimal, /repo/main/argo.go:171). *)
Definition stats_link (key : bytes) : bytes := str "/signalk/v1/api/messages/" ++ key.
