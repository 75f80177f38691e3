(** ConfigModel: /repo/config/config.go (the configuration and its defaults), the update of the
    running configuration by the admin page and its saving, /repo/main/ui_server.go:95-115, and
    what /repo/main/argo.go does with the configuration at start-up (lines 70-93, 123-151).
    Here a decoded text is an arbitrary configuration or an error, and an encoder an arbitrary
    function; TOML's are modelled in TomlModel, JSON's in UnjsonModel and JsonModel. *)
From Verif Require Import GoBase ApiModel.
Open Scope list_scope.

(* ------------------------------------------------------------------ the configuration *)

(** serverConfig, config.go:39-48. *)
Record server_cfg := mkserver {
  sv_websockets : bool; sv_tls : bool; sv_port : Z; sv_listen : bytes; sv_assets : bytes;
  sv_cert : bytes; sv_public : bytes; sv_private : bytes }.
(** mqttConfig, config.go:50-59. *)
Record mqtt_cfg := mkmqtt {
  mq_enable : bool; mq_tls : bool; mq_port : Z; mq_host : bytes; mq_client : bytes;
  mq_user : bytes; mq_password : bytes; mq_channel : bytes }.
(** InterfaceConfig, config.go:61-65. *)
Record iface_cfg := mkiface { ic_path : bytes; ic_type : bytes; ic_speed : Z }.
(** VesselConfig, config.go:67-81. *)
Record vessel_cfg := mkvessel {
  ve_name : bytes; ve_manufacturer : bytes; ve_model : bytes; ve_year : Z; ve_mmsi : Z;
  ve_callsign : bytes; ve_registration : bytes; ve_uuid : bytes;
  ve_uuid0 : bytes; ve_uuid1 : bytes; ve_uuid2 : bytes; ve_uuid3 : bytes; ve_uuid4 : bytes }.
(** TomlConfig, config.go:30-37.  The map of interfaces: None is the nil map; entries in any
    order, keys once each. *)
Definition ifaces := option (list (bytes * iface_cfg)).
Record config := mkconfig {
  cf_log : bytes; cf_map : bytes; cf_server : server_cfg; cf_mqtt : mqtt_cfg;
  cf_ifaces : ifaces; cf_vessel : vessel_cfg }.

(** defaultConfig, config.go:83-101 (fields not named there are zero). *)
Definition default_config : config :=
  mkconfig (str "INFO") (str "map.xml")
    (mkserver true false 8080 [] (str "./assets") [] [] [])
    (mkmqtt false true 8883 (str "localhost") (str "argo") (str "signalk") (str "signalk") (str "signalk/argo"))
    None
    (mkvessel [] [] [] 0 0 [] [] [] [] [] [] [] []).

(* ------------------------------------------------------------------ mergo *)

(** mergo.deepMerge on a basic field: if dst.CanSet() && !isEmptyValue(src) &&
    isEmptyValue(dst) then dst.Set(src) (library mergo, called at config.go:110,
    ui_server.go:105). *)
Definition merge_bool (dst src : bool) : bool := if src && negb dst then src else dst.
Definition merge_int (dst src : Z) : Z := if negb (src =? 0) && (dst =? 0) then src else dst.
Definition empty (s : bytes) : bool := match s with [] => true | _ => false end.
Definition merge_str (dst src : bytes) : bytes := if negb (empty src) && empty dst then src else dst.

Fixpoint if_find (l : list (bytes * iface_cfg)) (k : bytes) : option iface_cfg :=
  match l with
  | [] => None
  | (x, v) :: r => if bytes_eqb x k then Some v else if_find r k
  end.
(** mergo.deepMerge on a map of structs: an entry of src goes in whole if dst has none of that
    key; an existing entry is left alone (the struct inside a map cannot be set).  A nil dst
    map: the release of mergo in go.mod may write into it, which panics, or make a map first;
    [nilp] says which (both are covered).  false: it panics. *)
Definition merge_map (nilp : bool) (dst src : ifaces) : ifaces * bool :=
  match dst, src with
  | _, None => (dst, true)
  | None, Some [] => (dst, true)
  | None, Some s => if nilp then (None, false) else (Some s, true)
  | Some d, Some s => (Some (d ++ filter (fun kv => match if_find d (fst kv) with None => true | Some _ => false end) s), true)
  end.

(** mergo.deepMerge on the structs, field by field. *)
Definition merge_server (d s : server_cfg) : server_cfg :=
  mkserver (merge_bool (sv_websockets d) (sv_websockets s)) (merge_bool (sv_tls d) (sv_tls s))
    (merge_int (sv_port d) (sv_port s)) (merge_str (sv_listen d) (sv_listen s))
    (merge_str (sv_assets d) (sv_assets s)) (merge_str (sv_cert d) (sv_cert s))
    (merge_str (sv_public d) (sv_public s)) (merge_str (sv_private d) (sv_private s)).
Definition merge_mqtt (d s : mqtt_cfg) : mqtt_cfg :=
  mkmqtt (merge_bool (mq_enable d) (mq_enable s)) (merge_bool (mq_tls d) (mq_tls s))
    (merge_int (mq_port d) (mq_port s)) (merge_str (mq_host d) (mq_host s))
    (merge_str (mq_client d) (mq_client s)) (merge_str (mq_user d) (mq_user s))
    (merge_str (mq_password d) (mq_password s)) (merge_str (mq_channel d) (mq_channel s)).
Definition merge_vessel (d s : vessel_cfg) : vessel_cfg :=
  mkvessel (merge_str (ve_name d) (ve_name s)) (merge_str (ve_manufacturer d) (ve_manufacturer s))
    (merge_str (ve_model d) (ve_model s)) (merge_int (ve_year d) (ve_year s))
    (merge_int (ve_mmsi d) (ve_mmsi s)) (merge_str (ve_callsign d) (ve_callsign s))
    (merge_str (ve_registration d) (ve_registration s)) (merge_str (ve_uuid d) (ve_uuid s))
    (merge_str (ve_uuid0 d) (ve_uuid0 s)) (merge_str (ve_uuid1 d) (ve_uuid1 s))
    (merge_str (ve_uuid2 d) (ve_uuid2 s)) (merge_str (ve_uuid3 d) (ve_uuid3 s))
    (merge_str (ve_uuid4 d) (ve_uuid4 s)).

(** mergo.Merge(&d, s): the fields in order, so a panic at the interfaces leaves the vessel
    untouched. *)
Definition Merge (nilp : bool) (d s : config) : config * bool :=
  let '(i, ok) := merge_map nilp (cf_ifaces d) (cf_ifaces s) in
  (mkconfig (merge_str (cf_log d) (cf_log s)) (merge_str (cf_map d) (cf_map s))
     (merge_server (cf_server d) (cf_server s)) (merge_mqtt (cf_mqtt d) (cf_mqtt s))
     i (if ok then merge_vessel (cf_vessel d) (cf_vessel s) else cf_vessel d), ok).

(* ------------------------------------------------------------------ reading *)

(** config.go:114-121. *)
Definition set_uuid_parts (v : vessel_cfg) : vessel_cfg :=
  match split_at 45 (ve_uuid v) with
  | [u0; u1; u2; u3; u4] =>
      mkvessel (ve_name v) (ve_manufacturer v) (ve_model v) (ve_year v) (ve_mmsi v)
        (ve_callsign v) (ve_registration v) (ve_uuid v) u0 u1 u2 u3 u4
  | _ => v
  end.

(** ReadConfig, config.go:103-124, given what toml.DecodeFile made of the file (None: an
    error).  The second component: no error. *)
Definition ReadConfig (nilp : bool) (decoded : option config) : config * bool :=
  match decoded with
  | None => (default_config, false)
  | Some c =>
      let '(c, ok) := Merge nilp c default_config in
      if ok then
        (mkconfig (cf_log c) (cf_map c) (cf_server c) (cf_mqtt c) (cf_ifaces c) (set_uuid_parts (cf_vessel c)), true)
      else (default_config, false)     (* not reached: the defaults have no interfaces *)
  end.

(** Start-up, argo.go:84-93: the running configuration, or None if the program exits. *)
Definition start_config (nilp : bool) (decoded : option config) (log_option : bytes) : option config :=
  match ReadConfig nilp decoded with
  | (c, true) =>
      Some (if empty log_option then c
            else mkconfig log_option (cf_map c) (cf_server c) (cf_mqtt c) (cf_ifaces c) (cf_vessel c))
  | _ => None
  end.

(* ------------------------------------------------------------------ the admin page *)

Inductive admin_result := AIgnored | ABadRequest | APanic | AMerged.
(** adminHandler up to the files, ui_server.go:96-106: [data] is the decoded body (None: a JSON
    error).  mergo.Merge returns no error for two configurations. *)
Definition admin_merge (nilp : bool) (sys : config) (post : bool) (data : option config) : config * admin_result :=
  if post then
    match data with
    | None => (sys, ABadRequest)
    | Some d => let '(c, ok) := Merge nilp sys d in (c, if ok then AMerged else APanic)
    end
  else (sys, AIgnored).

(* ------------------------------------------------------------------ saving *)

(** The two files adminHandler writes, in the current directory (None: does not exist). *)
Record files := mkfiles { f_conf : option bytes; f_back : option bytes }.

(** write(2) at an offset: one byte. *)
Fixpoint put (content : bytes) (off : nat) (b : Z) : bytes :=
  match off, content with
  | O, [] => [b]
  | O, _ :: r => b :: r
  | S n, [] => 0 :: put [] n b
  | S n, c :: r => c :: put r n b
  end.
Definition put_file (f : option bytes) (off : nat) (b : Z) : option bytes :=
  match f with None => None | Some c => Some (put c off b) end.

(** Where one request stands in saving the text [txt] (None: the encoder failed), with the
    number of bytes it has written so far.
    ui_server.go:107 (ReadFile), 108 (WriteFile), 109 = config.go:126-140 (Create, Write). *)
Inductive save_pc :=
| SRead | SOpenBack (tmp : bytes) | SWriteBack (tmp : bytes) (n : nat)
| SOpenConf | SWriteConf (n : nat) | SDone.

(** One step of saving.  Files are written byte by byte (a crash may come between any two); an
    error of a call (only if [faults]) is ignored by the code, which goes on. *)
Inductive save_step (faults : bool) (txt : option bytes) : save_pc * files -> save_pc * files -> Prop :=
| ss_read f : save_step faults txt (SRead, f) (SOpenBack (match f_conf f with Some c => c | None => [] end), f)
| ss_read_fails f : faults = true -> save_step faults txt (SRead, f) (SOpenBack [], f)
| ss_open_back tmp f : save_step faults txt (SOpenBack tmp, f) (SWriteBack tmp 0, mkfiles (f_conf f) (Some []))
| ss_open_back_fails tmp f : faults = true -> save_step faults txt (SOpenBack tmp, f) (SOpenConf, f)
| ss_write_back tmp n b f : nth_error tmp n = Some b ->
    save_step faults txt (SWriteBack tmp n, f) (SWriteBack tmp (S n), mkfiles (f_conf f) (put_file (f_back f) n b))
| ss_back_written tmp n f : nth_error tmp n = None \/ faults = true ->
    save_step faults txt (SWriteBack tmp n, f) (SOpenConf, f)
| ss_encode_fails f : txt = None -> save_step faults txt (SOpenConf, f) (SDone, f)
| ss_open_conf t f : txt = Some t -> save_step faults txt (SOpenConf, f) (SWriteConf 0, mkfiles (Some []) (f_back f))
| ss_open_conf_fails f : faults = true -> save_step faults txt (SOpenConf, f) (SDone, f)
| ss_write_conf t n b f : txt = Some t -> nth_error t n = Some b ->
    save_step faults txt (SWriteConf n, f) (SWriteConf (S n), mkfiles (put_file (f_conf f) n b) (f_back f))
| ss_conf_written t n f : txt = Some t -> nth_error t n = None \/ faults = true ->
    save_step faults txt (SWriteConf n, f) (SDone, f).

(** Several saves at once: each request has its own goroutine and its own file offsets. *)
Record saver := mksaver { s_txt : option bytes; s_pc : save_pc }.
Inductive saves_step (faults : bool) : list saver * files -> list saver * files -> Prop :=
| svs_one l s r f pc' f' : save_step faults (s_txt s) (s_pc s, f) (pc', f') ->
    saves_step faults (l ++ s :: r, f) (l ++ mksaver (s_txt s) pc' :: r, f').

(* ------------------------------------------------------------------ MQTT *)

(** argo.go:123-138: mqttClient is set at start-up if MQTT is enabled then, and never again;
    argo.go:204-205: each message that became a delta is published if MQTT is enabled now.
    A call on the nil client panics, and the process dies. *)
Record live := mklive { l_sys : config; l_client : bool; l_dead : bool; l_published : list bytes }.
Definition live_start (c : config) : live := mklive c (mq_enable (cf_mqtt c)) false [].
Inductive live_event := LAdmin (post : bool) (data : option config) | LDelta (b : bytes).
Definition live_step (nilp : bool) (s : live) (e : live_event) : live :=
  if l_dead s then s
  else match e with
  | LAdmin post data => mklive (fst (admin_merge nilp (l_sys s) post data)) (l_client s) false (l_published s)
  | LDelta b =>
      if mq_enable (cf_mqtt (l_sys s)) then
        if l_client s then mklive (l_sys s) true false (l_published s ++ [b])
        else mklive (l_sys s) false true (l_published s)
      else s
  end.
Definition live_run (nilp : bool) (s : live) (es : list live_event) : live := fold_left (live_step nilp) es s.

(** The text start-up reads, argo.go:85 with flags.go:52 (option -config), whereas saving always
    uses the name argo.conf, ui_server.go:107-109. *)
Definition config_text (path : bytes) (f : files) (others : bytes -> option bytes) : option bytes :=
  if bytes_eqb path (str "argo.conf") then f_conf f
  else if bytes_eqb path (str "argo.conf~") then f_back f
  else others path.
(** A start with the file's text, a decoder and the options -config and -log (in upper case,
    flags.go:56). *)
Definition start (nilp : bool) (decode : bytes -> option config) (path log_option : bytes)
    (f : files) (others : bytes -> option bytes) : option config :=
  start_config nilp (match config_text path f others with Some t => decode t | None => None end) log_option.
