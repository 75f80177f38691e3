(** StartModel: main from the command line and the files to the running program,
    /repo/main/argo.go:60-219, put together from the parts modelled elsewhere: the options
    (FlagsModel), the configuration file (TomlModel, ConfigModel), the logger (LogModel), the
    mapping file (XmlModel), and the program that is then running (PipelineModel).
    Not modelled: what -help prints, the log records of the start, and the signal that ends the
    program (argo.go:217-222). *)
From Verif Require Import GoBase Strconv NmeaTypes PgnTable PgnTexts NmeaModel SignalkModel MainModel PipelineModel
  ConfigModel LogModel FlagsModel TomlModel XmlModel DetailsModel.
Open Scope Z_scope.
Open Scope list_scope.

(** What the MQTT client is made with, argo.go:125-134. *)
Record broker := mkbroker { br_url : bytes; br_client : bytes; br_user : bytes; br_password : bytes; br_tls : bool }.
(** fmt.Sprintf("ssl://%v:%v", host, port) and the setters. *)
Definition broker_of (q : mqtt_cfg) : broker :=
  mkbroker (str "ssl://" ++ mq_host q ++ str ":" ++ itoa (mq_port q)) (mq_client q) (mq_user q) (mq_password q) (mq_tls q).

(** What is outside the program when it starts: the files (None: cannot be read), what stat and
    open find behind a path at a speed (argo.go:229-252), whether a connection to a broker
    succeeds (argo.go:135-137), and the order in which the range statement at argo.go:212 visits
    the interfaces. *)
Record outside := mkoutside {
  os_file : bytes -> option bytes;
  os_device : bytes -> Z -> device;
  os_broker : broker -> bool;
  os_order : list (bytes * iface_cfg) -> list (bytes * iface_cfg) }.

(** One interface goroutine, argo.go:212-215 with 226-252 and 301. *)
Definition connect (w : outside) (i : iface_cfg) : iface :=
  mkif (ic_type i) (os_device w (ic_path i) (ic_speed i)) (match os_file w (ic_path i) with Some t => t | None => [] end).

(** The program once it runs: its configuration, logger, mappings, the consumer's options, the
    broker it is connected to, the address its HTTP server listens on (None: there is none), and
    its interfaces. *)
Record running := mkrunning {
  ru_conf : config; ru_log : logger; ru_maps : mappings; ru_opts : options;
  ru_broker : option broker; ru_http : option bytes; ru_ifs : list iface }.

(** How main gets on: exit status 2 after a usage message; the help; the definitions are printed
    (None: log.Fatal); log.Fatalf because of the configuration, the mappings or the broker (exit
    status 1); or the program runs. *)
Inductive started :=
| BadUsage | Helped | Explained (out : option bytes) | NoConfig | NoMap | NoBroker | Runs (r : running).

Section Main.
(** strings.ToUpper on texts that are not ASCII; mergo's treatment of a nil map; the TOML
    reader's corners and orders; XML's names beyond ASCII; the orders in which maps of the
    definitions are printed. *)
Variables (upper : bytes -> bytes) (nilp lax : bool)
          (order : path -> list (bytes * node) -> list (bytes * node)) (other : bytes -> option config)
          (wide : bytes -> bool) (ord : Z -> Z -> Z -> lookup -> lookup).

(** argo.go:117-119. *)
Definition load_map (w : outside) (name : bytes) : option mappings :=
  match os_file w name with Some data => parse_mappings wide data | None => None end.
(** argo.go:123-138: Some None without MQTT, None if the connection fails. *)
Definition dial (w : outside) (q : mqtt_cfg) : option (option broker) :=
  if mq_enable q then (if os_broker w (broker_of q) then Some (Some (broker_of q)) else None) else Some None.

(** main, argo.go:60-215. *)
Definition main (w : outside) (args : list bytes) : started :=
  match GetCommandLineOptions upper args with                              (* 67 *)
  | None => BadUsage
  | Some o =>
      if a_help o then Helped                                              (* 69-72 *)
      else if a_explain o then Explained (explain ord PgnList PgnTexts)    (* 74-82 *)
      else
        let decoded := match os_file w (a_config o) with Some t => toml_decode lax order other t | None => None end in
        match start_config nilp decoded (a_log o) with                     (* 85-92 *)
        | None => NoConfig
        | Some c =>
            match load_map w (cf_map c) with                               (* 117-120 *)
            | None => NoMap
            | Some m =>
                match dial w (cf_mqtt c) with                              (* 123-138 *)
                | None => NoBroker
                | Some b =>
                    Runs (mkrunning c (set_up (cf_log c)) m                (* 94-107 *)
                            (consumer_options o (sv_websockets (cf_server c)) (mq_enable (cf_mqtt c)))
                            b
                            (if sv_websockets (cf_server c)                (* 142-150 *)
                             then Some (str ":" ++ itoa (sv_port (cf_server c))) else None)
                            (map (fun kv => connect w (snd kv))            (* 212-215 *)
                               (os_order w (match cf_ifaces c with Some l => l | None => [] end))))
                end
            end
        end
  end.

(** The executions of the program that main starts: what argo.go:155-215 sets going. *)
Definition executes (pl : platform) (fmtv : gval -> bytes) (unmarshal : bytes -> option canboat)
    (marshal : Z -> delta -> option bytes) (r : running) : list ylabel -> yresult -> Prop :=
  yrun PgnList (ru_maps r) (ru_opts r) pl fmtv unmarshal marshal (verbose_of (ru_log r)) (ru_ifs r).
End Main.
