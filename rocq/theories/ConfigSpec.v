(** ConfigSpec: vocabulary for the theorems about the configuration (C67-C70, C77, C78). *)
From Verif Require Import GoBase ConfigModel.
Open Scope list_scope.

(* ------------------------------------------------------------------ options *)

(** The options of the configuration that hold one value. *)
Inductive opt :=
| LogLevel | MapFile
| ServerEnableWebsockets | ServerUseTls | ServerPort | ServerListenOn | ServerAssetPath
| ServerCertificate | ServerPublicKeyFile | ServerPrivateKeyFile
| MqttEnable | MqttUseTls | MqttPort | MqttHost | MqttClientId | MqttUsername | MqttPassword | MqttChannel
| VesselName | VesselManufacturer | VesselModel | VesselYear | VesselMmsi | VesselCallsign
| VesselRegistration | VesselUuid
| VesselUuid0 | VesselUuid1 | VesselUuid2 | VesselUuid3 | VesselUuid4.

Inductive value := VBool (b : bool) | VInt (n : Z) | VText (s : bytes).

Definition get (o : opt) (c : config) : value :=
  match o with
  | LogLevel => VText (cf_log c) | MapFile => VText (cf_map c)
  | ServerEnableWebsockets => VBool (sv_websockets (cf_server c))
  | ServerUseTls => VBool (sv_tls (cf_server c))
  | ServerPort => VInt (sv_port (cf_server c))
  | ServerListenOn => VText (sv_listen (cf_server c))
  | ServerAssetPath => VText (sv_assets (cf_server c))
  | ServerCertificate => VText (sv_cert (cf_server c))
  | ServerPublicKeyFile => VText (sv_public (cf_server c))
  | ServerPrivateKeyFile => VText (sv_private (cf_server c))
  | MqttEnable => VBool (mq_enable (cf_mqtt c))
  | MqttUseTls => VBool (mq_tls (cf_mqtt c))
  | MqttPort => VInt (mq_port (cf_mqtt c))
  | MqttHost => VText (mq_host (cf_mqtt c))
  | MqttClientId => VText (mq_client (cf_mqtt c))
  | MqttUsername => VText (mq_user (cf_mqtt c))
  | MqttPassword => VText (mq_password (cf_mqtt c))
  | MqttChannel => VText (mq_channel (cf_mqtt c))
  | VesselName => VText (ve_name (cf_vessel c))
  | VesselManufacturer => VText (ve_manufacturer (cf_vessel c))
  | VesselModel => VText (ve_model (cf_vessel c))
  | VesselYear => VInt (ve_year (cf_vessel c))
  | VesselMmsi => VInt (ve_mmsi (cf_vessel c))
  | VesselCallsign => VText (ve_callsign (cf_vessel c))
  | VesselRegistration => VText (ve_registration (cf_vessel c))
  | VesselUuid => VText (ve_uuid (cf_vessel c))
  | VesselUuid0 => VText (ve_uuid0 (cf_vessel c))
  | VesselUuid1 => VText (ve_uuid1 (cf_vessel c))
  | VesselUuid2 => VText (ve_uuid2 (cf_vessel c))
  | VesselUuid3 => VText (ve_uuid3 (cf_vessel c))
  | VesselUuid4 => VText (ve_uuid4 (cf_vessel c))
  end.
(** Options derived from the UUID, and options no file holds. *)
Definition uuid_part (o : opt) : Prop := In o [VesselUuid0; VesselUuid1; VesselUuid2; VesselUuid3; VesselUuid4].
Definition not_in_file (o : opt) : Prop := o = ServerCertificate \/ uuid_part o.
Definition vessel_option (o : opt) : Prop :=
  uuid_part o \/ In o [VesselName; VesselManufacturer; VesselModel; VesselYear; VesselMmsi; VesselCallsign; VesselRegistration; VesselUuid].

Definition unset (v : value) : Prop := v = VBool false \/ v = VInt 0 \/ v = VText [].

(** The defaults: everything else is off, 0 or empty by default. *)
Inductive default : opt -> value -> Prop :=
| d_log : default LogLevel (VText (str "INFO"))
| d_map : default MapFile (VText (str "map.xml"))
| d_ws : default ServerEnableWebsockets (VBool true)
| d_port : default ServerPort (VInt 8080)
| d_assets : default ServerAssetPath (VText (str "./assets"))
| d_mtls : default MqttUseTls (VBool true)
| d_mport : default MqttPort (VInt 8883)
| d_mhost : default MqttHost (VText (str "localhost"))
| d_mclient : default MqttClientId (VText (str "argo"))
| d_muser : default MqttUsername (VText (str "signalk"))
| d_mpass : default MqttPassword (VText (str "signalk"))
| d_mchan : default MqttChannel (VText (str "signalk/argo")).

(** v is the first of the values that is set; if none is, v is unset. *)
Definition first_set (l : list value) (v : value) : Prop :=
  (exists a b, l = a ++ v :: b /\ Forall unset a /\ ~ unset v) \/ (Forall unset l /\ unset v).

(** The interface of a name. *)
Definition iface_of (c : config) (k : bytes) (i : iface_cfg) : Prop :=
  exists l, cf_ifaces c = Some l /\ In (k, i) l.
(** A name stands for one interface. *)
Definition well_keyed (c : config) : Prop := forall l, cf_ifaces c = Some l -> NoDup (map fst l).

(* ------------------------------------------------------------------ UUID parts *)

(** s consists of the parts l with a dash between each two. *)
Fixpoint dashed (l : list bytes) : bytes :=
  match l with [] => [] | [p] => p | p :: r => p ++ 45 :: dashed r end.
Definition has_parts (s : bytes) (l : list bytes) : Prop :=
  l <> [] /\ Forall (fun p => ~ In 45 p) l /\ dashed l = s.
