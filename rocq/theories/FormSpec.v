(** FormSpec: vocabulary for the theorems about the settings page (C80-C82). *)
From Verif Require Import GoBase ConfigModel ConfigSpec FormModel.
Open Scope Z_scope.
Open Scope list_scope.

(** Which box of the page belongs to which option. *)
Inductive text_box : opt -> tbox -> Prop :=
| tb_name : text_box VesselName Bname
| tb_manufacturer : text_box VesselManufacturer Bmanufacturer
| tb_model : text_box VesselModel Bmodel
| tb_callsign : text_box VesselCallsign Bcallsign
| tb_registration : text_box VesselRegistration Bregistration
| tb_listen : text_box ServerListenOn BlistenOn
| tb_host : text_box MqttHost BmqttHost
| tb_client : text_box MqttClientId BmqttClientId
| tb_user : text_box MqttUsername BmqttUsername
| tb_password : text_box MqttPassword BmqttPassword.
Inductive number_box : opt -> tbox -> Prop :=
| nb_year : number_box VesselYear Byear
| nb_mmsi : number_box VesselMmsi Bmmsi
| nb_port : number_box ServerPort Bport
| nb_mport : number_box MqttPort BmqttPort.
Inductive check_box : opt -> cbox -> Prop :=
| cb_ws : check_box ServerEnableWebsockets CenableWebsockets
| cb_tls : check_box ServerUseTls CuseTls
| cb_enable : check_box MqttEnable CmqttEnable
| cb_mtls : check_box MqttUseTls CmqttUseTls.
(** The five boxes of the UUID and the options they show. *)
Inductive uuid_box : opt -> tbox -> Prop :=
| ub0 : uuid_box VesselUuid0 Buuid0
| ub1 : uuid_box VesselUuid1 Buuid1
| ub2 : uuid_box VesselUuid2 Buuid2
| ub3 : uuid_box VesselUuid3 Buuid3
| ub4 : uuid_box VesselUuid4 Buuid4.
Definition uuid_boxes : list tbox := [Buuid0; Buuid1; Buuid2; Buuid3; Buuid4].
(** Options that no box sets. *)
Definition no_box (o : opt) : Prop :=
  In o [LogLevel; MapFile; ServerAssetPath; ServerPublicKeyFile; ServerPrivateKeyFile; MqttChannel;
        VesselUuid0; VesselUuid1; VesselUuid2; VesselUuid3; VesselUuid4].

(** The value the form holds for an option. *)
Inductive entered (js_int : bytes -> option Z) (f : form) : opt -> value -> Prop :=
| en_text o b : text_box o b -> entered js_int f o (VText (fm_text f b))
| en_number o b n : number_box o b -> js_int (fm_text f b) = Some n -> entered js_int f o (VInt n)
| en_check o b : check_box o b -> entered js_int f o (VBool (fm_check f b))
| en_certificate : entered js_int f ServerCertificate (VText (fm_text f Bcertificate))
| en_uuid : entered js_int f VesselUuid (VText (dashed (map (fm_text f) uuid_boxes)))
| en_none o : no_box o -> entered js_int f o (VText []).
(** Every number is one that the server accepts. *)
Definition accepted (js_int : bytes -> option Z) (f : form) : Prop :=
  forall o b, number_box o b -> js_int (fm_text f b) <> None.

(* ------------------------------------------------------------------ UUIDs *)

Definition upper_hex (c : Z) : Prop := 48 <= c <= 57 \/ 65 <= c <= 70.
(** The parts of a version 4 UUID in upper case. *)
Definition v4_parts (p0 p1 p2 p3 p4 : bytes) : Prop :=
  List.length p0 = 8%nat /\ List.length p1 = 4%nat /\ List.length p2 = 4%nat /\ List.length p3 = 4%nat /\
  List.length p4 = 12%nat /\ Forall upper_hex (p0 ++ p1 ++ p2 ++ p3 ++ p4) /\
  (exists r, p2 = str "4" ++ r) /\ (exists c r, p3 = c :: r /\ In c (str "89AB")).
(** The same random bytes but for the four bits of the version and the two of the variant. *)
Definition same_random (r r' : bytes) : Prop :=
  forall i, 0 <= i < 16 ->
    if i =? 6 then nth 6 r 0 mod 16 = nth 6 r' 0 mod 16
    else if i =? 8 then nth 8 r 0 mod 64 = nth 8 r' 0 mod 64
    else nth (Z.to_nat i) r 0 = nth (Z.to_nat i) r' 0.
