(** MapTable: /repo/map.xml, transcribed by tools/gen_map.py with the xml tags of
    /repo/signalk/signalk.go:33-82 (sentences, which the program never reads, left out). *)
From Verif Require Import GoBase NmeaTypes SignalkModel.
Open Scope string_scope.
Open Scope Z_scope.
Open Scope list_scope.

(** /repo/map.xml:3 *)
Definition map_00 : mapping := mkmapping (str "~/electric/ac/bus1/phaseC/lineToLineVoltage")
  [mkgroup 65001 (mkfs [] []) (str "0") (mkidf [] []) (mkidf [] []) []].
(** /repo/map.xml:10 *)
Definition map_01 : mapping := mkmapping (str "~/electric/ac/bus1/phaseC/lineToNeutralVoltage")
  [mkgroup 65001 (mkfs [] []) (str "1") (mkidf [] []) (mkidf [] []) []].
(** /repo/map.xml:17 *)
Definition map_02 : mapping := mkmapping (str "~/electric/ac/bus1/phaseC/frequency")
  [mkgroup 65001 (mkfs [] []) (str "2") (mkidf [] []) (mkidf [] []) []].
(** /repo/map.xml:24 *)
Definition map_03 : mapping := mkmapping (str "~/electric/ac/bus1/phaseB/lineToLineVoltage")
  [mkgroup 65002 (mkfs [] []) (str "0") (mkidf [] []) (mkidf [] []) []].
(** /repo/map.xml:31 *)
Definition map_04 : mapping := mkmapping (str "~/electric/ac/bus1/phaseB/lineToNeutralVoltage")
  [mkgroup 65002 (mkfs [] []) (str "1") (mkidf [] []) (mkidf [] []) []].
(** /repo/map.xml:38 *)
Definition map_05 : mapping := mkmapping (str "~/electric/ac/bus1/phaseB/frequency")
  [mkgroup 65002 (mkfs [] []) (str "2") (mkidf [] []) (mkidf [] []) []].
(** /repo/map.xml:45 *)
Definition map_06 : mapping := mkmapping (str "~/electric/ac/bus1/phaseA/lineToLineVoltage")
  [mkgroup 65003 (mkfs [] []) (str "0") (mkidf [] []) (mkidf [] []) []].
(** /repo/map.xml:52 *)
Definition map_07 : mapping := mkmapping (str "~/electric/ac/bus1/phaseA/lineToNeutralVoltage")
  [mkgroup 65003 (mkfs [] []) (str "1") (mkidf [] []) (mkidf [] []) []].
(** /repo/map.xml:59 *)
Definition map_08 : mapping := mkmapping (str "~/electric/ac/bus1/phaseA/frequency")
  [mkgroup 65003 (mkfs [] []) (str "2") (mkidf [] []) (mkidf [] []) []].
(** /repo/map.xml:66 *)
Definition map_09 : mapping := mkmapping (str "~/system/currentTimeSource")
  [mkgroup 126992 (mkfs [] []) (str "1") (mkidf [] []) (mkidf [] []) []].
(** /repo/map.xml:73 *)
Definition map_10 : mapping := mkmapping (str "~/system/currentTime")
  [mkgroup 126992 (mkfs (str "datetime") [((str "date"), 3); ((str "time"), 4)]) [] (mkidf [] []) (mkidf [] []) []].
(** /repo/map.xml:94 *)
Definition map_11 : mapping := mkmapping (str "~/electric/ac/{instance}/numberOfLines")
  [mkgroup 127503 (mkfs [] []) (str "1") (mkidf [] []) (mkidf (str "instance") (str "0")) []].
(** /repo/map.xml:105 *)
Definition map_12 : mapping := mkmapping (str "~/electric/ac/{instance}/{line}/acceptability")
  [mkgroup 127503 (mkfs [] []) (str "3") (mkidf (str "line") (str "2")) (mkidf (str "instance") (str "0")) []].
(** /repo/map.xml:120 *)
Definition map_13 : mapping := mkmapping (str "~/propulsion/speed/waterReferenced")
  [mkgroup 128259 (mkfs [] []) (str "1") (mkidf [] []) (mkidf [] []) []].
(** /repo/map.xml:127 *)
Definition map_14 : mapping := mkmapping (str "~/propulsion/speed/groundReferenced")
  [mkgroup 128259 (mkfs [] []) (str "2") (mkidf [] []) (mkidf [] []) []].
(** /repo/map.xml:134 *)
Definition map_15 : mapping := mkmapping (str "~/propulsion/speed/waterReferenceType")
  [mkgroup 128259 (mkfs [] []) (str "3") (mkidf [] []) (mkidf [] []) []].
(** /repo/map.xml:141 *)
Definition map_16 : mapping := mkmapping (str "~/environment/water/depth")
  [mkgroup 128267 (mkfs [] []) (str "1") (mkidf [] []) (mkidf [] []) []].
(** /repo/map.xml:148 *)
Definition map_17 : mapping := mkmapping (str "~/environment/water/offset")
  [mkgroup 128267 (mkfs [] []) (str "2") (mkidf [] []) (mkidf [] []) []].
(** /repo/map.xml:155 *)
Definition map_18 : mapping := mkmapping (str "~/navigation/log/date")
  [mkgroup 128275 (mkfs [] []) (str "0") (mkidf [] []) (mkidf [] []) []].
(** /repo/map.xml:162 *)
Definition map_19 : mapping := mkmapping (str "~/navigation/log/time")
  [mkgroup 128275 (mkfs [] []) (str "1") (mkidf [] []) (mkidf [] []) []].
(** /repo/map.xml:169 *)
Definition map_20 : mapping := mkmapping (str "~/navigation/log/log")
  [mkgroup 128275 (mkfs [] []) (str "2") (mkidf [] []) (mkidf [] []) []].
(** /repo/map.xml:176 *)
Definition map_21 : mapping := mkmapping (str "~/navigation/log/tripLog")
  [mkgroup 128275 (mkfs [] []) (str "3") (mkidf [] []) (mkidf [] []) []].
(** /repo/map.xml:183 *)
Definition map_22 : mapping := mkmapping (str "~/navigation/position/latitude")
  [mkgroup 129025 (mkfs [] []) (str "0") (mkidf [] []) (mkidf [] []) [];
   mkgroup 129029 (mkfs [] []) (str "3") (mkidf [] []) (mkidf [] []) []].
(** /repo/map.xml:194 *)
Definition map_23 : mapping := mkmapping (str "~/navigation/position/longitude")
  [mkgroup 129025 (mkfs [] []) (str "1") (mkidf [] []) (mkidf [] []) [];
   mkgroup 129029 (mkfs [] []) (str "4") (mkidf [] []) (mkidf [] []) []].
(** /repo/map.xml:205 *)
Definition map_24 : mapping := mkmapping (str "~/navigation/courseOverGroundTrue")
  [mkgroup 129026 (mkfs [] []) (str "3") (mkidf [] []) (mkidf [] []) [mkcond (str "eq") 1 (str "True")]].
(** /repo/map.xml:217 *)
Definition map_25 : mapping := mkmapping (str "~/navigation/courseOverGroundMagnetic")
  [mkgroup 129026 (mkfs [] []) (str "3") (mkidf [] []) (mkidf [] []) [mkcond (str "eq") 1 (str "Magnetic")]].
(** /repo/map.xml:229 *)
Definition map_26 : mapping := mkmapping (str "~/navigation/gnss/almanac/desiredMode")
  [mkgroup 129539 (mkfs [] []) (str "1") (mkidf [] []) (mkidf [] []) []].
(** /repo/map.xml:236 *)
Definition map_27 : mapping := mkmapping (str "~/navigation/gnss/almanac/actualMode")
  [mkgroup 129539 (mkfs [] []) (str "2") (mkidf [] []) (mkidf [] []) []].
(** /repo/map.xml:243 *)
Definition map_28 : mapping := mkmapping (str "~/navigation/gnss/almanac/hdop")
  [mkgroup 129539 (mkfs [] []) (str "4") (mkidf [] []) (mkidf [] []) []].
(** /repo/map.xml:250 *)
Definition map_29 : mapping := mkmapping (str "~/navigation/gnss/almanac/vdop")
  [mkgroup 129539 (mkfs [] []) (str "5") (mkidf [] []) (mkidf [] []) []].
(** /repo/map.xml:257 *)
Definition map_30 : mapping := mkmapping (str "~/navigation/gnss/almanac/tdop")
  [mkgroup 129539 (mkfs [] []) (str "6") (mkidf [] []) (mkidf [] []) []].
(** /repo/map.xml:264 *)
Definition map_31 : mapping := mkmapping (str "~/navigation/gnss/almanac/mode")
  [mkgroup 129540 (mkfs [] []) (str "1") (mkidf [] []) (mkidf [] []) []].
(** /repo/map.xml:271 *)
Definition map_32 : mapping := mkmapping (str "~/navigation/gnss/almanac/satellitesInView")
  [mkgroup 129540 (mkfs [] []) (str "3") (mkidf [] []) (mkidf [] []) []].
(** /repo/map.xml:278 *)
Definition map_33 : mapping := mkmapping (str "~/environment/wind/speedApparent")
  [mkgroup 130306 (mkfs [] []) (str "1") (mkidf [] []) (mkidf [] []) [mkcond (str "eq") 3 (str "Apparent")]].
(** /repo/map.xml:290 *)
Definition map_34 : mapping := mkmapping (str "~/environment/wind/angleApparent")
  [mkgroup 130306 (mkfs [] []) (str "2") (mkidf [] []) (mkidf [] []) [mkcond (str "eq") 3 (str "Apparent")]].
(** /repo/map.xml:302 *)
Definition map_35 : mapping := mkmapping (str "~/environment/waterTemp")
  [mkgroup 130310 (mkfs [] []) (str "1") (mkidf [] []) (mkidf [] []) []].
(** /repo/map.xml:309 *)
Definition map_36 : mapping := mkmapping (str "~/environment/airTemp")
  [mkgroup 130310 (mkfs [] []) (str "2") (mkidf [] []) (mkidf [] []) []].
(** /repo/map.xml:316 *)
Definition map_37 : mapping := mkmapping (str "~/environment/airPressure")
  [mkgroup 130310 (mkfs [] []) (str "3") (mkidf [] []) (mkidf [] []) [];
   mkgroup 130311 (mkfs [] []) (str "5") (mkidf [] []) (mkidf [] []) []].
(** /repo/map.xml:327 *)
Definition map_38 : mapping := mkmapping (str "~/entertainment/nowPlaying/trackName")
  [mkgroup 130820 (mkfs [] []) (str "6") (mkidf [] []) (mkidf [] []) [mkcond (str "eq") 0 (str "419"); mkcond (str "eq") 2 (str "4"); mkcond (str "eq") 3 (str "5")]].
(** /repo/map.xml:353 *)
Definition map_39 : mapping := mkmapping (str "~/vendor/simnet/reprogramStatus")
  [mkgroup 130820 (mkfs [] []) (str "4") (mkidf [] []) (mkidf [] []) [mkcond (str "eq") 0 (str "1855"); mkcond (str "eq") 2 (str "4")]].
(** /repo/map.xml:370 *)
Definition map_40 : mapping := mkmapping (str "~/navigation/headingMagnetic")
  [mkgroup 127250 (mkfs [] []) (str "1") (mkidf [] []) (mkidf [] []) [mkcond (str "eq") 4 (str "Magnetic")]].
(** /repo/map.xml:390 *)
Definition map_41 : mapping := mkmapping (str "~/navigation/rateOfTurn")
  [mkgroup 127251 (mkfs [] []) (str "1") (mkidf [] []) (mkidf [] []) []].
(** /repo/map.xml:397 *)
Definition map_42 : mapping := mkmapping (str "~/vendor/actisense/operatingMode")
  [mkgroup 262161 (mkfs [] []) (str "4") (mkidf [] []) (mkidf [] []) []].
(** /repo/map.xml:404 *)
Definition map_43 : mapping := mkmapping (str "~/vendor/actisense/modelId")
  [mkgroup 262384 (mkfs [] []) (str "1") (mkidf [] []) (mkidf [] []) []].
(** /repo/map.xml:411 *)
Definition map_44 : mapping := mkmapping (str "~/vendor/actisense/serialId")
  [mkgroup 262384 (mkfs [] []) (str "2") (mkidf [] []) (mkidf [] []) []].
(** /repo/map.xml:418 *)
Definition map_45 : mapping := mkmapping (str "~/vendor/actisense/firmwareVersion")
  [mkgroup 262384 (mkfs [] []) (str "4") (mkidf [] []) (mkidf [] []) []].
(** /repo/map.xml:425 *)
Definition map_46 : mapping := mkmapping (str "~/vendor/actisense/resetStatus")
  [mkgroup 262384 (mkfs [] []) (str "5") (mkidf [] []) (mkidf [] []) []].
(** /repo/map.xml:432 *)
Definition map_47 : mapping := mkmapping (str "~/vendor/actisense/channelCount")
  [mkgroup 262386 (mkfs [] []) (str "4") (mkidf [] []) (mkidf [] []) []].

(** /repo/map.xml *)
Definition MapXml : mappings := [map_00; map_01; map_02; map_03; map_04; map_05; map_06; map_07; map_08; map_09; map_10; map_11; map_12; map_13; map_14; map_15; map_16; map_17; map_18; map_19; map_20; map_21; map_22; map_23; map_24; map_25; map_26; map_27; map_28; map_29; map_30; map_31; map_32; map_33; map_34; map_35; map_36; map_37; map_38; map_39; map_40; map_41; map_42; map_43; map_44; map_45; map_46; map_47].
