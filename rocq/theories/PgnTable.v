(** PgnTable: PgnList, /repo/nmea2k/pgn_array.go:99-3308, transcribed by tools/gen_tables.py.
    Field Description and SignalkPath (only printed, never decided on) are in PgnTexts; a positive
    Resolution is the exact rational value of its constant expression. *)
From Verif Require Import GoBase NmeaTypes LookupTable.
Open Scope string_scope.
Open Scope Z_scope.

(** /repo/nmea2k/pgn_array.go:100 *)
Definition pgn_000 : pgn_def := mkpgn "Unknown PGN" "Mandatory" 0 false 8 0
  [mkfield "Bytes" 64 RES_BINARY false UNil (0)].
(** /repo/nmea2k/pgn_array.go:104 *)
Definition pgn_001 : pgn_def := mkpgn "ISO Acknowledgement" "Mandatory" 59392 true 8 0
  [mkfield "Control" 8 RES_LOOKUP false (ULookup lookupIsoAckResults) (0);
   mkfield "Group Function" 8 (RPos 1 1) false UNil (0);
   mkfield "Reserved" 24 RES_BINARY false UNil (0);
   mkfield "PGN" 24 RES_INTEGER false UNil (0)].
(** /repo/nmea2k/pgn_array.go:111 *)
Definition pgn_002 : pgn_def := mkpgn "ISO Request" "Mandatory" 59904 true 3 0
  [mkfield "PGN" 24 RES_INTEGER false UNil (0)].
(** /repo/nmea2k/pgn_array.go:115 *)
Definition pgn_003 : pgn_def := mkpgn "ISO Address Claim" "Mandatory" 60928 true 8 0
  [mkfield "Unique Number" 21 RES_BINARY false UNil (0);
   mkfield "Manufacturer Code" 11 RES_MANUFACTURER false UNil (0);
   mkfield "Device Instance Lower" 3 (RPos 1 1) false UNil (0);
   mkfield "Device Instance Upper" 5 (RPos 1 1) false UNil (0);
   mkfield "Device Function" 8 RES_LOOKUP2 false (USubLookup lookupDeviceFunction) (6);
   mkfield "Reserved" 1 (RPos 1 1) false UNil (0);
   mkfield "Device Class" 7 RES_LOOKUP false (ULookup lookupDeviceClass) (0);
   mkfield "System Instance" 4 (RPos 1 1) false UNil (0);
   mkfield "Industry Code" 3 RES_LOOKUP false (ULookup lookupIndustryCode) (0);
   mkfield "Arbitrary Address Capable" 1 (RPos 1 1) false UNil (0)].
(** /repo/nmea2k/pgn_array.go:128 *)
Definition pgn_004 : pgn_def := mkpgn "ISO: Manu. Proprietary single-frame addressed" "General" 61184 false 8 0
  [mkfield "Manufacturer Code" 11 RES_MANUFACTURER false UNil (0);
   mkfield "Reserved" 2 (RPos 1 1) false UNil (0);
   mkfield "Industry Code" 3 (RPos 1 1) false UNil (0);
   mkfield "Payload" 48 RES_BINARY false UNil (0)].
(** /repo/nmea2k/pgn_array.go:137 *)
Definition pgn_005 : pgn_def := mkpgn "Bus #1 Phase C Basic AC Quantities" "Power" 65001 false 8 0
  [mkfield "Line-Line AC RMS Voltage" 16 (RPos 1 1) false (UStr "V") (0);
   mkfield "Line-Neutral AC RMS Voltage" 16 (RPos 1 1) false (UStr "V") (0);
   mkfield "AC Frequency" 16 (RPos 1 128) false (UStr "Hz") (0)].
(** /repo/nmea2k/pgn_array.go:143 *)
Definition pgn_006 : pgn_def := mkpgn "Bus #1 Phase B Basic AC Quantities" "Power" 65002 false 8 0
  [mkfield "Line-Line AC RMS Voltage" 16 (RPos 1 1) false (UStr "V") (0);
   mkfield "Line-Neutral AC RMS Voltage" 16 (RPos 1 1) false (UStr "V") (0);
   mkfield "AC Frequency" 16 (RPos 1 128) false (UStr "Hz") (0)].
(** /repo/nmea2k/pgn_array.go:149 *)
Definition pgn_007 : pgn_def := mkpgn "Bus #1 Phase A Basic AC Quantities" "Power" 65003 false 8 0
  [mkfield "Line-Line AC RMS Voltage" 16 (RPos 1 1) false (UStr "V") (0);
   mkfield "Line-Neutral AC RMS Voltage" 16 (RPos 1 1) false (UStr "V") (0);
   mkfield "AC Frequency" 16 (RPos 1 128) false (UStr "Hz") (0)].
(** /repo/nmea2k/pgn_array.go:155 *)
Definition pgn_008 : pgn_def := mkpgn "Bus #1 Average Basic AC Quantities" "Power" 65004 false 8 0
  [mkfield "Line-Line AC RMS Voltage" 16 (RPos 1 1) false (UStr "V") (0);
   mkfield "Line-Neutral AC RMS Voltage" 16 (RPos 1 1) false (UStr "V") (0);
   mkfield "AC Frequency" 16 (RPos 1 128) false (UStr "Hz") (0)].
(** /repo/nmea2k/pgn_array.go:161 *)
Definition pgn_009 : pgn_def := mkpgn "Utility Total AC Energy" "Power" 65005 false 8 0
  [mkfield "Total Energy Export" 32 (RPos 1 1) false (UStr "kWh") (0);
   mkfield "Total Energy Import" 32 (RPos 1 1) false (UStr "kWh") (0)].
(** /repo/nmea2k/pgn_array.go:166 *)
Definition pgn_010 : pgn_def := mkpgn "Utility Phase C AC Reactive Power" "Power" 65006 false 8 0
  [mkfield "Reactive Power" 32 RES_INTEGER false (UStr "VAr") (-2000000000);
   mkfield "Power Factor" 16 (RPos 1 16384) false UNil (0);
   mkfield "Power Factor Lagging" 2 RES_LOOKUP false (ULookup lookupPowerFactor) (0)].
(** /repo/nmea2k/pgn_array.go:172 *)
Definition pgn_011 : pgn_def := mkpgn "Utility Phase C AC Power" "Power" 65007 false 8 0
  [mkfield "Real Power" 32 (RPos 1 1) true (UStr "W") (-2000000000);
   mkfield "Apparent Power" 32 (RPos 1 1) true (UStr "VA") (-2000000000)].
(** /repo/nmea2k/pgn_array.go:177 *)
Definition pgn_012 : pgn_def := mkpgn "Utility Phase C Basic AC Quantities" "Power" 65008 false 8 0
  [mkfield "Line-Line AC RMS Voltage" 16 (RPos 1 1) false (UStr "V") (0);
   mkfield "Line-Neutral AC RMS Voltage" 16 (RPos 1 1) false (UStr "V") (0);
   mkfield "AC Frequency" 16 (RPos 1 128) false (UStr "Hz") (0);
   mkfield "AC RMS Current" 16 (RPos 1 1) false (UStr "A") (0)].
(** /repo/nmea2k/pgn_array.go:184 *)
Definition pgn_013 : pgn_def := mkpgn "Utility Phase B AC Reactive Power" "Power" 65009 false 8 0
  [mkfield "Reactive Power" 32 RES_INTEGER false (UStr "VAr") (-2000000000);
   mkfield "Power Factor" 16 (RPos 1 16384) false UNil (0);
   mkfield "Power Factor Lagging" 2 RES_LOOKUP false (ULookup lookupPowerFactor) (0)].
(** /repo/nmea2k/pgn_array.go:190 *)
Definition pgn_014 : pgn_def := mkpgn "Utility Phase B AC Power" "Power" 65010 false 8 0
  [mkfield "Real Power" 32 (RPos 1 1) true (UStr "W") (-2000000000);
   mkfield "Apparent Power" 32 (RPos 1 1) true (UStr "VA") (-2000000000)].
(** /repo/nmea2k/pgn_array.go:195 *)
Definition pgn_015 : pgn_def := mkpgn "Utility Phase B Basic AC Quantities" "Power" 65011 false 8 0
  [mkfield "Line-Line AC RMS Voltage" 16 (RPos 1 1) false (UStr "V") (0);
   mkfield "Line-Neutral AC RMS Voltage" 16 (RPos 1 1) false (UStr "V") (0);
   mkfield "AC Frequency" 16 (RPos 1 128) false (UStr "Hz") (0);
   mkfield "AC RMS Current" 16 (RPos 1 1) false (UStr "A") (0)].
(** /repo/nmea2k/pgn_array.go:202 *)
Definition pgn_016 : pgn_def := mkpgn "Utility Phase A AC Reactive Power" "Power" 65012 false 8 0
  [mkfield "Reactive Power" 32 RES_INTEGER false (UStr "VAr") (-2000000000);
   mkfield "Power Factor" 16 (RPos 1 16384) true UNil (0);
   mkfield "Power Factor Lagging" 2 RES_LOOKUP false (ULookup lookupPowerFactor) (0)].
(** /repo/nmea2k/pgn_array.go:208 *)
Definition pgn_017 : pgn_def := mkpgn "Utility Phase A AC Power" "Power" 65013 false 8 0
  [mkfield "Real Power" 32 (RPos 1 1) true (UStr "W") (-2000000000);
   mkfield "Apparent Power" 32 (RPos 1 1) true (UStr "VA") (-2000000000)].
(** /repo/nmea2k/pgn_array.go:213 *)
Definition pgn_018 : pgn_def := mkpgn "Utility Phase A Basic AC Quantities" "Power" 65014 false 8 0
  [mkfield "Line-Line AC RMS Voltage" 16 (RPos 1 1) false (UStr "V") (0);
   mkfield "Line-Neutral AC RMS Voltage" 16 (RPos 1 1) false (UStr "V") (0);
   mkfield "AC Frequency" 16 (RPos 1 128) false (UStr "Hz") (0);
   mkfield "AC RMS Current" 16 (RPos 1 1) false (UStr "A") (0)].
(** /repo/nmea2k/pgn_array.go:220 *)
Definition pgn_019 : pgn_def := mkpgn "Utility Total AC Reactive Power" "Power" 65015 false 8 0
  [mkfield "Reactive Power" 32 RES_INTEGER false (UStr "VAr") (-2000000000);
   mkfield "Power Factor" 16 (RPos 1 16384) false UNil (0);
   mkfield "Power Factor Lagging" 2 RES_LOOKUP false (ULookup lookupPowerFactor) (0)].
(** /repo/nmea2k/pgn_array.go:226 *)
Definition pgn_020 : pgn_def := mkpgn "Utility Total AC Power" "Power" 65016 false 8 0
  [mkfield "Real Power" 32 (RPos 1 1) true (UStr "W") (-2000000000);
   mkfield "Apparent Power" 32 (RPos 1 1) true (UStr "VA") (-2000000000)].
(** /repo/nmea2k/pgn_array.go:231 *)
Definition pgn_021 : pgn_def := mkpgn "Utility Average Basic AC Quantities" "Power" 65017 false 8 0
  [mkfield "Line-Line AC RMS Voltage" 16 (RPos 1 1) false (UStr "V") (0);
   mkfield "Line-Neutral AC RMS Voltage" 16 (RPos 1 1) false (UStr "V") (0);
   mkfield "AC Frequency" 16 (RPos 1 128) false (UStr "Hz") (0);
   mkfield "AC RMS Current" 16 (RPos 1 1) false (UStr "A") (0)].
(** /repo/nmea2k/pgn_array.go:238 *)
Definition pgn_022 : pgn_def := mkpgn "Generator Total AC Energy" "Power" 65018 false 8 0
  [mkfield "Total Energy Export" 32 (RPos 1 1) false (UStr "kWh") (0);
   mkfield "Total Energy Import" 32 (RPos 1 1) false (UStr "kWh") (0)].
(** /repo/nmea2k/pgn_array.go:243 *)
Definition pgn_023 : pgn_def := mkpgn "Generator Phase C AC Reactive Power" "Power" 65019 false 8 0
  [mkfield "Reactive Power" 32 RES_INTEGER false (UStr "VAr") (-2000000000);
   mkfield "Power Factor" 16 (RPos 1 16384) false UNil (0);
   mkfield "Power Factor Lagging" 2 RES_LOOKUP false (ULookup lookupPowerFactor) (0)].
(** /repo/nmea2k/pgn_array.go:249 *)
Definition pgn_024 : pgn_def := mkpgn "Generator Phase C AC Power" "Power" 65020 false 8 0
  [mkfield "Real Power" 32 (RPos 1 1) false (UStr "W") (-2000000000);
   mkfield "Apparent Power" 32 (RPos 1 1) false (UStr "VA") (-2000000000)].
(** /repo/nmea2k/pgn_array.go:254 *)
Definition pgn_025 : pgn_def := mkpgn "Generator Phase C Basic AC Quantities" "Power" 65021 false 8 0
  [mkfield "Line-Line AC RMS Voltage" 16 (RPos 1 1) false (UStr "V") (0);
   mkfield "Line-Neutral AC RMS Voltage" 16 (RPos 1 1) false (UStr "V") (0);
   mkfield "AC Frequency" 16 (RPos 1 128) false (UStr "Hz") (0);
   mkfield "AC RMS Current" 16 (RPos 1 1) false (UStr "A") (0)].
(** /repo/nmea2k/pgn_array.go:261 *)
Definition pgn_026 : pgn_def := mkpgn "Generator Phase B AC Reactive Power" "Power" 65022 false 8 0
  [mkfield "Reactive Power" 32 RES_INTEGER false (UStr "VAr") (-2000000000);
   mkfield "Power Factor" 16 (RPos 1 16384) false UNil (0);
   mkfield "Power Factor Lagging" 2 RES_LOOKUP false (ULookup lookupPowerFactor) (0)].
(** /repo/nmea2k/pgn_array.go:267 *)
Definition pgn_027 : pgn_def := mkpgn "Generator Phase B AC Power" "Power" 65023 false 8 0
  [mkfield "Real Power" 32 (RPos 1 1) false (UStr "W") (-2000000000);
   mkfield "Apparent Power" 32 (RPos 1 1) false (UStr "VA") (-2000000000)].
(** /repo/nmea2k/pgn_array.go:272 *)
Definition pgn_028 : pgn_def := mkpgn "Generator Phase B Basic AC Quantities" "Power" 65024 false 8 0
  [mkfield "Line-Line AC RMS Voltage" 16 (RPos 1 1) false (UStr "V") (0);
   mkfield "Line-Neutral AC RMS Voltage" 16 (RPos 1 1) false (UStr "V") (0);
   mkfield "AC Frequency" 16 (RPos 1 128) false (UStr "Hz") (0);
   mkfield "AC RMS Current" 16 (RPos 1 1) false (UStr "A") (0)].
(** /repo/nmea2k/pgn_array.go:279 *)
Definition pgn_029 : pgn_def := mkpgn "Generator Phase A AC Reactive Power" "Power" 65025 false 8 0
  [mkfield "Reactive Power" 32 RES_INTEGER false (UStr "VAr") (-2000000000);
   mkfield "Power Factor" 16 (RPos 1 16384) false UNil (0);
   mkfield "Power Factor Lagging" 2 RES_LOOKUP false (ULookup lookupPowerFactor) (0)].
(** /repo/nmea2k/pgn_array.go:285 *)
Definition pgn_030 : pgn_def := mkpgn "Generator Phase A AC Power" "Power" 65026 false 8 0
  [mkfield "Real Power" 32 (RPos 1 1) false (UStr "W") (-2000000000);
   mkfield "Apparent Power" 32 (RPos 1 1) false (UStr "VA") (-2000000000)].
(** /repo/nmea2k/pgn_array.go:290 *)
Definition pgn_031 : pgn_def := mkpgn "Generator Phase A Basic AC Quantities" "Power" 65027 false 8 0
  [mkfield "Line-Line AC RMS Voltage" 16 (RPos 1 1) false (UStr "V") (0);
   mkfield "Line-Neutral AC RMS Voltage" 16 (RPos 1 1) false (UStr "V") (0);
   mkfield "AC Frequency" 16 (RPos 1 128) false (UStr "Hz") (0);
   mkfield "AC RMS Current" 16 (RPos 1 1) false (UStr "A") (0)].
(** /repo/nmea2k/pgn_array.go:297 *)
Definition pgn_032 : pgn_def := mkpgn "Generator Total AC Reactive Power" "Power" 65028 false 8 0
  [mkfield "Reactive Power" 32 RES_INTEGER false (UStr "VAr") (-2000000000);
   mkfield "Power Factor" 16 (RPos 1 16384) false UNil (0);
   mkfield "Power Factor Lagging" 2 RES_LOOKUP false (ULookup lookupPowerFactor) (0)].
(** /repo/nmea2k/pgn_array.go:303 *)
Definition pgn_033 : pgn_def := mkpgn "Generator Total AC Power" "Power" 65029 false 8 0
  [mkfield "Real Power" 32 (RPos 1 1) false (UStr "W") (-2000000000);
   mkfield "Apparent Power" 32 (RPos 1 1) false (UStr "VA") (-2000000000)].
(** /repo/nmea2k/pgn_array.go:308 *)
Definition pgn_034 : pgn_def := mkpgn "Generator Average Basic AC Quantities" "Power" 65030 false 8 0
  [mkfield "Line-Line AC RMS Voltage" 16 (RPos 1 1) false (UStr "V") (0);
   mkfield "Line-Neutral AC RMS Voltage" 16 (RPos 1 1) false (UStr "V") (0);
   mkfield "AC Frequency" 16 (RPos 1 128) false (UStr "Hz") (0);
   mkfield "AC RMS Current" 16 (RPos 1 1) false (UStr "A") (0)].
(** /repo/nmea2k/pgn_array.go:319 *)
Definition pgn_035 : pgn_def := mkpgn "ISO Commanded Address" "General" 65240 true 8 0
  [mkfield "Unique Number" 21 RES_BINARY false UNil (0);
   mkfield "Manufacturer Code" 11 (RPos 1 1) false (ULookup lookupCompanyCode) (0);
   mkfield "Device Instance Lower" 3 (RPos 1 1) false UNil (0);
   mkfield "Device Instance Upper" 5 (RPos 1 1) false UNil (0);
   mkfield "Device Function" 8 (RPos 1 1) false UNil (0);
   mkfield "Reserved" 1 (RPos 1 1) false UNil (0);
   mkfield "Device Class" 7 RES_LOOKUP false (ULookup lookupDeviceClass) (0);
   mkfield "System Instance" 4 (RPos 1 1) false UNil (0);
   mkfield "Industry Code" 3 RES_LOOKUP false (ULookup lookupIndustryCode) (0);
   mkfield "Arbitrary Address Capable" 1 (RPos 1 1) false UNil (0);
   mkfield "New Source Address" 8 (RPos 1 1) false UNil (0)].
(** /repo/nmea2k/pgn_array.go:334 *)
Definition pgn_036 : pgn_def := mkpgn "ISO: Manu. Proprietary single-frame non-addressed" "General" 65280 false 8 0
  [mkfield "Manufacturer Code" 11 RES_MANUFACTURER false UNil (0);
   mkfield "Reserved" 2 (RPos 1 1) false UNil (0);
   mkfield "Industry Code" 3 (RPos 1 1) false UNil (0);
   mkfield "Payload" 48 RES_BINARY false UNil (0)].
(** /repo/nmea2k/pgn_array.go:342 *)
Definition pgn_037 : pgn_def := mkpgn "Boot State Acknowledgment" "Airmar" 65285 true 8 0
  [mkfield "Manufacturer Code" 11 RES_MANUFACTURER false (UStr "=135") (0);
   mkfield "Reserved" 2 (RPos 1 1) false UNil (0);
   mkfield "Industry Code" 3 RES_LOOKUP false (ULookup lookupIndustryCode) (0);
   mkfield "Boot State" 4 RES_LOOKUP false (ULookup lookupAirmarBootState) (0)].
(** /repo/nmea2k/pgn_array.go:349 *)
Definition pgn_038 : pgn_def := mkpgn "Temperature" "Lowrance" 65285 false 8 0
  [mkfield "Manufacturer Code" 11 RES_MANUFACTURER false (UStr "=140") (0);
   mkfield "Reserved" 2 (RPos 1 1) false UNil (0);
   mkfield "Industry Code" 3 RES_LOOKUP false (ULookup lookupIndustryCode) (0);
   mkfield "Temperature Instance" 4 (RPos 1 1) false UNil (0);
   mkfield "Temperature Source" 4 (RPos 1 1) false UNil (0);
   mkfield "Actual Temperature" 16 RES_TEMPERATURE false (UStr "K") (0)].
(** /repo/nmea2k/pgn_array.go:359 *)
Definition pgn_039 : pgn_def := mkpgn "Boot State Request" "Airmar" 65286 true 8 0
  [mkfield "Manufacturer Code" 11 RES_MANUFACTURER false (UStr "=135") (0);
   mkfield "Reserved" 2 (RPos 1 1) false UNil (0);
   mkfield "Industry Code" 3 RES_LOOKUP false (ULookup lookupIndustryCode) (0)].
(** /repo/nmea2k/pgn_array.go:366 *)
Definition pgn_040 : pgn_def := mkpgn "Access Level" "Airmar" 65287 true 8 0
  [mkfield "Manufacturer Code" 11 RES_MANUFACTURER false (UStr "=135") (0);
   mkfield "Reserved" 2 (RPos 1 1) false UNil (0);
   mkfield "Industry Code" 3 RES_LOOKUP false (ULookup lookupIndustryCode) (0);
   mkfield "Format Code" 8 RES_LOOKUP false (ULookup lookupAirmarFormatCode) (0);
   mkfield "Access Level" 3 RES_LOOKUP false (ULookup lookupAirmarAccessLevel) (0);
   mkfield "Reserved" 5 (RPos 1 1) false UNil (0);
   mkfield "Access Seed/Key" 32 RES_INTEGER false UNil (0)].
(** /repo/nmea2k/pgn_array.go:376 *)
Definition pgn_041 : pgn_def := mkpgn "Configure Temperature Sensor" "Simnet" 65287 false 8 0
  [mkfield "Manufacturer Code" 11 RES_MANUFACTURER false (UStr "=1857") (0);
   mkfield "Reserved" 2 (RPos 1 1) false UNil (0);
   mkfield "Industry Code" 3 RES_LOOKUP false (ULookup lookupIndustryCode) (0)].
(** /repo/nmea2k/pgn_array.go:382 *)
Definition pgn_042 : pgn_def := mkpgn "Trim Tab Sensor Calibration" "Simnet" 65289 false 8 0
  [mkfield "Manufacturer Code" 11 RES_MANUFACTURER false (UStr "=1857") (0);
   mkfield "Reserved" 2 (RPos 1 1) false UNil (0);
   mkfield "Industry Code" 3 RES_LOOKUP false (ULookup lookupIndustryCode) (0)].
(** /repo/nmea2k/pgn_array.go:388 *)
Definition pgn_043 : pgn_def := mkpgn "Paddle Wheel Speed Configuration" "Simnet" 65290 false 8 0
  [mkfield "Manufacturer Code" 11 RES_MANUFACTURER false (UStr "=1857") (0);
   mkfield "Reserved" 2 (RPos 1 1) false UNil (0);
   mkfield "Industry Code" 3 RES_LOOKUP false (ULookup lookupIndustryCode) (0)].
(** /repo/nmea2k/pgn_array.go:394 *)
Definition pgn_044 : pgn_def := mkpgn "Clear Fluid Level Warnings" "Simnet" 65292 false 8 0
  [mkfield "Manufacturer Code" 11 RES_MANUFACTURER false (UStr "=1857") (0);
   mkfield "Reserved" 2 (RPos 1 1) false UNil (0);
   mkfield "Industry Code" 3 RES_LOOKUP false (ULookup lookupIndustryCode) (0)].
(** /repo/nmea2k/pgn_array.go:400 *)
Definition pgn_045 : pgn_def := mkpgn "LGC-2000 Configuration" "Simnet" 65293 false 8 0
  [mkfield "Manufacturer Code" 11 RES_MANUFACTURER false (UStr "=1857") (0);
   mkfield "Reserved" 2 (RPos 1 1) false UNil (0);
   mkfield "Industry Code" 3 RES_LOOKUP false (ULookup lookupIndustryCode) (0)].
(** /repo/nmea2k/pgn_array.go:406 *)
Definition pgn_046 : pgn_def := mkpgn "Unknown" "Simnet" 65305 false 8 0
  [mkfield "Manufacturer Code" 11 RES_MANUFACTURER false (UStr "=1857") (0);
   mkfield "Reserved" 2 (RPos 1 1) false UNil (0);
   mkfield "Industry Code" 3 RES_LOOKUP false (ULookup lookupIndustryCode) (0);
   mkfield "A" 8 (RPos 1 1) false UNil (0);
   mkfield "B" 8 (RPos 1 1) false UNil (0);
   mkfield "C" 8 (RPos 1 1) false UNil (0);
   mkfield "D" 8 (RPos 1 1) false UNil (0);
   mkfield "E" 8 (RPos 1 1) false UNil (0);
   mkfield "F" 8 (RPos 1 1) false UNil (0)].
(** /repo/nmea2k/pgn_array.go:418 *)
Definition pgn_047 : pgn_def := mkpgn "Reprogram Status" "Simnet" 65325 false 8 0
  [mkfield "Manufacturer Code" 11 RES_MANUFACTURER false (UStr "=1857") (0);
   mkfield "Reserved" 2 (RPos 1 1) false UNil (0);
   mkfield "Industry Code" 3 RES_LOOKUP false (ULookup lookupIndustryCode) (0)].
(** /repo/nmea2k/pgn_array.go:424 *)
Definition pgn_048 : pgn_def := mkpgn "Analog Channel" "Simnet" 65330 false 8 0
  [mkfield "Manufacturer Code" 11 RES_MANUFACTURER false (UStr "=381") (0);
   mkfield "Reserved" 2 (RPos 1 1) false UNil (0);
   mkfield "Industry Code" 3 RES_LOOKUP false (ULookup lookupIndustryCode) (0);
   mkfield "Channel" 9 (RPos 1 1) false UNil (0);
   mkfield "Settings" 4 (RPos 1 1) false UNil (0);
   mkfield "Width" 2 (RPos 1 1) false UNil (0);
   mkfield "Settings" 1 (RPos 1 1) false UNil (0);
   mkfield "Value" 32 (RPos 1 1) true UNil (0)].
(** /repo/nmea2k/pgn_array.go:436 *)
Definition pgn_049 : pgn_def := mkpgn "Autopilot Mode" "Simnet" 65341 false 8 0
  [mkfield "Manufacturer Code" 11 RES_MANUFACTURER false (UStr "=1857") (0);
   mkfield "Reserved" 2 (RPos 1 1) false UNil (0);
   mkfield "Industry Code" 3 RES_LOOKUP false (ULookup lookupIndustryCode) (0)].
(** /repo/nmea2k/pgn_array.go:443 *)
Definition pgn_050 : pgn_def := mkpgn "Depth Quality Factor" "Airmar" 65408 false 8 0
  [mkfield "Manufacturer Code" 11 RES_MANUFACTURER false (UStr "=135") (0);
   mkfield "Reserved" 2 (RPos 1 1) false UNil (0);
   mkfield "Industry Code" 3 RES_LOOKUP false (ULookup lookupIndustryCode) (0);
   mkfield "SID" 8 (RPos 1 1) false UNil (0);
   mkfield "Depth Quality Factor" 4 RES_LOOKUP false (ULookup lookupAirmarDepthQuality) (0)].
(** /repo/nmea2k/pgn_array.go:452 *)
Definition pgn_051 : pgn_def := mkpgn "Device Information" "Airmar" 65410 false 8 0
  [mkfield "Manufacturer Code" 11 RES_MANUFACTURER false (UStr "=135") (0);
   mkfield "Reserved" 2 (RPos 1 1) false UNil (0);
   mkfield "Industry Code" 3 RES_LOOKUP false (ULookup lookupIndustryCode) (0);
   mkfield "SID" 8 (RPos 1 1) false UNil (0);
   mkfield "Internal Device Temperature" 16 RES_TEMPERATURE false (UStr "K") (0);
   mkfield "Supply Voltage" 16 (RPos 1 100) false (UStr "V") (0);
   mkfield "Reserved" 8 (RPos 1 1) false UNil (0)].
(** /repo/nmea2k/pgn_array.go:462 *)
Definition pgn_052 : pgn_def := mkpgn "Autopilot Mode" "Simnet" 65480 false 8 0
  [mkfield "Manufacturer Code" 11 RES_MANUFACTURER false (UStr "=1857") (0);
   mkfield "Reserved" 2 (RPos 1 1) false UNil (0);
   mkfield "Industry Code" 3 RES_LOOKUP false (ULookup lookupIndustryCode) (0)].
(** /repo/nmea2k/pgn_array.go:469 *)
Definition pgn_053 : pgn_def := mkpgn "NMEA - Request group function" "General" 126208 true 8 2
  [mkfield "Function Code" 8 RES_INTEGER false (UStr "=0") (0);
   mkfield "PGN" 24 RES_INTEGER false UNil (0);
   mkfield "Transmission interval" 32 (RPos 1 1) false UNil (0);
   mkfield "Transmission interval offset" 16 (RPos 1 1) false UNil (0);
   mkfield "# of Requested Parameters" 8 (RPos 1 1) false UNil (0);
   mkfield "Parameter Index" 8 RES_INTEGER false UNil (0);
   mkfield "Parameter Value" 0 RES_INTEGER false UNil (0)].
(** /repo/nmea2k/pgn_array.go:479 *)
Definition pgn_054 : pgn_def := mkpgn "NMEA - Command group function" "General" 126208 true 8 2
  [mkfield "Function Code" 8 RES_INTEGER false (UStr "=1") (0);
   mkfield "PGN" 24 RES_INTEGER false UNil (0);
   mkfield "Priority" 4 (RPos 1 1) false (ULookup lookupPriorityLevel) (0);
   mkfield "Reserved" 4 (RPos 1 1) false UNil (0);
   mkfield "# of Commanded Parameters" 8 (RPos 1 1) false UNil (0);
   mkfield "Parameter Index" 8 RES_INTEGER false UNil (0);
   mkfield "Parameter Value" 0 RES_INTEGER false UNil (0)].
(** /repo/nmea2k/pgn_array.go:489 *)
Definition pgn_055 : pgn_def := mkpgn "NMEA - Acknowledge group function" "General" 126208 true 8 1
  [mkfield "Function Code" 8 RES_INTEGER false (UStr "=2") (0);
   mkfield "PGN" 24 RES_INTEGER false UNil (0);
   mkfield "PGN error code" 4 (RPos 1 1) false UNil (0);
   mkfield "Transmission interval/Priority error code" 4 (RPos 1 1) false UNil (0);
   mkfield "# of Commanded Parameters" 8 (RPos 1 1) false UNil (0);
   mkfield "Parameter Error" 8 RES_INTEGER false UNil (0)].
(** /repo/nmea2k/pgn_array.go:499 *)
Definition pgn_056 : pgn_def := mkpgn "Slave Response" "Maretron" 126270 false 8 0
  [mkfield "Manufacturer Code" 11 RES_MANUFACTURER false UNil (0);
   mkfield "Reserved" 2 (RPos 1 1) false UNil (0);
   mkfield "Industry Code" 3 RES_LOOKUP false (ULookup lookupIndustryCode) (0);
   mkfield "Product Code" 16 (RPos 1 1) false UNil (0);
   mkfield "Software Code" 16 (RPos 1 1) false UNil (0);
   mkfield "Command" 8 (RPos 1 1) false UNil (0);
   mkfield "Status" 8 (RPos 1 1) false UNil (0)].
(** /repo/nmea2k/pgn_array.go:509 *)
Definition pgn_057 : pgn_def := mkpgn "PGN List (Transmit and Receive)" "Mandatory" 126464 true 8 1
  [mkfield "Function Code" 8 RES_LOOKUP false (ULookup lookupFunctionCode) (0);
   mkfield "PGN" 24 RES_INTEGER false UNil (0)].
(** /repo/nmea2k/pgn_array.go:514 *)
Definition pgn_058 : pgn_def := mkpgn "Manufacturer Proprietary: Addressable Multi-Frame" "General" 126720 true 8 0
  [mkfield "Manufacturer Code" 11 RES_MANUFACTURER false UNil (0);
   mkfield "Reserved" 2 (RPos 1 1) false UNil (0);
   mkfield "Industry Code" 3 RES_LOOKUP false (ULookup lookupIndustryCode) (0);
   mkfield "Payload" 0 RES_BINARY false UNil (0)].
(** /repo/nmea2k/pgn_array.go:521 *)
Definition pgn_059 : pgn_def := mkpgn "Addressable Multi-Frame" "Airmar" 126720 true 8 0
  [mkfield "Manufacturer Code" 11 RES_MANUFACTURER false (UStr "=135") (0);
   mkfield "Reserved" 2 (RPos 1 1) false UNil (0);
   mkfield "Industry Code" 3 RES_LOOKUP false (ULookup lookupIndustryCode) (0);
   mkfield "Proprietary ID" 8 RES_INTEGER false (UStr "=0") (0)].
(** /repo/nmea2k/pgn_array.go:529 *)
Definition pgn_060 : pgn_def := mkpgn "Attitude Offset" "Airmar" 126720 true 8 0
  [mkfield "Manufacturer Code" 11 RES_MANUFACTURER false (UStr "=135") (0);
   mkfield "Reserved" 2 (RPos 1 1) false UNil (0);
   mkfield "Industry Code" 3 RES_LOOKUP false (ULookup lookupIndustryCode) (0);
   mkfield "Proprietary ID" 8 RES_INTEGER false (UStr "=32") (0);
   mkfield "Azimuth offset" 16 (RPos 1800000000000000000000000000000000000000000000000000000000000 314159265358979323846264338327950288419716939937510582097494459) true (UStr "deg") (0);
   mkfield "Pitch offset" 16 (RPos 1800000000000000000000000000000000000000000000000000000000000 314159265358979323846264338327950288419716939937510582097494459) true (UStr "deg") (0);
   mkfield "Roll offset" 16 (RPos 1800000000000000000000000000000000000000000000000000000000000 314159265358979323846264338327950288419716939937510582097494459) true (UStr "deg") (0)].
(** /repo/nmea2k/pgn_array.go:540 *)
Definition pgn_061 : pgn_def := mkpgn "Calibrate Compass" "Airmar" 126720 true 8 0
  [mkfield "Manufacturer Code" 11 RES_MANUFACTURER false (UStr "=135") (0);
   mkfield "Reserved" 2 (RPos 1 1) false UNil (0);
   mkfield "Industry Code" 3 RES_LOOKUP false (ULookup lookupIndustryCode) (0);
   mkfield "Proprietary ID" 8 RES_INTEGER false (UStr "=33") (0);
   mkfield "Calibrate Function" 8 RES_LOOKUP false (ULookup lookupAirmarCalibrateFunction) (0);
   mkfield "Calibration Status" 8 RES_LOOKUP false (ULookup lookupAirmarCalibrationStatus) (0);
   mkfield "Verify Score" 8 RES_INTEGER false UNil (0);
   mkfield "X-axis gain value" 16 (RPos 1 100) true UNil (0);
   mkfield "Y-axis gain value" 16 (RPos 1 100) true UNil (0);
   mkfield "Z-axis gain value" 16 (RPos 1 100) true UNil (0);
   mkfield "X-axis linear offset" 16 (RPos 1 100) true (UStr "Tesla") (0);
   mkfield "Y-axis linear offset" 16 (RPos 1 100) true (UStr "Tesla") (0);
   mkfield "Z-axis linear offset" 16 (RPos 1 100) true (UStr "Tesla") (0);
   mkfield "X-axis angular offset" 16 (RPos 1 10) true (UStr "deg") (0);
   mkfield "Pitch and Roll damping" 16 (RPos 1 20) false (UStr "s") (0);
   mkfield "Compass/Rate gyro damping" 16 (RPos 1 20) true (UStr "s") (0)].
(** /repo/nmea2k/pgn_array.go:560 *)
Definition pgn_062 : pgn_def := mkpgn "True Wind Options" "Airmar" 126720 true 8 0
  [mkfield "Manufacturer Code" 11 RES_MANUFACTURER false (UStr "=135") (0);
   mkfield "Reserved" 2 (RPos 1 1) false UNil (0);
   mkfield "Industry Code" 3 RES_LOOKUP false (ULookup lookupIndustryCode) (0);
   mkfield "Proprietary ID" 8 RES_INTEGER false (UStr "=34") (0);
   mkfield "COG substition for HDG" 2 RES_LOOKUP false (ULookup lookupAirmarCogSubstitute) (0);
   mkfield "Calibration Status" 8 RES_LOOKUP false (ULookup lookupAirmarCalibrationStatus) (0);
   mkfield "Verify Score" 8 RES_INTEGER false UNil (0);
   mkfield "X-axis gain value" 16 (RPos 1 100) false UNil (0);
   mkfield "Y-axis gain value" 16 (RPos 1 100) false UNil (0);
   mkfield "Z-axis gain value" 16 (RPos 1 100) false UNil (0);
   mkfield "X-axis linear offset" 16 (RPos 1 100) true (UStr "Tesla") (0);
   mkfield "Y-axis linear offset" 16 (RPos 1 100) true (UStr "Tesla") (0);
   mkfield "Z-axis linear offset" 16 (RPos 1 100) true (UStr "Tesla") (0);
   mkfield "X-axis angular offset" 16 (RPos 1 10) false (UStr "deg") (0);
   mkfield "Pitch and Roll damping" 16 (RPos 1 20) false (UStr "s") (0);
   mkfield "Compass/Rate gyro damping" 16 (RPos 1 20) true (UStr "s") (0)].
(** /repo/nmea2k/pgn_array.go:580 *)
Definition pgn_063 : pgn_def := mkpgn "Simulate Mode" "Airmar" 126720 true 8 0
  [mkfield "Manufacturer Code" 11 RES_MANUFACTURER false (UStr "=135") (0);
   mkfield "Reserved" 2 (RPos 1 1) false UNil (0);
   mkfield "Industry Code" 3 RES_LOOKUP false (ULookup lookupIndustryCode) (0);
   mkfield "Proprietary ID" 8 RES_INTEGER false (UStr "=35") (0);
   mkfield "Simulate Mode" 2 RES_LOOKUP false (ULookup lookupOffOn) (0)].
(** /repo/nmea2k/pgn_array.go:589 *)
Definition pgn_064 : pgn_def := mkpgn "Calibrate Depth" "Airmar" 126720 true 8 0
  [mkfield "Manufacturer Code" 11 RES_MANUFACTURER false (UStr "=135") (0);
   mkfield "Reserved" 2 (RPos 1 1) false UNil (0);
   mkfield "Industry Code" 3 RES_LOOKUP false (ULookup lookupIndustryCode) (0);
   mkfield "Proprietary ID" 8 RES_INTEGER false (UStr "=40") (0);
   mkfield "Speed of Sound Mode" 16 (RPos 1 10) false (UStr "m/s") (0)].
(** /repo/nmea2k/pgn_array.go:598 *)
Definition pgn_065 : pgn_def := mkpgn "Calibrate Speed" "Airmar" 126720 true 8 2
  [mkfield "Manufacturer Code" 11 RES_MANUFACTURER false (UStr "=135") (0);
   mkfield "Reserved" 2 (RPos 1 1) false UNil (0);
   mkfield "Industry Code" 3 RES_LOOKUP false (ULookup lookupIndustryCode) (0);
   mkfield "Proprietary ID" 8 RES_INTEGER false (UStr "=41") (0);
   mkfield "Number of pairs of data points" 8 RES_INTEGER false UNil (0);
   mkfield "Input frequency" 16 (RPos 1 10) false (UStr "Hz") (0);
   mkfield "Output speed" 16 (RPos 1 100) false (UStr "m/s") (0)].
(** /repo/nmea2k/pgn_array.go:609 *)
Definition pgn_066 : pgn_def := mkpgn "Calibrate Temperature" "Airmar" 126720 true 8 2
  [mkfield "Manufacturer Code" 11 RES_MANUFACTURER false (UStr "=135") (0);
   mkfield "Reserved" 2 (RPos 1 1) false UNil (0);
   mkfield "Industry Code" 3 RES_LOOKUP false (ULookup lookupIndustryCode) (0);
   mkfield "Proprietary ID" 8 RES_INTEGER false (UStr "=42") (0);
   mkfield "Temperature Instance" 2 RES_LOOKUP false (ULookup lookupAirmarTempInstance) (0);
   mkfield "Reserved" 6 RES_BINARY false UNil (0);
   mkfield "Temperature offset" 16 (RPos 1 10) false (UStr "Hz") (0);
   mkfield "Temperature offset" 16 (RPos 1 1000) true (UStr "K") (0)].
(** /repo/nmea2k/pgn_array.go:621 *)
Definition pgn_067 : pgn_def := mkpgn "Speed Filter" "Airmar" 126720 true 8 2
  [mkfield "Manufacturer Code" 11 RES_MANUFACTURER false (UStr "=135") (0);
   mkfield "Reserved" 2 (RPos 1 1) false UNil (0);
   mkfield "Industry Code" 3 RES_LOOKUP false (ULookup lookupIndustryCode) (0);
   mkfield "Proprietary ID" 8 RES_INTEGER false (UStr "=43") (0);
   mkfield "Filter type" 4 RES_LOOKUP false (ULookup lookupAirmarSpeedFilter) (0);
   mkfield "Reserved" 4 RES_BINARY false UNil (0);
   mkfield "Sample interval" 16 (RPos 1 100) false (UStr "s") (0);
   mkfield "Filter duration" 16 (RPos 1 100) false (UStr "s") (0)].
(** /repo/nmea2k/pgn_array.go:633 *)
Definition pgn_068 : pgn_def := mkpgn "Temperature Filter" "Airmar" 126720 true 8 2
  [mkfield "Manufacturer Code" 11 RES_MANUFACTURER false (UStr "=135") (0);
   mkfield "Reserved" 2 (RPos 1 1) false UNil (0);
   mkfield "Industry Code" 3 RES_LOOKUP false (ULookup lookupIndustryCode) (0);
   mkfield "Proprietary ID" 8 RES_INTEGER false (UStr "=44") (0);
   mkfield "Filter type" 4 RES_LOOKUP false (ULookup lookupAirmarTempFilter) (0);
   mkfield "Reserved" 4 RES_BINARY false UNil (0);
   mkfield "Sample interval" 16 (RPos 1 100) false (UStr "s") (0);
   mkfield "Filter duration" 16 (RPos 1 100) false (UStr "s") (0)].
(** /repo/nmea2k/pgn_array.go:645 *)
Definition pgn_069 : pgn_def := mkpgn "NMEA 2000 options" "Airmar" 126720 true 8 2
  [mkfield "Manufacturer Code" 11 RES_MANUFACTURER false (UStr "=135") (0);
   mkfield "Reserved" 2 (RPos 1 1) false UNil (0);
   mkfield "Industry Code" 3 RES_LOOKUP false (ULookup lookupIndustryCode) (0);
   mkfield "Proprietary ID" 8 RES_INTEGER false (UStr "=46") (0);
   mkfield "Transmission Interval" 2 RES_LOOKUP false (ULookup lookupAirmarTransmissionInterval) (0);
   mkfield "Reserved" 22 RES_BINARY false UNil (0)].
(** /repo/nmea2k/pgn_array.go:655 *)
Definition pgn_070 : pgn_def := mkpgn "System Time" "General" 126992 true 8 0
  [mkfield "SID" 8 (RPos 1 1) false UNil (0);
   mkfield "Source" 4 RES_LOOKUP false (ULookup lookupSystemTime) (0);
   mkfield "Reserved" 4 RES_BINARY false UNil (0);
   mkfield "Date" 16 RES_DATE false (UStr "days") (0);
   mkfield "Time" 32 RES_TIME false (UStr "s") (0)].
(** /repo/nmea2k/pgn_array.go:664 *)
Definition pgn_071 : pgn_def := mkpgn "Heartbeat" "General" 126993 true 8 0
  [mkfield "Update Rate" 16 (RPos 1 100) false (UStr "s") (0);
   mkfield "Heartbeat Sequence Counter" 8 (RPos 1 1) false UNil (0)].
(** /repo/nmea2k/pgn_array.go:669 *)
Definition pgn_072 : pgn_def := mkpgn "Product Information" "Mandatory" 126996 false 134 0
  [mkfield "NMEA 2000 Version" 16 (RPos 1 1) false UNil (0);
   mkfield "Product Code" 16 (RPos 1 1) false UNil (0);
   mkfield "Model ID" 256 RES_ASCII false UNil (0);
   mkfield "Software Version Code" 256 RES_ASCII false UNil (0);
   mkfield "Model Version" 256 RES_ASCII false UNil (0);
   mkfield "Model Serial Code" 256 RES_ASCII false UNil (0);
   mkfield "Certification Level" 8 (RPos 1 1) false UNil (0);
   mkfield "Load Equivalency" 8 (RPos 1 1) false UNil (0)].
(** /repo/nmea2k/pgn_array.go:680 *)
Definition pgn_073 : pgn_def := mkpgn "Configuration Information" "General" 126998 false 42 0
  [mkfield "Station ID" 16 (RPos 1 1) false UNil (0);
   mkfield "Station Name" 16 (RPos 1 1) false UNil (0);
   mkfield "A" 16 (RPos 1 1) false UNil (0);
   mkfield "Manufacturer" 288 RES_ASCII false UNil (0);
   mkfield "Installation Description #1" 16 (RPos 1 1) false UNil (0);
   mkfield "Installation Description #2" 16 (RPos 1 1) false UNil (0)].
(** /repo/nmea2k/pgn_array.go:694 *)
Definition pgn_074 : pgn_def := mkpgn "Alert" "Alert" 126983 true 27 0
  [mkfield "Alert Type" 4 (RPos 1 1) false (ULookup lookupAlertType) (0);
   mkfield "Alert Category" 4 (RPos 1 1) false (ULookup lookupAlertCategory) (0);
   mkfield "Alert System" 8 (RPos 1 1) false UNil (0);
   mkfield "Alert Sub-System" 8 (RPos 1 1) false UNil (0);
   mkfield "Alert ID" 16 (RPos 1 1) false UNil (0);
   mkfield "Data Source Network ID NAME" 64 (RPos 1 1) false UNil (0);
   mkfield "Data Source Instance" 8 (RPos 1 1) false UNil (0);
   mkfield "Data Source Index" 8 (RPos 1 1) false UNil (0);
   mkfield "Alert Occurence Number" 8 (RPos 1 1) false UNil (0);
   mkfield "Temporary Silence Status" 1 (RPos 1 1) false (ULookup lookupSilenceStatus) (0);
   mkfield "Acknowledge Status" 1 (RPos 1 1) false (ULookup lookupAcknowledgeStatus) (0);
   mkfield "Escalation Status" 1 (RPos 1 1) false (ULookup lookupEscalationStatus) (0);
   mkfield "Temporary Silence Support" 1 (RPos 1 1) false (ULookup lookupSupport) (0);
   mkfield "Acknowledge Support" 1 (RPos 1 1) false (ULookup lookupSupport) (0);
   mkfield "Escalation Support" 1 (RPos 1 1) false (ULookup lookupSupport) (0);
   mkfield "Reserved" 2 RES_BINARY false UNil (0);
   mkfield "Acknowledge Source Network ID NAME" 64 (RPos 1 1) false UNil (0);
   mkfield "Trigger Condition" 4 (RPos 1 1) false (ULookup lookupTriggerCondition) (0);
   mkfield "Threshold Status" 4 (RPos 1 1) false (ULookup lookupThresholdStatus) (0);
   mkfield "Alert Priority" 8 (RPos 1 1) false UNil (0);
   mkfield "Alert State" 8 (RPos 1 1) false (ULookup lookupAlertState) (0)].
(** /repo/nmea2k/pgn_array.go:718 *)
Definition pgn_075 : pgn_def := mkpgn "Heading/Track Control" "Steering" 127237 true 21 0
  [mkfield "Rudder Limit Exceeded" 2 (RPos 1 1) false UNil (0);
   mkfield "Off-Heading Limit Exceeded" 2 (RPos 1 1) false UNil (0);
   mkfield "Off-Track Limit Exceeded" 2 (RPos 1 1) false UNil (0);
   mkfield "Override" 2 (RPos 1 1) false UNil (0);
   mkfield "Steering Mode" 3 (RPos 1 1) false (ULookup lookupSteeringMode) (0);
   mkfield "Turn Mode" 3 (RPos 1 1) false (ULookup lookupTurnMode) (0);
   mkfield "Heading Reference" 2 (RPos 1 1) false (ULookup lookupDirectionReference) (0);
   mkfield "Reserved" 5 (RPos 1 1) false UNil (0);
   mkfield "Commanded Rudder Direction" 3 (RPos 1 1) false (ULookup lookupCommandedRudderDirection) (0);
   mkfield "Commanded Rudder Angle" 16 (RPos 1800000000000000000000000000000000000000000000000000000000000 314159265358979323846264338327950288419716939937510582097494459) true (UStr "deg") (0);
   mkfield "Heading-To-Steer (Course)" 16 (RPos 1800000000000000000000000000000000000000000000000000000000000 314159265358979323846264338327950288419716939937510582097494459) false (UStr "deg") (0);
   mkfield "Track" 16 (RPos 1800000000000000000000000000000000000000000000000000000000000 314159265358979323846264338327950288419716939937510582097494459) false (UStr "deg") (0);
   mkfield "Rudder Limit" 16 (RPos 1800000000000000000000000000000000000000000000000000000000000 314159265358979323846264338327950288419716939937510582097494459) false (UStr "deg") (0);
   mkfield "Off-Heading Limit" 16 (RPos 1800000000000000000000000000000000000000000000000000000000000 314159265358979323846264338327950288419716939937510582097494459) false (UStr "deg") (0);
   mkfield "Radius of Turn Order" 16 (RPos 1800000000000000000000000000000000000000000000000000000000000 314159265358979323846264338327950288419716939937510582097494459) true (UStr "deg") (0);
   mkfield "Rate of Turn Order" 16 (RPos 562500000000000000000000000000000000000000000000000000000000 314159265358979323846264338327950288419716939937510582097494459) true (UStr "deg/s") (0);
   mkfield "Off-Track Limit" 16 (RPos 1 1) true (UStr "m") (0);
   mkfield "Vessel Heading" 16 (RPos 1800000000000000000000000000000000000000000000000000000000000 314159265358979323846264338327950288419716939937510582097494459) false (UStr "deg") (0)].
(** /repo/nmea2k/pgn_array.go:740 *)
Definition pgn_076 : pgn_def := mkpgn "Rudder" "Steering" 127245 true 8 0
  [mkfield "Rudder Instance" 8 (RPos 1 1) false UNil (0);
   mkfield "Direction Order" 3 (RPos 1 1) false (ULookup lookupCommandedRudderDirection) (0);
   mkfield "Reserved" 5 RES_BINARY false UNil (0);
   mkfield "Angle Order" 16 (RPos 1800000000000000000000000000000000000000000000000000000000000 314159265358979323846264338327950288419716939937510582097494459) true (UStr "deg") (0);
   mkfield "Position" 16 (RPos 1800000000000000000000000000000000000000000000000000000000000 314159265358979323846264338327950288419716939937510582097494459) true (UStr "deg") (0)].
(** /repo/nmea2k/pgn_array.go:751 *)
Definition pgn_077 : pgn_def := mkpgn "Vessel Heading" "Steering" 127250 true 8 0
  [mkfield "SID" 8 (RPos 1 1) false UNil (0);
   mkfield "Heading" 16 (RPos 1800000000000000000000000000000000000000000000000000000000000 314159265358979323846264338327950288419716939937510582097494459) false (UStr "deg") (0);
   mkfield "Deviation" 16 (RPos 1800000000000000000000000000000000000000000000000000000000000 314159265358979323846264338327950288419716939937510582097494459) true (UStr "deg") (0);
   mkfield "Variation" 16 (RPos 1800000000000000000000000000000000000000000000000000000000000 314159265358979323846264338327950288419716939937510582097494459) true (UStr "deg") (0);
   mkfield "Reference" 2 RES_LOOKUP false (ULookup lookupDirectionReference) (0)].
(** /repo/nmea2k/pgn_array.go:761 *)
Definition pgn_078 : pgn_def := mkpgn "Rate of Turn" "Steering" 127251 true 5 0
  [mkfield "SID" 8 (RPos 1 1) false UNil (0);
   mkfield "Rate" 32 (RPos 56250000000000000000000000000000000000000000000000000000 314159265358979323846264338327950288419716939937510582097494459) true (UStr "deg/s") (0)].
(** /repo/nmea2k/pgn_array.go:766 *)
Definition pgn_079 : pgn_def := mkpgn "Attitude" "Steering" 127257 true 7 0
  [mkfield "SID" 8 (RPos 1 1) false UNil (0);
   mkfield "Yaw" 16 (RPos 1800000000000000000000000000000000000000000000000000000000000 314159265358979323846264338327950288419716939937510582097494459) true (UStr "deg") (0);
   mkfield "Pitch" 16 (RPos 1800000000000000000000000000000000000000000000000000000000000 314159265358979323846264338327950288419716939937510582097494459) true (UStr "deg") (0);
   mkfield "Roll" 16 (RPos 1800000000000000000000000000000000000000000000000000000000000 314159265358979323846264338327950288419716939937510582097494459) true (UStr "deg") (0)].
(** /repo/nmea2k/pgn_array.go:775 *)
Definition pgn_080 : pgn_def := mkpgn "Magnetic Variation" "Steering" 127258 true 6 0
  [mkfield "SID" 8 (RPos 1 1) false UNil (0);
   mkfield "Source" 4 RES_LOOKUP false (ULookup lookupMagneticVariation) (0);
   mkfield "Reserved" 4 RES_BINARY false UNil (0);
   mkfield "Age of service" 16 RES_DATE false (UStr "days") (0);
   mkfield "Variation" 16 (RPos 1800000000000000000000000000000000000000000000000000000000000 314159265358979323846264338327950288419716939937510582097494459) true (UStr "deg") (0)].
(** /repo/nmea2k/pgn_array.go:787 *)
Definition pgn_081 : pgn_def := mkpgn "Engine Parameters, Rapid Update" "Propulsion" 127488 true 8 0
  [mkfield "Engine Instance" 8 RES_LOOKUP false (ULookup lookupEngineInstance) (0);
   mkfield "Engine Speed" 16 RES_INTEGER false (UStr "rpm") (0);
   mkfield "Engine Boost Pressure" 16 RES_PRESSURE false (UStr "hPa") (0);
   mkfield "Engine Tilt/Trim" 8 (RPos 1 1) true UNil (0)].
(** /repo/nmea2k/pgn_array.go:794 *)
Definition pgn_082 : pgn_def := mkpgn "Engine Parameters, Dynamic" "Propulsion" 127489 true 26 0
  [mkfield "Engine Instance" 8 RES_LOOKUP false (ULookup lookupEngineInstance) (0);
   mkfield "Oil pressure" 16 RES_PRESSURE false (UStr "hPa") (0);
   mkfield "Oil temperature" 16 RES_TEMPERATURE false (UStr "K") (0);
   mkfield "Temperature" 16 RES_TEMPERATURE false (UStr "K") (0);
   mkfield "Alternator Potential" 16 (RPos 1 100) false (UStr "V") (0);
   mkfield "Fuel Rate" 16 (RPos 1 10) true (UStr "L/h") (0);
   mkfield "Total Engine hours" 32 (RPos 1 1) false (UStr "s") (0);
   mkfield "Coolant Pressure" 16 RES_PRESSURE false (UStr "hPa") (0);
   mkfield "Fuel Pressure" 16 (RPos 1 1) false UNil (0);
   mkfield "Reserved" 8 (RPos 1 1) false UNil (0);
   mkfield "Discrete Status 1" 16 RES_INTEGER false UNil (0);
   mkfield "Discrete Status 2" 16 RES_INTEGER false UNil (0);
   mkfield "Percent Engine Load" 8 RES_INTEGER true (UStr "%%") (0);
   mkfield "Percent Engine Torque" 8 RES_INTEGER true (UStr "%%") (0)].
(** /repo/nmea2k/pgn_array.go:811 *)
Definition pgn_083 : pgn_def := mkpgn "Transmission Parameters, Dynamic" "Propulsion" 127493 true 7 0
  [mkfield "Engine Instance" 2 RES_LOOKUP false (ULookup lookupEngineInstance) (0);
   mkfield "Transmission Gear" 2 RES_LOOKUP false (ULookup lookupGearStatus) (0);
   mkfield "Reserved" 4 (RPos 1 1) false UNil (0);
   mkfield "Oil pressure" 16 RES_PRESSURE false (UStr "hPa") (0);
   mkfield "Oil temperature" 16 RES_TEMPERATURE false (UStr "K") (0);
   mkfield "Discrete Status 1" 8 RES_INTEGER false UNil (0)].
(** /repo/nmea2k/pgn_array.go:820 *)
Definition pgn_084 : pgn_def := mkpgn "Trip Parameters, Vessel" "Propulsion" 127496 true 10 0
  [mkfield "Time to Empty" 32 (RPos 1 1000) false (UStr "s") (0);
   mkfield "Distance to Empty" 32 (RPos 1 100) false (UStr "m") (0);
   mkfield "Estimated Fuel Remaining" 16 (RPos 1 1) false (UStr "L") (0);
   mkfield "Trip Run Time" 32 (RPos 1 1000) false (UStr "s") (0)].
(** /repo/nmea2k/pgn_array.go:827 *)
Definition pgn_085 : pgn_def := mkpgn "Trip Parameters, Engine" "Propulsion" 127497 true 9 0
  [mkfield "Engine Instance" 8 RES_LOOKUP false (ULookup lookupEngineInstance) (0);
   mkfield "Trip Fuel Used" 16 (RPos 1 1) false (UStr "L") (0);
   mkfield "Fuel Rate, Average" 16 (RPos 1 10) true (UStr "L/h") (0);
   mkfield "Fuel Rate, Economy" 16 (RPos 1 10) true (UStr "L/h") (0);
   mkfield "Instantaneous Fuel Economy" 16 (RPos 1 10) true (UStr "L/h") (0)].
(** /repo/nmea2k/pgn_array.go:835 *)
Definition pgn_086 : pgn_def := mkpgn "Engine Parameters, Static" "Propulsion" 127498 true 8 0
  [mkfield "Engine Instance" 8 RES_LOOKUP false (ULookup lookupEngineInstance) (0);
   mkfield "Rated Engine Speed" 16 (RPos 1 1) false UNil (0);
   mkfield "VIN" 8 (RPos 1 1) false UNil (0);
   mkfield "Software ID" 16 (RPos 1 1) false UNil (0)].
(** /repo/nmea2k/pgn_array.go:842 *)
Definition pgn_087 : pgn_def := mkpgn "Binary Switch Bank Status" "Power" 127501 false 8 1
  [mkfield "Indicator Bank Instance" 8 (RPos 1 1) false UNil (0);
   mkfield "Indicator" 2 RES_LOOKUP false (ULookup lookupOffOn) (0)].
(** /repo/nmea2k/pgn_array.go:847 *)
Definition pgn_088 : pgn_def := mkpgn "Switch Bank Control" "Power" 127502 false 8 1
  [mkfield "Switch Bank Instance" 8 (RPos 1 1) false UNil (0);
   mkfield "Switch" 2 RES_LOOKUP false (ULookup lookupOffOn) (0)].
(** /repo/nmea2k/pgn_array.go:853 *)
Definition pgn_089 : pgn_def := mkpgn "AC Input Status" "Power" 127503 true 8 10
  [mkfield "AC Instance" 8 (RPos 1 1) false UNil (0);
   mkfield "Number of Lines" 8 (RPos 1 1) false UNil (0);
   mkfield "Line" 2 RES_LOOKUP false (ULookup lookupLine) (0);
   mkfield "Acceptability" 2 RES_LOOKUP false (ULookup lookupAcceptability) (0);
   mkfield "Reserved" 4 (RPos 1 1) false UNil (0);
   mkfield "Voltage" 16 (RPos 1 100) false (UStr "V") (0);
   mkfield "Current" 16 (RPos 1 10) false (UStr "A") (0);
   mkfield "Frequency" 16 (RPos 1 100) false (UStr "Hz") (0);
   mkfield "Breaker Size" 16 (RPos 1 10) false (UStr "A") (0);
   mkfield "Real Power" 32 RES_INTEGER false (UStr "W") (0);
   mkfield "Reactive Power" 32 RES_INTEGER false (UStr "VAr") (0);
   mkfield "Power Factor" 8 (RPos 1 100) false UNil (0)].
(** /repo/nmea2k/pgn_array.go:869 *)
Definition pgn_090 : pgn_def := mkpgn "AC Output Status" "Power" 127504 true 8 10
  [mkfield "AC Instance" 8 (RPos 1 1) false UNil (0);
   mkfield "Number of Lines" 8 (RPos 1 1) false UNil (0);
   mkfield "Line" 2 RES_LOOKUP false (ULookup lookupLine) (0);
   mkfield "Waveform" 3 RES_LOOKUP false (ULookup lookupWaveform) (0);
   mkfield "Reserved" 3 (RPos 1 1) false UNil (0);
   mkfield "Voltage" 16 (RPos 1 100) false (UStr "V") (0);
   mkfield "Current" 16 (RPos 1 10) false (UStr "A") (0);
   mkfield "Frequency" 16 (RPos 1 100) false (UStr "Hz") (0);
   mkfield "Breaker Size" 16 (RPos 1 10) false (UStr "A") (0);
   mkfield "Real Power" 32 RES_INTEGER false (UStr "W") (0);
   mkfield "Reactive Power" 32 RES_INTEGER false (UStr "VAr") (0);
   mkfield "Power Factor" 8 (RPos 1 100) false UNil (0)].
(** /repo/nmea2k/pgn_array.go:886 *)
Definition pgn_091 : pgn_def := mkpgn "Fluid Level" "General" 127505 true 7 0
  [mkfield "Instance" 4 (RPos 1 1) false UNil (0);
   mkfield "Type" 4 RES_LOOKUP false (ULookup lookupTankType) (0);
   mkfield "Level" 16 (RPos 1 250) false (UStr "%%") (0);
   mkfield "Capacity" 32 (RPos 1 10) false (UStr "L") (0)].
(** /repo/nmea2k/pgn_array.go:893 *)
Definition pgn_092 : pgn_def := mkpgn "DC Detailed Status" "Power" 127506 false 8 0
  [mkfield "SID" 8 (RPos 1 1) false UNil (0);
   mkfield "DC Instance" 8 (RPos 1 1) false UNil (0);
   mkfield "DC Type" 8 (RPos 1 1) false UNil (0);
   mkfield "State of Charge" 8 (RPos 1 1) false UNil (0);
   mkfield "State of Health" 8 (RPos 1 1) false UNil (0);
   mkfield "Time Remaining" 16 (RPos 1 1) false UNil (0);
   mkfield "Ripple Voltage" 16 (RPos 1 100) false (UStr "V") (0)].
(** /repo/nmea2k/pgn_array.go:903 *)
Definition pgn_093 : pgn_def := mkpgn "Charger Status" "Power" 127507 false 8 0
  [mkfield "Charger Instance" 8 (RPos 1 1) false UNil (0);
   mkfield "Battery Instance" 8 (RPos 1 1) false UNil (0);
   mkfield "Operating State" 8 (RPos 1 1) false UNil (0);
   mkfield "Charge Mode" 8 (RPos 1 1) false UNil (0);
   mkfield "Charger Enable/Disable" 2 (RPos 1 1) false UNil (0);
   mkfield "Equalization Pending" 2 (RPos 1 1) false UNil (0);
   mkfield "Reserved" 4 (RPos 1 1) false UNil (0);
   mkfield "Equalization Time Remaining" 16 (RPos 1 1) false UNil (0)].
(** /repo/nmea2k/pgn_array.go:914 *)
Definition pgn_094 : pgn_def := mkpgn "Battery Status" "Power" 127508 true 8 0
  [mkfield "Battery Instance" 8 (RPos 1 1) false UNil (0);
   mkfield "Voltage" 16 (RPos 1 100) true (UStr "V") (0);
   mkfield "Current" 16 (RPos 1 10) true (UStr "A") (0);
   mkfield "Temperature" 16 RES_TEMPERATURE false (UStr "K") (0);
   mkfield "SID" 8 (RPos 1 1) false UNil (0)].
(** /repo/nmea2k/pgn_array.go:922 *)
Definition pgn_095 : pgn_def := mkpgn "Inverter Status" "Power" 127509 false 8 0
  [mkfield "Inverter Instance" 8 (RPos 1 1) false UNil (0);
   mkfield "AC Instance" 8 (RPos 1 1) false UNil (0);
   mkfield "DC Instance" 8 (RPos 1 1) false UNil (0);
   mkfield "Operating State" 4 RES_LOOKUP false (ULookup lookupStandbyOn) (0);
   mkfield "Inverter" 2 RES_LOOKUP false (ULookup lookupStandbyOn) (0)].
(** /repo/nmea2k/pgn_array.go:930 *)
Definition pgn_096 : pgn_def := mkpgn "Charger Configuration Status" "Power" 127510 false 8 0
  [mkfield "Charger Instance" 8 (RPos 1 1) false UNil (0);
   mkfield "Battery Instance" 8 (RPos 1 1) false UNil (0);
   mkfield "Charger Enable/Disable" 2 (RPos 1 1) false UNil (0);
   mkfield "Reserved" 6 (RPos 1 1) false UNil (0);
   mkfield "Charge Current Limit" 16 (RPos 1 10) false (UStr "A") (0);
   mkfield "Charging Algorithm" 8 (RPos 1 1) false UNil (0);
   mkfield "Charger Mode" 8 (RPos 1 1) false UNil (0);
   mkfield "Estimated Temperature" 16 RES_TEMPERATURE false (UStr "K") (0);
   mkfield "Equalize One Time Enable/Disable" 4 (RPos 1 1) false UNil (0);
   mkfield "Over Charge Enable/Disable" 4 (RPos 1 1) false UNil (0);
   mkfield "Equalize Time" 16 (RPos 1 1) false UNil (0)].
(** /repo/nmea2k/pgn_array.go:944 *)
Definition pgn_097 : pgn_def := mkpgn "Inverter Configuration Status" "Power" 127511 false 8 0
  [mkfield "Inverter Instance" 8 (RPos 1 1) false UNil (0);
   mkfield "AC Instance" 8 (RPos 1 1) false UNil (0);
   mkfield "DC Instance" 8 (RPos 1 1) false UNil (0);
   mkfield "Inverter Enable/Disable" 2 (RPos 1 1) false UNil (0);
   mkfield "Inverter Mode" 8 (RPos 1 1) false UNil (0);
   mkfield "Load Sense Enable/Disable" 8 (RPos 1 1) false UNil (0);
   mkfield "Load Sense Power Threshold" 8 (RPos 1 1) false UNil (0);
   mkfield "Load Sense Interval" 8 (RPos 1 1) false UNil (0)].
(** /repo/nmea2k/pgn_array.go:955 *)
Definition pgn_098 : pgn_def := mkpgn "AGS Configuration Status" "Power" 127512 false 8 0
  [mkfield "AGS Instance" 8 (RPos 1 1) false UNil (0);
   mkfield "Generator Instance" 8 (RPos 1 1) false UNil (0);
   mkfield "AGS Mode" 8 (RPos 1 1) false UNil (0)].
(** /repo/nmea2k/pgn_array.go:961 *)
Definition pgn_099 : pgn_def := mkpgn "Battery Configuration Status" "Power" 127513 false 8 0
  [mkfield "Battery Instance" 8 (RPos 1 1) false UNil (0);
   mkfield "Battery Type" 8 (RPos 1 1) false UNil (0);
   mkfield "Supports Equalization" 2 (RPos 1 1) false UNil (0);
   mkfield "Reserved" 6 (RPos 1 1) false UNil (0);
   mkfield "Nominal Voltage" 16 (RPos 1 100) false (UStr "V") (0);
   mkfield "Chemistry" 8 (RPos 1 1) false UNil (0);
   mkfield "Capacity" 16 (RPos 1 1) false UNil (0);
   mkfield "Temperature Coefficient" 16 (RPos 1 1) false UNil (0);
   mkfield "Peukert Exponent" 16 (RPos 1 1) false UNil (0);
   mkfield "Charge Efficiency Factor" 16 (RPos 1 1) false UNil (0)].
(** /repo/nmea2k/pgn_array.go:974 *)
Definition pgn_100 : pgn_def := mkpgn "AGS Status" "Power" 127514 false 8 0
  [mkfield "AGS Instance" 8 (RPos 1 1) false UNil (0);
   mkfield "Generator Instance" 8 (RPos 1 1) false UNil (0);
   mkfield "AGS Operating State" 8 (RPos 1 1) false UNil (0);
   mkfield "Generator State" 8 (RPos 1 1) false UNil (0);
   mkfield "Generator On Reason" 8 (RPos 1 1) false UNil (0);
   mkfield "Generator Off Reason" 8 (RPos 1 1) false UNil (0)].
(** /repo/nmea2k/pgn_array.go:984 *)
Definition pgn_101 : pgn_def := mkpgn "Speed" "Propulsion" 128259 true 6 0
  [mkfield "SID" 8 (RPos 1 1) false UNil (0);
   mkfield "Speed Water Referenced" 16 (RPos 1 100) false (UStr "m/s") (0);
   mkfield "Speed Ground Referenced" 16 (RPos 1 100) false (UStr "m/s") (0);
   mkfield "Speed Water Referenced Type" 8 RES_LOOKUP false (ULookup lookupSpeedReference) (0);
   mkfield "Speed Direction" 4 RES_LOOKUP false (ULookup lookupSpeedDirection) (0);
   mkfield "Reserved" 4 (RPos 1 1) false UNil (0)].
(** /repo/nmea2k/pgn_array.go:994 *)
Definition pgn_102 : pgn_def := mkpgn "Water Depth" "Navigation" 128267 true 5 0
  [mkfield "SID" 8 (RPos 1 1) false UNil (0);
   mkfield "Depth" 32 (RPos 1 100) false (UStr "m") (0);
   mkfield "Offset" 16 (RPos 1 1000) true (UStr "m") (0)].
(** /repo/nmea2k/pgn_array.go:1001 *)
Definition pgn_103 : pgn_def := mkpgn "Distance Log" "Navigation" 128275 true 14 0
  [mkfield "Date" 16 RES_DATE false (UStr "days") (0);
   mkfield "Time" 32 RES_TIME false (UStr "s") (0);
   mkfield "Log" 32 (RPos 1 1) false (UStr "m") (0);
   mkfield "Trip Log" 32 (RPos 1 1) false (UStr "m") (0)].
(** /repo/nmea2k/pgn_array.go:1008 *)
Definition pgn_104 : pgn_def := mkpgn "Tracked Target Data" "Navigation" 128520 true 27 0
  [mkfield "SID" 8 (RPos 1 1) false UNil (0);
   mkfield "Target ID #" 8 (RPos 1 1) false UNil (0);
   mkfield "Track Status" 2 RES_LOOKUP false (ULookup lookupTrackStatus) (0);
   mkfield "Reported Target" 1 RES_LOOKUP false (ULookup lookupYesNo) (0);
   mkfield "Target Acquisition" 1 RES_LOOKUP false (ULookup lookupTargetAcquisition) (0);
   mkfield "Bearing Reference" 2 RES_LOOKUP false (ULookup lookupDirectionReference) (0);
   mkfield "Reserved" 2 (RPos 1 1) false UNil (0);
   mkfield "Bearing" 16 (RPos 1800000000000000000000000000000000000000000000000000000000000 314159265358979323846264338327950288419716939937510582097494459) false (UStr "deg") (0);
   mkfield "Distance" 32 (RPos 1 1000) false (UStr "m") (0);
   mkfield "Course" 16 (RPos 1800000000000000000000000000000000000000000000000000000000000 314159265358979323846264338327950288419716939937510582097494459) false (UStr "deg") (0);
   mkfield "Speed" 16 (RPos 1 100) false (UStr "m/s") (0);
   mkfield "CPA" 32 (RPos 1 100) false (UStr "m") (0);
   mkfield "TCPA" 32 (RPos 1 1000) true (UStr "s") (0);
   mkfield "UTC of Fix" 32 RES_TIME false (UStr "s") (0);
   mkfield "Name" 2040 RES_ASCII false UNil (0)].
(** /repo/nmea2k/pgn_array.go:1026 *)
Definition pgn_105 : pgn_def := mkpgn "Position, Rapid Update" "Navigation" 129025 true 8 0
  [mkfield "Latitude" 32 RES_LATITUDE true (UStr "deg") (0);
   mkfield "Longitude" 32 RES_LONGITUDE true (UStr "deg") (0)].
(** /repo/nmea2k/pgn_array.go:1032 *)
Definition pgn_106 : pgn_def := mkpgn "COG & SOG, Rapid Update" "Navigation" 129026 true 8 0
  [mkfield "SID" 8 (RPos 1 1) false UNil (0);
   mkfield "COG Reference" 2 RES_LOOKUP false (ULookup lookupDirectionReference) (0);
   mkfield "Reserved" 6 RES_BINARY false UNil (0);
   mkfield "COG" 16 (RPos 1800000000000000000000000000000000000000000000000000000000000 314159265358979323846264338327950288419716939937510582097494459) false (UStr "deg") (0);
   mkfield "SOG" 16 (RPos 1 100) false (UStr "m/s") (0);
   mkfield "Reserved" 16 RES_BINARY false UNil (0)].
(** /repo/nmea2k/pgn_array.go:1041 *)
Definition pgn_107 : pgn_def := mkpgn "Position Delta, Rapid Update" "Navigation" 129027 false 8 0
  [mkfield "SID" 8 (RPos 1 1) false UNil (0);
   mkfield "Time Delta" 16 (RPos 1 1) false UNil (0);
   mkfield "Latitude Delta" 16 (RPos 1 1) true UNil (0);
   mkfield "Longitude Delta" 16 (RPos 1 1) true UNil (0)].
(** /repo/nmea2k/pgn_array.go:1048 *)
Definition pgn_108 : pgn_def := mkpgn "Altitude Delta, Rapid Update" "Navigation" 129028 false 8 0
  [mkfield "SID" 8 (RPos 1 1) false UNil (0);
   mkfield "Time Delta" 16 (RPos 1 1) true UNil (0);
   mkfield "GNSS Quality" 2 (RPos 1 1) false UNil (0);
   mkfield "Direction" 2 (RPos 1 1) false UNil (0);
   mkfield "Reserved" 4 RES_BINARY false UNil (0);
   mkfield "Course Over Ground" 32 (RPos 1800000000000000000000000000000000000000000000000000000000000 314159265358979323846264338327950288419716939937510582097494459) false (UStr "deg") (0);
   mkfield "Altitude Delta" 16 (RPos 1 1) true UNil (0)].
(** /repo/nmea2k/pgn_array.go:1059 *)
Definition pgn_109 : pgn_def := mkpgn "GNSS Position Data" "Navigation" 129029 true 51 3
  [mkfield "SID" 8 (RPos 1 1) false UNil (0);
   mkfield "Date" 16 RES_DATE false (UStr "days") (0);
   mkfield "Time" 32 RES_TIME false (UStr "s") (0);
   mkfield "Latitude" 64 RES_LATITUDE true (UStr "deg") (0);
   mkfield "Longitude" 64 RES_LONGITUDE true (UStr "deg") (0);
   mkfield "Altitude" 64 (RPos 1 1000000) true (UStr "m") (0);
   mkfield "GNSS type" 4 RES_LOOKUP false (ULookup lookupGns) (0);
   mkfield "Method" 4 RES_LOOKUP false (ULookup lookupGnsMethod) (0);
   mkfield "Integrity" 2 RES_LOOKUP false (ULookup lookupGnsIntegrity) (0);
   mkfield "Reserved" 6 RES_BINARY false UNil (0);
   mkfield "Number of SVs" 8 (RPos 1 1) false UNil (0);
   mkfield "HDOP" 16 (RPos 1 100) true UNil (0);
   mkfield "PDOP" 16 (RPos 1 100) true UNil (0);
   mkfield "Geoidal Separation" 16 (RPos 1 100) false (UStr "m") (0);
   mkfield "Reference Stations" 8 (RPos 1 1) false UNil (0);
   mkfield "Reference Station Type" 4 RES_LOOKUP false (ULookup lookupGns) (0);
   mkfield "Reference Station ID" 12 (RPos 1 1) false UNil (0);
   mkfield "Age of DGNSS Corrections" 16 (RPos 1 100) false (UStr "s") (0)].
(** /repo/nmea2k/pgn_array.go:1080 *)
Definition pgn_110 : pgn_def := mkpgn "Time & Date" "Navigation" 129033 true 8 0
  [mkfield "Date" 16 RES_DATE false (UStr "days") (0);
   mkfield "Time" 32 RES_TIME false (UStr "seconds") (0);
   mkfield "Local Offset" 16 RES_INTEGER true (UStr "minutes") (0)].
(** /repo/nmea2k/pgn_array.go:1086 *)
Definition pgn_111 : pgn_def := mkpgn "AIS Class A Position Report" "AIS" 129038 true 27 0
  [mkfield "Message ID" 6 (RPos 1 1) false UNil (0);
   mkfield "Repeat Indicator" 2 RES_LOOKUP false (ULookup lookupRepeatIndicator) (0);
   mkfield "User ID" 32 RES_INTEGER false (UStr "MMSI") (0);
   mkfield "Longitude" 32 RES_LONGITUDE true (UStr "deg") (0);
   mkfield "Latitude" 32 RES_LATITUDE true (UStr "deg") (0);
   mkfield "Position Accuracy" 1 RES_LOOKUP false (ULookup lookupPositionAccuracy) (0);
   mkfield "RAIM" 1 RES_LOOKUP false (ULookup lookupAisRAIM) (0);
   mkfield "Time Stamp" 6 RES_LOOKUP false (ULookup lookupTimeStamp) (0);
   mkfield "COG" 16 (RPos 1800000000000000000000000000000000000000000000000000000000000 314159265358979323846264338327950288419716939937510582097494459) false (UStr "deg") (0);
   mkfield "SOG" 16 (RPos 1 100) false (UStr "m/s") (0);
   mkfield "Communication State" 19 RES_BINARY false UNil (0);
   mkfield "AIS Transceiver information" 5 RES_LOOKUP false (ULookup lookupAisTransceiver) (0);
   mkfield "Heading" 16 (RPos 1800000000000000000000000000000000000000000000000000000000000 314159265358979323846264338327950288419716939937510582097494459) false (UStr "deg") (0);
   mkfield "Rate of Turn" 16 (RPos 562500000000000000000000000000000000000000000000000000000000 314159265358979323846264338327950288419716939937510582097494459) true (UStr "deg/s") (0);
   mkfield "Nav Status" 8 RES_LOOKUP false (ULookup lookupNavStatus) (0);
   mkfield "Reserved for Regional Applications" 8 (RPos 1 1) false UNil (0);
   mkfield "Spare" 8 (RPos 1 1) false UNil (0)].
(** /repo/nmea2k/pgn_array.go:1106 *)
Definition pgn_112 : pgn_def := mkpgn "AIS Class B Position Report" "AIS" 129039 true 26 0
  [mkfield "Message ID" 6 (RPos 1 1) false UNil (0);
   mkfield "Repeat Indicator" 2 RES_LOOKUP false (ULookup lookupRepeatIndicator) (0);
   mkfield "User ID" 32 RES_INTEGER false (UStr "MMSI") (0);
   mkfield "Longitude" 32 RES_LONGITUDE true (UStr "deg") (0);
   mkfield "Latitude" 32 RES_LATITUDE true (UStr "deg") (0);
   mkfield "Position Accuracy" 1 RES_LOOKUP false (ULookup lookupPositionAccuracy) (0);
   mkfield "RAIM" 1 RES_LOOKUP false (ULookup lookupAisRAIM) (0);
   mkfield "Time Stamp" 6 RES_LOOKUP false (ULookup lookupTimeStamp) (0);
   mkfield "COG" 16 (RPos 1800000000000000000000000000000000000000000000000000000000000 314159265358979323846264338327950288419716939937510582097494459) false (UStr "deg") (0);
   mkfield "SOG" 16 (RPos 1 100) false (UStr "m/s") (0);
   mkfield "Communication State" 19 RES_BINARY false UNil (0);
   mkfield "AIS Transceiver information" 5 RES_LOOKUP false (ULookup lookupAisTransceiver) (0);
   mkfield "Heading" 16 (RPos 1800000000000000000000000000000000000000000000000000000000000 314159265358979323846264338327950288419716939937510582097494459) false (UStr "deg") (0);
   mkfield "Regional Application" 8 (RPos 1 1) false UNil (0);
   mkfield "Regional Application" 2 (RPos 1 1) false UNil (0);
   mkfield "Unit type" 1 RES_LOOKUP false (ULookup lookupAisUnitType) (0);
   mkfield "Integrated Display" 1 RES_LOOKUP false (ULookup lookupYesNo) (0);
   mkfield "DSC" 1 RES_LOOKUP false (ULookup lookupYesNo) (0);
   mkfield "Band" 1 RES_LOOKUP false (ULookup lookupAisBand) (0);
   mkfield "Can handle Msg 22" 1 RES_LOOKUP false (ULookup lookupYesNo) (0);
   mkfield "AIS mode" 1 RES_LOOKUP false (ULookup lookupAisMode) (0);
   mkfield "AIS communication state" 1 RES_LOOKUP false (ULookup lookupAisCommState) (0)].
(** /repo/nmea2k/pgn_array.go:1131 *)
Definition pgn_113 : pgn_def := mkpgn "AIS Class B Extended Position Report" "AIS" 129040 true 33 0
  [mkfield "Message ID" 6 (RPos 1 1) false UNil (0);
   mkfield "Repeat Indicator" 2 RES_LOOKUP false (ULookup lookupRepeatIndicator) (0);
   mkfield "User ID" 32 RES_INTEGER false (UStr "MMSI") (0);
   mkfield "Longitude" 32 RES_LONGITUDE true (UStr "deg") (0);
   mkfield "Latitude" 32 RES_LATITUDE true (UStr "deg") (0);
   mkfield "Position Accuracy" 1 RES_LOOKUP false (ULookup lookupPositionAccuracy) (0);
   mkfield "AIS RAIM flag" 1 RES_LOOKUP false (ULookup lookupAisRAIM) (0);
   mkfield "Time Stamp" 6 RES_LOOKUP false (ULookup lookupTimeStamp) (0);
   mkfield "COG" 16 (RPos 1800000000000000000000000000000000000000000000000000000000000 314159265358979323846264338327950288419716939937510582097494459) false (UStr "deg") (0);
   mkfield "SOG" 16 (RPos 1 100) false (UStr "m/s") (0);
   mkfield "Regional Application" 8 (RPos 1 1) false UNil (0);
   mkfield "Regional Application" 4 (RPos 1 1) false UNil (0);
   mkfield "Reserved" 4 RES_BINARY false UNil (0);
   mkfield "Type of ship" 8 RES_LOOKUP false (ULookup lookupShipType) (0);
   mkfield "True Heading" 16 (RPos 1800000000000000000000000000000000000000000000000000000000000 314159265358979323846264338327950288419716939937510582097494459) false (UStr "deg") (0);
   mkfield "Reserved" 4 RES_BINARY false UNil (0);
   mkfield "GNSS type" 4 RES_LOOKUP false (ULookup lookupGnsAis) (0);
   mkfield "Length" 16 (RPos 1 10) false (UStr "m") (0);
   mkfield "Beam" 16 (RPos 1 10) false (UStr "m") (0);
   mkfield "Position reference from Starboard" 16 (RPos 1 10) false (UStr "m") (0);
   mkfield "Position reference from Bow" 16 (RPos 1 10) false (UStr "m") (0);
   mkfield "Name" 160 RES_ASCII false UNil (0);
   mkfield "DTE" 1 RES_LOOKUP false (ULookup lookupAisDTE) (0);
   mkfield "AIS mode" 1 (RPos 1 1) false (ULookup lookupAisMode) (0);
   mkfield "Reserved" 4 RES_BINARY false UNil (0);
   mkfield "AIS Transceiver information" 5 RES_LOOKUP false (ULookup lookupAisTransceiver) (0)].
(** /repo/nmea2k/pgn_array.go:1160 *)
Definition pgn_114 : pgn_def := mkpgn "AIS Aids to Navigation (AtoN) Report" "AIS" 129041 false 33 0
  [mkfield "Message ID" 6 (RPos 1 1) false UNil (0);
   mkfield "Repeat Indicator" 2 RES_LOOKUP false (ULookup lookupRepeatIndicator) (0);
   mkfield "ID" 32 RES_INTEGER false (UStr "MMSI") (0);
   mkfield "Longitude" 32 RES_LONGITUDE true (UStr "deg") (0);
   mkfield "Latitude" 32 RES_LATITUDE true (UStr "deg") (0);
   mkfield "Position Accuracy" 1 RES_LOOKUP false (ULookup lookupPositionAccuracy) (0);
   mkfield "RAIM Flag" 1 RES_LOOKUP false (ULookup lookupAisRAIM) (0);
   mkfield "Time Stamp" 6 RES_LOOKUP false (ULookup lookupTimeStamp) (0);
   mkfield "AtoN Structure Length/Diameter" 16 (RPos 1 10) false (UStr "m") (0);
   mkfield "AtoN Stucture Beam/Diameter" 16 (RPos 1 10) false (UStr "m") (0);
   mkfield "Position Reference Point from Staboard Structure Edge/Radius" 16 (RPos 1 10) false UNil (0);
   mkfield "Position Reference Point from True North facing Structure Edge/Radius" 16 (RPos 1 10) false UNil (0);
   mkfield "Aid to Navigation (AtoN) Type" 5 RES_LOOKUP false (ULookup lookupAisAtoNType) (0);
   mkfield "Off Position Indicator" 1 RES_BINARY false UNil (0);
   mkfield "Virtual AtoN Flag" 1 RES_BINARY false UNil (0);
   mkfield "Assigned Mode Flag" 1 RES_BINARY false UNil (0);
   mkfield "AIS Spare" 1 RES_BINARY false UNil (0);
   mkfield "GNSS Type" 4 RES_LOOKUP false (ULookup lookupGnsAis) (0);
   mkfield "NMEA Reserved" 3 RES_BINARY false UNil (0);
   mkfield "AtoN Status" 8 RES_BINARY false UNil (0);
   mkfield "AIS Transceiver information" 5 RES_LOOKUP false (ULookup lookupAisTransceiver) (0);
   mkfield "NMEA Reserved" 3 RES_BINARY false UNil (0);
   mkfield "Aid to Navigation (AtoN) Name" 274 RES_STRING false UNil (0)].
(** /repo/nmea2k/pgn_array.go:1186 *)
Definition pgn_115 : pgn_def := mkpgn "Datum" "Navigation" 129044 true 24 0
  [mkfield "Local Datum" 32 RES_ASCII false UNil (0);
   mkfield "Delta Latitude" 32 RES_LATITUDE true (UStr "deg") (0);
   mkfield "Delta Longitude" 32 RES_LONGITUDE true (UStr "deg") (0);
   mkfield "Delta Altitude" 32 (RPos 1 1000000) true (UStr "m") (0);
   mkfield "Reference Datum" 32 RES_ASCII false UNil (0)].
(** /repo/nmea2k/pgn_array.go:1198 *)
Definition pgn_116 : pgn_def := mkpgn "User Datum" "Navigation" 129045 true 37 0
  [mkfield "Delta X" 32 (RPos 1 100) true (UStr "m") (0);
   mkfield "Delta Y" 32 (RPos 1 100) true (UStr "m") (0);
   mkfield "Delta Z" 32 (RPos 1 100) true (UStr "m") (0);
   mkfield "Rotation in X" 32 RES_FLOAT true UNil (0);
   mkfield "Rotation in Y" 32 RES_FLOAT true UNil (0);
   mkfield "Rotation in Z" 32 RES_FLOAT true UNil (0);
   mkfield "Scale" 32 RES_FLOAT true (UStr "ppm") (0);
   mkfield "Ellipsoid Semi-major Axis" 32 (RPos 1 100) true (UStr "m") (0);
   mkfield "Ellipsoid Flattening Inverse" 32 RES_FLOAT true UNil (0);
   mkfield "Datum Name" 32 RES_ASCII false UNil (0)].
(** /repo/nmea2k/pgn_array.go:1213 *)
Definition pgn_117 : pgn_def := mkpgn "Cross Track Error" "Navigation" 129283 false 6 0
  [mkfield "SID" 8 (RPos 1 1) false UNil (0);
   mkfield "XTE mode" 4 RES_LOOKUP false (ULookup lookupResidualMode) (0);
   mkfield "Reserved" 2 RES_BINARY false UNil (0);
   mkfield "Navigation Terminated" 2 RES_LOOKUP false (ULookup lookupYesNo) (0);
   mkfield "XTE" 32 (RPos 1 100) true (UStr "m") (0)].
(** /repo/nmea2k/pgn_array.go:1221 *)
Definition pgn_118 : pgn_def := mkpgn "Navigation Data" "Navigation" 129284 true 34 0
  [mkfield "SID" 8 (RPos 1 1) false UNil (0);
   mkfield "Distance to Waypoint" 32 (RPos 1 100) false (UStr "m") (0);
   mkfield "Course/Bearing reference" 2 RES_LOOKUP false (ULookup lookupDirectionReference) (0);
   mkfield "Perpendicular Crossed" 2 RES_LOOKUP false (ULookup lookupYesNo) (0);
   mkfield "Arrival Circle Entered" 2 RES_LOOKUP false (ULookup lookupYesNo) (0);
   mkfield "Calculation Type" 2 RES_LOOKUP false (ULookup lookupNavCalculation) (0);
   mkfield "ETA Time" 32 RES_TIME false (UStr "s") (0);
   mkfield "ETA Date" 16 RES_DATE false (UStr "days") (0);
   mkfield "Bearing, Origin to Destination Waypoint" 16 (RPos 1800000000000000000000000000000000000000000000000000000000000 314159265358979323846264338327950288419716939937510582097494459) false (UStr "deg") (0);
   mkfield "Bearing, Position to Destination Waypoint" 16 (RPos 1800000000000000000000000000000000000000000000000000000000000 314159265358979323846264338327950288419716939937510582097494459) false (UStr "deg") (0);
   mkfield "Origin Waypoint Number" 32 (RPos 1 1) false UNil (0);
   mkfield "Destination Waypoint Number" 32 (RPos 1 1) false UNil (0);
   mkfield "Destination Latitude" 32 RES_LATITUDE true (UStr "deg") (0);
   mkfield "Destination Longitude" 32 RES_LONGITUDE true (UStr "deg") (0);
   mkfield "Waypoint Closing Velocity" 16 (RPos 1 100) true (UStr "m/s") (0)].
(** /repo/nmea2k/pgn_array.go:1239 *)
Definition pgn_119 : pgn_def := mkpgn "Navigation - Route/WP Information" "Navigation" 129285 true 528 4
  [mkfield "Start RPS#" 16 (RPos 1 1) false UNil (0);
   mkfield "nItems" 16 (RPos 1 1) false UNil (0);
   mkfield "Database ID" 16 (RPos 1 1) false UNil (0);
   mkfield "Route ID" 16 (RPos 1 1) false UNil (0);
   mkfield "Navigation direction in route" 2 (RPos 1 1) false UNil (0);
   mkfield "Supplementary Route/WP data available" 2 (RPos 1 1) false UNil (0);
   mkfield "Reserved" 4 RES_BINARY false UNil (0);
   mkfield "Route Name" 2040 RES_STRING false UNil (0);
   mkfield "Reserved" 8 RES_BINARY false UNil (0);
   mkfield "WP ID" 16 (RPos 1 1) false UNil (0);
   mkfield "WP Name" 2040 RES_STRING false UNil (0);
   mkfield "WP Latitude" 32 RES_LATITUDE true (UStr "deg") (0);
   mkfield "WP Longitude" 32 RES_LONGITUDE true (UStr "deg") (0)].
(** /repo/nmea2k/pgn_array.go:1255 *)
Definition pgn_120 : pgn_def := mkpgn "Set & Drift, Rapid Update" "Navigation" 129291 true 8 0
  [mkfield "SID" 8 (RPos 1 1) false UNil (0);
   mkfield "Set Reference" 2 RES_LOOKUP false (ULookup lookupDirectionReference) (0);
   mkfield "Reserved" 6 RES_BINARY false UNil (0);
   mkfield "Set" 16 (RPos 1800000000000000000000000000000000000000000000000000000000000 314159265358979323846264338327950288419716939937510582097494459) false (UStr "deg") (0);
   mkfield "Drift" 16 (RPos 1 100) false (UStr "m/s") (0)].
(** /repo/nmea2k/pgn_array.go:1263 *)
Definition pgn_121 : pgn_def := mkpgn "Navigation - Route / Time to+from Mark" "Navigation" 129301 true 10 0
  [mkfield "SID" 8 (RPos 1 1) false UNil (0);
   mkfield "Time to mark" 32 (RPos 1 1000) true (UStr "s") (0);
   mkfield "Mark Type" 4 RES_LOOKUP false (ULookup lookupNavMarkType) (0);
   mkfield "Reserved" 4 RES_BINARY false UNil (0);
   mkfield "Mark ID" 32 (RPos 1 1) false UNil (0)].
(** /repo/nmea2k/pgn_array.go:1271 *)
Definition pgn_122 : pgn_def := mkpgn "Bearing and Distance between two Marks" "Navigation" 129302 false 8 0
  [mkfield "SID" 8 (RPos 1 1) false UNil (0);
   mkfield "Bearing Reference" 4 RES_LOOKUP false UNil (0);
   mkfield "Calculation Type" 2 RES_LOOKUP false UNil (0);
   mkfield "Reserved" 2 RES_BINARY false UNil (0);
   mkfield "Bearing, Origin to Destination" 16 (RPos 1800000000000000000000000000000000000000000000000000000000000 314159265358979323846264338327950288419716939937510582097494459) false (UStr "deg") (0);
   mkfield "Distance" 32 (RPos 1 100) false (UStr "m") (0);
   mkfield "Origin Mark Type" 4 RES_LOOKUP false UNil (0);
   mkfield "Destination Mark Type" 4 RES_LOOKUP false UNil (0);
   mkfield "Origin Mark ID" 32 (RPos 1 1) false UNil (0);
   mkfield "Destination Mark ID" 32 (RPos 1 1) false UNil (0)].
(** /repo/nmea2k/pgn_array.go:1286 *)
Definition pgn_123 : pgn_def := mkpgn "GNSS Control Status" "Navigation" 129538 false 8 0
  [mkfield "SV Elevation Mask" 16 (RPos 1 1) false UNil (0);
   mkfield "PDOP Mask" 16 (RPos 1 100) false UNil (0);
   mkfield "PDOP Switch" 16 (RPos 1 100) false UNil (0);
   mkfield "SNR Mask" 16 (RPos 1 100) false UNil (0);
   mkfield "GNSS Mode (desired)" 3 RES_LOOKUP false (ULookup lookupGnssMode) (0);
   mkfield "DGNSS Mode (desired)" 3 RES_LOOKUP false (ULookup lookupDGnssMode) (0);
   mkfield "Position/Velocity Filter" 2 (RPos 1 1) false UNil (0);
   mkfield "Max Correction Age" 16 (RPos 1 1) false UNil (0);
   mkfield "Antenna Altitude for 2D Mode" 16 (RPos 1 100) false (UStr "m") (0);
   mkfield "Use Antenna Altitude for 2D Mode" 2 RES_LOOKUP false (ULookup lookupGnssAntenna) (0)].
(** /repo/nmea2k/pgn_array.go:1300 *)
Definition pgn_124 : pgn_def := mkpgn "GNSS DOPs" "Navigation" 129539 true 8 0
  [mkfield "SID" 8 (RPos 1 1) false UNil (0);
   mkfield "Desired Mode" 3 RES_LOOKUP false (ULookup lookupGnssMode) (0);
   mkfield "Actual Mode" 3 RES_LOOKUP false (ULookup lookupGnssMode) (0);
   mkfield "Reserved" 2 RES_BINARY false UNil (0);
   mkfield "HDOP" 16 (RPos 1 100) true UNil (0);
   mkfield "VDOP" 16 (RPos 1 100) true UNil (0);
   mkfield "TDOP" 16 (RPos 1 100) false UNil (0)].
(** /repo/nmea2k/pgn_array.go:1310 *)
Definition pgn_125 : pgn_def := mkpgn "GNSS Sats in View" "Navigation" 129540 true 255 7
  [mkfield "SID" 8 (RPos 1 1) false UNil (0);
   mkfield "Mode" 2 RES_LOOKUP false (ULookup lookupGnssSatMode) (0);
   mkfield "Reserved" 6 RES_BINARY false UNil (0);
   mkfield "Sats in View" 8 (RPos 1 1) false UNil (0);
   mkfield "PRN" 8 (RPos 1 1) false UNil (0);
   mkfield "Elevation" 16 (RPos 1800000000000000000000000000000000000000000000000000000000000 314159265358979323846264338327950288419716939937510582097494459) true (UStr "deg") (0);
   mkfield "Azimuth" 16 (RPos 1800000000000000000000000000000000000000000000000000000000000 314159265358979323846264338327950288419716939937510582097494459) true (UStr "deg") (0);
   mkfield "SNR" 16 (RPos 1 100) false (UStr "dB") (0);
   mkfield "Range residuals" 32 (RPos 1 1) true UNil (0);
   mkfield "Status" 4 RES_LOOKUP false (ULookup lookupGnssSatStatus) (0);
   mkfield "Reserved" 4 RES_BINARY false UNil (0)].
(** /repo/nmea2k/pgn_array.go:1324 *)
Definition pgn_126 : pgn_def := mkpgn "GPS Almanac Data" "Navigation" 129541 false 8 0
  [mkfield "PRN" 8 (RPos 1 1) false UNil (0);
   mkfield "GPS Week number" 8 (RPos 1 1) false UNil (0);
   mkfield "SV Health Bits" 8 (RPos 1 1) false UNil (0);
   mkfield "Eccentricity" 8 (RPos 1 1) false UNil (0);
   mkfield "Almanac Reference Time" 8 (RPos 1 1) false UNil (0);
   mkfield "Inclination Angle" 8 (RPos 1 1) false UNil (0);
   mkfield "Right of Right Ascension" 8 (RPos 1 1) false UNil (0);
   mkfield "Root of Semi-major Axis" 8 (RPos 1 1) false UNil (0);
   mkfield "Argument of Perigee" 8 (RPos 1 1) false UNil (0);
   mkfield "Longitude of Ascension Node" 8 (RPos 1 1) false UNil (0);
   mkfield "Mean Anomaly" 8 (RPos 1 1) false UNil (0);
   mkfield "Clock Parameter 1" 8 (RPos 1 1) false UNil (0);
   mkfield "Clock Parameter 2" 8 (RPos 1 1) false UNil (0)].
(** /repo/nmea2k/pgn_array.go:1340 *)
Definition pgn_127 : pgn_def := mkpgn "GNSS Pseudorange Noise Statistics" "Navigation" 129542 false 8 0
  [mkfield "SID" 8 (RPos 1 1) false UNil (0);
   mkfield "RMS of Position Uncertainty" 16 (RPos 1 1) false UNil (0);
   mkfield "STD of Major axis" 8 (RPos 1 1) false UNil (0);
   mkfield "STD of Minor axis" 8 (RPos 1 1) false UNil (0);
   mkfield "Orientation of Major axis" 8 (RPos 1 1) false UNil (0);
   mkfield "STD of Lat Error" 8 (RPos 1 1) false UNil (0);
   mkfield "STD of Lon Error" 8 (RPos 1 1) false UNil (0);
   mkfield "STD of Alt Error" 8 (RPos 1 1) false UNil (0)].
(** /repo/nmea2k/pgn_array.go:1351 *)
Definition pgn_128 : pgn_def := mkpgn "GNSS RAIM Output" "Navigation" 129545 false 8 0
  [mkfield "SID" 8 (RPos 1 1) false UNil (0);
   mkfield "Integrity flag" 4 (RPos 1 1) false UNil (0);
   mkfield "Reserved" 4 RES_BINARY false UNil (0);
   mkfield "Latitude expected error" 8 (RPos 1 1) false UNil (0);
   mkfield "Longitude expected error" 8 (RPos 1 1) false UNil (0);
   mkfield "Altitude expected error" 8 (RPos 1 1) false UNil (0);
   mkfield "SV ID of most likely failed sat" 8 (RPos 1 1) false UNil (0);
   mkfield "Probability of missed detection" 8 (RPos 1 1) false UNil (0);
   mkfield "Estimate of pseudorange bias" 8 (RPos 1 1) false UNil (0);
   mkfield "Std Deviation of bias" 8 (RPos 1 1) false UNil (0)].
(** /repo/nmea2k/pgn_array.go:1364 *)
Definition pgn_129 : pgn_def := mkpgn "GNSS RAIM Settings" "Navigation" 129546 false 8 0
  [mkfield "Radial Position Error Maximum Threshold" 8 (RPos 1 1) false UNil (0);
   mkfield "Probability of False Alarm" 8 (RPos 1 1) false UNil (0);
   mkfield "Probability of Missed Detection" 8 (RPos 1 1) false UNil (0);
   mkfield "Pseudorange Residual Filtering Time Constant" 8 (RPos 1 1) false UNil (0)].
(** /repo/nmea2k/pgn_array.go:1371 *)
Definition pgn_130 : pgn_def := mkpgn "GNSS Pseudorange Error Statistics" "Navigation" 129547 false 8 0
  [mkfield "SID" 8 (RPos 1 1) false UNil (0);
   mkfield "RMS Std Dev of Range Inputs" 16 (RPos 1 1) false UNil (0);
   mkfield "Std Dev of Major error ellipse" 8 (RPos 1 1) false UNil (0);
   mkfield "Std Dev of Minor error ellipse" 8 (RPos 1 1) false UNil (0);
   mkfield "Orientation of error ellipse" 8 (RPos 1 1) false UNil (0);
   mkfield "Std Dev Lat Error" 8 (RPos 1 1) false UNil (0);
   mkfield "Std Dev Lon Error" 8 (RPos 1 1) false UNil (0);
   mkfield "Std Dev Alt Error" 8 (RPos 1 1) false UNil (0)].
(** /repo/nmea2k/pgn_array.go:1382 *)
Definition pgn_131 : pgn_def := mkpgn "DGNSS Corrections" "Navigation" 129549 false 8 0
  [mkfield "SID" 8 (RPos 1 1) false UNil (0);
   mkfield "Reference Station ID" 16 (RPos 1 1) false UNil (0);
   mkfield "Reference Station Type" 16 (RPos 1 1) false UNil (0);
   mkfield "Time of corrections" 8 (RPos 1 1) false UNil (0);
   mkfield "Station Health" 8 (RPos 1 1) false UNil (0);
   mkfield "Reserved Bits" 8 (RPos 1 1) false UNil (0);
   mkfield "Satellite ID" 8 (RPos 1 1) false UNil (0);
   mkfield "PRC" 8 (RPos 1 1) false UNil (0);
   mkfield "RRC" 8 (RPos 1 1) false UNil (0);
   mkfield "UDRE" 8 (RPos 1 1) false UNil (0);
   mkfield "IOD" 8 (RPos 1 1) false UNil (0)].
(** /repo/nmea2k/pgn_array.go:1396 *)
Definition pgn_132 : pgn_def := mkpgn "GNSS Differential Correction Receiver Interface" "Navigation" 129550 false 8 0
  [mkfield "Channel" 8 (RPos 1 1) false UNil (0);
   mkfield "Frequency" 8 (RPos 1 1) false UNil (0);
   mkfield "Serial Interface Bit Rate" 8 (RPos 1 1) false UNil (0);
   mkfield "Serial Interface Detection Mode" 8 (RPos 1 1) false UNil (0);
   mkfield "Differential Source" 8 (RPos 1 1) false UNil (0);
   mkfield "Differential Operation Mode" 8 (RPos 1 1) false UNil (0)].
(** /repo/nmea2k/pgn_array.go:1405 *)
Definition pgn_133 : pgn_def := mkpgn "GNSS Differential Correction Receiver Signal" "Navigation" 129551 false 8 0
  [mkfield "SID" 8 (RPos 1 1) false UNil (0);
   mkfield "Channel" 8 (RPos 1 1) false UNil (0);
   mkfield "Signal Strength" 8 (RPos 1 1) false UNil (0);
   mkfield "Signal SNR" 8 (RPos 1 1) false UNil (0);
   mkfield "Frequency" 8 (RPos 1 1) false UNil (0);
   mkfield "Station Type" 8 (RPos 1 1) false UNil (0);
   mkfield "Station ID" 8 (RPos 1 1) false UNil (0);
   mkfield "Differential Signal Bit Rate" 8 (RPos 1 1) false UNil (0);
   mkfield "Differential Signal Detection Mode" 8 (RPos 1 1) false UNil (0);
   mkfield "Used as Correction Source" 8 (RPos 1 1) false UNil (0);
   mkfield "Reserved" 8 (RPos 1 1) false UNil (0);
   mkfield "Differential Source" 8 (RPos 1 1) false UNil (0);
   mkfield "Time since Last Sat Differential Sync" 8 (RPos 1 1) false UNil (0);
   mkfield "Satellite Service ID No." 8 (RPos 1 1) false UNil (0)].
(** /repo/nmea2k/pgn_array.go:1422 *)
Definition pgn_134 : pgn_def := mkpgn "GLONASS Almanac Data" "Navigation" 129556 false 8 0
  [mkfield "PRN" 8 (RPos 1 1) false UNil (0);
   mkfield "NA" 8 (RPos 1 1) false UNil (0);
   mkfield "CnA" 8 (RPos 1 1) false UNil (0);
   mkfield "HnA" 8 (RPos 1 1) false UNil (0);
   mkfield "(epsilon)nA" 8 (RPos 1 1) false UNil (0);
   mkfield "(deltaTnA)DOT" 8 (RPos 1 1) false UNil (0);
   mkfield "(omega)nA" 8 (RPos 1 1) false UNil (0);
   mkfield "(delta)TnA" 8 (RPos 1 1) false UNil (0);
   mkfield "tnA" 8 (RPos 1 1) false UNil (0);
   mkfield "(lambda)nA" 8 (RPos 1 1) false UNil (0);
   mkfield "(delta)inA" 8 (RPos 1 1) false UNil (0);
   mkfield "tcA" 8 (RPos 1 1) false UNil (0);
   mkfield "tnA" 8 (RPos 1 1) false UNil (0)].
(** /repo/nmea2k/pgn_array.go:1438 *)
Definition pgn_135 : pgn_def := mkpgn "AIS DGNSS Broadcast Binary Message" "AIS" 129792 false 8 0
  [mkfield "Message ID" 8 (RPos 1 1) false UNil (0);
   mkfield "Repeat Indicator" 8 (RPos 1 1) false UNil (0);
   mkfield "Source ID" 8 (RPos 1 1) false UNil (0);
   mkfield "NMEA 2000 Reserved" 8 (RPos 1 1) false UNil (0);
   mkfield "AIS Tranceiver Information" 8 (RPos 1 1) false UNil (0);
   mkfield "Spare" 8 (RPos 1 1) false UNil (0);
   mkfield "Longitude" 8 (RPos 1 1) false UNil (0);
   mkfield "Latitude" 8 (RPos 1 1) false UNil (0);
   mkfield "NMEA 2000 Reserved" 8 (RPos 1 1) false UNil (0);
   mkfield "Spare" 8 (RPos 1 1) false UNil (0);
   mkfield "Number of Bits in Binary Data Field" 8 (RPos 1 1) false UNil (0);
   mkfield "Binary Data" 64 RES_BINARY false UNil (0)].
(** /repo/nmea2k/pgn_array.go:1453 *)
Definition pgn_136 : pgn_def := mkpgn "AIS UTC and Date Report" "AIS" 129793 false 8 0
  [mkfield "Message ID" 6 (RPos 1 1) false UNil (0);
   mkfield "Repeat Indicator" 2 RES_LOOKUP false (ULookup lookupRepeatIndicator) (0);
   mkfield "User ID" 32 RES_INTEGER false (UStr "MMSI") (0);
   mkfield "Longitude" 32 RES_LONGITUDE true (UStr "deg") (0);
   mkfield "Latitude" 32 RES_LATITUDE true (UStr "deg") (0);
   mkfield "Position Accuracy" 1 RES_LOOKUP false (ULookup lookupAisAccuracy) (0);
   mkfield "RAIM" 1 RES_LOOKUP false (ULookup lookupAisRAIM) (0);
   mkfield "Reserved" 6 RES_BINARY false UNil (0);
   mkfield "Position Time" 32 RES_TIME false (UStr "s") (0);
   mkfield "Communication State" 19 RES_BINARY false UNil (0);
   mkfield "AIS Transceiver information" 5 RES_LOOKUP false (ULookup lookupAisTransceiver) (0);
   mkfield "Position Date" 16 RES_DATE false (UStr "days") (0);
   mkfield "Reserved" 4 RES_BINARY false UNil (0);
   mkfield "GNSS type" 4 RES_LOOKUP false (ULookup lookupGnsAis) (0);
   mkfield "Spare" 8 RES_BINARY false UNil (0)].
(** /repo/nmea2k/pgn_array.go:1472 *)
Definition pgn_137 : pgn_def := mkpgn "AIS Class A Static and Voyage Related Data" "AIS" 129794 true 24 0
  [mkfield "Message ID" 6 (RPos 1 1) false UNil (0);
   mkfield "Repeat indicator" 2 RES_LOOKUP false (ULookup lookupRepeatIndicator) (0);
   mkfield "User ID" 32 RES_INTEGER false (UStr "MMSI") (0);
   mkfield "IMO number" 32 RES_INTEGER false UNil (0);
   mkfield "Callsign" 56 RES_ASCII false UNil (0);
   mkfield "Name" 160 RES_ASCII false UNil (0);
   mkfield "Type of ship" 8 RES_LOOKUP false (ULookup lookupShipType) (0);
   mkfield "Length" 16 (RPos 1 10) false (UStr "m") (0);
   mkfield "Beam" 16 (RPos 1 10) false (UStr "m") (0);
   mkfield "Position reference from Starboard" 16 (RPos 1 10) false (UStr "m") (0);
   mkfield "Position reference from Bow" 16 (RPos 1 10) false (UStr "m") (0);
   mkfield "ETA Date" 16 RES_DATE false (UStr "days") (0);
   mkfield "ETA Time" 32 RES_TIME false (UStr "s") (0);
   mkfield "Draft" 16 (RPos 1 100) false (UStr "m") (0);
   mkfield "Destination" 160 RES_ASCII false UNil (0);
   mkfield "AIS version indicator" 2 RES_LOOKUP false (ULookup lookupAisVersion) (0);
   mkfield "GNSS type" 4 RES_LOOKUP false (ULookup lookupGnsAis) (0);
   mkfield "DTE" 1 RES_LOOKUP false (ULookup lookupAisDTE) (0);
   mkfield "Reserved" 1 RES_BINARY false UNil (0);
   mkfield "AIS Transceiver information" 5 RES_LOOKUP false (ULookup lookupAisTransceiver) (0)].
(** /repo/nmea2k/pgn_array.go:1495 *)
Definition pgn_138 : pgn_def := mkpgn "AIS Addressed Binary Message" "AIS" 129795 true 13 0
  [mkfield "Message ID" 6 (RPos 1 1) false UNil (0);
   mkfield "Repeat Indicator" 2 RES_LOOKUP false (ULookup lookupRepeatIndicator) (0);
   mkfield "Source ID" 32 RES_INTEGER false (UStr "MMSI") (0);
   mkfield "Reserved" 1 RES_BINARY false UNil (0);
   mkfield "AIS Transceiver information" 5 RES_LOOKUP false (ULookup lookupAisTransceiver) (0);
   mkfield "Sequence Number" 2 (RPos 1 1) false UNil (0);
   mkfield "Destination ID" 32 RES_INTEGER false (UStr "MMSI") (0);
   mkfield "Reserved" 6 RES_BINARY false UNil (0);
   mkfield "Retransmit flag" 1 (RPos 1 1) false UNil (0);
   mkfield "Reserved" 1 RES_BINARY false UNil (0);
   mkfield "Number of Bits in Binary Data Field" 16 RES_INTEGER false UNil (0);
   mkfield "Binary Data" 64 RES_BINARY false UNil (0)].
(** /repo/nmea2k/pgn_array.go:1510 *)
Definition pgn_139 : pgn_def := mkpgn "AIS Acknowledge" "AIS" 129796 true 12 0
  [mkfield "Message ID" 6 (RPos 1 1) false UNil (0);
   mkfield "Repeat Indicator" 2 RES_LOOKUP false (ULookup lookupRepeatIndicator) (0);
   mkfield "Source ID" 32 (RPos 1 1) false (UStr "MMSI") (0);
   mkfield "Reserved" 1 RES_BINARY false UNil (0);
   mkfield "AIS Transceiver information" 5 RES_LOOKUP false (ULookup lookupAisTransceiver) (0);
   mkfield "Reserved" 2 RES_BINARY false UNil (0);
   mkfield "Destination ID #1" 32 (RPos 1 1) false UNil (0);
   mkfield "Sequence Number for ID 1" 2 RES_BINARY false UNil (0);
   mkfield "Reserved" 6 RES_BINARY false UNil (0);
   mkfield "Sequence Number for ID n" 2 RES_BINARY false UNil (0)].
(** /repo/nmea2k/pgn_array.go:1523 *)
Definition pgn_140 : pgn_def := mkpgn "AIS Binary Broadcast Message" "AIS" 129797 true 8 0
  [mkfield "Message ID" 6 (RPos 1 1) false UNil (0);
   mkfield "Repeat Indicator" 2 RES_LOOKUP false (ULookup lookupRepeatIndicator) (0);
   mkfield "Source ID" 32 (RPos 1 1) false UNil (0);
   mkfield "Reserved" 1 RES_BINARY false UNil (0);
   mkfield "AIS Transceiver information" 5 RES_LOOKUP false (ULookup lookupAisTransceiver) (0);
   mkfield "Reserved" 2 RES_BINARY false UNil (0);
   mkfield "Number of Bits in Binary Data Field" 16 (RPos 1 1) false UNil (0);
   mkfield "Binary Data" 2040 RES_BINARY false UNil (0)].
(** /repo/nmea2k/pgn_array.go:1534 *)
Definition pgn_141 : pgn_def := mkpgn "AIS SAR Aircraft Position Report" "AIS" 129798 false 8 0
  [mkfield "Message ID" 6 (RPos 1 1) false UNil (0);
   mkfield "Repeat indicator" 2 RES_LOOKUP false (ULookup lookupRepeatIndicator) (0);
   mkfield "User ID" 32 RES_INTEGER false (UStr "MMSI") (0);
   mkfield "Longitude" 32 RES_LONGITUDE true (UStr "deg") (0);
   mkfield "Latitude" 32 RES_LATITUDE true (UStr "deg") (0);
   mkfield "Position Accuracy" 1 RES_LOOKUP false (ULookup lookupPositionAccuracy) (0);
   mkfield "RAIM" 1 RES_LOOKUP false (ULookup lookupAisRAIM) (0);
   mkfield "Time Stamp" 6 RES_LOOKUP false (ULookup lookupTimeStamp) (0);
   mkfield "COG" 16 (RPos 1800000000000000000000000000000000000000000000000000000000000 314159265358979323846264338327950288419716939937510582097494459) false (UStr "deg") (0);
   mkfield "SOG" 16 (RPos 1 10) false (UStr "m/s") (0);
   mkfield "Communication State" 19 RES_BINARY false UNil (0);
   mkfield "AIS Transceiver information" 5 RES_LOOKUP false (ULookup lookupAisTransceiver) (0);
   mkfield "Altitude" 64 (RPos 1 1000000) true (UStr "m") (0);
   mkfield "Reserved for Regional Applications" 8 (RPos 1 1) false UNil (0);
   mkfield "DTE" 1 RES_LOOKUP false (ULookup lookupAisDTE) (0);
   mkfield "Reserved" 7 RES_BINARY false UNil (0)].
(** /repo/nmea2k/pgn_array.go:1553 *)
Definition pgn_142 : pgn_def := mkpgn "Radio Frequency/Mode/Power" "AIS" 129799 false 9 0
  [mkfield "Rx Frequency" 32 (RPos 10 1) false (UStr "Hz") (0);
   mkfield "Tx Frequency" 32 (RPos 10 1) false (UStr "Hz") (0);
   mkfield "Radio Channel" 8 (RPos 1 1) false UNil (0);
   mkfield "Tx Power" 8 (RPos 1 1) false UNil (0);
   mkfield "Mode" 8 (RPos 1 1) false UNil (0);
   mkfield "Channel Bandwidth" 8 (RPos 1 1) false UNil (0)].
(** /repo/nmea2k/pgn_array.go:1562 *)
Definition pgn_143 : pgn_def := mkpgn "AIS UTC/Date Inquiry" "AIS" 129800 false 8 0
  [mkfield "Message ID" 6 (RPos 1 1) false UNil (0);
   mkfield "Repeat Indicator" 2 RES_LOOKUP false (ULookup lookupRepeatIndicator) (0);
   mkfield "Source ID" 30 (RPos 1 1) false UNil (0);
   mkfield "Reserved" 2 RES_BINARY false UNil (0);
   mkfield "AIS Transceiver information" 5 RES_LOOKUP false (ULookup lookupAisTransceiver) (0);
   mkfield "Reserved" 3 RES_BINARY false UNil (0);
   mkfield "Destination ID" 30 (RPos 1 1) false UNil (0);
   mkfield "Reserved" 2 RES_BINARY false UNil (0)].
(** /repo/nmea2k/pgn_array.go:1573 *)
Definition pgn_144 : pgn_def := mkpgn "AIS Addressed Safety Related Message" "AIS" 129801 true 12 0
  [mkfield "Message ID" 6 (RPos 1 1) false UNil (0);
   mkfield "Repeat Indicator" 2 RES_LOOKUP false (ULookup lookupRepeatIndicator) (0);
   mkfield "Source ID" 32 (RPos 1 1) false (UStr "MMSI") (0);
   mkfield "Reserved" 1 RES_BINARY false UNil (0);
   mkfield "AIS Transceiver information" 5 RES_LOOKUP false (ULookup lookupAisTransceiver) (0);
   mkfield "Sequence Number" 2 (RPos 1 1) false UNil (0);
   mkfield "Destination ID" 32 (RPos 1 1) false (UStr "MMSI") (0);
   mkfield "Reserved" 6 RES_BINARY false UNil (0);
   mkfield "Retransmit flag" 1 (RPos 1 1) false UNil (0);
   mkfield "Reserved" 1 RES_BINARY false UNil (0);
   mkfield "Safety Related Text" 2040 RES_ASCII false UNil (0)].
(** /repo/nmea2k/pgn_array.go:1587 *)
Definition pgn_145 : pgn_def := mkpgn "AIS Safety Related Broadcast Message" "AIS" 129802 false 8 0
  [mkfield "Message ID" 6 (RPos 1 1) false UNil (0);
   mkfield "Repeat Indicator" 2 RES_LOOKUP false (ULookup lookupRepeatIndicator) (0);
   mkfield "Source ID" 30 RES_INTEGER false UNil (0);
   mkfield "Reserved" 2 RES_BINARY false UNil (0);
   mkfield "AIS Transceiver information" 5 RES_LOOKUP false (ULookup lookupAisTransceiver) (0);
   mkfield "Reserved" 3 RES_BINARY false UNil (0);
   mkfield "Safety Related Text" 288 RES_ASCII false UNil (0)].
(** /repo/nmea2k/pgn_array.go:1597 *)
Definition pgn_146 : pgn_def := mkpgn "AIS Interrogation" "AIS" 129803 false 8 8
  [mkfield "Message ID" 6 (RPos 1 1) false UNil (0);
   mkfield "Repeat Indicator" 2 RES_LOOKUP false (ULookup lookupRepeatIndicator) (0);
   mkfield "Source ID" 30 RES_INTEGER false UNil (0);
   mkfield "Reserved" 2 RES_BINARY false UNil (0);
   mkfield "AIS Transceiver information" 5 RES_LOOKUP false (ULookup lookupAisTransceiver) (0);
   mkfield "Reserved" 3 RES_BINARY false UNil (0);
   mkfield "Destination ID" 30 RES_INTEGER false UNil (0);
   mkfield "Reserved" 2 RES_BINARY false UNil (0);
   mkfield "Message ID A" 8 RES_INTEGER false UNil (0);
   mkfield "Slot Offset A" 14 RES_INTEGER false UNil (0);
   mkfield "Reserved" 2 RES_BINARY false UNil (0);
   mkfield "Message ID B" 8 RES_INTEGER false UNil (0);
   mkfield "Slot Offset B" 14 RES_INTEGER false UNil (0);
   mkfield "Reserved" 2 RES_BINARY false UNil (0)].
(** /repo/nmea2k/pgn_array.go:1614 *)
Definition pgn_147 : pgn_def := mkpgn "AIS Assignment Mode Command" "AIS" 129804 true 23 3
  [mkfield "Message ID" 6 (RPos 1 1) false UNil (0);
   mkfield "Repeat Indicator" 2 RES_LOOKUP false (ULookup lookupRepeatIndicator) (0);
   mkfield "Source ID" 32 RES_INTEGER false (UStr "MMSI") (0);
   mkfield "Reserved" 1 RES_BINARY false UNil (0);
   mkfield "AIS Transceiver information" 5 RES_LOOKUP false (ULookup lookupAisTransceiver) (0);
   mkfield "Reserved" 2 RES_BINARY false UNil (0);
   mkfield "Destination ID" 32 RES_INTEGER false (UStr "MMSI") (0);
   mkfield "Offset" 16 RES_INTEGER false UNil (0);
   mkfield "Increment" 16 RES_INTEGER false UNil (0)].
(** /repo/nmea2k/pgn_array.go:1626 *)
Definition pgn_148 : pgn_def := mkpgn "AIS Data Link Management Message" "AIS" 129805 false 8 4
  [mkfield "Message ID" 6 (RPos 1 1) false UNil (0);
   mkfield "Repeat Indicator" 2 RES_LOOKUP false (ULookup lookupRepeatIndicator) (0);
   mkfield "Source ID" 30 RES_INTEGER false UNil (0);
   mkfield "Reserved" 2 RES_BINARY false UNil (0);
   mkfield "AIS Transceiver information" 5 RES_LOOKUP false (ULookup lookupAisTransceiver) (0);
   mkfield "Reserved" 3 RES_BINARY false UNil (0);
   mkfield "Offset" 10 RES_INTEGER false UNil (0);
   mkfield "Number of Slots" 8 RES_INTEGER false UNil (0);
   mkfield "Timeout" 8 RES_INTEGER false UNil (0);
   mkfield "Increment" 8 RES_INTEGER false UNil (0)].
(** /repo/nmea2k/pgn_array.go:1639 *)
Definition pgn_149 : pgn_def := mkpgn "AIS Channel Management" "AIS" 129806 false 8 0
  [mkfield "Message ID" 6 (RPos 1 1) false UNil (0);
   mkfield "Repeat Indicator" 2 RES_LOOKUP false (ULookup lookupRepeatIndicator) (0);
   mkfield "Source ID" 30 RES_INTEGER false UNil (0);
   mkfield "Reserved" 2 RES_BINARY false UNil (0);
   mkfield "AIS Transceiver information" 5 RES_LOOKUP false (ULookup lookupAisTransceiver) (0);
   mkfield "Reserved" 3 RES_BINARY false UNil (0);
   mkfield "Channel A" 7 (RPos 1 1) false UNil (0);
   mkfield "Channel B" 7 (RPos 1 1) false UNil (0);
   mkfield "Reserved" 2 RES_BINARY false UNil (0);
   mkfield "Power" 8 (RPos 1 1) false UNil (0);
   mkfield "Tx/Rx Mode" 8 RES_INTEGER false UNil (0);
   mkfield "North East Longitude Corner 1" 32 RES_LONGITUDE true (UStr "deg") (0);
   mkfield "North East Latitude Corner 1" 32 RES_LATITUDE true (UStr "deg") (0);
   mkfield "South West Longitude Corner 1" 32 RES_LONGITUDE true (UStr "deg") (0);
   mkfield "South West Latitude Corner 2" 32 RES_LATITUDE true (UStr "deg") (0);
   mkfield "Reserved" 6 RES_BINARY false UNil (0);
   mkfield "Addressed or Broadcast Message Indicator" 2 (RPos 1 1) false UNil (0);
   mkfield "Channel A Bandwidth" 7 RES_INTEGER false UNil (0);
   mkfield "Channel B Bandwidth" 7 RES_INTEGER false UNil (0);
   mkfield "Reserved" 2 RES_BINARY false UNil (0);
   mkfield "Transitional Zone Size" 8 (RPos 1 1) false UNil (0)].
(** /repo/nmea2k/pgn_array.go:1663 *)
Definition pgn_150 : pgn_def := mkpgn "AIS Class B Group Assignment" "AIS" 129807 false 8 0
  [mkfield "Message ID" 6 (RPos 1 1) false UNil (0);
   mkfield "Repeat Indicator" 2 RES_LOOKUP false (ULookup lookupRepeatIndicator) (0);
   mkfield "Source ID" 30 RES_INTEGER false UNil (0);
   mkfield "Reserved" 2 RES_BINARY false UNil (0);
   mkfield "Tx/Rx Mode" 2 RES_INTEGER false UNil (0);
   mkfield "Reserved" 6 RES_BINARY false UNil (0);
   mkfield "North East Longitude Corner 1" 32 RES_LONGITUDE true (UStr "deg") (0);
   mkfield "North East Latitude Corner 1" 32 RES_LATITUDE true (UStr "deg") (0);
   mkfield "South West Longitude Corner 1" 32 RES_LONGITUDE true (UStr "deg") (0);
   mkfield "South West Latitude Corner 2" 32 RES_LATITUDE true (UStr "deg") (0);
   mkfield "Station Type" 8 (RPos 1 1) false UNil (0);
   mkfield "Reserved" 2 RES_BINARY false UNil (0);
   mkfield "Ship and Cargo Filter" 6 (RPos 1 1) false UNil (0);
   mkfield "Reserved" 2 RES_BINARY false UNil (0);
   mkfield "Reporting Interval" 16 (RPos 1 1) false UNil (0);
   mkfield "Quiet Time" 16 (RPos 1 1) false UNil (0)].
(** /repo/nmea2k/pgn_array.go:1682 *)
Definition pgn_151 : pgn_def := mkpgn "DSC Call Information" "Other" 129808 false 8 2
  [mkfield "DSC Format Symbol" 8 (RPos 1 1) false UNil (0);
   mkfield "DSC Category Symbol" 8 (RPos 1 1) false UNil (0);
   mkfield "DSC Message Address" 8 (RPos 1 1) false UNil (0);
   mkfield "Nature of Distress or 1st Telecommand" 8 (RPos 1 1) false UNil (0);
   mkfield "Subsequent Communication Mode or 2nd Telecommand" 8 (RPos 1 1) false UNil (0);
   mkfield "Proposed Rx Frequency/Channel" 8 (RPos 1 1) false UNil (0);
   mkfield "Proposed Tx Frequency/Channel" 8 (RPos 1 1) false UNil (0);
   mkfield "Telephone Number" 8 (RPos 1 1) false UNil (0);
   mkfield "Latitude of Vessel Reported" 32 RES_LATITUDE true (UStr "deg") (0);
   mkfield "Longitude of Vessel Reported" 32 RES_LONGITUDE true (UStr "deg") (0);
   mkfield "Time of Position" 32 RES_TIME false (UStr "s") (0);
   mkfield "User ID of Ship In Distress" 32 RES_INTEGER false (UStr "MMSI") (0);
   mkfield "DSC EOS Symbol" 8 (RPos 1 1) false UNil (0);
   mkfield "Expansion Enabled" 8 (RPos 1 1) false UNil (0);
   mkfield "Calling Rx Frequency/Channel" 8 (RPos 1 1) false UNil (0);
   mkfield "Calling Tx Frequency/Channel" 8 (RPos 1 1) false UNil (0);
   mkfield "Time of Receipt" 32 RES_TIME false (UStr "s") (0);
   mkfield "Date of Receipt" 16 RES_DATE false (UStr "days") (0);
   mkfield "DSC Equipment Assigned Message ID" 8 (RPos 1 1) false UNil (0);
   mkfield "DSC Expansion Field Symbol" 8 (RPos 1 1) false UNil (0);
   mkfield "DSC Expansion Field Data" 8 (RPos 1 1) false UNil (0)].
(** /repo/nmea2k/pgn_array.go:1706 *)
Definition pgn_152 : pgn_def := mkpgn "AIS Class B static data (msg 24 Part A)" "AIS" 129809 false 25 0
  [mkfield "Message ID" 6 (RPos 1 1) false UNil (0);
   mkfield "Repeat indicator" 2 RES_LOOKUP false (ULookup lookupRepeatIndicator) (0);
   mkfield "User ID" 32 RES_INTEGER false (UStr "MMSI") (0);
   mkfield "Name" 160 RES_ASCII false UNil (0)].
(** /repo/nmea2k/pgn_array.go:1713 *)
Definition pgn_153 : pgn_def := mkpgn "AIS Class B static data (msg 24 Part B)" "AIS" 129810 false 33 0
  [mkfield "Message ID" 6 (RPos 1 1) false UNil (0);
   mkfield "Repeat indicator" 2 RES_LOOKUP false (ULookup lookupRepeatIndicator) (0);
   mkfield "User ID" 32 RES_INTEGER false (UStr "MMSI") (0);
   mkfield "Type of ship" 8 RES_LOOKUP false (ULookup lookupShipType) (0);
   mkfield "Vendor ID" 56 RES_ASCII false UNil (0);
   mkfield "Callsign" 56 RES_ASCII false UNil (0);
   mkfield "Length" 16 (RPos 1 10) false (UStr "m") (0);
   mkfield "Beam" 16 (RPos 1 10) false (UStr "m") (0);
   mkfield "Position reference from Starboard" 16 (RPos 1 10) false (UStr "m") (0);
   mkfield "Position reference from Bow" 16 (RPos 1 10) false (UStr "m") (0);
   mkfield "Mothership User ID" 32 RES_INTEGER false (UStr "MMSI") (0);
   mkfield "Reserved" 2 RES_BINARY false UNil (0);
   mkfield "Spare" 6 RES_INTEGER false UNil (0)].
(** /repo/nmea2k/pgn_array.go:1729 *)
Definition pgn_154 : pgn_def := mkpgn "Route and WP Service - Database List" "Navigation" 130064 false 8 9
  [mkfield "Start Database ID" 8 (RPos 1 1) false UNil (0);
   mkfield "nItems" 8 (RPos 1 1) false UNil (0);
   mkfield "Number of Databases Available" 8 (RPos 1 1) false UNil (0);
   mkfield "Database ID" 8 (RPos 1 1) false UNil (0);
   mkfield "Database Name" 64 RES_ASCII false UNil (0);
   mkfield "Database Timestamp" 32 RES_TIME false (UStr "s") (0);
   mkfield "Database Datestamp" 16 RES_DATE false (UStr "days") (0);
   mkfield "WP Position Resolution" 6 (RPos 1 1) false UNil (0);
   mkfield "Reserved" 2 RES_BINARY false UNil (0);
   mkfield "Number of Routes in Database" 16 (RPos 1 1) false UNil (0);
   mkfield "Number of WPs in Database" 16 (RPos 1 1) false UNil (0);
   mkfield "Number of Bytes in Database" 16 (RPos 1 1) false UNil (0)].
(** /repo/nmea2k/pgn_array.go:1744 *)
Definition pgn_155 : pgn_def := mkpgn "Route and WP Service - Route List" "Navigation" 130065 false 8 6
  [mkfield "Start Route ID" 8 (RPos 1 1) false UNil (0);
   mkfield "nItems" 8 (RPos 1 1) false UNil (0);
   mkfield "Number of Routes in Database" 8 (RPos 1 1) false UNil (0);
   mkfield "Database ID" 8 (RPos 1 1) false UNil (0);
   mkfield "Route ID" 8 (RPos 1 1) false UNil (0);
   mkfield "Route Name" 64 RES_ASCII false UNil (0);
   mkfield "Reserved" 4 RES_BINARY false UNil (0);
   mkfield "WP Identification Method" 2 (RPos 1 1) false UNil (0);
   mkfield "Route Status" 2 (RPos 1 1) false UNil (0)].
(** /repo/nmea2k/pgn_array.go:1756 *)
Definition pgn_156 : pgn_def := mkpgn "Route and WP Service - Route/WP-List Attributes" "Navigation" 130066 false 8 0
  [mkfield "Database ID" 8 (RPos 1 1) false UNil (0);
   mkfield "Route ID" 8 (RPos 1 1) false UNil (0);
   mkfield "Route/WP-List Name" 64 RES_ASCII false UNil (0);
   mkfield "Route/WP-List Timestamp" 32 RES_TIME false (UStr "s") (0);
   mkfield "Route/WP-List Datestamp" 16 RES_DATE false (UStr "days") (0);
   mkfield "Change at Last Timestamp" 8 (RPos 1 1) false UNil (0);
   mkfield "Number of WPs in the Route/WP-List" 16 (RPos 1 1) false UNil (0);
   mkfield "Critical supplementary parameters" 8 (RPos 1 1) false UNil (0);
   mkfield "Navigation Method" 2 (RPos 1 1) false UNil (0);
   mkfield "WP Identification Method" 2 (RPos 1 1) false UNil (0);
   mkfield "Route Status" 2 (RPos 1 1) false UNil (0);
   mkfield "XTE Limit for the Route" 16 (RPos 1 1) false UNil (0)].
(** /repo/nmea2k/pgn_array.go:1771 *)
Definition pgn_157 : pgn_def := mkpgn "Route and WP Service - Route - WP Name & Position" "Navigation" 130067 false 8 4
  [mkfield "Start RPS#" 8 (RPos 1 1) false UNil (0);
   mkfield "nItems" 8 (RPos 1 1) false UNil (0);
   mkfield "Number of WPs in the Route/WP-List" 16 (RPos 1 1) false UNil (0);
   mkfield "Database ID" 8 (RPos 1 1) false UNil (0);
   mkfield "Route ID" 8 (RPos 1 1) false UNil (0);
   mkfield "WP ID" 8 (RPos 1 1) false UNil (0);
   mkfield "WP Name" 64 RES_ASCII false UNil (0);
   mkfield "WP Latitude" 32 RES_LATITUDE true (UStr "deg") (0);
   mkfield "WP Longitude" 32 RES_LONGITUDE true (UStr "deg") (0)].
(** /repo/nmea2k/pgn_array.go:1783 *)
Definition pgn_158 : pgn_def := mkpgn "Route and WP Service - Route - WP Name" "Navigation" 130068 false 8 2
  [mkfield "Start RPS#" 8 (RPos 1 1) false UNil (0);
   mkfield "nItems" 8 (RPos 1 1) false UNil (0);
   mkfield "Number of WPs in the Route/WP-List" 16 (RPos 1 1) false UNil (0);
   mkfield "Database ID" 8 (RPos 1 1) false UNil (0);
   mkfield "Route ID" 8 (RPos 1 1) false UNil (0);
   mkfield "WP ID" 8 (RPos 1 1) false UNil (0);
   mkfield "WP Name" 64 RES_ASCII false UNil (0)].
(** /repo/nmea2k/pgn_array.go:1793 *)
Definition pgn_159 : pgn_def := mkpgn "Route and WP Service - XTE Limit & Navigation Method" "Navigation" 130069 false 8 6
  [mkfield "Start RPS#" 8 (RPos 1 1) false UNil (0);
   mkfield "nItems" 8 (RPos 1 1) false UNil (0);
   mkfield "Number of WPs with a specific XTE Limit or Nav. Method" 16 (RPos 1 1) false UNil (0);
   mkfield "Database ID" 8 (RPos 1 1) false UNil (0);
   mkfield "Route ID" 8 (RPos 1 1) false UNil (0);
   mkfield "RPS#" 8 (RPos 1 1) false UNil (0);
   mkfield "XTE limit in the leg after WP" 16 (RPos 1 1) false UNil (0);
   mkfield "Nav. Method in the leg after WP" 4 (RPos 1 1) false UNil (0);
   mkfield "Reserved" 4 RES_BINARY false UNil (0)].
(** /repo/nmea2k/pgn_array.go:1805 *)
Definition pgn_160 : pgn_def := mkpgn "Route and WP Service - WP Comment" "Navigation" 130070 false 8 2
  [mkfield "Start ID" 8 (RPos 1 1) false UNil (0);
   mkfield "nItems" 8 (RPos 1 1) false UNil (0);
   mkfield "Number of WPs with Comments" 16 (RPos 1 1) false UNil (0);
   mkfield "Database ID" 8 (RPos 1 1) false UNil (0);
   mkfield "Route ID" 8 (RPos 1 1) false UNil (0);
   mkfield "WP ID / RPS#" 8 (RPos 1 1) false UNil (0);
   mkfield "Comment" 64 RES_ASCII false UNil (0)].
(** /repo/nmea2k/pgn_array.go:1815 *)
Definition pgn_161 : pgn_def := mkpgn "Route and WP Service - Route Comment" "Navigation" 130071 false 8 2
  [mkfield "Start Route ID" 8 (RPos 1 1) false UNil (0);
   mkfield "nItems" 8 (RPos 1 1) false UNil (0);
   mkfield "Number of Routes with Comments" 16 (RPos 1 1) false UNil (0);
   mkfield "Database ID" 8 (RPos 1 1) false UNil (0);
   mkfield "Route ID" 8 (RPos 1 1) false UNil (0);
   mkfield "Comment" 64 RES_ASCII false UNil (0)].
(** /repo/nmea2k/pgn_array.go:1824 *)
Definition pgn_162 : pgn_def := mkpgn "Route and WP Service - Database Comment" "Navigation" 130072 false 8 2
  [mkfield "Start Database ID" 8 (RPos 1 1) false UNil (0);
   mkfield "nItems" 8 (RPos 1 1) false UNil (0);
   mkfield "Number of Databases with Comments" 16 (RPos 1 1) false UNil (0);
   mkfield "Database ID" 8 (RPos 1 1) false UNil (0);
   mkfield "Comment" 64 RES_ASCII false UNil (0)].
(** /repo/nmea2k/pgn_array.go:1832 *)
Definition pgn_163 : pgn_def := mkpgn "Route and WP Service - Radius of Turn" "Navigation" 130073 false 8 2
  [mkfield "Start RPS#" 8 (RPos 1 1) false UNil (0);
   mkfield "nItems" 8 (RPos 1 1) false UNil (0);
   mkfield "Number of WPs with a specific Radius of Turn" 16 (RPos 1 1) false UNil (0);
   mkfield "Database ID" 8 (RPos 1 1) false UNil (0);
   mkfield "Route ID" 8 (RPos 1 1) false UNil (0);
   mkfield "RPS#" 8 (RPos 1 1) false UNil (0);
   mkfield "Radius of Turn" 16 (RPos 1 1) false UNil (0)].
(** /repo/nmea2k/pgn_array.go:1842 *)
Definition pgn_164 : pgn_def := mkpgn "Route and WP Service - WP List - WP Name & Position" "Navigation" 130074 false 8 4
  [mkfield "Start WP ID" 8 (RPos 1 1) false UNil (0);
   mkfield "nItems" 8 (RPos 1 1) false UNil (0);
   mkfield "Number of valid WPs in the WP-List" 16 (RPos 1 1) false UNil (0);
   mkfield "Database ID" 8 (RPos 1 1) false UNil (0);
   mkfield "Reserved" 8 (RPos 1 1) false UNil (0);
   mkfield "WP ID" 8 (RPos 1 1) false UNil (0);
   mkfield "WP Name" 64 RES_ASCII false UNil (0);
   mkfield "WP Latitude" 32 RES_LATITUDE true (UStr "deg") (0);
   mkfield "WP Longitude" 32 RES_LONGITUDE true (UStr "deg") (0)].
(** /repo/nmea2k/pgn_array.go:1855 *)
Definition pgn_165 : pgn_def := mkpgn "Wind Data" "Environmental" 130306 true 6 0
  [mkfield "SID" 8 (RPos 1 1) false UNil (0);
   mkfield "Wind Speed" 16 (RPos 1 100) false (UStr "m/s") (0);
   mkfield "Wind Angle" 16 (RPos 1800000000000000000000000000000000000000000000000000000000000 314159265358979323846264338327950288419716939937510582097494459) false (UStr "deg") (0);
   mkfield "Reference" 3 RES_LOOKUP false (ULookup lookupWindReference) (0)].
(** /repo/nmea2k/pgn_array.go:1863 *)
Definition pgn_166 : pgn_def := mkpgn "Environmental Parameters" "Environmental" 130310 true 7 0
  [mkfield "SID" 8 (RPos 1 1) false UNil (0);
   mkfield "Water Temperature" 16 RES_TEMPERATURE false (UStr "K") (0);
   mkfield "Outside Ambient Air Temperature" 16 RES_TEMPERATURE false (UStr "K") (0);
   mkfield "Atmospheric Pressure" 16 RES_PRESSURE false (UStr "hPa") (0)].
(** /repo/nmea2k/pgn_array.go:1870 *)
Definition pgn_167 : pgn_def := mkpgn "Environmental Parameters" "Environmental" 130311 true 8 0
  [mkfield "SID" 8 (RPos 1 1) false UNil (0);
   mkfield "Temperature Instance" 6 RES_LOOKUP false (ULookup lookupTemperatureSource) (0);
   mkfield "Humidity Instance" 2 RES_LOOKUP false (ULookup lookupHumidityInstance) (0);
   mkfield "Temperature" 16 RES_TEMPERATURE false (UStr "K") (0);
   mkfield "Humidity" 16 (RPos 1 250) true (UStr "%%") (0);
   mkfield "Atmospheric Pressure" 16 RES_PRESSURE false (UStr "hPa") (0)].
(** /repo/nmea2k/pgn_array.go:1879 *)
Definition pgn_168 : pgn_def := mkpgn "Temperature" "Environmental" 130312 true 8 0
  [mkfield "SID" 8 (RPos 1 1) false UNil (0);
   mkfield "Temperature Instance" 8 (RPos 1 1) false UNil (0);
   mkfield "Temperature Source" 8 RES_LOOKUP false (ULookup lookupTemperatureSource) (0);
   mkfield "Actual Temperature" 16 RES_TEMPERATURE false (UStr "K") (0);
   mkfield "Set Temperature" 16 RES_TEMPERATURE false (UStr "K") (0)].
(** /repo/nmea2k/pgn_array.go:1887 *)
Definition pgn_169 : pgn_def := mkpgn "Humidity" "Environmental" 130313 true 8 0
  [mkfield "SID" 8 (RPos 1 1) false UNil (0);
   mkfield "Humidity Instance" 8 (RPos 1 1) false UNil (0);
   mkfield "Humidity Source" 8 (RPos 1 1) false UNil (0);
   mkfield "Actual Humidity" 16 (RPos 1 250) true (UStr "%%") (0);
   mkfield "Set Humidity" 16 (RPos 1 250) true (UStr "%%") (0)].
(** /repo/nmea2k/pgn_array.go:1896 *)
Definition pgn_170 : pgn_def := mkpgn "Actual Pressure" "Environmental" 130314 true 8 0
  [mkfield "SID" 8 (RPos 1 1) false UNil (0);
   mkfield "Pressure Instance" 8 (RPos 1 1) false UNil (0);
   mkfield "Pressure Source" 8 RES_LOOKUP false (ULookup lookupPressureSource) (0);
   mkfield "Pressure" 32 (RPos 1 10) true (UStr "Pa") (0)].
(** /repo/nmea2k/pgn_array.go:1904 *)
Definition pgn_171 : pgn_def := mkpgn "Set Pressure" "General" 130315 true 8 0
  [mkfield "SID" 8 (RPos 1 1) false UNil (0);
   mkfield "Pressure Instance" 8 (RPos 1 1) false UNil (0);
   mkfield "Pressure Source" 8 RES_LOOKUP false (ULookup lookupPressureSource) (0);
   mkfield "Pressure" 32 (RPos 1 10) true (UStr "Pa") (0)].
(** /repo/nmea2k/pgn_array.go:1911 *)
Definition pgn_172 : pgn_def := mkpgn "Tide Station Data" "Environmental" 130320 true 20 0
  [mkfield "Mode" 4 RES_LOOKUP false (ULookup lookupResidualMode) (0);
   mkfield "Tide Tendency" 2 RES_LOOKUP false (ULookup lookupTideTendency) (0);
   mkfield "Reserved" 2 RES_BINARY false UNil (0);
   mkfield "Measurement Date" 16 RES_DATE false (UStr "days") (0);
   mkfield "Measurement Time" 32 RES_TIME false (UStr "s") (0);
   mkfield "Station Latitude" 32 RES_LATITUDE true (UStr "deg") (0);
   mkfield "Station Longitude" 32 RES_LONGITUDE true (UStr "deg") (0);
   mkfield "Tide Level" 16 (RPos 1 1000) true (UStr "m") (0);
   mkfield "Tide Level standard deviation" 16 (RPos 1 100) false (UStr "m") (0);
   mkfield "Station ID" 16 RES_STRING false UNil (0);
   mkfield "Station Name" 16 RES_STRING false UNil (0)].
(** /repo/nmea2k/pgn_array.go:1925 *)
Definition pgn_173 : pgn_def := mkpgn "Salinity Station Data" "Environmental" 130321 true 22 0
  [mkfield "Mode" 4 RES_LOOKUP false (ULookup lookupResidualMode) (0);
   mkfield "Reserved" 4 RES_BINARY false UNil (0);
   mkfield "Measurement Date" 16 RES_DATE false (UStr "days") (0);
   mkfield "Measurement Time" 32 RES_TIME false (UStr "s") (0);
   mkfield "Station Latitude" 32 RES_LATITUDE true (UStr "deg") (0);
   mkfield "Station Longitude" 32 RES_LONGITUDE true (UStr "deg") (0);
   mkfield "Salinity" 32 RES_FLOAT true (UStr "ppt") (0);
   mkfield "Water Temperature" 16 RES_TEMPERATURE false (UStr "K") (0);
   mkfield "Station ID" 16 RES_STRING false UNil (0);
   mkfield "Station Name" 16 RES_STRING false UNil (0)].
(** /repo/nmea2k/pgn_array.go:1938 *)
Definition pgn_174 : pgn_def := mkpgn "Current Station Data" "Environmental" 130322 false 8 0
  [mkfield "Mode" 4 (RPos 1 1) false UNil (0);
   mkfield "Reserved" 4 RES_BINARY false UNil (0);
   mkfield "Measurement Date" 16 RES_DATE false (UStr "days") (0);
   mkfield "Measurement Time" 32 RES_TIME false (UStr "s") (0);
   mkfield "Station Latitude" 32 RES_LATITUDE true (UStr "deg") (0);
   mkfield "Station Longitude" 32 RES_LONGITUDE true (UStr "deg") (0);
   mkfield "Measurement Depth" 32 (RPos 1 100) false (UStr "m") (0);
   mkfield "Current speed" 16 (RPos 1 100) false (UStr "m/s") (0);
   mkfield "Current flow direction" 16 (RPos 1800000000000000000000000000000000000000000000000000000000000 314159265358979323846264338327950288419716939937510582097494459) false (UStr "deg") (0);
   mkfield "Water Temperature" 16 RES_TEMPERATURE false (UStr "K") (0);
   mkfield "Station ID" 16 RES_STRING false UNil (0);
   mkfield "Station Name" 16 RES_STRING false UNil (0)].
(** /repo/nmea2k/pgn_array.go:1953 *)
Definition pgn_175 : pgn_def := mkpgn "Meteorological Station Data" "Environmental" 130323 false 30 0
  [mkfield "Mode" 4 (RPos 1 1) false UNil (0);
   mkfield "Reserved" 4 RES_BINARY false UNil (0);
   mkfield "Measurement Date" 16 RES_DATE false (UStr "days") (0);
   mkfield "Measurement Time" 32 RES_TIME false (UStr "s") (0);
   mkfield "Station Latitude" 32 RES_LATITUDE true (UStr "deg") (0);
   mkfield "Station Longitude" 32 RES_LONGITUDE true (UStr "deg") (0);
   mkfield "Wind Speed" 16 (RPos 1 100) false (UStr "m/s") (0);
   mkfield "Wind Direction" 16 (RPos 1800000000000000000000000000000000000000000000000000000000000 314159265358979323846264338327950288419716939937510582097494459) false (UStr "deg") (0);
   mkfield "Wind Reference" 3 RES_LOOKUP false (ULookup lookupWindReference) (0);
   mkfield "Reserved" 5 RES_BINARY false UNil (0);
   mkfield "Wind Gusts" 16 (RPos 1 100) false (UStr "m/s") (0);
   mkfield "Atmospheric Pressure" 16 RES_PRESSURE false (UStr "hPa") (0);
   mkfield "Ambient Temperature" 16 RES_TEMPERATURE false (UStr "K") (0);
   mkfield "Station ID" 16 RES_STRING false UNil (0);
   mkfield "Station Name" 16 RES_STRING false UNil (0)].
(** /repo/nmea2k/pgn_array.go:1971 *)
Definition pgn_176 : pgn_def := mkpgn "Moored Buoy Station Data" "Environmental" 130324 false 8 0
  [mkfield "Mode" 4 (RPos 1 1) false UNil (0);
   mkfield "Reserved" 4 RES_BINARY false UNil (0);
   mkfield "Measurement Date" 16 RES_DATE false (UStr "days") (0);
   mkfield "Measurement Time" 32 RES_TIME false (UStr "s") (0);
   mkfield "Station Latitude" 32 RES_LATITUDE true (UStr "deg") (0);
   mkfield "Station Longitude" 32 RES_LONGITUDE true (UStr "deg") (0);
   mkfield "Wind Speed" 16 (RPos 1 100) false (UStr "m/s") (0);
   mkfield "Wind Direction" 16 (RPos 1800000000000000000000000000000000000000000000000000000000000 314159265358979323846264338327950288419716939937510582097494459) false (UStr "deg") (0);
   mkfield "Wind Reference" 3 RES_LOOKUP false (ULookup lookupWindReference) (0);
   mkfield "Reserved" 5 RES_BINARY false UNil (0);
   mkfield "Wind Gusts" 16 (RPos 1 100) false (UStr "m/s") (0);
   mkfield "Wave Height" 16 (RPos 1 1) false UNil (0);
   mkfield "Dominant Wave Period" 16 (RPos 1 1) false UNil (0);
   mkfield "Atmospheric Pressure" 16 RES_PRESSURE false (UStr "hPa") (0);
   mkfield "Pressure Tendency Rate" 16 (RPos 1 1) false UNil (0);
   mkfield "Air Temperature" 16 RES_TEMPERATURE false (UStr "K") (0);
   mkfield "Water Temperature" 16 RES_TEMPERATURE false (UStr "K") (0);
   mkfield "Station ID" 64 RES_ASCII false UNil (0)].
(** /repo/nmea2k/pgn_array.go:1992 *)
Definition pgn_177 : pgn_def := mkpgn "Small Craft Status" "General" 130576 true 2 0
  [mkfield "Port trim tab" 8 (RPos 1 1) true UNil (0);
   mkfield "Starboard trim tab" 8 (RPos 1 1) true UNil (0)].
(** /repo/nmea2k/pgn_array.go:1997 *)
Definition pgn_178 : pgn_def := mkpgn "Direction Data" "General" 130577 true 14 0
  [mkfield "Data Mode" 4 RES_LOOKUP false (ULookup lookupResidualMode) (0);
   mkfield "COG Reference" 2 RES_LOOKUP false (ULookup lookupDirectionReference) (0);
   mkfield "Reserved" 2 RES_BINARY false UNil (0);
   mkfield "SID" 8 (RPos 1 1) false UNil (0);
   mkfield "COG" 16 (RPos 1800000000000000000000000000000000000000000000000000000000000 314159265358979323846264338327950288419716939937510582097494459) false (UStr "deg") (0);
   mkfield "SOG" 16 (RPos 1 100) false (UStr "m/s") (0);
   mkfield "Heading" 16 (RPos 1800000000000000000000000000000000000000000000000000000000000 314159265358979323846264338327950288419716939937510582097494459) false (UStr "deg") (0);
   mkfield "Speed through Water" 16 (RPos 1 100) false (UStr "m/s") (0);
   mkfield "Set" 16 (RPos 1800000000000000000000000000000000000000000000000000000000000 314159265358979323846264338327950288419716939937510582097494459) false (UStr "deg") (0);
   mkfield "Drift" 16 (RPos 1 100) false (UStr "m/s") (0)].
(** /repo/nmea2k/pgn_array.go:2010 *)
Definition pgn_179 : pgn_def := mkpgn "Vessel Speed Components" "General" 130578 true 12 0
  [mkfield "Longitudinal Speed, Water-referenced" 16 (RPos 1 1000) true (UStr "m/s") (0);
   mkfield "Transverse Speed, Water-referenced" 16 (RPos 1 1000) true (UStr "m/s") (0);
   mkfield "Longitudinal Speed, Ground-referenced" 16 (RPos 1 1000) true (UStr "m/s") (0);
   mkfield "Transverse Speed, Ground-referenced" 16 (RPos 1 1000) true (UStr "m/s") (0);
   mkfield "Stern Speed, Water-referenced" 16 (RPos 1 1000) true (UStr "m/s") (0);
   mkfield "Stern Speed, Ground-referenced" 16 (RPos 1 1000) true (UStr "m/s") (0)].
(** /repo/nmea2k/pgn_array.go:2019 *)
Definition pgn_180 : pgn_def := mkpgn "SonicHub: Init #2" "Entertainment" 130816 false 9 0
  [mkfield "Manufacturer Code" 11 RES_MANUFACTURER false (UStr "=275") (0);
   mkfield "Reserved" 2 (RPos 1 1) false UNil (0);
   mkfield "Industry Code" 3 RES_LOOKUP false (ULookup lookupIndustryCode) (0);
   mkfield "Reserved" 8 (RPos 1 1) false UNil (0);
   mkfield "Proprietary ID" 8 RES_LOOKUP false (UStr "=1") (0);
   mkfield "Control" 8 RES_LOOKUP false (ULookup lookupSonicHubControl) (0);
   mkfield "A" 16 RES_INTEGER false UNil (0);
   mkfield "B" 16 RES_INTEGER false UNil (0)].
(** /repo/nmea2k/pgn_array.go:2030 *)
Definition pgn_181 : pgn_def := mkpgn "SonicHub: AM Radio" "Entertainment" 130816 false 64 0
  [mkfield "Manufacturer Code" 11 RES_MANUFACTURER false (ULookup lookupCompanyCode) (0);
   mkfield "Reserved" 2 (RPos 1 1) false UNil (0);
   mkfield "Industry Code" 3 RES_LOOKUP false (UStr "=275") (0);
   mkfield "Reserved" 8 (RPos 1 1) false UNil (0);
   mkfield "Proprietary ID" 8 RES_LOOKUP false (UStr "=4") (0);
   mkfield "Control" 8 RES_LOOKUP false (ULookup lookupSonicHubControl) (0);
   mkfield "Item" 8 RES_LOOKUP false (ULookup lookupSonicHubTuning) (0);
   mkfield "Frequency" 32 (RPos 1 1000) false (UStr "kHz") (0);
   mkfield "Noise level" 2 (RPos 1 1) false UNil (0);
   mkfield "Signal level" 4 (RPos 1 1) false UNil (0);
   mkfield "Reserved" 2 (RPos 1 1) false UNil (0);
   mkfield "Text" 256 RES_STRINGLZ false UNil (0)].
(** /repo/nmea2k/pgn_array.go:2045 *)
Definition pgn_182 : pgn_def := mkpgn "SonicHub: Zone Info" "Entertainment" 130816 false 6 0
  [mkfield "Manufacturer Code" 11 RES_MANUFACTURER false (UStr "=275") (0);
   mkfield "Reserved" 2 (RPos 1 1) false UNil (0);
   mkfield "Industry Code" 3 RES_LOOKUP false (ULookup lookupIndustryCode) (0);
   mkfield "Reserved" 8 (RPos 1 1) false UNil (0);
   mkfield "Proprietary ID" 8 RES_LOOKUP false (UStr "=5") (0);
   mkfield "Control" 8 RES_LOOKUP false (ULookup lookupSonicHubControl) (0);
   mkfield "Zone" 8 RES_INTEGER false UNil (0)].
(** /repo/nmea2k/pgn_array.go:2055 *)
Definition pgn_183 : pgn_def := mkpgn "SonicHub: Source" "Entertainment" 130816 false 64 0
  [mkfield "Manufacturer Code" 11 RES_MANUFACTURER false (UStr "=275") (0);
   mkfield "Reserved" 2 (RPos 1 1) false UNil (0);
   mkfield "Industry Code" 3 RES_LOOKUP false (ULookup lookupIndustryCode) (0);
   mkfield "Reserved" 8 (RPos 1 1) false UNil (0);
   mkfield "Proprietary ID" 8 RES_LOOKUP false (UStr "=6") (0);
   mkfield "Control" 8 RES_LOOKUP false (ULookup lookupSonicHubControl) (0);
   mkfield "Source" 8 RES_LOOKUP false (ULookup lookupSonicHubSource) (0)].
(** /repo/nmea2k/pgn_array.go:2065 *)
Definition pgn_184 : pgn_def := mkpgn "SonicHub: Source List" "Entertainment" 130816 false 64 0
  [mkfield "Manufacturer Code" 11 RES_MANUFACTURER false (UStr "=275") (0);
   mkfield "Reserved" 2 (RPos 1 1) false UNil (0);
   mkfield "Industry Code" 3 RES_LOOKUP false (ULookup lookupIndustryCode) (0);
   mkfield "Reserved" 8 (RPos 1 1) false UNil (0);
   mkfield "Proprietary ID" 8 RES_LOOKUP false (UStr "=8") (0);
   mkfield "Control" 8 RES_LOOKUP false (ULookup lookupSonicHubControl) (0);
   mkfield "Source ID" 8 RES_INTEGER false UNil (0);
   mkfield "A" 8 RES_INTEGER false UNil (0);
   mkfield "Text" 256 RES_STRINGLZ false UNil (0)].
(** /repo/nmea2k/pgn_array.go:2077 *)
Definition pgn_185 : pgn_def := mkpgn "SonicHub: Mute Control" "Entertainment" 130816 false 64 0
  [mkfield "Manufacturer Code" 11 RES_MANUFACTURER false (UStr "=275") (0);
   mkfield "Reserved" 2 (RPos 1 1) false UNil (0);
   mkfield "Industry Code" 3 RES_LOOKUP false (ULookup lookupIndustryCode) (0);
   mkfield "Reserved" 8 (RPos 1 1) false UNil (0);
   mkfield "Proprietary ID" 8 RES_LOOKUP false (UStr "=9") (0);
   mkfield "Control" 8 RES_LOOKUP false (ULookup lookupSonicHubControl) (0);
   mkfield "Item" 8 RES_LOOKUP false (ULookup lookupSonicHubMute) (0)].
(** /repo/nmea2k/pgn_array.go:2087 *)
Definition pgn_186 : pgn_def := mkpgn "SonicHub: FM Radio" "Entertainment" 130816 false 64 0
  [mkfield "Manufacturer Code" 11 RES_MANUFACTURER false (UStr "=275") (0);
   mkfield "Reserved" 2 (RPos 1 1) false UNil (0);
   mkfield "Industry Code" 3 RES_LOOKUP false (ULookup lookupIndustryCode) (0);
   mkfield "Reserved" 8 (RPos 1 1) false UNil (0);
   mkfield "Proprietary ID" 8 RES_LOOKUP false (UStr "=12") (0);
   mkfield "Control" 8 RES_LOOKUP false (ULookup lookupSonicHubControl) (0);
   mkfield "Item" 8 RES_LOOKUP false (ULookup lookupSonicHubTuning) (0);
   mkfield "Frequency" 32 (RPos 1 1000) false (UStr "kHz") (0);
   mkfield "Noise level" 2 (RPos 1 1) false UNil (0);
   mkfield "Signal level" 4 (RPos 1 1) false UNil (0);
   mkfield "Reserved" 2 (RPos 1 1) false UNil (0);
   mkfield "Text" 256 RES_STRINGLZ false UNil (0)].
(** /repo/nmea2k/pgn_array.go:2102 *)
Definition pgn_187 : pgn_def := mkpgn "SonicHub: Playlist" "Entertainment" 130816 false 64 0
  [mkfield "Manufacturer Code" 11 RES_MANUFACTURER false (UStr "=275") (0);
   mkfield "Reserved" 2 (RPos 1 1) false UNil (0);
   mkfield "Industry Code" 3 RES_LOOKUP false (ULookup lookupIndustryCode) (0);
   mkfield "Reserved" 8 (RPos 1 1) false UNil (0);
   mkfield "Proprietary ID" 8 RES_LOOKUP false (UStr "=13") (0);
   mkfield "Control" 8 RES_LOOKUP false (ULookup lookupSonicHubControl) (0);
   mkfield "Item" 8 RES_LOOKUP false (ULookup lookupSonicHubPlaylist) (0);
   mkfield "A" 8 RES_INTEGER false UNil (0);
   mkfield "Current Track" 32 RES_INTEGER false UNil (0);
   mkfield "Tracks" 32 RES_INTEGER false UNil (0);
   mkfield "Length" 32 (RPos 1 1000) false UNil (0);
   mkfield "Position in track" 32 (RPos 1 1000) false UNil (0)].
(** /repo/nmea2k/pgn_array.go:2117 *)
Definition pgn_188 : pgn_def := mkpgn "SonicHub: Track" "Entertainment" 130816 false 64 0
  [mkfield "Manufacturer Code" 11 RES_MANUFACTURER false (UStr "=275") (0);
   mkfield "Reserved" 2 (RPos 1 1) false UNil (0);
   mkfield "Industry Code" 3 RES_LOOKUP false (ULookup lookupIndustryCode) (0);
   mkfield "Reserved" 8 (RPos 1 1) false UNil (0);
   mkfield "Proprietary ID" 8 RES_LOOKUP false (UStr "=14") (0);
   mkfield "Control" 8 RES_LOOKUP false (ULookup lookupSonicHubControl) (0);
   mkfield "Item" 32 RES_INTEGER false UNil (0);
   mkfield "Text" 256 RES_STRINGLZ false UNil (0)].
(** /repo/nmea2k/pgn_array.go:2128 *)
Definition pgn_189 : pgn_def := mkpgn "SonicHub: Artist" "Entertainment" 130816 false 64 0
  [mkfield "Manufacturer Code" 11 RES_MANUFACTURER false (UStr "=275") (0);
   mkfield "Reserved" 2 (RPos 1 1) false UNil (0);
   mkfield "Industry Code" 3 RES_LOOKUP false (ULookup lookupIndustryCode) (0);
   mkfield "Reserved" 8 (RPos 1 1) false UNil (0);
   mkfield "Proprietary ID" 8 RES_LOOKUP false (UStr "=15") (0);
   mkfield "Control" 8 RES_LOOKUP false (ULookup lookupSonicHubControl) (0);
   mkfield "Item" 32 RES_INTEGER false UNil (0);
   mkfield "Text" 256 RES_STRINGLZ false UNil (0)].
(** /repo/nmea2k/pgn_array.go:2139 *)
Definition pgn_190 : pgn_def := mkpgn "SonicHub: Album" "Entertainment" 130816 false 64 0
  [mkfield "Manufacturer Code" 11 RES_MANUFACTURER false (UStr "=275") (0);
   mkfield "Reserved" 2 (RPos 1 1) false UNil (0);
   mkfield "Industry Code" 3 RES_LOOKUP false (ULookup lookupIndustryCode) (0);
   mkfield "Reserved" 8 (RPos 1 1) false UNil (0);
   mkfield "Proprietary ID" 8 RES_LOOKUP false (UStr "=16") (0);
   mkfield "Control" 8 RES_LOOKUP false (ULookup lookupSonicHubControl) (0);
   mkfield "Item" 32 RES_INTEGER false UNil (0);
   mkfield "Text" 256 RES_STRINGLZ false UNil (0)].
(** /repo/nmea2k/pgn_array.go:2150 *)
Definition pgn_191 : pgn_def := mkpgn "SonicHub: Menu Item" "Entertainment" 130816 false 64 0
  [mkfield "Manufacturer Code" 11 RES_MANUFACTURER false (UStr "=275") (0);
   mkfield "Reserved" 2 (RPos 1 1) false UNil (0);
   mkfield "Industry Code" 3 RES_LOOKUP false (ULookup lookupIndustryCode) (0);
   mkfield "Reserved" 8 (RPos 1 1) false UNil (0);
   mkfield "Proprietary ID" 8 RES_LOOKUP false (UStr "=19") (0);
   mkfield "Control" 8 RES_LOOKUP false (ULookup lookupSonicHubControl) (0);
   mkfield "Item" 32 RES_INTEGER false UNil (0);
   mkfield "C" 8 (RPos 1 1) false UNil (0);
   mkfield "D" 8 (RPos 1 1) false UNil (0);
   mkfield "E" 8 (RPos 1 1) false UNil (0);
   mkfield "Text" 256 RES_STRINGLZ false UNil (0)].
(** /repo/nmea2k/pgn_array.go:2164 *)
Definition pgn_192 : pgn_def := mkpgn "SonicHub: Zones" "Entertainment" 130816 false 64 0
  [mkfield "Manufacturer Code" 11 RES_MANUFACTURER false (UStr "=275") (0);
   mkfield "Reserved" 2 (RPos 1 1) false UNil (0);
   mkfield "Industry Code" 3 RES_LOOKUP false (ULookup lookupIndustryCode) (0);
   mkfield "Reserved" 8 (RPos 1 1) false UNil (0);
   mkfield "Proprietary ID" 8 RES_LOOKUP false (UStr "=20") (0);
   mkfield "Control" 8 RES_LOOKUP false (ULookup lookupSonicHubControl) (0);
   mkfield "Zones" 8 RES_INTEGER false UNil (0)].
(** /repo/nmea2k/pgn_array.go:2174 *)
Definition pgn_193 : pgn_def := mkpgn "SonicHub: Max Volume" "Entertainment" 130816 false 64 0
  [mkfield "Manufacturer Code" 11 RES_MANUFACTURER false (UStr "=275") (0);
   mkfield "Reserved" 2 (RPos 1 1) false UNil (0);
   mkfield "Industry Code" 3 RES_LOOKUP false (ULookup lookupIndustryCode) (0);
   mkfield "Reserved" 8 (RPos 1 1) false UNil (0);
   mkfield "Proprietary ID" 8 RES_LOOKUP false (UStr "=23") (0);
   mkfield "Control" 8 RES_LOOKUP false (ULookup lookupSonicHubControl) (0);
   mkfield "Zone" 8 RES_LOOKUP false (ULookup lookupSonicHubZone) (0);
   mkfield "Level" 8 RES_INTEGER false UNil (0)].
(** /repo/nmea2k/pgn_array.go:2185 *)
Definition pgn_194 : pgn_def := mkpgn "SonicHub: Volume" "Entertainment" 130816 false 64 0
  [mkfield "Manufacturer Code" 11 RES_MANUFACTURER false (UStr "=275") (0);
   mkfield "Reserved" 2 (RPos 1 1) false UNil (0);
   mkfield "Industry Code" 3 RES_LOOKUP false (ULookup lookupIndustryCode) (0);
   mkfield "Reserved" 8 (RPos 1 1) false UNil (0);
   mkfield "Proprietary ID" 8 RES_LOOKUP false (UStr "=24") (0);
   mkfield "Control" 8 RES_LOOKUP false (ULookup lookupSonicHubControl) (0);
   mkfield "Zone" 8 RES_LOOKUP false (ULookup lookupSonicHubZone) (0);
   mkfield "Level" 8 RES_INTEGER false UNil (0)].
(** /repo/nmea2k/pgn_array.go:2196 *)
Definition pgn_195 : pgn_def := mkpgn "SonicHub: Init #1" "Entertainment" 130816 false 64 0
  [mkfield "Manufacturer Code" 11 RES_MANUFACTURER false (UStr "=275") (0);
   mkfield "Reserved" 2 (RPos 1 1) false UNil (0);
   mkfield "Industry Code" 3 RES_LOOKUP false (ULookup lookupIndustryCode) (0);
   mkfield "Reserved" 8 (RPos 1 1) false UNil (0);
   mkfield "Proprietary ID" 8 RES_LOOKUP false (UStr "=25") (0);
   mkfield "Control" 8 RES_LOOKUP false (ULookup lookupSonicHubControl) (0)].
(** /repo/nmea2k/pgn_array.go:2205 *)
Definition pgn_196 : pgn_def := mkpgn "SonicHub: Position" "Entertainment" 130816 true 64 0
  [mkfield "Manufacturer Code" 11 RES_MANUFACTURER false (UStr "=275") (0);
   mkfield "Reserved" 2 (RPos 1 1) false UNil (0);
   mkfield "Industry Code" 3 RES_LOOKUP false (ULookup lookupIndustryCode) (0);
   mkfield "Reserved" 8 (RPos 1 1) false UNil (0);
   mkfield "Proprietary ID" 8 RES_LOOKUP false (UStr "=48") (0);
   mkfield "Control" 8 RES_LOOKUP false (ULookup lookupSonicHubControl) (0);
   mkfield "Position" 32 (RPos 1 1000) false UNil (0)].
(** /repo/nmea2k/pgn_array.go:2215 *)
Definition pgn_197 : pgn_def := mkpgn "SonicHub: Init #3" "Entertainment" 130816 false 9 0
  [mkfield "Manufacturer Code" 11 RES_MANUFACTURER false (UStr "=275") (0);
   mkfield "Reserved" 2 (RPos 1 1) false UNil (0);
   mkfield "Industry Code" 3 RES_LOOKUP false (ULookup lookupIndustryCode) (0);
   mkfield "Reserved" 8 (RPos 1 1) false UNil (0);
   mkfield "Proprietary ID" 8 RES_LOOKUP false (UStr "=50") (0);
   mkfield "Control" 8 RES_LOOKUP false (ULookup lookupSonicHubControl) (0);
   mkfield "A" 8 RES_INTEGER false UNil (0);
   mkfield "B" 8 RES_INTEGER false UNil (0)].
(** /repo/nmea2k/pgn_array.go:2226 *)
Definition pgn_198 : pgn_def := mkpgn "Simrad: Text Message" "Simrad" 130816 false 64 0
  [mkfield "Manufacturer Code" 11 RES_MANUFACTURER false (UStr "=1857") (0);
   mkfield "Reserved" 2 (RPos 1 1) false UNil (0);
   mkfield "Industry Code" 3 RES_LOOKUP false (ULookup lookupIndustryCode) (0);
   mkfield "Reserved" 8 (RPos 1 1) false UNil (0);
   mkfield "Proprietary ID" 8 RES_LOOKUP false (UStr "=50") (0);
   mkfield "A" 8 (RPos 1 1) false UNil (0);
   mkfield "B" 8 (RPos 1 1) false UNil (0);
   mkfield "C" 8 (RPos 1 1) false UNil (0);
   mkfield "SID" 8 (RPos 1 1) false UNil (0);
   mkfield "Prio" 8 (RPos 1 1) false UNil (0);
   mkfield "Text" 256 RES_ASCII false UNil (0)].
(** /repo/nmea2k/pgn_array.go:2240 *)
Definition pgn_199 : pgn_def := mkpgn "Navico: Product Information" "Navico" 130817 false 14 0
  [mkfield "Manufacturer Code" 11 RES_MANUFACTURER false (UStr "=275") (0);
   mkfield "Reserved" 2 (RPos 1 1) false (UInt 0) (0);
   mkfield "Industry Code" 3 RES_LOOKUP false (ULookup lookupIndustryCode) (0);
   mkfield "Product Code" 16 RES_INTEGER false (UInt 0) (0);
   mkfield "Model" 256 RES_ASCII false (UInt 0) (0);
   mkfield "A" 8 (RPos 1 1) false (UInt 0) (0);
   mkfield "B" 8 (RPos 1 1) false (UInt 0) (0);
   mkfield "C" 8 (RPos 1 1) false (UInt 0) (0);
   mkfield "Firmware version" 80 RES_ASCII false (UInt 0) (0);
   mkfield "Firmware date" 256 RES_ASCII false (UInt 0) (0);
   mkfield "Firmware time" 256 RES_ASCII false (UInt 0) (0)].
(** /repo/nmea2k/pgn_array.go:2254 *)
Definition pgn_200 : pgn_def := mkpgn "Simnet: Reprogram Data" "Simrad" 130818 false 8 0
  [mkfield "Manufacturer Code" 11 RES_MANUFACTURER false (UStr "=1857") (0);
   mkfield "Reserved" 2 (RPos 1 1) false (UInt 0) (0);
   mkfield "Industry Code" 3 RES_LOOKUP false (ULookup lookupIndustryCode) (0);
   mkfield "Version" 16 RES_INTEGER false (UInt 0) (0);
   mkfield "Sequence" 16 RES_INTEGER false (UInt 0) (0);
   mkfield "Data" 2040 RES_BINARY false (UInt 0) (0)].
(** /repo/nmea2k/pgn_array.go:2263 *)
Definition pgn_201 : pgn_def := mkpgn "Simnet: Request Reprogram" "Simrad" 130819 false 8 0
  [mkfield "Manufacturer Code" 11 RES_MANUFACTURER false (UStr "=1857") (0);
   mkfield "Reserved" 2 (RPos 1 1) false (UInt 0) (0);
   mkfield "Industry Code" 3 RES_LOOKUP false (ULookup lookupIndustryCode) (0)].
(** /repo/nmea2k/pgn_array.go:2270 *)
Definition pgn_202 : pgn_def := mkpgn "Fusion: Unknown (1)" "Entertainment" 130820 false 13 0
  [mkfield "Manufacturer Code" 11 RES_MANUFACTURER false (UStr "=419") (0);
   mkfield "Reserved" 2 (RPos 1 1) false (UInt 0) (0);
   mkfield "Industry Code" 3 RES_LOOKUP false (ULookup lookupIndustryCode) (0);
   mkfield "Message ID" 8 (RPos 1 1) false (UStr "=1") (0);
   mkfield "A" 8 (RPos 1 1) false (UInt 0) (0);
   mkfield "B" 32 (RPos 1 1) false (UInt 0) (0)].
(** /repo/nmea2k/pgn_array.go:2279 *)
Definition pgn_203 : pgn_def := mkpgn "Fusion: Source Name" "Entertainment" 130820 false 13 0
  [mkfield "Manufacturer Code" 11 RES_MANUFACTURER false (UStr "=419") (0);
   mkfield "Reserved" 2 (RPos 1 1) false (UInt 0) (0);
   mkfield "Industry Code" 3 RES_LOOKUP false (ULookup lookupIndustryCode) (0);
   mkfield "Message ID" 8 (RPos 1 1) false (UStr "=2") (0);
   mkfield "A" 8 (RPos 1 1) false (UInt 0) (0);
   mkfield "B" 8 (RPos 1 1) false (UInt 0) (0);
   mkfield "C" 8 (RPos 1 1) false (UInt 0) (0);
   mkfield "Source" 8 (RPos 1 1) false (UInt 0) (0);
   mkfield "E" 8 (RPos 1 1) false (UInt 0) (0);
   mkfield "Name" 40 RES_STRINGLZ false (UInt 0) (0)].
(** /repo/nmea2k/pgn_array.go:2292 *)
Definition pgn_204 : pgn_def := mkpgn "Fusion: Unknown (3)" "Entertainment" 130820 false 13 0
  [mkfield "Manufacturer Code" 11 RES_MANUFACTURER false (UStr "=419") (0);
   mkfield "Reserved" 2 (RPos 1 1) false (UInt 0) (0);
   mkfield "Industry Code" 3 RES_LOOKUP false (ULookup lookupIndustryCode) (0);
   mkfield "Message ID" 8 (RPos 1 1) false (UStr "=3") (0);
   mkfield "A" 8 (RPos 1 1) false (UInt 0) (0);
   mkfield "B" 8 (RPos 1 1) false (UInt 0) (0)].
(** /repo/nmea2k/pgn_array.go:2301 *)
Definition pgn_205 : pgn_def := mkpgn "Fusion: Track Number" "Entertainment" 130820 false 13 0
  [mkfield "Manufacturer Code" 11 RES_MANUFACTURER false (UStr "=419") (0);
   mkfield "Reserved" 2 (RPos 1 1) false (UInt 0) (0);
   mkfield "Industry Code" 3 RES_LOOKUP false (ULookup lookupIndustryCode) (0);
   mkfield "Message ID" 8 (RPos 1 1) false (UStr "=4") (0);
   mkfield "A" 32 (RPos 1 1) false (UInt 0) (0);
   mkfield "Track Number" 32 (RPos 1 1) false (UInt 0) (0);
   mkfield "Total Tracks" 32 (RPos 1 1) false (UInt 0) (0);
   mkfield "Length" 32 (RPos 1 1000) false (UInt 0) (0);
   mkfield "E" 32 (RPos 1 1) false (UInt 0) (0)].
(** /repo/nmea2k/pgn_array.go:2313 *)
Definition pgn_206 : pgn_def := mkpgn "Fusion: Track" "Entertainment" 130820 false 32 0
  [mkfield "Manufacturer Code" 11 RES_MANUFACTURER false (UStr "=419") (0);
   mkfield "Reserved" 2 (RPos 1 1) false (UInt 0) (0);
   mkfield "Industry Code" 3 RES_LOOKUP false (ULookup lookupIndustryCode) (0);
   mkfield "Message ID" 8 (RPos 1 1) false (UStr "=5") (0);
   mkfield "A" 8 (RPos 1 1) false (UInt 0) (0);
   mkfield "B" 40 (RPos 1 1) false (UInt 0) (0);
   mkfield "Track" 80 RES_STRINGLZ false (UInt 0) (0)].
(** /repo/nmea2k/pgn_array.go:2323 *)
Definition pgn_207 : pgn_def := mkpgn "Fusion: Artist" "Entertainment" 130820 false 32 0
  [mkfield "Manufacturer Code" 11 RES_MANUFACTURER false (UStr "=419") (0);
   mkfield "Reserved" 2 (RPos 1 1) false (UInt 0) (0);
   mkfield "Industry Code" 3 RES_LOOKUP false (ULookup lookupIndustryCode) (0);
   mkfield "Message ID" 8 (RPos 1 1) false (UStr "=6") (0);
   mkfield "A" 8 (RPos 1 1) false (UInt 0) (0);
   mkfield "B" 40 (RPos 1 1) false (UInt 0) (0);
   mkfield "Artist" 80 RES_STRINGLZ false (UInt 0) (0)].
(** /repo/nmea2k/pgn_array.go:2333 *)
Definition pgn_208 : pgn_def := mkpgn "Fusion: Album" "Entertainment" 130820 false 32 0
  [mkfield "Manufacturer Code" 11 RES_MANUFACTURER false (UStr "=419") (0);
   mkfield "Reserved" 2 (RPos 1 1) false (UInt 0) (0);
   mkfield "Industry Code" 3 RES_LOOKUP false (ULookup lookupIndustryCode) (0);
   mkfield "Message ID" 8 (RPos 1 1) false (UStr "=7") (0);
   mkfield "A" 8 (RPos 1 1) false (UInt 0) (0);
   mkfield "B" 40 (RPos 1 1) false (UInt 0) (0);
   mkfield "Album" 80 RES_STRINGLZ false (UInt 0) (0)].
(** /repo/nmea2k/pgn_array.go:2343 *)
Definition pgn_209 : pgn_def := mkpgn "Fusion: Play Progress" "Entertainment" 130820 false 9 0
  [mkfield "Manufacturer Code" 11 RES_MANUFACTURER false (UStr "=419") (0);
   mkfield "Reserved" 2 (RPos 1 1) false (UInt 0) (0);
   mkfield "Industry Code" 3 RES_LOOKUP false (ULookup lookupIndustryCode) (0);
   mkfield "Message ID" 8 (RPos 1 1) false (UStr "=9") (0);
   mkfield "A" 8 (RPos 1 1) false (UInt 0) (0);
   mkfield "B" 8 (RPos 1 1) false (UInt 0) (0);
   mkfield "Progress" 24 (RPos 1 1000) false (UStr "s") (0)].
(** /repo/nmea2k/pgn_array.go:2353 *)
Definition pgn_210 : pgn_def := mkpgn "Fusion: AM/FM Station" "Entertainment" 130820 false 10 0
  [mkfield "Manufacturer Code" 11 RES_MANUFACTURER false (UStr "=419") (0);
   mkfield "Reserved" 2 (RPos 1 1) false (UInt 0) (0);
   mkfield "Industry Code" 3 RES_LOOKUP false (ULookup lookupIndustryCode) (0);
   mkfield "Message ID" 8 (RPos 1 1) false (UStr "=11") (0);
   mkfield "A" 24 (RPos 1 1) false (UInt 0) (0);
   mkfield "Frequency" 32 (RPos 1 1) false (UStr "Hz") (0);
   mkfield "B" 8 (RPos 1 1) false (UInt 0) (0);
   mkfield "Track" 80 RES_STRINGLZ false (UInt 0) (0)].
(** /repo/nmea2k/pgn_array.go:2364 *)
Definition pgn_211 : pgn_def := mkpgn "Fusion: VHF" "Entertainment" 130820 false 9 0
  [mkfield "Manufacturer Code" 11 RES_MANUFACTURER false (UStr "=419") (0);
   mkfield "Reserved" 2 (RPos 1 1) false (UInt 0) (0);
   mkfield "Industry Code" 3 RES_LOOKUP false (ULookup lookupIndustryCode) (0);
   mkfield "Message ID" 8 (RPos 1 1) false (UStr "=12") (0);
   mkfield "A" 8 (RPos 1 1) false (UInt 0) (0);
   mkfield "B" 8 (RPos 1 1) false (UInt 0) (0);
   mkfield "Channel" 8 (RPos 1 1) false (UInt 0) (0);
   mkfield "D" 24 (RPos 1 1) false (UInt 0) (0)].
(** /repo/nmea2k/pgn_array.go:2375 *)
Definition pgn_212 : pgn_def := mkpgn "Fusion: Squelch" "Entertainment" 130820 false 6 0
  [mkfield "Manufacturer Code" 11 RES_MANUFACTURER false (UStr "=419") (0);
   mkfield "Reserved" 2 (RPos 1 1) false (UInt 0) (0);
   mkfield "Industry Code" 3 RES_LOOKUP false (ULookup lookupIndustryCode) (0);
   mkfield "Message ID" 8 (RPos 1 1) false (UStr "=13") (0);
   mkfield "A" 8 (RPos 1 1) false (UInt 0) (0);
   mkfield "B" 8 (RPos 1 1) false (UInt 0) (0);
   mkfield "Squelch" 8 (RPos 1 1) false (UInt 0) (0)].
(** /repo/nmea2k/pgn_array.go:2385 *)
Definition pgn_213 : pgn_def := mkpgn "Fusion: Scan" "Entertainment" 130820 false 6 0
  [mkfield "Manufacturer Code" 11 RES_MANUFACTURER false (UStr "=419") (0);
   mkfield "Reserved" 2 (RPos 1 1) false (UInt 0) (0);
   mkfield "Industry Code" 3 RES_LOOKUP false (ULookup lookupIndustryCode) (0);
   mkfield "Message ID" 8 (RPos 1 1) false (UStr "=14") (0);
   mkfield "A" 8 (RPos 1 1) false (UInt 0) (0);
   mkfield "B" 8 (RPos 1 1) false (UInt 0) (0);
   mkfield "Scan" 8 RES_LOOKUP false (ULookup lookupOffOn) (0)].
(** /repo/nmea2k/pgn_array.go:2395 *)
Definition pgn_214 : pgn_def := mkpgn "Fusion: Menu Item" "Entertainment" 130820 false 23 0
  [mkfield "Manufacturer Code" 11 RES_MANUFACTURER false (UStr "=419") (0);
   mkfield "Reserved" 2 (RPos 1 1) false (UInt 0) (0);
   mkfield "Industry Code" 3 RES_LOOKUP false (ULookup lookupIndustryCode) (0);
   mkfield "Message ID" 8 (RPos 1 1) false (UStr "=17") (0);
   mkfield "A" 8 (RPos 1 1) false (UInt 0) (0);
   mkfield "B" 8 (RPos 1 1) false (UInt 0) (0);
   mkfield "Line" 8 (RPos 1 1) false (UInt 0) (0);
   mkfield "E" 8 (RPos 1 1) false (UInt 0) (0);
   mkfield "F" 8 (RPos 1 1) false (UInt 0) (0);
   mkfield "G" 8 (RPos 1 1) false (UInt 0) (0);
   mkfield "H" 8 (RPos 1 1) false (UInt 0) (0);
   mkfield "I" 8 (RPos 1 1) false (UInt 0) (0);
   mkfield "Text" 40 RES_STRINGLZ false (UInt 0) (0)].
(** /repo/nmea2k/pgn_array.go:2411 *)
Definition pgn_215 : pgn_def := mkpgn "Fusion: Replay" "Entertainment" 130820 false 23 0
  [mkfield "Manufacturer Code" 11 RES_MANUFACTURER false (UStr "=419") (0);
   mkfield "Reserved" 2 (RPos 1 1) false (UInt 0) (0);
   mkfield "Industry Code" 3 RES_LOOKUP false (ULookup lookupIndustryCode) (0);
   mkfield "Message ID" 8 (RPos 1 1) false (UStr "=19") (0);
   mkfield "A" 8 (RPos 1 1) false (UInt 0) (0);
   mkfield "Mode" 8 RES_LOOKUP false (ULookup lookupFusionReplayMode) (0);
   mkfield "C" 24 (RPos 1 1) false (UInt 0) (0);
   mkfield "D" 8 (RPos 1 1) false (UInt 0) (0);
   mkfield "E" 8 (RPos 1 1) false (UInt 0) (0);
   mkfield "Status" 8 RES_LOOKUP false (ULookup lookupFusionReplayStatus) (0);
   mkfield "H" 8 (RPos 1 1) false (UInt 0) (0);
   mkfield "I" 8 (RPos 1 1) false (UInt 0) (0);
   mkfield "J" 8 (RPos 1 1) false (UInt 0) (0)].
(** /repo/nmea2k/pgn_array.go:2427 *)
Definition pgn_216 : pgn_def := mkpgn "Fusion: Time" "Entertainment" 130820 false 23 0
  [mkfield "Manufacturer Code" 11 RES_MANUFACTURER false (UStr "=419") (0);
   mkfield "Reserved" 2 (RPos 1 1) false (UInt 0) (0);
   mkfield "Industry Code" 3 RES_LOOKUP false (ULookup lookupIndustryCode) (0);
   mkfield "Message ID" 8 (RPos 1 1) false (UStr "=20") (0);
   mkfield "A" 8 (RPos 1 1) false (UInt 0) (0);
   mkfield "Command ID" 8 (RPos 1 1) false (UStr "=59") (0);
   mkfield "C" 24 (RPos 1 1) false (UInt 0) (0);
   mkfield "Minutes" 8 (RPos 1 1) false (UInt 0) (0);
   mkfield "Hours" 8 (RPos 1 1) false (UInt 0) (0);
   mkfield "Format" 1 RES_LOOKUP false (ULookup lookupFusionTimeFormat) (0);
   mkfield "Alarm" 1 RES_LOOKUP false (ULookup lookupOffOn) (0);
   mkfield "I" 6 (RPos 1 1) false (UInt 0) (0);
   mkfield "J" 8 (RPos 1 1) false (UInt 0) (0)].
(** /repo/nmea2k/pgn_array.go:2443 *)
Definition pgn_217 : pgn_def := mkpgn "Fusion: Repeat" "Entertainment" 130820 false 5 0
  [mkfield "Manufacturer Code" 11 RES_MANUFACTURER false (UStr "=419") (0);
   mkfield "Reserved" 2 (RPos 1 1) false (UInt 0) (0);
   mkfield "Industry Code" 3 RES_LOOKUP false (ULookup lookupIndustryCode) (0);
   mkfield "Message ID" 8 (RPos 1 1) false (UStr "=20") (0);
   mkfield "A" 8 (RPos 1 1) false (UInt 0) (0);
   mkfield "Command ID" 8 (RPos 1 1) false (UStr "=12") (0);
   mkfield "C" 24 (RPos 1 1) false (UInt 0) (0);
   mkfield "Repeat Code" 8 (RPos 1 1) false (UInt 0) (0);
   mkfield "E" 24 (RPos 1 1) false (UInt 0) (0)].
(** /repo/nmea2k/pgn_array.go:2455 *)
Definition pgn_218 : pgn_def := mkpgn "Fusion: Shuffle" "Entertainment" 130820 false 5 0
  [mkfield "Manufacturer Code" 11 RES_MANUFACTURER false (UStr "=419") (0);
   mkfield "Reserved" 2 (RPos 1 1) false (UInt 0) (0);
   mkfield "Industry Code" 3 RES_LOOKUP false (ULookup lookupIndustryCode) (0);
   mkfield "Message ID" 8 (RPos 1 1) false (UStr "=20") (0);
   mkfield "A" 8 (RPos 1 1) false (UInt 0) (0);
   mkfield "Command ID" 8 (RPos 1 1) false (UStr "=13") (0);
   mkfield "C" 24 (RPos 1 1) false (UInt 0) (0);
   mkfield "Shuffle Code" 8 (RPos 1 1) false (UInt 0) (0);
   mkfield "E" 24 (RPos 1 1) false (UInt 0) (0)].
(** /repo/nmea2k/pgn_array.go:2467 *)
Definition pgn_219 : pgn_def := mkpgn "Fusion: Mute" "Entertainment" 130820 false 5 0
  [mkfield "Manufacturer Code" 11 RES_MANUFACTURER false (UStr "=419") (0);
   mkfield "Reserved" 2 (RPos 1 1) false (UInt 0) (0);
   mkfield "Industry Code" 3 RES_LOOKUP false (ULookup lookupIndustryCode) (0);
   mkfield "Message ID" 8 (RPos 1 1) false (UStr "=23") (0);
   mkfield "A" 8 (RPos 1 1) false (UInt 0) (0);
   mkfield "Mute" 8 RES_LOOKUP false (ULookup lookupFusionMute) (0)].
(** /repo/nmea2k/pgn_array.go:2476 *)
Definition pgn_220 : pgn_def := mkpgn "Fusion: Unknown (24)" "Entertainment" 130820 false 5 0
  [mkfield "Manufacturer Code" 11 RES_MANUFACTURER false (UStr "=419") (0);
   mkfield "Reserved" 2 (RPos 1 1) false (UInt 0) (0);
   mkfield "Industry Code" 3 RES_LOOKUP false (ULookup lookupIndustryCode) (0);
   mkfield "Message ID" 8 (RPos 1 1) false (UStr "=24") (0);
   mkfield "A" 8 (RPos 1 1) false (UInt 0) (0);
   mkfield "B" 80 (RPos 1 1) false (UInt 0) (0)].
(** /repo/nmea2k/pgn_array.go:2485 *)
Definition pgn_221 : pgn_def := mkpgn "Fusion: Unknown (25)" "Entertainment" 130820 false 5 0
  [mkfield "Manufacturer Code" 11 RES_MANUFACTURER false (UStr "=419") (0);
   mkfield "Reserved" 2 (RPos 1 1) false (UInt 0) (0);
   mkfield "Industry Code" 3 RES_LOOKUP false (ULookup lookupIndustryCode) (0);
   mkfield "Message ID" 8 (RPos 1 1) false (UStr "=25") (0);
   mkfield "A" 8 (RPos 1 1) false (UInt 0) (0);
   mkfield "B" 80 (RPos 1 1) false (UInt 0) (0)].
(** /repo/nmea2k/pgn_array.go:2495 *)
Definition pgn_222 : pgn_def := mkpgn "Fusion: Sub Volume" "Entertainment" 130820 false 8 0
  [mkfield "Manufacturer Code" 11 RES_MANUFACTURER false (UStr "=419") (0);
   mkfield "Reserved" 2 (RPos 1 1) false (UInt 0) (0);
   mkfield "Industry Code" 3 RES_LOOKUP false (ULookup lookupIndustryCode) (0);
   mkfield "Message ID" 8 (RPos 1 1) false (UStr "=26") (0);
   mkfield "A" 8 (RPos 1 1) false (UInt 0) (0);
   mkfield "Zone 1" 8 (RPos 1 1) false (UStr "vol") (0);
   mkfield "Zone 2" 8 (RPos 1 1) false (UStr "vol") (0);
   mkfield "Zone 3" 8 (RPos 1 1) false (UStr "vol") (0);
   mkfield "Zone 4" 8 (RPos 1 1) false (UStr "vol") (0)].
(** /repo/nmea2k/pgn_array.go:2508 *)
Definition pgn_223 : pgn_def := mkpgn "Fusion: Tone" "Entertainment" 130820 false 8 0
  [mkfield "Manufacturer Code" 11 RES_MANUFACTURER false (UStr "=419") (0);
   mkfield "Reserved" 2 (RPos 1 1) false (UInt 0) (0);
   mkfield "Industry Code" 3 RES_LOOKUP false (ULookup lookupIndustryCode) (0);
   mkfield "Message ID" 8 (RPos 1 1) false (UStr "=27") (0);
   mkfield "A" 8 (RPos 1 1) false (UInt 0) (0);
   mkfield "B" 8 (RPos 1 1) false (UInt 0) (0);
   mkfield "Bass" 8 (RPos 1 1) true (UStr "vol") (0);
   mkfield "Mid" 8 (RPos 1 1) true (UStr "vol") (0);
   mkfield "Treble" 8 (RPos 1 1) true (UStr "vol") (0)].
(** /repo/nmea2k/pgn_array.go:2520 *)
Definition pgn_224 : pgn_def := mkpgn "Fusion: Volume" "Entertainment" 130820 false 10 0
  [mkfield "Manufacturer Code" 11 RES_MANUFACTURER false (UStr "=419") (0);
   mkfield "Reserved" 2 (RPos 1 1) false (UInt 0) (0);
   mkfield "Industry Code" 3 RES_LOOKUP false (ULookup lookupIndustryCode) (0);
   mkfield "Message ID" 8 (RPos 1 1) false (UStr "=29") (0);
   mkfield "A" 8 (RPos 1 1) false (UInt 0) (0);
   mkfield "Zone 1" 8 (RPos 1 1) false (UStr "vol") (0);
   mkfield "Zone 2" 8 (RPos 1 1) false (UStr "vol") (0);
   mkfield "Zone 3" 8 (RPos 1 1) false (UStr "vol") (0);
   mkfield "Zone 4" 8 (RPos 1 1) false (UStr "vol") (0)].
(** /repo/nmea2k/pgn_array.go:2532 *)
Definition pgn_225 : pgn_def := mkpgn "Fusion: Transport" "Entertainment" 130820 false 5 0
  [mkfield "Manufacturer Code" 11 RES_MANUFACTURER false (UStr "=419") (0);
   mkfield "Reserved" 2 (RPos 1 1) false (UInt 0) (0);
   mkfield "Industry Code" 3 RES_LOOKUP false (ULookup lookupIndustryCode) (0);
   mkfield "Message ID" 8 (RPos 1 1) false (UStr "=32") (0);
   mkfield "A" 8 (RPos 1 1) false (UInt 0) (0);
   mkfield "Transport" 8 RES_LOOKUP false (ULookup lookupFusionTransport) (0)].
(** /repo/nmea2k/pgn_array.go:2541 *)
Definition pgn_226 : pgn_def := mkpgn "Fusion: Stereo ID" "Entertainment" 130820 false 5 0
  [mkfield "Manufacturer Code" 11 RES_MANUFACTURER false (UStr "=419") (0);
   mkfield "Reserved" 2 (RPos 1 1) false (UInt 0) (0);
   mkfield "Industry Code" 3 RES_LOOKUP false (ULookup lookupIndustryCode) (0);
   mkfield "Message ID" 8 (RPos 1 1) false (UStr "=33") (0);
   mkfield "A" 8 (RPos 1 1) false (UInt 0) (0);
   mkfield "Name" 80 RES_STRINGLZ false (UInt 0) (0)].
(** /repo/nmea2k/pgn_array.go:2550 *)
Definition pgn_227 : pgn_def := mkpgn "Fusion: Unknown (34)" "Entertainment" 130820 false 5 0
  [mkfield "Manufacturer Code" 11 RES_MANUFACTURER false (UStr "=419") (0);
   mkfield "Reserved" 2 (RPos 1 1) false (UInt 0) (0);
   mkfield "Industry Code" 3 RES_LOOKUP false (ULookup lookupIndustryCode) (0);
   mkfield "Message ID" 8 (RPos 1 1) false (UStr "=34") (0);
   mkfield "A" 8 (RPos 1 1) false (UInt 0) (0);
   mkfield "B" 48 (RPos 1 1) false (UInt 0) (0)].
(** /repo/nmea2k/pgn_array.go:2559 *)
Definition pgn_228 : pgn_def := mkpgn "Fusion: SiriusXM Station" "Entertainment" 130820 false 5 0
  [mkfield "Manufacturer Code" 11 RES_MANUFACTURER false (UStr "=419") (0);
   mkfield "Reserved" 2 (RPos 1 1) false (UInt 0) (0);
   mkfield "Industry Code" 3 RES_LOOKUP false (ULookup lookupIndustryCode) (0);
   mkfield "Message ID" 8 (RPos 1 1) false (UStr "=36") (0);
   mkfield "A" 16 (RPos 1 1) false (UInt 0) (0);
   mkfield "Channel" 16 (RPos 1 1) false (UInt 0) (0);
   mkfield "Station" 800 RES_STRINGLZ false (UInt 0) (0)].
(** /repo/nmea2k/pgn_array.go:2569 *)
Definition pgn_229 : pgn_def := mkpgn "Fusion: SiriusXM Track" "Entertainment" 130820 false 5 0
  [mkfield "Manufacturer Code" 11 RES_MANUFACTURER false (UStr "=419") (0);
   mkfield "Reserved" 2 (RPos 1 1) false (UInt 0) (0);
   mkfield "Industry Code" 3 RES_LOOKUP false (ULookup lookupIndustryCode) (0);
   mkfield "Message ID" 8 (RPos 1 1) false (UStr "=37") (0);
   mkfield "A" 16 (RPos 1 1) false (UInt 0) (0);
   mkfield "Channel" 16 (RPos 1 1) false (UInt 0) (0);
   mkfield "Track" 800 RES_STRINGLZ false (UInt 0) (0)].
(** /repo/nmea2k/pgn_array.go:2579 *)
Definition pgn_230 : pgn_def := mkpgn "Fusion: SiriusXM Artist" "Entertainment" 130820 false 5 0
  [mkfield "Manufacturer Code" 11 RES_MANUFACTURER false (UStr "=419") (0);
   mkfield "Reserved" 2 (RPos 1 1) false (UInt 0) (0);
   mkfield "Industry Code" 3 RES_LOOKUP false (ULookup lookupIndustryCode) (0);
   mkfield "Message ID" 8 (RPos 1 1) false (UStr "=38") (0);
   mkfield "A" 16 (RPos 1 1) false (UInt 0) (0);
   mkfield "Channel" 16 (RPos 1 1) false (UInt 0) (0);
   mkfield "Artist" 800 RES_STRINGLZ false (UInt 0) (0)].
(** /repo/nmea2k/pgn_array.go:2589 *)
Definition pgn_231 : pgn_def := mkpgn "Fusion: SiriusXM Channel" "Entertainment" 130820 false 5 0
  [mkfield "Manufacturer Code" 11 RES_MANUFACTURER false (UStr "=419") (0);
   mkfield "Reserved" 2 (RPos 1 1) false (UInt 0) (0);
   mkfield "Industry Code" 3 RES_LOOKUP false (ULookup lookupIndustryCode) (0);
   mkfield "Message ID" 8 (RPos 1 1) false (UStr "=39") (0);
   mkfield "A" 16 (RPos 1 1) false (UInt 0) (0);
   mkfield "Channel" 16 (RPos 1 1) false (UInt 0) (0);
   mkfield "C" 16 (RPos 1 1) false (UInt 0) (0)].
(** /repo/nmea2k/pgn_array.go:2598 *)
Definition pgn_232 : pgn_def := mkpgn "Fusion: SiriusXM Category" "Entertainment" 130820 false 5 0
  [mkfield "Manufacturer Code" 11 RES_MANUFACTURER false (UStr "=419") (0);
   mkfield "Reserved" 2 (RPos 1 1) false (UInt 0) (0);
   mkfield "Industry Code" 3 RES_LOOKUP false (ULookup lookupIndustryCode) (0);
   mkfield "Message ID" 8 (RPos 1 1) false (UStr "=40") (0);
   mkfield "A" 16 (RPos 1 1) false (UInt 0) (0);
   mkfield "Channel" 16 (RPos 1 1) false (UInt 0) (0);
   mkfield "Category" 800 RES_STRINGLZ false (UInt 0) (0)].
(** /repo/nmea2k/pgn_array.go:2608 *)
Definition pgn_233 : pgn_def := mkpgn "Fusion: Unknown (41)" "Entertainment" 130820 false 5 0
  [mkfield "Manufacturer Code" 11 RES_MANUFACTURER false (UStr "=419") (0);
   mkfield "Reserved" 2 (RPos 1 1) false (UInt 0) (0);
   mkfield "Industry Code" 3 RES_LOOKUP false (ULookup lookupIndustryCode) (0);
   mkfield "Message ID" 8 (RPos 1 1) false (UStr "=41") (0);
   mkfield "Text" 40 RES_STRINGLZ false (UInt 0) (0)].
(** /repo/nmea2k/pgn_array.go:2616 *)
Definition pgn_234 : pgn_def := mkpgn "Fusion: Unknown (44)" "Entertainment" 130820 false 5 0
  [mkfield "Manufacturer Code" 11 RES_MANUFACTURER false (UStr "=419") (0);
   mkfield "Reserved" 2 (RPos 1 1) false (UInt 0) (0);
   mkfield "Industry Code" 3 RES_LOOKUP false (ULookup lookupIndustryCode) (0);
   mkfield "Message ID" 8 (RPos 1 1) false (UStr "=44") (0);
   mkfield "Text" 40 RES_STRINGLZ false (UInt 0) (0)].
(** /repo/nmea2k/pgn_array.go:2624 *)
Definition pgn_235 : pgn_def := mkpgn "Fusion: Zone Name" "Entertainment" 130820 false 5 0
  [mkfield "Manufacturer Code" 11 RES_MANUFACTURER false (UStr "=419") (0);
   mkfield "Reserved" 2 (RPos 1 1) false (UInt 0) (0);
   mkfield "Industry Code" 3 RES_LOOKUP false (ULookup lookupIndustryCode) (0);
   mkfield "Message ID" 8 (RPos 1 1) false (UStr "=45") (0);
   mkfield "A" 8 (RPos 1 1) false (UInt 0) (0);
   mkfield "Zone" 8 (RPos 1 1) false (UInt 0) (0);
   mkfield "Name" 480 RES_STRINGLZ false (UInt 0) (0)].
(** /repo/nmea2k/pgn_array.go:2634 *)
Definition pgn_236 : pgn_def := mkpgn "Fusion: Unknown (51)" "Entertainment" 130820 false 8 0
  [mkfield "Manufacturer Code" 11 RES_MANUFACTURER false (UStr "=419") (0);
   mkfield "Reserved" 2 (RPos 1 1) false (UInt 0) (0);
   mkfield "Industry Code" 3 RES_LOOKUP false (ULookup lookupIndustryCode) (0);
   mkfield "Message ID" 8 (RPos 1 1) false (UInt 0) (0);
   mkfield "A" 8 (RPos 1 1) false (UInt 0) (0);
   mkfield "B" 104 (RPos 1 1) false (UInt 0) (0)].
(** /repo/nmea2k/pgn_array.go:2643 *)
Definition pgn_237 : pgn_def := mkpgn "Fusion: Unknown" "Entertainment" 130820 false 8 0
  [mkfield "Manufacturer Code" 11 RES_MANUFACTURER false (UStr "=419") (0);
   mkfield "Reserved" 2 (RPos 1 1) false (UInt 0) (0);
   mkfield "Industry Code" 3 RES_LOOKUP false (ULookup lookupIndustryCode) (0);
   mkfield "Message ID" 8 (RPos 1 1) false (UInt 0) (0)].
(** /repo/nmea2k/pgn_array.go:2651 *)
Definition pgn_238 : pgn_def := mkpgn "Simnet: Reprogram Status" "Simrad" 130820 false 8 0
  [mkfield "Manufacturer Code" 11 RES_MANUFACTURER false (UStr "=1857") (0);
   mkfield "Reserved" 2 (RPos 1 1) false (UInt 0) (0);
   mkfield "Industry Code" 3 RES_LOOKUP false (ULookup lookupIndustryCode) (0);
   mkfield "Reserved" 8 (RPos 1 1) false (UInt 0) (0);
   mkfield "Status" 8 (RPos 1 1) false (UInt 0) (0);
   mkfield "Reserved" 24 (RPos 1 1) false (UInt 0) (0)].
(** /repo/nmea2k/pgn_array.go:2661 *)
Definition pgn_239 : pgn_def := mkpgn "Furuno: Unknown" "Furuno" 130821 false 12 0
  [mkfield "Manufacturer Code" 11 RES_MANUFACTURER false (UStr "=1855") (0);
   mkfield "Reserved" 2 (RPos 1 1) false (UInt 0) (0);
   mkfield "Industry Code" 3 RES_LOOKUP false (ULookup lookupIndustryCode) (0);
   mkfield "SID" 8 (RPos 1 1) false (UInt 0) (0);
   mkfield "A" 8 (RPos 1 1) false (UInt 0) (0);
   mkfield "B" 8 (RPos 1 1) false (UInt 0) (0);
   mkfield "C" 8 (RPos 1 1) false (UInt 0) (0);
   mkfield "D" 8 (RPos 1 1) false (UInt 0) (0);
   mkfield "E" 8 (RPos 1 1) false (UInt 0) (0);
   mkfield "F" 8 (RPos 1 1) false (UInt 0) (0);
   mkfield "G" 8 (RPos 1 1) false (UInt 0) (0);
   mkfield "H" 8 (RPos 1 1) false (UInt 0) (0);
   mkfield "I" 8 (RPos 1 1) false (UInt 0) (0)].
(** /repo/nmea2k/pgn_array.go:2677 *)
Definition pgn_240 : pgn_def := mkpgn "Furuno: Unknown" "Furuno" 130821 false 12 0
  [mkfield "Manufacturer Code" 11 RES_MANUFACTURER false (UStr "=1855") (0);
   mkfield "Reserved" 2 (RPos 1 1) false (UInt 0) (0);
   mkfield "Industry Code" 3 RES_LOOKUP false (ULookup lookupIndustryCode) (0);
   mkfield "SID" 8 (RPos 1 1) false (UInt 0) (0);
   mkfield "A" 8 (RPos 1 1) false (UInt 0) (0);
   mkfield "B" 8 (RPos 1 1) false (UInt 0) (0);
   mkfield "C" 8 (RPos 1 1) false (UInt 0) (0);
   mkfield "D" 8 (RPos 1 1) false (UInt 0) (0);
   mkfield "E" 8 (RPos 1 1) false (UInt 0) (0);
   mkfield "F" 8 (RPos 1 1) false (UInt 0) (0);
   mkfield "G" 8 (RPos 1 1) false (UInt 0) (0);
   mkfield "H" 8 (RPos 1 1) false (UInt 0) (0);
   mkfield "I" 8 (RPos 1 1) false (UInt 0) (0)].
(** /repo/nmea2k/pgn_array.go:2693 *)
Definition pgn_241 : pgn_def := mkpgn "Simnet: Unknown" "Simrad" 130822 false 208 1
  [mkfield "Manufacturer Code" 11 RES_MANUFACTURER false (UStr "=1857") (0);
   mkfield "Reserved" 2 (RPos 1 1) false (UInt 0) (0);
   mkfield "Industry Code" 3 RES_LOOKUP false (ULookup lookupIndustryCode) (0);
   mkfield "Data" 104 RES_BINARY false (UInt 0) (0);
   mkfield "Data" 64 RES_BINARY false (UInt 0) (0)].
(** /repo/nmea2k/pgn_array.go:2701 *)
Definition pgn_242 : pgn_def := mkpgn "Simnet: Unknown" "Simrad" 130824 false 8 0
  [mkfield "Manufacturer Code" 11 RES_MANUFACTURER false (UStr "=1857") (0);
   mkfield "Reserved" 2 (RPos 1 1) false (UInt 0) (0);
   mkfield "Industry Code" 3 RES_LOOKUP false (ULookup lookupIndustryCode) (0);
   mkfield "A" 8 (RPos 1 1) false (UInt 0) (0);
   mkfield "B" 8 (RPos 1 1) false (UInt 0) (0);
   mkfield "C" 8 (RPos 1 1) false (UInt 0) (0);
   mkfield "D" 8 (RPos 1 1) false (UInt 0) (0);
   mkfield "E" 8 (RPos 1 1) false (UInt 0) (0);
   mkfield "F" 8 (RPos 1 1) false (UInt 0) (0)].
(** /repo/nmea2k/pgn_array.go:2714 *)
Definition pgn_243 : pgn_def := mkpgn "Lowrance: unknown" "Lowrance" 130827 false 10 0
  [mkfield "Manufacturer Code" 11 RES_MANUFACTURER false (UStr "=140") (0);
   mkfield "Reserved" 2 (RPos 1 1) false (UInt 0) (0);
   mkfield "Industry Code" 3 RES_LOOKUP false (ULookup lookupIndustryCode) (0);
   mkfield "A" 8 (RPos 1 1) false (UInt 0) (0);
   mkfield "B" 8 (RPos 1 1) false (UInt 0) (0);
   mkfield "C" 8 (RPos 1 1) false (UInt 0) (0);
   mkfield "D" 8 (RPos 1 1) false (UInt 0) (0);
   mkfield "E" 16 (RPos 1 1) false (UInt 0) (0);
   mkfield "F" 16 (RPos 1 1) false (UInt 0) (0)].
(** /repo/nmea2k/pgn_array.go:2726 *)
Definition pgn_244 : pgn_def := mkpgn "Simnet: Set Serial Number" "Simrad" 130828 false 8 0
  [mkfield "Manufacturer Code" 11 RES_MANUFACTURER false (UStr "=1857") (0);
   mkfield "Reserved" 2 (RPos 1 1) false (UInt 0) (0);
   mkfield "Industry Code" 3 RES_LOOKUP false (ULookup lookupIndustryCode) (0)].
(** /repo/nmea2k/pgn_array.go:2734 *)
Definition pgn_245 : pgn_def := mkpgn "Suzuki: Engine and Storage Device Config" "Suzuki" 130831 false 8 0
  [mkfield "Manufacturer Code" 11 RES_MANUFACTURER false (UInt 0) (0);
   mkfield "Reserved" 2 (RPos 1 1) false (UInt 0) (0);
   mkfield "Industry Code" 3 RES_LOOKUP false (ULookup lookupIndustryCode) (0)].
(** /repo/nmea2k/pgn_array.go:2740 *)
Definition pgn_246 : pgn_def := mkpgn "Simnet: Fuel Used - High Resolution" "Simrad" 130832 false 8 0
  [mkfield "Manufacturer Code" 11 RES_MANUFACTURER false (UStr "=1857") (0);
   mkfield "Reserved" 2 (RPos 1 1) false (UInt 0) (0);
   mkfield "Industry Code" 3 RES_LOOKUP false (ULookup lookupIndustryCode) (0)].
(** /repo/nmea2k/pgn_array.go:2746 *)
Definition pgn_247 : pgn_def := mkpgn "Simnet: Engine and Tank Configuration" "Simrad" 130834 false 8 0
  [mkfield "Manufacturer Code" 11 RES_MANUFACTURER false (UStr "=1857") (0);
   mkfield "Reserved" 2 (RPos 1 1) false (UInt 0) (0);
   mkfield "Industry Code" 3 RES_LOOKUP false (ULookup lookupIndustryCode) (0)].
(** /repo/nmea2k/pgn_array.go:2752 *)
Definition pgn_248 : pgn_def := mkpgn "Simnet: Set Engine and Tank Configuration" "Simrad" 130835 false 8 0
  [mkfield "Manufacturer Code" 11 RES_MANUFACTURER false (UStr "=1857") (0);
   mkfield "Reserved" 2 (RPos 1 1) false (UInt 0) (0);
   mkfield "Industry Code" 3 RES_LOOKUP false (ULookup lookupIndustryCode) (0)].
(** /repo/nmea2k/pgn_array.go:2759 *)
Definition pgn_249 : pgn_def := mkpgn "Simnet: Fluid Level Sensor Configuration" "Simrad" 130836 false 14 0
  [mkfield "Manufacturer Code" 11 RES_MANUFACTURER false (UInt 0) (0);
   mkfield "Reserved" 2 (RPos 1 1) false (UInt 0) (0);
   mkfield "Industry Code" 3 RES_LOOKUP false (ULookup lookupIndustryCode) (0);
   mkfield "C" 8 (RPos 1 1) false (UInt 0) (0);
   mkfield "Device" 8 RES_INTEGER false (UInt 0) (0);
   mkfield "Instance" 8 (RPos 1 1) false (UInt 0) (0);
   mkfield "F" 4 (RPos 1 1) false (UInt 0) (0);
   mkfield "Tank type" 4 RES_LOOKUP false (ULookup lookupTankType) (0);
   mkfield "Capacity" 32 (RPos 1 10) false (UInt 0) (0);
   mkfield "G" 8 (RPos 1 1) false (UInt 0) (0);
   mkfield "H" 16 (RPos 1 1) true (UInt 0) (0);
   mkfield "I" 8 (RPos 1 1) true (UInt 0) (0)].
(** /repo/nmea2k/pgn_array.go:2774 *)
Definition pgn_250 : pgn_def := mkpgn "Simnet: Fuel Flow Turbine Configuration" "Simrad" 130837 false 8 0
  [mkfield "Manufacturer Code" 11 RES_MANUFACTURER false (UStr "=1857") (0);
   mkfield "Reserved" 2 (RPos 1 1) false (UInt 0) (0);
   mkfield "Industry Code" 3 RES_LOOKUP false (ULookup lookupIndustryCode) (0)].
(** /repo/nmea2k/pgn_array.go:2780 *)
Definition pgn_251 : pgn_def := mkpgn "Simnet: Fluid Level Warning" "Simrad" 130838 false 8 0
  [mkfield "Manufacturer Code" 11 RES_MANUFACTURER false (UStr "=1857") (0);
   mkfield "Reserved" 2 (RPos 1 1) false (UInt 0) (0);
   mkfield "Industry Code" 3 RES_LOOKUP false (ULookup lookupIndustryCode) (0)].
(** /repo/nmea2k/pgn_array.go:2786 *)
Definition pgn_252 : pgn_def := mkpgn "Simnet: Pressure Sensor Configuration" "Simrad" 130839 false 8 0
  [mkfield "Manufacturer Code" 11 RES_MANUFACTURER false (UStr "=1857") (0);
   mkfield "Reserved" 2 (RPos 1 1) false (UInt 0) (0);
   mkfield "Industry Code" 3 RES_LOOKUP false (ULookup lookupIndustryCode) (0)].
(** /repo/nmea2k/pgn_array.go:2792 *)
Definition pgn_253 : pgn_def := mkpgn "Simnet: Data User Group Configuration" "Simrad" 130840 false 17 0
  [mkfield "Manufacturer Code" 11 RES_MANUFACTURER false (UStr "=1857") (0);
   mkfield "Reserved" 2 (RPos 1 1) false (UInt 0) (0);
   mkfield "Industry Code" 3 RES_LOOKUP false (ULookup lookupIndustryCode) (0);
   mkfield "Reserved" 8 RES_BINARY false (UInt 0) (0);
   mkfield "A" 8 RES_BINARY false (UInt 0) (0);
   mkfield "B" 8 RES_BINARY false (UInt 0) (0);
   mkfield "C" 8 RES_BINARY false (UInt 0) (0);
   mkfield "Reserved" 8 RES_BINARY false (UInt 0) (0);
   mkfield "D" 8 RES_BINARY false (UInt 0) (0);
   mkfield "Bytes" 64 RES_BINARY false (UInt 0) (0);
   mkfield "Reserved" 8 RES_BINARY false (UInt 0) (0)].
(** /repo/nmea2k/pgn_array.go:2813 *)
Definition pgn_254 : pgn_def := mkpgn "Simnet: AIS Class B static data (msg 24 Part A)" "Simrad" 130842 false 29 0
  [mkfield "Manufacturer Code" 11 RES_MANUFACTURER false (ULookup lookupCompanyCode) (0);
   mkfield "Reserved" 2 (RPos 1 1) false (UInt 0) (0);
   mkfield "Industry Code" 3 RES_LOOKUP false (ULookup lookupIndustryCode) (0);
   mkfield "Message ID" 6 (RPos 1 1) false (UStr "=0") (0);
   mkfield "Repeat indicator" 2 RES_LOOKUP false (ULookup lookupRepeatIndicator) (0);
   mkfield "D" 8 (RPos 1 1) false (UInt 0) (0);
   mkfield "E" 8 (RPos 1 1) false (UInt 0) (0);
   mkfield "User ID" 32 RES_INTEGER false (UStr "MMSI") (0);
   mkfield "Name" 160 RES_ASCII false (UInt 0) (0)].
(** /repo/nmea2k/pgn_array.go:2825 *)
Definition pgn_255 : pgn_def := mkpgn "Simnet: AIS Class B static data (msg 24 Part B)" "Simrad" 130842 false 37 0
  [mkfield "Manufacturer Code" 11 RES_MANUFACTURER false (ULookup lookupCompanyCode) (0);
   mkfield "Reserved" 2 (RPos 1 1) false (UInt 0) (0);
   mkfield "Industry Code" 3 RES_LOOKUP false (ULookup lookupIndustryCode) (0);
   mkfield "Message ID" 6 (RPos 1 1) false (UStr "=1") (0);
   mkfield "Repeat indicator" 2 RES_LOOKUP false (ULookup lookupRepeatIndicator) (0);
   mkfield "D" 8 (RPos 1 1) false (UInt 0) (0);
   mkfield "E" 8 (RPos 1 1) false (UInt 0) (0);
   mkfield "User ID" 32 RES_INTEGER false (UStr "MMSI") (0);
   mkfield "Type of ship" 8 RES_LOOKUP false (ULookup lookupShipType) (0);
   mkfield "Vendor ID" 56 RES_ASCII false (UInt 0) (0);
   mkfield "Callsign" 56 RES_ASCII false (UInt 0) (0);
   mkfield "Length" 16 (RPos 1 10) false (UStr "m") (0);
   mkfield "Beam" 16 (RPos 1 10) false (UStr "m") (0);
   mkfield "Position reference from Starboard" 16 (RPos 1 10) false (UStr "m") (0);
   mkfield "Position reference from Bow" 16 (RPos 1 10) false (UStr "m") (0);
   mkfield "Mothership User ID" 32 RES_INTEGER false (UStr "MMSI") (0);
   mkfield "F" 2 (RPos 1 1) false (UInt 0) (0);
   mkfield "Spare" 6 RES_INTEGER false (UInt 0) (0)].
(** /repo/nmea2k/pgn_array.go:2846 *)
Definition pgn_256 : pgn_def := mkpgn "Simnet: Sonar Status, Frequency and DSP Voltage" "Simrad" 130843 false 8 0
  [mkfield "Manufacturer Code" 11 RES_MANUFACTURER false (UStr "=1857") (0);
   mkfield "Reserved" 2 (RPos 1 1) false (UInt 0) (0);
   mkfield "Industry Code" 3 RES_LOOKUP false (ULookup lookupIndustryCode) (0)].
(** /repo/nmea2k/pgn_array.go:2852 *)
Definition pgn_257 : pgn_def := mkpgn "Simnet: Display Group" "Simrad" 130845 false 11 0
  [mkfield "Manufacturer Code" 11 RES_MANUFACTURER false (UStr "=1857") (0);
   mkfield "Reserved" 2 (RPos 1 1) false (UInt 0) (0);
   mkfield "Industry Code" 3 RES_LOOKUP false (ULookup lookupIndustryCode) (0);
   mkfield "A" 6 (RPos 1 1) false (UInt 0) (0);
   mkfield "B" 2 (RPos 1 1) false (UInt 0) (0);
   mkfield "C" 8 (RPos 1 1) false (UInt 0) (0);
   mkfield "D" 8 (RPos 1 1) false (UInt 0) (0);
   mkfield "E" 8 (RPos 1 1) false (UInt 0) (0);
   mkfield "F" 8 (RPos 1 1) false (UInt 0) (0);
   mkfield "Parameter" 16 (RPos 1 1) false (UStr "=31") (0);
   mkfield "G" 8 (RPos 1 1) false (UInt 0) (0);
   mkfield "Value" 8 (RPos 1 1) false (UInt 0) (0)].
(** /repo/nmea2k/pgn_array.go:2867 *)
Definition pgn_258 : pgn_def := mkpgn "Simnet: Backlight Color" "Simrad" 130845 false 11 0
  [mkfield "Manufacturer Code" 11 RES_MANUFACTURER false (UStr "=1857") (0);
   mkfield "Reserved" 2 (RPos 1 1) false (UInt 0) (0);
   mkfield "Industry Code" 3 RES_LOOKUP false (ULookup lookupIndustryCode) (0);
   mkfield "A" 6 (RPos 1 1) false (UInt 0) (0);
   mkfield "B" 2 (RPos 1 1) false (UInt 0) (0);
   mkfield "C" 8 (RPos 1 1) false (UInt 0) (0);
   mkfield "D" 8 (RPos 1 1) false (UInt 0) (0);
   mkfield "E" 8 (RPos 1 1) false (UInt 0) (0);
   mkfield "F" 8 (RPos 1 1) false (UInt 0) (0);
   mkfield "Parameter" 16 (RPos 1 1) false (UStr "=37") (0);
   mkfield "G" 8 (RPos 1 1) false (UInt 0) (0);
   mkfield "Value" 8 (RPos 1 1) false (UInt 0) (0)].
(** /repo/nmea2k/pgn_array.go:2882 *)
Definition pgn_259 : pgn_def := mkpgn "Simnet: Data ID" "Simrad" 130845 false 12 0
  [mkfield "Manufacturer Code" 11 RES_MANUFACTURER false (UStr "=1857") (0);
   mkfield "Reserved" 2 (RPos 1 1) false (UInt 0) (0);
   mkfield "Industry Code" 3 RES_LOOKUP false (ULookup lookupIndustryCode) (0);
   mkfield "A" 6 (RPos 1 1) false (UInt 0) (0);
   mkfield "B" 2 (RPos 1 1) false (UInt 0) (0);
   mkfield "C" 8 (RPos 1 1) false (UInt 0) (0);
   mkfield "D" 8 (RPos 1 1) false (UInt 0) (0);
   mkfield "E" 8 (RPos 1 1) false (UInt 0) (0);
   mkfield "F" 8 (RPos 1 1) false (UInt 0) (0);
   mkfield "Parameter" 16 (RPos 1 1) false (UStr "=143") (0);
   mkfield "G" 8 (RPos 1 1) false (UInt 0) (0);
   mkfield "Value" 16 (RPos 1 1) false (UInt 0) (0)].
(** /repo/nmea2k/pgn_array.go:2897 *)
Definition pgn_260 : pgn_def := mkpgn "Simnet: Temporary Data ID" "Simrad" 130845 false 12 0
  [mkfield "Manufacturer Code" 11 RES_MANUFACTURER false (UStr "=1857") (0);
   mkfield "Reserved" 2 (RPos 1 1) false (UInt 0) (0);
   mkfield "Industry Code" 3 RES_LOOKUP false (ULookup lookupIndustryCode) (0);
   mkfield "A" 6 (RPos 1 1) false (UInt 0) (0);
   mkfield "B" 2 (RPos 1 1) false (UInt 0) (0);
   mkfield "C" 8 (RPos 1 1) false (UInt 0) (0);
   mkfield "D" 8 (RPos 1 1) false (UInt 0) (0);
   mkfield "E" 8 (RPos 1 1) false (UInt 0) (0);
   mkfield "F" 8 (RPos 1 1) false (UInt 0) (0);
   mkfield "Parameter" 16 (RPos 1 1) false (UInt 0) (0);
   mkfield "G" 8 (RPos 1 1) false (UInt 0) (0);
   mkfield "Value" 16 (RPos 1 1) false (UInt 0) (0)].
(** /repo/nmea2k/pgn_array.go:2912 *)
Definition pgn_261 : pgn_def := mkpgn "Simnet: Unknown" "Simrad" 130846 false 19 0
  [mkfield "Manufacturer Code" 11 RES_MANUFACTURER false (UStr "=1857") (0);
   mkfield "Reserved" 2 (RPos 1 1) false (UInt 0) (0);
   mkfield "Industry Code" 3 RES_LOOKUP false (ULookup lookupIndustryCode) (0);
   mkfield "Bytes" 136 RES_BINARY false (UInt 0) (0)].
(** /repo/nmea2k/pgn_array.go:2919 *)
Definition pgn_262 : pgn_def := mkpgn "Simnet: Device Serial" "Navico" 130847 true 12 0
  [mkfield "Manufacturer Code" 11 RES_MANUFACTURER false (UStr "=275") (0);
   mkfield "Reserved" 2 (RPos 1 1) false (UInt 0) (0);
   mkfield "Industry Code" 3 RES_LOOKUP false (ULookup lookupIndustryCode) (0);
   mkfield "Device Serial" 10 RES_STRINGLZ false (UInt 0) (0)].
(** /repo/nmea2k/pgn_array.go:2926 *)
Definition pgn_263 : pgn_def := mkpgn "Simnet: Event Command: Configure" "Simrad" 130850 false 12 0
  [mkfield "Manufacturer Code" 11 RES_MANUFACTURER false (UStr "=1857") (0);
   mkfield "Reserved" 2 (RPos 1 1) false (UInt 0) (0);
   mkfield "Industry Code" 3 RES_LOOKUP false (ULookup lookupIndustryCode) (0);
   mkfield "Device Address" 8 (RPos 1 1) false (UInt 0) (0);
   mkfield "Reserved" 16 RZero false (UInt 0) (0);
   mkfield "B" 8 (RPos 1 1) false (UInt 0) (0);
   mkfield "C" 8 (RPos 1 1) false (UInt 0) (0);
   mkfield "D" 8 (RPos 1 1) false (UInt 0) (0);
   mkfield "Selected" 8 RES_LOOKUP false (ULookup lookupYesNo) (0);
   mkfield "F" 24 (RPos 1 1) false (UInt 0) (0)].
(** /repo/nmea2k/pgn_array.go:2939 *)
Definition pgn_264 : pgn_def := mkpgn "Simnet: Event Command: Alarm?" "Simrad" 130850 false 12 0
  [mkfield "Manufacturer Code" 11 RES_MANUFACTURER false (UStr "=1857") (0);
   mkfield "Reserved" 2 (RPos 1 1) false (UInt 0) (0);
   mkfield "Industry Code" 3 RES_LOOKUP false (ULookup lookupIndustryCode) (0);
   mkfield "A" 16 (RPos 1 1) false (UInt 0) (0);
   mkfield "Proprietary ID" 8 RES_LOOKUP false (UStr "=1") (0);
   mkfield "C" 8 (RPos 1 1) false (UInt 0) (0);
   mkfield "Alarm" 16 RES_LOOKUP false (ULookup lookupSimnetAlarm) (0);
   mkfield "Message ID" 16 RES_INTEGER false (UInt 0) (0);
   mkfield "F" 8 (RPos 1 1) false (UInt 0) (0);
   mkfield "G" 8 (RPos 1 1) false (UInt 0) (0)].
(** /repo/nmea2k/pgn_array.go:2977 *)
Definition pgn_265 : pgn_def := mkpgn "Simnet: Event Reply: AP command" "Simrad" 130851 false 12 0
  [mkfield "Manufacturer Code" 11 RES_MANUFACTURER false (UStr "=1857") (0);
   mkfield "Reserved" 2 (RPos 1 1) false (UInt 0) (0);
   mkfield "Industry Code" 3 RES_LOOKUP false (ULookup lookupIndustryCode) (0);
   mkfield "Proprietary ID" 8 RES_LOOKUP false (UStr "=2") (0);
   mkfield "B" 16 (RPos 1 1) false (UInt 0) (0);
   mkfield "Controlling Device" 8 (RPos 1 1) false (UInt 0) (0);
   mkfield "Event" 16 RES_LOOKUP false (ULookup lookupSimnetApEvents) (0);
   mkfield "Direction" 8 RES_LOOKUP false (ULookup lookupSimnetDirection) (0);
   mkfield "Angle" 16 (RPos 1800000000000000000000000000000000000000000000000000000000000 314159265358979323846264338327950288419716939937510582097494459) false (UStr "deg") (0);
   mkfield "G" 8 (RPos 1 1) false (UInt 0) (0)].
(** /repo/nmea2k/pgn_array.go:2990 *)
Definition pgn_266 : pgn_def := mkpgn "Simnet: Alarm Message" "Simrad" 130856 false 8 0
  [mkfield "Manufacturer Code" 11 RES_MANUFACTURER false (UStr "=1857") (0);
   mkfield "Reserved" 2 (RPos 1 1) false (UInt 0) (0);
   mkfield "Industry Code" 3 RES_LOOKUP false (ULookup lookupIndustryCode) (0);
   mkfield "Message ID" 16 (RPos 1 1) false (UInt 0) (0);
   mkfield "B" 8 (RPos 1 1) false (UInt 0) (0);
   mkfield "C" 8 (RPos 1 1) false (UInt 0) (0);
   mkfield "Text" 2040 RES_ASCII false (UInt 0) (0)].
(** /repo/nmea2k/pgn_array.go:3000 *)
Definition pgn_267 : pgn_def := mkpgn "Airmar: Additional Weather Data" "Airmar" 130880 false 9 0
  [mkfield "Manufacturer Code" 11 RES_MANUFACTURER false (UStr "=135") (0);
   mkfield "Reserved" 2 (RPos 1 1) false (UInt 0) (0);
   mkfield "Industry Code" 3 RES_LOOKUP false (ULookup lookupIndustryCode) (0);
   mkfield "Format Code" 8 (RPos 1 1) false (UInt 0) (0);
   mkfield "Apparent Windchill Temperature" 16 RES_TEMPERATURE false (UStr "K") (0);
   mkfield "True Windchill Temperature" 16 RES_TEMPERATURE false (UStr "K") (0);
   mkfield "Dewpoint" 16 RES_TEMPERATURE false (UStr "K") (0)].
(** /repo/nmea2k/pgn_array.go:3010 *)
Definition pgn_268 : pgn_def := mkpgn "Airmar: Heater Control" "Airmar" 130881 false 9 0
  [mkfield "Manufacturer Code" 11 RES_MANUFACTURER false (UStr "=135") (0);
   mkfield "Reserved" 2 (RPos 1 1) false (UInt 0) (0);
   mkfield "Industry Code" 3 RES_LOOKUP false (ULookup lookupIndustryCode) (0);
   mkfield "C" 8 (RPos 1 1) false (UInt 0) (0);
   mkfield "Plate Temperature" 16 RES_TEMPERATURE false (UStr "K") (0);
   mkfield "Air Temperature" 16 RES_TEMPERATURE false (UStr "K") (0);
   mkfield "Dewpoint" 16 RES_TEMPERATURE false (UStr "K") (0)].
(** /repo/nmea2k/pgn_array.go:3020 *)
Definition pgn_269 : pgn_def := mkpgn "Airmar: POST" "Airmar" 130944 false 8 0
  [mkfield "Manufacturer Code" 11 RES_MANUFACTURER false (UStr "=135") (0);
   mkfield "Reserved" 2 (RPos 1 1) false (UInt 0) (0);
   mkfield "Industry Code" 3 RES_LOOKUP false (ULookup lookupIndustryCode) (0);
   mkfield "Control" 4 RES_LOOKUP false (ULookup lookupAirmarControl) (0);
   mkfield "Reserved" 7 (RPos 1 1) false (UInt 0) (0);
   mkfield "Number of ID/test result pairs to follow" 8 RES_INTEGER false (UInt 0) (0);
   mkfield "Test ID" 8 RES_LOOKUP false (ULookup lookupAirmarTestId) (0);
   mkfield "Test result" 8 RES_LOOKUP false UNil (0)].
(** /repo/nmea2k/pgn_array.go:3031 *)
Definition pgn_270 : pgn_def := mkpgn "Actisense: ReInit Main App" "Actisense" 262144 false 14 0
  [mkfield "SID" 8 (RPos 1 1) false (UInt 0) (0);
   mkfield "Model ID" 16 RES_INTEGER false (UInt 0) (0);
   mkfield "Serial ID" 32 RES_INTEGER false (UInt 0) (0);
   mkfield "Error ID" 32 RES_INTEGER true (UInt 0) (0)].
(** /repo/nmea2k/pgn_array.go:3038 *)
Definition pgn_271 : pgn_def := mkpgn "Actisense: Commit to EEPROM" "Actisense" 262145 false 14 0
  [mkfield "SID" 8 (RPos 1 1) false (UInt 0) (0);
   mkfield "Model ID" 16 RES_INTEGER false (UInt 0) (0);
   mkfield "Serial ID" 32 RES_INTEGER false (UInt 0) (0);
   mkfield "Error ID" 32 RES_INTEGER true (UInt 0) (0)].
(** /repo/nmea2k/pgn_array.go:3045 *)
Definition pgn_272 : pgn_def := mkpgn "Actisense: Commit to Flash" "Actisense" 262146 false 14 0
  [mkfield "SID" 8 (RPos 1 1) false (UInt 0) (0);
   mkfield "Model ID" 16 RES_INTEGER false (UInt 0) (0);
   mkfield "Serial ID" 32 RES_INTEGER false (UInt 0) (0);
   mkfield "Error ID" 32 RES_INTEGER true (UInt 0) (0)].
(** /repo/nmea2k/pgn_array.go:3052 *)
Definition pgn_273 : pgn_def := mkpgn "Actisense: Hardware Info" "Actisense" 262160 false 51 0
  [mkfield "SID" 8 (RPos 1 1) false (UInt 0) (0);
   mkfield "Model ID" 16 RES_INTEGER false (UInt 0) (0);
   mkfield "Serial ID" 32 RES_INTEGER false (UInt 0) (0);
   mkfield "Error ID" 32 RES_INTEGER true (UInt 0) (0);
   mkfield "Bootloader Software Vers" 16 RES_INTEGER false (UInt 0) (0);
   mkfield "Bootloader Timestamp" 32 RES_TIME false (UInt 0) (0);
   mkfield "App Software Vers" 16 RES_INTEGER false (UInt 0) (0);
   mkfield "App Timestamp" 32 RES_TIME false (UInt 0) (0);
   mkfield "PCB Version" 16 RES_INTEGER false (UInt 0) (0);
   mkfield "Total Operating Time" 32 RES_INTEGER false (UInt 0) (0);
   mkfield "Model Sub ID Number" 16 RES_INTEGER false (UInt 0) (0);
   mkfield "Operating Mode" 16 RES_INTEGER false (UInt 0) (0)].
(** /repo/nmea2k/pgn_array.go:3067 *)
Definition pgn_274 : pgn_def := mkpgn "Actisense: Operating mode" "Actisense" 262161 false 13 0
  [mkfield "SID" 8 (RPos 1 1) false (UInt 0) (0);
   mkfield "Model ID" 16 RES_INTEGER false (UInt 0) (0);
   mkfield "Serial ID" 32 RES_INTEGER false (UInt 0) (0);
   mkfield "Error ID" 32 RES_INTEGER true (UInt 0) (0);
   mkfield "Operating Mode" 16 (RPos 1 1) false (UInt 0) (0)].
(** /repo/nmea2k/pgn_array.go:3079 *)
Definition pgn_275 : pgn_def := mkpgn "Actisense: Port Baud Codes" "Actisense" 262162 false 16 0
  [mkfield "SID" 8 (RPos 1 1) false (UInt 0) (0);
   mkfield "Model ID" 16 RES_INTEGER false (UInt 0) (0);
   mkfield "Serial ID" 32 RES_INTEGER false (UInt 0) (0);
   mkfield "Error ID" 32 RES_INTEGER true (UInt 0) (0);
   mkfield "Channel Count" 8 (RPos 1 1) false (UInt 0) (0);
   mkfield "CAN Hardware Protocol" 8 (RPos 1 1) false (UInt 0) (0);
   mkfield "CAN Baud Rate" 8 RES_LOOKUP false (ULookup lookupActisenseCANBaudCode) (0);
   mkfield "UART Hardware Protocol" 8 (RPos 1 1) false (UInt 0) (0);
   mkfield "UART Baud Rate" 8 RES_LOOKUP false (ULookup lookupActisenseUARTBaudCode) (0)].
(** /repo/nmea2k/pgn_array.go:3091 *)
Definition pgn_276 : pgn_def := mkpgn "Actisense: Port P-Codes" "Actisense" 262163 false 14 1
  [mkfield "SID" 8 (RPos 1 1) false (UInt 0) (0);
   mkfield "Model ID" 16 RES_INTEGER false (UInt 0) (0);
   mkfield "Serial ID" 32 RES_INTEGER false (UInt 0) (0);
   mkfield "Error ID" 32 RES_INTEGER true (UInt 0) (0);
   mkfield "Channel P-Code" 8 RES_LOOKUP false (ULookup lookupActisensePCode) (0)].
(** /repo/nmea2k/pgn_array.go:3099 *)
Definition pgn_277 : pgn_def := mkpgn "Actisense: Port Duplicate Delete" "Actisense" 262164 false 14 1
  [mkfield "SID" 8 (RPos 1 1) false (UInt 0) (0);
   mkfield "Model ID" 16 RES_INTEGER false (UInt 0) (0);
   mkfield "Serial ID" 32 RES_INTEGER false (UInt 0) (0);
   mkfield "Error ID" 32 RES_INTEGER true (UInt 0) (0);
   mkfield "Channel Dup. Del." 8 (RPos 1 1) false (UInt 0) (0)].
(** /repo/nmea2k/pgn_array.go:3107 *)
Definition pgn_278 : pgn_def := mkpgn "Actisense: Total Time" "Actisense" 262165 false 15 0
  [mkfield "SID" 8 (RPos 1 1) false (UInt 0) (0);
   mkfield "Model ID" 16 RES_INTEGER false (UInt 0) (0);
   mkfield "Serial ID" 32 RES_INTEGER false (UInt 0) (0);
   mkfield "Error ID" 32 RES_INTEGER true (UInt 0) (0);
   mkfield "Total Time" 32 (RPos 1 1) false (UInt 0) (0)].
(** /repo/nmea2k/pgn_array.go:3115 *)
Definition pgn_279 : pgn_def := mkpgn "Actisense: Hardware Baud Codes" "Actisense" 262166 false 15 0
  [mkfield "SID" 8 (RPos 1 1) false (UInt 0) (0);
   mkfield "Model ID" 16 RES_INTEGER false (UInt 0) (0);
   mkfield "Serial ID" 32 RES_INTEGER false (UInt 0) (0);
   mkfield "Error ID" 32 RES_INTEGER true (UInt 0) (0);
   mkfield "Channel Count" 8 (RPos 1 1) false (UInt 0) (0);
   mkfield "CAN Hardware Protocol" 8 (RPos 1 1) false (UInt 0) (0);
   mkfield "CAN Baud Rate" 8 RES_LOOKUP false (ULookup lookupActisenseCANBaudCode) (0);
   mkfield "UART Hardware Protocol" 8 (RPos 1 1) false (UInt 0) (0);
   mkfield "UART Baud Rate" 8 RES_LOOKUP false (ULookup lookupActisenseUARTBaudCode) (0)].
(** /repo/nmea2k/pgn_array.go:3127 *)
Definition pgn_280 : pgn_def := mkpgn "Actisense: Supported PGN List" "Actisense" 262208 false 57 1
  [mkfield "SID" 8 (RPos 1 1) false (UInt 0) (0);
   mkfield "Model ID" 16 RES_INTEGER false (UInt 0) (0);
   mkfield "Serial ID" 32 RES_INTEGER false (UInt 0) (0);
   mkfield "Error ID" 32 RES_INTEGER true (UInt 0) (0);
   mkfield "Data" 256 RES_BINARY false (UInt 0) (0)].
(** /repo/nmea2k/pgn_array.go:3135 *)
Definition pgn_281 : pgn_def := mkpgn "Actisense: Product Info N2K" "Actisense" 262209 false 57 1
  [mkfield "SID" 8 (RPos 1 1) false (UInt 0) (0);
   mkfield "Model ID" 16 RES_INTEGER false (UInt 0) (0);
   mkfield "Serial ID" 32 RES_INTEGER false (UInt 0) (0);
   mkfield "Error ID" 32 RES_INTEGER true (UInt 0) (0);
   mkfield "Data" 256 RES_STRING false (UInt 0) (0)].
(** /repo/nmea2k/pgn_array.go:3146 *)
Definition pgn_282 : pgn_def := mkpgn "Actisense: CAN Config" "Actisense" 262210 false 23 0
  [mkfield "SID" 8 (RPos 1 1) false (UInt 0) (0);
   mkfield "Model ID" 16 RES_INTEGER false (UInt 0) (0);
   mkfield "Serial ID" 32 RES_INTEGER false (UInt 0) (0);
   mkfield "Error ID" 32 RES_INTEGER true (UInt 0) (0);
   mkfield "Preferred Address" 8 (RPos 1 1) false UNil (0);
   mkfield "Unique Number" 21 (RPos 1 1) false UNil (0);
   mkfield "Manufacturer Code" 11 RES_LOOKUP false (ULookup lookupCompanyCode) (0);
   mkfield "Device Instance Lower" 3 (RPos 1 1) false UNil (0);
   mkfield "Device Instance Upper" 5 (RPos 1 1) false UNil (0);
   mkfield "Device Function" 8 (RPos 1 1) false UNil (0);
   mkfield "Reserved" 1 (RPos 1 1) false UNil (0);
   mkfield "Device Class" 7 RES_LOOKUP false (ULookup lookupDeviceClass) (0);
   mkfield "System Instance" 4 (RPos 1 1) false UNil (0);
   mkfield "Industry Code" 3 RES_LOOKUP false (ULookup lookupIndustryCode) (0);
   mkfield "Arbitrary Address Capable" 1 (RPos 1 1) false UNil (0);
   mkfield "New Source Address" 8 (RPos 1 1) false UNil (0);
   mkfield "Previous Address" 8 (RPos 1 1) false (UInt 0) (0);
   mkfield "Source Address" 8 (RPos 1 1) false (UInt 0) (0);
   mkfield "Address Valid" 8 (RPos 1 1) false (UInt 0) (0)].
(** /repo/nmea2k/pgn_array.go:3168 *)
Definition pgn_283 : pgn_def := mkpgn "Actisense: CAN Info Field 1" "Actisense" 262211 false 20 0
  [mkfield "SID" 8 (RPos 1 1) false (UInt 0) (0);
   mkfield "Model ID" 16 RES_INTEGER false (UInt 0) (0);
   mkfield "Serial ID" 32 RES_INTEGER false (UInt 0) (0);
   mkfield "Error ID" 32 RES_INTEGER true (UInt 0) (0);
   mkfield "Info" 2 RES_STRINGLZ false (UInt 0) (0)].
(** /repo/nmea2k/pgn_array.go:3176 *)
Definition pgn_284 : pgn_def := mkpgn "Actisense: CAN Info Field 2" "Actisense" 262212 false 20 0
  [mkfield "SID" 8 (RPos 1 1) false (UInt 0) (0);
   mkfield "Model ID" 16 RES_INTEGER false (UInt 0) (0);
   mkfield "Serial ID" 32 RES_INTEGER false (UInt 0) (0);
   mkfield "Error ID" 32 RES_INTEGER true (UInt 0) (0);
   mkfield "Info" 2 RES_STRINGLZ false (UInt 0) (0)].
(** /repo/nmea2k/pgn_array.go:3184 *)
Definition pgn_285 : pgn_def := mkpgn "Actisense: CAN Info Field 3" "Actisense" 262213 false 20 0
  [mkfield "SID" 8 (RPos 1 1) false (UInt 0) (0);
   mkfield "Model ID" 16 RES_INTEGER false (UInt 0) (0);
   mkfield "Serial ID" 32 RES_INTEGER false (UInt 0) (0);
   mkfield "Error ID" 32 RES_INTEGER true (UInt 0) (0);
   mkfield "Info" 2 RES_STRINGLZ false (UInt 0) (0)].
(** /repo/nmea2k/pgn_array.go:3192 *)
Definition pgn_286 : pgn_def := mkpgn "Actisense: RX PGN Status" "Actisense" 262214 false 20 1
  [mkfield "SID" 8 (RPos 1 1) false (UInt 0) (0);
   mkfield "Model ID" 16 RES_INTEGER false (UInt 0) (0);
   mkfield "Serial ID" 32 RES_INTEGER false (UInt 0) (0);
   mkfield "Error ID" 32 RES_INTEGER true (UInt 0) (0);
   mkfield "PGN" 32 RES_INTEGER false (UInt 0) (0);
   mkfield "Data" 8 RES_BINARY false (UInt 0) (0)].
(** /repo/nmea2k/pgn_array.go:3201 *)
Definition pgn_287 : pgn_def := mkpgn "Actisense: RX PGN Status" "Actisense" 262215 false 20 1
  [mkfield "SID" 8 (RPos 1 1) false (UInt 0) (0);
   mkfield "Model ID" 16 RES_INTEGER false (UInt 0) (0);
   mkfield "Serial ID" 32 RES_INTEGER false (UInt 0) (0);
   mkfield "Error ID" 32 RES_INTEGER true (UInt 0) (0)].
(** /repo/nmea2k/pgn_array.go:3208 *)
Definition pgn_288 : pgn_def := mkpgn "Actisense: RX PGN List" "Actisense" 262216 false 57 1
  [mkfield "SID" 8 (RPos 1 1) false (UInt 0) (0);
   mkfield "Model ID" 16 RES_INTEGER false (UInt 0) (0);
   mkfield "Serial ID" 32 RES_INTEGER false (UInt 0) (0);
   mkfield "Error ID" 32 RES_INTEGER true (UInt 0) (0);
   mkfield "PGN List Length" 8 RES_INTEGER false (UInt 0) (0);
   mkfield "PGN" 32 RES_INTEGER false (UInt 0) (0)].
(** /repo/nmea2k/pgn_array.go:3217 *)
Definition pgn_289 : pgn_def := mkpgn "Actisense: TX PGN List" "Actisense" 262217 false 57 1
  [mkfield "SID" 8 (RPos 1 1) false (UInt 0) (0);
   mkfield "Model ID" 16 RES_INTEGER false (UInt 0) (0);
   mkfield "Serial ID" 32 RES_INTEGER false (UInt 0) (0);
   mkfield "Error ID" 32 RES_INTEGER true (UInt 0) (0);
   mkfield "PGN List Length" 8 RES_INTEGER false (UInt 0) (0);
   mkfield "PGN" 32 RES_INTEGER false (UInt 0) (0)].
(** /repo/nmea2k/pgn_array.go:3226 *)
Definition pgn_290 : pgn_def := mkpgn "Actisense: Clear PGN List" "Actisense" 262218 false 14 0
  [mkfield "SID" 8 (RPos 1 1) false (UInt 0) (0);
   mkfield "Model ID" 16 RES_INTEGER false (UInt 0) (0);
   mkfield "Serial ID" 32 RES_INTEGER false (UInt 0) (0);
   mkfield "Error ID" 32 RES_INTEGER true (UInt 0) (0);
   mkfield "Cleared List" 8 RES_INTEGER false (UInt 0) (0)].
(** /repo/nmea2k/pgn_array.go:3234 *)
Definition pgn_291 : pgn_def := mkpgn "Actisense: RX PGN Status" "Actisense" 262219 false 20 1
  [mkfield "SID" 8 (RPos 1 1) false (UInt 0) (0);
   mkfield "Model ID" 16 RES_INTEGER false (UInt 0) (0);
   mkfield "Serial ID" 32 RES_INTEGER false (UInt 0) (0);
   mkfield "Error ID" 32 RES_INTEGER true (UInt 0) (0)].
(** /repo/nmea2k/pgn_array.go:3241 *)
Definition pgn_292 : pgn_def := mkpgn "Actisense: RX PGN Status" "Actisense" 262220 false 20 1
  [mkfield "SID" 8 (RPos 1 1) false (UInt 0) (0);
   mkfield "Model ID" 16 RES_INTEGER false (UInt 0) (0);
   mkfield "Serial ID" 32 RES_INTEGER false (UInt 0) (0);
   mkfield "Error ID" 32 RES_INTEGER true (UInt 0) (0)].
(** /repo/nmea2k/pgn_array.go:3248 *)
Definition pgn_293 : pgn_def := mkpgn "Actisense: Params PGN Enable List" "Actisense" 262221 false 12 1
  [mkfield "SID" 8 (RPos 1 1) false (UInt 0) (0);
   mkfield "Model ID" 16 RES_INTEGER false (UInt 0) (0);
   mkfield "Serial ID" 32 RES_INTEGER false (UInt 0) (0);
   mkfield "Error ID" 32 RES_INTEGER true (UInt 0) (0);
   mkfield "Rx Real In Use" 16 RES_INTEGER false (UInt 0) (0);
   mkfield "Rx Max Real" 16 RES_INTEGER false (UInt 0) (0);
   mkfield "Rx Virtual In Use" 16 RES_INTEGER false (UInt 0) (0);
   mkfield "Rx Max Virtual" 16 RES_INTEGER false (UInt 0) (0);
   mkfield "Tx Virtual In Use" 16 RES_INTEGER false (UInt 0) (0);
   mkfield "Tx Max Virtual" 16 RES_INTEGER false (UInt 0) (0);
   mkfield "Synchronized" 16 RES_BINARY false (UInt 0) (0)].
(** /repo/nmea2k/pgn_array.go:3262 *)
Definition pgn_294 : pgn_def := mkpgn "Actisense: Startup status" "Actisense" 262384 false 15 0
  [mkfield "SID" 8 (RPos 1 1) false (UInt 0) (0);
   mkfield "Model ID" 16 RES_INTEGER false (UInt 0) (0);
   mkfield "Serial ID" 32 RES_INTEGER false (UInt 0) (0);
   mkfield "Error ID" 32 RES_INTEGER true (UInt 0) (0);
   mkfield "Firmware version" 16 (RPos 1 1000) false (UInt 0) (0);
   mkfield "Reset status" 8 (RPos 1 1) false (UInt 0) (0);
   mkfield "A" 8 (RPos 1 1) false (UInt 0) (0)].
(** /repo/nmea2k/pgn_array.go:3272 *)
Definition pgn_295 : pgn_def := mkpgn "Actisense: System status" "Actisense" 262386 false 34 0
  [mkfield "SID" 8 (RPos 1 1) false (UInt 0) (0);
   mkfield "Model ID" 16 RES_INTEGER false (UInt 0) (0);
   mkfield "Serial ID" 32 RES_INTEGER false (UInt 0) (0);
   mkfield "Error ID" 32 RES_INTEGER true (UInt 0) (0);
   mkfield "Indi channel count" 8 (RPos 1 1) false (UInt 0) (0);
   mkfield "Ch1 Rx Bandwidth" 8 (RPos 1 1) false (UInt 0) (0);
   mkfield "Ch1 Rx Load" 8 (RPos 1 1) false (UInt 0) (0);
   mkfield "Ch1 Rx Filtered" 8 (RPos 1 1) false (UInt 0) (0);
   mkfield "Ch1 Rx Dropped" 8 (RPos 1 1) false (UInt 0) (0);
   mkfield "Ch1 Tx Bandwidth" 8 (RPos 1 1) false (UInt 0) (0);
   mkfield "Ch1 Tx Load" 8 (RPos 1 1) false (UInt 0) (0);
   mkfield "Ch2 Rx Bandwidth" 8 (RPos 1 1) false (UInt 0) (0);
   mkfield "Ch2 Rx Load" 8 (RPos 1 1) false (UInt 0) (0);
   mkfield "Ch2 Rx Filtered" 8 (RPos 1 1) false (UInt 0) (0);
   mkfield "Ch2 Rx Dropped" 8 (RPos 1 1) false (UInt 0) (0);
   mkfield "Ch2 Tx Bandwidth" 8 (RPos 1 1) false (UInt 0) (0);
   mkfield "Ch2 Tx Load" 8 (RPos 1 1) false (UInt 0) (0);
   mkfield "Uni channel count" 8 (RPos 1 1) false (UInt 0) (0);
   mkfield "Ch1 Bandwidth" 8 (RPos 1 1) false (UInt 0) (0);
   mkfield "Ch1 Deleted" 8 (RPos 1 1) false (UInt 0) (0);
   mkfield "Ch1 BufferLoading" 8 (RPos 1 1) false (UInt 0) (0);
   mkfield "Ch1 PointerLoading" 8 (RPos 1 1) false (UInt 0) (0);
   mkfield "Ch2 Bandwidth" 8 (RPos 1 1) false (UInt 0) (0);
   mkfield "Ch2 Deleted" 8 (RPos 1 1) false (UInt 0) (0);
   mkfield "Ch2 BufferLoading" 8 (RPos 1 1) false (UInt 0) (0);
   mkfield "Ch2 PointerLoading" 8 (RPos 1 1) false (UInt 0) (0)].
(** /repo/nmea2k/pgn_array.go:3301 *)
Definition pgn_296 : pgn_def := mkpgn "Actisense: Negative ACK" "Actisense" 262388 false 17 0
  [mkfield "SID" 8 (RPos 1 1) false (UInt 0) (0);
   mkfield "Model ID" 16 RES_INTEGER false (UInt 0) (0);
   mkfield "Serial ID" 32 RES_INTEGER false (UInt 0) (0);
   mkfield "Error ID" 32 RES_BINARY true (UInt 0) (0);
   mkfield "Data" 32 RES_BINARY false (UInt 0) (0)].

(** /repo/nmea2k/pgn_array.go:99-3308 *)
Definition PgnList : list pgn_def :=
  [pgn_000; pgn_001; pgn_002; pgn_003; pgn_004; pgn_005; pgn_006; pgn_007; pgn_008; pgn_009; pgn_010; pgn_011; pgn_012; pgn_013; pgn_014; pgn_015; pgn_016; pgn_017; pgn_018; pgn_019; pgn_020; pgn_021; pgn_022; pgn_023; pgn_024; pgn_025; pgn_026; pgn_027; pgn_028; pgn_029; pgn_030; pgn_031; pgn_032; pgn_033; pgn_034; pgn_035; pgn_036; pgn_037; pgn_038; pgn_039; pgn_040; pgn_041; pgn_042; pgn_043; pgn_044; pgn_045; pgn_046; pgn_047; pgn_048; pgn_049; pgn_050; pgn_051; pgn_052; pgn_053; pgn_054; pgn_055; pgn_056; pgn_057; pgn_058; pgn_059; pgn_060; pgn_061; pgn_062; pgn_063; pgn_064; pgn_065; pgn_066; pgn_067; pgn_068; pgn_069; pgn_070; pgn_071; pgn_072; pgn_073; pgn_074; pgn_075; pgn_076; pgn_077; pgn_078; pgn_079; pgn_080; pgn_081; pgn_082; pgn_083; pgn_084; pgn_085; pgn_086; pgn_087; pgn_088; pgn_089; pgn_090; pgn_091; pgn_092; pgn_093; pgn_094; pgn_095; pgn_096; pgn_097; pgn_098; pgn_099; pgn_100; pgn_101; pgn_102; pgn_103; pgn_104; pgn_105; pgn_106; pgn_107; pgn_108; pgn_109; pgn_110; pgn_111; pgn_112; pgn_113; pgn_114; pgn_115; pgn_116; pgn_117; pgn_118; pgn_119; pgn_120; pgn_121; pgn_122; pgn_123; pgn_124; pgn_125; pgn_126; pgn_127; pgn_128; pgn_129; pgn_130; pgn_131; pgn_132; pgn_133; pgn_134; pgn_135; pgn_136; pgn_137; pgn_138; pgn_139; pgn_140; pgn_141; pgn_142; pgn_143; pgn_144; pgn_145; pgn_146; pgn_147; pgn_148; pgn_149; pgn_150; pgn_151; pgn_152; pgn_153; pgn_154; pgn_155; pgn_156; pgn_157; pgn_158; pgn_159; pgn_160; pgn_161; pgn_162; pgn_163; pgn_164; pgn_165; pgn_166; pgn_167; pgn_168; pgn_169; pgn_170; pgn_171; pgn_172; pgn_173; pgn_174; pgn_175; pgn_176; pgn_177; pgn_178; pgn_179; pgn_180; pgn_181; pgn_182; pgn_183; pgn_184; pgn_185; pgn_186; pgn_187; pgn_188; pgn_189; pgn_190; pgn_191; pgn_192; pgn_193; pgn_194; pgn_195; pgn_196; pgn_197; pgn_198; pgn_199; pgn_200; pgn_201; pgn_202; pgn_203; pgn_204; pgn_205; pgn_206; pgn_207; pgn_208; pgn_209; pgn_210; pgn_211; pgn_212; pgn_213; pgn_214; pgn_215; pgn_216; pgn_217; pgn_218; pgn_219; pgn_220; pgn_221; pgn_222; pgn_223; pgn_224; pgn_225; pgn_226; pgn_227; pgn_228; pgn_229; pgn_230; pgn_231; pgn_232; pgn_233; pgn_234; pgn_235; pgn_236; pgn_237; pgn_238; pgn_239; pgn_240; pgn_241; pgn_242; pgn_243; pgn_244; pgn_245; pgn_246; pgn_247; pgn_248; pgn_249; pgn_250; pgn_251; pgn_252; pgn_253; pgn_254; pgn_255; pgn_256; pgn_257; pgn_258; pgn_259; pgn_260; pgn_261; pgn_262; pgn_263; pgn_264; pgn_265; pgn_266; pgn_267; pgn_268; pgn_269; pgn_270; pgn_271; pgn_272; pgn_273; pgn_274; pgn_275; pgn_276; pgn_277; pgn_278; pgn_279; pgn_280; pgn_281; pgn_282; pgn_283; pgn_284; pgn_285; pgn_286; pgn_287; pgn_288; pgn_289; pgn_290; pgn_291; pgn_292; pgn_293; pgn_294; pgn_295; pgn_296].
