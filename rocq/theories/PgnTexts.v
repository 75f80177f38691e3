(** PgnTexts: Description and SignalkPath of every field of PgnList, /repo/nmea2k/pgn_array.go:99-3308,
    transcribed by tools/gen_tables.py: one list per definition, in the order of the fields. *)
From Verif Require Import GoBase.
Open Scope string_scope.

Definition PgnTexts : list (list (string * string)) :=
  [[("", "")];
   [("", ""); ("", ""); ("Alignment padding", ""); ("Parameter Group Number of requested information", "")];
   [("", "")];
   [("ISO Identity Number", ""); ("", ""); ("ISO ECU Instance", ""); ("ISO Function Instance", ""); ("ISO Function", ""); ("Alignment padding", ""); ("", ""); ("ISO Device Class Instance", ""); ("", ""); ("ISO Self Configurable", "")];
   [("", ""); ("", ""); ("", ""); ("", "")];
   [("", "electrical.ac.bus1.phaseC.lineLineVoltage"); ("electrical.ac.bus1.phaseC.lineNeutralVoltage", ""); ("", "electrical.ac.bus1.phaseC.frequency")];
   [("", "electrical.ac.bus1.phaseB.lineLineVoltage"); ("", "electrical.ac.bus1.phaseB.lineNeutralVoltage"); ("", "electrical.ac.bus1.phaseB.frequency")];
   [("", "electrical.ac.bus1.phaseA.lineLineVoltage"); ("", "electrical.ac.bus1.phaseA.lineNeutralVoltage"); ("", "electrical.ac.bus1.phaseA.frequency")];
   [("", "electrical.ac.bus1.lineLineVoltage"); ("", "electrical.ac.bus1.lineNeutralVoltage"); ("", "electrical.ac.bus1.frequency")];
   [("", "electrical.ac.utility.totalExport"); ("", "electrical.ac.utility.totalImport")];
   [("", "electrical.ac.utility.phaseC.reactivePower"); ("", "electrical.ac.utility.phaseC.powerFactor"); ("", "electrical.ac.utility.phaseC.powerFactorLagging")];
   [("", "electrical.ac.utility.phaseC.realPower"); ("", "electrical.ac.utility.phaseC.apparentPower")];
   [("", "electrical.ac.utility.phaseC.lineLineVoltage"); ("", "electrical.ac.utility.phaseC.lineNeutralVoltage"); ("", "electrical.ac.utility.phaseC.frequency"); ("", "electrical.ac.utility.phaseC.current")];
   [("", "electrical.ac.utility.phaseB.reactivePower"); ("", "electrical.ac.utility.phaseB.powerFactor"); ("", "electrical.ac.utility.phaseB.powerFactorLagging")];
   [("", "electrical.ac.utility.phaseB.realPower"); ("", "electrical.ac.utility.phaseB.apparentPower")];
   [("", "electrical.ac.utility.phaseB.lineLineVoltage"); ("", "electrical.ac.utility.phaseB.lineNeutralVoltage"); ("", "electrical.ac.utility.phaseB.frequency"); ("", "electrical.ac.utility.phaseB.current")];
   [("", "electrical.ac.utility.phaseA.reactivePower"); ("", "electrical.ac.utility.phaseA.powerFactor"); ("", "electrical.ac.utility.phaseA.powerFactorLagging")];
   [("", "electrical.ac.utility.phaseA.realPower"); ("", "electrical.ac.utility.phaseA.apparentPower")];
   [("", "electrical.ac.utility.phaseA.lineLineVoltage"); ("", "electrical.ac.utility.phaseA.lineNeutralVoltage"); ("", "electrical.ac.utility.phaseA.frequency"); ("", "electrical.ac.utility.phaseA.current")];
   [("", "electrical.ac.utility.reactivePower"); ("", "electrical.ac.utility.powerFactor"); ("", "electrical.ac.utility.powerFactorLagging")];
   [("", "electrical.ac.utility.realPower"); ("", "electrical.ac.utility.apparentPower")];
   [("", "electrical.ac.utility.lineLineVoltage"); ("", "electrical.ac.utility.lineNeutralVoltage"); ("", "electrical.ac.utility.frequency"); ("", "electrical.ac.utility.current")];
   [("", "electrical.ac.generator.totalExport"); ("", "electrical.ac.generator.totalImport")];
   [("", "electrical.ac.generator.phaseC.reactivePower"); ("", "electrical.ac.generator.phaseC.powerFactor"); ("", "electrical.ac.generator.phase")];
   [("", "electrical.ac.generator.phaseC.realPower"); ("", "electrical.ac.generator.phaseC.apparentPower")];
   [("", "electrical.ac.generator.phaseC.lineLineVoltage"); ("", "electrical.ac.generator.phaseC.lineNeutralVoltage"); ("", "electrical.ac.generator.phaseC.frequency"); ("", "electrical.ac.generator.phaseC.current")];
   [("", "electrical.ac.generator.phaseB.reactivePower"); ("", "electrical.ac.generator.phaseB.powerFactor"); ("", "electrical.ac.generator.phaseB.powerFactorLagging")];
   [("", "electrical.ac.generator.phaseB.realPower"); ("", "electrical.ac.generator.phaseB.apparentPower")];
   [("", "electrical.ac.generator.phaseB.lineLineVoltage"); ("", "electrical.ac.generator.phaseB.lineNeutralVoltage"); ("", "electrical.ac.generator.phaseB.frequency"); ("", "electrical.ac.generator.phaseB.current")];
   [("", "electrical.ac.generator.phaseA.reactivePower"); ("", "electrical.ac.generator.phaseA.powerFactor"); ("", "electrical.ac.generator.phaseA.powerFactorLagging")];
   [("", "electrical.ac.generator.phaseA.realPower"); ("", "electrical.ac.generator.phaseA.apparentPower")];
   [("", "electrical.ac.generator.phaseA.lineLineVoltage"); ("", "electrical.ac.generator.phaseA.lineNeutralVoltage"); ("", "electrical.ac.generator.phaseA.frequency"); ("", "electrical.ac.generator.phaseA.current")];
   [("", "electrical.ac.generator.reactivePower"); ("", "electrical.ac.generator.powerFactor"); ("", "electrical.ac.generator.powerFactorLagging")];
   [("", "electrical.ac.generator.realPower"); ("", "electrical.ac.generator.apparentPower")];
   [("", "electrical.ac.generator.lineLineVoltage"); ("", "electrical.ac.generator.lineNeutralVoltage"); ("", "electrical.ac.generator.frequency"); ("", "electrical.ac.generator.current")];
   [("ISO Identity Number", ""); ("", ""); ("ISO ECU Instance", ""); ("ISO Function Instance", ""); ("ISO Function", ""); ("", ""); ("", ""); ("ISO Device Class Instance", ""); ("", ""); ("ISO Self Configurable", ""); ("", "")];
   [("", ""); ("", ""); ("", ""); ("", "")];
   [("Airmar", ""); ("", ""); ("Marine Industry", ""); ("", "")];
   [("", ""); ("", ""); ("", ""); ("", ""); ("", ""); ("", "")];
   [("Airmar", ""); ("", ""); ("", "")];
   [("Airmar", ""); ("", ""); ("Marine Industry", ""); ("", ""); ("", ""); ("", ""); ("When transmitted, it provides a seed for an unlock operation. It is used to provide the key during PGN 126208.", "")];
   [("Simrad", ""); ("", ""); ("", "")];
   [("Simrad", ""); ("", ""); ("", "")];
   [("Simrad", ""); ("", ""); ("", "")];
   [("Simrad", ""); ("", ""); ("", "")];
   [("Simrad", ""); ("", ""); ("", "")];
   [("Simrad", ""); ("", ""); ("", ""); ("", ""); ("", ""); ("", ""); ("", ""); ("", ""); ("", "")];
   [("Simrad", ""); ("", ""); ("", "")];
   [("B&G", ""); ("", ""); ("", ""); ("", ""); ("", ""); ("", ""); ("", ""); ("", "")];
   [("Simrad", ""); ("", ""); ("", "")];
   [("Airmar", ""); ("", ""); ("Marine Industry", ""); ("", ""); ("", "")];
   [("", ""); ("", ""); ("", ""); ("", ""); ("", ""); ("", ""); ("", "")];
   [("Simrad", ""); ("", ""); ("", "")];
   [("Request", ""); ("Requested PGN", ""); ("", ""); ("", ""); ("How many parameter pairs will follow", ""); ("Parameter index", ""); ("Parameter value, variable length", "")];
   [("Command", ""); ("Commanded or requested PGN", ""); ("", ""); ("", ""); ("How many parameter pairs will follow", ""); ("Parameter index", ""); ("Parameter value, variable length", "")];
   [("Acknowledge", ""); ("Commanded or requested PGN", ""); ("", ""); ("", ""); ("", ""); ("", "")];
   [("", ""); ("", ""); ("", ""); ("0x1b2: SSC200", ""); ("", ""); ("0x50=Deviation calibration result", ""); ("", "")];
   [("Transmit or receive PGN Group Function Code", ""); ("", "")];
   [("", ""); ("", ""); ("", ""); ("", "")];
   [("Airmar", ""); ("", ""); ("Marine Industry", ""); ("", "")];
   [("Airmar", ""); ("", ""); ("Marine Industry", ""); ("Attitude Offsets", ""); ("Positive: sensor rotated to port, negative: sensor rotated to starboard", ""); ("Positive: sensor tilted to bow, negative: sensor tilted to stern", ""); ("Positive: sensor tilted to port, negative: sensor tilted to starboard", "")];
   [("Airmar", ""); ("", ""); ("Marine Industry", ""); ("Calibrate Compass", ""); ("", ""); ("", ""); ("TBD", ""); ("default 100, range 50 to 500", ""); ("default 100, range 50 to 500", ""); ("default 100, range 50 to 500", ""); ("default 0, range -320.00 to 320.00", ""); ("default 0, range -320.00 to 320.00", ""); ("default 0, range -320.00 to 320.00", ""); ("default 0, range 0 to 3600", ""); ("default 30, range 0 to 200", ""); ("default -30, range -2400 to 2400, negative indicates rate gyro is to be used in compass calculations", "")];
   [("Airmar", ""); ("", ""); ("Marine Industry", ""); ("True Wind Options", ""); ("Allow use of COG when HDG not available?", ""); ("", ""); ("TBD", ""); ("default 100, range 50 to 500", ""); ("default 100, range 50 to 500", ""); ("default 100, range 50 to 500", ""); ("default 0, range -320.00 to 320.00", ""); ("default 0, range -320.00 to 320.00", ""); ("default 0, range -320.00 to 320.00", ""); ("default 0, range 0 to 3600", ""); ("default 30, range 0 to 200", ""); ("default -30, range -2400 to 2400, negative indicates rate gyro is to be used in compass calculations", "")];
   [("Airmar", ""); ("", ""); ("Marine Industry", ""); ("Simulate Mode", ""); ("", "")];
   [("Airmar", ""); ("", ""); ("Marine Industry", ""); ("Calibrate Depth", ""); ("actual allowed range is 1350.0 to 1650.0 m/s", "")];
   [("Airmar", ""); ("Alignment padding", ""); ("Marine Industry", ""); ("Calibrate Speed", ""); ("actual range is 0 to 25. 254=restore default speed curve", ""); ("", ""); ("", "")];
   [("Airmar", ""); ("", ""); ("Marine Industry", ""); ("Calibrate Temperature", ""); ("", ""); ("Reserved", ""); ("", ""); ("actual range is -9.999 to +9.999 K", "")];
   [("Airmar", ""); ("", ""); ("Marine Industry", ""); ("Speed Filter", ""); ("", ""); ("Reserved", ""); ("", ""); ("", "")];
   [("Airmar", ""); ("", ""); ("Marine Industry", ""); ("Speed Filter", ""); ("", ""); ("Reserved", ""); ("", ""); ("", "")];
   [("Airmar", ""); ("", ""); ("Marine Industry", ""); ("NMEA 2000 options", ""); ("", ""); ("Reserved", "")];
   [("", ""); ("", ""); ("Reserved", ""); ("Days since January 1, 1970", ""); ("Seconds since midnight", "")];
   [("Data transmit offset", ""); ("", "")];
   [("", ""); ("", ""); ("", ""); ("", ""); ("", ""); ("", ""); ("", ""); ("", "")];
   [("", ""); ("", ""); ("", ""); ("", ""); ("", ""); ("", "")];
   [("", ""); ("", ""); ("", ""); ("", ""); ("", ""); ("", ""); ("", ""); ("", ""); ("", ""); ("", ""); ("", ""); ("", ""); ("", ""); ("", ""); ("", ""); ("Reserved", ""); ("", ""); ("", ""); ("", ""); ("", ""); ("", "")];
   [("", ""); ("", ""); ("", ""); ("", ""); ("", ""); ("", ""); ("", ""); ("", ""); ("", ""); ("", ""); ("", ""); ("", ""); ("", ""); ("", ""); ("", ""); ("", ""); ("", ""); ("", "")];
   [("", ""); ("", ""); ("Reserved", ""); ("", ""); ("", "")];
   [("", ""); ("", ""); ("", ""); ("", ""); ("", "")];
   [("", ""); ("", "navigation.rateOfTurn")];
   [("", ""); ("", "navigation.attitude.yaw"); ("", "navigation.attitude.pitch"); ("", "navigation.attitude.roll")];
   [("", ""); ("", ""); ("Reserved", ""); ("Days since January 1, 1970", ""); ("", "navigation.magneticVariation")];
   [("", ""); ("", ""); ("", ""); ("", "")];
   [("", ""); ("", ""); ("", ""); ("", ""); ("", ""); ("", ""); ("", ""); ("", ""); ("", ""); ("", ""); ("", ""); ("", ""); ("", ""); ("", "")];
   [("", ""); ("", ""); ("", ""); ("", ""); ("", ""); ("", "")];
   [("", ""); ("", ""); ("", ""); ("", "")];
   [("", ""); ("", ""); ("", ""); ("", ""); ("", "")];
   [("", ""); ("", ""); ("", ""); ("", "")];
   [("", ""); ("", "")];
   [("", ""); ("", "")];
   [("", ""); ("", ""); ("", ""); ("", ""); ("", ""); ("", ""); ("", ""); ("", ""); ("", ""); ("", ""); ("", ""); ("", "")];
   [("", ""); ("", ""); ("", ""); ("", ""); ("", ""); ("", ""); ("", ""); ("", ""); ("", ""); ("", ""); ("", ""); ("", "")];
   [("", ""); ("", ""); ("", ""); ("", "")];
   [("", ""); ("", ""); ("", ""); ("", ""); ("", ""); ("", ""); ("", "")];
   [("", ""); ("", ""); ("", ""); ("", ""); ("", ""); ("", ""); ("", ""); ("", "")];
   [("", ""); ("", ""); ("", ""); ("", ""); ("", "")];
   [("", ""); ("", ""); ("", ""); ("", ""); ("", "")];
   [("", ""); ("", ""); ("", ""); ("", ""); ("", ""); ("", ""); ("", ""); ("When no sensor present", ""); ("", ""); ("", ""); ("", "")];
   [("", ""); ("", ""); ("", ""); ("", ""); ("", ""); ("", ""); ("", ""); ("", "")];
   [("", ""); ("", ""); ("", "")];
   [("", ""); ("", ""); ("", ""); ("", ""); ("", ""); ("", ""); ("", ""); ("", ""); ("", ""); ("", "")];
   [("", ""); ("", ""); ("", ""); ("", ""); ("", ""); ("", "")];
   [("", ""); ("", "navigation.speedThroughWater"); ("", "navigation.speedOverGround"); ("", ""); ("", ""); ("", "")];
   [("", ""); ("Depth below transducer", "environment.depth.belowTransducer"); ("Distance between transducer and surface (positive) or keel (negative)", "")];
   [("Days since January 1, 1970", ""); ("Seconds since midnight", ""); ("Total cumulative distance", "navigation.log"); ("Distance since last reset", "navigation.logTrip")];
   [("", ""); ("Number of route, waypoint, event, mark, etc.", ""); ("", ""); ("", ""); ("", ""); ("", ""); ("", ""); ("", ""); ("", ""); ("", ""); ("", ""); ("", ""); ("negative = time elapsed since event, positive = time to go", ""); ("Seconds since midnight", ""); ("", "")];
   [("", "navigation.position.latitude"); ("", "navigation.position.longitude")];
   [("", ""); ("", ""); ("Reserved", ""); ("", ""); ("", ""); ("Reserved", "")];
   [("", ""); ("", ""); ("", ""); ("", "")];
   [("", ""); ("", ""); ("", ""); ("", ""); ("Reserved", ""); ("", ""); ("", "")];
   [("", ""); ("Days since January 1, 1970", ""); ("Seconds since midnight", ""); ("", ""); ("", ""); ("", ""); ("", ""); ("", ""); ("", ""); ("Reserved", ""); ("Number of satellites used in solution", ""); ("Horizontal dilution of precision", ""); ("Probable dilution of precision", ""); ("Geoidal Separation", ""); ("Number of reference stations", ""); ("", ""); ("", ""); ("", "")];
   [("Days since January 1, 1970", ""); ("Seconds since midnight", ""); ("Minutes", "")];
   [("", ""); ("", ""); ("", ""); ("", ""); ("", ""); ("", ""); ("", ""); ("0-59 = UTC second when the report was generated", ""); ("", ""); ("", ""); ("Information used by the TDMA slot allocation algorithm and synchronization information", ""); ("", ""); ("True heading", ""); ("", ""); ("", ""); ("", ""); ("", "")];
   [("", ""); ("", ""); ("", ""); ("", ""); ("", ""); ("", ""); ("", ""); ("0-59 = UTC second when the report was generated", ""); ("", ""); ("", ""); ("Information used by the TDMA slot allocation algorithm and synchronization information", ""); ("", ""); ("True heading", ""); ("", ""); ("", ""); ("", ""); ("Whether the unit can show messages 12 and 14", ""); ("", ""); ("", ""); ("Whether device supports message 22", ""); ("", ""); ("", "")];
   [("", ""); ("", ""); ("", ""); ("", ""); ("", ""); ("", ""); ("", ""); ("0-59 = UTC second when the report was generated", ""); ("", ""); ("", ""); ("", ""); ("", ""); ("reserved", ""); ("", ""); ("", ""); ("", ""); ("", ""); ("", ""); ("", ""); ("", ""); ("", ""); ("0=unavailable", ""); ("", ""); ("", ""); ("", ""); ("", "")];
   [("", ""); ("", ""); ("", ""); ("", ""); ("", ""); ("", ""); ("", ""); ("0-59 = UTC second when the report was generated", ""); ("", ""); ("", ""); ("m", ""); ("m", ""); ("", ""); ("", ""); ("", ""); ("", ""); ("", ""); ("", ""); ("", ""); ("", ""); ("", ""); ("", ""); ("", "")];
   [("defined in IHO Publication S-60, Appendices B and C. First three chars are datum ID as per IHO tables.Fourth char is local datum subdivision code.", ""); ("", ""); ("", ""); ("", ""); ("defined in IHO Publication S-60, Appendices B and C. First three chars are datum ID as per IHO tables. Fourth char is local datum subdivision code.", "")];
   [("Delta shift in X axis from WGS 84", ""); ("Delta shift in Y axis from WGS 84", ""); ("Delta shift in Z axis from WGS 84", ""); ("Rotational shift in X axis from WGS 84. Rotations presented use the geodetic sign convention. When looking along the positive axis towards the origin, counter-clockwise rotations are positive.", ""); ("Rotational shift in Y axis from WGS 84. Rotations presented use the geodetic sign convention. When looking along the positive axis towards the origin, counter-clockwise rotations are positive.", ""); ("Rotational shift in Z axis from WGS 84. Rotations presented use the geodetic sign convention. When looking along the positive axis towards the origin, counter-clockwise rotations are positive.", ""); ("Scale factor expressed in parts-per-million", ""); ("Semi-major axis (a) of the User Datum ellipsoid", ""); ("Flattening (1/f) of the User Datum ellipsoid", ""); ("4 character code from IHO Publication S-60, Appendices B and C.First three chars are datum ID as per IHO tables.Fourth char is local datum subdivision code.", "")];
   [("", ""); ("", ""); ("reserved", ""); ("", ""); ("", "")];
   [("", ""); ("", ""); ("", ""); ("", ""); ("", ""); ("", ""); ("Seconds since midnight", ""); ("Days since January 1, 1970", ""); ("", ""); ("", ""); ("", ""); ("", ""); ("", ""); ("", ""); ("", "")];
   [("", ""); ("", ""); ("", ""); ("", ""); ("", ""); ("", ""); ("Reserved", ""); ("", ""); ("Reserved", ""); ("", ""); ("", ""); ("", ""); ("", "")];
   [("", ""); ("", ""); ("Reserved", ""); ("", ""); ("", "")];
   [("", ""); ("negative = elapsed since event, positive = time to go", ""); ("", ""); ("Reserved", ""); ("", "")];
   [("", ""); ("", ""); ("", ""); ("Reserved", ""); ("", ""); ("", ""); ("", ""); ("", ""); ("", ""); ("", "")];
   [("Will not use SV below this elevation", ""); ("Will not report position above this PDOP", ""); ("Will report 2D position above this PDOP", ""); ("Will not use SV below this SNR", ""); ("", ""); ("", ""); ("", ""); ("", ""); ("", ""); ("", "")];
   [("", ""); ("", ""); ("", ""); ("Reserved", ""); ("Horizontal dilution of precision", ""); ("Vertical dilution of precision", ""); ("Time dilution of precision", "")];
   [("", ""); ("", ""); ("Reserved", ""); ("", ""); ("", ""); ("", ""); ("", ""); ("", ""); ("", ""); ("", ""); ("Reserved", "")];
   [("", ""); ("", ""); ("", ""); ("", ""); ("", ""); ("", ""); ("", ""); ("", ""); ("", ""); ("", ""); ("", ""); ("", ""); ("", "")];
   [("", ""); ("", ""); ("", ""); ("", ""); ("", ""); ("", ""); ("", ""); ("", "")];
   [("", ""); ("", ""); ("Reserved", ""); ("", ""); ("", ""); ("", ""); ("", ""); ("", ""); ("", ""); ("", "")];
   [("", ""); ("", ""); ("", ""); ("", "")];
   [("", ""); ("", ""); ("", ""); ("", ""); ("", ""); ("", ""); ("", ""); ("", "")];
   [("", ""); ("", ""); ("", ""); ("", ""); ("", ""); ("", ""); ("", ""); ("", ""); ("", ""); ("", ""); ("", "")];
   [("", ""); ("", ""); ("", ""); ("", ""); ("", ""); ("", "")];
   [("", ""); ("", ""); ("", ""); ("", ""); ("", ""); ("", ""); ("", ""); ("", ""); ("", ""); ("", ""); ("Reserved", ""); ("", ""); ("", ""); ("", "")];
   [("", ""); ("", ""); ("", ""); ("", ""); ("", ""); ("", ""); ("", ""); ("", ""); ("", ""); ("", ""); ("", ""); ("", ""); ("", "")];
   [("", ""); ("", ""); ("", ""); ("", ""); ("", ""); ("", ""); ("", ""); ("", ""); ("", ""); ("", ""); ("", ""); ("", "")];
   [("", ""); ("", ""); ("", ""); ("", ""); ("", ""); ("", ""); ("", ""); ("NMEA reserved to align next data on byte boundary", ""); ("Seconds since midnight", ""); ("Information used by the TDMA slot allocation algorithm and synchronization information", ""); ("", ""); ("Days since January 1, 1970", ""); ("NMEA reserved to align next data on byte boundary", ""); ("", ""); ("", "")];
   [("", ""); ("", ""); ("", ""); ("0=unavailable", ""); ("0=unavailable", ""); ("0=unavailable", ""); ("", ""); ("", ""); ("", ""); ("", ""); ("", ""); ("Days since January 1, 1970", ""); ("Seconds since midnight", ""); ("", ""); ("0=unavailable", ""); ("", ""); ("", ""); ("", ""); ("reserved", ""); ("", "")];
   [("", ""); ("", ""); ("", ""); ("reserved", ""); ("", ""); ("", ""); ("", ""); ("reserved", ""); ("", ""); ("reserved", ""); ("", ""); ("", "")];
   [("", ""); ("", ""); ("", ""); ("reserved", ""); ("", ""); ("reserved", ""); ("", ""); ("reserved", ""); ("reserved", ""); ("reserved", "")];
   [("", ""); ("", ""); ("", ""); ("reserved", ""); ("", ""); ("reserved", ""); ("", ""); ("", "")];
   [("", ""); ("", ""); ("", ""); ("", ""); ("", ""); ("", ""); ("", ""); ("0-59 = UTC second when the report was generated", ""); ("", ""); ("", ""); ("Information used by the TDMA slot allocation algorithm and synchronization information", ""); ("", ""); ("", ""); ("", ""); ("", ""); ("reserved", "")];
   [("", ""); ("", ""); ("", ""); ("", ""); ("", ""); ("", "")];
   [("", ""); ("", ""); ("", ""); ("reserved", ""); ("", ""); ("reserved", ""); ("", ""); ("reserved", "")];
   [("", ""); ("", ""); ("", ""); ("reserved", ""); ("", ""); ("", ""); ("", ""); ("reserved", ""); ("", ""); ("reserved", ""); ("", "")];
   [("", ""); ("", ""); ("", ""); ("reserved", ""); ("", ""); ("reserved", ""); ("", "")];
   [("", ""); ("", ""); ("", ""); ("reserved", ""); ("", ""); ("reserved", ""); ("", ""); ("reserved", ""); ("", ""); ("", ""); ("reserved", ""); ("", ""); ("", ""); ("reserved", "")];
   [("", ""); ("", ""); ("", ""); ("reserved", ""); ("", ""); ("reserved", ""); ("", ""); ("", ""); ("", "")];
   [("", ""); ("", ""); ("", ""); ("reserved", ""); ("", ""); ("reserved", ""); ("", ""); ("", ""); ("", ""); ("", "")];
   [("", ""); ("", ""); ("", ""); ("reserved", ""); ("", ""); ("reserved", ""); ("", ""); ("", ""); ("reserved", ""); ("reserved", ""); ("", ""); ("", ""); ("", ""); ("", ""); ("", ""); ("reserved", ""); ("", ""); ("", ""); ("", ""); ("reserved", ""); ("", "")];
   [("", ""); ("", ""); ("", ""); ("reserved", ""); ("", ""); ("reserved", ""); ("", ""); ("", ""); ("", ""); ("", ""); ("", ""); ("reserved", ""); ("", ""); ("reserved", ""); ("", ""); ("", "")];
   [("", ""); ("", ""); ("", ""); ("", ""); ("", ""); ("", ""); ("", ""); ("", ""); ("", ""); ("", ""); ("Seconds since midnight", ""); ("", ""); ("", ""); ("", ""); ("", ""); ("", ""); ("Seconds since midnight", ""); ("Days since January 1, 1970", ""); ("", ""); ("", ""); ("", "")];
   [("", ""); ("", ""); ("", ""); ("", "")];
   [("", ""); ("", ""); ("", ""); ("", ""); ("", ""); ("0=unavailable", ""); ("", ""); ("", ""); ("", ""); ("", ""); ("MMSI of mother ship sent by daughter vessels", ""); ("reserved", ""); ("0=unavailable", "")];
   [("", ""); ("", ""); ("", ""); ("", ""); ("", ""); ("Seconds since midnight", ""); ("Days since January 1, 1970", ""); ("", ""); ("reserved", ""); ("", ""); ("", ""); ("", "")];
   [("", ""); ("", ""); ("", ""); ("", ""); ("", ""); ("", ""); ("reserved", ""); ("", ""); ("", "")];
   [("", ""); ("", ""); ("", ""); ("Seconds since midnight", ""); ("Days since January 1, 1970", ""); ("", ""); ("", ""); ("", ""); ("", ""); ("", ""); ("", ""); ("", "")];
   [("", ""); ("", ""); ("", ""); ("", ""); ("", ""); ("", ""); ("", ""); ("", ""); ("", "")];
   [("", ""); ("", ""); ("", ""); ("", ""); ("", ""); ("", ""); ("", "")];
   [("", ""); ("", ""); ("", ""); ("", ""); ("", ""); ("", ""); ("", ""); ("", ""); ("", "")];
   [("", ""); ("", ""); ("", ""); ("", ""); ("", ""); ("", ""); ("", "")];
   [("", ""); ("", ""); ("", ""); ("", ""); ("", ""); ("", "")];
   [("", ""); ("", ""); ("", ""); ("", ""); ("", "")];
   [("", ""); ("", ""); ("", ""); ("", ""); ("", ""); ("", ""); ("", "")];
   [("", ""); ("", ""); ("", ""); ("", ""); ("reserved", ""); ("", ""); ("", ""); ("", ""); ("", "")];
   [("", ""); ("", ""); ("", ""); ("", "")];
   [("", ""); ("", "environment.waterTemp"); ("", "environment.airTemp"); ("", "environment.airPressure")];
   [("", ""); ("", ""); ("", ""); ("", ""); ("", ""); ("", "")];
   [("", ""); ("", ""); ("", ""); ("", ""); ("", "")];
   [("", ""); ("", ""); ("", ""); ("", ""); ("", "")];
   [("", ""); ("", ""); ("", ""); ("", "")];
   [("", ""); ("", ""); ("", ""); ("", "")];
   [("", ""); ("", ""); ("", ""); ("Days since January 1, 1970", ""); ("Seconds since midnight", ""); ("", ""); ("", ""); ("Relative to MLLW", ""); ("", ""); ("", ""); ("", "")];
   [("", ""); ("", ""); ("Days since January 1, 1970", ""); ("Seconds since midnight", ""); ("", ""); ("", ""); ("The average Salinity of ocean water is about 35 grams of salts per kilogram of sea water (g/kg), usually written as 35 ppt which is read as 35 parts per thousand.", ""); ("", ""); ("", ""); ("", "")];
   [("", ""); ("", ""); ("Days since January 1, 1970", ""); ("Seconds since midnight", ""); ("", ""); ("", ""); ("Depth below transducer", ""); ("", ""); ("", ""); ("", ""); ("", ""); ("", "")];
   [("", ""); ("", ""); ("Days since January 1, 1970", ""); ("Seconds since midnight", ""); ("", ""); ("", ""); ("", ""); ("", ""); ("", ""); ("reserved", ""); ("", ""); ("", ""); ("", ""); ("", ""); ("", "")];
   [("", ""); ("", ""); ("Days since January 1, 1970", ""); ("Seconds since midnight", ""); ("", ""); ("", ""); ("", ""); ("", ""); ("", ""); ("reserved", ""); ("", ""); ("", ""); ("", ""); ("", ""); ("", ""); ("", ""); ("", ""); ("", "")];
   [("", ""); ("", "")];
   [("", ""); ("", ""); ("Reserved", ""); ("", ""); ("", ""); ("", ""); ("", ""); ("", ""); ("", ""); ("", "")];
   [("", ""); ("", ""); ("", ""); ("", ""); ("", ""); ("", "")];
   [("Navico", ""); ("", ""); ("", ""); ("", ""); ("Init #2", ""); ("", ""); ("", ""); ("", "")];
   [("Navico", ""); ("", ""); ("", ""); ("", ""); ("AM Radio", ""); ("", ""); ("", ""); ("", ""); ("", ""); ("", ""); ("", ""); ("", "")];
   [("Navico", ""); ("", ""); ("", ""); ("", ""); ("Zone info", ""); ("", ""); ("", "")];
   [("Navico", ""); ("", ""); ("", ""); ("", ""); ("Source", ""); ("", ""); ("", "")];
   [("Navico", ""); ("", ""); ("", ""); ("", ""); ("Source list", ""); ("", ""); ("", ""); ("", ""); ("", "")];
   [("Navico", ""); ("", ""); ("", ""); ("", ""); ("Control", ""); ("", ""); ("", "")];
   [("Navico", ""); ("", ""); ("", ""); ("", ""); ("FM Radio", ""); ("", ""); ("", ""); ("", ""); ("", ""); ("", ""); ("", ""); ("", "")];
   [("Navico", ""); ("", ""); ("", ""); ("", ""); ("Playlist", ""); ("", ""); ("", ""); ("", ""); ("", ""); ("", ""); ("Seconds", ""); ("Seconds", "")];
   [("Navico", ""); ("", ""); ("", ""); ("", ""); ("Track", ""); ("", ""); ("", ""); ("", "")];
   [("Navico", ""); ("", ""); ("", ""); ("", ""); ("Artist", ""); ("", ""); ("", ""); ("", "")];
   [("Navico", ""); ("", ""); ("", ""); ("", ""); ("Album", ""); ("", ""); ("", ""); ("", "")];
   [("Navico", ""); ("", ""); ("", ""); ("", ""); ("Menu Item", ""); ("", ""); ("", ""); ("", ""); ("", ""); ("", ""); ("", "")];
   [("Navico", ""); ("", ""); ("", ""); ("", ""); ("Zones", ""); ("", ""); ("", "")];
   [("Navico", ""); ("", ""); ("", ""); ("", ""); ("Max Volume", ""); ("", ""); ("", ""); ("", "")];
   [("Navico", ""); ("", ""); ("", ""); ("", ""); ("Volume", ""); ("", ""); ("", ""); ("", "")];
   [("Navico", ""); ("", ""); ("", ""); ("", ""); ("Init #1", ""); ("", "")];
   [("Navico", ""); ("", ""); ("", ""); ("", ""); ("Position", ""); ("", ""); ("Seconds", "")];
   [("Navico", ""); ("", ""); ("", ""); ("", ""); ("Init #3", ""); ("", ""); ("", ""); ("", "")];
   [("", ""); ("", ""); ("", ""); ("", ""); ("Init #3", ""); ("", ""); ("", ""); ("", ""); ("", ""); ("", ""); ("", "")];
   [("Navico", ""); ("", ""); ("", ""); ("", ""); ("", ""); ("", ""); ("", ""); ("", ""); ("", ""); ("", ""); ("", "")];
   [("Simrad", ""); ("", ""); ("", ""); ("", ""); ("", ""); ("", "")];
   [("Simrad", ""); ("", ""); ("", "")];
   [("Fusion", ""); ("", ""); ("", ""); ("", ""); ("", ""); ("", "")];
   [("Fusion", ""); ("", ""); ("", ""); ("", ""); ("", ""); ("", ""); ("", ""); ("", ""); ("", ""); ("", "")];
   [("Fusion", ""); ("", ""); ("", ""); ("", ""); ("", ""); ("", "")];
   [("Fusion", ""); ("", ""); ("", ""); ("", ""); ("", ""); ("", ""); ("", ""); ("s", ""); ("", "")];
   [("Fusion", ""); ("", ""); ("", ""); ("", ""); ("", ""); ("", ""); ("", "")];
   [("Fusion", ""); ("", ""); ("", ""); ("", ""); ("", ""); ("", ""); ("", "")];
   [("Fusion", ""); ("", ""); ("", ""); ("", ""); ("", ""); ("", ""); ("", "")];
   [("Fusion", ""); ("", ""); ("", ""); ("", ""); ("", ""); ("", ""); ("", "")];
   [("Fusion", ""); ("", ""); ("", ""); ("", ""); ("", ""); ("", ""); ("", ""); ("", "")];
   [("Fusion", ""); ("", ""); ("", ""); ("", ""); ("", ""); ("", ""); ("", ""); ("", "")];
   [("Fusion", ""); ("", ""); ("", ""); ("", ""); ("", ""); ("", ""); ("", "")];
   [("Fusion", ""); ("", ""); ("", ""); ("", ""); ("", ""); ("", ""); ("", "")];
   [("Fusion", ""); ("", ""); ("", ""); ("", ""); ("", ""); ("", ""); ("", ""); ("", ""); ("", ""); ("", ""); ("", ""); ("", ""); ("", "")];
   [("Fusion", ""); ("", ""); ("", ""); ("", ""); ("", ""); ("", ""); ("", ""); ("", ""); ("", ""); ("", ""); ("", ""); ("", ""); ("", "")];
   [("Fusion", ""); ("", ""); ("", ""); ("", ""); ("", ""); ("", ""); ("", ""); ("", ""); ("", ""); ("", ""); ("", ""); ("", ""); ("", "")];
   [("Fusion", ""); ("", ""); ("", ""); ("", ""); ("", ""); ("", ""); ("", ""); ("", ""); ("", "")];
   [("Fusion", ""); ("", ""); ("", ""); ("", ""); ("", ""); ("", ""); ("", ""); ("", ""); ("", "")];
   [("Fusion", ""); ("", ""); ("", ""); ("", ""); ("", ""); ("", "")];
   [("Fusion", ""); ("", ""); ("", ""); ("", ""); ("", ""); ("", "")];
   [("Fusion", ""); ("", ""); ("", ""); ("", ""); ("", ""); ("", "")];
   [("Fusion", ""); ("", ""); ("", ""); ("", ""); ("", ""); ("", ""); ("", ""); ("", ""); ("", "")];
   [("Fusion", ""); ("", ""); ("", ""); ("", ""); ("", ""); ("", ""); ("", ""); ("", ""); ("", "")];
   [("Fusion", ""); ("", ""); ("", ""); ("", ""); ("", ""); ("", ""); ("", ""); ("", ""); ("", "")];
   [("Fusion", ""); ("", ""); ("", ""); ("", ""); ("", ""); ("", "")];
   [("Fusion", ""); ("", ""); ("", ""); ("", ""); ("", ""); ("", "")];
   [("Fusion", ""); ("", ""); ("", ""); ("", ""); ("", ""); ("", "")];
   [("Fusion", ""); ("", ""); ("", ""); ("", ""); ("", ""); ("", ""); ("", "")];
   [("Fusion", ""); ("", ""); ("", ""); ("", ""); ("", ""); ("", ""); ("", "")];
   [("Fusion", ""); ("", ""); ("", ""); ("", ""); ("", ""); ("", ""); ("", "")];
   [("Fusion", ""); ("", ""); ("", ""); ("", ""); ("", ""); ("", ""); ("", "")];
   [("Fusion", ""); ("", ""); ("", ""); ("", ""); ("", ""); ("", ""); ("", "")];
   [("Fusion", ""); ("", ""); ("", ""); ("", ""); ("", "")];
   [("Fusion", ""); ("", ""); ("", ""); ("", ""); ("", "")];
   [("Fusion", ""); ("", ""); ("", ""); ("", ""); ("", ""); ("", ""); ("", "")];
   [("Fusion", ""); ("", ""); ("", ""); ("=51", ""); ("", ""); ("", "")];
   [("Fusion", ""); ("", ""); ("", ""); ("", "")];
   [("Simrad", ""); ("", ""); ("", ""); ("", ""); ("", ""); ("", "")];
   [("Furuno", ""); ("", ""); ("", ""); ("", ""); ("", ""); ("", ""); ("", ""); ("", ""); ("", ""); ("", ""); ("", ""); ("", ""); ("", "")];
   [("Furuno", ""); ("", ""); ("", ""); ("", ""); ("", ""); ("", ""); ("", ""); ("", ""); ("", ""); ("", ""); ("", ""); ("", ""); ("", "")];
   [("Simrad", ""); ("", ""); ("", ""); ("", ""); ("", "")];
   [("Simrad", ""); ("", ""); ("", ""); ("", ""); ("", ""); ("", ""); ("", ""); ("", ""); ("", "")];
   [("Lowrance", ""); ("", ""); ("", ""); ("", ""); ("", ""); ("", ""); ("", ""); ("", ""); ("", "")];
   [("Simrad", ""); ("", ""); ("", "")];
   [("", ""); ("", ""); ("", "")];
   [("Simrad", ""); ("", ""); ("", "")];
   [("Simrad", ""); ("", ""); ("", "")];
   [("Simrad", ""); ("", ""); ("", "")];
   [("", ""); ("", ""); ("", ""); ("", ""); ("", ""); ("", ""); ("", ""); ("", ""); ("", ""); ("", ""); ("", ""); ("", "")];
   [("Simrad", ""); ("", ""); ("", "")];
   [("Simrad", ""); ("", ""); ("", "")];
   [("Simrad", ""); ("", ""); ("", "")];
   [("Simrad", ""); ("", ""); ("", ""); ("", ""); ("", ""); ("", ""); ("", ""); ("", ""); ("", ""); ("", ""); ("", "")];
   [("Simrad", ""); ("", ""); ("", ""); ("Msg 24 Part A", ""); ("", ""); ("", ""); ("", ""); ("", ""); ("", "")];
   [("Simrad", ""); ("", ""); ("", ""); ("Msg 24 Part B", ""); ("", ""); ("", ""); ("", ""); ("", ""); ("", ""); ("", ""); ("0=unavailable", ""); ("", ""); ("", ""); ("", ""); ("", ""); ("sent by daughter vessels", ""); ("", ""); ("0=unavailable", "")];
   [("Simrad", ""); ("", ""); ("", "")];
   [("Simrad", ""); ("", ""); ("", ""); ("", ""); ("", ""); ("", ""); ("", ""); ("", ""); ("", ""); ("Display Group", ""); ("", ""); ("", "")];
   [("Simrad", ""); ("", ""); ("", ""); ("", ""); ("", ""); ("", ""); ("", ""); ("", ""); ("", ""); ("Backlight Color", ""); ("", ""); ("", "")];
   [("Simrad", ""); ("", ""); ("", ""); ("", ""); ("", ""); ("", ""); ("", ""); ("", ""); ("", ""); ("Data ID", ""); ("", ""); ("", "")];
   [("Simrad", ""); ("", ""); ("", ""); ("", ""); ("", ""); ("", ""); ("", ""); ("", ""); ("", ""); ("", ""); ("", ""); ("", "")];
   [("Simrad", ""); ("", ""); ("", ""); ("", "")];
   [("Navico", ""); ("", ""); ("", ""); ("", "")];
   [("Simrad", ""); ("", ""); ("", ""); ("", ""); ("", ""); ("", ""); ("", ""); ("", ""); ("", ""); ("", "")];
   [("Simrad", ""); ("", ""); ("", ""); ("", ""); ("Alarm command", ""); ("", ""); ("", ""); ("", ""); ("", ""); ("", "")];
   [("Simrad", ""); ("", ""); ("", ""); ("AP command", ""); ("", ""); ("", ""); ("", ""); ("", ""); ("", ""); ("", "")];
   [("Simrad", ""); ("", ""); ("", ""); ("", ""); ("", ""); ("", ""); ("", "")];
   [("Airmar", ""); ("", ""); ("", ""); ("", ""); ("", ""); ("", ""); ("", "")];
   [("", ""); ("", ""); ("", ""); ("", ""); ("", ""); ("", ""); ("", "")];
   [("", ""); ("", ""); ("", ""); ("", ""); ("", ""); ("", ""); ("See Airmar docs for table of IDs and failure codes; these lookup values are for DST200", ""); ("Values other than 0 are failure codes. See Airmar docs for description.", "")];
   [("", ""); ("", ""); ("", ""); ("", "")];
   [("", ""); ("", ""); ("", ""); ("", "")];
   [("", ""); ("", ""); ("", ""); ("", "")];
   [("", ""); ("", ""); ("", ""); ("", ""); ("", ""); ("", ""); ("", ""); ("", ""); ("", ""); ("s", ""); ("", ""); ("", "")];
   [("", ""); ("", ""); ("", ""); ("", ""); ("", "")];
   [("", ""); ("", ""); ("", ""); ("", ""); ("", ""); ("", ""); ("", ""); ("", ""); ("", "")];
   [("", ""); ("", ""); ("", ""); ("", ""); ("", "")];
   [("", ""); ("", ""); ("", ""); ("", ""); ("", "")];
   [("", ""); ("", ""); ("", ""); ("", ""); ("s", "")];
   [("", ""); ("", ""); ("", ""); ("", ""); ("", ""); ("", ""); ("", ""); ("", ""); ("", "")];
   [("", ""); ("", ""); ("", ""); ("", ""); ("", "")];
   [("", ""); ("", ""); ("", ""); ("", ""); ("", "")];
   [("", ""); ("", ""); ("", ""); ("", ""); ("", ""); ("ISO Identity Number", ""); ("", ""); ("ISO ECU Instance", ""); ("ISO Function Instance", ""); ("ISO Function", ""); ("", ""); ("", ""); ("ISO Device Class Instance", ""); ("", ""); ("ISO Self Configurable", ""); ("", ""); ("", ""); ("", ""); ("", "")];
   [("", ""); ("", ""); ("", ""); ("", ""); ("", "")];
   [("", ""); ("", ""); ("", ""); ("", ""); ("", "")];
   [("", ""); ("", ""); ("", ""); ("", ""); ("", "")];
   [("", ""); ("", ""); ("", ""); ("", ""); ("", ""); ("", "")];
   [("", ""); ("", ""); ("", ""); ("", "")];
   [("", ""); ("", ""); ("", ""); ("", ""); ("", ""); ("", "")];
   [("", ""); ("", ""); ("", ""); ("", ""); ("", ""); ("", "")];
   [("", ""); ("", ""); ("", ""); ("", ""); ("", "")];
   [("", ""); ("", ""); ("", ""); ("", "")];
   [("", ""); ("", ""); ("", ""); ("", "")];
   [("", ""); ("", ""); ("", ""); ("", ""); ("", ""); ("", ""); ("", ""); ("", ""); ("", ""); ("", ""); ("", "")];
   [("", ""); ("", ""); ("", ""); ("", ""); ("", ""); ("", ""); ("", "")];
   [("", ""); ("", ""); ("", ""); ("", ""); ("", ""); ("", ""); ("", ""); ("", ""); ("", ""); ("", ""); ("", ""); ("", ""); ("", ""); ("", ""); ("", ""); ("", ""); ("", ""); ("", ""); ("", ""); ("", ""); ("", ""); ("", ""); ("", ""); ("", ""); ("", ""); ("", "")];
   [("", ""); ("", ""); ("", ""); ("", ""); ("", "")]].
