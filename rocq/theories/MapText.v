(** MapText: /repo/map.xml, copied verbatim by tools/gen_pages.py. *)
From Verif Require Import GoBase.
Open Scope string_scope.

(** /repo/map.xml:1-439 *)
Definition map_xml : string := "<?xml version=""1.0""?>
<mappings>
  <mapping>
    <path>~/electric/ac/bus1/phaseC/lineToLineVoltage</path>
    <parameter_group>
      <pgn>65001</pgn>
      <field>0</field>
    </parameter_group>
  </mapping>
  <mapping>
    <path>~/electric/ac/bus1/phaseC/lineToNeutralVoltage</path>
    <parameter_group>
      <pgn>65001</pgn>
      <field>1</field>
    </parameter_group>
  </mapping>
  <mapping>
    <path>~/electric/ac/bus1/phaseC/frequency</path>
    <parameter_group>
      <pgn>65001</pgn>
      <field>2</field>
    </parameter_group>
  </mapping>
  <mapping>
    <path>~/electric/ac/bus1/phaseB/lineToLineVoltage</path>
    <parameter_group>
      <pgn>65002</pgn>
      <field>0</field>
    </parameter_group>
  </mapping>
  <mapping>
    <path>~/electric/ac/bus1/phaseB/lineToNeutralVoltage</path>
    <parameter_group>
      <pgn>65002</pgn>
      <field>1</field>
    </parameter_group>
  </mapping>
  <mapping>
    <path>~/electric/ac/bus1/phaseB/frequency</path>
    <parameter_group>
      <pgn>65002</pgn>
      <field>2</field>
    </parameter_group>
  </mapping>
  <mapping>
    <path>~/electric/ac/bus1/phaseA/lineToLineVoltage</path>
    <parameter_group>
      <pgn>65003</pgn>
      <field>0</field>
    </parameter_group>
  </mapping>
  <mapping>
    <path>~/electric/ac/bus1/phaseA/lineToNeutralVoltage</path>
    <parameter_group>
      <pgn>65003</pgn>
      <field>1</field>
    </parameter_group>
  </mapping>
  <mapping>
    <path>~/electric/ac/bus1/phaseA/frequency</path>
    <parameter_group>
      <pgn>65003</pgn>
      <field>2</field>
    </parameter_group>
  </mapping>
  <mapping>
    <path>~/system/currentTimeSource</path>
    <parameter_group>
      <pgn>126992</pgn>
      <field>1</field>
    </parameter_group>
  </mapping>
  <mapping>
    <path>~/system/currentTime</path>
    <parameter_group>
      <pgn>126992</pgn>
      <fieldset type=""datetime"">
        <field type=""date"">3</field>
        <field type=""time"">4</field>
      </fieldset>
    </parameter_group>
    <sentence>
      <id>ZDA</id>
      <fieldset type=""datetime"">
        <field type=""time"">0</field>
        <field type=""day"">1</field>
        <field type=""month"">2</field>
        <field type=""year"">3</field>
        <field type=""tzHour"">4</field>
        <field type=""tzMinute"">5</field>
      </fieldset>
    </sentence>
  </mapping>
  <mapping>
    <path>~/electric/ac/{instance}/numberOfLines</path>
    <parameter_group>
      <pgn>127503</pgn>
      <field>1</field>
      <classifier>
        <id>instance</id>
        <field>0</field>
      </classifier>
    </parameter_group>
  </mapping>
  <mapping>
    <path>~/electric/ac/{instance}/{line}/acceptability</path>
    <parameter_group>
      <pgn>127503</pgn>
      <field>3</field>
      <classifier>
        <id>instance</id>
        <field>0</field>
      </classifier>
      <multiplier>
        <id>line</id>
        <field>2</field>
      </multiplier>
    </parameter_group>
  </mapping>
  <mapping>
    <path>~/propulsion/speed/waterReferenced</path>
    <parameter_group>
      <pgn>128259</pgn>
      <field>1</field>
    </parameter_group>
  </mapping>
  <mapping>
    <path>~/propulsion/speed/groundReferenced</path>
    <parameter_group>
      <pgn>128259</pgn>
      <field>2</field>
    </parameter_group>
  </mapping>
  <mapping>
    <path>~/propulsion/speed/waterReferenceType</path>
    <parameter_group>
      <pgn>128259</pgn>
      <field>3</field>
    </parameter_group>
  </mapping>
  <mapping>
    <path>~/environment/water/depth</path>
    <parameter_group>
      <pgn>128267</pgn>
      <field>1</field>
    </parameter_group>
  </mapping>
  <mapping>
    <path>~/environment/water/offset</path>
    <parameter_group>
      <pgn>128267</pgn>
      <field>2</field>
    </parameter_group>
  </mapping>
  <mapping>
    <path>~/navigation/log/date</path>
    <parameter_group>
      <pgn>128275</pgn>
      <field>0</field>
    </parameter_group>
  </mapping>
  <mapping>
    <path>~/navigation/log/time</path>
    <parameter_group>
      <pgn>128275</pgn>
      <field>1</field>
    </parameter_group>
  </mapping>
  <mapping>
    <path>~/navigation/log/log</path>
    <parameter_group>
      <pgn>128275</pgn>
      <field>2</field>
    </parameter_group>
  </mapping>
  <mapping>
    <path>~/navigation/log/tripLog</path>
    <parameter_group>
      <pgn>128275</pgn>
      <field>3</field>
    </parameter_group>
  </mapping>
  <mapping>
    <path>~/navigation/position/latitude</path>
    <parameter_group>
      <pgn>129025</pgn>
      <field>0</field>
    </parameter_group>
    <parameter_group>
      <pgn>129029</pgn>
      <field>3</field>
    </parameter_group>
  </mapping>
  <mapping>
    <path>~/navigation/position/longitude</path>
    <parameter_group>
      <pgn>129025</pgn>
      <field>1</field>
    </parameter_group>
    <parameter_group>
      <pgn>129029</pgn>
      <field>4</field>
    </parameter_group>
  </mapping>
  <mapping>
    <path>~/navigation/courseOverGroundTrue</path>
    <parameter_group>
      <pgn>129026</pgn>
      <field>3</field>
      <condition>
        <op>eq</op>
        <field>1</field>
        <value>True</value>
      </condition>
    </parameter_group>
  </mapping>
  <mapping>
    <path>~/navigation/courseOverGroundMagnetic</path>
    <parameter_group>
      <pgn>129026</pgn>
      <field>3</field>
      <condition>
        <op>eq</op>
        <field>1</field>
        <value>Magnetic</value>
      </condition>
    </parameter_group>
  </mapping>
  <mapping>
    <path>~/navigation/gnss/almanac/desiredMode</path>
    <parameter_group>
      <pgn>129539</pgn>
      <field>1</field>
    </parameter_group>
  </mapping>
  <mapping>
    <path>~/navigation/gnss/almanac/actualMode</path>
    <parameter_group>
      <pgn>129539</pgn>
      <field>2</field>
    </parameter_group>
  </mapping>
  <mapping>
    <path>~/navigation/gnss/almanac/hdop</path>
    <parameter_group>
      <pgn>129539</pgn>
      <field>4</field>
    </parameter_group>
  </mapping>
  <mapping>
    <path>~/navigation/gnss/almanac/vdop</path>
    <parameter_group>
      <pgn>129539</pgn>
      <field>5</field>
    </parameter_group>
  </mapping>
  <mapping>
    <path>~/navigation/gnss/almanac/tdop</path>
    <parameter_group>
      <pgn>129539</pgn>
      <field>6</field>
    </parameter_group>
  </mapping>
  <mapping>
    <path>~/navigation/gnss/almanac/mode</path>
    <parameter_group>
      <pgn>129540</pgn>
      <field>1</field>
    </parameter_group>
  </mapping>
  <mapping>
    <path>~/navigation/gnss/almanac/satellitesInView</path>
    <parameter_group>
      <pgn>129540</pgn>
      <field>3</field>
    </parameter_group>
  </mapping>
  <mapping>
    <path>~/environment/wind/speedApparent</path>
    <parameter_group>
      <pgn>130306</pgn>
      <field>1</field>
      <condition>
        <op>eq</op>
        <field>3</field>
        <value>Apparent</value>
      </condition>
    </parameter_group>
  </mapping>
  <mapping>
    <path>~/environment/wind/angleApparent</path>
    <parameter_group>
      <pgn>130306</pgn>
      <field>2</field>
      <condition>
        <op>eq</op>
        <field>3</field>
        <value>Apparent</value>
      </condition>
    </parameter_group>
  </mapping>
  <mapping>
    <path>~/environment/waterTemp</path>
    <parameter_group>
      <pgn>130310</pgn>
      <field>1</field>
    </parameter_group>
  </mapping>
  <mapping>
    <path>~/environment/airTemp</path>
    <parameter_group>
      <pgn>130310</pgn>
      <field>2</field>
    </parameter_group>
  </mapping>
  <mapping>
    <path>~/environment/airPressure</path>
    <parameter_group>
      <pgn>130310</pgn>
      <field>3</field>
    </parameter_group>
    <parameter_group>
      <pgn>130311</pgn>
      <field>5</field>
    </parameter_group>
  </mapping>
  <mapping>
    <path>~/entertainment/nowPlaying/trackName</path>
    <parameter_group>
      <pgn>130820</pgn>
      <field>6</field>
      <condition>
        <op>eq</op>
        <field>0</field>
        <value>419</value>
      </condition>
      <condition>
        <op>eq</op>
        <field>2</field>
        <value>4</value>
      </condition>
      <condition>
        <op>eq</op>
        <field>3</field>
        <value>5</value>
      </condition>
    </parameter_group>
    <sentence>
      <id>CTN</id>
      <field>5</field>
    </sentence>
  </mapping>
  <mapping>
    <path>~/vendor/simnet/reprogramStatus</path>
    <parameter_group>
      <pgn>130820</pgn>
      <field>4</field>
      <condition>
        <op>eq</op>
        <field>0</field>
        <value>1855</value>
      </condition>
      <condition>
        <op>eq</op>
        <field>2</field>
        <value>4</value>
      </condition>
    </parameter_group>
  </mapping>
  <mapping>
    <path>~/navigation/headingMagnetic</path>
    <parameter_group>
      <pgn>127250</pgn>
      <field>1</field>
      <condition>
        <op>eq</op>
        <field>4</field>
        <value>Magnetic</value>
      </condition>
    </parameter_group>
    <sentence>
      <id>HDG</id>
      <field>0</field>
    </sentence>
    <sentence>
      <id>HDM</id>
      <field>0</field>
    </sentence>
  </mapping>
  <mapping>
    <path>~/navigation/rateOfTurn</path>
    <parameter_group>
      <pgn>127251</pgn>
      <field>1</field>
    </parameter_group>
  </mapping>
  <mapping>
    <path>~/vendor/actisense/operatingMode</path>
    <parameter_group>
      <pgn>262161</pgn>
      <field>4</field>
    </parameter_group>
  </mapping>
  <mapping>
    <path>~/vendor/actisense/modelId</path>
    <parameter_group>
      <pgn>262384</pgn>
      <field>1</field>
    </parameter_group>
  </mapping>
  <mapping>
    <path>~/vendor/actisense/serialId</path>
    <parameter_group>
      <pgn>262384</pgn>
      <field>2</field>
    </parameter_group>
  </mapping>
  <mapping>
    <path>~/vendor/actisense/firmwareVersion</path>
    <parameter_group>
      <pgn>262384</pgn>
      <field>4</field>
    </parameter_group>
  </mapping>
  <mapping>
    <path>~/vendor/actisense/resetStatus</path>
    <parameter_group>
      <pgn>262384</pgn>
      <field>5</field>
    </parameter_group>
  </mapping>
  <mapping>
    <path>~/vendor/actisense/channelCount</path>
    <parameter_group>
      <pgn>262386</pgn>
      <field>4</field>
    </parameter_group>
  </mapping>
</mappings>
".
