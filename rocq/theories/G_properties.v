(** GENERATED by tools/gen.py from /repo/bluetooth_mesh/messages/properties.py; do not edit.
    The declarations of the module, in source order; every definition cites its lines. *)
From Verif Require Import PyVal Float64 Adapters Construct.

(* properties.py:59-217 *)
Definition properties_PropertyID : enum :=
  [("AVERAGE_AMBIENT_TEMPERATURE_IN_A_PERIOD_OF_DAY"%string, 1);
   ("AVERAGE_INPUT_CURRENT"%string, 2);
   ("AVERAGE_INPUT_VOLTAGE"%string, 3);
   ("AVERAGE_OUTPUT_CURRENT"%string, 4);
   ("AVERAGE_OUTPUT_VOLTAGE"%string, 5);
   ("CENTER_BEAM_INTENSITY_AT_FULL_POWER"%string, 6);
   ("CHROMATICITY_TOLERANCE"%string, 7);
   ("COLOR_RENDERING_INDEX_R9"%string, 8);
   ("COLOR_RENDERING_INDEX_RA"%string, 9);
   ("DEVICE_APPEARANCE"%string, 10);
   ("DEVICE_COUNTRY_OF_ORIGIN"%string, 11);
   ("DEVICE_DATE_OF_MANUFACTURE"%string, 12);
   ("DEVICE_ENERGY_USE_SINCE_TURN_ON"%string, 13);
   ("DEVICE_FIRMWARE_REVISION"%string, 14);
   ("DEVICE_GLOBAL_TRADE_ITEM_NUMBER"%string, 15);
   ("DEVICE_HARDWARE_REVISION"%string, 16);
   ("DEVICE_MANUFACTURER_NAME"%string, 17);
   ("DEVICE_MODEL_NUMBER"%string, 18);
   ("DEVICE_OPERATING_TEMPERATURE_RANGE_SPECIFICATION"%string, 19);
   ("DEVICE_OPERATING_TEMPERATURE_STATISTICAL_VALUES"%string, 20);
   ("DEVICE_OVER_TEMPERATURE_EVENT_STATISTICS"%string, 21);
   ("DEVICE_POWER_RANGE_SPECIFICATION"%string, 22);
   ("DEVICE_RUNTIME_SINCE_TURN_ON"%string, 23);
   ("DEVICE_RUNTIME_WARRANTY"%string, 24);
   ("DEVICE_SERIAL_NUMBER"%string, 25);
   ("DEVICE_SOFTWARE_REVISION"%string, 26);
   ("DEVICE_UNDER_TEMPERATURE_EVENT_STATISTICS"%string, 27);
   ("INDOOR_AMBIENT_TEMPERATURE_STATISTICAL_VALUES"%string, 28);
   ("INITIAL_CIE1931_CHROMATICITY_COORDINATES"%string, 29);
   ("INITIAL_CORRELATED_COLOR_TEMPERATURE"%string, 30);
   ("INITIAL_LUMINOUS_FLUX"%string, 31);
   ("INITIAL_PLANCKIAN_DISTANCE"%string, 32);
   ("INPUT_CURRENT_RANGE_SPECIFICATION"%string, 33);
   ("INPUT_CURRENT_STATISTICS"%string, 34);
   ("INPUT_OVER_CURRENT_EVENT_STATISTICS"%string, 35);
   ("INPUT_OVER_RIPPLE_VOLTAGE_EVENT_STATISTICS"%string, 36);
   ("INPUT_OVER_VOLTAGE_EVENT_STATISTICS"%string, 37);
   ("INPUT_UNDER_CURRENT_EVENT_STATISTICS"%string, 38);
   ("INPUT_UNDER_VOLTAGE_EVENT_STATISTICS"%string, 39);
   ("INPUT_VOLTAGE_RANGE_SPECIFICATION"%string, 40);
   ("INPUT_VOLTAGE_RIPPLE_SPECIFICATION"%string, 41);
   ("INPUT_VOLTAGE_STATISTICS"%string, 42);
   ("LIGHT_CONTROL_AMBIENT_LUXLEVEL_ON"%string, 43);
   ("LIGHT_CONTROL_AMBIENT_LUXLEVEL_PROLONG"%string, 44);
   ("LIGHT_CONTROL_AMBIENT_LUXLEVEL_STANDBY"%string, 45);
   ("LIGHT_CONTROL_LIGHTNESS_ON"%string, 46);
   ("LIGHT_CONTROL_LIGHTNESS_PROLONG"%string, 47);
   ("LIGHT_CONTROL_LIGHTNESS_STANDBY"%string, 48);
   ("LIGHT_CONTROL_REGULATOR_ACCURACY"%string, 49);
   ("LIGHT_CONTROL_REGULATOR_KID"%string, 50);
   ("LIGHT_CONTROL_REGULATOR_KIU"%string, 51);
   ("LIGHT_CONTROL_REGULATOR_KPD"%string, 52);
   ("LIGHT_CONTROL_REGULATOR_KPU"%string, 53);
   ("LIGHT_CONTROL_TIME_FADE"%string, 54);
   ("LIGHT_CONTROL_TIME_FADE_ON"%string, 55);
   ("LIGHT_CONTROL_TIME_FADE_STANDBY_AUTO"%string, 56);
   ("LIGHT_CONTROL_TIME_FADE_STANDBY_MANUAL"%string, 57);
   ("LIGHT_CONTROL_TIME_OCCUPANCY_DELAY"%string, 58);
   ("LIGHT_CONTROL_TIME_PROLONG"%string, 59);
   ("LIGHT_CONTROL_TIME_RUN_ON"%string, 60);
   ("LUMEN_MAINTENANCE_FACTOR"%string, 61);
   ("LUMINOUS_EFFICACY"%string, 62);
   ("LUMINOUS_ENERGY_SINCE_TURN_ON"%string, 63);
   ("LUMINOUS_EXPOSURE"%string, 64);
   ("LUMINOUS_FLUX_RANGE"%string, 65);
   ("MOTION_SENSED"%string, 66);
   ("MOTION_THRESHOLD"%string, 67);
   ("OPEN_CIRCUIT_EVENT_STATISTICS"%string, 68);
   ("OUTDOOR_STATISTICAL_VALUES"%string, 69);
   ("OUTPUT_CURRENT_RANGE"%string, 70);
   ("OUTPUT_CURRENT_STATISTICS"%string, 71);
   ("OUTPUT_RIPPLE_VOLTAGE_SPECIFICATION"%string, 72);
   ("OUTPUT_VOLTAGE_RANGE"%string, 73);
   ("OUTPUT_VOLTAGE_STATISTICS"%string, 74);
   ("OVER_OUTPUT_RIPPLE_VOLTAGE_EVENT_STATISTICS"%string, 75);
   ("PEOPLE_COUNT"%string, 76);
   ("PRESENCE_DETECTED"%string, 77);
   ("PRESENT_AMBIENT_LIGHT_LEVEL"%string, 78);
   ("PRESENT_AMBIENT_TEMPERATURE"%string, 79);
   ("PRESENT_CIE1931_CHROMATICITY_COORDINATES"%string, 80);
   ("PRESENT_CORRELATED_COLOR_TEMPERATURE"%string, 81);
   ("PRESENT_DEVICE_INPUT_POWER"%string, 82);
   ("PRESENT_DEVICE_OPERATING_EFFICIENCY"%string, 83);
   ("PRESENT_DEVICE_OPERATING_TEMPERATURE"%string, 84);
   ("PRESENT_ILLUMINANCE"%string, 85);
   ("PRESENT_INDOOR_AMBIENT_TEMPERATURE"%string, 86);
   ("PRESENT_INPUT_CURRENT"%string, 87);
   ("PRESENT_INPUT_RIPPLE_VOLTAGE"%string, 88);
   ("PRESENT_INPUT_VOLTAGE"%string, 89);
   ("PRESENT_LUMINOUS_FLUX"%string, 90);
   ("PRESENT_OUTDOOR_AMBIENT_TEMPERATURE"%string, 91);
   ("PRESENT_OUTPUT_CURRENT"%string, 92);
   ("PRESENT_OUTPUT_VOLTAGE"%string, 93);
   ("PRESENT_PLANCKIAN_DISTANCE"%string, 94);
   ("PRESENT_RELATIVE_OUTPUT_RIPPLE_VOLTAGE"%string, 95);
   ("RELATIVE_DEVICE_ENERGY_USE_IN_A_PERIOD_OF_DAY"%string, 96);
   ("RELATIVE_DEVICE_RUNTIME_IN_A_GENERIC_LEVEL_RANGE"%string, 97);
   ("RELATIVE_EXPOSURE_TIME_IN_AN_ILLUMINANCE_RANGE"%string, 98);
   ("RELATIVE_RUNTIME_IN_A_CORRELATED_COLOR_TEMPERATURE_RANGE"%string, 99);
   ("RELATIVE_RUNTIME_IN_A_DEVICE_OPERATING_TEMPERATURE_RANGE"%string, 100);
   ("RELATIVE_RUNTIME_IN_AN_INPUT_CURRENT_RANGE"%string, 101);
   ("RELATIVE_RUNTIME_IN_AN_INPUT_VOLTAGE_RANGE"%string, 102);
   ("SHORT_CIRCUIT_EVENT_STATISTICS"%string, 103);
   ("TIME_SINCE_MOTION_SENSED"%string, 104);
   ("TIME_SINCE_PRESENCE_DETECTED"%string, 105);
   ("TOTAL_DEVICE_ENERGY_USE"%string, 106);
   ("TOTAL_DEVICE_OFF_ON_CYCLES"%string, 107);
   ("TOTAL_DEVICE_POWER_ON_CYCLES"%string, 108);
   ("TOTAL_DEVICE_POWER_ON_TIME"%string, 109);
   ("TOTAL_DEVICE_RUNTIME"%string, 110);
   ("TOTAL_LIGHT_EXPOSURE_TIME"%string, 111);
   ("TOTAL_LUMINOUS_ENERGY"%string, 112);
   ("PRECISE_TOTAL_DEVICE_ENERGY_USE"%string, 114);
   ("POWER_FACTOR"%string, 115);
   ("ACTIVE_ENERGY_LOAD_SIDE"%string, 128);
   ("ACTIVE_POWER_LOAD_SIDE"%string, 129);
   ("APPARENT_POWER"%string, 132);
   ("APPARENT_ENERGY"%string, 131);
   ("EXTERNAL_SUPPLY_VOLTAGE"%string, 136);
   ("EXTERNAL_SUPPLY_VOLTAGE_FREQUENCY"%string, 137);
   ("LIGHT_DISTRIBUTION"%string, 140);
   ("LIGHT_SOURCE_CURRENT"%string, 141);
   ("LIGHT_SOURCE_ON_TIME_NOT_RESETTABLE"%string, 142);
   ("LIGHT_SOURCE_ON_TIME_RESETTABLE"%string, 143);
   ("LIGHT_SOURCE_OPEN_CIRCUIT_STATISTICS"%string, 144);
   ("LIGHT_SOURCE_OVERALL_FAILURES_STATISTICS"%string, 145);
   ("LIGHT_SOURCE_SHORT_CIRCUIT_STATISTICS"%string, 146);
   ("LIGHT_SOURCE_START_COUNTER_RESETTABLE"%string, 147);
   ("LIGHT_SOURCE_TEMPERATURE"%string, 148);
   ("LIGHT_SOURCE_THERMAL_DERATING_STATISTICS"%string, 149);
   ("LIGHT_SOURCE_THERMAL_SHUTDOWN_STATISTICS"%string, 150);
   ("LIGHT_SOURCE_TOTAL_POWER_ON_CYCLES"%string, 151);
   ("LIGHT_SOURCE_VOLTAGE"%string, 152);
   ("LUMINAIRE_COLOR"%string, 153);
   ("LUMINAIRE_IDENTIFICATION_NUMBER"%string, 154);
   ("LUMINAIRE_MANUFACTURER_GTIN"%string, 155);
   ("LUMINAIRE_NOMINAL_INPUT_POWER"%string, 156);
   ("LUMINAIRE_NOMINAL_MAXIMUM_AC_MAINS_VOLTAGE"%string, 157);
   ("LUMINAIRE_NOMINAL_MINIMUM_AC_MAINS_VOLTAGE"%string, 158);
   ("LUMINAIRE_POWER_AT_MINIMUM_DIM_LEVEL"%string, 159);
   ("LUMINAIRE_TIME_OF_MANUFACTURE"%string, 160);
   ("NOMINAL_LIGHT_OUTPUT"%string, 164);
   ("OVERALL_FAILURE_CONDITION"%string, 165);
   ("RATED_MEDIAN_USEFUL_LIFE_OF_LUMINAIRE"%string, 171);
   ("RATED_MEDIAN_USEFUL_LIGHT_SOURCE_STARTS"%string, 172);
   ("REFERENCE_TEMPERATURE"%string, 173);
   ("TOTAL_DEVICE_STARTS"%string, 174);
   ("LUMINAIRE_IDENTIFICATION_STRING"%string, 180);
   ("OUTPUT_POWER_LIMITATION"%string, 181);
   ("THERMAL_DERATING"%string, 182);
   ("OUTPUT_CURRENT_PERCENT"%string, 183);
   ("LIGHT_SOURCE_TYPE"%string, 179);
   ("SENSOR_GAIN"%string, 116);
   ("PRECISE_PRESENT_AMBIENT_TEMPERATURE"%string, 117);
   ("DESIRED_AMBIENT_TEMPERATURE"%string, 113)].

(* properties.py:257-263 *)
Definition properties_LightDistributionField : enum :=
  [("TYPE_NOT_SPECIFIED"%string, 0);
   ("TYPE_I"%string, 1);
   ("TYPE_II"%string, 2);
   ("TYPE_III"%string, 3);
   ("TYPE_IV"%string, 4);
   ("TYPE_V"%string, 5)].

(* properties.py:266-276 *)
Definition properties_LightSourceTypeField : enum :=
  [("TYPE_NOT_SPECIFIED"%string, 0);
   ("LOW_PRESSURE_FLUORESCENT"%string, 1);
   ("HIGH_INTENSITY_DISCHARGE"%string, 2);
   ("LOW_VOLTAGE_HALOGEN"%string, 3);
   ("INCANDESCENT"%string, 4);
   ("LIGHT_EMITTING_DIODE"%string, 5);
   ("ORGANIC_LIGHT_EMITTING_DIODE"%string, 6);
   ("OTHER_THAN_LISTED_ABOVE"%string, 253);
   ("NO_LIGHT_SOURCE"%string, 254);
   ("MULTIPLE_LIGHT_SOURCE_TYPES"%string, 255)].

(* properties.py:294-296 *)
Definition properties_TimeMiliseconds24 : con :=
  (CStruct (FCons "seconds" (CAdapt (ACount 3 3 (RFloat (flit 1 1000)) true) Int24ul)
    FNil)).

(* properties.py:298-300 *)
Definition properties_TimeHour24 : con :=
  (CStruct (FCons "hours" (CAdapt (ACount 3 0 (RFloat 1) true) Int24ul)
    FNil)).

(* properties.py:302-304 *)
Definition properties_TimeSecond16 : con :=
  (CStruct (FCons "seconds" (CAdapt (ACount 2 0 (RFloat 1) true) Int16ul)
    FNil)).

(* properties.py:306-308 *)
Definition properties_TimeSecond32 : con :=
  (CStruct (FCons "seconds" (CAdapt (ACount 4 0 (RFloat 1) true) Int32ul)
    FNil)).

(* properties.py:310-312 *)
Definition properties_TimeExponential8 : con :=
  (CStruct (FCons "seconds" (CAdapt ATimeExp8 Int8ul)
    FNil)).

(* properties.py:314-316 *)
Definition properties_TimeDecihour8 : con :=
  (CStruct (FCons "hour" (CAdapt (ACount 1 1 (RFloat (flit 1 10)) true) Int8ul)
    FNil)).

(* properties.py:318-320 *)
Definition properties_DateUTC : con :=
  (CStruct (FCons "date" (CAdapt ADate Int24ul)
    FNil)).

(* properties.py:324-326 *)
Definition properties_ElectricCurrent : con :=
  (CStruct (FCons "current" (CAdapt (ACount 2 2 (RFloat (flit 1 100)) true) Int16ul)
    FNil)).

(* properties.py:328-331 *)
Definition properties_AverageCurrent : con :=
  (CStruct (FCons "electric_current_value" (CAdapt (ACount 2 2 (RFloat (flit 1 100)) true) Int16ul)
    (FCons "sensing_duration" properties_TimeExponential8
    FNil))).

(* properties.py:333-336 *)
Definition properties_ElectricCurrentRange : con :=
  (CStruct (FCons "minimum_electric_current_value" (CAdapt (ACount 2 2 (RFloat (flit 1 100)) true) Int16ul)
    (FCons "maximum_electric_current_value" (CAdapt (ACount 2 2 (RFloat (flit 1 100)) true) Int16ul)
    FNil))).

(* properties.py:338-342 *)
Definition properties_ElectricCurrentSpecification : con :=
  (CStruct (FCons "minimum_electric_current_value" (CAdapt (ACount 2 2 (RFloat (flit 1 100)) true) Int16ul)
    (FCons "typical_electric_current_value" (CAdapt (ACount 2 2 (RFloat (flit 1 100)) true) Int16ul)
    (FCons "maximum_electric_current_value" (CAdapt (ACount 2 2 (RFloat (flit 1 100)) true) Int16ul)
    FNil)))).

(* properties.py:344-349 *)
Definition properties_ElectricCurrentStatistics : con :=
  (CStruct (FCons "average_electric_current_value" (CAdapt (ACount 2 2 (RFloat (flit 1 100)) true) Int16ul)
    (FCons "standard_deviation_electric_current_value" (CAdapt (ACount 2 2 (RFloat (flit 1 100)) true) Int16ul)
    (fapp (struct_fields properties_ElectricCurrentRange)
    (FCons "sensing_duration" properties_TimeExponential8
    FNil))))).

(* properties.py:351-355 *)
Definition properties_RelativeValueInACurrentRange : con :=
  (CStruct (FCons "relative_value" (CAdapt (ACount 1 1 (RFloat (flit 5 10)) true) Int8ul)
    (FCons "minimum_current" (CAdapt (ACount 2 2 (RFloat (flit 1 100)) true) Int16ul)
    (FCons "maximum_current" (CAdapt (ACount 2 2 (RFloat (flit 1 100)) true) Int16ul)
    FNil)))).

(* properties.py:359-361 *)
Definition properties_Voltage : con :=
  (CStruct (FCons "voltage" (CAdapt (ACount 2 0 (RFloat (flit 1 64)) true) Int16ul)
    FNil)).

(* properties.py:363-366 *)
Definition properties_AverageVoltage : con :=
  (CStruct (FCons "voltage_value" (CAdapt (ACount 2 0 (RFloat (flit 1 64)) true) Int16ul)
    (FCons "sensing_duration" properties_TimeExponential8
    FNil))).

(* properties.py:368-372 *)
Definition properties_VoltageRange : con :=
  (CStruct (FCons "minimum_voltage_value" (CAdapt (ACount 2 0 (RFloat (flit 1 64)) true) Int16ul)
    (FCons "typical_voltage_value" (CAdapt (ACount 2 0 (RFloat (flit 1 64)) true) Int16ul)
    (FCons "maximum_voltage_value" (CAdapt (ACount 2 0 (RFloat (flit 1 64)) true) Int16ul)
    FNil)))).

(* properties.py:374-380 *)
Definition properties_VoltageStatistics : con :=
  (CStruct (FCons "average_voltage_value" (CAdapt (ACount 2 0 (RFloat (flit 1 64)) true) Int16ul)
    (FCons "standard_deviation_voltage_value" (CAdapt (ACount 2 0 (RFloat (flit 1 64)) true) Int16ul)
    (FCons "minimum_voltage_value" (CAdapt (ACount 2 0 (RFloat (flit 1 64)) true) Int16ul)
    (FCons "maximum_voltage_value" (CAdapt (ACount 2 0 (RFloat (flit 1 64)) true) Int16ul)
    (FCons "sensing_duration" properties_TimeExponential8
    FNil)))))).

(* properties.py:382-386 *)
Definition properties_RelativeValueInAVoltageRange : con :=
  (CStruct (FCons "relative_value" (CAdapt (ACount 1 1 (RFloat (flit 5 10)) false) Int8ul)
    (FCons "minimum_voltage" (CAdapt (ACount 2 0 (RFloat (flit 1 64)) true) Int16ul)
    (FCons "maximum_voltage" (CAdapt (ACount 2 0 (RFloat (flit 1 64)) true) Int16ul)
    FNil)))).

(* properties.py:388-390 *)
Definition properties_HighVoltage : con :=
  (CStruct (FCons "high_voltage" (CAdapt (ACount 3 0 (RFloat (flit 1 64)) false) Int24ul)
    FNil)).

(* properties.py:392-394 *)
Definition properties_VoltageFrequency : con :=
  (CStruct (FCons "voltage_frequency" Int16ul
    FNil)).

(* properties.py:397-399 *)
Definition properties_Energy : con :=
  (CStruct (FCons "energy" (CAdapt (ACount 3 0 (RFloat 1) true) Int24ul)
    FNil)).

(* properties.py:401-403 *)
Definition properties_PreciseEnergy : con :=
  (CStruct (FCons "energy" (CAdapt (ACount 4 3 (RFloat (flit 1 1000)) false) Int32ul)
    FNil)).

(* properties.py:406-410 *)
Definition properties_EnergyInAPeriodOfDay : con :=
  (CStruct (FCons "energy_value" (CAdapt (ACount 3 0 (RFloat 1) true) Int24ul)
    (FCons "start_time" properties_TimeDecihour8
    (FCons "end_time" properties_TimeDecihour8
    FNil)))).

(* properties.py:412-414 *)
Definition properties_ApparentEnergy32 : con :=
  (CStruct (FCons "energy" (CAdapt (ACount 4 3 (RFloat (flit 1 1000)) false) Int32ul)
    FNil)).

(* properties.py:416-418 *)
Definition properties_Energy32 : con :=
  (CStruct (FCons "energy" (CAdapt (ACount 4 3 (RFloat (flit 1 1000)) false) Int32ul)
    FNil)).

(* properties.py:422-424 *)
Definition properties_Power : con :=
  (CStruct (FCons "power" (CAdapt (ACount 3 1 (RFloat (flit 1 10)) false) Int24ul)
    FNil)).

(* properties.py:426-430 *)
Definition properties_PowerSpecification : con :=
  (CStruct (FCons "minimum_power_value" (CAdapt (ACount 3 1 (RFloat (flit 1 10)) true) Int24ul)
    (FCons "typical_power_value" (CAdapt (ACount 3 1 (RFloat (flit 1 10)) true) Int24ul)
    (FCons "maximum_power_value" (CAdapt (ACount 3 1 (RFloat (flit 1 10)) true) Int24ul)
    FNil)))).

(* properties.py:432-434 *)
Definition properties_ApparentPower : con :=
  (CStruct (FCons "power" (CAdapt (ACount 3 1 (RFloat (flit 1 10)) true) Int24ul)
    FNil)).

(* properties.py:438-440 *)
Definition properties_Temperature : con :=
  (CStruct (FCons "temperature" (CAdapt (ACount 2 2 (RFloat (flit 1 100)) true) Int16sl)
    FNil)).

(* properties.py:442-444 *)
Definition properties_Temperature8 : con :=
  (CStruct (FCons "temperature" (CAdapt (ACount 1 1 (RFloat (flit 5 10)) true) Int8sl)
    FNil)).

(* properties.py:446-449 *)
Definition properties_TemperatureRange : con :=
  (CStruct (FCons "minimum_temperature" (CAdapt (ACount 1 1 (RFloat (flit 5 10)) true) Int8sl)
    (FCons "maximum_temperature" (CAdapt (ACount 1 1 (RFloat (flit 5 10)) true) Int8sl)
    FNil))).

(* properties.py:451-456 *)
Definition properties_Temperature8Statistics : con :=
  (CStruct (FCons "average_temperature" (CAdapt (ACount 1 1 (RFloat (flit 5 10)) true) Int8sl)
    (FCons "standard_deviation_temperature" (CAdapt (ACount 1 1 (RFloat (flit 5 10)) true) Int8sl)
    (fapp (struct_fields properties_TemperatureRange)
    (FCons "sensing_duration" properties_TimeExponential8
    FNil))))).

(* properties.py:458-462 *)
Definition properties_Temperature8InAPeriodOfDay : con :=
  (CStruct (FCons "temperature" (CAdapt (ACount 1 1 (RFloat (flit 5 10)) true) Int8sl)
    (FCons "start_time" properties_TimeDecihour8
    (FCons "end_time" properties_TimeDecihour8
    FNil)))).

(* properties.py:464-470 *)
Definition properties_TemperatureStatistics : con :=
  (CStruct (FCons "average_temperature" (CAdapt (ACount 2 2 (RFloat (flit 1 100)) true) Int16sl)
    (FCons "standard_deviation_temperature" (CAdapt (ACount 2 2 (RFloat (flit 1 100)) true) Int16sl)
    (FCons "minimum_temperature" (CAdapt (ACount 2 2 (RFloat (flit 1 100)) true) Int16sl)
    (FCons "maximum_temperature" (CAdapt (ACount 2 2 (RFloat (flit 1 100)) true) Int16sl)
    (FCons "sensing_duration" properties_TimeExponential8
    FNil)))))).

(* properties.py:472-474 *)
Definition properties_HighTemperature : con :=
  (CStruct (FCons "temperature" (CAdapt (ACount 2 1 (RFloat (flit 5 10)) false) Int16sl)
    FNil)).

(* properties.py:476-480 *)
Definition properties_RelativeValueInATemperatureRange : con :=
  (CStruct (FCons "relative_value" (CAdapt (ACount 1 1 (RFloat (flit 5 10)) false) Int8ul)
    (FCons "minimum_temperature" (CAdapt (ACount 2 2 (RFloat (flit 1 100)) true) Int16sl)
    (FCons "maximum_temperature" (CAdapt (ACount 2 2 (RFloat (flit 1 100)) true) Int16sl)
    FNil)))).

(* properties.py:484-486 *)
Definition properties_LuminousFlux : con :=
  (CStruct (FCons "luminous_flux" (CAdapt (ACount 2 0 (RFloat 1) true) Int16ul)
    FNil)).

(* properties.py:488-491 *)
Definition properties_LuminousFluxRange : con :=
  (CStruct (FCons "minimum_luminous_flux" (CAdapt (ACount 2 0 (RFloat 1) true) Int16ul)
    (FCons "maximum_luminous_flux" (CAdapt (ACount 2 0 (RFloat 1) true) Int16ul)
    FNil))).

(* properties.py:493-495 *)
Definition properties_LuminousEnergy : con :=
  (CStruct (FCons "luminous_energy" (CAdapt (ACount 3 1 (RInt 1000) true) Int24ul)
    FNil)).

(* properties.py:497-499 *)
Definition properties_LuminousExposure : con :=
  (CStruct (FCons "luminous_exposure" (CAdapt (ACount 3 1 (RInt 1000) true) Int24ul)
    FNil)).

(* properties.py:501-503 *)
Definition properties_LuminousIntensity : con :=
  (CStruct (FCons "luminous_intensity" (CAdapt (ACount 2 0 (RFloat 1) true) Int16ul)
    FNil)).

(* properties.py:505-507 *)
Definition properties_LuminousEfficacy : con :=
  (CStruct (FCons "luminous_efficacy" (CAdapt (ACount 2 1 (RFloat (flit 1 10)) true) Int16ul)
    FNil)).

(* properties.py:509-511 *)
Definition properties_Illuminance : con :=
  (CStruct (FCons "illuminance" (CAdapt (ACount 3 2 (RFloat (flit 1 100)) false) Int24ul)
    FNil)).

(* properties.py:513-517 *)
Definition properties_RelativeValueInAnIlluminanceRange : con :=
  (CStruct (FCons "relative_value" (CAdapt (ACount 1 1 (RFloat (flit 5 10)) false) Int8ul)
    (FCons "minimum_illuminance" (CAdapt (ACount 3 2 (RFloat (flit 1 100)) false) Int24ul)
    (FCons "maximum_illuminance" (CAdapt (ACount 3 2 (RFloat (flit 1 100)) false) Int24ul)
    FNil)))).

(* properties.py:519-521 *)
Definition properties_PerceivedLightness : con :=
  (CStruct (FCons "perceived_lightness" Int16ul
    FNil)).

(* properties.py:523-525 *)
Definition properties_LightDistribution : con :=
  (CStruct (FCons "light_distribution" (CAdapt (AEnum properties_LightDistributionField) Int8ul)
    FNil)).

(* properties.py:527-529 *)
Definition properties_LightOutput : con :=
  (CStruct (FCons "light_output" (CAdapt (ACount 3 1 (RInt 1) false) Int24ul)
    FNil)).

(* properties.py:531-533 *)
Definition properties_LightSourceType : con :=
  (CStruct (FCons "light_source_type" (CAdapt (AEnum properties_LightSourceTypeField) Int8ul)
    FNil)).

(* properties.py:536-538 *)
Definition properties_Percentage8 : con :=
  (CStruct (FCons "percentage" (CAdapt (ACount 1 1 (RFloat (flit 5 10)) true) Int8ul)
    FNil)).

(* properties.py:540-542 *)
Definition properties_Count16 : con :=
  (CStruct (FCons "count" (CAdapt (ACount 2 0 (RFloat 1) true) Int16ul)
    FNil)).

(* properties.py:544-546 *)
Definition properties_Count24 : con :=
  (CStruct (FCons "count" (CAdapt (ACount 3 0 (RFloat 1) true) Int24ul)
    FNil)).

(* properties.py:548-550 *)
Definition properties_Coefficient : con :=
  (CStruct (FCons "coefficient" (CAdapt (ACount 4 0 (RFloat 1) true) Int32ul)
    FNil)).

(* properties.py:554-556 *)
Definition properties_ChromaticityTolerance : con :=
  (CStruct (FCons "chromaticity_tolerance" (CAdapt (ACount 1 4 (RFloat (flit 1 10000)) false) Int8sl)
    FNil)).

(* properties.py:558-560 *)
Definition properties_ChromaticDistanceFromPlanckian : con :=
  (CStruct (FCons "distance_from_planckian" (CAdapt (ACount 2 5 (RFloat (flit 1 100000)) false) Int16sl)
    FNil)).

(* properties.py:562-564 *)
Definition properties_CorrelatedColorTemperature : con :=
  (CStruct (FCons "correlated_color_temperature" (CAdapt (ACount 2 1 (RInt 1) true) Int16ul)
    FNil)).

(* properties.py:566-569 *)
Definition properties_ChromaticityCoordinates : con :=
  (CStruct (FCons "chromaticity_x_coordinate" (CAdapt (ACount 2 0 (RFloat (flit 1 65535)) false) Int16ul)
    (FCons "chromaticity_y_coordinate" (CAdapt (ACount 2 0 (RFloat (flit 1 65535)) false) Int16ul)
    FNil))).

(* properties.py:571-573 *)
Definition properties_ColorRenderingIndex : con :=
  (CStruct (FCons "color_rendering_index" (CAdapt (ACount 1 0 (RFloat 1) false) Int8sl)
    FNil)).

(* properties.py:577-579 *)
Definition properties_CosineOfTheAngle : con :=
  (CStruct (FCons "cosine_of_the_angle" Int8sl
    FNil)).

(* properties.py:581-583 *)
Definition properties_GlobalTradeItemNumber : con :=
  (CStruct (FCons "global_trade_item_number" (CBytesInt 6 true)
    FNil)).

(* properties.py:585-592 *)
Definition properties_Appearance : con :=
  (CStruct (FBits 2 (FCons "category" (CBits 10 false)
    (FCons "sub_category" (CBits 6 false)
    FNil))
    FNil)).

(* properties.py:594-596 *)
Definition properties_CountryCode : con :=
  (CStruct (FCons "country_code" (CAdapt (ACount 2 0 (RFloat 1) true) Int16ul)
    FNil)).

(* properties.py:598-600 *)
Definition properties_Presence : con :=
  (CStruct (FCons "presence_detected" CFlag
    FNil)).

(* properties.py:602-607 *)
Definition properties_EventStatistics : con :=
  (CStruct (FCons "number_of_events" properties_Count16
    (FCons "average_event_duration" properties_TimeSecond16
    (FCons "time_elapsed_since_last_event" properties_TimeExponential8
    (FCons "sensing_duration" properties_TimeExponential8
    FNil))))).

(* properties.py:609-613 *)
Definition properties_RelativeRuntimeInAGenericLevelRange : con :=
  (CStruct (FCons "relative_value" (CAdapt (ACount 1 1 (RFloat (flit 5 10)) false) Int8ul)
    (FCons "minimum_generic_level" (CAdapt (ACount 2 0 (RFloat 1) false) Int16ul)
    (FCons "maximum_generic_level" (CAdapt (ACount 2 0 (RFloat 1) false) Int16ul)
    FNil)))).

(* properties.py:615-771 *)
Definition properties_PropertyDict : cases :=
  (KCons "AVERAGE_AMBIENT_TEMPERATURE_IN_A_PERIOD_OF_DAY" 1 properties_Temperature8InAPeriodOfDay
    (KCons "AVERAGE_INPUT_CURRENT" 2 properties_AverageCurrent
    (KCons "AVERAGE_INPUT_VOLTAGE" 3 properties_AverageVoltage
    (KCons "AVERAGE_OUTPUT_CURRENT" 4 properties_AverageCurrent
    (KCons "AVERAGE_OUTPUT_VOLTAGE" 5 properties_AverageVoltage
    (KCons "CENTER_BEAM_INTENSITY_AT_FULL_POWER" 6 properties_LuminousIntensity
    (KCons "CHROMATICITY_TOLERANCE" 7 properties_ChromaticityTolerance
    (KCons "COLOR_RENDERING_INDEX_R9" 8 properties_ColorRenderingIndex
    (KCons "COLOR_RENDERING_INDEX_RA" 9 properties_ColorRenderingIndex
    (KCons "DEVICE_APPEARANCE" 10 properties_Appearance
    (KCons "DEVICE_COUNTRY_OF_ORIGIN" 11 properties_CountryCode
    (KCons "DEVICE_DATE_OF_MANUFACTURE" 12 properties_DateUTC
    (KCons "DEVICE_ENERGY_USE_SINCE_TURN_ON" 13 properties_Energy
    (KCons "DEVICE_FIRMWARE_REVISION" 14 (CAdapt AFixedString (CPaddedString (EConst 8)))
    (KCons "DEVICE_GLOBAL_TRADE_ITEM_NUMBER" 15 properties_GlobalTradeItemNumber
    (KCons "DEVICE_HARDWARE_REVISION" 16 (CAdapt AFixedString (CPaddedString (EConst 16)))
    (KCons "DEVICE_MANUFACTURER_NAME" 17 (CAdapt AFixedString (CPaddedString (EConst 36)))
    (KCons "DEVICE_MODEL_NUMBER" 18 (CAdapt AFixedString (CPaddedString (EConst 24)))
    (KCons "DEVICE_OPERATING_TEMPERATURE_RANGE_SPECIFICATION" 19 properties_TemperatureRange
    (KCons "DEVICE_OPERATING_TEMPERATURE_STATISTICAL_VALUES" 20 properties_TemperatureStatistics
    (KCons "DEVICE_OVER_TEMPERATURE_EVENT_STATISTICS" 21 properties_EventStatistics
    (KCons "DEVICE_POWER_RANGE_SPECIFICATION" 22 properties_PowerSpecification
    (KCons "DEVICE_RUNTIME_SINCE_TURN_ON" 23 properties_TimeHour24
    (KCons "DEVICE_RUNTIME_WARRANTY" 24 properties_TimeHour24
    (KCons "DEVICE_SERIAL_NUMBER" 25 (CAdapt AFixedString (CPaddedString (EConst 16)))
    (KCons "DEVICE_SOFTWARE_REVISION" 26 (CAdapt AFixedString (CPaddedString (EConst 8)))
    (KCons "DEVICE_UNDER_TEMPERATURE_EVENT_STATISTICS" 27 properties_EventStatistics
    (KCons "INDOOR_AMBIENT_TEMPERATURE_STATISTICAL_VALUES" 28 properties_Temperature8Statistics
    (KCons "INITIAL_CIE1931_CHROMATICITY_COORDINATES" 29 properties_ChromaticityCoordinates
    (KCons "INITIAL_CORRELATED_COLOR_TEMPERATURE" 30 properties_CorrelatedColorTemperature
    (KCons "INITIAL_LUMINOUS_FLUX" 31 properties_LuminousFlux
    (KCons "INITIAL_PLANCKIAN_DISTANCE" 32 properties_ChromaticDistanceFromPlanckian
    (KCons "INPUT_CURRENT_RANGE_SPECIFICATION" 33 properties_ElectricCurrentSpecification
    (KCons "INPUT_CURRENT_STATISTICS" 34 properties_ElectricCurrentStatistics
    (KCons "INPUT_OVER_CURRENT_EVENT_STATISTICS" 35 properties_EventStatistics
    (KCons "INPUT_OVER_RIPPLE_VOLTAGE_EVENT_STATISTICS" 36 properties_EventStatistics
    (KCons "INPUT_OVER_VOLTAGE_EVENT_STATISTICS" 37 properties_EventStatistics
    (KCons "INPUT_UNDER_CURRENT_EVENT_STATISTICS" 38 properties_EventStatistics
    (KCons "INPUT_UNDER_VOLTAGE_EVENT_STATISTICS" 39 properties_EventStatistics
    (KCons "INPUT_VOLTAGE_RANGE_SPECIFICATION" 40 properties_VoltageRange
    (KCons "INPUT_VOLTAGE_RIPPLE_SPECIFICATION" 41 properties_Percentage8
    (KCons "INPUT_VOLTAGE_STATISTICS" 42 properties_VoltageStatistics
    (KCons "LIGHT_CONTROL_AMBIENT_LUXLEVEL_ON" 43 properties_Illuminance
    (KCons "LIGHT_CONTROL_AMBIENT_LUXLEVEL_PROLONG" 44 properties_Illuminance
    (KCons "LIGHT_CONTROL_AMBIENT_LUXLEVEL_STANDBY" 45 properties_Illuminance
    (KCons "LIGHT_CONTROL_LIGHTNESS_ON" 46 properties_PerceivedLightness
    (KCons "LIGHT_CONTROL_LIGHTNESS_PROLONG" 47 properties_PerceivedLightness
    (KCons "LIGHT_CONTROL_LIGHTNESS_STANDBY" 48 properties_PerceivedLightness
    (KCons "LIGHT_CONTROL_REGULATOR_ACCURACY" 49 properties_Percentage8
    (KCons "LIGHT_CONTROL_REGULATOR_KID" 50 properties_Coefficient
    (KCons "LIGHT_CONTROL_REGULATOR_KIU" 51 properties_Coefficient
    (KCons "LIGHT_CONTROL_REGULATOR_KPD" 52 properties_Coefficient
    (KCons "LIGHT_CONTROL_REGULATOR_KPU" 53 properties_Coefficient
    (KCons "LIGHT_CONTROL_TIME_FADE" 54 properties_TimeMiliseconds24
    (KCons "LIGHT_CONTROL_TIME_FADE_ON" 55 properties_TimeMiliseconds24
    (KCons "LIGHT_CONTROL_TIME_FADE_STANDBY_AUTO" 56 properties_TimeMiliseconds24
    (KCons "LIGHT_CONTROL_TIME_FADE_STANDBY_MANUAL" 57 properties_TimeMiliseconds24
    (KCons "LIGHT_CONTROL_TIME_OCCUPANCY_DELAY" 58 properties_TimeMiliseconds24
    (KCons "LIGHT_CONTROL_TIME_PROLONG" 59 properties_TimeMiliseconds24
    (KCons "LIGHT_CONTROL_TIME_RUN_ON" 60 properties_TimeMiliseconds24
    (KCons "LUMEN_MAINTENANCE_FACTOR" 61 properties_Percentage8
    (KCons "LUMINOUS_EFFICACY" 62 properties_LuminousEfficacy
    (KCons "LUMINOUS_ENERGY_SINCE_TURN_ON" 63 properties_LuminousEnergy
    (KCons "LUMINOUS_EXPOSURE" 64 properties_LuminousExposure
    (KCons "LUMINOUS_FLUX_RANGE" 65 properties_LuminousFluxRange
    (KCons "MOTION_SENSED" 66 properties_Percentage8
    (KCons "MOTION_THRESHOLD" 67 properties_Percentage8
    (KCons "OPEN_CIRCUIT_EVENT_STATISTICS" 68 properties_EventStatistics
    (KCons "OUTDOOR_STATISTICAL_VALUES" 69 properties_Temperature8Statistics
    (KCons "OUTPUT_CURRENT_RANGE" 70 properties_ElectricCurrentRange
    (KCons "OUTPUT_CURRENT_STATISTICS" 71 properties_ElectricCurrentStatistics
    (KCons "OUTPUT_RIPPLE_VOLTAGE_SPECIFICATION" 72 properties_Percentage8
    (KCons "OUTPUT_VOLTAGE_RANGE" 73 properties_VoltageRange
    (KCons "OUTPUT_VOLTAGE_STATISTICS" 74 properties_VoltageStatistics
    (KCons "OVER_OUTPUT_RIPPLE_VOLTAGE_EVENT_STATISTICS" 75 properties_EventStatistics
    (KCons "PEOPLE_COUNT" 76 properties_Count16
    (KCons "PRESENCE_DETECTED" 77 properties_Presence
    (KCons "PRESENT_AMBIENT_LIGHT_LEVEL" 78 properties_Illuminance
    (KCons "PRESENT_AMBIENT_TEMPERATURE" 79 properties_Temperature8
    (KCons "PRESENT_CIE1931_CHROMATICITY_COORDINATES" 80 properties_ChromaticityCoordinates
    (KCons "PRESENT_CORRELATED_COLOR_TEMPERATURE" 81 properties_CorrelatedColorTemperature
    (KCons "PRESENT_DEVICE_INPUT_POWER" 82 properties_Power
    (KCons "PRESENT_DEVICE_OPERATING_EFFICIENCY" 83 properties_Percentage8
    (KCons "PRESENT_DEVICE_OPERATING_TEMPERATURE" 84 properties_Temperature
    (KCons "PRESENT_ILLUMINANCE" 85 properties_Illuminance
    (KCons "PRESENT_INDOOR_AMBIENT_TEMPERATURE" 86 properties_Temperature8
    (KCons "PRESENT_INPUT_CURRENT" 87 properties_ElectricCurrent
    (KCons "PRESENT_INPUT_RIPPLE_VOLTAGE" 88 properties_Percentage8
    (KCons "PRESENT_INPUT_VOLTAGE" 89 properties_Voltage
    (KCons "PRESENT_LUMINOUS_FLUX" 90 properties_LuminousFlux
    (KCons "PRESENT_OUTDOOR_AMBIENT_TEMPERATURE" 91 properties_Temperature8
    (KCons "PRESENT_OUTPUT_CURRENT" 92 properties_ElectricCurrent
    (KCons "PRESENT_OUTPUT_VOLTAGE" 93 properties_Voltage
    (KCons "PRESENT_PLANCKIAN_DISTANCE" 94 properties_ChromaticDistanceFromPlanckian
    (KCons "PRESENT_RELATIVE_OUTPUT_RIPPLE_VOLTAGE" 95 properties_Percentage8
    (KCons "RELATIVE_DEVICE_ENERGY_USE_IN_A_PERIOD_OF_DAY" 96 properties_EnergyInAPeriodOfDay
    (KCons "RELATIVE_DEVICE_RUNTIME_IN_A_GENERIC_LEVEL_RANGE" 97 properties_RelativeRuntimeInAGenericLevelRange
    (KCons "RELATIVE_EXPOSURE_TIME_IN_AN_ILLUMINANCE_RANGE" 98 properties_RelativeValueInAnIlluminanceRange
    (KCons "RELATIVE_RUNTIME_IN_A_CORRELATED_COLOR_TEMPERATURE_RANGE" 99 properties_LuminousEnergy
    (KCons "RELATIVE_RUNTIME_IN_A_DEVICE_OPERATING_TEMPERATURE_RANGE" 100 properties_RelativeValueInATemperatureRange
    (KCons "RELATIVE_RUNTIME_IN_AN_INPUT_CURRENT_RANGE" 101 properties_RelativeValueInACurrentRange
    (KCons "RELATIVE_RUNTIME_IN_AN_INPUT_VOLTAGE_RANGE" 102 properties_RelativeValueInAVoltageRange
    (KCons "SHORT_CIRCUIT_EVENT_STATISTICS" 103 properties_EventStatistics
    (KCons "TIME_SINCE_MOTION_SENSED" 104 properties_TimeSecond16
    (KCons "TIME_SINCE_PRESENCE_DETECTED" 105 properties_TimeSecond16
    (KCons "TOTAL_DEVICE_ENERGY_USE" 106 properties_Energy
    (KCons "TOTAL_DEVICE_OFF_ON_CYCLES" 107 properties_Count24
    (KCons "TOTAL_DEVICE_POWER_ON_CYCLES" 108 properties_Count24
    (KCons "TOTAL_DEVICE_POWER_ON_TIME" 109 properties_TimeHour24
    (KCons "TOTAL_DEVICE_RUNTIME" 110 properties_TimeHour24
    (KCons "TOTAL_LIGHT_EXPOSURE_TIME" 111 properties_TimeHour24
    (KCons "TOTAL_LUMINOUS_ENERGY" 112 properties_LuminousEnergy
    (KCons "PRECISE_TOTAL_DEVICE_ENERGY_USE" 114 properties_PreciseEnergy
    (KCons "POWER_FACTOR" 115 properties_CosineOfTheAngle
    (KCons "EXTERNAL_SUPPLY_VOLTAGE" 136 properties_HighVoltage
    (KCons "EXTERNAL_SUPPLY_VOLTAGE_FREQUENCY" 137 properties_VoltageFrequency
    (KCons "LIGHT_DISTRIBUTION" 140 properties_LightDistribution
    (KCons "LIGHT_SOURCE_CURRENT" 141 properties_AverageCurrent
    (KCons "LIGHT_SOURCE_ON_TIME_NOT_RESETTABLE" 142 properties_TimeSecond32
    (KCons "LIGHT_SOURCE_ON_TIME_RESETTABLE" 143 properties_TimeSecond32
    (KCons "LIGHT_SOURCE_OPEN_CIRCUIT_STATISTICS" 144 properties_EventStatistics
    (KCons "LIGHT_SOURCE_OVERALL_FAILURES_STATISTICS" 145 properties_EventStatistics
    (KCons "LIGHT_SOURCE_SHORT_CIRCUIT_STATISTICS" 146 properties_EventStatistics
    (KCons "LIGHT_SOURCE_START_COUNTER_RESETTABLE" 147 properties_Count24
    (KCons "LIGHT_SOURCE_TEMPERATURE" 148 properties_HighTemperature
    (KCons "LIGHT_SOURCE_THERMAL_DERATING_STATISTICS" 149 properties_EventStatistics
    (KCons "LIGHT_SOURCE_THERMAL_SHUTDOWN_STATISTICS" 150 properties_EventStatistics
    (KCons "LIGHT_SOURCE_TOTAL_POWER_ON_CYCLES" 151 properties_Count24
    (KCons "LIGHT_SOURCE_VOLTAGE" 152 properties_AverageVoltage
    (KCons "LUMINAIRE_COLOR" 153 (CAdapt AFixedString (CPaddedString (EConst 24)))
    (KCons "LUMINAIRE_IDENTIFICATION_NUMBER" 154 (CAdapt AFixedString (CPaddedString (EConst 24)))
    (KCons "LUMINAIRE_NOMINAL_INPUT_POWER" 156 properties_Power
    (KCons "LUMINAIRE_NOMINAL_MAXIMUM_AC_MAINS_VOLTAGE" 157 properties_Voltage
    (KCons "LUMINAIRE_NOMINAL_MINIMUM_AC_MAINS_VOLTAGE" 158 properties_Voltage
    (KCons "LUMINAIRE_POWER_AT_MINIMUM_DIM_LEVEL" 159 properties_Power
    (KCons "LUMINAIRE_TIME_OF_MANUFACTURE" 160 properties_DateUTC
    (KCons "NOMINAL_LIGHT_OUTPUT" 164 properties_LightOutput
    (KCons "OVERALL_FAILURE_CONDITION" 165 properties_EventStatistics
    (KCons "RATED_MEDIAN_USEFUL_LIFE_OF_LUMINAIRE" 171 properties_TimeHour24
    (KCons "RATED_MEDIAN_USEFUL_LIGHT_SOURCE_STARTS" 172 properties_Count24
    (KCons "REFERENCE_TEMPERATURE" 173 properties_HighTemperature
    (KCons "TOTAL_DEVICE_STARTS" 174 properties_Count24
    (KCons "LUMINAIRE_IDENTIFICATION_STRING" 180 (CAdapt AFixedString (CPaddedString (EConst 64)))
    (KCons "OUTPUT_POWER_LIMITATION" 181 properties_EventStatistics
    (KCons "THERMAL_DERATING" 182 properties_EventStatistics
    (KCons "OUTPUT_CURRENT_PERCENT" 183 properties_Percentage8
    (KCons "LUMINAIRE_MANUFACTURER_GTIN" 155 properties_GlobalTradeItemNumber
    (KCons "APPARENT_ENERGY" 131 properties_ApparentEnergy32
    (KCons "APPARENT_POWER" 132 properties_ApparentPower
    (KCons "ACTIVE_ENERGY_LOAD_SIDE" 128 properties_Energy32
    (KCons "ACTIVE_POWER_LOAD_SIDE" 129 properties_Power
    (KCons "LIGHT_SOURCE_TYPE" 179 properties_LightSourceType
    (KCons "DESIRED_AMBIENT_TEMPERATURE" 113 properties_Temperature8
    (KCons "SENSOR_GAIN" 116 properties_Coefficient
    (KCons "PRECISE_PRESENT_AMBIENT_TEMPERATURE" 117 properties_Temperature
    KNil))))))))))))))))))))))))))))))))))))))))))))))))))))))))))))))))))))))))))))))))))))))))))))))))))))))))))))))))))))))))))))))))))))))))))))))))))))))))))).
