(** * PropValues: the values of device properties (specification of C58).

    For every device property, the members of its value, in the order of their octets: how many octets, signed or not, what
    one step stands for, and whether the greatest number means "not known".  In the grammar language of [Grammar]; nothing
    here refers to the declarations of the library.

    Where the library departs from the Bluetooth documents the table follows the library: a Coefficient is a whole number here
    (there: a 32 bit float), the relative runtime in a correlated color temperature range is a luminous energy (there: a
    percentage and two temperatures), a voltage frequency, a cosine and a perceived lightness are the bare numbers, the
    signed members have no "not known" value, and neither have the illuminance and the ranges' percentages. *)
From Coq Require Import QArith Qabs.
From Verif Require Import PyVal Bits Utf8 Codes Grammar.
Local Open Scope list_scope.
Local Open Scope Z_scope.

(** a quantity: a number z of n octets stands for z * num / den, as a float within 2^-50 of it, or exactly if [whole];
    if [unknown], the greatest number stands for "not known", the greatest float *)
Definition near (x q : Q) : Prop := (Qabs (x - q) <= Qabs q * (1 # 2 ^ 50))%Q.
Definition not_known : val := VFloat (inject_Z ((2 ^ 53 - 1) * 2 ^ 971)).
Definition quantity (n : nat) (signed whole unknown : bool) (num : Z) (den : positive) (v : val) (s : list Z) : Prop :=
  exists z, (if signed then - 256 ^ Z.of_nat n <= 2 * z < 256 ^ Z.of_nat n else 0 <= z < 256 ^ Z.of_nat n) /\ s = to_le n (z mod 256 ^ Z.of_nat n) /\
    (unknown = true /\ z = 256 ^ Z.of_nat n - 1 /\ v = not_known \/
     (unknown = true -> z <> 256 ^ Z.of_nat n - 1) /\ (if whole then v = VInt (z * num) else exists x, v = VFloat x /\ near x (inject_Z z * (num # den)))).
(** a time: 0, or 1.1 to the power b - 64 seconds, to four decimals *)
Definition exponential (v : val) (s : list Z) : Prop :=
  exists b, s = [b] /\ (b = 0 /\ v = VInt 0 \/ 0 < b < 256 /\ exists x, v = VFloat x /\
    (Qabs (x - (11 # 10) ^ (b - 64)) <= (5 # 100000) + (11 # 10) ^ (b - 64) * (1 # 10000000000))%Q).
(** a date: days since 1970-01-01, up to 9999-12-31 *)
Definition date (v : val) (s : list Z) : Prop := exists z, 0 <= z <= 2932896 /\ v = VDate z /\ s = to_le 3 z.
(** UTF-8 text in n octets, NULs at the end *)
Definition padded (n : nat) (v : val) (s : list Z) : Prop :=
  exists t l, v = VStr t /\ utf8_encode t = Some l /\ last l 1 <> 0 /\ (length l <= n)%nat /\ s = l ++ repeat 0 (n - length l).
(** an appearance: category (ten bits) and sub-category (six) of a little endian number; received, the object also holds both
    under the key "_" *)
Definition appearance_value (v : val) (s : list Z) : Prop :=
  exists c k, 0 <= c < 1024 /\ 0 <= k < 64 /\ s = to_le 2 (c * 64 + k) /\
    let d := [("category"%string, VInt c); ("sub_category"%string, VInt k)] in v = VDict d \/ v = VDict (("_"%string, VDict d) :: d).

Local Open Scope string_scope.
(** unsigned and signed numbers of n octets in steps of num/den; [q_]: the greatest one is "not known" *)
Definition q_ (n : nat) (num : Z) (den : positive) : fmt := FLeaf (quantity n false false true num den).
Definition u_ (n : nat) (num : Z) (den : positive) : fmt := FLeaf (quantity n false false false num den).
Definition s_ (n : nat) (num : Z) (den : positive) : fmt := FLeaf (quantity n true false false num den).
Definition text (n : nat) : fmt := FLeaf (padded n).

(** *** Times and dates *)
Definition time_milliseconds24 := plain [("seconds", q_ 3 1 1000)].
Definition time_hour24 := plain [("hours", q_ 3 1 1)].
Definition time_second16 := plain [("seconds", q_ 2 1 1)].
Definition time_second32 := plain [("seconds", q_ 4 1 1)].
Definition time_exponential8 := plain [("seconds", FLeaf exponential)].
Definition time_decihour8 := plain [("hour", q_ 1 1 10)].
Definition date_utc := plain [("date", FLeaf date)].
(** *** Electricity: amperes in hundredths, volts in 64ths, kilowatt hours, watts in tenths *)
Definition ampere := q_ 2 1 100.
Definition volt := q_ 2 1 64.
Definition percent := u_ 1 5 10.
Definition electric_current := plain [("current", ampere)].
Definition average_current := plain [("electric_current_value", ampere); ("sensing_duration", time_exponential8)].
Definition electric_current_range := plain [("minimum_electric_current_value", ampere); ("maximum_electric_current_value", ampere)].
Definition electric_current_specification :=
  plain [("minimum_electric_current_value", ampere); ("typical_electric_current_value", ampere); ("maximum_electric_current_value", ampere)].
Definition electric_current_statistics :=
  plain [("average_electric_current_value", ampere); ("standard_deviation_electric_current_value", ampere);
         ("minimum_electric_current_value", ampere); ("maximum_electric_current_value", ampere); ("sensing_duration", time_exponential8)].
Definition relative_value_in_a_current_range := plain [("relative_value", q_ 1 5 10); ("minimum_current", ampere); ("maximum_current", ampere)].
Definition voltage := plain [("voltage", volt)].
Definition average_voltage := plain [("voltage_value", volt); ("sensing_duration", time_exponential8)].
Definition voltage_range := plain [("minimum_voltage_value", volt); ("typical_voltage_value", volt); ("maximum_voltage_value", volt)].
Definition voltage_statistics :=
  plain [("average_voltage_value", volt); ("standard_deviation_voltage_value", volt); ("minimum_voltage_value", volt); ("maximum_voltage_value", volt);
         ("sensing_duration", time_exponential8)].
Definition relative_value_in_a_voltage_range := plain [("relative_value", percent); ("minimum_voltage", volt); ("maximum_voltage", volt)].
Definition high_voltage := plain [("high_voltage", u_ 3 1 64)].
Definition voltage_frequency := plain [("voltage_frequency", FU 2)].
Definition energy := plain [("energy", q_ 3 1 1)].
Definition precise_energy := plain [("energy", u_ 4 1 1000)].
Definition apparent_energy32 := plain [("energy", u_ 4 1 1000)].
Definition energy32 := plain [("energy", u_ 4 1 1000)].
Definition energy_in_a_period_of_day := plain [("energy_value", q_ 3 1 1); ("start_time", time_decihour8); ("end_time", time_decihour8)].
Definition power := plain [("power", u_ 3 1 10)].
Definition power_specification := plain [("minimum_power_value", q_ 3 1 10); ("typical_power_value", q_ 3 1 10); ("maximum_power_value", q_ 3 1 10)].
Definition apparent_power := plain [("power", q_ 3 1 10)].
(** *** Temperatures: degrees Celsius in hundredths or halves *)
Definition celsius := s_ 2 1 100.
Definition celsius8 := s_ 1 5 10.
Definition temperature := plain [("temperature", celsius)].
Definition temperature8 := plain [("temperature", celsius8)].
Definition temperature_range := plain [("minimum_temperature", celsius8); ("maximum_temperature", celsius8)].
Definition temperature8_statistics :=
  plain [("average_temperature", celsius8); ("standard_deviation_temperature", celsius8); ("minimum_temperature", celsius8); ("maximum_temperature", celsius8);
         ("sensing_duration", time_exponential8)].
Definition temperature8_in_a_period_of_day := plain [("temperature", celsius8); ("start_time", time_decihour8); ("end_time", time_decihour8)].
Definition temperature_statistics :=
  plain [("average_temperature", celsius); ("standard_deviation_temperature", celsius); ("minimum_temperature", celsius); ("maximum_temperature", celsius);
         ("sensing_duration", time_exponential8)].
Definition high_temperature := plain [("temperature", s_ 2 5 10)].
Definition relative_value_in_a_temperature_range := plain [("relative_value", percent); ("minimum_temperature", celsius); ("maximum_temperature", celsius)].
(** *** Light *)
Definition luminous_flux := plain [("luminous_flux", q_ 2 1 1)].
Definition luminous_flux_range := plain [("minimum_luminous_flux", q_ 2 1 1); ("maximum_luminous_flux", q_ 2 1 1)].
Definition luminous_energy := plain [("luminous_energy", FLeaf (quantity 3 false true true 1000 1))].
Definition luminous_exposure := plain [("luminous_exposure", FLeaf (quantity 3 false true true 1000 1))].
Definition luminous_intensity := plain [("luminous_intensity", q_ 2 1 1)].
Definition luminous_efficacy := plain [("luminous_efficacy", q_ 2 1 10)].
Definition lux := u_ 3 1 100.
Definition illuminance := plain [("illuminance", lux)].
Definition relative_value_in_an_illuminance_range := plain [("relative_value", percent); ("minimum_illuminance", lux); ("maximum_illuminance", lux)].
Definition perceived_lightness := plain [("perceived_lightness", FU 2)].
Definition light_distribution :=
  plain [("light_distribution", FE 1 [("TYPE_NOT_SPECIFIED", 0); ("TYPE_I", 1); ("TYPE_II", 2); ("TYPE_III", 3); ("TYPE_IV", 4); ("TYPE_V", 5)])].
Definition light_output := plain [("light_output", FLeaf (quantity 3 false true false 1 1))].
Definition light_source_type :=
  plain [("light_source_type", FE 1 [("TYPE_NOT_SPECIFIED", 0); ("LOW_PRESSURE_FLUORESCENT", 1); ("HIGH_INTENSITY_DISCHARGE", 2); ("LOW_VOLTAGE_HALOGEN", 3);
    ("INCANDESCENT", 4); ("LIGHT_EMITTING_DIODE", 5); ("ORGANIC_LIGHT_EMITTING_DIODE", 6); ("OTHER_THAN_LISTED_ABOVE", 0xFD); ("NO_LIGHT_SOURCE", 0xFE);
    ("MULTIPLE_LIGHT_SOURCE_TYPES", 0xFF)])].
Definition chromaticity_tolerance := plain [("chromaticity_tolerance", s_ 1 1 10000)].
Definition chromatic_distance_from_planckian := plain [("distance_from_planckian", s_ 2 1 100000)].
Definition correlated_color_temperature := plain [("correlated_color_temperature", FLeaf (quantity 2 false true true 1 1))].
Definition chromaticity_coordinates := plain [("chromaticity_x_coordinate", u_ 2 1 65535); ("chromaticity_y_coordinate", u_ 2 1 65535)].
Definition color_rendering_index := plain [("color_rendering_index", s_ 1 1 1)].
(** *** Others *)
Definition percentage8 := plain [("percentage", q_ 1 5 10)].
Definition count16 := plain [("count", q_ 2 1 1)].
Definition count24 := plain [("count", q_ 3 1 1)].
Definition coefficient := plain [("coefficient", q_ 4 1 1)].
Definition cosine_of_the_angle := plain [("cosine_of_the_angle", FS 1)].
Definition global_trade_item_number := plain [("global_trade_item_number", FLeaf (number 6 (fun _ => True)))].
Definition appearance := FLeaf appearance_value.
Definition country_code := plain [("country_code", q_ 2 1 1)].
Definition presence := plain [("presence_detected", FFlag)].
Definition event_statistics :=
  plain [("number_of_events", count16); ("average_event_duration", time_second16); ("time_elapsed_since_last_event", time_exponential8);
         ("sensing_duration", time_exponential8)].
Definition relative_runtime_in_a_generic_level_range := plain [("relative_value", percent); ("minimum_generic_level", u_ 2 1 1); ("maximum_generic_level", u_ 2 1 1)].

(** ** The properties *)
Definition device_properties : list (string * Z * fmt) :=
  [("AVERAGE_AMBIENT_TEMPERATURE_IN_A_PERIOD_OF_DAY", 1, temperature8_in_a_period_of_day); ("AVERAGE_INPUT_CURRENT", 2, average_current);
   ("AVERAGE_INPUT_VOLTAGE", 3, average_voltage); ("AVERAGE_OUTPUT_CURRENT", 4, average_current);
   ("AVERAGE_OUTPUT_VOLTAGE", 5, average_voltage); ("CENTER_BEAM_INTENSITY_AT_FULL_POWER", 6, luminous_intensity);
   ("CHROMATICITY_TOLERANCE", 7, chromaticity_tolerance); ("COLOR_RENDERING_INDEX_R9", 8, color_rendering_index);
   ("COLOR_RENDERING_INDEX_RA", 9, color_rendering_index); ("DEVICE_APPEARANCE", 10, appearance);
   ("DEVICE_COUNTRY_OF_ORIGIN", 11, country_code); ("DEVICE_DATE_OF_MANUFACTURE", 12, date_utc);
   ("DEVICE_ENERGY_USE_SINCE_TURN_ON", 13, energy); ("DEVICE_FIRMWARE_REVISION", 14, text 8);
   ("DEVICE_GLOBAL_TRADE_ITEM_NUMBER", 15, global_trade_item_number); ("DEVICE_HARDWARE_REVISION", 16, text 16);
   ("DEVICE_MANUFACTURER_NAME", 17, text 36); ("DEVICE_MODEL_NUMBER", 18, text 24);
   ("DEVICE_OPERATING_TEMPERATURE_RANGE_SPECIFICATION", 19, temperature_range);
   ("DEVICE_OPERATING_TEMPERATURE_STATISTICAL_VALUES", 20, temperature_statistics);
   ("DEVICE_OVER_TEMPERATURE_EVENT_STATISTICS", 21, event_statistics); ("DEVICE_POWER_RANGE_SPECIFICATION", 22, power_specification);
   ("DEVICE_RUNTIME_SINCE_TURN_ON", 23, time_hour24); ("DEVICE_RUNTIME_WARRANTY", 24, time_hour24); ("DEVICE_SERIAL_NUMBER", 25, text 16);
   ("DEVICE_SOFTWARE_REVISION", 26, text 8); ("DEVICE_UNDER_TEMPERATURE_EVENT_STATISTICS", 27, event_statistics);
   ("INDOOR_AMBIENT_TEMPERATURE_STATISTICAL_VALUES", 28, temperature8_statistics);
   ("INITIAL_CIE1931_CHROMATICITY_COORDINATES", 29, chromaticity_coordinates);
   ("INITIAL_CORRELATED_COLOR_TEMPERATURE", 30, correlated_color_temperature); ("INITIAL_LUMINOUS_FLUX", 31, luminous_flux);
   ("INITIAL_PLANCKIAN_DISTANCE", 32, chromatic_distance_from_planckian);
   ("INPUT_CURRENT_RANGE_SPECIFICATION", 33, electric_current_specification); ("INPUT_CURRENT_STATISTICS", 34, electric_current_statistics);
   ("INPUT_OVER_CURRENT_EVENT_STATISTICS", 35, event_statistics); ("INPUT_OVER_RIPPLE_VOLTAGE_EVENT_STATISTICS", 36, event_statistics);
   ("INPUT_OVER_VOLTAGE_EVENT_STATISTICS", 37, event_statistics); ("INPUT_UNDER_CURRENT_EVENT_STATISTICS", 38, event_statistics);
   ("INPUT_UNDER_VOLTAGE_EVENT_STATISTICS", 39, event_statistics); ("INPUT_VOLTAGE_RANGE_SPECIFICATION", 40, voltage_range);
   ("INPUT_VOLTAGE_RIPPLE_SPECIFICATION", 41, percentage8); ("INPUT_VOLTAGE_STATISTICS", 42, voltage_statistics);
   ("LIGHT_CONTROL_AMBIENT_LUXLEVEL_ON", 43, illuminance); ("LIGHT_CONTROL_AMBIENT_LUXLEVEL_PROLONG", 44, illuminance);
   ("LIGHT_CONTROL_AMBIENT_LUXLEVEL_STANDBY", 45, illuminance); ("LIGHT_CONTROL_LIGHTNESS_ON", 46, perceived_lightness);
   ("LIGHT_CONTROL_LIGHTNESS_PROLONG", 47, perceived_lightness); ("LIGHT_CONTROL_LIGHTNESS_STANDBY", 48, perceived_lightness);
   ("LIGHT_CONTROL_REGULATOR_ACCURACY", 49, percentage8); ("LIGHT_CONTROL_REGULATOR_KID", 50, coefficient);
   ("LIGHT_CONTROL_REGULATOR_KIU", 51, coefficient); ("LIGHT_CONTROL_REGULATOR_KPD", 52, coefficient);
   ("LIGHT_CONTROL_REGULATOR_KPU", 53, coefficient); ("LIGHT_CONTROL_TIME_FADE", 54, time_milliseconds24);
   ("LIGHT_CONTROL_TIME_FADE_ON", 55, time_milliseconds24); ("LIGHT_CONTROL_TIME_FADE_STANDBY_AUTO", 56, time_milliseconds24);
   ("LIGHT_CONTROL_TIME_FADE_STANDBY_MANUAL", 57, time_milliseconds24); ("LIGHT_CONTROL_TIME_OCCUPANCY_DELAY", 58, time_milliseconds24);
   ("LIGHT_CONTROL_TIME_PROLONG", 59, time_milliseconds24); ("LIGHT_CONTROL_TIME_RUN_ON", 60, time_milliseconds24);
   ("LUMEN_MAINTENANCE_FACTOR", 61, percentage8); ("LUMINOUS_EFFICACY", 62, luminous_efficacy);
   ("LUMINOUS_ENERGY_SINCE_TURN_ON", 63, luminous_energy); ("LUMINOUS_EXPOSURE", 64, luminous_exposure);
   ("LUMINOUS_FLUX_RANGE", 65, luminous_flux_range); ("MOTION_SENSED", 66, percentage8); ("MOTION_THRESHOLD", 67, percentage8);
   ("OPEN_CIRCUIT_EVENT_STATISTICS", 68, event_statistics); ("OUTDOOR_STATISTICAL_VALUES", 69, temperature8_statistics);
   ("OUTPUT_CURRENT_RANGE", 70, electric_current_range); ("OUTPUT_CURRENT_STATISTICS", 71, electric_current_statistics);
   ("OUTPUT_RIPPLE_VOLTAGE_SPECIFICATION", 72, percentage8); ("OUTPUT_VOLTAGE_RANGE", 73, voltage_range);
   ("OUTPUT_VOLTAGE_STATISTICS", 74, voltage_statistics); ("OVER_OUTPUT_RIPPLE_VOLTAGE_EVENT_STATISTICS", 75, event_statistics);
   ("PEOPLE_COUNT", 76, count16); ("PRESENCE_DETECTED", 77, presence); ("PRESENT_AMBIENT_LIGHT_LEVEL", 78, illuminance);
   ("PRESENT_AMBIENT_TEMPERATURE", 79, temperature8); ("PRESENT_CIE1931_CHROMATICITY_COORDINATES", 80, chromaticity_coordinates);
   ("PRESENT_CORRELATED_COLOR_TEMPERATURE", 81, correlated_color_temperature); ("PRESENT_DEVICE_INPUT_POWER", 82, power);
   ("PRESENT_DEVICE_OPERATING_EFFICIENCY", 83, percentage8); ("PRESENT_DEVICE_OPERATING_TEMPERATURE", 84, temperature);
   ("PRESENT_ILLUMINANCE", 85, illuminance); ("PRESENT_INDOOR_AMBIENT_TEMPERATURE", 86, temperature8);
   ("PRESENT_INPUT_CURRENT", 87, electric_current); ("PRESENT_INPUT_RIPPLE_VOLTAGE", 88, percentage8); ("PRESENT_INPUT_VOLTAGE", 89, voltage);
   ("PRESENT_LUMINOUS_FLUX", 90, luminous_flux); ("PRESENT_OUTDOOR_AMBIENT_TEMPERATURE", 91, temperature8);
   ("PRESENT_OUTPUT_CURRENT", 92, electric_current); ("PRESENT_OUTPUT_VOLTAGE", 93, voltage);
   ("PRESENT_PLANCKIAN_DISTANCE", 94, chromatic_distance_from_planckian); ("PRESENT_RELATIVE_OUTPUT_RIPPLE_VOLTAGE", 95, percentage8);
   ("RELATIVE_DEVICE_ENERGY_USE_IN_A_PERIOD_OF_DAY", 96, energy_in_a_period_of_day);
   ("RELATIVE_DEVICE_RUNTIME_IN_A_GENERIC_LEVEL_RANGE", 97, relative_runtime_in_a_generic_level_range);
   ("RELATIVE_EXPOSURE_TIME_IN_AN_ILLUMINANCE_RANGE", 98, relative_value_in_an_illuminance_range);
   ("RELATIVE_RUNTIME_IN_A_CORRELATED_COLOR_TEMPERATURE_RANGE", 99, luminous_energy);
   ("RELATIVE_RUNTIME_IN_A_DEVICE_OPERATING_TEMPERATURE_RANGE", 100, relative_value_in_a_temperature_range);
   ("RELATIVE_RUNTIME_IN_AN_INPUT_CURRENT_RANGE", 101, relative_value_in_a_current_range);
   ("RELATIVE_RUNTIME_IN_AN_INPUT_VOLTAGE_RANGE", 102, relative_value_in_a_voltage_range);
   ("SHORT_CIRCUIT_EVENT_STATISTICS", 103, event_statistics); ("TIME_SINCE_MOTION_SENSED", 104, time_second16);
   ("TIME_SINCE_PRESENCE_DETECTED", 105, time_second16); ("TOTAL_DEVICE_ENERGY_USE", 106, energy);
   ("TOTAL_DEVICE_OFF_ON_CYCLES", 107, count24); ("TOTAL_DEVICE_POWER_ON_CYCLES", 108, count24);
   ("TOTAL_DEVICE_POWER_ON_TIME", 109, time_hour24); ("TOTAL_DEVICE_RUNTIME", 110, time_hour24);
   ("TOTAL_LIGHT_EXPOSURE_TIME", 111, time_hour24); ("TOTAL_LUMINOUS_ENERGY", 112, luminous_energy);
   ("PRECISE_TOTAL_DEVICE_ENERGY_USE", 114, precise_energy); ("POWER_FACTOR", 115, cosine_of_the_angle);
   ("EXTERNAL_SUPPLY_VOLTAGE", 136, high_voltage); ("EXTERNAL_SUPPLY_VOLTAGE_FREQUENCY", 137, voltage_frequency);
   ("LIGHT_DISTRIBUTION", 140, light_distribution); ("LIGHT_SOURCE_CURRENT", 141, average_current);
   ("LIGHT_SOURCE_ON_TIME_NOT_RESETTABLE", 142, time_second32); ("LIGHT_SOURCE_ON_TIME_RESETTABLE", 143, time_second32);
   ("LIGHT_SOURCE_OPEN_CIRCUIT_STATISTICS", 144, event_statistics); ("LIGHT_SOURCE_OVERALL_FAILURES_STATISTICS", 145, event_statistics);
   ("LIGHT_SOURCE_SHORT_CIRCUIT_STATISTICS", 146, event_statistics); ("LIGHT_SOURCE_START_COUNTER_RESETTABLE", 147, count24);
   ("LIGHT_SOURCE_TEMPERATURE", 148, high_temperature); ("LIGHT_SOURCE_THERMAL_DERATING_STATISTICS", 149, event_statistics);
   ("LIGHT_SOURCE_THERMAL_SHUTDOWN_STATISTICS", 150, event_statistics); ("LIGHT_SOURCE_TOTAL_POWER_ON_CYCLES", 151, count24);
   ("LIGHT_SOURCE_VOLTAGE", 152, average_voltage); ("LUMINAIRE_COLOR", 153, text 24); ("LUMINAIRE_IDENTIFICATION_NUMBER", 154, text 24);
   ("LUMINAIRE_NOMINAL_INPUT_POWER", 156, power); ("LUMINAIRE_NOMINAL_MAXIMUM_AC_MAINS_VOLTAGE", 157, voltage);
   ("LUMINAIRE_NOMINAL_MINIMUM_AC_MAINS_VOLTAGE", 158, voltage); ("LUMINAIRE_POWER_AT_MINIMUM_DIM_LEVEL", 159, power);
   ("LUMINAIRE_TIME_OF_MANUFACTURE", 160, date_utc); ("NOMINAL_LIGHT_OUTPUT", 164, light_output);
   ("OVERALL_FAILURE_CONDITION", 165, event_statistics); ("RATED_MEDIAN_USEFUL_LIFE_OF_LUMINAIRE", 171, time_hour24);
   ("RATED_MEDIAN_USEFUL_LIGHT_SOURCE_STARTS", 172, count24); ("REFERENCE_TEMPERATURE", 173, high_temperature);
   ("TOTAL_DEVICE_STARTS", 174, count24); ("LUMINAIRE_IDENTIFICATION_STRING", 180, text 64);
   ("OUTPUT_POWER_LIMITATION", 181, event_statistics); ("THERMAL_DERATING", 182, event_statistics);
   ("OUTPUT_CURRENT_PERCENT", 183, percentage8); ("LUMINAIRE_MANUFACTURER_GTIN", 155, global_trade_item_number);
   ("APPARENT_ENERGY", 131, apparent_energy32); ("APPARENT_POWER", 132, apparent_power); ("ACTIVE_ENERGY_LOAD_SIDE", 128, energy32);
   ("ACTIVE_POWER_LOAD_SIDE", 129, power); ("LIGHT_SOURCE_TYPE", 179, light_source_type); ("DESIRED_AMBIENT_TEMPERATURE", 113, temperature8);
   ("SENSOR_GAIN", 116, coefficient); ("PRECISE_PRESENT_AMBIENT_TEMPERATURE", 117, temperature)].
Definition emergency_lighting_properties : list (string * Z * fmt) :=
  [("EL_LIGHTNESS", 0xFF80, perceived_lightness); ("EL_LIGHTNESS_RANGE_MIN", 0xFF81, perceived_lightness);
   ("EL_LIGHTNESS_RANGE_MAX", 0xFF82, perceived_lightness); ("EL_PROLONG_TIME", 0xFF83, time_second16)].
Definition emergency_lighting_test_properties : list (string * Z * fmt) :=
  [("ELT_DURATION_TEST_EXECUTION_TIMEOUT", 0xFF84, time_second32); ("ELT_FUNCTIONAL_TEST_EXECUTION_TIMEOUT", 0xFF85, time_second32);
   ("ELT_DURATION_TEST_RETRY_PERIOD", 0xFF86, time_second32); ("ELT_FUNCTIONAL_TEST_RETRY_PERIOD", 0xFF87, time_second32);
   ("ELT_DURATION_TEST_BACKUP_AUTOMATIC_DELAY", 0xFF88, time_second32); ("ELT_FUNCTIONAL_TEST_BACKUP_AUTOMATIC_DELAY", 0xFF89, time_second32);
   ("ELT_DURATION_TEST_BACKUP_AUTOMATIC_INTERVAL", 0xFF8A, time_second32); ("ELT_FUNCTIONAL_TEST_BACKUP_AUTOMATIC_INTERVAL", 0xFF8B, time_second32)].
Definition extended_controller_properties : list (string * Z * fmt) :=
  [("AUTO_RESUME_MODE", 0xFF71, FFlag); ("AUTO_RESUME_TIMER", 0xFF72, time_milliseconds24)].

(** ** The messages that carry the value of one property
    name, opcode (and sub-opcode), whether an octet with the access rights stands between the identifier and the value,
    the documented properties *)
Definition property_messages : list (string * Z * bool * list (string * Z * fmt)) :=
  [("GENERIC_USER_PROPERTY_SET", 0x4C, false, device_properties); ("GENERIC_USER_PROPERTY_SET_UNACKNOWLEDGED", 0x4D, false, device_properties);
   ("GENERIC_USER_PROPERTY_STATUS", 0x4E, true, device_properties);
   ("GENERIC_ADMIN_PROPERTY_SET", 0x48, true, device_properties); ("GENERIC_ADMIN_PROPERTY_SET_UNACKNOWLEDGED", 0x49, true, device_properties);
   ("GENERIC_ADMIN_PROPERTY_STATUS", 0x4A, true, device_properties); ("GENERIC_MANUFACTURER_PROPERTY_STATUS", 0x46, true, device_properties)]%string.
Definition property_submessages : list (string * Z * string * Z * bool * list (string * Z * fmt)) :=
  [("SILVAIR_EL", 0xEA3601, "EL_PROPERTY_SET", 7, false, emergency_lighting_properties);
   ("SILVAIR_EL", 0xEA3601, "EL_PROPERTY_SET_UNACKNOWLEDGED", 8, false, emergency_lighting_properties);
   ("SILVAIR_EL", 0xEA3601, "EL_PROPERTY_STATUS", 9, false, emergency_lighting_properties);
   ("SILVAIR_ELT", 0xE93601, "ELT_PROPERTY_SET", 9, false, emergency_lighting_test_properties);
   ("SILVAIR_ELT", 0xE93601, "ELT_PROPERTY_SET_UNACKNOWLEDGED", 10, false, emergency_lighting_test_properties);
   ("SILVAIR_ELT", 0xE93601, "ELT_PROPERTY_STATUS", 11, false, emergency_lighting_test_properties);
   ("SILVAIR_LEC", 0xF63601, "PROPERTY_SET", 1, false, extended_controller_properties);
   ("SILVAIR_LEC", 0xF63601, "PROPERTY_SET_UNACKNOWLEDGED", 2, false, extended_controller_properties);
   ("SILVAIR_LEC", 0xF63601, "PROPERTY_STATUS", 3, false, extended_controller_properties)]%string.
(** the messages that carry the value of one setting of a sensor; the octet with the access rights is in the last one only *)
Definition setting_messages : list (string * Z * bool) :=
  [("SENSOR_SETTING_SET", 0x59, false); ("SENSOR_SETTING_SET_UNACKNOWLEDGED", 0x5A, false); ("SENSOR_SETTING_STATUS", 0x5B, true)]%string.
