(** * Codes: the documented codes of enumerated fields (specification of C56).

    Hand-written tables: the name and the number of every code, and where in a message each table is used.  Nothing here
    refers to the declarations of the library. *)
From Verif Require Import PyVal.
Local Open Scope string_scope.
Local Open Scope Z_scope.
Definition codes := list (string * Z).

(** ** The tables *)
(** Descriptors of a location (GATT Bluetooth namespace): the ordinals from 1 to 255 and a few words.  The library's
    spelling: "TWELVETH", and no "AND" before the round tens. *)
Definition ones : list string :=
  [""; "FIRST"; "SECOND"; "THIRD"; "FOURTH"; "FIFTH"; "SIXTH"; "SEVENTH"; "EIGHTH"; "NINTH"; "TENTH"; "ELEVENTH"; "TWELVETH"; "THIRTEENTH"; "FOURTEENTH";
   "FIFTEENTH"; "SIXTEENTH"; "SEVENTEENTH"; "EIGHTEENTH"; "NINETEENTH"].
Definition tens : list string := [""; ""; "TWENT"; "THIRT"; "FORT"; "FIFT"; "SIXT"; "SEVENT"; "EIGHT"; "NINET"].
Definition below_hundred (n : nat) : string :=
  if Nat.ltb n 20 then nth n ones "" else nth (n / 10) tens "" ++ (if Nat.eqb (n mod 10) 0 then "IETH" else "Y_" ++ nth (n mod 10) ones "").
Definition ordinal (n : nat) : string :=
  if Nat.ltb n 100 then below_hundred n
  else (if Nat.ltb n 200 then "ONE" else "TWO") ++
       (if Nat.eqb (n mod 100) 0 then "_HUNDREDTH"
        else (if Nat.leb 20 (n mod 100) && Nat.eqb (n mod 10) 0 then "_HUNDRED_" else "_HUNDRED_AND_") ++ below_hundred (n mod 100)).
Definition locations : codes :=
  (map (fun n => (ordinal n, Z.of_nat n)) (seq 1 255) ++
  [("UNKNOWN", 0); ("FRONT", 0x100); ("BACK", 0x101); ("TOP", 0x102); ("BOTTOM", 0x103); ("UPPER", 0x104); ("LOWER", 0x105); ("MAIN", 0x106); ("BACKUP", 0x107);
   ("AUXILIARY", 0x108); ("SUPPLEMENTARY", 0x109); ("FLASH", 0x10A); ("INSIDE", 0x10B); ("OUTSIDE", 0x10C); ("LEFT", 0x10D); ("RIGHT", 0x10E);
   ("INTERNAL", 0x10F); ("EXTERNAL", 0x110)])%list.
(** Mesh Profile 4.3.5; the range status messages use the same class *)
Definition status_codes : codes :=
  [("SUCCESS", 0); ("INVALID_ADDRESS", 1); ("INVALID_MODEL", 2); ("INVALID_APPKEY_INDEX", 3); ("INVALID_NETKEY_INDEX", 4); ("INSUFFICIENT_RESOURCES", 5);
   ("KEY_INDEX_ALREADY_STORED", 6); ("INVALID_PUBLISH_PARAMETERS", 7); ("NOT_A_SUBSCRIBE_MODEL", 8); ("STORAGE_FAILURE", 9); ("FEATURE_NOT_SUPPORTED",
   10); ("CANNOT_UPDATE", 11); ("CANNOT_REMOVE", 12); ("CANNOT_BIND", 13); ("TEMPORARILY_UNABLE_TO_CHANGE_STATE", 14); ("CANNOT_SET", 15);
   ("UNSPECIFIED_ERROR", 16); ("INVALID_BINDING", 17)].
Definition beacon_states : codes :=
  [("OFF", 0); ("ON", 1)].
Definition composition_pages : codes :=
  [("ZERO", 0); ("FIRST", 1); ("SECOND", 2); ("TWO_HUNDRED_AND_FIFTY_FIFTH", 255)].
Definition item_formats : codes :=
  [("SHORT", 0); ("LONG", 1)].
Definition feature_states : codes :=
  [("DISABLED", 0); ("ENABLED", 1); ("NOT_SUPPORTED", 2)].
Definition key_transitions : codes :=
  [("SECOND", 2); ("THIRD", 3)].
Definition key_phases : codes :=
  [("NORMAL", 0); ("FIRST", 1); ("SECOND", 2)].
Definition credentials : codes :=
  [("MASTER_SECURITY", 0); ("FRIENDSHIP_SECURITY", 1)].
Definition step_resolutions : codes :=
  [("RESOLUTION_100_MS", 0); ("RESOLUTION_1_S", 1); ("RESOLUTION_10_S", 2); ("RESOLUTION_10_MIN", 3)].
Definition identity_states : codes :=
  [("STOPPED", 0); ("RUNNING", 1); ("NOT_SUPPORTED", 2)].
Definition debug_subopcodes : codes :=
  [("RSSI_THRESHOLD_GET", 0); ("RSSI_THRESHOLD_SET", 1); ("RSSI_THRESHOLD_STATUS", 2); ("RADIO_TEST", 3); ("UPTIME_GET", 10); ("UPTIME_STATUS", 11);
   ("LAST_SW_FAULT_GET", 12); ("LAST_SW_FAULT_CLEAR", 13); ("LAST_SW_FAULT_STATUS", 14); ("SYSTEM_STATS_GET", 15); ("SYSTEM_STATS_STATUS", 16);
   ("LAST_MALLOC_FAULT_GET", 17); ("LAST_MALLOC_FAULT_CLEAR", 18); ("LAST_MALLOC_FAULT_STATUS", 19); ("LAST_FDS_FAULT_GET", 20); ("LAST_FDS_FAULT_CLEAR",
   21); ("LAST_FDS_FAULT_STATUS", 22); ("BYTES_BEFORE_GARBAGE_COLLECTOR_GET", 23); ("BYTES_BEFORE_GARBAGE_COLLECTOR_STATUS", 24);
   ("PROVISIONED_APP_VERSION_GET", 25); ("PROVISIONED_APP_VERSION_STATUS", 26); ("FULL_FIRMWARE_VERSION_GET", 27); ("FULL_FIRMWARE_VERSION_STATUS", 28);
   ("IV_INDEX_GET", 29); ("IV_INDEX_STATUS", 30); ("GARBAGE_COLLECTOR_COUNTER_GET", 31); ("GARBAGE_COLLECTOR_COUNTER_STATUS", 32); ("ARAP_LIST_SIZE_GET",
   33); ("ARAP_LIST_SIZE_STATUS", 34); ("ARAP_LIST_CONTENT_GET", 35); ("ARAP_LIST_CONTENT_STATUS", 36)].
Definition gateway_subopcodes : codes :=
  [("GATEWAY_CONFIGURATION_GET", 0); ("GATEWAY_CONFIGURATION_SET", 1); ("GATEWAY_PACKETS_GET", 2); ("GATEWAY_PACKETS_CLEAR", 3); ("MTU_SIZE_SET", 4);
   ("ETHERNET_MAC_ADDRESS_SET", 5); ("SERVER_ADDRESS_AND_PORT_NUMBER_SET", 6); ("RECONNECT_INTERVAL_SET", 7); ("DNS_IP_ADDRESS_SET", 8);
   ("IP_ADDRESS_SET", 9); ("GATEWAY_IP_ADDRESS_SET", 10); ("NETMASK_SET", 11); ("GATEWAY_CONFIGURATION_STATUS", 12); ("GATEWAY_PACKETS_STATUS", 13)].
Definition dhcp_flags : codes :=
  [("DHCP_DISABLED", 0); ("DHCP_ENABLED_STATIC_DNS", 1); ("DHCP_ENABLED_AUTO_DNS", 2)].
Definition gateway_status_codes : codes :=
  [("STATUS_SUCCESS", 0); ("STATUS_INVALID_ADDRESS", 1); ("STATUS_INVALID_MODEL", 2); ("STATUS_INVALID_APPKEY_IDX", 3); ("STATUS_INVALID_NETKEY_IDX", 4);
   ("STATUS_INSUFF_RESOURCES", 5); ("STATUS_KEY_INDEX_ALREADY_STORED", 6); ("STATUS_INVALID_PUBLISH_PARAMS", 7); ("STATUS_NOT_SUBSCRIBE_MODEL", 8);
   ("STATUS_STORAGE_FAILURE", 9); ("STATUS_FEATURE_NOT_SUPPORTED", 10); ("STATUS_CANNOT_UPDATE", 11); ("STATUS_CANNOT_REMOVE", 12);
   ("STATUS_CANNOT_BIND", 13); ("STATUS_TEMP_UNABLE_TO_CHANGE_STATE", 14); ("STATUS_CANNOT_SET", 15); ("STATUS_UNSPECIFIED_ERROR", 16);
   ("STATUS_INVALID_BINDING", 17)].
Definition connection_states : codes :=
  [("ETHERNET_IDLE", 0); ("ETHERNET_CONFIGURING", 1); ("ETHERNET_INITIALIZING", 2); ("ETHERNET_CONNECTING", 3); ("ETHERNET_HANDSHAKE", 4);
   ("ETHERNET_CONNECTED", 5)].
Definition link_states : codes :=
  [("LINK_DOWN", 0); ("LINK_UP", 1)].
Definition connection_errors : codes :=
  [("ERROR_NO_ERROR", 0); ("ERROR_EPERM", 1); ("ERROR_ENODEV", 2); ("ERROR_EADDRINUSE", 3); ("ERROR_EPROTO", 4); ("ERROR_RFU1", 5); ("ERROR_RFU2", 6);
   ("ERROR_RFU3", 7); ("ERROR_RFU4", 8); ("ERROR_RFU5", 9); ("ERROR_RFU6", 10); ("ERROR_RFU7", 11); ("ERROR_RFU8", 12); ("ERROR_RFU9", 13);
   ("ERROR_RFU10", 14); ("ERROR_UNKNOWN", 15)].
Definition battery_service : codes :=
  [("RFU", 0); ("BATTERY_NOT_REQUIRE_SERVICE", 1); ("BATTERY_REQUIRE_SERVICE", 2); ("BATTERY_SERVICEABILITY_UNKNOWN", 3)].
Definition battery_charging : codes :=
  [("BATTERY_NOT_CHARGEABLE", 0); ("BATTERY_CHARGEABLE_NOT_CHARGING", 1); ("BATTERY_CHARGEABLE_CHARGING", 2); ("BATTERY_CHARGING_STATE_UNKNOWN", 3)].
Definition battery_indicator : codes :=
  [("BATTERY_CHARGE_CRITICALLY_LOW", 0); ("BATTERY_CHARGE_LOW", 1); ("BATTERY_CHARGE_GOOD", 2); ("BATTERY_CHARGE_UNKNOWN", 3)].
(** Mesh Model 3.1.10 *)
Definition battery_presence : codes :=
  [("BATTERY_NOT_PRESENT", 0); ("BATTERY_PRESENT_REMOVABLE", 1); ("BATTERY_PRESENT_NON_REMOVABLE", 2); ("BATTERY_PRESENCE_UNKNOWN", 3)].
Definition nds_subopcodes : codes :=
  [("SUBSCRIPTION_GET", 0); ("SUBSCRIPTION_SET", 1); ("SUBSCRIPTION_SET_UNACKNOWLEDGED", 2); ("SUBSCRIPTION_STATUS", 3); ("RADIO_STAT_GET", 4);
   ("RADIO_STAT_SET", 5); ("RADIO_STAT_STATUS", 6)].
Definition nds_setup_subopcodes : codes :=
  [("PUBLICATION_GET", 0); ("PUBLICATION_SET", 1); ("PUBLICATION_STATUS", 2)].
Definition scene_status_codes : codes :=
  [("SUCCESS", 0); ("SCENE_REGISTER_FULL", 1); ("SCENE_NOT_FOUND", 2)].
Definition property_ids : codes :=
  [("AVERAGE_AMBIENT_TEMPERATURE_IN_A_PERIOD_OF_DAY", 1); ("AVERAGE_INPUT_CURRENT", 2); ("AVERAGE_INPUT_VOLTAGE", 3); ("AVERAGE_OUTPUT_CURRENT", 4);
   ("AVERAGE_OUTPUT_VOLTAGE", 5); ("CENTER_BEAM_INTENSITY_AT_FULL_POWER", 6); ("CHROMATICITY_TOLERANCE", 7); ("COLOR_RENDERING_INDEX_R9", 8);
   ("COLOR_RENDERING_INDEX_RA", 9); ("DEVICE_APPEARANCE", 10); ("DEVICE_COUNTRY_OF_ORIGIN", 11); ("DEVICE_DATE_OF_MANUFACTURE", 12);
   ("DEVICE_ENERGY_USE_SINCE_TURN_ON", 13); ("DEVICE_FIRMWARE_REVISION", 14); ("DEVICE_GLOBAL_TRADE_ITEM_NUMBER", 15); ("DEVICE_HARDWARE_REVISION", 16);
   ("DEVICE_MANUFACTURER_NAME", 17); ("DEVICE_MODEL_NUMBER", 18); ("DEVICE_OPERATING_TEMPERATURE_RANGE_SPECIFICATION", 19);
   ("DEVICE_OPERATING_TEMPERATURE_STATISTICAL_VALUES", 20); ("DEVICE_OVER_TEMPERATURE_EVENT_STATISTICS", 21); ("DEVICE_POWER_RANGE_SPECIFICATION", 22);
   ("DEVICE_RUNTIME_SINCE_TURN_ON", 23); ("DEVICE_RUNTIME_WARRANTY", 24); ("DEVICE_SERIAL_NUMBER", 25); ("DEVICE_SOFTWARE_REVISION", 26);
   ("DEVICE_UNDER_TEMPERATURE_EVENT_STATISTICS", 27); ("INDOOR_AMBIENT_TEMPERATURE_STATISTICAL_VALUES", 28); ("INITIAL_CIE1931_CHROMATICITY_COORDINATES",
   29); ("INITIAL_CORRELATED_COLOR_TEMPERATURE", 30); ("INITIAL_LUMINOUS_FLUX", 31); ("INITIAL_PLANCKIAN_DISTANCE", 32);
   ("INPUT_CURRENT_RANGE_SPECIFICATION", 33); ("INPUT_CURRENT_STATISTICS", 34); ("INPUT_OVER_CURRENT_EVENT_STATISTICS", 35);
   ("INPUT_OVER_RIPPLE_VOLTAGE_EVENT_STATISTICS", 36); ("INPUT_OVER_VOLTAGE_EVENT_STATISTICS", 37); ("INPUT_UNDER_CURRENT_EVENT_STATISTICS", 38);
   ("INPUT_UNDER_VOLTAGE_EVENT_STATISTICS", 39); ("INPUT_VOLTAGE_RANGE_SPECIFICATION", 40); ("INPUT_VOLTAGE_RIPPLE_SPECIFICATION", 41);
   ("INPUT_VOLTAGE_STATISTICS", 42); ("LIGHT_CONTROL_AMBIENT_LUXLEVEL_ON", 43); ("LIGHT_CONTROL_AMBIENT_LUXLEVEL_PROLONG", 44);
   ("LIGHT_CONTROL_AMBIENT_LUXLEVEL_STANDBY", 45); ("LIGHT_CONTROL_LIGHTNESS_ON", 46); ("LIGHT_CONTROL_LIGHTNESS_PROLONG", 47);
   ("LIGHT_CONTROL_LIGHTNESS_STANDBY", 48); ("LIGHT_CONTROL_REGULATOR_ACCURACY", 49); ("LIGHT_CONTROL_REGULATOR_KID", 50);
   ("LIGHT_CONTROL_REGULATOR_KIU", 51); ("LIGHT_CONTROL_REGULATOR_KPD", 52); ("LIGHT_CONTROL_REGULATOR_KPU", 53); ("LIGHT_CONTROL_TIME_FADE", 54);
   ("LIGHT_CONTROL_TIME_FADE_ON", 55); ("LIGHT_CONTROL_TIME_FADE_STANDBY_AUTO", 56); ("LIGHT_CONTROL_TIME_FADE_STANDBY_MANUAL", 57);
   ("LIGHT_CONTROL_TIME_OCCUPANCY_DELAY", 58); ("LIGHT_CONTROL_TIME_PROLONG", 59); ("LIGHT_CONTROL_TIME_RUN_ON", 60); ("LUMEN_MAINTENANCE_FACTOR", 61);
   ("LUMINOUS_EFFICACY", 62); ("LUMINOUS_ENERGY_SINCE_TURN_ON", 63); ("LUMINOUS_EXPOSURE", 64); ("LUMINOUS_FLUX_RANGE", 65); ("MOTION_SENSED", 66);
   ("MOTION_THRESHOLD", 67); ("OPEN_CIRCUIT_EVENT_STATISTICS", 68); ("OUTDOOR_STATISTICAL_VALUES", 69); ("OUTPUT_CURRENT_RANGE", 70);
   ("OUTPUT_CURRENT_STATISTICS", 71); ("OUTPUT_RIPPLE_VOLTAGE_SPECIFICATION", 72); ("OUTPUT_VOLTAGE_RANGE", 73); ("OUTPUT_VOLTAGE_STATISTICS", 74);
   ("OVER_OUTPUT_RIPPLE_VOLTAGE_EVENT_STATISTICS", 75); ("PEOPLE_COUNT", 76); ("PRESENCE_DETECTED", 77); ("PRESENT_AMBIENT_LIGHT_LEVEL", 78);
   ("PRESENT_AMBIENT_TEMPERATURE", 79); ("PRESENT_CIE1931_CHROMATICITY_COORDINATES", 80); ("PRESENT_CORRELATED_COLOR_TEMPERATURE", 81);
   ("PRESENT_DEVICE_INPUT_POWER", 82); ("PRESENT_DEVICE_OPERATING_EFFICIENCY", 83); ("PRESENT_DEVICE_OPERATING_TEMPERATURE", 84); ("PRESENT_ILLUMINANCE",
   85); ("PRESENT_INDOOR_AMBIENT_TEMPERATURE", 86); ("PRESENT_INPUT_CURRENT", 87); ("PRESENT_INPUT_RIPPLE_VOLTAGE", 88); ("PRESENT_INPUT_VOLTAGE", 89);
   ("PRESENT_LUMINOUS_FLUX", 90); ("PRESENT_OUTDOOR_AMBIENT_TEMPERATURE", 91); ("PRESENT_OUTPUT_CURRENT", 92); ("PRESENT_OUTPUT_VOLTAGE", 93);
   ("PRESENT_PLANCKIAN_DISTANCE", 94); ("PRESENT_RELATIVE_OUTPUT_RIPPLE_VOLTAGE", 95); ("RELATIVE_DEVICE_ENERGY_USE_IN_A_PERIOD_OF_DAY", 96);
   ("RELATIVE_DEVICE_RUNTIME_IN_A_GENERIC_LEVEL_RANGE", 97); ("RELATIVE_EXPOSURE_TIME_IN_AN_ILLUMINANCE_RANGE", 98);
   ("RELATIVE_RUNTIME_IN_A_CORRELATED_COLOR_TEMPERATURE_RANGE", 99); ("RELATIVE_RUNTIME_IN_A_DEVICE_OPERATING_TEMPERATURE_RANGE", 100);
   ("RELATIVE_RUNTIME_IN_AN_INPUT_CURRENT_RANGE", 101); ("RELATIVE_RUNTIME_IN_AN_INPUT_VOLTAGE_RANGE", 102); ("SHORT_CIRCUIT_EVENT_STATISTICS", 103);
   ("TIME_SINCE_MOTION_SENSED", 104); ("TIME_SINCE_PRESENCE_DETECTED", 105); ("TOTAL_DEVICE_ENERGY_USE", 106); ("TOTAL_DEVICE_OFF_ON_CYCLES", 107);
   ("TOTAL_DEVICE_POWER_ON_CYCLES", 108); ("TOTAL_DEVICE_POWER_ON_TIME", 109); ("TOTAL_DEVICE_RUNTIME", 110); ("TOTAL_LIGHT_EXPOSURE_TIME", 111);
   ("TOTAL_LUMINOUS_ENERGY", 112); ("PRECISE_TOTAL_DEVICE_ENERGY_USE", 114); ("POWER_FACTOR", 115); ("ACTIVE_ENERGY_LOAD_SIDE", 128);
   ("ACTIVE_POWER_LOAD_SIDE", 129); ("APPARENT_POWER", 132); ("APPARENT_ENERGY", 131); ("EXTERNAL_SUPPLY_VOLTAGE", 136);
   ("EXTERNAL_SUPPLY_VOLTAGE_FREQUENCY", 137); ("LIGHT_DISTRIBUTION", 140); ("LIGHT_SOURCE_CURRENT", 141); ("LIGHT_SOURCE_ON_TIME_NOT_RESETTABLE", 142);
   ("LIGHT_SOURCE_ON_TIME_RESETTABLE", 143); ("LIGHT_SOURCE_OPEN_CIRCUIT_STATISTICS", 144); ("LIGHT_SOURCE_OVERALL_FAILURES_STATISTICS", 145);
   ("LIGHT_SOURCE_SHORT_CIRCUIT_STATISTICS", 146); ("LIGHT_SOURCE_START_COUNTER_RESETTABLE", 147); ("LIGHT_SOURCE_TEMPERATURE", 148);
   ("LIGHT_SOURCE_THERMAL_DERATING_STATISTICS", 149); ("LIGHT_SOURCE_THERMAL_SHUTDOWN_STATISTICS", 150); ("LIGHT_SOURCE_TOTAL_POWER_ON_CYCLES", 151);
   ("LIGHT_SOURCE_VOLTAGE", 152); ("LUMINAIRE_COLOR", 153); ("LUMINAIRE_IDENTIFICATION_NUMBER", 154); ("LUMINAIRE_MANUFACTURER_GTIN", 155);
   ("LUMINAIRE_NOMINAL_INPUT_POWER", 156); ("LUMINAIRE_NOMINAL_MAXIMUM_AC_MAINS_VOLTAGE", 157); ("LUMINAIRE_NOMINAL_MINIMUM_AC_MAINS_VOLTAGE", 158);
   ("LUMINAIRE_POWER_AT_MINIMUM_DIM_LEVEL", 159); ("LUMINAIRE_TIME_OF_MANUFACTURE", 160); ("NOMINAL_LIGHT_OUTPUT", 164); ("OVERALL_FAILURE_CONDITION",
   165); ("RATED_MEDIAN_USEFUL_LIFE_OF_LUMINAIRE", 171); ("RATED_MEDIAN_USEFUL_LIGHT_SOURCE_STARTS", 172); ("REFERENCE_TEMPERATURE", 173);
   ("TOTAL_DEVICE_STARTS", 174); ("LUMINAIRE_IDENTIFICATION_STRING", 180); ("OUTPUT_POWER_LIMITATION", 181); ("THERMAL_DERATING", 182);
   ("OUTPUT_CURRENT_PERCENT", 183); ("LIGHT_SOURCE_TYPE", 179); ("SENSOR_GAIN", 116); ("PRECISE_PRESENT_AMBIENT_TEMPERATURE", 117);
   ("DESIRED_AMBIENT_TEMPERATURE", 113)].
Definition light_distributions : codes :=
  [("TYPE_NOT_SPECIFIED", 0); ("TYPE_I", 1); ("TYPE_II", 2); ("TYPE_III", 3); ("TYPE_IV", 4); ("TYPE_V", 5)].
Definition light_sources : codes :=
  [("TYPE_NOT_SPECIFIED", 0); ("LOW_PRESSURE_FLUORESCENT", 1); ("HIGH_INTENSITY_DISCHARGE", 2); ("LOW_VOLTAGE_HALOGEN", 3); ("INCANDESCENT", 4);
   ("LIGHT_EMITTING_DIODE", 5); ("ORGANIC_LIGHT_EMITTING_DIODE", 6); ("OTHER_THAN_LISTED_ABOVE", 253); ("NO_LIGHT_SOURCE", 254);
   ("MULTIPLE_LIGHT_SOURCE_TYPES", 255)].
Definition lec_subopcodes : codes :=
  [("PROPERTY_GET", 0); ("PROPERTY_SET", 1); ("PROPERTY_SET_UNACKNOWLEDGED", 2); ("PROPERTY_STATUS", 3); ("BULK_LC_PROPERTY_SET", 4);
   ("BULK_LC_PROPERTY_STATUS", 5); ("BULK_LEC_PROPERTY_SET", 6); ("SYNC_INTEGRAL_GET", 8); ("SYNC_INTEGRAL_STATUS", 9)].
Definition lec_properties : codes :=
  [("AUTO_RESUME_MODE", 65393); ("AUTO_RESUME_TIMER", 65394)].
Definition time_roles : codes :=
  [("NONE", 0); ("TIME_AUTHORITY", 1); ("TIME_RELAY", 2); ("TIME_CLIENT", 3)].
Definition debugV2_subopcodes : codes :=
  [("GET", 0); ("SET", 1); ("STATUS", 2); ("CLEAR", 3)].
Definition debugV2_types : codes :=
  [("UINT8", 0); ("UINT16", 1); ("UINT32", 2); ("UINT64", 3); ("INT8", 4); ("INT16", 5); ("INT32", 6); ("INT64", 7); ("FLOAT", 8); ("DOUBLE", 9);
   ("ENUM", 10); ("STRING", 11); ("ARRAY", 12); ("INVALID", 255)].
Definition rrule_subopcodes : codes :=
  [("RULES_LIST_GET", 0); ("RULES_LIST_STATUS", 1); ("REGISTER_MAX_SIZE_GET", 2); ("REGISTER_MAX_SIZE_STATUS", 3); ("SCHEDULER_MODE_GET", 4);
   ("SCHEDULER_MODE_SET", 5); ("SCHEDULER_MODE_STATUS", 6); ("SCHEDULE_REGISTER_ENTRY_GET", 7); ("SCHEDULE_REGISTER_ENTRY_SET", 8);
   ("SCHEDULE_REGISTER_ENTRY_DELETE", 9); ("SCHEDULE_REGISTER_ENTRY_DELETE_ALL", 10); ("SCHEDULE_REGISTER_ENTRY_STATUS", 11);
   ("SCHEDULE_REGISTER_LIST_GET", 12); ("SCHEDULE_REGISTER_LIST_STATUS", 13)].
(** the rules of RFC 5545 *)
Definition rule_ids : codes :=
  [("FREQ", 0); ("UNTIL", 1); ("COUNT", 2); ("INTERVAL", 3); ("BYSECOND", 4); ("BYMINUTE", 5); ("BYHOUR", 6); ("BYDAY", 7); ("BYMONTHDAY", 8);
   ("BYYEARDAY", 9); ("BYWEEKNO", 10); ("BYMONTH", 11); ("BYSETPOS", 12); ("DTSTART", 13); ("EXPLICIT_RDATE", 14); ("EXCLUSIONS_RDATE", 15)].
Definition scheduler_modes : codes :=
  [("DISABLED", 0); ("ENABLED", 1)].
(** FREQ carries a frequency, BYDAY a day *)
Definition freqs_and_days : codes :=
  [("SECONDLY", 0); ("MINUTELY", 1); ("HOURLY", 2); ("DAILY", 3); ("WEEKLY", 4); ("MONTHLY", 5); ("YEARLY", 6); ("PREVIOUS_SUNDAY", -7);
   ("PREVIOUS_SATURDAY", -6); ("PREVIOUS_FRIDAY", -5); ("PREVIOUS_THURSDAY", -4); ("PREVIOUS_WEDNESDAY", -3); ("PREVIOUS_TUESDAY", -2);
   ("PREVIOUS_MONDAY", -1); ("NEXT_MONDAY", 1); ("NEXT_TUESDAY", 2); ("NEXT_WEDNESDAY", 3); ("NEXT_THURSDAY", 4); ("NEXT_FRIDAY", 5); ("NEXT_SATURDAY",
   6); ("NEXT_SUNDAY", 7)].
Definition rrule_status_codes : codes :=
  [("SUCCESS", 0); ("INVALID_SLOT", 1); ("INVALID_SLOT_PARAMETERS", 2); ("INVALID_RULE", 3); ("INVALID_RULE_VALUE", 4); ("REGISTER_SIZE_EXCEEDED", 5);
   ("STORAGE_FAILURE", 6)].
Definition user_access : codes :=
  [("NOT_USER_PROPERTY", 0); ("READ_ONLY", 1)].
Definition el_subopcodes : codes :=
  [("EL_INHIBIT_ENTER", 0); ("EL_INHIBIT_ENTER_UNACKNOWLEDGED", 1); ("EL_INHIBIT_EXIT", 2); ("EL_INHIBIT_EXIT_UNACKNOWLEDGED", 3); ("EL_STATE_GET", 4);
   ("EL_STATE_STATUS", 5); ("EL_PROPERTY_GET", 6); ("EL_PROPERTY_SET", 7); ("EL_PROPERTY_SET_UNACKNOWLEDGED", 8); ("EL_PROPERTY_STATUS", 9);
   ("EL_LAMP_OPERATION_TIME_GET", 10); ("EL_LAMP_OPERATION_TIME_CLEAR", 11); ("EL_LAMP_OPERATION_TIME_CLEAR_UNACKNOWLEDGED", 12);
   ("EL_LAMP_OPERATION_TIME_STATUS", 13); ("EL_REST_ENTER", 14); ("EL_REST_ENTER_UNACKNOWLEDGED", 15); ("EL_REST_EXIT", 16);
   ("EL_REST_EXIT_UNACKNOWLEDGED", 17)].
Definition el_states : codes :=
  [("TRANSITION_FROM_INHIBIT_TO_NORMAL", 0); ("TRANSITION_FROM_FUNCTIONAL_TEST_TO_NORMAL", 1); ("TRANSITION_FROM_DURATION_TEST_TO_NORMAL", 2); ("NORMAL",
   3); ("TRANSITION_FROM_REST_TO_EMERGENCY", 4); ("EMERGENCY", 5); ("EXTENDED_EMERGENCY", 6); ("TRANSITION_FROM_EMERGENCY_TO_REST", 7); ("REST", 8);
   ("TRANSITION_FROM_NORMAL_TO_INHIBIT", 9); ("INHIBIT", 10); ("TRANSITION_FROM_NORMAL_TO_DURATION_TEST", 11); ("DURATION_TEST_IN_PROGRESS", 12);
   ("TRANSITION_FROM_NORMAL_TO_FUNCTIONAL_TEST", 13); ("FUNCTIONAL_TEST_IN_PROGRESS", 14); ("BATTERY_DISCHARGED", 15); ("UNKNOWN", 16)].
Definition el_properties : codes :=
  [("EL_LIGHTNESS", 65408); ("EL_LIGHTNESS_RANGE_MIN", 65409); ("EL_LIGHTNESS_RANGE_MAX", 65410); ("EL_PROLONG_TIME", 65411)].
Definition elt_subopcodes : codes :=
  [("ELT_FUNCTIONAL_TEST_GET", 0); ("ELT_FUNCTIONAL_TEST_START", 1); ("ELT_FUNCTIONAL_TEST_STOP", 2); ("ELT_FUNCTIONAL_TEST_STATUS", 3);
   ("ELT_DURATION_TEST_GET", 4); ("ELT_DURATION_TEST_START", 5); ("ELT_DURATION_TEST_STOP", 6); ("ELT_DURATION_TEST_STATUS", 7); ("ELT_PROPERTY_GET", 8);
   ("ELT_PROPERTY_SET", 9); ("ELT_PROPERTY_SET_UNACKNOWLEDGED", 10); ("ELT_PROPERTY_STATUS", 11)].
Definition test_states : codes :=
  [("FINISHED", 0); ("TRIGGERED", 1); ("IN_PROGRESS", 2); ("POSTPONED", 3); ("STOPPED", 4); ("DROPPED", 5); ("TIMEOUT", 6); ("UNKNOWN", 7)].
Definition elt_properties : codes :=
  [("ELT_DURATION_TEST_EXECUTION_TIMEOUT", 65412); ("ELT_FUNCTIONAL_TEST_EXECUTION_TIMEOUT", 65413); ("ELT_DURATION_TEST_RETRY_PERIOD", 65414);
   ("ELT_FUNCTIONAL_TEST_RETRY_PERIOD", 65415); ("ELT_DURATION_TEST_BACKUP_AUTOMATIC_DELAY", 65416); ("ELT_FUNCTIONAL_TEST_BACKUP_AUTOMATIC_DELAY",
   65417); ("ELT_DURATION_TEST_BACKUP_AUTOMATIC_INTERVAL", 65418); ("ELT_FUNCTIONAL_TEST_BACKUP_AUTOMATIC_INTERVAL", 65419)].

(** ** Where they are used: the path of keys in a decoded message (elements of lists have the path of the list) *)
Definition code_paths : list (list string * codes) :=
  [(["config_appkey_list"; "status"], status_codes);
   (["config_appkey_status"; "status"], status_codes);
   (["config_beacon_set"; "beacon"], beacon_states);
   (["config_beacon_status"; "beacon"], beacon_states);
   (["config_composition_data_get"; "page"], composition_pages);
   (["config_composition_data_status"; "page"], composition_pages);
   (["config_composition_data_status"; "zero"; "elements"; "location"], locations);
   (["config_composition_data_status"; "first"; "element"; "sig_models"; "format"], item_formats);
   (["config_composition_data_status"; "first"; "element"; "vendor_models"; "format"], item_formats);
   (["config_friend_set"; "friend"], feature_states);
   (["config_friend_status"; "friend"], feature_states);
   (["config_gatt_proxy_set"; "GATT_proxy"], feature_states);
   (["config_gatt_proxy_status"; "GATT_proxy"], feature_states);
   (["config_hearbeat_publication_status"; "status"], status_codes);
   (["config_hearbeat_subscription_status"; "status"], status_codes);
   (["config_key_refresh_phase_set"; "transition"], key_transitions);
   (["config_key_refresh_phase_status"; "status"], status_codes);
   (["config_key_refresh_phase_status"; "phase"], key_phases);
   (["config_model_app_status"; "status"], status_codes);
   (["config_model_publication_set"; "credential_flag"], credentials);
   (["config_model_publication_set"; "publish_period"; "step_resolution"], step_resolutions);
   (["config_model_publication_status"; "status"], status_codes);
   (["config_model_publication_status"; "credential_flag"], credentials);
   (["config_model_publication_status"; "publish_period"; "step_resolution"], step_resolutions);
   (["config_model_publication_virtual_address_set"; "credential_flag"], credentials);
   (["config_model_publication_virtual_address_set"; "publish_period"; "step_resolution"], step_resolutions);
   (["config_model_subscription_status"; "status"], status_codes);
   (["config_netkey_status"; "status"], status_codes);
   (["config_node_identity_set"; "identity"], identity_states);
   (["config_node_identity_status"; "status"], status_codes);
   (["config_node_identity_status"; "identity"], identity_states);
   (["config_relay_set"; "relay"], feature_states);
   (["config_relay_status"; "relay"], feature_states);
   (["config_sig_model_app_list"; "status"], status_codes);
   (["config_sig_model_subscription_list"; "status"], status_codes);
   (["config_vendor_model_app_list"; "status"], status_codes);
   (["config_vendor_model_subscription_list"; "status"], status_codes);
   (["silvair_debug"; "subopcode"], debug_subopcodes);
   (["silvair_gateway"; "subopcode"], gateway_subopcodes);
   (["silvair_gateway"; "gateway_configuration_status"; "flags"], dhcp_flags);
   (["silvair_gateway"; "gateway_configuration_status"; "status_code"], gateway_status_codes);
   (["silvair_gateway"; "gateway_packets_status"; "connection_state"; "conn_state"], connection_states);
   (["silvair_gateway"; "gateway_packets_status"; "connection_state"; "link_status"], link_states);
   (["silvair_gateway"; "gateway_packets_status"; "connection_state"; "last_error"], connection_errors);
   (["generic_battery_status"; "flags"; "battery_serviceability_flags"], battery_service);
   (["generic_battery_status"; "flags"; "battery_charging_flags"], battery_charging);
   (["generic_battery_status"; "flags"; "battery_indicator_flags"], battery_indicator);
   (["generic_battery_status"; "flags"; "battery_presence_flags"], battery_presence);
   (["light_lightness_range_status"; "status"], status_codes);
   (["light_ctl_temperature_range_status"; "status"], status_codes);
   (["silvair_nds"; "subopcode"], nds_subopcodes);
   (["silvair_nds_setup"; "subopcode"], nds_setup_subopcodes);
   (["scene_status"; "status_code"], scene_status_codes);
   (["scene_register_status"; "status_code"], scene_status_codes);
   (["sensor_descriptor_get"; "property_id"], property_ids);
   (["sensor_descriptor_status"; "sensor_property_id"], property_ids);
   (["sensor_get"; "property_id"], property_ids);
   (["sensor_status"; "sensor_setting_property_id"], property_ids);
   (["sensor_status"; "light_distribution"; "light_distribution"], light_distributions);
   (["sensor_status"; "light_source_type"; "light_source_type"], light_sources);
   (["sensor_cadence_get"; "property_id"], property_ids);
   (["sensor_settings_get"; "sensor_property_id"], property_ids);
   (["sensor_settings_status"; "sensor_property_id"], property_ids);
   (["sensor_settings_status"; "sensor_setting_property_ids"], property_ids);
   (["sensor_setting_get"; "sensor_property_id"], property_ids);
   (["sensor_setting_get"; "sensor_setting_property_id"], property_ids);
   (["sensor_setting_set"; "sensor_property_id"], property_ids);
   (["sensor_setting_set"; "sensor_setting_property_id"], property_ids);
   (["sensor_setting_set"; "light_distribution"; "light_distribution"], light_distributions);
   (["sensor_setting_set"; "light_source_type"; "light_source_type"], light_sources);
   (["sensor_setting_set_unacknowledged"; "sensor_property_id"], property_ids);
   (["sensor_setting_set_unacknowledged"; "sensor_setting_property_id"], property_ids);
   (["sensor_setting_set_unacknowledged"; "light_distribution"; "light_distribution"], light_distributions);
   (["sensor_setting_set_unacknowledged"; "light_source_type"; "light_source_type"], light_sources);
   (["sensor_setting_status"; "sensor_property_id"], property_ids);
   (["sensor_setting_status"; "sensor_setting_property_id"], property_ids);
   (["sensor_setting_status"; "light_distribution"; "light_distribution"], light_distributions);
   (["sensor_setting_status"; "light_source_type"; "light_source_type"], light_sources);
   (["silvair_lec"; "subopcode"], lec_subopcodes);
   (["silvair_lec"; "property_get"; "property_id"], lec_properties);
   (["silvair_lec"; "property_set"; "property_id"], lec_properties);
   (["silvair_lec"; "property_set_unacknowledged"; "property_id"], lec_properties);
   (["silvair_lec"; "property_status"; "property_id"], lec_properties);
   (["time_role_set"; "time_role"], time_roles);
   (["time_role_status"; "time_role"], time_roles);
   (["silvair_debug_v2"; "subopcode"], debugV2_subopcodes);
   (["silvair_debug_v2"; "payload"; "data_type"], debugV2_types);
   (["silvair_rrule_scheduler"; "subopcode"], rrule_subopcodes);
   (["silvair_rrule_scheduler"; "payload"; "rule_ids"], rule_ids);
   (["silvair_rrule_scheduler"; "payload"; "scheduler_mode"], scheduler_modes);
   (["silvair_rrule_scheduler"; "payload"; "scheduler_register_entry"; "rules"; "rule_id"], rule_ids);
   (["silvair_rrule_scheduler"; "payload"; "scheduler_register_entry"; "rules"; "rule"], freqs_and_days);
   (["silvair_rrule_scheduler"; "payload"; "status"], rrule_status_codes);
   (["generic_user_properties_status"; "property_ids"], property_ids);
   (["generic_user_property_get"; "property_id"], property_ids);
   (["generic_user_property_set"; "property_id"], property_ids);
   (["generic_user_property_set"; "light_distribution"; "light_distribution"], light_distributions);
   (["generic_user_property_set"; "light_source_type"; "light_source_type"], light_sources);
   (["generic_user_property_set_unacknowledged"; "property_id"], property_ids);
   (["generic_user_property_set_unacknowledged"; "light_distribution"; "light_distribution"], light_distributions);
   (["generic_user_property_set_unacknowledged"; "light_source_type"; "light_source_type"], light_sources);
   (["generic_user_property_status"; "property_id"], property_ids);
   (["generic_user_property_status"; "light_distribution"; "light_distribution"], light_distributions);
   (["generic_user_property_status"; "light_source_type"; "light_source_type"], light_sources);
   (["generic_admin_properties_status"; "property_ids"], property_ids);
   (["generic_admin_property_get"; "property_id"], property_ids);
   (["generic_admin_property_set"; "property_id"], property_ids);
   (["generic_admin_property_set"; "light_distribution"; "light_distribution"], light_distributions);
   (["generic_admin_property_set"; "light_source_type"; "light_source_type"], light_sources);
   (["generic_admin_property_set_unacknowledged"; "property_id"], property_ids);
   (["generic_admin_property_set_unacknowledged"; "light_distribution"; "light_distribution"], light_distributions);
   (["generic_admin_property_set_unacknowledged"; "light_source_type"; "light_source_type"], light_sources);
   (["generic_admin_property_status"; "property_id"], property_ids);
   (["generic_admin_property_status"; "light_distribution"; "light_distribution"], light_distributions);
   (["generic_admin_property_status"; "light_source_type"; "light_source_type"], light_sources);
   (["generic_manufacturer_properties_status"; "property_ids"], property_ids);
   (["generic_manufacturer_property_get"; "property_id"], property_ids);
   (["generic_manufacturer_property_set"; "property_id"], property_ids);
   (["generic_manufacturer_property_set"; "access"], user_access);
   (["generic_manufacturer_property_set_unacknowledged"; "property_id"], property_ids);
   (["generic_manufacturer_property_set_unacknowledged"; "access"], user_access);
   (["generic_manufacturer_property_status"; "property_id"], property_ids);
   (["generic_manufacturer_property_status"; "light_distribution"; "light_distribution"], light_distributions);
   (["generic_manufacturer_property_status"; "light_source_type"; "light_source_type"], light_sources);
   (["generic_client_properties_status"; "property_ids"], property_ids);
   (["silvair_el"; "subopcode"], el_subopcodes);
   (["silvair_el"; "el_state_status"; "el_state"], el_states);
   (["silvair_el"; "el_property_get"; "property_id"], el_properties);
   (["silvair_el"; "el_property_set"; "property_id"], el_properties);
   (["silvair_el"; "el_property_set_unacknowledged"; "property_id"], el_properties);
   (["silvair_el"; "el_property_status"; "property_id"], el_properties);
   (["silvair_elt"; "subopcode"], elt_subopcodes);
   (["silvair_elt"; "elt_functional_test_status"; "execution_status"], test_states);
   (["silvair_elt"; "elt_duration_test_status"; "execution_status"], test_states);
   (["silvair_elt"; "elt_property_get"; "property_id"], elt_properties);
   (["silvair_elt"; "elt_property_set"; "property_id"], elt_properties);
   (["silvair_elt"; "elt_property_set_unacknowledged"; "property_id"], elt_properties);
   (["silvair_elt"; "elt_property_status"; "property_id"], elt_properties)].
