(** GENERATED by tools/gen.py from /repo/bluetooth_mesh/messages/silvair/debugV2.py; do not edit.
    The declarations of the module, in source order; every definition cites its lines. *)
From Verif Require Import PyVal Float64 Adapters Construct.

(* silvair/debugV2.py:45-46 *)
Definition debugV2_DebugV2Opcode : enum :=
  [("SILVAIR_DEBUG_V2"%string, 0xEB3601)].

(* silvair/debugV2.py:49-53 *)
Definition debugV2_DebugV2SubOpcode : enum :=
  [("GET"%string, 0);
   ("SET"%string, 1);
   ("STATUS"%string, 2);
   ("CLEAR"%string, 3)].

(* silvair/debugV2.py:56-104 *)
Definition debugV2_DebugV2ParameterTypes : enum :=
  [("GETABLE_PARAMETER_LIST"%string, 0);
   ("SETABLE_PARAMETER_LIST"%string, 1);
   ("SETTABLE_PARAMETER_TYPE_LIST"%string, 2);
   ("CLEARABLE_PARAMETER_LIST"%string, 3);
   ("RSSI_THRESHOLD"%string, 8);
   ("UPTIME"%string, 9);
   ("MESH_RPL_LIST_CONTENT"%string, 10);
   ("TIME_SYNC_MSG_LIST"%string, 11);
   ("FIRST_TIME_SYNC_TIMESTAMP"%string, 12);
   ("LAST_TIME_SYNC_TIME"%string, 13);
   ("LAST_TIME_RECOVERY_TIME"%string, 14);
   ("RECALLED_EVENTS_TIME"%string, 15);
   ("RESET_MONITOR_COUNTERS"%string, 16);
   ("TIME_RECOVERY_COUNTER"%string, 17);
   ("OCCUPANCY_EVENTS_COUNTER"%string, 18);
   ("OCCUPANCY_HISTORY"%string, 19);
   ("OCCUPANCY_HISTORY_RESOLUTION"%string, 20);
   ("RADIO_STATS_PER_CHANNEL"%string, 21);
   ("QUEUES_MONITOR"%string, 22);
   ("QUEUES_STATS"%string, 23);
   ("UART_ERRORS"%string, 24);
   ("UART_MODEL_INSTANCES"%string, 25);
   ("APP_THREAD_LATENCY"%string, 26);
   ("IV_INDEX_INFO"%string, 27);
   ("MESH_CACHE_INFO"%string, 28);
   ("EL_ELT_HISTORY"%string, 29);
   ("RRULE_SCHEDULE_REGISTER_SIZE"%string, 30);
   ("RRULE_NEXT_EVENT_TAI"%string, 31);
   ("RRULE_NEXT_EVENT_ENTRIES_ARRAY"%string, 32);
   ("LAST_CALLS_OF_RRULE_ENTRIES"%string, 33);
   ("CPU_USAGE_CURRENT_STATS"%string, 34);
   ("CPU_USAGE_HISTOGRAM"%string, 35);
   ("CPU_USAGE_HISTORY"%string, 36);
   ("CPU_USAGE_HISTORY_SETUP"%string, 37);
   ("LAST_MEASURED_POWER_OFF_TIME_MS"%string, 39);
   ("LAST_MEASURED_DALI_BUS_SHORT_TO_POWER_OFF_TIME_MS"%string, 40);
   ("LAST_RESET_FIRST_FAULT_INFO"%string, 41);
   ("LC_OLC_AMBIENT_LUX_LEVEL"%string, 42);
   ("APP_THREAD_STARTUP_LATENCY"%string, 43);
   ("APP_THREAD_RUNTIME_LATENCY"%string, 44);
   ("APP_THREAD_RUNTIME_EXCLUDING_FLASH_OPERATIONS_LATENCY"%string, 45);
   ("DALI_CONNECTED_DRIVERS"%string, 46);
   ("NOT_KNOWN_PARAMETER"%string, 255)].

(* silvair/debugV2.py:107-121 *)
Definition debugV2_DebugV2DataTypes : enum :=
  [("UINT8"%string, 0);
   ("UINT16"%string, 1);
   ("UINT32"%string, 2);
   ("UINT64"%string, 3);
   ("INT8"%string, 4);
   ("INT16"%string, 5);
   ("INT32"%string, 6);
   ("INT64"%string, 7);
   ("FLOAT"%string, 8);
   ("DOUBLE"%string, 9);
   ("ENUM"%string, 10);
   ("STRING"%string, 11);
   ("ARRAY"%string, 12);
   ("INVALID"%string, 255)].

(* silvair/debugV2.py:125-146 *)
Definition debugV2_DebugV2Parameter : con :=
  (CSwitchStruct "data_type" (CAdapt (AEnum debugV2_DebugV2DataTypes) Int8ul) debugV2_DebugV2DataTypes "parameter"
    (KCons "UINT8" 0 Int8ul
    (KCons "UINT16" 1 Int16ul
    (KCons "UINT32" 2 Int32ul
    (KCons "UINT64" 3 Int64ul
    (KCons "INT8" 4 Int8sl
    (KCons "INT16" 5 Int16sl
    (KCons "INT32" 6 Int32sl
    (KCons "INT64" 7 Int64sl
    (KCons "FLOAT" 8 (CIeee 4)
    (KCons "DOUBLE" 9 (CIeee 8)
    (KCons "ENUM" 10 Int8ul
    (KCons "STRING" 11 CPascalString
    (KCons "ARRAY" 12 (CPrefixedArray Int8ul)
    (KCons "INVALID" 255 (CStruct FNil)
    KNil))))))))))))))).

(* silvair/debugV2.py:148-153 *)
Definition debugV2_DebugV2SubMessage : con :=
  (CStruct (FCons "subopcode" (CAdapt (AEnum debugV2_DebugV2SubOpcode) Int8ul)
    (FCons "parameter_type" Int8ul
    (FCons "page_number" Int8ul
    (FCons "payload" (CGreedyRange debugV2_DebugV2Parameter)
    FNil))))).

(* silvair/debugV2.py:155-163 *)
Definition debugV2_DebugV2Message : con :=
  (CSwitchStruct "opcode" (COpcode debugV2_DebugV2Opcode) debugV2_DebugV2Opcode "params"
    (KCons "SILVAIR_DEBUG_V2" 0xEB3601 debugV2_DebugV2SubMessage
    KNil)).
