(** GENERATED by tools/gen.py from /repo/bluetooth_mesh/messages/silvair/debug.py; do not edit.
    The declarations of the module, in source order; every definition cites its lines. *)
From Verif Require Import PyVal Float64 Adapters Construct.

(* silvair/debug.py:44-45 *)
Definition debug_DebugOpcode : enum :=
  [("SILVAIR_DEBUG"%string, 0xF53601)].

(* silvair/debug.py:48-79 *)
Definition debug_DebugSubOpcode : enum :=
  [("RSSI_THRESHOLD_GET"%string, 0);
   ("RSSI_THRESHOLD_SET"%string, 1);
   ("RSSI_THRESHOLD_STATUS"%string, 2);
   ("RADIO_TEST"%string, 3);
   ("UPTIME_GET"%string, 10);
   ("UPTIME_STATUS"%string, 11);
   ("LAST_SW_FAULT_GET"%string, 12);
   ("LAST_SW_FAULT_CLEAR"%string, 13);
   ("LAST_SW_FAULT_STATUS"%string, 14);
   ("SYSTEM_STATS_GET"%string, 15);
   ("SYSTEM_STATS_STATUS"%string, 16);
   ("LAST_MALLOC_FAULT_GET"%string, 17);
   ("LAST_MALLOC_FAULT_CLEAR"%string, 18);
   ("LAST_MALLOC_FAULT_STATUS"%string, 19);
   ("LAST_FDS_FAULT_GET"%string, 20);
   ("LAST_FDS_FAULT_CLEAR"%string, 21);
   ("LAST_FDS_FAULT_STATUS"%string, 22);
   ("BYTES_BEFORE_GARBAGE_COLLECTOR_GET"%string, 23);
   ("BYTES_BEFORE_GARBAGE_COLLECTOR_STATUS"%string, 24);
   ("PROVISIONED_APP_VERSION_GET"%string, 25);
   ("PROVISIONED_APP_VERSION_STATUS"%string, 26);
   ("FULL_FIRMWARE_VERSION_GET"%string, 27);
   ("FULL_FIRMWARE_VERSION_STATUS"%string, 28);
   ("IV_INDEX_GET"%string, 29);
   ("IV_INDEX_STATUS"%string, 30);
   ("GARBAGE_COLLECTOR_COUNTER_GET"%string, 31);
   ("GARBAGE_COLLECTOR_COUNTER_STATUS"%string, 32);
   ("ARAP_LIST_SIZE_GET"%string, 33);
   ("ARAP_LIST_SIZE_STATUS"%string, 34);
   ("ARAP_LIST_CONTENT_GET"%string, 35);
   ("ARAP_LIST_CONTENT_STATUS"%string, 36)].

(* silvair/debug.py:83 *)
Definition debug_RssiThresholdGet : con :=
  (CStruct FNil).

(* silvair/debug.py:85-87 *)
Definition debug_RssiThreshold : con :=
  (CStruct (FCons "rssi_threshold" Int8ul
    FNil)).

(* silvair/debug.py:89-91 *)
Definition debug_RadioTest : con :=
  (CStruct (FCons "packet_counter" Int8ul
    FNil)).

(* silvair/debug.py:93 *)
Definition debug_UptimeGet : con :=
  (CStruct FNil).

(* silvair/debug.py:95-97 *)
Definition debug_UptimeStatus : con :=
  (CStruct (FCons "uptime" Int32ul
    FNil)).

(* silvair/debug.py:99 *)
Definition debug_LastSwFaultGet : con :=
  (CStruct FNil).

(* silvair/debug.py:101 *)
Definition debug_LastSwFaultClear : con :=
  (CStruct FNil).

(* silvair/debug.py:103-106 *)
Definition debug_LastSwFaultStatus : con :=
  (CStruct (FCons "time" Int32ul
    (FCons "fault" CGreedyString
    FNil))).

(* silvair/debug.py:108 *)
Definition debug_SystemStatsGet : con :=
  (CStruct FNil).

(* silvair/debug.py:110-114 *)
Definition debug_SystemStat : con :=
  (CStruct (FCons "name" (CPaddedString (EConst 8))
    (FCons "high_water_mark" Int32ul
    (FPad (Some "_rfu"%string) 2
    FNil)))).

(* silvair/debug.py:116-118 *)
Definition debug_SystemStatsStatus : con :=
  (CStruct (FCons "stats" (CGreedyRange debug_SystemStat)
    FNil)).

(* silvair/debug.py:120 *)
Definition debug_LastMallocFaultGet : con :=
  (CStruct FNil).

(* silvair/debug.py:122 *)
Definition debug_LastMallocFaultClear : con :=
  (CStruct FNil).

(* silvair/debug.py:124 *)
Definition debug_LastMallocFaultStatus : con :=
  debug_LastSwFaultStatus.

(* silvair/debug.py:126 *)
Definition debug_LastFdsFaultGet : con :=
  (CStruct FNil).

(* silvair/debug.py:128 *)
Definition debug_LastFdsFaultClear : con :=
  (CStruct FNil).

(* silvair/debug.py:130 *)
Definition debug_LastFdsFaultStatus : con :=
  debug_LastSwFaultStatus.

(* silvair/debug.py:132 *)
Definition debug_BytesBeforeGarbageCollectorGet : con :=
  (CStruct FNil).

(* silvair/debug.py:134-136 *)
Definition debug_BytesBeforeGarbageCollectorStatus : con :=
  (CStruct (FCons "bytes_left" Int16ul
    FNil)).

(* silvair/debug.py:138 *)
Definition debug_ProvisionedAppVersionGet : con :=
  (CStruct FNil).

(* silvair/debug.py:140-142 *)
Definition debug_ProvisionedAppVersionStatus : con :=
  (CStruct (FCons "version" Int16ul
    FNil)).

(* silvair/debug.py:144 *)
Definition debug_FullFirmwareVersionGet : con :=
  (CStruct FNil).

(* silvair/debug.py:146-148 *)
Definition debug_FullFirmwareVersionStatus : con :=
  (CStruct (FCons "version" CGreedyString
    FNil)).

(* silvair/debug.py:150 *)
Definition debug_IvIndexGet : con :=
  (CStruct FNil).

(* silvair/debug.py:152-154 *)
Definition debug_IvIndexStatus : con :=
  (CStruct (FCons "ivindex" Int32ul
    FNil)).

(* silvair/debug.py:156 *)
Definition debug_GarbageCollectorCounterGet : con :=
  (CStruct FNil).

(* silvair/debug.py:158-160 *)
Definition debug_GarbageCollectorCounterStatus : con :=
  (CStruct (FCons "counter" Int16ul
    FNil)).

(* silvair/debug.py:162-165 *)
Definition debug_ArapSize16 : con :=
  (CStruct (FCons "capacity" Int16ul
    (FCons "size" Int16ul
    FNil))).

(* silvair/debug.py:167-170 *)
Definition debug_ArapSize8 : con :=
  (CStruct (FCons "capacity" Int8ul
    (FCons "size" Int8ul
    FNil))).

(* silvair/debug.py:172 *)
Definition debug_ArapListSizeGet : con :=
  (CStruct FNil).

(* silvair/debug.py:174-177 *)
Definition debug_ArapListSizeStatus : con :=
  (CSelect (ACons (CNamed "new" debug_ArapSize16)
    (ACons (CNamed "old" debug_ArapSize8)
    ANil))).

(* silvair/debug.py:179-181 *)
Definition debug_ArapListContentGet : con :=
  (CStruct (FCons "page" Int8ul
    FNil)).

(* silvair/debug.py:183-189 *)
Definition debug_ArapNode : con :=
  (CReversed 5 (CBitwise (CStruct (FCons "sequence" (CBytewise Int24ub)
    (FCons "ivi" (CBits 1 false)
    (FCons "address" (CBits 15 false)
    FNil)))))).

(* silvair/debug.py:191-195 *)
Definition debug_ArapListContentStatus : con :=
  (CStruct (FCons "current_page" Int8ul
    (FCons "last_page" Int8ul
    (FCons "nodes" (CGreedyRange debug_ArapNode)
    FNil)))).

(* silvair/debug.py:197-235 *)
Definition debug_DebugParams : con :=
  (CSwitchStruct "subopcode" (CAdapt (AEnum debug_DebugSubOpcode) Int8ul) debug_DebugSubOpcode "payload"
    (KCons "RSSI_THRESHOLD_GET" 0 debug_RssiThresholdGet
    (KCons "RSSI_THRESHOLD_SET" 1 debug_RssiThreshold
    (KCons "RSSI_THRESHOLD_STATUS" 2 debug_RssiThreshold
    (KCons "RADIO_TEST" 3 debug_RadioTest
    (KCons "UPTIME_GET" 10 debug_UptimeGet
    (KCons "UPTIME_STATUS" 11 debug_UptimeStatus
    (KCons "LAST_SW_FAULT_GET" 12 debug_LastSwFaultGet
    (KCons "LAST_SW_FAULT_CLEAR" 13 debug_LastSwFaultClear
    (KCons "LAST_SW_FAULT_STATUS" 14 debug_LastSwFaultStatus
    (KCons "SYSTEM_STATS_GET" 15 debug_SystemStatsGet
    (KCons "SYSTEM_STATS_STATUS" 16 debug_SystemStatsStatus
    (KCons "LAST_MALLOC_FAULT_GET" 17 debug_LastMallocFaultGet
    (KCons "LAST_MALLOC_FAULT_CLEAR" 18 debug_LastMallocFaultClear
    (KCons "LAST_MALLOC_FAULT_STATUS" 19 debug_LastMallocFaultStatus
    (KCons "LAST_FDS_FAULT_GET" 20 debug_LastFdsFaultGet
    (KCons "LAST_FDS_FAULT_CLEAR" 21 debug_LastFdsFaultClear
    (KCons "LAST_FDS_FAULT_STATUS" 22 debug_LastFdsFaultStatus
    (KCons "BYTES_BEFORE_GARBAGE_COLLECTOR_GET" 23 debug_BytesBeforeGarbageCollectorGet
    (KCons "BYTES_BEFORE_GARBAGE_COLLECTOR_STATUS" 24 debug_BytesBeforeGarbageCollectorStatus
    (KCons "PROVISIONED_APP_VERSION_GET" 25 debug_ProvisionedAppVersionGet
    (KCons "PROVISIONED_APP_VERSION_STATUS" 26 debug_ProvisionedAppVersionStatus
    (KCons "FULL_FIRMWARE_VERSION_GET" 27 debug_FullFirmwareVersionGet
    (KCons "FULL_FIRMWARE_VERSION_STATUS" 28 debug_FullFirmwareVersionStatus
    (KCons "IV_INDEX_GET" 29 debug_IvIndexGet
    (KCons "IV_INDEX_STATUS" 30 debug_IvIndexStatus
    (KCons "GARBAGE_COLLECTOR_COUNTER_GET" 31 debug_GarbageCollectorCounterGet
    (KCons "GARBAGE_COLLECTOR_COUNTER_STATUS" 32 debug_GarbageCollectorCounterStatus
    (KCons "ARAP_LIST_SIZE_GET" 33 debug_ArapListSizeGet
    (KCons "ARAP_LIST_SIZE_STATUS" 34 debug_ArapListSizeStatus
    (KCons "ARAP_LIST_CONTENT_GET" 35 debug_ArapListContentGet
    (KCons "ARAP_LIST_CONTENT_STATUS" 36 debug_ArapListContentStatus
    KNil)))))))))))))))))))))))))))))))).

(* silvair/debug.py:237-245 *)
Definition debug_DebugMessage : con :=
  (CSwitchStruct "opcode" (COpcode debug_DebugOpcode) debug_DebugOpcode "params"
    (KCons "SILVAIR_DEBUG" 0xF53601 debug_DebugParams
    KNil)).
