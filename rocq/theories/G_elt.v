(** GENERATED by tools/gen.py from /repo/bluetooth_mesh/messages/silvair/emergency_lighting_test.py; do not edit.
    The declarations of the module, in source order; every definition cites its lines. *)
From Verif Require Import PyVal Float64 Adapters Construct G_properties.

(* silvair/emergency_lighting_test.py:65-66 *)
Definition elt_EmergencyLightingTestOpcode : enum :=
  [("SILVAIR_ELT"%string, 0xE93601)].

(* silvair/emergency_lighting_test.py:69-81 *)
Definition elt_EmergencyLightingTestSubOpcode : enum :=
  [("ELT_FUNCTIONAL_TEST_GET"%string, 0);
   ("ELT_FUNCTIONAL_TEST_START"%string, 1);
   ("ELT_FUNCTIONAL_TEST_STOP"%string, 2);
   ("ELT_FUNCTIONAL_TEST_STATUS"%string, 3);
   ("ELT_DURATION_TEST_GET"%string, 4);
   ("ELT_DURATION_TEST_START"%string, 5);
   ("ELT_DURATION_TEST_STOP"%string, 6);
   ("ELT_DURATION_TEST_STATUS"%string, 7);
   ("ELT_PROPERTY_GET"%string, 8);
   ("ELT_PROPERTY_SET"%string, 9);
   ("ELT_PROPERTY_SET_UNACKNOWLEDGED"%string, 10);
   ("ELT_PROPERTY_STATUS"%string, 11)].

(* silvair/emergency_lighting_test.py:84-92 *)
Definition elt_TestExecutionStatus : enum :=
  [("FINISHED"%string, 0);
   ("TRIGGERED"%string, 1);
   ("IN_PROGRESS"%string, 2);
   ("POSTPONED"%string, 3);
   ("STOPPED"%string, 4);
   ("DROPPED"%string, 5);
   ("TIMEOUT"%string, 6);
   ("UNKNOWN"%string, 7)].

(* silvair/emergency_lighting_test.py:95-100 *)
Definition elt_FunctionalExecutionResult : con :=
  (CBitwise (CStruct (FPad None 5
    (FCons "circuit_fault" CFlag
    (FCons "battery_fault" CFlag
    (FCons "lamp_fault" CFlag
    FNil)))))).

(* silvair/emergency_lighting_test.py:102-108 *)
Definition elt_DurationExecutionResult : con :=
  (CBitwise (CStruct (FPad None 4
    (FCons "battery_duration_fault" CFlag
    (FCons "circuit_fault" CFlag
    (FCons "battery_fault" CFlag
    (FCons "lamp_fault" CFlag
    FNil))))))).

(* silvair/emergency_lighting_test.py:168-176 *)
Definition elt_EmergencyLightingTestProperty : enum :=
  [("ELT_DURATION_TEST_EXECUTION_TIMEOUT"%string, 0xFF84);
   ("ELT_FUNCTIONAL_TEST_EXECUTION_TIMEOUT"%string, 0xFF85);
   ("ELT_DURATION_TEST_RETRY_PERIOD"%string, 0xFF86);
   ("ELT_FUNCTIONAL_TEST_RETRY_PERIOD"%string, 0xFF87);
   ("ELT_DURATION_TEST_BACKUP_AUTOMATIC_DELAY"%string, 0xFF88);
   ("ELT_FUNCTIONAL_TEST_BACKUP_AUTOMATIC_DELAY"%string, 0xFF89);
   ("ELT_DURATION_TEST_BACKUP_AUTOMATIC_INTERVAL"%string, 0xFF8A);
   ("ELT_FUNCTIONAL_TEST_BACKUP_AUTOMATIC_INTERVAL"%string, 0xFF8B)].

(* silvair/emergency_lighting_test.py:179-188 *)
Definition elt_EmergencyLightingTestPropertyDict : cases :=
  (KCons "ELT_DURATION_TEST_EXECUTION_TIMEOUT" 0xFF84 properties_TimeSecond32
    (KCons "ELT_FUNCTIONAL_TEST_EXECUTION_TIMEOUT" 0xFF85 properties_TimeSecond32
    (KCons "ELT_DURATION_TEST_RETRY_PERIOD" 0xFF86 properties_TimeSecond32
    (KCons "ELT_FUNCTIONAL_TEST_RETRY_PERIOD" 0xFF87 properties_TimeSecond32
    (KCons "ELT_DURATION_TEST_BACKUP_AUTOMATIC_DELAY" 0xFF88 properties_TimeSecond32
    (KCons "ELT_FUNCTIONAL_TEST_BACKUP_AUTOMATIC_DELAY" 0xFF89 properties_TimeSecond32
    (KCons "ELT_DURATION_TEST_BACKUP_AUTOMATIC_INTERVAL" 0xFF8A properties_TimeSecond32
    (KCons "ELT_FUNCTIONAL_TEST_BACKUP_AUTOMATIC_INTERVAL" 0xFF8B properties_TimeSecond32
    KNil)))))))).

(* silvair/emergency_lighting_test.py:210-214 *)
Definition elt_Timestamp : con :=
  (CStruct (FCons "tai_seconds" (CBytesInt 5 true)
    (FCons "time_zone_offset" Int8ul
    (FCons "tai_utc_delta_raw" (CBytesInt 2 true)
    FNil)))).

(* silvair/emergency_lighting_test.py:216 *)
Definition elt_EmergencyLightingTestFunctionalTestGet : con :=
  (CStruct FNil).

(* silvair/emergency_lighting_test.py:218 *)
Definition elt_EmergencyLightingTestFunctionalTestStart : con :=
  (CStruct FNil).

(* silvair/emergency_lighting_test.py:220 *)
Definition elt_EmergencyLightingTestFunctionalTestStop : con :=
  (CStruct FNil).

(* silvair/emergency_lighting_test.py:222-226 *)
Definition elt_EmergencyLightingTestFunctionalTestStatusMinimal : con :=
  (CStruct (FCons "tai_timestamp" (CAdapt ATimestamp elt_Timestamp)
    (FCons "execution_status" (CAdapt (AEnum elt_TestExecutionStatus) Int8ul)
    (FCons "execution_result" elt_FunctionalExecutionResult
    FNil)))).

(* silvair/emergency_lighting_test.py:228-231 *)
Definition elt_EmergencyLightingTestFunctionalTestStatusOptional : con :=
  (CStruct (fapp (struct_fields elt_EmergencyLightingTestFunctionalTestStatusMinimal)
    (FCons "relative_timestamp" Int32ul
    FNil))).

(* silvair/emergency_lighting_test.py:233-236 *)
Definition elt_EmergencyLightingTestFunctionalTestStatus : con :=
  (CSelect (ACons (CNamed "optional" elt_EmergencyLightingTestFunctionalTestStatusOptional)
    (ACons (CNamed "minimal" elt_EmergencyLightingTestFunctionalTestStatusMinimal)
    ANil))).

(* silvair/emergency_lighting_test.py:238 *)
Definition elt_EmergencyLightingTestDurationTestGet : con :=
  (CStruct FNil).

(* silvair/emergency_lighting_test.py:240 *)
Definition elt_EmergencyLightingTestDurationTestStart : con :=
  (CStruct FNil).

(* silvair/emergency_lighting_test.py:242 *)
Definition elt_EmergencyLightingTestDurationTestStop : con :=
  (CStruct FNil).

(* silvair/emergency_lighting_test.py:244-249 *)
Definition elt_EmergencyLightingTestDurationTestStatusMinimal : con :=
  (CStruct (FCons "tai_timestamp" (CAdapt ATimestamp elt_Timestamp)
    (FCons "execution_status" (CAdapt (AEnum elt_TestExecutionStatus) Int8ul)
    (FCons "execution_result" elt_DurationExecutionResult
    (FCons "duration_result" Int16ul
    FNil))))).

(* silvair/emergency_lighting_test.py:251-254 *)
Definition elt_EmergencyLightingTestDurationTestStatusOptional : con :=
  (CStruct (fapp (struct_fields elt_EmergencyLightingTestDurationTestStatusMinimal)
    (FCons "relative_timestamp" Int32ul
    FNil))).

(* silvair/emergency_lighting_test.py:256-259 *)
Definition elt_EmergencyLightingTestDurationTestStatus : con :=
  (CSelect (ACons (CNamed "optional" elt_EmergencyLightingTestDurationTestStatusOptional)
    (ACons (CNamed "minimal" elt_EmergencyLightingTestDurationTestStatusMinimal)
    ANil))).

(* silvair/emergency_lighting_test.py:262-264 *)
Definition elt_EmergencyLightingTestPropertyGet : con :=
  (CStruct (FCons "property_id" (CAdapt (AEnum elt_EmergencyLightingTestProperty) Int16ul)
    FNil)).

(* silvair/emergency_lighting_test.py:266 *)
Definition elt_EmergencyLightingTestPropertySet : con :=
  (CProp elt_EmergencyLightingTestPropertyGet elt_EmergencyLightingTestProperty elt_EmergencyLightingTestPropertyDict).

(* silvair/emergency_lighting_test.py:268 *)
Definition elt_EmergencyLightingTestPropertyStatus : con :=
  (CProp elt_EmergencyLightingTestPropertyGet elt_EmergencyLightingTestProperty elt_EmergencyLightingTestPropertyDict).

(* silvair/emergency_lighting_test.py:271-290 *)
Definition elt_EmergencyLightingTestParams : con :=
  (CSwitchStruct "subopcode" (CAdapt (AEnum elt_EmergencyLightingTestSubOpcode) Int8ul) elt_EmergencyLightingTestSubOpcode "payload"
    (KCons "ELT_FUNCTIONAL_TEST_GET" 0 elt_EmergencyLightingTestFunctionalTestGet
    (KCons "ELT_FUNCTIONAL_TEST_START" 1 elt_EmergencyLightingTestFunctionalTestStart
    (KCons "ELT_FUNCTIONAL_TEST_STOP" 2 elt_EmergencyLightingTestFunctionalTestStop
    (KCons "ELT_FUNCTIONAL_TEST_STATUS" 3 elt_EmergencyLightingTestFunctionalTestStatus
    (KCons "ELT_DURATION_TEST_GET" 4 elt_EmergencyLightingTestDurationTestGet
    (KCons "ELT_DURATION_TEST_START" 5 elt_EmergencyLightingTestDurationTestStart
    (KCons "ELT_DURATION_TEST_STOP" 6 elt_EmergencyLightingTestDurationTestStop
    (KCons "ELT_DURATION_TEST_STATUS" 7 elt_EmergencyLightingTestDurationTestStatus
    (KCons "ELT_PROPERTY_GET" 8 elt_EmergencyLightingTestPropertyGet
    (KCons "ELT_PROPERTY_SET" 9 elt_EmergencyLightingTestPropertySet
    (KCons "ELT_PROPERTY_SET_UNACKNOWLEDGED" 10 elt_EmergencyLightingTestPropertySet
    (KCons "ELT_PROPERTY_STATUS" 11 elt_EmergencyLightingTestPropertyStatus
    KNil))))))))))))).

(* silvair/emergency_lighting_test.py:292-300 *)
Definition elt_EmergencyLightingTestMessage : con :=
  (CSwitchStruct "opcode" (COpcode elt_EmergencyLightingTestOpcode) elt_EmergencyLightingTestOpcode "params"
    (KCons "SILVAIR_ELT" 0xE93601 elt_EmergencyLightingTestParams
    KNil)).
