(** GENERATED by tools/gen.py from /repo/bluetooth_mesh/messages/silvair/emergency_lighting.py; do not edit.
    The declarations of the module, in source order; every definition cites its lines. *)
From Verif Require Import PyVal Float64 Adapters Construct G_properties.

(* silvair/emergency_lighting.py:30-31 *)
Definition el_EmergencyLightingOpcode : enum :=
  [("SILVAIR_EL"%string, 0xEA3601)].

(* silvair/emergency_lighting.py:34-52 *)
Definition el_EmergencyLightingSubOpcode : enum :=
  [("EL_INHIBIT_ENTER"%string, 0);
   ("EL_INHIBIT_ENTER_UNACKNOWLEDGED"%string, 1);
   ("EL_INHIBIT_EXIT"%string, 2);
   ("EL_INHIBIT_EXIT_UNACKNOWLEDGED"%string, 3);
   ("EL_STATE_GET"%string, 4);
   ("EL_STATE_STATUS"%string, 5);
   ("EL_PROPERTY_GET"%string, 6);
   ("EL_PROPERTY_SET"%string, 7);
   ("EL_PROPERTY_SET_UNACKNOWLEDGED"%string, 8);
   ("EL_PROPERTY_STATUS"%string, 9);
   ("EL_LAMP_OPERATION_TIME_GET"%string, 10);
   ("EL_LAMP_OPERATION_TIME_CLEAR"%string, 11);
   ("EL_LAMP_OPERATION_TIME_CLEAR_UNACKNOWLEDGED"%string, 12);
   ("EL_LAMP_OPERATION_TIME_STATUS"%string, 13);
   ("EL_REST_ENTER"%string, 14);
   ("EL_REST_ENTER_UNACKNOWLEDGED"%string, 15);
   ("EL_REST_EXIT"%string, 16);
   ("EL_REST_EXIT_UNACKNOWLEDGED"%string, 17)].

(* silvair/emergency_lighting.py:55-72 *)
Definition el_ElState : enum :=
  [("TRANSITION_FROM_INHIBIT_TO_NORMAL"%string, 0);
   ("TRANSITION_FROM_FUNCTIONAL_TEST_TO_NORMAL"%string, 1);
   ("TRANSITION_FROM_DURATION_TEST_TO_NORMAL"%string, 2);
   ("NORMAL"%string, 3);
   ("TRANSITION_FROM_REST_TO_EMERGENCY"%string, 4);
   ("EMERGENCY"%string, 5);
   ("EXTENDED_EMERGENCY"%string, 6);
   ("TRANSITION_FROM_EMERGENCY_TO_REST"%string, 7);
   ("REST"%string, 8);
   ("TRANSITION_FROM_NORMAL_TO_INHIBIT"%string, 9);
   ("INHIBIT"%string, 10);
   ("TRANSITION_FROM_NORMAL_TO_DURATION_TEST"%string, 11);
   ("DURATION_TEST_IN_PROGRESS"%string, 12);
   ("TRANSITION_FROM_NORMAL_TO_FUNCTIONAL_TEST"%string, 13);
   ("FUNCTIONAL_TEST_IN_PROGRESS"%string, 14);
   ("BATTERY_DISCHARGED"%string, 15);
   ("UNKNOWN"%string, 16)].

(* silvair/emergency_lighting.py:75-79 *)
Definition el_EmergencyLightingProperty : enum :=
  [("EL_LIGHTNESS"%string, 0xFF80);
   ("EL_LIGHTNESS_RANGE_MIN"%string, 0xFF81);
   ("EL_LIGHTNESS_RANGE_MAX"%string, 0xFF82);
   ("EL_PROLONG_TIME"%string, 0xFF83)].

(* silvair/emergency_lighting.py:82-87 *)
Definition el_EmergencyLightingPropertyDict : cases :=
  (KCons "EL_LIGHTNESS" 0xFF80 properties_PerceivedLightness
    (KCons "EL_LIGHTNESS_RANGE_MIN" 0xFF81 properties_PerceivedLightness
    (KCons "EL_LIGHTNESS_RANGE_MAX" 0xFF82 properties_PerceivedLightness
    (KCons "EL_PROLONG_TIME" 0xFF83 properties_TimeSecond16
    KNil)))).

(* silvair/emergency_lighting.py:109 *)
Definition el_EmergencyLightingInhibitEnter : con :=
  (CStruct FNil).

(* silvair/emergency_lighting.py:111 *)
Definition el_EmergencyLightingInhibitExit : con :=
  (CStruct FNil).

(* silvair/emergency_lighting.py:113 *)
Definition el_EmergencyLightingStateGet : con :=
  (CStruct FNil).

(* silvair/emergency_lighting.py:115-117 *)
Definition el_EmergencyLightingStateStatus : con :=
  (CStruct (FCons "el_state" (CAdapt (AEnum el_ElState) Int8ul)
    FNil)).

(* silvair/emergency_lighting.py:119-121 *)
Definition el_EmergencyLightingPropertyGet : con :=
  (CStruct (FCons "property_id" (CAdapt (AEnum el_EmergencyLightingProperty) Int16ul)
    FNil)).

(* silvair/emergency_lighting.py:123 *)
Definition el_EmergencyLightingPropertySet : con :=
  (CProp el_EmergencyLightingPropertyGet el_EmergencyLightingProperty el_EmergencyLightingPropertyDict).

(* silvair/emergency_lighting.py:125 *)
Definition el_EmergencyLightingPropertyStatus : con :=
  (CProp el_EmergencyLightingPropertyGet el_EmergencyLightingProperty el_EmergencyLightingPropertyDict).

(* silvair/emergency_lighting.py:127 *)
Definition el_EmergencyLightingLampOperationTimeGet : con :=
  (CStruct FNil).

(* silvair/emergency_lighting.py:129 *)
Definition el_EmergencyLightingLampOperationTimeClear : con :=
  (CStruct FNil).

(* silvair/emergency_lighting.py:131-134 *)
Definition el_EmergencyLightingLampOperationTimeStatus : con :=
  (CStruct (FCons "el_lamp_total_operation_time" Int32ul
    (FCons "el_lamp_emergency_time" Int32ul
    FNil))).

(* silvair/emergency_lighting.py:136 *)
Definition el_EmergencyLightingRestEnter : con :=
  (CStruct FNil).

(* silvair/emergency_lighting.py:138 *)
Definition el_EmergencyLightingRestExit : con :=
  (CStruct FNil).

(* silvair/emergency_lighting.py:140-165 *)
Definition el_EmergencyLightingParams : con :=
  (CSwitchStruct "subopcode" (CAdapt (AEnum el_EmergencyLightingSubOpcode) Int8ul) el_EmergencyLightingSubOpcode "payload"
    (KCons "EL_INHIBIT_ENTER" 0 el_EmergencyLightingInhibitEnter
    (KCons "EL_INHIBIT_ENTER_UNACKNOWLEDGED" 1 el_EmergencyLightingInhibitEnter
    (KCons "EL_INHIBIT_EXIT" 2 el_EmergencyLightingInhibitExit
    (KCons "EL_INHIBIT_EXIT_UNACKNOWLEDGED" 3 el_EmergencyLightingInhibitExit
    (KCons "EL_STATE_GET" 4 el_EmergencyLightingStateGet
    (KCons "EL_STATE_STATUS" 5 el_EmergencyLightingStateStatus
    (KCons "EL_PROPERTY_GET" 6 el_EmergencyLightingPropertyGet
    (KCons "EL_PROPERTY_SET" 7 el_EmergencyLightingPropertySet
    (KCons "EL_PROPERTY_SET_UNACKNOWLEDGED" 8 el_EmergencyLightingPropertySet
    (KCons "EL_PROPERTY_STATUS" 9 el_EmergencyLightingPropertyStatus
    (KCons "EL_LAMP_OPERATION_TIME_GET" 10 el_EmergencyLightingLampOperationTimeGet
    (KCons "EL_LAMP_OPERATION_TIME_CLEAR" 11 el_EmergencyLightingLampOperationTimeClear
    (KCons "EL_LAMP_OPERATION_TIME_CLEAR_UNACKNOWLEDGED" 12 el_EmergencyLightingLampOperationTimeClear
    (KCons "EL_LAMP_OPERATION_TIME_STATUS" 13 el_EmergencyLightingLampOperationTimeStatus
    (KCons "EL_REST_ENTER" 14 el_EmergencyLightingRestEnter
    (KCons "EL_REST_ENTER_UNACKNOWLEDGED" 15 el_EmergencyLightingRestEnter
    (KCons "EL_REST_EXIT" 16 el_EmergencyLightingRestExit
    (KCons "EL_REST_EXIT_UNACKNOWLEDGED" 17 el_EmergencyLightingRestExit
    KNil))))))))))))))))))).

(* silvair/emergency_lighting.py:167-175 *)
Definition el_EmergencyLightingMessage : con :=
  (CSwitchStruct "opcode" (COpcode el_EmergencyLightingOpcode) el_EmergencyLightingOpcode "params"
    (KCons "SILVAIR_EL" 0xEA3601 el_EmergencyLightingParams
    KNil)).
