(** GENERATED by tools/gen.py from /repo/bluetooth_mesh/messages/health.py; do not edit.
    The declarations of the module, in source order; every definition cites its lines. *)
From Verif Require Import PyVal Float64 Adapters Construct.

(* health.py:29-32 *)
Definition health_FaultTest : con :=
  (CStruct (FCons "test_id" Int8ul
    (FCons "company_id" Int16ul
    FNil))).

(* health.py:34-38 *)
Definition health_FaultStatus : con :=
  (CStruct (FCons "test_id" Int8ul
    (FCons "company_id" Int16ul
    (FDefault "fault_array" (CGreedyRange Int8ul) (VList [])
    FNil)))).

(* health.py:40-42 *)
Definition health_FastPeriodDivisor : con :=
  (CStruct (FCons "fast_period_divisor" (CAdapt (ARange None (Some 15)) Int8ul)
    FNil)).

(* health.py:44-46 *)
Definition health_Attention : con :=
  (CStruct (FCons "attention" Int8ul
    FNil)).

(* health.py:48-50 *)
Definition health_CompanyId : con :=
  (CStruct (FCons "company_id" Int16ul
    FNil)).

(* health.py:52 *)
Definition health_HealthCurrentStatus : con :=
  health_FaultStatus.

(* health.py:54 *)
Definition health_HealthFaultGet : con :=
  health_CompanyId.

(* health.py:56 *)
Definition health_HealthFaultClear : con :=
  health_CompanyId.

(* health.py:58 *)
Definition health_HealthFaultTest : con :=
  health_FaultTest.

(* health.py:60 *)
Definition health_HealthFaultStatus : con :=
  health_FaultStatus.

(* health.py:62 *)
Definition health_HealthPeriodGet : con :=
  (CStruct FNil).

(* health.py:64 *)
Definition health_HealthPeriodSet : con :=
  health_FastPeriodDivisor.

(* health.py:66 *)
Definition health_HealthPeriodStatus : con :=
  health_FastPeriodDivisor.

(* health.py:68 *)
Definition health_HealthAttentionGet : con :=
  (CStruct FNil).

(* health.py:70 *)
Definition health_HealthAttentionSet : con :=
  health_Attention.

(* health.py:72 *)
Definition health_HealthAttentionStatus : con :=
  health_Attention.

(* health.py:76-91 *)
Definition health_HealthOpcode : enum :=
  [("HEALTH_ATTENTION_GET"%string, 0x8004);
   ("HEALTH_ATTENTION_SET"%string, 0x8005);
   ("HEALTH_ATTENTION_SET_UNACKNOWLEDGED"%string, 0x8006);
   ("HEALTH_ATTENTION_STATUS"%string, 0x8007);
   ("HEALTH_CURRENT_STATUS"%string, 4);
   ("HEALTH_FAULT_CLEAR"%string, 0x802F);
   ("HEALTH_FAULT_CLEAR_UNACKNOWLEDGED"%string, 0x8030);
   ("HEALTH_FAULT_GET"%string, 0x8031);
   ("HEALTH_FAULT_STATUS"%string, 5);
   ("HEALTH_FAULT_TEST"%string, 0x8032);
   ("HEALTH_FAULT_TEST_UNACKNOWLEDGED"%string, 0x8033);
   ("HEALTH_PERIOD_GET"%string, 0x8034);
   ("HEALTH_PERIOD_SET"%string, 0x8035);
   ("HEALTH_PERIOD_SET_UNACKNOWLEDGED"%string, 0x8036);
   ("HEALTH_PERIOD_STATUS"%string, 0x8037)].

(* health.py:95-117 *)
Definition health_HealthMessage : con :=
  (CSwitchStruct "opcode" (COpcode health_HealthOpcode) health_HealthOpcode "params"
    (KCons "HEALTH_ATTENTION_GET" 0x8004 health_HealthAttentionGet
    (KCons "HEALTH_ATTENTION_SET" 0x8005 health_HealthAttentionSet
    (KCons "HEALTH_ATTENTION_SET_UNACKNOWLEDGED" 0x8006 health_HealthAttentionSet
    (KCons "HEALTH_ATTENTION_STATUS" 0x8007 health_HealthAttentionStatus
    (KCons "HEALTH_CURRENT_STATUS" 4 health_HealthCurrentStatus
    (KCons "HEALTH_FAULT_CLEAR" 0x802F health_HealthFaultClear
    (KCons "HEALTH_FAULT_CLEAR_UNACKNOWLEDGED" 0x8030 health_HealthFaultClear
    (KCons "HEALTH_FAULT_GET" 0x8031 health_HealthFaultGet
    (KCons "HEALTH_FAULT_STATUS" 5 health_HealthCurrentStatus
    (KCons "HEALTH_FAULT_TEST" 0x8032 health_HealthFaultTest
    (KCons "HEALTH_FAULT_TEST_UNACKNOWLEDGED" 0x8033 health_HealthFaultTest
    (KCons "HEALTH_PERIOD_GET" 0x8034 health_HealthPeriodGet
    (KCons "HEALTH_PERIOD_SET" 0x8035 health_HealthPeriodSet
    (KCons "HEALTH_PERIOD_SET_UNACKNOWLEDGED" 0x8036 health_HealthPeriodSet
    (KCons "HEALTH_PERIOD_STATUS" 0x8037 health_HealthPeriodStatus
    KNil)))))))))))))))).
