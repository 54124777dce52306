(** GENERATED by tools/gen.py from /repo/bluetooth_mesh/messages/silvair/rrule_scheduler.py; do not edit.
    The declarations of the module, in source order; every definition cites its lines. *)
From Verif Require Import PyVal Float64 Adapters Construct.

(* silvair/rrule_scheduler.py:52-53 *)
Definition rrule_RRuleSchedulerOpcode : enum :=
  [("SILVAIR_RRULE_SCHEDULER"%string, 0xE83601)].

(* silvair/rrule_scheduler.py:56-70 *)
Definition rrule_RRuleSchedulerSubOpcode : enum :=
  [("RULES_LIST_GET"%string, 0);
   ("RULES_LIST_STATUS"%string, 1);
   ("REGISTER_MAX_SIZE_GET"%string, 2);
   ("REGISTER_MAX_SIZE_STATUS"%string, 3);
   ("SCHEDULER_MODE_GET"%string, 4);
   ("SCHEDULER_MODE_SET"%string, 5);
   ("SCHEDULER_MODE_STATUS"%string, 6);
   ("SCHEDULE_REGISTER_ENTRY_GET"%string, 7);
   ("SCHEDULE_REGISTER_ENTRY_SET"%string, 8);
   ("SCHEDULE_REGISTER_ENTRY_DELETE"%string, 9);
   ("SCHEDULE_REGISTER_ENTRY_DELETE_ALL"%string, 10);
   ("SCHEDULE_REGISTER_ENTRY_STATUS"%string, 11);
   ("SCHEDULE_REGISTER_LIST_GET"%string, 12);
   ("SCHEDULE_REGISTER_LIST_STATUS"%string, 13)].

(* silvair/rrule_scheduler.py:73-75 *)
Definition rrule_SchedulerModes : enum :=
  [("DISABLED"%string, 0);
   ("ENABLED"%string, 1)].

(* silvair/rrule_scheduler.py:78-92 *)
Definition rrule_Days : enum :=
  [("PREVIOUS_SUNDAY"%string, (-7));
   ("PREVIOUS_SATURDAY"%string, (-6));
   ("PREVIOUS_FRIDAY"%string, (-5));
   ("PREVIOUS_THURSDAY"%string, (-4));
   ("PREVIOUS_WEDNESDAY"%string, (-3));
   ("PREVIOUS_TUESDAY"%string, (-2));
   ("PREVIOUS_MONDAY"%string, (-1));
   ("NEXT_MONDAY"%string, 1);
   ("NEXT_TUESDAY"%string, 2);
   ("NEXT_WEDNESDAY"%string, 3);
   ("NEXT_THURSDAY"%string, 4);
   ("NEXT_FRIDAY"%string, 5);
   ("NEXT_SATURDAY"%string, 6);
   ("NEXT_SUNDAY"%string, 7)].

(* silvair/rrule_scheduler.py:95-102 *)
Definition rrule_StatusCodes : enum :=
  [("SUCCESS"%string, 0);
   ("INVALID_SLOT"%string, 1);
   ("INVALID_SLOT_PARAMETERS"%string, 2);
   ("INVALID_RULE"%string, 3);
   ("INVALID_RULE_VALUE"%string, 4);
   ("REGISTER_SIZE_EXCEEDED"%string, 5);
   ("STORAGE_FAILURE"%string, 6)].

(* silvair/rrule_scheduler.py:105-121 *)
Definition rrule_RuleIDs : enum :=
  [("FREQ"%string, 0);
   ("UNTIL"%string, 1);
   ("COUNT"%string, 2);
   ("INTERVAL"%string, 3);
   ("BYSECOND"%string, 4);
   ("BYMINUTE"%string, 5);
   ("BYHOUR"%string, 6);
   ("BYDAY"%string, 7);
   ("BYMONTHDAY"%string, 8);
   ("BYYEARDAY"%string, 9);
   ("BYWEEKNO"%string, 10);
   ("BYMONTH"%string, 11);
   ("BYSETPOS"%string, 12);
   ("DTSTART"%string, 13);
   ("EXPLICIT_RDATE"%string, 14);
   ("EXCLUSIONS_RDATE"%string, 15)].

(* silvair/rrule_scheduler.py:124-131 *)
Definition rrule_Freqs : enum :=
  [("SECONDLY"%string, 0);
   ("MINUTELY"%string, 1);
   ("HOURLY"%string, 2);
   ("DAILY"%string, 3);
   ("WEEKLY"%string, 4);
   ("MONTHLY"%string, 5);
   ("YEARLY"%string, 6)].

(* silvair/rrule_scheduler.py:135-139 *)
Definition rrule_Slots : con :=
  (CStruct (FCons "slot_id" Int16ul
    (FCons "element" Int8ul
    (FCons "slot_parameter" CPrefixedBytes
    FNil)))).

(* silvair/rrule_scheduler.py:141-150 *)
Definition rrule_DateTime : con :=
  (CReversed 5 (CBitwise (CStruct (FCons "second" (CBits 6 false)
    (FCons "minute" (CBits 6 false)
    (FCons "hour" (CBits 5 false)
    (FCons "day" (CBits 5 false)
    (FCons "month" (CBits 4 false)
    (FCons "year" (CBits 14 false)
    FNil))))))))).

(* silvair/rrule_scheduler.py:152 *)
Definition rrule_RuleID : con :=
  (CAdapt (AEnum rrule_RuleIDs) Int8ul).

(* silvair/rrule_scheduler.py:154 *)
Definition rrule_Freq : con :=
  (CAdapt (AEnum rrule_Freqs) Int8ul).

(* silvair/rrule_scheduler.py:156 *)
Definition rrule_Day : con :=
  (CAdapt (AEnum rrule_Days) Int8sl).

(* silvair/rrule_scheduler.py:158-181 *)
Definition rrule_Rules : con :=
  (CStruct (FCons "rule_id" rrule_RuleID
    (FCons "rule" (CSwitch "rule_id" (KCons "FREQ" 0 rrule_Freq
    (KCons "UNTIL" 1 rrule_DateTime
    (KCons "COUNT" 2 Int16ul
    (KCons "INTERVAL" 3 Int16ul
    (KCons "BYSECOND" 4 (CPrefixedArray Int8ul)
    (KCons "BYMINUTE" 5 (CPrefixedArray Int8ul)
    (KCons "BYHOUR" 6 (CPrefixedArray Int8ul)
    (KCons "BYDAY" 7 (CPrefixedArray rrule_Day)
    (KCons "BYMONTHDAY" 8 (CPrefixedArray Int8sl)
    (KCons "BYYEARDAY" 9 (CPrefixedArray Int16sl)
    (KCons "BYWEEKNO" 10 (CPrefixedArray Int8sl)
    (KCons "BYMONTH" 11 Int16ul
    (KCons "BYSETPOS" 12 (CPrefixedArray Int16sl)
    (KCons "DTSTART" 13 rrule_DateTime
    (KCons "EXPLICIT_RDATE" 14 (CPrefixedArray rrule_DateTime)
    (KCons "EXCLUSIONS_RDATE" 15 (CPrefixedArray rrule_DateTime)
    KNil)))))))))))))))))
    FNil))).

(* silvair/rrule_scheduler.py:183-186 *)
Definition rrule_SchedulerRegisterEntry : con :=
  (CStruct (FCons "array_of_slots" (CPrefixedArray rrule_Slots)
    (FCons "rules" (CGreedyRange rrule_Rules)
    FNil))).

(* silvair/rrule_scheduler.py:188 *)
Definition rrule_RulesListGet : con :=
  (CStruct FNil).

(* silvair/rrule_scheduler.py:190-192 *)
Definition rrule_RulesListStatus : con :=
  (CStruct (FCons "rule_ids" (CAdapt ASet (CGreedyRange rrule_RuleID))
    FNil)).

(* silvair/rrule_scheduler.py:194 *)
Definition rrule_RegisterMaxSizeGet : con :=
  (CStruct FNil).

(* silvair/rrule_scheduler.py:196-198 *)
Definition rrule_RegisterMaxSizeStatus : con :=
  (CStruct (FCons "register_max_size" Int32ul
    FNil)).

(* silvair/rrule_scheduler.py:200 *)
Definition rrule_SchedulerModeGet : con :=
  (CStruct FNil).

(* silvair/rrule_scheduler.py:202-204 *)
Definition rrule_SchedulerModeSet : con :=
  (CStruct (FCons "scheduler_mode" (CAdapt (AEnum rrule_SchedulerModes) Int8ul)
    FNil)).

(* silvair/rrule_scheduler.py:206 *)
Definition rrule_SchedulerModeStatus : con :=
  rrule_SchedulerModeSet.

(* silvair/rrule_scheduler.py:208-210 *)
Definition rrule_ScheduleRegisterEntryGet : con :=
  (CStruct (FCons "entry_id" Int8ul
    FNil)).

(* silvair/rrule_scheduler.py:212-215 *)
Definition rrule_ScheduleRegisterEntrySet : con :=
  (CStruct (FCons "entry_id" Int8ul
    (FCons "scheduler_register_entry" rrule_SchedulerRegisterEntry
    FNil))).

(* silvair/rrule_scheduler.py:217 *)
Definition rrule_ScheduleRegisterEntryDelete : con :=
  rrule_ScheduleRegisterEntryGet.

(* silvair/rrule_scheduler.py:219 *)
Definition rrule_ScheduleRegisterEntryDeleteAll : con :=
  (CStruct FNil).

(* silvair/rrule_scheduler.py:221-224 *)
Definition rrule_ScheduleRegisterEntryStatusMinimal : con :=
  (CStruct (FCons "entry_id" Int8ul
    (FCons "status" (CAdapt (AEnum rrule_StatusCodes) Int8ul)
    FNil))).

(* silvair/rrule_scheduler.py:226-229 *)
Definition rrule_ScheduleRegisterEntryStatusOptional : con :=
  (CStruct (fapp (struct_fields rrule_ScheduleRegisterEntryStatusMinimal)
    (FCons "scheduler_register_entry" rrule_SchedulerRegisterEntry
    FNil))).

(* silvair/rrule_scheduler.py:231-234 *)
Definition rrule_ScheduleRegisterEntryStatus : con :=
  (CSelect (ACons (CNamed "optional" rrule_ScheduleRegisterEntryStatusOptional)
    (ACons (CNamed "minimal" rrule_ScheduleRegisterEntryStatusMinimal)
    ANil))).

(* silvair/rrule_scheduler.py:236 *)
Definition rrule_ScheduleRegisterListGet : con :=
  (CStruct FNil).

(* silvair/rrule_scheduler.py:238-240 *)
Definition rrule_ScheduleRegisterListStatus : con :=
  (CStruct (FCons "entry_ids" (CAdapt ASet (CGreedyRange Int8ul))
    FNil)).

(* silvair/rrule_scheduler.py:242-263 *)
Definition rrule_RRuleSchedulerSubMessage : con :=
  (CStruct (FCons "subopcode" (CAdapt (AEnum rrule_RRuleSchedulerSubOpcode) Int8ul)
    (FCons "payload" (CSwitch "subopcode" (KCons "RULES_LIST_GET" 0 rrule_RulesListGet
    (KCons "RULES_LIST_STATUS" 1 rrule_RulesListStatus
    (KCons "REGISTER_MAX_SIZE_GET" 2 rrule_RegisterMaxSizeGet
    (KCons "REGISTER_MAX_SIZE_STATUS" 3 rrule_RegisterMaxSizeStatus
    (KCons "SCHEDULER_MODE_GET" 4 rrule_SchedulerModeGet
    (KCons "SCHEDULER_MODE_SET" 5 rrule_SchedulerModeSet
    (KCons "SCHEDULER_MODE_STATUS" 6 rrule_SchedulerModeStatus
    (KCons "SCHEDULE_REGISTER_ENTRY_GET" 7 rrule_ScheduleRegisterEntryGet
    (KCons "SCHEDULE_REGISTER_ENTRY_SET" 8 rrule_ScheduleRegisterEntrySet
    (KCons "SCHEDULE_REGISTER_ENTRY_DELETE" 9 rrule_ScheduleRegisterEntryDelete
    (KCons "SCHEDULE_REGISTER_ENTRY_DELETE_ALL" 10 rrule_ScheduleRegisterEntryDeleteAll
    (KCons "SCHEDULE_REGISTER_ENTRY_STATUS" 11 rrule_ScheduleRegisterEntryStatus
    (KCons "SCHEDULE_REGISTER_LIST_GET" 12 rrule_ScheduleRegisterListGet
    (KCons "SCHEDULE_REGISTER_LIST_STATUS" 13 rrule_ScheduleRegisterListStatus
    KNil)))))))))))))))
    FNil))).

(* silvair/rrule_scheduler.py:265-273 *)
Definition rrule_RRuleSchedulerMessage : con :=
  (CSwitchStruct "opcode" (COpcode rrule_RRuleSchedulerOpcode) rrule_RRuleSchedulerOpcode "params"
    (KCons "SILVAIR_RRULE_SCHEDULER" 0xE83601 rrule_RRuleSchedulerSubMessage
    KNil)).
