(** GENERATED by tools/gen.py from /repo/bluetooth_mesh/messages/time.py; do not edit.
    The declarations of the module, in source order; every definition cites its lines. *)
From Verif Require Import PyVal Float64 Adapters Construct.

(* time.py:68-72 *)
Definition time_TimeRole : enum :=
  [("NONE"%string, 0);
   ("TIME_AUTHORITY"%string, 1);
   ("TIME_RELAY"%string, 2);
   ("TIME_CLIENT"%string, 3)].

(* time.py:111-113 *)
Definition time_TimeMinimal : con :=
  (CStruct (FCons "tai_seconds" (CBytesInt 5 true)
    FNil)).

(* time.py:115-126 *)
Definition time_TimeOptional : con :=
  (CStruct (FCons "tai_seconds" (CBytesInt 5 true)
    (FStopIf "tai_seconds"
    (FCons "subsecond" Int8ul
    (FCons "uncertainty" Int8ul
    (FBits 2 (FCons "tai_utc_delta" (CBits 15 false)
    (FCons "time_authority" CFlag
    FNil))
    (FCons "time_zone_offset" Int8ul
    FNil))))))).

(* time.py:128-131 *)
Definition time_Time : con :=
  (CSelect (ACons (CNamed "optional" time_TimeOptional)
    (ACons (CNamed "minimal" time_TimeMinimal)
    ANil))).

(* time.py:247-249 *)
Definition time_TimeRoleMsg : con :=
  (CStruct (FCons "time_role" (CAdapt (AEnum time_TimeRole) Int8ul)
    FNil)).

(* time.py:251 *)
Definition time_TimeGet : con :=
  (CStruct FNil).

(* time.py:253 *)
Definition time_TimeSet : con :=
  (CAdapt ATime time_Time).

(* time.py:255 *)
Definition time_TimeStatus : con :=
  (CAdapt ATime time_Time).

(* time.py:257 *)
Definition time_TimeZoneGet : con :=
  (CStruct FNil).

(* time.py:259-262 *)
Definition time_TimeZoneSet : con :=
  (CStruct (FCons "time_zone_offset_new" Int8ul
    (FCons "tai_of_zone_change" (CBytesInt 5 true)
    FNil))).

(* time.py:264-268 *)
Definition time_TimeZoneStatus : con :=
  (CStruct (FCons "time_zone_offset_current" Int8ul
    (FCons "time_zone_offset_new" Int8ul
    (FCons "tai_of_zone_change" (CBytesInt 5 true)
    FNil)))).

(* time.py:270 *)
Definition time_TAIUTCDeltaGet : con :=
  (CStruct FNil).

(* time.py:272-275 *)
Definition time_TAIUTCDeltaSet : con :=
  (CStruct (FBits 2 (FPad None 1 (FCons "tai_utc_delta_new" (CBits 15 false) FNil))
    (FCons "tai_of_delta_change" (CBytesInt 5 true)
    FNil))).

(* time.py:277-281 *)
Definition time_TAIUTCDeltaStatus : con :=
  (CStruct (FBits 2 (FPad None 1 (FCons "tai_utc_delta_current" (CBits 15 false) FNil))
    (FBits 2 (FPad None 1 (FCons "tai_utc_delta_new" (CBits 15 false) FNil))
    (FCons "tai_of_delta_change" (CBytesInt 5 true)
    FNil)))).

(* time.py:283 *)
Definition time_TimeRoleGet : con :=
  (CStruct FNil).

(* time.py:285 *)
Definition time_TimeRoleSet : con :=
  time_TimeRoleMsg.

(* time.py:287 *)
Definition time_TimeRoleStatus : con :=
  time_TimeRoleMsg.

(* time.py:292-304 *)
Definition time_TimeOpcode : enum :=
  [("TIME_GET"%string, 0x8237);
   ("TIME_SET"%string, 92);
   ("TIME_STATUS"%string, 93);
   ("TIME_ROLE_GET"%string, 0x8238);
   ("TIME_ROLE_SET"%string, 0x8239);
   ("TIME_ROLE_STATUS"%string, 0x823A);
   ("TIME_ZONE_GET"%string, 0x823B);
   ("TIME_ZONE_SET"%string, 0x823C);
   ("TIME_ZONE_STATUS"%string, 0x823D);
   ("TAI_UTC_DELTA_GET"%string, 0x823E);
   ("TAI_UTC_DELTA_SET"%string, 0x823F);
   ("TAI_UTC_DELTA_STATUS"%string, 0x8240)].

(* time.py:308-327 *)
Definition time_TimeMessage : con :=
  (CSwitchStruct "opcode" (COpcode time_TimeOpcode) time_TimeOpcode "params"
    (KCons "TIME_GET" 0x8237 time_TimeGet
    (KCons "TIME_SET" 92 time_TimeSet
    (KCons "TIME_STATUS" 93 time_TimeStatus
    (KCons "TIME_ZONE_GET" 0x823B time_TimeZoneGet
    (KCons "TIME_ZONE_SET" 0x823C time_TimeZoneSet
    (KCons "TIME_ZONE_STATUS" 0x823D time_TimeZoneStatus
    (KCons "TAI_UTC_DELTA_GET" 0x823E time_TAIUTCDeltaGet
    (KCons "TAI_UTC_DELTA_SET" 0x823F time_TAIUTCDeltaSet
    (KCons "TAI_UTC_DELTA_STATUS" 0x8240 time_TAIUTCDeltaStatus
    (KCons "TIME_ROLE_GET" 0x8238 time_TimeRoleGet
    (KCons "TIME_ROLE_SET" 0x8239 time_TimeRoleSet
    (KCons "TIME_ROLE_STATUS" 0x823A time_TimeRoleStatus
    KNil))))))))))))).
