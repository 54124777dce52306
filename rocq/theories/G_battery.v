(** GENERATED by tools/gen.py from /repo/bluetooth_mesh/messages/generic/battery.py; do not edit.
    The declarations of the module, in source order; every definition cites its lines. *)
From Verif Require Import PyVal Float64 Adapters Construct.

(* generic/battery.py:35-37 *)
Definition battery_GenericBatteryOpcode : enum :=
  [("GENERIC_BATTERY_GET"%string, 0x8223);
   ("GENERIC_BATTERY_STATUS"%string, 0x8224)].

(* generic/battery.py:40-44 *)
Definition battery_GenericBatteryFlagsPresence : enum :=
  [("BATTERY_NOT_PRESENT"%string, 0);
   ("BATTERY_PRESENT_REMOVABLE"%string, 1);
   ("BATTERY_PRESENT_NON_REMOVABLE"%string, 2);
   ("BATTERY_PRESENCE_UNKNOWN"%string, 3)].

(* generic/battery.py:47-51 *)
Definition battery_GenericBatteryFlagsIndicator : enum :=
  [("BATTERY_CHARGE_CRITICALLY_LOW"%string, 0);
   ("BATTERY_CHARGE_LOW"%string, 1);
   ("BATTERY_CHARGE_GOOD"%string, 2);
   ("BATTERY_CHARGE_UNKNOWN"%string, 3)].

(* generic/battery.py:54-58 *)
Definition battery_GenericBatteryFlagsCharging : enum :=
  [("BATTERY_NOT_CHARGEABLE"%string, 0);
   ("BATTERY_CHARGEABLE_NOT_CHARGING"%string, 1);
   ("BATTERY_CHARGEABLE_CHARGING"%string, 2);
   ("BATTERY_CHARGING_STATE_UNKNOWN"%string, 3)].

(* generic/battery.py:61-65 *)
Definition battery_GenericBatteryFlagsServiceability : enum :=
  [("RFU"%string, 0);
   ("BATTERY_NOT_REQUIRE_SERVICE"%string, 1);
   ("BATTERY_REQUIRE_SERVICE"%string, 2);
   ("BATTERY_SERVICEABILITY_UNKNOWN"%string, 3)].

(* generic/battery.py:69-78 *)
Definition battery_BatteryFlags : con :=
  (CBitwise (CStruct (FCons "battery_serviceability_flags" (CAdapt (AEnum battery_GenericBatteryFlagsServiceability) (CBits 2 false))
    (FCons "battery_charging_flags" (CAdapt (AEnum battery_GenericBatteryFlagsCharging) (CBits 2 false))
    (FCons "battery_indicator_flags" (CAdapt (AEnum battery_GenericBatteryFlagsIndicator) (CBits 2 false))
    (FCons "battery_presence_flags" (CAdapt (AEnum battery_GenericBatteryFlagsPresence) (CBits 2 false))
    FNil)))))).

(* generic/battery.py:80 *)
Definition battery_GenericBatteryGet : con :=
  (CStruct FNil).

(* generic/battery.py:82-87 *)
Definition battery_GenericBatteryStatus : con :=
  (CStruct (FCons "battery_level" (CAdapt (ACount 1 0 (RFloat 1) true) Int8ul)
    (FCons "time_to_discharge" (CAdapt (ACount 3 0 (RFloat 1) true) Int24ul)
    (FCons "time_to_charge" (CAdapt (ACount 3 0 (RFloat 1) true) Int24ul)
    (FCons "flags" battery_BatteryFlags
    FNil))))).

(* generic/battery.py:89-98 *)
Definition battery_GenericBatteryMessage : con :=
  (CSwitchStruct "opcode" (COpcode battery_GenericBatteryOpcode) battery_GenericBatteryOpcode "params"
    (KCons "GENERIC_BATTERY_GET" 0x8223 battery_GenericBatteryGet
    (KCons "GENERIC_BATTERY_STATUS" 0x8224 battery_GenericBatteryStatus
    KNil))).
