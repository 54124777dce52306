(** GENERATED by tools/gen.py from /repo/bluetooth_mesh/messages/silvair/light_extended_controller.py; do not edit.
    The declarations of the module, in source order; every definition cites its lines. *)
From Verif Require Import PyVal Float64 Adapters Construct G_properties.

(* silvair/light_extended_controller.py:30-31 *)
Definition lec_LightExtendedControllerOpcode : enum :=
  [("SILVAIR_LEC"%string, 0xF63601)].

(* silvair/light_extended_controller.py:34-44 *)
Definition lec_LightExtendedControllerSubOpcode : enum :=
  [("PROPERTY_GET"%string, 0);
   ("PROPERTY_SET"%string, 1);
   ("PROPERTY_SET_UNACKNOWLEDGED"%string, 2);
   ("PROPERTY_STATUS"%string, 3);
   ("BULK_LC_PROPERTY_SET"%string, 4);
   ("BULK_LC_PROPERTY_STATUS"%string, 5);
   ("BULK_LEC_PROPERTY_SET"%string, 6);
   ("BULK_LEC_PROPERTY_STATUS"%string, 6);
   ("SYNC_INTEGRAL_GET"%string, 8);
   ("SYNC_INTEGRAL_STATUS"%string, 9)].

(* silvair/light_extended_controller.py:47-49 *)
Definition lec_LightExtendedControllerProperty : enum :=
  [("AUTO_RESUME_MODE"%string, 0xFF71);
   ("AUTO_RESUME_TIMER"%string, 0xFF72)].

(* silvair/light_extended_controller.py:52-55 *)
Definition lec_LightExtendedControllerPropertyDict : cases :=
  (KCons "AUTO_RESUME_MODE" 0xFF71 CFlag
    (KCons "AUTO_RESUME_TIMER" 0xFF72 properties_TimeMiliseconds24
    KNil)).

(* silvair/light_extended_controller.py:77-79 *)
Definition lec_LightExtendedControllerPropertyGet : con :=
  (CStruct (FCons "property_id" (CAdapt (AEnum lec_LightExtendedControllerProperty) Int16ul)
    FNil)).

(* silvair/light_extended_controller.py:81 *)
Definition lec_LightExtendedControllerPropertySet : con :=
  (CProp lec_LightExtendedControllerPropertyGet lec_LightExtendedControllerProperty lec_LightExtendedControllerPropertyDict).

(* silvair/light_extended_controller.py:83 *)
Definition lec_LightExtendedControllerPropertyStatus : con :=
  (CProp lec_LightExtendedControllerPropertyGet lec_LightExtendedControllerProperty lec_LightExtendedControllerPropertyDict).

(* silvair/light_extended_controller.py:85-87 *)
Definition lec_LightExtendedControllerSyncIntegralStatus : con :=
  (CStruct (FCons "sync_integral" Int16ul
    FNil)).

(* silvair/light_extended_controller.py:89-101 *)
Definition lec_LightExtendedControllerParams : con :=
  (CSwitchStruct "subopcode" (CAdapt (AEnum lec_LightExtendedControllerSubOpcode) Int8ul) lec_LightExtendedControllerSubOpcode "payload"
    (KCons "PROPERTY_GET" 0 lec_LightExtendedControllerPropertyGet
    (KCons "PROPERTY_SET" 1 lec_LightExtendedControllerPropertySet
    (KCons "PROPERTY_SET_UNACKNOWLEDGED" 2 lec_LightExtendedControllerPropertySet
    (KCons "PROPERTY_STATUS" 3 lec_LightExtendedControllerPropertyStatus
    (KCons "SYNC_INTEGRAL_STATUS" 9 lec_LightExtendedControllerSyncIntegralStatus
    KNil)))))).

(* silvair/light_extended_controller.py:103-111 *)
Definition lec_LightExtendedControllerMessage : con :=
  (CSwitchStruct "opcode" (COpcode lec_LightExtendedControllerOpcode) lec_LightExtendedControllerOpcode "params"
    (KCons "SILVAIR_LEC" 0xF63601 lec_LightExtendedControllerParams
    KNil)).
