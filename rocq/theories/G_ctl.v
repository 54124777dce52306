(** GENERATED by tools/gen.py from /repo/bluetooth_mesh/messages/light/ctl.py; do not edit.
    The declarations of the module, in source order; every definition cites its lines. *)
From Verif Require Import PyVal Float64 Adapters Construct G_generics G_config.

(* light/ctl.py:31-46 *)
Definition ctl_LightCTLOpcode : enum :=
  [("LIGHT_CTL_GET"%string, 0x825D);
   ("LIGHT_CTL_SET"%string, 0x825E);
   ("LIGHT_CTL_SET_UNACKNOWLEDGED"%string, 0x825F);
   ("LIGHT_CTL_STATUS"%string, 0x8260);
   ("LIGHT_CTL_TEMPERATURE_GET"%string, 0x8261);
   ("LIGHT_CTL_TEMPERATURE_RANGE_GET"%string, 0x8262);
   ("LIGHT_CTL_TEMPERATURE_RANGE_STATUS"%string, 0x8263);
   ("LIGHT_CTL_TEMPERATURE_SET"%string, 0x8264);
   ("LIGHT_CTL_TEMPERATURE_SET_UNACKNOWLEDGED"%string, 0x8265);
   ("LIGHT_CTL_TEMPERATURE_STATUS"%string, 0x8266);
   ("LIGHT_CTL_TEMPERATURE_DEFAULT_GET"%string, 0x8267);
   ("LIGHT_CTL_TEMPERATURE_DEFAULT_STATUS"%string, 0x8268)].

(* light/ctl.py:49-56 *)
Definition ctl_LightCTLSetupOpcode : enum :=
  [("LIGHT_CTL_SETUP_TEMPERATURE_DEFAULT_SET"%string, 0x8269);
   ("LIGHT_CTL_SETUP_TEMPERATURE_DEFAULT_SET_UNACKNOWLEDGED"%string, 0x826A);
   ("LIGHT_CTL_SETUP_TEMPERATURE_RANGE_SET"%string, 0x826B);
   ("LIGHT_CTL_SETUP_TEMPERATURE_RANGE_SET_UNACKNOWLEDGED"%string, 0x826C)].

(* light/ctl.py:60 *)
Definition ctl_LightCTLGet : con :=
  (CStruct FNil).

(* light/ctl.py:62-66 *)
Definition ctl_LightCTLDefault : con :=
  (CStruct (FCons "ctl_lightness" Int16ul
    (FCons "ctl_temperature" Int16ul
    (FCons "ctl_delta_uv" Int16ul
    FNil)))).

(* light/ctl.py:68-71 *)
Definition ctl_LightCTLSetMinimal : con :=
  (CStruct (fapp (struct_fields ctl_LightCTLDefault)
    (FCons "tid" Int8ul
    FNil))).

(* light/ctl.py:73-76 *)
Definition ctl_LightCTLSetOptional : con :=
  (CStruct (fapp (struct_fields ctl_LightCTLSetMinimal)
    (fapp (struct_fields generics_OptionalSetParameters)
    FNil))).

(* light/ctl.py:78-81 *)
Definition ctl_LightCTLSet : con :=
  (CSelect (ACons (CNamed "optional" ctl_LightCTLSetOptional)
    (ACons (CNamed "minimal" ctl_LightCTLSetMinimal)
    ANil))).

(* light/ctl.py:83-86 *)
Definition ctl_LightCTLStatusMinimal : con :=
  (CStruct (FCons "present_ctl_lightness" Int16ul
    (FCons "present_ctl_temperature" Int16ul
    FNil))).

(* light/ctl.py:88-93 *)
Definition ctl_LightCTLStatusOptional : con :=
  (CStruct (fapp (struct_fields ctl_LightCTLStatusMinimal)
    (FCons "target_ctl_lightness" Int16ul
    (FCons "target_ctl_temperature" Int16ul
    (FCons "remaining_time" (CAdapt (ATransition true) generics_TransitionTime)
    FNil))))).

(* light/ctl.py:95-98 *)
Definition ctl_LightCTLStatus : con :=
  (CSelect (ACons (CNamed "optional" ctl_LightCTLStatusOptional)
    (ACons (CNamed "minimal" ctl_LightCTLStatusMinimal)
    ANil))).

(* light/ctl.py:100-103 *)
Definition ctl_LightCTLTemperatureStatusMinimal : con :=
  (CStruct (FCons "present_ctl_temperature" Int16ul
    (FCons "present_ctl_delta_uv" Int16ul
    FNil))).

(* light/ctl.py:105-110 *)
Definition ctl_LightCTLTemperatureStatusOptional : con :=
  (CStruct (fapp (struct_fields ctl_LightCTLTemperatureStatusMinimal)
    (FCons "target_ctl_temperature" Int16ul
    (FCons "target_ctl_delta_uv" Int16ul
    (FCons "remaining_time" (CAdapt (ATransition true) generics_TransitionTime)
    FNil))))).

(* light/ctl.py:112-115 *)
Definition ctl_LightCTLTemperatureStatus : con :=
  (CSelect (ACons (CNamed "optional" ctl_LightCTLTemperatureStatusOptional)
    (ACons (CNamed "minimal" ctl_LightCTLTemperatureStatusMinimal)
    ANil))).

(* light/ctl.py:117-121 *)
Definition ctl_LightCTLTemperatureSetMinimal : con :=
  (CStruct (FCons "ctl_temperature" Int16ul
    (FCons "ctl_delta_uv" Int16ul
    (FCons "tid" Int8ul
    FNil)))).

(* light/ctl.py:123-126 *)
Definition ctl_LightCTLTemperatureSetOptional : con :=
  (CStruct (fapp (struct_fields ctl_LightCTLTemperatureSetMinimal)
    (fapp (struct_fields generics_OptionalSetParameters)
    FNil))).

(* light/ctl.py:128-131 *)
Definition ctl_LightCTLTemperatureSet : con :=
  (CSelect (ACons (CNamed "optional" ctl_LightCTLTemperatureSetOptional)
    (ACons (CNamed "minimal" ctl_LightCTLTemperatureSetMinimal)
    ANil))).

(* light/ctl.py:133-136 *)
Definition ctl_LightCTLRange : con :=
  (CStruct (FCons "range_min" Int16ul
    (FCons "range_max" Int16ul
    FNil))).

(* light/ctl.py:138-141 *)
Definition ctl_LightCTLRangeStatus : con :=
  (CStruct (FCons "status" config_StatusCodeAdapter
    (fapp (struct_fields ctl_LightCTLRange)
    FNil))).

(* light/ctl.py:144-163 *)
Definition ctl_LightCTLMessage : con :=
  (CSwitchStruct "opcode" (COpcode ctl_LightCTLOpcode) ctl_LightCTLOpcode "params"
    (KCons "LIGHT_CTL_GET" 0x825D ctl_LightCTLGet
    (KCons "LIGHT_CTL_SET" 0x825E ctl_LightCTLSet
    (KCons "LIGHT_CTL_SET_UNACKNOWLEDGED" 0x825F ctl_LightCTLSet
    (KCons "LIGHT_CTL_STATUS" 0x8260 ctl_LightCTLStatus
    (KCons "LIGHT_CTL_TEMPERATURE_GET" 0x8261 ctl_LightCTLGet
    (KCons "LIGHT_CTL_TEMPERATURE_RANGE_GET" 0x8262 ctl_LightCTLGet
    (KCons "LIGHT_CTL_TEMPERATURE_RANGE_STATUS" 0x8263 ctl_LightCTLRangeStatus
    (KCons "LIGHT_CTL_TEMPERATURE_SET" 0x8264 ctl_LightCTLTemperatureSet
    (KCons "LIGHT_CTL_TEMPERATURE_SET_UNACKNOWLEDGED" 0x8265 ctl_LightCTLTemperatureSet
    (KCons "LIGHT_CTL_TEMPERATURE_STATUS" 0x8266 ctl_LightCTLTemperatureStatus
    (KCons "LIGHT_CTL_TEMPERATURE_DEFAULT_GET" 0x8267 ctl_LightCTLGet
    (KCons "LIGHT_CTL_TEMPERATURE_DEFAULT_STATUS" 0x8268 ctl_LightCTLDefault
    KNil))))))))))))).

(* light/ctl.py:166-177 *)
Definition ctl_LightCTLSetupMessage : con :=
  (CSwitchStruct "opcode" (COpcode ctl_LightCTLSetupOpcode) ctl_LightCTLSetupOpcode "params"
    (KCons "LIGHT_CTL_SETUP_TEMPERATURE_DEFAULT_SET" 0x8269 ctl_LightCTLDefault
    (KCons "LIGHT_CTL_SETUP_TEMPERATURE_DEFAULT_SET_UNACKNOWLEDGED" 0x826A ctl_LightCTLDefault
    (KCons "LIGHT_CTL_SETUP_TEMPERATURE_RANGE_SET" 0x826B ctl_LightCTLRange
    (KCons "LIGHT_CTL_SETUP_TEMPERATURE_RANGE_SET_UNACKNOWLEDGED" 0x826C ctl_LightCTLRange
    KNil))))).
