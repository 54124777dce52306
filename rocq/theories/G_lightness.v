(** GENERATED by tools/gen.py from /repo/bluetooth_mesh/messages/light/lightness.py; do not edit.
    The declarations of the module, in source order; every definition cites its lines. *)
From Verif Require Import PyVal Float64 Adapters Construct G_generics G_config.

(* light/lightness.py:31-48 *)
Definition lightness_LightLightnessOpcode : enum :=
  [("LIGHT_LIGHTNESS_GET"%string, 0x824B);
   ("LIGHT_LIGHTNESS_SET"%string, 0x824C);
   ("LIGHT_LIGHTNESS_SET_UNACKNOWLEDGED"%string, 0x824D);
   ("LIGHT_LIGHTNESS_STATUS"%string, 0x824E);
   ("LIGHT_LIGHTNESS_LINEAR_GET"%string, 0x824F);
   ("LIGHT_LIGHTNESS_LINEAR_SET"%string, 0x8250);
   ("LIGHT_LIGHTNESS_LINEAR_SET_UNACKNOWLEDGED"%string, 0x8251);
   ("LIGHT_LIGHTNESS_LINEAR_STATUS"%string, 0x8252);
   ("LIGHT_LIGHTNESS_LAST_GET"%string, 0x8253);
   ("LIGHT_LIGHTNESS_LAST_STATUS"%string, 0x8254);
   ("LIGHT_LIGHTNESS_DEFAULT_GET"%string, 0x8255);
   ("LIGHT_LIGHTNESS_DEFAULT_STATUS"%string, 0x8256);
   ("LIGHT_LIGHTNESS_RANGE_GET"%string, 0x8257);
   ("LIGHT_LIGHTNESS_RANGE_STATUS"%string, 0x8258)].

(* light/lightness.py:51-58 *)
Definition lightness_LightLightnessSetupOpcode : enum :=
  [("LIGHT_LIGHTNESS_SETUP_DEFAULT_SET"%string, 0x8259);
   ("LIGHT_LIGHTNESS_SETUP_DEFAULT_SET_UNACKNOWLEDGED"%string, 0x825A);
   ("LIGHT_LIGHTNESS_SETUP_RANGE_SET"%string, 0x825B);
   ("LIGHT_LIGHTNESS_SETUP_RANGE_SET_UNACKNOWLEDGED"%string, 0x825C)].

(* light/lightness.py:62 *)
Definition lightness_LightLightnessGet : con :=
  (CStruct FNil).

(* light/lightness.py:64-66 *)
Definition lightness_LightLightnessDefault : con :=
  (CStruct (FCons "lightness" Int16ul
    FNil)).

(* light/lightness.py:68-70 *)
Definition lightness_LightLightnessStatusMinimal : con :=
  (CStruct (FCons "present_lightness" Int16ul
    FNil)).

(* light/lightness.py:72-76 *)
Definition lightness_LightLightnessStatusOptional : con :=
  (CStruct (fapp (struct_fields lightness_LightLightnessStatusMinimal)
    (FCons "target_lightness" Int16ul
    (FCons "remaining_time" (CAdapt (ATransition true) generics_TransitionTime)
    FNil)))).

(* light/lightness.py:78-81 *)
Definition lightness_LightLightnessStatus : con :=
  (CSelect (ACons (CNamed "optional" lightness_LightLightnessStatusOptional)
    (ACons (CNamed "minimal" lightness_LightLightnessStatusMinimal)
    ANil))).

(* light/lightness.py:83-86 *)
Definition lightness_LightLightnessRange : con :=
  (CStruct (FCons "range_min" Int16ul
    (FCons "range_max" Int16ul
    FNil))).

(* light/lightness.py:88-91 *)
Definition lightness_LightLightnessRangeStatus : con :=
  (CStruct (FCons "status" config_StatusCodeAdapter
    (fapp (struct_fields lightness_LightLightnessRange)
    FNil))).

(* light/lightness.py:93-96 *)
Definition lightness_LightLightnessSetMinimal : con :=
  (CStruct (FCons "lightness" Int16ul
    (FCons "tid" Int8ul
    FNil))).

(* light/lightness.py:98-101 *)
Definition lightness_LightLightnessSetOptional : con :=
  (CStruct (fapp (struct_fields lightness_LightLightnessSetMinimal)
    (fapp (struct_fields generics_OptionalSetParameters)
    FNil))).

(* light/lightness.py:103-106 *)
Definition lightness_LightLightnessSet : con :=
  (CSelect (ACons (CNamed "optional" lightness_LightLightnessSetOptional)
    (ACons (CNamed "minimal" lightness_LightLightnessSetMinimal)
    ANil))).

(* light/lightness.py:108-129 *)
Definition lightness_LightLightnessMessage : con :=
  (CSwitchStruct "opcode" (COpcode lightness_LightLightnessOpcode) lightness_LightLightnessOpcode "params"
    (KCons "LIGHT_LIGHTNESS_GET" 0x824B lightness_LightLightnessGet
    (KCons "LIGHT_LIGHTNESS_SET" 0x824C lightness_LightLightnessSet
    (KCons "LIGHT_LIGHTNESS_SET_UNACKNOWLEDGED" 0x824D lightness_LightLightnessSet
    (KCons "LIGHT_LIGHTNESS_STATUS" 0x824E lightness_LightLightnessStatus
    (KCons "LIGHT_LIGHTNESS_LINEAR_GET" 0x824F lightness_LightLightnessGet
    (KCons "LIGHT_LIGHTNESS_LINEAR_SET" 0x8250 lightness_LightLightnessSet
    (KCons "LIGHT_LIGHTNESS_LINEAR_SET_UNACKNOWLEDGED" 0x8251 lightness_LightLightnessSet
    (KCons "LIGHT_LIGHTNESS_LINEAR_STATUS" 0x8252 lightness_LightLightnessStatus
    (KCons "LIGHT_LIGHTNESS_LAST_GET" 0x8253 lightness_LightLightnessGet
    (KCons "LIGHT_LIGHTNESS_LAST_STATUS" 0x8254 lightness_LightLightnessDefault
    (KCons "LIGHT_LIGHTNESS_DEFAULT_GET" 0x8255 lightness_LightLightnessGet
    (KCons "LIGHT_LIGHTNESS_DEFAULT_STATUS" 0x8256 lightness_LightLightnessDefault
    (KCons "LIGHT_LIGHTNESS_RANGE_GET" 0x8257 lightness_LightLightnessGet
    (KCons "LIGHT_LIGHTNESS_RANGE_STATUS" 0x8258 lightness_LightLightnessRangeStatus
    KNil))))))))))))))).

(* light/lightness.py:131-142 *)
Definition lightness_LightLightnessSetupMessage : con :=
  (CSwitchStruct "opcode" (COpcode lightness_LightLightnessSetupOpcode) lightness_LightLightnessSetupOpcode "params"
    (KCons "LIGHT_LIGHTNESS_SETUP_DEFAULT_SET" 0x8259 lightness_LightLightnessDefault
    (KCons "LIGHT_LIGHTNESS_SETUP_DEFAULT_SET_UNACKNOWLEDGED" 0x825A lightness_LightLightnessDefault
    (KCons "LIGHT_LIGHTNESS_SETUP_RANGE_SET" 0x825B lightness_LightLightnessRange
    (KCons "LIGHT_LIGHTNESS_SETUP_RANGE_SET_UNACKNOWLEDGED" 0x825C lightness_LightLightnessRange
    KNil))))).
