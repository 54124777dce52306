(** GENERATED by tools/gen.py from /repo/bluetooth_mesh/messages/sensor.py; do not edit.
    The declarations of the module, in source order; every definition cites its lines. *)
From Verif Require Import PyVal Float64 Adapters Construct G_properties.

(* sensor.py:58-66 *)
Definition sensor_SensorSampling : enum :=
  [("UNSPECIFIED"%string, 0);
   ("INSTANTANEOUS"%string, 1);
   ("ARITHMETIC_MEAN"%string, 2);
   ("RMS"%string, 3);
   ("MAXIMUM"%string, 4);
   ("MINIMUM"%string, 5);
   ("ACCUMULATED"%string, 6);
   ("COUNT"%string, 7)].

(* sensor.py:69-72 *)
Definition sensor_SensorSettingAccess : enum :=
  [("READ_ONLY"%string, 1);
   ("WRITE_ONLY"%string, 2);
   ("READ_WRITE"%string, 3)].

(* sensor.py:75-86 *)
Definition sensor_SensorOpcode : enum :=
  [("SENSOR_DESCRIPTOR_GET"%string, 0x8230);
   ("SENSOR_DESCRIPTOR_STATUS"%string, 81);
   ("SENSOR_GET"%string, 0x8231);
   ("SENSOR_STATUS"%string, 82);
   ("SENSOR_COLUMN_GET"%string, 0x8232);
   ("SENSOR_COLUMN_STATUS"%string, 83);
   ("SENSOR_SERIES_GET"%string, 0x8233);
   ("SENSOR_SERIES_STATUS"%string, 84)].

(* sensor.py:89-102 *)
Definition sensor_SensorSetupOpcode : enum :=
  [("SENSOR_CADENCE_GET"%string, 0x8234);
   ("SENSOR_CADENCE_SET"%string, 85);
   ("SENSOR_CADENCE_SET_UNACKNOWLEDGED"%string, 86);
   ("SENSOR_CADENCE_STATUS"%string, 87);
   ("SENSOR_SETTINGS_GET"%string, 0x8235);
   ("SENSOR_SETTINGS_STATUS"%string, 88);
   ("SENSOR_SETTING_GET"%string, 0x8236);
   ("SENSOR_SETTING_SET"%string, 89);
   ("SENSOR_SETTING_SET_UNACKNOWLEDGED"%string, 90);
   ("SENSOR_SETTING_STATUS"%string, 91)].

(* sensor.py:106-111 *)
Definition sensor_SensorPropertyId : con :=
  (CSelect (ACons (CAdapt (AEnum properties_PropertyID) Int16ul)
    (ACons Int16ul
    ANil))).

(* sensor.py:113 *)
Definition sensor_SensorGetMinimal : con :=
  (CStruct FNil).

(* sensor.py:115-117 *)
Definition sensor_SensorGetOptional : con :=
  (CStruct (FCons "property_id" sensor_SensorPropertyId
    FNil)).

(* sensor.py:119-122 *)
Definition sensor_SensorGet : con :=
  (CSelect (ACons (CNamed "optional" sensor_SensorGetOptional)
    (ACons (CNamed "minimal" sensor_SensorGetMinimal)
    ANil))).

(* sensor.py:124-126 *)
Definition sensor_SensorSettingsGet : con :=
  (CStruct (FCons "sensor_property_id" sensor_SensorPropertyId
    FNil)).

(* sensor.py:128-131 *)
Definition sensor_SensorSettingGet : con :=
  (CStruct (fapp (struct_fields sensor_SensorSettingsGet)
    (FCons "sensor_setting_property_id" sensor_SensorPropertyId
    FNil))).

(* sensor.py:200 *)
Definition sensor_SensorSettingSet : con :=
  (CSensorSetting sensor_SensorSettingGet properties_PropertyID properties_PropertyDict).

(* sensor.py:224 *)
Definition sensor_SensorSettingStatus : con :=
  (CSensorSetting (CStruct (fapp (struct_fields sensor_SensorSettingGet)
    (FCons "sensor_setting_access" Int8ul FNil))) properties_PropertyID properties_PropertyDict).

(* sensor.py:226-229 *)
Definition sensor_SensorSettingsStatus : con :=
  (CStruct (fapp (struct_fields sensor_SensorSettingsGet)
    (FCons "sensor_setting_property_ids" (CGreedyRange sensor_SensorPropertyId)
    FNil))).

(* sensor.py:231-233 *)
Definition sensor_SensorDescriptorMinimal : con :=
  (CStruct (FCons "sensor_property_id" sensor_SensorPropertyId
    FNil)).

(* sensor.py:235-241 *)
Definition sensor_SensorDescriptorOptional : con :=
  (CStruct (fapp (struct_fields sensor_SensorDescriptorMinimal)
    (FBits 3 (FCons "sensor_positive_tolerance" (CBits 12 false) (FCons "sensor_negative_tolerance" (CBits 12 false) FNil))
    (FCons "sensor_sampling_funcion" Int8ul
    (FCons "sensor_measurement_period" Int8ul
    (FCons "sensor_update_interval" Int8ul
    FNil)))))).

(* sensor.py:243-246 *)
Definition sensor_SensorDescriptorStatusItem : con :=
  (CSelect (ACons (CNamed "optional" sensor_SensorDescriptorOptional)
    (ACons (CNamed "minimal" sensor_SensorDescriptorMinimal)
    ANil))).

(* sensor.py:248 *)
Definition sensor_SensorDescriptorStatus : con :=
  (CGreedyRange sensor_SensorDescriptorStatusItem).

(* sensor.py:291 *)
Definition sensor_SensorData : con :=
  (CSensorData properties_PropertyID properties_PropertyDict).

(* sensor.py:293 *)
Definition sensor_SensorStatus : con :=
  (CGreedyRange sensor_SensorData).

(* sensor.py:340-355 *)
Definition sensor_SensorMessage : con :=
  (CSwitchStruct "opcode" (COpcode sensor_SensorOpcode) sensor_SensorOpcode "params"
    (KCons "SENSOR_DESCRIPTOR_GET" 0x8230 sensor_SensorGet
    (KCons "SENSOR_DESCRIPTOR_STATUS" 81 sensor_SensorDescriptorStatus
    (KCons "SENSOR_GET" 0x8231 sensor_SensorGet
    (KCons "SENSOR_STATUS" 82 sensor_SensorStatus
    KNil))))).

(* sensor.py:357-374 *)
Definition sensor_SensorSetupMessage : con :=
  (CSwitchStruct "opcode" (COpcode sensor_SensorSetupOpcode) sensor_SensorSetupOpcode "params"
    (KCons "SENSOR_CADENCE_GET" 0x8234 sensor_SensorGetOptional
    (KCons "SENSOR_SETTINGS_GET" 0x8235 sensor_SensorSettingsGet
    (KCons "SENSOR_SETTINGS_STATUS" 88 sensor_SensorSettingsStatus
    (KCons "SENSOR_SETTING_GET" 0x8236 sensor_SensorSettingGet
    (KCons "SENSOR_SETTING_SET" 89 sensor_SensorSettingSet
    (KCons "SENSOR_SETTING_SET_UNACKNOWLEDGED" 90 sensor_SensorSettingSet
    (KCons "SENSOR_SETTING_STATUS" 91 sensor_SensorSettingStatus
    KNil)))))))).
