(** GENERATED by tools/gen.py from /repo/bluetooth_mesh/messages/generic/property.py; do not edit.
    The declarations of the module, in source order; every definition cites its lines. *)
From Verif Require Import PyVal Float64 Adapters Construct G_properties G_sensor.

(* generic/property.py:31-51 *)
Definition property_GenericPropertyOpcode : enum :=
  [("GENERIC_USER_PROPERTIES_GET"%string, 0x822E);
   ("GENERIC_USER_PROPERTIES_STATUS"%string, 75);
   ("GENERIC_USER_PROPERTY_GET"%string, 0x822F);
   ("GENERIC_USER_PROPERTY_SET"%string, 76);
   ("GENERIC_USER_PROPERTY_SET_UNACKNOWLEDGED"%string, 77);
   ("GENERIC_USER_PROPERTY_STATUS"%string, 78);
   ("GENERIC_ADMIN_PROPERTIES_GET"%string, 0x822C);
   ("GENERIC_ADMIN_PROPERTIES_STATUS"%string, 71);
   ("GENERIC_ADMIN_PROPERTY_GET"%string, 0x822D);
   ("GENERIC_ADMIN_PROPERTY_SET"%string, 72);
   ("GENERIC_ADMIN_PROPERTY_SET_UNACKNOWLEDGED"%string, 73);
   ("GENERIC_ADMIN_PROPERTY_STATUS"%string, 74);
   ("GENERIC_MANUFACTURER_PROPERTIES_GET"%string, 0x822A);
   ("GENERIC_MANUFACTURER_PROPERTIES_STATUS"%string, 67);
   ("GENERIC_MANUFACTURER_PROPERTY_GET"%string, 0x822B);
   ("GENERIC_MANUFACTURER_PROPERTY_SET"%string, 68);
   ("GENERIC_MANUFACTURER_PROPERTY_SET_UNACKNOWLEDGED"%string, 69);
   ("GENERIC_MANUFACTURER_PROPERTY_STATUS"%string, 70);
   ("GENERIC_CLIENT_PROPERTIES_GET"%string, 79);
   ("GENERIC_CLIENT_PROPERTIES_STATUS"%string, 80)].

(* generic/property.py:54-57 *)
Definition property_UserAccess : enum :=
  [("READ_ONLY"%string, 1);
   ("WRITE_ONLY"%string, 2);
   ("READ_WRITE"%string, 3)].

(* generic/property.py:60-64 *)
Definition property_AdminUserAccess : enum :=
  [("NOT_USER_PROPERTY"%string, 0);
   ("READ_ONLY"%string, 1);
   ("WRITE_ONLY"%string, 2);
   ("READ_WRITE"%string, 3)].

(* generic/property.py:67-69 *)
Definition property_ManufacturerUserAccess : enum :=
  [("NOT_USER_PROPERTY"%string, 0);
   ("READ_ONLY"%string, 1)].

(* generic/property.py:72 *)
Definition property_GenericPropertiesGet : con :=
  (CStruct FNil).

(* generic/property.py:74-76 *)
Definition property_GenericPropertiesStatus : con :=
  (CStruct (FCons "property_ids" (CGreedyRange sensor_SensorPropertyId)
    FNil)).

(* generic/property.py:78-80 *)
Definition property_GenericPropertyGet : con :=
  (CStruct (FCons "property_id" sensor_SensorPropertyId
    FNil)).

(* generic/property.py:120 *)
Definition property_GenericUserPropertySet : con :=
  (CProp property_GenericPropertyGet properties_PropertyID properties_PropertyDict).

(* generic/property.py:122 *)
Definition property_GenericAdminPropertySet : con :=
  (CProp (CStruct (fapp (struct_fields property_GenericPropertyGet)
    (FCons "access" Int8ul FNil))) properties_PropertyID properties_PropertyDict).

(* generic/property.py:124-127 *)
Definition property_GenericManufacturerPropertySet : con :=
  (CStruct (FCons "property_id" (CAdapt (AEnum properties_PropertyID) Int16ul)
    (FCons "access" (CAdapt (AEnum property_ManufacturerUserAccess) Int8ul)
    FNil))).

(* generic/property.py:129 *)
Definition property_GenericPropertyStatus : con :=
  (CProp (CStruct (fapp (struct_fields property_GenericPropertyGet)
    (FCons "access" Int8ul FNil))) properties_PropertyID properties_PropertyDict).

(* generic/property.py:131-159 *)
Definition property_GenericPropertyMessage : con :=
  (CSwitchStruct "opcode" (COpcode property_GenericPropertyOpcode) property_GenericPropertyOpcode "params"
    (KCons "GENERIC_USER_PROPERTIES_GET" 0x822E property_GenericPropertiesGet
    (KCons "GENERIC_USER_PROPERTIES_STATUS" 75 property_GenericPropertiesStatus
    (KCons "GENERIC_USER_PROPERTY_GET" 0x822F property_GenericPropertyGet
    (KCons "GENERIC_USER_PROPERTY_SET" 76 property_GenericUserPropertySet
    (KCons "GENERIC_USER_PROPERTY_SET_UNACKNOWLEDGED" 77 property_GenericUserPropertySet
    (KCons "GENERIC_USER_PROPERTY_STATUS" 78 property_GenericPropertyStatus
    (KCons "GENERIC_ADMIN_PROPERTIES_GET" 0x822C property_GenericPropertiesGet
    (KCons "GENERIC_ADMIN_PROPERTIES_STATUS" 71 property_GenericPropertiesStatus
    (KCons "GENERIC_ADMIN_PROPERTY_GET" 0x822D property_GenericPropertyGet
    (KCons "GENERIC_ADMIN_PROPERTY_SET" 72 property_GenericAdminPropertySet
    (KCons "GENERIC_ADMIN_PROPERTY_SET_UNACKNOWLEDGED" 73 property_GenericAdminPropertySet
    (KCons "GENERIC_ADMIN_PROPERTY_STATUS" 74 property_GenericPropertyStatus
    (KCons "GENERIC_MANUFACTURER_PROPERTIES_GET" 0x822A property_GenericPropertiesGet
    (KCons "GENERIC_MANUFACTURER_PROPERTIES_STATUS" 67 property_GenericPropertiesStatus
    (KCons "GENERIC_MANUFACTURER_PROPERTY_GET" 0x822B property_GenericPropertyGet
    (KCons "GENERIC_MANUFACTURER_PROPERTY_SET" 68 property_GenericManufacturerPropertySet
    (KCons "GENERIC_MANUFACTURER_PROPERTY_SET_UNACKNOWLEDGED" 69 property_GenericManufacturerPropertySet
    (KCons "GENERIC_MANUFACTURER_PROPERTY_STATUS" 70 property_GenericPropertyStatus
    (KCons "GENERIC_CLIENT_PROPERTIES_GET" 79 property_GenericPropertiesGet
    (KCons "GENERIC_CLIENT_PROPERTIES_STATUS" 80 property_GenericPropertiesStatus
    KNil))))))))))))))))))))).
