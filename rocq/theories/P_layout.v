(** * P_layout: the wire layout (C52) and the reserved bits (C45).

    The tables below are the documentation: for each message, its opcode and, for
    each form of its parameters, where every field is.  They are written from the
    message tables of the Mesh Profile 1.0 and Mesh Model 1.0 specifications
    (little-endian octets; bit 0 is the least significant bit of the group of
    octets) and contain no declaration of the library, except for the fields
    marked with one of the named codings below, whose coding is the subject of
    other properties (C15/C16, C18-C21, C24, C26, C27, ...) or of [parts_doc].
    Where the library is known to differ from the specifications the table follows
    the library and the difference is stated as a theorem at the end. *)
From Verif Require Import PyVal Bits Utf8 Adapters Construct Size Spec Master Local Deps BitLayout Layout Doc
  AdapterSpec AdapterProofs1 Access AccessProofs G_config G_generics G_battery G_health G_properties G_sensor G_time G_debug G_elt G_gateway G_nds G_rrule G_debugV2 P_transition Uses.
Local Open Scope string_scope.

(** ** Codings described elsewhere *)
Notation LE := false (only parsing).
Notation BE := true (only parsing).
Notation KeyIndexes := (Own config_KeyIndices) (only parsing).                 (* C15, C16 *)
Notation ModelId := (Own config_ModelId) (only parsing).                       (* 2-octet SIG id, or company id and 2-octet id: parts_doc *)
Notation SIGModel := (Own config_SIGModelId) (only parsing).
Notation VendorModel := (Own config_VendorModelId) (only parsing).
Notation PublishPeriod := (Own config_PublishPeriod) (only parsing).           (* parts_doc *)
(** one octet, interval steps (of 10 or 50 ms) in the upper five bits and the count below: C26 *)
Definition steps_count : con := CBitwise (CStruct (FCons "interval_steps" (CBits 5 false) (FCons "count" (CBits 3 false) FNil))).
Notation RelayRetransmit := (Own (CAdapt (ARetransmit 10) steps_count)) (only parsing).
Notation PublishRetransmit := (Own (CAdapt (ARetransmit 50) steps_count)) (only parsing).
Notation Features := (Own (CAdapt (ABitList 2 false) (CBitwise (CArray (EConst 16) (CBits 1 false))))) (only parsing). (* C27 *)
Notation CountLog := (Own (CAdapt (ALog 1 (Some 16) true) Int8ul)) (only parsing).      (* C24 *)
Notation PeriodLog := (Own (CAdapt (ALog 1 (Some 16) false) Int8ul)) (only parsing).    (* C24 *)
Notation SubCountLog := (Own (CAdapt (ALog 1 (Some 17) true) Int8ul)) (only parsing).   (* C24 *)
Notation SubPeriodLog := (Own (CAdapt (ALog 1 (Some 17) false) Int8ul)) (only parsing). (* C24 *)
Notation TransitionTime := (Own (TT false)) (only parsing).                    (* C18-C20 *)
Notation RemainingTime := (Own (TT true)) (only parsing).                      (* C20 *)
Notation Delay := (Own (CAdapt ADelay Int8ul)) (only parsing).                 (* C21 *)
Notation Percent := (Own (CAdapt (ACount 1 0 (RFloat 1) true) Int8ul)) (only parsing).  (* C22, C23 *)
Notation Minutes := (Own (CAdapt (ACount 3 0 (RFloat 1) true) Int24ul)) (only parsing). (* C22, C23 *)
Notation BatteryFlags := (Own battery_BatteryFlags) (only parsing).            (* parts_doc *)
Notation U8s := (Own (CGreedyRange Int8ul)) (only parsing).                    (* a list of octets *)
Notation U16s := (Own (CGreedyRange Int16ul)) (only parsing).                  (* a list of 2-octet numbers *)
Notation PropertyIds := (Own (CGreedyRange sensor_SensorPropertyId)) (only parsing).    (* a list of 2-octet property ids *)
Notation DebugPayload := (Own (CGreedyRange debugV2_DebugV2Parameter)) (only parsing).

(** ** The tables: opcode name, opcode, forms *)
(** Configuration messages (Mesh Profile 4.3.2) *)
Definition config_doc : list (string * Z * list (string * list doc)) :=
  [("CONFIG_APPKEY_ADD", 0x00, [("", [B "app_key_index" LE 0 3 12 12 Num; B "net_key_index" LE 0 3 0 12 Num; O "app_key" 3 16 Raw])]);
   ("CONFIG_APPKEY_DELETE", 0x8000, [("", [B "app_key_index" LE 0 3 12 12 Num; B "net_key_index" LE 0 3 0 12 Num])]);
   ("CONFIG_APPKEY_GET", 0x8001, [("", [R LE 0 2 12 4; B "net_key_index" LE 0 2 0 12 Num])]);
   ("CONFIG_APPKEY_LIST", 0x8002, [("", [O "status" 0 1 Num; R LE 1 2 12 4; B "net_key_index" LE 1 2 0 12 Num; T "app_key_indices" 3 KeyIndexes])]);
   ("CONFIG_APPKEY_STATUS", 0x8003, [("", [O "status" 0 1 Num; B "app_key_index" LE 1 3 12 12 Num; B "net_key_index" LE 1 3 0 12 Num])]);
   ("CONFIG_APPKEY_UPDATE", 0x01, [("", [B "app_key_index" LE 0 3 12 12 Num; B "net_key_index" LE 0 3 0 12 Num; O "app_key" 3 16 Raw])]);
   ("CONFIG_BEACON_GET", 0x8009, [("", [])]);
   ("CONFIG_BEACON_SET", 0x800A, [("", [O "beacon" 0 1 Num])]);
   ("CONFIG_BEACON_STATUS", 0x800B, [("", [O "beacon" 0 1 Num])]);
   ("CONFIG_COMPOSITION_DATA_GET", 0x8008, [("", [O "page" 0 1 Num])]);
   ("CONFIG_DEFAULT_TTL_GET", 0x800C, [("", [])]);
   ("CONFIG_DEFAULT_TTL_SET", 0x800D, [("", [O "ttl" 0 1 Num])]);
   ("CONFIG_DEFAULT_TTL_STATUS", 0x800E, [("", [O "ttl" 0 1 Num])]);
   ("CONFIG_FRIEND_GET", 0x800F, [("", [])]);
   ("CONFIG_FRIEND_SET", 0x8010, [("", [O "friend" 0 1 Num])]);
   ("CONFIG_FRIEND_STATUS", 0x8011, [("", [O "friend" 0 1 Num])]);
   ("CONFIG_GATT_PROXY_GET", 0x8012, [("", [])]);
   ("CONFIG_GATT_PROXY_SET", 0x8013, [("", [O "GATT_proxy" 0 1 Num])]);
   ("CONFIG_GATT_PROXY_STATUS", 0x8014, [("", [O "GATT_proxy" 0 1 Num])]);
   ("CONFIG_HEARBEAT_PUBLICATION_GET", 0x8038, [("", [])]);
   ("CONFIG_HEARBEAT_PUBLICATION_SET", 0x8039, [("", [O "destination" 0 2 Num; O "count" 2 1 CountLog; O "period" 3 1 PeriodLog; O "ttl" 4 1 Num; O "features" 5 2 Features; R LE 7 2 12 4; B "net_key_index" LE 7 2 0 12 Num])]);
   ("CONFIG_HEARBEAT_PUBLICATION_STATUS", 0x06, [("", [O "status" 0 1 Num; O "destination" 1 2 Num; O "count" 3 1 CountLog; O "period" 4 1 PeriodLog; O "ttl" 5 1 Num; O "features" 6 2 Features; R LE 8 2 12 4; B "net_key_index" LE 8 2 0 12 Num])]);
   ("CONFIG_HEARBEAT_SUBSCRIPTION_GET", 0x803A, [("", [])]);
   ("CONFIG_HEARBEAT_SUBSCRIPTION_SET", 0x803B, [("", [O "source" 0 2 Num; O "destination" 2 2 Num; O "period_log" 4 1 SubPeriodLog])]);
   ("CONFIG_HEARBEAT_SUBSCRIPTION_STATUS", 0x803C, [("", [O "status" 0 1 Num; O "source" 1 2 Num; O "destination" 3 2 Num; O "period_log" 5 1 SubPeriodLog; O "count" 6 1 SubCountLog; O "min_hops" 7 1 Num; O "max_hops" 8 1 Num])]);
   ("CONFIG_KEY_REFRESH_PHASE_GET", 0x8015, [("", [R LE 0 2 12 4; B "net_key_index" LE 0 2 0 12 Num])]);
   ("CONFIG_KEY_REFRESH_PHASE_SET", 0x8016, [("", [R LE 0 2 12 4; B "net_key_index" LE 0 2 0 12 Num; O "transition" 2 1 Num])]);
   ("CONFIG_KEY_REFRESH_PHASE_STATUS", 0x8017, [("", [O "status" 0 1 Num; R LE 1 2 12 4; B "net_key_index" LE 1 2 0 12 Num; O "phase" 3 1 Num])]);
   ("CONFIG_LOW_POWER_NODE_POLL_TIMEOUT_GET", 0x802D, [("", [O "lpn_address" 0 2 Num])]);
   ("CONFIG_LOW_POWER_NODE_POLL_TIMEOUT_STATUS", 0x802E, [("", [O "lpn_address" 0 2 Num; O "poll_timeout" 2 3 Num])]);
   ("CONFIG_MODEL_APP_BIND", 0x803D, [("", [O "element_address" 0 2 Num; R LE 2 2 12 4; B "app_key_index" LE 2 2 0 12 Num; T "model" 4 ModelId])]);
   ("CONFIG_MODEL_APP_STATUS", 0x803E, [("", [O "status" 0 1 Num; O "element_address" 1 2 Num; R LE 3 2 12 4; B "app_key_index" LE 3 2 0 12 Num; T "model" 5 ModelId])]);
   ("CONFIG_MODEL_APP_UNBIND", 0x803F, [("", [O "element_address" 0 2 Num; R LE 2 2 12 4; B "app_key_index" LE 2 2 0 12 Num; T "model" 4 ModelId])]);
   ("CONFIG_MODEL_PUBLICATION_GET", 0x8018, [("", [O "element_address" 0 2 Num; T "model" 2 ModelId])]);
   ("CONFIG_MODEL_PUBLICATION_SET", 0x03, [("", [O "element_address" 0 2 Num; O "publish_address" 2 2 Num; B "rfu" LE 4 2 13 3 Num; B "credential_flag" LE 4 2 12 1 Num; B "app_key_index" LE 4 2 0 12 Num; O "ttl" 6 1 Num; O "publish_period" 7 1 PublishPeriod; O "retransmit" 8 1 PublishRetransmit; T "model" 9 ModelId])]);
   ("CONFIG_MODEL_PUBLICATION_STATUS", 0x8019, [("", [O "status" 0 1 Num; O "element_address" 1 2 Num; O "publish_address" 3 2 Num; B "rfu" LE 5 2 13 3 Num; B "credential_flag" LE 5 2 12 1 Num; B "app_key_index" LE 5 2 0 12 Num; O "ttl" 7 1 Num; O "publish_period" 8 1 PublishPeriod; O "retransmit" 9 1 PublishRetransmit; T "model" 10 ModelId])]);
   ("CONFIG_MODEL_PUBLICATION_VIRTUAL_ADDRESS_SET", 0x801A, [("", [O "element_address" 0 2 Num; O "publish_address" 2 16 Raw; B "rfu" LE 18 2 13 3 Num; B "credential_flag" LE 18 2 12 1 Num; B "app_key_index" LE 18 2 0 12 Num; O "ttl" 20 1 Num; O "publish_period" 21 1 PublishPeriod; O "retransmit" 22 1 PublishRetransmit; T "model" 23 ModelId])]);
   ("CONFIG_MODEL_SUBSCRIPTION_ADD", 0x801B, [("", [O "element_address" 0 2 Num; O "address" 2 2 Num; T "model" 4 ModelId])]);
   ("CONFIG_MODEL_SUBSCRIPTION_DELETE", 0x801C, [("", [O "element_address" 0 2 Num; O "address" 2 2 Num; T "model" 4 ModelId])]);
   ("CONFIG_MODEL_SUBSCRIPTION_DELETE_ALL", 0x801D, [("", [O "element_address" 0 2 Num; T "model" 2 ModelId])]);
   ("CONFIG_MODEL_SUBSCRIPTION_OVERWRITE", 0x801E, [("", [O "element_address" 0 2 Num; O "address" 2 2 Num; T "model" 4 ModelId])]);
   ("CONFIG_MODEL_SUBSCRIPTION_STATUS", 0x801F, [("", [O "status" 0 1 Num; O "element_address" 1 2 Num; O "address" 3 2 Num; T "model" 5 ModelId])]);
   ("CONFIG_MODEL_SUBSCRIPTION_VIRTUAL_ADDRESS_ADD", 0x8020, [("", [O "element_address" 0 2 Num; O "label" 2 16 Raw; T "model" 18 ModelId])]);
   ("CONFIG_MODEL_SUBSCRIPTION_VIRTUAL_ADDRESS_DELETE", 0x8021, [("", [O "element_address" 0 2 Num; O "label" 2 16 Raw; T "model" 18 ModelId])]);
   ("CONFIG_MODEL_SUBSCRIPTION_VIRTUAL_ADDRESS_OVERWRITE", 0x8022, [("", [O "element_address" 0 2 Num; O "label" 2 16 Raw; T "model" 18 ModelId])]);
   ("CONFIG_NETKEY_ADD", 0x8040, [("", [R LE 0 2 12 4; B "net_key_index" LE 0 2 0 12 Num; O "net_key" 2 16 Raw])]);
   ("CONFIG_NETKEY_DELETE", 0x8041, [("", [R LE 0 2 12 4; B "net_key_index" LE 0 2 0 12 Num])]);
   ("CONFIG_NETKEY_GET", 0x8042, [("", [])]);
   ("CONFIG_NETKEY_LIST", 0x8043, [("", [T "net_key_indices" 0 KeyIndexes])]);
   ("CONFIG_NETKEY_STATUS", 0x8044, [("", [O "status" 0 1 Num; R LE 1 2 12 4; B "net_key_index" LE 1 2 0 12 Num])]);
   ("CONFIG_NETKEY_UPDATE", 0x8045, [("", [R LE 0 2 12 4; B "net_key_index" LE 0 2 0 12 Num; O "net_key" 2 16 Raw])]);
   ("CONFIG_NETWORK_TRANSMIT_GET", 0x8023, [("", [])]);
   ("CONFIG_NODE_IDENTITY_GET", 0x8046, [("", [R LE 0 2 12 4; B "net_key_index" LE 0 2 0 12 Num])]);
   ("CONFIG_NODE_IDENTITY_SET", 0x8047, [("", [R LE 0 2 12 4; B "net_key_index" LE 0 2 0 12 Num; O "identity" 2 1 Num])]);
   ("CONFIG_NODE_IDENTITY_STATUS", 0x8048, [("", [O "status" 0 1 Num; R LE 1 2 12 4; B "net_key_index" LE 1 2 0 12 Num; O "identity" 3 1 Num])]);
   ("CONFIG_NODE_RESET", 0x8049, [("", [])]);
   ("CONFIG_NODE_RESET_STATUS", 0x804A, [("", [])]);
   ("CONFIG_RELAY_GET", 0x8026, [("", [])]);
   ("CONFIG_RELAY_SET", 0x8027, [("", [O "relay" 0 1 Num; O "retransmit" 1 1 RelayRetransmit])]);
   ("CONFIG_RELAY_STATUS", 0x8028, [("", [O "relay" 0 1 Num; O "retransmit" 1 1 RelayRetransmit])]);
   ("CONFIG_SIG_MODEL_APP_GET", 0x804B, [("", [O "element_address" 0 2 Num; O "model" 2 2 SIGModel])]);
   ("CONFIG_SIG_MODEL_APP_LIST", 0x804C, [("", [O "status" 0 1 Num; O "element_address" 1 2 Num; O "model" 3 2 SIGModel; T "app key indices" 5 KeyIndexes])]);
   ("CONFIG_SIG_MODEL_SUBSCRIPTION_GET", 0x8029, [("", [O "element_address" 0 2 Num; O "model" 2 2 SIGModel])]);
   ("CONFIG_SIG_MODEL_SUBSCRIPTION_LIST", 0x802A, [("", [O "status" 0 1 Num; O "element_address" 1 2 Num; O "model" 3 2 SIGModel; T "addresses" 5 U16s])]);
   ("CONFIG_VENDOR_MODEL_APP_GET", 0x804D, [("", [O "element_address" 0 2 Num; O "model" 2 4 VendorModel])]);
   ("CONFIG_VENDOR_MODEL_APP_LIST", 0x804E, [("", [O "status" 0 1 Num; O "element_address" 1 2 Num; O "model" 3 4 VendorModel; T "app_key_indices" 7 KeyIndexes])]);
   ("CONFIG_VENDOR_MODEL_SUBSCRIPTION_GET", 0x802B, [("", [O "element_address" 0 2 Num; O "model" 2 4 VendorModel])]);
   ("CONFIG_VENDOR_MODEL_SUBSCRIPTION_LIST", 0x802C, [("", [O "status" 0 1 Num; O "element_address" 1 2 Num; O "model" 3 4 VendorModel; T "addresses" 7 U16s])])].

(** Health messages (Mesh Profile 4.3.3) *)
Definition health_doc : list (string * Z * list (string * list doc)) :=
  [("HEALTH_ATTENTION_GET", 0x8004, [("", [])]);
   ("HEALTH_ATTENTION_SET", 0x8005, [("", [O "attention" 0 1 Num])]);
   ("HEALTH_ATTENTION_SET_UNACKNOWLEDGED", 0x8006, [("", [O "attention" 0 1 Num])]);
   ("HEALTH_ATTENTION_STATUS", 0x8007, [("", [O "attention" 0 1 Num])]);
   ("HEALTH_CURRENT_STATUS", 0x04, [("", [O "test_id" 0 1 Num; O "company_id" 1 2 Num; T "fault_array" 3 U8s])]);
   ("HEALTH_FAULT_CLEAR", 0x802F, [("", [O "company_id" 0 2 Num])]);
   ("HEALTH_FAULT_CLEAR_UNACKNOWLEDGED", 0x8030, [("", [O "company_id" 0 2 Num])]);
   ("HEALTH_FAULT_GET", 0x8031, [("", [O "company_id" 0 2 Num])]);
   ("HEALTH_FAULT_STATUS", 0x05, [("", [O "test_id" 0 1 Num; O "company_id" 1 2 Num; T "fault_array" 3 U8s])]);
   ("HEALTH_FAULT_TEST", 0x8032, [("", [O "test_id" 0 1 Num; O "company_id" 1 2 Num])]);
   ("HEALTH_FAULT_TEST_UNACKNOWLEDGED", 0x8033, [("", [O "test_id" 0 1 Num; O "company_id" 1 2 Num])]);
   ("HEALTH_PERIOD_GET", 0x8034, [("", [])]);
   ("HEALTH_PERIOD_SET", 0x8035, [("", [O "fast_period_divisor" 0 1 Num])]);
   ("HEALTH_PERIOD_SET_UNACKNOWLEDGED", 0x8036, [("", [O "fast_period_divisor" 0 1 Num])]);
   ("HEALTH_PERIOD_STATUS", 0x8037, [("", [O "fast_period_divisor" 0 1 Num])])].

(** Generic OnOff, Level, Battery and Property messages (Mesh Model 3.2) *)
Definition generic_doc : list (string * Z * list (string * list doc)) :=
  [("GENERIC_ONOFF_GET", 0x8201, [("", [])]);
   ("GENERIC_ONOFF_SET", 0x8202, [("optional", [O "onoff" 0 1 Num; O "tid" 1 1 Num; O "transition_time" 2 1 TransitionTime; O "delay" 3 1 Delay]);
      ("minimal", [O "onoff" 0 1 Num; O "tid" 1 1 Num])]);
   ("GENERIC_ONOFF_SET_UNACKNOWLEDGED", 0x8203, [("optional", [O "onoff" 0 1 Num; O "tid" 1 1 Num; O "transition_time" 2 1 TransitionTime; O "delay" 3 1 Delay]);
      ("minimal", [O "onoff" 0 1 Num; O "tid" 1 1 Num])]);
   ("GENERIC_ONOFF_STATUS", 0x8204, [("optional", [O "present_onoff" 0 1 Num; O "target_onoff" 1 1 Num; O "remaining_time" 2 1 RemainingTime]);
      ("minimal", [O "present_onoff" 0 1 Num])]);
   ("GENERIC_BATTERY_GET", 0x8223, [("", [])]);
   ("GENERIC_BATTERY_STATUS", 0x8224, [("", [O "battery_level" 0 1 Percent; O "time_to_discharge" 1 3 Minutes; O "time_to_charge" 4 3 Minutes; O "flags" 7 1 BatteryFlags])]);
   ("GENERIC_LEVEL_GET", 0x8205, [("", [])]);
   ("GENERIC_LEVEL_SET", 0x8206, [("optional", [O "level" 0 2 Sgn; O "tid" 2 1 Num; O "transition_time" 3 1 TransitionTime; O "delay" 4 1 Delay]);
      ("minimal", [O "level" 0 2 Sgn; O "tid" 2 1 Num])]);
   ("GENERIC_LEVEL_SET_UNACKNOWLEDGED", 0x8207, [("optional", [O "level" 0 2 Sgn; O "tid" 2 1 Num; O "transition_time" 3 1 TransitionTime; O "delay" 4 1 Delay]);
      ("minimal", [O "level" 0 2 Sgn; O "tid" 2 1 Num])]);
   ("GENERIC_LEVEL_STATUS", 0x8208, [("optional", [O "present_level" 0 2 Sgn; O "target_level" 2 2 Sgn; O "remaining_time" 4 1 RemainingTime]);
      ("minimal", [O "present_level" 0 2 Sgn])]);
   ("GENERIC_DELTA_SET", 0x8209, [("optional", [O "delta_level" 0 4 Sgn; O "tid" 4 1 Num; O "transition_time" 5 1 TransitionTime; O "delay" 6 1 Delay]);
      ("minimal", [O "delta_level" 0 4 Sgn; O "tid" 4 1 Num])]);
   ("GENERIC_DELTA_SET_UNACKNOWLEDGED", 0x820A, [("optional", [O "delta_level" 0 4 Sgn; O "tid" 4 1 Num; O "transition_time" 5 1 TransitionTime; O "delay" 6 1 Delay]);
      ("minimal", [O "delta_level" 0 4 Sgn; O "tid" 4 1 Num])]);
   ("GENERIC_MOVE_SET", 0x820B, [("optional", [O "delta_level" 0 2 Sgn; O "tid" 2 1 Num; O "transition_time" 3 1 TransitionTime; O "delay" 4 1 Delay]);
      ("minimal", [O "delta_level" 0 2 Sgn; O "tid" 2 1 Num])]);
   ("GENERIC_MOVE_SET_UNACKNOWLEDGED", 0x820C, [("optional", [O "delta_level" 0 2 Sgn; O "tid" 2 1 Num; O "transition_time" 3 1 TransitionTime; O "delay" 4 1 Delay]);
      ("minimal", [O "delta_level" 0 2 Sgn; O "tid" 2 1 Num])]);
   ("GENERIC_USER_PROPERTIES_GET", 0x822E, [("", [])]);
   ("GENERIC_USER_PROPERTIES_STATUS", 0x4B, [("", [T "property_ids" 0 PropertyIds])]);
   ("GENERIC_USER_PROPERTY_GET", 0x822F, [("", [O "property_id" 0 2 Num])]);
   ("GENERIC_ADMIN_PROPERTIES_GET", 0x822C, [("", [])]);
   ("GENERIC_ADMIN_PROPERTIES_STATUS", 0x47, [("", [T "property_ids" 0 PropertyIds])]);
   ("GENERIC_ADMIN_PROPERTY_GET", 0x822D, [("", [O "property_id" 0 2 Num])]);
   ("GENERIC_MANUFACTURER_PROPERTIES_GET", 0x822A, [("", [])]);
   ("GENERIC_MANUFACTURER_PROPERTIES_STATUS", 0x43, [("", [T "property_ids" 0 PropertyIds])]);
   ("GENERIC_MANUFACTURER_PROPERTY_GET", 0x822B, [("", [O "property_id" 0 2 Num])]);
   ("GENERIC_MANUFACTURER_PROPERTY_SET", 0x44, [("", [O "property_id" 0 2 Num; O "access" 2 1 Num])]);
   ("GENERIC_MANUFACTURER_PROPERTY_SET_UNACKNOWLEDGED", 0x45, [("", [O "property_id" 0 2 Num; O "access" 2 1 Num])]);
   ("GENERIC_CLIENT_PROPERTIES_GET", 0x4F, [("", [])]);
   ("GENERIC_CLIENT_PROPERTIES_STATUS", 0x50, [("", [T "property_ids" 0 PropertyIds])])].

(** Sensor messages (Mesh Model 4.2) *)
Definition sensor_doc : list (string * Z * list (string * list doc)) :=
  [("SENSOR_DESCRIPTOR_GET", 0x8230, [("optional", [O "property_id" 0 2 Num]);
      ("minimal", [])]);
   ("SENSOR_GET", 0x8231, [("optional", [O "property_id" 0 2 Num]);
      ("minimal", [])]);
   ("SENSOR_CADENCE_GET", 0x8234, [("", [O "property_id" 0 2 Num])]);
   ("SENSOR_SETTINGS_GET", 0x8235, [("", [O "sensor_property_id" 0 2 Num])]);
   ("SENSOR_SETTINGS_STATUS", 0x58, [("", [O "sensor_property_id" 0 2 Num; T "sensor_setting_property_ids" 2 PropertyIds])]);
   ("SENSOR_SETTING_GET", 0x8236, [("", [O "sensor_property_id" 0 2 Num; O "sensor_setting_property_id" 2 2 Num])])].

(** Time and Scene messages (Mesh Model 5.2) *)
Definition time_scene_doc : list (string * Z * list (string * list doc)) :=
  [("SCENE_GET", 0x8241, [("", [])]);
   ("SCENE_RECALL", 0x8242, [("optional", [O "scene_number" 0 2 Num; O "tid" 2 1 Num; O "transition_time" 3 1 TransitionTime; O "delay" 4 1 Delay]);
      ("minimal", [O "scene_number" 0 2 Num; O "tid" 2 1 Num])]);
   ("SCENE_RECALL_UNACKNOWLEDGED", 0x8243, [("optional", [O "scene_number" 0 2 Num; O "tid" 2 1 Num; O "transition_time" 3 1 TransitionTime; O "delay" 4 1 Delay]);
      ("minimal", [O "scene_number" 0 2 Num; O "tid" 2 1 Num])]);
   ("SCENE_STATUS", 0x5E, [("optional", [O "status_code" 0 1 Num; O "current_scene" 1 2 Num; O "target_scene" 3 2 Num; O "remaining_time" 5 1 TransitionTime]);
      ("minimal", [O "status_code" 0 1 Num; O "current_scene" 1 2 Num])]);
   ("SCENE_REGISTER_GET", 0x8244, [("", [])]);
   ("SCENE_REGISTER_STATUS", 0x8245, [("", [O "status_code" 0 1 Num; O "current_scene" 1 2 Num; T "scenes" 3 U16s])]);
   ("SCENE_STORE", 0x8246, [("", [O "scene_number" 0 2 Num])]);
   ("SCENE_STORE_UNACKNOWLEDGED", 0x8247, [("", [O "scene_number" 0 2 Num])]);
   ("SCENE_DELETE", 0x829E, [("", [O "scene_number" 0 2 Num])]);
   ("SCENE_DELETE_UNACKNOWLEDGED", 0x829F, [("", [O "scene_number" 0 2 Num])]);
   ("TIME_GET", 0x8237, [("", [])]);
   ("TIME_ZONE_GET", 0x823B, [("", [])]);
   ("TIME_ZONE_SET", 0x823C, [("", [O "time_zone_offset_new" 0 1 Num; O "tai_of_zone_change" 1 5 Num])]);
   ("TIME_ZONE_STATUS", 0x823D, [("", [O "time_zone_offset_current" 0 1 Num; O "time_zone_offset_new" 1 1 Num; O "tai_of_zone_change" 2 5 Num])]);
   ("TAI_UTC_DELTA_GET", 0x823E, [("", [])]);
   ("TAI_UTC_DELTA_SET", 0x823F, [("", [R LE 0 2 15 1; B "tai_utc_delta_new" LE 0 2 0 15 Num; O "tai_of_delta_change" 2 5 Num])]);
   ("TAI_UTC_DELTA_STATUS", 0x8240, [("", [R LE 0 2 15 1; B "tai_utc_delta_current" LE 0 2 0 15 Num; R LE 2 2 15 1; B "tai_utc_delta_new" LE 2 2 0 15 Num; O "tai_of_delta_change" 4 5 Num])]);
   ("TIME_ROLE_GET", 0x8238, [("", [])]);
   ("TIME_ROLE_SET", 0x8239, [("", [O "time_role" 0 1 Num])]);
   ("TIME_ROLE_STATUS", 0x823A, [("", [O "time_role" 0 1 Num])])].

(** Light Lightness and Light CTL messages (Mesh Model 6.3) *)
Definition light_doc : list (string * Z * list (string * list doc)) :=
  [("LIGHT_LIGHTNESS_GET", 0x824B, [("", [])]);
   ("LIGHT_LIGHTNESS_SET", 0x824C, [("optional", [O "lightness" 0 2 Num; O "tid" 2 1 Num; O "transition_time" 3 1 TransitionTime; O "delay" 4 1 Delay]);
      ("minimal", [O "lightness" 0 2 Num; O "tid" 2 1 Num])]);
   ("LIGHT_LIGHTNESS_SET_UNACKNOWLEDGED", 0x824D, [("optional", [O "lightness" 0 2 Num; O "tid" 2 1 Num; O "transition_time" 3 1 TransitionTime; O "delay" 4 1 Delay]);
      ("minimal", [O "lightness" 0 2 Num; O "tid" 2 1 Num])]);
   ("LIGHT_LIGHTNESS_STATUS", 0x824E, [("optional", [O "present_lightness" 0 2 Num; O "target_lightness" 2 2 Num; O "remaining_time" 4 1 RemainingTime]);
      ("minimal", [O "present_lightness" 0 2 Num])]);
   ("LIGHT_LIGHTNESS_LINEAR_GET", 0x824F, [("", [])]);
   ("LIGHT_LIGHTNESS_LINEAR_SET", 0x8250, [("optional", [O "lightness" 0 2 Num; O "tid" 2 1 Num; O "transition_time" 3 1 TransitionTime; O "delay" 4 1 Delay]);
      ("minimal", [O "lightness" 0 2 Num; O "tid" 2 1 Num])]);
   ("LIGHT_LIGHTNESS_LINEAR_SET_UNACKNOWLEDGED", 0x8251, [("optional", [O "lightness" 0 2 Num; O "tid" 2 1 Num; O "transition_time" 3 1 TransitionTime; O "delay" 4 1 Delay]);
      ("minimal", [O "lightness" 0 2 Num; O "tid" 2 1 Num])]);
   ("LIGHT_LIGHTNESS_LINEAR_STATUS", 0x8252, [("optional", [O "present_lightness" 0 2 Num; O "target_lightness" 2 2 Num; O "remaining_time" 4 1 RemainingTime]);
      ("minimal", [O "present_lightness" 0 2 Num])]);
   ("LIGHT_LIGHTNESS_LAST_GET", 0x8253, [("", [])]);
   ("LIGHT_LIGHTNESS_LAST_STATUS", 0x8254, [("", [O "lightness" 0 2 Num])]);
   ("LIGHT_LIGHTNESS_DEFAULT_GET", 0x8255, [("", [])]);
   ("LIGHT_LIGHTNESS_DEFAULT_STATUS", 0x8256, [("", [O "lightness" 0 2 Num])]);
   ("LIGHT_LIGHTNESS_RANGE_GET", 0x8257, [("", [])]);
   ("LIGHT_LIGHTNESS_RANGE_STATUS", 0x8258, [("", [O "status" 0 1 Num; O "range_min" 1 2 Num; O "range_max" 3 2 Num])]);
   ("LIGHT_LIGHTNESS_SETUP_DEFAULT_SET", 0x8259, [("", [O "lightness" 0 2 Num])]);
   ("LIGHT_LIGHTNESS_SETUP_DEFAULT_SET_UNACKNOWLEDGED", 0x825A, [("", [O "lightness" 0 2 Num])]);
   ("LIGHT_LIGHTNESS_SETUP_RANGE_SET", 0x825B, [("", [O "range_min" 0 2 Num; O "range_max" 2 2 Num])]);
   ("LIGHT_LIGHTNESS_SETUP_RANGE_SET_UNACKNOWLEDGED", 0x825C, [("", [O "range_min" 0 2 Num; O "range_max" 2 2 Num])]);
   ("LIGHT_CTL_GET", 0x825D, [("", [])]);
   ("LIGHT_CTL_SET", 0x825E, [("optional", [O "ctl_lightness" 0 2 Num; O "ctl_temperature" 2 2 Num; O "ctl_delta_uv" 4 2 Num; O "tid" 6 1 Num; O "transition_time" 7 1 TransitionTime; O "delay" 8 1 Delay]);
      ("minimal", [O "ctl_lightness" 0 2 Num; O "ctl_temperature" 2 2 Num; O "ctl_delta_uv" 4 2 Num; O "tid" 6 1 Num])]);
   ("LIGHT_CTL_SET_UNACKNOWLEDGED", 0x825F, [("optional", [O "ctl_lightness" 0 2 Num; O "ctl_temperature" 2 2 Num; O "ctl_delta_uv" 4 2 Num; O "tid" 6 1 Num; O "transition_time" 7 1 TransitionTime; O "delay" 8 1 Delay]);
      ("minimal", [O "ctl_lightness" 0 2 Num; O "ctl_temperature" 2 2 Num; O "ctl_delta_uv" 4 2 Num; O "tid" 6 1 Num])]);
   ("LIGHT_CTL_STATUS", 0x8260, [("optional", [O "present_ctl_lightness" 0 2 Num; O "present_ctl_temperature" 2 2 Num; O "target_ctl_lightness" 4 2 Num; O "target_ctl_temperature" 6 2 Num; O "remaining_time" 8 1 RemainingTime]);
      ("minimal", [O "present_ctl_lightness" 0 2 Num; O "present_ctl_temperature" 2 2 Num])]);
   ("LIGHT_CTL_TEMPERATURE_GET", 0x8261, [("", [])]);
   ("LIGHT_CTL_TEMPERATURE_RANGE_GET", 0x8262, [("", [])]);
   ("LIGHT_CTL_TEMPERATURE_RANGE_STATUS", 0x8263, [("", [O "status" 0 1 Num; O "range_min" 1 2 Num; O "range_max" 3 2 Num])]);
   ("LIGHT_CTL_TEMPERATURE_SET", 0x8264, [("optional", [O "ctl_temperature" 0 2 Num; O "ctl_delta_uv" 2 2 Num; O "tid" 4 1 Num; O "transition_time" 5 1 TransitionTime; O "delay" 6 1 Delay]);
      ("minimal", [O "ctl_temperature" 0 2 Num; O "ctl_delta_uv" 2 2 Num; O "tid" 4 1 Num])]);
   ("LIGHT_CTL_TEMPERATURE_SET_UNACKNOWLEDGED", 0x8265, [("optional", [O "ctl_temperature" 0 2 Num; O "ctl_delta_uv" 2 2 Num; O "tid" 4 1 Num; O "transition_time" 5 1 TransitionTime; O "delay" 6 1 Delay]);
      ("minimal", [O "ctl_temperature" 0 2 Num; O "ctl_delta_uv" 2 2 Num; O "tid" 4 1 Num])]);
   ("LIGHT_CTL_TEMPERATURE_STATUS", 0x8266, [("optional", [O "present_ctl_temperature" 0 2 Num; O "present_ctl_delta_uv" 2 2 Num; O "target_ctl_temperature" 4 2 Num; O "target_ctl_delta_uv" 6 2 Num; O "remaining_time" 8 1 RemainingTime]);
      ("minimal", [O "present_ctl_temperature" 0 2 Num; O "present_ctl_delta_uv" 2 2 Num])]);
   ("LIGHT_CTL_TEMPERATURE_DEFAULT_GET", 0x8267, [("", [])]);
   ("LIGHT_CTL_TEMPERATURE_DEFAULT_STATUS", 0x8268, [("", [O "ctl_lightness" 0 2 Num; O "ctl_temperature" 2 2 Num; O "ctl_delta_uv" 4 2 Num])]);
   ("LIGHT_CTL_SETUP_TEMPERATURE_DEFAULT_SET", 0x8269, [("", [O "ctl_lightness" 0 2 Num; O "ctl_temperature" 2 2 Num; O "ctl_delta_uv" 4 2 Num])]);
   ("LIGHT_CTL_SETUP_TEMPERATURE_DEFAULT_SET_UNACKNOWLEDGED", 0x826A, [("", [O "ctl_lightness" 0 2 Num; O "ctl_temperature" 2 2 Num; O "ctl_delta_uv" 4 2 Num])]);
   ("LIGHT_CTL_SETUP_TEMPERATURE_RANGE_SET", 0x826B, [("", [O "range_min" 0 2 Num; O "range_max" 2 2 Num])]);
   ("LIGHT_CTL_SETUP_TEMPERATURE_RANGE_SET_UNACKNOWLEDGED", 0x826C, [("", [O "range_min" 0 2 Num; O "range_max" 2 2 Num])])].

(** Silvair vendor messages with a flat layout *)
Definition vendor_doc : list (string * Z * list (string * list doc)) :=
  [("SILVAIR_DEBUG_V2", 0xEB3601, [("", [O "subopcode" 0 1 Num; O "parameter_type" 1 1 Num; O "page_number" 2 1 Num; T "payload" 3 DebugPayload])])].

Definition documented : list (string * Z * list (string * list doc)) :=
  config_doc ++ health_doc ++ generic_doc ++ sensor_doc ++ time_scene_doc ++ light_doc ++ vendor_doc.

(** Silvair vendor messages: one opcode, then an octet holding the sub-opcode, then
    the parameters of the sub-message: opcode name, opcode, sub-opcode name,
    sub-opcode, forms.  (Silvair publishes no tables: these restate, octet by octet,
    the declarations of silvair/*.py.) *)
Notation MacAddress := (Own (CAdapt AMac (CBytes 6))) (only parsing).              (* C29 *)
Notation IpAddress := (Own (CAdapt AIp (CBytes 4))) (only parsing).                (* C30 *)
Notation Text := (Own CGreedyString) (only parsing).                               (* C39 *)
Notation ConnectionState := (Own gateway_ConnectionState) (only parsing).          (* parts_doc *)
Notation Timestamp := (Own (CAdapt ATimestamp elt_Timestamp)) (only parsing).      (* C35 *)
Notation FunctionalResult := (Own elt_FunctionalExecutionResult) (only parsing).   (* parts_doc *)
Notation DurationResult := (Own elt_DurationExecutionResult) (only parsing).       (* parts_doc *)
Notation StepsResolution := (Own generics_TransitionTime) (only parsing).          (* parts_doc *)
Definition sub_doc : list (string * Z * string * Z * list (string * list doc)) :=
  let gw n z r := ("SILVAIR_GATEWAY", 0xF03601, n, z, [("", r)]) in
  let db n z r := ("SILVAIR_DEBUG", 0xF53601, n, z, [("", r)]) in
  let el n z r := ("SILVAIR_EL", 0xEA3601, n, z, [("", r)]) in
  let elt n z r := ("SILVAIR_ELT", 0xE93601, n, z, [("", r)]) in
  let lec n z r := ("SILVAIR_LEC", 0xF63601, n, z, [("", r)]) in
  let nds n z r := ("SILVAIR_NDS", 0xFC3601, n, z, [("", r)]) in
  let publication n z := ("SILVAIR_NDS_SETUP", 0xFD3601, n, z,
    [("optional", [O "destination" 0 2 Num; O "count" 2 2 Num; O "period" 4 1 StepsResolution; O "ttl" 5 1 Num; O "net_key_index" 6 2 Num; O "features" 8 2 Num]);
     ("minimal", [O "destination" 0 2 Num; O "count" 2 2 Num; O "period" 4 1 StepsResolution; O "ttl" 5 1 Num; O "net_key_index" 6 2 Num])]) in
  [gw "MTU_SIZE_SET" 4 [O "mtu_size" 0 2 Num];
   gw "ETHERNET_MAC_ADDRESS_SET" 5 [O "mac_address" 0 6 MacAddress];
   gw "SERVER_ADDRESS_AND_PORT_NUMBER_SET" 6 [O "server_port_number" 0 2 Num; O "server_address_length" 2 1 Num; T "server_address" 3 (Own (CPaddedString (EGet "server_address_length")))];
   gw "RECONNECT_INTERVAL_SET" 7 [O "reconnect_interval" 0 2 Num];
   gw "DNS_IP_ADDRESS_SET" 8 [O "dns_ip_address" 0 4 IpAddress];
   gw "IP_ADDRESS_SET" 9 [O "ip_address" 0 4 IpAddress];
   gw "GATEWAY_IP_ADDRESS_SET" 10 [O "gateway_ip_address" 0 4 IpAddress];
   gw "NETMASK_SET" 11 [O "netmask" 0 1 Num];
   gw "GATEWAY_PACKETS_STATUS" 13 [O "total_eth_rx_errors" 0 2 Num; O "total_eth_tx_errors" 2 2 Num; O "bandwidth" 4 2 Num; O "connection_state" 6 1 ConnectionState];
   db "RSSI_THRESHOLD_GET" 0 []; db "RSSI_THRESHOLD_SET" 1 [O "rssi_threshold" 0 1 Num]; db "RSSI_THRESHOLD_STATUS" 2 [O "rssi_threshold" 0 1 Num];
   db "RADIO_TEST" 3 [O "packet_counter" 0 1 Num];
   db "UPTIME_GET" 10 []; db "UPTIME_STATUS" 11 [O "uptime" 0 4 Num];
   db "LAST_SW_FAULT_GET" 12 []; db "LAST_SW_FAULT_CLEAR" 13 []; db "LAST_SW_FAULT_STATUS" 14 [O "time" 0 4 Num; T "fault" 4 Text];
   db "SYSTEM_STATS_GET" 15 []; db "SYSTEM_STATS_STATUS" 16 [T "stats" 0 (Own (CGreedyRange debug_SystemStat))];
   db "LAST_MALLOC_FAULT_GET" 17 []; db "LAST_MALLOC_FAULT_CLEAR" 18 []; db "LAST_MALLOC_FAULT_STATUS" 19 [O "time" 0 4 Num; T "fault" 4 Text];
   db "LAST_FDS_FAULT_GET" 20 []; db "LAST_FDS_FAULT_CLEAR" 21 []; db "LAST_FDS_FAULT_STATUS" 22 [O "time" 0 4 Num; T "fault" 4 Text];
   db "BYTES_BEFORE_GARBAGE_COLLECTOR_GET" 23 []; db "BYTES_BEFORE_GARBAGE_COLLECTOR_STATUS" 24 [O "bytes_left" 0 2 Num];
   db "PROVISIONED_APP_VERSION_GET" 25 []; db "PROVISIONED_APP_VERSION_STATUS" 26 [O "version" 0 2 Num];
   db "FULL_FIRMWARE_VERSION_GET" 27 []; db "FULL_FIRMWARE_VERSION_STATUS" 28 [T "version" 0 Text];
   db "IV_INDEX_GET" 29 []; db "IV_INDEX_STATUS" 30 [O "ivindex" 0 4 Num];
   db "GARBAGE_COLLECTOR_COUNTER_GET" 31 []; db "GARBAGE_COLLECTOR_COUNTER_STATUS" 32 [O "counter" 0 2 Num];
   db "ARAP_LIST_SIZE_GET" 33 [];
   ("SILVAIR_DEBUG", 0xF53601, "ARAP_LIST_SIZE_STATUS", 34, [("new", [O "capacity" 0 2 Num; O "size" 2 2 Num]); ("old", [O "capacity" 0 1 Num; O "size" 1 1 Num])]);
   db "ARAP_LIST_CONTENT_GET" 35 [O "page" 0 1 Num];
   db "ARAP_LIST_CONTENT_STATUS" 36 [O "current_page" 0 1 Num; O "last_page" 1 1 Num; T "nodes" 2 (Own (CGreedyRange debug_ArapNode))];
   el "EL_INHIBIT_ENTER" 0 []; el "EL_INHIBIT_ENTER_UNACKNOWLEDGED" 1 []; el "EL_INHIBIT_EXIT" 2 []; el "EL_INHIBIT_EXIT_UNACKNOWLEDGED" 3 [];
   el "EL_STATE_GET" 4 []; el "EL_STATE_STATUS" 5 [O "el_state" 0 1 Num]; el "EL_PROPERTY_GET" 6 [O "property_id" 0 2 Num];
   el "EL_LAMP_OPERATION_TIME_GET" 10 []; el "EL_LAMP_OPERATION_TIME_CLEAR" 11 []; el "EL_LAMP_OPERATION_TIME_CLEAR_UNACKNOWLEDGED" 12 [];
   el "EL_LAMP_OPERATION_TIME_STATUS" 13 [O "el_lamp_total_operation_time" 0 4 Num; O "el_lamp_emergency_time" 4 4 Num];
   el "EL_REST_ENTER" 14 []; el "EL_REST_ENTER_UNACKNOWLEDGED" 15 []; el "EL_REST_EXIT" 16 []; el "EL_REST_EXIT_UNACKNOWLEDGED" 17 [];
   elt "ELT_FUNCTIONAL_TEST_GET" 0 []; elt "ELT_FUNCTIONAL_TEST_START" 1 []; elt "ELT_FUNCTIONAL_TEST_STOP" 2 [];
   ("SILVAIR_ELT", 0xE93601, "ELT_FUNCTIONAL_TEST_STATUS", 3,
     [("optional", [O "tai_timestamp" 0 8 Timestamp; O "execution_status" 8 1 Num; O "execution_result" 9 1 FunctionalResult; O "relative_timestamp" 10 4 Num]);
      ("minimal", [O "tai_timestamp" 0 8 Timestamp; O "execution_status" 8 1 Num; O "execution_result" 9 1 FunctionalResult])]);
   elt "ELT_DURATION_TEST_GET" 4 []; elt "ELT_DURATION_TEST_START" 5 []; elt "ELT_DURATION_TEST_STOP" 6 [];
   ("SILVAIR_ELT", 0xE93601, "ELT_DURATION_TEST_STATUS", 7,
     [("optional", [O "tai_timestamp" 0 8 Timestamp; O "execution_status" 8 1 Num; O "execution_result" 9 1 DurationResult; O "duration_result" 10 2 Num; O "relative_timestamp" 12 4 Num]);
      ("minimal", [O "tai_timestamp" 0 8 Timestamp; O "execution_status" 8 1 Num; O "execution_result" 9 1 DurationResult; O "duration_result" 10 2 Num])]);
   elt "ELT_PROPERTY_GET" 8 [O "property_id" 0 2 Num];
   lec "PROPERTY_GET" 0 [O "property_id" 0 2 Num]; lec "SYNC_INTEGRAL_STATUS" 9 [O "sync_integral" 0 2 Num];
   nds "SUBSCRIPTION_GET" 0 []; nds "SUBSCRIPTION_SET" 1 [O "destination" 0 2 Num; O "period" 2 2 Num];
   nds "SUBSCRIPTION_SET_UNACKNOWLEDGED" 2 [O "destination" 0 2 Num; O "period" 2 2 Num];
   nds "SUBSCRIPTION_STATUS" 3 [O "destination" 0 2 Num; O "period" 2 2 Num; O "max_record_count" 4 1 Num; T "record" 5 (Own (CGreedyRange nds_RegistryRecord))];
   nds "RADIO_STAT_GET" 4 [];
   ("SILVAIR_NDS_SETUP", 0xFD3601, "PUBLICATION_GET", 0, [("", [])]); publication "PUBLICATION_SET" 1; publication "PUBLICATION_STATUS" 2].

(** parts of messages with a layout of their own *)
Definition parts_doc : list (con * list doc) :=
  [(config_SIGModelId, [O "model_id" 0 2 Num]);
   (config_VendorModelId, [O "vendor_id" 0 2 Num; O "model_id" 2 2 Num]);
   (config_PublishPeriod, [B "step_resolution" BE 0 1 6 2 Num; B "number_of_steps" BE 0 1 0 6 Num]);
   (steps_count, [B "interval_steps" BE 0 1 3 5 Num; B "count" BE 0 1 0 3 Num]);
   (generics_TransitionTime, [B "resolution" BE 0 1 6 2 Num; B "steps" BE 0 1 0 6 Num]);
   (battery_BatteryFlags, [B "battery_serviceability_flags" BE 0 1 6 2 Num; B "battery_charging_flags" BE 0 1 4 2 Num;
                           B "battery_indicator_flags" BE 0 1 2 2 Num; B "battery_presence_flags" BE 0 1 0 2 Num]);
   (elt_FunctionalExecutionResult, [R BE 0 1 3 5; B "circuit_fault" BE 0 1 2 1 Flag; B "battery_fault" BE 0 1 1 1 Flag; B "lamp_fault" BE 0 1 0 1 Flag]);
   (elt_DurationExecutionResult, [R BE 0 1 4 4; B "battery_duration_fault" BE 0 1 3 1 Flag; B "circuit_fault" BE 0 1 2 1 Flag;
                                  B "battery_fault" BE 0 1 1 1 Flag; B "lamp_fault" BE 0 1 0 1 Flag]);
   (elt_Timestamp, [O "tai_seconds" 0 5 Num; O "time_zone_offset" 5 1 Num; O "tai_utc_delta_raw" 6 2 Num]);
   (sensor_SensorDescriptorOptional, [O "sensor_property_id" 0 2 Num; B "sensor_positive_tolerance" LE 2 3 12 12 Num; B "sensor_negative_tolerance" LE 2 3 0 12 Num;
                                      O "sensor_sampling_funcion" 5 1 Num; O "sensor_measurement_period" 6 1 Num; O "sensor_update_interval" 7 1 Num]);
   (gateway_ConnectionState, [B "conn_state" BE 0 1 5 3 Num; B "link_status" BE 0 1 4 1 Num; B "last_error" BE 0 1 0 4 Num]);
   (debug_SystemStat, [O "name" 0 8 (Own (CPaddedString (EConst 8))); O "high_water_mark" 8 4 Num; R LE 12 2 0 16]);
   (config_CompositionDataPage0, [O "cid" 0 2 Num; O "pid" 2 2 Num; O "vid" 4 2 Num; O "crpl" 6 2 Num; O "features" 8 2 Num;
                                  T "elements" 10 (Own (CGreedyRange config_CompositionDataPage0Element))]);
   (CReversed 2 (CBitwise (CStruct (FPad None 4 (FCons "last" (CBits 12 false) FNil)))), [R LE 0 2 12 4; B "last" LE 0 2 0 12 Num]); (* odd key index *)
   (config_Version, [O "version_x" 0 1 Num; O "version_y" 1 1 Num; O "version_z" 2 1 Num]);
   (config_ExtendedModelLongFormat, [O "model_item_index" 0 1 Num; O "element_offset" 1 1 Sgn])].

(** ** The tables agree with the declarations *)
(** the declaration of the parameters of opcode [z], and the name of that opcode *)
Fixpoint params_of (l : list (enum * con)) (z : Z) : option (string * con) :=
  match l with
  | [] => None
  | (t, CSwitchStruct _ _ _ _ cs) :: l' =>
      match by_value t z with
      | Some (VEnum n _) => match find_case z cs with Some (_, c) => Some (n, c) | None => None end
      | _ => params_of l' z
      end
  | _ :: l' => params_of l' z
  end.
Definition doc_of_row (z : Z) : option (string * list (string * list doc)) :=
  match params_of access_table z with
  | Some (n, c) => if forms_ok c then match docs_of c with Some fl => Some (n, fl) | None => None end else None
  | None => None
  end.
Lemma params_of_spec l z n c : params_of l z = Some (n, c) ->
  exists t k kc t' sw cs m, In (t, CSwitchStruct k kc t' sw cs) l /\ member t n z /\ find_case z cs = Some (m, c).
Proof.
  induction l as [|[t c0] l IH]; [discriminate|]. intros H.
  assert (R : params_of l z = Some (n, c) -> exists t1 k kc t' sw cs m, In (t1, CSwitchStruct k kc t' sw cs) ((t, c0) :: l) /\ member t1 n z /\ find_case z cs = Some (m, c)).
  { intros R. destruct (IH R) as (t1 & k & kc & t' & sw & cs & m & Hin & K). exists t1, k, kc, t', sw, cs, m. split; [now right|exact K]. }
  cbn [params_of] in H. destruct c0; try (exact (R H)). destruct (by_value t z) as [v|] eqn:E; [|exact (R H)].
  pose proof (by_value_int _ _ _ E) as (n0 & -> & _). destruct (find_case z cs) as [[m c1]|] eqn:F; [|discriminate]. injection H as <- <-.
  exists t, k, c0, t0, sw, cs, m. split; [now left|]. split; [|exact F]. now apply by_value_member.
Qed.
(** Each row of the tables is the layout computed from the declaration of the
    message with that opcode, and its name is the name of that opcode. *)
Lemma documented_rows : map (fun r => doc_of_row (snd (fst r))) documented = map (fun r => Some (fst (fst r), snd r)) documented.
Proof. vm_compute. reflexivity. Qed.
Lemma map_eq_in {A B} (f g : A -> B) l : map f l = map g l -> forall x, In x l -> f x = g x.
Proof. induction l as [|a l IH]; cbn [map]; intros H x Hx; [destruct Hx|]. injection H as H1 H2. destruct Hx as [<- | Hx]; auto. Qed.
Lemma doc_of_row_spec z n fl : doc_of_row z = Some (n, fl) ->
  exists t cs m c, family t (CSwitchStruct "opcode" (COpcode t) t "params" cs) /\ member t n z /\ find_case z cs = Some (m, c) /\
    forms_ok c = true /\ docs_of c = Some fl.
Proof.
  unfold doc_of_row, family. pose proof access_shape as S. unfold family in S. generalize dependent access_table. intros l S E.
  destruct (params_of l z) as [[n' c]|] eqn:P; [|discriminate]. destruct (forms_ok c) eqn:Fo; [|discriminate].
  destruct (docs_of c) as [fl'|] eqn:D; [|discriminate]. injection E as -> ->.
  apply params_of_spec in P as (t & k & kc & t' & sw & cs & m & Hin & Hm & Hc).
  destruct (S _ _ Hin) as (cs' & Es). injection Es as -> -> -> -> <-. exists t, cs, m, c. auto.
Qed.
Lemma documented_row n z fl : In (n, z, fl) documented ->
  exists t cs m c, family t (CSwitchStruct "opcode" (COpcode t) t "params" cs) /\ member t n z /\ find_case z cs = Some (m, c) /\
    forms_ok c = true /\ docs_of c = Some fl.
Proof.
  intros H. apply doc_of_row_spec. revert H. pose proof documented_rows as R. revert R. generalize documented doc_of_row. intros l f R H.
  exact (map_eq_in (fun r => f (snd (fst r))) _ _ R _ H).
Qed.
Lemma build_case_of z cs m c ctx v : find_case z cs = Some (m, c) -> build_case z cs ctx v = build c ctx v.
Proof. induction cs as [|n w c' cs IH]; cbn [find_case build_case]; [discriminate|]. destruct (Z.eqb z w); [|auto]. intros H. injection H as -> ->. reflexivity. Qed.
Lemma parse_case_of z cs m c ctx s : find_case z cs = Some (m, c) -> parse_case z cs ctx s = parse c ctx s.
Proof. induction cs as [|n w c' cs IH]; cbn [find_case parse_case]; [discriminate|]. destruct (Z.eqb z w); [|auto]. intros H. injection H as -> ->. reflexivity. Qed.

(** *** C52: what a sender transmits.
    [op] is the opcode as a number or enum member and [d] the parameters object. *)
Theorem C52_build : forall n z fl m op d s, In (n, z, fl) documented ->
  dget "opcode" m = Some op -> as_int op = Some z -> dget (lower n) m = Some (VDict d) -> access_build (VDict m) = Ok s ->
  exists o p, s = (o ++ p)%list /\ opcode_bytes z o /\
    exists f rows d1 d', In (f, rows) fl /\ (f = "" /\ d1 = d \/ form_fields f d d1) /\ given d1 d' /\
      Forall (doc_built d' p) rows /\ (forall k, doc_len rows = Some k -> length p = k).
Proof.
  intros n z fl mm op d s Hin Hop Hz Hd Hb. destruct (documented_row _ _ _ Hin) as (t & cs & m & c & Hf & Hm & Hc & Fo & D).
  rewrite (access_build_family _ _ _ _ _ _ Hf Hm Hop Hz) in Hb. unfold build_msg in Hb. cbn [build] in Hb.
  destruct (legal_opcode_bytes z (family_legal _ _ _ _ Hf Hm)) as (o & Ho).
  unfold dgetr at 1 in Hb. rewrite Hop in Hb. cbn [bind] in Hb. rewrite (int_key_as_int _ _ Hz), (member_by_value _ _ _ Hm) in Hb.
  rewrite Hd in Hb. cbn [bind as_intr as_int] in Hb. rewrite (opcode_bytes_build _ _ Ho) in Hb. cbn [bind] in Hb.
  rewrite (member_by_value _ _ _ Hm) in Hb. cbn [bind] in Hb. apply bind_ok in Hb as (p & Hp & Hb). injection Hb as <-.
  rewrite (build_case_of _ _ _ _ _ _ Hc) in Hp. exists o, p. split; [reflexivity|]. split; [exact Ho|].
  exact (forms_build _ _ _ _ _ D Fo Hp).
Qed.
Print Assumptions C52_build.
(** an opcode given by name is the same as the member (C49_build_by_name) *)

(** *** C52: what a receiver reads. *)
Theorem C52_parse : forall n z fl o p v, In (n, z, fl) documented -> opcode_bytes z o -> bytes p -> access_parse (o ++ p)%list = Ok v ->
  exists u, v = VDict [("opcode", VEnum n z); (lower n, VDict u)] /\ exists f rows, In (f, rows) fl /\ Forall (doc_parsed u p) rows.
Proof.
  intros n z fl o p v Hin Ho Hp H. destruct (documented_row _ _ _ Hin) as (t & cs & m & c & Hf & Hm & Hc & Fo & D).
  rewrite (access_parse_family _ _ _ _ _ _ Hf Hm Ho) in H. unfold parse_msg in H. apply bind_ok in H as ([v0 r0] & H & E). injection E as <-.
  cbn [parse] in H. rewrite (opcode_bytes_parse _ _ _ Ho) in H. cbn [bind] in H. rewrite (member_by_value _ _ _ Hm) in H. cbn [bind] in H.
  apply bind_ok in H as ([x r] & H & E). injection E as <- <-. rewrite (parse_case_of _ _ _ _ _ _ Hc) in H.
  destruct (forms_parse _ _ _ _ _ _ D Fo Hp H) as (f & rows & u & Hr & -> & F). exists u. split; [|eauto].
  cbn [dset]. destruct (String.eqb_spec (lower n) "opcode"); [|reflexivity]. exfalso. exact (access_no_opcode_name _ _ _ _ Hf Hm e).
Qed.
Print Assumptions C52_parse.

(** *** C52: which messages the tables cover.
    Messages whose parameters are not a flat record: their parts are in [parts_doc]
    and [sub_doc], or are the subject of C15-C44. *)
Definition structured : list string :=
  ["CONFIG_COMPOSITION_DATA_STATUS"; "CONFIG_NETWORK_TRANSMIT_SET"; "CONFIG_NETWORK_TRANSMIT_STATUS"; "SILVAIR_DEBUG"; "SILVAIR_GATEWAY";
   "SILVAIR_NDS"; "SILVAIR_NDS_SETUP"; "SENSOR_DESCRIPTOR_STATUS"; "SENSOR_STATUS"; "SENSOR_SETTING_SET"; "SENSOR_SETTING_SET_UNACKNOWLEDGED";
   "SENSOR_SETTING_STATUS"; "SILVAIR_LEC"; "TIME_SET"; "TIME_STATUS"; "SILVAIR_RRULE_SCHEDULER"; "GENERIC_USER_PROPERTY_SET"; "GENERIC_USER_PROPERTY_SET_UNACKNOWLEDGED";
   "GENERIC_USER_PROPERTY_STATUS"; "GENERIC_ADMIN_PROPERTY_SET"; "GENERIC_ADMIN_PROPERTY_SET_UNACKNOWLEDGED"; "GENERIC_ADMIN_PROPERTY_STATUS";
   "GENERIC_MANUFACTURER_PROPERTY_STATUS"; "SILVAIR_EL"; "SILVAIR_ELT"].
(** known opcodes whose parameters the library does not describe at all (C47) *)
Definition undescribed : list string :=
  ["SENSOR_COLUMN_GET"; "SENSOR_COLUMN_STATUS"; "SENSOR_SERIES_GET"; "SENSOR_SERIES_STATUS"; "SENSOR_CADENCE_SET";
   "SENSOR_CADENCE_SET_UNACKNOWLEDGED"; "SENSOR_CADENCE_STATUS"].
Theorem C52_coverage : forall t c n z, family t c -> member t n z ->
  (exists fl, In (n, z, fl) documented) \/ In n structured \/ In n undescribed.
Proof.
  assert (H : forallb (fun p => forallb (fun q => existsb (fun r => String.eqb (fst (fst r)) (fst q) && Z.eqb (snd (fst r)) (snd q)) documented
                || existsb (String.eqb (fst q)) structured || existsb (String.eqb (fst q)) undescribed) (fst p)) access_table = true) by (vm_compute; reflexivity).
  intros t c n z Hf Hm. rewrite forallb_forall in H. specialize (H _ Hf). cbn [fst] in H. rewrite forallb_forall in H.
  specialize (H _ (member_in _ _ _ Hm)). cbn [fst snd] in H. apply orb_prop in H as [H|H]; [apply orb_prop in H as [H|H]|].
  - left. apply existsb_exists in H as ([[n' z'] fl] & Hin & E). cbn [fst snd] in E. apply andb_prop in E as [E1 E2].
    apply String.eqb_eq in E1. apply Z.eqb_eq in E2. subst. eauto.
  - right. left. apply existsb_exists in H as (n' & Hin & E). apply String.eqb_eq in E. now subst.
  - right. right. apply existsb_exists in H as (n' & Hin & E). apply String.eqb_eq in E. now subst.
Qed.
Print Assumptions C52_coverage.

(** *** C52: the sub-messages of the vendor messages *)
Fixpoint enum_eqb (a b : enum) : bool :=
  match a, b with
  | [], [] => true
  | (n, z) :: a', (m, w) :: b' => String.eqb n m && Z.eqb z w && enum_eqb a' b'
  | _, _ => false
  end.
Lemma enum_eqb_spec a : forall b, enum_eqb a b = true -> a = b.
Proof.
  induction a as [|[n z] a IH]; intros [|[m w] b] H; try discriminate H; [reflexivity|]. cbn [enum_eqb] in H.
  apply andb_prop in H as [H H3]. apply andb_prop in H as [H1 H2]. apply String.eqb_eq in H1. apply Z.eqb_eq in H2. f_equal; [congruence|auto].
Qed.
Definition doc_of_sub (z sz : Z) : option (string * string * list (string * list doc)) :=
  match params_of access_table z with
  | Some (n, CSwitchStruct k (CAdapt (AEnum t') (CInt w false)) t _ cs) =>
      match by_value t sz, find_case sz cs with
      | Some (VEnum sn _), Some (_, c) => if forms_ok c && enum_eqb t' t && String.eqb k "subopcode" && Nat.eqb w 1 && (0 <=? sz)%Z && (sz <? 256)%Z && negb (String.eqb (lower sn) "subopcode") then match docs_of c with Some fl => Some (n, sn, fl) | None => None end else None
      | _, _ => None
      end
  | _ => None
  end.
Lemma sub_rows : map (fun r => match r with (n, z, sn, sz, fl) => doc_of_sub z sz end) sub_doc =
                 map (fun r => match r with (n, z, sn, sz, fl) => Some (n, sn, fl) end) sub_doc.
Proof. vm_compute. reflexivity. Qed.

Lemma doc_of_sub_spec z sz n sn fl : doc_of_sub z sz = Some (n, sn, fl) ->
  exists t cs m t1 sw cs1 m1 c, family t (CSwitchStruct "opcode" (COpcode t) t "params" cs) /\ member t n z /\
    find_case z cs = Some (m, CSwitchStruct "subopcode" (CAdapt (AEnum t1) (CInt 1 false)) t1 sw cs1) /\ member t1 sn sz /\ find_case sz cs1 = Some (m1, c) /\
    (0 <= sz < 256)%Z /\ lower sn <> "subopcode" /\ forms_ok c = true /\ docs_of c = Some fl.
Proof.
  unfold doc_of_sub, family. pose proof access_shape as S. unfold family in S. generalize dependent access_table. intros l S E.
  destruct (params_of l z) as [[n' c]|] eqn:P; [|discriminate].
  destruct c; try discriminate. destruct c; try discriminate. destruct a; try discriminate. destruct c; try discriminate. destruct sg; try discriminate.
  destruct (by_value t sz) as [v|] eqn:Ev; [|discriminate]. destruct (by_value_int _ _ _ Ev) as (sn' & -> & _).
  destruct (find_case sz cs) as [[m1 c1]|] eqn:Fc; [|discriminate].
  match type of E with (if ?b then _ else _) = _ => destruct b eqn:Eb; [|discriminate] end.
  apply andb_prop in Eb as [Eb B7]. apply andb_prop in Eb as [Eb B6]. apply andb_prop in Eb as [Eb B5]. apply andb_prop in Eb as [Eb B4].
  apply andb_prop in Eb as [Eb B3]. apply andb_prop in Eb as [B1 B2].
  apply enum_eqb_spec in B2. apply String.eqb_eq in B3. apply Nat.eqb_eq in B4. subst.
  destruct (docs_of c1) as [fl'|] eqn:D; [|discriminate]. injection E as -> -> ->.
  apply params_of_spec in P as (t0 & k0 & kc & t' & sw0 & cs0 & m & Hin & Hm & Hc).
  destruct (S _ _ Hin) as (cs' & Es). injection Es as -> -> -> -> <-.
  exists t0, cs0, m, t, sw, cs, m1, c1. repeat (split; [solve [auto using by_value_member | lia]|]). split; [|auto].
  intros Hl. rewrite Hl in B7. discriminate.
Qed.
Lemma sub_row n z sn sz fl : In (n, z, sn, sz, fl) sub_doc -> doc_of_sub z sz = Some (n, sn, fl).
Proof.
  pose proof sub_rows as R. revert R. generalize sub_doc doc_of_sub. intros l f R H.
  exact (map_eq_in (fun r => match r with (n, z, sn, sz, fl) => f z sz end) _ _ R _ H).
Qed.

Theorem C52_sub_build : forall n z sn sz fl m op p sop d s, In (n, z, sn, sz, fl) sub_doc ->
  dget "opcode" m = Some op -> as_int op = Some z -> dget (lower n) m = Some (VDict p) ->
  dget "subopcode" p = Some sop -> as_int sop = Some sz -> dget (lower sn) p = Some (VDict d) -> access_build (VDict m) = Ok s ->
  exists o q, s = (o ++ sz :: q)%list /\ opcode_bytes z o /\
    exists f rows d1 d', In (f, rows) fl /\ (f = "" /\ d1 = d \/ form_fields f d d1) /\ given d1 d' /\
      Forall (doc_built d' q) rows /\ (forall k, doc_len rows = Some k -> length q = k).
Proof.
  intros n z sn sz fl mm op p sop d s Hin Hop Hz Hp Hsop Hsz Hd Hb.
  destruct (doc_of_sub_spec _ _ _ _ _ (sub_row _ _ _ _ _ Hin)) as (t & cs & m & t1 & sw & cs1 & m1 & c & Hf & Hm & Hc & Hm1 & Hc1 & Hr & _ & Fo & D).
  rewrite (access_build_family _ _ _ _ _ _ Hf Hm Hop Hz) in Hb. unfold build_msg in Hb. cbn [build] in Hb.
  destruct (legal_opcode_bytes z (family_legal _ _ _ _ Hf Hm)) as (o & Ho).
  unfold dgetr at 1 in Hb. rewrite Hop in Hb. cbn [bind] in Hb. rewrite (int_key_as_int _ _ Hz), (member_by_value _ _ _ Hm) in Hb.
  rewrite Hp in Hb. cbn [bind as_intr as_int] in Hb. rewrite (opcode_bytes_build _ _ Ho) in Hb. cbn [bind] in Hb.
  rewrite (member_by_value _ _ _ Hm) in Hb. cbn [bind] in Hb. apply bind_ok in Hb as (q & Hq & Hb). injection Hb as <-.
  rewrite (build_case_of _ _ _ _ _ _ Hc) in Hq. cbn [build] in Hq. unfold dgetr at 1 in Hq. rewrite Hsop in Hq. cbn [bind] in Hq.
  rewrite (int_key_as_int _ _ Hsz), (member_by_value _ _ _ Hm1) in Hq. rewrite Hd in Hq. cbn [bind encode] in Hq.
  rewrite (enum_encode_int _ (VEnum sn sz) sz eq_refl) in Hq. rewrite (member_by_value _ _ _ Hm1) in Hq. cbn [bind as_intr as_int] in Hq.
  replace ((int_min 1 false <=? sz)%Z && (sz <=? int_max 1 false)%Z) with true in Hq by (unfold int_min, int_max; change (2 ^ (8 * Z.of_nat 1)) with 256; lia).
  cbn [bind] in Hq. apply bind_ok in Hq as (q1 & Hq1 & Hq).
  rewrite (build_case_of _ _ _ _ _ _ Hc1) in Hq1. exists o, q1. split.
  { injection Hq as <-. f_equal. cbn [to_le app]. f_equal. apply Z.mod_small. lia. }
  split; [exact Ho|]. exact (forms_build _ _ _ _ _ D Fo Hq1).
Qed.
Print Assumptions C52_sub_build.
Theorem C52_sub_parse : forall n z sn sz fl o q v, In (n, z, sn, sz, fl) sub_doc -> opcode_bytes z o -> bytes q ->
  access_parse (o ++ sz :: q)%list = Ok v ->
  exists u, v = VDict [("opcode", VEnum n z); (lower n, VDict [("subopcode", VEnum sn sz); (lower sn, VDict u)])] /\
    exists f rows, In (f, rows) fl /\ Forall (doc_parsed u q) rows.
Proof.
  intros n z sn sz fl o q v Hin Ho Hq H.
  destruct (doc_of_sub_spec _ _ _ _ _ (sub_row _ _ _ _ _ Hin)) as (t & cs & m & t1 & sw & cs1 & m1 & c & Hf & Hm & Hc & Hm1 & Hc1 & Hr & Hn & Fo & D).
  rewrite (access_parse_family _ _ _ _ _ _ Hf Hm Ho) in H. unfold parse_msg in H. apply bind_ok in H as ([v0 r0] & H & E). injection E as <-.
  cbn [parse] in H. rewrite (opcode_bytes_parse _ _ _ Ho) in H. cbn [bind] in H. rewrite (member_by_value _ _ _ Hm) in H. cbn [bind] in H.
  apply bind_ok in H as ([x r] & H & E). injection E as <- <-. rewrite (parse_case_of _ _ _ _ _ _ Hc) in H. cbn [parse] in H.
  change (sz :: q)%list with ([sz] ++ q)%list in H. rewrite (take_app' 1 [sz]) in H by reflexivity. cbn [bind] in H. cbn [of_le decode] in H.
  unfold enum_decode in H. cbn [as_int] in H. match type of H with context[by_value t1 ?x] => replace x with sz in H by (unfold int_of; cbn [of_le]; lia) end. rewrite (member_by_value _ _ _ Hm1) in H. cbn [bind] in H.
  apply bind_ok in H as ([y r'] & H & E). injection E as <- <-. rewrite (parse_case_of _ _ _ _ _ _ Hc1) in H.
  destruct (forms_parse _ _ _ _ _ _ D Fo Hq H) as (f & rows & u & Hrow & -> & F). exists u. split; [|eauto].
  cbn [dset]. destruct (String.eqb_spec (lower sn) "subopcode") as [e|_]; [now elim Hn|].
  destruct (String.eqb_spec (lower n) "opcode") as [e|_]; [|reflexivity]. exfalso. exact (access_no_opcode_name _ _ _ _ Hf Hm e).
Qed.
Print Assumptions C52_sub_parse.

(** which sub-messages the table covers *)
Definition structured_sub : list string :=
  ["GATEWAY_CONFIGURATION_SET"; "GATEWAY_CONFIGURATION_STATUS"; "EL_PROPERTY_SET"; "EL_PROPERTY_SET_UNACKNOWLEDGED"; "EL_PROPERTY_STATUS";
   "ELT_PROPERTY_SET"; "ELT_PROPERTY_SET_UNACKNOWLEDGED"; "ELT_PROPERTY_STATUS"; "PROPERTY_SET"; "PROPERTY_SET_UNACKNOWLEDGED"; "PROPERTY_STATUS"].
Fixpoint case_list (cs : cases) : list (string * Z * con) := match cs with KNil => [] | KCons n z c cs' => (n, z, c) :: case_list cs' end.
(** every message: its opcode, and the declaration of its parameters *)
Definition params : list (string * Z * con) :=
  flat_map (fun p => match snd p with CSwitchStruct _ _ _ _ cs => case_list cs | _ => [] end) access_table.
Theorem C52_sub_coverage : forall n z k kc t sw cs sn sz c, In (n, z, CSwitchStruct k kc t sw cs) params -> In (sn, sz, c) (case_list cs) ->
  n = "CONFIG_COMPOSITION_DATA_STATUS" \/ (exists fl, In (n, z, sn, sz, fl) sub_doc) \/ In sn structured_sub.
Proof.
  assert (H : forallb (fun p => match p with (n, z, CSwitchStruct k kc t sw cs) =>
                 forallb (fun q => String.eqb n "CONFIG_COMPOSITION_DATA_STATUS"
                   || existsb (fun r => match r with (n', z', sn', sz', _) => String.eqb n n' && Z.eqb z z' && String.eqb (fst (fst q)) sn' && Z.eqb (snd (fst q)) sz' end) sub_doc
                   || existsb (String.eqb (fst (fst q))) structured_sub) (case_list cs) | _ => true end) params = true) by (vm_compute; reflexivity).
  intros n z k kc t sw cs sn sz c H1 H2. rewrite forallb_forall in H. specialize (H _ H1). cbn beta iota in H. rewrite forallb_forall in H.
  specialize (H _ H2). cbn [fst snd] in H. apply orb_prop in H as [H|H]; [apply orb_prop in H as [H|H]|].
  - left. now apply String.eqb_eq.
  - right. left. apply existsb_exists in H as ([[[[n' z'] sn'] sz'] fl] & Hin & E). apply andb_prop in E as [E E4]. apply andb_prop in E as [E E3]. apply andb_prop in E as [E1 E2].
    apply String.eqb_eq in E1. apply Z.eqb_eq in E2. apply String.eqb_eq in E3. apply Z.eqb_eq in E4. subst. eauto.
  - right. right. apply existsb_exists in H as (n' & Hin & E). apply String.eqb_eq in E. now subst.
Qed.
Print Assumptions C52_sub_coverage.

(** *** C52: parts *)
Lemma parts_rows : map (fun p => (plain (fst p) && sized (fst p), doc_of (fst p))) parts_doc = map (fun p => (true, Some (snd p))) parts_doc.
Proof. vm_compute. reflexivity. Qed.
Lemma part_row c rows : In (c, rows) parts_doc -> plain c = true /\ sized c = true /\ doc_of c = Some rows.
Proof.
  intros H. pose proof parts_rows as R. revert R H. generalize parts_doc. intros l R H.
  pose proof (map_eq_in _ _ _ R _ H) as E. cbn [fst snd] in E. injection E as E1 E2. apply andb_prop in E1 as [E1 E3]. auto.
Qed.
Theorem C52_part_build : forall c rows ctx d s, In (c, rows) parts_doc -> build c ctx (VDict d) = Ok s ->
  (exists d', given d d' /\ Forall (doc_built d' s) rows) /\ (forall k, doc_len rows = Some k -> length s = k).
Proof.
  intros c rows ctx d s H Hb. destruct (part_row _ _ H) as (P & Z & D). split.
  - exists (filled c d). split; [now apply filled_given|]. eapply doc_build; eauto.
  - intros k Hk. eapply sized_len; eauto.
Qed.
Theorem C52_part_parse : forall c rows ctx s v r, In (c, rows) parts_doc -> bytes s -> parse c ctx s = Ok (v, r) ->
  exists u, v = VDict u /\ Forall (doc_parsed u s) rows.
Proof. intros c rows ctx s v r H B Hp. destruct (part_row _ _ H) as (_ & _ & D). eapply doc_parse; eauto. Qed.
Print Assumptions C52_part_build.
Print Assumptions C52_part_parse.

(** ** C45: reserved bits are sent as zero and ignored on reception *)
Theorem C45_sent_as_zero : forall n z fl m op d s, In (n, z, fl) documented ->
  dget "opcode" m = Some op -> as_int op = Some z -> dget (lower n) m = Some (VDict d) -> access_build (VDict m) = Ok s ->
  exists o p f rows, s = (o ++ p)%list /\ opcode_bytes z o /\ In (f, rows) fl /\
    forall be off k sh w, In (R be off k sh w) rows -> (off + k <= length p)%nat /\ getbits sh w (word be off k p) = 0%Z.
Proof.
  intros n z fl m op d s H1 H2 H3 H4 H5. destruct (C52_build _ _ _ _ _ _ _ H1 H2 H3 H4 H5) as (o & p & E & Ho & f & rows & d1 & d' & Hin & _ & _ & F & _).
  exists o, p, f, rows. split; [exact E|]. split; [exact Ho|]. split; [exact Hin|]. intros be off k sh w Hr. rewrite Forall_forall in F. exact (F _ Hr).
Qed.
Theorem C45_part_sent_as_zero : forall c rows ctx d s, In (c, rows) parts_doc -> build c ctx (VDict d) = Ok s ->
  forall be off k sh w, In (R be off k sh w) rows -> (off + k <= length s)%nat /\ getbits sh w (word be off k s) = 0%Z.
Proof.
  intros c rows ctx d s H Hb be off k sh w Hr. destruct (C52_part_build _ _ _ _ _ H Hb) as ((d' & _ & F) & _). rewrite Forall_forall in F. exact (F _ Hr).
Qed.
Lemma doc_ignored c rows ctx s s' v : doc_of c = Some rows -> bytes s -> bytes s' -> length s = length s' -> Forall (doc_same s s') rows ->
  forall r, parse c ctx s = Ok (v, r) -> exists r', parse c ctx s' = Ok (v, r').
Proof.
  intros D B B' L S r H. unfold doc_of in D. destruct (layout_of c) as [l|] eqn:E; [|discriminate].
  rewrite (parse_agree c ctx []) in H by (rewrite (layout_deps _ _ E); apply agree_nil).
  rewrite (parse_agree c ctx []) by (rewrite (layout_deps _ _ E); apply agree_nil).
  assert (K : parse_msg c s' = Ok v).
  { eapply layout_same; [exact E|exact B|exact B'|exact L| |unfold parse_msg; rewrite H; reflexivity].
    eapply docds_Forall'; [|exact D|exact S]. intros i j Hd Hs. eapply docd_same; eauto. }
  unfold parse_msg in K. apply bind_ok in K as ([v' r'] & K & Ev). injection Ev as ->. eauto.
Qed.
(** messages that differ in reserved bits only are read as the same object *)
Theorem C45_ignored : forall n z rows o p p' v, In (n, z, [("", rows)]) documented -> opcode_bytes z o -> bytes p -> bytes p' -> length p = length p' ->
  Forall (doc_same p p') rows -> access_parse (o ++ p)%list = Ok v -> access_parse (o ++ p')%list = Ok v.
Proof.
  intros n z rows o p p' v Hin Ho B B' L S H. destruct (documented_row _ _ _ Hin) as (t & cs & m & c & Hf & Hm & Hc & Fo & D).
  rewrite (access_parse_family _ _ _ _ _ _ Hf Hm Ho) in H. rewrite (access_parse_family _ _ _ _ _ _ Hf Hm Ho). unfold parse_msg in *. apply bind_ok in H as ([v0 r0] & H & E). injection E as <-.
  cbn [parse] in *. rewrite (opcode_bytes_parse _ _ _ Ho) in H. cbn [bind] in H. rewrite (member_by_value _ _ _ Hm) in H. cbn [bind] in H.
  rewrite (opcode_bytes_parse _ _ _ Ho). cbn [bind]. rewrite (member_by_value _ _ _ Hm). cbn [bind].
  apply bind_ok in H as ([x r] & H & E). injection E as <- <-. rewrite (parse_case_of _ _ _ _ _ _ Hc) in H. rewrite (parse_case_of _ _ _ _ _ _ Hc).
  assert (D' : doc_of c = Some rows).
  { destruct (docs_cases c) as [(l & ->) | (E1 & _)].
    - exfalso. cbn [docs_of] in D. destruct l as [|c l]; [discriminate|]. cbn [docs_alts] in D. cbn [forms_ok] in Fo. destruct c; try discriminate.
      destruct (doc_of c); [|discriminate]. destruct (docs_alts l); [|discriminate]. injection D as -> -> ->.
      assert (N : forallb (fun p => match snd p with CSelect (ACons (CNamed nm _) _) => negb (String.eqb nm "") | _ => true end) params = true) by (vm_compute; reflexivity).
      rewrite forallb_forall in N. specialize (N (m, z, CSelect (ACons (CNamed "" c) l))). cbn [snd] in N. rewrite String.eqb_refl in N.
      discriminate N. unfold params. apply in_flat_map. eexists. split; [exact Hf|]. cbn [snd].
      clear -Hc. induction cs as [|a b c' cs IH]; [discriminate|]. cbn [find_case case_list] in *. destruct (Z.eqb_spec z b); [|right; auto].
      injection Hc as -> ->. subst. now left.
    - rewrite E1 in D. destruct (doc_of c); [|discriminate]. injection D as ->. reflexivity. }
  destruct (doc_ignored _ _ _ _ _ _ D' B B' L S _ H) as (r' & ->). reflexivity.
Qed.
Theorem C45_part_ignored : forall c rows ctx s s' v r, In (c, rows) parts_doc -> bytes s -> bytes s' -> length s = length s' ->
  Forall (doc_same s s') rows -> parse c ctx s = Ok (v, r) -> exists r', parse c ctx s' = Ok (v, r').
Proof. intros c rows ctx s s' v r H B B' L S Hp. destruct (part_row _ _ H) as (_ & _ & D). exact (doc_ignored _ _ _ _ _ _ D B B' L S _ Hp). Qed.
Print Assumptions C45_sent_as_zero.
Print Assumptions C45_part_sent_as_zero.
Print Assumptions C45_ignored.
Print Assumptions C45_part_ignored.

(** every reserved bit of every message is in a table: [recs c] are the records
    (octet or bit structures) a declaration is made of *)
Definition own_pad_f (fs : fields) : bool :=
  (fix go fs := match fs with
   | FNil => false
   | FPad _ _ _ => true
   | FBits _ bs fs' => (fix gb bs := match bs with FPad _ _ _ => true | FNil => false | FCons _ _ bs' | FDefault _ _ _ bs' | FRebuild _ _ _ bs' | FStopIf _ bs' | FBits _ _ bs' => gb bs' end) bs || go fs'
   | FCons _ _ fs' | FDefault _ _ _ fs' | FRebuild _ _ _ fs' | FStopIf _ fs' => go fs'
   end) fs.
Definition own_pad (c : con) : bool :=
  match c with CStruct fs | CBitwise (CStruct fs) | CReversed _ (CBitwise (CStruct fs)) => own_pad_f fs | _ => false end.
Fixpoint recs (c : con) : list con :=
  match c with
  | CStruct fs => c :: recs_f fs
  | CBitwise c1 => match c1 with CStruct fs => c :: recs_f fs | _ => recs c1 end
  | CReversed _ c1 => match c1 with
                      | CBitwise c2 => match c2 with CStruct fs => c :: recs_f fs | _ => recs c2 end
                      | _ => recs c1
                      end
  | CPrefixedArray c1 | CArray _ c1 | CGreedyRange c1 | CBytewise c1 | CNamed _ c1 | CIfDefault _ c1 _ | CAdapt _ c1 => recs c1
  | CSelect l => recs_a l
  | CSwitch _ cs | CEnumSwitchStruct _ cs | CSensorData _ cs => recs_k cs
  | CSwitchStruct _ kc _ _ cs => recs kc ++ recs_k cs
  | CProp h _ cs | CSensorSetting h _ cs => recs h ++ recs_k cs
  | _ => []
  end%list
with recs_f (fs : fields) : list con :=
  match fs with
  | FNil => []
  | FCons _ c fs' | FDefault _ c _ fs' | FRebuild _ _ c fs' => recs c ++ recs_f fs'
  | FPad _ _ fs' | FStopIf _ fs' => recs_f fs'
  | FBits _ bs fs' => recs_f bs ++ recs_f fs'
  end%list
with recs_k (cs : cases) : list con := match cs with KNil => [] | KCons _ _ c cs' => recs c ++ recs_k cs' end%list
with recs_a (l : alts) : list con := match l with ANil => [] | ACons c l' => recs c ++ recs_a l' end%list.

Theorem C45_coverage : forall n z c r, In (n, z, c) params -> In r (recs c) -> own_pad r = true ->
  (exists rows, In (r, rows) parts_doc) \/ (r = c /\ exists rows, In (n, z, [("", rows)]) documented).
Proof.
  assert (H : forallb (fun p => match p with (n, z, c) =>
     let part r := negb (own_pad r) || existsb (fun q => con_eqb r (fst q)) parts_doc in
     match c with
     | CStruct fs => (negb (own_pad c) || existsb (fun d => match d with (n', z', [(f, _)]) => String.eqb n n' && Z.eqb z z' && String.eqb f "" | _ => false end) documented)
                     && forallb part (recs_f fs)
     | _ => forallb part (recs c)
     end end) params = true) by (vm_compute; reflexivity).
  assert (P : forall r, negb (own_pad r) || existsb (fun q => con_eqb r (fst q)) parts_doc = true -> own_pad r = true -> exists rows, In (r, rows) parts_doc).
  { intros r E Hr. rewrite Hr in E. cbn [negb orb] in E. apply existsb_exists in E as ([r' rows] & Hin & E). apply con_eqb_spec in E. cbn [fst] in E. subst r'. eauto. }
  intros n z c r Hin Hr Hp. rewrite forallb_forall in H. specialize (H _ Hin). cbn beta iota zeta in H.
  assert (Q : forallb (fun r => negb (own_pad r) || existsb (fun q => con_eqb r (fst q)) parts_doc) (recs c) = true -> exists rows, In (r, rows) parts_doc).
  { intros Q. rewrite forallb_forall in Q. exact (P r (Q r Hr) Hp). }
  destruct c; try (left; exact (Q H)). clear Q. apply andb_prop in H as [H1 H2]. cbn [recs] in Hr. destruct Hr as [<- | Hr].
  - right. split; [reflexivity|]. rewrite Hp in H1. cbn [negb orb] in H1. apply existsb_exists in H1 as ([[n' z'] fl] & Hd & E).
    destruct fl as [|[f rows] fl]; [discriminate|]. destruct fl; [|discriminate]. apply andb_prop in E as [E E3]. apply andb_prop in E as [E1 E2].
    apply String.eqb_eq in E1. apply Z.eqb_eq in E2. apply String.eqb_eq in E3. subst. eauto.
  - left. rewrite forallb_forall in H2. exact (P r (H2 r Hr) Hp).
Qed.
Print Assumptions C45_coverage.

(** ** Examples *)
(** CONFIG_APPKEY_ADD: net key index 0x123, app key index 0x456 are the octets 23 61 45, then the key *)
Example C52_ex_build : access_build (VDict [("opcode", VInt 0x00); ("config_appkey_add", VDict [("net_key_index", VInt 0x123); ("app_key_index", VInt 0x456); ("app_key", VBytes (repeat 7 16))])])
  = Ok (0x00 :: [0x23; 0x61; 0x45] ++ repeat 7 16)%Z%list /\
  exists fl, In ("CONFIG_APPKEY_ADD", 0x00%Z, fl) documented.
Proof. split; [vm_compute; reflexivity|]. eexists. now left. Qed.
(** the reserved high nibble of a key index is ignored *)
Example C45_ex : exists v, access_parse [0x80; 0x01; 0x23; 0x01] = Ok v /\ access_parse [0x80; 0x01; 0x23; 0xF1] = Ok v /\
  Forall (doc_same [0x23; 0x01] [0x23; 0xF1]) [R LE 0 2 12 4; B "net_key_index" LE 0 2 0 12 Num].
Proof. eexists. split; [vm_compute; reflexivity|]. split; [vm_compute; reflexivity|]. repeat constructor. Qed.
Example C45_ex_elt : exists r, parse elt_FunctionalExecutionResult [] [0xFD] = Ok r /\ parse elt_FunctionalExecutionResult [] [0x05] = Ok r.
Proof. eexists. split; vm_compute; reflexivity. Qed.

(** ** Known differences from the Mesh Model specification (refuted claims) *)
(** "CTL Delta UV is a signed 16-bit number": negative values are rejected *)
Theorem C52_delta_uv_signed_refuted : forall z, (-32768 <= z < 0)%Z ->
  exists e, access_build (VDict [("opcode", VInt 0x8269); ("light_ctl_setup_temperature_default_set",
    VDict [("ctl_lightness", VInt 1); ("ctl_temperature", VInt 1000); ("ctl_delta_uv", VInt z)])]) = Err e.
Proof. intros z Hz. destruct z as [|z|z]; try lia. eexists. vm_compute. reflexivity. Qed.
(** "bit 0 of the features of a heartbeat publication is the least significant one": it is the most significant bit of the first octet *)
Theorem C52_feature_order_refuted :
  access_build (VDict [("opcode", VInt 0x8039); ("config_hearbeat_publication_set",
    VDict [("destination", VInt 1); ("count", VInt 1); ("period", VInt 1); ("ttl", VInt 5); ("features", VList [VInt 0]); ("net_key_index", VInt 0)])])
  = Ok [0x80; 0x39; 1; 0; 1; 1; 5; 0x80; 0; 0; 0]%Z.
Proof. vm_compute. reflexivity. Qed.
Print Assumptions C52_delta_uv_signed_refuted.
Print Assumptions C52_feature_order_refuted.
