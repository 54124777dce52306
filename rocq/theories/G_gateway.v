(** GENERATED by tools/gen.py from /repo/bluetooth_mesh/messages/silvair/gateway_config_server.py; do not edit.
    The declarations of the module, in source order; every definition cites its lines. *)
From Verif Require Import PyVal Float64 Adapters Construct.

(* silvair/gateway_config_server.py:47-48 *)
Definition gateway_GatewayConfigServerOpcode : enum :=
  [("SILVAIR_GATEWAY"%string, 0xF03601)].

(* silvair/gateway_config_server.py:51-65 *)
Definition gateway_GatewayConfigServerSubOpcode : enum :=
  [("GATEWAY_CONFIGURATION_GET"%string, 0);
   ("GATEWAY_CONFIGURATION_SET"%string, 1);
   ("GATEWAY_PACKETS_GET"%string, 2);
   ("GATEWAY_PACKETS_CLEAR"%string, 3);
   ("MTU_SIZE_SET"%string, 4);
   ("ETHERNET_MAC_ADDRESS_SET"%string, 5);
   ("SERVER_ADDRESS_AND_PORT_NUMBER_SET"%string, 6);
   ("RECONNECT_INTERVAL_SET"%string, 7);
   ("DNS_IP_ADDRESS_SET"%string, 8);
   ("IP_ADDRESS_SET"%string, 9);
   ("GATEWAY_IP_ADDRESS_SET"%string, 10);
   ("NETMASK_SET"%string, 11);
   ("GATEWAY_CONFIGURATION_STATUS"%string, 12);
   ("GATEWAY_PACKETS_STATUS"%string, 13)].

(* silvair/gateway_config_server.py:68-74 *)
Definition gateway_ConnState : enum :=
  [("ETHERNET_IDLE"%string, 0);
   ("ETHERNET_CONFIGURING"%string, 1);
   ("ETHERNET_INITIALIZING"%string, 2);
   ("ETHERNET_CONNECTING"%string, 3);
   ("ETHERNET_HANDSHAKE"%string, 4);
   ("ETHERNET_CONNECTED"%string, 5)].

(* silvair/gateway_config_server.py:77-79 *)
Definition gateway_LinkStatus : enum :=
  [("LINK_DOWN"%string, 0);
   ("LINK_UP"%string, 1)].

(* silvair/gateway_config_server.py:82-98 *)
Definition gateway_LastError : enum :=
  [("ERROR_NO_ERROR"%string, 0);
   ("ERROR_EPERM"%string, 1);
   ("ERROR_ENODEV"%string, 2);
   ("ERROR_EADDRINUSE"%string, 3);
   ("ERROR_EPROTO"%string, 4);
   ("ERROR_RFU1"%string, 5);
   ("ERROR_RFU2"%string, 6);
   ("ERROR_RFU3"%string, 7);
   ("ERROR_RFU4"%string, 8);
   ("ERROR_RFU5"%string, 9);
   ("ERROR_RFU6"%string, 10);
   ("ERROR_RFU7"%string, 11);
   ("ERROR_RFU8"%string, 12);
   ("ERROR_RFU9"%string, 13);
   ("ERROR_RFU10"%string, 14);
   ("ERROR_UNKNOWN"%string, 15)].

(* silvair/gateway_config_server.py:101-104 *)
Definition gateway_DhcpFlag : enum :=
  [("DHCP_DISABLED"%string, 0);
   ("DHCP_ENABLED_STATIC_DNS"%string, 1);
   ("DHCP_ENABLED_AUTO_DNS"%string, 2)].

(* silvair/gateway_config_server.py:107-125 *)
Definition gateway_StatusCode : enum :=
  [("STATUS_SUCCESS"%string, 0);
   ("STATUS_INVALID_ADDRESS"%string, 1);
   ("STATUS_INVALID_MODEL"%string, 2);
   ("STATUS_INVALID_APPKEY_IDX"%string, 3);
   ("STATUS_INVALID_NETKEY_IDX"%string, 4);
   ("STATUS_INSUFF_RESOURCES"%string, 5);
   ("STATUS_KEY_INDEX_ALREADY_STORED"%string, 6);
   ("STATUS_INVALID_PUBLISH_PARAMS"%string, 7);
   ("STATUS_NOT_SUBSCRIBE_MODEL"%string, 8);
   ("STATUS_STORAGE_FAILURE"%string, 9);
   ("STATUS_FEATURE_NOT_SUPPORTED"%string, 10);
   ("STATUS_CANNOT_UPDATE"%string, 11);
   ("STATUS_CANNOT_REMOVE"%string, 12);
   ("STATUS_CANNOT_BIND"%string, 13);
   ("STATUS_TEMP_UNABLE_TO_CHANGE_STATE"%string, 14);
   ("STATUS_CANNOT_SET"%string, 15);
   ("STATUS_UNSPECIFIED_ERROR"%string, 16);
   ("STATUS_INVALID_BINDING"%string, 17)].

(* silvair/gateway_config_server.py:130-132 *)
Definition gateway_ConfigurationSetMtu : con :=
  (CStruct (FCons "mtu_size" Int16ul
    FNil)).

(* silvair/gateway_config_server.py:134-136 *)
Definition gateway_ConfigurationSetMacAddr : con :=
  (CStruct (FCons "mac_address" (CAdapt AMac (CBytes 6))
    FNil)).

(* silvair/gateway_config_server.py:138-142 *)
Definition gateway_ConfigurationSetServerAddrAndPortNr : con :=
  (CStruct (FCons "server_port_number" Int16ul
    (FCons "server_address_length" Int8ul
    (FCons "server_address" (CPaddedString (EGet "server_address_length"))
    FNil)))).

(* silvair/gateway_config_server.py:144-146 *)
Definition gateway_ConfigurationSetReconnectInterval : con :=
  (CStruct (FCons "reconnect_interval" Int16ul
    FNil)).

(* silvair/gateway_config_server.py:148-150 *)
Definition gateway_ConfigurationSetDnsIpAddr : con :=
  (CStruct (FCons "dns_ip_address" (CAdapt AIp (CBytes 4))
    FNil)).

(* silvair/gateway_config_server.py:152-154 *)
Definition gateway_ConfigurationSetIpAddr : con :=
  (CStruct (FCons "ip_address" (CAdapt AIp (CBytes 4))
    FNil)).

(* silvair/gateway_config_server.py:156-158 *)
Definition gateway_ConfigurationSetGatewayIpAddr : con :=
  (CStruct (FCons "gateway_ip_address" (CAdapt AIp (CBytes 4))
    FNil)).

(* silvair/gateway_config_server.py:160-162 *)
Definition gateway_ConfigurationSetNetmask : con :=
  (CStruct (FCons "netmask" Int8ul
    FNil)).

(* silvair/gateway_config_server.py:164-171 *)
Definition gateway_ConfigurationSetWithoutOptionalAutoDhcpEnabled : con :=
  (CStruct (FCons "mtu_size" Int16ul
    (FCons "mac_address" (CAdapt AMac (CBytes 6))
    (FCons "server_port_number" Int16ul
    (FCons "reconnect_interval" Int16ul
    (FCons "server_address_length" Int8ul
    (FCons "server_address" (CPaddedString (EGet "server_address_length"))
    FNil))))))).

(* silvair/gateway_config_server.py:173-176 *)
Definition gateway_ConfigurationSetWithOptionalDhcpEnabledWithStaticDns : con :=
  (CStruct (fapp (struct_fields gateway_ConfigurationSetWithoutOptionalAutoDhcpEnabled)
    (FCons "dns_ip_address" (CAdapt AIp (CBytes 4))
    FNil))).

(* silvair/gateway_config_server.py:178-183 *)
Definition gateway_ConfigurationSetWithOptionalDhcpDisabled : con :=
  (CStruct (fapp (struct_fields gateway_ConfigurationSetWithOptionalDhcpEnabledWithStaticDns)
    (FCons "ip_address" (CAdapt AIp (CBytes 4))
    (FCons "gateway_ip_address" (CAdapt AIp (CBytes 4))
    (FCons "netmask" Int8ul
    FNil))))).

(* silvair/gateway_config_server.py:185-189 *)
Definition gateway_ConfigurationSet : con :=
  (CSelect (ACons gateway_ConfigurationSetWithOptionalDhcpDisabled
    (ACons gateway_ConfigurationSetWithOptionalDhcpEnabledWithStaticDns
    (ACons gateway_ConfigurationSetWithoutOptionalAutoDhcpEnabled
    ANil)))).

(* silvair/gateway_config_server.py:191-196 *)
Definition gateway_ConfigurationStatus : con :=
  (CStruct (FCons "chip_revision_id" Int8ul
    (fapp (struct_fields gateway_ConfigurationSetWithOptionalDhcpDisabled)
    (FCons "flags" (CAdapt (AEnum gateway_DhcpFlag) Int8ul)
    (FCons "status_code" (CAdapt (AEnum gateway_StatusCode) Int8ul)
    FNil))))).

(* silvair/gateway_config_server.py:198-202 *)
Definition gateway_ConnectionState : con :=
  (CBitwise (CStruct (FCons "conn_state" (CAdapt (AEnum gateway_ConnState) (CBits 3 false))
    (FCons "link_status" (CAdapt (AEnum gateway_LinkStatus) (CBits 1 false))
    (FCons "last_error" (CAdapt (AEnum gateway_LastError) (CBits 4 false))
    FNil))))).

(* silvair/gateway_config_server.py:205-210 *)
Definition gateway_PacketsStatus : con :=
  (CStruct (FCons "total_eth_rx_errors" Int16ul
    (FCons "total_eth_tx_errors" Int16ul
    (FCons "bandwidth" Int16ul
    (FCons "connection_state" gateway_ConnectionState
    FNil))))).

(* silvair/gateway_config_server.py:212-230 *)
Definition gateway_GatewayConfigParams : con :=
  (CSwitchStruct "subopcode" (CAdapt (AEnum gateway_GatewayConfigServerSubOpcode) Int8ul) gateway_GatewayConfigServerSubOpcode "payload"
    (KCons "GATEWAY_CONFIGURATION_SET" 1 gateway_ConfigurationSet
    (KCons "MTU_SIZE_SET" 4 gateway_ConfigurationSetMtu
    (KCons "ETHERNET_MAC_ADDRESS_SET" 5 gateway_ConfigurationSetMacAddr
    (KCons "SERVER_ADDRESS_AND_PORT_NUMBER_SET" 6 gateway_ConfigurationSetServerAddrAndPortNr
    (KCons "RECONNECT_INTERVAL_SET" 7 gateway_ConfigurationSetReconnectInterval
    (KCons "DNS_IP_ADDRESS_SET" 8 gateway_ConfigurationSetDnsIpAddr
    (KCons "IP_ADDRESS_SET" 9 gateway_ConfigurationSetIpAddr
    (KCons "GATEWAY_IP_ADDRESS_SET" 10 gateway_ConfigurationSetGatewayIpAddr
    (KCons "NETMASK_SET" 11 gateway_ConfigurationSetNetmask
    (KCons "GATEWAY_CONFIGURATION_STATUS" 12 gateway_ConfigurationStatus
    (KCons "GATEWAY_PACKETS_STATUS" 13 gateway_PacketsStatus
    KNil)))))))))))).

(* silvair/gateway_config_server.py:232-240 *)
Definition gateway_GatewayConfigMessage : con :=
  (CSwitchStruct "opcode" (COpcode gateway_GatewayConfigServerOpcode) gateway_GatewayConfigServerOpcode "params"
    (KCons "SILVAIR_GATEWAY" 0xF03601 gateway_GatewayConfigParams
    KNil)).
