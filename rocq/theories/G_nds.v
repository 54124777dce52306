(** GENERATED by tools/gen.py from /repo/bluetooth_mesh/messages/silvair/network_diagnostic_server.py; do not edit.
    The declarations of the module, in source order; every definition cites its lines. *)
From Verif Require Import PyVal Float64 Adapters Construct G_generics G_config.

(* silvair/network_diagnostic_server.py:38-39 *)
Definition nds_NetworkDiagnosticServerOpcode : enum :=
  [("SILVAIR_NDS"%string, 0xFC3601)].

(* silvair/network_diagnostic_server.py:42-49 *)
Definition nds_NetworkDiagnosticServerSubOpcode : enum :=
  [("SUBSCRIPTION_GET"%string, 0);
   ("SUBSCRIPTION_SET"%string, 1);
   ("SUBSCRIPTION_SET_UNACKNOWLEDGED"%string, 2);
   ("SUBSCRIPTION_STATUS"%string, 3);
   ("RADIO_STAT_GET"%string, 4);
   ("RADIO_STAT_SET"%string, 5);
   ("RADIO_STAT_STATUS"%string, 6)].

(* silvair/network_diagnostic_server.py:52-53 *)
Definition nds_NetworkDiagnosticSetupServerOpcode : enum :=
  [("SILVAIR_NDS_SETUP"%string, 0xFD3601)].

(* silvair/network_diagnostic_server.py:56-59 *)
Definition nds_NetworkDiagnosticSetupServerSubOpcode : enum :=
  [("PUBLICATION_GET"%string, 0);
   ("PUBLICATION_SET"%string, 1);
   ("PUBLICATION_STATUS"%string, 2)].

(* silvair/network_diagnostic_server.py:63 *)
Definition nds_NetworkDiagnosticSetupServerPublicationGet : con :=
  (CStruct FNil).

(* silvair/network_diagnostic_server.py:65-70 *)
Definition nds_RegistryRecord : con :=
  (CStruct (FCons "source" config_UnicastUnassignedAddress
    (FCons "count" Int16ul
    (FCons "min_hops" config_ConfigHeartbeatHops
    (FCons "max_hops" config_ConfigHeartbeatHops
    FNil))))).

(* silvair/network_diagnostic_server.py:72-78 *)
Definition nds_NetworkDiagnosticSetupServerPublicationSetMinimal : con :=
  (CStruct (FCons "destination" config_UnicastUnassignedGroupAddress
    (FCons "count" Int16ul
    (FCons "period" generics_TransitionTime
    (FCons "ttl" config_TTL
    (FCons "net_key_index" config_Int12ul
    FNil)))))).

(* silvair/network_diagnostic_server.py:80-83 *)
Definition nds_NetworkDiagnosticSetupServerPublicationSetOptional : con :=
  (CStruct (fapp (struct_fields nds_NetworkDiagnosticSetupServerPublicationSetMinimal)
    (FCons "features" config_ConfigHeartbeatPublicationFeatures
    FNil))).

(* silvair/network_diagnostic_server.py:85-88 *)
Definition nds_NetworkDiagnosticSetupServerPublicationSet : con :=
  (CSelect (ACons (CNamed "optional" nds_NetworkDiagnosticSetupServerPublicationSetOptional)
    (ACons (CNamed "minimal" nds_NetworkDiagnosticSetupServerPublicationSetMinimal)
    ANil))).

(* silvair/network_diagnostic_server.py:90 *)
Definition nds_NetworkDiagnosticSetupServerPublicationStatus : con :=
  nds_NetworkDiagnosticSetupServerPublicationSet.

(* silvair/network_diagnostic_server.py:92 *)
Definition nds_NetworkDiagnosticServerSubscriptionGet : con :=
  (CStruct FNil).

(* silvair/network_diagnostic_server.py:94-97 *)
Definition nds_NetworkDiagnosticServerSubscriptionSet : con :=
  (CStruct (FCons "destination" config_UnicastUnassignedGroupAddress
    (FCons "period" Int16ul
    FNil))).

(* silvair/network_diagnostic_server.py:99-104 *)
Definition nds_NetworkDiagnosticServerSubscriptionStatus : con :=
  (CStruct (FCons "destination" config_UnicastUnassignedGroupAddress
    (FCons "period" Int16ul
    (FCons "max_record_count" Int8ul
    (FCons "record" (CGreedyRange nds_RegistryRecord)
    FNil))))).

(* silvair/network_diagnostic_server.py:106 *)
Definition nds_NetworkDiagnosticServerRadioStatGet : con :=
  (CStruct FNil).

(* silvair/network_diagnostic_server.py:108-120 *)
Definition nds_NetworkDiagnosticServerParams : con :=
  (CSwitchStruct "subopcode" (CAdapt (AEnum nds_NetworkDiagnosticServerSubOpcode) Int8ul) nds_NetworkDiagnosticServerSubOpcode "payload"
    (KCons "SUBSCRIPTION_GET" 0 nds_NetworkDiagnosticServerSubscriptionGet
    (KCons "SUBSCRIPTION_SET" 1 nds_NetworkDiagnosticServerSubscriptionSet
    (KCons "SUBSCRIPTION_SET_UNACKNOWLEDGED" 2 nds_NetworkDiagnosticServerSubscriptionSet
    (KCons "SUBSCRIPTION_STATUS" 3 nds_NetworkDiagnosticServerSubscriptionStatus
    (KCons "RADIO_STAT_GET" 4 nds_NetworkDiagnosticServerRadioStatGet
    KNil)))))).

(* silvair/network_diagnostic_server.py:122-132 *)
Definition nds_NetworkDiagnosticSetupServerParams : con :=
  (CSwitchStruct "subopcode" (CAdapt (AEnum nds_NetworkDiagnosticSetupServerSubOpcode) Int8ul) nds_NetworkDiagnosticSetupServerSubOpcode "payload"
    (KCons "PUBLICATION_GET" 0 nds_NetworkDiagnosticSetupServerPublicationGet
    (KCons "PUBLICATION_SET" 1 nds_NetworkDiagnosticSetupServerPublicationSet
    (KCons "PUBLICATION_STATUS" 2 nds_NetworkDiagnosticSetupServerPublicationStatus
    KNil)))).

(* silvair/network_diagnostic_server.py:134-142 *)
Definition nds_NetworkDiagnosticServerMessage : con :=
  (CSwitchStruct "opcode" (COpcode nds_NetworkDiagnosticServerOpcode) nds_NetworkDiagnosticServerOpcode "params"
    (KCons "SILVAIR_NDS" 0xFC3601 nds_NetworkDiagnosticServerParams
    KNil)).

(* silvair/network_diagnostic_server.py:144-152 *)
Definition nds_NetworkDiagnosticSetupServerMessage : con :=
  (CSwitchStruct "opcode" (COpcode nds_NetworkDiagnosticSetupServerOpcode) nds_NetworkDiagnosticSetupServerOpcode "params"
    (KCons "SILVAIR_NDS_SETUP" 0xFD3601 nds_NetworkDiagnosticSetupServerParams
    KNil)).
