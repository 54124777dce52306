(** * G_capnp: the declarations the schema generator walks.  Generated by tools/gen_capnp.py from /repo; do not edit.
    Each definition is the construct that the module-level variable of that name holds (generator.py:34-52). *)
From Verif Require Import PyVal Names Capnp.
Open Scope list_scope.

(* construct *)
Definition k_Int32ub : gcon :=
  (GLeaf (Some "Int32ub"%string) (Some "UInt32"%string)).

(* config.py:947-950 *)
Definition k_ConfigAppKeyUpdate : gcon :=
  (GStruct (Some "ConfigAppKeyUpdate"%string) [(GRenamed "_"%string (GWrap None (GWrap None (GWrap None (GStruct None [(GRenamed "app_key_index"%string (GLeaf None (Some "UInt16"%string))); (GRenamed "net_key_index"%string (GLeaf None (Some "UInt16"%string)))]))))); (GRenamed "app_key_index"%string (GWrap None (GRenamed "app_key_index"%string (GLeaf None (Some "UInt16"%string))))); (GRenamed "net_key_index"%string (GWrap None (GRenamed "net_key_index"%string (GLeaf None (Some "UInt16"%string))))); (GRenamed "app_key"%string (GLeaf None (Some "Data"%string)))]).

(* config.py:954-956 *)
Definition k_ConfigAppKeyDelete : gcon :=
  (GStruct (Some "ConfigAppKeyDelete"%string) [(GRenamed "_"%string (GWrap None (GWrap None (GWrap None (GStruct None [(GRenamed "app_key_index"%string (GLeaf None (Some "UInt16"%string))); (GRenamed "net_key_index"%string (GLeaf None (Some "UInt16"%string)))]))))); (GRenamed "app_key_index"%string (GWrap None (GRenamed "app_key_index"%string (GLeaf None (Some "UInt16"%string))))); (GRenamed "net_key_index"%string (GWrap None (GRenamed "net_key_index"%string (GLeaf None (Some "UInt16"%string)))))]).

(* config.py:963-965 *)
Definition k_ConfigAppKeyGet : gcon :=
  (GStruct (Some "ConfigAppKeyGet"%string) [(GRenamed "_"%string (GWrap None (GWrap None (GWrap None (GStruct None [(GWrap None GSkip); (GRenamed "net_key_index"%string (GLeaf None (Some "UInt16"%string)))]))))); (GRenamed "net_key_index"%string (GWrap None (GRenamed "net_key_index"%string (GLeaf None (Some "UInt16"%string)))))]).

(* construct *)
Definition k_Int8ul : gcon :=
  (GLeaf (Some "Int8ul"%string) (Some "UInt8"%string)).

(* config.py:419 *)
Definition k_StatusCodeAdapter : gcon :=
  (GWrap (Some "StatusCodeAdapter"%string) k_Int8ul).

(* config.py:713-730 *)
Definition k_KeyIndices : gcon :=
  (GWrap (Some "KeyIndices"%string) (GMany (GLeaf None (Some "UInt16"%string)))).

(* config.py:967-971 *)
Definition k_ConfigAppKeyList : gcon :=
  (GStruct (Some "ConfigAppKeyList"%string) [(GRenamed "status"%string k_StatusCodeAdapter); (GRenamed "_"%string (GWrap None (GWrap None (GWrap None (GStruct None [(GWrap None GSkip); (GRenamed "net_key_index"%string (GLeaf None (Some "UInt16"%string)))]))))); (GRenamed "net_key_index"%string (GWrap None (GRenamed "net_key_index"%string (GLeaf None (Some "UInt16"%string))))); (GRenamed "app_key_indices"%string k_KeyIndices)]).

(* config.py:958-961 *)
Definition k_ConfigAppKeyStatus : gcon :=
  (GStruct (Some "ConfigAppKeyStatus"%string) [(GRenamed "status"%string k_StatusCodeAdapter); (GRenamed "_"%string (GWrap None (GWrap None (GWrap None (GStruct None [(GRenamed "app_key_index"%string (GLeaf None (Some "UInt16"%string))); (GRenamed "net_key_index"%string (GLeaf None (Some "UInt16"%string)))]))))); (GRenamed "app_key_index"%string (GWrap None (GRenamed "app_key_index"%string (GLeaf None (Some "UInt16"%string))))); (GRenamed "net_key_index"%string (GWrap None (GRenamed "net_key_index"%string (GLeaf None (Some "UInt16"%string)))))]).

(* config.py:767 *)
Definition k_ConfigBeaconGet : gcon :=
  (GStruct (Some "ConfigBeaconGet"%string) []).

(* config.py:409 *)
Definition k_SecureNetworkBeaconAdapter : gcon :=
  (GWrap (Some "SecureNetworkBeaconAdapter"%string) k_Int8ul).

(* config.py:769-771 *)
Definition k_ConfigBeaconStatus : gcon :=
  (GStruct (Some "ConfigBeaconStatus"%string) [(GRenamed "beacon"%string k_SecureNetworkBeaconAdapter)]).

(* config.py:783 *)
Definition k_CompositionDataPageAdapter : gcon :=
  (GWrap (Some "CompositionDataPageAdapter"%string) k_Int8ul).

(* config.py:785-787 *)
Definition k_ConfigCompositionDataGet : gcon :=
  (GStruct (Some "ConfigCompositionDataGet"%string) [(GRenamed "page"%string k_CompositionDataPageAdapter)]).

(* construct *)
Definition k_Int16ul : gcon :=
  (GLeaf (Some "Int16ul"%string) (Some "UInt16"%string)).

(* config.py:415 *)
Definition k_GATTNamespaceDescriptorAdapter : gcon :=
  (GWrap (Some "GATTNamespaceDescriptorAdapter"%string) k_Int16ul).

(* config.py:428-430 *)
Definition k_SIGModelId : gcon :=
  (GStruct (Some "SIGModelId"%string) [(GRenamed "model_id"%string k_Int16ul)]).

(* config.py:432-435 *)
Definition k_VendorModelId : gcon :=
  (GStruct (Some "VendorModelId"%string) [(GRenamed "vendor_id"%string k_Int16ul); (GRenamed "model_id"%string k_Int16ul)]).

(* config.py:548-554 *)
Definition k_CompositionDataPage0Element : gcon :=
  (GStruct (Some "CompositionDataPage0Element"%string) [(GRenamed "location"%string k_GATTNamespaceDescriptorAdapter); (GRenamed "sig_number"%string (GWrap None k_Int8ul)); (GRenamed "vendor_number"%string (GWrap None k_Int8ul)); (GRenamed "sig_models"%string (GMany k_SIGModelId)); (GRenamed "vendor_models"%string (GMany k_VendorModelId))]).

(* config.py:556-563 *)
Definition k_CompositionDataPage0 : gcon :=
  (GStruct (Some "CompositionDataPage0"%string) [(GRenamed "cid"%string k_Int16ul); (GRenamed "pid"%string k_Int16ul); (GRenamed "vid"%string k_Int16ul); (GRenamed "crpl"%string k_Int16ul); (GRenamed "features"%string k_Int16ul); (GRenamed "elements"%string (GMany k_CompositionDataPage0Element))]).

(* config.py:570-573 *)
Definition k_ExtendedModelShortFormat : gcon :=
  (GWrap (Some "ExtendedModelShortFormat"%string) (GStruct None [(GRenamed "model_item_index"%string (GLeaf None (Some "UInt8"%string))); (GRenamed "element_offset"%string (GLeaf None (Some "Int8"%string)))])).

(* construct *)
Definition k_Int8sl : gcon :=
  (GLeaf (Some "Int8sl"%string) (Some "Int8"%string)).

(* config.py:565-568 *)
Definition k_ExtendedModelLongFormat : gcon :=
  (GStruct (Some "ExtendedModelLongFormat"%string) [(GRenamed "model_item_index"%string k_Int8ul); (GRenamed "element_offset"%string k_Int8sl)]).

(* config.py:581-593 *)
Definition k_ModelRelationItem : gcon :=
  (GWrap (Some "ModelRelationItem"%string) (GStruct None [(GRenamed "extended_items_count"%string (GWrap None (GLeaf None (Some "UInt8"%string)))); (GRenamed "format"%string (GWrap None (GLeaf None (Some "UInt8"%string)))); (GRenamed "corresponding_present"%string (GLeaf None (Some "UInt8"%string))); (GRenamed "corresponding_id"%string (GIf (GLeaf None (Some "UInt8"%string)))); (GRenamed "extended_models_items"%string (GWrap None (GWrap None (GSwitch None [("SHORT"%string, (GMany k_ExtendedModelShortFormat)); ("LONG"%string, (GMany k_ExtendedModelLongFormat))] None))))])).

(* config.py:595-600 *)
Definition k_CompositionDataPage1Element : gcon :=
  (GStruct (Some "CompositionDataPage1Element"%string) [(GRenamed "number_s"%string (GWrap None k_Int8ul)); (GRenamed "number_v"%string (GWrap None k_Int8ul)); (GRenamed "sig_models"%string (GMany k_ModelRelationItem)); (GRenamed "vendor_models"%string (GMany k_ModelRelationItem))]).

(* config.py:602-604 *)
Definition k_CompositionDataPage1 : gcon :=
  (GStruct (Some "CompositionDataPage1"%string) [(GRenamed "element"%string (GMany k_CompositionDataPage1Element))]).

(* config.py:606-610 *)
Definition k_Version : gcon :=
  (GStruct (Some "Version"%string) [(GRenamed "version_x"%string k_Int8ul); (GRenamed "version_y"%string k_Int8ul); (GRenamed "version_z"%string k_Int8ul)]).

(* config.py:612-619 *)
Definition k_MeshProfileEntry : gcon :=
  (GStruct (Some "MeshProfileEntry"%string) [(GRenamed "mesh_profile_identifier"%string k_Int16ul); (GRenamed "version"%string k_Version); (GRenamed "num_element_offsets"%string (GWrap None k_Int8ul)); (GRenamed "element_offset_list"%string (GMany k_Int8ul)); (GRenamed "additional_data_len"%string (GWrap None k_Int16ul)); (GRenamed "additional_data"%string (GMany k_Int8ul))]).

(* config.py:621-623 *)
Definition k_CompositionDataPage2 : gcon :=
  (GStruct (Some "CompositionDataPage2"%string) [(GRenamed "record_list"%string (GMany k_MeshProfileEntry))]).

(* construct *)
Definition k_GreedyBytes : gcon :=
  (GLeaf (Some "GreedyBytes"%string) (Some "Data"%string)).

(* config.py:789-797 *)
Definition k_ConfigCompositionData : gcon :=
  (GSwitch (Some "ConfigCompositionData"%string) [("ZERO"%string, k_CompositionDataPage0); ("FIRST"%string, k_CompositionDataPage1); ("SECOND"%string, k_CompositionDataPage2); ("TWO_HUNDRED_AND_FIFTY_FIFTH"%string, k_GreedyBytes)] None).

(* config.py:799-802 *)
Definition k_ConfigCompositionDataStatus : gcon :=
  (GWrap (Some "ConfigCompositionDataStatus"%string) (GStruct None [(GRenamed "page"%string k_CompositionDataPageAdapter); k_ConfigCompositionData])).

(* config.py:804 *)
Definition k_ConfigDefaultTTLGet : gcon :=
  (GStruct (Some "ConfigDefaultTTLGet"%string) []).

(* config.py:425 *)
Definition k_TTL : gcon :=
  (GWrap (Some "TTL"%string) k_Int8ul).

(* config.py:806-808 *)
Definition k_ConfigDefaultTTLStatus : gcon :=
  (GStruct (Some "ConfigDefaultTTLStatus"%string) [(GRenamed "ttl"%string k_TTL)]).

(* config.py:1026 *)
Definition k_ConfigFriendGet : gcon :=
  (GStruct (Some "ConfigFriendGet"%string) []).

(* config.py:423 *)
Definition k_FriendAdapter : gcon :=
  (GWrap (Some "FriendAdapter"%string) k_Int8ul).

(* config.py:1028-1030 *)
Definition k_ConfigFriendStatus : gcon :=
  (GStruct (Some "ConfigFriendStatus"%string) [(GRenamed "friend"%string k_FriendAdapter)]).

(* config.py:812 *)
Definition k_ConfigGATTProxyGet : gcon :=
  (GStruct (Some "ConfigGATTProxyGet"%string) []).

(* config.py:411 *)
Definition k_GATTProxyAdapter : gcon :=
  (GWrap (Some "GATTProxyAdapter"%string) k_Int8ul).

(* config.py:814-816 *)
Definition k_ConfigGATTProxyStatus : gcon :=
  (GStruct (Some "ConfigGATTProxyStatus"%string) [(GRenamed "GATT_proxy"%string k_GATTProxyAdapter)]).

(* config.py:1053 *)
Definition k_ConfigHeartbeatPublicationGet : gcon :=
  (GStruct (Some "ConfigHeartbeatPublicationGet"%string) []).

(* config.py:536-541 *)
Definition k_UnicastUnassignedGroupAddress : gcon :=
  (GWrap (Some "UnicastUnassignedGroupAddress"%string) k_Int16ul).

(* construct *)
Definition k_Bit : gcon :=
  (GLeaf (Some "Bit"%string) (Some "UInt8"%string)).

(* config.py:1055-1062 *)
Definition k_ConfigHeartbeatPublicationSet : gcon :=
  (GStruct (Some "ConfigHeartbeatPublicationSet"%string) [(GRenamed "destination"%string k_UnicastUnassignedGroupAddress); (GRenamed "count"%string (GWrap None k_Int8ul)); (GRenamed "period"%string (GWrap None k_Int8ul)); (GRenamed "ttl"%string k_TTL); (GRenamed "features"%string (GWrap None (GWrap None (GMany k_Bit)))); (GRenamed "_"%string (GWrap None (GWrap None (GWrap None (GStruct None [(GWrap None GSkip); (GRenamed "net_key_index"%string (GLeaf None (Some "UInt16"%string)))]))))); (GRenamed "net_key_index"%string (GWrap None (GRenamed "net_key_index"%string (GLeaf None (Some "UInt16"%string)))))]).

(* config.py:1064-1067 *)
Definition k_ConfigHeartbeatPublicationStatus : gcon :=
  (GStruct (Some "ConfigHeartbeatPublicationStatus"%string) [(GRenamed "status"%string k_StatusCodeAdapter); (GRenamed "destination"%string k_UnicastUnassignedGroupAddress); (GRenamed "count"%string (GWrap None k_Int8ul)); (GRenamed "period"%string (GWrap None k_Int8ul)); (GRenamed "ttl"%string k_TTL); (GRenamed "features"%string (GWrap None (GWrap None (GMany k_Bit)))); (GRenamed "_"%string (GWrap None (GWrap None (GWrap None (GStruct None [(GWrap None GSkip); (GRenamed "net_key_index"%string (GLeaf None (Some "UInt16"%string)))]))))); (GRenamed "net_key_index"%string (GWrap None (GRenamed "net_key_index"%string (GLeaf None (Some "UInt16"%string)))))]).

(* config.py:1069 *)
Definition k_ConfigHeartbeatSubscriptionGet : gcon :=
  (GStruct (Some "ConfigHeartbeatSubscriptionGet"%string) []).

(* config.py:530-534 *)
Definition k_UnicastUnassignedAddress : gcon :=
  (GWrap (Some "UnicastUnassignedAddress"%string) k_Int16ul).

(* config.py:1071-1075 *)
Definition k_ConfigHeartbeatSubscriptionSet : gcon :=
  (GStruct (Some "ConfigHeartbeatSubscriptionSet"%string) [(GRenamed "source"%string k_UnicastUnassignedAddress); (GRenamed "destination"%string k_UnicastUnassignedGroupAddress); (GRenamed "period_log"%string (GWrap None k_Int8ul))]).

(* config.py:1077-1083 *)
Definition k_ConfigHeartbeatSubscriptionStatus : gcon :=
  (GStruct (Some "ConfigHeartbeatSubscriptionStatus"%string) [(GRenamed "status"%string k_StatusCodeAdapter); (GRenamed "source"%string k_UnicastUnassignedAddress); (GRenamed "destination"%string k_UnicastUnassignedGroupAddress); (GRenamed "period_log"%string (GWrap None k_Int8ul)); (GRenamed "count"%string (GWrap None k_Int8ul)); (GRenamed "min_hops"%string (GWrap None k_Int8ul)); (GRenamed "max_hops"%string (GWrap None k_Int8ul))]).

(* config.py:1034-1036 *)
Definition k_ConfigKeyRefreshPhaseGet : gcon :=
  (GStruct (Some "ConfigKeyRefreshPhaseGet"%string) [(GRenamed "_"%string (GWrap None (GWrap None (GWrap None (GStruct None [(GWrap None GSkip); (GRenamed "net_key_index"%string (GLeaf None (Some "UInt16"%string)))]))))); (GRenamed "net_key_index"%string (GWrap None (GRenamed "net_key_index"%string (GLeaf None (Some "UInt16"%string)))))]).

(* config.py:1038-1041 *)
Definition k_ConfigKeyRefreshPhaseSet : gcon :=
  (GStruct (Some "ConfigKeyRefreshPhaseSet"%string) [(GRenamed "_"%string (GWrap None (GWrap None (GWrap None (GStruct None [(GWrap None GSkip); (GRenamed "net_key_index"%string (GLeaf None (Some "UInt16"%string)))]))))); (GRenamed "net_key_index"%string (GWrap None (GRenamed "net_key_index"%string (GLeaf None (Some "UInt16"%string))))); (GRenamed "transition"%string (GWrap None k_Int8ul))]).

(* config.py:1043-1047 *)
Definition k_ConfigKeyRefreshPhaseStatus : gcon :=
  (GStruct (Some "ConfigKeyRefreshPhaseStatus"%string) [(GRenamed "status"%string k_StatusCodeAdapter); (GRenamed "_"%string (GWrap None (GWrap None (GWrap None (GStruct None [(GWrap None GSkip); (GRenamed "net_key_index"%string (GLeaf None (Some "UInt16"%string)))]))))); (GRenamed "net_key_index"%string (GWrap None (GRenamed "net_key_index"%string (GLeaf None (Some "UInt16"%string))))); (GRenamed "phase"%string (GWrap None k_Int8ul))]).

(* config.py:1085-1087 *)
Definition k_ConfigLowPowerNodePollTimeoutGet : gcon :=
  (GStruct (Some "ConfigLowPowerNodePollTimeoutGet"%string) [(GRenamed "lpn_address"%string k_Int16ul)]).

(* construct *)
Definition k_Int24ul : gcon :=
  (GLeaf (Some "Int24ul"%string) (Some "UInt32"%string)).

(* config.py:1089-1092 *)
Definition k_ConfigLowPowerNodePollTimeoutStatus : gcon :=
  (GStruct (Some "ConfigLowPowerNodePollTimeoutStatus"%string) [(GRenamed "lpn_address"%string k_Int16ul); (GRenamed "poll_timeout"%string k_Int24ul)]).

(* config.py:496-499 *)
Definition k_UnicastAddress : gcon :=
  (GWrap (Some "UnicastAddress"%string) k_Int16ul).

(* config.py:437-440 *)
Definition k_ModelId : gcon :=
  (GWrap (Some "ModelId"%string) (GSelect None [(GRenamed "vendor"%string k_VendorModelId); (GRenamed "sig"%string k_SIGModelId)])).

(* config.py:987-991 *)
Definition k_ConfigModelAppUnbind : gcon :=
  (GStruct (Some "ConfigModelAppUnbind"%string) [(GRenamed "element_address"%string k_UnicastAddress); (GRenamed "_"%string (GWrap None (GWrap None (GWrap None (GStruct None [(GWrap None GSkip); (GRenamed "app_key_index"%string (GLeaf None (Some "UInt16"%string)))]))))); (GRenamed "app_key_index"%string (GWrap None (GRenamed "app_key_index"%string (GLeaf None (Some "UInt16"%string))))); (GRenamed "model"%string k_ModelId)]).

(* config.py:995-998 *)
Definition k_ConfigModelAppStatus : gcon :=
  (GStruct (Some "ConfigModelAppStatus"%string) [(GRenamed "status"%string k_StatusCodeAdapter); (GRenamed "element_address"%string k_UnicastAddress); (GRenamed "_"%string (GWrap None (GWrap None (GWrap None (GStruct None [(GWrap None GSkip); (GRenamed "app_key_index"%string (GLeaf None (Some "UInt16"%string)))]))))); (GRenamed "app_key_index"%string (GWrap None (GRenamed "app_key_index"%string (GLeaf None (Some "UInt16"%string))))); (GRenamed "model"%string k_ModelId)]).

(* config.py:829-832 *)
Definition k_ConfigModelPublicationGet : gcon :=
  (GStruct (Some "ConfigModelPublicationGet"%string) [(GRenamed "element_address"%string k_UnicastAddress); (GRenamed "model"%string k_ModelId)]).

(* config.py:511-514 *)
Definition k_NotVirtualLabel : gcon :=
  (GWrap (Some "NotVirtualLabel"%string) k_Int16ul).

(* construct *)
Definition k_Flag : gcon :=
  (GLeaf (Some "Flag"%string) (Some "Bool"%string)).

(* config.py:417 *)
Definition k_PublishFriendshipCredentialsFlagAdapter : gcon :=
  (GWrap (Some "PublishFriendshipCredentialsFlagAdapter"%string) k_Flag).

(* config.py:757-760 *)
Definition k_PublishPeriodStepResolutionAdapter : gcon :=
  (GWrap (Some "PublishPeriodStepResolutionAdapter"%string) (GLeaf None (Some "UInt8"%string))).

(* config.py:762-765 *)
Definition k_PublishPeriod : gcon :=
  (GWrap (Some "PublishPeriod"%string) (GStruct None [(GRenamed "step_resolution"%string k_PublishPeriodStepResolutionAdapter); (GRenamed "number_of_steps"%string (GLeaf None (Some "UInt8"%string)))])).

(* config.py:662 *)
Definition k_PublishRetransmit : gcon :=
  (GWrap (Some "PublishRetransmit"%string) (GStruct None [(GRenamed "count"%string k_Int8ul); (GRenamed "interval"%string k_Int16ul)])).

(* config.py:834-848 *)
Definition k_ConfigModelPublicationSet : gcon :=
  (GStruct (Some "ConfigModelPublicationSet"%string) [(GRenamed "element_address"%string k_UnicastAddress); (GRenamed "publish_address"%string k_NotVirtualLabel); (GRenamed "_"%string (GWrap None (GWrap None (GWrap None (GStruct None [(GRenamed "rfu"%string (GLeaf None (Some "UInt8"%string))); (GRenamed "credential_flag"%string k_PublishFriendshipCredentialsFlagAdapter); (GRenamed "app_key_index"%string (GLeaf None (Some "UInt16"%string)))]))))); (GRenamed "rfu"%string (GWrap None (GRenamed "rfu"%string (GLeaf None (Some "UInt8"%string))))); (GRenamed "credential_flag"%string (GWrap None (GRenamed "credential_flag"%string k_PublishFriendshipCredentialsFlagAdapter))); (GRenamed "app_key_index"%string (GWrap None (GRenamed "app_key_index"%string (GLeaf None (Some "UInt16"%string))))); (GRenamed "ttl"%string k_TTL); (GRenamed "publish_period"%string k_PublishPeriod); (GRenamed "retransmit"%string k_PublishRetransmit); (GRenamed "model"%string k_ModelId)]).

(* config.py:850-853 *)
Definition k_ConfigModelPublicationStatus : gcon :=
  (GStruct (Some "ConfigModelPublicationStatus"%string) [(GRenamed "status"%string k_StatusCodeAdapter); (GRenamed "element_address"%string k_UnicastAddress); (GRenamed "publish_address"%string k_NotVirtualLabel); (GRenamed "_"%string (GWrap None (GWrap None (GWrap None (GStruct None [(GRenamed "rfu"%string (GLeaf None (Some "UInt8"%string))); (GRenamed "credential_flag"%string k_PublishFriendshipCredentialsFlagAdapter); (GRenamed "app_key_index"%string (GLeaf None (Some "UInt16"%string)))]))))); (GRenamed "rfu"%string (GWrap None (GRenamed "rfu"%string (GLeaf None (Some "UInt8"%string))))); (GRenamed "credential_flag"%string (GWrap None (GRenamed "credential_flag"%string k_PublishFriendshipCredentialsFlagAdapter))); (GRenamed "app_key_index"%string (GWrap None (GRenamed "app_key_index"%string (GLeaf None (Some "UInt16"%string))))); (GRenamed "ttl"%string k_TTL); (GRenamed "publish_period"%string k_PublishPeriod); (GRenamed "retransmit"%string k_PublishRetransmit); (GRenamed "model"%string k_ModelId)]).

(* config.py:855-869 *)
Definition k_ConfigModelPublicationVASet : gcon :=
  (GStruct (Some "ConfigModelPublicationVASet"%string) [(GRenamed "element_address"%string k_UnicastAddress); (GRenamed "publish_address"%string (GLeaf None (Some "Data"%string))); (GRenamed "_"%string (GWrap None (GWrap None (GWrap None (GStruct None [(GRenamed "rfu"%string (GLeaf None (Some "UInt8"%string))); (GRenamed "credential_flag"%string k_PublishFriendshipCredentialsFlagAdapter); (GRenamed "app_key_index"%string (GLeaf None (Some "UInt16"%string)))]))))); (GRenamed "rfu"%string (GWrap None (GRenamed "rfu"%string (GLeaf None (Some "UInt8"%string))))); (GRenamed "credential_flag"%string (GWrap None (GRenamed "credential_flag"%string k_PublishFriendshipCredentialsFlagAdapter))); (GRenamed "app_key_index"%string (GWrap None (GRenamed "app_key_index"%string (GLeaf None (Some "UInt16"%string))))); (GRenamed "ttl"%string k_TTL); (GRenamed "publish_period"%string k_PublishPeriod); (GRenamed "retransmit"%string k_PublishRetransmit); (GRenamed "model"%string k_ModelId)]).

(* config.py:516-522 *)
Definition k_SubscriptionAddress : gcon :=
  (GWrap (Some "SubscriptionAddress"%string) k_Int16ul).

(* config.py:871-875 *)
Definition k_ConfigModelSubscriptionOverwrite : gcon :=
  (GStruct (Some "ConfigModelSubscriptionOverwrite"%string) [(GRenamed "element_address"%string k_UnicastAddress); (GRenamed "address"%string k_SubscriptionAddress); (GRenamed "model"%string k_ModelId)]).

(* config.py:896-899 *)
Definition k_ConfigModelSubscriptionDeleteAll : gcon :=
  (GStruct (Some "ConfigModelSubscriptionDeleteAll"%string) [(GRenamed "element_address"%string k_UnicastAddress); (GRenamed "model"%string k_ModelId)]).

(* config.py:524-528 *)
Definition k_StatusSubscriptionAddress : gcon :=
  (GWrap (Some "StatusSubscriptionAddress"%string) k_Int16ul).

(* config.py:889-894 *)
Definition k_ConfigModelSubscriptionStatus : gcon :=
  (GStruct (Some "ConfigModelSubscriptionStatus"%string) [(GRenamed "status"%string k_StatusCodeAdapter); (GRenamed "element_address"%string k_UnicastAddress); (GRenamed "address"%string k_StatusSubscriptionAddress); (GRenamed "model"%string k_ModelId)]).

(* config.py:880-884 *)
Definition k_ConfigModelSubscriptionVAOverwrite : gcon :=
  (GStruct (Some "ConfigModelSubscriptionVAOverwrite"%string) [(GRenamed "element_address"%string k_UnicastAddress); (GRenamed "label"%string (GLeaf None (Some "Data"%string))); (GRenamed "model"%string k_ModelId)]).

(* config.py:925-928 *)
Definition k_ConfigNetKeyUpdate : gcon :=
  (GStruct (Some "ConfigNetKeyUpdate"%string) [(GRenamed "_"%string (GWrap None (GWrap None (GWrap None (GStruct None [(GWrap None GSkip); (GRenamed "net_key_index"%string (GLeaf None (Some "UInt16"%string)))]))))); (GRenamed "net_key_index"%string (GWrap None (GRenamed "net_key_index"%string (GLeaf None (Some "UInt16"%string))))); (GRenamed "net_key"%string (GLeaf None (Some "Data"%string)))]).

(* config.py:932-934 *)
Definition k_ConfigNetKeyDelete : gcon :=
  (GStruct (Some "ConfigNetKeyDelete"%string) [(GRenamed "_"%string (GWrap None (GWrap None (GWrap None (GStruct None [(GWrap None GSkip); (GRenamed "net_key_index"%string (GLeaf None (Some "UInt16"%string)))]))))); (GRenamed "net_key_index"%string (GWrap None (GRenamed "net_key_index"%string (GLeaf None (Some "UInt16"%string)))))]).

(* config.py:941 *)
Definition k_ConfigNetKeyGet : gcon :=
  (GStruct (Some "ConfigNetKeyGet"%string) []).

(* config.py:943-945 *)
Definition k_ConfigNetKeyList : gcon :=
  (GStruct (Some "ConfigNetKeyList"%string) [(GRenamed "net_key_indices"%string k_KeyIndices)]).

(* config.py:936-939 *)
Definition k_ConfigNetKeyStatus : gcon :=
  (GStruct (Some "ConfigNetKeyStatus"%string) [(GRenamed "status"%string k_StatusCodeAdapter); (GRenamed "_"%string (GWrap None (GWrap None (GWrap None (GStruct None [(GWrap None GSkip); (GRenamed "net_key_index"%string (GLeaf None (Some "UInt16"%string)))]))))); (GRenamed "net_key_index"%string (GWrap None (GRenamed "net_key_index"%string (GLeaf None (Some "UInt16"%string)))))]).

(* config.py:1094 *)
Definition k_ConfigNetworkTransmitGet : gcon :=
  (GStruct (Some "ConfigNetworkTransmitGet"%string) []).

(* config.py:658 *)
Definition k_ConfigNetworkTransmitStatus : gcon :=
  (GWrap (Some "ConfigNetworkTransmitStatus"%string) (GStruct None [(GRenamed "count"%string k_Int8ul); (GRenamed "interval"%string k_Int16ul)])).

(* config.py:973-975 *)
Definition k_ConfigNodeIdentityGet : gcon :=
  (GStruct (Some "ConfigNodeIdentityGet"%string) [(GRenamed "_"%string (GWrap None (GWrap None (GWrap None (GStruct None [(GWrap None GSkip); (GRenamed "net_key_index"%string (GLeaf None (Some "UInt16"%string)))]))))); (GRenamed "net_key_index"%string (GWrap None (GRenamed "net_key_index"%string (GLeaf None (Some "UInt16"%string)))))]).

(* config.py:421 *)
Definition k_NodeIdentityAdapter : gcon :=
  (GWrap (Some "NodeIdentityAdapter"%string) k_Int8ul).

(* config.py:977-980 *)
Definition k_ConfigNodeIdentitySet : gcon :=
  (GStruct (Some "ConfigNodeIdentitySet"%string) [(GRenamed "_"%string (GWrap None (GWrap None (GWrap None (GStruct None [(GWrap None GSkip); (GRenamed "net_key_index"%string (GLeaf None (Some "UInt16"%string)))]))))); (GRenamed "net_key_index"%string (GWrap None (GRenamed "net_key_index"%string (GLeaf None (Some "UInt16"%string))))); (GRenamed "identity"%string k_NodeIdentityAdapter)]).

(* config.py:982-985 *)
Definition k_ConfigNodeIdentityStatus : gcon :=
  (GStruct (Some "ConfigNodeIdentityStatus"%string) [(GRenamed "status"%string k_StatusCodeAdapter); (GRenamed "_"%string (GWrap None (GWrap None (GWrap None (GStruct None [(GWrap None GSkip); (GRenamed "net_key_index"%string (GLeaf None (Some "UInt16"%string)))]))))); (GRenamed "net_key_index"%string (GWrap None (GRenamed "net_key_index"%string (GLeaf None (Some "UInt16"%string))))); (GRenamed "identity"%string k_NodeIdentityAdapter)]).

(* config.py:1022 *)
Definition k_ConfigNodeReset : gcon :=
  (GStruct (Some "ConfigNodeReset"%string) []).

(* config.py:1024 *)
Definition k_ConfigNodeResetStatus : gcon :=
  (GStruct (Some "ConfigNodeResetStatus"%string) []).

(* config.py:820 *)
Definition k_ConfigRelayGet : gcon :=
  (GStruct (Some "ConfigRelayGet"%string) []).

(* config.py:413 *)
Definition k_RelayAdapter : gcon :=
  (GWrap (Some "RelayAdapter"%string) k_Int8ul).

(* config.py:822-825 *)
Definition k_ConfigRelayStatus : gcon :=
  (GStruct (Some "ConfigRelayStatus"%string) [(GRenamed "relay"%string k_RelayAdapter); (GRenamed "retransmit"%string k_ConfigNetworkTransmitStatus)]).

(* config.py:1000-1003 *)
Definition k_ConfigSIGModelAppGet : gcon :=
  (GStruct (Some "ConfigSIGModelAppGet"%string) [(GRenamed "element_address"%string k_UnicastAddress); (GRenamed "model"%string k_SIGModelId)]).

(* config.py:1005-1009 *)
Definition k_ConfigSIGModelAppList : gcon :=
  (GStruct (Some "ConfigSIGModelAppList"%string) [(GRenamed "status"%string k_StatusCodeAdapter); (GRenamed "element_address"%string k_UnicastAddress); (GRenamed "model"%string k_SIGModelId); (GRenamed "app key indices"%string k_KeyIndices)]).

(* config.py:901-904 *)
Definition k_ConfigSIGModelSubscriptionGet : gcon :=
  (GStruct (Some "ConfigSIGModelSubscriptionGet"%string) [(GRenamed "element_address"%string k_UnicastAddress); (GRenamed "model"%string k_SIGModelId)]).

(* config.py:906-911 *)
Definition k_ConfigSIGModelSubscriptionList : gcon :=
  (GStruct (Some "ConfigSIGModelSubscriptionList"%string) [(GRenamed "status"%string k_StatusCodeAdapter); (GRenamed "element_address"%string k_UnicastAddress); (GRenamed "model"%string k_SIGModelId); (GRenamed "addresses"%string (GMany k_Int16ul))]).

(* config.py:1011-1014 *)
Definition k_ConfigVendorModelAppGet : gcon :=
  (GStruct (Some "ConfigVendorModelAppGet"%string) [(GRenamed "element_address"%string k_UnicastAddress); (GRenamed "model"%string k_VendorModelId)]).

(* config.py:1016-1020 *)
Definition k_ConfigVendorModelAppList : gcon :=
  (GStruct (Some "ConfigVendorModelAppList"%string) [(GRenamed "status"%string k_StatusCodeAdapter); (GRenamed "element_address"%string k_UnicastAddress); (GRenamed "model"%string k_VendorModelId); (GRenamed "app_key_indices"%string k_KeyIndices)]).

(* config.py:913-916 *)
Definition k_ConfigVendorModelSubscriptionGet : gcon :=
  (GStruct (Some "ConfigVendorModelSubscriptionGet"%string) [(GRenamed "element_address"%string k_UnicastAddress); (GRenamed "model"%string k_VendorModelId)]).

(* config.py:918-923 *)
Definition k_ConfigVendorModelSubscriptionList : gcon :=
  (GStruct (Some "ConfigVendorModelSubscriptionList"%string) [(GRenamed "status"%string k_StatusCodeAdapter); (GRenamed "element_address"%string k_UnicastAddress); (GRenamed "model"%string k_VendorModelId); (GRenamed "addresses"%string (GMany k_Int16ul))]).

(* config.py:1177-1255 *)
Definition k_ConfigMessage : gcon :=
  (GWrap (Some "ConfigMessage"%string) (GStruct None [(GRenamed "opcode"%string (GWrap None k_Int32ub)); (GSwitch None [("CONFIG_APPKEY_ADD"%string, k_ConfigAppKeyUpdate); ("CONFIG_APPKEY_DELETE"%string, k_ConfigAppKeyDelete); ("CONFIG_APPKEY_GET"%string, k_ConfigAppKeyGet); ("CONFIG_APPKEY_LIST"%string, k_ConfigAppKeyList); ("CONFIG_APPKEY_STATUS"%string, k_ConfigAppKeyStatus); ("CONFIG_APPKEY_UPDATE"%string, k_ConfigAppKeyUpdate); ("CONFIG_BEACON_GET"%string, k_ConfigBeaconGet); ("CONFIG_BEACON_SET"%string, k_ConfigBeaconStatus); ("CONFIG_BEACON_STATUS"%string, k_ConfigBeaconStatus); ("CONFIG_COMPOSITION_DATA_GET"%string, k_ConfigCompositionDataGet); ("CONFIG_COMPOSITION_DATA_STATUS"%string, k_ConfigCompositionDataStatus); ("CONFIG_DEFAULT_TTL_GET"%string, k_ConfigDefaultTTLGet); ("CONFIG_DEFAULT_TTL_SET"%string, k_ConfigDefaultTTLStatus); ("CONFIG_DEFAULT_TTL_STATUS"%string, k_ConfigDefaultTTLStatus); ("CONFIG_FRIEND_GET"%string, k_ConfigFriendGet); ("CONFIG_FRIEND_SET"%string, k_ConfigFriendStatus); ("CONFIG_FRIEND_STATUS"%string, k_ConfigFriendStatus); ("CONFIG_GATT_PROXY_GET"%string, k_ConfigGATTProxyGet); ("CONFIG_GATT_PROXY_SET"%string, k_ConfigGATTProxyStatus); ("CONFIG_GATT_PROXY_STATUS"%string, k_ConfigGATTProxyStatus); ("CONFIG_HEARBEAT_PUBLICATION_GET"%string, k_ConfigHeartbeatPublicationGet); ("CONFIG_HEARBEAT_PUBLICATION_SET"%string, k_ConfigHeartbeatPublicationSet); ("CONFIG_HEARBEAT_PUBLICATION_STATUS"%string, k_ConfigHeartbeatPublicationStatus); ("CONFIG_HEARBEAT_SUBSCRIPTION_GET"%string, k_ConfigHeartbeatSubscriptionGet); ("CONFIG_HEARBEAT_SUBSCRIPTION_SET"%string, k_ConfigHeartbeatSubscriptionSet); ("CONFIG_HEARBEAT_SUBSCRIPTION_STATUS"%string, k_ConfigHeartbeatSubscriptionStatus); ("CONFIG_KEY_REFRESH_PHASE_GET"%string, k_ConfigKeyRefreshPhaseGet); ("CONFIG_KEY_REFRESH_PHASE_SET"%string, k_ConfigKeyRefreshPhaseSet); ("CONFIG_KEY_REFRESH_PHASE_STATUS"%string, k_ConfigKeyRefreshPhaseStatus); ("CONFIG_LOW_POWER_NODE_POLL_TIMEOUT_GET"%string, k_ConfigLowPowerNodePollTimeoutGet); ("CONFIG_LOW_POWER_NODE_POLL_TIMEOUT_STATUS"%string, k_ConfigLowPowerNodePollTimeoutStatus); ("CONFIG_MODEL_APP_BIND"%string, k_ConfigModelAppUnbind); ("CONFIG_MODEL_APP_STATUS"%string, k_ConfigModelAppStatus); ("CONFIG_MODEL_APP_UNBIND"%string, k_ConfigModelAppUnbind); ("CONFIG_MODEL_PUBLICATION_GET"%string, k_ConfigModelPublicationGet); ("CONFIG_MODEL_PUBLICATION_SET"%string, k_ConfigModelPublicationSet); ("CONFIG_MODEL_PUBLICATION_STATUS"%string, k_ConfigModelPublicationStatus); ("CONFIG_MODEL_PUBLICATION_VIRTUAL_ADDRESS_SET"%string, k_ConfigModelPublicationVASet); ("CONFIG_MODEL_SUBSCRIPTION_ADD"%string, k_ConfigModelSubscriptionOverwrite); ("CONFIG_MODEL_SUBSCRIPTION_DELETE"%string, k_ConfigModelSubscriptionOverwrite); ("CONFIG_MODEL_SUBSCRIPTION_DELETE_ALL"%string, k_ConfigModelSubscriptionDeleteAll); ("CONFIG_MODEL_SUBSCRIPTION_OVERWRITE"%string, k_ConfigModelSubscriptionOverwrite); ("CONFIG_MODEL_SUBSCRIPTION_STATUS"%string, k_ConfigModelSubscriptionStatus); ("CONFIG_MODEL_SUBSCRIPTION_VIRTUAL_ADDRESS_ADD"%string, k_ConfigModelSubscriptionVAOverwrite); ("CONFIG_MODEL_SUBSCRIPTION_VIRTUAL_ADDRESS_DELETE"%string, k_ConfigModelSubscriptionVAOverwrite); ("CONFIG_MODEL_SUBSCRIPTION_VIRTUAL_ADDRESS_OVERWRITE"%string, k_ConfigModelSubscriptionVAOverwrite); ("CONFIG_NETKEY_ADD"%string, k_ConfigNetKeyUpdate); ("CONFIG_NETKEY_DELETE"%string, k_ConfigNetKeyDelete); ("CONFIG_NETKEY_GET"%string, k_ConfigNetKeyGet); ("CONFIG_NETKEY_LIST"%string, k_ConfigNetKeyList); ("CONFIG_NETKEY_STATUS"%string, k_ConfigNetKeyStatus); ("CONFIG_NETKEY_UPDATE"%string, k_ConfigNetKeyUpdate); ("CONFIG_NETWORK_TRANSMIT_GET"%string, k_ConfigNetworkTransmitGet); ("CONFIG_NETWORK_TRANSMIT_SET"%string, k_ConfigNetworkTransmitStatus); ("CONFIG_NETWORK_TRANSMIT_STATUS"%string, k_ConfigNetworkTransmitStatus); ("CONFIG_NODE_IDENTITY_GET"%string, k_ConfigNodeIdentityGet); ("CONFIG_NODE_IDENTITY_SET"%string, k_ConfigNodeIdentitySet); ("CONFIG_NODE_IDENTITY_STATUS"%string, k_ConfigNodeIdentityStatus); ("CONFIG_NODE_RESET"%string, k_ConfigNodeReset); ("CONFIG_NODE_RESET_STATUS"%string, k_ConfigNodeResetStatus); ("CONFIG_RELAY_GET"%string, k_ConfigRelayGet); ("CONFIG_RELAY_SET"%string, k_ConfigRelayStatus); ("CONFIG_RELAY_STATUS"%string, k_ConfigRelayStatus); ("CONFIG_SIG_MODEL_APP_GET"%string, k_ConfigSIGModelAppGet); ("CONFIG_SIG_MODEL_APP_LIST"%string, k_ConfigSIGModelAppList); ("CONFIG_SIG_MODEL_SUBSCRIPTION_GET"%string, k_ConfigSIGModelSubscriptionGet); ("CONFIG_SIG_MODEL_SUBSCRIPTION_LIST"%string, k_ConfigSIGModelSubscriptionList); ("CONFIG_VENDOR_MODEL_APP_GET"%string, k_ConfigVendorModelAppGet); ("CONFIG_VENDOR_MODEL_APP_LIST"%string, k_ConfigVendorModelAppList); ("CONFIG_VENDOR_MODEL_SUBSCRIPTION_GET"%string, k_ConfigVendorModelSubscriptionGet); ("CONFIG_VENDOR_MODEL_SUBSCRIPTION_LIST"%string, k_ConfigVendorModelSubscriptionList)] None)])).

(* silvair/debug.py:83 *)
Definition k_RssiThresholdGet : gcon :=
  (GStruct (Some "RssiThresholdGet"%string) []).

(* silvair/debug.py:85-87 *)
Definition k_RssiThreshold : gcon :=
  (GStruct (Some "RssiThreshold"%string) [(GRenamed "rssi_threshold"%string k_Int8ul)]).

(* silvair/debug.py:89-91 *)
Definition k_RadioTest : gcon :=
  (GStruct (Some "RadioTest"%string) [(GRenamed "packet_counter"%string k_Int8ul)]).

(* silvair/debug.py:93 *)
Definition k_UptimeGet : gcon :=
  (GStruct (Some "UptimeGet"%string) []).

(* construct *)
Definition k_Int32ul : gcon :=
  (GLeaf (Some "Int32ul"%string) (Some "UInt32"%string)).

(* silvair/debug.py:95-97 *)
Definition k_UptimeStatus : gcon :=
  (GStruct (Some "UptimeStatus"%string) [(GRenamed "uptime"%string k_Int32ul)]).

(* silvair/debug.py:99 *)
Definition k_LastSwFaultGet : gcon :=
  (GStruct (Some "LastSwFaultGet"%string) []).

(* silvair/debug.py:101 *)
Definition k_LastSwFaultClear : gcon :=
  (GStruct (Some "LastSwFaultClear"%string) []).

(* silvair/debug.py:103-106 *)
Definition k_LastFdsFaultStatus : gcon :=
  (GStruct (Some "LastFdsFaultStatus"%string) [(GRenamed "time"%string k_Int32ul); (GRenamed "fault"%string (GText None))]).

(* silvair/debug.py:108 *)
Definition k_SystemStatsGet : gcon :=
  (GStruct (Some "SystemStatsGet"%string) []).

(* silvair/debug.py:110-114 *)
Definition k_SystemStat : gcon :=
  (GStruct (Some "SystemStat"%string) [(GRenamed "name"%string (GText None)); (GRenamed "high_water_mark"%string k_Int32ul); (GRenamed "_rfu"%string (GWrap None GSkip))]).

(* silvair/debug.py:116-118 *)
Definition k_SystemStatsStatus : gcon :=
  (GStruct (Some "SystemStatsStatus"%string) [(GRenamed "stats"%string (GMany k_SystemStat))]).

(* silvair/debug.py:120 *)
Definition k_LastMallocFaultGet : gcon :=
  (GStruct (Some "LastMallocFaultGet"%string) []).

(* silvair/debug.py:122 *)
Definition k_LastMallocFaultClear : gcon :=
  (GStruct (Some "LastMallocFaultClear"%string) []).

(* silvair/debug.py:126 *)
Definition k_LastFdsFaultGet : gcon :=
  (GStruct (Some "LastFdsFaultGet"%string) []).

(* silvair/debug.py:128 *)
Definition k_LastFdsFaultClear : gcon :=
  (GStruct (Some "LastFdsFaultClear"%string) []).

(* silvair/debug.py:132 *)
Definition k_BytesBeforeGarbageCollectorGet : gcon :=
  (GStruct (Some "BytesBeforeGarbageCollectorGet"%string) []).

(* silvair/debug.py:134-136 *)
Definition k_BytesBeforeGarbageCollectorStatus : gcon :=
  (GStruct (Some "BytesBeforeGarbageCollectorStatus"%string) [(GRenamed "bytes_left"%string k_Int16ul)]).

(* silvair/debug.py:138 *)
Definition k_ProvisionedAppVersionGet : gcon :=
  (GStruct (Some "ProvisionedAppVersionGet"%string) []).

(* silvair/debug.py:140-142 *)
Definition k_ProvisionedAppVersionStatus : gcon :=
  (GStruct (Some "ProvisionedAppVersionStatus"%string) [(GRenamed "version"%string k_Int16ul)]).

(* silvair/debug.py:144 *)
Definition k_FullFirmwareVersionGet : gcon :=
  (GStruct (Some "FullFirmwareVersionGet"%string) []).

(* silvair/debug.py:146-148 *)
Definition k_FullFirmwareVersionStatus : gcon :=
  (GStruct (Some "FullFirmwareVersionStatus"%string) [(GRenamed "version"%string (GText None))]).

(* silvair/debug.py:150 *)
Definition k_IvIndexGet : gcon :=
  (GStruct (Some "IvIndexGet"%string) []).

(* silvair/debug.py:152-154 *)
Definition k_IvIndexStatus : gcon :=
  (GStruct (Some "IvIndexStatus"%string) [(GRenamed "ivindex"%string k_Int32ul)]).

(* silvair/debug.py:156 *)
Definition k_GarbageCollectorCounterGet : gcon :=
  (GStruct (Some "GarbageCollectorCounterGet"%string) []).

(* silvair/debug.py:158-160 *)
Definition k_GarbageCollectorCounterStatus : gcon :=
  (GStruct (Some "GarbageCollectorCounterStatus"%string) [(GRenamed "counter"%string k_Int16ul)]).

(* silvair/debug.py:172 *)
Definition k_ArapListSizeGet : gcon :=
  (GStruct (Some "ArapListSizeGet"%string) []).

(* silvair/debug.py:162-165 *)
Definition k_ArapSize16 : gcon :=
  (GStruct (Some "ArapSize16"%string) [(GRenamed "capacity"%string k_Int16ul); (GRenamed "size"%string k_Int16ul)]).

(* silvair/debug.py:167-170 *)
Definition k_ArapSize8 : gcon :=
  (GStruct (Some "ArapSize8"%string) [(GRenamed "capacity"%string k_Int8ul); (GRenamed "size"%string k_Int8ul)]).

(* silvair/debug.py:174-177 *)
Definition k_ArapListSizeStatus : gcon :=
  (GWrap (Some "ArapListSizeStatus"%string) (GSelect None [(GRenamed "new"%string k_ArapSize16); (GRenamed "old"%string k_ArapSize8)])).

(* silvair/debug.py:179-181 *)
Definition k_ArapListContentGet : gcon :=
  (GStruct (Some "ArapListContentGet"%string) [(GRenamed "page"%string k_Int8ul)]).

(* construct *)
Definition k_Int24ub : gcon :=
  (GLeaf (Some "Int24ub"%string) (Some "UInt32"%string)).

(* silvair/debug.py:183-189 *)
Definition k_ArapNode : gcon :=
  (GWrap (Some "ArapNode"%string) (GWrap None (GStruct None [(GRenamed "sequence"%string (GWrap None k_Int24ub)); (GRenamed "ivi"%string (GLeaf None (Some "UInt8"%string))); (GRenamed "address"%string (GLeaf None (Some "UInt16"%string)))]))).

(* silvair/debug.py:191-195 *)
Definition k_ArapListContentStatus : gcon :=
  (GStruct (Some "ArapListContentStatus"%string) [(GRenamed "current_page"%string k_Int8ul); (GRenamed "last_page"%string k_Int8ul); (GRenamed "nodes"%string (GMany k_ArapNode))]).

(* silvair/debug.py:197-235 *)
Definition k_DebugParams : gcon :=
  (GWrap (Some "DebugParams"%string) (GStruct None [(GRenamed "subopcode"%string (GWrap None k_Int8ul)); (GSwitch None [("RSSI_THRESHOLD_GET"%string, k_RssiThresholdGet); ("RSSI_THRESHOLD_SET"%string, k_RssiThreshold); ("RSSI_THRESHOLD_STATUS"%string, k_RssiThreshold); ("RADIO_TEST"%string, k_RadioTest); ("UPTIME_GET"%string, k_UptimeGet); ("UPTIME_STATUS"%string, k_UptimeStatus); ("LAST_SW_FAULT_GET"%string, k_LastSwFaultGet); ("LAST_SW_FAULT_CLEAR"%string, k_LastSwFaultClear); ("LAST_SW_FAULT_STATUS"%string, k_LastFdsFaultStatus); ("SYSTEM_STATS_GET"%string, k_SystemStatsGet); ("SYSTEM_STATS_STATUS"%string, k_SystemStatsStatus); ("LAST_MALLOC_FAULT_GET"%string, k_LastMallocFaultGet); ("LAST_MALLOC_FAULT_CLEAR"%string, k_LastMallocFaultClear); ("LAST_MALLOC_FAULT_STATUS"%string, k_LastFdsFaultStatus); ("LAST_FDS_FAULT_GET"%string, k_LastFdsFaultGet); ("LAST_FDS_FAULT_CLEAR"%string, k_LastFdsFaultClear); ("LAST_FDS_FAULT_STATUS"%string, k_LastFdsFaultStatus); ("BYTES_BEFORE_GARBAGE_COLLECTOR_GET"%string, k_BytesBeforeGarbageCollectorGet); ("BYTES_BEFORE_GARBAGE_COLLECTOR_STATUS"%string, k_BytesBeforeGarbageCollectorStatus); ("PROVISIONED_APP_VERSION_GET"%string, k_ProvisionedAppVersionGet); ("PROVISIONED_APP_VERSION_STATUS"%string, k_ProvisionedAppVersionStatus); ("FULL_FIRMWARE_VERSION_GET"%string, k_FullFirmwareVersionGet); ("FULL_FIRMWARE_VERSION_STATUS"%string, k_FullFirmwareVersionStatus); ("IV_INDEX_GET"%string, k_IvIndexGet); ("IV_INDEX_STATUS"%string, k_IvIndexStatus); ("GARBAGE_COLLECTOR_COUNTER_GET"%string, k_GarbageCollectorCounterGet); ("GARBAGE_COLLECTOR_COUNTER_STATUS"%string, k_GarbageCollectorCounterStatus); ("ARAP_LIST_SIZE_GET"%string, k_ArapListSizeGet); ("ARAP_LIST_SIZE_STATUS"%string, k_ArapListSizeStatus); ("ARAP_LIST_CONTENT_GET"%string, k_ArapListContentGet); ("ARAP_LIST_CONTENT_STATUS"%string, k_ArapListContentStatus)] None)])).

(* silvair/debug.py:237-245 *)
Definition k_DebugMessage : gcon :=
  (GWrap (Some "DebugMessage"%string) (GStruct None [(GRenamed "opcode"%string (GWrap None k_Int32ub)); (GSwitch None [("SILVAIR_DEBUG"%string, k_DebugParams)] None)])).

(* silvair/gateway_config_server.py:178-183 *)
Definition k_ConfigurationSetWithOptionalDhcpDisabled : gcon :=
  (GStruct (Some "ConfigurationSetWithOptionalDhcpDisabled"%string) [(GRenamed "mtu_size"%string k_Int16ul); (GRenamed "mac_address"%string (GWrap None (GLeaf None (Some "Data"%string)))); (GRenamed "server_port_number"%string k_Int16ul); (GRenamed "reconnect_interval"%string k_Int16ul); (GRenamed "server_address_length"%string k_Int8ul); (GRenamed "server_address"%string (GText None)); (GRenamed "dns_ip_address"%string (GWrap None (GLeaf None (Some "Data"%string)))); (GRenamed "ip_address"%string (GWrap None (GLeaf None (Some "Data"%string)))); (GRenamed "gateway_ip_address"%string (GWrap None (GLeaf None (Some "Data"%string)))); (GRenamed "netmask"%string k_Int8ul)]).

(* silvair/gateway_config_server.py:173-176 *)
Definition k_ConfigurationSetWithOptionalDhcpEnabledWithStaticDns : gcon :=
  (GStruct (Some "ConfigurationSetWithOptionalDhcpEnabledWithStaticDns"%string) [(GRenamed "mtu_size"%string k_Int16ul); (GRenamed "mac_address"%string (GWrap None (GLeaf None (Some "Data"%string)))); (GRenamed "server_port_number"%string k_Int16ul); (GRenamed "reconnect_interval"%string k_Int16ul); (GRenamed "server_address_length"%string k_Int8ul); (GRenamed "server_address"%string (GText None)); (GRenamed "dns_ip_address"%string (GWrap None (GLeaf None (Some "Data"%string))))]).

(* silvair/gateway_config_server.py:164-171 *)
Definition k_ConfigurationSetWithoutOptionalAutoDhcpEnabled : gcon :=
  (GStruct (Some "ConfigurationSetWithoutOptionalAutoDhcpEnabled"%string) [(GRenamed "mtu_size"%string k_Int16ul); (GRenamed "mac_address"%string (GWrap None (GLeaf None (Some "Data"%string)))); (GRenamed "server_port_number"%string k_Int16ul); (GRenamed "reconnect_interval"%string k_Int16ul); (GRenamed "server_address_length"%string k_Int8ul); (GRenamed "server_address"%string (GText None))]).

(* silvair/gateway_config_server.py:185-189 *)
Definition k_ConfigurationSet : gcon :=
  (GSelect (Some "ConfigurationSet"%string) [(GRenamed "static"%string k_ConfigurationSetWithOptionalDhcpDisabled); (GRenamed "dns"%string k_ConfigurationSetWithOptionalDhcpEnabledWithStaticDns); (GRenamed "minimal"%string k_ConfigurationSetWithoutOptionalAutoDhcpEnabled)]).

(* silvair/gateway_config_server.py:130-132 *)
Definition k_ConfigurationSetMtu : gcon :=
  (GStruct (Some "ConfigurationSetMtu"%string) [(GRenamed "mtu_size"%string k_Int16ul)]).

(* silvair/gateway_config_server.py:134-136 *)
Definition k_ConfigurationSetMacAddr : gcon :=
  (GStruct (Some "ConfigurationSetMacAddr"%string) [(GRenamed "mac_address"%string (GWrap None (GLeaf None (Some "Data"%string))))]).

(* silvair/gateway_config_server.py:138-142 *)
Definition k_ConfigurationSetServerAddrAndPortNr : gcon :=
  (GStruct (Some "ConfigurationSetServerAddrAndPortNr"%string) [(GRenamed "server_port_number"%string k_Int16ul); (GRenamed "server_address_length"%string k_Int8ul); (GRenamed "server_address"%string (GText None))]).

(* silvair/gateway_config_server.py:144-146 *)
Definition k_ConfigurationSetReconnectInterval : gcon :=
  (GStruct (Some "ConfigurationSetReconnectInterval"%string) [(GRenamed "reconnect_interval"%string k_Int16ul)]).

(* silvair/gateway_config_server.py:148-150 *)
Definition k_ConfigurationSetDnsIpAddr : gcon :=
  (GStruct (Some "ConfigurationSetDnsIpAddr"%string) [(GRenamed "dns_ip_address"%string (GWrap None (GLeaf None (Some "Data"%string))))]).

(* silvair/gateway_config_server.py:152-154 *)
Definition k_ConfigurationSetIpAddr : gcon :=
  (GStruct (Some "ConfigurationSetIpAddr"%string) [(GRenamed "ip_address"%string (GWrap None (GLeaf None (Some "Data"%string))))]).

(* silvair/gateway_config_server.py:156-158 *)
Definition k_ConfigurationSetGatewayIpAddr : gcon :=
  (GStruct (Some "ConfigurationSetGatewayIpAddr"%string) [(GRenamed "gateway_ip_address"%string (GWrap None (GLeaf None (Some "Data"%string))))]).

(* silvair/gateway_config_server.py:160-162 *)
Definition k_ConfigurationSetNetmask : gcon :=
  (GStruct (Some "ConfigurationSetNetmask"%string) [(GRenamed "netmask"%string k_Int8ul)]).

(* silvair/gateway_config_server.py:191-196 *)
Definition k_ConfigurationStatus : gcon :=
  (GStruct (Some "ConfigurationStatus"%string) [(GRenamed "chip_revision_id"%string k_Int8ul); (GRenamed "mtu_size"%string k_Int16ul); (GRenamed "mac_address"%string (GWrap None (GLeaf None (Some "Data"%string)))); (GRenamed "server_port_number"%string k_Int16ul); (GRenamed "reconnect_interval"%string k_Int16ul); (GRenamed "server_address_length"%string k_Int8ul); (GRenamed "server_address"%string (GText None)); (GRenamed "dns_ip_address"%string (GWrap None (GLeaf None (Some "Data"%string)))); (GRenamed "ip_address"%string (GWrap None (GLeaf None (Some "Data"%string)))); (GRenamed "gateway_ip_address"%string (GWrap None (GLeaf None (Some "Data"%string)))); (GRenamed "netmask"%string k_Int8ul); (GRenamed "flags"%string (GWrap None k_Int8ul)); (GRenamed "status_code"%string (GWrap None k_Int8ul))]).

(* silvair/gateway_config_server.py:198-202 *)
Definition k_ConnectionState : gcon :=
  (GWrap (Some "ConnectionState"%string) (GStruct None [(GRenamed "conn_state"%string (GWrap None (GLeaf None (Some "UInt8"%string)))); (GRenamed "link_status"%string (GWrap None (GLeaf None (Some "UInt8"%string)))); (GRenamed "last_error"%string (GWrap None (GLeaf None (Some "UInt8"%string))))])).

(* silvair/gateway_config_server.py:205-210 *)
Definition k_PacketsStatus : gcon :=
  (GStruct (Some "PacketsStatus"%string) [(GRenamed "total_eth_rx_errors"%string k_Int16ul); (GRenamed "total_eth_tx_errors"%string k_Int16ul); (GRenamed "bandwidth"%string k_Int16ul); (GRenamed "connection_state"%string k_ConnectionState)]).

(* silvair/gateway_config_server.py:212-230 *)
Definition k_GatewayConfigParams : gcon :=
  (GWrap (Some "GatewayConfigParams"%string) (GStruct None [(GRenamed "subopcode"%string (GWrap None k_Int8ul)); (GSwitch None [("GATEWAY_CONFIGURATION_SET"%string, k_ConfigurationSet); ("MTU_SIZE_SET"%string, k_ConfigurationSetMtu); ("ETHERNET_MAC_ADDRESS_SET"%string, k_ConfigurationSetMacAddr); ("SERVER_ADDRESS_AND_PORT_NUMBER_SET"%string, k_ConfigurationSetServerAddrAndPortNr); ("RECONNECT_INTERVAL_SET"%string, k_ConfigurationSetReconnectInterval); ("DNS_IP_ADDRESS_SET"%string, k_ConfigurationSetDnsIpAddr); ("IP_ADDRESS_SET"%string, k_ConfigurationSetIpAddr); ("GATEWAY_IP_ADDRESS_SET"%string, k_ConfigurationSetGatewayIpAddr); ("NETMASK_SET"%string, k_ConfigurationSetNetmask); ("GATEWAY_CONFIGURATION_STATUS"%string, k_ConfigurationStatus); ("GATEWAY_PACKETS_STATUS"%string, k_PacketsStatus)] None)])).

(* silvair/gateway_config_server.py:232-240 *)
Definition k_GatewayConfigMessage : gcon :=
  (GWrap (Some "GatewayConfigMessage"%string) (GStruct None [(GRenamed "opcode"%string (GWrap None k_Int32ub)); (GSwitch None [("SILVAIR_GATEWAY"%string, k_GatewayConfigParams)] None)])).

(* generic/onoff.py:38 *)
Definition k_GenericOnOffGet : gcon :=
  (GStruct (Some "GenericOnOffGet"%string) []).

(* construct *)
Definition k_Float32b : gcon :=
  (GLeaf (Some "Float32b"%string) (Some "Float32"%string)).

(* generic/onoff.py:45-50 *)
Definition k_GenericOnOffSetOptional : gcon :=
  (GStruct (Some "GenericOnOffSetOptional"%string) [(GRenamed "onoff"%string k_Int8ul); (GRenamed "tid"%string k_Int8ul); (GRenamed "transition_time"%string (GWrap None k_Float32b)); (GRenamed "delay"%string (GWrap None k_Float32b))]).

(* generic/onoff.py:40-43 *)
Definition k_GenericOnOffSetMinimal : gcon :=
  (GStruct (Some "GenericOnOffSetMinimal"%string) [(GRenamed "onoff"%string k_Int8ul); (GRenamed "tid"%string k_Int8ul)]).

(* generic/onoff.py:52-55 *)
Definition k_GenericOnOffSet : gcon :=
  (GWrap (Some "GenericOnOffSet"%string) (GSelect None [(GRenamed "optional"%string k_GenericOnOffSetOptional); (GRenamed "minimal"%string k_GenericOnOffSetMinimal)])).

(* generic/onoff.py:61-65 *)
Definition k_GenericOnOffStatusOptional : gcon :=
  (GStruct (Some "GenericOnOffStatusOptional"%string) [(GRenamed "present_onoff"%string k_Int8ul); (GRenamed "target_onoff"%string k_Int8ul); (GRenamed "remaining_time"%string (GWrap None k_Float32b))]).

(* generic/onoff.py:57-59 *)
Definition k_GenericOnOffStatusMinimal : gcon :=
  (GStruct (Some "GenericOnOffStatusMinimal"%string) [(GRenamed "present_onoff"%string k_Int8ul)]).

(* generic/onoff.py:67-70 *)
Definition k_GenericOnOffStatus : gcon :=
  (GWrap (Some "GenericOnOffStatus"%string) (GSelect None [(GRenamed "optional"%string k_GenericOnOffStatusOptional); (GRenamed "minimal"%string k_GenericOnOffStatusMinimal)])).

(* generic/onoff.py:73-84 *)
Definition k_GenericOnOffMessage : gcon :=
  (GWrap (Some "GenericOnOffMessage"%string) (GStruct None [(GRenamed "opcode"%string (GWrap None k_Int32ub)); (GSwitch None [("GENERIC_ONOFF_GET"%string, k_GenericOnOffGet); ("GENERIC_ONOFF_SET"%string, k_GenericOnOffSet); ("GENERIC_ONOFF_SET_UNACKNOWLEDGED"%string, k_GenericOnOffSet); ("GENERIC_ONOFF_STATUS"%string, k_GenericOnOffStatus)] None)])).

(* generic/battery.py:80 *)
Definition k_GenericBatteryGet : gcon :=
  (GStruct (Some "GenericBatteryGet"%string) []).

(* construct *)
Definition k_Float64b : gcon :=
  (GLeaf (Some "Float64b"%string) (Some "Float64"%string)).

(* generic/battery.py:69-78 *)
Definition k_BatteryFlags : gcon :=
  (GWrap (Some "BatteryFlags"%string) (GStruct None [(GRenamed "battery_serviceability_flags"%string (GWrap None (GLeaf None (Some "UInt8"%string)))); (GRenamed "battery_charging_flags"%string (GWrap None (GLeaf None (Some "UInt8"%string)))); (GRenamed "battery_indicator_flags"%string (GWrap None (GLeaf None (Some "UInt8"%string)))); (GRenamed "battery_presence_flags"%string (GWrap None (GLeaf None (Some "UInt8"%string))))])).

(* generic/battery.py:82-87 *)
Definition k_GenericBatteryStatus : gcon :=
  (GStruct (Some "GenericBatteryStatus"%string) [(GRenamed "battery_level"%string (GWrap None k_Float64b)); (GRenamed "time_to_discharge"%string (GWrap None k_Float64b)); (GRenamed "time_to_charge"%string (GWrap None k_Float64b)); (GRenamed "flags"%string k_BatteryFlags)]).

(* generic/battery.py:89-98 *)
Definition k_GenericBatteryMessage : gcon :=
  (GWrap (Some "GenericBatteryMessage"%string) (GStruct None [(GRenamed "opcode"%string (GWrap None k_Int32ub)); (GSwitch None [("GENERIC_BATTERY_GET"%string, k_GenericBatteryGet); ("GENERIC_BATTERY_STATUS"%string, k_GenericBatteryStatus)] None)])).

(* generic/level.py:42 *)
Definition k_GenericLevelGet : gcon :=
  (GStruct (Some "GenericLevelGet"%string) []).

(* construct *)
Definition k_Int16sl : gcon :=
  (GLeaf (Some "Int16sl"%string) (Some "Int16"%string)).

(* generic/level.py:49-52 *)
Definition k_GenericLevelSetOptional : gcon :=
  (GStruct (Some "GenericLevelSetOptional"%string) [(GRenamed "level"%string k_Int16sl); (GRenamed "tid"%string k_Int8ul); (GRenamed "transition_time"%string (GWrap None k_Float32b)); (GRenamed "delay"%string (GWrap None k_Float32b))]).

(* generic/level.py:44-47 *)
Definition k_GenericLevelSetMinimal : gcon :=
  (GStruct (Some "GenericLevelSetMinimal"%string) [(GRenamed "level"%string k_Int16sl); (GRenamed "tid"%string k_Int8ul)]).

(* generic/level.py:54-57 *)
Definition k_GenericLevelSet : gcon :=
  (GWrap (Some "GenericLevelSet"%string) (GSelect None [(GRenamed "optional"%string k_GenericLevelSetOptional); (GRenamed "minimal"%string k_GenericLevelSetMinimal)])).

(* generic/level.py:93-97 *)
Definition k_GenericLevelStatusOptional : gcon :=
  (GStruct (Some "GenericLevelStatusOptional"%string) [(GRenamed "present_level"%string k_Int16sl); (GRenamed "target_level"%string k_Int16sl); (GRenamed "remaining_time"%string (GWrap None k_Float32b))]).

(* generic/level.py:89-91 *)
Definition k_GenericLevelStatusMinimal : gcon :=
  (GStruct (Some "GenericLevelStatusMinimal"%string) [(GRenamed "present_level"%string k_Int16sl)]).

(* generic/level.py:99-102 *)
Definition k_GenericLevelStatus : gcon :=
  (GWrap (Some "GenericLevelStatus"%string) (GSelect None [(GRenamed "optional"%string k_GenericLevelStatusOptional); (GRenamed "minimal"%string k_GenericLevelStatusMinimal)])).

(* construct *)
Definition k_Int32sl : gcon :=
  (GLeaf (Some "Int32sl"%string) (Some "Int32"%string)).

(* generic/level.py:64-67 *)
Definition k_GenericDeltaSetOptional : gcon :=
  (GStruct (Some "GenericDeltaSetOptional"%string) [(GRenamed "delta_level"%string k_Int32sl); (GRenamed "tid"%string k_Int8ul); (GRenamed "transition_time"%string (GWrap None k_Float32b)); (GRenamed "delay"%string (GWrap None k_Float32b))]).

(* generic/level.py:59-62 *)
Definition k_GenericDeltaSetMinimal : gcon :=
  (GStruct (Some "GenericDeltaSetMinimal"%string) [(GRenamed "delta_level"%string k_Int32sl); (GRenamed "tid"%string k_Int8ul)]).

(* generic/level.py:69-72 *)
Definition k_GenericDeltaSet : gcon :=
  (GWrap (Some "GenericDeltaSet"%string) (GSelect None [(GRenamed "optional"%string k_GenericDeltaSetOptional); (GRenamed "minimal"%string k_GenericDeltaSetMinimal)])).

(* generic/level.py:79-82 *)
Definition k_GenericMoveSetOptional : gcon :=
  (GStruct (Some "GenericMoveSetOptional"%string) [(GRenamed "delta_level"%string k_Int16sl); (GRenamed "tid"%string k_Int8ul); (GRenamed "transition_time"%string (GWrap None k_Float32b)); (GRenamed "delay"%string (GWrap None k_Float32b))]).

(* generic/level.py:74-77 *)
Definition k_GenericMoveSetMinimal : gcon :=
  (GStruct (Some "GenericMoveSetMinimal"%string) [(GRenamed "delta_level"%string k_Int16sl); (GRenamed "tid"%string k_Int8ul)]).

(* generic/level.py:84-87 *)
Definition k_GenericMoveSet : gcon :=
  (GWrap (Some "GenericMoveSet"%string) (GSelect None [(GRenamed "optional"%string k_GenericMoveSetOptional); (GRenamed "minimal"%string k_GenericMoveSetMinimal)])).

(* generic/level.py:104-119 *)
Definition k_GenericLevelMessage : gcon :=
  (GWrap (Some "GenericLevelMessage"%string) (GStruct None [(GRenamed "opcode"%string (GWrap None k_Int32ub)); (GSwitch None [("GENERIC_LEVEL_GET"%string, k_GenericLevelGet); ("GENERIC_LEVEL_SET"%string, k_GenericLevelSet); ("GENERIC_LEVEL_SET_UNACKNOWLEDGED"%string, k_GenericLevelSet); ("GENERIC_LEVEL_STATUS"%string, k_GenericLevelStatus); ("GENERIC_DELTA_SET"%string, k_GenericDeltaSet); ("GENERIC_DELTA_SET_UNACKNOWLEDGED"%string, k_GenericDeltaSet); ("GENERIC_MOVE_SET"%string, k_GenericMoveSet); ("GENERIC_MOVE_SET_UNACKNOWLEDGED"%string, k_GenericMoveSet)] None)])).

(* light/lightness.py:62 *)
Definition k_LightLightnessGet : gcon :=
  (GStruct (Some "LightLightnessGet"%string) []).

(* light/lightness.py:98-101 *)
Definition k_LightLightnessSetOptional : gcon :=
  (GStruct (Some "LightLightnessSetOptional"%string) [(GRenamed "lightness"%string k_Int16ul); (GRenamed "tid"%string k_Int8ul); (GRenamed "transition_time"%string (GWrap None k_Float32b)); (GRenamed "delay"%string (GWrap None k_Float32b))]).

(* light/lightness.py:93-96 *)
Definition k_LightLightnessSetMinimal : gcon :=
  (GStruct (Some "LightLightnessSetMinimal"%string) [(GRenamed "lightness"%string k_Int16ul); (GRenamed "tid"%string k_Int8ul)]).

(* light/lightness.py:103-106 *)
Definition k_LightLightnessSet : gcon :=
  (GWrap (Some "LightLightnessSet"%string) (GSelect None [(GRenamed "optional"%string k_LightLightnessSetOptional); (GRenamed "minimal"%string k_LightLightnessSetMinimal)])).

(* light/lightness.py:72-76 *)
Definition k_LightLightnessStatusOptional : gcon :=
  (GStruct (Some "LightLightnessStatusOptional"%string) [(GRenamed "present_lightness"%string k_Int16ul); (GRenamed "target_lightness"%string k_Int16ul); (GRenamed "remaining_time"%string (GWrap None k_Float32b))]).

(* light/lightness.py:68-70 *)
Definition k_LightLightnessStatusMinimal : gcon :=
  (GStruct (Some "LightLightnessStatusMinimal"%string) [(GRenamed "present_lightness"%string k_Int16ul)]).

(* light/lightness.py:78-81 *)
Definition k_LightLightnessStatus : gcon :=
  (GWrap (Some "LightLightnessStatus"%string) (GSelect None [(GRenamed "optional"%string k_LightLightnessStatusOptional); (GRenamed "minimal"%string k_LightLightnessStatusMinimal)])).

(* light/lightness.py:64-66 *)
Definition k_LightLightnessDefault : gcon :=
  (GStruct (Some "LightLightnessDefault"%string) [(GRenamed "lightness"%string k_Int16ul)]).

(* light/lightness.py:88-91 *)
Definition k_LightLightnessRangeStatus : gcon :=
  (GStruct (Some "LightLightnessRangeStatus"%string) [(GRenamed "status"%string k_StatusCodeAdapter); (GRenamed "range_min"%string k_Int16ul); (GRenamed "range_max"%string k_Int16ul)]).

(* light/lightness.py:108-129 *)
Definition k_LightLightnessMessage : gcon :=
  (GWrap (Some "LightLightnessMessage"%string) (GStruct None [(GRenamed "opcode"%string (GWrap None k_Int32ub)); (GSwitch None [("LIGHT_LIGHTNESS_GET"%string, k_LightLightnessGet); ("LIGHT_LIGHTNESS_SET"%string, k_LightLightnessSet); ("LIGHT_LIGHTNESS_SET_UNACKNOWLEDGED"%string, k_LightLightnessSet); ("LIGHT_LIGHTNESS_STATUS"%string, k_LightLightnessStatus); ("LIGHT_LIGHTNESS_LINEAR_GET"%string, k_LightLightnessGet); ("LIGHT_LIGHTNESS_LINEAR_SET"%string, k_LightLightnessSet); ("LIGHT_LIGHTNESS_LINEAR_SET_UNACKNOWLEDGED"%string, k_LightLightnessSet); ("LIGHT_LIGHTNESS_LINEAR_STATUS"%string, k_LightLightnessStatus); ("LIGHT_LIGHTNESS_LAST_GET"%string, k_LightLightnessGet); ("LIGHT_LIGHTNESS_LAST_STATUS"%string, k_LightLightnessDefault); ("LIGHT_LIGHTNESS_DEFAULT_GET"%string, k_LightLightnessGet); ("LIGHT_LIGHTNESS_DEFAULT_STATUS"%string, k_LightLightnessDefault); ("LIGHT_LIGHTNESS_RANGE_GET"%string, k_LightLightnessGet); ("LIGHT_LIGHTNESS_RANGE_STATUS"%string, k_LightLightnessRangeStatus)] None)])).

(* light/lightness.py:83-86 *)
Definition k_LightLightnessRange : gcon :=
  (GStruct (Some "LightLightnessRange"%string) [(GRenamed "range_min"%string k_Int16ul); (GRenamed "range_max"%string k_Int16ul)]).

(* light/lightness.py:131-142 *)
Definition k_LightLightnessSetupMessage : gcon :=
  (GWrap (Some "LightLightnessSetupMessage"%string) (GStruct None [(GRenamed "opcode"%string (GWrap None k_Int32ub)); (GSwitch None [("LIGHT_LIGHTNESS_SETUP_DEFAULT_SET"%string, k_LightLightnessDefault); ("LIGHT_LIGHTNESS_SETUP_DEFAULT_SET_UNACKNOWLEDGED"%string, k_LightLightnessDefault); ("LIGHT_LIGHTNESS_SETUP_RANGE_SET"%string, k_LightLightnessRange); ("LIGHT_LIGHTNESS_SETUP_RANGE_SET_UNACKNOWLEDGED"%string, k_LightLightnessRange)] None)])).

(* light/ctl.py:60 *)
Definition k_LightCTLGet : gcon :=
  (GStruct (Some "LightCTLGet"%string) []).

(* light/ctl.py:73-76 *)
Definition k_LightCTLSetOptional : gcon :=
  (GStruct (Some "LightCTLSetOptional"%string) [(GRenamed "ctl_lightness"%string k_Int16ul); (GRenamed "ctl_temperature"%string k_Int16ul); (GRenamed "ctl_delta_uv"%string k_Int16ul); (GRenamed "tid"%string k_Int8ul); (GRenamed "transition_time"%string (GWrap None k_Float32b)); (GRenamed "delay"%string (GWrap None k_Float32b))]).

(* light/ctl.py:68-71 *)
Definition k_LightCTLSetMinimal : gcon :=
  (GStruct (Some "LightCTLSetMinimal"%string) [(GRenamed "ctl_lightness"%string k_Int16ul); (GRenamed "ctl_temperature"%string k_Int16ul); (GRenamed "ctl_delta_uv"%string k_Int16ul); (GRenamed "tid"%string k_Int8ul)]).

(* light/ctl.py:78-81 *)
Definition k_LightCTLSet : gcon :=
  (GWrap (Some "LightCTLSet"%string) (GSelect None [(GRenamed "optional"%string k_LightCTLSetOptional); (GRenamed "minimal"%string k_LightCTLSetMinimal)])).

(* light/ctl.py:88-93 *)
Definition k_LightCTLStatusOptional : gcon :=
  (GStruct (Some "LightCTLStatusOptional"%string) [(GRenamed "present_ctl_lightness"%string k_Int16ul); (GRenamed "present_ctl_temperature"%string k_Int16ul); (GRenamed "target_ctl_lightness"%string k_Int16ul); (GRenamed "target_ctl_temperature"%string k_Int16ul); (GRenamed "remaining_time"%string (GWrap None k_Float32b))]).

(* light/ctl.py:83-86 *)
Definition k_LightCTLStatusMinimal : gcon :=
  (GStruct (Some "LightCTLStatusMinimal"%string) [(GRenamed "present_ctl_lightness"%string k_Int16ul); (GRenamed "present_ctl_temperature"%string k_Int16ul)]).

(* light/ctl.py:95-98 *)
Definition k_LightCTLStatus : gcon :=
  (GWrap (Some "LightCTLStatus"%string) (GSelect None [(GRenamed "optional"%string k_LightCTLStatusOptional); (GRenamed "minimal"%string k_LightCTLStatusMinimal)])).

(* light/ctl.py:138-141 *)
Definition k_LightCTLRangeStatus : gcon :=
  (GStruct (Some "LightCTLRangeStatus"%string) [(GRenamed "status"%string k_StatusCodeAdapter); (GRenamed "range_min"%string k_Int16ul); (GRenamed "range_max"%string k_Int16ul)]).

(* light/ctl.py:123-126 *)
Definition k_LightCTLTemperatureSetOptional : gcon :=
  (GStruct (Some "LightCTLTemperatureSetOptional"%string) [(GRenamed "ctl_temperature"%string k_Int16ul); (GRenamed "ctl_delta_uv"%string k_Int16ul); (GRenamed "tid"%string k_Int8ul); (GRenamed "transition_time"%string (GWrap None k_Float32b)); (GRenamed "delay"%string (GWrap None k_Float32b))]).

(* light/ctl.py:117-121 *)
Definition k_LightCTLTemperatureSetMinimal : gcon :=
  (GStruct (Some "LightCTLTemperatureSetMinimal"%string) [(GRenamed "ctl_temperature"%string k_Int16ul); (GRenamed "ctl_delta_uv"%string k_Int16ul); (GRenamed "tid"%string k_Int8ul)]).

(* light/ctl.py:128-131 *)
Definition k_LightCTLTemperatureSet : gcon :=
  (GWrap (Some "LightCTLTemperatureSet"%string) (GSelect None [(GRenamed "optional"%string k_LightCTLTemperatureSetOptional); (GRenamed "minimal"%string k_LightCTLTemperatureSetMinimal)])).

(* light/ctl.py:105-110 *)
Definition k_LightCTLTemperatureStatusOptional : gcon :=
  (GStruct (Some "LightCTLTemperatureStatusOptional"%string) [(GRenamed "present_ctl_temperature"%string k_Int16ul); (GRenamed "present_ctl_delta_uv"%string k_Int16ul); (GRenamed "target_ctl_temperature"%string k_Int16ul); (GRenamed "target_ctl_delta_uv"%string k_Int16ul); (GRenamed "remaining_time"%string (GWrap None k_Float32b))]).

(* light/ctl.py:100-103 *)
Definition k_LightCTLTemperatureStatusMinimal : gcon :=
  (GStruct (Some "LightCTLTemperatureStatusMinimal"%string) [(GRenamed "present_ctl_temperature"%string k_Int16ul); (GRenamed "present_ctl_delta_uv"%string k_Int16ul)]).

(* light/ctl.py:112-115 *)
Definition k_LightCTLTemperatureStatus : gcon :=
  (GWrap (Some "LightCTLTemperatureStatus"%string) (GSelect None [(GRenamed "optional"%string k_LightCTLTemperatureStatusOptional); (GRenamed "minimal"%string k_LightCTLTemperatureStatusMinimal)])).

(* light/ctl.py:62-66 *)
Definition k_LightCTLDefault : gcon :=
  (GStruct (Some "LightCTLDefault"%string) [(GRenamed "ctl_lightness"%string k_Int16ul); (GRenamed "ctl_temperature"%string k_Int16ul); (GRenamed "ctl_delta_uv"%string k_Int16ul)]).

(* light/ctl.py:144-163 *)
Definition k_LightCTLMessage : gcon :=
  (GWrap (Some "LightCTLMessage"%string) (GStruct None [(GRenamed "opcode"%string (GWrap None k_Int32ub)); (GSwitch None [("LIGHT_CTL_GET"%string, k_LightCTLGet); ("LIGHT_CTL_SET"%string, k_LightCTLSet); ("LIGHT_CTL_SET_UNACKNOWLEDGED"%string, k_LightCTLSet); ("LIGHT_CTL_STATUS"%string, k_LightCTLStatus); ("LIGHT_CTL_TEMPERATURE_GET"%string, k_LightCTLGet); ("LIGHT_CTL_TEMPERATURE_RANGE_GET"%string, k_LightCTLGet); ("LIGHT_CTL_TEMPERATURE_RANGE_STATUS"%string, k_LightCTLRangeStatus); ("LIGHT_CTL_TEMPERATURE_SET"%string, k_LightCTLTemperatureSet); ("LIGHT_CTL_TEMPERATURE_SET_UNACKNOWLEDGED"%string, k_LightCTLTemperatureSet); ("LIGHT_CTL_TEMPERATURE_STATUS"%string, k_LightCTLTemperatureStatus); ("LIGHT_CTL_TEMPERATURE_DEFAULT_GET"%string, k_LightCTLGet); ("LIGHT_CTL_TEMPERATURE_DEFAULT_STATUS"%string, k_LightCTLDefault)] None)])).

(* light/ctl.py:133-136 *)
Definition k_LightCTLRange : gcon :=
  (GStruct (Some "LightCTLRange"%string) [(GRenamed "range_min"%string k_Int16ul); (GRenamed "range_max"%string k_Int16ul)]).

(* light/ctl.py:166-177 *)
Definition k_LightCTLSetupMessage : gcon :=
  (GWrap (Some "LightCTLSetupMessage"%string) (GStruct None [(GRenamed "opcode"%string (GWrap None k_Int32ub)); (GSwitch None [("LIGHT_CTL_SETUP_TEMPERATURE_DEFAULT_SET"%string, k_LightCTLDefault); ("LIGHT_CTL_SETUP_TEMPERATURE_DEFAULT_SET_UNACKNOWLEDGED"%string, k_LightCTLDefault); ("LIGHT_CTL_SETUP_TEMPERATURE_RANGE_SET"%string, k_LightCTLRange); ("LIGHT_CTL_SETUP_TEMPERATURE_RANGE_SET_UNACKNOWLEDGED"%string, k_LightCTLRange)] None)])).

(* health.py:68 *)
Definition k_HealthAttentionGet : gcon :=
  (GStruct (Some "HealthAttentionGet"%string) []).

(* health.py:44-46 *)
Definition k_HealthAttentionStatus : gcon :=
  (GStruct (Some "HealthAttentionStatus"%string) [(GRenamed "attention"%string k_Int8ul)]).

(* health.py:34-38 *)
Definition k_HealthFaultStatus : gcon :=
  (GStruct (Some "HealthFaultStatus"%string) [(GRenamed "test_id"%string k_Int8ul); (GRenamed "company_id"%string k_Int16ul); (GRenamed "fault_array"%string (GWrap None (GMany k_Int8ul)))]).

(* health.py:48-50 *)
Definition k_HealthFaultClear : gcon :=
  (GStruct (Some "HealthFaultClear"%string) [(GRenamed "company_id"%string k_Int16ul)]).

(* health.py:29-32 *)
Definition k_HealthFaultTest : gcon :=
  (GStruct (Some "HealthFaultTest"%string) [(GRenamed "test_id"%string k_Int8ul); (GRenamed "company_id"%string k_Int16ul)]).

(* health.py:62 *)
Definition k_HealthPeriodGet : gcon :=
  (GStruct (Some "HealthPeriodGet"%string) []).

(* health.py:40-42 *)
Definition k_HealthPeriodStatus : gcon :=
  (GStruct (Some "HealthPeriodStatus"%string) [(GRenamed "fast_period_divisor"%string (GWrap None k_Int8ul))]).

(* health.py:95-117 *)
Definition k_HealthMessage : gcon :=
  (GWrap (Some "HealthMessage"%string) (GStruct None [(GRenamed "opcode"%string (GWrap None k_Int32ub)); (GSwitch None [("HEALTH_ATTENTION_GET"%string, k_HealthAttentionGet); ("HEALTH_ATTENTION_SET"%string, k_HealthAttentionStatus); ("HEALTH_ATTENTION_SET_UNACKNOWLEDGED"%string, k_HealthAttentionStatus); ("HEALTH_ATTENTION_STATUS"%string, k_HealthAttentionStatus); ("HEALTH_CURRENT_STATUS"%string, k_HealthFaultStatus); ("HEALTH_FAULT_CLEAR"%string, k_HealthFaultClear); ("HEALTH_FAULT_CLEAR_UNACKNOWLEDGED"%string, k_HealthFaultClear); ("HEALTH_FAULT_GET"%string, k_HealthFaultClear); ("HEALTH_FAULT_STATUS"%string, k_HealthFaultStatus); ("HEALTH_FAULT_TEST"%string, k_HealthFaultTest); ("HEALTH_FAULT_TEST_UNACKNOWLEDGED"%string, k_HealthFaultTest); ("HEALTH_PERIOD_GET"%string, k_HealthPeriodGet); ("HEALTH_PERIOD_SET"%string, k_HealthPeriodStatus); ("HEALTH_PERIOD_SET_UNACKNOWLEDGED"%string, k_HealthPeriodStatus); ("HEALTH_PERIOD_STATUS"%string, k_HealthPeriodStatus)] None)])).

(* silvair/network_diagnostic_server.py:92 *)
Definition k_NetworkDiagnosticServerSubscriptionGet : gcon :=
  (GStruct (Some "NetworkDiagnosticServerSubscriptionGet"%string) []).

(* silvair/network_diagnostic_server.py:94-97 *)
Definition k_NetworkDiagnosticServerSubscriptionSet : gcon :=
  (GStruct (Some "NetworkDiagnosticServerSubscriptionSet"%string) [(GRenamed "destination"%string k_UnicastUnassignedGroupAddress); (GRenamed "period"%string k_Int16ul)]).

(* config.py:1051 *)
Definition k_ConfigHeartbeatHops : gcon :=
  (GWrap (Some "ConfigHeartbeatHops"%string) k_Int8ul).

(* silvair/network_diagnostic_server.py:65-70 *)
Definition k_RegistryRecord : gcon :=
  (GStruct (Some "RegistryRecord"%string) [(GRenamed "source"%string k_UnicastUnassignedAddress); (GRenamed "count"%string k_Int16ul); (GRenamed "min_hops"%string k_ConfigHeartbeatHops); (GRenamed "max_hops"%string k_ConfigHeartbeatHops)]).

(* silvair/network_diagnostic_server.py:99-104 *)
Definition k_NetworkDiagnosticServerSubscriptionStatus : gcon :=
  (GStruct (Some "NetworkDiagnosticServerSubscriptionStatus"%string) [(GRenamed "destination"%string k_UnicastUnassignedGroupAddress); (GRenamed "period"%string k_Int16ul); (GRenamed "max_record_count"%string k_Int8ul); (GRenamed "record"%string (GMany k_RegistryRecord))]).

(* silvair/network_diagnostic_server.py:106 *)
Definition k_NetworkDiagnosticServerRadioStatGet : gcon :=
  (GStruct (Some "NetworkDiagnosticServerRadioStatGet"%string) []).

(* silvair/network_diagnostic_server.py:108-120 *)
Definition k_NetworkDiagnosticServerParams : gcon :=
  (GWrap (Some "NetworkDiagnosticServerParams"%string) (GStruct None [(GRenamed "subopcode"%string (GWrap None k_Int8ul)); (GSwitch None [("SUBSCRIPTION_GET"%string, k_NetworkDiagnosticServerSubscriptionGet); ("SUBSCRIPTION_SET"%string, k_NetworkDiagnosticServerSubscriptionSet); ("SUBSCRIPTION_SET_UNACKNOWLEDGED"%string, k_NetworkDiagnosticServerSubscriptionSet); ("SUBSCRIPTION_STATUS"%string, k_NetworkDiagnosticServerSubscriptionStatus); ("RADIO_STAT_GET"%string, k_NetworkDiagnosticServerRadioStatGet)] None)])).

(* silvair/network_diagnostic_server.py:134-142 *)
Definition k_NetworkDiagnosticServerMessage : gcon :=
  (GWrap (Some "NetworkDiagnosticServerMessage"%string) (GStruct None [(GRenamed "opcode"%string (GWrap None k_Int32ub)); (GSwitch None [("SILVAIR_NDS"%string, k_NetworkDiagnosticServerParams)] None)])).

(* silvair/network_diagnostic_server.py:63 *)
Definition k_NetworkDiagnosticSetupServerPublicationGet : gcon :=
  (GStruct (Some "NetworkDiagnosticSetupServerPublicationGet"%string) []).

(* generics.py:65-68 *)
Definition k_TransitionTime : gcon :=
  (GWrap (Some "TransitionTime"%string) (GStruct None [(GRenamed "resolution"%string (GLeaf None (Some "UInt8"%string))); (GRenamed "steps"%string (GLeaf None (Some "UInt8"%string)))])).

(* config.py:543-546 *)
Definition k_Int12ul : gcon :=
  (GWrap (Some "Int12ul"%string) k_Int16ul).

(* config.py:1049 *)
Definition k_ConfigHeartbeatPublicationFeatures : gcon :=
  (GWrap (Some "ConfigHeartbeatPublicationFeatures"%string) k_Int16ul).

(* silvair/network_diagnostic_server.py:80-83 *)
Definition k_NetworkDiagnosticSetupServerPublicationSetOptional : gcon :=
  (GStruct (Some "NetworkDiagnosticSetupServerPublicationSetOptional"%string) [(GRenamed "destination"%string k_UnicastUnassignedGroupAddress); (GRenamed "count"%string k_Int16ul); (GRenamed "period"%string k_TransitionTime); (GRenamed "ttl"%string k_TTL); (GRenamed "net_key_index"%string k_Int12ul); (GRenamed "features"%string k_ConfigHeartbeatPublicationFeatures)]).

(* silvair/network_diagnostic_server.py:72-78 *)
Definition k_NetworkDiagnosticSetupServerPublicationSetMinimal : gcon :=
  (GStruct (Some "NetworkDiagnosticSetupServerPublicationSetMinimal"%string) [(GRenamed "destination"%string k_UnicastUnassignedGroupAddress); (GRenamed "count"%string k_Int16ul); (GRenamed "period"%string k_TransitionTime); (GRenamed "ttl"%string k_TTL); (GRenamed "net_key_index"%string k_Int12ul)]).

(* silvair/network_diagnostic_server.py:85-88 *)
Definition k_NetworkDiagnosticSetupServerPublicationStatus : gcon :=
  (GWrap (Some "NetworkDiagnosticSetupServerPublicationStatus"%string) (GSelect None [(GRenamed "optional"%string k_NetworkDiagnosticSetupServerPublicationSetOptional); (GRenamed "minimal"%string k_NetworkDiagnosticSetupServerPublicationSetMinimal)])).

(* silvair/network_diagnostic_server.py:122-132 *)
Definition k_NetworkDiagnosticSetupServerParams : gcon :=
  (GWrap (Some "NetworkDiagnosticSetupServerParams"%string) (GStruct None [(GRenamed "subopcode"%string (GWrap None k_Int8ul)); (GSwitch None [("PUBLICATION_GET"%string, k_NetworkDiagnosticSetupServerPublicationGet); ("PUBLICATION_SET"%string, k_NetworkDiagnosticSetupServerPublicationStatus); ("PUBLICATION_STATUS"%string, k_NetworkDiagnosticSetupServerPublicationStatus)] None)])).

(* silvair/network_diagnostic_server.py:144-152 *)
Definition k_NetworkDiagnosticSetupServerMessage : gcon :=
  (GWrap (Some "NetworkDiagnosticSetupServerMessage"%string) (GStruct None [(GRenamed "opcode"%string (GWrap None k_Int32ub)); (GSwitch None [("SILVAIR_NDS_SETUP"%string, k_NetworkDiagnosticSetupServerParams)] None)])).

(* scene.py:50 *)
Definition k_SceneGet : gcon :=
  (GStruct (Some "SceneGet"%string) []).

(* scene.py:57-62 *)
Definition k_SceneRecallWithTransition : gcon :=
  (GStruct (Some "SceneRecallWithTransition"%string) [(GRenamed "scene_number"%string (GWrap None k_Int16ul)); (GRenamed "tid"%string k_Int8ul); (GRenamed "transition_time"%string (GWrap None k_Float32b)); (GRenamed "delay"%string (GWrap None k_Float32b))]).

(* scene.py:52-55 *)
Definition k_SceneRecallMinimal : gcon :=
  (GStruct (Some "SceneRecallMinimal"%string) [(GRenamed "scene_number"%string (GWrap None k_Int16ul)); (GRenamed "tid"%string k_Int8ul)]).

(* scene.py:64-67 *)
Definition k_SceneRecall : gcon :=
  (GWrap (Some "SceneRecall"%string) (GSelect None [(GRenamed "optional"%string k_SceneRecallWithTransition); (GRenamed "minimal"%string k_SceneRecallMinimal)])).

(* scene.py:74-79 *)
Definition k_SceneStatusWithTargetScene : gcon :=
  (GStruct (Some "SceneStatusWithTargetScene"%string) [(GRenamed "status_code"%string (GWrap None k_Int8ul)); (GRenamed "current_scene"%string k_Int16ul); (GRenamed "target_scene"%string k_Int16ul); (GRenamed "remaining_time"%string (GWrap None k_Float32b))]).

(* scene.py:69-72 *)
Definition k_SceneStatusMinimal : gcon :=
  (GStruct (Some "SceneStatusMinimal"%string) [(GRenamed "status_code"%string (GWrap None k_Int8ul)); (GRenamed "current_scene"%string k_Int16ul)]).

(* scene.py:81-84 *)
Definition k_SceneStatus : gcon :=
  (GWrap (Some "SceneStatus"%string) (GSelect None [(GRenamed "optional"%string k_SceneStatusWithTargetScene); (GRenamed "minimal"%string k_SceneStatusMinimal)])).

(* scene.py:86 *)
Definition k_SceneRegisterGet : gcon :=
  (GStruct (Some "SceneRegisterGet"%string) []).

(* scene.py:88-92 *)
Definition k_SceneRegisterStatus : gcon :=
  (GStruct (Some "SceneRegisterStatus"%string) [(GRenamed "status_code"%string (GWrap None k_Int8ul)); (GRenamed "current_scene"%string k_Int16ul); (GRenamed "scenes"%string (GMany k_Int16ul))]).

(* scene.py:94-96 *)
Definition k_SceneSetupWithValidation : gcon :=
  (GStruct (Some "SceneSetupWithValidation"%string) [(GRenamed "scene_number"%string (GWrap None k_Int16ul))]).

(* scene.py:98-100 *)
Definition k_SceneSetup : gcon :=
  (GStruct (Some "SceneSetup"%string) [(GRenamed "scene_number"%string k_Int16ul)]).

(* scene.py:102-120 *)
Definition k_SceneMessage : gcon :=
  (GWrap (Some "SceneMessage"%string) (GStruct None [(GRenamed "opcode"%string (GWrap None k_Int32ub)); (GSwitch None [("SCENE_GET"%string, k_SceneGet); ("SCENE_RECALL"%string, k_SceneRecall); ("SCENE_RECALL_UNACKNOWLEDGED"%string, k_SceneRecall); ("SCENE_STATUS"%string, k_SceneStatus); ("SCENE_REGISTER_GET"%string, k_SceneRegisterGet); ("SCENE_REGISTER_STATUS"%string, k_SceneRegisterStatus); ("SCENE_STORE"%string, k_SceneSetupWithValidation); ("SCENE_STORE_UNACKNOWLEDGED"%string, k_SceneSetupWithValidation); ("SCENE_DELETE"%string, k_SceneSetup); ("SCENE_DELETE_UNACKNOWLEDGED"%string, k_SceneSetup)] None)])).

(* sensor.py:106-111 *)
Definition k_SensorPropertyId : gcon :=
  (GWrap (Some "SensorPropertyId"%string) k_Int16ul).

(* sensor.py:115-117 *)
Definition k_SensorGetOptional : gcon :=
  (GStruct (Some "SensorGetOptional"%string) [(GRenamed "property_id"%string k_SensorPropertyId)]).

(* sensor.py:113 *)
Definition k_SensorGetMinimal : gcon :=
  (GStruct (Some "SensorGetMinimal"%string) []).

(* sensor.py:119-122 *)
Definition k_SensorGet : gcon :=
  (GWrap (Some "SensorGet"%string) (GSelect None [(GRenamed "optional"%string k_SensorGetOptional); (GRenamed "minimal"%string k_SensorGetMinimal)])).

(* sensor.py:235-241 *)
Definition k_SensorDescriptorOptional : gcon :=
  (GStruct (Some "SensorDescriptorOptional"%string) [(GRenamed "sensor_property_id"%string k_SensorPropertyId); (GRenamed "_"%string (GWrap None (GWrap None (GWrap None (GStruct None [(GRenamed "sensor_positive_tolerance"%string (GLeaf None (Some "UInt16"%string))); (GRenamed "sensor_negative_tolerance"%string (GLeaf None (Some "UInt16"%string)))]))))); (GRenamed "sensor_positive_tolerance"%string (GWrap None (GRenamed "sensor_positive_tolerance"%string (GLeaf None (Some "UInt16"%string))))); (GRenamed "sensor_negative_tolerance"%string (GWrap None (GRenamed "sensor_negative_tolerance"%string (GLeaf None (Some "UInt16"%string))))); (GRenamed "sensor_sampling_funcion"%string k_Int8ul); (GRenamed "sensor_measurement_period"%string k_Int8ul); (GRenamed "sensor_update_interval"%string k_Int8ul)]).

(* sensor.py:231-233 *)
Definition k_SensorDescriptorMinimal : gcon :=
  (GStruct (Some "SensorDescriptorMinimal"%string) [(GRenamed "sensor_property_id"%string k_SensorPropertyId)]).

(* sensor.py:243-246 *)
Definition k_SensorDescriptorStatusItem : gcon :=
  (GWrap (Some "SensorDescriptorStatusItem"%string) (GSelect None [(GRenamed "optional"%string k_SensorDescriptorOptional); (GRenamed "minimal"%string k_SensorDescriptorMinimal)])).

(* sensor.py:248 *)
Definition k_SensorDescriptorStatus : gcon :=
  (GMany k_SensorDescriptorStatusItem).

(* properties.py:314-316 *)
Definition k_TimeDecihour8 : gcon :=
  (GStruct (Some "TimeDecihour8"%string) [(GRenamed "hour"%string (GWrap None k_Float64b))]).

(* properties.py:458-462 *)
Definition k_Temperature8InAPeriodOfDay : gcon :=
  (GStruct (Some "Temperature8InAPeriodOfDay"%string) [(GRenamed "temperature"%string (GWrap None k_Float64b)); (GRenamed "start_time"%string k_TimeDecihour8); (GRenamed "end_time"%string k_TimeDecihour8)]).

(* properties.py:310-312 *)
Definition k_TimeExponential8 : gcon :=
  (GStruct (Some "TimeExponential8"%string) [(GRenamed "seconds"%string (GWrap None k_Float32b))]).

(* properties.py:328-331 *)
Definition k_AverageCurrent : gcon :=
  (GStruct (Some "AverageCurrent"%string) [(GRenamed "electric_current_value"%string (GWrap None k_Float64b)); (GRenamed "sensing_duration"%string k_TimeExponential8)]).

(* properties.py:363-366 *)
Definition k_AverageVoltage : gcon :=
  (GStruct (Some "AverageVoltage"%string) [(GRenamed "voltage_value"%string (GWrap None k_Float64b)); (GRenamed "sensing_duration"%string k_TimeExponential8)]).

(* properties.py:501-503 *)
Definition k_LuminousIntensity : gcon :=
  (GStruct (Some "LuminousIntensity"%string) [(GRenamed "luminous_intensity"%string (GWrap None k_Float64b))]).

(* properties.py:554-556 *)
Definition k_ChromaticityTolerance : gcon :=
  (GStruct (Some "ChromaticityTolerance"%string) [(GRenamed "chromaticity_tolerance"%string (GWrap None k_Float64b))]).

(* properties.py:571-573 *)
Definition k_ColorRenderingIndex : gcon :=
  (GStruct (Some "ColorRenderingIndex"%string) [(GRenamed "color_rendering_index"%string (GWrap None k_Float64b))]).

(* properties.py:585-592 *)
Definition k_Appearance : gcon :=
  (GStruct (Some "Appearance"%string) [(GRenamed "_"%string (GWrap None (GWrap None (GWrap None (GStruct None [(GRenamed "category"%string (GLeaf None (Some "UInt16"%string))); (GRenamed "sub_category"%string (GLeaf None (Some "UInt8"%string)))]))))); (GRenamed "category"%string (GWrap None (GRenamed "category"%string (GLeaf None (Some "UInt16"%string))))); (GRenamed "sub_category"%string (GWrap None (GRenamed "sub_category"%string (GLeaf None (Some "UInt8"%string)))))]).

(* properties.py:594-596 *)
Definition k_CountryCode : gcon :=
  (GStruct (Some "CountryCode"%string) [(GRenamed "country_code"%string (GWrap None k_Float64b))]).

(* properties.py:318-320 *)
Definition k_DateUTC : gcon :=
  (GStruct (Some "DateUTC"%string) [(GRenamed "date"%string (GWrap None (GStruct None [(GRenamed "year"%string k_Int16ul); (GRenamed "month"%string k_Int8ul); (GRenamed "day"%string k_Int8ul)])))]).

(* properties.py:397-399 *)
Definition k_Energy : gcon :=
  (GStruct (Some "Energy"%string) [(GRenamed "energy"%string (GWrap None k_Float64b))]).

(* properties.py:581-583 *)
Definition k_GlobalTradeItemNumber : gcon :=
  (GStruct (Some "GlobalTradeItemNumber"%string) [(GRenamed "global_trade_item_number"%string (GLeaf None (Some "UInt64"%string)))]).

(* properties.py:446-449 *)
Definition k_TemperatureRange : gcon :=
  (GStruct (Some "TemperatureRange"%string) [(GRenamed "minimum_temperature"%string (GWrap None k_Float64b)); (GRenamed "maximum_temperature"%string (GWrap None k_Float64b))]).

(* properties.py:464-470 *)
Definition k_TemperatureStatistics : gcon :=
  (GStruct (Some "TemperatureStatistics"%string) [(GRenamed "average_temperature"%string (GWrap None k_Float64b)); (GRenamed "standard_deviation_temperature"%string (GWrap None k_Float64b)); (GRenamed "minimum_temperature"%string (GWrap None k_Float64b)); (GRenamed "maximum_temperature"%string (GWrap None k_Float64b)); (GRenamed "sensing_duration"%string k_TimeExponential8)]).

(* properties.py:540-542 *)
Definition k_Count16 : gcon :=
  (GStruct (Some "Count16"%string) [(GRenamed "count"%string (GWrap None k_Float64b))]).

(* properties.py:302-304 *)
Definition k_TimeSecond16 : gcon :=
  (GStruct (Some "TimeSecond16"%string) [(GRenamed "seconds"%string (GWrap None k_Float64b))]).

(* properties.py:602-607 *)
Definition k_EventStatistics : gcon :=
  (GStruct (Some "EventStatistics"%string) [(GRenamed "number_of_events"%string k_Count16); (GRenamed "average_event_duration"%string k_TimeSecond16); (GRenamed "time_elapsed_since_last_event"%string k_TimeExponential8); (GRenamed "sensing_duration"%string k_TimeExponential8)]).

(* properties.py:426-430 *)
Definition k_PowerSpecification : gcon :=
  (GStruct (Some "PowerSpecification"%string) [(GRenamed "minimum_power_value"%string (GWrap None k_Float64b)); (GRenamed "typical_power_value"%string (GWrap None k_Float64b)); (GRenamed "maximum_power_value"%string (GWrap None k_Float64b))]).

(* properties.py:298-300 *)
Definition k_TimeHour24 : gcon :=
  (GStruct (Some "TimeHour24"%string) [(GRenamed "hours"%string (GWrap None k_Float64b))]).

(* properties.py:451-456 *)
Definition k_Temperature8Statistics : gcon :=
  (GStruct (Some "Temperature8Statistics"%string) [(GRenamed "average_temperature"%string (GWrap None k_Float64b)); (GRenamed "standard_deviation_temperature"%string (GWrap None k_Float64b)); (GRenamed "minimum_temperature"%string (GWrap None k_Float64b)); (GRenamed "maximum_temperature"%string (GWrap None k_Float64b)); (GRenamed "sensing_duration"%string k_TimeExponential8)]).

(* properties.py:566-569 *)
Definition k_ChromaticityCoordinates : gcon :=
  (GStruct (Some "ChromaticityCoordinates"%string) [(GRenamed "chromaticity_x_coordinate"%string (GWrap None k_Float64b)); (GRenamed "chromaticity_y_coordinate"%string (GWrap None k_Float64b))]).

(* properties.py:562-564 *)
Definition k_CorrelatedColorTemperature : gcon :=
  (GStruct (Some "CorrelatedColorTemperature"%string) [(GRenamed "correlated_color_temperature"%string (GWrap None k_Float64b))]).

(* properties.py:484-486 *)
Definition k_LuminousFlux : gcon :=
  (GStruct (Some "LuminousFlux"%string) [(GRenamed "luminous_flux"%string (GWrap None k_Float64b))]).

(* properties.py:558-560 *)
Definition k_ChromaticDistanceFromPlanckian : gcon :=
  (GStruct (Some "ChromaticDistanceFromPlanckian"%string) [(GRenamed "distance_from_planckian"%string (GWrap None k_Float64b))]).

(* properties.py:338-342 *)
Definition k_ElectricCurrentSpecification : gcon :=
  (GStruct (Some "ElectricCurrentSpecification"%string) [(GRenamed "minimum_electric_current_value"%string (GWrap None k_Float64b)); (GRenamed "typical_electric_current_value"%string (GWrap None k_Float64b)); (GRenamed "maximum_electric_current_value"%string (GWrap None k_Float64b))]).

(* properties.py:344-349 *)
Definition k_ElectricCurrentStatistics : gcon :=
  (GStruct (Some "ElectricCurrentStatistics"%string) [(GRenamed "average_electric_current_value"%string (GWrap None k_Float64b)); (GRenamed "standard_deviation_electric_current_value"%string (GWrap None k_Float64b)); (GRenamed "minimum_electric_current_value"%string (GWrap None k_Float64b)); (GRenamed "maximum_electric_current_value"%string (GWrap None k_Float64b)); (GRenamed "sensing_duration"%string k_TimeExponential8)]).

(* properties.py:368-372 *)
Definition k_VoltageRange : gcon :=
  (GStruct (Some "VoltageRange"%string) [(GRenamed "minimum_voltage_value"%string (GWrap None k_Float64b)); (GRenamed "typical_voltage_value"%string (GWrap None k_Float64b)); (GRenamed "maximum_voltage_value"%string (GWrap None k_Float64b))]).

(* properties.py:536-538 *)
Definition k_Percentage8 : gcon :=
  (GStruct (Some "Percentage8"%string) [(GRenamed "percentage"%string (GWrap None k_Float64b))]).

(* properties.py:374-380 *)
Definition k_VoltageStatistics : gcon :=
  (GStruct (Some "VoltageStatistics"%string) [(GRenamed "average_voltage_value"%string (GWrap None k_Float64b)); (GRenamed "standard_deviation_voltage_value"%string (GWrap None k_Float64b)); (GRenamed "minimum_voltage_value"%string (GWrap None k_Float64b)); (GRenamed "maximum_voltage_value"%string (GWrap None k_Float64b)); (GRenamed "sensing_duration"%string k_TimeExponential8)]).

(* properties.py:509-511 *)
Definition k_Illuminance : gcon :=
  (GStruct (Some "Illuminance"%string) [(GRenamed "illuminance"%string (GWrap None k_Float64b))]).

(* properties.py:519-521 *)
Definition k_PerceivedLightness : gcon :=
  (GStruct (Some "PerceivedLightness"%string) [(GRenamed "perceived_lightness"%string k_Int16ul)]).

(* properties.py:548-550 *)
Definition k_Coefficient : gcon :=
  (GStruct (Some "Coefficient"%string) [(GRenamed "coefficient"%string (GWrap None k_Float64b))]).

(* properties.py:294-296 *)
Definition k_TimeMiliseconds24 : gcon :=
  (GStruct (Some "TimeMiliseconds24"%string) [(GRenamed "seconds"%string (GWrap None k_Float64b))]).

(* properties.py:505-507 *)
Definition k_LuminousEfficacy : gcon :=
  (GStruct (Some "LuminousEfficacy"%string) [(GRenamed "luminous_efficacy"%string (GWrap None k_Float64b))]).

(* properties.py:493-495 *)
Definition k_LuminousEnergy : gcon :=
  (GStruct (Some "LuminousEnergy"%string) [(GRenamed "luminous_energy"%string (GWrap None k_Float64b))]).

(* properties.py:497-499 *)
Definition k_LuminousExposure : gcon :=
  (GStruct (Some "LuminousExposure"%string) [(GRenamed "luminous_exposure"%string (GWrap None k_Float64b))]).

(* properties.py:488-491 *)
Definition k_LuminousFluxRange : gcon :=
  (GStruct (Some "LuminousFluxRange"%string) [(GRenamed "minimum_luminous_flux"%string (GWrap None k_Float64b)); (GRenamed "maximum_luminous_flux"%string (GWrap None k_Float64b))]).

(* properties.py:333-336 *)
Definition k_ElectricCurrentRange : gcon :=
  (GStruct (Some "ElectricCurrentRange"%string) [(GRenamed "minimum_electric_current_value"%string (GWrap None k_Float64b)); (GRenamed "maximum_electric_current_value"%string (GWrap None k_Float64b))]).

(* properties.py:598-600 *)
Definition k_Presence : gcon :=
  (GStruct (Some "Presence"%string) [(GRenamed "presence_detected"%string k_Flag)]).

(* properties.py:442-444 *)
Definition k_Temperature8 : gcon :=
  (GStruct (Some "Temperature8"%string) [(GRenamed "temperature"%string (GWrap None k_Float64b))]).

(* properties.py:422-424 *)
Definition k_Power : gcon :=
  (GStruct (Some "Power"%string) [(GRenamed "power"%string (GWrap None k_Float64b))]).

(* properties.py:438-440 *)
Definition k_Temperature : gcon :=
  (GStruct (Some "Temperature"%string) [(GRenamed "temperature"%string (GWrap None k_Float64b))]).

(* properties.py:324-326 *)
Definition k_ElectricCurrent : gcon :=
  (GStruct (Some "ElectricCurrent"%string) [(GRenamed "current"%string (GWrap None k_Float64b))]).

(* properties.py:359-361 *)
Definition k_Voltage : gcon :=
  (GStruct (Some "Voltage"%string) [(GRenamed "voltage"%string (GWrap None k_Float64b))]).

(* properties.py:406-410 *)
Definition k_EnergyInAPeriodOfDay : gcon :=
  (GStruct (Some "EnergyInAPeriodOfDay"%string) [(GRenamed "energy_value"%string (GWrap None k_Float64b)); (GRenamed "start_time"%string k_TimeDecihour8); (GRenamed "end_time"%string k_TimeDecihour8)]).

(* properties.py:609-613 *)
Definition k_RelativeRuntimeInAGenericLevelRange : gcon :=
  (GStruct (Some "RelativeRuntimeInAGenericLevelRange"%string) [(GRenamed "relative_value"%string (GWrap None k_Float64b)); (GRenamed "minimum_generic_level"%string (GWrap None k_Float64b)); (GRenamed "maximum_generic_level"%string (GWrap None k_Float64b))]).

(* properties.py:513-517 *)
Definition k_RelativeValueInAnIlluminanceRange : gcon :=
  (GStruct (Some "RelativeValueInAnIlluminanceRange"%string) [(GRenamed "relative_value"%string (GWrap None k_Float64b)); (GRenamed "minimum_illuminance"%string (GWrap None k_Float64b)); (GRenamed "maximum_illuminance"%string (GWrap None k_Float64b))]).

(* properties.py:476-480 *)
Definition k_RelativeValueInATemperatureRange : gcon :=
  (GStruct (Some "RelativeValueInATemperatureRange"%string) [(GRenamed "relative_value"%string (GWrap None k_Float64b)); (GRenamed "minimum_temperature"%string (GWrap None k_Float64b)); (GRenamed "maximum_temperature"%string (GWrap None k_Float64b))]).

(* properties.py:351-355 *)
Definition k_RelativeValueInACurrentRange : gcon :=
  (GStruct (Some "RelativeValueInACurrentRange"%string) [(GRenamed "relative_value"%string (GWrap None k_Float64b)); (GRenamed "minimum_current"%string (GWrap None k_Float64b)); (GRenamed "maximum_current"%string (GWrap None k_Float64b))]).

(* properties.py:382-386 *)
Definition k_RelativeValueInAVoltageRange : gcon :=
  (GStruct (Some "RelativeValueInAVoltageRange"%string) [(GRenamed "relative_value"%string (GWrap None k_Float64b)); (GRenamed "minimum_voltage"%string (GWrap None k_Float64b)); (GRenamed "maximum_voltage"%string (GWrap None k_Float64b))]).

(* properties.py:544-546 *)
Definition k_Count24 : gcon :=
  (GStruct (Some "Count24"%string) [(GRenamed "count"%string (GWrap None k_Float64b))]).

(* properties.py:401-403 *)
Definition k_PreciseEnergy : gcon :=
  (GStruct (Some "PreciseEnergy"%string) [(GRenamed "energy"%string (GWrap None k_Float64b))]).

(* properties.py:577-579 *)
Definition k_CosineOfTheAngle : gcon :=
  (GStruct (Some "CosineOfTheAngle"%string) [(GRenamed "cosine_of_the_angle"%string k_Int8sl)]).

(* properties.py:388-390 *)
Definition k_HighVoltage : gcon :=
  (GStruct (Some "HighVoltage"%string) [(GRenamed "high_voltage"%string (GWrap None k_Float64b))]).

(* properties.py:392-394 *)
Definition k_VoltageFrequency : gcon :=
  (GStruct (Some "VoltageFrequency"%string) [(GRenamed "voltage_frequency"%string k_Int16ul)]).

(* properties.py:523-525 *)
Definition k_LightDistribution : gcon :=
  (GStruct (Some "LightDistribution"%string) [(GRenamed "light_distribution"%string (GWrap None k_Int8ul))]).

(* properties.py:306-308 *)
Definition k_TimeSecond32 : gcon :=
  (GStruct (Some "TimeSecond32"%string) [(GRenamed "seconds"%string (GWrap None k_Float64b))]).

(* properties.py:472-474 *)
Definition k_HighTemperature : gcon :=
  (GStruct (Some "HighTemperature"%string) [(GRenamed "temperature"%string (GWrap None k_Float64b))]).

(* properties.py:527-529 *)
Definition k_LightOutput : gcon :=
  (GStruct (Some "LightOutput"%string) [(GRenamed "light_output"%string (GWrap None k_Float64b))]).

(* properties.py:412-414 *)
Definition k_ApparentEnergy32 : gcon :=
  (GStruct (Some "ApparentEnergy32"%string) [(GRenamed "energy"%string (GWrap None k_Float64b))]).

(* properties.py:432-434 *)
Definition k_ApparentPower : gcon :=
  (GStruct (Some "ApparentPower"%string) [(GRenamed "power"%string (GWrap None k_Float64b))]).

(* properties.py:416-418 *)
Definition k_Energy32 : gcon :=
  (GStruct (Some "Energy32"%string) [(GRenamed "energy"%string (GWrap None k_Float64b))]).

(* properties.py:531-533 *)
Definition k_LightSourceType : gcon :=
  (GStruct (Some "LightSourceType"%string) [(GRenamed "light_source_type"%string (GWrap None k_Int8ul))]).

(* construct *)
Definition k_Byte : gcon :=
  (GLeaf (Some "Byte"%string) (Some "UInt8"%string)).

(* sensor.py:133-138 *)
Definition k_SensorSettingPropertyValue : gcon :=
  (GSwitch (Some "SensorSettingPropertyValue"%string) [("AVERAGE_AMBIENT_TEMPERATURE_IN_A_PERIOD_OF_DAY"%string, k_Temperature8InAPeriodOfDay); ("AVERAGE_INPUT_CURRENT"%string, k_AverageCurrent); ("AVERAGE_INPUT_VOLTAGE"%string, k_AverageVoltage); ("AVERAGE_OUTPUT_CURRENT"%string, k_AverageCurrent); ("AVERAGE_OUTPUT_VOLTAGE"%string, k_AverageVoltage); ("CENTER_BEAM_INTENSITY_AT_FULL_POWER"%string, k_LuminousIntensity); ("CHROMATICITY_TOLERANCE"%string, k_ChromaticityTolerance); ("COLOR_RENDERING_INDEX_R9"%string, k_ColorRenderingIndex); ("COLOR_RENDERING_INDEX_RA"%string, k_ColorRenderingIndex); ("DEVICE_APPEARANCE"%string, k_Appearance); ("DEVICE_COUNTRY_OF_ORIGIN"%string, k_CountryCode); ("DEVICE_DATE_OF_MANUFACTURE"%string, k_DateUTC); ("DEVICE_ENERGY_USE_SINCE_TURN_ON"%string, k_Energy); ("DEVICE_FIRMWARE_REVISION"%string, (GWrap None (GText None))); ("DEVICE_GLOBAL_TRADE_ITEM_NUMBER"%string, k_GlobalTradeItemNumber); ("DEVICE_HARDWARE_REVISION"%string, (GWrap None (GText None))); ("DEVICE_MANUFACTURER_NAME"%string, (GWrap None (GText None))); ("DEVICE_MODEL_NUMBER"%string, (GWrap None (GText None))); ("DEVICE_OPERATING_TEMPERATURE_RANGE_SPECIFICATION"%string, k_TemperatureRange); ("DEVICE_OPERATING_TEMPERATURE_STATISTICAL_VALUES"%string, k_TemperatureStatistics); ("DEVICE_OVER_TEMPERATURE_EVENT_STATISTICS"%string, k_EventStatistics); ("DEVICE_POWER_RANGE_SPECIFICATION"%string, k_PowerSpecification); ("DEVICE_RUNTIME_SINCE_TURN_ON"%string, k_TimeHour24); ("DEVICE_RUNTIME_WARRANTY"%string, k_TimeHour24); ("DEVICE_SERIAL_NUMBER"%string, (GWrap None (GText None))); ("DEVICE_SOFTWARE_REVISION"%string, (GWrap None (GText None))); ("DEVICE_UNDER_TEMPERATURE_EVENT_STATISTICS"%string, k_EventStatistics); ("INDOOR_AMBIENT_TEMPERATURE_STATISTICAL_VALUES"%string, k_Temperature8Statistics); ("INITIAL_CIE1931_CHROMATICITY_COORDINATES"%string, k_ChromaticityCoordinates); ("INITIAL_CORRELATED_COLOR_TEMPERATURE"%string, k_CorrelatedColorTemperature); ("INITIAL_LUMINOUS_FLUX"%string, k_LuminousFlux); ("INITIAL_PLANCKIAN_DISTANCE"%string, k_ChromaticDistanceFromPlanckian); ("INPUT_CURRENT_RANGE_SPECIFICATION"%string, k_ElectricCurrentSpecification); ("INPUT_CURRENT_STATISTICS"%string, k_ElectricCurrentStatistics); ("INPUT_OVER_CURRENT_EVENT_STATISTICS"%string, k_EventStatistics); ("INPUT_OVER_RIPPLE_VOLTAGE_EVENT_STATISTICS"%string, k_EventStatistics); ("INPUT_OVER_VOLTAGE_EVENT_STATISTICS"%string, k_EventStatistics); ("INPUT_UNDER_CURRENT_EVENT_STATISTICS"%string, k_EventStatistics); ("INPUT_UNDER_VOLTAGE_EVENT_STATISTICS"%string, k_EventStatistics); ("INPUT_VOLTAGE_RANGE_SPECIFICATION"%string, k_VoltageRange); ("INPUT_VOLTAGE_RIPPLE_SPECIFICATION"%string, k_Percentage8); ("INPUT_VOLTAGE_STATISTICS"%string, k_VoltageStatistics); ("LIGHT_CONTROL_AMBIENT_LUXLEVEL_ON"%string, k_Illuminance); ("LIGHT_CONTROL_AMBIENT_LUXLEVEL_PROLONG"%string, k_Illuminance); ("LIGHT_CONTROL_AMBIENT_LUXLEVEL_STANDBY"%string, k_Illuminance); ("LIGHT_CONTROL_LIGHTNESS_ON"%string, k_PerceivedLightness); ("LIGHT_CONTROL_LIGHTNESS_PROLONG"%string, k_PerceivedLightness); ("LIGHT_CONTROL_LIGHTNESS_STANDBY"%string, k_PerceivedLightness); ("LIGHT_CONTROL_REGULATOR_ACCURACY"%string, k_Percentage8); ("LIGHT_CONTROL_REGULATOR_KID"%string, k_Coefficient); ("LIGHT_CONTROL_REGULATOR_KIU"%string, k_Coefficient); ("LIGHT_CONTROL_REGULATOR_KPD"%string, k_Coefficient); ("LIGHT_CONTROL_REGULATOR_KPU"%string, k_Coefficient); ("LIGHT_CONTROL_TIME_FADE"%string, k_TimeMiliseconds24); ("LIGHT_CONTROL_TIME_FADE_ON"%string, k_TimeMiliseconds24); ("LIGHT_CONTROL_TIME_FADE_STANDBY_AUTO"%string, k_TimeMiliseconds24); ("LIGHT_CONTROL_TIME_FADE_STANDBY_MANUAL"%string, k_TimeMiliseconds24); ("LIGHT_CONTROL_TIME_OCCUPANCY_DELAY"%string, k_TimeMiliseconds24); ("LIGHT_CONTROL_TIME_PROLONG"%string, k_TimeMiliseconds24); ("LIGHT_CONTROL_TIME_RUN_ON"%string, k_TimeMiliseconds24); ("LUMEN_MAINTENANCE_FACTOR"%string, k_Percentage8); ("LUMINOUS_EFFICACY"%string, k_LuminousEfficacy); ("LUMINOUS_ENERGY_SINCE_TURN_ON"%string, k_LuminousEnergy); ("LUMINOUS_EXPOSURE"%string, k_LuminousExposure); ("LUMINOUS_FLUX_RANGE"%string, k_LuminousFluxRange); ("MOTION_SENSED"%string, k_Percentage8); ("MOTION_THRESHOLD"%string, k_Percentage8); ("OPEN_CIRCUIT_EVENT_STATISTICS"%string, k_EventStatistics); ("OUTDOOR_STATISTICAL_VALUES"%string, k_Temperature8Statistics); ("OUTPUT_CURRENT_RANGE"%string, k_ElectricCurrentRange); ("OUTPUT_CURRENT_STATISTICS"%string, k_ElectricCurrentStatistics); ("OUTPUT_RIPPLE_VOLTAGE_SPECIFICATION"%string, k_Percentage8); ("OUTPUT_VOLTAGE_RANGE"%string, k_VoltageRange); ("OUTPUT_VOLTAGE_STATISTICS"%string, k_VoltageStatistics); ("OVER_OUTPUT_RIPPLE_VOLTAGE_EVENT_STATISTICS"%string, k_EventStatistics); ("PEOPLE_COUNT"%string, k_Count16); ("PRESENCE_DETECTED"%string, k_Presence); ("PRESENT_AMBIENT_LIGHT_LEVEL"%string, k_Illuminance); ("PRESENT_AMBIENT_TEMPERATURE"%string, k_Temperature8); ("PRESENT_CIE1931_CHROMATICITY_COORDINATES"%string, k_ChromaticityCoordinates); ("PRESENT_CORRELATED_COLOR_TEMPERATURE"%string, k_CorrelatedColorTemperature); ("PRESENT_DEVICE_INPUT_POWER"%string, k_Power); ("PRESENT_DEVICE_OPERATING_EFFICIENCY"%string, k_Percentage8); ("PRESENT_DEVICE_OPERATING_TEMPERATURE"%string, k_Temperature); ("PRESENT_ILLUMINANCE"%string, k_Illuminance); ("PRESENT_INDOOR_AMBIENT_TEMPERATURE"%string, k_Temperature8); ("PRESENT_INPUT_CURRENT"%string, k_ElectricCurrent); ("PRESENT_INPUT_RIPPLE_VOLTAGE"%string, k_Percentage8); ("PRESENT_INPUT_VOLTAGE"%string, k_Voltage); ("PRESENT_LUMINOUS_FLUX"%string, k_LuminousFlux); ("PRESENT_OUTDOOR_AMBIENT_TEMPERATURE"%string, k_Temperature8); ("PRESENT_OUTPUT_CURRENT"%string, k_ElectricCurrent); ("PRESENT_OUTPUT_VOLTAGE"%string, k_Voltage); ("PRESENT_PLANCKIAN_DISTANCE"%string, k_ChromaticDistanceFromPlanckian); ("PRESENT_RELATIVE_OUTPUT_RIPPLE_VOLTAGE"%string, k_Percentage8); ("RELATIVE_DEVICE_ENERGY_USE_IN_A_PERIOD_OF_DAY"%string, k_EnergyInAPeriodOfDay); ("RELATIVE_DEVICE_RUNTIME_IN_A_GENERIC_LEVEL_RANGE"%string, k_RelativeRuntimeInAGenericLevelRange); ("RELATIVE_EXPOSURE_TIME_IN_AN_ILLUMINANCE_RANGE"%string, k_RelativeValueInAnIlluminanceRange); ("RELATIVE_RUNTIME_IN_A_CORRELATED_COLOR_TEMPERATURE_RANGE"%string, k_LuminousEnergy); ("RELATIVE_RUNTIME_IN_A_DEVICE_OPERATING_TEMPERATURE_RANGE"%string, k_RelativeValueInATemperatureRange); ("RELATIVE_RUNTIME_IN_AN_INPUT_CURRENT_RANGE"%string, k_RelativeValueInACurrentRange); ("RELATIVE_RUNTIME_IN_AN_INPUT_VOLTAGE_RANGE"%string, k_RelativeValueInAVoltageRange); ("SHORT_CIRCUIT_EVENT_STATISTICS"%string, k_EventStatistics); ("TIME_SINCE_MOTION_SENSED"%string, k_TimeSecond16); ("TIME_SINCE_PRESENCE_DETECTED"%string, k_TimeSecond16); ("TOTAL_DEVICE_ENERGY_USE"%string, k_Energy); ("TOTAL_DEVICE_OFF_ON_CYCLES"%string, k_Count24); ("TOTAL_DEVICE_POWER_ON_CYCLES"%string, k_Count24); ("TOTAL_DEVICE_POWER_ON_TIME"%string, k_TimeHour24); ("TOTAL_DEVICE_RUNTIME"%string, k_TimeHour24); ("TOTAL_LIGHT_EXPOSURE_TIME"%string, k_TimeHour24); ("TOTAL_LUMINOUS_ENERGY"%string, k_LuminousEnergy); ("PRECISE_TOTAL_DEVICE_ENERGY_USE"%string, k_PreciseEnergy); ("POWER_FACTOR"%string, k_CosineOfTheAngle); ("EXTERNAL_SUPPLY_VOLTAGE"%string, k_HighVoltage); ("EXTERNAL_SUPPLY_VOLTAGE_FREQUENCY"%string, k_VoltageFrequency); ("LIGHT_DISTRIBUTION"%string, k_LightDistribution); ("LIGHT_SOURCE_CURRENT"%string, k_AverageCurrent); ("LIGHT_SOURCE_ON_TIME_NOT_RESETTABLE"%string, k_TimeSecond32); ("LIGHT_SOURCE_ON_TIME_RESETTABLE"%string, k_TimeSecond32); ("LIGHT_SOURCE_OPEN_CIRCUIT_STATISTICS"%string, k_EventStatistics); ("LIGHT_SOURCE_OVERALL_FAILURES_STATISTICS"%string, k_EventStatistics); ("LIGHT_SOURCE_SHORT_CIRCUIT_STATISTICS"%string, k_EventStatistics); ("LIGHT_SOURCE_START_COUNTER_RESETTABLE"%string, k_Count24); ("LIGHT_SOURCE_TEMPERATURE"%string, k_HighTemperature); ("LIGHT_SOURCE_THERMAL_DERATING_STATISTICS"%string, k_EventStatistics); ("LIGHT_SOURCE_THERMAL_SHUTDOWN_STATISTICS"%string, k_EventStatistics); ("LIGHT_SOURCE_TOTAL_POWER_ON_CYCLES"%string, k_Count24); ("LIGHT_SOURCE_VOLTAGE"%string, k_AverageVoltage); ("LUMINAIRE_COLOR"%string, (GWrap None (GText None))); ("LUMINAIRE_IDENTIFICATION_NUMBER"%string, (GWrap None (GText None))); ("LUMINAIRE_NOMINAL_INPUT_POWER"%string, k_Power); ("LUMINAIRE_NOMINAL_MAXIMUM_AC_MAINS_VOLTAGE"%string, k_Voltage); ("LUMINAIRE_NOMINAL_MINIMUM_AC_MAINS_VOLTAGE"%string, k_Voltage); ("LUMINAIRE_POWER_AT_MINIMUM_DIM_LEVEL"%string, k_Power); ("LUMINAIRE_TIME_OF_MANUFACTURE"%string, k_DateUTC); ("NOMINAL_LIGHT_OUTPUT"%string, k_LightOutput); ("OVERALL_FAILURE_CONDITION"%string, k_EventStatistics); ("RATED_MEDIAN_USEFUL_LIFE_OF_LUMINAIRE"%string, k_TimeHour24); ("RATED_MEDIAN_USEFUL_LIGHT_SOURCE_STARTS"%string, k_Count24); ("REFERENCE_TEMPERATURE"%string, k_HighTemperature); ("TOTAL_DEVICE_STARTS"%string, k_Count24); ("LUMINAIRE_IDENTIFICATION_STRING"%string, (GWrap None (GText None))); ("OUTPUT_POWER_LIMITATION"%string, k_EventStatistics); ("THERMAL_DERATING"%string, k_EventStatistics); ("OUTPUT_CURRENT_PERCENT"%string, k_Percentage8); ("LUMINAIRE_MANUFACTURER_GTIN"%string, k_GlobalTradeItemNumber); ("APPARENT_ENERGY"%string, k_ApparentEnergy32); ("APPARENT_POWER"%string, k_ApparentPower); ("ACTIVE_ENERGY_LOAD_SIDE"%string, k_Energy32); ("ACTIVE_POWER_LOAD_SIDE"%string, k_Power); ("LIGHT_SOURCE_TYPE"%string, k_LightSourceType); ("DESIRED_AMBIENT_TEMPERATURE"%string, k_Temperature8); ("SENSOR_GAIN"%string, k_Coefficient); ("PRECISE_PRESENT_AMBIENT_TEMPERATURE"%string, k_Temperature)] (Some ("sensor_setting_raw"%string, (GMany k_Byte)))).

(* sensor.py:291 *)
Definition k_SensorData : gcon :=
  (GWrap (Some "SensorData"%string) (GStruct None [(GRenamed "format"%string k_Int8ul); (GRenamed "length"%string k_Int16ul); (GRenamed "sensor_setting_property_id"%string k_SensorPropertyId); k_SensorSettingPropertyValue])).

(* sensor.py:293 *)
Definition k_SensorStatus : gcon :=
  (GMany k_SensorData).

(* sensor.py:340-355 *)
Definition k_SensorMessage : gcon :=
  (GWrap (Some "SensorMessage"%string) (GStruct None [(GRenamed "opcode"%string (GWrap None k_Int32ub)); (GSwitch None [("SENSOR_DESCRIPTOR_GET"%string, k_SensorGet); ("SENSOR_DESCRIPTOR_STATUS"%string, k_SensorDescriptorStatus); ("SENSOR_GET"%string, k_SensorGet); ("SENSOR_STATUS"%string, k_SensorStatus)] None)])).

(* sensor.py:124-126 *)
Definition k_SensorSettingsGet : gcon :=
  (GStruct (Some "SensorSettingsGet"%string) [(GRenamed "sensor_property_id"%string k_SensorPropertyId)]).

(* sensor.py:226-229 *)
Definition k_SensorSettingsStatus : gcon :=
  (GStruct (Some "SensorSettingsStatus"%string) [(GRenamed "sensor_property_id"%string k_SensorPropertyId); (GRenamed "sensor_setting_property_ids"%string (GMany k_SensorPropertyId))]).

(* sensor.py:128-131 *)
Definition k_SensorSettingGet : gcon :=
  (GStruct (Some "SensorSettingGet"%string) [(GRenamed "sensor_property_id"%string k_SensorPropertyId); (GRenamed "sensor_setting_property_id"%string k_SensorPropertyId)]).

(* sensor.py:200 *)
Definition k_SensorSettingSet : gcon :=
  (GWrap (Some "SensorSettingSet"%string) (GStruct None [(GRenamed "sensor_property_id"%string k_SensorPropertyId); (GRenamed "sensor_setting_property_id"%string k_SensorPropertyId); k_SensorSettingPropertyValue])).

(* sensor.py:224 *)
Definition k_SensorSettingStatus : gcon :=
  (GWrap (Some "SensorSettingStatus"%string) (GStruct None [(GRenamed "sensor_property_id"%string k_SensorPropertyId); (GRenamed "sensor_setting_property_id"%string k_SensorPropertyId); (GRenamed "sensor_setting_access"%string k_Int8ul); k_SensorSettingPropertyValue])).

(* sensor.py:357-374 *)
Definition k_SensorSetupMessage : gcon :=
  (GWrap (Some "SensorSetupMessage"%string) (GStruct None [(GRenamed "opcode"%string (GWrap None k_Int32ub)); (GSwitch None [("SENSOR_CADENCE_GET"%string, k_SensorGetOptional); ("SENSOR_SETTINGS_GET"%string, k_SensorSettingsGet); ("SENSOR_SETTINGS_STATUS"%string, k_SensorSettingsStatus); ("SENSOR_SETTING_GET"%string, k_SensorSettingGet); ("SENSOR_SETTING_SET"%string, k_SensorSettingSet); ("SENSOR_SETTING_SET_UNACKNOWLEDGED"%string, k_SensorSettingSet); ("SENSOR_SETTING_STATUS"%string, k_SensorSettingStatus)] None)])).

(* silvair/light_extended_controller.py:77-79 *)
Definition k_LightExtendedControllerPropertyGet : gcon :=
  (GStruct (Some "LightExtendedControllerPropertyGet"%string) [(GRenamed "property_id"%string (GWrap None k_Int16ul))]).

(* silvair/light_extended_controller.py:81 *)
Definition k_LightExtendedControllerPropertySet : gcon :=
  (GWrap (Some "LightExtendedControllerPropertySet"%string) (GStruct None [(GRenamed "property_id"%string (GWrap None k_Int16ul)); (GSwitch None [("AUTO_RESUME_MODE"%string, k_Flag); ("AUTO_RESUME_TIMER"%string, k_TimeMiliseconds24)] None)])).

(* silvair/light_extended_controller.py:83 *)
Definition k_LightExtendedControllerPropertyStatus : gcon :=
  (GWrap (Some "LightExtendedControllerPropertyStatus"%string) (GStruct None [(GRenamed "property_id"%string (GWrap None k_Int16ul)); (GSwitch None [("AUTO_RESUME_MODE"%string, k_Flag); ("AUTO_RESUME_TIMER"%string, k_TimeMiliseconds24)] None)])).

(* silvair/light_extended_controller.py:85-87 *)
Definition k_LightExtendedControllerSyncIntegralStatus : gcon :=
  (GStruct (Some "LightExtendedControllerSyncIntegralStatus"%string) [(GRenamed "sync_integral"%string k_Int16ul)]).

(* silvair/light_extended_controller.py:89-101 *)
Definition k_LightExtendedControllerParams : gcon :=
  (GWrap (Some "LightExtendedControllerParams"%string) (GStruct None [(GRenamed "subopcode"%string (GWrap None k_Int8ul)); (GSwitch None [("PROPERTY_GET"%string, k_LightExtendedControllerPropertyGet); ("PROPERTY_SET"%string, k_LightExtendedControllerPropertySet); ("PROPERTY_SET_UNACKNOWLEDGED"%string, k_LightExtendedControllerPropertySet); ("PROPERTY_STATUS"%string, k_LightExtendedControllerPropertyStatus); ("SYNC_INTEGRAL_STATUS"%string, k_LightExtendedControllerSyncIntegralStatus)] None)])).

(* silvair/light_extended_controller.py:103-111 *)
Definition k_LightExtendedControllerMessage : gcon :=
  (GWrap (Some "LightExtendedControllerMessage"%string) (GStruct None [(GRenamed "opcode"%string (GWrap None k_Int32ub)); (GSwitch None [("SILVAIR_LEC"%string, k_LightExtendedControllerParams)] None)])).

(* time.py:251 *)
Definition k_TimeGet : gcon :=
  (GStruct (Some "TimeGet"%string) []).

(* time.py:173-182 *)
Definition k_DateTime : gcon :=
  (GStruct (Some "DateTime"%string) [(GRenamed "year"%string k_Int16ul); (GRenamed "month"%string k_Int8ul); (GRenamed "day"%string k_Int8ul); (GRenamed "hour"%string k_Int8ul); (GRenamed "minute"%string k_Int8ul); (GRenamed "second"%string k_Int8ul); (GRenamed "microsecond"%string k_Int24ul); (GRenamed "time_zone_offset"%string (GWrap None k_Int16sl))]).

(* construct *)
Definition k_Float32l : gcon :=
  (GLeaf (Some "Float32l"%string) (Some "Float32"%string)).

(* time.py:253 *)
Definition k_TimeSet : gcon :=
  (GWrap (Some "TimeSet"%string) (GStruct None [(GRenamed "date"%string k_DateTime); (GRenamed "tai_utc_delta"%string (GWrap None k_Int16sl)); (GRenamed "time_authority"%string k_Flag); (GRenamed "uncertainty"%string (GWrap None k_Float32l))])).

(* time.py:255 *)
Definition k_TimeStatus : gcon :=
  (GWrap (Some "TimeStatus"%string) (GStruct None [(GRenamed "date"%string k_DateTime); (GRenamed "tai_utc_delta"%string (GWrap None k_Int16sl)); (GRenamed "time_authority"%string k_Flag); (GRenamed "uncertainty"%string (GWrap None k_Float32l))])).

(* time.py:257 *)
Definition k_TimeZoneGet : gcon :=
  (GStruct (Some "TimeZoneGet"%string) []).

(* time.py:259-262 *)
Definition k_TimeZoneSet : gcon :=
  (GStruct (Some "TimeZoneSet"%string) [(GRenamed "time_zone_offset_new"%string k_Int8ul); (GRenamed "tai_of_zone_change"%string (GLeaf None (Some "UInt64"%string)))]).

(* time.py:264-268 *)
Definition k_TimeZoneStatus : gcon :=
  (GStruct (Some "TimeZoneStatus"%string) [(GRenamed "time_zone_offset_current"%string k_Int8ul); (GRenamed "time_zone_offset_new"%string k_Int8ul); (GRenamed "tai_of_zone_change"%string (GLeaf None (Some "UInt64"%string)))]).

(* time.py:270 *)
Definition k_TAIUTCDeltaGet : gcon :=
  (GStruct (Some "TAIUTCDeltaGet"%string) []).

(* time.py:272-275 *)
Definition k_TAIUTCDeltaSet : gcon :=
  (GStruct (Some "TAIUTCDeltaSet"%string) [(GRenamed "_"%string (GWrap None (GWrap None (GWrap None (GStruct None [(GWrap None GSkip); (GRenamed "tai_utc_delta_new"%string (GLeaf None (Some "UInt16"%string)))]))))); (GRenamed "tai_utc_delta_new"%string (GWrap None (GRenamed "tai_utc_delta_new"%string (GLeaf None (Some "UInt16"%string))))); (GRenamed "tai_of_delta_change"%string (GLeaf None (Some "UInt64"%string)))]).

(* time.py:277-281 *)
Definition k_TAIUTCDeltaStatus : gcon :=
  (GStruct (Some "TAIUTCDeltaStatus"%string) [(GRenamed "_"%string (GWrap None (GWrap None (GWrap None (GStruct None [(GWrap None GSkip); (GRenamed "tai_utc_delta_current"%string (GLeaf None (Some "UInt16"%string)))]))))); (GRenamed "tai_utc_delta_current"%string (GWrap None (GRenamed "tai_utc_delta_current"%string (GLeaf None (Some "UInt16"%string))))); (GRenamed "_"%string (GWrap None (GWrap None (GWrap None (GStruct None [(GWrap None GSkip); (GRenamed "tai_utc_delta_new"%string (GLeaf None (Some "UInt16"%string)))]))))); (GRenamed "tai_utc_delta_new"%string (GWrap None (GRenamed "tai_utc_delta_new"%string (GLeaf None (Some "UInt16"%string))))); (GRenamed "tai_of_delta_change"%string (GLeaf None (Some "UInt64"%string)))]).

(* time.py:283 *)
Definition k_TimeRoleGet : gcon :=
  (GStruct (Some "TimeRoleGet"%string) []).

(* time.py:247-249 *)
Definition k_TimeRoleStatus : gcon :=
  (GStruct (Some "TimeRoleStatus"%string) [(GRenamed "time_role"%string (GWrap None k_Int8ul))]).

(* time.py:308-327 *)
Definition k_TimeMessage : gcon :=
  (GWrap (Some "TimeMessage"%string) (GStruct None [(GRenamed "opcode"%string (GWrap None k_Int32ub)); (GSwitch None [("TIME_GET"%string, k_TimeGet); ("TIME_SET"%string, k_TimeSet); ("TIME_STATUS"%string, k_TimeStatus); ("TIME_ZONE_GET"%string, k_TimeZoneGet); ("TIME_ZONE_SET"%string, k_TimeZoneSet); ("TIME_ZONE_STATUS"%string, k_TimeZoneStatus); ("TAI_UTC_DELTA_GET"%string, k_TAIUTCDeltaGet); ("TAI_UTC_DELTA_SET"%string, k_TAIUTCDeltaSet); ("TAI_UTC_DELTA_STATUS"%string, k_TAIUTCDeltaStatus); ("TIME_ROLE_GET"%string, k_TimeRoleGet); ("TIME_ROLE_SET"%string, k_TimeRoleStatus); ("TIME_ROLE_STATUS"%string, k_TimeRoleStatus)] None)])).

(* construct *)
Definition k_Int64ul : gcon :=
  (GLeaf (Some "Int64ul"%string) (Some "UInt64"%string)).

(* construct *)
Definition k_Int64sl : gcon :=
  (GLeaf (Some "Int64sl"%string) (Some "Int64"%string)).

(* construct *)
Definition k_Float64l : gcon :=
  (GLeaf (Some "Float64l"%string) (Some "Float64"%string)).

(* silvair/debugV2.py:125-146 *)
Definition k_DebugV2Parameter : gcon :=
  (GWrap (Some "DebugV2Parameter"%string) (GStruct None [(GRenamed "data_type"%string (GWrap None k_Int8ul)); (GSwitch None [("UINT8"%string, k_Int8ul); ("UINT16"%string, k_Int16ul); ("UINT32"%string, k_Int32ul); ("UINT64"%string, k_Int64ul); ("INT8"%string, k_Int8sl); ("INT16"%string, k_Int16sl); ("INT32"%string, k_Int32sl); ("INT64"%string, k_Int64sl); ("FLOAT"%string, k_Float32l); ("DOUBLE"%string, k_Float64l); ("ENUM"%string, k_Int8ul); ("STRING"%string, (GText None)); ("ARRAY"%string, (GFocused None (GMany k_Int8ul))); ("INVALID"%string, (GStruct None []))] None)])).

(* silvair/debugV2.py:148-153 *)
Definition k_DebugV2SubMessage : gcon :=
  (GStruct (Some "DebugV2SubMessage"%string) [(GRenamed "subopcode"%string (GWrap None k_Int8ul)); (GRenamed "parameter_type"%string k_Int8ul); (GRenamed "page_number"%string k_Int8ul); (GRenamed "payload"%string (GMany k_DebugV2Parameter))]).

(* silvair/debugV2.py:155-163 *)
Definition k_DebugV2Message : gcon :=
  (GWrap (Some "DebugV2Message"%string) (GStruct None [(GRenamed "opcode"%string (GWrap None k_Int32ub)); (GSwitch None [("SILVAIR_DEBUG_V2"%string, k_DebugV2SubMessage)] None)])).

(* silvair/rrule_scheduler.py:188 *)
Definition k_RulesListGet : gcon :=
  (GStruct (Some "RulesListGet"%string) []).

(* silvair/rrule_scheduler.py:152 *)
Definition k_RuleID : gcon :=
  (GWrap (Some "RuleID"%string) k_Int8ul).

(* silvair/rrule_scheduler.py:190-192 *)
Definition k_RulesListStatus : gcon :=
  (GStruct (Some "RulesListStatus"%string) [(GRenamed "rule_ids"%string (GWrap None (GMany k_RuleID)))]).

(* silvair/rrule_scheduler.py:194 *)
Definition k_RegisterMaxSizeGet : gcon :=
  (GStruct (Some "RegisterMaxSizeGet"%string) []).

(* silvair/rrule_scheduler.py:196-198 *)
Definition k_RegisterMaxSizeStatus : gcon :=
  (GStruct (Some "RegisterMaxSizeStatus"%string) [(GRenamed "register_max_size"%string k_Int32ul)]).

(* silvair/rrule_scheduler.py:200 *)
Definition k_SchedulerModeGet : gcon :=
  (GStruct (Some "SchedulerModeGet"%string) []).

(* silvair/rrule_scheduler.py:202-204 *)
Definition k_SchedulerModeStatus : gcon :=
  (GStruct (Some "SchedulerModeStatus"%string) [(GRenamed "scheduler_mode"%string (GWrap None k_Int8ul))]).

(* silvair/rrule_scheduler.py:208-210 *)
Definition k_ScheduleRegisterEntryDelete : gcon :=
  (GStruct (Some "ScheduleRegisterEntryDelete"%string) [(GRenamed "entry_id"%string k_Int8ul)]).

(* silvair/rrule_scheduler.py:135-139 *)
Definition k_Slots : gcon :=
  (GStruct (Some "Slots"%string) [(GRenamed "slot_id"%string k_Int16ul); (GRenamed "element"%string k_Int8ul); (GRenamed "slot_parameter"%string (GWrap None k_GreedyBytes))]).

(* silvair/rrule_scheduler.py:154 *)
Definition k_Freq : gcon :=
  (GWrap (Some "Freq"%string) k_Int8ul).

(* silvair/rrule_scheduler.py:141-150 *)
Definition k_DateTime_ : gcon :=
  (GWrap (Some "DateTime"%string) (GWrap None (GStruct None [(GRenamed "second"%string (GLeaf None (Some "UInt8"%string))); (GRenamed "minute"%string (GLeaf None (Some "UInt8"%string))); (GRenamed "hour"%string (GLeaf None (Some "UInt8"%string))); (GRenamed "day"%string (GLeaf None (Some "UInt8"%string))); (GRenamed "month"%string (GLeaf None (Some "UInt8"%string))); (GRenamed "year"%string (GLeaf None (Some "UInt16"%string)))]))).

(* silvair/rrule_scheduler.py:156 *)
Definition k_Day : gcon :=
  (GWrap (Some "Day"%string) k_Int8sl).

(* silvair/rrule_scheduler.py:158-181 *)
Definition k_Rules : gcon :=
  (GStruct (Some "Rules"%string) [(GRenamed "rule_id"%string k_RuleID); (GRenamed "rule"%string (GSwitch None [("FREQ"%string, k_Freq); ("UNTIL"%string, k_DateTime_); ("COUNT"%string, k_Int16ul); ("INTERVAL"%string, k_Int16ul); ("BYSECOND"%string, (GFocused None (GMany k_Int8ul))); ("BYMINUTE"%string, (GFocused None (GMany k_Int8ul))); ("BYHOUR"%string, (GFocused None (GMany k_Int8ul))); ("BYDAY"%string, (GFocused None (GMany k_Day))); ("BYMONTHDAY"%string, (GFocused None (GMany k_Int8sl))); ("BYYEARDAY"%string, (GFocused None (GMany k_Int16sl))); ("BYWEEKNO"%string, (GFocused None (GMany k_Int8sl))); ("BYMONTH"%string, k_Int16ul); ("BYSETPOS"%string, (GFocused None (GMany k_Int16sl))); ("DTSTART"%string, k_DateTime_); ("EXPLICIT_RDATE"%string, (GFocused None (GMany k_DateTime_))); ("EXCLUSIONS_RDATE"%string, (GFocused None (GMany k_DateTime_)))] None))]).

(* silvair/rrule_scheduler.py:183-186 *)
Definition k_SchedulerRegisterEntry : gcon :=
  (GStruct (Some "SchedulerRegisterEntry"%string) [(GRenamed "array_of_slots"%string (GFocused None (GMany k_Slots))); (GRenamed "rules"%string (GMany k_Rules))]).

(* silvair/rrule_scheduler.py:212-215 *)
Definition k_ScheduleRegisterEntrySet : gcon :=
  (GStruct (Some "ScheduleRegisterEntrySet"%string) [(GRenamed "entry_id"%string k_Int8ul); (GRenamed "scheduler_register_entry"%string k_SchedulerRegisterEntry)]).

(* silvair/rrule_scheduler.py:219 *)
Definition k_ScheduleRegisterEntryDeleteAll : gcon :=
  (GStruct (Some "ScheduleRegisterEntryDeleteAll"%string) []).

(* silvair/rrule_scheduler.py:226-229 *)
Definition k_ScheduleRegisterEntryStatusOptional : gcon :=
  (GStruct (Some "ScheduleRegisterEntryStatusOptional"%string) [(GRenamed "entry_id"%string k_Int8ul); (GRenamed "status"%string (GWrap None k_Int8ul)); (GRenamed "scheduler_register_entry"%string k_SchedulerRegisterEntry)]).

(* silvair/rrule_scheduler.py:221-224 *)
Definition k_ScheduleRegisterEntryStatusMinimal : gcon :=
  (GStruct (Some "ScheduleRegisterEntryStatusMinimal"%string) [(GRenamed "entry_id"%string k_Int8ul); (GRenamed "status"%string (GWrap None k_Int8ul))]).

(* silvair/rrule_scheduler.py:231-234 *)
Definition k_ScheduleRegisterEntryStatus : gcon :=
  (GWrap (Some "ScheduleRegisterEntryStatus"%string) (GSelect None [(GRenamed "optional"%string k_ScheduleRegisterEntryStatusOptional); (GRenamed "minimal"%string k_ScheduleRegisterEntryStatusMinimal)])).

(* silvair/rrule_scheduler.py:236 *)
Definition k_ScheduleRegisterListGet : gcon :=
  (GStruct (Some "ScheduleRegisterListGet"%string) []).

(* silvair/rrule_scheduler.py:238-240 *)
Definition k_ScheduleRegisterListStatus : gcon :=
  (GStruct (Some "ScheduleRegisterListStatus"%string) [(GRenamed "entry_ids"%string (GWrap None (GMany k_Int8ul)))]).

(* silvair/rrule_scheduler.py:242-263 *)
Definition k_RRuleSchedulerSubMessage : gcon :=
  (GStruct (Some "RRuleSchedulerSubMessage"%string) [(GRenamed "subopcode"%string (GWrap None k_Int8ul)); (GRenamed "payload"%string (GSwitch None [("RULES_LIST_GET"%string, k_RulesListGet); ("RULES_LIST_STATUS"%string, k_RulesListStatus); ("REGISTER_MAX_SIZE_GET"%string, k_RegisterMaxSizeGet); ("REGISTER_MAX_SIZE_STATUS"%string, k_RegisterMaxSizeStatus); ("SCHEDULER_MODE_GET"%string, k_SchedulerModeGet); ("SCHEDULER_MODE_SET"%string, k_SchedulerModeStatus); ("SCHEDULER_MODE_STATUS"%string, k_SchedulerModeStatus); ("SCHEDULE_REGISTER_ENTRY_GET"%string, k_ScheduleRegisterEntryDelete); ("SCHEDULE_REGISTER_ENTRY_SET"%string, k_ScheduleRegisterEntrySet); ("SCHEDULE_REGISTER_ENTRY_DELETE"%string, k_ScheduleRegisterEntryDelete); ("SCHEDULE_REGISTER_ENTRY_DELETE_ALL"%string, k_ScheduleRegisterEntryDeleteAll); ("SCHEDULE_REGISTER_ENTRY_STATUS"%string, k_ScheduleRegisterEntryStatus); ("SCHEDULE_REGISTER_LIST_GET"%string, k_ScheduleRegisterListGet); ("SCHEDULE_REGISTER_LIST_STATUS"%string, k_ScheduleRegisterListStatus)] None))]).

(* silvair/rrule_scheduler.py:265-273 *)
Definition k_RRuleSchedulerMessage : gcon :=
  (GWrap (Some "RRuleSchedulerMessage"%string) (GStruct None [(GRenamed "opcode"%string (GWrap None k_Int32ub)); (GSwitch None [("SILVAIR_RRULE_SCHEDULER"%string, k_RRuleSchedulerSubMessage)] None)])).

(* generic/property.py:72 *)
Definition k_GenericPropertiesGet : gcon :=
  (GStruct (Some "GenericPropertiesGet"%string) []).

(* generic/property.py:74-76 *)
Definition k_GenericPropertiesStatus : gcon :=
  (GStruct (Some "GenericPropertiesStatus"%string) [(GRenamed "property_ids"%string (GMany k_SensorPropertyId))]).

(* generic/property.py:78-80 *)
Definition k_GenericPropertyGet : gcon :=
  (GStruct (Some "GenericPropertyGet"%string) [(GRenamed "property_id"%string k_SensorPropertyId)]).

(* generic/property.py:120 *)
Definition k_GenericUserPropertySet : gcon :=
  (GWrap (Some "GenericUserPropertySet"%string) (GStruct None [(GRenamed "property_id"%string (GWrap None k_Int16ul)); (GSwitch None [("AVERAGE_AMBIENT_TEMPERATURE_IN_A_PERIOD_OF_DAY"%string, k_Temperature8InAPeriodOfDay); ("AVERAGE_INPUT_CURRENT"%string, k_AverageCurrent); ("AVERAGE_INPUT_VOLTAGE"%string, k_AverageVoltage); ("AVERAGE_OUTPUT_CURRENT"%string, k_AverageCurrent); ("AVERAGE_OUTPUT_VOLTAGE"%string, k_AverageVoltage); ("CENTER_BEAM_INTENSITY_AT_FULL_POWER"%string, k_LuminousIntensity); ("CHROMATICITY_TOLERANCE"%string, k_ChromaticityTolerance); ("COLOR_RENDERING_INDEX_R9"%string, k_ColorRenderingIndex); ("COLOR_RENDERING_INDEX_RA"%string, k_ColorRenderingIndex); ("DEVICE_APPEARANCE"%string, k_Appearance); ("DEVICE_COUNTRY_OF_ORIGIN"%string, k_CountryCode); ("DEVICE_DATE_OF_MANUFACTURE"%string, k_DateUTC); ("DEVICE_ENERGY_USE_SINCE_TURN_ON"%string, k_Energy); ("DEVICE_FIRMWARE_REVISION"%string, (GWrap None (GText None))); ("DEVICE_GLOBAL_TRADE_ITEM_NUMBER"%string, k_GlobalTradeItemNumber); ("DEVICE_HARDWARE_REVISION"%string, (GWrap None (GText None))); ("DEVICE_MANUFACTURER_NAME"%string, (GWrap None (GText None))); ("DEVICE_MODEL_NUMBER"%string, (GWrap None (GText None))); ("DEVICE_OPERATING_TEMPERATURE_RANGE_SPECIFICATION"%string, k_TemperatureRange); ("DEVICE_OPERATING_TEMPERATURE_STATISTICAL_VALUES"%string, k_TemperatureStatistics); ("DEVICE_OVER_TEMPERATURE_EVENT_STATISTICS"%string, k_EventStatistics); ("DEVICE_POWER_RANGE_SPECIFICATION"%string, k_PowerSpecification); ("DEVICE_RUNTIME_SINCE_TURN_ON"%string, k_TimeHour24); ("DEVICE_RUNTIME_WARRANTY"%string, k_TimeHour24); ("DEVICE_SERIAL_NUMBER"%string, (GWrap None (GText None))); ("DEVICE_SOFTWARE_REVISION"%string, (GWrap None (GText None))); ("DEVICE_UNDER_TEMPERATURE_EVENT_STATISTICS"%string, k_EventStatistics); ("INDOOR_AMBIENT_TEMPERATURE_STATISTICAL_VALUES"%string, k_Temperature8Statistics); ("INITIAL_CIE1931_CHROMATICITY_COORDINATES"%string, k_ChromaticityCoordinates); ("INITIAL_CORRELATED_COLOR_TEMPERATURE"%string, k_CorrelatedColorTemperature); ("INITIAL_LUMINOUS_FLUX"%string, k_LuminousFlux); ("INITIAL_PLANCKIAN_DISTANCE"%string, k_ChromaticDistanceFromPlanckian); ("INPUT_CURRENT_RANGE_SPECIFICATION"%string, k_ElectricCurrentSpecification); ("INPUT_CURRENT_STATISTICS"%string, k_ElectricCurrentStatistics); ("INPUT_OVER_CURRENT_EVENT_STATISTICS"%string, k_EventStatistics); ("INPUT_OVER_RIPPLE_VOLTAGE_EVENT_STATISTICS"%string, k_EventStatistics); ("INPUT_OVER_VOLTAGE_EVENT_STATISTICS"%string, k_EventStatistics); ("INPUT_UNDER_CURRENT_EVENT_STATISTICS"%string, k_EventStatistics); ("INPUT_UNDER_VOLTAGE_EVENT_STATISTICS"%string, k_EventStatistics); ("INPUT_VOLTAGE_RANGE_SPECIFICATION"%string, k_VoltageRange); ("INPUT_VOLTAGE_RIPPLE_SPECIFICATION"%string, k_Percentage8); ("INPUT_VOLTAGE_STATISTICS"%string, k_VoltageStatistics); ("LIGHT_CONTROL_AMBIENT_LUXLEVEL_ON"%string, k_Illuminance); ("LIGHT_CONTROL_AMBIENT_LUXLEVEL_PROLONG"%string, k_Illuminance); ("LIGHT_CONTROL_AMBIENT_LUXLEVEL_STANDBY"%string, k_Illuminance); ("LIGHT_CONTROL_LIGHTNESS_ON"%string, k_PerceivedLightness); ("LIGHT_CONTROL_LIGHTNESS_PROLONG"%string, k_PerceivedLightness); ("LIGHT_CONTROL_LIGHTNESS_STANDBY"%string, k_PerceivedLightness); ("LIGHT_CONTROL_REGULATOR_ACCURACY"%string, k_Percentage8); ("LIGHT_CONTROL_REGULATOR_KID"%string, k_Coefficient); ("LIGHT_CONTROL_REGULATOR_KIU"%string, k_Coefficient); ("LIGHT_CONTROL_REGULATOR_KPD"%string, k_Coefficient); ("LIGHT_CONTROL_REGULATOR_KPU"%string, k_Coefficient); ("LIGHT_CONTROL_TIME_FADE"%string, k_TimeMiliseconds24); ("LIGHT_CONTROL_TIME_FADE_ON"%string, k_TimeMiliseconds24); ("LIGHT_CONTROL_TIME_FADE_STANDBY_AUTO"%string, k_TimeMiliseconds24); ("LIGHT_CONTROL_TIME_FADE_STANDBY_MANUAL"%string, k_TimeMiliseconds24); ("LIGHT_CONTROL_TIME_OCCUPANCY_DELAY"%string, k_TimeMiliseconds24); ("LIGHT_CONTROL_TIME_PROLONG"%string, k_TimeMiliseconds24); ("LIGHT_CONTROL_TIME_RUN_ON"%string, k_TimeMiliseconds24); ("LUMEN_MAINTENANCE_FACTOR"%string, k_Percentage8); ("LUMINOUS_EFFICACY"%string, k_LuminousEfficacy); ("LUMINOUS_ENERGY_SINCE_TURN_ON"%string, k_LuminousEnergy); ("LUMINOUS_EXPOSURE"%string, k_LuminousExposure); ("LUMINOUS_FLUX_RANGE"%string, k_LuminousFluxRange); ("MOTION_SENSED"%string, k_Percentage8); ("MOTION_THRESHOLD"%string, k_Percentage8); ("OPEN_CIRCUIT_EVENT_STATISTICS"%string, k_EventStatistics); ("OUTDOOR_STATISTICAL_VALUES"%string, k_Temperature8Statistics); ("OUTPUT_CURRENT_RANGE"%string, k_ElectricCurrentRange); ("OUTPUT_CURRENT_STATISTICS"%string, k_ElectricCurrentStatistics); ("OUTPUT_RIPPLE_VOLTAGE_SPECIFICATION"%string, k_Percentage8); ("OUTPUT_VOLTAGE_RANGE"%string, k_VoltageRange); ("OUTPUT_VOLTAGE_STATISTICS"%string, k_VoltageStatistics); ("OVER_OUTPUT_RIPPLE_VOLTAGE_EVENT_STATISTICS"%string, k_EventStatistics); ("PEOPLE_COUNT"%string, k_Count16); ("PRESENCE_DETECTED"%string, k_Presence); ("PRESENT_AMBIENT_LIGHT_LEVEL"%string, k_Illuminance); ("PRESENT_AMBIENT_TEMPERATURE"%string, k_Temperature8); ("PRESENT_CIE1931_CHROMATICITY_COORDINATES"%string, k_ChromaticityCoordinates); ("PRESENT_CORRELATED_COLOR_TEMPERATURE"%string, k_CorrelatedColorTemperature); ("PRESENT_DEVICE_INPUT_POWER"%string, k_Power); ("PRESENT_DEVICE_OPERATING_EFFICIENCY"%string, k_Percentage8); ("PRESENT_DEVICE_OPERATING_TEMPERATURE"%string, k_Temperature); ("PRESENT_ILLUMINANCE"%string, k_Illuminance); ("PRESENT_INDOOR_AMBIENT_TEMPERATURE"%string, k_Temperature8); ("PRESENT_INPUT_CURRENT"%string, k_ElectricCurrent); ("PRESENT_INPUT_RIPPLE_VOLTAGE"%string, k_Percentage8); ("PRESENT_INPUT_VOLTAGE"%string, k_Voltage); ("PRESENT_LUMINOUS_FLUX"%string, k_LuminousFlux); ("PRESENT_OUTDOOR_AMBIENT_TEMPERATURE"%string, k_Temperature8); ("PRESENT_OUTPUT_CURRENT"%string, k_ElectricCurrent); ("PRESENT_OUTPUT_VOLTAGE"%string, k_Voltage); ("PRESENT_PLANCKIAN_DISTANCE"%string, k_ChromaticDistanceFromPlanckian); ("PRESENT_RELATIVE_OUTPUT_RIPPLE_VOLTAGE"%string, k_Percentage8); ("RELATIVE_DEVICE_ENERGY_USE_IN_A_PERIOD_OF_DAY"%string, k_EnergyInAPeriodOfDay); ("RELATIVE_DEVICE_RUNTIME_IN_A_GENERIC_LEVEL_RANGE"%string, k_RelativeRuntimeInAGenericLevelRange); ("RELATIVE_EXPOSURE_TIME_IN_AN_ILLUMINANCE_RANGE"%string, k_RelativeValueInAnIlluminanceRange); ("RELATIVE_RUNTIME_IN_A_CORRELATED_COLOR_TEMPERATURE_RANGE"%string, k_LuminousEnergy); ("RELATIVE_RUNTIME_IN_A_DEVICE_OPERATING_TEMPERATURE_RANGE"%string, k_RelativeValueInATemperatureRange); ("RELATIVE_RUNTIME_IN_AN_INPUT_CURRENT_RANGE"%string, k_RelativeValueInACurrentRange); ("RELATIVE_RUNTIME_IN_AN_INPUT_VOLTAGE_RANGE"%string, k_RelativeValueInAVoltageRange); ("SHORT_CIRCUIT_EVENT_STATISTICS"%string, k_EventStatistics); ("TIME_SINCE_MOTION_SENSED"%string, k_TimeSecond16); ("TIME_SINCE_PRESENCE_DETECTED"%string, k_TimeSecond16); ("TOTAL_DEVICE_ENERGY_USE"%string, k_Energy); ("TOTAL_DEVICE_OFF_ON_CYCLES"%string, k_Count24); ("TOTAL_DEVICE_POWER_ON_CYCLES"%string, k_Count24); ("TOTAL_DEVICE_POWER_ON_TIME"%string, k_TimeHour24); ("TOTAL_DEVICE_RUNTIME"%string, k_TimeHour24); ("TOTAL_LIGHT_EXPOSURE_TIME"%string, k_TimeHour24); ("TOTAL_LUMINOUS_ENERGY"%string, k_LuminousEnergy); ("PRECISE_TOTAL_DEVICE_ENERGY_USE"%string, k_PreciseEnergy); ("POWER_FACTOR"%string, k_CosineOfTheAngle); ("EXTERNAL_SUPPLY_VOLTAGE"%string, k_HighVoltage); ("EXTERNAL_SUPPLY_VOLTAGE_FREQUENCY"%string, k_VoltageFrequency); ("LIGHT_DISTRIBUTION"%string, k_LightDistribution); ("LIGHT_SOURCE_CURRENT"%string, k_AverageCurrent); ("LIGHT_SOURCE_ON_TIME_NOT_RESETTABLE"%string, k_TimeSecond32); ("LIGHT_SOURCE_ON_TIME_RESETTABLE"%string, k_TimeSecond32); ("LIGHT_SOURCE_OPEN_CIRCUIT_STATISTICS"%string, k_EventStatistics); ("LIGHT_SOURCE_OVERALL_FAILURES_STATISTICS"%string, k_EventStatistics); ("LIGHT_SOURCE_SHORT_CIRCUIT_STATISTICS"%string, k_EventStatistics); ("LIGHT_SOURCE_START_COUNTER_RESETTABLE"%string, k_Count24); ("LIGHT_SOURCE_TEMPERATURE"%string, k_HighTemperature); ("LIGHT_SOURCE_THERMAL_DERATING_STATISTICS"%string, k_EventStatistics); ("LIGHT_SOURCE_THERMAL_SHUTDOWN_STATISTICS"%string, k_EventStatistics); ("LIGHT_SOURCE_TOTAL_POWER_ON_CYCLES"%string, k_Count24); ("LIGHT_SOURCE_VOLTAGE"%string, k_AverageVoltage); ("LUMINAIRE_COLOR"%string, (GWrap None (GText None))); ("LUMINAIRE_IDENTIFICATION_NUMBER"%string, (GWrap None (GText None))); ("LUMINAIRE_NOMINAL_INPUT_POWER"%string, k_Power); ("LUMINAIRE_NOMINAL_MAXIMUM_AC_MAINS_VOLTAGE"%string, k_Voltage); ("LUMINAIRE_NOMINAL_MINIMUM_AC_MAINS_VOLTAGE"%string, k_Voltage); ("LUMINAIRE_POWER_AT_MINIMUM_DIM_LEVEL"%string, k_Power); ("LUMINAIRE_TIME_OF_MANUFACTURE"%string, k_DateUTC); ("NOMINAL_LIGHT_OUTPUT"%string, k_LightOutput); ("OVERALL_FAILURE_CONDITION"%string, k_EventStatistics); ("RATED_MEDIAN_USEFUL_LIFE_OF_LUMINAIRE"%string, k_TimeHour24); ("RATED_MEDIAN_USEFUL_LIGHT_SOURCE_STARTS"%string, k_Count24); ("REFERENCE_TEMPERATURE"%string, k_HighTemperature); ("TOTAL_DEVICE_STARTS"%string, k_Count24); ("LUMINAIRE_IDENTIFICATION_STRING"%string, (GWrap None (GText None))); ("OUTPUT_POWER_LIMITATION"%string, k_EventStatistics); ("THERMAL_DERATING"%string, k_EventStatistics); ("OUTPUT_CURRENT_PERCENT"%string, k_Percentage8); ("LUMINAIRE_MANUFACTURER_GTIN"%string, k_GlobalTradeItemNumber); ("APPARENT_ENERGY"%string, k_ApparentEnergy32); ("APPARENT_POWER"%string, k_ApparentPower); ("ACTIVE_ENERGY_LOAD_SIDE"%string, k_Energy32); ("ACTIVE_POWER_LOAD_SIDE"%string, k_Power); ("LIGHT_SOURCE_TYPE"%string, k_LightSourceType); ("DESIRED_AMBIENT_TEMPERATURE"%string, k_Temperature8); ("SENSOR_GAIN"%string, k_Coefficient); ("PRECISE_PRESENT_AMBIENT_TEMPERATURE"%string, k_Temperature)] None)])).

(* generic/property.py:129 *)
Definition k_GenericPropertyStatus : gcon :=
  (GWrap (Some "GenericPropertyStatus"%string) (GStruct None [(GRenamed "property_id"%string (GWrap None k_Int16ul)); (GRenamed "access"%string (GWrap None k_Int8ul)); (GSwitch None [("AVERAGE_AMBIENT_TEMPERATURE_IN_A_PERIOD_OF_DAY"%string, k_Temperature8InAPeriodOfDay); ("AVERAGE_INPUT_CURRENT"%string, k_AverageCurrent); ("AVERAGE_INPUT_VOLTAGE"%string, k_AverageVoltage); ("AVERAGE_OUTPUT_CURRENT"%string, k_AverageCurrent); ("AVERAGE_OUTPUT_VOLTAGE"%string, k_AverageVoltage); ("CENTER_BEAM_INTENSITY_AT_FULL_POWER"%string, k_LuminousIntensity); ("CHROMATICITY_TOLERANCE"%string, k_ChromaticityTolerance); ("COLOR_RENDERING_INDEX_R9"%string, k_ColorRenderingIndex); ("COLOR_RENDERING_INDEX_RA"%string, k_ColorRenderingIndex); ("DEVICE_APPEARANCE"%string, k_Appearance); ("DEVICE_COUNTRY_OF_ORIGIN"%string, k_CountryCode); ("DEVICE_DATE_OF_MANUFACTURE"%string, k_DateUTC); ("DEVICE_ENERGY_USE_SINCE_TURN_ON"%string, k_Energy); ("DEVICE_FIRMWARE_REVISION"%string, (GWrap None (GText None))); ("DEVICE_GLOBAL_TRADE_ITEM_NUMBER"%string, k_GlobalTradeItemNumber); ("DEVICE_HARDWARE_REVISION"%string, (GWrap None (GText None))); ("DEVICE_MANUFACTURER_NAME"%string, (GWrap None (GText None))); ("DEVICE_MODEL_NUMBER"%string, (GWrap None (GText None))); ("DEVICE_OPERATING_TEMPERATURE_RANGE_SPECIFICATION"%string, k_TemperatureRange); ("DEVICE_OPERATING_TEMPERATURE_STATISTICAL_VALUES"%string, k_TemperatureStatistics); ("DEVICE_OVER_TEMPERATURE_EVENT_STATISTICS"%string, k_EventStatistics); ("DEVICE_POWER_RANGE_SPECIFICATION"%string, k_PowerSpecification); ("DEVICE_RUNTIME_SINCE_TURN_ON"%string, k_TimeHour24); ("DEVICE_RUNTIME_WARRANTY"%string, k_TimeHour24); ("DEVICE_SERIAL_NUMBER"%string, (GWrap None (GText None))); ("DEVICE_SOFTWARE_REVISION"%string, (GWrap None (GText None))); ("DEVICE_UNDER_TEMPERATURE_EVENT_STATISTICS"%string, k_EventStatistics); ("INDOOR_AMBIENT_TEMPERATURE_STATISTICAL_VALUES"%string, k_Temperature8Statistics); ("INITIAL_CIE1931_CHROMATICITY_COORDINATES"%string, k_ChromaticityCoordinates); ("INITIAL_CORRELATED_COLOR_TEMPERATURE"%string, k_CorrelatedColorTemperature); ("INITIAL_LUMINOUS_FLUX"%string, k_LuminousFlux); ("INITIAL_PLANCKIAN_DISTANCE"%string, k_ChromaticDistanceFromPlanckian); ("INPUT_CURRENT_RANGE_SPECIFICATION"%string, k_ElectricCurrentSpecification); ("INPUT_CURRENT_STATISTICS"%string, k_ElectricCurrentStatistics); ("INPUT_OVER_CURRENT_EVENT_STATISTICS"%string, k_EventStatistics); ("INPUT_OVER_RIPPLE_VOLTAGE_EVENT_STATISTICS"%string, k_EventStatistics); ("INPUT_OVER_VOLTAGE_EVENT_STATISTICS"%string, k_EventStatistics); ("INPUT_UNDER_CURRENT_EVENT_STATISTICS"%string, k_EventStatistics); ("INPUT_UNDER_VOLTAGE_EVENT_STATISTICS"%string, k_EventStatistics); ("INPUT_VOLTAGE_RANGE_SPECIFICATION"%string, k_VoltageRange); ("INPUT_VOLTAGE_RIPPLE_SPECIFICATION"%string, k_Percentage8); ("INPUT_VOLTAGE_STATISTICS"%string, k_VoltageStatistics); ("LIGHT_CONTROL_AMBIENT_LUXLEVEL_ON"%string, k_Illuminance); ("LIGHT_CONTROL_AMBIENT_LUXLEVEL_PROLONG"%string, k_Illuminance); ("LIGHT_CONTROL_AMBIENT_LUXLEVEL_STANDBY"%string, k_Illuminance); ("LIGHT_CONTROL_LIGHTNESS_ON"%string, k_PerceivedLightness); ("LIGHT_CONTROL_LIGHTNESS_PROLONG"%string, k_PerceivedLightness); ("LIGHT_CONTROL_LIGHTNESS_STANDBY"%string, k_PerceivedLightness); ("LIGHT_CONTROL_REGULATOR_ACCURACY"%string, k_Percentage8); ("LIGHT_CONTROL_REGULATOR_KID"%string, k_Coefficient); ("LIGHT_CONTROL_REGULATOR_KIU"%string, k_Coefficient); ("LIGHT_CONTROL_REGULATOR_KPD"%string, k_Coefficient); ("LIGHT_CONTROL_REGULATOR_KPU"%string, k_Coefficient); ("LIGHT_CONTROL_TIME_FADE"%string, k_TimeMiliseconds24); ("LIGHT_CONTROL_TIME_FADE_ON"%string, k_TimeMiliseconds24); ("LIGHT_CONTROL_TIME_FADE_STANDBY_AUTO"%string, k_TimeMiliseconds24); ("LIGHT_CONTROL_TIME_FADE_STANDBY_MANUAL"%string, k_TimeMiliseconds24); ("LIGHT_CONTROL_TIME_OCCUPANCY_DELAY"%string, k_TimeMiliseconds24); ("LIGHT_CONTROL_TIME_PROLONG"%string, k_TimeMiliseconds24); ("LIGHT_CONTROL_TIME_RUN_ON"%string, k_TimeMiliseconds24); ("LUMEN_MAINTENANCE_FACTOR"%string, k_Percentage8); ("LUMINOUS_EFFICACY"%string, k_LuminousEfficacy); ("LUMINOUS_ENERGY_SINCE_TURN_ON"%string, k_LuminousEnergy); ("LUMINOUS_EXPOSURE"%string, k_LuminousExposure); ("LUMINOUS_FLUX_RANGE"%string, k_LuminousFluxRange); ("MOTION_SENSED"%string, k_Percentage8); ("MOTION_THRESHOLD"%string, k_Percentage8); ("OPEN_CIRCUIT_EVENT_STATISTICS"%string, k_EventStatistics); ("OUTDOOR_STATISTICAL_VALUES"%string, k_Temperature8Statistics); ("OUTPUT_CURRENT_RANGE"%string, k_ElectricCurrentRange); ("OUTPUT_CURRENT_STATISTICS"%string, k_ElectricCurrentStatistics); ("OUTPUT_RIPPLE_VOLTAGE_SPECIFICATION"%string, k_Percentage8); ("OUTPUT_VOLTAGE_RANGE"%string, k_VoltageRange); ("OUTPUT_VOLTAGE_STATISTICS"%string, k_VoltageStatistics); ("OVER_OUTPUT_RIPPLE_VOLTAGE_EVENT_STATISTICS"%string, k_EventStatistics); ("PEOPLE_COUNT"%string, k_Count16); ("PRESENCE_DETECTED"%string, k_Presence); ("PRESENT_AMBIENT_LIGHT_LEVEL"%string, k_Illuminance); ("PRESENT_AMBIENT_TEMPERATURE"%string, k_Temperature8); ("PRESENT_CIE1931_CHROMATICITY_COORDINATES"%string, k_ChromaticityCoordinates); ("PRESENT_CORRELATED_COLOR_TEMPERATURE"%string, k_CorrelatedColorTemperature); ("PRESENT_DEVICE_INPUT_POWER"%string, k_Power); ("PRESENT_DEVICE_OPERATING_EFFICIENCY"%string, k_Percentage8); ("PRESENT_DEVICE_OPERATING_TEMPERATURE"%string, k_Temperature); ("PRESENT_ILLUMINANCE"%string, k_Illuminance); ("PRESENT_INDOOR_AMBIENT_TEMPERATURE"%string, k_Temperature8); ("PRESENT_INPUT_CURRENT"%string, k_ElectricCurrent); ("PRESENT_INPUT_RIPPLE_VOLTAGE"%string, k_Percentage8); ("PRESENT_INPUT_VOLTAGE"%string, k_Voltage); ("PRESENT_LUMINOUS_FLUX"%string, k_LuminousFlux); ("PRESENT_OUTDOOR_AMBIENT_TEMPERATURE"%string, k_Temperature8); ("PRESENT_OUTPUT_CURRENT"%string, k_ElectricCurrent); ("PRESENT_OUTPUT_VOLTAGE"%string, k_Voltage); ("PRESENT_PLANCKIAN_DISTANCE"%string, k_ChromaticDistanceFromPlanckian); ("PRESENT_RELATIVE_OUTPUT_RIPPLE_VOLTAGE"%string, k_Percentage8); ("RELATIVE_DEVICE_ENERGY_USE_IN_A_PERIOD_OF_DAY"%string, k_EnergyInAPeriodOfDay); ("RELATIVE_DEVICE_RUNTIME_IN_A_GENERIC_LEVEL_RANGE"%string, k_RelativeRuntimeInAGenericLevelRange); ("RELATIVE_EXPOSURE_TIME_IN_AN_ILLUMINANCE_RANGE"%string, k_RelativeValueInAnIlluminanceRange); ("RELATIVE_RUNTIME_IN_A_CORRELATED_COLOR_TEMPERATURE_RANGE"%string, k_LuminousEnergy); ("RELATIVE_RUNTIME_IN_A_DEVICE_OPERATING_TEMPERATURE_RANGE"%string, k_RelativeValueInATemperatureRange); ("RELATIVE_RUNTIME_IN_AN_INPUT_CURRENT_RANGE"%string, k_RelativeValueInACurrentRange); ("RELATIVE_RUNTIME_IN_AN_INPUT_VOLTAGE_RANGE"%string, k_RelativeValueInAVoltageRange); ("SHORT_CIRCUIT_EVENT_STATISTICS"%string, k_EventStatistics); ("TIME_SINCE_MOTION_SENSED"%string, k_TimeSecond16); ("TIME_SINCE_PRESENCE_DETECTED"%string, k_TimeSecond16); ("TOTAL_DEVICE_ENERGY_USE"%string, k_Energy); ("TOTAL_DEVICE_OFF_ON_CYCLES"%string, k_Count24); ("TOTAL_DEVICE_POWER_ON_CYCLES"%string, k_Count24); ("TOTAL_DEVICE_POWER_ON_TIME"%string, k_TimeHour24); ("TOTAL_DEVICE_RUNTIME"%string, k_TimeHour24); ("TOTAL_LIGHT_EXPOSURE_TIME"%string, k_TimeHour24); ("TOTAL_LUMINOUS_ENERGY"%string, k_LuminousEnergy); ("PRECISE_TOTAL_DEVICE_ENERGY_USE"%string, k_PreciseEnergy); ("POWER_FACTOR"%string, k_CosineOfTheAngle); ("EXTERNAL_SUPPLY_VOLTAGE"%string, k_HighVoltage); ("EXTERNAL_SUPPLY_VOLTAGE_FREQUENCY"%string, k_VoltageFrequency); ("LIGHT_DISTRIBUTION"%string, k_LightDistribution); ("LIGHT_SOURCE_CURRENT"%string, k_AverageCurrent); ("LIGHT_SOURCE_ON_TIME_NOT_RESETTABLE"%string, k_TimeSecond32); ("LIGHT_SOURCE_ON_TIME_RESETTABLE"%string, k_TimeSecond32); ("LIGHT_SOURCE_OPEN_CIRCUIT_STATISTICS"%string, k_EventStatistics); ("LIGHT_SOURCE_OVERALL_FAILURES_STATISTICS"%string, k_EventStatistics); ("LIGHT_SOURCE_SHORT_CIRCUIT_STATISTICS"%string, k_EventStatistics); ("LIGHT_SOURCE_START_COUNTER_RESETTABLE"%string, k_Count24); ("LIGHT_SOURCE_TEMPERATURE"%string, k_HighTemperature); ("LIGHT_SOURCE_THERMAL_DERATING_STATISTICS"%string, k_EventStatistics); ("LIGHT_SOURCE_THERMAL_SHUTDOWN_STATISTICS"%string, k_EventStatistics); ("LIGHT_SOURCE_TOTAL_POWER_ON_CYCLES"%string, k_Count24); ("LIGHT_SOURCE_VOLTAGE"%string, k_AverageVoltage); ("LUMINAIRE_COLOR"%string, (GWrap None (GText None))); ("LUMINAIRE_IDENTIFICATION_NUMBER"%string, (GWrap None (GText None))); ("LUMINAIRE_NOMINAL_INPUT_POWER"%string, k_Power); ("LUMINAIRE_NOMINAL_MAXIMUM_AC_MAINS_VOLTAGE"%string, k_Voltage); ("LUMINAIRE_NOMINAL_MINIMUM_AC_MAINS_VOLTAGE"%string, k_Voltage); ("LUMINAIRE_POWER_AT_MINIMUM_DIM_LEVEL"%string, k_Power); ("LUMINAIRE_TIME_OF_MANUFACTURE"%string, k_DateUTC); ("NOMINAL_LIGHT_OUTPUT"%string, k_LightOutput); ("OVERALL_FAILURE_CONDITION"%string, k_EventStatistics); ("RATED_MEDIAN_USEFUL_LIFE_OF_LUMINAIRE"%string, k_TimeHour24); ("RATED_MEDIAN_USEFUL_LIGHT_SOURCE_STARTS"%string, k_Count24); ("REFERENCE_TEMPERATURE"%string, k_HighTemperature); ("TOTAL_DEVICE_STARTS"%string, k_Count24); ("LUMINAIRE_IDENTIFICATION_STRING"%string, (GWrap None (GText None))); ("OUTPUT_POWER_LIMITATION"%string, k_EventStatistics); ("THERMAL_DERATING"%string, k_EventStatistics); ("OUTPUT_CURRENT_PERCENT"%string, k_Percentage8); ("LUMINAIRE_MANUFACTURER_GTIN"%string, k_GlobalTradeItemNumber); ("APPARENT_ENERGY"%string, k_ApparentEnergy32); ("APPARENT_POWER"%string, k_ApparentPower); ("ACTIVE_ENERGY_LOAD_SIDE"%string, k_Energy32); ("ACTIVE_POWER_LOAD_SIDE"%string, k_Power); ("LIGHT_SOURCE_TYPE"%string, k_LightSourceType); ("DESIRED_AMBIENT_TEMPERATURE"%string, k_Temperature8); ("SENSOR_GAIN"%string, k_Coefficient); ("PRECISE_PRESENT_AMBIENT_TEMPERATURE"%string, k_Temperature)] None)])).

(* generic/property.py:122 *)
Definition k_GenericAdminPropertySet : gcon :=
  (GWrap (Some "GenericAdminPropertySet"%string) (GStruct None [(GRenamed "property_id"%string (GWrap None k_Int16ul)); (GRenamed "access"%string (GWrap None k_Int8ul)); (GSwitch None [("AVERAGE_AMBIENT_TEMPERATURE_IN_A_PERIOD_OF_DAY"%string, k_Temperature8InAPeriodOfDay); ("AVERAGE_INPUT_CURRENT"%string, k_AverageCurrent); ("AVERAGE_INPUT_VOLTAGE"%string, k_AverageVoltage); ("AVERAGE_OUTPUT_CURRENT"%string, k_AverageCurrent); ("AVERAGE_OUTPUT_VOLTAGE"%string, k_AverageVoltage); ("CENTER_BEAM_INTENSITY_AT_FULL_POWER"%string, k_LuminousIntensity); ("CHROMATICITY_TOLERANCE"%string, k_ChromaticityTolerance); ("COLOR_RENDERING_INDEX_R9"%string, k_ColorRenderingIndex); ("COLOR_RENDERING_INDEX_RA"%string, k_ColorRenderingIndex); ("DEVICE_APPEARANCE"%string, k_Appearance); ("DEVICE_COUNTRY_OF_ORIGIN"%string, k_CountryCode); ("DEVICE_DATE_OF_MANUFACTURE"%string, k_DateUTC); ("DEVICE_ENERGY_USE_SINCE_TURN_ON"%string, k_Energy); ("DEVICE_FIRMWARE_REVISION"%string, (GWrap None (GText None))); ("DEVICE_GLOBAL_TRADE_ITEM_NUMBER"%string, k_GlobalTradeItemNumber); ("DEVICE_HARDWARE_REVISION"%string, (GWrap None (GText None))); ("DEVICE_MANUFACTURER_NAME"%string, (GWrap None (GText None))); ("DEVICE_MODEL_NUMBER"%string, (GWrap None (GText None))); ("DEVICE_OPERATING_TEMPERATURE_RANGE_SPECIFICATION"%string, k_TemperatureRange); ("DEVICE_OPERATING_TEMPERATURE_STATISTICAL_VALUES"%string, k_TemperatureStatistics); ("DEVICE_OVER_TEMPERATURE_EVENT_STATISTICS"%string, k_EventStatistics); ("DEVICE_POWER_RANGE_SPECIFICATION"%string, k_PowerSpecification); ("DEVICE_RUNTIME_SINCE_TURN_ON"%string, k_TimeHour24); ("DEVICE_RUNTIME_WARRANTY"%string, k_TimeHour24); ("DEVICE_SERIAL_NUMBER"%string, (GWrap None (GText None))); ("DEVICE_SOFTWARE_REVISION"%string, (GWrap None (GText None))); ("DEVICE_UNDER_TEMPERATURE_EVENT_STATISTICS"%string, k_EventStatistics); ("INDOOR_AMBIENT_TEMPERATURE_STATISTICAL_VALUES"%string, k_Temperature8Statistics); ("INITIAL_CIE1931_CHROMATICITY_COORDINATES"%string, k_ChromaticityCoordinates); ("INITIAL_CORRELATED_COLOR_TEMPERATURE"%string, k_CorrelatedColorTemperature); ("INITIAL_LUMINOUS_FLUX"%string, k_LuminousFlux); ("INITIAL_PLANCKIAN_DISTANCE"%string, k_ChromaticDistanceFromPlanckian); ("INPUT_CURRENT_RANGE_SPECIFICATION"%string, k_ElectricCurrentSpecification); ("INPUT_CURRENT_STATISTICS"%string, k_ElectricCurrentStatistics); ("INPUT_OVER_CURRENT_EVENT_STATISTICS"%string, k_EventStatistics); ("INPUT_OVER_RIPPLE_VOLTAGE_EVENT_STATISTICS"%string, k_EventStatistics); ("INPUT_OVER_VOLTAGE_EVENT_STATISTICS"%string, k_EventStatistics); ("INPUT_UNDER_CURRENT_EVENT_STATISTICS"%string, k_EventStatistics); ("INPUT_UNDER_VOLTAGE_EVENT_STATISTICS"%string, k_EventStatistics); ("INPUT_VOLTAGE_RANGE_SPECIFICATION"%string, k_VoltageRange); ("INPUT_VOLTAGE_RIPPLE_SPECIFICATION"%string, k_Percentage8); ("INPUT_VOLTAGE_STATISTICS"%string, k_VoltageStatistics); ("LIGHT_CONTROL_AMBIENT_LUXLEVEL_ON"%string, k_Illuminance); ("LIGHT_CONTROL_AMBIENT_LUXLEVEL_PROLONG"%string, k_Illuminance); ("LIGHT_CONTROL_AMBIENT_LUXLEVEL_STANDBY"%string, k_Illuminance); ("LIGHT_CONTROL_LIGHTNESS_ON"%string, k_PerceivedLightness); ("LIGHT_CONTROL_LIGHTNESS_PROLONG"%string, k_PerceivedLightness); ("LIGHT_CONTROL_LIGHTNESS_STANDBY"%string, k_PerceivedLightness); ("LIGHT_CONTROL_REGULATOR_ACCURACY"%string, k_Percentage8); ("LIGHT_CONTROL_REGULATOR_KID"%string, k_Coefficient); ("LIGHT_CONTROL_REGULATOR_KIU"%string, k_Coefficient); ("LIGHT_CONTROL_REGULATOR_KPD"%string, k_Coefficient); ("LIGHT_CONTROL_REGULATOR_KPU"%string, k_Coefficient); ("LIGHT_CONTROL_TIME_FADE"%string, k_TimeMiliseconds24); ("LIGHT_CONTROL_TIME_FADE_ON"%string, k_TimeMiliseconds24); ("LIGHT_CONTROL_TIME_FADE_STANDBY_AUTO"%string, k_TimeMiliseconds24); ("LIGHT_CONTROL_TIME_FADE_STANDBY_MANUAL"%string, k_TimeMiliseconds24); ("LIGHT_CONTROL_TIME_OCCUPANCY_DELAY"%string, k_TimeMiliseconds24); ("LIGHT_CONTROL_TIME_PROLONG"%string, k_TimeMiliseconds24); ("LIGHT_CONTROL_TIME_RUN_ON"%string, k_TimeMiliseconds24); ("LUMEN_MAINTENANCE_FACTOR"%string, k_Percentage8); ("LUMINOUS_EFFICACY"%string, k_LuminousEfficacy); ("LUMINOUS_ENERGY_SINCE_TURN_ON"%string, k_LuminousEnergy); ("LUMINOUS_EXPOSURE"%string, k_LuminousExposure); ("LUMINOUS_FLUX_RANGE"%string, k_LuminousFluxRange); ("MOTION_SENSED"%string, k_Percentage8); ("MOTION_THRESHOLD"%string, k_Percentage8); ("OPEN_CIRCUIT_EVENT_STATISTICS"%string, k_EventStatistics); ("OUTDOOR_STATISTICAL_VALUES"%string, k_Temperature8Statistics); ("OUTPUT_CURRENT_RANGE"%string, k_ElectricCurrentRange); ("OUTPUT_CURRENT_STATISTICS"%string, k_ElectricCurrentStatistics); ("OUTPUT_RIPPLE_VOLTAGE_SPECIFICATION"%string, k_Percentage8); ("OUTPUT_VOLTAGE_RANGE"%string, k_VoltageRange); ("OUTPUT_VOLTAGE_STATISTICS"%string, k_VoltageStatistics); ("OVER_OUTPUT_RIPPLE_VOLTAGE_EVENT_STATISTICS"%string, k_EventStatistics); ("PEOPLE_COUNT"%string, k_Count16); ("PRESENCE_DETECTED"%string, k_Presence); ("PRESENT_AMBIENT_LIGHT_LEVEL"%string, k_Illuminance); ("PRESENT_AMBIENT_TEMPERATURE"%string, k_Temperature8); ("PRESENT_CIE1931_CHROMATICITY_COORDINATES"%string, k_ChromaticityCoordinates); ("PRESENT_CORRELATED_COLOR_TEMPERATURE"%string, k_CorrelatedColorTemperature); ("PRESENT_DEVICE_INPUT_POWER"%string, k_Power); ("PRESENT_DEVICE_OPERATING_EFFICIENCY"%string, k_Percentage8); ("PRESENT_DEVICE_OPERATING_TEMPERATURE"%string, k_Temperature); ("PRESENT_ILLUMINANCE"%string, k_Illuminance); ("PRESENT_INDOOR_AMBIENT_TEMPERATURE"%string, k_Temperature8); ("PRESENT_INPUT_CURRENT"%string, k_ElectricCurrent); ("PRESENT_INPUT_RIPPLE_VOLTAGE"%string, k_Percentage8); ("PRESENT_INPUT_VOLTAGE"%string, k_Voltage); ("PRESENT_LUMINOUS_FLUX"%string, k_LuminousFlux); ("PRESENT_OUTDOOR_AMBIENT_TEMPERATURE"%string, k_Temperature8); ("PRESENT_OUTPUT_CURRENT"%string, k_ElectricCurrent); ("PRESENT_OUTPUT_VOLTAGE"%string, k_Voltage); ("PRESENT_PLANCKIAN_DISTANCE"%string, k_ChromaticDistanceFromPlanckian); ("PRESENT_RELATIVE_OUTPUT_RIPPLE_VOLTAGE"%string, k_Percentage8); ("RELATIVE_DEVICE_ENERGY_USE_IN_A_PERIOD_OF_DAY"%string, k_EnergyInAPeriodOfDay); ("RELATIVE_DEVICE_RUNTIME_IN_A_GENERIC_LEVEL_RANGE"%string, k_RelativeRuntimeInAGenericLevelRange); ("RELATIVE_EXPOSURE_TIME_IN_AN_ILLUMINANCE_RANGE"%string, k_RelativeValueInAnIlluminanceRange); ("RELATIVE_RUNTIME_IN_A_CORRELATED_COLOR_TEMPERATURE_RANGE"%string, k_LuminousEnergy); ("RELATIVE_RUNTIME_IN_A_DEVICE_OPERATING_TEMPERATURE_RANGE"%string, k_RelativeValueInATemperatureRange); ("RELATIVE_RUNTIME_IN_AN_INPUT_CURRENT_RANGE"%string, k_RelativeValueInACurrentRange); ("RELATIVE_RUNTIME_IN_AN_INPUT_VOLTAGE_RANGE"%string, k_RelativeValueInAVoltageRange); ("SHORT_CIRCUIT_EVENT_STATISTICS"%string, k_EventStatistics); ("TIME_SINCE_MOTION_SENSED"%string, k_TimeSecond16); ("TIME_SINCE_PRESENCE_DETECTED"%string, k_TimeSecond16); ("TOTAL_DEVICE_ENERGY_USE"%string, k_Energy); ("TOTAL_DEVICE_OFF_ON_CYCLES"%string, k_Count24); ("TOTAL_DEVICE_POWER_ON_CYCLES"%string, k_Count24); ("TOTAL_DEVICE_POWER_ON_TIME"%string, k_TimeHour24); ("TOTAL_DEVICE_RUNTIME"%string, k_TimeHour24); ("TOTAL_LIGHT_EXPOSURE_TIME"%string, k_TimeHour24); ("TOTAL_LUMINOUS_ENERGY"%string, k_LuminousEnergy); ("PRECISE_TOTAL_DEVICE_ENERGY_USE"%string, k_PreciseEnergy); ("POWER_FACTOR"%string, k_CosineOfTheAngle); ("EXTERNAL_SUPPLY_VOLTAGE"%string, k_HighVoltage); ("EXTERNAL_SUPPLY_VOLTAGE_FREQUENCY"%string, k_VoltageFrequency); ("LIGHT_DISTRIBUTION"%string, k_LightDistribution); ("LIGHT_SOURCE_CURRENT"%string, k_AverageCurrent); ("LIGHT_SOURCE_ON_TIME_NOT_RESETTABLE"%string, k_TimeSecond32); ("LIGHT_SOURCE_ON_TIME_RESETTABLE"%string, k_TimeSecond32); ("LIGHT_SOURCE_OPEN_CIRCUIT_STATISTICS"%string, k_EventStatistics); ("LIGHT_SOURCE_OVERALL_FAILURES_STATISTICS"%string, k_EventStatistics); ("LIGHT_SOURCE_SHORT_CIRCUIT_STATISTICS"%string, k_EventStatistics); ("LIGHT_SOURCE_START_COUNTER_RESETTABLE"%string, k_Count24); ("LIGHT_SOURCE_TEMPERATURE"%string, k_HighTemperature); ("LIGHT_SOURCE_THERMAL_DERATING_STATISTICS"%string, k_EventStatistics); ("LIGHT_SOURCE_THERMAL_SHUTDOWN_STATISTICS"%string, k_EventStatistics); ("LIGHT_SOURCE_TOTAL_POWER_ON_CYCLES"%string, k_Count24); ("LIGHT_SOURCE_VOLTAGE"%string, k_AverageVoltage); ("LUMINAIRE_COLOR"%string, (GWrap None (GText None))); ("LUMINAIRE_IDENTIFICATION_NUMBER"%string, (GWrap None (GText None))); ("LUMINAIRE_NOMINAL_INPUT_POWER"%string, k_Power); ("LUMINAIRE_NOMINAL_MAXIMUM_AC_MAINS_VOLTAGE"%string, k_Voltage); ("LUMINAIRE_NOMINAL_MINIMUM_AC_MAINS_VOLTAGE"%string, k_Voltage); ("LUMINAIRE_POWER_AT_MINIMUM_DIM_LEVEL"%string, k_Power); ("LUMINAIRE_TIME_OF_MANUFACTURE"%string, k_DateUTC); ("NOMINAL_LIGHT_OUTPUT"%string, k_LightOutput); ("OVERALL_FAILURE_CONDITION"%string, k_EventStatistics); ("RATED_MEDIAN_USEFUL_LIFE_OF_LUMINAIRE"%string, k_TimeHour24); ("RATED_MEDIAN_USEFUL_LIGHT_SOURCE_STARTS"%string, k_Count24); ("REFERENCE_TEMPERATURE"%string, k_HighTemperature); ("TOTAL_DEVICE_STARTS"%string, k_Count24); ("LUMINAIRE_IDENTIFICATION_STRING"%string, (GWrap None (GText None))); ("OUTPUT_POWER_LIMITATION"%string, k_EventStatistics); ("THERMAL_DERATING"%string, k_EventStatistics); ("OUTPUT_CURRENT_PERCENT"%string, k_Percentage8); ("LUMINAIRE_MANUFACTURER_GTIN"%string, k_GlobalTradeItemNumber); ("APPARENT_ENERGY"%string, k_ApparentEnergy32); ("APPARENT_POWER"%string, k_ApparentPower); ("ACTIVE_ENERGY_LOAD_SIDE"%string, k_Energy32); ("ACTIVE_POWER_LOAD_SIDE"%string, k_Power); ("LIGHT_SOURCE_TYPE"%string, k_LightSourceType); ("DESIRED_AMBIENT_TEMPERATURE"%string, k_Temperature8); ("SENSOR_GAIN"%string, k_Coefficient); ("PRECISE_PRESENT_AMBIENT_TEMPERATURE"%string, k_Temperature)] None)])).

(* generic/property.py:124-127 *)
Definition k_GenericManufacturerPropertySet : gcon :=
  (GStruct (Some "GenericManufacturerPropertySet"%string) [(GRenamed "property_id"%string (GWrap None k_Int16ul)); (GRenamed "access"%string (GWrap None k_Int8ul))]).

(* generic/property.py:131-159 *)
Definition k_GenericPropertyMessage : gcon :=
  (GWrap (Some "GenericPropertyMessage"%string) (GStruct None [(GRenamed "opcode"%string (GWrap None k_Int32ub)); (GSwitch None [("GENERIC_USER_PROPERTIES_GET"%string, k_GenericPropertiesGet); ("GENERIC_USER_PROPERTIES_STATUS"%string, k_GenericPropertiesStatus); ("GENERIC_USER_PROPERTY_GET"%string, k_GenericPropertyGet); ("GENERIC_USER_PROPERTY_SET"%string, k_GenericUserPropertySet); ("GENERIC_USER_PROPERTY_SET_UNACKNOWLEDGED"%string, k_GenericUserPropertySet); ("GENERIC_USER_PROPERTY_STATUS"%string, k_GenericPropertyStatus); ("GENERIC_ADMIN_PROPERTIES_GET"%string, k_GenericPropertiesGet); ("GENERIC_ADMIN_PROPERTIES_STATUS"%string, k_GenericPropertiesStatus); ("GENERIC_ADMIN_PROPERTY_GET"%string, k_GenericPropertyGet); ("GENERIC_ADMIN_PROPERTY_SET"%string, k_GenericAdminPropertySet); ("GENERIC_ADMIN_PROPERTY_SET_UNACKNOWLEDGED"%string, k_GenericAdminPropertySet); ("GENERIC_ADMIN_PROPERTY_STATUS"%string, k_GenericPropertyStatus); ("GENERIC_MANUFACTURER_PROPERTIES_GET"%string, k_GenericPropertiesGet); ("GENERIC_MANUFACTURER_PROPERTIES_STATUS"%string, k_GenericPropertiesStatus); ("GENERIC_MANUFACTURER_PROPERTY_GET"%string, k_GenericPropertyGet); ("GENERIC_MANUFACTURER_PROPERTY_SET"%string, k_GenericManufacturerPropertySet); ("GENERIC_MANUFACTURER_PROPERTY_SET_UNACKNOWLEDGED"%string, k_GenericManufacturerPropertySet); ("GENERIC_MANUFACTURER_PROPERTY_STATUS"%string, k_GenericPropertyStatus); ("GENERIC_CLIENT_PROPERTIES_GET"%string, k_GenericPropertiesGet); ("GENERIC_CLIENT_PROPERTIES_STATUS"%string, k_GenericPropertiesStatus)] None)])).

(* silvair/emergency_lighting.py:109 *)
Definition k_EmergencyLightingInhibitEnter : gcon :=
  (GStruct (Some "EmergencyLightingInhibitEnter"%string) []).

(* silvair/emergency_lighting.py:111 *)
Definition k_EmergencyLightingInhibitExit : gcon :=
  (GStruct (Some "EmergencyLightingInhibitExit"%string) []).

(* silvair/emergency_lighting.py:113 *)
Definition k_EmergencyLightingStateGet : gcon :=
  (GStruct (Some "EmergencyLightingStateGet"%string) []).

(* silvair/emergency_lighting.py:115-117 *)
Definition k_EmergencyLightingStateStatus : gcon :=
  (GStruct (Some "EmergencyLightingStateStatus"%string) [(GRenamed "el_state"%string (GWrap None k_Int8ul))]).

(* silvair/emergency_lighting.py:119-121 *)
Definition k_EmergencyLightingPropertyGet : gcon :=
  (GStruct (Some "EmergencyLightingPropertyGet"%string) [(GRenamed "property_id"%string (GWrap None k_Int16ul))]).

(* silvair/emergency_lighting.py:123 *)
Definition k_EmergencyLightingPropertySet : gcon :=
  (GWrap (Some "EmergencyLightingPropertySet"%string) (GStruct None [(GRenamed "property_id"%string (GWrap None k_Int16ul)); (GSwitch None [("EL_LIGHTNESS"%string, k_PerceivedLightness); ("EL_LIGHTNESS_RANGE_MIN"%string, k_PerceivedLightness); ("EL_LIGHTNESS_RANGE_MAX"%string, k_PerceivedLightness); ("EL_PROLONG_TIME"%string, k_TimeSecond16)] None)])).

(* silvair/emergency_lighting.py:125 *)
Definition k_EmergencyLightingPropertyStatus : gcon :=
  (GWrap (Some "EmergencyLightingPropertyStatus"%string) (GStruct None [(GRenamed "property_id"%string (GWrap None k_Int16ul)); (GSwitch None [("EL_LIGHTNESS"%string, k_PerceivedLightness); ("EL_LIGHTNESS_RANGE_MIN"%string, k_PerceivedLightness); ("EL_LIGHTNESS_RANGE_MAX"%string, k_PerceivedLightness); ("EL_PROLONG_TIME"%string, k_TimeSecond16)] None)])).

(* silvair/emergency_lighting.py:127 *)
Definition k_EmergencyLightingLampOperationTimeGet : gcon :=
  (GStruct (Some "EmergencyLightingLampOperationTimeGet"%string) []).

(* silvair/emergency_lighting.py:129 *)
Definition k_EmergencyLightingLampOperationTimeClear : gcon :=
  (GStruct (Some "EmergencyLightingLampOperationTimeClear"%string) []).

(* silvair/emergency_lighting.py:131-134 *)
Definition k_EmergencyLightingLampOperationTimeStatus : gcon :=
  (GStruct (Some "EmergencyLightingLampOperationTimeStatus"%string) [(GRenamed "el_lamp_total_operation_time"%string k_Int32ul); (GRenamed "el_lamp_emergency_time"%string k_Int32ul)]).

(* silvair/emergency_lighting.py:136 *)
Definition k_EmergencyLightingRestEnter : gcon :=
  (GStruct (Some "EmergencyLightingRestEnter"%string) []).

(* silvair/emergency_lighting.py:138 *)
Definition k_EmergencyLightingRestExit : gcon :=
  (GStruct (Some "EmergencyLightingRestExit"%string) []).

(* silvair/emergency_lighting.py:140-165 *)
Definition k_EmergencyLightingParams : gcon :=
  (GWrap (Some "EmergencyLightingParams"%string) (GStruct None [(GRenamed "subopcode"%string (GWrap None k_Int8ul)); (GSwitch None [("EL_INHIBIT_ENTER"%string, k_EmergencyLightingInhibitEnter); ("EL_INHIBIT_ENTER_UNACKNOWLEDGED"%string, k_EmergencyLightingInhibitEnter); ("EL_INHIBIT_EXIT"%string, k_EmergencyLightingInhibitExit); ("EL_INHIBIT_EXIT_UNACKNOWLEDGED"%string, k_EmergencyLightingInhibitExit); ("EL_STATE_GET"%string, k_EmergencyLightingStateGet); ("EL_STATE_STATUS"%string, k_EmergencyLightingStateStatus); ("EL_PROPERTY_GET"%string, k_EmergencyLightingPropertyGet); ("EL_PROPERTY_SET"%string, k_EmergencyLightingPropertySet); ("EL_PROPERTY_SET_UNACKNOWLEDGED"%string, k_EmergencyLightingPropertySet); ("EL_PROPERTY_STATUS"%string, k_EmergencyLightingPropertyStatus); ("EL_LAMP_OPERATION_TIME_GET"%string, k_EmergencyLightingLampOperationTimeGet); ("EL_LAMP_OPERATION_TIME_CLEAR"%string, k_EmergencyLightingLampOperationTimeClear); ("EL_LAMP_OPERATION_TIME_CLEAR_UNACKNOWLEDGED"%string, k_EmergencyLightingLampOperationTimeClear); ("EL_LAMP_OPERATION_TIME_STATUS"%string, k_EmergencyLightingLampOperationTimeStatus); ("EL_REST_ENTER"%string, k_EmergencyLightingRestEnter); ("EL_REST_ENTER_UNACKNOWLEDGED"%string, k_EmergencyLightingRestEnter); ("EL_REST_EXIT"%string, k_EmergencyLightingRestExit); ("EL_REST_EXIT_UNACKNOWLEDGED"%string, k_EmergencyLightingRestExit)] None)])).

(* silvair/emergency_lighting.py:167-175 *)
Definition k_EmergencyLightingMessage : gcon :=
  (GWrap (Some "EmergencyLightingMessage"%string) (GStruct None [(GRenamed "opcode"%string (GWrap None k_Int32ub)); (GSwitch None [("SILVAIR_EL"%string, k_EmergencyLightingParams)] None)])).

(* silvair/emergency_lighting_test.py:216 *)
Definition k_EmergencyLightingTestFunctionalTestGet : gcon :=
  (GStruct (Some "EmergencyLightingTestFunctionalTestGet"%string) []).

(* silvair/emergency_lighting_test.py:218 *)
Definition k_EmergencyLightingTestFunctionalTestStart : gcon :=
  (GStruct (Some "EmergencyLightingTestFunctionalTestStart"%string) []).

(* silvair/emergency_lighting_test.py:220 *)
Definition k_EmergencyLightingTestFunctionalTestStop : gcon :=
  (GStruct (Some "EmergencyLightingTestFunctionalTestStop"%string) []).

(* silvair/emergency_lighting_test.py:95-100 *)
Definition k_FunctionalExecutionResult : gcon :=
  (GWrap (Some "FunctionalExecutionResult"%string) (GStruct None [(GWrap None GSkip); (GRenamed "circuit_fault"%string k_Flag); (GRenamed "battery_fault"%string k_Flag); (GRenamed "lamp_fault"%string k_Flag)])).

(* silvair/emergency_lighting_test.py:228-231 *)
Definition k_EmergencyLightingTestFunctionalTestStatusOptional : gcon :=
  (GStruct (Some "EmergencyLightingTestFunctionalTestStatusOptional"%string) [(GRenamed "tai_timestamp"%string (GWrap None (GStruct None [(GRenamed "date"%string k_DateTime); (GRenamed "tai_utc_delta"%string (GWrap None k_Int16sl))]))); (GRenamed "execution_status"%string (GWrap None k_Int8ul)); (GRenamed "execution_result"%string k_FunctionalExecutionResult); (GRenamed "relative_timestamp"%string k_Int32ul)]).

(* silvair/emergency_lighting_test.py:222-226 *)
Definition k_EmergencyLightingTestFunctionalTestStatusMinimal : gcon :=
  (GStruct (Some "EmergencyLightingTestFunctionalTestStatusMinimal"%string) [(GRenamed "tai_timestamp"%string (GWrap None (GStruct None [(GRenamed "date"%string k_DateTime); (GRenamed "tai_utc_delta"%string (GWrap None k_Int16sl))]))); (GRenamed "execution_status"%string (GWrap None k_Int8ul)); (GRenamed "execution_result"%string k_FunctionalExecutionResult)]).

(* silvair/emergency_lighting_test.py:233-236 *)
Definition k_EmergencyLightingTestFunctionalTestStatus : gcon :=
  (GWrap (Some "EmergencyLightingTestFunctionalTestStatus"%string) (GSelect None [(GRenamed "optional"%string k_EmergencyLightingTestFunctionalTestStatusOptional); (GRenamed "minimal"%string k_EmergencyLightingTestFunctionalTestStatusMinimal)])).

(* silvair/emergency_lighting_test.py:238 *)
Definition k_EmergencyLightingTestDurationTestGet : gcon :=
  (GStruct (Some "EmergencyLightingTestDurationTestGet"%string) []).

(* silvair/emergency_lighting_test.py:240 *)
Definition k_EmergencyLightingTestDurationTestStart : gcon :=
  (GStruct (Some "EmergencyLightingTestDurationTestStart"%string) []).

(* silvair/emergency_lighting_test.py:242 *)
Definition k_EmergencyLightingTestDurationTestStop : gcon :=
  (GStruct (Some "EmergencyLightingTestDurationTestStop"%string) []).

(* silvair/emergency_lighting_test.py:102-108 *)
Definition k_DurationExecutionResult : gcon :=
  (GWrap (Some "DurationExecutionResult"%string) (GStruct None [(GWrap None GSkip); (GRenamed "battery_duration_fault"%string k_Flag); (GRenamed "circuit_fault"%string k_Flag); (GRenamed "battery_fault"%string k_Flag); (GRenamed "lamp_fault"%string k_Flag)])).

(* silvair/emergency_lighting_test.py:251-254 *)
Definition k_EmergencyLightingTestDurationTestStatusOptional : gcon :=
  (GStruct (Some "EmergencyLightingTestDurationTestStatusOptional"%string) [(GRenamed "tai_timestamp"%string (GWrap None (GStruct None [(GRenamed "date"%string k_DateTime); (GRenamed "tai_utc_delta"%string (GWrap None k_Int16sl))]))); (GRenamed "execution_status"%string (GWrap None k_Int8ul)); (GRenamed "execution_result"%string k_DurationExecutionResult); (GRenamed "duration_result"%string k_Int16ul); (GRenamed "relative_timestamp"%string k_Int32ul)]).

(* silvair/emergency_lighting_test.py:244-249 *)
Definition k_EmergencyLightingTestDurationTestStatusMinimal : gcon :=
  (GStruct (Some "EmergencyLightingTestDurationTestStatusMinimal"%string) [(GRenamed "tai_timestamp"%string (GWrap None (GStruct None [(GRenamed "date"%string k_DateTime); (GRenamed "tai_utc_delta"%string (GWrap None k_Int16sl))]))); (GRenamed "execution_status"%string (GWrap None k_Int8ul)); (GRenamed "execution_result"%string k_DurationExecutionResult); (GRenamed "duration_result"%string k_Int16ul)]).

(* silvair/emergency_lighting_test.py:256-259 *)
Definition k_EmergencyLightingTestDurationTestStatus : gcon :=
  (GWrap (Some "EmergencyLightingTestDurationTestStatus"%string) (GSelect None [(GRenamed "optional"%string k_EmergencyLightingTestDurationTestStatusOptional); (GRenamed "minimal"%string k_EmergencyLightingTestDurationTestStatusMinimal)])).

(* silvair/emergency_lighting_test.py:262-264 *)
Definition k_EmergencyLightingTestPropertyGet : gcon :=
  (GStruct (Some "EmergencyLightingTestPropertyGet"%string) [(GRenamed "property_id"%string (GWrap None k_Int16ul))]).

(* silvair/emergency_lighting_test.py:266 *)
Definition k_EmergencyLightingTestPropertySet : gcon :=
  (GWrap (Some "EmergencyLightingTestPropertySet"%string) (GStruct None [(GRenamed "property_id"%string (GWrap None k_Int16ul)); (GSwitch None [("ELT_DURATION_TEST_EXECUTION_TIMEOUT"%string, k_TimeSecond32); ("ELT_FUNCTIONAL_TEST_EXECUTION_TIMEOUT"%string, k_TimeSecond32); ("ELT_DURATION_TEST_RETRY_PERIOD"%string, k_TimeSecond32); ("ELT_FUNCTIONAL_TEST_RETRY_PERIOD"%string, k_TimeSecond32); ("ELT_DURATION_TEST_BACKUP_AUTOMATIC_DELAY"%string, k_TimeSecond32); ("ELT_FUNCTIONAL_TEST_BACKUP_AUTOMATIC_DELAY"%string, k_TimeSecond32); ("ELT_DURATION_TEST_BACKUP_AUTOMATIC_INTERVAL"%string, k_TimeSecond32); ("ELT_FUNCTIONAL_TEST_BACKUP_AUTOMATIC_INTERVAL"%string, k_TimeSecond32)] None)])).

(* silvair/emergency_lighting_test.py:268 *)
Definition k_EmergencyLightingTestPropertyStatus : gcon :=
  (GWrap (Some "EmergencyLightingTestPropertyStatus"%string) (GStruct None [(GRenamed "property_id"%string (GWrap None k_Int16ul)); (GSwitch None [("ELT_DURATION_TEST_EXECUTION_TIMEOUT"%string, k_TimeSecond32); ("ELT_FUNCTIONAL_TEST_EXECUTION_TIMEOUT"%string, k_TimeSecond32); ("ELT_DURATION_TEST_RETRY_PERIOD"%string, k_TimeSecond32); ("ELT_FUNCTIONAL_TEST_RETRY_PERIOD"%string, k_TimeSecond32); ("ELT_DURATION_TEST_BACKUP_AUTOMATIC_DELAY"%string, k_TimeSecond32); ("ELT_FUNCTIONAL_TEST_BACKUP_AUTOMATIC_DELAY"%string, k_TimeSecond32); ("ELT_DURATION_TEST_BACKUP_AUTOMATIC_INTERVAL"%string, k_TimeSecond32); ("ELT_FUNCTIONAL_TEST_BACKUP_AUTOMATIC_INTERVAL"%string, k_TimeSecond32)] None)])).

(* silvair/emergency_lighting_test.py:271-290 *)
Definition k_EmergencyLightingTestParams : gcon :=
  (GWrap (Some "EmergencyLightingTestParams"%string) (GStruct None [(GRenamed "subopcode"%string (GWrap None k_Int8ul)); (GSwitch None [("ELT_FUNCTIONAL_TEST_GET"%string, k_EmergencyLightingTestFunctionalTestGet); ("ELT_FUNCTIONAL_TEST_START"%string, k_EmergencyLightingTestFunctionalTestStart); ("ELT_FUNCTIONAL_TEST_STOP"%string, k_EmergencyLightingTestFunctionalTestStop); ("ELT_FUNCTIONAL_TEST_STATUS"%string, k_EmergencyLightingTestFunctionalTestStatus); ("ELT_DURATION_TEST_GET"%string, k_EmergencyLightingTestDurationTestGet); ("ELT_DURATION_TEST_START"%string, k_EmergencyLightingTestDurationTestStart); ("ELT_DURATION_TEST_STOP"%string, k_EmergencyLightingTestDurationTestStop); ("ELT_DURATION_TEST_STATUS"%string, k_EmergencyLightingTestDurationTestStatus); ("ELT_PROPERTY_GET"%string, k_EmergencyLightingTestPropertyGet); ("ELT_PROPERTY_SET"%string, k_EmergencyLightingTestPropertySet); ("ELT_PROPERTY_SET_UNACKNOWLEDGED"%string, k_EmergencyLightingTestPropertySet); ("ELT_PROPERTY_STATUS"%string, k_EmergencyLightingTestPropertyStatus)] None)])).

(* silvair/emergency_lighting_test.py:292-300 *)
Definition k_EmergencyLightingTestMessage : gcon :=
  (GWrap (Some "EmergencyLightingTestMessage"%string) (GStruct None [(GRenamed "opcode"%string (GWrap None k_Int32ub)); (GSwitch None [("SILVAIR_ELT"%string, k_EmergencyLightingTestParams)] None)])).

(** AccessMessage.OPCODES (__init__.py:36-60): the names of the opcode class and of the message, and the message *)
Definition access_messages : list (string * string * gcon) :=
 [  (("ConfigOpcode"%string, "ConfigMessage"%string), k_ConfigMessage);
   (("DebugOpcode"%string, "DebugMessage"%string), k_DebugMessage);
   (("GatewayConfigServerOpcode"%string, "GatewayConfigMessage"%string), k_GatewayConfigMessage);
   (("GenericOnOffOpcode"%string, "GenericOnOffMessage"%string), k_GenericOnOffMessage);
   (("GenericBatteryOpcode"%string, "GenericBatteryMessage"%string), k_GenericBatteryMessage);
   (("GenericLevelOpcode"%string, "GenericLevelMessage"%string), k_GenericLevelMessage);
   (("LightLightnessOpcode"%string, "LightLightnessMessage"%string), k_LightLightnessMessage);
   (("LightLightnessSetupOpcode"%string, "LightLightnessSetupMessage"%string), k_LightLightnessSetupMessage);
   (("LightCTLOpcode"%string, "LightCTLMessage"%string), k_LightCTLMessage);
   (("LightCTLSetupOpcode"%string, "LightCTLSetupMessage"%string), k_LightCTLSetupMessage);
   (("HealthOpcode"%string, "HealthMessage"%string), k_HealthMessage);
   (("NetworkDiagnosticServerOpcode"%string, "NetworkDiagnosticServerMessage"%string), k_NetworkDiagnosticServerMessage);
   (("NetworkDiagnosticSetupServerOpcode"%string, "NetworkDiagnosticSetupServerMessage"%string), k_NetworkDiagnosticSetupServerMessage);
   (("SceneOpcode"%string, "SceneMessage"%string), k_SceneMessage);
   (("SensorOpcode"%string, "SensorMessage"%string), k_SensorMessage);
   (("SensorSetupOpcode"%string, "SensorSetupMessage"%string), k_SensorSetupMessage);
   (("LightExtendedControllerOpcode"%string, "LightExtendedControllerMessage"%string), k_LightExtendedControllerMessage);
   (("TimeOpcode"%string, "TimeMessage"%string), k_TimeMessage);
   (("DebugV2Opcode"%string, "DebugV2Message"%string), k_DebugV2Message);
   (("RRuleSchedulerOpcode"%string, "RRuleSchedulerMessage"%string), k_RRuleSchedulerMessage);
   (("GenericPropertyOpcode"%string, "GenericPropertyMessage"%string), k_GenericPropertyMessage);
   (("EmergencyLightingOpcode"%string, "EmergencyLightingMessage"%string), k_EmergencyLightingMessage);
   (("EmergencyLightingTestOpcode"%string, "EmergencyLightingTestMessage"%string), k_EmergencyLightingTestMessage)].
