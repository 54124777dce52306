(** GENERATED by tools/gen.py from /repo/bluetooth_mesh/messages/config.py; do not edit.
    The declarations of the module, in source order; every definition cites its lines. *)
From Verif Require Import PyVal Float64 Adapters Construct.

(* config.py:67-69 *)
Definition config_SecureNetworkBeacon : enum :=
  [("OFF"%string, 0);
   ("ON"%string, 1)].

(* config.py:72-75 *)
Definition config_GATTProxy : enum :=
  [("DISABLED"%string, 0);
   ("ENABLED"%string, 1);
   ("NOT_SUPPORTED"%string, 2)].

(* config.py:78-81 *)
Definition config_Relay : enum :=
  [("DISABLED"%string, 0);
   ("ENABLED"%string, 1);
   ("NOT_SUPPORTED"%string, 2)].

(* config.py:84-357 *)
Definition config_GATTNamespaceDescriptor : enum :=
  [("AUXILIARY"%string, 0x108);
   ("BACK"%string, 0x101);
   ("BACKUP"%string, 0x107);
   ("BOTTOM"%string, 0x103);
   ("EIGHTEENTH"%string, 18);
   ("EIGHTH"%string, 8);
   ("EIGHTIETH"%string, 80);
   ("EIGHTY_EIGHTH"%string, 88);
   ("EIGHTY_FIFTH"%string, 85);
   ("EIGHTY_FIRST"%string, 81);
   ("EIGHTY_FOURTH"%string, 84);
   ("EIGHTY_NINTH"%string, 89);
   ("EIGHTY_SECOND"%string, 82);
   ("EIGHTY_SEVENTH"%string, 87);
   ("EIGHTY_SIXTH"%string, 86);
   ("EIGHTY_THIRD"%string, 83);
   ("ELEVENTH"%string, 11);
   ("EXTERNAL"%string, 0x110);
   ("FIFTEENTH"%string, 15);
   ("FIFTH"%string, 5);
   ("FIFTIETH"%string, 50);
   ("FIFTY_EIGHTH"%string, 58);
   ("FIFTY_FIFTH"%string, 55);
   ("FIFTY_FIRST"%string, 51);
   ("FIFTY_FOURTH"%string, 54);
   ("FIFTY_NINTH"%string, 59);
   ("FIFTY_SECOND"%string, 52);
   ("FIFTY_SEVENTH"%string, 57);
   ("FIFTY_SIXTH"%string, 56);
   ("FIFTY_THIRD"%string, 53);
   ("FIRST"%string, 1);
   ("FLASH"%string, 0x10A);
   ("FORTIETH"%string, 40);
   ("FOURTEENTH"%string, 14);
   ("FOURTH"%string, 4);
   ("FORTY_EIGHTH"%string, 48);
   ("FORTY_FIFTH"%string, 45);
   ("FORTY_FIRST"%string, 41);
   ("FORTY_FOURTH"%string, 44);
   ("FORTY_NINTH"%string, 49);
   ("FORTY_SECOND"%string, 42);
   ("FORTY_SEVENTH"%string, 47);
   ("FORTY_SIXTH"%string, 46);
   ("FORTY_THIRD"%string, 43);
   ("FRONT"%string, 0x100);
   ("INSIDE"%string, 0x10B);
   ("INTERNAL"%string, 0x10F);
   ("LEFT"%string, 0x10D);
   ("LOWER"%string, 0x105);
   ("MAIN"%string, 0x106);
   ("NINETEENTH"%string, 19);
   ("NINTH"%string, 9);
   ("NINETIETH"%string, 90);
   ("NINETY_EIGHTH"%string, 98);
   ("NINETY_FIFTH"%string, 95);
   ("NINETY_FIRST"%string, 91);
   ("NINETY_FOURTH"%string, 94);
   ("NINETY_NINTH"%string, 99);
   ("NINETY_SECOND"%string, 92);
   ("NINETY_SEVENTH"%string, 97);
   ("NINETY_SIXTH"%string, 96);
   ("NINETY_THIRD"%string, 93);
   ("ONE_HUNDRED_AND_EIGHTEENTH"%string, 118);
   ("ONE_HUNDRED_AND_EIGHTH"%string, 108);
   ("ONE_HUNDRED_AND_EIGHTY_EIGHTH"%string, 188);
   ("ONE_HUNDRED_AND_EIGHTY_FIFTH"%string, 185);
   ("ONE_HUNDRED_AND_EIGHTY_FIRST"%string, 181);
   ("ONE_HUNDRED_AND_EIGHTY_FOURTH"%string, 184);
   ("ONE_HUNDRED_AND_EIGHTY_NINTH"%string, 189);
   ("ONE_HUNDRED_AND_EIGHTY_SECOND"%string, 182);
   ("ONE_HUNDRED_AND_EIGHTY_SEVENTH"%string, 187);
   ("ONE_HUNDRED_AND_EIGHTY_SIXTH"%string, 186);
   ("ONE_HUNDRED_AND_EIGHTY_THIRD"%string, 183);
   ("ONE_HUNDRED_AND_ELEVENTH"%string, 111);
   ("ONE_HUNDRED_AND_FIFTEENTH"%string, 115);
   ("ONE_HUNDRED_AND_FIFTH"%string, 105);
   ("ONE_HUNDRED_AND_FIFTY_EIGHTH"%string, 158);
   ("ONE_HUNDRED_AND_FIFTY_FIFTH"%string, 155);
   ("ONE_HUNDRED_AND_FIFTY_FIRST"%string, 151);
   ("ONE_HUNDRED_AND_FIFTY_FOURTH"%string, 154);
   ("ONE_HUNDRED_AND_FIFTY_NINTH"%string, 159);
   ("ONE_HUNDRED_AND_FIFTY_SECOND"%string, 152);
   ("ONE_HUNDRED_AND_FIFTY_SEVENTH"%string, 157);
   ("ONE_HUNDRED_AND_FIFTY_SIXTH"%string, 156);
   ("ONE_HUNDRED_AND_FIFTY_THIRD"%string, 153);
   ("ONE_HUNDRED_AND_FIRST"%string, 101);
   ("ONE_HUNDRED_AND_FOURTEENTH"%string, 114);
   ("ONE_HUNDRED_AND_FOURTH"%string, 104);
   ("ONE_HUNDRED_AND_FORTY_EIGHTH"%string, 148);
   ("ONE_HUNDRED_AND_FORTY_FIFTH"%string, 145);
   ("ONE_HUNDRED_AND_FORTY_FIRST"%string, 141);
   ("ONE_HUNDRED_AND_FORTY_FOURTH"%string, 144);
   ("ONE_HUNDRED_AND_FORTY_NINTH"%string, 149);
   ("ONE_HUNDRED_AND_FORTY_SECOND"%string, 142);
   ("ONE_HUNDRED_AND_FORTY_SEVENTH"%string, 147);
   ("ONE_HUNDRED_AND_FORTY_SIXTH"%string, 146);
   ("ONE_HUNDRED_AND_FORTY_THIRD"%string, 143);
   ("ONE_HUNDRED_AND_NINETEENTH"%string, 119);
   ("ONE_HUNDRED_AND_NINTH"%string, 109);
   ("ONE_HUNDRED_AND_NINETY_EIGHTH"%string, 198);
   ("ONE_HUNDRED_AND_NINETY_FIFTH"%string, 195);
   ("ONE_HUNDRED_AND_NINETY_FIRST"%string, 191);
   ("ONE_HUNDRED_AND_NINETY_FOURTH"%string, 194);
   ("ONE_HUNDRED_AND_NINETY_NINTH"%string, 199);
   ("ONE_HUNDRED_AND_NINETY_SECOND"%string, 192);
   ("ONE_HUNDRED_AND_NINETY_SEVENTH"%string, 197);
   ("ONE_HUNDRED_AND_NINETY_SIXTH"%string, 196);
   ("ONE_HUNDRED_AND_NINETY_THIRD"%string, 193);
   ("ONE_HUNDRED_AND_SECOND"%string, 102);
   ("ONE_HUNDRED_AND_SEVENTEENTH"%string, 117);
   ("ONE_HUNDRED_AND_SEVENTH"%string, 107);
   ("ONE_HUNDRED_AND_SEVENTY_EIGHTH"%string, 178);
   ("ONE_HUNDRED_AND_SEVENTY_FIFTH"%string, 175);
   ("ONE_HUNDRED_AND_SEVENTY_FIRST"%string, 171);
   ("ONE_HUNDRED_AND_SEVENTY_FOURTH"%string, 174);
   ("ONE_HUNDRED_AND_SEVENTY_NINTH"%string, 179);
   ("ONE_HUNDRED_AND_SEVENTY_SECOND"%string, 172);
   ("ONE_HUNDRED_AND_SEVENTY_SEVENTH"%string, 177);
   ("ONE_HUNDRED_AND_SEVENTY_SIXTH"%string, 176);
   ("ONE_HUNDRED_AND_SEVENTY_THIRD"%string, 173);
   ("ONE_HUNDRED_AND_SIXTEENTH"%string, 116);
   ("ONE_HUNDRED_AND_SIXTH"%string, 106);
   ("ONE_HUNDRED_AND_SIXTY_EIGHTH"%string, 168);
   ("ONE_HUNDRED_AND_SIXTY_FIFTH"%string, 165);
   ("ONE_HUNDRED_AND_SIXTY_FIRST"%string, 161);
   ("ONE_HUNDRED_AND_SIXTY_FOURTH"%string, 164);
   ("ONE_HUNDRED_AND_SIXTY_NINTH"%string, 169);
   ("ONE_HUNDRED_AND_SIXTY_SECOND"%string, 162);
   ("ONE_HUNDRED_AND_SIXTY_SEVENTH"%string, 167);
   ("ONE_HUNDRED_AND_SIXTY_SIXTH"%string, 166);
   ("ONE_HUNDRED_AND_SIXTY_THIRD"%string, 163);
   ("ONE_HUNDRED_AND_TENTH"%string, 110);
   ("ONE_HUNDRED_AND_THIRD"%string, 103);
   ("ONE_HUNDRED_AND_THIRTEENTH"%string, 113);
   ("ONE_HUNDRED_AND_THIRTY_EIGHTH"%string, 138);
   ("ONE_HUNDRED_AND_THIRTY_FIFTH"%string, 135);
   ("ONE_HUNDRED_AND_THIRTY_FIRST"%string, 131);
   ("ONE_HUNDRED_AND_THIRTY_FOURTH"%string, 134);
   ("ONE_HUNDRED_AND_THIRTY_NINTH"%string, 139);
   ("ONE_HUNDRED_AND_THIRTY_SECOND"%string, 132);
   ("ONE_HUNDRED_AND_THIRTY_SEVENTH"%string, 137);
   ("ONE_HUNDRED_AND_THIRTY_SIXTH"%string, 136);
   ("ONE_HUNDRED_AND_THIRTY_THIRD"%string, 133);
   ("ONE_HUNDRED_AND_TWELVETH"%string, 112);
   ("ONE_HUNDRED_AND_TWENTY_EIGHTH"%string, 128);
   ("ONE_HUNDRED_AND_TWENTY_FIFTH"%string, 125);
   ("ONE_HUNDRED_AND_TWENTY_FIRST"%string, 121);
   ("ONE_HUNDRED_AND_TWENTY_FOURTH"%string, 124);
   ("ONE_HUNDRED_AND_TWENTY_NINTH"%string, 129);
   ("ONE_HUNDRED_AND_TWENTY_SECOND"%string, 122);
   ("ONE_HUNDRED_AND_TWENTY_SEVENTH"%string, 127);
   ("ONE_HUNDRED_AND_TWENTY_SIXTH"%string, 126);
   ("ONE_HUNDRED_AND_TWENTY_THIRD"%string, 123);
   ("ONE_HUNDRED_EIGHTIETH"%string, 180);
   ("ONE_HUNDRED_FIFTIETH"%string, 150);
   ("ONE_HUNDRED_FORTIETH"%string, 140);
   ("ONE_HUNDRED_NINETIETH"%string, 190);
   ("ONE_HUNDRED_SEVENTIETH"%string, 170);
   ("ONE_HUNDRED_SIXTIETH"%string, 160);
   ("ONE_HUNDRED_THIRTIETH"%string, 130);
   ("ONE_HUNDRED_TWENTIETH"%string, 120);
   ("ONE_HUNDREDTH"%string, 100);
   ("OUTSIDE"%string, 0x10C);
   ("RIGHT"%string, 0x10E);
   ("SECOND"%string, 2);
   ("SEVENTEENTH"%string, 17);
   ("SEVENTH"%string, 7);
   ("SEVENTIETH"%string, 70);
   ("SEVENTY_EIGHTH"%string, 78);
   ("SEVENTY_FIFTH"%string, 75);
   ("SEVENTY_FIRST"%string, 71);
   ("SEVENTY_FOURTH"%string, 74);
   ("SEVENTY_NINTH"%string, 79);
   ("SEVENTY_SECOND"%string, 72);
   ("SEVENTY_SEVENTH"%string, 77);
   ("SEVENTY_SIXTH"%string, 76);
   ("SEVENTY_THIRD"%string, 73);
   ("SIXTEENTH"%string, 16);
   ("SIXTH"%string, 6);
   ("SIXTIETH"%string, 60);
   ("SIXTY_EIGHTH"%string, 68);
   ("SIXTY_FIFTH"%string, 65);
   ("SIXTY_FIRST"%string, 61);
   ("SIXTY_FOURTH"%string, 64);
   ("SIXTY_NINTH"%string, 69);
   ("SIXTY_SECOND"%string, 62);
   ("SIXTY_SEVENTH"%string, 67);
   ("SIXTY_SIXTH"%string, 66);
   ("SIXTY_THIRD"%string, 63);
   ("SUPPLEMENTARY"%string, 0x109);
   ("TENTH"%string, 10);
   ("THIRD"%string, 3);
   ("THIRTEENTH"%string, 13);
   ("THIRTIETH"%string, 30);
   ("THIRTY_EIGHTH"%string, 38);
   ("THIRTY_FIFTH"%string, 35);
   ("THIRTY_FIRST"%string, 31);
   ("THIRTY_FOURTH"%string, 34);
   ("THIRTY_NINTH"%string, 39);
   ("THIRTY_SECOND"%string, 32);
   ("THIRTY_SEVENTH"%string, 37);
   ("THIRTY_SIXTH"%string, 36);
   ("THIRTY_THIRD"%string, 33);
   ("TOP"%string, 0x102);
   ("TWELVETH"%string, 12);
   ("TWENTIETH"%string, 20);
   ("TWENTY_EIGHTH"%string, 28);
   ("TWENTY_FIFTH"%string, 25);
   ("TWENTY_FIRST"%string, 21);
   ("TWENTY_FOURTH"%string, 24);
   ("TWENTY_NINTH"%string, 29);
   ("TWENTY_SECOND"%string, 22);
   ("TWENTY_SEVENTH"%string, 27);
   ("TWENTY_SIXTH"%string, 26);
   ("TWENTY_THIRD"%string, 23);
   ("TWO_HUNDRED_AND_EIGHTEENTH"%string, 218);
   ("TWO_HUNDRED_AND_EIGHTH"%string, 208);
   ("TWO_HUNDRED_AND_ELEVENTH"%string, 211);
   ("TWO_HUNDRED_AND_FIFTEENTH"%string, 215);
   ("TWO_HUNDRED_AND_FIFTH"%string, 205);
   ("TWO_HUNDRED_AND_FIFTY_FIFTH"%string, 255);
   ("TWO_HUNDRED_AND_FIFTY_FIRST"%string, 251);
   ("TWO_HUNDRED_AND_FIFTY_FOURTH"%string, 254);
   ("TWO_HUNDRED_AND_FIFTY_SECOND"%string, 252);
   ("TWO_HUNDRED_AND_FIFTY_THIRD"%string, 253);
   ("TWO_HUNDRED_AND_FIRST"%string, 201);
   ("TWO_HUNDRED_AND_FOURTEENTH"%string, 214);
   ("TWO_HUNDRED_AND_FOURTH"%string, 204);
   ("TWO_HUNDRED_AND_FORTY_EIGHTH"%string, 248);
   ("TWO_HUNDRED_AND_FORTY_FIFTH"%string, 245);
   ("TWO_HUNDRED_AND_FORTY_FIRST"%string, 241);
   ("TWO_HUNDRED_AND_FORTY_FOURTH"%string, 244);
   ("TWO_HUNDRED_AND_FORTY_NINTH"%string, 249);
   ("TWO_HUNDRED_AND_FORTY_SECOND"%string, 242);
   ("TWO_HUNDRED_AND_FORTY_SEVENTH"%string, 247);
   ("TWO_HUNDRED_AND_FORTY_SIXTH"%string, 246);
   ("TWO_HUNDRED_AND_FORTY_THIRD"%string, 243);
   ("TWO_HUNDRED_AND_NINETEENTH"%string, 219);
   ("TWO_HUNDRED_AND_NINTH"%string, 209);
   ("TWO_HUNDRED_AND_SECOND"%string, 202);
   ("TWO_HUNDRED_AND_SEVENTEENTH"%string, 217);
   ("TWO_HUNDRED_AND_SEVENTH"%string, 207);
   ("TWO_HUNDRED_AND_SIXTEENTH"%string, 216);
   ("TWO_HUNDRED_AND_SIXTH"%string, 206);
   ("TWO_HUNDRED_AND_TENTH"%string, 210);
   ("TWO_HUNDRED_AND_THIRD"%string, 203);
   ("TWO_HUNDRED_AND_THIRTEENTH"%string, 213);
   ("TWO_HUNDRED_AND_THIRTY_EIGHTH"%string, 238);
   ("TWO_HUNDRED_AND_THIRTY_FIFTH"%string, 235);
   ("TWO_HUNDRED_AND_THIRTY_FIRST"%string, 231);
   ("TWO_HUNDRED_AND_THIRTY_FOURTH"%string, 234);
   ("TWO_HUNDRED_AND_THIRTY_NINTH"%string, 239);
   ("TWO_HUNDRED_AND_THIRTY_SECOND"%string, 232);
   ("TWO_HUNDRED_AND_THIRTY_SEVENTH"%string, 237);
   ("TWO_HUNDRED_AND_THIRTY_SIXTH"%string, 236);
   ("TWO_HUNDRED_AND_THIRTY_THIRD"%string, 233);
   ("TWO_HUNDRED_AND_TWELVETH"%string, 212);
   ("TWO_HUNDRED_AND_TWENTY_EIGHTH"%string, 228);
   ("TWO_HUNDRED_AND_TWENTY_FIFTH"%string, 225);
   ("TWO_HUNDRED_AND_TWENTY_FIRST"%string, 221);
   ("TWO_HUNDRED_AND_TWENTY_FOURTH"%string, 224);
   ("TWO_HUNDRED_AND_TWENTY_NINTH"%string, 229);
   ("TWO_HUNDRED_AND_TWENTY_SECOND"%string, 222);
   ("TWO_HUNDRED_AND_TWENTY_SEVENTH"%string, 227);
   ("TWO_HUNDRED_AND_TWENTY_SIXTH"%string, 226);
   ("TWO_HUNDRED_AND_TWENTY_THIRD"%string, 223);
   ("TWO_HUNDRED_FIFTIETH"%string, 250);
   ("TWO_HUNDRED_FORTIETH"%string, 240);
   ("TWO_HUNDRED_THIRTIETH"%string, 230);
   ("TWO_HUNDRED_TWENTIETH"%string, 220);
   ("TWO_HUNDREDTH"%string, 200);
   ("UNKNOWN"%string, 0);
   ("UPPER"%string, 0x104)].

(* config.py:360-362 *)
Definition config_PublishFriendshipCredentialsFlag : enum :=
  [("MASTER_SECURITY"%string, 0);
   ("FRIENDSHIP_SECURITY"%string, 1)].

(* config.py:365-383 *)
Definition config_StatusCode : enum :=
  [("SUCCESS"%string, 0);
   ("INVALID_ADDRESS"%string, 1);
   ("INVALID_MODEL"%string, 2);
   ("INVALID_APPKEY_INDEX"%string, 3);
   ("INVALID_NETKEY_INDEX"%string, 4);
   ("INSUFFICIENT_RESOURCES"%string, 5);
   ("KEY_INDEX_ALREADY_STORED"%string, 6);
   ("INVALID_PUBLISH_PARAMETERS"%string, 7);
   ("NOT_A_SUBSCRIBE_MODEL"%string, 8);
   ("STORAGE_FAILURE"%string, 9);
   ("FEATURE_NOT_SUPPORTED"%string, 10);
   ("CANNOT_UPDATE"%string, 11);
   ("CANNOT_REMOVE"%string, 12);
   ("CANNOT_BIND"%string, 13);
   ("TEMPORARILY_UNABLE_TO_CHANGE_STATE"%string, 14);
   ("CANNOT_SET"%string, 15);
   ("UNSPECIFIED_ERROR"%string, 16);
   ("INVALID_BINDING"%string, 17)].

(* config.py:386-389 *)
Definition config_NodeIdentity : enum :=
  [("STOPPED"%string, 0);
   ("RUNNING"%string, 1);
   ("NOT_SUPPORTED"%string, 2)].

(* config.py:392-395 *)
Definition config_Friend : enum :=
  [("DISABLED"%string, 0);
   ("ENABLED"%string, 1);
   ("NOT_SUPPORTED"%string, 2)].

(* config.py:398-401 *)
Definition config_KeyRefreshPhase : enum :=
  [("NORMAL"%string, 0);
   ("FIRST"%string, 1);
   ("SECOND"%string, 2)].

(* config.py:404-406 *)
Definition config_KeyRefreshTransition : enum :=
  [("SECOND"%string, 2);
   ("THIRD"%string, 3)].

(* config.py:409 *)
Definition config_SecureNetworkBeaconAdapter : con :=
  (CAdapt (AEnum config_SecureNetworkBeacon) Int8ul).

(* config.py:411 *)
Definition config_GATTProxyAdapter : con :=
  (CAdapt (AEnum config_GATTProxy) Int8ul).

(* config.py:413 *)
Definition config_RelayAdapter : con :=
  (CAdapt (AEnum config_Relay) Int8ul).

(* config.py:415 *)
Definition config_GATTNamespaceDescriptorAdapter : con :=
  (CAdapt (AEnum config_GATTNamespaceDescriptor) Int16ul).

(* config.py:417 *)
Definition config_PublishFriendshipCredentialsFlagAdapter : con :=
  (CAdapt (AEnum config_PublishFriendshipCredentialsFlag) CFlag).

(* config.py:419 *)
Definition config_StatusCodeAdapter : con :=
  (CAdapt (AEnum config_StatusCode) Int8ul).

(* config.py:421 *)
Definition config_NodeIdentityAdapter : con :=
  (CAdapt (AEnum config_NodeIdentity) Int8ul).

(* config.py:423 *)
Definition config_FriendAdapter : con :=
  (CAdapt (AEnum config_Friend) Int8ul).

(* config.py:425 *)
Definition config_TTL : con :=
  (CAdapt (ARange None (Some 127)) Int8ul).

(* config.py:428-430 *)
Definition config_SIGModelId : con :=
  (CStruct (FCons "model_id" Int16ul
    FNil)).

(* config.py:432-435 *)
Definition config_VendorModelId : con :=
  (CStruct (FCons "vendor_id" Int16ul
    (FCons "model_id" Int16ul
    FNil))).

(* config.py:437-440 *)
Definition config_ModelId : con :=
  (CSelect (ACons (CNamed "vendor" config_VendorModelId)
    (ACons (CNamed "sig" config_SIGModelId)
    ANil))).

(* config.py:491-494 *)
Definition config_UnassignedAddress : con :=
  (CAdapt (AAddrIn [UNASSIGNED]) Int16ul).

(* config.py:496-499 *)
Definition config_UnicastAddress : con :=
  (CAdapt (AAddrIn [UNICAST]) Int16ul).

(* config.py:502-504 *)
Definition config_GroupAddress : con :=
  (CAdapt (AAddrIn [GROUP]) Int16ul).

(* config.py:506-509 *)
Definition config_VirtualLabel : con :=
  (CAdapt (AAddrIn [VIRTUAL]) Int16ul).

(* config.py:511-514 *)
Definition config_NotVirtualLabel : con :=
  (CAdapt (AAddrOut [VIRTUAL]) Int16ul).

(* config.py:516-522 *)
Definition config_SubscriptionAddress : con :=
  (CAdapt (AAddrOut [UNASSIGNED; UNICAST; ALL_NODES; VIRTUAL]) Int16ul).

(* config.py:524-528 *)
Definition config_StatusSubscriptionAddress : con :=
  (CAdapt (AAddrOut [UNICAST; ALL_NODES]) Int16ul).

(* config.py:530-534 *)
Definition config_UnicastUnassignedAddress : con :=
  (CAdapt (AAddrIn [UNICAST; UNASSIGNED]) Int16ul).

(* config.py:536-541 *)
Definition config_UnicastUnassignedGroupAddress : con :=
  (CAdapt (AAddrIn [UNICAST; UNASSIGNED; GROUP]) Int16ul).

(* config.py:543-546 *)
Definition config_Int12ul : con :=
  (CAdapt (AMask 61440) Int16ul).

(* config.py:548-554 *)
Definition config_CompositionDataPage0Element : con :=
  (CStruct (FCons "location" config_GATTNamespaceDescriptorAdapter
    (FRebuild "sig_number" (ELen "sig_models") Int8ul
    (FRebuild "vendor_number" (ELen "vendor_models") Int8ul
    (FCons "sig_models" (CArray (EGet "sig_number") config_SIGModelId)
    (FCons "vendor_models" (CArray (EGet "vendor_number") config_VendorModelId)
    FNil)))))).

(* config.py:556-563 *)
Definition config_CompositionDataPage0 : con :=
  (CStruct (FCons "cid" Int16ul
    (FCons "pid" Int16ul
    (FCons "vid" Int16ul
    (FCons "crpl" Int16ul
    (FCons "features" Int16ul
    (FCons "elements" (CGreedyRange config_CompositionDataPage0Element)
    FNil))))))).

(* config.py:565-568 *)
Definition config_ExtendedModelLongFormat : con :=
  (CStruct (FCons "model_item_index" Int8ul
    (FCons "element_offset" Int8sl
    FNil))).

(* config.py:570-573 *)
Definition config_ExtendedModelShortFormat : con :=
  (CBitwise (CStruct (FCons "model_item_index" (CBits 5 false)
    (FCons "element_offset" (CBits 3 true)
    FNil)))).

(* config.py:576-578 *)
Definition config_ExtendedModelsItemFormat : enum :=
  [("SHORT"%string, 0);
   ("LONG"%string, 1)].

(* config.py:581-593 *)
Definition config_ModelRelationItem : con :=
  (CBitwise (CStruct (FRebuild "extended_items_count" (ELenVals "extended_models_items") (CBits 6 false)
    (FCons "format" (CAdapt (AEnum config_ExtendedModelsItemFormat) (CBits 1 false))
    (FCons "corresponding_present" (CBits 1 false)
    (FCons "corresponding_id" (CIfDefault "corresponding_present" (CBits 8 false) (VInt 0))
    (FCons "extended_models_items" (CBytewise (CEnumSwitchStruct "format" (KCons "SHORT" 0 (CArray (EGet "extended_items_count") config_ExtendedModelShortFormat)
    (KCons "LONG" 1 (CArray (EGet "extended_items_count") config_ExtendedModelLongFormat)
    KNil))))
    FNil))))))).

(* config.py:595-600 *)
Definition config_CompositionDataPage1Element : con :=
  (CStruct (FRebuild "number_s" (ELen "sig_models") Int8ul
    (FRebuild "number_v" (ELen "vendor_models") Int8ul
    (FCons "sig_models" (CArray (EGet "number_s") config_ModelRelationItem)
    (FCons "vendor_models" (CArray (EGet "number_v") config_ModelRelationItem)
    FNil))))).

(* config.py:602-604 *)
Definition config_CompositionDataPage1 : con :=
  (CStruct (FCons "element" (CGreedyRange config_CompositionDataPage1Element)
    FNil)).

(* config.py:606-610 *)
Definition config_Version : con :=
  (CStruct (FCons "version_x" Int8ul
    (FCons "version_y" Int8ul
    (FCons "version_z" Int8ul
    FNil)))).

(* config.py:612-619 *)
Definition config_MeshProfileEntry : con :=
  (CStruct (FCons "mesh_profile_identifier" Int16ul
    (FCons "version" config_Version
    (FRebuild "num_element_offsets" (ELen "element_offset_list") Int8ul
    (FCons "element_offset_list" (CArray (EGet "num_element_offsets") Int8ul)
    (FRebuild "additional_data_len" (ELen "additional_data") Int16ul
    (FCons "additional_data" (CArray (EGet "additional_data_len") Int8ul)
    FNil))))))).

(* config.py:621-623 *)
Definition config_CompositionDataPage2 : con :=
  (CStruct (FCons "record_list" (CGreedyRange config_MeshProfileEntry)
    FNil)).

(* config.py:625-629 *)
Definition config_Retransmit : con :=
  (CBitwise (CStruct (FCons "interval_steps" (CBits 5 false)
    (FCons "count" (CBits 3 false)
    FNil)))).

(* config.py:658 *)
Definition config_NetworkRetransmit : con :=
  (CAdapt (ARetransmit 10) config_Retransmit).

(* config.py:660 *)
Definition config_RelayRetransmit : con :=
  config_NetworkRetransmit.

(* config.py:662 *)
Definition config_PublishRetransmit : con :=
  (CAdapt (ARetransmit 50) config_Retransmit).

(* config.py:713-730 *)
Definition config_KeyIndices : con :=
  (CAdapt AKeyIndices (CGreedyRange (CSelect (ACons (CReversed 3 (CBitwise (CStruct (FCons "first" (CBits 12 false)
    (FCons "second" (CBits 12 false)
    FNil)))))
    (ACons (CReversed 2 (CBitwise (CStruct (FPad None 4
    (FCons "last" (CBits 12 false)
    FNil)))))
    ANil))))).

(* config.py:735-753 *)
Definition config_PublishPeriodStepResolution : enum :=
  [("RESOLUTION_100_MS"%string, 0);
   ("RESOLUTION_1_S"%string, 1);
   ("RESOLUTION_10_S"%string, 2);
   ("RESOLUTION_10_MIN"%string, 3)].

(* config.py:757-760 *)
Definition config_PublishPeriodStepResolutionAdapter : con :=
  (CAdapt (AEnum config_PublishPeriodStepResolution) (CBits 2 false)).

(* config.py:762-765 *)
Definition config_PublishPeriod : con :=
  (CBitwise (CStruct (FCons "step_resolution" config_PublishPeriodStepResolutionAdapter
    (FCons "number_of_steps" (CBits 6 false)
    FNil)))).

(* config.py:767 *)
Definition config_ConfigBeaconGet : con :=
  (CStruct FNil).

(* config.py:769-771 *)
Definition config_ConfigBeaconSet : con :=
  (CStruct (FCons "beacon" config_SecureNetworkBeaconAdapter
    FNil)).

(* config.py:773 *)
Definition config_ConfigBeaconStatus : con :=
  config_ConfigBeaconSet.

(* config.py:776-780 *)
Definition config_CompositionDataPage : enum :=
  [("ZERO"%string, 0);
   ("FIRST"%string, 1);
   ("SECOND"%string, 2);
   ("TWO_HUNDRED_AND_FIFTY_FIFTH"%string, 255)].

(* config.py:783 *)
Definition config_CompositionDataPageAdapter : con :=
  (CAdapt (AEnum config_CompositionDataPage) Int8ul).

(* config.py:785-787 *)
Definition config_ConfigCompositionDataGet : con :=
  (CStruct (FCons "page" config_CompositionDataPageAdapter
    FNil)).

(* config.py:789-797 *)
Definition config_ConfigCompositionData : con :=
  (CSwitch "page" (KCons "ZERO" 0 config_CompositionDataPage0
    (KCons "FIRST" 1 config_CompositionDataPage1
    (KCons "SECOND" 2 config_CompositionDataPage2
    (KCons "TWO_HUNDRED_AND_FIFTY_FIFTH" 255 CGreedyBytes
    KNil))))).

(* config.py:799-802 *)
Definition config_ConfigCompositionDataStatus : con :=
  (CSwitchStruct "page" config_CompositionDataPageAdapter config_CompositionDataPage "data"
    (KCons "ZERO" 0 config_CompositionDataPage0
    (KCons "FIRST" 1 config_CompositionDataPage1
    (KCons "SECOND" 2 config_CompositionDataPage2
    (KCons "TWO_HUNDRED_AND_FIFTY_FIFTH" 255 CGreedyBytes
    KNil))))).

(* config.py:804 *)
Definition config_ConfigDefaultTTLGet : con :=
  (CStruct FNil).

(* config.py:806-808 *)
Definition config_ConfigDefaultTTLSet : con :=
  (CStruct (FCons "ttl" config_TTL
    FNil)).

(* config.py:810 *)
Definition config_ConfigDefaultTTLStatus : con :=
  config_ConfigDefaultTTLSet.

(* config.py:812 *)
Definition config_ConfigGATTProxyGet : con :=
  (CStruct FNil).

(* config.py:814-816 *)
Definition config_ConfigGATTProxySet : con :=
  (CStruct (FCons "GATT_proxy" config_GATTProxyAdapter
    FNil)).

(* config.py:818 *)
Definition config_ConfigGATTProxyStatus : con :=
  config_ConfigGATTProxySet.

(* config.py:820 *)
Definition config_ConfigRelayGet : con :=
  (CStruct FNil).

(* config.py:822-825 *)
Definition config_ConfigRelaySet : con :=
  (CStruct (FCons "relay" config_RelayAdapter
    (FCons "retransmit" config_RelayRetransmit
    FNil))).

(* config.py:827 *)
Definition config_ConfigRelayStatus : con :=
  config_ConfigRelaySet.

(* config.py:829-832 *)
Definition config_ConfigModelPublicationGet : con :=
  (CStruct (FCons "element_address" config_UnicastAddress
    (FCons "model" config_ModelId
    FNil))).

(* config.py:834-848 *)
Definition config_ConfigModelPublicationSet : con :=
  (CStruct (FCons "element_address" config_UnicastAddress
    (FCons "publish_address" config_NotVirtualLabel
    (FBits 2 (FCons "rfu" (CBits 3 false)
    (FCons "credential_flag" config_PublishFriendshipCredentialsFlagAdapter
    (FCons "app_key_index" (CBits 12 false)
    FNil)))
    (FCons "ttl" config_TTL
    (FCons "publish_period" config_PublishPeriod
    (FCons "retransmit" config_PublishRetransmit
    (FCons "model" config_ModelId
    FNil)))))))).

(* config.py:850-853 *)
Definition config_ConfigModelPublicationStatus : con :=
  (CStruct (FCons "status" config_StatusCodeAdapter
    (fapp (struct_fields config_ConfigModelPublicationSet)
    FNil))).

(* config.py:855-869 *)
Definition config_ConfigModelPublicationVASet : con :=
  (CStruct (FCons "element_address" config_UnicastAddress
    (FCons "publish_address" (CBytes 16)
    (FBits 2 (FCons "rfu" (CBits 3 false)
    (FCons "credential_flag" config_PublishFriendshipCredentialsFlagAdapter
    (FCons "app_key_index" (CBits 12 false)
    FNil)))
    (FCons "ttl" config_TTL
    (FCons "publish_period" config_PublishPeriod
    (FCons "retransmit" config_PublishRetransmit
    (FCons "model" config_ModelId
    FNil)))))))).

(* config.py:871-875 *)
Definition config_ConfigModelSubscriptionAdd : con :=
  (CStruct (FCons "element_address" config_UnicastAddress
    (FCons "address" config_SubscriptionAddress
    (FCons "model" config_ModelId
    FNil)))).

(* config.py:877 *)
Definition config_ConfigModelSubscriptionDelete : con :=
  config_ConfigModelSubscriptionAdd.

(* config.py:878 *)
Definition config_ConfigModelSubscriptionOverwrite : con :=
  config_ConfigModelSubscriptionAdd.

(* config.py:880-884 *)
Definition config_ConfigModelSubscriptionVAAdd : con :=
  (CStruct (FCons "element_address" config_UnicastAddress
    (FCons "label" (CBytes 16)
    (FCons "model" config_ModelId
    FNil)))).

(* config.py:886 *)
Definition config_ConfigModelSubscriptionVADelete : con :=
  config_ConfigModelSubscriptionVAAdd.

(* config.py:887 *)
Definition config_ConfigModelSubscriptionVAOverwrite : con :=
  config_ConfigModelSubscriptionVAAdd.

(* config.py:889-894 *)
Definition config_ConfigModelSubscriptionStatus : con :=
  (CStruct (FCons "status" config_StatusCodeAdapter
    (FCons "element_address" config_UnicastAddress
    (FCons "address" config_StatusSubscriptionAddress
    (FCons "model" config_ModelId
    FNil))))).

(* config.py:896-899 *)
Definition config_ConfigModelSubscriptionDeleteAll : con :=
  (CStruct (FCons "element_address" config_UnicastAddress
    (FCons "model" config_ModelId
    FNil))).

(* config.py:901-904 *)
Definition config_ConfigSIGModelSubscriptionGet : con :=
  (CStruct (FCons "element_address" config_UnicastAddress
    (FCons "model" config_SIGModelId
    FNil))).

(* config.py:906-911 *)
Definition config_ConfigSIGModelSubscriptionList : con :=
  (CStruct (FCons "status" config_StatusCodeAdapter
    (FCons "element_address" config_UnicastAddress
    (FCons "model" config_SIGModelId
    (FCons "addresses" (CGreedyRange Int16ul)
    FNil))))).

(* config.py:913-916 *)
Definition config_ConfigVendorModelSubscriptionGet : con :=
  (CStruct (FCons "element_address" config_UnicastAddress
    (FCons "model" config_VendorModelId
    FNil))).

(* config.py:918-923 *)
Definition config_ConfigVendorModelSubscriptionList : con :=
  (CStruct (FCons "status" config_StatusCodeAdapter
    (FCons "element_address" config_UnicastAddress
    (FCons "model" config_VendorModelId
    (FCons "addresses" (CGreedyRange Int16ul)
    FNil))))).

(* config.py:925-928 *)
Definition config_ConfigNetKeyAdd : con :=
  (CStruct (FBits 2 (FPad None 4 (FCons "net_key_index" (CBits 12 false) FNil))
    (FCons "net_key" (CBytes 16)
    FNil))).

(* config.py:930 *)
Definition config_ConfigNetKeyUpdate : con :=
  config_ConfigNetKeyAdd.

(* config.py:932-934 *)
Definition config_ConfigNetKeyDelete : con :=
  (CStruct (FBits 2 (FPad None 4 (FCons "net_key_index" (CBits 12 false) FNil))
    FNil)).

(* config.py:936-939 *)
Definition config_ConfigNetKeyStatus : con :=
  (CStruct (FCons "status" config_StatusCodeAdapter
    (FBits 2 (FPad None 4 (FCons "net_key_index" (CBits 12 false) FNil))
    FNil))).

(* config.py:941 *)
Definition config_ConfigNetKeyGet : con :=
  (CStruct FNil).

(* config.py:943-945 *)
Definition config_ConfigNetKeyList : con :=
  (CStruct (FCons "net_key_indices" config_KeyIndices
    FNil)).

(* config.py:947-950 *)
Definition config_ConfigAppKeyAdd : con :=
  (CStruct (FBits 3 (FCons "app_key_index" (CBits 12 false) (FCons "net_key_index" (CBits 12 false) FNil))
    (FCons "app_key" (CBytes 16)
    FNil))).

(* config.py:952 *)
Definition config_ConfigAppKeyUpdate : con :=
  config_ConfigAppKeyAdd.

(* config.py:954-956 *)
Definition config_ConfigAppKeyDelete : con :=
  (CStruct (FBits 3 (FCons "app_key_index" (CBits 12 false) (FCons "net_key_index" (CBits 12 false) FNil))
    FNil)).

(* config.py:958-961 *)
Definition config_ConfigAppKeyStatus : con :=
  (CStruct (FCons "status" config_StatusCodeAdapter
    (FBits 3 (FCons "app_key_index" (CBits 12 false) (FCons "net_key_index" (CBits 12 false) FNil))
    FNil))).

(* config.py:963-965 *)
Definition config_ConfigAppKeyGet : con :=
  (CStruct (FBits 2 (FPad None 4 (FCons "net_key_index" (CBits 12 false) FNil))
    FNil)).

(* config.py:967-971 *)
Definition config_ConfigAppKeyList : con :=
  (CStruct (FCons "status" config_StatusCodeAdapter
    (FBits 2 (FPad None 4 (FCons "net_key_index" (CBits 12 false) FNil))
    (FCons "app_key_indices" config_KeyIndices
    FNil)))).

(* config.py:973-975 *)
Definition config_ConfigNodeIdentityGet : con :=
  (CStruct (FBits 2 (FPad None 4 (FCons "net_key_index" (CBits 12 false) FNil))
    FNil)).

(* config.py:977-980 *)
Definition config_ConfigNodeIdentitySet : con :=
  (CStruct (FBits 2 (FPad None 4 (FCons "net_key_index" (CBits 12 false) FNil))
    (FCons "identity" config_NodeIdentityAdapter
    FNil))).

(* config.py:982-985 *)
Definition config_ConfigNodeIdentityStatus : con :=
  (CStruct (FCons "status" config_StatusCodeAdapter
    (fapp (struct_fields config_ConfigNodeIdentitySet)
    FNil))).

(* config.py:987-991 *)
Definition config_ConfigModelAppBind : con :=
  (CStruct (FCons "element_address" config_UnicastAddress
    (FBits 2 (FPad None 4 (FCons "app_key_index" (CBits 12 false) FNil))
    (FCons "model" config_ModelId
    FNil)))).

(* config.py:993 *)
Definition config_ConfigModelAppUnbind : con :=
  config_ConfigModelAppBind.

(* config.py:995-998 *)
Definition config_ConfigModelAppStatus : con :=
  (CStruct (FCons "status" config_StatusCodeAdapter
    (fapp (struct_fields config_ConfigModelAppBind)
    FNil))).

(* config.py:1000-1003 *)
Definition config_ConfigSIGModelAppGet : con :=
  (CStruct (FCons "element_address" config_UnicastAddress
    (FCons "model" config_SIGModelId
    FNil))).

(* config.py:1005-1009 *)
Definition config_ConfigSIGModelAppList : con :=
  (CStruct (FCons "status" config_StatusCodeAdapter
    (fapp (struct_fields config_ConfigSIGModelAppGet)
    (FCons "app key indices" config_KeyIndices
    FNil)))).

(* config.py:1011-1014 *)
Definition config_ConfigVendorModelAppGet : con :=
  (CStruct (FCons "element_address" config_UnicastAddress
    (FCons "model" config_VendorModelId
    FNil))).

(* config.py:1016-1020 *)
Definition config_ConfigVendorModelAppList : con :=
  (CStruct (FCons "status" config_StatusCodeAdapter
    (fapp (struct_fields config_ConfigVendorModelAppGet)
    (FCons "app_key_indices" config_KeyIndices
    FNil)))).

(* config.py:1022 *)
Definition config_ConfigNodeReset : con :=
  (CStruct FNil).

(* config.py:1024 *)
Definition config_ConfigNodeResetStatus : con :=
  (CStruct FNil).

(* config.py:1026 *)
Definition config_ConfigFriendGet : con :=
  (CStruct FNil).

(* config.py:1028-1030 *)
Definition config_ConfigFriendSet : con :=
  (CStruct (FCons "friend" config_FriendAdapter
    FNil)).

(* config.py:1032 *)
Definition config_ConfigFriendStatus : con :=
  config_ConfigFriendSet.

(* config.py:1034-1036 *)
Definition config_ConfigKeyRefreshPhaseGet : con :=
  (CStruct (FBits 2 (FPad None 4 (FCons "net_key_index" (CBits 12 false) FNil))
    FNil)).

(* config.py:1038-1041 *)
Definition config_ConfigKeyRefreshPhaseSet : con :=
  (CStruct (fapp (struct_fields config_ConfigKeyRefreshPhaseGet)
    (FCons "transition" (CAdapt (AEnum config_KeyRefreshTransition) Int8ul)
    FNil))).

(* config.py:1043-1047 *)
Definition config_ConfigKeyRefreshPhaseStatus : con :=
  (CStruct (FCons "status" config_StatusCodeAdapter
    (FBits 2 (FPad None 4 (FCons "net_key_index" (CBits 12 false) FNil))
    (FCons "phase" (CAdapt (AEnum config_KeyRefreshPhase) Int8ul)
    FNil)))).

(* config.py:1049 *)
Definition config_ConfigHeartbeatPublicationFeatures : con :=
  (CAdapt (ARange None (Some 3)) Int16ul).

(* config.py:1051 *)
Definition config_ConfigHeartbeatHops : con :=
  (CAdapt (ARange None (Some 127)) Int8ul).

(* config.py:1053 *)
Definition config_ConfigHeartbeatPublicationGet : con :=
  (CStruct FNil).

(* config.py:1055-1062 *)
Definition config_ConfigHeartbeatPublicationSet : con :=
  (CStruct (FCons "destination" config_UnicastUnassignedGroupAddress
    (FCons "count" (CAdapt (ALog 1 (Some 16) true) Int8ul)
    (FCons "period" (CAdapt (ALog 1 (Some 16) false) Int8ul)
    (FCons "ttl" config_TTL
    (FCons "features" (CAdapt (ABitList 2 false) (CBitwise (CArray (EConst 16) (CBits 1 false))))
    (FBits 2 (FPad None 4 (FCons "net_key_index" (CBits 12 false) FNil))
    FNil))))))).

(* config.py:1064-1067 *)
Definition config_ConfigHeartbeatPublicationStatus : con :=
  (CStruct (FCons "status" config_StatusCodeAdapter
    (fapp (struct_fields config_ConfigHeartbeatPublicationSet)
    FNil))).

(* config.py:1069 *)
Definition config_ConfigHeartbeatSubscriptionGet : con :=
  (CStruct FNil).

(* config.py:1071-1075 *)
Definition config_ConfigHeartbeatSubscriptionSet : con :=
  (CStruct (FCons "source" config_UnicastUnassignedAddress
    (FCons "destination" config_UnicastUnassignedGroupAddress
    (FCons "period_log" (CAdapt (ALog 1 (Some 17) false) Int8ul)
    FNil)))).

(* config.py:1077-1083 *)
Definition config_ConfigHeartbeatSubscriptionStatus : con :=
  (CStruct (FCons "status" config_StatusCodeAdapter
    (fapp (struct_fields config_ConfigHeartbeatSubscriptionSet)
    (FCons "count" (CAdapt (ALog 1 (Some 17) true) Int8ul)
    (FCons "min_hops" (CAdapt (ARange None (Some 127)) Int8ul)
    (FCons "max_hops" (CAdapt (ARange None (Some 127)) Int8ul)
    FNil)))))).

(* config.py:1085-1087 *)
Definition config_ConfigLowPowerNodePollTimeoutGet : con :=
  (CStruct (FCons "lpn_address" Int16ul
    FNil)).

(* config.py:1089-1092 *)
Definition config_ConfigLowPowerNodePollTimeoutStatus : con :=
  (CStruct (fapp (struct_fields config_ConfigLowPowerNodePollTimeoutGet)
    (FCons "poll_timeout" Int24ul
    FNil))).

(* config.py:1094 *)
Definition config_ConfigNetworkTransmitGet : con :=
  (CStruct FNil).

(* config.py:1096 *)
Definition config_ConfigNetworkTransmitSet : con :=
  config_NetworkRetransmit.

(* config.py:1098 *)
Definition config_ConfigNetworkTransmitStatus : con :=
  config_ConfigNetworkTransmitSet.

(* config.py:1102-1173 *)
Definition config_ConfigOpcode : enum :=
  [("CONFIG_APPKEY_ADD"%string, 0);
   ("CONFIG_APPKEY_DELETE"%string, 0x8000);
   ("CONFIG_APPKEY_GET"%string, 0x8001);
   ("CONFIG_APPKEY_LIST"%string, 0x8002);
   ("CONFIG_APPKEY_STATUS"%string, 0x8003);
   ("CONFIG_APPKEY_UPDATE"%string, 1);
   ("CONFIG_BEACON_GET"%string, 0x8009);
   ("CONFIG_BEACON_SET"%string, 0x800A);
   ("CONFIG_BEACON_STATUS"%string, 0x800B);
   ("CONFIG_COMPOSITION_DATA_GET"%string, 0x8008);
   ("CONFIG_COMPOSITION_DATA_STATUS"%string, 2);
   ("CONFIG_DEFAULT_TTL_GET"%string, 0x800C);
   ("CONFIG_DEFAULT_TTL_SET"%string, 0x800D);
   ("CONFIG_DEFAULT_TTL_STATUS"%string, 0x800E);
   ("CONFIG_FRIEND_GET"%string, 0x800F);
   ("CONFIG_FRIEND_SET"%string, 0x8010);
   ("CONFIG_FRIEND_STATUS"%string, 0x8011);
   ("CONFIG_GATT_PROXY_GET"%string, 0x8012);
   ("CONFIG_GATT_PROXY_SET"%string, 0x8013);
   ("CONFIG_GATT_PROXY_STATUS"%string, 0x8014);
   ("CONFIG_HEARBEAT_PUBLICATION_GET"%string, 0x8038);
   ("CONFIG_HEARBEAT_PUBLICATION_SET"%string, 0x8039);
   ("CONFIG_HEARBEAT_PUBLICATION_STATUS"%string, 6);
   ("CONFIG_HEARBEAT_SUBSCRIPTION_GET"%string, 0x803A);
   ("CONFIG_HEARBEAT_SUBSCRIPTION_SET"%string, 0x803B);
   ("CONFIG_HEARBEAT_SUBSCRIPTION_STATUS"%string, 0x803C);
   ("CONFIG_KEY_REFRESH_PHASE_GET"%string, 0x8015);
   ("CONFIG_KEY_REFRESH_PHASE_SET"%string, 0x8016);
   ("CONFIG_KEY_REFRESH_PHASE_STATUS"%string, 0x8017);
   ("CONFIG_LOW_POWER_NODE_POLL_TIMEOUT_GET"%string, 0x802D);
   ("CONFIG_LOW_POWER_NODE_POLL_TIMEOUT_STATUS"%string, 0x802E);
   ("CONFIG_MODEL_APP_BIND"%string, 0x803D);
   ("CONFIG_MODEL_APP_STATUS"%string, 0x803E);
   ("CONFIG_MODEL_APP_UNBIND"%string, 0x803F);
   ("CONFIG_MODEL_PUBLICATION_GET"%string, 0x8018);
   ("CONFIG_MODEL_PUBLICATION_SET"%string, 3);
   ("CONFIG_MODEL_PUBLICATION_STATUS"%string, 0x8019);
   ("CONFIG_MODEL_PUBLICATION_VIRTUAL_ADDRESS_SET"%string, 0x801A);
   ("CONFIG_MODEL_SUBSCRIPTION_ADD"%string, 0x801B);
   ("CONFIG_MODEL_SUBSCRIPTION_DELETE"%string, 0x801C);
   ("CONFIG_MODEL_SUBSCRIPTION_DELETE_ALL"%string, 0x801D);
   ("CONFIG_MODEL_SUBSCRIPTION_OVERWRITE"%string, 0x801E);
   ("CONFIG_MODEL_SUBSCRIPTION_STATUS"%string, 0x801F);
   ("CONFIG_MODEL_SUBSCRIPTION_VIRTUAL_ADDRESS_ADD"%string, 0x8020);
   ("CONFIG_MODEL_SUBSCRIPTION_VIRTUAL_ADDRESS_DELETE"%string, 0x8021);
   ("CONFIG_MODEL_SUBSCRIPTION_VIRTUAL_ADDRESS_OVERWRITE"%string, 0x8022);
   ("CONFIG_NETKEY_ADD"%string, 0x8040);
   ("CONFIG_NETKEY_DELETE"%string, 0x8041);
   ("CONFIG_NETKEY_GET"%string, 0x8042);
   ("CONFIG_NETKEY_LIST"%string, 0x8043);
   ("CONFIG_NETKEY_STATUS"%string, 0x8044);
   ("CONFIG_NETKEY_UPDATE"%string, 0x8045);
   ("CONFIG_NETWORK_TRANSMIT_GET"%string, 0x8023);
   ("CONFIG_NETWORK_TRANSMIT_SET"%string, 0x8024);
   ("CONFIG_NETWORK_TRANSMIT_STATUS"%string, 0x8025);
   ("CONFIG_NODE_IDENTITY_GET"%string, 0x8046);
   ("CONFIG_NODE_IDENTITY_SET"%string, 0x8047);
   ("CONFIG_NODE_IDENTITY_STATUS"%string, 0x8048);
   ("CONFIG_NODE_RESET"%string, 0x8049);
   ("CONFIG_NODE_RESET_STATUS"%string, 0x804A);
   ("CONFIG_RELAY_GET"%string, 0x8026);
   ("CONFIG_RELAY_SET"%string, 0x8027);
   ("CONFIG_RELAY_STATUS"%string, 0x8028);
   ("CONFIG_SIG_MODEL_APP_GET"%string, 0x804B);
   ("CONFIG_SIG_MODEL_APP_LIST"%string, 0x804C);
   ("CONFIG_SIG_MODEL_SUBSCRIPTION_GET"%string, 0x8029);
   ("CONFIG_SIG_MODEL_SUBSCRIPTION_LIST"%string, 0x802A);
   ("CONFIG_VENDOR_MODEL_APP_GET"%string, 0x804D);
   ("CONFIG_VENDOR_MODEL_APP_LIST"%string, 0x804E);
   ("CONFIG_VENDOR_MODEL_SUBSCRIPTION_GET"%string, 0x802B);
   ("CONFIG_VENDOR_MODEL_SUBSCRIPTION_LIST"%string, 0x802C)].

(* config.py:1177-1255 *)
Definition config_ConfigMessage : con :=
  (CSwitchStruct "opcode" (COpcode config_ConfigOpcode) config_ConfigOpcode "params"
    (KCons "CONFIG_APPKEY_ADD" 0 config_ConfigAppKeyAdd
    (KCons "CONFIG_APPKEY_DELETE" 0x8000 config_ConfigAppKeyDelete
    (KCons "CONFIG_APPKEY_GET" 0x8001 config_ConfigAppKeyGet
    (KCons "CONFIG_APPKEY_LIST" 0x8002 config_ConfigAppKeyList
    (KCons "CONFIG_APPKEY_STATUS" 0x8003 config_ConfigAppKeyStatus
    (KCons "CONFIG_APPKEY_UPDATE" 1 config_ConfigAppKeyUpdate
    (KCons "CONFIG_BEACON_GET" 0x8009 config_ConfigBeaconGet
    (KCons "CONFIG_BEACON_SET" 0x800A config_ConfigBeaconSet
    (KCons "CONFIG_BEACON_STATUS" 0x800B config_ConfigBeaconStatus
    (KCons "CONFIG_COMPOSITION_DATA_GET" 0x8008 config_ConfigCompositionDataGet
    (KCons "CONFIG_COMPOSITION_DATA_STATUS" 2 config_ConfigCompositionDataStatus
    (KCons "CONFIG_DEFAULT_TTL_GET" 0x800C config_ConfigDefaultTTLGet
    (KCons "CONFIG_DEFAULT_TTL_SET" 0x800D config_ConfigDefaultTTLSet
    (KCons "CONFIG_DEFAULT_TTL_STATUS" 0x800E config_ConfigDefaultTTLStatus
    (KCons "CONFIG_FRIEND_GET" 0x800F config_ConfigFriendGet
    (KCons "CONFIG_FRIEND_SET" 0x8010 config_ConfigFriendSet
    (KCons "CONFIG_FRIEND_STATUS" 0x8011 config_ConfigFriendStatus
    (KCons "CONFIG_GATT_PROXY_GET" 0x8012 config_ConfigGATTProxyGet
    (KCons "CONFIG_GATT_PROXY_SET" 0x8013 config_ConfigGATTProxySet
    (KCons "CONFIG_GATT_PROXY_STATUS" 0x8014 config_ConfigGATTProxyStatus
    (KCons "CONFIG_HEARBEAT_PUBLICATION_GET" 0x8038 config_ConfigHeartbeatPublicationGet
    (KCons "CONFIG_HEARBEAT_PUBLICATION_SET" 0x8039 config_ConfigHeartbeatPublicationSet
    (KCons "CONFIG_HEARBEAT_PUBLICATION_STATUS" 6 config_ConfigHeartbeatPublicationStatus
    (KCons "CONFIG_HEARBEAT_SUBSCRIPTION_GET" 0x803A config_ConfigHeartbeatSubscriptionGet
    (KCons "CONFIG_HEARBEAT_SUBSCRIPTION_SET" 0x803B config_ConfigHeartbeatSubscriptionSet
    (KCons "CONFIG_HEARBEAT_SUBSCRIPTION_STATUS" 0x803C config_ConfigHeartbeatSubscriptionStatus
    (KCons "CONFIG_KEY_REFRESH_PHASE_GET" 0x8015 config_ConfigKeyRefreshPhaseGet
    (KCons "CONFIG_KEY_REFRESH_PHASE_SET" 0x8016 config_ConfigKeyRefreshPhaseSet
    (KCons "CONFIG_KEY_REFRESH_PHASE_STATUS" 0x8017 config_ConfigKeyRefreshPhaseStatus
    (KCons "CONFIG_LOW_POWER_NODE_POLL_TIMEOUT_GET" 0x802D config_ConfigLowPowerNodePollTimeoutGet
    (KCons "CONFIG_LOW_POWER_NODE_POLL_TIMEOUT_STATUS" 0x802E config_ConfigLowPowerNodePollTimeoutStatus
    (KCons "CONFIG_MODEL_APP_BIND" 0x803D config_ConfigModelAppBind
    (KCons "CONFIG_MODEL_APP_STATUS" 0x803E config_ConfigModelAppStatus
    (KCons "CONFIG_MODEL_APP_UNBIND" 0x803F config_ConfigModelAppUnbind
    (KCons "CONFIG_MODEL_PUBLICATION_GET" 0x8018 config_ConfigModelPublicationGet
    (KCons "CONFIG_MODEL_PUBLICATION_SET" 3 config_ConfigModelPublicationSet
    (KCons "CONFIG_MODEL_PUBLICATION_STATUS" 0x8019 config_ConfigModelPublicationStatus
    (KCons "CONFIG_MODEL_PUBLICATION_VIRTUAL_ADDRESS_SET" 0x801A config_ConfigModelPublicationVASet
    (KCons "CONFIG_MODEL_SUBSCRIPTION_ADD" 0x801B config_ConfigModelSubscriptionAdd
    (KCons "CONFIG_MODEL_SUBSCRIPTION_DELETE" 0x801C config_ConfigModelSubscriptionDelete
    (KCons "CONFIG_MODEL_SUBSCRIPTION_DELETE_ALL" 0x801D config_ConfigModelSubscriptionDeleteAll
    (KCons "CONFIG_MODEL_SUBSCRIPTION_OVERWRITE" 0x801E config_ConfigModelSubscriptionOverwrite
    (KCons "CONFIG_MODEL_SUBSCRIPTION_STATUS" 0x801F config_ConfigModelSubscriptionStatus
    (KCons "CONFIG_MODEL_SUBSCRIPTION_VIRTUAL_ADDRESS_ADD" 0x8020 config_ConfigModelSubscriptionVAAdd
    (KCons "CONFIG_MODEL_SUBSCRIPTION_VIRTUAL_ADDRESS_DELETE" 0x8021 config_ConfigModelSubscriptionVADelete
    (KCons "CONFIG_MODEL_SUBSCRIPTION_VIRTUAL_ADDRESS_OVERWRITE" 0x8022 config_ConfigModelSubscriptionVAOverwrite
    (KCons "CONFIG_NETKEY_ADD" 0x8040 config_ConfigNetKeyAdd
    (KCons "CONFIG_NETKEY_DELETE" 0x8041 config_ConfigNetKeyDelete
    (KCons "CONFIG_NETKEY_GET" 0x8042 config_ConfigNetKeyGet
    (KCons "CONFIG_NETKEY_LIST" 0x8043 config_ConfigNetKeyList
    (KCons "CONFIG_NETKEY_STATUS" 0x8044 config_ConfigNetKeyStatus
    (KCons "CONFIG_NETKEY_UPDATE" 0x8045 config_ConfigNetKeyUpdate
    (KCons "CONFIG_NETWORK_TRANSMIT_GET" 0x8023 config_ConfigNetworkTransmitGet
    (KCons "CONFIG_NETWORK_TRANSMIT_SET" 0x8024 config_ConfigNetworkTransmitSet
    (KCons "CONFIG_NETWORK_TRANSMIT_STATUS" 0x8025 config_ConfigNetworkTransmitStatus
    (KCons "CONFIG_NODE_IDENTITY_GET" 0x8046 config_ConfigNodeIdentityGet
    (KCons "CONFIG_NODE_IDENTITY_SET" 0x8047 config_ConfigNodeIdentitySet
    (KCons "CONFIG_NODE_IDENTITY_STATUS" 0x8048 config_ConfigNodeIdentityStatus
    (KCons "CONFIG_NODE_RESET" 0x8049 config_ConfigNodeReset
    (KCons "CONFIG_NODE_RESET_STATUS" 0x804A config_ConfigNodeResetStatus
    (KCons "CONFIG_RELAY_GET" 0x8026 config_ConfigRelayGet
    (KCons "CONFIG_RELAY_SET" 0x8027 config_ConfigRelaySet
    (KCons "CONFIG_RELAY_STATUS" 0x8028 config_ConfigRelayStatus
    (KCons "CONFIG_SIG_MODEL_APP_GET" 0x804B config_ConfigSIGModelAppGet
    (KCons "CONFIG_SIG_MODEL_APP_LIST" 0x804C config_ConfigSIGModelAppList
    (KCons "CONFIG_SIG_MODEL_SUBSCRIPTION_GET" 0x8029 config_ConfigSIGModelSubscriptionGet
    (KCons "CONFIG_SIG_MODEL_SUBSCRIPTION_LIST" 0x802A config_ConfigSIGModelSubscriptionList
    (KCons "CONFIG_VENDOR_MODEL_APP_GET" 0x804D config_ConfigVendorModelAppGet
    (KCons "CONFIG_VENDOR_MODEL_APP_LIST" 0x804E config_ConfigVendorModelAppList
    (KCons "CONFIG_VENDOR_MODEL_SUBSCRIPTION_GET" 0x802B config_ConfigVendorModelSubscriptionGet
    (KCons "CONFIG_VENDOR_MODEL_SUBSCRIPTION_LIST" 0x802C config_ConfigVendorModelSubscriptionList
    KNil)))))))))))))))))))))))))))))))))))))))))))))))))))))))))))))))))))))))).
