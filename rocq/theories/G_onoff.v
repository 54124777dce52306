(** GENERATED by tools/gen.py from /repo/bluetooth_mesh/messages/generic/onoff.py; do not edit.
    The declarations of the module, in source order; every definition cites its lines. *)
From Verif Require Import PyVal Float64 Adapters Construct G_generics.

(* generic/onoff.py:30-34 *)
Definition onoff_GenericOnOffOpcode : enum :=
  [("GENERIC_ONOFF_GET"%string, 0x8201);
   ("GENERIC_ONOFF_SET"%string, 0x8202);
   ("GENERIC_ONOFF_SET_UNACKNOWLEDGED"%string, 0x8203);
   ("GENERIC_ONOFF_STATUS"%string, 0x8204)].

(* generic/onoff.py:38 *)
Definition onoff_GenericOnOffGet : con :=
  (CStruct FNil).

(* generic/onoff.py:40-43 *)
Definition onoff_GenericOnOffSetMinimal : con :=
  (CStruct (FCons "onoff" Int8ul
    (FCons "tid" Int8ul
    FNil))).

(* generic/onoff.py:45-50 *)
Definition onoff_GenericOnOffSetOptional : con :=
  (CStruct (FCons "onoff" Int8ul
    (FCons "tid" Int8ul
    (FCons "transition_time" (CAdapt (ATransition false) generics_TransitionTime)
    (FCons "delay" (CAdapt ADelay Int8ul)
    FNil))))).

(* generic/onoff.py:52-55 *)
Definition onoff_GenericOnOffSet : con :=
  (CSelect (ACons (CNamed "optional" onoff_GenericOnOffSetOptional)
    (ACons (CNamed "minimal" onoff_GenericOnOffSetMinimal)
    ANil))).

(* generic/onoff.py:57-59 *)
Definition onoff_GenericOnOffStatusMinimal : con :=
  (CStruct (FCons "present_onoff" Int8ul
    FNil)).

(* generic/onoff.py:61-65 *)
Definition onoff_GenericOnOffStatusOptional : con :=
  (CStruct (FCons "present_onoff" Int8ul
    (FCons "target_onoff" Int8ul
    (FCons "remaining_time" (CAdapt (ATransition true) generics_TransitionTime)
    FNil)))).

(* generic/onoff.py:67-70 *)
Definition onoff_GenericOnOffStatus : con :=
  (CSelect (ACons (CNamed "optional" onoff_GenericOnOffStatusOptional)
    (ACons (CNamed "minimal" onoff_GenericOnOffStatusMinimal)
    ANil))).

(* generic/onoff.py:73-84 *)
Definition onoff_GenericOnOffMessage : con :=
  (CSwitchStruct "opcode" (COpcode onoff_GenericOnOffOpcode) onoff_GenericOnOffOpcode "params"
    (KCons "GENERIC_ONOFF_GET" 0x8201 onoff_GenericOnOffGet
    (KCons "GENERIC_ONOFF_SET" 0x8202 onoff_GenericOnOffSet
    (KCons "GENERIC_ONOFF_SET_UNACKNOWLEDGED" 0x8203 onoff_GenericOnOffSet
    (KCons "GENERIC_ONOFF_STATUS" 0x8204 onoff_GenericOnOffStatus
    KNil))))).
