(** GENERATED by tools/gen.py from /repo/bluetooth_mesh/messages/generic/level.py; do not edit.
    The declarations of the module, in source order; every definition cites its lines. *)
From Verif Require Import PyVal Float64 Adapters Construct G_generics.

(* generic/level.py:30-38 *)
Definition level_GenericLevelOpcode : enum :=
  [("GENERIC_LEVEL_GET"%string, 0x8205);
   ("GENERIC_LEVEL_SET"%string, 0x8206);
   ("GENERIC_LEVEL_SET_UNACKNOWLEDGED"%string, 0x8207);
   ("GENERIC_LEVEL_STATUS"%string, 0x8208);
   ("GENERIC_DELTA_SET"%string, 0x8209);
   ("GENERIC_DELTA_SET_UNACKNOWLEDGED"%string, 0x820A);
   ("GENERIC_MOVE_SET"%string, 0x820B);
   ("GENERIC_MOVE_SET_UNACKNOWLEDGED"%string, 0x820C)].

(* generic/level.py:42 *)
Definition level_GenericLevelGet : con :=
  (CStruct FNil).

(* generic/level.py:44-47 *)
Definition level_GenericLevelSetMinimal : con :=
  (CStruct (FCons "level" Int16sl
    (FCons "tid" Int8ul
    FNil))).

(* generic/level.py:49-52 *)
Definition level_GenericLevelSetOptional : con :=
  (CStruct (fapp (struct_fields level_GenericLevelSetMinimal)
    (fapp (struct_fields generics_OptionalSetParameters)
    FNil))).

(* generic/level.py:54-57 *)
Definition level_GenericLevelSet : con :=
  (CSelect (ACons (CNamed "optional" level_GenericLevelSetOptional)
    (ACons (CNamed "minimal" level_GenericLevelSetMinimal)
    ANil))).

(* generic/level.py:59-62 *)
Definition level_GenericDeltaSetMinimal : con :=
  (CStruct (FCons "delta_level" Int32sl
    (FCons "tid" Int8ul
    FNil))).

(* generic/level.py:64-67 *)
Definition level_GenericDeltaSetOptional : con :=
  (CStruct (fapp (struct_fields level_GenericDeltaSetMinimal)
    (fapp (struct_fields generics_OptionalSetParameters)
    FNil))).

(* generic/level.py:69-72 *)
Definition level_GenericDeltaSet : con :=
  (CSelect (ACons (CNamed "optional" level_GenericDeltaSetOptional)
    (ACons (CNamed "minimal" level_GenericDeltaSetMinimal)
    ANil))).

(* generic/level.py:74-77 *)
Definition level_GenericMoveSetMinimal : con :=
  (CStruct (FCons "delta_level" Int16sl
    (FCons "tid" Int8ul
    FNil))).

(* generic/level.py:79-82 *)
Definition level_GenericMoveSetOptional : con :=
  (CStruct (fapp (struct_fields level_GenericMoveSetMinimal)
    (fapp (struct_fields generics_OptionalSetParameters)
    FNil))).

(* generic/level.py:84-87 *)
Definition level_GenericMoveSet : con :=
  (CSelect (ACons (CNamed "optional" level_GenericMoveSetOptional)
    (ACons (CNamed "minimal" level_GenericMoveSetMinimal)
    ANil))).

(* generic/level.py:89-91 *)
Definition level_GenericLevelStatusMinimal : con :=
  (CStruct (FCons "present_level" Int16sl
    FNil)).

(* generic/level.py:93-97 *)
Definition level_GenericLevelStatusOptional : con :=
  (CStruct (fapp (struct_fields level_GenericLevelStatusMinimal)
    (FCons "target_level" Int16sl
    (FCons "remaining_time" (CAdapt (ATransition true) generics_TransitionTime)
    FNil)))).

(* generic/level.py:99-102 *)
Definition level_GenericLevelStatus : con :=
  (CSelect (ACons (CNamed "optional" level_GenericLevelStatusOptional)
    (ACons (CNamed "minimal" level_GenericLevelStatusMinimal)
    ANil))).

(* generic/level.py:104-119 *)
Definition level_GenericLevelMessage : con :=
  (CSwitchStruct "opcode" (COpcode level_GenericLevelOpcode) level_GenericLevelOpcode "params"
    (KCons "GENERIC_LEVEL_GET" 0x8205 level_GenericLevelGet
    (KCons "GENERIC_LEVEL_SET" 0x8206 level_GenericLevelSet
    (KCons "GENERIC_LEVEL_SET_UNACKNOWLEDGED" 0x8207 level_GenericLevelSet
    (KCons "GENERIC_LEVEL_STATUS" 0x8208 level_GenericLevelStatus
    (KCons "GENERIC_DELTA_SET" 0x8209 level_GenericDeltaSet
    (KCons "GENERIC_DELTA_SET_UNACKNOWLEDGED" 0x820A level_GenericDeltaSet
    (KCons "GENERIC_MOVE_SET" 0x820B level_GenericMoveSet
    (KCons "GENERIC_MOVE_SET_UNACKNOWLEDGED" 0x820C level_GenericMoveSet
    KNil))))))))).
