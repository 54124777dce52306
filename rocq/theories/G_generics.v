(** GENERATED by tools/gen.py from /repo/bluetooth_mesh/messages/generics.py; do not edit.
    The declarations of the module, in source order; every definition cites its lines. *)
From Verif Require Import PyVal Float64 Adapters Construct.

(* generics.py:65-68 *)
Definition generics_TransitionTime : con :=
  (CBitwise (CStruct (FCons "resolution" (CBits 2 false)
    (FCons "steps" (CBits 6 false)
    FNil)))).

(* generics.py:70-73 *)
Definition generics_OptionalSetParameters : con :=
  (CStruct (FCons "transition_time" (CAdapt (ATransition false) generics_TransitionTime)
    (FCons "delay" (CAdapt ADelay Int8ul)
    FNil))).
