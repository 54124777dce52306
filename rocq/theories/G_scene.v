(** GENERATED by tools/gen.py from /repo/bluetooth_mesh/messages/scene.py; do not edit.
    The declarations of the module, in source order; every definition cites its lines. *)
From Verif Require Import PyVal Float64 Adapters Construct G_generics.

(* scene.py:30-40 *)
Definition scene_SceneOpcode : enum :=
  [("SCENE_GET"%string, 0x8241);
   ("SCENE_RECALL"%string, 0x8242);
   ("SCENE_RECALL_UNACKNOWLEDGED"%string, 0x8243);
   ("SCENE_STATUS"%string, 94);
   ("SCENE_REGISTER_GET"%string, 0x8244);
   ("SCENE_REGISTER_STATUS"%string, 0x8245);
   ("SCENE_STORE"%string, 0x8246);
   ("SCENE_STORE_UNACKNOWLEDGED"%string, 0x8247);
   ("SCENE_DELETE"%string, 0x829E);
   ("SCENE_DELETE_UNACKNOWLEDGED"%string, 0x829F)].

(* scene.py:43-46 *)
Definition scene_SceneStatusCode : enum :=
  [("SUCCESS"%string, 0);
   ("SCENE_REGISTER_FULL"%string, 1);
   ("SCENE_NOT_FOUND"%string, 2)].

(* scene.py:50 *)
Definition scene_SceneGet : con :=
  (CStruct FNil).

(* scene.py:52-55 *)
Definition scene_SceneRecallMinimal : con :=
  (CStruct (FCons "scene_number" (CAdapt (ARange (Some 1) None) Int16ul)
    (FCons "tid" Int8ul
    FNil))).

(* scene.py:57-62 *)
Definition scene_SceneRecallWithTransition : con :=
  (CStruct (FCons "scene_number" (CAdapt (ARange (Some 1) None) Int16ul)
    (FCons "tid" Int8ul
    (FCons "transition_time" (CAdapt (ATransition false) generics_TransitionTime)
    (FCons "delay" (CAdapt ADelay Int8ul)
    FNil))))).

(* scene.py:64-67 *)
Definition scene_SceneRecall : con :=
  (CSelect (ACons (CNamed "optional" scene_SceneRecallWithTransition)
    (ACons (CNamed "minimal" scene_SceneRecallMinimal)
    ANil))).

(* scene.py:69-72 *)
Definition scene_SceneStatusMinimal : con :=
  (CStruct (FCons "status_code" (CAdapt (AEnum scene_SceneStatusCode) Int8ul)
    (FCons "current_scene" Int16ul
    FNil))).

(* scene.py:74-79 *)
Definition scene_SceneStatusWithTargetScene : con :=
  (CStruct (FCons "status_code" (CAdapt (AEnum scene_SceneStatusCode) Int8ul)
    (FCons "current_scene" Int16ul
    (FCons "target_scene" Int16ul
    (FCons "remaining_time" (CAdapt (ATransition false) generics_TransitionTime)
    FNil))))).

(* scene.py:81-84 *)
Definition scene_SceneStatus : con :=
  (CSelect (ACons (CNamed "optional" scene_SceneStatusWithTargetScene)
    (ACons (CNamed "minimal" scene_SceneStatusMinimal)
    ANil))).

(* scene.py:86 *)
Definition scene_SceneRegisterGet : con :=
  (CStruct FNil).

(* scene.py:88-92 *)
Definition scene_SceneRegisterStatus : con :=
  (CStruct (FCons "status_code" (CAdapt (AEnum scene_SceneStatusCode) Int8ul)
    (FCons "current_scene" Int16ul
    (FCons "scenes" (CGreedyRange Int16ul)
    FNil)))).

(* scene.py:94-96 *)
Definition scene_SceneSetupWithValidation : con :=
  (CStruct (FCons "scene_number" (CAdapt (ARange (Some 1) None) Int16ul)
    FNil)).

(* scene.py:98-100 *)
Definition scene_SceneSetup : con :=
  (CStruct (FCons "scene_number" Int16ul
    FNil)).

(* scene.py:102-120 *)
Definition scene_SceneMessage : con :=
  (CSwitchStruct "opcode" (COpcode scene_SceneOpcode) scene_SceneOpcode "params"
    (KCons "SCENE_GET" 0x8241 scene_SceneGet
    (KCons "SCENE_RECALL" 0x8242 scene_SceneRecall
    (KCons "SCENE_RECALL_UNACKNOWLEDGED" 0x8243 scene_SceneRecall
    (KCons "SCENE_STATUS" 94 scene_SceneStatus
    (KCons "SCENE_REGISTER_GET" 0x8244 scene_SceneRegisterGet
    (KCons "SCENE_REGISTER_STATUS" 0x8245 scene_SceneRegisterStatus
    (KCons "SCENE_STORE" 0x8246 scene_SceneSetupWithValidation
    (KCons "SCENE_STORE_UNACKNOWLEDGED" 0x8247 scene_SceneSetupWithValidation
    (KCons "SCENE_DELETE" 0x829E scene_SceneSetup
    (KCons "SCENE_DELETE_UNACKNOWLEDGED" 0x829F scene_SceneSetup
    KNil))))))))))).
