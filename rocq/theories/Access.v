(** * Access: the AccessMessage entry point (__init__.py:35-104). *)
From Verif Require Import PyVal Adapters Construct
  G_config G_debug G_gateway G_onoff G_battery G_level G_lightness G_ctl G_health G_nds
  G_scene G_sensor G_lec G_time G_debugV2 G_rrule G_property G_el G_elt.

(** __init__.py:36-60: OPCODES, in source order *)
Definition access_table : list (enum * con) :=
  [(config_ConfigOpcode, config_ConfigMessage);
   (debug_DebugOpcode, debug_DebugMessage);
   (gateway_GatewayConfigServerOpcode, gateway_GatewayConfigMessage);
   (onoff_GenericOnOffOpcode, onoff_GenericOnOffMessage);
   (battery_GenericBatteryOpcode, battery_GenericBatteryMessage);
   (level_GenericLevelOpcode, level_GenericLevelMessage);
   (lightness_LightLightnessOpcode, lightness_LightLightnessMessage);
   (lightness_LightLightnessSetupOpcode, lightness_LightLightnessSetupMessage);
   (ctl_LightCTLOpcode, ctl_LightCTLMessage);
   (ctl_LightCTLSetupOpcode, ctl_LightCTLSetupMessage);
   (health_HealthOpcode, health_HealthMessage);
   (nds_NetworkDiagnosticServerOpcode, nds_NetworkDiagnosticServerMessage);
   (nds_NetworkDiagnosticSetupServerOpcode, nds_NetworkDiagnosticSetupServerMessage);
   (scene_SceneOpcode, scene_SceneMessage);
   (sensor_SensorOpcode, sensor_SensorMessage);
   (sensor_SensorSetupOpcode, sensor_SensorSetupMessage);
   (lec_LightExtendedControllerOpcode, lec_LightExtendedControllerMessage);
   (time_TimeOpcode, time_TimeMessage);
   (debugV2_DebugV2Opcode, debugV2_DebugV2Message);
   (rrule_RRuleSchedulerOpcode, rrule_RRuleSchedulerMessage);
   (property_GenericPropertyOpcode, property_GenericPropertyMessage);
   (el_EmergencyLightingOpcode, el_EmergencyLightingMessage);
   (elt_EmergencyLightingTestOpcode, elt_EmergencyLightingTestMessage)].

(** __init__.py:64-69: one dict from opcode values to (member, message); a later
    class overwrites an earlier one that has the same opcode value. *)
Fixpoint access_lookup_in (l : list (enum * con)) (z : Z) : option (val * con) :=
  match l with
  | [] => None
  | (t, c) :: l' => match access_lookup_in l' z with
                    | Some r => Some r
                    | None => match by_value t z with Some m => Some (m, c) | None => None end
                    end
  end.
Definition access_lookup := access_lookup_in access_table.

(** __init__.py:90: the first entry, in insertion order, whose member has that
    name.  (An alias is not the name of a member.) *)
Fixpoint member_named (t all : enum) (s : list Z) : option val :=
  match t with
  | [] => None
  | (n, z) :: t' => match by_value all z with
                    | Some (VEnum n' w) => if zlist_eqb s (cps n') then Some (VEnum n' w) else member_named t' all s
                    | _ => member_named t' all s
                    end
  end.
Fixpoint access_by_name_in (l : list (enum * con)) (s : list Z) : option (val * con) :=
  match l with
  | [] => None
  | (t, c) :: l' => match member_named t t s with
                    | Some m => Some (m, c)
                    | None => access_by_name_in l' s
                    end
  end.
Definition access_by_name := access_by_name_in access_table.

(** __init__.py:71-82 _parse on a stream positioned after [pre]: the opcode is
    read at the current position, but stream.seek(0) then restarts from the very
    beginning of the stream. *)
Definition access_parse_at (pre s : list Z) : res val :=
  let* q := opcode_parse s in
  let (z, r) := (q : Z * list Z) in
  match access_lookup z with
  | None => Ok (VDict [("opcode"%string, VInt z); ("params"%string, VBytes r)])
  | Some (m, c) =>
      let* v := parse_msg c (pre ++ s) in
      match v with
      | VDict d => Ok (VDict (dset "opcode" m d))
      | _ => Err EOther
      end
  end.

(** AccessMessage.parse(data) *)
Definition access_parse (s : list Z) : res val := access_parse_at [] s.

(** __init__.py:84-98 _build; AccessMessage.build(obj) *)
Definition access_build (v : val) : res (list Z) :=
  match v with
  | VDict d =>
      let* op := dgetr "opcode" d in
      match op with
      | VStr s => match access_by_name s with
                  | Some (m, c) => build_msg c (VDict (dset "opcode" m d))
                  | None => Err EOther                      (* StopIteration *)
                  end
      | _ =>
          match int_key op with
          | None => Err EOther
          | Some z =>
              match access_lookup z with
              | Some (_, c) => build_msg c v
              | None =>
                  let* w := as_intr op in
                  let* a := opcode_build w in
                  let* p := dgetr "params" d in
                  match p with VBytes l => Ok (a ++ l) | _ => Err EOther end
              end
          end
      end
  | _ => Err EOther
  end.
