(** GENERATED by tools/testvec.py from the literals in /repo/tests; do not edit.
    A fidelity test: the model agrees with the expectations of the project's own
    test-suite (951 vectors).  No property rests on this file. *)
From Verif Require Import PyVal Float64 Adapters Construct Access
  G_config G_debug G_gateway G_onoff G_battery G_level G_lightness G_ctl G_health G_nds
  G_scene G_sensor G_lec G_time G_debugV2 G_rrule G_property G_el G_elt.

(** Python's == between a parse result and the expected literal: numbers compare
    by value, entries whose key starts with "_" are ignored, sets are unordered;
    construct's Container.__eq__ looks at the entries of the parse result only
    (the test-suite relies on it: ONOFF_SET_invalid expects extra keys). *)
Fixpoint veq (fuel : nat) (a b : val) : bool :=
  match fuel with
  | O => false
  | S n =>
    match num_of a, num_of b with
    | Some x, Some y => Qeq_bool x y
    | _, _ =>
      match a, b with
      | VNone, VNone => true
      | VInf, VInf => true
      | VIeee w x, VIeee w' y => Nat.eqb w w' && Z.eqb x y
      | VStr x, VStr y => zlist_eqb x y
      | VBytes x, VBytes y => zlist_eqb x y
      | VList x, VList y => Nat.eqb (length x) (length y) && forallb (fun p => veq n (fst p) (snd p)) (combine x y)
      | VSet x, VSet y => forallb (fun u => existsb (veq n u) y) x && forallb (fun u => existsb (fun w => veq n w u) x) y
      | VDict x, VDict y =>
          forallb (fun kv => hidden (fst kv) || veq n (snd kv) (dgetn (fst kv) y)) x
      | VDateTime u o, VDateTime u' o' => Z.eqb u u' && Z.eqb o o'
      | VTimedelta u, VTimedelta u' => Z.eqb u u'
      | VDate u, VDate u' => Z.eqb u u'
      | VIPv4 x, VIPv4 y => zlist_eqb x y
      | _, _ => false
      end
    end
  end.

Definition vec := (string * con * list Z * val)%type.
Definition check_build (v : vec) : bool :=
  let '(_, c, s, x) := v in match build_msg c x with Ok l => zlist_eqb l s | _ => false end.
Definition check_parse (v : vec) : bool :=
  let '(_, c, s, x) := v in match parse_msg c s with Ok y => veq 30 y x | _ => false end.
Definition check_build_err (v : vec) : bool :=
  let '(_, c, _, x) := v in match build_msg c x with Err _ => true | _ => false end.
Definition check_parse_err (v : vec) : bool :=
  let '(_, c, s, _) := v in match parse_msg c s with Err _ => true | _ => false end.
Definition failing (p : vec -> bool) (l : list vec) : list string :=
  map (fun v => fst (fst (fst v))) (filter (fun v => negb (p v)) l).

Definition build_vectors : list vec :=
  [("test_battery.py:30"%string, battery_GenericBatteryMessage, [130; 35], (VDict [("opcode"%string, (VEnum "GENERIC_BATTERY_GET" 33315)); ("params"%string, (VDict []))]));
   ("test_battery.py:36"%string, battery_GenericBatteryMessage, [130; 36; 50; 180; 0; 0; 254; 254; 0; 98], (VDict [("opcode"%string, (VEnum "GENERIC_BATTERY_STATUS" 33316)); ("params"%string, (VDict [("battery_level"%string, (VInt 50)); ("time_to_discharge"%string, (VInt 180)); ("time_to_charge"%string, (VInt 65278)); ("flags"%string, (VDict [("battery_presence_flags"%string, (VEnum "BATTERY_PRESENT_NON_REMOVABLE" 2)); ("battery_indicator_flags"%string, (VEnum "BATTERY_CHARGE_CRITICALLY_LOW" 0)); ("battery_charging_flags"%string, (VEnum "BATTERY_CHARGEABLE_CHARGING" 2)); ("battery_serviceability_flags"%string, (VEnum "BATTERY_NOT_REQUIRE_SERVICE" 1))]))]))]));
   ("test_battery.py:52"%string, battery_GenericBatteryMessage, [130; 36; 255; 187; 170; 0; 255; 255; 255; 219], (VDict [("opcode"%string, (VEnum "GENERIC_BATTERY_STATUS" 33316)); ("params"%string, (VDict [("battery_level"%string, (VFloat fmax)); ("time_to_discharge"%string, (VInt 43707)); ("time_to_charge"%string, (VFloat fmax)); ("flags"%string, (VDict [("battery_presence_flags"%string, (VEnum "BATTERY_PRESENCE_UNKNOWN" 3)); ("battery_indicator_flags"%string, (VEnum "BATTERY_CHARGE_GOOD" 2)); ("battery_charging_flags"%string, (VEnum "BATTERY_CHARGEABLE_NOT_CHARGING" 1)); ("battery_serviceability_flags"%string, (VEnum "BATTERY_SERVICEABILITY_UNKNOWN" 3))]))]))]));
   ("test_generics.py:67"%string, onoff_GenericOnOffMessage, [130; 1], (VDict [("opcode"%string, (VEnum "GENERIC_ONOFF_GET" 33281)); ("params"%string, (VDict []))]));
   ("test_generics.py:72"%string, onoff_GenericOnOffMessage, [130; 2; 1; 34], (VDict [("opcode"%string, (VEnum "GENERIC_ONOFF_SET" 33282)); ("params"%string, (VDict [("onoff"%string, (VInt 1)); ("tid"%string, (VInt 34))]))]));
   ("test_generics.py:80"%string, onoff_GenericOnOffMessage, [130; 2; 1; 34], (VDict [("opcode"%string, (VEnum "GENERIC_ONOFF_SET" 33282)); ("params"%string, (VDict [("onoff"%string, (VInt 1)); ("tid"%string, (VInt 34)); ("transition_time"%string, (VFloat (7093169413108531 # 1125899906842624))); ("delay"%string, (VFloat (5404319552844595 # 18014398509481984)))]))]));
   ("test_generics.py:90"%string, onoff_GenericOnOffMessage, [130; 2; 0; 49; 50; 60], (VDict [("opcode"%string, (VEnum "GENERIC_ONOFF_SET" 33282)); ("params"%string, (VDict [("onoff"%string, (VInt 0)); ("tid"%string, (VInt 49)); ("transition_time"%string, (VInt 5)); ("delay"%string, (VFloat (5404319552844595 # 18014398509481984)))]))]));
   ("test_generics.py:100"%string, onoff_GenericOnOffMessage, [130; 2; 0; 49; 242; 60], (VDict [("opcode"%string, (VEnum "GENERIC_ONOFF_SET" 33282)); ("params"%string, (VDict [("onoff"%string, (VInt 0)); ("tid"%string, (VInt 49)); ("transition_time"%string, (VInt 30000)); ("delay"%string, (VFloat (5404319552844595 # 18014398509481984)))]))]));
   ("test_generics.py:110"%string, onoff_GenericOnOffMessage, [130; 4; 0], (VDict [("opcode"%string, (VEnum "GENERIC_ONOFF_STATUS" 33284)); ("params"%string, (VDict [("present_onoff"%string, (VInt 0)); ("target_onoff"%string, VNone); ("remaining_time"%string, VNone)]))]));
   ("test_generics.py:120"%string, onoff_GenericOnOffMessage, [130; 4; 0; 1; 74], (VDict [("opcode"%string, (VEnum "GENERIC_ONOFF_STATUS" 33284)); ("params"%string, (VDict [("present_onoff"%string, (VInt 0)); ("target_onoff"%string, (VInt 1)); ("remaining_time"%string, (VInt 10))]))]));
   ("test_generics.py:130"%string, onoff_GenericOnOffMessage, [130; 4; 0; 1; 255], (VDict [("opcode"%string, (VEnum "GENERIC_ONOFF_STATUS" 33284)); ("params"%string, (VDict [("present_onoff"%string, (VInt 0)); ("target_onoff"%string, (VInt 1)); ("remaining_time"%string, (VInt 37800))]))]));
   ("test_level.py:28"%string, level_GenericLevelMessage, [130; 5], (VDict [("opcode"%string, (VEnum "GENERIC_LEVEL_GET" 33285)); ("params"%string, (VDict []))]));
   ("test_level.py:34"%string, level_GenericLevelMessage, [130; 6; 255; 127; 34], (VDict [("opcode"%string, (VEnum "GENERIC_LEVEL_SET" 33286)); ("params"%string, (VDict [("level"%string, (VInt 32767)); ("tid"%string, (VInt 34))]))]));
   ("test_level.py:43"%string, level_GenericLevelMessage, [130; 6; 0; 128; 34], (VDict [("opcode"%string, (VEnum "GENERIC_LEVEL_SET" 33286)); ("params"%string, (VDict [("level"%string, (VInt (-32768))); ("tid"%string, (VInt 34))]))]));
   ("test_level.py:52"%string, level_GenericLevelMessage, [130; 6; 1; 0; 34], (VDict [("opcode"%string, (VEnum "GENERIC_LEVEL_SET" 33286)); ("params"%string, (VDict [("level"%string, (VInt 1)); ("tid"%string, (VInt 34)); ("transition_time"%string, (VFloat (7093169413108531 # 1125899906842624))); ("delay"%string, (VFloat (5404319552844595 # 18014398509481984)))]))]));
   ("test_level.py:63"%string, level_GenericLevelMessage, [130; 6; 0; 0; 49; 50; 60], (VDict [("opcode"%string, (VEnum "GENERIC_LEVEL_SET" 33286)); ("params"%string, (VDict [("level"%string, (VInt 0)); ("tid"%string, (VInt 49)); ("transition_time"%string, (VInt 5)); ("delay"%string, (VFloat (5404319552844595 # 18014398509481984)))]))]));
   ("test_level.py:74"%string, level_GenericLevelMessage, [130; 7; 0; 0; 49; 50; 60], (VDict [("opcode"%string, (VEnum "GENERIC_LEVEL_SET_UNACKNOWLEDGED" 33287)); ("params"%string, (VDict [("level"%string, (VInt 0)); ("tid"%string, (VInt 49)); ("transition_time"%string, (VInt 5)); ("delay"%string, (VFloat (5404319552844595 # 18014398509481984)))]))]));
   ("test_level.py:85"%string, level_GenericLevelMessage, [130; 8; 255; 127], (VDict [("opcode"%string, (VEnum "GENERIC_LEVEL_STATUS" 33288)); ("params"%string, (VDict [("present_level"%string, (VInt 32767)); ("target_level"%string, VNone); ("remaining_time"%string, VNone)]))]));
   ("test_level.py:95"%string, level_GenericLevelMessage, [130; 8; 0; 128], (VDict [("opcode"%string, (VEnum "GENERIC_LEVEL_STATUS" 33288)); ("params"%string, (VDict [("present_level"%string, (VInt (-32768))); ("target_level"%string, VNone); ("remaining_time"%string, VNone)]))]));
   ("test_level.py:105"%string, level_GenericLevelMessage, [130; 8; 0; 0; 255; 0; 74], (VDict [("opcode"%string, (VEnum "GENERIC_LEVEL_STATUS" 33288)); ("params"%string, (VDict [("present_level"%string, (VInt 0)); ("target_level"%string, (VInt 255)); ("remaining_time"%string, (VInt 10))]))]));
   ("test_level.py:115"%string, level_GenericLevelMessage, [130; 8; 0; 0; 1; 0; 255], (VDict [("opcode"%string, (VEnum "GENERIC_LEVEL_STATUS" 33288)); ("params"%string, (VDict [("present_level"%string, (VInt 0)); ("target_level"%string, (VInt 1)); ("remaining_time"%string, (VInt 37800))]))]));
   ("test_level.py:125"%string, level_GenericLevelMessage, [130; 9; 255; 255; 255; 127; 34], (VDict [("opcode"%string, (VEnum "GENERIC_DELTA_SET" 33289)); ("params"%string, (VDict [("delta_level"%string, (VInt 2147483647)); ("tid"%string, (VInt 34))]))]));
   ("test_level.py:134"%string, level_GenericLevelMessage, [130; 9; 0; 0; 0; 128; 34], (VDict [("opcode"%string, (VEnum "GENERIC_DELTA_SET" 33289)); ("params"%string, (VDict [("delta_level"%string, (VInt (-2147483648))); ("tid"%string, (VInt 34))]))]));
   ("test_level.py:143"%string, level_GenericLevelMessage, [130; 9; 1; 0; 0; 0; 34], (VDict [("opcode"%string, (VEnum "GENERIC_DELTA_SET" 33289)); ("params"%string, (VDict [("delta_level"%string, (VInt 1)); ("tid"%string, (VInt 34)); ("transition_time"%string, (VFloat (7093169413108531 # 1125899906842624))); ("delay"%string, (VFloat (5404319552844595 # 18014398509481984)))]))]));
   ("test_level.py:153"%string, level_GenericLevelMessage, [130; 9; 0; 0; 0; 0; 49; 50; 60], (VDict [("opcode"%string, (VEnum "GENERIC_DELTA_SET" 33289)); ("params"%string, (VDict [("delta_level"%string, (VInt 0)); ("tid"%string, (VInt 49)); ("transition_time"%string, (VInt 5)); ("delay"%string, (VFloat (5404319552844595 # 18014398509481984)))]))]));
   ("test_level.py:163"%string, level_GenericLevelMessage, [130; 10; 0; 0; 0; 0; 49; 50; 60], (VDict [("opcode"%string, (VEnum "GENERIC_DELTA_SET_UNACKNOWLEDGED" 33290)); ("params"%string, (VDict [("delta_level"%string, (VInt 0)); ("tid"%string, (VInt 49)); ("transition_time"%string, (VInt 5)); ("delay"%string, (VFloat (5404319552844595 # 18014398509481984)))]))]));
   ("test_level.py:173"%string, level_GenericLevelMessage, [130; 11; 255; 127; 34], (VDict [("opcode"%string, (VEnum "GENERIC_MOVE_SET" 33291)); ("params"%string, (VDict [("delta_level"%string, (VInt 32767)); ("tid"%string, (VInt 34))]))]));
   ("test_level.py:182"%string, level_GenericLevelMessage, [130; 11; 0; 128; 34], (VDict [("opcode"%string, (VEnum "GENERIC_MOVE_SET" 33291)); ("params"%string, (VDict [("delta_level"%string, (VInt (-32768))); ("tid"%string, (VInt 34))]))]));
   ("test_level.py:191"%string, level_GenericLevelMessage, [130; 11; 1; 0; 34], (VDict [("opcode"%string, (VEnum "GENERIC_MOVE_SET" 33291)); ("params"%string, (VDict [("delta_level"%string, (VInt 1)); ("tid"%string, (VInt 34)); ("transition_time"%string, (VFloat (7093169413108531 # 1125899906842624))); ("delay"%string, (VFloat (5404319552844595 # 18014398509481984)))]))]));
   ("test_level.py:202"%string, level_GenericLevelMessage, [130; 11; 0; 0; 49; 50; 60], (VDict [("opcode"%string, (VEnum "GENERIC_MOVE_SET" 33291)); ("params"%string, (VDict [("delta_level"%string, (VInt 0)); ("tid"%string, (VInt 49)); ("transition_time"%string, (VInt 5)); ("delay"%string, (VFloat (5404319552844595 # 18014398509481984)))]))]));
   ("test_level.py:213"%string, level_GenericLevelMessage, [130; 12; 0; 0; 49; 50; 60], (VDict [("opcode"%string, (VEnum "GENERIC_MOVE_SET_UNACKNOWLEDGED" 33292)); ("params"%string, (VDict [("delta_level"%string, (VInt 0)); ("tid"%string, (VInt 49)); ("transition_time"%string, (VInt 5)); ("delay"%string, (VFloat (5404319552844595 # 18014398509481984)))]))]));
   ("test_light.py:38"%string, lightness_LightLightnessMessage, [130; 75], (VDict [("opcode"%string, (VEnum "LIGHT_LIGHTNESS_GET" 33355)); ("params"%string, (VDict []))]));
   ("test_light.py:43"%string, lightness_LightLightnessMessage, [130; 76; 187; 170; 34], (VDict [("opcode"%string, (VEnum "LIGHT_LIGHTNESS_SET" 33356)); ("params"%string, (VDict [("lightness"%string, (VInt 43707)); ("tid"%string, (VInt 34))]))]));
   ("test_light.py:49"%string, lightness_LightLightnessMessage, [130; 76; 1; 0; 34], (VDict [("opcode"%string, (VEnum "LIGHT_LIGHTNESS_SET" 33356)); ("params"%string, (VDict [("lightness"%string, (VInt 1)); ("tid"%string, (VInt 34)); ("transition_time"%string, (VFloat (7093169413108531 # 1125899906842624))); ("delay"%string, (VFloat (5404319552844595 # 18014398509481984)))]))]));
   ("test_light.py:57"%string, lightness_LightLightnessMessage, [130; 76; 0; 0; 49; 50; 60], (VDict [("opcode"%string, (VEnum "LIGHT_LIGHTNESS_SET" 33356)); ("params"%string, (VDict [("lightness"%string, (VInt 0)); ("tid"%string, (VInt 49)); ("transition_time"%string, (VInt 5)); ("delay"%string, (VFloat (5404319552844595 # 18014398509481984)))]))]));
   ("test_light.py:65"%string, lightness_LightLightnessMessage, [130; 77; 0; 0; 49; 50; 60], (VDict [("opcode"%string, (VEnum "LIGHT_LIGHTNESS_SET_UNACKNOWLEDGED" 33357)); ("params"%string, (VDict [("lightness"%string, (VInt 0)); ("tid"%string, (VInt 49)); ("transition_time"%string, (VInt 5)); ("delay"%string, (VFloat (5404319552844595 # 18014398509481984)))]))]));
   ("test_light.py:73"%string, lightness_LightLightnessMessage, [130; 78; 68; 0], (VDict [("opcode"%string, (VEnum "LIGHT_LIGHTNESS_STATUS" 33358)); ("params"%string, (VDict [("present_lightness"%string, (VInt 68))]))]));
   ("test_light.py:78"%string, lightness_LightLightnessMessage, [130; 78; 0; 0; 49; 200; 15], (VDict [("opcode"%string, (VEnum "LIGHT_LIGHTNESS_STATUS" 33358)); ("params"%string, (VDict [("present_lightness"%string, (VInt 0)); ("target_lightness"%string, (VInt 51249)); ("remaining_time"%string, (VFloat (3 # 2)))]))]));
   ("test_light.py:86"%string, lightness_LightLightnessMessage, [130; 79], (VDict [("opcode"%string, (VEnum "LIGHT_LIGHTNESS_LINEAR_GET" 33359)); ("params"%string, (VDict []))]));
   ("test_light.py:91"%string, lightness_LightLightnessMessage, [130; 80; 187; 170; 1], (VDict [("opcode"%string, (VEnum "LIGHT_LIGHTNESS_LINEAR_SET" 33360)); ("params"%string, (VDict [("lightness"%string, (VInt 43707)); ("tid"%string, (VInt 1))]))]));
   ("test_light.py:97"%string, lightness_LightLightnessMessage, [130; 80; 1; 0; 34], (VDict [("opcode"%string, (VEnum "LIGHT_LIGHTNESS_LINEAR_SET" 33360)); ("params"%string, (VDict [("lightness"%string, (VInt 1)); ("tid"%string, (VInt 34)); ("transition_time"%string, (VFloat (7093169413108531 # 1125899906842624))); ("delay"%string, (VFloat (5404319552844595 # 18014398509481984)))]))]));
   ("test_light.py:105"%string, lightness_LightLightnessMessage, [130; 80; 0; 0; 49; 50; 26], (VDict [("opcode"%string, (VEnum "LIGHT_LIGHTNESS_LINEAR_SET" 33360)); ("params"%string, (VDict [("lightness"%string, (VInt 0)); ("tid"%string, (VInt 49)); ("transition_time"%string, (VInt 5)); ("delay"%string, (VFloat (1170935903116329 # 9007199254740992)))]))]));
   ("test_light.py:113"%string, lightness_LightLightnessMessage, [130; 81; 255; 0; 49; 50; 60], (VDict [("opcode"%string, (VEnum "LIGHT_LIGHTNESS_LINEAR_SET_UNACKNOWLEDGED" 33361)); ("params"%string, (VDict [("lightness"%string, (VInt 255)); ("tid"%string, (VInt 49)); ("transition_time"%string, (VInt 5)); ("delay"%string, (VFloat (5404319552844595 # 18014398509481984)))]))]));
   ("test_light.py:121"%string, lightness_LightLightnessMessage, [130; 82; 0; 0; 221; 187; 76], (VDict [("opcode"%string, (VEnum "LIGHT_LIGHTNESS_LINEAR_STATUS" 33362)); ("params"%string, (VDict [("present_lightness"%string, (VInt 0)); ("target_lightness"%string, (VInt 48093)); ("remaining_time"%string, (VInt 12))]))]));
   ("test_light.py:129"%string, lightness_LightLightnessMessage, [130; 83], (VDict [("opcode"%string, (VEnum "LIGHT_LIGHTNESS_LAST_GET" 33363)); ("params"%string, (VDict []))]));
   ("test_light.py:134"%string, lightness_LightLightnessMessage, [130; 84; 0; 0], (VDict [("opcode"%string, (VEnum "LIGHT_LIGHTNESS_LAST_STATUS" 33364)); ("params"%string, (VDict [("lightness"%string, (VInt 0))]))]));
   ("test_light.py:140"%string, lightness_LightLightnessMessage, [130; 85], (VDict [("opcode"%string, (VEnum "LIGHT_LIGHTNESS_DEFAULT_GET" 33365)); ("params"%string, (VDict []))]));
   ("test_light.py:145"%string, lightness_LightLightnessMessage, [130; 86; 0; 0], (VDict [("opcode"%string, (VEnum "LIGHT_LIGHTNESS_DEFAULT_STATUS" 33366)); ("params"%string, (VDict [("lightness"%string, (VInt 0))]))]));
   ("test_light.py:151"%string, lightness_LightLightnessMessage, [130; 87], (VDict [("opcode"%string, (VEnum "LIGHT_LIGHTNESS_RANGE_GET" 33367)); ("params"%string, (VDict []))]));
   ("test_light.py:156"%string, lightness_LightLightnessMessage, [130; 88; 0; 17; 17; 136; 136], (VDict [("opcode"%string, (VEnum "LIGHT_LIGHTNESS_RANGE_STATUS" 33368)); ("params"%string, (VDict [("status"%string, (VEnum "SUCCESS" 0)); ("range_min"%string, (VInt 4369)); ("range_max"%string, (VInt 34952))]))]));
   ("test_light.py:168"%string, lightness_LightLightnessSetupMessage, [130; 89; 187; 170], (VDict [("opcode"%string, (VEnum "LIGHT_LIGHTNESS_SETUP_DEFAULT_SET" 33369)); ("params"%string, (VDict [("lightness"%string, (VInt 43707))]))]));
   ("test_light.py:173"%string, lightness_LightLightnessSetupMessage, [130; 89; 1; 0], (VDict [("opcode"%string, (VEnum "LIGHT_LIGHTNESS_SETUP_DEFAULT_SET" 33369)); ("params"%string, (VDict [("lightness"%string, (VInt 1)); ("tid"%string, (VInt 34)); ("transition_time"%string, (VFloat (7093169413108531 # 1125899906842624))); ("delay"%string, (VFloat (5404319552844595 # 18014398509481984)))]))]));
   ("test_light.py:181"%string, lightness_LightLightnessSetupMessage, [130; 90; 0; 0], (VDict [("opcode"%string, (VEnum "LIGHT_LIGHTNESS_SETUP_DEFAULT_SET_UNACKNOWLEDGED" 33370)); ("params"%string, (VDict [("lightness"%string, (VInt 0))]))]));
   ("test_light.py:187"%string, lightness_LightLightnessSetupMessage, [130; 91; 17; 0; 255; 238], (VDict [("opcode"%string, (VEnum "LIGHT_LIGHTNESS_SETUP_RANGE_SET" 33371)); ("params"%string, (VDict [("range_min"%string, (VInt 17)); ("range_max"%string, (VInt 61183))]))]));
   ("test_light.py:193"%string, lightness_LightLightnessSetupMessage, [130; 92; 205; 171; 52; 18], (VDict [("opcode"%string, (VEnum "LIGHT_LIGHTNESS_SETUP_RANGE_SET_UNACKNOWLEDGED" 33372)); ("params"%string, (VDict [("range_min"%string, (VInt 43981)); ("range_max"%string, (VInt 4660))]))]));
   ("test_light.py:205"%string, ctl_LightCTLMessage, [130; 93], (VDict [("opcode"%string, (VEnum "LIGHT_CTL_GET" 33373)); ("params"%string, (VDict []))]));
   ("test_light.py:210"%string, ctl_LightCTLMessage, [130; 94; 187; 170; 221; 204; 255; 238; 1], (VDict [("opcode"%string, (VEnum "LIGHT_CTL_SET" 33374)); ("params"%string, (VDict [("ctl_lightness"%string, (VInt 43707)); ("ctl_temperature"%string, (VInt 52445)); ("ctl_delta_uv"%string, (VInt 61183)); ("tid"%string, (VInt 1))]))]));
   ("test_light.py:218"%string, ctl_LightCTLMessage, [130; 94; 187; 170; 221; 204; 255; 238; 34], (VDict [("opcode"%string, (VEnum "LIGHT_CTL_SET" 33374)); ("params"%string, (VDict [("ctl_lightness"%string, (VInt 43707)); ("ctl_temperature"%string, (VInt 52445)); ("ctl_delta_uv"%string, (VInt 61183)); ("tid"%string, (VInt 34)); ("transition_time"%string, (VFloat (7093169413108531 # 1125899906842624))); ("delay"%string, (VFloat (5404319552844595 # 18014398509481984)))]))]));
   ("test_light.py:228"%string, ctl_LightCTLMessage, [130; 94; 187; 170; 221; 204; 255; 238; 34; 50; 60], (VDict [("opcode"%string, (VEnum "LIGHT_CTL_SET" 33374)); ("params"%string, (VDict [("ctl_lightness"%string, (VInt 43707)); ("ctl_temperature"%string, (VInt 52445)); ("ctl_delta_uv"%string, (VInt 61183)); ("tid"%string, (VInt 34)); ("transition_time"%string, (VInt 5)); ("delay"%string, (VFloat (5404319552844595 # 18014398509481984)))]))]));
   ("test_light.py:238"%string, ctl_LightCTLMessage, [130; 95; 17; 17; 34; 34; 51; 51; 34; 50; 60], (VDict [("opcode"%string, (VEnum "LIGHT_CTL_SET_UNACKNOWLEDGED" 33375)); ("params"%string, (VDict [("ctl_lightness"%string, (VInt 4369)); ("ctl_temperature"%string, (VInt 8738)); ("ctl_delta_uv"%string, (VInt 13107)); ("tid"%string, (VInt 34)); ("transition_time"%string, (VInt 5)); ("delay"%string, (VFloat (5404319552844595 # 18014398509481984)))]))]));
   ("test_light.py:248"%string, ctl_LightCTLMessage, [130; 96; 17; 17; 34; 34], (VDict [("opcode"%string, (VEnum "LIGHT_CTL_STATUS" 33376)); ("params"%string, (VDict [("present_ctl_lightness"%string, (VInt 4369)); ("present_ctl_temperature"%string, (VInt 8738))]))]));
   ("test_light.py:254"%string, ctl_LightCTLMessage, [130; 96; 17; 17; 34; 34; 51; 51; 68; 68; 15], (VDict [("opcode"%string, (VEnum "LIGHT_CTL_STATUS" 33376)); ("params"%string, (VDict [("present_ctl_lightness"%string, (VInt 4369)); ("present_ctl_temperature"%string, (VInt 8738)); ("target_ctl_lightness"%string, (VInt 13107)); ("target_ctl_temperature"%string, (VInt 17476)); ("remaining_time"%string, (VFloat (3 # 2)))]))]));
   ("test_light.py:264"%string, ctl_LightCTLMessage, [130; 97], (VDict [("opcode"%string, (VEnum "LIGHT_CTL_TEMPERATURE_GET" 33377)); ("params"%string, (VDict []))]));
   ("test_light.py:269"%string, ctl_LightCTLMessage, [130; 100; 221; 204; 255; 238; 10], (VDict [("opcode"%string, (VEnum "LIGHT_CTL_TEMPERATURE_SET" 33380)); ("params"%string, (VDict [("ctl_temperature"%string, (VInt 52445)); ("ctl_delta_uv"%string, (VInt 61183)); ("tid"%string, (VInt 10))]))]));
   ("test_light.py:276"%string, ctl_LightCTLMessage, [130; 100; 221; 204; 255; 238; 34; 50; 20], (VDict [("opcode"%string, (VEnum "LIGHT_CTL_TEMPERATURE_SET" 33380)); ("params"%string, (VDict [("ctl_temperature"%string, (VInt 52445)); ("ctl_delta_uv"%string, (VInt 61183)); ("tid"%string, (VInt 34)); ("transition_time"%string, (VInt 5)); ("delay"%string, (VFloat (3602879701896397 # 36028797018963968)))]))]));
   ("test_light.py:285"%string, ctl_LightCTLMessage, [130; 101; 34; 34; 51; 51; 255; 50; 60], (VDict [("opcode"%string, (VEnum "LIGHT_CTL_TEMPERATURE_SET_UNACKNOWLEDGED" 33381)); ("params"%string, (VDict [("ctl_temperature"%string, (VInt 8738)); ("ctl_delta_uv"%string, (VInt 13107)); ("tid"%string, (VInt 255)); ("transition_time"%string, (VInt 5)); ("delay"%string, (VFloat (5404319552844595 # 18014398509481984)))]))]));
   ("test_light.py:294"%string, ctl_LightCTLMessage, [130; 102; 34; 34; 255; 255], (VDict [("opcode"%string, (VEnum "LIGHT_CTL_TEMPERATURE_STATUS" 33382)); ("params"%string, (VDict [("present_ctl_temperature"%string, (VInt 8738)); ("present_ctl_delta_uv"%string, (VInt 65535))]))]));
   ("test_light.py:300"%string, ctl_LightCTLMessage, [130; 102; 17; 17; 34; 34; 51; 51; 68; 68; 15], (VDict [("opcode"%string, (VEnum "LIGHT_CTL_TEMPERATURE_STATUS" 33382)); ("params"%string, (VDict [("present_ctl_temperature"%string, (VInt 4369)); ("present_ctl_delta_uv"%string, (VInt 8738)); ("target_ctl_temperature"%string, (VInt 13107)); ("target_ctl_delta_uv"%string, (VInt 17476)); ("remaining_time"%string, (VFloat (3 # 2)))]))]));
   ("test_light.py:310"%string, ctl_LightCTLMessage, [130; 98], (VDict [("opcode"%string, (VEnum "LIGHT_CTL_TEMPERATURE_RANGE_GET" 33378)); ("params"%string, (VDict []))]));
   ("test_light.py:315"%string, ctl_LightCTLMessage, [130; 99; 0; 221; 204; 255; 238], (VDict [("opcode"%string, (VEnum "LIGHT_CTL_TEMPERATURE_RANGE_STATUS" 33379)); ("params"%string, (VDict [("status"%string, (VEnum "SUCCESS" 0)); ("range_min"%string, (VInt 52445)); ("range_max"%string, (VInt 61183))]))]));
   ("test_light.py:323"%string, ctl_LightCTLMessage, [130; 103], (VDict [("opcode"%string, (VEnum "LIGHT_CTL_TEMPERATURE_DEFAULT_GET" 33383)); ("params"%string, (VDict []))]));
   ("test_light.py:328"%string, ctl_LightCTLMessage, [130; 104; 221; 204; 255; 238; 17; 17], (VDict [("opcode"%string, (VEnum "LIGHT_CTL_TEMPERATURE_DEFAULT_STATUS" 33384)); ("params"%string, (VDict [("ctl_lightness"%string, (VInt 52445)); ("ctl_temperature"%string, (VInt 61183)); ("ctl_delta_uv"%string, (VInt 4369))]))]));
   ("test_light.py:340"%string, ctl_LightCTLSetupMessage, [130; 105; 221; 204; 255; 238; 17; 17], (VDict [("opcode"%string, (VEnum "LIGHT_CTL_SETUP_TEMPERATURE_DEFAULT_SET" 33385)); ("params"%string, (VDict [("ctl_lightness"%string, (VInt 52445)); ("ctl_temperature"%string, (VInt 61183)); ("ctl_delta_uv"%string, (VInt 4369))]))]));
   ("test_light.py:347"%string, ctl_LightCTLSetupMessage, [130; 106; 221; 204; 255; 238; 17; 17], (VDict [("opcode"%string, (VEnum "LIGHT_CTL_SETUP_TEMPERATURE_DEFAULT_SET_UNACKNOWLEDGED" 33386)); ("params"%string, (VDict [("ctl_lightness"%string, (VInt 52445)); ("ctl_temperature"%string, (VInt 61183)); ("ctl_delta_uv"%string, (VInt 4369))]))]));
   ("test_light.py:355"%string, ctl_LightCTLSetupMessage, [130; 107; 221; 204; 255; 238], (VDict [("opcode"%string, (VEnum "LIGHT_CTL_SETUP_TEMPERATURE_RANGE_SET" 33387)); ("params"%string, (VDict [("range_min"%string, (VInt 52445)); ("range_max"%string, (VInt 61183))]))]));
   ("test_light.py:361"%string, ctl_LightCTLSetupMessage, [130; 108; 17; 17; 34; 34], (VDict [("opcode"%string, (VEnum "LIGHT_CTL_SETUP_TEMPERATURE_RANGE_SET_UNACKNOWLEDGED" 33388)); ("params"%string, (VDict [("range_min"%string, (VInt 4369)); ("range_max"%string, (VInt 8738))]))]));
   ("test_light_extended_controller.py:35"%string, lec_LightExtendedControllerMessage, [246; 54; 1; 0; 113; 255], (VDict [("opcode"%string, (VEnum "SILVAIR_LEC" 16135681)); ("params"%string, (VDict [("subopcode"%string, (VEnum "PROPERTY_GET" 0)); ("payload"%string, (VDict [("property_id"%string, (VEnum "AUTO_RESUME_MODE" 65393))]))]))]));
   ("test_light_extended_controller.py:46"%string, lec_LightExtendedControllerMessage, [246; 54; 1; 1; 113; 255; 1], (VDict [("opcode"%string, (VEnum "SILVAIR_LEC" 16135681)); ("params"%string, (VDict [("subopcode"%string, (VEnum "PROPERTY_SET" 1)); ("payload"%string, (VDict [("property_id"%string, (VEnum "AUTO_RESUME_MODE" 65393)); ("auto_resume_mode"%string, (VBool true))]))]))]));
   ("test_light_extended_controller.py:58"%string, lec_LightExtendedControllerMessage, [246; 54; 1; 2; 114; 255; 16; 164; 0], (VDict [("opcode"%string, (VEnum "SILVAIR_LEC" 16135681)); ("params"%string, (VDict [("subopcode"%string, (VEnum "PROPERTY_SET_UNACKNOWLEDGED" 2)); ("payload"%string, (VDict [("property_id"%string, (VEnum "AUTO_RESUME_TIMER" 65394)); ("auto_resume_timer"%string, (VDict [("seconds"%string, (VInt 42))]))]))]))]));
   ("test_light_extended_controller.py:70"%string, lec_LightExtendedControllerMessage, [246; 54; 1; 3; 114; 255; 144; 202; 4], (VDict [("opcode"%string, (VEnum "SILVAIR_LEC" 16135681)); ("params"%string, (VDict [("subopcode"%string, (VEnum "PROPERTY_STATUS" 3)); ("payload"%string, (VDict [("property_id"%string, (VEnum "AUTO_RESUME_TIMER" 65394)); ("auto_resume_timer"%string, (VDict [("seconds"%string, (VInt 314))]))]))]))]));
   ("test_scene.py:64"%string, scene_SceneMessage, [130; 65], (VDict [("opcode"%string, (VEnum "SCENE_GET" 33345)); ("params"%string, (VDict []))]));
   ("test_scene.py:69"%string, scene_SceneMessage, [130; 66; 1; 0; 30], (VDict [("opcode"%string, (VEnum "SCENE_RECALL" 33346)); ("params"%string, (VDict [("scene_number"%string, (VInt 1)); ("tid"%string, (VInt 30))]))]));
   ("test_scene.py:74"%string, scene_SceneMessage, [130; 67; 1; 0; 30], (VDict [("opcode"%string, (VEnum "SCENE_RECALL_UNACKNOWLEDGED" 33347)); ("params"%string, (VDict [("scene_number"%string, (VInt 1)); ("tid"%string, (VInt 30))]))]));
   ("test_scene.py:79"%string, scene_SceneMessage, [130; 66; 1; 0; 30; 242; 60], (VDict [("opcode"%string, (VEnum "SCENE_RECALL" 33346)); ("params"%string, (VDict [("scene_number"%string, (VInt 1)); ("tid"%string, (VInt 30)); ("transition_time"%string, (VInt 30000)); ("delay"%string, (VFloat (5404319552844595 # 18014398509481984)))]))]));
   ("test_scene.py:84"%string, scene_SceneMessage, [130; 67; 1; 0; 30; 242; 60], (VDict [("opcode"%string, (VEnum "SCENE_RECALL_UNACKNOWLEDGED" 33347)); ("params"%string, (VDict [("scene_number"%string, (VInt 1)); ("tid"%string, (VInt 30)); ("transition_time"%string, (VInt 30000)); ("delay"%string, (VFloat (5404319552844595 # 18014398509481984)))]))]));
   ("test_scene.py:89"%string, scene_SceneMessage, [94; 0; 1; 0], (VDict [("opcode"%string, (VEnum "SCENE_STATUS" 94)); ("params"%string, (VDict [("status_code"%string, (VInt 0)); ("current_scene"%string, (VInt 1))]))]));
   ("test_scene.py:94"%string, scene_SceneMessage, [94; 0; 1; 0; 2; 0; 242], (VDict [("opcode"%string, (VEnum "SCENE_STATUS" 94)); ("params"%string, (VDict [("status_code"%string, (VInt 0)); ("current_scene"%string, (VInt 1)); ("target_scene"%string, (VInt 2)); ("remaining_time"%string, (VInt 30000))]))]));
   ("test_scene.py:99"%string, scene_SceneMessage, [130; 68], (VDict [("opcode"%string, (VEnum "SCENE_REGISTER_GET" 33348)); ("params"%string, (VDict []))]));
   ("test_scene.py:104"%string, scene_SceneMessage, [130; 69; 0; 1; 0; 1; 0; 2; 0; 0; 0; 0; 0; 0; 0; 0; 0; 0; 0; 0; 0; 0; 0; 0; 0; 0; 0; 0; 0; 0; 0; 0; 0; 0; 0; 0; 0], (VDict [("opcode"%string, (VEnum "SCENE_REGISTER_STATUS" 33349)); ("params"%string, (VDict [("status_code"%string, (VInt 0)); ("current_scene"%string, (VInt 1)); ("scenes"%string, (VList [(VInt 1); (VInt 2); (VInt 0); (VInt 0); (VInt 0); (VInt 0); (VInt 0); (VInt 0); (VInt 0); (VInt 0); (VInt 0); (VInt 0); (VInt 0); (VInt 0); (VInt 0); (VInt 0)]))]))]));
   ("test_scene.py:109"%string, scene_SceneMessage, [130; 69; 0; 1; 0; 1; 0; 2; 0; 3; 0], (VDict [("opcode"%string, (VEnum "SCENE_REGISTER_STATUS" 33349)); ("params"%string, (VDict [("status_code"%string, (VInt 0)); ("current_scene"%string, (VInt 1)); ("scenes"%string, (VList [(VInt 1); (VInt 2); (VInt 3)]))]))]));
   ("test_scene.py:114"%string, scene_SceneMessage, [130; 70; 1; 0], (VDict [("opcode"%string, (VEnum "SCENE_STORE" 33350)); ("params"%string, (VDict [("scene_number"%string, (VInt 1))]))]));
   ("test_scene.py:119"%string, scene_SceneMessage, [130; 71; 1; 0], (VDict [("opcode"%string, (VEnum "SCENE_STORE_UNACKNOWLEDGED" 33351)); ("params"%string, (VDict [("scene_number"%string, (VInt 1))]))]));
   ("test_scene.py:124"%string, scene_SceneMessage, [130; 158; 1; 0], (VDict [("opcode"%string, (VEnum "SCENE_DELETE" 33438)); ("params"%string, (VDict [("scene_number"%string, (VInt 1))]))]));
   ("test_scene.py:129"%string, scene_SceneMessage, [130; 159; 1; 0], (VDict [("opcode"%string, (VEnum "SCENE_DELETE_UNACKNOWLEDGED" 33439)); ("params"%string, (VDict [("scene_number"%string, (VInt 1))]))]));
   ("test_sensor.py:39"%string, sensor_SensorMessage, [130; 48], (VDict [("opcode"%string, (VEnum "SENSOR_DESCRIPTOR_GET" 33328)); ("params"%string, (VDict []))]));
   ("test_sensor.py:44"%string, sensor_SensorMessage, [130; 48; 4; 0], (VDict [("opcode"%string, (VEnum "SENSOR_DESCRIPTOR_GET" 33328)); ("params"%string, (VDict [("property_id"%string, (VEnum "AVERAGE_OUTPUT_CURRENT" 4))]))]));
   ("test_sensor.py:49"%string, sensor_SensorMessage, [130; 49], (VDict [("opcode"%string, (VEnum "SENSOR_GET" 33329)); ("params"%string, (VDict []))]));
   ("test_sensor.py:54"%string, sensor_SensorMessage, [130; 49; 7; 0], (VDict [("opcode"%string, (VEnum "SENSOR_GET" 33329)); ("params"%string, (VDict [("property_id"%string, (VEnum "CHROMATICITY_TOLERANCE" 7))]))]));
   ("test_sensor.py:60"%string, sensor_SensorMessage, [81; 12; 0; 0; 0; 0; 4; 11; 12], (VDict [("opcode"%string, (VEnum "SENSOR_DESCRIPTOR_STATUS" 81)); ("params"%string, (VList [(VDict [("sensor_property_id"%string, (VEnum "DEVICE_DATE_OF_MANUFACTURE" 12)); ("sensor_positive_tolerance"%string, (VInt 0)); ("sensor_negative_tolerance"%string, (VInt 0)); ("sensor_sampling_funcion"%string, (VEnum "MAXIMUM" 4)); ("sensor_measurement_period"%string, (VInt 11)); ("sensor_update_interval"%string, (VInt 12))])]))]));
   ("test_sensor.py:70"%string, sensor_SensorMessage, [81; 25; 0], (VDict [("opcode"%string, (VEnum "SENSOR_DESCRIPTOR_STATUS" 81)); ("params"%string, (VList [(VDict [("sensor_property_id"%string, (VEnum "DEVICE_SERIAL_NUMBER" 25))])]))]));
   ("test_sensor.py:75"%string, sensor_SensorMessage, [81; 12; 0; 0; 0; 0; 2; 11; 12; 31; 0; 239; 205; 171; 7; 27; 28], (VDict [("opcode"%string, (VEnum "SENSOR_DESCRIPTOR_STATUS" 81)); ("params"%string, (VList [(VDict [("sensor_property_id"%string, (VEnum "DEVICE_DATE_OF_MANUFACTURE" 12)); ("sensor_positive_tolerance"%string, (VInt 0)); ("sensor_negative_tolerance"%string, (VInt 0)); ("sensor_sampling_funcion"%string, (VEnum "ARITHMETIC_MEAN" 2)); ("sensor_measurement_period"%string, (VInt 11)); ("sensor_update_interval"%string, (VInt 12))]); (VDict [("sensor_property_id"%string, (VEnum "INITIAL_LUMINOUS_FLUX" 31)); ("sensor_positive_tolerance"%string, (VInt 2748)); ("sensor_negative_tolerance"%string, (VInt 3567)); ("sensor_sampling_funcion"%string, (VEnum "COUNT" 7)); ("sensor_measurement_period"%string, (VInt 27)); ("sensor_update_interval"%string, (VInt 28))])]))]));
   ("test_sensor.py:92"%string, sensor_SensorMessage, [82; 226; 10; 200; 0], (VDict [("opcode"%string, (VEnum "SENSOR_STATUS" 82)); ("params"%string, (VList [(VDict [("sensor_setting_property_id"%string, (VEnum "PRESENT_INPUT_CURRENT" 87)); ("length"%string, (VInt 2)); ("format"%string, (VInt 0)); ("present_input_current"%string, (VDict [("current"%string, (VFloat (2 # 1)))]))])]))]));
   ("test_sensor.py:100"%string, sensor_SensorMessage, [82; 34; 11; 32; 3], (VDict [("opcode"%string, (VEnum "SENSOR_STATUS" 82)); ("params"%string, (VList [(VDict [("sensor_setting_property_id"%string, (VEnum "PRESENT_INPUT_VOLTAGE" 89)); ("length"%string, (VInt 2)); ("format"%string, (VInt 0)); ("present_input_voltage"%string, (VDict [("voltage"%string, (VFloat (25 # 2)))]))])]))]));
   ("test_sensor.py:109"%string, sensor_SensorMessage, [82; 68; 13; 162; 68; 255], (VDict [("opcode"%string, (VEnum "SENSOR_STATUS" 82)); ("params"%string, (VList [(VDict [("sensor_setting_property_id"%string, (VEnum "TOTAL_DEVICE_ENERGY_USE" 106)); ("length"%string, (VInt 3)); ("format"%string, (VInt 0)); ("total_device_energy_use"%string, (VDict [("energy"%string, (VInt 16729250))]))])]))]));
   ("test_sensor.py:119"%string, sensor_SensorMessage, [82; 9; 144; 64; 162; 68; 255; 0; 0], (VDict [("opcode"%string, (VEnum "SENSOR_STATUS" 82)); ("params"%string, (VList [(VDict [("sensor_setting_property_id"%string, (VInt 16528)); ("length"%string, (VInt 5)); ("format"%string, (VInt 1)); ("sensor_setting_raw"%string, (VList [(VInt 162); (VInt 68); (VInt 255); (VInt 0); (VInt 0)]))])]))]));
   ("test_sensor.py:128"%string, sensor_SensorMessage, [82; 68; 13; 162; 68; 255; 34; 11; 32; 3], (VDict [("opcode"%string, (VEnum "SENSOR_STATUS" 82)); ("params"%string, (VList [(VDict [("sensor_setting_property_id"%string, (VEnum "TOTAL_DEVICE_ENERGY_USE" 106)); ("length"%string, (VInt 3)); ("format"%string, (VInt 0)); ("total_device_energy_use"%string, (VDict [("energy"%string, (VInt 16729250))]))]); (VDict [("sensor_setting_property_id"%string, (VEnum "PRESENT_INPUT_VOLTAGE" 89)); ("length"%string, (VInt 2)); ("format"%string, (VInt 0)); ("present_input_voltage"%string, (VDict [("voltage"%string, (VFloat (25 # 2)))]))])]))]));
   ("test_sensor.py:146"%string, sensor_SensorSetupMessage, [88; 48; 0; 1; 0; 4; 0; 9; 0], (VDict [("opcode"%string, (VEnum "SENSOR_SETTINGS_STATUS" 88)); ("params"%string, (VDict [("sensor_property_id"%string, (VEnum "LIGHT_CONTROL_LIGHTNESS_STANDBY" 48)); ("sensor_setting_property_ids"%string, (VList [(VEnum "AVERAGE_AMBIENT_TEMPERATURE_IN_A_PERIOD_OF_DAY" 1); (VEnum "AVERAGE_OUTPUT_CURRENT" 4); (VEnum "COLOR_RENDERING_INDEX_RA" 9)]))]))]));
   ("test_sensor.py:154"%string, sensor_SensorSetupMessage, [88; 48; 0], (VDict [("opcode"%string, (VEnum "SENSOR_SETTINGS_STATUS" 88)); ("params"%string, (VDict [("sensor_property_id"%string, (VEnum "LIGHT_CONTROL_LIGHTNESS_STANDBY" 48)); ("sensor_setting_property_ids"%string, (VList []))]))]));
   ("test_sensor.py:160"%string, sensor_SensorSetupMessage, [89; 87; 0; 87; 0; 200; 0], (VDict [("opcode"%string, (VEnum "SENSOR_SETTING_SET" 89)); ("params"%string, (VDict [("sensor_property_id"%string, (VEnum "PRESENT_INPUT_CURRENT" 87)); ("sensor_setting_property_id"%string, (VEnum "PRESENT_INPUT_CURRENT" 87)); ("present_input_current"%string, (VDict [("current"%string, (VFloat (2 # 1)))]))]))]));
   ("test_sensor.py:168"%string, sensor_SensorSetupMessage, [91; 87; 0; 87; 0; 1; 200; 0], (VDict [("opcode"%string, (VEnum "SENSOR_SETTING_STATUS" 91)); ("params"%string, (VDict [("sensor_property_id"%string, (VEnum "PRESENT_INPUT_CURRENT" 87)); ("sensor_setting_property_id"%string, (VEnum "PRESENT_INPUT_CURRENT" 87)); ("sensor_setting_access"%string, (VEnum "READ_ONLY" 1)); ("present_input_current"%string, (VDict [("current"%string, (VFloat (2 # 1)))]))]))]));
   ("test_sensor.py:177"%string, sensor_SensorSetupMessage, [91; 87; 0; 2; 0; 1; 200; 0; 57], (VDict [("opcode"%string, (VEnum "SENSOR_SETTING_STATUS" 91)); ("params"%string, (VDict [("sensor_property_id"%string, (VEnum "PRESENT_INPUT_CURRENT" 87)); ("sensor_setting_property_id"%string, (VEnum "AVERAGE_INPUT_CURRENT" 2)); ("sensor_setting_access"%string, (VEnum "READ_ONLY" 1)); ("average_input_current"%string, (VDict [("electric_current_value"%string, (VFloat (2 # 1))); ("sensing_duration"%string, (VDict [("seconds"%string, (VFloat (4622494657533077 # 9007199254740992)))]))]))]))]));
   ("test_time.py:38"%string, time_TimeMessage, [130; 55], (VDict [("opcode"%string, (VEnum "TIME_GET" 33335)); ("params"%string, (VDict []))]));
   ("test_time.py:44"%string, time_TimeMessage, [92; 189; 247; 103; 38; 0; 26; 178; 73; 2; 72], (VDict [("opcode"%string, (VEnum "TIME_SET" 92)); ("params"%string, (VDict [("date"%string, (VDateTime 1591039837101562 7200)); ("uncertainty"%string, (VTimedelta 1780000)); ("tai_utc_delta"%string, (VTimedelta 37000000)); ("time_authority"%string, (VBool true))]))]));
   ("test_time.py:58"%string, time_TimeMessage, [93; 189; 247; 103; 38; 0; 26; 178; 73; 2; 72], (VDict [("opcode"%string, (VEnum "TIME_STATUS" 93)); ("params"%string, (VDict [("date"%string, (VDateTime 1591039837101562 7200)); ("uncertainty"%string, (VTimedelta 1780000)); ("tai_utc_delta"%string, (VTimedelta 37000000)); ("time_authority"%string, (VBool true))]))]));
   ("test_time.py:72"%string, time_TimeMessage, [130; 59], (VDict [("opcode"%string, (VEnum "TIME_ZONE_GET" 33339)); ("params"%string, (VDict []))]));
   ("test_time.py:78"%string, time_TimeMessage, [130; 60; 171; 52; 0; 0; 0; 18], (VDict [("opcode"%string, (VEnum "TIME_ZONE_SET" 33340)); ("params"%string, (VDict [("time_zone_offset_new"%string, (VInt 171)); ("tai_of_zone_change"%string, (VInt 77309411380))]))]));
   ("test_time.py:87"%string, time_TimeMessage, [130; 61; 205; 171; 52; 0; 0; 0; 18], (VDict [("opcode"%string, (VEnum "TIME_ZONE_STATUS" 33341)); ("params"%string, (VDict [("time_zone_offset_current"%string, (VInt 205)); ("time_zone_offset_new"%string, (VInt 171)); ("tai_of_zone_change"%string, (VInt 77309411380))]))]));
   ("test_time.py:97"%string, time_TimeMessage, [130; 62], (VDict [("opcode"%string, (VEnum "TAI_UTC_DELTA_GET" 33342)); ("params"%string, (VDict []))]));
   ("test_time.py:103"%string, time_TimeMessage, [130; 63; 1; 0; 85; 68; 51; 34; 17], (VDict [("opcode"%string, (VEnum "TAI_UTC_DELTA_SET" 33343)); ("params"%string, (VDict [("tai_utc_delta_new"%string, (VInt 1)); ("tai_of_delta_change"%string, (VInt 73588229205))]))]));
   ("test_time.py:112"%string, time_TimeMessage, [130; 64; 1; 64; 1; 0; 85; 68; 51; 34; 17], (VDict [("opcode"%string, (VEnum "TAI_UTC_DELTA_STATUS" 33344)); ("params"%string, (VDict [("tai_utc_delta_current"%string, (VInt 16385)); ("tai_utc_delta_new"%string, (VInt 1)); ("tai_of_delta_change"%string, (VInt 73588229205))]))]));
   ("test_time.py:122"%string, time_TimeMessage, [130; 56], (VDict [("opcode"%string, (VEnum "TIME_ROLE_GET" 33336)); ("params"%string, (VDict []))]));
   ("test_time.py:128"%string, time_TimeMessage, [130; 57; 3], (VDict [("opcode"%string, (VEnum "TIME_ROLE_SET" 33337)); ("params"%string, (VDict [("time_role"%string, (VEnum "TIME_CLIENT" 3))]))]));
   ("test_time.py:136"%string, time_TimeMessage, [130; 58; 3], (VDict [("opcode"%string, (VEnum "TIME_ROLE_STATUS" 33338)); ("params"%string, (VDict [("time_role"%string, (VEnum "TIME_CLIENT" 3))]))]));
   ("test_sensor.py:192"%string, sensor_SensorSetupMessage, [89; 87; 0; 87; 0; 200; 0], (VDict [("opcode"%string, (VEnum "SENSOR_SETTING_SET" 89)); ("params"%string, (VDict [("sensor_property_id"%string, (VEnum "PRESENT_INPUT_CURRENT" 87)); ("sensor_setting_property_id"%string, (VEnum "PRESENT_INPUT_CURRENT" 87)); ("present_input_current"%string, (VDict [("current"%string, (VFloat (2 # 1)))]))]))]));
   ("test_sensor.py:199"%string, sensor_SensorSetupMessage, [89; 87; 0; 2; 0; 200; 0; 57], (VDict [("opcode"%string, (VEnum "SENSOR_SETTING_SET" 89)); ("params"%string, (VDict [("sensor_property_id"%string, (VEnum "PRESENT_INPUT_CURRENT" 87)); ("sensor_setting_property_id"%string, (VEnum "AVERAGE_INPUT_CURRENT" 2)); ("average_input_current"%string, (VDict [("electric_current_value"%string, (VFloat (2 # 1))); ("sensing_duration"%string, (VDict [("seconds"%string, (VFloat (4622494657533077 # 9007199254740992)))]))]))]))]));
   ("test_sensor.py:207"%string, sensor_SensorSetupMessage, [89; 5; 0; 5; 0; 32; 3; 84], (VDict [("opcode"%string, (VEnum "SENSOR_SETTING_SET" 89)); ("params"%string, (VDict [("sensor_property_id"%string, (VEnum "AVERAGE_OUTPUT_VOLTAGE" 5)); ("sensor_setting_property_id"%string, (VEnum "AVERAGE_OUTPUT_VOLTAGE" 5)); ("average_output_voltage"%string, (VDict [("voltage_value"%string, (VFloat (25 # 2))); ("sensing_duration"%string, (VDict [("seconds"%string, (VFloat (7574491623283753 # 1125899906842624)))]))]))]))]));
   ("test_sensor.py:215"%string, sensor_SensorSetupMessage, [89; 87; 0; 2; 0; 200; 0; 0], (VDict [("opcode"%string, (VEnum "SENSOR_SETTING_SET" 89)); ("params"%string, (VDict [("sensor_property_id"%string, (VEnum "PRESENT_INPUT_CURRENT" 87)); ("sensor_setting_property_id"%string, (VEnum "AVERAGE_INPUT_CURRENT" 2)); ("average_input_current"%string, (VDict [("electric_current_value"%string, (VFloat (2 # 1))); ("sensing_duration"%string, (VDict [("seconds"%string, (VInt 0))]))]))]))]));
   ("test_sensor.py:223"%string, sensor_SensorSetupMessage, [89; 89; 0; 89; 0; 0; 3], (VDict [("opcode"%string, (VEnum "SENSOR_SETTING_SET" 89)); ("params"%string, (VDict [("sensor_property_id"%string, (VEnum "PRESENT_INPUT_VOLTAGE" 89)); ("sensor_setting_property_id"%string, (VEnum "PRESENT_INPUT_VOLTAGE" 89)); ("present_input_voltage"%string, (VDict [("voltage"%string, (VInt 12))]))]))]));
   ("test_sensor.py:230"%string, sensor_SensorSetupMessage, [89; 66; 0; 77; 0; 1], (VDict [("opcode"%string, (VEnum "SENSOR_SETTING_SET" 89)); ("params"%string, (VDict [("sensor_property_id"%string, (VEnum "MOTION_SENSED" 66)); ("sensor_setting_property_id"%string, (VEnum "PRESENCE_DETECTED" 77)); ("presence_detected"%string, (VDict [("presence_detected"%string, (VBool true))]))]))]));
   ("test_sensor.py:237"%string, sensor_SensorSetupMessage, [89; 66; 0; 66; 0; 80], (VDict [("opcode"%string, (VEnum "SENSOR_SETTING_SET" 89)); ("params"%string, (VDict [("sensor_property_id"%string, (VEnum "MOTION_SENSED" 66)); ("sensor_setting_property_id"%string, (VEnum "MOTION_SENSED" 66)); ("motion_sensed"%string, (VDict [("percentage"%string, (VInt 40))]))]))]));
   ("test_sensor.py:244"%string, sensor_SensorSetupMessage, [89; 10; 0; 54; 0; 184; 11; 0], (VDict [("opcode"%string, (VEnum "SENSOR_SETTING_SET" 89)); ("params"%string, (VDict [("sensor_property_id"%string, (VEnum "DEVICE_APPEARANCE" 10)); ("sensor_setting_property_id"%string, (VEnum "LIGHT_CONTROL_TIME_FADE" 54)); ("light_control_time_fade"%string, (VDict [("seconds"%string, (VInt 3))]))]))]));
   ("test_sensor.py:251"%string, sensor_SensorSetupMessage, [89; 109; 0; 109; 0; 10; 0; 0], (VDict [("opcode"%string, (VEnum "SENSOR_SETTING_SET" 89)); ("params"%string, (VDict [("sensor_property_id"%string, (VEnum "TOTAL_DEVICE_POWER_ON_TIME" 109)); ("sensor_setting_property_id"%string, (VEnum "TOTAL_DEVICE_POWER_ON_TIME" 109)); ("total_device_power_on_time"%string, (VDict [("hours"%string, (VInt 10))]))]))]));
   ("test_sensor.py:258"%string, sensor_SensorSetupMessage, [89; 109; 0; 109; 0; 255; 255; 255], (VDict [("opcode"%string, (VEnum "SENSOR_SETTING_SET" 89)); ("params"%string, (VDict [("sensor_property_id"%string, (VEnum "TOTAL_DEVICE_POWER_ON_TIME" 109)); ("sensor_setting_property_id"%string, (VEnum "TOTAL_DEVICE_POWER_ON_TIME" 109)); ("total_device_power_on_time"%string, (VDict [("hours"%string, (VFloat fmax))]))]))]));
   ("test_sensor.py:265"%string, sensor_SensorSetupMessage, [89; 85; 0; 85; 0; 26; 39; 0], (VDict [("opcode"%string, (VEnum "SENSOR_SETTING_SET" 89)); ("params"%string, (VDict [("sensor_property_id"%string, (VEnum "PRESENT_ILLUMINANCE" 85)); ("sensor_setting_property_id"%string, (VEnum "PRESENT_ILLUMINANCE" 85)); ("present_illuminance"%string, (VDict [("illuminance"%string, (VFloat (3521955646092083 # 35184372088832)))]))]))]));
   ("test_sensor.py:272"%string, sensor_SensorSetupMessage, [89; 76; 0; 76; 0; 27; 26], (VDict [("opcode"%string, (VEnum "SENSOR_SETTING_SET" 89)); ("params"%string, (VDict [("sensor_property_id"%string, (VEnum "PEOPLE_COUNT" 76)); ("sensor_setting_property_id"%string, (VEnum "PEOPLE_COUNT" 76)); ("people_count"%string, (VDict [("count"%string, (VInt 6683))]))]))]));
   ("test_sensor.py:279"%string, sensor_SensorSetupMessage, [89; 108; 0; 108; 0; 255; 27; 26], (VDict [("opcode"%string, (VEnum "SENSOR_SETTING_SET" 89)); ("params"%string, (VDict [("sensor_property_id"%string, (VEnum "TOTAL_DEVICE_POWER_ON_CYCLES" 108)); ("sensor_setting_property_id"%string, (VEnum "TOTAL_DEVICE_POWER_ON_CYCLES" 108)); ("total_device_power_on_cycles"%string, (VDict [("count"%string, (VInt 1711103))]))]))]));
   ("test_sensor.py:286"%string, sensor_SensorSetupMessage, [89; 108; 0; 108; 0; 255; 255; 255], (VDict [("opcode"%string, (VEnum "SENSOR_SETTING_SET" 89)); ("params"%string, (VDict [("sensor_property_id"%string, (VEnum "TOTAL_DEVICE_POWER_ON_CYCLES" 108)); ("sensor_setting_property_id"%string, (VEnum "TOTAL_DEVICE_POWER_ON_CYCLES" 108)); ("total_device_power_on_cycles"%string, (VDict [("count"%string, (VFloat fmax))]))]))]));
   ("test_sensor.py:293"%string, sensor_SensorSetupMessage, [89; 104; 0; 104; 0; 5; 0], (VDict [("opcode"%string, (VEnum "SENSOR_SETTING_SET" 89)); ("params"%string, (VDict [("sensor_property_id"%string, (VEnum "TIME_SINCE_MOTION_SENSED" 104)); ("sensor_setting_property_id"%string, (VEnum "TIME_SINCE_MOTION_SENSED" 104)); ("time_since_motion_sensed"%string, (VDict [("seconds"%string, (VInt 5))]))]))]));
   ("test_sensor.py:300"%string, sensor_SensorSetupMessage, [89; 103; 0; 103; 0; 5; 0; 1; 0; 112; 64], (VDict [("opcode"%string, (VEnum "SENSOR_SETTING_SET" 89)); ("params"%string, (VDict [("sensor_property_id"%string, (VEnum "SHORT_CIRCUIT_EVENT_STATISTICS" 103)); ("sensor_setting_property_id"%string, (VEnum "SHORT_CIRCUIT_EVENT_STATISTICS" 103)); ("short_circuit_event_statistics"%string, (VDict [("number_of_events"%string, (VDict [("count"%string, (VInt 5))])); ("average_event_duration"%string, (VDict [("seconds"%string, (VInt 1))])); ("time_elapsed_since_last_event"%string, (VDict [("seconds"%string, (VFloat (426686157977079 # 4398046511104)))])); ("sensing_duration"%string, (VDict [("seconds"%string, (VInt 1))]))]))]))]));
   ("test_sensor.py:311"%string, sensor_SensorSetupMessage, [89; 14; 0; 14; 0; 97; 98; 99; 100; 101; 102; 103; 104], (VDict [("opcode"%string, (VEnum "SENSOR_SETTING_SET" 89)); ("params"%string, (VDict [("sensor_property_id"%string, (VEnum "DEVICE_FIRMWARE_REVISION" 14)); ("sensor_setting_property_id"%string, (VEnum "DEVICE_FIRMWARE_REVISION" 14)); ("device_firmware_revision"%string, (VStr [97; 98; 99; 100; 101; 102; 103; 104]))]))]));
   ("test_sensor.py:318"%string, sensor_SensorSetupMessage, [89; 14; 0; 14; 0; 97; 98; 99; 100; 101; 102; 0; 0], (VDict [("opcode"%string, (VEnum "SENSOR_SETTING_SET" 89)); ("params"%string, (VDict [("sensor_property_id"%string, (VEnum "DEVICE_FIRMWARE_REVISION" 14)); ("sensor_setting_property_id"%string, (VEnum "DEVICE_FIRMWARE_REVISION" 14)); ("device_firmware_revision"%string, (VStr [97; 98; 99; 100; 101; 102]))]))]));
   ("test_sensor.py:325"%string, sensor_SensorSetupMessage, [89; 17; 0; 17; 0; 97; 98; 99; 100; 101; 102; 103; 104; 97; 98; 99; 100; 101; 102; 103; 104; 97; 98; 99; 100; 101; 102; 103; 104; 97; 98; 99; 100; 101; 102; 103; 104; 97; 98; 99; 100], (VDict [("opcode"%string, (VEnum "SENSOR_SETTING_SET" 89)); ("params"%string, (VDict [("sensor_property_id"%string, (VEnum "DEVICE_MANUFACTURER_NAME" 17)); ("sensor_setting_property_id"%string, (VEnum "DEVICE_MANUFACTURER_NAME" 17)); ("device_manufacturer_name"%string, (VStr [97; 98; 99; 100; 101; 102; 103; 104; 97; 98; 99; 100; 101; 102; 103; 104; 97; 98; 99; 100; 101; 102; 103; 104; 97; 98; 99; 100; 101; 102; 103; 104; 97; 98; 99; 100]))]))]));
   ("test_sensor.py:332"%string, sensor_SensorSetupMessage, [89; 106; 0; 106; 0; 162; 68; 255], (VDict [("opcode"%string, (VEnum "SENSOR_SETTING_SET" 89)); ("params"%string, (VDict [("sensor_property_id"%string, (VEnum "TOTAL_DEVICE_ENERGY_USE" 106)); ("sensor_setting_property_id"%string, (VEnum "TOTAL_DEVICE_ENERGY_USE" 106)); ("total_device_energy_use"%string, (VDict [("energy"%string, (VInt 16729250))]))]))]));
   ("test_sensor.py:340"%string, sensor_SensorSetupMessage, [89; 114; 0; 114; 0; 72; 207; 182; 99], (VDict [("opcode"%string, (VEnum "SENSOR_SETTING_SET" 89)); ("params"%string, (VDict [("sensor_property_id"%string, (VEnum "PRECISE_TOTAL_DEVICE_ENERGY_USE" 114)); ("sensor_setting_property_id"%string, (VEnum "PRECISE_TOTAL_DEVICE_ENERGY_USE" 114)); ("precise_total_device_energy_use"%string, (VDict [("energy"%string, (VInt 1672925))]))]))]));
   ("test_sensor.py:348"%string, sensor_SensorSetupMessage, [89; 114; 0; 114; 0; 255; 255; 255; 255], (VDict [("opcode"%string, (VEnum "SENSOR_SETTING_SET" 89)); ("params"%string, (VDict [("sensor_property_id"%string, (VEnum "PRECISE_TOTAL_DEVICE_ENERGY_USE" 114)); ("sensor_setting_property_id"%string, (VEnum "PRECISE_TOTAL_DEVICE_ENERGY_USE" 114)); ("precise_total_device_energy_use"%string, (VDict [("energy"%string, (VFloat (2305843008676823 # 536870912)))]))]))]));
   ("test_sensor.py:356"%string, sensor_SensorSetupMessage, [89; 128; 0; 128; 0; 72; 207; 182; 99], (VDict [("opcode"%string, (VEnum "SENSOR_SETTING_SET" 89)); ("params"%string, (VDict [("sensor_property_id"%string, (VEnum "ACTIVE_ENERGY_LOAD_SIDE" 128)); ("sensor_setting_property_id"%string, (VEnum "ACTIVE_ENERGY_LOAD_SIDE" 128)); ("active_energy_load_side"%string, (VDict [("energy"%string, (VInt 1672925))]))]))]));
   ("test_sensor.py:364"%string, sensor_SensorSetupMessage, [89; 128; 0; 128; 0; 255; 255; 255; 255], (VDict [("opcode"%string, (VEnum "SENSOR_SETTING_SET" 89)); ("params"%string, (VDict [("sensor_property_id"%string, (VEnum "ACTIVE_ENERGY_LOAD_SIDE" 128)); ("sensor_setting_property_id"%string, (VEnum "ACTIVE_ENERGY_LOAD_SIDE" 128)); ("active_energy_load_side"%string, (VDict [("energy"%string, (VFloat (2305843008676823 # 536870912)))]))]))]));
   ("test_sensor.py:372"%string, sensor_SensorSetupMessage, [89; 131; 0; 131; 0; 72; 207; 182; 99], (VDict [("opcode"%string, (VEnum "SENSOR_SETTING_SET" 89)); ("params"%string, (VDict [("sensor_property_id"%string, (VEnum "APPARENT_ENERGY" 131)); ("sensor_setting_property_id"%string, (VEnum "APPARENT_ENERGY" 131)); ("apparent_energy"%string, (VDict [("energy"%string, (VInt 1672925))]))]))]));
   ("test_sensor.py:380"%string, sensor_SensorSetupMessage, [89; 131; 0; 131; 0; 255; 255; 255; 255], (VDict [("opcode"%string, (VEnum "SENSOR_SETTING_SET" 89)); ("params"%string, (VDict [("sensor_property_id"%string, (VEnum "APPARENT_ENERGY" 131)); ("sensor_setting_property_id"%string, (VEnum "APPARENT_ENERGY" 131)); ("apparent_energy"%string, (VDict [("energy"%string, (VFloat (2305843008676823 # 536870912)))]))]))]));
   ("test_sensor.py:388"%string, sensor_SensorSetupMessage, [89; 46; 0; 46; 0; 68; 255], (VDict [("opcode"%string, (VEnum "SENSOR_SETTING_SET" 89)); ("params"%string, (VDict [("sensor_property_id"%string, (VEnum "LIGHT_CONTROL_LIGHTNESS_ON" 46)); ("sensor_setting_property_id"%string, (VEnum "LIGHT_CONTROL_LIGHTNESS_ON" 46)); ("light_control_lightness_on"%string, (VDict [("perceived_lightness"%string, (VInt 65348))]))]))]));
   ("test_sensor.py:396"%string, sensor_SensorSetupMessage, [89; 50; 0; 50; 0; 68; 255; 0; 0], (VDict [("opcode"%string, (VEnum "SENSOR_SETTING_SET" 89)); ("params"%string, (VDict [("sensor_property_id"%string, (VEnum "LIGHT_CONTROL_REGULATOR_KID" 50)); ("sensor_setting_property_id"%string, (VEnum "LIGHT_CONTROL_REGULATOR_KID" 50)); ("light_control_regulator_kid"%string, (VDict [("coefficient"%string, (VInt 65348))]))]))]));
   ("test_sensor.py:404"%string, sensor_SensorSetupMessage, [89; 82; 0; 82; 0; 160; 134; 1], (VDict [("opcode"%string, (VEnum "SENSOR_SETTING_SET" 89)); ("params"%string, (VDict [("sensor_property_id"%string, (VEnum "PRESENT_DEVICE_INPUT_POWER" 82)); ("sensor_setting_property_id"%string, (VEnum "PRESENT_DEVICE_INPUT_POWER" 82)); ("present_device_input_power"%string, (VDict [("power"%string, (VInt 10000))]))]))]));
   ("test_sensor.py:412"%string, sensor_SensorSetupMessage, [89; 82; 0; 82; 0; 255; 255; 255], (VDict [("opcode"%string, (VEnum "SENSOR_SETTING_SET" 89)); ("params"%string, (VDict [("sensor_property_id"%string, (VEnum "PRESENT_DEVICE_INPUT_POWER" 82)); ("sensor_setting_property_id"%string, (VEnum "PRESENT_DEVICE_INPUT_POWER" 82)); ("present_device_input_power"%string, (VDict [("power"%string, (VFloat (3355443 # 2)))]))]))]));
   ("test_sensor.py:420"%string, sensor_SensorSetupMessage, [89; 22; 0; 22; 0; 232; 3; 0; 208; 7; 0; 15; 39; 0], (VDict [("opcode"%string, (VEnum "SENSOR_SETTING_SET" 89)); ("params"%string, (VDict [("sensor_property_id"%string, (VEnum "DEVICE_POWER_RANGE_SPECIFICATION" 22)); ("sensor_setting_property_id"%string, (VEnum "DEVICE_POWER_RANGE_SPECIFICATION" 22)); ("device_power_range_specification"%string, (VDict [("minimum_power_value"%string, (VInt 100)); ("typical_power_value"%string, (VInt 200)); ("maximum_power_value"%string, (VFloat (8795213412905779 # 8796093022208)))]))]))]));
   ("test_sensor.py:430"%string, sensor_SensorSetupMessage, [89; 79; 0; 79; 0; 31], (VDict [("opcode"%string, (VEnum "SENSOR_SETTING_SET" 89)); ("params"%string, (VDict [("sensor_property_id"%string, (VEnum "PRESENT_AMBIENT_TEMPERATURE" 79)); ("sensor_setting_property_id"%string, (VEnum "PRESENT_AMBIENT_TEMPERATURE" 79)); ("present_ambient_temperature"%string, (VDict [("temperature"%string, (VFloat (31 # 2)))]))]))]));
   ("test_sensor.py:438"%string, sensor_SensorSetupMessage, [89; 79; 0; 79; 0; 225], (VDict [("opcode"%string, (VEnum "SENSOR_SETTING_SET" 89)); ("params"%string, (VDict [("sensor_property_id"%string, (VEnum "PRESENT_AMBIENT_TEMPERATURE" 79)); ("sensor_setting_property_id"%string, (VEnum "PRESENT_AMBIENT_TEMPERATURE" 79)); ("present_ambient_temperature"%string, (VDict [("temperature"%string, (VFloat ((-31) # 2)))]))]))]));
   ("test_sensor.py:446"%string, sensor_SensorSetupMessage, [89; 84; 0; 84; 0; 230; 32], (VDict [("opcode"%string, (VEnum "SENSOR_SETTING_SET" 89)); ("params"%string, (VDict [("sensor_property_id"%string, (VEnum "PRESENT_DEVICE_OPERATING_TEMPERATURE" 84)); ("sensor_setting_property_id"%string, (VEnum "PRESENT_DEVICE_OPERATING_TEMPERATURE" 84)); ("present_device_operating_temperature"%string, (VDict [("temperature"%string, (VFloat (2963227817321431 # 35184372088832)))]))]))]));
   ("test_sensor.py:454"%string, sensor_SensorSetupMessage, [89; 69; 0; 69; 0; 49; 2; 220; 110; 113], (VDict [("opcode"%string, (VEnum "SENSOR_SETTING_SET" 89)); ("params"%string, (VDict [("sensor_property_id"%string, (VEnum "OUTDOOR_STATISTICAL_VALUES" 69)); ("sensor_setting_property_id"%string, (VEnum "OUTDOOR_STATISTICAL_VALUES" 69)); ("outdoor_statistical_values"%string, (VDict [("average_temperature"%string, (VFloat (49 # 2))); ("standard_deviation_temperature"%string, (VInt 1)); ("minimum_temperature"%string, (VInt (-18))); ("maximum_temperature"%string, (VInt 55)); ("sensing_duration"%string, (VDict [("seconds"%string, (VFloat (1877420502474031 # 17592186044416)))]))]))]))]));
   ("test_sensor.py:466"%string, sensor_SensorSetupMessage, [89; 20; 0; 20; 0; 146; 9; 100; 0; 248; 248; 32; 78; 113], (VDict [("opcode"%string, (VEnum "SENSOR_SETTING_SET" 89)); ("params"%string, (VDict [("sensor_property_id"%string, (VEnum "DEVICE_OPERATING_TEMPERATURE_STATISTICAL_VALUES" 20)); ("sensor_setting_property_id"%string, (VEnum "DEVICE_OPERATING_TEMPERATURE_STATISTICAL_VALUES" 20)); ("device_operating_temperature_statistical_values"%string, (VDict [("average_temperature"%string, (VFloat (49 # 2))); ("standard_deviation_temperature"%string, (VInt 1)); ("minimum_temperature"%string, (VInt (-18))); ("maximum_temperature"%string, (VInt 200)); ("sensing_duration"%string, (VDict [("seconds"%string, (VFloat (1877420502474031 # 17592186044416)))]))]))]))]));
   ("test_sensor.py:478"%string, sensor_SensorSetupMessage, [89; 19; 0; 19; 0; 220; 110], (VDict [("opcode"%string, (VEnum "SENSOR_SETTING_SET" 89)); ("params"%string, (VDict [("sensor_property_id"%string, (VEnum "DEVICE_OPERATING_TEMPERATURE_RANGE_SPECIFICATION" 19)); ("sensor_setting_property_id"%string, (VEnum "DEVICE_OPERATING_TEMPERATURE_RANGE_SPECIFICATION" 19)); ("device_operating_temperature_range_specification"%string, (VDict [("minimum_temperature"%string, (VInt (-18))); ("maximum_temperature"%string, (VInt 55))]))]))]));
   ("test_sensor.py:487"%string, sensor_SensorSetupMessage, [89; 1; 0; 1; 0; 24; 109; 162], (VDict [("opcode"%string, (VEnum "SENSOR_SETTING_SET" 89)); ("params"%string, (VDict [("sensor_property_id"%string, (VEnum "AVERAGE_AMBIENT_TEMPERATURE_IN_A_PERIOD_OF_DAY" 1)); ("sensor_setting_property_id"%string, (VEnum "AVERAGE_AMBIENT_TEMPERATURE_IN_A_PERIOD_OF_DAY" 1)); ("average_ambient_temperature_in_a_period_of_day"%string, (VDict [("temperature"%string, (VInt 12)); ("start_time"%string, (VDict [("hour"%string, (VFloat (6136154492292301 # 562949953421312)))])); ("end_time"%string, (VDict [("hour"%string, (VFloat (4559894622712627 # 281474976710656)))]))]))]))]));
   ("test_sensor.py:497"%string, sensor_SensorSetupMessage, [89; 96; 0; 96; 0; 162; 68; 255; 109; 162], (VDict [("opcode"%string, (VEnum "SENSOR_SETTING_SET" 89)); ("params"%string, (VDict [("sensor_property_id"%string, (VEnum "RELATIVE_DEVICE_ENERGY_USE_IN_A_PERIOD_OF_DAY" 96)); ("sensor_setting_property_id"%string, (VEnum "RELATIVE_DEVICE_ENERGY_USE_IN_A_PERIOD_OF_DAY" 96)); ("relative_device_energy_use_in_a_period_of_day"%string, (VDict [("energy_value"%string, (VInt 16729250)); ("start_time"%string, (VDict [("hour"%string, (VFloat (6136154492292301 # 562949953421312)))])); ("end_time"%string, (VDict [("hour"%string, (VFloat (4559894622712627 # 281474976710656)))]))]))]))]));
   ("test_sensor.py:507"%string, sensor_SensorSetupMessage, [89; 42; 0; 42; 0; 105; 1; 64; 0; 0; 0; 240; 255; 84], (VDict [("opcode"%string, (VEnum "SENSOR_SETTING_SET" 89)); ("params"%string, (VDict [("sensor_property_id"%string, (VEnum "INPUT_VOLTAGE_STATISTICS" 42)); ("sensor_setting_property_id"%string, (VEnum "INPUT_VOLTAGE_STATISTICS" 42)); ("input_voltage_statistics"%string, (VDict [("average_voltage_value"%string, (VFloat (361 # 64))); ("standard_deviation_voltage_value"%string, (VInt 1)); ("minimum_voltage_value"%string, (VInt 0)); ("maximum_voltage_value"%string, (VFloat (4095 # 4))); ("sensing_duration"%string, (VDict [("seconds"%string, (VFloat (7574491623283753 # 1125899906842624)))]))]))]))]));
   ("test_sensor.py:519"%string, sensor_SensorSetupMessage, [89; 73; 0; 73; 0; 0; 0; 0; 6; 240; 255], (VDict [("opcode"%string, (VEnum "SENSOR_SETTING_SET" 89)); ("params"%string, (VDict [("sensor_property_id"%string, (VEnum "OUTPUT_VOLTAGE_RANGE" 73)); ("sensor_setting_property_id"%string, (VEnum "OUTPUT_VOLTAGE_RANGE" 73)); ("output_voltage_range"%string, (VDict [("minimum_voltage_value"%string, (VInt 0)); ("typical_voltage_value"%string, (VInt 24)); ("maximum_voltage_value"%string, (VFloat (4095 # 4)))]))]))]));
   ("test_sensor.py:529"%string, sensor_SensorSetupMessage, [89; 71; 0; 71; 0; 151; 9; 100; 0; 0; 0; 125; 21; 113], (VDict [("opcode"%string, (VEnum "SENSOR_SETTING_SET" 89)); ("params"%string, (VDict [("sensor_property_id"%string, (VEnum "OUTPUT_CURRENT_STATISTICS" 71)); ("sensor_setting_property_id"%string, (VEnum "OUTPUT_CURRENT_STATISTICS" 71)); ("output_current_statistics"%string, (VDict [("average_electric_current_value"%string, (VFloat (6910210678246605 # 281474976710656))); ("standard_deviation_electric_current_value"%string, (VInt 1)); ("minimum_electric_current_value"%string, (VInt 0)); ("maximum_electric_current_value"%string, (VFloat (7741969234426593 # 140737488355328))); ("sensing_duration"%string, (VDict [("seconds"%string, (VFloat (1877420502474031 # 17592186044416)))]))]))]))]));
   ("test_sensor.py:541"%string, sensor_SensorSetupMessage, [89; 70; 0; 70; 0; 0; 0; 125; 21], (VDict [("opcode"%string, (VEnum "SENSOR_SETTING_SET" 89)); ("params"%string, (VDict [("sensor_property_id"%string, (VEnum "OUTPUT_CURRENT_RANGE" 70)); ("sensor_setting_property_id"%string, (VEnum "OUTPUT_CURRENT_RANGE" 70)); ("output_current_range"%string, (VDict [("minimum_electric_current_value"%string, (VInt 0)); ("maximum_electric_current_value"%string, (VFloat (7741969234426593 # 140737488355328)))]))]))]));
   ("test_sensor.py:550"%string, sensor_SensorSetupMessage, [89; 33; 0; 33; 0; 0; 0; 1; 0; 125; 21], (VDict [("opcode"%string, (VEnum "SENSOR_SETTING_SET" 89)); ("params"%string, (VDict [("sensor_property_id"%string, (VEnum "INPUT_CURRENT_RANGE_SPECIFICATION" 33)); ("sensor_setting_property_id"%string, (VEnum "INPUT_CURRENT_RANGE_SPECIFICATION" 33)); ("input_current_range_specification"%string, (VDict [("minimum_electric_current_value"%string, (VInt 0)); ("typical_electric_current_value"%string, (VFloat (5764607523034235 # 576460752303423488))); ("maximum_electric_current_value"%string, (VFloat (7741969234426593 # 140737488355328)))]))]))]));
   ("test_sensor.py:560"%string, sensor_SensorSetupMessage, [89; 112; 0; 112; 0; 2; 0; 0], (VDict [("opcode"%string, (VEnum "SENSOR_SETTING_SET" 89)); ("params"%string, (VDict [("sensor_property_id"%string, (VEnum "TOTAL_LUMINOUS_ENERGY" 112)); ("sensor_setting_property_id"%string, (VEnum "TOTAL_LUMINOUS_ENERGY" 112)); ("total_luminous_energy"%string, (VDict [("luminous_energy"%string, (VInt 2000))]))]))]));
   ("test_sensor.py:568"%string, sensor_SensorSetupMessage, [89; 6; 0; 6; 0; 0; 32], (VDict [("opcode"%string, (VEnum "SENSOR_SETTING_SET" 89)); ("params"%string, (VDict [("sensor_property_id"%string, (VEnum "CENTER_BEAM_INTENSITY_AT_FULL_POWER" 6)); ("sensor_setting_property_id"%string, (VEnum "CENTER_BEAM_INTENSITY_AT_FULL_POWER" 6)); ("center_beam_intensity_at_full_power"%string, (VDict [("luminous_intensity"%string, (VInt 8192))]))]))]));
   ("test_sensor.py:576"%string, sensor_SensorSetupMessage, [89; 64; 0; 64; 0; 2; 0; 0], (VDict [("opcode"%string, (VEnum "SENSOR_SETTING_SET" 89)); ("params"%string, (VDict [("sensor_property_id"%string, (VEnum "LUMINOUS_EXPOSURE" 64)); ("sensor_setting_property_id"%string, (VEnum "LUMINOUS_EXPOSURE" 64)); ("luminous_exposure"%string, (VDict [("luminous_exposure"%string, (VInt 2000))]))]))]));
   ("test_sensor.py:584"%string, sensor_SensorSetupMessage, [89; 31; 0; 31; 0; 208; 7], (VDict [("opcode"%string, (VEnum "SENSOR_SETTING_SET" 89)); ("params"%string, (VDict [("sensor_property_id"%string, (VEnum "INITIAL_LUMINOUS_FLUX" 31)); ("sensor_setting_property_id"%string, (VEnum "INITIAL_LUMINOUS_FLUX" 31)); ("initial_luminous_flux"%string, (VDict [("luminous_flux"%string, (VInt 2000))]))]))]));
   ("test_sensor.py:592"%string, sensor_SensorSetupMessage, [89; 65; 0; 65; 0; 232; 3; 208; 7], (VDict [("opcode"%string, (VEnum "SENSOR_SETTING_SET" 89)); ("params"%string, (VDict [("sensor_property_id"%string, (VEnum "LUMINOUS_FLUX_RANGE" 65)); ("sensor_setting_property_id"%string, (VEnum "LUMINOUS_FLUX_RANGE" 65)); ("luminous_flux_range"%string, (VDict [("minimum_luminous_flux"%string, (VInt 1000)); ("maximum_luminous_flux"%string, (VInt 2000))]))]))]));
   ("test_sensor.py:601"%string, sensor_SensorSetupMessage, [89; 62; 0; 62; 0; 212; 7], (VDict [("opcode"%string, (VEnum "SENSOR_SETTING_SET" 89)); ("params"%string, (VDict [("sensor_property_id"%string, (VEnum "LUMINOUS_EFFICACY" 62)); ("sensor_setting_property_id"%string, (VEnum "LUMINOUS_EFFICACY" 62)); ("luminous_efficacy"%string, (VDict [("luminous_efficacy"%string, (VFloat (7050948166601933 # 35184372088832)))]))]))]));
   ("test_sensor.py:609"%string, sensor_SensorSetupMessage, [89; 15; 0; 15; 0; 255; 238; 221; 204; 187; 170], (VDict [("opcode"%string, (VEnum "SENSOR_SETTING_SET" 89)); ("params"%string, (VDict [("sensor_property_id"%string, (VEnum "DEVICE_GLOBAL_TRADE_ITEM_NUMBER" 15)); ("sensor_setting_property_id"%string, (VEnum "DEVICE_GLOBAL_TRADE_ITEM_NUMBER" 15)); ("device_global_trade_item_number"%string, (VDict [("global_trade_item_number"%string, (VInt 187723572702975))]))]))]));
   ("test_sensor.py:617"%string, sensor_SensorSetupMessage, [89; 7; 0; 7; 0; 100], (VDict [("opcode"%string, (VEnum "SENSOR_SETTING_SET" 89)); ("params"%string, (VDict [("sensor_property_id"%string, (VEnum "CHROMATICITY_TOLERANCE" 7)); ("sensor_setting_property_id"%string, (VEnum "CHROMATICITY_TOLERANCE" 7)); ("chromaticity_tolerance"%string, (VDict [("chromaticity_tolerance"%string, (VFloat (5764607523034235 # 576460752303423488)))]))]))]));
   ("test_sensor.py:625"%string, sensor_SensorSetupMessage, [89; 94; 0; 94; 0; 146; 39], (VDict [("opcode"%string, (VEnum "SENSOR_SETTING_SET" 89)); ("params"%string, (VDict [("sensor_property_id"%string, (VEnum "PRESENT_PLANCKIAN_DISTANCE" 94)); ("sensor_setting_property_id"%string, (VEnum "PRESENT_PLANCKIAN_DISTANCE" 94)); ("present_planckian_distance"%string, (VDict [("distance_from_planckian"%string, (VFloat (1824858569010525 # 18014398509481984)))]))]))]));
   ("test_sensor.py:633"%string, sensor_SensorSetupMessage, [89; 81; 0; 81; 0; 184; 11], (VDict [("opcode"%string, (VEnum "SENSOR_SETTING_SET" 89)); ("params"%string, (VDict [("sensor_property_id"%string, (VEnum "PRESENT_CORRELATED_COLOR_TEMPERATURE" 81)); ("sensor_setting_property_id"%string, (VEnum "PRESENT_CORRELATED_COLOR_TEMPERATURE" 81)); ("present_correlated_color_temperature"%string, (VDict [("correlated_color_temperature"%string, (VInt 3000))]))]))]));
   ("test_sensor.py:641"%string, sensor_SensorSetupMessage, [89; 10; 0; 10; 0; 4; 240], (VDict [("opcode"%string, (VEnum "SENSOR_SETTING_SET" 89)); ("params"%string, (VDict [("sensor_property_id"%string, (VEnum "DEVICE_APPEARANCE" 10)); ("sensor_setting_property_id"%string, (VEnum "DEVICE_APPEARANCE" 10)); ("device_appearance"%string, (VDict [("category"%string, (VInt 960)); ("sub_category"%string, (VInt 4))]))]))]));
   ("test_sensor.py:650"%string, sensor_SensorSetupMessage, [89; 11; 0; 11; 0; 42; 0], (VDict [("opcode"%string, (VEnum "SENSOR_SETTING_SET" 89)); ("params"%string, (VDict [("sensor_property_id"%string, (VEnum "DEVICE_COUNTRY_OF_ORIGIN" 11)); ("sensor_setting_property_id"%string, (VEnum "DEVICE_COUNTRY_OF_ORIGIN" 11)); ("device_country_of_origin"%string, (VDict [("country_code"%string, (VInt 42))]))]))]));
   ("test_sensor.py:658"%string, sensor_SensorSetupMessage, [89; 12; 0; 12; 0; 222; 70; 0], (VDict [("opcode"%string, (VEnum "SENSOR_SETTING_SET" 89)); ("params"%string, (VDict [("sensor_property_id"%string, (VEnum "DEVICE_DATE_OF_MANUFACTURE" 12)); ("sensor_setting_property_id"%string, (VEnum "DEVICE_DATE_OF_MANUFACTURE" 12)); ("device_date_of_manufacture"%string, (VDict [("date"%string, (VDate 18142))]))]))]));
   ("test_sensor.py:666"%string, sensor_SensorSetupMessage, [89; 80; 0; 80; 0; 238; 0; 205; 171], (VDict [("opcode"%string, (VEnum "SENSOR_SETTING_SET" 89)); ("params"%string, (VDict [("sensor_property_id"%string, (VEnum "PRESENT_CIE1931_CHROMATICITY_COORDINATES" 80)); ("sensor_setting_property_id"%string, (VEnum "PRESENT_CIE1931_CHROMATICITY_COORDINATES" 80)); ("present_cie1931_chromaticity_coordinates"%string, (VDict [("chromaticity_x_coordinate"%string, (VFloat (4187004167184399 # 1152921504606846976))); ("chromaticity_y_coordinate"%string, (VFloat (6044794848901557 # 9007199254740992)))]))]))]));
   ("test_sensor.py:675"%string, sensor_SensorSetupMessage, [89; 8; 0; 8; 0; 100], (VDict [("opcode"%string, (VEnum "SENSOR_SETTING_SET" 89)); ("params"%string, (VDict [("sensor_property_id"%string, (VEnum "COLOR_RENDERING_INDEX_R9" 8)); ("sensor_setting_property_id"%string, (VEnum "COLOR_RENDERING_INDEX_R9" 8)); ("color_rendering_index_r9"%string, (VDict [("color_rendering_index"%string, (VInt 100))]))]))]));
   ("test_sensor.py:683"%string, sensor_SensorSetupMessage, [89; 8; 0; 8; 0; 156], (VDict [("opcode"%string, (VEnum "SENSOR_SETTING_SET" 89)); ("params"%string, (VDict [("sensor_property_id"%string, (VEnum "COLOR_RENDERING_INDEX_R9" 8)); ("sensor_setting_property_id"%string, (VEnum "COLOR_RENDERING_INDEX_R9" 8)); ("color_rendering_index_r9"%string, (VDict [("color_rendering_index"%string, (VInt (-100)))]))]))]));
   ("test_sensor.py:691"%string, sensor_SensorSetupMessage, [89; 97; 0; 97; 0; 136; 170; 0; 187; 187], (VDict [("opcode"%string, (VEnum "SENSOR_SETTING_SET" 89)); ("params"%string, (VDict [("sensor_property_id"%string, (VEnum "RELATIVE_DEVICE_RUNTIME_IN_A_GENERIC_LEVEL_RANGE" 97)); ("sensor_setting_property_id"%string, (VEnum "RELATIVE_DEVICE_RUNTIME_IN_A_GENERIC_LEVEL_RANGE" 97)); ("relative_device_runtime_in_a_generic_level_range"%string, (VDict [("relative_value"%string, (VInt 68)); ("minimum_generic_level"%string, (VInt 170)); ("maximum_generic_level"%string, (VInt 48059))]))]))]));
   ("test_sensor.py:701"%string, sensor_SensorSetupMessage, [89; 98; 0; 98; 0; 136; 26; 39; 0; 26; 39; 0], (VDict [("opcode"%string, (VEnum "SENSOR_SETTING_SET" 89)); ("params"%string, (VDict [("sensor_property_id"%string, (VEnum "RELATIVE_EXPOSURE_TIME_IN_AN_ILLUMINANCE_RANGE" 98)); ("sensor_setting_property_id"%string, (VEnum "RELATIVE_EXPOSURE_TIME_IN_AN_ILLUMINANCE_RANGE" 98)); ("relative_exposure_time_in_an_illuminance_range"%string, (VDict [("relative_value"%string, (VInt 68)); ("minimum_illuminance"%string, (VFloat (3521955646092083 # 35184372088832))); ("maximum_illuminance"%string, (VFloat (3521955646092083 # 35184372088832)))]))]))]));
   ("test_sensor.py:711"%string, sensor_SensorSetupMessage, [89; 100; 0; 100; 0; 136; 255; 255; 230; 32], (VDict [("opcode"%string, (VEnum "SENSOR_SETTING_SET" 89)); ("params"%string, (VDict [("sensor_property_id"%string, (VEnum "RELATIVE_RUNTIME_IN_A_DEVICE_OPERATING_TEMPERATURE_RANGE" 100)); ("sensor_setting_property_id"%string, (VEnum "RELATIVE_RUNTIME_IN_A_DEVICE_OPERATING_TEMPERATURE_RANGE" 100)); ("relative_runtime_in_a_device_operating_temperature_range"%string, (VDict [("relative_value"%string, (VInt 68)); ("minimum_temperature"%string, (VFloat ((-5764607523034235) # 576460752303423488))); ("maximum_temperature"%string, (VFloat (2963227817321431 # 35184372088832)))]))]))]));
   ("test_sensor.py:721"%string, sensor_SensorSetupMessage, [89; 101; 0; 101; 0; 136; 0; 0; 205; 171], (VDict [("opcode"%string, (VEnum "SENSOR_SETTING_SET" 89)); ("params"%string, (VDict [("sensor_property_id"%string, (VEnum "RELATIVE_RUNTIME_IN_AN_INPUT_CURRENT_RANGE" 101)); ("sensor_setting_property_id"%string, (VEnum "RELATIVE_RUNTIME_IN_AN_INPUT_CURRENT_RANGE" 101)); ("relative_runtime_in_an_input_current_range"%string, (VDict [("relative_value"%string, (VInt 68)); ("minimum_current"%string, (VInt 0)); ("maximum_current"%string, (VFloat (7737219344194601 # 17592186044416)))]))]))]));
   ("test_sensor.py:731"%string, sensor_SensorSetupMessage, [89; 102; 0; 102; 0; 136; 32; 3; 32; 3], (VDict [("opcode"%string, (VEnum "SENSOR_SETTING_SET" 89)); ("params"%string, (VDict [("sensor_property_id"%string, (VEnum "RELATIVE_RUNTIME_IN_AN_INPUT_VOLTAGE_RANGE" 102)); ("sensor_setting_property_id"%string, (VEnum "RELATIVE_RUNTIME_IN_AN_INPUT_VOLTAGE_RANGE" 102)); ("relative_runtime_in_an_input_voltage_range"%string, (VDict [("relative_value"%string, (VInt 68)); ("minimum_voltage"%string, (VFloat (25 # 2))); ("maximum_voltage"%string, (VFloat (25 # 2)))]))]))]));
   ("test_config.py:31"%string, config_SecureNetworkBeaconAdapter, [0], (VEnum "OFF" 0));
   ("test_config.py:37"%string, config_SecureNetworkBeaconAdapter, [1], (VEnum "ON" 1));
   ("test_config.py:43"%string, config_GATTProxyAdapter, [0], (VEnum "DISABLED" 0));
   ("test_config.py:49"%string, config_GATTProxyAdapter, [1], (VEnum "ENABLED" 1));
   ("test_config.py:55"%string, config_GATTProxyAdapter, [2], (VEnum "NOT_SUPPORTED" 2));
   ("test_config.py:61"%string, config_RelayAdapter, [0], (VEnum "DISABLED" 0));
   ("test_config.py:67"%string, config_RelayAdapter, [1], (VEnum "ENABLED" 1));
   ("test_config.py:73"%string, config_RelayAdapter, [2], (VEnum "NOT_SUPPORTED" 2));
   ("test_config.py:79"%string, config_GATTNamespaceDescriptorAdapter, [220; 0], (VEnum "TWO_HUNDRED_TWENTIETH" 220));
   ("test_config.py:85"%string, config_GATTNamespaceDescriptorAdapter, [0; 0], (VEnum "UNKNOWN" 0));
   ("test_config.py:91"%string, config_TTL, [127], (VInt 127));
   ("test_config.py:97"%string, config_TTL, [111], (VInt 111));
   ("test_config.py:103"%string, config_TTL, [0], (VInt 0));
   ("test_config.py:109"%string, config_SIGModelId, [173; 222], (VDict [("model_id"%string, (VInt 57005))]));
   ("test_config.py:117"%string, config_SIGModelId, [173; 222], (VDict [("model_id"%string, (VInt 57005)); ("vendor_id"%string, (VInt 49374))]));
   ("test_config.py:126"%string, config_VendorModelId, [222; 192; 173; 222], (VDict [("model_id"%string, (VInt 57005)); ("vendor_id"%string, (VInt 49374))]));
   ("test_config.py:135"%string, config_ModelId, [222; 192; 173; 222], (VDict [("model_id"%string, (VInt 57005)); ("vendor_id"%string, (VInt 49374))]));
   ("test_config.py:144"%string, config_ModelId, [173; 222], (VDict [("model_id"%string, (VInt 57005))]));
   ("test_config.py:152"%string, config_ModelId, [173; 222], (VDict [("model_id"%string, (VInt 57005)); ("vendor_id"%string, VNone)]));
   ("test_config.py:161"%string, config_UnassignedAddress, [0; 0], (VInt 0));
   ("test_config.py:167"%string, config_UnicastAddress, [255; 127], (VInt 32767));
   ("test_config.py:173"%string, config_UnicastAddress, [1; 0], (VInt 1));
   ("test_config.py:179"%string, config_GroupAddress, [0; 192], (VInt 49152));
   ("test_config.py:185"%string, config_VirtualLabel, [0; 128], (VInt 32768));
   ("test_config.py:191"%string, config_Retransmit, [7], (VDict [("count"%string, (VInt 7)); ("interval_steps"%string, (VInt 0))]));
   ("test_config.py:200"%string, config_Retransmit, [248], (VDict [("count"%string, (VInt 0)); ("interval_steps"%string, (VInt 31))]));
   ("test_config.py:209"%string, config_NetworkRetransmit, [7], (VDict [("count"%string, (VInt 7)); ("interval"%string, (VInt 10))]));
   ("test_config.py:218"%string, config_NetworkRetransmit, [248], (VDict [("count"%string, (VInt 0)); ("interval"%string, (VInt 320))]));
   ("test_config.py:227"%string, config_RelayRetransmit, [7], (VDict [("count"%string, (VInt 7)); ("interval"%string, (VInt 10))]));
   ("test_config.py:236"%string, config_RelayRetransmit, [248], (VDict [("count"%string, (VInt 0)); ("interval"%string, (VInt 320))]));
   ("test_config.py:245"%string, config_PublishRetransmit, [7], (VDict [("count"%string, (VInt 7)); ("interval"%string, (VInt 50))]));
   ("test_config.py:254"%string, config_PublishRetransmit, [248], (VDict [("count"%string, (VInt 0)); ("interval"%string, (VInt 1600))]));
   ("test_config.py:263"%string, config_ConfigAppKeyDelete, [1; 35; 69], (VDict [("net_key_index"%string, (VInt 769)); ("app_key_index"%string, (VInt 1106))]));
   ("test_config.py:272"%string, config_ConfigAppKeyDelete, [171; 205; 239], (VDict [("net_key_index"%string, (VInt 3499)); ("app_key_index"%string, (VInt 3836))]));
   ("test_config.py:281"%string, config_ConfigAppKeyDelete, [239; 205; 171], (VDict [("net_key_index"%string, (VInt 3567)); ("app_key_index"%string, (VInt 2748))]));
   ("test_config.py:290"%string, config_PublishPeriod, [0], (VDict [("step_resolution"%string, (VEnum "RESOLUTION_100_MS" 0)); ("number_of_steps"%string, (VInt 0))]));
   ("test_config.py:299"%string, config_PublishPeriod, [192], (VDict [("step_resolution"%string, (VEnum "RESOLUTION_10_MIN" 3)); ("number_of_steps"%string, (VInt 0))]));
   ("test_config.py:308"%string, config_PublishPeriod, [63], (VDict [("step_resolution"%string, (VEnum "RESOLUTION_100_MS" 0)); ("number_of_steps"%string, (VInt 63))]));
   ("test_config.py:317"%string, config_ConfigBeaconGet, [], (VDict []));
   ("test_config.py:323"%string, config_ConfigBeaconSet, [0], (VDict [("beacon"%string, (VEnum "OFF" 0))]));
   ("test_config.py:331"%string, config_ConfigBeaconStatus, [1], (VDict [("beacon"%string, (VEnum "ON" 1))]));
   ("test_config.py:339"%string, config_ConfigCompositionDataGet, [0], (VDict [("page"%string, (VInt 0))]));
   ("test_config.py:347"%string, config_ConfigCompositionDataGet, [255], (VDict [("page"%string, (VInt 255))]));
   ("test_config.py:355"%string, config_ConfigCompositionDataStatus, [0; 54; 1; 206; 0; 254; 202; 239; 190; 11; 176; 0; 0; 0; 0], (VDict [("page"%string, (VInt 0)); ("data"%string, (VDict [("cid"%string, (VInt 310)); ("pid"%string, (VInt 206)); ("vid"%string, (VInt 51966)); ("crpl"%string, (VInt 48879)); ("features"%string, (VInt 45067)); ("elements"%string, (VList [(VDict [("location"%string, (VEnum "UNKNOWN" 0)); ("sig_number"%string, (VInt 0)); ("vendor_number"%string, (VInt 0)); ("sig_models"%string, (VList [])); ("vendor_models"%string, (VList []))])]))])); ("zero"%string, (VDict [("cid"%string, (VInt 310)); ("pid"%string, (VInt 206)); ("vid"%string, (VInt 51966)); ("crpl"%string, (VInt 48879)); ("features"%string, (VInt 45067)); ("elements"%string, (VList [(VDict [("location"%string, (VEnum "UNKNOWN" 0)); ("sig_number"%string, (VInt 0)); ("vendor_number"%string, (VInt 0)); ("sig_models"%string, (VList [])); ("vendor_models"%string, (VList []))])]))]))]));
   ("test_config.py:394"%string, config_ConfigCompositionDataStatus, [1; 1; 0; 1; 10], (VDict [("page"%string, (VInt 1)); ("data"%string, (VDict [("element"%string, (VList [(VDict [("number_s"%string, (VInt 1)); ("number_v"%string, (VInt 0)); ("sig_models"%string, (VList [(VDict [("extended_items_count"%string, (VInt 0)); ("format"%string, (VEnum "SHORT" 0)); ("corresponding_present"%string, (VBool true)); ("corresponding_id"%string, (VInt 10)); ("extended_models_items"%string, (VDict [("short"%string, (VList []))]))])])); ("vendor_models"%string, (VList []))])]))])); ("first"%string, (VDict [("element"%string, (VList [(VDict [("number_s"%string, (VInt 1)); ("number_v"%string, (VInt 0)); ("sig_models"%string, (VList [(VDict [("extended_items_count"%string, (VInt 0)); ("format"%string, (VEnum "SHORT" 0)); ("corresponding_present"%string, (VBool true)); ("corresponding_id"%string, (VInt 10)); ("extended_models_items"%string, (VDict [("short"%string, (VList []))]))])])); ("vendor_models"%string, (VList []))])]))]))]));
   ("test_config.py:439"%string, config_ConfigCompositionDataStatus, [2; 0; 22; 1; 0; 0; 1; 1; 0; 0], (VDict [("page"%string, (VInt 2)); ("second"%string, (VDict [("record_list"%string, (VList [(VDict [("mesh_profile_identifier"%string, (VInt 5632)); ("version"%string, (VDict [("version_x"%string, (VInt 1)); ("version_y"%string, (VInt 0)); ("version_z"%string, (VInt 0))])); ("num_element_offsets"%string, (VInt 1)); ("element_offset_list"%string, (VList [(VInt 1)])); ("additional_data_len"%string, (VInt 0)); ("additional_data"%string, (VList []))])]))]))]));
   ("test_config.py:462"%string, config_ConfigCompositionDataStatus, [255; 202; 254], (VDict [("page"%string, (VInt 255)); ("two_hundred_and_fifty_fifth"%string, (VBytes [202; 254]))]));
   ("test_config.py:471"%string, config_CompositionDataPage0, [54; 1; 206; 0; 254; 202; 239; 190; 11; 176; 0; 0; 0; 0], (VDict [("cid"%string, (VInt 310)); ("pid"%string, (VInt 206)); ("vid"%string, (VInt 51966)); ("crpl"%string, (VInt 48879)); ("features"%string, (VInt 45067)); ("elements"%string, (VList [(VDict [("location"%string, (VEnum "UNKNOWN" 0)); ("sig_number"%string, (VInt 0)); ("vendor_number"%string, (VInt 0)); ("sig_models"%string, (VList [])); ("vendor_models"%string, (VList []))])]))]));
   ("test_config.py:491"%string, config_CompositionDataPage0, [54; 1; 206; 0; 254; 202; 239; 190; 11; 176; 0; 0; 0; 0; 0; 0; 0; 0], (VDict [("cid"%string, (VInt 310)); ("pid"%string, (VInt 206)); ("vid"%string, (VInt 51966)); ("crpl"%string, (VInt 48879)); ("features"%string, (VInt 45067)); ("elements"%string, (VList [(VDict [("location"%string, (VEnum "UNKNOWN" 0)); ("sig_number"%string, (VInt 0)); ("vendor_number"%string, (VInt 0)); ("sig_models"%string, (VList [])); ("vendor_models"%string, (VList []))]); (VDict [("location"%string, (VEnum "UNKNOWN" 0)); ("sig_number"%string, (VInt 0)); ("vendor_number"%string, (VInt 0)); ("sig_models"%string, (VList [])); ("vendor_models"%string, (VList []))])]))]));
   ("test_config.py:519"%string, config_CompositionDataPage0Element, [0; 0; 1; 1; 173; 222; 239; 190; 173; 222], (VDict [("location"%string, (VEnum "UNKNOWN" 0)); ("sig_number"%string, (VInt 1)); ("vendor_number"%string, (VInt 1)); ("sig_models"%string, (VList [(VDict [("model_id"%string, (VInt 57005))])])); ("vendor_models"%string, (VList [(VDict [("model_id"%string, (VInt 57005)); ("vendor_id"%string, (VInt 48879))])]))]));
   ("test_config.py:530"%string, config_CompositionDataPage0Element, [0; 0; 0; 1; 239; 190; 173; 222], (VDict [("location"%string, (VEnum "UNKNOWN" 0)); ("sig_number"%string, (VInt 0)); ("vendor_number"%string, (VInt 1)); ("sig_models"%string, (VList [])); ("vendor_models"%string, (VList [(VDict [("model_id"%string, (VInt 57005)); ("vendor_id"%string, (VInt 48879))])]))]));
   ("test_config.py:541"%string, config_CompositionDataPage0Element, [0; 0; 1; 0; 173; 222], (VDict [("location"%string, (VEnum "UNKNOWN" 0)); ("sig_number"%string, (VInt 1)); ("vendor_number"%string, (VInt 0)); ("sig_models"%string, (VList [(VDict [("model_id"%string, (VInt 57005))])])); ("vendor_models"%string, (VList []))]));
   ("test_config.py:554"%string, config_CompositionDataPage1, [2; 1; 0; 5; 0; 0; 0; 1; 2; 1; 0; 5; 1; 23; 1; 1], (VDict [("element"%string, (VList [(VDict [("number_s"%string, (VInt 2)); ("number_v"%string, (VInt 1)); ("sig_models"%string, (VList [(VDict [("extended_items_count"%string, (VInt 0)); ("format"%string, (VEnum "SHORT" 0)); ("corresponding_present"%string, (VBool false)); ("corresponding_id"%string, (VInt 0)); ("extended_models_items"%string, (VDict [("short"%string, (VList []))]))]); (VDict [("extended_items_count"%string, (VInt 1)); ("format"%string, (VEnum "SHORT" 0)); ("corresponding_present"%string, (VBool true)); ("corresponding_id"%string, (VInt 0)); ("extended_models_items"%string, (VDict [("short"%string, (VList [(VDict [("model_item_index"%string, (VInt 0)); ("element_offset"%string, (VInt 0))])]))]))])])); ("vendor_models"%string, (VList [(VDict [("extended_items_count"%string, (VInt 0)); ("format"%string, (VEnum "SHORT" 0)); ("corresponding_present"%string, (VBool false)); ("corresponding_id"%string, (VInt 0)); ("extended_models_items"%string, (VDict [("short"%string, (VList []))]))])]))]); (VDict [("number_s"%string, (VInt 1)); ("number_v"%string, (VInt 2)); ("sig_models"%string, (VList [(VDict [("extended_items_count"%string, (VInt 0)); ("format"%string, (VEnum "SHORT" 0)); ("corresponding_present"%string, (VBool true)); ("corresponding_id"%string, (VInt 0)); ("extended_models_items"%string, (VDict [("short"%string, (VList []))]))])])); ("vendor_models"%string, (VList [(VDict [("extended_items_count"%string, (VInt 1)); ("format"%string, (VEnum "SHORT" 0)); ("corresponding_present"%string, (VBool true)); ("corresponding_id"%string, (VInt 1)); ("extended_models_items"%string, (VDict [("short"%string, (VList [(VDict [("model_item_index"%string, (VInt 2)); ("element_offset"%string, (VInt (-1)))])]))]))]); (VDict [("extended_items_count"%string, (VInt 0)); ("format"%string, (VEnum "SHORT" 0)); ("corresponding_present"%string, (VBool true)); ("corresponding_id"%string, (VInt 1)); ("extended_models_items"%string, (VDict [("short"%string, (VList []))]))])]))])]))]));
   ("test_config.py:635"%string, config_CompositionDataPage1Element, [5; 3; 7; 1; 26; 253; 9; 1; 56; 48; 1; 8; 5; 8; 72; 0; 0; 5; 10; 0; 5; 10; 208], (VDict [("number_s"%string, (VInt 5)); ("number_v"%string, (VInt 3)); ("sig_models"%string, (VList [(VDict [("extended_items_count"%string, (VInt 1)); ("format"%string, (VEnum "LONG" 1)); ("corresponding_present"%string, (VBool true)); ("corresponding_id"%string, (VInt 1)); ("extended_models_items"%string, (VDict [("long"%string, (VList [(VDict [("model_item_index"%string, (VInt 26)); ("element_offset"%string, (VInt (-3)))])]))]))]); (VDict [("extended_items_count"%string, (VInt 2)); ("format"%string, (VEnum "SHORT" 0)); ("corresponding_present"%string, (VBool true)); ("corresponding_id"%string, (VInt 1)); ("extended_models_items"%string, (VDict [("short"%string, (VList [(VDict [("model_item_index"%string, (VInt 7)); ("element_offset"%string, (VInt 0))]); (VDict [("model_item_index"%string, (VInt 6)); ("element_offset"%string, (VInt 0))])]))]))]); (VDict [("extended_items_count"%string, (VInt 0)); ("format"%string, (VEnum "SHORT" 0)); ("corresponding_present"%string, (VBool true)); ("corresponding_id"%string, (VInt 8)); ("extended_models_items"%string, (VDict [("short"%string, (VList []))]))]); (VDict [("extended_items_count"%string, (VInt 1)); ("format"%string, (VEnum "SHORT" 0)); ("corresponding_present"%string, (VBool true)); ("corresponding_id"%string, (VInt 8)); ("extended_models_items"%string, (VDict [("short"%string, (VList [(VDict [("model_item_index"%string, (VInt 9)); ("element_offset"%string, (VInt 0))])]))]))]); (VDict [("extended_items_count"%string, (VInt 0)); ("format"%string, (VEnum "SHORT" 0)); ("corresponding_present"%string, (VBool false)); ("corresponding_id"%string, (VInt 0)); ("extended_models_items"%string, (VDict [("short"%string, (VList []))]))])])); ("vendor_models"%string, (VList [(VDict [("extended_items_count"%string, (VInt 0)); ("format"%string, (VEnum "SHORT" 0)); ("corresponding_present"%string, (VBool false)); ("corresponding_id"%string, (VInt 0)); ("extended_models_items"%string, (VDict [("short"%string, (VList []))]))]); (VDict [("extended_items_count"%string, (VInt 1)); ("format"%string, (VEnum "SHORT" 0)); ("corresponding_present"%string, (VBool true)); ("corresponding_id"%string, (VInt 10)); ("extended_models_items"%string, (VDict [("short"%string, (VList [(VDict [("model_item_index"%string, (VInt 0)); ("element_offset"%string, (VInt 0))])]))]))]); (VDict [("extended_items_count"%string, (VInt 1)); ("format"%string, (VEnum "SHORT" 0)); ("corresponding_present"%string, (VBool true)); ("corresponding_id"%string, (VInt 10)); ("extended_models_items"%string, (VDict [("short"%string, (VList [(VDict [("model_item_index"%string, (VInt 26)); ("element_offset"%string, (VInt 0))])]))]))])]))]));
   ("test_config.py:743"%string, config_CompositionDataPage2, [2; 22; 1; 2; 3; 3; 1; 2; 3; 2; 0; 17; 255], (VDict [("record_list"%string, (VList [(VDict [("mesh_profile_identifier"%string, (VInt 5634)); ("version"%string, (VDict [("version_x"%string, (VInt 1)); ("version_y"%string, (VInt 2)); ("version_z"%string, (VInt 3))])); ("num_element_offsets"%string, (VInt 3)); ("element_offset_list"%string, (VList [(VInt 1); (VInt 2); (VInt 3)])); ("additional_data_len"%string, (VInt 2)); ("additional_data"%string, (VList [(VInt 17); (VInt 255)]))])]))]));
   ("test_config.py:763"%string, config_ModelRelationItem, [1; 10], (VDict [("extended_items_count"%string, (VInt 0)); ("format"%string, (VEnum "SHORT" 0)); ("corresponding_present"%string, (VBool true)); ("corresponding_id"%string, (VInt 10)); ("extended_models_items"%string, (VDict [("short"%string, (VList []))]))]));
   ("test_config.py:775"%string, config_ModelRelationItem, [3; 11], (VDict [("extended_items_count"%string, (VInt 0)); ("format"%string, (VEnum "LONG" 1)); ("corresponding_present"%string, (VBool true)); ("corresponding_id"%string, (VInt 11)); ("extended_models_items"%string, (VDict [("long"%string, (VList []))]))]));
   ("test_config.py:787"%string, config_ModelRelationItem, [4; 88], (VDict [("extended_items_count"%string, (VInt 1)); ("format"%string, (VEnum "SHORT" 0)); ("corresponding_present"%string, (VBool false)); ("corresponding_id"%string, (VInt 0)); ("extended_models_items"%string, (VDict [("short"%string, (VList [(VDict [("model_item_index"%string, (VInt 11)); ("element_offset"%string, (VInt 0))])]))]))]));
   ("test_config.py:806"%string, config_ModelRelationItem, [6; 10; 11], (VDict [("extended_items_count"%string, (VInt 1)); ("format"%string, (VEnum "LONG" 1)); ("corresponding_present"%string, (VBool false)); ("corresponding_id"%string, (VInt 0)); ("extended_models_items"%string, (VDict [("long"%string, (VList [(VDict [("model_item_index"%string, (VInt 10)); ("element_offset"%string, (VInt 11))])]))]))]));
   ("test_config.py:825"%string, config_ConfigDefaultTTLGet, [], (VDict []));
   ("test_config.py:831"%string, config_ConfigDefaultTTLSet, [0], (VDict [("ttl"%string, (VInt 0))]));
   ("test_config.py:839"%string, config_ConfigDefaultTTLSet, [11], (VDict [("ttl"%string, (VInt 11))]));
   ("test_config.py:847"%string, config_ConfigDefaultTTLSet, [127], (VDict [("ttl"%string, (VInt 127))]));
   ("test_config.py:855"%string, config_ConfigDefaultTTLStatus, [0], (VDict [("ttl"%string, (VInt 0))]));
   ("test_config.py:863"%string, config_ConfigDefaultTTLStatus, [11], (VDict [("ttl"%string, (VInt 11))]));
   ("test_config.py:871"%string, config_ConfigDefaultTTLStatus, [127], (VDict [("ttl"%string, (VInt 127))]));
   ("test_config.py:879"%string, config_ConfigGATTProxyGet, [], (VDict []));
   ("test_config.py:885"%string, config_ConfigGATTProxySet, [0], (VDict [("GATT_proxy"%string, (VEnum "DISABLED" 0))]));
   ("test_config.py:893"%string, config_ConfigGATTProxyStatus, [1], (VDict [("GATT_proxy"%string, (VEnum "ENABLED" 1))]));
   ("test_config.py:901"%string, config_ConfigRelayGet, [], (VDict []));
   ("test_config.py:907"%string, config_ConfigRelaySet, [0; 0], (VDict [("relay"%string, (VEnum "DISABLED" 0)); ("retransmit"%string, (VDict [("count"%string, (VInt 0)); ("interval"%string, (VInt 10))]))]));
   ("test_config.py:919"%string, config_ConfigRelayStatus, [2; 0], (VDict [("relay"%string, (VEnum "NOT_SUPPORTED" 2)); ("retransmit"%string, (VDict [("count"%string, (VInt 0)); ("interval"%string, (VInt 10))]))]));
   ("test_config.py:931"%string, config_ConfigModelPublicationGet, [1; 2; 3; 4], (VDict [("element_address"%string, (VInt 513)); ("model"%string, (VDict [("model_id"%string, (VInt 1027))]))]));
   ("test_config.py:942"%string, config_ConfigModelPublicationGet, [1; 2; 3; 4; 5; 6], (VDict [("element_address"%string, (VInt 513)); ("model"%string, (VDict [("model_id"%string, (VInt 1541)); ("vendor_id"%string, (VInt 1027))]))]));
   ("test_config.py:954"%string, config_ConfigModelPublicationSet, [1; 2; 1; 0; 188; 26; 127; 192; 7; 3; 4; 5; 6], (VDict [("element_address"%string, (VInt 513)); ("publish_address"%string, (VInt 1)); ("rfu"%string, (VInt 0)); ("credential_flag"%string, (VEnum "FRIENDSHIP_SECURITY" 1)); ("app_key_index"%string, (VInt 2748)); ("ttl"%string, (VInt 127)); ("publish_period"%string, (VDict [("step_resolution"%string, (VEnum "RESOLUTION_10_MIN" 3)); ("number_of_steps"%string, (VInt 0))])); ("retransmit"%string, (VDict [("count"%string, (VInt 7)); ("interval"%string, (VInt 50))])); ("model"%string, (VDict [("model_id"%string, (VInt 1541)); ("vendor_id"%string, (VInt 1027))]))]));
   ("test_config.py:979"%string, config_ConfigModelPublicationSet, [2; 1; 4; 3; 5; 0; 6; 7; 17; 4; 3], (VDict [("element_address"%string, (VInt 258)); ("publish_address"%string, (VInt 772)); ("rfu"%string, (VInt 0)); ("credential_flag"%string, (VEnum "MASTER_SECURITY" 0)); ("app_key_index"%string, (VInt 5)); ("ttl"%string, (VInt 6)); ("publish_period"%string, (VDict [("step_resolution"%string, (VEnum "RESOLUTION_100_MS" 0)); ("number_of_steps"%string, (VInt 7))])); ("retransmit"%string, (VDict [("count"%string, (VInt 1)); ("interval"%string, (VInt 150))])); ("model"%string, (VDict [("model_id"%string, (VInt 772))]))]));
   ("test_config.py:1003"%string, config_ConfigModelPublicationStatus, [2; 2; 1; 4; 3; 5; 0; 6; 7; 17; 4; 3; 6; 5], (VDict [("status"%string, (VEnum "INVALID_MODEL" 2)); ("element_address"%string, (VInt 258)); ("publish_address"%string, (VInt 772)); ("rfu"%string, (VInt 0)); ("credential_flag"%string, (VEnum "MASTER_SECURITY" 0)); ("app_key_index"%string, (VInt 5)); ("ttl"%string, (VInt 6)); ("publish_period"%string, (VDict [("step_resolution"%string, (VEnum "RESOLUTION_100_MS" 0)); ("number_of_steps"%string, (VInt 7))])); ("retransmit"%string, (VDict [("count"%string, (VInt 1)); ("interval"%string, (VInt 150))])); ("model"%string, (VDict [("model_id"%string, (VInt 1286)); ("vendor_id"%string, (VInt 772))]))]));
   ("test_config.py:1029"%string, config_ConfigModelSubscriptionAdd, [170; 17; 187; 194; 204; 51], (VDict [("element_address"%string, (VInt 4522)); ("address"%string, (VInt 49851)); ("model"%string, (VDict [("model_id"%string, (VInt 13260))]))]));
   ("test_config.py:1041"%string, config_ConfigModelSubscriptionAdd, [2; 1; 253; 255; 63; 0; 42; 0], (VDict [("element_address"%string, (VInt 258)); ("address"%string, (VInt 65533)); ("model"%string, (VDict [("model_id"%string, (VInt 42)); ("vendor_id"%string, (VInt 63))]))]));
   ("test_config.py:1054"%string, config_ConfigModelSubscriptionStatus, [0; 170; 17; 0; 0; 204; 51], (VDict [("status"%string, (VEnum "SUCCESS" 0)); ("element_address"%string, (VInt 4522)); ("address"%string, (VInt 0)); ("model"%string, (VDict [("model_id"%string, (VInt 13260))]))]));
   ("test_config.py:1067"%string, config_ConfigModelSubscriptionStatus, [0; 170; 17; 0; 128; 204; 51], (VDict [("status"%string, (VEnum "SUCCESS" 0)); ("element_address"%string, (VInt 4522)); ("address"%string, (VInt 32768)); ("model"%string, (VDict [("model_id"%string, (VInt 13260))]))]));
   ("test_config.py:1080"%string, (CStruct (FBits 2 (FPad None 4 (FCons "key_index" (CBits 12 false) FNil)) FNil)), [188; 10], (VDict [("key_index"%string, (VInt 2748))]));
   ("test_config.py:1088"%string, config_ConfigAppKeyAdd, [1; 35; 69; 0; 1; 2; 3; 4; 5; 6; 7; 8; 9; 10; 11; 12; 13; 14; 15], (VDict [("net_key_index"%string, (VInt 769)); ("app_key_index"%string, (VInt 1106)); ("app_key"%string, (VBytes [0; 1; 2; 3; 4; 5; 6; 7; 8; 9; 10; 11; 12; 13; 14; 15]))]));
   ("test_config.py:1098"%string, config_ConfigAppKeyAdd, [35; 97; 69; 99; 150; 71; 113; 115; 79; 189; 118; 227; 180; 5; 25; 209; 217; 74; 72], (VDict [("net_key_index"%string, (VInt 291)); ("app_key_index"%string, (VInt 1110)); ("app_key"%string, (VBytes [99; 150; 71; 113; 115; 79; 189; 118; 227; 180; 5; 25; 209; 217; 74; 72]))]));
   ("test_config.py:1108"%string, config_ConfigAppKeyGet, [2; 0], (VDict [("net_key_index"%string, (VInt 2))]));
   ("test_config.py:1116"%string, config_ConfigAppKeyStatus, [0; 51; 35; 34], (VDict [("status"%string, (VEnum "SUCCESS" 0)); ("net_key_index"%string, (VInt 819)); ("app_key_index"%string, (VInt 546))]));
   ("test_config.py:1126"%string, config_ConfigAppKeyList, [0; 11; 0; 1; 0; 0; 1; 33; 0], (VDict [("status"%string, (VEnum "SUCCESS" 0)); ("net_key_index"%string, (VInt 11)); ("app_key_indices"%string, (VList [(VInt 0); (VInt 1); (VInt 2); (VInt 257)]))]));
   ("test_config.py:1136"%string, config_ConfigAppKeyList, [0; 11; 0; 86; 52; 18; 137; 7], (VDict [("status"%string, (VEnum "SUCCESS" 0)); ("net_key_index"%string, (VInt 11)); ("app_key_indices"%string, (VList [(VInt 291); (VInt 1110); (VInt 1929)]))]));
   ("test_config.py:1146"%string, config_ConfigNetKeyList, [66; 176; 0], (VDict [("net_key_indices"%string, (VList [(VInt 11); (VInt 66)]))]));
   ("test_config.py:1154"%string, config_ConfigNetKeyAdd, [67; 5; 0; 1; 2; 3; 4; 5; 6; 7; 8; 9; 10; 11; 12; 13; 14; 15], (VDict [("net_key_index"%string, (VInt 1347)); ("net_key"%string, (VBytes [0; 1; 2; 3; 4; 5; 6; 7; 8; 9; 10; 11; 12; 13; 14; 15]))]));
   ("test_config.py:1163"%string, config_ConfigNetKeyList, [67; 208; 2; 88; 0], (VDict [("net_key_indices"%string, (VList [(VInt 45); (VInt 67); (VInt 88)]))]));
   ("test_config.py:1172"%string, config_ConfigNodeIdentitySet, [255; 15; 1], (VDict [("net_key_index"%string, (VInt 4095)); ("identity"%string, (VEnum "RUNNING" 1))]));
   ("test_config.py:1181"%string, config_ConfigNodeIdentityStatus, [0; 255; 15; 1], (VDict [("status"%string, (VEnum "SUCCESS" 0)); ("net_key_index"%string, (VInt 4095)); ("identity"%string, (VEnum "RUNNING" 1))]));
   ("test_config.py:1191"%string, config_ConfigHeartbeatPublicationGet, [], (VDict []));
   ("test_config.py:1197"%string, config_ConfigHeartbeatPublicationSet, [1; 2; 3; 4; 5; 6; 7; 8; 9], (VDict [("destination"%string, (VInt 513)); ("count"%string, (VInt 4)); ("period"%string, (VInt 8)); ("ttl"%string, (VInt 5)); ("features"%string, (VSet [(VInt 5); (VInt 6); (VInt 13); (VInt 14); (VInt 15)])); ("net_key_index"%string, (VInt 2312))]));
   ("test_config.py:1210"%string, config_ConfigHeartbeatPublicationSet, [1; 2; 255; 6; 5; 6; 7; 8; 9], (VDict [("destination"%string, (VInt 513)); ("count"%string, VInf); ("period"%string, (VInt 32)); ("ttl"%string, (VInt 5)); ("features"%string, (VSet [(VInt 5); (VInt 6); (VInt 13); (VInt 14); (VInt 15)])); ("net_key_index"%string, (VInt 2312))]));
   ("test_config.py:1223"%string, config_ConfigHeartbeatPublicationSet, [1; 2; 255; 16; 5; 6; 7; 8; 9], (VDict [("destination"%string, (VInt 513)); ("count"%string, VInf); ("period"%string, (VInt 32768)); ("ttl"%string, (VInt 5)); ("features"%string, (VSet [(VInt 5); (VInt 6); (VInt 13); (VInt 14); (VInt 15)])); ("net_key_index"%string, (VInt 2312))]));
   ("test_config.py:1236"%string, config_ConfigNetworkTransmitSet, [249], (VDict [("count"%string, (VInt 1)); ("interval"%string, (VInt 320))]));
   ("test_config.py:1250"%string, config_CompositionDataPage0Element, [0; 0; 1; 1; 173; 222; 239; 190; 173; 222], (VDict [("location"%string, (VEnum "UNKNOWN" 0)); ("sig_models"%string, (VList [(VDict [("model_id"%string, (VInt 57005))])])); ("vendor_models"%string, (VList [(VDict [("model_id"%string, (VInt 57005)); ("vendor_id"%string, (VInt 48879))])]))]));
   ("test_config.py:1265"%string, config_CompositionDataPage0Element, [0; 0; 0; 1; 239; 190; 173; 222], (VDict [("location"%string, (VEnum "UNKNOWN" 0)); ("sig_models"%string, (VList [])); ("vendor_models"%string, (VList [(VDict [("model_id"%string, (VInt 57005)); ("vendor_id"%string, (VInt 48879))])]))]));
   ("test_config.py:1278"%string, config_CompositionDataPage0Element, [0; 0; 1; 0; 173; 222], (VDict [("location"%string, (VEnum "UNKNOWN" 0)); ("sig_models"%string, (VList [(VDict [("model_id"%string, (VInt 57005))])])); ("vendor_models"%string, (VList []))]));
   ("test_health.py:29"%string, health_HealthCurrentStatus, [4; 54; 1], (VDict [("test_id"%string, (VInt 4)); ("company_id"%string, (VInt 310)); ("fault_array"%string, (VList []))]));
   ("test_health.py:39"%string, health_HealthCurrentStatus, [4; 54; 1; 2; 3; 4], (VDict [("test_id"%string, (VInt 4)); ("company_id"%string, (VInt 310)); ("fault_array"%string, (VList [(VInt 2); (VInt 3); (VInt 4)]))]));
   ("test_health.py:49"%string, health_HealthFaultGet, [54; 1], (VDict [("company_id"%string, (VInt 310))]));
   ("test_health.py:57"%string, health_HealthFaultClear, [54; 1], (VDict [("company_id"%string, (VInt 310))]));
   ("test_health.py:65"%string, health_HealthFaultTest, [3; 54; 1], (VDict [("test_id"%string, (VInt 3)); ("company_id"%string, (VInt 310))]));
   ("test_health.py:74"%string, health_HealthFaultStatus, [4; 54; 1], (VDict [("test_id"%string, (VInt 4)); ("company_id"%string, (VInt 310)); ("fault_array"%string, (VList []))]));
   ("test_health.py:84"%string, health_HealthFaultStatus, [4; 54; 1; 2; 3; 4], (VDict [("test_id"%string, (VInt 4)); ("company_id"%string, (VInt 310)); ("fault_array"%string, (VList [(VInt 2); (VInt 3); (VInt 4)]))]));
   ("test_health.py:94"%string, health_HealthPeriodGet, [], (VDict []));
   ("test_health.py:100"%string, health_HealthPeriodSet, [15], (VDict [("fast_period_divisor"%string, (VInt 15))]));
   ("test_health.py:108"%string, health_HealthPeriodStatus, [6], (VDict [("fast_period_divisor"%string, (VInt 6))]));
   ("test_health.py:116"%string, health_HealthAttentionGet, [], (VDict []));
   ("test_health.py:122"%string, health_HealthAttentionSet, [7], (VDict [("attention"%string, (VInt 7))]));
   ("test_health.py:130"%string, health_HealthAttentionStatus, [6], (VDict [("attention"%string, (VInt 6))]));
   ("test_debug.py:28"%string, debug_DebugParams, [0], (VDict [("subopcode"%string, (VEnum "RSSI_THRESHOLD_GET" 0)); ("payload"%string, (VDict []))]));
   ("test_debug.py:29"%string, debug_DebugParams, [10], (VDict [("subopcode"%string, (VEnum "UPTIME_GET" 10)); ("payload"%string, (VDict []))]));
   ("test_debug.py:30"%string, debug_DebugParams, [12], (VDict [("subopcode"%string, (VEnum "LAST_SW_FAULT_GET" 12)); ("payload"%string, (VDict []))]));
   ("test_debug.py:31"%string, debug_DebugParams, [15], (VDict [("subopcode"%string, (VEnum "SYSTEM_STATS_GET" 15)); ("payload"%string, (VDict []))]));
   ("test_debug.py:32"%string, debug_DebugParams, [17], (VDict [("subopcode"%string, (VEnum "LAST_MALLOC_FAULT_GET" 17)); ("payload"%string, (VDict []))]));
   ("test_debug.py:33"%string, debug_DebugParams, [20], (VDict [("subopcode"%string, (VEnum "LAST_FDS_FAULT_GET" 20)); ("payload"%string, (VDict []))]));
   ("test_debug.py:34"%string, debug_DebugParams, [23], (VDict [("subopcode"%string, (VEnum "BYTES_BEFORE_GARBAGE_COLLECTOR_GET" 23)); ("payload"%string, (VDict []))]));
   ("test_debug.py:35"%string, debug_DebugParams, [25], (VDict [("subopcode"%string, (VEnum "PROVISIONED_APP_VERSION_GET" 25)); ("payload"%string, (VDict []))]));
   ("test_debug.py:36"%string, debug_DebugParams, [27], (VDict [("subopcode"%string, (VEnum "FULL_FIRMWARE_VERSION_GET" 27)); ("payload"%string, (VDict []))]));
   ("test_debug.py:37"%string, debug_DebugParams, [29], (VDict [("subopcode"%string, (VEnum "IV_INDEX_GET" 29)); ("payload"%string, (VDict []))]));
   ("test_debug.py:38"%string, debug_DebugParams, [31], (VDict [("subopcode"%string, (VEnum "GARBAGE_COLLECTOR_COUNTER_GET" 31)); ("payload"%string, (VDict []))]));
   ("test_debug.py:39"%string, debug_DebugParams, [13], (VDict [("subopcode"%string, (VEnum "LAST_SW_FAULT_CLEAR" 13)); ("payload"%string, (VDict []))]));
   ("test_debug.py:40"%string, debug_DebugParams, [18], (VDict [("subopcode"%string, (VEnum "LAST_MALLOC_FAULT_CLEAR" 18)); ("payload"%string, (VDict []))]));
   ("test_debug.py:41"%string, debug_DebugParams, [21], (VDict [("subopcode"%string, (VEnum "LAST_FDS_FAULT_CLEAR" 21)); ("payload"%string, (VDict []))]));
   ("test_debug.py:42"%string, debug_DebugParams, [33], (VDict [("subopcode"%string, (VEnum "ARAP_LIST_SIZE_GET" 33)); ("payload"%string, (VDict []))]));
   ("test_debug.py:43"%string, debug_DebugParams, [35; 2], (VDict [("subopcode"%string, (VEnum "ARAP_LIST_CONTENT_GET" 35)); ("payload"%string, (VDict [("page"%string, (VInt 2))]))]));
   ("test_debug.py:49"%string, debug_DebugParams, [1; 128], (VDict [("subopcode"%string, (VEnum "RSSI_THRESHOLD_SET" 1)); ("payload"%string, (VDict [("rssi_threshold"%string, (VInt 128))]))]));
   ("test_debug.py:55"%string, debug_DebugParams, [2; 128], (VDict [("subopcode"%string, (VEnum "RSSI_THRESHOLD_STATUS" 2)); ("payload"%string, (VDict [("rssi_threshold"%string, (VInt 128))]))]));
   ("test_debug.py:61"%string, debug_DebugParams, [3; 1], (VDict [("subopcode"%string, (VEnum "RADIO_TEST" 3)); ("payload"%string, (VDict [("packet_counter"%string, (VInt 1))]))]));
   ("test_debug.py:67"%string, debug_DebugParams, [11; 162; 208; 2; 0], (VDict [("subopcode"%string, (VEnum "UPTIME_STATUS" 11)); ("payload"%string, (VDict [("uptime"%string, (VInt 184482))]))]));
   ("test_debug.py:73"%string, debug_DebugParams, [14; 10; 0; 0; 0; 80; 111; 119; 101; 114; 32; 79; 70; 70; 32; 91; 55; 93], (VDict [("subopcode"%string, (VEnum "LAST_SW_FAULT_STATUS" 14)); ("payload"%string, (VDict [("time"%string, (VInt 10)); ("fault"%string, (VStr [80; 111; 119; 101; 114; 32; 79; 70; 70; 32; 91; 55; 93]))]))]));
   ("test_debug.py:79"%string, debug_DebugParams, [19; 0; 0; 0; 0; 78; 111; 32; 69; 114; 114; 111; 114], (VDict [("subopcode"%string, (VEnum "LAST_MALLOC_FAULT_STATUS" 19)); ("payload"%string, (VDict [("time"%string, (VInt 0)); ("fault"%string, (VStr [78; 111; 32; 69; 114; 114; 111; 114]))]))]));
   ("test_debug.py:85"%string, debug_DebugParams, [22; 255; 0; 0; 0; 70; 111; 111; 32; 101; 114; 114; 111; 114], (VDict [("subopcode"%string, (VEnum "LAST_FDS_FAULT_STATUS" 22)); ("payload"%string, (VDict [("time"%string, (VInt 255)); ("fault"%string, (VStr [70; 111; 111; 32; 101; 114; 114; 111; 114]))]))]));
   ("test_debug.py:91"%string, debug_DebugParams, [24; 248; 46], (VDict [("subopcode"%string, (VEnum "BYTES_BEFORE_GARBAGE_COLLECTOR_STATUS" 24)); ("payload"%string, (VDict [("bytes_left"%string, (VInt 12024))]))]));
   ("test_debug.py:97"%string, debug_DebugParams, [26; 8; 12], (VDict [("subopcode"%string, (VEnum "PROVISIONED_APP_VERSION_STATUS" 26)); ("payload"%string, (VDict [("version"%string, (VInt 3080))]))]));
   ("test_debug.py:103"%string, debug_DebugParams, [28; 50; 46; 49; 50; 46; 48; 45; 114; 99; 52; 45; 54; 99; 55; 52; 98; 52; 100], (VDict [("subopcode"%string, (VEnum "FULL_FIRMWARE_VERSION_STATUS" 28)); ("payload"%string, (VDict [("version"%string, (VStr [50; 46; 49; 50; 46; 48; 45; 114; 99; 52; 45; 54; 99; 55; 52; 98; 52; 100]))]))]));
   ("test_debug.py:109"%string, debug_DebugParams, [30; 5; 0; 0; 0], (VDict [("subopcode"%string, (VEnum "IV_INDEX_STATUS" 30)); ("payload"%string, (VDict [("ivindex"%string, (VInt 5))]))]));
   ("test_debug.py:115"%string, debug_DebugParams, [32; 1; 0], (VDict [("subopcode"%string, (VEnum "GARBAGE_COLLECTOR_COUNTER_STATUS" 32)); ("payload"%string, (VDict [("counter"%string, (VInt 1))]))]));
   ("test_debug.py:121"%string, debug_DebugParams, [34; 254; 255; 1; 0], (VDict [("subopcode"%string, (VEnum "ARAP_LIST_SIZE_STATUS" 34)); ("payload"%string, (VDict [("capacity"%string, (VInt 65534)); ("size"%string, (VInt 1))]))]));
   ("test_debug.py:127"%string, debug_DebugParams, [16; 75; 69; 82; 78; 69; 76; 0; 0; 8; 2; 0; 0; 0; 0; 66; 76; 69; 0; 0; 0; 0; 0; 8; 5; 0; 0; 0; 0; 83; 78; 86; 0; 0; 0; 0; 0; 200; 0; 0; 0; 0; 0; 65; 80; 80; 0; 0; 0; 0; 0; 180; 1; 0; 0; 0; 0; 82; 88; 32; 84; 97; 115; 107; 0; 228; 1; 0; 0; 0; 0; 77; 69; 83; 72; 0; 0; 0; 0; 8; 4; 0; 0; 0; 0; 84; 109; 114; 32; 83; 118; 99; 0; 240; 1; 0; 0; 0; 0; 73; 68; 76; 69; 0; 0; 0; 0; 228; 0; 0; 0; 0; 0; 72; 69; 65; 80; 0; 0; 0; 0; 168; 73; 0; 0; 0; 0], (VDict [("subopcode"%string, (VEnum "SYSTEM_STATS_STATUS" 16)); ("payload"%string, (VDict [("stats"%string, (VList [(VDict [("name"%string, (VStr [75; 69; 82; 78; 69; 76])); ("high_water_mark"%string, (VInt 520))]); (VDict [("name"%string, (VStr [66; 76; 69])); ("high_water_mark"%string, (VInt 1288))]); (VDict [("name"%string, (VStr [83; 78; 86])); ("high_water_mark"%string, (VInt 200))]); (VDict [("name"%string, (VStr [65; 80; 80])); ("high_water_mark"%string, (VInt 436))]); (VDict [("name"%string, (VStr [82; 88; 32; 84; 97; 115; 107])); ("high_water_mark"%string, (VInt 484))]); (VDict [("name"%string, (VStr [77; 69; 83; 72])); ("high_water_mark"%string, (VInt 1032))]); (VDict [("name"%string, (VStr [84; 109; 114; 32; 83; 118; 99])); ("high_water_mark"%string, (VInt 496))]); (VDict [("name"%string, (VStr [73; 68; 76; 69])); ("high_water_mark"%string, (VInt 228))]); (VDict [("name"%string, (VStr [72; 69; 65; 80])); ("high_water_mark"%string, (VInt 18856))])]))]))]));
   ("test_debug.py:154"%string, debug_DebugParams, [16; 72; 69; 65; 80; 0; 0; 0; 0; 136; 74; 0; 0; 0; 0; 84; 109; 114; 32; 83; 118; 99; 0; 40; 2; 0; 0; 0; 0; 73; 68; 76; 69; 0; 0; 0; 0; 244; 0; 0; 0; 0; 0], (VDict [("subopcode"%string, (VEnum "SYSTEM_STATS_STATUS" 16)); ("payload"%string, (VDict [("stats"%string, (VList [(VDict [("name"%string, (VStr [72; 69; 65; 80])); ("high_water_mark"%string, (VInt 19080))]); (VDict [("name"%string, (VStr [84; 109; 114; 32; 83; 118; 99])); ("high_water_mark"%string, (VInt 552))]); (VDict [("name"%string, (VStr [73; 68; 76; 69])); ("high_water_mark"%string, (VInt 244))])]))]))]));
   ("test_debug.py:169"%string, debug_DebugParams, [16; 72; 69; 65; 80; 0; 0; 0; 0; 183; 134; 1; 0; 0; 0; 84; 109; 114; 32; 83; 118; 99; 0; 40; 2; 0; 0; 0; 0; 73; 68; 76; 69; 0; 0; 0; 0; 244; 0; 0; 0; 0; 0], (VDict [("subopcode"%string, (VEnum "SYSTEM_STATS_STATUS" 16)); ("payload"%string, (VDict [("stats"%string, (VList [(VDict [("name"%string, (VStr [72; 69; 65; 80])); ("high_water_mark"%string, (VInt 100023))]); (VDict [("name"%string, (VStr [84; 109; 114; 32; 83; 118; 99])); ("high_water_mark"%string, (VInt 552))]); (VDict [("name"%string, (VStr [73; 68; 76; 69])); ("high_water_mark"%string, (VInt 244))])]))]))]));
   ("test_debug.py:184"%string, debug_DebugParams, [36; 0; 0; 128; 128; 88; 0; 0], (VDict [("subopcode"%string, (VEnum "ARAP_LIST_CONTENT_STATUS" 36)); ("payload"%string, (VDict [("current_page"%string, (VInt 0)); ("last_page"%string, (VInt 0)); ("nodes"%string, (VList [(VDict [("ivi"%string, (VBool true)); ("sequence"%string, (VInt 88)); ("address"%string, (VInt 128))])]))]))]));
   ("test_debug.py:196"%string, debug_DebugParams, [36; 0; 0; 7; 0; 112; 12; 2; 128; 0; 88; 0; 0], (VDict [("subopcode"%string, (VEnum "ARAP_LIST_CONTENT_STATUS" 36)); ("payload"%string, (VDict [("current_page"%string, (VInt 0)); ("last_page"%string, (VInt 0)); ("nodes"%string, (VList [(VDict [("ivi"%string, (VBool false)); ("sequence"%string, (VInt 134256)); ("address"%string, (VInt 7))]); (VDict [("ivi"%string, (VBool false)); ("sequence"%string, (VInt 88)); ("address"%string, (VInt 128))])]))]))]));
   ("test_emergency_lighting.py:11"%string, el_EmergencyLightingParams, [0], (VDict [("subopcode"%string, (VEnum "EL_INHIBIT_ENTER" 0)); ("payload"%string, (VDict []))]));
   ("test_emergency_lighting.py:16"%string, el_EmergencyLightingParams, [1], (VDict [("subopcode"%string, (VEnum "EL_INHIBIT_ENTER_UNACKNOWLEDGED" 1)); ("payload"%string, (VDict []))]));
   ("test_emergency_lighting.py:21"%string, el_EmergencyLightingParams, [2], (VDict [("subopcode"%string, (VEnum "EL_INHIBIT_EXIT" 2)); ("payload"%string, (VDict []))]));
   ("test_emergency_lighting.py:26"%string, el_EmergencyLightingParams, [3], (VDict [("subopcode"%string, (VEnum "EL_INHIBIT_EXIT_UNACKNOWLEDGED" 3)); ("payload"%string, (VDict []))]));
   ("test_emergency_lighting.py:31"%string, el_EmergencyLightingParams, [4], (VDict [("subopcode"%string, (VEnum "EL_STATE_GET" 4)); ("payload"%string, (VDict []))]));
   ("test_emergency_lighting.py:36"%string, el_EmergencyLightingParams, [5; 0], (VDict [("subopcode"%string, (VEnum "EL_STATE_STATUS" 5)); ("payload"%string, (VDict [("el_state"%string, (VEnum "TRANSITION_FROM_INHIBIT_TO_NORMAL" 0))]))]));
   ("test_emergency_lighting.py:43"%string, el_EmergencyLightingParams, [5; 1], (VDict [("subopcode"%string, (VEnum "EL_STATE_STATUS" 5)); ("payload"%string, (VDict [("el_state"%string, (VEnum "TRANSITION_FROM_FUNCTIONAL_TEST_TO_NORMAL" 1))]))]));
   ("test_emergency_lighting.py:50"%string, el_EmergencyLightingParams, [5; 2], (VDict [("subopcode"%string, (VEnum "EL_STATE_STATUS" 5)); ("payload"%string, (VDict [("el_state"%string, (VEnum "TRANSITION_FROM_DURATION_TEST_TO_NORMAL" 2))]))]));
   ("test_emergency_lighting.py:57"%string, el_EmergencyLightingParams, [5; 3], (VDict [("subopcode"%string, (VEnum "EL_STATE_STATUS" 5)); ("payload"%string, (VDict [("el_state"%string, (VEnum "NORMAL" 3))]))]));
   ("test_emergency_lighting.py:64"%string, el_EmergencyLightingParams, [5; 4], (VDict [("subopcode"%string, (VEnum "EL_STATE_STATUS" 5)); ("payload"%string, (VDict [("el_state"%string, (VEnum "TRANSITION_FROM_REST_TO_EMERGENCY" 4))]))]));
   ("test_emergency_lighting.py:71"%string, el_EmergencyLightingParams, [5; 5], (VDict [("subopcode"%string, (VEnum "EL_STATE_STATUS" 5)); ("payload"%string, (VDict [("el_state"%string, (VEnum "EMERGENCY" 5))]))]));
   ("test_emergency_lighting.py:78"%string, el_EmergencyLightingParams, [5; 6], (VDict [("subopcode"%string, (VEnum "EL_STATE_STATUS" 5)); ("payload"%string, (VDict [("el_state"%string, (VEnum "EXTENDED_EMERGENCY" 6))]))]));
   ("test_emergency_lighting.py:85"%string, el_EmergencyLightingParams, [5; 7], (VDict [("subopcode"%string, (VEnum "EL_STATE_STATUS" 5)); ("payload"%string, (VDict [("el_state"%string, (VEnum "TRANSITION_FROM_EMERGENCY_TO_REST" 7))]))]));
   ("test_emergency_lighting.py:92"%string, el_EmergencyLightingParams, [5; 8], (VDict [("subopcode"%string, (VEnum "EL_STATE_STATUS" 5)); ("payload"%string, (VDict [("el_state"%string, (VEnum "REST" 8))]))]));
   ("test_emergency_lighting.py:99"%string, el_EmergencyLightingParams, [5; 9], (VDict [("subopcode"%string, (VEnum "EL_STATE_STATUS" 5)); ("payload"%string, (VDict [("el_state"%string, (VEnum "TRANSITION_FROM_NORMAL_TO_INHIBIT" 9))]))]));
   ("test_emergency_lighting.py:106"%string, el_EmergencyLightingParams, [5; 10], (VDict [("subopcode"%string, (VEnum "EL_STATE_STATUS" 5)); ("payload"%string, (VDict [("el_state"%string, (VEnum "INHIBIT" 10))]))]));
   ("test_emergency_lighting.py:113"%string, el_EmergencyLightingParams, [5; 11], (VDict [("subopcode"%string, (VEnum "EL_STATE_STATUS" 5)); ("payload"%string, (VDict [("el_state"%string, (VEnum "TRANSITION_FROM_NORMAL_TO_DURATION_TEST" 11))]))]));
   ("test_emergency_lighting.py:120"%string, el_EmergencyLightingParams, [5; 12], (VDict [("subopcode"%string, (VEnum "EL_STATE_STATUS" 5)); ("payload"%string, (VDict [("el_state"%string, (VEnum "DURATION_TEST_IN_PROGRESS" 12))]))]));
   ("test_emergency_lighting.py:127"%string, el_EmergencyLightingParams, [5; 13], (VDict [("subopcode"%string, (VEnum "EL_STATE_STATUS" 5)); ("payload"%string, (VDict [("el_state"%string, (VEnum "TRANSITION_FROM_NORMAL_TO_FUNCTIONAL_TEST" 13))]))]));
   ("test_emergency_lighting.py:134"%string, el_EmergencyLightingParams, [5; 14], (VDict [("subopcode"%string, (VEnum "EL_STATE_STATUS" 5)); ("payload"%string, (VDict [("el_state"%string, (VEnum "FUNCTIONAL_TEST_IN_PROGRESS" 14))]))]));
   ("test_emergency_lighting.py:141"%string, el_EmergencyLightingParams, [5; 15], (VDict [("subopcode"%string, (VEnum "EL_STATE_STATUS" 5)); ("payload"%string, (VDict [("el_state"%string, (VEnum "BATTERY_DISCHARGED" 15))]))]));
   ("test_emergency_lighting.py:148"%string, el_EmergencyLightingParams, [5; 16], (VDict [("subopcode"%string, (VEnum "EL_STATE_STATUS" 5)); ("payload"%string, (VDict [("el_state"%string, (VEnum "UNKNOWN" 16))]))]));
   ("test_emergency_lighting.py:155"%string, el_EmergencyLightingParams, [6; 128; 255], (VDict [("subopcode"%string, (VEnum "EL_PROPERTY_GET" 6)); ("payload"%string, (VDict [("property_id"%string, (VEnum "EL_LIGHTNESS" 65408))]))]));
   ("test_emergency_lighting.py:162"%string, el_EmergencyLightingParams, [6; 129; 255], (VDict [("subopcode"%string, (VEnum "EL_PROPERTY_GET" 6)); ("payload"%string, (VDict [("property_id"%string, (VEnum "EL_LIGHTNESS_RANGE_MIN" 65409))]))]));
   ("test_emergency_lighting.py:169"%string, el_EmergencyLightingParams, [6; 130; 255], (VDict [("subopcode"%string, (VEnum "EL_PROPERTY_GET" 6)); ("payload"%string, (VDict [("property_id"%string, (VEnum "EL_LIGHTNESS_RANGE_MAX" 65410))]))]));
   ("test_emergency_lighting.py:176"%string, el_EmergencyLightingParams, [6; 131; 255], (VDict [("subopcode"%string, (VEnum "EL_PROPERTY_GET" 6)); ("payload"%string, (VDict [("property_id"%string, (VEnum "EL_PROLONG_TIME" 65411))]))]));
   ("test_emergency_lighting.py:183"%string, el_EmergencyLightingParams, [7; 128; 255; 52; 18], (VDict [("subopcode"%string, (VEnum "EL_PROPERTY_SET" 7)); ("payload"%string, (VDict [("property_id"%string, (VEnum "EL_LIGHTNESS" 65408)); ("el_lightness"%string, (VDict [("perceived_lightness"%string, (VInt 4660))]))]))]));
   ("test_emergency_lighting.py:191"%string, el_EmergencyLightingParams, [7; 129; 255; 52; 18], (VDict [("subopcode"%string, (VEnum "EL_PROPERTY_SET" 7)); ("payload"%string, (VDict [("property_id"%string, (VEnum "EL_LIGHTNESS_RANGE_MIN" 65409)); ("el_lightness_range_min"%string, (VDict [("perceived_lightness"%string, (VInt 4660))]))]))]));
   ("test_emergency_lighting.py:199"%string, el_EmergencyLightingParams, [7; 130; 255; 52; 18], (VDict [("subopcode"%string, (VEnum "EL_PROPERTY_SET" 7)); ("payload"%string, (VDict [("property_id"%string, (VEnum "EL_LIGHTNESS_RANGE_MAX" 65410)); ("el_lightness_range_max"%string, (VDict [("perceived_lightness"%string, (VInt 4660))]))]))]));
   ("test_emergency_lighting.py:207"%string, el_EmergencyLightingParams, [7; 131; 255; 52; 18], (VDict [("subopcode"%string, (VEnum "EL_PROPERTY_SET" 7)); ("payload"%string, (VDict [("property_id"%string, (VEnum "EL_PROLONG_TIME" 65411)); ("el_prolong_time"%string, (VDict [("seconds"%string, (VInt 4660))]))]))]));
   ("test_emergency_lighting.py:215"%string, el_EmergencyLightingParams, [8; 128; 255; 52; 18], (VDict [("subopcode"%string, (VEnum "EL_PROPERTY_SET_UNACKNOWLEDGED" 8)); ("payload"%string, (VDict [("property_id"%string, (VEnum "EL_LIGHTNESS" 65408)); ("el_lightness"%string, (VDict [("perceived_lightness"%string, (VInt 4660))]))]))]));
   ("test_emergency_lighting.py:223"%string, el_EmergencyLightingParams, [8; 129; 255; 52; 18], (VDict [("subopcode"%string, (VEnum "EL_PROPERTY_SET_UNACKNOWLEDGED" 8)); ("payload"%string, (VDict [("property_id"%string, (VEnum "EL_LIGHTNESS_RANGE_MIN" 65409)); ("el_lightness_range_min"%string, (VDict [("perceived_lightness"%string, (VInt 4660))]))]))]));
   ("test_emergency_lighting.py:231"%string, el_EmergencyLightingParams, [8; 130; 255; 52; 18], (VDict [("subopcode"%string, (VEnum "EL_PROPERTY_SET_UNACKNOWLEDGED" 8)); ("payload"%string, (VDict [("property_id"%string, (VEnum "EL_LIGHTNESS_RANGE_MAX" 65410)); ("el_lightness_range_max"%string, (VDict [("perceived_lightness"%string, (VInt 4660))]))]))]));
   ("test_emergency_lighting.py:239"%string, el_EmergencyLightingParams, [8; 131; 255; 52; 18], (VDict [("subopcode"%string, (VEnum "EL_PROPERTY_SET_UNACKNOWLEDGED" 8)); ("payload"%string, (VDict [("property_id"%string, (VEnum "EL_PROLONG_TIME" 65411)); ("el_prolong_time"%string, (VDict [("seconds"%string, (VInt 4660))]))]))]));
   ("test_emergency_lighting.py:247"%string, el_EmergencyLightingParams, [9; 128; 255; 52; 18], (VDict [("subopcode"%string, (VEnum "EL_PROPERTY_STATUS" 9)); ("payload"%string, (VDict [("property_id"%string, (VEnum "EL_LIGHTNESS" 65408)); ("el_lightness"%string, (VDict [("perceived_lightness"%string, (VInt 4660))]))]))]));
   ("test_emergency_lighting.py:255"%string, el_EmergencyLightingParams, [9; 129; 255; 52; 18], (VDict [("subopcode"%string, (VEnum "EL_PROPERTY_STATUS" 9)); ("payload"%string, (VDict [("property_id"%string, (VEnum "EL_LIGHTNESS_RANGE_MIN" 65409)); ("el_lightness_range_min"%string, (VDict [("perceived_lightness"%string, (VInt 4660))]))]))]));
   ("test_emergency_lighting.py:263"%string, el_EmergencyLightingParams, [9; 130; 255; 52; 18], (VDict [("subopcode"%string, (VEnum "EL_PROPERTY_STATUS" 9)); ("payload"%string, (VDict [("property_id"%string, (VEnum "EL_LIGHTNESS_RANGE_MAX" 65410)); ("el_lightness_range_max"%string, (VDict [("perceived_lightness"%string, (VInt 4660))]))]))]));
   ("test_emergency_lighting.py:271"%string, el_EmergencyLightingParams, [9; 131; 255; 52; 18], (VDict [("subopcode"%string, (VEnum "EL_PROPERTY_STATUS" 9)); ("payload"%string, (VDict [("property_id"%string, (VEnum "EL_PROLONG_TIME" 65411)); ("el_prolong_time"%string, (VDict [("seconds"%string, (VInt 4660))]))]))]));
   ("test_emergency_lighting.py:279"%string, el_EmergencyLightingParams, [10], (VDict [("subopcode"%string, (VEnum "EL_LAMP_OPERATION_TIME_GET" 10)); ("payload"%string, (VDict []))]));
   ("test_emergency_lighting.py:284"%string, el_EmergencyLightingParams, [11], (VDict [("subopcode"%string, (VEnum "EL_LAMP_OPERATION_TIME_CLEAR" 11)); ("payload"%string, (VDict []))]));
   ("test_emergency_lighting.py:289"%string, el_EmergencyLightingParams, [12], (VDict [("subopcode"%string, (VEnum "EL_LAMP_OPERATION_TIME_CLEAR_UNACKNOWLEDGED" 12)); ("payload"%string, (VDict []))]));
   ("test_emergency_lighting.py:294"%string, el_EmergencyLightingParams, [13; 103; 69; 35; 1; 239; 205; 171; 137], (VDict [("subopcode"%string, (VEnum "EL_LAMP_OPERATION_TIME_STATUS" 13)); ("payload"%string, (VDict [("el_lamp_total_operation_time"%string, (VInt 19088743)); ("el_lamp_emergency_time"%string, (VInt 2309737967))]))]));
   ("test_emergency_lighting.py:302"%string, el_EmergencyLightingParams, [14], (VDict [("subopcode"%string, (VEnum "EL_REST_ENTER" 14)); ("payload"%string, (VDict []))]));
   ("test_emergency_lighting.py:307"%string, el_EmergencyLightingParams, [15], (VDict [("subopcode"%string, (VEnum "EL_REST_ENTER_UNACKNOWLEDGED" 15)); ("payload"%string, (VDict []))]));
   ("test_emergency_lighting.py:312"%string, el_EmergencyLightingParams, [16], (VDict [("subopcode"%string, (VEnum "EL_REST_EXIT" 16)); ("payload"%string, (VDict []))]));
   ("test_emergency_lighting.py:317"%string, el_EmergencyLightingParams, [17], (VDict [("subopcode"%string, (VEnum "EL_REST_EXIT_UNACKNOWLEDGED" 17)); ("payload"%string, (VDict []))]));
   ("test_emergency_lighting_test.py:13"%string, elt_EmergencyLightingTestParams, [0], (VDict [("subopcode"%string, (VEnum "ELT_FUNCTIONAL_TEST_GET" 0)); ("payload"%string, (VDict []))]));
   ("test_emergency_lighting_test.py:18"%string, elt_EmergencyLightingTestParams, [1], (VDict [("subopcode"%string, (VEnum "ELT_FUNCTIONAL_TEST_START" 1)); ("payload"%string, (VDict []))]));
   ("test_emergency_lighting_test.py:23"%string, elt_EmergencyLightingTestParams, [2], (VDict [("subopcode"%string, (VEnum "ELT_FUNCTIONAL_TEST_STOP" 2)); ("payload"%string, (VDict []))]));
   ("test_emergency_lighting_test.py:28"%string, elt_EmergencyLightingTestParams, [3; 0; 0; 0; 0; 0; 64; 31; 1; 0; 0], (VDict [("subopcode"%string, (VEnum "ELT_FUNCTIONAL_TEST_STATUS" 3)); ("payload"%string, (VDict [("tai_timestamp"%string, (VDict [("date"%string, (VDateTime 946684768000000 0)); ("tai_utc_delta"%string, (VTimedelta 32000000))])); ("execution_result"%string, (VDict [("lamp_fault"%string, (VBool false)); ("battery_fault"%string, (VBool false)); ("circuit_fault"%string, (VBool false)); ("battery_duration_fault"%string, (VBool false))])); ("execution_status"%string, (VEnum "FINISHED" 0))]))]));
   ("test_emergency_lighting_test.py:60"%string, elt_EmergencyLightingTestParams, [3; 0; 0; 0; 0; 0; 64; 255; 0; 7; 1], (VDict [("subopcode"%string, (VEnum "ELT_FUNCTIONAL_TEST_STATUS" 3)); ("payload"%string, (VDict [("tai_timestamp"%string, (VDict [("date"%string, (VDateTime 946684800000000 0)); ("tai_utc_delta"%string, (VTimedelta 0))])); ("execution_result"%string, (VDict [("lamp_fault"%string, (VBool true)); ("battery_fault"%string, (VBool false)); ("circuit_fault"%string, (VBool false)); ("battery_duration_fault"%string, (VBool false))])); ("execution_status"%string, (VEnum "UNKNOWN" 7))]))]));
   ("test_emergency_lighting_test.py:92"%string, elt_EmergencyLightingTestParams, [3; 46; 72; 213; 47; 0; 72; 36; 1; 2; 2], (VDict [("subopcode"%string, (VEnum "ELT_FUNCTIONAL_TEST_STATUS" 3)); ("payload"%string, (VDict [("tai_timestamp"%string, (VDict [("date"%string, (VDateTime 1749191561000000 7200)); ("tai_utc_delta"%string, (VTimedelta 37000000))])); ("execution_result"%string, (VDict [("lamp_fault"%string, (VBool false)); ("battery_fault"%string, (VBool true)); ("circuit_fault"%string, (VBool false)); ("battery_duration_fault"%string, (VBool false))])); ("execution_status"%string, (VEnum "IN_PROGRESS" 2))]))]));
   ("test_emergency_lighting_test.py:124"%string, elt_EmergencyLightingTestParams, [3; 0; 0; 0; 0; 0; 120; 36; 1; 3; 7; 69; 0; 0; 0], (VDict [("subopcode"%string, (VEnum "ELT_FUNCTIONAL_TEST_STATUS" 3)); ("payload"%string, (VDict [("tai_timestamp"%string, (VDict [("date"%string, (VDateTime 946684763000000 50400)); ("tai_utc_delta"%string, (VTimedelta 37000000))])); ("execution_result"%string, (VDict [("lamp_fault"%string, (VBool true)); ("battery_fault"%string, (VBool true)); ("circuit_fault"%string, (VBool true)); ("battery_duration_fault"%string, (VBool false))])); ("execution_status"%string, (VEnum "POSTPONED" 3)); ("relative_timestamp"%string, (VInt 69))]))]));
   ("test_emergency_lighting_test.py:158"%string, elt_EmergencyLightingTestParams, [4], (VDict [("subopcode"%string, (VEnum "ELT_DURATION_TEST_GET" 4)); ("payload"%string, (VDict []))]));
   ("test_emergency_lighting_test.py:163"%string, elt_EmergencyLightingTestParams, [5], (VDict [("subopcode"%string, (VEnum "ELT_DURATION_TEST_START" 5)); ("payload"%string, (VDict []))]));
   ("test_emergency_lighting_test.py:168"%string, elt_EmergencyLightingTestParams, [6], (VDict [("subopcode"%string, (VEnum "ELT_DURATION_TEST_STOP" 6)); ("payload"%string, (VDict []))]));
   ("test_emergency_lighting_test.py:173"%string, elt_EmergencyLightingTestParams, [7; 0; 0; 0; 0; 0; 64; 31; 1; 0; 0; 0; 0], (VDict [("subopcode"%string, (VEnum "ELT_DURATION_TEST_STATUS" 7)); ("payload"%string, (VDict [("tai_timestamp"%string, (VDict [("date"%string, (VDateTime 946684768000000 0)); ("tai_utc_delta"%string, (VTimedelta 32000000))])); ("execution_result"%string, (VDict [("lamp_fault"%string, (VBool false)); ("battery_fault"%string, (VBool false)); ("circuit_fault"%string, (VBool false)); ("battery_duration_fault"%string, (VBool false))])); ("execution_status"%string, (VEnum "FINISHED" 0)); ("duration_result"%string, (VInt 0))]))]));
   ("test_emergency_lighting_test.py:207"%string, elt_EmergencyLightingTestParams, [7; 0; 0; 0; 0; 0; 64; 255; 0; 7; 1; 255; 255], (VDict [("subopcode"%string, (VEnum "ELT_DURATION_TEST_STATUS" 7)); ("payload"%string, (VDict [("tai_timestamp"%string, (VDict [("date"%string, (VDateTime 946684800000000 0)); ("tai_utc_delta"%string, (VTimedelta 0))])); ("execution_result"%string, (VDict [("lamp_fault"%string, (VBool true)); ("battery_fault"%string, (VBool false)); ("circuit_fault"%string, (VBool false)); ("battery_duration_fault"%string, (VBool false))])); ("execution_status"%string, (VEnum "UNKNOWN" 7)); ("duration_result"%string, (VInt 65535))]))]));
   ("test_emergency_lighting_test.py:241"%string, elt_EmergencyLightingTestParams, [7; 46; 72; 213; 47; 0; 72; 36; 1; 2; 2; 0; 0], (VDict [("subopcode"%string, (VEnum "ELT_DURATION_TEST_STATUS" 7)); ("payload"%string, (VDict [("tai_timestamp"%string, (VDict [("date"%string, (VDateTime 1749191561000000 7200)); ("tai_utc_delta"%string, (VTimedelta 37000000))])); ("execution_result"%string, (VDict [("lamp_fault"%string, (VBool false)); ("battery_fault"%string, (VBool true)); ("circuit_fault"%string, (VBool false)); ("battery_duration_fault"%string, (VBool false))])); ("execution_status"%string, (VEnum "IN_PROGRESS" 2)); ("duration_result"%string, (VInt 0))]))]));
   ("test_emergency_lighting_test.py:275"%string, elt_EmergencyLightingTestParams, [7; 0; 0; 0; 0; 0; 120; 36; 1; 3; 15; 16; 14; 69; 0; 0; 0], (VDict [("subopcode"%string, (VEnum "ELT_DURATION_TEST_STATUS" 7)); ("payload"%string, (VDict [("tai_timestamp"%string, (VDict [("date"%string, (VDateTime 946684763000000 50400)); ("tai_utc_delta"%string, (VTimedelta 37000000))])); ("execution_result"%string, (VDict [("lamp_fault"%string, (VBool true)); ("battery_fault"%string, (VBool true)); ("circuit_fault"%string, (VBool true)); ("battery_duration_fault"%string, (VBool true))])); ("execution_status"%string, (VEnum "POSTPONED" 3)); ("duration_result"%string, (VInt 3600)); ("relative_timestamp"%string, (VInt 69))]))]));
   ("test_emergency_lighting_test.py:311"%string, elt_EmergencyLightingTestParams, [8; 132; 255], (VDict [("subopcode"%string, (VEnum "ELT_PROPERTY_GET" 8)); ("payload"%string, (VDict [("property_id"%string, (VEnum "ELT_DURATION_TEST_EXECUTION_TIMEOUT" 65412))]))]));
   ("test_emergency_lighting_test.py:318"%string, elt_EmergencyLightingTestParams, [8; 133; 255], (VDict [("subopcode"%string, (VEnum "ELT_PROPERTY_GET" 8)); ("payload"%string, (VDict [("property_id"%string, (VEnum "ELT_FUNCTIONAL_TEST_EXECUTION_TIMEOUT" 65413))]))]));
   ("test_emergency_lighting_test.py:325"%string, elt_EmergencyLightingTestParams, [8; 134; 255], (VDict [("subopcode"%string, (VEnum "ELT_PROPERTY_GET" 8)); ("payload"%string, (VDict [("property_id"%string, (VEnum "ELT_DURATION_TEST_RETRY_PERIOD" 65414))]))]));
   ("test_emergency_lighting_test.py:332"%string, elt_EmergencyLightingTestParams, [8; 135; 255], (VDict [("subopcode"%string, (VEnum "ELT_PROPERTY_GET" 8)); ("payload"%string, (VDict [("property_id"%string, (VEnum "ELT_FUNCTIONAL_TEST_RETRY_PERIOD" 65415))]))]));
   ("test_emergency_lighting_test.py:339"%string, elt_EmergencyLightingTestParams, [8; 136; 255], (VDict [("subopcode"%string, (VEnum "ELT_PROPERTY_GET" 8)); ("payload"%string, (VDict [("property_id"%string, (VEnum "ELT_DURATION_TEST_BACKUP_AUTOMATIC_DELAY" 65416))]))]));
   ("test_emergency_lighting_test.py:346"%string, elt_EmergencyLightingTestParams, [8; 137; 255], (VDict [("subopcode"%string, (VEnum "ELT_PROPERTY_GET" 8)); ("payload"%string, (VDict [("property_id"%string, (VEnum "ELT_FUNCTIONAL_TEST_BACKUP_AUTOMATIC_DELAY" 65417))]))]));
   ("test_emergency_lighting_test.py:353"%string, elt_EmergencyLightingTestParams, [8; 138; 255], (VDict [("subopcode"%string, (VEnum "ELT_PROPERTY_GET" 8)); ("payload"%string, (VDict [("property_id"%string, (VEnum "ELT_DURATION_TEST_BACKUP_AUTOMATIC_INTERVAL" 65418))]))]));
   ("test_emergency_lighting_test.py:360"%string, elt_EmergencyLightingTestParams, [8; 139; 255], (VDict [("subopcode"%string, (VEnum "ELT_PROPERTY_GET" 8)); ("payload"%string, (VDict [("property_id"%string, (VEnum "ELT_FUNCTIONAL_TEST_BACKUP_AUTOMATIC_INTERVAL" 65419))]))]));
   ("test_emergency_lighting_test.py:367"%string, elt_EmergencyLightingTestParams, [9; 132; 255; 4; 3; 2; 1], (VDict [("subopcode"%string, (VEnum "ELT_PROPERTY_SET" 9)); ("payload"%string, (VDict [("property_id"%string, (VEnum "ELT_DURATION_TEST_EXECUTION_TIMEOUT" 65412)); ("elt_duration_test_execution_timeout"%string, (VDict [("seconds"%string, (VInt 16909060))]))]))]));
   ("test_emergency_lighting_test.py:375"%string, elt_EmergencyLightingTestParams, [9; 133; 255; 4; 3; 2; 1], (VDict [("subopcode"%string, (VEnum "ELT_PROPERTY_SET" 9)); ("payload"%string, (VDict [("property_id"%string, (VEnum "ELT_FUNCTIONAL_TEST_EXECUTION_TIMEOUT" 65413)); ("elt_functional_test_execution_timeout"%string, (VDict [("seconds"%string, (VInt 16909060))]))]))]));
   ("test_emergency_lighting_test.py:383"%string, elt_EmergencyLightingTestParams, [9; 134; 255; 4; 3; 2; 1], (VDict [("subopcode"%string, (VEnum "ELT_PROPERTY_SET" 9)); ("payload"%string, (VDict [("property_id"%string, (VEnum "ELT_DURATION_TEST_RETRY_PERIOD" 65414)); ("elt_duration_test_retry_period"%string, (VDict [("seconds"%string, (VInt 16909060))]))]))]));
   ("test_emergency_lighting_test.py:391"%string, elt_EmergencyLightingTestParams, [9; 135; 255; 4; 3; 2; 1], (VDict [("subopcode"%string, (VEnum "ELT_PROPERTY_SET" 9)); ("payload"%string, (VDict [("property_id"%string, (VEnum "ELT_FUNCTIONAL_TEST_RETRY_PERIOD" 65415)); ("elt_functional_test_retry_period"%string, (VDict [("seconds"%string, (VInt 16909060))]))]))]));
   ("test_emergency_lighting_test.py:399"%string, elt_EmergencyLightingTestParams, [9; 136; 255; 4; 3; 2; 1], (VDict [("subopcode"%string, (VEnum "ELT_PROPERTY_SET" 9)); ("payload"%string, (VDict [("property_id"%string, (VEnum "ELT_DURATION_TEST_BACKUP_AUTOMATIC_DELAY" 65416)); ("elt_duration_test_backup_automatic_delay"%string, (VDict [("seconds"%string, (VInt 16909060))]))]))]));
   ("test_emergency_lighting_test.py:407"%string, elt_EmergencyLightingTestParams, [9; 137; 255; 4; 3; 2; 1], (VDict [("subopcode"%string, (VEnum "ELT_PROPERTY_SET" 9)); ("payload"%string, (VDict [("property_id"%string, (VEnum "ELT_FUNCTIONAL_TEST_BACKUP_AUTOMATIC_DELAY" 65417)); ("elt_functional_test_backup_automatic_delay"%string, (VDict [("seconds"%string, (VInt 16909060))]))]))]));
   ("test_emergency_lighting_test.py:415"%string, elt_EmergencyLightingTestParams, [9; 138; 255; 4; 3; 2; 1], (VDict [("subopcode"%string, (VEnum "ELT_PROPERTY_SET" 9)); ("payload"%string, (VDict [("property_id"%string, (VEnum "ELT_DURATION_TEST_BACKUP_AUTOMATIC_INTERVAL" 65418)); ("elt_duration_test_backup_automatic_interval"%string, (VDict [("seconds"%string, (VInt 16909060))]))]))]));
   ("test_emergency_lighting_test.py:423"%string, elt_EmergencyLightingTestParams, [9; 139; 255; 4; 3; 2; 1], (VDict [("subopcode"%string, (VEnum "ELT_PROPERTY_SET" 9)); ("payload"%string, (VDict [("property_id"%string, (VEnum "ELT_FUNCTIONAL_TEST_BACKUP_AUTOMATIC_INTERVAL" 65419)); ("elt_functional_test_backup_automatic_interval"%string, (VDict [("seconds"%string, (VInt 16909060))]))]))]));
   ("test_emergency_lighting_test.py:431"%string, elt_EmergencyLightingTestParams, [10; 132; 255; 4; 3; 2; 1], (VDict [("subopcode"%string, (VEnum "ELT_PROPERTY_SET_UNACKNOWLEDGED" 10)); ("payload"%string, (VDict [("property_id"%string, (VEnum "ELT_DURATION_TEST_EXECUTION_TIMEOUT" 65412)); ("elt_duration_test_execution_timeout"%string, (VDict [("seconds"%string, (VInt 16909060))]))]))]));
   ("test_emergency_lighting_test.py:439"%string, elt_EmergencyLightingTestParams, [10; 133; 255; 4; 3; 2; 1], (VDict [("subopcode"%string, (VEnum "ELT_PROPERTY_SET_UNACKNOWLEDGED" 10)); ("payload"%string, (VDict [("property_id"%string, (VEnum "ELT_FUNCTIONAL_TEST_EXECUTION_TIMEOUT" 65413)); ("elt_functional_test_execution_timeout"%string, (VDict [("seconds"%string, (VInt 16909060))]))]))]));
   ("test_emergency_lighting_test.py:447"%string, elt_EmergencyLightingTestParams, [10; 134; 255; 4; 3; 2; 1], (VDict [("subopcode"%string, (VEnum "ELT_PROPERTY_SET_UNACKNOWLEDGED" 10)); ("payload"%string, (VDict [("property_id"%string, (VEnum "ELT_DURATION_TEST_RETRY_PERIOD" 65414)); ("elt_duration_test_retry_period"%string, (VDict [("seconds"%string, (VInt 16909060))]))]))]));
   ("test_emergency_lighting_test.py:455"%string, elt_EmergencyLightingTestParams, [10; 135; 255; 4; 3; 2; 1], (VDict [("subopcode"%string, (VEnum "ELT_PROPERTY_SET_UNACKNOWLEDGED" 10)); ("payload"%string, (VDict [("property_id"%string, (VEnum "ELT_FUNCTIONAL_TEST_RETRY_PERIOD" 65415)); ("elt_functional_test_retry_period"%string, (VDict [("seconds"%string, (VInt 16909060))]))]))]));
   ("test_emergency_lighting_test.py:463"%string, elt_EmergencyLightingTestParams, [10; 136; 255; 4; 3; 2; 1], (VDict [("subopcode"%string, (VEnum "ELT_PROPERTY_SET_UNACKNOWLEDGED" 10)); ("payload"%string, (VDict [("property_id"%string, (VEnum "ELT_DURATION_TEST_BACKUP_AUTOMATIC_DELAY" 65416)); ("elt_duration_test_backup_automatic_delay"%string, (VDict [("seconds"%string, (VInt 16909060))]))]))]));
   ("test_emergency_lighting_test.py:471"%string, elt_EmergencyLightingTestParams, [10; 137; 255; 4; 3; 2; 1], (VDict [("subopcode"%string, (VEnum "ELT_PROPERTY_SET_UNACKNOWLEDGED" 10)); ("payload"%string, (VDict [("property_id"%string, (VEnum "ELT_FUNCTIONAL_TEST_BACKUP_AUTOMATIC_DELAY" 65417)); ("elt_functional_test_backup_automatic_delay"%string, (VDict [("seconds"%string, (VInt 16909060))]))]))]));
   ("test_emergency_lighting_test.py:479"%string, elt_EmergencyLightingTestParams, [10; 138; 255; 4; 3; 2; 1], (VDict [("subopcode"%string, (VEnum "ELT_PROPERTY_SET_UNACKNOWLEDGED" 10)); ("payload"%string, (VDict [("property_id"%string, (VEnum "ELT_DURATION_TEST_BACKUP_AUTOMATIC_INTERVAL" 65418)); ("elt_duration_test_backup_automatic_interval"%string, (VDict [("seconds"%string, (VInt 16909060))]))]))]));
   ("test_emergency_lighting_test.py:487"%string, elt_EmergencyLightingTestParams, [10; 139; 255; 4; 3; 2; 1], (VDict [("subopcode"%string, (VEnum "ELT_PROPERTY_SET_UNACKNOWLEDGED" 10)); ("payload"%string, (VDict [("property_id"%string, (VEnum "ELT_FUNCTIONAL_TEST_BACKUP_AUTOMATIC_INTERVAL" 65419)); ("elt_functional_test_backup_automatic_interval"%string, (VDict [("seconds"%string, (VInt 16909060))]))]))]));
   ("test_emergency_lighting_test.py:495"%string, elt_EmergencyLightingTestParams, [11; 132; 255; 4; 3; 2; 1], (VDict [("subopcode"%string, (VEnum "ELT_PROPERTY_STATUS" 11)); ("payload"%string, (VDict [("property_id"%string, (VEnum "ELT_DURATION_TEST_EXECUTION_TIMEOUT" 65412)); ("elt_duration_test_execution_timeout"%string, (VDict [("seconds"%string, (VInt 16909060))]))]))]));
   ("test_emergency_lighting_test.py:503"%string, elt_EmergencyLightingTestParams, [11; 133; 255; 4; 3; 2; 1], (VDict [("subopcode"%string, (VEnum "ELT_PROPERTY_STATUS" 11)); ("payload"%string, (VDict [("property_id"%string, (VEnum "ELT_FUNCTIONAL_TEST_EXECUTION_TIMEOUT" 65413)); ("elt_functional_test_execution_timeout"%string, (VDict [("seconds"%string, (VInt 16909060))]))]))]));
   ("test_emergency_lighting_test.py:511"%string, elt_EmergencyLightingTestParams, [11; 134; 255; 4; 3; 2; 1], (VDict [("subopcode"%string, (VEnum "ELT_PROPERTY_STATUS" 11)); ("payload"%string, (VDict [("property_id"%string, (VEnum "ELT_DURATION_TEST_RETRY_PERIOD" 65414)); ("elt_duration_test_retry_period"%string, (VDict [("seconds"%string, (VInt 16909060))]))]))]));
   ("test_emergency_lighting_test.py:519"%string, elt_EmergencyLightingTestParams, [11; 135; 255; 4; 3; 2; 1], (VDict [("subopcode"%string, (VEnum "ELT_PROPERTY_STATUS" 11)); ("payload"%string, (VDict [("property_id"%string, (VEnum "ELT_FUNCTIONAL_TEST_RETRY_PERIOD" 65415)); ("elt_functional_test_retry_period"%string, (VDict [("seconds"%string, (VInt 16909060))]))]))]));
   ("test_emergency_lighting_test.py:527"%string, elt_EmergencyLightingTestParams, [11; 136; 255; 4; 3; 2; 1], (VDict [("subopcode"%string, (VEnum "ELT_PROPERTY_STATUS" 11)); ("payload"%string, (VDict [("property_id"%string, (VEnum "ELT_DURATION_TEST_BACKUP_AUTOMATIC_DELAY" 65416)); ("elt_duration_test_backup_automatic_delay"%string, (VDict [("seconds"%string, (VInt 16909060))]))]))]));
   ("test_emergency_lighting_test.py:535"%string, elt_EmergencyLightingTestParams, [11; 137; 255; 4; 3; 2; 1], (VDict [("subopcode"%string, (VEnum "ELT_PROPERTY_STATUS" 11)); ("payload"%string, (VDict [("property_id"%string, (VEnum "ELT_FUNCTIONAL_TEST_BACKUP_AUTOMATIC_DELAY" 65417)); ("elt_functional_test_backup_automatic_delay"%string, (VDict [("seconds"%string, (VInt 16909060))]))]))]));
   ("test_emergency_lighting_test.py:543"%string, elt_EmergencyLightingTestParams, [11; 138; 255; 4; 3; 2; 1], (VDict [("subopcode"%string, (VEnum "ELT_PROPERTY_STATUS" 11)); ("payload"%string, (VDict [("property_id"%string, (VEnum "ELT_DURATION_TEST_BACKUP_AUTOMATIC_INTERVAL" 65418)); ("elt_duration_test_backup_automatic_interval"%string, (VDict [("seconds"%string, (VInt 16909060))]))]))]));
   ("test_emergency_lighting_test.py:551"%string, elt_EmergencyLightingTestParams, [11; 139; 255; 4; 3; 2; 1], (VDict [("subopcode"%string, (VEnum "ELT_PROPERTY_STATUS" 11)); ("payload"%string, (VDict [("property_id"%string, (VEnum "ELT_FUNCTIONAL_TEST_BACKUP_AUTOMATIC_INTERVAL" 65419)); ("elt_functional_test_backup_automatic_interval"%string, (VDict [("seconds"%string, (VInt 16909060))]))]))]));
   ("test_network_diagnostic_server.py:34"%string, nds_NetworkDiagnosticSetupServerParams, [0], (VDict [("subopcode"%string, (VEnum "PUBLICATION_GET" 0)); ("payload"%string, (VDict []))]));
   ("test_network_diagnostic_server.py:41"%string, nds_NetworkDiagnosticSetupServerParams, [1; 18; 52; 170; 170; 130; 3; 16; 0], (VDict [("subopcode"%string, (VEnum "PUBLICATION_SET" 1)); ("payload"%string, (VDict [("destination"%string, (VInt 13330)); ("count"%string, (VInt 43690)); ("period"%string, (VDict [("steps"%string, (VInt 2)); ("resolution"%string, (VInt 2))])); ("ttl"%string, (VInt 3)); ("net_key_index"%string, (VInt 16)); ("features"%string, VNone)]))]));
   ("test_network_diagnostic_server.py:55"%string, nds_NetworkDiagnosticSetupServerParams, [1; 18; 52; 170; 170; 130; 3; 16; 0; 3; 0], (VDict [("subopcode"%string, (VEnum "PUBLICATION_SET" 1)); ("payload"%string, (VDict [("destination"%string, (VInt 13330)); ("count"%string, (VInt 43690)); ("period"%string, (VDict [("steps"%string, (VInt 2)); ("resolution"%string, (VInt 2))])); ("ttl"%string, (VInt 3)); ("net_key_index"%string, (VInt 16)); ("features"%string, (VInt 3))]))]));
   ("test_network_diagnostic_server.py:69"%string, nds_NetworkDiagnosticSetupServerParams, [2; 18; 52; 170; 170; 130; 3; 16; 0], (VDict [("subopcode"%string, (VEnum "PUBLICATION_STATUS" 2)); ("payload"%string, (VDict [("destination"%string, (VInt 13330)); ("count"%string, (VInt 43690)); ("period"%string, (VDict [("steps"%string, (VInt 2)); ("resolution"%string, (VInt 2))])); ("ttl"%string, (VInt 3)); ("net_key_index"%string, (VInt 16)); ("features"%string, VNone)]))]));
   ("test_network_diagnostic_server.py:83"%string, nds_NetworkDiagnosticSetupServerParams, [2; 18; 52; 170; 170; 130; 3; 16; 0; 3; 0], (VDict [("subopcode"%string, (VEnum "PUBLICATION_STATUS" 2)); ("payload"%string, (VDict [("destination"%string, (VInt 13330)); ("count"%string, (VInt 43690)); ("period"%string, (VDict [("steps"%string, (VInt 2)); ("resolution"%string, (VInt 2))])); ("ttl"%string, (VInt 3)); ("net_key_index"%string, (VInt 16)); ("features"%string, (VInt 3))]))]));
   ("test_network_diagnostic_server.py:97"%string, nds_NetworkDiagnosticServerParams, [0], (VDict [("subopcode"%string, (VEnum "SUBSCRIPTION_GET" 0)); ("payload"%string, (VDict []))]));
   ("test_network_diagnostic_server.py:104"%string, nds_NetworkDiagnosticServerParams, [1; 18; 52; 170; 170], (VDict [("subopcode"%string, (VEnum "SUBSCRIPTION_SET" 1)); ("payload"%string, (VDict [("destination"%string, (VInt 13330)); ("period"%string, (VInt 43690))]))]));
   ("test_network_diagnostic_server.py:114"%string, nds_NetworkDiagnosticServerParams, [3; 18; 52; 170; 170; 32; 86; 120; 187; 187; 0; 0], (VDict [("subopcode"%string, (VEnum "SUBSCRIPTION_STATUS" 3)); ("payload"%string, (VDict [("destination"%string, (VInt 13330)); ("period"%string, (VInt 43690)); ("max_record_count"%string, (VInt 32)); ("record"%string, (VList [(VDict [("source"%string, (VInt 30806)); ("count"%string, (VInt 48059)); ("min_hops"%string, (VInt 0)); ("max_hops"%string, (VInt 0))])]))]))]));
   ("test_network_diagnostic_server.py:126"%string, nds_NetworkDiagnosticServerParams, [3; 18; 52; 170; 170; 32; 86; 120; 187; 187; 0; 0; 145; 1; 204; 204; 1; 1], (VDict [("subopcode"%string, (VEnum "SUBSCRIPTION_STATUS" 3)); ("payload"%string, (VDict [("destination"%string, (VInt 13330)); ("period"%string, (VInt 43690)); ("max_record_count"%string, (VInt 32)); ("record"%string, (VList [(VDict [("source"%string, (VInt 30806)); ("count"%string, (VInt 48059)); ("min_hops"%string, (VInt 0)); ("max_hops"%string, (VInt 0))]); (VDict [("source"%string, (VInt 401)); ("count"%string, (VInt 52428)); ("min_hops"%string, (VInt 1)); ("max_hops"%string, (VInt 1))])]))]))]));
   ("test_debugV2.py:33"%string, debugV2_DebugV2SubMessage, [2; 9; 0; 2; 0; 16; 32; 48], (VDict [("subopcode"%string, (VEnum "STATUS" 2)); ("parameter_type"%string, (VEnum "UPTIME" 9)); ("page_number"%string, (VInt 0)); ("payload"%string, (VList [(VDict [("data_type"%string, (VEnum "UINT32" 2)); ("parameter"%string, (VInt 807407616))])]))]));
   ("test_debugV2.py:35"%string, debugV2_DebugV2SubMessage, [2; 8; 0; 4; 32], (VDict [("subopcode"%string, (VEnum "STATUS" 2)); ("parameter_type"%string, (VEnum "RSSI_THRESHOLD" 8)); ("page_number"%string, (VInt 0)); ("payload"%string, (VList [(VDict [("data_type"%string, (VEnum "INT8" 4)); ("parameter"%string, (VInt 32))])]))]));
   ("test_debugV2.py:37"%string, debugV2_DebugV2SubMessage, [2; 11; 2; 12; 6; 0; 16; 0; 32; 0; 48], (VDict [("subopcode"%string, (VEnum "STATUS" 2)); ("parameter_type"%string, (VEnum "TIME_SYNC_MSG_LIST" 11)); ("page_number"%string, (VInt 2)); ("payload"%string, (VList [(VDict [("data_type"%string, (VEnum "ARRAY" 12)); ("parameter"%string, (VList [(VInt 0); (VInt 16); (VInt 0); (VInt 32); (VInt 0); (VInt 48)]))])]))]));
   ("test_debugV2.py:41"%string, debugV2_DebugV2SubMessage, [2; 75; 0; 11; 9; 109; 121; 32; 115; 116; 114; 105; 110; 103], (VDict [("subopcode"%string, (VEnum "STATUS" 2)); ("parameter_type"%string, (VInt 75)); ("page_number"%string, (VInt 0)); ("payload"%string, (VList [(VDict [("data_type"%string, (VEnum "STRING" 11)); ("parameter"%string, (VStr [109; 121; 32; 115; 116; 114; 105; 110; 103]))])]))]));
   ("test_debugV2.py:43"%string, debugV2_DebugV2SubMessage, [2; 85; 0; 2; 0; 16; 32; 48; 10; 0; 8; 0; 50; 0; 40], (VDict [("subopcode"%string, (VEnum "STATUS" 2)); ("parameter_type"%string, (VInt 85)); ("page_number"%string, (VInt 0)); ("payload"%string, (VList [(VDict [("data_type"%string, (VEnum "UINT32" 2)); ("parameter"%string, (VInt 807407616))]); (VDict [("data_type"%string, (VEnum "ENUM" 10)); ("parameter"%string, (VInt 0))]); (VDict [("data_type"%string, (VEnum "FLOAT" 8)); ("parameter"%string, (VIeee 4 671101440))])]))]));
   ("test_debugV2.py:48"%string, debugV2_DebugV2SubMessage, [3; 19; 0], (VDict [("subopcode"%string, (VEnum "CLEAR" 3)); ("parameter_type"%string, (VEnum "OCCUPANCY_HISTORY" 19)); ("page_number"%string, (VInt 0)); ("payload"%string, (VList []))]));
   ("test_debugV2.py:50"%string, debugV2_DebugV2SubMessage, [0; 15; 0], (VDict [("subopcode"%string, (VEnum "GET" 0)); ("parameter_type"%string, (VEnum "RECALLED_EVENTS_TIME" 15)); ("page_number"%string, (VInt 0)); ("payload"%string, (VList []))]));
   ("test_debugV2.py:52"%string, debugV2_DebugV2SubMessage, [2; 254; 0; 255], (VDict [("subopcode"%string, (VEnum "STATUS" 2)); ("parameter_type"%string, (VInt 254)); ("page_number"%string, (VInt 0)); ("payload"%string, (VList [(VDict [("data_type"%string, (VEnum "INVALID" 255)); ("parameter"%string, (VDict []))])]))]))].

Example build_vectors_ok : failing check_build build_vectors = [].
Proof. vm_compute. reflexivity. Qed.

Definition parse_vectors : list vec :=
  [("test_battery.py:30"%string, battery_GenericBatteryMessage, [130; 35], (VDict [("opcode"%string, (VEnum "GENERIC_BATTERY_GET" 33315)); ("generic_battery_get"%string, (VDict []))]));
   ("test_battery.py:36"%string, battery_GenericBatteryMessage, [130; 36; 50; 180; 0; 0; 254; 254; 0; 98], (VDict [("opcode"%string, (VEnum "GENERIC_BATTERY_STATUS" 33316)); ("generic_battery_status"%string, (VDict [("battery_level"%string, (VInt 50)); ("time_to_discharge"%string, (VInt 180)); ("time_to_charge"%string, (VInt 65278)); ("flags"%string, (VDict [("battery_presence_flags"%string, (VEnum "BATTERY_PRESENT_NON_REMOVABLE" 2)); ("battery_indicator_flags"%string, (VEnum "BATTERY_CHARGE_CRITICALLY_LOW" 0)); ("battery_charging_flags"%string, (VEnum "BATTERY_CHARGEABLE_CHARGING" 2)); ("battery_serviceability_flags"%string, (VEnum "BATTERY_NOT_REQUIRE_SERVICE" 1))]))]))]));
   ("test_battery.py:52"%string, battery_GenericBatteryMessage, [130; 36; 255; 187; 170; 0; 255; 255; 255; 219], (VDict [("opcode"%string, (VEnum "GENERIC_BATTERY_STATUS" 33316)); ("generic_battery_status"%string, (VDict [("battery_level"%string, (VFloat fmax)); ("time_to_discharge"%string, (VInt 43707)); ("time_to_charge"%string, (VFloat fmax)); ("flags"%string, (VDict [("battery_presence_flags"%string, (VEnum "BATTERY_PRESENCE_UNKNOWN" 3)); ("battery_indicator_flags"%string, (VEnum "BATTERY_CHARGE_GOOD" 2)); ("battery_charging_flags"%string, (VEnum "BATTERY_CHARGEABLE_NOT_CHARGING" 1)); ("battery_serviceability_flags"%string, (VEnum "BATTERY_SERVICEABILITY_UNKNOWN" 3))]))]))]));
   ("test_generics.py:67"%string, onoff_GenericOnOffMessage, [130; 1], (VDict [("opcode"%string, (VEnum "GENERIC_ONOFF_GET" 33281)); ("generic_onoff_get"%string, (VDict []))]));
   ("test_generics.py:72"%string, onoff_GenericOnOffMessage, [130; 2; 1; 34], (VDict [("opcode"%string, (VEnum "GENERIC_ONOFF_SET" 33282)); ("generic_onoff_set"%string, (VDict [("onoff"%string, (VInt 1)); ("tid"%string, (VInt 34))]))]));
   ("test_generics.py:80"%string, onoff_GenericOnOffMessage, [130; 2; 1; 34], (VDict [("opcode"%string, (VEnum "GENERIC_ONOFF_SET" 33282)); ("generic_onoff_set"%string, (VDict [("onoff"%string, (VInt 1)); ("tid"%string, (VInt 34)); ("transition_time"%string, (VFloat (7093169413108531 # 1125899906842624))); ("delay"%string, (VFloat (5404319552844595 # 18014398509481984)))]))]));
   ("test_generics.py:90"%string, onoff_GenericOnOffMessage, [130; 2; 0; 49; 50; 60], (VDict [("opcode"%string, (VEnum "GENERIC_ONOFF_SET" 33282)); ("generic_onoff_set"%string, (VDict [("onoff"%string, (VInt 0)); ("tid"%string, (VInt 49)); ("transition_time"%string, (VInt 5)); ("delay"%string, (VFloat (5404319552844595 # 18014398509481984)))]))]));
   ("test_generics.py:100"%string, onoff_GenericOnOffMessage, [130; 2; 0; 49; 242; 60], (VDict [("opcode"%string, (VEnum "GENERIC_ONOFF_SET" 33282)); ("generic_onoff_set"%string, (VDict [("onoff"%string, (VInt 0)); ("tid"%string, (VInt 49)); ("transition_time"%string, (VInt 30000)); ("delay"%string, (VFloat (5404319552844595 # 18014398509481984)))]))]));
   ("test_generics.py:110"%string, onoff_GenericOnOffMessage, [130; 4; 0], (VDict [("opcode"%string, (VEnum "GENERIC_ONOFF_STATUS" 33284)); ("generic_onoff_status"%string, (VDict [("present_onoff"%string, (VInt 0)); ("target_onoff"%string, VNone); ("remaining_time"%string, VNone)]))]));
   ("test_generics.py:120"%string, onoff_GenericOnOffMessage, [130; 4; 0; 1; 74], (VDict [("opcode"%string, (VEnum "GENERIC_ONOFF_STATUS" 33284)); ("generic_onoff_status"%string, (VDict [("present_onoff"%string, (VInt 0)); ("target_onoff"%string, (VInt 1)); ("remaining_time"%string, (VInt 10))]))]));
   ("test_generics.py:130"%string, onoff_GenericOnOffMessage, [130; 4; 0; 1; 255], (VDict [("opcode"%string, (VEnum "GENERIC_ONOFF_STATUS" 33284)); ("generic_onoff_status"%string, (VDict [("present_onoff"%string, (VInt 0)); ("target_onoff"%string, (VInt 1)); ("remaining_time"%string, (VInt 37800))]))]));
   ("test_level.py:28"%string, level_GenericLevelMessage, [130; 5], (VDict [("opcode"%string, (VEnum "GENERIC_LEVEL_GET" 33285)); ("generic_level_get"%string, (VDict []))]));
   ("test_level.py:34"%string, level_GenericLevelMessage, [130; 6; 255; 127; 34], (VDict [("opcode"%string, (VEnum "GENERIC_LEVEL_SET" 33286)); ("generic_level_set"%string, (VDict [("level"%string, (VInt 32767)); ("tid"%string, (VInt 34))]))]));
   ("test_level.py:43"%string, level_GenericLevelMessage, [130; 6; 0; 128; 34], (VDict [("opcode"%string, (VEnum "GENERIC_LEVEL_SET" 33286)); ("generic_level_set"%string, (VDict [("level"%string, (VInt (-32768))); ("tid"%string, (VInt 34))]))]));
   ("test_level.py:52"%string, level_GenericLevelMessage, [130; 6; 1; 0; 34], (VDict [("opcode"%string, (VEnum "GENERIC_LEVEL_SET" 33286)); ("generic_level_set"%string, (VDict [("level"%string, (VInt 1)); ("tid"%string, (VInt 34)); ("transition_time"%string, (VFloat (7093169413108531 # 1125899906842624))); ("delay"%string, (VFloat (5404319552844595 # 18014398509481984)))]))]));
   ("test_level.py:63"%string, level_GenericLevelMessage, [130; 6; 0; 0; 49; 50; 60], (VDict [("opcode"%string, (VEnum "GENERIC_LEVEL_SET" 33286)); ("generic_level_set"%string, (VDict [("level"%string, (VInt 0)); ("tid"%string, (VInt 49)); ("transition_time"%string, (VInt 5)); ("delay"%string, (VFloat (5404319552844595 # 18014398509481984)))]))]));
   ("test_level.py:74"%string, level_GenericLevelMessage, [130; 7; 0; 0; 49; 50; 60], (VDict [("opcode"%string, (VEnum "GENERIC_LEVEL_SET_UNACKNOWLEDGED" 33287)); ("generic_level_set_unacknowledged"%string, (VDict [("level"%string, (VInt 0)); ("tid"%string, (VInt 49)); ("transition_time"%string, (VInt 5)); ("delay"%string, (VFloat (5404319552844595 # 18014398509481984)))]))]));
   ("test_level.py:85"%string, level_GenericLevelMessage, [130; 8; 255; 127], (VDict [("opcode"%string, (VEnum "GENERIC_LEVEL_STATUS" 33288)); ("generic_level_status"%string, (VDict [("present_level"%string, (VInt 32767)); ("target_level"%string, VNone); ("remaining_time"%string, VNone)]))]));
   ("test_level.py:95"%string, level_GenericLevelMessage, [130; 8; 0; 128], (VDict [("opcode"%string, (VEnum "GENERIC_LEVEL_STATUS" 33288)); ("generic_level_status"%string, (VDict [("present_level"%string, (VInt (-32768))); ("target_level"%string, VNone); ("remaining_time"%string, VNone)]))]));
   ("test_level.py:105"%string, level_GenericLevelMessage, [130; 8; 0; 0; 255; 0; 74], (VDict [("opcode"%string, (VEnum "GENERIC_LEVEL_STATUS" 33288)); ("generic_level_status"%string, (VDict [("present_level"%string, (VInt 0)); ("target_level"%string, (VInt 255)); ("remaining_time"%string, (VInt 10))]))]));
   ("test_level.py:115"%string, level_GenericLevelMessage, [130; 8; 0; 0; 1; 0; 255], (VDict [("opcode"%string, (VEnum "GENERIC_LEVEL_STATUS" 33288)); ("generic_level_status"%string, (VDict [("present_level"%string, (VInt 0)); ("target_level"%string, (VInt 1)); ("remaining_time"%string, (VInt 37800))]))]));
   ("test_level.py:125"%string, level_GenericLevelMessage, [130; 9; 255; 255; 255; 127; 34], (VDict [("opcode"%string, (VEnum "GENERIC_DELTA_SET" 33289)); ("generic_delta_set"%string, (VDict [("delta_level"%string, (VInt 2147483647)); ("tid"%string, (VInt 34))]))]));
   ("test_level.py:134"%string, level_GenericLevelMessage, [130; 9; 0; 0; 0; 128; 34], (VDict [("opcode"%string, (VEnum "GENERIC_DELTA_SET" 33289)); ("generic_delta_set"%string, (VDict [("delta_level"%string, (VInt (-2147483648))); ("tid"%string, (VInt 34))]))]));
   ("test_level.py:143"%string, level_GenericLevelMessage, [130; 9; 1; 0; 0; 0; 34], (VDict [("opcode"%string, (VEnum "GENERIC_DELTA_SET" 33289)); ("generic_delta_set"%string, (VDict [("delta_level"%string, (VInt 1)); ("tid"%string, (VInt 34)); ("transition_time"%string, (VFloat (7093169413108531 # 1125899906842624))); ("delay"%string, (VFloat (5404319552844595 # 18014398509481984)))]))]));
   ("test_level.py:153"%string, level_GenericLevelMessage, [130; 9; 0; 0; 0; 0; 49; 50; 60], (VDict [("opcode"%string, (VEnum "GENERIC_DELTA_SET" 33289)); ("generic_delta_set"%string, (VDict [("delta_level"%string, (VInt 0)); ("tid"%string, (VInt 49)); ("transition_time"%string, (VInt 5)); ("delay"%string, (VFloat (5404319552844595 # 18014398509481984)))]))]));
   ("test_level.py:163"%string, level_GenericLevelMessage, [130; 10; 0; 0; 0; 0; 49; 50; 60], (VDict [("opcode"%string, (VEnum "GENERIC_DELTA_SET_UNACKNOWLEDGED" 33290)); ("generic_delta_set_unacknowledged"%string, (VDict [("delta_level"%string, (VInt 0)); ("tid"%string, (VInt 49)); ("transition_time"%string, (VInt 5)); ("delay"%string, (VFloat (5404319552844595 # 18014398509481984)))]))]));
   ("test_level.py:173"%string, level_GenericLevelMessage, [130; 11; 255; 127; 34], (VDict [("opcode"%string, (VEnum "GENERIC_MOVE_SET" 33291)); ("generic_move_set"%string, (VDict [("delta_level"%string, (VInt 32767)); ("tid"%string, (VInt 34))]))]));
   ("test_level.py:182"%string, level_GenericLevelMessage, [130; 11; 0; 128; 34], (VDict [("opcode"%string, (VEnum "GENERIC_MOVE_SET" 33291)); ("generic_move_set"%string, (VDict [("delta_level"%string, (VInt (-32768))); ("tid"%string, (VInt 34))]))]));
   ("test_level.py:191"%string, level_GenericLevelMessage, [130; 11; 1; 0; 34], (VDict [("opcode"%string, (VEnum "GENERIC_MOVE_SET" 33291)); ("generic_move_set"%string, (VDict [("delta_level"%string, (VInt 1)); ("tid"%string, (VInt 34)); ("transition_time"%string, (VFloat (7093169413108531 # 1125899906842624))); ("delay"%string, (VFloat (5404319552844595 # 18014398509481984)))]))]));
   ("test_level.py:202"%string, level_GenericLevelMessage, [130; 11; 0; 0; 49; 50; 60], (VDict [("opcode"%string, (VEnum "GENERIC_MOVE_SET" 33291)); ("generic_move_set"%string, (VDict [("delta_level"%string, (VInt 0)); ("tid"%string, (VInt 49)); ("transition_time"%string, (VInt 5)); ("delay"%string, (VFloat (5404319552844595 # 18014398509481984)))]))]));
   ("test_level.py:213"%string, level_GenericLevelMessage, [130; 12; 0; 0; 49; 50; 60], (VDict [("opcode"%string, (VEnum "GENERIC_MOVE_SET_UNACKNOWLEDGED" 33292)); ("generic_move_set_unacknowledged"%string, (VDict [("delta_level"%string, (VInt 0)); ("tid"%string, (VInt 49)); ("transition_time"%string, (VInt 5)); ("delay"%string, (VFloat (5404319552844595 # 18014398509481984)))]))]));
   ("test_light.py:38"%string, lightness_LightLightnessMessage, [130; 75], (VDict [("opcode"%string, (VEnum "LIGHT_LIGHTNESS_GET" 33355)); ("light_lightness_get"%string, (VDict []))]));
   ("test_light.py:43"%string, lightness_LightLightnessMessage, [130; 76; 187; 170; 34], (VDict [("opcode"%string, (VEnum "LIGHT_LIGHTNESS_SET" 33356)); ("light_lightness_set"%string, (VDict [("lightness"%string, (VInt 43707)); ("tid"%string, (VInt 34))]))]));
   ("test_light.py:49"%string, lightness_LightLightnessMessage, [130; 76; 1; 0; 34], (VDict [("opcode"%string, (VEnum "LIGHT_LIGHTNESS_SET" 33356)); ("light_lightness_set"%string, (VDict [("lightness"%string, (VInt 1)); ("tid"%string, (VInt 34)); ("transition_time"%string, (VFloat (7093169413108531 # 1125899906842624))); ("delay"%string, (VFloat (5404319552844595 # 18014398509481984)))]))]));
   ("test_light.py:57"%string, lightness_LightLightnessMessage, [130; 76; 0; 0; 49; 50; 60], (VDict [("opcode"%string, (VEnum "LIGHT_LIGHTNESS_SET" 33356)); ("light_lightness_set"%string, (VDict [("lightness"%string, (VInt 0)); ("tid"%string, (VInt 49)); ("transition_time"%string, (VInt 5)); ("delay"%string, (VFloat (5404319552844595 # 18014398509481984)))]))]));
   ("test_light.py:65"%string, lightness_LightLightnessMessage, [130; 77; 0; 0; 49; 50; 60], (VDict [("opcode"%string, (VEnum "LIGHT_LIGHTNESS_SET_UNACKNOWLEDGED" 33357)); ("light_lightness_set_unacknowledged"%string, (VDict [("lightness"%string, (VInt 0)); ("tid"%string, (VInt 49)); ("transition_time"%string, (VInt 5)); ("delay"%string, (VFloat (5404319552844595 # 18014398509481984)))]))]));
   ("test_light.py:73"%string, lightness_LightLightnessMessage, [130; 78; 68; 0], (VDict [("opcode"%string, (VEnum "LIGHT_LIGHTNESS_STATUS" 33358)); ("light_lightness_status"%string, (VDict [("present_lightness"%string, (VInt 68))]))]));
   ("test_light.py:78"%string, lightness_LightLightnessMessage, [130; 78; 0; 0; 49; 200; 15], (VDict [("opcode"%string, (VEnum "LIGHT_LIGHTNESS_STATUS" 33358)); ("light_lightness_status"%string, (VDict [("present_lightness"%string, (VInt 0)); ("target_lightness"%string, (VInt 51249)); ("remaining_time"%string, (VFloat (3 # 2)))]))]));
   ("test_light.py:86"%string, lightness_LightLightnessMessage, [130; 79], (VDict [("opcode"%string, (VEnum "LIGHT_LIGHTNESS_LINEAR_GET" 33359)); ("light_lightness_linear_get"%string, (VDict []))]));
   ("test_light.py:91"%string, lightness_LightLightnessMessage, [130; 80; 187; 170; 1], (VDict [("opcode"%string, (VEnum "LIGHT_LIGHTNESS_LINEAR_SET" 33360)); ("light_lightness_linear_set"%string, (VDict [("lightness"%string, (VInt 43707)); ("tid"%string, (VInt 1))]))]));
   ("test_light.py:97"%string, lightness_LightLightnessMessage, [130; 80; 1; 0; 34], (VDict [("opcode"%string, (VEnum "LIGHT_LIGHTNESS_LINEAR_SET" 33360)); ("light_lightness_linear_set"%string, (VDict [("lightness"%string, (VInt 1)); ("tid"%string, (VInt 34)); ("transition_time"%string, (VFloat (7093169413108531 # 1125899906842624))); ("delay"%string, (VFloat (5404319552844595 # 18014398509481984)))]))]));
   ("test_light.py:105"%string, lightness_LightLightnessMessage, [130; 80; 0; 0; 49; 50; 26], (VDict [("opcode"%string, (VEnum "LIGHT_LIGHTNESS_LINEAR_SET" 33360)); ("light_lightness_linear_set"%string, (VDict [("lightness"%string, (VInt 0)); ("tid"%string, (VInt 49)); ("transition_time"%string, (VInt 5)); ("delay"%string, (VFloat (1170935903116329 # 9007199254740992)))]))]));
   ("test_light.py:113"%string, lightness_LightLightnessMessage, [130; 81; 255; 0; 49; 50; 60], (VDict [("opcode"%string, (VEnum "LIGHT_LIGHTNESS_LINEAR_SET_UNACKNOWLEDGED" 33361)); ("light_lightness_linear_set_unacknowledged"%string, (VDict [("lightness"%string, (VInt 255)); ("tid"%string, (VInt 49)); ("transition_time"%string, (VInt 5)); ("delay"%string, (VFloat (5404319552844595 # 18014398509481984)))]))]));
   ("test_light.py:121"%string, lightness_LightLightnessMessage, [130; 82; 0; 0; 221; 187; 76], (VDict [("opcode"%string, (VEnum "LIGHT_LIGHTNESS_LINEAR_STATUS" 33362)); ("light_lightness_linear_status"%string, (VDict [("present_lightness"%string, (VInt 0)); ("target_lightness"%string, (VInt 48093)); ("remaining_time"%string, (VInt 12))]))]));
   ("test_light.py:129"%string, lightness_LightLightnessMessage, [130; 83], (VDict [("opcode"%string, (VEnum "LIGHT_LIGHTNESS_LAST_GET" 33363)); ("light_lightness_last_get"%string, (VDict []))]));
   ("test_light.py:134"%string, lightness_LightLightnessMessage, [130; 84; 0; 0], (VDict [("opcode"%string, (VEnum "LIGHT_LIGHTNESS_LAST_STATUS" 33364)); ("light_lightness_last_status"%string, (VDict [("lightness"%string, (VInt 0))]))]));
   ("test_light.py:140"%string, lightness_LightLightnessMessage, [130; 85], (VDict [("opcode"%string, (VEnum "LIGHT_LIGHTNESS_DEFAULT_GET" 33365)); ("light_lightness_default_get"%string, (VDict []))]));
   ("test_light.py:145"%string, lightness_LightLightnessMessage, [130; 86; 0; 0], (VDict [("opcode"%string, (VEnum "LIGHT_LIGHTNESS_DEFAULT_STATUS" 33366)); ("light_lightness_default_status"%string, (VDict [("lightness"%string, (VInt 0))]))]));
   ("test_light.py:151"%string, lightness_LightLightnessMessage, [130; 87], (VDict [("opcode"%string, (VEnum "LIGHT_LIGHTNESS_RANGE_GET" 33367)); ("light_lightness_range_get"%string, (VDict []))]));
   ("test_light.py:156"%string, lightness_LightLightnessMessage, [130; 88; 0; 17; 17; 136; 136], (VDict [("opcode"%string, (VEnum "LIGHT_LIGHTNESS_RANGE_STATUS" 33368)); ("light_lightness_range_status"%string, (VDict [("status"%string, (VEnum "SUCCESS" 0)); ("range_min"%string, (VInt 4369)); ("range_max"%string, (VInt 34952))]))]));
   ("test_light.py:168"%string, lightness_LightLightnessSetupMessage, [130; 89; 187; 170], (VDict [("opcode"%string, (VEnum "LIGHT_LIGHTNESS_SETUP_DEFAULT_SET" 33369)); ("light_lightness_setup_default_set"%string, (VDict [("lightness"%string, (VInt 43707))]))]));
   ("test_light.py:173"%string, lightness_LightLightnessSetupMessage, [130; 89; 1; 0], (VDict [("opcode"%string, (VEnum "LIGHT_LIGHTNESS_SETUP_DEFAULT_SET" 33369)); ("light_lightness_setup_default_set"%string, (VDict [("lightness"%string, (VInt 1)); ("tid"%string, (VInt 34)); ("transition_time"%string, (VFloat (7093169413108531 # 1125899906842624))); ("delay"%string, (VFloat (5404319552844595 # 18014398509481984)))]))]));
   ("test_light.py:181"%string, lightness_LightLightnessSetupMessage, [130; 90; 0; 0], (VDict [("opcode"%string, (VEnum "LIGHT_LIGHTNESS_SETUP_DEFAULT_SET_UNACKNOWLEDGED" 33370)); ("light_lightness_setup_default_set_unacknowledged"%string, (VDict [("lightness"%string, (VInt 0))]))]));
   ("test_light.py:187"%string, lightness_LightLightnessSetupMessage, [130; 91; 17; 0; 255; 238], (VDict [("opcode"%string, (VEnum "LIGHT_LIGHTNESS_SETUP_RANGE_SET" 33371)); ("light_lightness_setup_range_set"%string, (VDict [("range_min"%string, (VInt 17)); ("range_max"%string, (VInt 61183))]))]));
   ("test_light.py:193"%string, lightness_LightLightnessSetupMessage, [130; 92; 205; 171; 52; 18], (VDict [("opcode"%string, (VEnum "LIGHT_LIGHTNESS_SETUP_RANGE_SET_UNACKNOWLEDGED" 33372)); ("light_lightness_setup_range_set_unacknowledged"%string, (VDict [("range_min"%string, (VInt 43981)); ("range_max"%string, (VInt 4660))]))]));
   ("test_light.py:205"%string, ctl_LightCTLMessage, [130; 93], (VDict [("opcode"%string, (VEnum "LIGHT_CTL_GET" 33373)); ("light_ctl_get"%string, (VDict []))]));
   ("test_light.py:210"%string, ctl_LightCTLMessage, [130; 94; 187; 170; 221; 204; 255; 238; 1], (VDict [("opcode"%string, (VEnum "LIGHT_CTL_SET" 33374)); ("light_ctl_set"%string, (VDict [("ctl_lightness"%string, (VInt 43707)); ("ctl_temperature"%string, (VInt 52445)); ("ctl_delta_uv"%string, (VInt 61183)); ("tid"%string, (VInt 1))]))]));
   ("test_light.py:218"%string, ctl_LightCTLMessage, [130; 94; 187; 170; 221; 204; 255; 238; 34], (VDict [("opcode"%string, (VEnum "LIGHT_CTL_SET" 33374)); ("light_ctl_set"%string, (VDict [("ctl_lightness"%string, (VInt 43707)); ("ctl_temperature"%string, (VInt 52445)); ("ctl_delta_uv"%string, (VInt 61183)); ("tid"%string, (VInt 34)); ("transition_time"%string, (VFloat (7093169413108531 # 1125899906842624))); ("delay"%string, (VFloat (5404319552844595 # 18014398509481984)))]))]));
   ("test_light.py:228"%string, ctl_LightCTLMessage, [130; 94; 187; 170; 221; 204; 255; 238; 34; 50; 60], (VDict [("opcode"%string, (VEnum "LIGHT_CTL_SET" 33374)); ("light_ctl_set"%string, (VDict [("ctl_lightness"%string, (VInt 43707)); ("ctl_temperature"%string, (VInt 52445)); ("ctl_delta_uv"%string, (VInt 61183)); ("tid"%string, (VInt 34)); ("transition_time"%string, (VInt 5)); ("delay"%string, (VFloat (5404319552844595 # 18014398509481984)))]))]));
   ("test_light.py:238"%string, ctl_LightCTLMessage, [130; 95; 17; 17; 34; 34; 51; 51; 34; 50; 60], (VDict [("opcode"%string, (VEnum "LIGHT_CTL_SET_UNACKNOWLEDGED" 33375)); ("light_ctl_set_unacknowledged"%string, (VDict [("ctl_lightness"%string, (VInt 4369)); ("ctl_temperature"%string, (VInt 8738)); ("ctl_delta_uv"%string, (VInt 13107)); ("tid"%string, (VInt 34)); ("transition_time"%string, (VInt 5)); ("delay"%string, (VFloat (5404319552844595 # 18014398509481984)))]))]));
   ("test_light.py:248"%string, ctl_LightCTLMessage, [130; 96; 17; 17; 34; 34], (VDict [("opcode"%string, (VEnum "LIGHT_CTL_STATUS" 33376)); ("light_ctl_status"%string, (VDict [("present_ctl_lightness"%string, (VInt 4369)); ("present_ctl_temperature"%string, (VInt 8738))]))]));
   ("test_light.py:254"%string, ctl_LightCTLMessage, [130; 96; 17; 17; 34; 34; 51; 51; 68; 68; 15], (VDict [("opcode"%string, (VEnum "LIGHT_CTL_STATUS" 33376)); ("light_ctl_status"%string, (VDict [("present_ctl_lightness"%string, (VInt 4369)); ("present_ctl_temperature"%string, (VInt 8738)); ("target_ctl_lightness"%string, (VInt 13107)); ("target_ctl_temperature"%string, (VInt 17476)); ("remaining_time"%string, (VFloat (3 # 2)))]))]));
   ("test_light.py:264"%string, ctl_LightCTLMessage, [130; 97], (VDict [("opcode"%string, (VEnum "LIGHT_CTL_TEMPERATURE_GET" 33377)); ("light_ctl_temperature_get"%string, (VDict []))]));
   ("test_light.py:269"%string, ctl_LightCTLMessage, [130; 100; 221; 204; 255; 238; 10], (VDict [("opcode"%string, (VEnum "LIGHT_CTL_TEMPERATURE_SET" 33380)); ("light_ctl_temperature_set"%string, (VDict [("ctl_temperature"%string, (VInt 52445)); ("ctl_delta_uv"%string, (VInt 61183)); ("tid"%string, (VInt 10))]))]));
   ("test_light.py:276"%string, ctl_LightCTLMessage, [130; 100; 221; 204; 255; 238; 34; 50; 20], (VDict [("opcode"%string, (VEnum "LIGHT_CTL_TEMPERATURE_SET" 33380)); ("light_ctl_temperature_set"%string, (VDict [("ctl_temperature"%string, (VInt 52445)); ("ctl_delta_uv"%string, (VInt 61183)); ("tid"%string, (VInt 34)); ("transition_time"%string, (VInt 5)); ("delay"%string, (VFloat (3602879701896397 # 36028797018963968)))]))]));
   ("test_light.py:285"%string, ctl_LightCTLMessage, [130; 101; 34; 34; 51; 51; 255; 50; 60], (VDict [("opcode"%string, (VEnum "LIGHT_CTL_TEMPERATURE_SET_UNACKNOWLEDGED" 33381)); ("light_ctl_temperature_set_unacknowledged"%string, (VDict [("ctl_temperature"%string, (VInt 8738)); ("ctl_delta_uv"%string, (VInt 13107)); ("tid"%string, (VInt 255)); ("transition_time"%string, (VInt 5)); ("delay"%string, (VFloat (5404319552844595 # 18014398509481984)))]))]));
   ("test_light.py:294"%string, ctl_LightCTLMessage, [130; 102; 34; 34; 255; 255], (VDict [("opcode"%string, (VEnum "LIGHT_CTL_TEMPERATURE_STATUS" 33382)); ("light_ctl_temperature_status"%string, (VDict [("present_ctl_temperature"%string, (VInt 8738)); ("present_ctl_delta_uv"%string, (VInt 65535))]))]));
   ("test_light.py:300"%string, ctl_LightCTLMessage, [130; 102; 17; 17; 34; 34; 51; 51; 68; 68; 15], (VDict [("opcode"%string, (VEnum "LIGHT_CTL_TEMPERATURE_STATUS" 33382)); ("light_ctl_temperature_status"%string, (VDict [("present_ctl_temperature"%string, (VInt 4369)); ("present_ctl_delta_uv"%string, (VInt 8738)); ("target_ctl_temperature"%string, (VInt 13107)); ("target_ctl_delta_uv"%string, (VInt 17476)); ("remaining_time"%string, (VFloat (3 # 2)))]))]));
   ("test_light.py:310"%string, ctl_LightCTLMessage, [130; 98], (VDict [("opcode"%string, (VEnum "LIGHT_CTL_TEMPERATURE_RANGE_GET" 33378)); ("light_ctl_temperature_range_get"%string, (VDict []))]));
   ("test_light.py:315"%string, ctl_LightCTLMessage, [130; 99; 0; 221; 204; 255; 238], (VDict [("opcode"%string, (VEnum "LIGHT_CTL_TEMPERATURE_RANGE_STATUS" 33379)); ("light_ctl_temperature_range_status"%string, (VDict [("status"%string, (VEnum "SUCCESS" 0)); ("range_min"%string, (VInt 52445)); ("range_max"%string, (VInt 61183))]))]));
   ("test_light.py:323"%string, ctl_LightCTLMessage, [130; 103], (VDict [("opcode"%string, (VEnum "LIGHT_CTL_TEMPERATURE_DEFAULT_GET" 33383)); ("light_ctl_temperature_default_get"%string, (VDict []))]));
   ("test_light.py:328"%string, ctl_LightCTLMessage, [130; 104; 221; 204; 255; 238; 17; 17], (VDict [("opcode"%string, (VEnum "LIGHT_CTL_TEMPERATURE_DEFAULT_STATUS" 33384)); ("light_ctl_temperature_default_status"%string, (VDict [("ctl_lightness"%string, (VInt 52445)); ("ctl_temperature"%string, (VInt 61183)); ("ctl_delta_uv"%string, (VInt 4369))]))]));
   ("test_light.py:340"%string, ctl_LightCTLSetupMessage, [130; 105; 221; 204; 255; 238; 17; 17], (VDict [("opcode"%string, (VEnum "LIGHT_CTL_SETUP_TEMPERATURE_DEFAULT_SET" 33385)); ("light_ctl_setup_temperature_default_set"%string, (VDict [("ctl_lightness"%string, (VInt 52445)); ("ctl_temperature"%string, (VInt 61183)); ("ctl_delta_uv"%string, (VInt 4369))]))]));
   ("test_light.py:347"%string, ctl_LightCTLSetupMessage, [130; 106; 221; 204; 255; 238; 17; 17], (VDict [("opcode"%string, (VEnum "LIGHT_CTL_SETUP_TEMPERATURE_DEFAULT_SET_UNACKNOWLEDGED" 33386)); ("light_ctl_setup_temperature_default_set_unacknowledged"%string, (VDict [("ctl_lightness"%string, (VInt 52445)); ("ctl_temperature"%string, (VInt 61183)); ("ctl_delta_uv"%string, (VInt 4369))]))]));
   ("test_light.py:355"%string, ctl_LightCTLSetupMessage, [130; 107; 221; 204; 255; 238], (VDict [("opcode"%string, (VEnum "LIGHT_CTL_SETUP_TEMPERATURE_RANGE_SET" 33387)); ("light_ctl_setup_temperature_range_set"%string, (VDict [("range_min"%string, (VInt 52445)); ("range_max"%string, (VInt 61183))]))]));
   ("test_light.py:361"%string, ctl_LightCTLSetupMessage, [130; 108; 17; 17; 34; 34], (VDict [("opcode"%string, (VEnum "LIGHT_CTL_SETUP_TEMPERATURE_RANGE_SET_UNACKNOWLEDGED" 33388)); ("light_ctl_setup_temperature_range_set_unacknowledged"%string, (VDict [("range_min"%string, (VInt 4369)); ("range_max"%string, (VInt 8738))]))]));
   ("test_scene.py:64"%string, scene_SceneMessage, [130; 65], (VDict [("opcode"%string, (VEnum "SCENE_GET" 33345)); ("scene_get"%string, (VDict []))]));
   ("test_scene.py:69"%string, scene_SceneMessage, [130; 66; 1; 0; 30], (VDict [("opcode"%string, (VEnum "SCENE_RECALL" 33346)); ("scene_recall"%string, (VDict [("scene_number"%string, (VInt 1)); ("tid"%string, (VInt 30))]))]));
   ("test_scene.py:74"%string, scene_SceneMessage, [130; 67; 1; 0; 30], (VDict [("opcode"%string, (VEnum "SCENE_RECALL_UNACKNOWLEDGED" 33347)); ("scene_recall_unacknowledged"%string, (VDict [("scene_number"%string, (VInt 1)); ("tid"%string, (VInt 30))]))]));
   ("test_scene.py:79"%string, scene_SceneMessage, [130; 66; 1; 0; 30; 242; 60], (VDict [("opcode"%string, (VEnum "SCENE_RECALL" 33346)); ("scene_recall"%string, (VDict [("scene_number"%string, (VInt 1)); ("tid"%string, (VInt 30)); ("transition_time"%string, (VInt 30000)); ("delay"%string, (VFloat (5404319552844595 # 18014398509481984)))]))]));
   ("test_scene.py:84"%string, scene_SceneMessage, [130; 67; 1; 0; 30; 242; 60], (VDict [("opcode"%string, (VEnum "SCENE_RECALL_UNACKNOWLEDGED" 33347)); ("scene_recall_unacknowledged"%string, (VDict [("scene_number"%string, (VInt 1)); ("tid"%string, (VInt 30)); ("transition_time"%string, (VInt 30000)); ("delay"%string, (VFloat (5404319552844595 # 18014398509481984)))]))]));
   ("test_scene.py:89"%string, scene_SceneMessage, [94; 0; 1; 0], (VDict [("opcode"%string, (VEnum "SCENE_STATUS" 94)); ("scene_status"%string, (VDict [("status_code"%string, (VInt 0)); ("current_scene"%string, (VInt 1))]))]));
   ("test_scene.py:94"%string, scene_SceneMessage, [94; 0; 1; 0; 2; 0; 242], (VDict [("opcode"%string, (VEnum "SCENE_STATUS" 94)); ("scene_status"%string, (VDict [("status_code"%string, (VInt 0)); ("current_scene"%string, (VInt 1)); ("target_scene"%string, (VInt 2)); ("remaining_time"%string, (VInt 30000))]))]));
   ("test_scene.py:99"%string, scene_SceneMessage, [130; 68], (VDict [("opcode"%string, (VEnum "SCENE_REGISTER_GET" 33348)); ("scene_register_get"%string, (VDict []))]));
   ("test_scene.py:104"%string, scene_SceneMessage, [130; 69; 0; 1; 0; 1; 0; 2; 0; 0; 0; 0; 0; 0; 0; 0; 0; 0; 0; 0; 0; 0; 0; 0; 0; 0; 0; 0; 0; 0; 0; 0; 0; 0; 0; 0; 0], (VDict [("opcode"%string, (VEnum "SCENE_REGISTER_STATUS" 33349)); ("scene_register_status"%string, (VDict [("status_code"%string, (VInt 0)); ("current_scene"%string, (VInt 1)); ("scenes"%string, (VList [(VInt 1); (VInt 2); (VInt 0); (VInt 0); (VInt 0); (VInt 0); (VInt 0); (VInt 0); (VInt 0); (VInt 0); (VInt 0); (VInt 0); (VInt 0); (VInt 0); (VInt 0); (VInt 0)]))]))]));
   ("test_scene.py:109"%string, scene_SceneMessage, [130; 69; 0; 1; 0; 1; 0; 2; 0; 3; 0], (VDict [("opcode"%string, (VEnum "SCENE_REGISTER_STATUS" 33349)); ("scene_register_status"%string, (VDict [("status_code"%string, (VInt 0)); ("current_scene"%string, (VInt 1)); ("scenes"%string, (VList [(VInt 1); (VInt 2); (VInt 3)]))]))]));
   ("test_scene.py:114"%string, scene_SceneMessage, [130; 70; 1; 0], (VDict [("opcode"%string, (VEnum "SCENE_STORE" 33350)); ("scene_store"%string, (VDict [("scene_number"%string, (VInt 1))]))]));
   ("test_scene.py:119"%string, scene_SceneMessage, [130; 71; 1; 0], (VDict [("opcode"%string, (VEnum "SCENE_STORE_UNACKNOWLEDGED" 33351)); ("scene_store_unacknowledged"%string, (VDict [("scene_number"%string, (VInt 1))]))]));
   ("test_scene.py:124"%string, scene_SceneMessage, [130; 158; 1; 0], (VDict [("opcode"%string, (VEnum "SCENE_DELETE" 33438)); ("scene_delete"%string, (VDict [("scene_number"%string, (VInt 1))]))]));
   ("test_scene.py:129"%string, scene_SceneMessage, [130; 159; 1; 0], (VDict [("opcode"%string, (VEnum "SCENE_DELETE_UNACKNOWLEDGED" 33439)); ("scene_delete_unacknowledged"%string, (VDict [("scene_number"%string, (VInt 1))]))]));
   ("test_sensor.py:39"%string, sensor_SensorMessage, [130; 48], (VDict [("opcode"%string, (VEnum "SENSOR_DESCRIPTOR_GET" 33328)); ("sensor_descriptor_get"%string, (VDict []))]));
   ("test_sensor.py:44"%string, sensor_SensorMessage, [130; 48; 4; 0], (VDict [("opcode"%string, (VEnum "SENSOR_DESCRIPTOR_GET" 33328)); ("sensor_descriptor_get"%string, (VDict [("property_id"%string, (VEnum "AVERAGE_OUTPUT_CURRENT" 4))]))]));
   ("test_sensor.py:49"%string, sensor_SensorMessage, [130; 49], (VDict [("opcode"%string, (VEnum "SENSOR_GET" 33329)); ("sensor_get"%string, (VDict []))]));
   ("test_sensor.py:54"%string, sensor_SensorMessage, [130; 49; 7; 0], (VDict [("opcode"%string, (VEnum "SENSOR_GET" 33329)); ("sensor_get"%string, (VDict [("property_id"%string, (VEnum "CHROMATICITY_TOLERANCE" 7))]))]));
   ("test_sensor.py:60"%string, sensor_SensorMessage, [81; 12; 0; 0; 0; 0; 4; 11; 12], (VDict [("opcode"%string, (VEnum "SENSOR_DESCRIPTOR_STATUS" 81)); ("sensor_descriptor_status"%string, (VList [(VDict [("sensor_property_id"%string, (VEnum "DEVICE_DATE_OF_MANUFACTURE" 12)); ("sensor_positive_tolerance"%string, (VInt 0)); ("sensor_negative_tolerance"%string, (VInt 0)); ("sensor_sampling_funcion"%string, (VEnum "MAXIMUM" 4)); ("sensor_measurement_period"%string, (VInt 11)); ("sensor_update_interval"%string, (VInt 12))])]))]));
   ("test_sensor.py:70"%string, sensor_SensorMessage, [81; 25; 0], (VDict [("opcode"%string, (VEnum "SENSOR_DESCRIPTOR_STATUS" 81)); ("sensor_descriptor_status"%string, (VList [(VDict [("sensor_property_id"%string, (VEnum "DEVICE_SERIAL_NUMBER" 25))])]))]));
   ("test_sensor.py:75"%string, sensor_SensorMessage, [81; 12; 0; 0; 0; 0; 2; 11; 12; 31; 0; 239; 205; 171; 7; 27; 28], (VDict [("opcode"%string, (VEnum "SENSOR_DESCRIPTOR_STATUS" 81)); ("sensor_descriptor_status"%string, (VList [(VDict [("sensor_property_id"%string, (VEnum "DEVICE_DATE_OF_MANUFACTURE" 12)); ("sensor_positive_tolerance"%string, (VInt 0)); ("sensor_negative_tolerance"%string, (VInt 0)); ("sensor_sampling_funcion"%string, (VEnum "ARITHMETIC_MEAN" 2)); ("sensor_measurement_period"%string, (VInt 11)); ("sensor_update_interval"%string, (VInt 12))]); (VDict [("sensor_property_id"%string, (VEnum "INITIAL_LUMINOUS_FLUX" 31)); ("sensor_positive_tolerance"%string, (VInt 2748)); ("sensor_negative_tolerance"%string, (VInt 3567)); ("sensor_sampling_funcion"%string, (VEnum "COUNT" 7)); ("sensor_measurement_period"%string, (VInt 27)); ("sensor_update_interval"%string, (VInt 28))])]))]));
   ("test_sensor.py:92"%string, sensor_SensorMessage, [82; 226; 10; 200; 0], (VDict [("opcode"%string, (VEnum "SENSOR_STATUS" 82)); ("sensor_status"%string, (VList [(VDict [("sensor_setting_property_id"%string, (VEnum "PRESENT_INPUT_CURRENT" 87)); ("length"%string, (VInt 2)); ("format"%string, (VInt 0)); ("present_input_current"%string, (VDict [("current"%string, (VFloat (2 # 1)))]))])]))]));
   ("test_sensor.py:100"%string, sensor_SensorMessage, [82; 34; 11; 32; 3], (VDict [("opcode"%string, (VEnum "SENSOR_STATUS" 82)); ("sensor_status"%string, (VList [(VDict [("sensor_setting_property_id"%string, (VEnum "PRESENT_INPUT_VOLTAGE" 89)); ("length"%string, (VInt 2)); ("format"%string, (VInt 0)); ("present_input_voltage"%string, (VDict [("voltage"%string, (VFloat (25 # 2)))]))])]))]));
   ("test_sensor.py:109"%string, sensor_SensorMessage, [82; 68; 13; 162; 68; 255], (VDict [("opcode"%string, (VEnum "SENSOR_STATUS" 82)); ("sensor_status"%string, (VList [(VDict [("sensor_setting_property_id"%string, (VEnum "TOTAL_DEVICE_ENERGY_USE" 106)); ("length"%string, (VInt 3)); ("format"%string, (VInt 0)); ("total_device_energy_use"%string, (VDict [("energy"%string, (VInt 16729250))]))])]))]));
   ("test_sensor.py:119"%string, sensor_SensorMessage, [82; 9; 144; 64; 162; 68; 255; 0; 0], (VDict [("opcode"%string, (VEnum "SENSOR_STATUS" 82)); ("sensor_status"%string, (VList [(VDict [("sensor_setting_property_id"%string, (VInt 16528)); ("length"%string, (VInt 5)); ("format"%string, (VInt 1)); ("sensor_setting_raw"%string, (VList [(VInt 162); (VInt 68); (VInt 255); (VInt 0); (VInt 0)]))])]))]));
   ("test_sensor.py:128"%string, sensor_SensorMessage, [82; 68; 13; 162; 68; 255; 34; 11; 32; 3], (VDict [("opcode"%string, (VEnum "SENSOR_STATUS" 82)); ("sensor_status"%string, (VList [(VDict [("sensor_setting_property_id"%string, (VEnum "TOTAL_DEVICE_ENERGY_USE" 106)); ("length"%string, (VInt 3)); ("format"%string, (VInt 0)); ("total_device_energy_use"%string, (VDict [("energy"%string, (VInt 16729250))]))]); (VDict [("sensor_setting_property_id"%string, (VEnum "PRESENT_INPUT_VOLTAGE" 89)); ("length"%string, (VInt 2)); ("format"%string, (VInt 0)); ("present_input_voltage"%string, (VDict [("voltage"%string, (VFloat (25 # 2)))]))])]))]));
   ("test_sensor.py:146"%string, sensor_SensorSetupMessage, [88; 48; 0; 1; 0; 4; 0; 9; 0], (VDict [("opcode"%string, (VEnum "SENSOR_SETTINGS_STATUS" 88)); ("sensor_settings_status"%string, (VDict [("sensor_property_id"%string, (VEnum "LIGHT_CONTROL_LIGHTNESS_STANDBY" 48)); ("sensor_setting_property_ids"%string, (VList [(VEnum "AVERAGE_AMBIENT_TEMPERATURE_IN_A_PERIOD_OF_DAY" 1); (VEnum "AVERAGE_OUTPUT_CURRENT" 4); (VEnum "COLOR_RENDERING_INDEX_RA" 9)]))]))]));
   ("test_sensor.py:154"%string, sensor_SensorSetupMessage, [88; 48; 0], (VDict [("opcode"%string, (VEnum "SENSOR_SETTINGS_STATUS" 88)); ("sensor_settings_status"%string, (VDict [("sensor_property_id"%string, (VEnum "LIGHT_CONTROL_LIGHTNESS_STANDBY" 48)); ("sensor_setting_property_ids"%string, (VList []))]))]));
   ("test_sensor.py:160"%string, sensor_SensorSetupMessage, [89; 87; 0; 87; 0; 200; 0], (VDict [("opcode"%string, (VEnum "SENSOR_SETTING_SET" 89)); ("sensor_setting_set"%string, (VDict [("sensor_property_id"%string, (VEnum "PRESENT_INPUT_CURRENT" 87)); ("sensor_setting_property_id"%string, (VEnum "PRESENT_INPUT_CURRENT" 87)); ("present_input_current"%string, (VDict [("current"%string, (VFloat (2 # 1)))]))]))]));
   ("test_sensor.py:168"%string, sensor_SensorSetupMessage, [91; 87; 0; 87; 0; 1; 200; 0], (VDict [("opcode"%string, (VEnum "SENSOR_SETTING_STATUS" 91)); ("sensor_setting_status"%string, (VDict [("sensor_property_id"%string, (VEnum "PRESENT_INPUT_CURRENT" 87)); ("sensor_setting_property_id"%string, (VEnum "PRESENT_INPUT_CURRENT" 87)); ("sensor_setting_access"%string, (VEnum "READ_ONLY" 1)); ("present_input_current"%string, (VDict [("current"%string, (VFloat (2 # 1)))]))]))]));
   ("test_sensor.py:177"%string, sensor_SensorSetupMessage, [91; 87; 0; 2; 0; 1; 200; 0; 57], (VDict [("opcode"%string, (VEnum "SENSOR_SETTING_STATUS" 91)); ("sensor_setting_status"%string, (VDict [("sensor_property_id"%string, (VEnum "PRESENT_INPUT_CURRENT" 87)); ("sensor_setting_property_id"%string, (VEnum "AVERAGE_INPUT_CURRENT" 2)); ("sensor_setting_access"%string, (VEnum "READ_ONLY" 1)); ("average_input_current"%string, (VDict [("electric_current_value"%string, (VFloat (2 # 1))); ("sensing_duration"%string, (VDict [("seconds"%string, (VFloat (4622494657533077 # 9007199254740992)))]))]))]))]));
   ("test_time.py:38"%string, time_TimeMessage, [130; 55], (VDict [("opcode"%string, (VEnum "TIME_GET" 33335)); ("time_get"%string, (VDict []))]));
   ("test_time.py:44"%string, time_TimeMessage, [92; 189; 247; 103; 38; 0; 26; 178; 73; 2; 72], (VDict [("opcode"%string, (VEnum "TIME_SET" 92)); ("time_set"%string, (VDict [("date"%string, (VDateTime 1591039837101562 7200)); ("uncertainty"%string, (VTimedelta 1780000)); ("tai_utc_delta"%string, (VTimedelta 37000000)); ("time_authority"%string, (VBool true))]))]));
   ("test_time.py:58"%string, time_TimeMessage, [93; 189; 247; 103; 38; 0; 26; 178; 73; 2; 72], (VDict [("opcode"%string, (VEnum "TIME_STATUS" 93)); ("time_status"%string, (VDict [("date"%string, (VDateTime 1591039837101562 7200)); ("uncertainty"%string, (VTimedelta 1780000)); ("tai_utc_delta"%string, (VTimedelta 37000000)); ("time_authority"%string, (VBool true))]))]));
   ("test_time.py:72"%string, time_TimeMessage, [130; 59], (VDict [("opcode"%string, (VEnum "TIME_ZONE_GET" 33339)); ("time_zone_get"%string, (VDict []))]));
   ("test_time.py:78"%string, time_TimeMessage, [130; 60; 171; 52; 0; 0; 0; 18], (VDict [("opcode"%string, (VEnum "TIME_ZONE_SET" 33340)); ("time_zone_set"%string, (VDict [("time_zone_offset_new"%string, (VInt 171)); ("tai_of_zone_change"%string, (VInt 77309411380))]))]));
   ("test_time.py:87"%string, time_TimeMessage, [130; 61; 205; 171; 52; 0; 0; 0; 18], (VDict [("opcode"%string, (VEnum "TIME_ZONE_STATUS" 33341)); ("time_zone_status"%string, (VDict [("time_zone_offset_current"%string, (VInt 205)); ("time_zone_offset_new"%string, (VInt 171)); ("tai_of_zone_change"%string, (VInt 77309411380))]))]));
   ("test_time.py:97"%string, time_TimeMessage, [130; 62], (VDict [("opcode"%string, (VEnum "TAI_UTC_DELTA_GET" 33342)); ("tai_utc_delta_get"%string, (VDict []))]));
   ("test_time.py:103"%string, time_TimeMessage, [130; 63; 1; 0; 85; 68; 51; 34; 17], (VDict [("opcode"%string, (VEnum "TAI_UTC_DELTA_SET" 33343)); ("tai_utc_delta_set"%string, (VDict [("tai_utc_delta_new"%string, (VInt 1)); ("tai_of_delta_change"%string, (VInt 73588229205))]))]));
   ("test_time.py:112"%string, time_TimeMessage, [130; 64; 1; 64; 1; 0; 85; 68; 51; 34; 17], (VDict [("opcode"%string, (VEnum "TAI_UTC_DELTA_STATUS" 33344)); ("tai_utc_delta_status"%string, (VDict [("tai_utc_delta_current"%string, (VInt 16385)); ("tai_utc_delta_new"%string, (VInt 1)); ("tai_of_delta_change"%string, (VInt 73588229205))]))]));
   ("test_time.py:122"%string, time_TimeMessage, [130; 56], (VDict [("opcode"%string, (VEnum "TIME_ROLE_GET" 33336)); ("time_role_get"%string, (VDict []))]));
   ("test_time.py:128"%string, time_TimeMessage, [130; 57; 3], (VDict [("opcode"%string, (VEnum "TIME_ROLE_SET" 33337)); ("time_role_set"%string, (VDict [("time_role"%string, (VEnum "TIME_CLIENT" 3))]))]));
   ("test_time.py:136"%string, time_TimeMessage, [130; 58; 3], (VDict [("opcode"%string, (VEnum "TIME_ROLE_STATUS" 33338)); ("time_role_status"%string, (VDict [("time_role"%string, (VEnum "TIME_CLIENT" 3))]))]));
   ("test_generic_properties.py:14"%string, property_GenericPropertyMessage, [130; 46], (VDict [("opcode"%string, (VEnum "GENERIC_USER_PROPERTIES_GET" 33326)); ("generic_user_properties_get"%string, (VDict []))]));
   ("test_generic_properties.py:19"%string, property_GenericPropertyMessage, [75; 140; 0; 4; 0; 9; 0], (VDict [("opcode"%string, (VEnum "GENERIC_USER_PROPERTIES_STATUS" 75)); ("generic_user_properties_status"%string, (VDict [("property_ids"%string, (VList [(VEnum "LIGHT_DISTRIBUTION" 140); (VEnum "AVERAGE_OUTPUT_CURRENT" 4); (VEnum "COLOR_RENDERING_INDEX_RA" 9)]))]))]));
   ("test_generic_properties.py:26"%string, property_GenericPropertyMessage, [130; 47; 140; 0], (VDict [("opcode"%string, (VEnum "GENERIC_USER_PROPERTY_GET" 33327)); ("generic_user_property_get"%string, (VDict [("property_id"%string, (VEnum "LIGHT_DISTRIBUTION" 140))]))]));
   ("test_generic_properties.py:31"%string, property_GenericPropertyMessage, [76; 140; 0; 5], (VDict [("opcode"%string, (VEnum "GENERIC_USER_PROPERTY_SET" 76)); ("generic_user_property_set"%string, (VDict [("property_id"%string, (VEnum "LIGHT_DISTRIBUTION" 140)); ("light_distribution"%string, (VDict [("light_distribution"%string, (VEnum "TYPE_V" 5))]))]))]));
   ("test_generic_properties.py:38"%string, property_GenericPropertyMessage, [77; 140; 0; 5], (VDict [("opcode"%string, (VEnum "GENERIC_USER_PROPERTY_SET_UNACKNOWLEDGED" 77)); ("generic_user_property_set_unacknowledged"%string, (VDict [("property_id"%string, (VEnum "LIGHT_DISTRIBUTION" 140)); ("light_distribution"%string, (VDict [("light_distribution"%string, (VEnum "TYPE_V" 5))]))]))]));
   ("test_generic_properties.py:45"%string, property_GenericPropertyMessage, [78; 140; 0; 1; 5], (VDict [("opcode"%string, (VEnum "GENERIC_USER_PROPERTY_STATUS" 78)); ("generic_user_property_status"%string, (VDict [("property_id"%string, (VEnum "LIGHT_DISTRIBUTION" 140)); ("access"%string, (VEnum "READ_ONLY" 1)); ("light_distribution"%string, (VDict [("light_distribution"%string, (VEnum "TYPE_V" 5))]))]))]));
   ("test_generic_properties.py:53"%string, property_GenericPropertyMessage, [130; 44], (VDict [("opcode"%string, (VEnum "GENERIC_ADMIN_PROPERTIES_GET" 33324)); ("generic_admin_properties_get"%string, (VDict []))]));
   ("test_generic_properties.py:58"%string, property_GenericPropertyMessage, [71; 140; 0; 164; 0; 182; 0; 171; 0], (VDict [("opcode"%string, (VEnum "GENERIC_ADMIN_PROPERTIES_STATUS" 71)); ("generic_admin_properties_status"%string, (VDict [("property_ids"%string, (VList [(VEnum "LIGHT_DISTRIBUTION" 140); (VEnum "NOMINAL_LIGHT_OUTPUT" 164); (VEnum "THERMAL_DERATING" 182); (VEnum "RATED_MEDIAN_USEFUL_LIFE_OF_LUMINAIRE" 171)]))]))]));
   ("test_generic_properties.py:67"%string, property_GenericPropertyMessage, [130; 45; 140; 0], (VDict [("opcode"%string, (VEnum "GENERIC_ADMIN_PROPERTY_GET" 33325)); ("generic_admin_property_get"%string, (VDict [("property_id"%string, (VEnum "LIGHT_DISTRIBUTION" 140))]))]));
   ("test_generic_properties.py:72"%string, property_GenericPropertyMessage, [72; 148; 0; 3; 1; 128], (VDict [("opcode"%string, (VEnum "GENERIC_ADMIN_PROPERTY_SET" 72)); ("generic_admin_property_set"%string, (VDict [("property_id"%string, (VEnum "LIGHT_SOURCE_TEMPERATURE" 148)); ("access"%string, (VEnum "READ_WRITE" 3)); ("light_source_temperature"%string, (VDict [("temperature"%string, (VFloat ((-32767) # 2)))]))]))]));
   ("test_generic_properties.py:80"%string, property_GenericPropertyMessage, [73; 164; 0; 1; 255; 255; 255], (VDict [("opcode"%string, (VEnum "GENERIC_ADMIN_PROPERTY_SET_UNACKNOWLEDGED" 73)); ("generic_admin_property_set_unacknowledged"%string, (VDict [("property_id"%string, (VEnum "NOMINAL_LIGHT_OUTPUT" 164)); ("access"%string, (VEnum "READ_ONLY" 1)); ("nominal_light_output"%string, (VDict [("light_output"%string, (VInt 16777215))]))]))]));
   ("test_generic_properties.py:88"%string, property_GenericPropertyMessage, [74; 164; 0; 1; 10; 0; 0], (VDict [("opcode"%string, (VEnum "GENERIC_ADMIN_PROPERTY_STATUS" 74)); ("generic_admin_property_status"%string, (VDict [("property_id"%string, (VEnum "NOMINAL_LIGHT_OUTPUT" 164)); ("access"%string, (VEnum "READ_ONLY" 1)); ("nominal_light_output"%string, (VDict [("light_output"%string, (VInt 10))]))]))]));
   ("test_generic_properties.py:96"%string, property_GenericPropertyMessage, [130; 42], (VDict [("opcode"%string, (VEnum "GENERIC_MANUFACTURER_PROPERTIES_GET" 33322)); ("generic_manufacturer_properties_get"%string, (VDict []))]));
   ("test_generic_properties.py:101"%string, property_GenericPropertyMessage, [67; 157; 0; 143; 0; 182; 0; 7; 0], (VDict [("opcode"%string, (VEnum "GENERIC_MANUFACTURER_PROPERTIES_STATUS" 67)); ("generic_manufacturer_properties_status"%string, (VDict [("property_ids"%string, (VList [(VEnum "LUMINAIRE_NOMINAL_MAXIMUM_AC_MAINS_VOLTAGE" 157); (VEnum "LIGHT_SOURCE_ON_TIME_RESETTABLE" 143); (VEnum "THERMAL_DERATING" 182); (VEnum "CHROMATICITY_TOLERANCE" 7)]))]))]));
   ("test_generic_properties.py:110"%string, property_GenericPropertyMessage, [130; 45; 160; 0], (VDict [("opcode"%string, (VEnum "GENERIC_ADMIN_PROPERTY_GET" 33325)); ("generic_admin_property_get"%string, (VDict [("property_id"%string, (VEnum "LUMINAIRE_TIME_OF_MANUFACTURE" 160))]))]));
   ("test_generic_properties.py:115"%string, property_GenericPropertyMessage, [68; 115; 0; 1], (VDict [("opcode"%string, (VEnum "GENERIC_MANUFACTURER_PROPERTY_SET" 68)); ("generic_manufacturer_property_set"%string, (VDict [("property_id"%string, (VEnum "POWER_FACTOR" 115)); ("access"%string, (VEnum "READ_ONLY" 1))]))]));
   ("test_generic_properties.py:121"%string, property_GenericPropertyMessage, [69; 137; 0; 0], (VDict [("opcode"%string, (VEnum "GENERIC_MANUFACTURER_PROPERTY_SET_UNACKNOWLEDGED" 69)); ("generic_manufacturer_property_set_unacknowledged"%string, (VDict [("property_id"%string, (VEnum "EXTERNAL_SUPPLY_VOLTAGE_FREQUENCY" 137)); ("access"%string, (VEnum "NOT_USER_PROPERTY" 0))]))]));
   ("test_generic_properties.py:127"%string, property_GenericPropertyMessage, [70; 154; 0; 1; 97; 98; 99; 100; 101; 102; 103; 104; 105; 106; 107; 108; 109; 110; 111; 112; 114; 115; 116; 117; 118; 120; 121; 122], (VDict [("opcode"%string, (VEnum "GENERIC_MANUFACTURER_PROPERTY_STATUS" 70)); ("generic_manufacturer_property_status"%string, (VDict [("property_id"%string, (VEnum "LUMINAIRE_IDENTIFICATION_NUMBER" 154)); ("access"%string, (VEnum "READ_ONLY" 1)); ("luminaire_identification_number"%string, (VStr [97; 98; 99; 100; 101; 102; 103; 104; 105; 106; 107; 108; 109; 110; 111; 112; 114; 115; 116; 117; 118; 120; 121; 122]))]))]));
   ("test_generic_properties.py:134"%string, property_GenericPropertyMessage, [70; 179; 0; 1; 3], (VDict [("opcode"%string, (VEnum "GENERIC_MANUFACTURER_PROPERTY_STATUS" 70)); ("generic_manufacturer_property_status"%string, (VDict [("property_id"%string, (VEnum "LIGHT_SOURCE_TYPE" 179)); ("access"%string, (VEnum "READ_ONLY" 1)); ("light_source_type"%string, (VDict [("light_source_type"%string, (VEnum "LOW_VOLTAGE_HALOGEN" 3))]))]))]));
   ("test_generic_properties.py:142"%string, property_GenericPropertyMessage, [79], (VDict [("opcode"%string, (VEnum "GENERIC_CLIENT_PROPERTIES_GET" 79)); ("generic_client_properties_get"%string, (VDict []))]));
   ("test_generic_properties.py:147"%string, property_GenericPropertyMessage, [80; 157; 0; 143; 0; 182; 0; 7; 0], (VDict [("opcode"%string, (VEnum "GENERIC_CLIENT_PROPERTIES_STATUS" 80)); ("generic_client_properties_status"%string, (VDict [("property_ids"%string, (VList [(VEnum "LUMINAIRE_NOMINAL_MAXIMUM_AC_MAINS_VOLTAGE" 157); (VEnum "LIGHT_SOURCE_ON_TIME_RESETTABLE" 143); (VEnum "THERMAL_DERATING" 182); (VEnum "CHROMATICITY_TOLERANCE" 7)]))]))]));
   ("test_sensor.py:192"%string, sensor_SensorSetupMessage, [89; 87; 0; 87; 0; 200; 0], (VDict [("opcode"%string, (VEnum "SENSOR_SETTING_SET" 89)); ("sensor_setting_set"%string, (VDict [("sensor_property_id"%string, (VEnum "PRESENT_INPUT_CURRENT" 87)); ("sensor_setting_property_id"%string, (VEnum "PRESENT_INPUT_CURRENT" 87)); ("present_input_current"%string, (VDict [("current"%string, (VFloat (2 # 1)))]))]))]));
   ("test_sensor.py:199"%string, sensor_SensorSetupMessage, [89; 87; 0; 2; 0; 200; 0; 57], (VDict [("opcode"%string, (VEnum "SENSOR_SETTING_SET" 89)); ("sensor_setting_set"%string, (VDict [("sensor_property_id"%string, (VEnum "PRESENT_INPUT_CURRENT" 87)); ("sensor_setting_property_id"%string, (VEnum "AVERAGE_INPUT_CURRENT" 2)); ("average_input_current"%string, (VDict [("electric_current_value"%string, (VFloat (2 # 1))); ("sensing_duration"%string, (VDict [("seconds"%string, (VFloat (4622494657533077 # 9007199254740992)))]))]))]))]));
   ("test_sensor.py:207"%string, sensor_SensorSetupMessage, [89; 5; 0; 5; 0; 32; 3; 84], (VDict [("opcode"%string, (VEnum "SENSOR_SETTING_SET" 89)); ("sensor_setting_set"%string, (VDict [("sensor_property_id"%string, (VEnum "AVERAGE_OUTPUT_VOLTAGE" 5)); ("sensor_setting_property_id"%string, (VEnum "AVERAGE_OUTPUT_VOLTAGE" 5)); ("average_output_voltage"%string, (VDict [("voltage_value"%string, (VFloat (25 # 2))); ("sensing_duration"%string, (VDict [("seconds"%string, (VFloat (7574491623283753 # 1125899906842624)))]))]))]))]));
   ("test_sensor.py:215"%string, sensor_SensorSetupMessage, [89; 87; 0; 2; 0; 200; 0; 0], (VDict [("opcode"%string, (VEnum "SENSOR_SETTING_SET" 89)); ("sensor_setting_set"%string, (VDict [("sensor_property_id"%string, (VEnum "PRESENT_INPUT_CURRENT" 87)); ("sensor_setting_property_id"%string, (VEnum "AVERAGE_INPUT_CURRENT" 2)); ("average_input_current"%string, (VDict [("electric_current_value"%string, (VFloat (2 # 1))); ("sensing_duration"%string, (VDict [("seconds"%string, (VInt 0))]))]))]))]));
   ("test_sensor.py:223"%string, sensor_SensorSetupMessage, [89; 89; 0; 89; 0; 0; 3], (VDict [("opcode"%string, (VEnum "SENSOR_SETTING_SET" 89)); ("sensor_setting_set"%string, (VDict [("sensor_property_id"%string, (VEnum "PRESENT_INPUT_VOLTAGE" 89)); ("sensor_setting_property_id"%string, (VEnum "PRESENT_INPUT_VOLTAGE" 89)); ("present_input_voltage"%string, (VDict [("voltage"%string, (VInt 12))]))]))]));
   ("test_sensor.py:230"%string, sensor_SensorSetupMessage, [89; 66; 0; 77; 0; 1], (VDict [("opcode"%string, (VEnum "SENSOR_SETTING_SET" 89)); ("sensor_setting_set"%string, (VDict [("sensor_property_id"%string, (VEnum "MOTION_SENSED" 66)); ("sensor_setting_property_id"%string, (VEnum "PRESENCE_DETECTED" 77)); ("presence_detected"%string, (VDict [("presence_detected"%string, (VBool true))]))]))]));
   ("test_sensor.py:237"%string, sensor_SensorSetupMessage, [89; 66; 0; 66; 0; 80], (VDict [("opcode"%string, (VEnum "SENSOR_SETTING_SET" 89)); ("sensor_setting_set"%string, (VDict [("sensor_property_id"%string, (VEnum "MOTION_SENSED" 66)); ("sensor_setting_property_id"%string, (VEnum "MOTION_SENSED" 66)); ("motion_sensed"%string, (VDict [("percentage"%string, (VInt 40))]))]))]));
   ("test_sensor.py:244"%string, sensor_SensorSetupMessage, [89; 10; 0; 54; 0; 184; 11; 0], (VDict [("opcode"%string, (VEnum "SENSOR_SETTING_SET" 89)); ("sensor_setting_set"%string, (VDict [("sensor_property_id"%string, (VEnum "DEVICE_APPEARANCE" 10)); ("sensor_setting_property_id"%string, (VEnum "LIGHT_CONTROL_TIME_FADE" 54)); ("light_control_time_fade"%string, (VDict [("seconds"%string, (VInt 3))]))]))]));
   ("test_sensor.py:251"%string, sensor_SensorSetupMessage, [89; 109; 0; 109; 0; 10; 0; 0], (VDict [("opcode"%string, (VEnum "SENSOR_SETTING_SET" 89)); ("sensor_setting_set"%string, (VDict [("sensor_property_id"%string, (VEnum "TOTAL_DEVICE_POWER_ON_TIME" 109)); ("sensor_setting_property_id"%string, (VEnum "TOTAL_DEVICE_POWER_ON_TIME" 109)); ("total_device_power_on_time"%string, (VDict [("hours"%string, (VInt 10))]))]))]));
   ("test_sensor.py:258"%string, sensor_SensorSetupMessage, [89; 109; 0; 109; 0; 255; 255; 255], (VDict [("opcode"%string, (VEnum "SENSOR_SETTING_SET" 89)); ("sensor_setting_set"%string, (VDict [("sensor_property_id"%string, (VEnum "TOTAL_DEVICE_POWER_ON_TIME" 109)); ("sensor_setting_property_id"%string, (VEnum "TOTAL_DEVICE_POWER_ON_TIME" 109)); ("total_device_power_on_time"%string, (VDict [("hours"%string, (VFloat fmax))]))]))]));
   ("test_sensor.py:265"%string, sensor_SensorSetupMessage, [89; 85; 0; 85; 0; 26; 39; 0], (VDict [("opcode"%string, (VEnum "SENSOR_SETTING_SET" 89)); ("sensor_setting_set"%string, (VDict [("sensor_property_id"%string, (VEnum "PRESENT_ILLUMINANCE" 85)); ("sensor_setting_property_id"%string, (VEnum "PRESENT_ILLUMINANCE" 85)); ("present_illuminance"%string, (VDict [("illuminance"%string, (VFloat (3521955646092083 # 35184372088832)))]))]))]));
   ("test_sensor.py:272"%string, sensor_SensorSetupMessage, [89; 76; 0; 76; 0; 27; 26], (VDict [("opcode"%string, (VEnum "SENSOR_SETTING_SET" 89)); ("sensor_setting_set"%string, (VDict [("sensor_property_id"%string, (VEnum "PEOPLE_COUNT" 76)); ("sensor_setting_property_id"%string, (VEnum "PEOPLE_COUNT" 76)); ("people_count"%string, (VDict [("count"%string, (VInt 6683))]))]))]));
   ("test_sensor.py:279"%string, sensor_SensorSetupMessage, [89; 108; 0; 108; 0; 255; 27; 26], (VDict [("opcode"%string, (VEnum "SENSOR_SETTING_SET" 89)); ("sensor_setting_set"%string, (VDict [("sensor_property_id"%string, (VEnum "TOTAL_DEVICE_POWER_ON_CYCLES" 108)); ("sensor_setting_property_id"%string, (VEnum "TOTAL_DEVICE_POWER_ON_CYCLES" 108)); ("total_device_power_on_cycles"%string, (VDict [("count"%string, (VInt 1711103))]))]))]));
   ("test_sensor.py:286"%string, sensor_SensorSetupMessage, [89; 108; 0; 108; 0; 255; 255; 255], (VDict [("opcode"%string, (VEnum "SENSOR_SETTING_SET" 89)); ("sensor_setting_set"%string, (VDict [("sensor_property_id"%string, (VEnum "TOTAL_DEVICE_POWER_ON_CYCLES" 108)); ("sensor_setting_property_id"%string, (VEnum "TOTAL_DEVICE_POWER_ON_CYCLES" 108)); ("total_device_power_on_cycles"%string, (VDict [("count"%string, (VFloat fmax))]))]))]));
   ("test_sensor.py:293"%string, sensor_SensorSetupMessage, [89; 104; 0; 104; 0; 5; 0], (VDict [("opcode"%string, (VEnum "SENSOR_SETTING_SET" 89)); ("sensor_setting_set"%string, (VDict [("sensor_property_id"%string, (VEnum "TIME_SINCE_MOTION_SENSED" 104)); ("sensor_setting_property_id"%string, (VEnum "TIME_SINCE_MOTION_SENSED" 104)); ("time_since_motion_sensed"%string, (VDict [("seconds"%string, (VInt 5))]))]))]));
   ("test_sensor.py:300"%string, sensor_SensorSetupMessage, [89; 103; 0; 103; 0; 5; 0; 1; 0; 112; 64], (VDict [("opcode"%string, (VEnum "SENSOR_SETTING_SET" 89)); ("sensor_setting_set"%string, (VDict [("sensor_property_id"%string, (VEnum "SHORT_CIRCUIT_EVENT_STATISTICS" 103)); ("sensor_setting_property_id"%string, (VEnum "SHORT_CIRCUIT_EVENT_STATISTICS" 103)); ("short_circuit_event_statistics"%string, (VDict [("number_of_events"%string, (VDict [("count"%string, (VInt 5))])); ("average_event_duration"%string, (VDict [("seconds"%string, (VInt 1))])); ("time_elapsed_since_last_event"%string, (VDict [("seconds"%string, (VFloat (426686157977079 # 4398046511104)))])); ("sensing_duration"%string, (VDict [("seconds"%string, (VInt 1))]))]))]))]));
   ("test_sensor.py:311"%string, sensor_SensorSetupMessage, [89; 14; 0; 14; 0; 97; 98; 99; 100; 101; 102; 103; 104], (VDict [("opcode"%string, (VEnum "SENSOR_SETTING_SET" 89)); ("sensor_setting_set"%string, (VDict [("sensor_property_id"%string, (VEnum "DEVICE_FIRMWARE_REVISION" 14)); ("sensor_setting_property_id"%string, (VEnum "DEVICE_FIRMWARE_REVISION" 14)); ("device_firmware_revision"%string, (VStr [97; 98; 99; 100; 101; 102; 103; 104]))]))]));
   ("test_sensor.py:318"%string, sensor_SensorSetupMessage, [89; 14; 0; 14; 0; 97; 98; 99; 100; 101; 102; 0; 0], (VDict [("opcode"%string, (VEnum "SENSOR_SETTING_SET" 89)); ("sensor_setting_set"%string, (VDict [("sensor_property_id"%string, (VEnum "DEVICE_FIRMWARE_REVISION" 14)); ("sensor_setting_property_id"%string, (VEnum "DEVICE_FIRMWARE_REVISION" 14)); ("device_firmware_revision"%string, (VStr [97; 98; 99; 100; 101; 102]))]))]));
   ("test_sensor.py:325"%string, sensor_SensorSetupMessage, [89; 17; 0; 17; 0; 97; 98; 99; 100; 101; 102; 103; 104; 97; 98; 99; 100; 101; 102; 103; 104; 97; 98; 99; 100; 101; 102; 103; 104; 97; 98; 99; 100; 101; 102; 103; 104; 97; 98; 99; 100], (VDict [("opcode"%string, (VEnum "SENSOR_SETTING_SET" 89)); ("sensor_setting_set"%string, (VDict [("sensor_property_id"%string, (VEnum "DEVICE_MANUFACTURER_NAME" 17)); ("sensor_setting_property_id"%string, (VEnum "DEVICE_MANUFACTURER_NAME" 17)); ("device_manufacturer_name"%string, (VStr [97; 98; 99; 100; 101; 102; 103; 104; 97; 98; 99; 100; 101; 102; 103; 104; 97; 98; 99; 100; 101; 102; 103; 104; 97; 98; 99; 100; 101; 102; 103; 104; 97; 98; 99; 100]))]))]));
   ("test_sensor.py:332"%string, sensor_SensorSetupMessage, [89; 106; 0; 106; 0; 162; 68; 255], (VDict [("opcode"%string, (VEnum "SENSOR_SETTING_SET" 89)); ("sensor_setting_set"%string, (VDict [("sensor_property_id"%string, (VEnum "TOTAL_DEVICE_ENERGY_USE" 106)); ("sensor_setting_property_id"%string, (VEnum "TOTAL_DEVICE_ENERGY_USE" 106)); ("total_device_energy_use"%string, (VDict [("energy"%string, (VInt 16729250))]))]))]));
   ("test_sensor.py:340"%string, sensor_SensorSetupMessage, [89; 114; 0; 114; 0; 72; 207; 182; 99], (VDict [("opcode"%string, (VEnum "SENSOR_SETTING_SET" 89)); ("sensor_setting_set"%string, (VDict [("sensor_property_id"%string, (VEnum "PRECISE_TOTAL_DEVICE_ENERGY_USE" 114)); ("sensor_setting_property_id"%string, (VEnum "PRECISE_TOTAL_DEVICE_ENERGY_USE" 114)); ("precise_total_device_energy_use"%string, (VDict [("energy"%string, (VInt 1672925))]))]))]));
   ("test_sensor.py:348"%string, sensor_SensorSetupMessage, [89; 114; 0; 114; 0; 255; 255; 255; 255], (VDict [("opcode"%string, (VEnum "SENSOR_SETTING_SET" 89)); ("sensor_setting_set"%string, (VDict [("sensor_property_id"%string, (VEnum "PRECISE_TOTAL_DEVICE_ENERGY_USE" 114)); ("sensor_setting_property_id"%string, (VEnum "PRECISE_TOTAL_DEVICE_ENERGY_USE" 114)); ("precise_total_device_energy_use"%string, (VDict [("energy"%string, (VFloat (2305843008676823 # 536870912)))]))]))]));
   ("test_sensor.py:356"%string, sensor_SensorSetupMessage, [89; 128; 0; 128; 0; 72; 207; 182; 99], (VDict [("opcode"%string, (VEnum "SENSOR_SETTING_SET" 89)); ("sensor_setting_set"%string, (VDict [("sensor_property_id"%string, (VEnum "ACTIVE_ENERGY_LOAD_SIDE" 128)); ("sensor_setting_property_id"%string, (VEnum "ACTIVE_ENERGY_LOAD_SIDE" 128)); ("active_energy_load_side"%string, (VDict [("energy"%string, (VInt 1672925))]))]))]));
   ("test_sensor.py:364"%string, sensor_SensorSetupMessage, [89; 128; 0; 128; 0; 255; 255; 255; 255], (VDict [("opcode"%string, (VEnum "SENSOR_SETTING_SET" 89)); ("sensor_setting_set"%string, (VDict [("sensor_property_id"%string, (VEnum "ACTIVE_ENERGY_LOAD_SIDE" 128)); ("sensor_setting_property_id"%string, (VEnum "ACTIVE_ENERGY_LOAD_SIDE" 128)); ("active_energy_load_side"%string, (VDict [("energy"%string, (VFloat (2305843008676823 # 536870912)))]))]))]));
   ("test_sensor.py:372"%string, sensor_SensorSetupMessage, [89; 131; 0; 131; 0; 72; 207; 182; 99], (VDict [("opcode"%string, (VEnum "SENSOR_SETTING_SET" 89)); ("sensor_setting_set"%string, (VDict [("sensor_property_id"%string, (VEnum "APPARENT_ENERGY" 131)); ("sensor_setting_property_id"%string, (VEnum "APPARENT_ENERGY" 131)); ("apparent_energy"%string, (VDict [("energy"%string, (VInt 1672925))]))]))]));
   ("test_sensor.py:380"%string, sensor_SensorSetupMessage, [89; 131; 0; 131; 0; 255; 255; 255; 255], (VDict [("opcode"%string, (VEnum "SENSOR_SETTING_SET" 89)); ("sensor_setting_set"%string, (VDict [("sensor_property_id"%string, (VEnum "APPARENT_ENERGY" 131)); ("sensor_setting_property_id"%string, (VEnum "APPARENT_ENERGY" 131)); ("apparent_energy"%string, (VDict [("energy"%string, (VFloat (2305843008676823 # 536870912)))]))]))]));
   ("test_sensor.py:388"%string, sensor_SensorSetupMessage, [89; 46; 0; 46; 0; 68; 255], (VDict [("opcode"%string, (VEnum "SENSOR_SETTING_SET" 89)); ("sensor_setting_set"%string, (VDict [("sensor_property_id"%string, (VEnum "LIGHT_CONTROL_LIGHTNESS_ON" 46)); ("sensor_setting_property_id"%string, (VEnum "LIGHT_CONTROL_LIGHTNESS_ON" 46)); ("light_control_lightness_on"%string, (VDict [("perceived_lightness"%string, (VInt 65348))]))]))]));
   ("test_sensor.py:396"%string, sensor_SensorSetupMessage, [89; 50; 0; 50; 0; 68; 255; 0; 0], (VDict [("opcode"%string, (VEnum "SENSOR_SETTING_SET" 89)); ("sensor_setting_set"%string, (VDict [("sensor_property_id"%string, (VEnum "LIGHT_CONTROL_REGULATOR_KID" 50)); ("sensor_setting_property_id"%string, (VEnum "LIGHT_CONTROL_REGULATOR_KID" 50)); ("light_control_regulator_kid"%string, (VDict [("coefficient"%string, (VInt 65348))]))]))]));
   ("test_sensor.py:404"%string, sensor_SensorSetupMessage, [89; 82; 0; 82; 0; 160; 134; 1], (VDict [("opcode"%string, (VEnum "SENSOR_SETTING_SET" 89)); ("sensor_setting_set"%string, (VDict [("sensor_property_id"%string, (VEnum "PRESENT_DEVICE_INPUT_POWER" 82)); ("sensor_setting_property_id"%string, (VEnum "PRESENT_DEVICE_INPUT_POWER" 82)); ("present_device_input_power"%string, (VDict [("power"%string, (VInt 10000))]))]))]));
   ("test_sensor.py:412"%string, sensor_SensorSetupMessage, [89; 82; 0; 82; 0; 255; 255; 255], (VDict [("opcode"%string, (VEnum "SENSOR_SETTING_SET" 89)); ("sensor_setting_set"%string, (VDict [("sensor_property_id"%string, (VEnum "PRESENT_DEVICE_INPUT_POWER" 82)); ("sensor_setting_property_id"%string, (VEnum "PRESENT_DEVICE_INPUT_POWER" 82)); ("present_device_input_power"%string, (VDict [("power"%string, (VFloat (3355443 # 2)))]))]))]));
   ("test_sensor.py:420"%string, sensor_SensorSetupMessage, [89; 22; 0; 22; 0; 232; 3; 0; 208; 7; 0; 15; 39; 0], (VDict [("opcode"%string, (VEnum "SENSOR_SETTING_SET" 89)); ("sensor_setting_set"%string, (VDict [("sensor_property_id"%string, (VEnum "DEVICE_POWER_RANGE_SPECIFICATION" 22)); ("sensor_setting_property_id"%string, (VEnum "DEVICE_POWER_RANGE_SPECIFICATION" 22)); ("device_power_range_specification"%string, (VDict [("minimum_power_value"%string, (VInt 100)); ("typical_power_value"%string, (VInt 200)); ("maximum_power_value"%string, (VFloat (8795213412905779 # 8796093022208)))]))]))]));
   ("test_sensor.py:430"%string, sensor_SensorSetupMessage, [89; 79; 0; 79; 0; 31], (VDict [("opcode"%string, (VEnum "SENSOR_SETTING_SET" 89)); ("sensor_setting_set"%string, (VDict [("sensor_property_id"%string, (VEnum "PRESENT_AMBIENT_TEMPERATURE" 79)); ("sensor_setting_property_id"%string, (VEnum "PRESENT_AMBIENT_TEMPERATURE" 79)); ("present_ambient_temperature"%string, (VDict [("temperature"%string, (VFloat (31 # 2)))]))]))]));
   ("test_sensor.py:438"%string, sensor_SensorSetupMessage, [89; 79; 0; 79; 0; 225], (VDict [("opcode"%string, (VEnum "SENSOR_SETTING_SET" 89)); ("sensor_setting_set"%string, (VDict [("sensor_property_id"%string, (VEnum "PRESENT_AMBIENT_TEMPERATURE" 79)); ("sensor_setting_property_id"%string, (VEnum "PRESENT_AMBIENT_TEMPERATURE" 79)); ("present_ambient_temperature"%string, (VDict [("temperature"%string, (VFloat ((-31) # 2)))]))]))]));
   ("test_sensor.py:446"%string, sensor_SensorSetupMessage, [89; 84; 0; 84; 0; 230; 32], (VDict [("opcode"%string, (VEnum "SENSOR_SETTING_SET" 89)); ("sensor_setting_set"%string, (VDict [("sensor_property_id"%string, (VEnum "PRESENT_DEVICE_OPERATING_TEMPERATURE" 84)); ("sensor_setting_property_id"%string, (VEnum "PRESENT_DEVICE_OPERATING_TEMPERATURE" 84)); ("present_device_operating_temperature"%string, (VDict [("temperature"%string, (VFloat (2963227817321431 # 35184372088832)))]))]))]));
   ("test_sensor.py:454"%string, sensor_SensorSetupMessage, [89; 69; 0; 69; 0; 49; 2; 220; 110; 113], (VDict [("opcode"%string, (VEnum "SENSOR_SETTING_SET" 89)); ("sensor_setting_set"%string, (VDict [("sensor_property_id"%string, (VEnum "OUTDOOR_STATISTICAL_VALUES" 69)); ("sensor_setting_property_id"%string, (VEnum "OUTDOOR_STATISTICAL_VALUES" 69)); ("outdoor_statistical_values"%string, (VDict [("average_temperature"%string, (VFloat (49 # 2))); ("standard_deviation_temperature"%string, (VInt 1)); ("minimum_temperature"%string, (VInt (-18))); ("maximum_temperature"%string, (VInt 55)); ("sensing_duration"%string, (VDict [("seconds"%string, (VFloat (1877420502474031 # 17592186044416)))]))]))]))]));
   ("test_sensor.py:466"%string, sensor_SensorSetupMessage, [89; 20; 0; 20; 0; 146; 9; 100; 0; 248; 248; 32; 78; 113], (VDict [("opcode"%string, (VEnum "SENSOR_SETTING_SET" 89)); ("sensor_setting_set"%string, (VDict [("sensor_property_id"%string, (VEnum "DEVICE_OPERATING_TEMPERATURE_STATISTICAL_VALUES" 20)); ("sensor_setting_property_id"%string, (VEnum "DEVICE_OPERATING_TEMPERATURE_STATISTICAL_VALUES" 20)); ("device_operating_temperature_statistical_values"%string, (VDict [("average_temperature"%string, (VFloat (49 # 2))); ("standard_deviation_temperature"%string, (VInt 1)); ("minimum_temperature"%string, (VInt (-18))); ("maximum_temperature"%string, (VInt 200)); ("sensing_duration"%string, (VDict [("seconds"%string, (VFloat (1877420502474031 # 17592186044416)))]))]))]))]));
   ("test_sensor.py:478"%string, sensor_SensorSetupMessage, [89; 19; 0; 19; 0; 220; 110], (VDict [("opcode"%string, (VEnum "SENSOR_SETTING_SET" 89)); ("sensor_setting_set"%string, (VDict [("sensor_property_id"%string, (VEnum "DEVICE_OPERATING_TEMPERATURE_RANGE_SPECIFICATION" 19)); ("sensor_setting_property_id"%string, (VEnum "DEVICE_OPERATING_TEMPERATURE_RANGE_SPECIFICATION" 19)); ("device_operating_temperature_range_specification"%string, (VDict [("minimum_temperature"%string, (VInt (-18))); ("maximum_temperature"%string, (VInt 55))]))]))]));
   ("test_sensor.py:487"%string, sensor_SensorSetupMessage, [89; 1; 0; 1; 0; 24; 109; 162], (VDict [("opcode"%string, (VEnum "SENSOR_SETTING_SET" 89)); ("sensor_setting_set"%string, (VDict [("sensor_property_id"%string, (VEnum "AVERAGE_AMBIENT_TEMPERATURE_IN_A_PERIOD_OF_DAY" 1)); ("sensor_setting_property_id"%string, (VEnum "AVERAGE_AMBIENT_TEMPERATURE_IN_A_PERIOD_OF_DAY" 1)); ("average_ambient_temperature_in_a_period_of_day"%string, (VDict [("temperature"%string, (VInt 12)); ("start_time"%string, (VDict [("hour"%string, (VFloat (6136154492292301 # 562949953421312)))])); ("end_time"%string, (VDict [("hour"%string, (VFloat (4559894622712627 # 281474976710656)))]))]))]))]));
   ("test_sensor.py:497"%string, sensor_SensorSetupMessage, [89; 96; 0; 96; 0; 162; 68; 255; 109; 162], (VDict [("opcode"%string, (VEnum "SENSOR_SETTING_SET" 89)); ("sensor_setting_set"%string, (VDict [("sensor_property_id"%string, (VEnum "RELATIVE_DEVICE_ENERGY_USE_IN_A_PERIOD_OF_DAY" 96)); ("sensor_setting_property_id"%string, (VEnum "RELATIVE_DEVICE_ENERGY_USE_IN_A_PERIOD_OF_DAY" 96)); ("relative_device_energy_use_in_a_period_of_day"%string, (VDict [("energy_value"%string, (VInt 16729250)); ("start_time"%string, (VDict [("hour"%string, (VFloat (6136154492292301 # 562949953421312)))])); ("end_time"%string, (VDict [("hour"%string, (VFloat (4559894622712627 # 281474976710656)))]))]))]))]));
   ("test_sensor.py:507"%string, sensor_SensorSetupMessage, [89; 42; 0; 42; 0; 105; 1; 64; 0; 0; 0; 240; 255; 84], (VDict [("opcode"%string, (VEnum "SENSOR_SETTING_SET" 89)); ("sensor_setting_set"%string, (VDict [("sensor_property_id"%string, (VEnum "INPUT_VOLTAGE_STATISTICS" 42)); ("sensor_setting_property_id"%string, (VEnum "INPUT_VOLTAGE_STATISTICS" 42)); ("input_voltage_statistics"%string, (VDict [("average_voltage_value"%string, (VFloat (361 # 64))); ("standard_deviation_voltage_value"%string, (VInt 1)); ("minimum_voltage_value"%string, (VInt 0)); ("maximum_voltage_value"%string, (VFloat (4095 # 4))); ("sensing_duration"%string, (VDict [("seconds"%string, (VFloat (7574491623283753 # 1125899906842624)))]))]))]))]));
   ("test_sensor.py:519"%string, sensor_SensorSetupMessage, [89; 73; 0; 73; 0; 0; 0; 0; 6; 240; 255], (VDict [("opcode"%string, (VEnum "SENSOR_SETTING_SET" 89)); ("sensor_setting_set"%string, (VDict [("sensor_property_id"%string, (VEnum "OUTPUT_VOLTAGE_RANGE" 73)); ("sensor_setting_property_id"%string, (VEnum "OUTPUT_VOLTAGE_RANGE" 73)); ("output_voltage_range"%string, (VDict [("minimum_voltage_value"%string, (VInt 0)); ("typical_voltage_value"%string, (VInt 24)); ("maximum_voltage_value"%string, (VFloat (4095 # 4)))]))]))]));
   ("test_sensor.py:529"%string, sensor_SensorSetupMessage, [89; 71; 0; 71; 0; 151; 9; 100; 0; 0; 0; 125; 21; 113], (VDict [("opcode"%string, (VEnum "SENSOR_SETTING_SET" 89)); ("sensor_setting_set"%string, (VDict [("sensor_property_id"%string, (VEnum "OUTPUT_CURRENT_STATISTICS" 71)); ("sensor_setting_property_id"%string, (VEnum "OUTPUT_CURRENT_STATISTICS" 71)); ("output_current_statistics"%string, (VDict [("average_electric_current_value"%string, (VFloat (6910210678246605 # 281474976710656))); ("standard_deviation_electric_current_value"%string, (VInt 1)); ("minimum_electric_current_value"%string, (VInt 0)); ("maximum_electric_current_value"%string, (VFloat (7741969234426593 # 140737488355328))); ("sensing_duration"%string, (VDict [("seconds"%string, (VFloat (1877420502474031 # 17592186044416)))]))]))]))]));
   ("test_sensor.py:541"%string, sensor_SensorSetupMessage, [89; 70; 0; 70; 0; 0; 0; 125; 21], (VDict [("opcode"%string, (VEnum "SENSOR_SETTING_SET" 89)); ("sensor_setting_set"%string, (VDict [("sensor_property_id"%string, (VEnum "OUTPUT_CURRENT_RANGE" 70)); ("sensor_setting_property_id"%string, (VEnum "OUTPUT_CURRENT_RANGE" 70)); ("output_current_range"%string, (VDict [("minimum_electric_current_value"%string, (VInt 0)); ("maximum_electric_current_value"%string, (VFloat (7741969234426593 # 140737488355328)))]))]))]));
   ("test_sensor.py:550"%string, sensor_SensorSetupMessage, [89; 33; 0; 33; 0; 0; 0; 1; 0; 125; 21], (VDict [("opcode"%string, (VEnum "SENSOR_SETTING_SET" 89)); ("sensor_setting_set"%string, (VDict [("sensor_property_id"%string, (VEnum "INPUT_CURRENT_RANGE_SPECIFICATION" 33)); ("sensor_setting_property_id"%string, (VEnum "INPUT_CURRENT_RANGE_SPECIFICATION" 33)); ("input_current_range_specification"%string, (VDict [("minimum_electric_current_value"%string, (VInt 0)); ("typical_electric_current_value"%string, (VFloat (5764607523034235 # 576460752303423488))); ("maximum_electric_current_value"%string, (VFloat (7741969234426593 # 140737488355328)))]))]))]));
   ("test_sensor.py:560"%string, sensor_SensorSetupMessage, [89; 112; 0; 112; 0; 2; 0; 0], (VDict [("opcode"%string, (VEnum "SENSOR_SETTING_SET" 89)); ("sensor_setting_set"%string, (VDict [("sensor_property_id"%string, (VEnum "TOTAL_LUMINOUS_ENERGY" 112)); ("sensor_setting_property_id"%string, (VEnum "TOTAL_LUMINOUS_ENERGY" 112)); ("total_luminous_energy"%string, (VDict [("luminous_energy"%string, (VInt 2000))]))]))]));
   ("test_sensor.py:568"%string, sensor_SensorSetupMessage, [89; 6; 0; 6; 0; 0; 32], (VDict [("opcode"%string, (VEnum "SENSOR_SETTING_SET" 89)); ("sensor_setting_set"%string, (VDict [("sensor_property_id"%string, (VEnum "CENTER_BEAM_INTENSITY_AT_FULL_POWER" 6)); ("sensor_setting_property_id"%string, (VEnum "CENTER_BEAM_INTENSITY_AT_FULL_POWER" 6)); ("center_beam_intensity_at_full_power"%string, (VDict [("luminous_intensity"%string, (VInt 8192))]))]))]));
   ("test_sensor.py:576"%string, sensor_SensorSetupMessage, [89; 64; 0; 64; 0; 2; 0; 0], (VDict [("opcode"%string, (VEnum "SENSOR_SETTING_SET" 89)); ("sensor_setting_set"%string, (VDict [("sensor_property_id"%string, (VEnum "LUMINOUS_EXPOSURE" 64)); ("sensor_setting_property_id"%string, (VEnum "LUMINOUS_EXPOSURE" 64)); ("luminous_exposure"%string, (VDict [("luminous_exposure"%string, (VInt 2000))]))]))]));
   ("test_sensor.py:584"%string, sensor_SensorSetupMessage, [89; 31; 0; 31; 0; 208; 7], (VDict [("opcode"%string, (VEnum "SENSOR_SETTING_SET" 89)); ("sensor_setting_set"%string, (VDict [("sensor_property_id"%string, (VEnum "INITIAL_LUMINOUS_FLUX" 31)); ("sensor_setting_property_id"%string, (VEnum "INITIAL_LUMINOUS_FLUX" 31)); ("initial_luminous_flux"%string, (VDict [("luminous_flux"%string, (VInt 2000))]))]))]));
   ("test_sensor.py:592"%string, sensor_SensorSetupMessage, [89; 65; 0; 65; 0; 232; 3; 208; 7], (VDict [("opcode"%string, (VEnum "SENSOR_SETTING_SET" 89)); ("sensor_setting_set"%string, (VDict [("sensor_property_id"%string, (VEnum "LUMINOUS_FLUX_RANGE" 65)); ("sensor_setting_property_id"%string, (VEnum "LUMINOUS_FLUX_RANGE" 65)); ("luminous_flux_range"%string, (VDict [("minimum_luminous_flux"%string, (VInt 1000)); ("maximum_luminous_flux"%string, (VInt 2000))]))]))]));
   ("test_sensor.py:601"%string, sensor_SensorSetupMessage, [89; 62; 0; 62; 0; 212; 7], (VDict [("opcode"%string, (VEnum "SENSOR_SETTING_SET" 89)); ("sensor_setting_set"%string, (VDict [("sensor_property_id"%string, (VEnum "LUMINOUS_EFFICACY" 62)); ("sensor_setting_property_id"%string, (VEnum "LUMINOUS_EFFICACY" 62)); ("luminous_efficacy"%string, (VDict [("luminous_efficacy"%string, (VFloat (7050948166601933 # 35184372088832)))]))]))]));
   ("test_sensor.py:609"%string, sensor_SensorSetupMessage, [89; 15; 0; 15; 0; 255; 238; 221; 204; 187; 170], (VDict [("opcode"%string, (VEnum "SENSOR_SETTING_SET" 89)); ("sensor_setting_set"%string, (VDict [("sensor_property_id"%string, (VEnum "DEVICE_GLOBAL_TRADE_ITEM_NUMBER" 15)); ("sensor_setting_property_id"%string, (VEnum "DEVICE_GLOBAL_TRADE_ITEM_NUMBER" 15)); ("device_global_trade_item_number"%string, (VDict [("global_trade_item_number"%string, (VInt 187723572702975))]))]))]));
   ("test_sensor.py:617"%string, sensor_SensorSetupMessage, [89; 7; 0; 7; 0; 100], (VDict [("opcode"%string, (VEnum "SENSOR_SETTING_SET" 89)); ("sensor_setting_set"%string, (VDict [("sensor_property_id"%string, (VEnum "CHROMATICITY_TOLERANCE" 7)); ("sensor_setting_property_id"%string, (VEnum "CHROMATICITY_TOLERANCE" 7)); ("chromaticity_tolerance"%string, (VDict [("chromaticity_tolerance"%string, (VFloat (5764607523034235 # 576460752303423488)))]))]))]));
   ("test_sensor.py:625"%string, sensor_SensorSetupMessage, [89; 94; 0; 94; 0; 146; 39], (VDict [("opcode"%string, (VEnum "SENSOR_SETTING_SET" 89)); ("sensor_setting_set"%string, (VDict [("sensor_property_id"%string, (VEnum "PRESENT_PLANCKIAN_DISTANCE" 94)); ("sensor_setting_property_id"%string, (VEnum "PRESENT_PLANCKIAN_DISTANCE" 94)); ("present_planckian_distance"%string, (VDict [("distance_from_planckian"%string, (VFloat (1824858569010525 # 18014398509481984)))]))]))]));
   ("test_sensor.py:633"%string, sensor_SensorSetupMessage, [89; 81; 0; 81; 0; 184; 11], (VDict [("opcode"%string, (VEnum "SENSOR_SETTING_SET" 89)); ("sensor_setting_set"%string, (VDict [("sensor_property_id"%string, (VEnum "PRESENT_CORRELATED_COLOR_TEMPERATURE" 81)); ("sensor_setting_property_id"%string, (VEnum "PRESENT_CORRELATED_COLOR_TEMPERATURE" 81)); ("present_correlated_color_temperature"%string, (VDict [("correlated_color_temperature"%string, (VInt 3000))]))]))]));
   ("test_sensor.py:641"%string, sensor_SensorSetupMessage, [89; 10; 0; 10; 0; 4; 240], (VDict [("opcode"%string, (VEnum "SENSOR_SETTING_SET" 89)); ("sensor_setting_set"%string, (VDict [("sensor_property_id"%string, (VEnum "DEVICE_APPEARANCE" 10)); ("sensor_setting_property_id"%string, (VEnum "DEVICE_APPEARANCE" 10)); ("device_appearance"%string, (VDict [("category"%string, (VInt 960)); ("sub_category"%string, (VInt 4))]))]))]));
   ("test_sensor.py:650"%string, sensor_SensorSetupMessage, [89; 11; 0; 11; 0; 42; 0], (VDict [("opcode"%string, (VEnum "SENSOR_SETTING_SET" 89)); ("sensor_setting_set"%string, (VDict [("sensor_property_id"%string, (VEnum "DEVICE_COUNTRY_OF_ORIGIN" 11)); ("sensor_setting_property_id"%string, (VEnum "DEVICE_COUNTRY_OF_ORIGIN" 11)); ("device_country_of_origin"%string, (VDict [("country_code"%string, (VInt 42))]))]))]));
   ("test_sensor.py:658"%string, sensor_SensorSetupMessage, [89; 12; 0; 12; 0; 222; 70; 0], (VDict [("opcode"%string, (VEnum "SENSOR_SETTING_SET" 89)); ("sensor_setting_set"%string, (VDict [("sensor_property_id"%string, (VEnum "DEVICE_DATE_OF_MANUFACTURE" 12)); ("sensor_setting_property_id"%string, (VEnum "DEVICE_DATE_OF_MANUFACTURE" 12)); ("device_date_of_manufacture"%string, (VDict [("date"%string, (VDate 18142))]))]))]));
   ("test_sensor.py:666"%string, sensor_SensorSetupMessage, [89; 80; 0; 80; 0; 238; 0; 205; 171], (VDict [("opcode"%string, (VEnum "SENSOR_SETTING_SET" 89)); ("sensor_setting_set"%string, (VDict [("sensor_property_id"%string, (VEnum "PRESENT_CIE1931_CHROMATICITY_COORDINATES" 80)); ("sensor_setting_property_id"%string, (VEnum "PRESENT_CIE1931_CHROMATICITY_COORDINATES" 80)); ("present_cie1931_chromaticity_coordinates"%string, (VDict [("chromaticity_x_coordinate"%string, (VFloat (4187004167184399 # 1152921504606846976))); ("chromaticity_y_coordinate"%string, (VFloat (6044794848901557 # 9007199254740992)))]))]))]));
   ("test_sensor.py:675"%string, sensor_SensorSetupMessage, [89; 8; 0; 8; 0; 100], (VDict [("opcode"%string, (VEnum "SENSOR_SETTING_SET" 89)); ("sensor_setting_set"%string, (VDict [("sensor_property_id"%string, (VEnum "COLOR_RENDERING_INDEX_R9" 8)); ("sensor_setting_property_id"%string, (VEnum "COLOR_RENDERING_INDEX_R9" 8)); ("color_rendering_index_r9"%string, (VDict [("color_rendering_index"%string, (VInt 100))]))]))]));
   ("test_sensor.py:683"%string, sensor_SensorSetupMessage, [89; 8; 0; 8; 0; 156], (VDict [("opcode"%string, (VEnum "SENSOR_SETTING_SET" 89)); ("sensor_setting_set"%string, (VDict [("sensor_property_id"%string, (VEnum "COLOR_RENDERING_INDEX_R9" 8)); ("sensor_setting_property_id"%string, (VEnum "COLOR_RENDERING_INDEX_R9" 8)); ("color_rendering_index_r9"%string, (VDict [("color_rendering_index"%string, (VInt (-100)))]))]))]));
   ("test_sensor.py:691"%string, sensor_SensorSetupMessage, [89; 97; 0; 97; 0; 136; 170; 0; 187; 187], (VDict [("opcode"%string, (VEnum "SENSOR_SETTING_SET" 89)); ("sensor_setting_set"%string, (VDict [("sensor_property_id"%string, (VEnum "RELATIVE_DEVICE_RUNTIME_IN_A_GENERIC_LEVEL_RANGE" 97)); ("sensor_setting_property_id"%string, (VEnum "RELATIVE_DEVICE_RUNTIME_IN_A_GENERIC_LEVEL_RANGE" 97)); ("relative_device_runtime_in_a_generic_level_range"%string, (VDict [("relative_value"%string, (VInt 68)); ("minimum_generic_level"%string, (VInt 170)); ("maximum_generic_level"%string, (VInt 48059))]))]))]));
   ("test_sensor.py:701"%string, sensor_SensorSetupMessage, [89; 98; 0; 98; 0; 136; 26; 39; 0; 26; 39; 0], (VDict [("opcode"%string, (VEnum "SENSOR_SETTING_SET" 89)); ("sensor_setting_set"%string, (VDict [("sensor_property_id"%string, (VEnum "RELATIVE_EXPOSURE_TIME_IN_AN_ILLUMINANCE_RANGE" 98)); ("sensor_setting_property_id"%string, (VEnum "RELATIVE_EXPOSURE_TIME_IN_AN_ILLUMINANCE_RANGE" 98)); ("relative_exposure_time_in_an_illuminance_range"%string, (VDict [("relative_value"%string, (VInt 68)); ("minimum_illuminance"%string, (VFloat (3521955646092083 # 35184372088832))); ("maximum_illuminance"%string, (VFloat (3521955646092083 # 35184372088832)))]))]))]));
   ("test_sensor.py:711"%string, sensor_SensorSetupMessage, [89; 100; 0; 100; 0; 136; 255; 255; 230; 32], (VDict [("opcode"%string, (VEnum "SENSOR_SETTING_SET" 89)); ("sensor_setting_set"%string, (VDict [("sensor_property_id"%string, (VEnum "RELATIVE_RUNTIME_IN_A_DEVICE_OPERATING_TEMPERATURE_RANGE" 100)); ("sensor_setting_property_id"%string, (VEnum "RELATIVE_RUNTIME_IN_A_DEVICE_OPERATING_TEMPERATURE_RANGE" 100)); ("relative_runtime_in_a_device_operating_temperature_range"%string, (VDict [("relative_value"%string, (VInt 68)); ("minimum_temperature"%string, (VFloat ((-5764607523034235) # 576460752303423488))); ("maximum_temperature"%string, (VFloat (2963227817321431 # 35184372088832)))]))]))]));
   ("test_sensor.py:721"%string, sensor_SensorSetupMessage, [89; 101; 0; 101; 0; 136; 0; 0; 205; 171], (VDict [("opcode"%string, (VEnum "SENSOR_SETTING_SET" 89)); ("sensor_setting_set"%string, (VDict [("sensor_property_id"%string, (VEnum "RELATIVE_RUNTIME_IN_AN_INPUT_CURRENT_RANGE" 101)); ("sensor_setting_property_id"%string, (VEnum "RELATIVE_RUNTIME_IN_AN_INPUT_CURRENT_RANGE" 101)); ("relative_runtime_in_an_input_current_range"%string, (VDict [("relative_value"%string, (VInt 68)); ("minimum_current"%string, (VInt 0)); ("maximum_current"%string, (VFloat (7737219344194601 # 17592186044416)))]))]))]));
   ("test_sensor.py:731"%string, sensor_SensorSetupMessage, [89; 102; 0; 102; 0; 136; 32; 3; 32; 3], (VDict [("opcode"%string, (VEnum "SENSOR_SETTING_SET" 89)); ("sensor_setting_set"%string, (VDict [("sensor_property_id"%string, (VEnum "RELATIVE_RUNTIME_IN_AN_INPUT_VOLTAGE_RANGE" 102)); ("sensor_setting_property_id"%string, (VEnum "RELATIVE_RUNTIME_IN_AN_INPUT_VOLTAGE_RANGE" 102)); ("relative_runtime_in_an_input_voltage_range"%string, (VDict [("relative_value"%string, (VInt 68)); ("minimum_voltage"%string, (VFloat (25 # 2))); ("maximum_voltage"%string, (VFloat (25 # 2)))]))]))]));
   ("test_config.py:31"%string, config_SecureNetworkBeaconAdapter, [0], (VEnum "OFF" 0));
   ("test_config.py:37"%string, config_SecureNetworkBeaconAdapter, [1], (VEnum "ON" 1));
   ("test_config.py:43"%string, config_GATTProxyAdapter, [0], (VEnum "DISABLED" 0));
   ("test_config.py:49"%string, config_GATTProxyAdapter, [1], (VEnum "ENABLED" 1));
   ("test_config.py:55"%string, config_GATTProxyAdapter, [2], (VEnum "NOT_SUPPORTED" 2));
   ("test_config.py:61"%string, config_RelayAdapter, [0], (VEnum "DISABLED" 0));
   ("test_config.py:67"%string, config_RelayAdapter, [1], (VEnum "ENABLED" 1));
   ("test_config.py:73"%string, config_RelayAdapter, [2], (VEnum "NOT_SUPPORTED" 2));
   ("test_config.py:79"%string, config_GATTNamespaceDescriptorAdapter, [220; 0], (VEnum "TWO_HUNDRED_TWENTIETH" 220));
   ("test_config.py:85"%string, config_GATTNamespaceDescriptorAdapter, [0; 0], (VEnum "UNKNOWN" 0));
   ("test_config.py:91"%string, config_TTL, [127], (VInt 127));
   ("test_config.py:97"%string, config_TTL, [111], (VInt 111));
   ("test_config.py:103"%string, config_TTL, [0], (VInt 0));
   ("test_config.py:109"%string, config_SIGModelId, [173; 222], (VDict [("model_id"%string, (VInt 57005))]));
   ("test_config.py:117"%string, config_SIGModelId, [173; 222], (VDict [("model_id"%string, (VInt 57005)); ("vendor_id"%string, (VInt 49374))]));
   ("test_config.py:126"%string, config_VendorModelId, [222; 192; 173; 222], (VDict [("model_id"%string, (VInt 57005)); ("vendor_id"%string, (VInt 49374))]));
   ("test_config.py:135"%string, config_ModelId, [222; 192; 173; 222], (VDict [("model_id"%string, (VInt 57005)); ("vendor_id"%string, (VInt 49374))]));
   ("test_config.py:144"%string, config_ModelId, [173; 222], (VDict [("model_id"%string, (VInt 57005))]));
   ("test_config.py:152"%string, config_ModelId, [173; 222], (VDict [("model_id"%string, (VInt 57005)); ("vendor_id"%string, VNone)]));
   ("test_config.py:161"%string, config_UnassignedAddress, [0; 0], (VInt 0));
   ("test_config.py:167"%string, config_UnicastAddress, [255; 127], (VInt 32767));
   ("test_config.py:173"%string, config_UnicastAddress, [1; 0], (VInt 1));
   ("test_config.py:179"%string, config_GroupAddress, [0; 192], (VInt 49152));
   ("test_config.py:185"%string, config_VirtualLabel, [0; 128], (VInt 32768));
   ("test_config.py:191"%string, config_Retransmit, [7], (VDict [("count"%string, (VInt 7)); ("interval_steps"%string, (VInt 0))]));
   ("test_config.py:200"%string, config_Retransmit, [248], (VDict [("count"%string, (VInt 0)); ("interval_steps"%string, (VInt 31))]));
   ("test_config.py:209"%string, config_NetworkRetransmit, [7], (VDict [("count"%string, (VInt 7)); ("interval"%string, (VInt 10))]));
   ("test_config.py:218"%string, config_NetworkRetransmit, [248], (VDict [("count"%string, (VInt 0)); ("interval"%string, (VInt 320))]));
   ("test_config.py:227"%string, config_RelayRetransmit, [7], (VDict [("count"%string, (VInt 7)); ("interval"%string, (VInt 10))]));
   ("test_config.py:236"%string, config_RelayRetransmit, [248], (VDict [("count"%string, (VInt 0)); ("interval"%string, (VInt 320))]));
   ("test_config.py:245"%string, config_PublishRetransmit, [7], (VDict [("count"%string, (VInt 7)); ("interval"%string, (VInt 50))]));
   ("test_config.py:254"%string, config_PublishRetransmit, [248], (VDict [("count"%string, (VInt 0)); ("interval"%string, (VInt 1600))]));
   ("test_config.py:263"%string, config_ConfigAppKeyDelete, [1; 35; 69], (VDict [("net_key_index"%string, (VInt 769)); ("app_key_index"%string, (VInt 1106))]));
   ("test_config.py:272"%string, config_ConfigAppKeyDelete, [171; 205; 239], (VDict [("net_key_index"%string, (VInt 3499)); ("app_key_index"%string, (VInt 3836))]));
   ("test_config.py:281"%string, config_ConfigAppKeyDelete, [239; 205; 171], (VDict [("net_key_index"%string, (VInt 3567)); ("app_key_index"%string, (VInt 2748))]));
   ("test_config.py:290"%string, config_PublishPeriod, [0], (VDict [("step_resolution"%string, (VEnum "RESOLUTION_100_MS" 0)); ("number_of_steps"%string, (VInt 0))]));
   ("test_config.py:299"%string, config_PublishPeriod, [192], (VDict [("step_resolution"%string, (VEnum "RESOLUTION_10_MIN" 3)); ("number_of_steps"%string, (VInt 0))]));
   ("test_config.py:308"%string, config_PublishPeriod, [63], (VDict [("step_resolution"%string, (VEnum "RESOLUTION_100_MS" 0)); ("number_of_steps"%string, (VInt 63))]));
   ("test_config.py:317"%string, config_ConfigBeaconGet, [], (VDict []));
   ("test_config.py:323"%string, config_ConfigBeaconSet, [0], (VDict [("beacon"%string, (VEnum "OFF" 0))]));
   ("test_config.py:331"%string, config_ConfigBeaconStatus, [1], (VDict [("beacon"%string, (VEnum "ON" 1))]));
   ("test_config.py:339"%string, config_ConfigCompositionDataGet, [0], (VDict [("page"%string, (VInt 0))]));
   ("test_config.py:347"%string, config_ConfigCompositionDataGet, [255], (VDict [("page"%string, (VInt 255))]));
   ("test_config.py:355"%string, config_ConfigCompositionDataStatus, [0; 54; 1; 206; 0; 254; 202; 239; 190; 11; 176; 0; 0; 0; 0], (VDict [("page"%string, (VInt 0)); ("data"%string, (VDict [("cid"%string, (VInt 310)); ("pid"%string, (VInt 206)); ("vid"%string, (VInt 51966)); ("crpl"%string, (VInt 48879)); ("features"%string, (VInt 45067)); ("elements"%string, (VList [(VDict [("location"%string, (VEnum "UNKNOWN" 0)); ("sig_number"%string, (VInt 0)); ("vendor_number"%string, (VInt 0)); ("sig_models"%string, (VList [])); ("vendor_models"%string, (VList []))])]))])); ("zero"%string, (VDict [("cid"%string, (VInt 310)); ("pid"%string, (VInt 206)); ("vid"%string, (VInt 51966)); ("crpl"%string, (VInt 48879)); ("features"%string, (VInt 45067)); ("elements"%string, (VList [(VDict [("location"%string, (VEnum "UNKNOWN" 0)); ("sig_number"%string, (VInt 0)); ("vendor_number"%string, (VInt 0)); ("sig_models"%string, (VList [])); ("vendor_models"%string, (VList []))])]))]))]));
   ("test_config.py:394"%string, config_ConfigCompositionDataStatus, [1; 1; 0; 1; 10], (VDict [("page"%string, (VInt 1)); ("data"%string, (VDict [("element"%string, (VList [(VDict [("number_s"%string, (VInt 1)); ("number_v"%string, (VInt 0)); ("sig_models"%string, (VList [(VDict [("extended_items_count"%string, (VInt 0)); ("format"%string, (VEnum "SHORT" 0)); ("corresponding_present"%string, (VBool true)); ("corresponding_id"%string, (VInt 10)); ("extended_models_items"%string, (VDict [("short"%string, (VList []))]))])])); ("vendor_models"%string, (VList []))])]))])); ("first"%string, (VDict [("element"%string, (VList [(VDict [("number_s"%string, (VInt 1)); ("number_v"%string, (VInt 0)); ("sig_models"%string, (VList [(VDict [("extended_items_count"%string, (VInt 0)); ("format"%string, (VEnum "SHORT" 0)); ("corresponding_present"%string, (VBool true)); ("corresponding_id"%string, (VInt 10)); ("extended_models_items"%string, (VDict [("short"%string, (VList []))]))])])); ("vendor_models"%string, (VList []))])]))]))]));
   ("test_config.py:439"%string, config_ConfigCompositionDataStatus, [2; 0; 22; 1; 0; 0; 1; 1; 0; 0], (VDict [("page"%string, (VInt 2)); ("second"%string, (VDict [("record_list"%string, (VList [(VDict [("mesh_profile_identifier"%string, (VInt 5632)); ("version"%string, (VDict [("version_x"%string, (VInt 1)); ("version_y"%string, (VInt 0)); ("version_z"%string, (VInt 0))])); ("num_element_offsets"%string, (VInt 1)); ("element_offset_list"%string, (VList [(VInt 1)])); ("additional_data_len"%string, (VInt 0)); ("additional_data"%string, (VList []))])]))]))]));
   ("test_config.py:462"%string, config_ConfigCompositionDataStatus, [255; 202; 254], (VDict [("page"%string, (VInt 255)); ("two_hundred_and_fifty_fifth"%string, (VBytes [202; 254]))]));
   ("test_config.py:471"%string, config_CompositionDataPage0, [54; 1; 206; 0; 254; 202; 239; 190; 11; 176; 0; 0; 0; 0], (VDict [("cid"%string, (VInt 310)); ("pid"%string, (VInt 206)); ("vid"%string, (VInt 51966)); ("crpl"%string, (VInt 48879)); ("features"%string, (VInt 45067)); ("elements"%string, (VList [(VDict [("location"%string, (VEnum "UNKNOWN" 0)); ("sig_number"%string, (VInt 0)); ("vendor_number"%string, (VInt 0)); ("sig_models"%string, (VList [])); ("vendor_models"%string, (VList []))])]))]));
   ("test_config.py:491"%string, config_CompositionDataPage0, [54; 1; 206; 0; 254; 202; 239; 190; 11; 176; 0; 0; 0; 0; 0; 0; 0; 0], (VDict [("cid"%string, (VInt 310)); ("pid"%string, (VInt 206)); ("vid"%string, (VInt 51966)); ("crpl"%string, (VInt 48879)); ("features"%string, (VInt 45067)); ("elements"%string, (VList [(VDict [("location"%string, (VEnum "UNKNOWN" 0)); ("sig_number"%string, (VInt 0)); ("vendor_number"%string, (VInt 0)); ("sig_models"%string, (VList [])); ("vendor_models"%string, (VList []))]); (VDict [("location"%string, (VEnum "UNKNOWN" 0)); ("sig_number"%string, (VInt 0)); ("vendor_number"%string, (VInt 0)); ("sig_models"%string, (VList [])); ("vendor_models"%string, (VList []))])]))]));
   ("test_config.py:519"%string, config_CompositionDataPage0Element, [0; 0; 1; 1; 173; 222; 239; 190; 173; 222], (VDict [("location"%string, (VEnum "UNKNOWN" 0)); ("sig_number"%string, (VInt 1)); ("vendor_number"%string, (VInt 1)); ("sig_models"%string, (VList [(VDict [("model_id"%string, (VInt 57005))])])); ("vendor_models"%string, (VList [(VDict [("model_id"%string, (VInt 57005)); ("vendor_id"%string, (VInt 48879))])]))]));
   ("test_config.py:530"%string, config_CompositionDataPage0Element, [0; 0; 0; 1; 239; 190; 173; 222], (VDict [("location"%string, (VEnum "UNKNOWN" 0)); ("sig_number"%string, (VInt 0)); ("vendor_number"%string, (VInt 1)); ("sig_models"%string, (VList [])); ("vendor_models"%string, (VList [(VDict [("model_id"%string, (VInt 57005)); ("vendor_id"%string, (VInt 48879))])]))]));
   ("test_config.py:541"%string, config_CompositionDataPage0Element, [0; 0; 1; 0; 173; 222], (VDict [("location"%string, (VEnum "UNKNOWN" 0)); ("sig_number"%string, (VInt 1)); ("vendor_number"%string, (VInt 0)); ("sig_models"%string, (VList [(VDict [("model_id"%string, (VInt 57005))])])); ("vendor_models"%string, (VList []))]));
   ("test_config.py:554"%string, config_CompositionDataPage1, [2; 1; 0; 5; 0; 0; 0; 1; 2; 1; 0; 5; 1; 23; 1; 1], (VDict [("element"%string, (VList [(VDict [("number_s"%string, (VInt 2)); ("number_v"%string, (VInt 1)); ("sig_models"%string, (VList [(VDict [("extended_items_count"%string, (VInt 0)); ("format"%string, (VEnum "SHORT" 0)); ("corresponding_present"%string, (VBool false)); ("corresponding_id"%string, (VInt 0)); ("extended_models_items"%string, (VDict [("short"%string, (VList []))]))]); (VDict [("extended_items_count"%string, (VInt 1)); ("format"%string, (VEnum "SHORT" 0)); ("corresponding_present"%string, (VBool true)); ("corresponding_id"%string, (VInt 0)); ("extended_models_items"%string, (VDict [("short"%string, (VList [(VDict [("model_item_index"%string, (VInt 0)); ("element_offset"%string, (VInt 0))])]))]))])])); ("vendor_models"%string, (VList [(VDict [("extended_items_count"%string, (VInt 0)); ("format"%string, (VEnum "SHORT" 0)); ("corresponding_present"%string, (VBool false)); ("corresponding_id"%string, (VInt 0)); ("extended_models_items"%string, (VDict [("short"%string, (VList []))]))])]))]); (VDict [("number_s"%string, (VInt 1)); ("number_v"%string, (VInt 2)); ("sig_models"%string, (VList [(VDict [("extended_items_count"%string, (VInt 0)); ("format"%string, (VEnum "SHORT" 0)); ("corresponding_present"%string, (VBool true)); ("corresponding_id"%string, (VInt 0)); ("extended_models_items"%string, (VDict [("short"%string, (VList []))]))])])); ("vendor_models"%string, (VList [(VDict [("extended_items_count"%string, (VInt 1)); ("format"%string, (VEnum "SHORT" 0)); ("corresponding_present"%string, (VBool true)); ("corresponding_id"%string, (VInt 1)); ("extended_models_items"%string, (VDict [("short"%string, (VList [(VDict [("model_item_index"%string, (VInt 2)); ("element_offset"%string, (VInt (-1)))])]))]))]); (VDict [("extended_items_count"%string, (VInt 0)); ("format"%string, (VEnum "SHORT" 0)); ("corresponding_present"%string, (VBool true)); ("corresponding_id"%string, (VInt 1)); ("extended_models_items"%string, (VDict [("short"%string, (VList []))]))])]))])]))]));
   ("test_config.py:635"%string, config_CompositionDataPage1Element, [5; 3; 7; 1; 26; 253; 9; 1; 56; 48; 1; 8; 5; 8; 72; 0; 0; 5; 10; 0; 5; 10; 208], (VDict [("number_s"%string, (VInt 5)); ("number_v"%string, (VInt 3)); ("sig_models"%string, (VList [(VDict [("extended_items_count"%string, (VInt 1)); ("format"%string, (VEnum "LONG" 1)); ("corresponding_present"%string, (VBool true)); ("corresponding_id"%string, (VInt 1)); ("extended_models_items"%string, (VDict [("long"%string, (VList [(VDict [("model_item_index"%string, (VInt 26)); ("element_offset"%string, (VInt (-3)))])]))]))]); (VDict [("extended_items_count"%string, (VInt 2)); ("format"%string, (VEnum "SHORT" 0)); ("corresponding_present"%string, (VBool true)); ("corresponding_id"%string, (VInt 1)); ("extended_models_items"%string, (VDict [("short"%string, (VList [(VDict [("model_item_index"%string, (VInt 7)); ("element_offset"%string, (VInt 0))]); (VDict [("model_item_index"%string, (VInt 6)); ("element_offset"%string, (VInt 0))])]))]))]); (VDict [("extended_items_count"%string, (VInt 0)); ("format"%string, (VEnum "SHORT" 0)); ("corresponding_present"%string, (VBool true)); ("corresponding_id"%string, (VInt 8)); ("extended_models_items"%string, (VDict [("short"%string, (VList []))]))]); (VDict [("extended_items_count"%string, (VInt 1)); ("format"%string, (VEnum "SHORT" 0)); ("corresponding_present"%string, (VBool true)); ("corresponding_id"%string, (VInt 8)); ("extended_models_items"%string, (VDict [("short"%string, (VList [(VDict [("model_item_index"%string, (VInt 9)); ("element_offset"%string, (VInt 0))])]))]))]); (VDict [("extended_items_count"%string, (VInt 0)); ("format"%string, (VEnum "SHORT" 0)); ("corresponding_present"%string, (VBool false)); ("corresponding_id"%string, (VInt 0)); ("extended_models_items"%string, (VDict [("short"%string, (VList []))]))])])); ("vendor_models"%string, (VList [(VDict [("extended_items_count"%string, (VInt 0)); ("format"%string, (VEnum "SHORT" 0)); ("corresponding_present"%string, (VBool false)); ("corresponding_id"%string, (VInt 0)); ("extended_models_items"%string, (VDict [("short"%string, (VList []))]))]); (VDict [("extended_items_count"%string, (VInt 1)); ("format"%string, (VEnum "SHORT" 0)); ("corresponding_present"%string, (VBool true)); ("corresponding_id"%string, (VInt 10)); ("extended_models_items"%string, (VDict [("short"%string, (VList [(VDict [("model_item_index"%string, (VInt 0)); ("element_offset"%string, (VInt 0))])]))]))]); (VDict [("extended_items_count"%string, (VInt 1)); ("format"%string, (VEnum "SHORT" 0)); ("corresponding_present"%string, (VBool true)); ("corresponding_id"%string, (VInt 10)); ("extended_models_items"%string, (VDict [("short"%string, (VList [(VDict [("model_item_index"%string, (VInt 26)); ("element_offset"%string, (VInt 0))])]))]))])]))]));
   ("test_config.py:743"%string, config_CompositionDataPage2, [2; 22; 1; 2; 3; 3; 1; 2; 3; 2; 0; 17; 255], (VDict [("record_list"%string, (VList [(VDict [("mesh_profile_identifier"%string, (VInt 5634)); ("version"%string, (VDict [("version_x"%string, (VInt 1)); ("version_y"%string, (VInt 2)); ("version_z"%string, (VInt 3))])); ("num_element_offsets"%string, (VInt 3)); ("element_offset_list"%string, (VList [(VInt 1); (VInt 2); (VInt 3)])); ("additional_data_len"%string, (VInt 2)); ("additional_data"%string, (VList [(VInt 17); (VInt 255)]))])]))]));
   ("test_config.py:763"%string, config_ModelRelationItem, [1; 10], (VDict [("extended_items_count"%string, (VInt 0)); ("format"%string, (VEnum "SHORT" 0)); ("corresponding_present"%string, (VBool true)); ("corresponding_id"%string, (VInt 10)); ("extended_models_items"%string, (VDict [("short"%string, (VList []))]))]));
   ("test_config.py:775"%string, config_ModelRelationItem, [3; 11], (VDict [("extended_items_count"%string, (VInt 0)); ("format"%string, (VEnum "LONG" 1)); ("corresponding_present"%string, (VBool true)); ("corresponding_id"%string, (VInt 11)); ("extended_models_items"%string, (VDict [("long"%string, (VList []))]))]));
   ("test_config.py:787"%string, config_ModelRelationItem, [4; 88], (VDict [("extended_items_count"%string, (VInt 1)); ("format"%string, (VEnum "SHORT" 0)); ("corresponding_present"%string, (VBool false)); ("corresponding_id"%string, (VInt 0)); ("extended_models_items"%string, (VDict [("short"%string, (VList [(VDict [("model_item_index"%string, (VInt 11)); ("element_offset"%string, (VInt 0))])]))]))]));
   ("test_config.py:806"%string, config_ModelRelationItem, [6; 10; 11], (VDict [("extended_items_count"%string, (VInt 1)); ("format"%string, (VEnum "LONG" 1)); ("corresponding_present"%string, (VBool false)); ("corresponding_id"%string, (VInt 0)); ("extended_models_items"%string, (VDict [("long"%string, (VList [(VDict [("model_item_index"%string, (VInt 10)); ("element_offset"%string, (VInt 11))])]))]))]));
   ("test_config.py:825"%string, config_ConfigDefaultTTLGet, [], (VDict []));
   ("test_config.py:831"%string, config_ConfigDefaultTTLSet, [0], (VDict [("ttl"%string, (VInt 0))]));
   ("test_config.py:839"%string, config_ConfigDefaultTTLSet, [11], (VDict [("ttl"%string, (VInt 11))]));
   ("test_config.py:847"%string, config_ConfigDefaultTTLSet, [127], (VDict [("ttl"%string, (VInt 127))]));
   ("test_config.py:855"%string, config_ConfigDefaultTTLStatus, [0], (VDict [("ttl"%string, (VInt 0))]));
   ("test_config.py:863"%string, config_ConfigDefaultTTLStatus, [11], (VDict [("ttl"%string, (VInt 11))]));
   ("test_config.py:871"%string, config_ConfigDefaultTTLStatus, [127], (VDict [("ttl"%string, (VInt 127))]));
   ("test_config.py:879"%string, config_ConfigGATTProxyGet, [], (VDict []));
   ("test_config.py:885"%string, config_ConfigGATTProxySet, [0], (VDict [("GATT_proxy"%string, (VEnum "DISABLED" 0))]));
   ("test_config.py:893"%string, config_ConfigGATTProxyStatus, [1], (VDict [("GATT_proxy"%string, (VEnum "ENABLED" 1))]));
   ("test_config.py:901"%string, config_ConfigRelayGet, [], (VDict []));
   ("test_config.py:907"%string, config_ConfigRelaySet, [0; 0], (VDict [("relay"%string, (VEnum "DISABLED" 0)); ("retransmit"%string, (VDict [("count"%string, (VInt 0)); ("interval"%string, (VInt 10))]))]));
   ("test_config.py:919"%string, config_ConfigRelayStatus, [2; 0], (VDict [("relay"%string, (VEnum "NOT_SUPPORTED" 2)); ("retransmit"%string, (VDict [("count"%string, (VInt 0)); ("interval"%string, (VInt 10))]))]));
   ("test_config.py:931"%string, config_ConfigModelPublicationGet, [1; 2; 3; 4], (VDict [("element_address"%string, (VInt 513)); ("model"%string, (VDict [("model_id"%string, (VInt 1027))]))]));
   ("test_config.py:942"%string, config_ConfigModelPublicationGet, [1; 2; 3; 4; 5; 6], (VDict [("element_address"%string, (VInt 513)); ("model"%string, (VDict [("model_id"%string, (VInt 1541)); ("vendor_id"%string, (VInt 1027))]))]));
   ("test_config.py:954"%string, config_ConfigModelPublicationSet, [1; 2; 1; 0; 188; 26; 127; 192; 7; 3; 4; 5; 6], (VDict [("element_address"%string, (VInt 513)); ("publish_address"%string, (VInt 1)); ("rfu"%string, (VInt 0)); ("credential_flag"%string, (VEnum "FRIENDSHIP_SECURITY" 1)); ("app_key_index"%string, (VInt 2748)); ("ttl"%string, (VInt 127)); ("publish_period"%string, (VDict [("step_resolution"%string, (VEnum "RESOLUTION_10_MIN" 3)); ("number_of_steps"%string, (VInt 0))])); ("retransmit"%string, (VDict [("count"%string, (VInt 7)); ("interval"%string, (VInt 50))])); ("model"%string, (VDict [("model_id"%string, (VInt 1541)); ("vendor_id"%string, (VInt 1027))]))]));
   ("test_config.py:979"%string, config_ConfigModelPublicationSet, [2; 1; 4; 3; 5; 0; 6; 7; 17; 4; 3], (VDict [("element_address"%string, (VInt 258)); ("publish_address"%string, (VInt 772)); ("rfu"%string, (VInt 0)); ("credential_flag"%string, (VEnum "MASTER_SECURITY" 0)); ("app_key_index"%string, (VInt 5)); ("ttl"%string, (VInt 6)); ("publish_period"%string, (VDict [("step_resolution"%string, (VEnum "RESOLUTION_100_MS" 0)); ("number_of_steps"%string, (VInt 7))])); ("retransmit"%string, (VDict [("count"%string, (VInt 1)); ("interval"%string, (VInt 150))])); ("model"%string, (VDict [("model_id"%string, (VInt 772))]))]));
   ("test_config.py:1003"%string, config_ConfigModelPublicationStatus, [2; 2; 1; 4; 3; 5; 0; 6; 7; 17; 4; 3; 6; 5], (VDict [("status"%string, (VEnum "INVALID_MODEL" 2)); ("element_address"%string, (VInt 258)); ("publish_address"%string, (VInt 772)); ("rfu"%string, (VInt 0)); ("credential_flag"%string, (VEnum "MASTER_SECURITY" 0)); ("app_key_index"%string, (VInt 5)); ("ttl"%string, (VInt 6)); ("publish_period"%string, (VDict [("step_resolution"%string, (VEnum "RESOLUTION_100_MS" 0)); ("number_of_steps"%string, (VInt 7))])); ("retransmit"%string, (VDict [("count"%string, (VInt 1)); ("interval"%string, (VInt 150))])); ("model"%string, (VDict [("model_id"%string, (VInt 1286)); ("vendor_id"%string, (VInt 772))]))]));
   ("test_config.py:1029"%string, config_ConfigModelSubscriptionAdd, [170; 17; 187; 194; 204; 51], (VDict [("element_address"%string, (VInt 4522)); ("address"%string, (VInt 49851)); ("model"%string, (VDict [("model_id"%string, (VInt 13260))]))]));
   ("test_config.py:1041"%string, config_ConfigModelSubscriptionAdd, [2; 1; 253; 255; 63; 0; 42; 0], (VDict [("element_address"%string, (VInt 258)); ("address"%string, (VInt 65533)); ("model"%string, (VDict [("model_id"%string, (VInt 42)); ("vendor_id"%string, (VInt 63))]))]));
   ("test_config.py:1054"%string, config_ConfigModelSubscriptionStatus, [0; 170; 17; 0; 0; 204; 51], (VDict [("status"%string, (VEnum "SUCCESS" 0)); ("element_address"%string, (VInt 4522)); ("address"%string, (VInt 0)); ("model"%string, (VDict [("model_id"%string, (VInt 13260))]))]));
   ("test_config.py:1067"%string, config_ConfigModelSubscriptionStatus, [0; 170; 17; 0; 128; 204; 51], (VDict [("status"%string, (VEnum "SUCCESS" 0)); ("element_address"%string, (VInt 4522)); ("address"%string, (VInt 32768)); ("model"%string, (VDict [("model_id"%string, (VInt 13260))]))]));
   ("test_config.py:1080"%string, (CStruct (FBits 2 (FPad None 4 (FCons "key_index" (CBits 12 false) FNil)) FNil)), [188; 10], (VDict [("key_index"%string, (VInt 2748))]));
   ("test_config.py:1088"%string, config_ConfigAppKeyAdd, [1; 35; 69; 0; 1; 2; 3; 4; 5; 6; 7; 8; 9; 10; 11; 12; 13; 14; 15], (VDict [("net_key_index"%string, (VInt 769)); ("app_key_index"%string, (VInt 1106)); ("app_key"%string, (VBytes [0; 1; 2; 3; 4; 5; 6; 7; 8; 9; 10; 11; 12; 13; 14; 15]))]));
   ("test_config.py:1098"%string, config_ConfigAppKeyAdd, [35; 97; 69; 99; 150; 71; 113; 115; 79; 189; 118; 227; 180; 5; 25; 209; 217; 74; 72], (VDict [("net_key_index"%string, (VInt 291)); ("app_key_index"%string, (VInt 1110)); ("app_key"%string, (VBytes [99; 150; 71; 113; 115; 79; 189; 118; 227; 180; 5; 25; 209; 217; 74; 72]))]));
   ("test_config.py:1108"%string, config_ConfigAppKeyGet, [2; 0], (VDict [("net_key_index"%string, (VInt 2))]));
   ("test_config.py:1116"%string, config_ConfigAppKeyStatus, [0; 51; 35; 34], (VDict [("status"%string, (VEnum "SUCCESS" 0)); ("net_key_index"%string, (VInt 819)); ("app_key_index"%string, (VInt 546))]));
   ("test_config.py:1126"%string, config_ConfigAppKeyList, [0; 11; 0; 1; 0; 0; 1; 33; 0], (VDict [("status"%string, (VEnum "SUCCESS" 0)); ("net_key_index"%string, (VInt 11)); ("app_key_indices"%string, (VList [(VInt 0); (VInt 1); (VInt 2); (VInt 257)]))]));
   ("test_config.py:1136"%string, config_ConfigAppKeyList, [0; 11; 0; 86; 52; 18; 137; 7], (VDict [("status"%string, (VEnum "SUCCESS" 0)); ("net_key_index"%string, (VInt 11)); ("app_key_indices"%string, (VList [(VInt 291); (VInt 1110); (VInt 1929)]))]));
   ("test_config.py:1146"%string, config_ConfigNetKeyList, [66; 176; 0], (VDict [("net_key_indices"%string, (VList [(VInt 11); (VInt 66)]))]));
   ("test_config.py:1154"%string, config_ConfigNetKeyAdd, [67; 5; 0; 1; 2; 3; 4; 5; 6; 7; 8; 9; 10; 11; 12; 13; 14; 15], (VDict [("net_key_index"%string, (VInt 1347)); ("net_key"%string, (VBytes [0; 1; 2; 3; 4; 5; 6; 7; 8; 9; 10; 11; 12; 13; 14; 15]))]));
   ("test_config.py:1163"%string, config_ConfigNetKeyList, [67; 208; 2; 88; 0], (VDict [("net_key_indices"%string, (VList [(VInt 45); (VInt 67); (VInt 88)]))]));
   ("test_config.py:1172"%string, config_ConfigNodeIdentitySet, [255; 15; 1], (VDict [("net_key_index"%string, (VInt 4095)); ("identity"%string, (VEnum "RUNNING" 1))]));
   ("test_config.py:1181"%string, config_ConfigNodeIdentityStatus, [0; 255; 15; 1], (VDict [("status"%string, (VEnum "SUCCESS" 0)); ("net_key_index"%string, (VInt 4095)); ("identity"%string, (VEnum "RUNNING" 1))]));
   ("test_config.py:1191"%string, config_ConfigHeartbeatPublicationGet, [], (VDict []));
   ("test_config.py:1197"%string, config_ConfigHeartbeatPublicationSet, [1; 2; 3; 4; 5; 6; 7; 8; 9], (VDict [("destination"%string, (VInt 513)); ("count"%string, (VInt 4)); ("period"%string, (VInt 8)); ("ttl"%string, (VInt 5)); ("features"%string, (VSet [(VInt 5); (VInt 6); (VInt 13); (VInt 14); (VInt 15)])); ("net_key_index"%string, (VInt 2312))]));
   ("test_config.py:1210"%string, config_ConfigHeartbeatPublicationSet, [1; 2; 255; 6; 5; 6; 7; 8; 9], (VDict [("destination"%string, (VInt 513)); ("count"%string, VInf); ("period"%string, (VInt 32)); ("ttl"%string, (VInt 5)); ("features"%string, (VSet [(VInt 5); (VInt 6); (VInt 13); (VInt 14); (VInt 15)])); ("net_key_index"%string, (VInt 2312))]));
   ("test_config.py:1223"%string, config_ConfigHeartbeatPublicationSet, [1; 2; 255; 16; 5; 6; 7; 8; 9], (VDict [("destination"%string, (VInt 513)); ("count"%string, VInf); ("period"%string, (VInt 32768)); ("ttl"%string, (VInt 5)); ("features"%string, (VSet [(VInt 5); (VInt 6); (VInt 13); (VInt 14); (VInt 15)])); ("net_key_index"%string, (VInt 2312))]));
   ("test_config.py:1236"%string, config_ConfigNetworkTransmitSet, [249], (VDict [("count"%string, (VInt 1)); ("interval"%string, (VInt 320))]));
   ("test_health.py:29"%string, health_HealthCurrentStatus, [4; 54; 1], (VDict [("test_id"%string, (VInt 4)); ("company_id"%string, (VInt 310)); ("fault_array"%string, (VList []))]));
   ("test_health.py:39"%string, health_HealthCurrentStatus, [4; 54; 1; 2; 3; 4], (VDict [("test_id"%string, (VInt 4)); ("company_id"%string, (VInt 310)); ("fault_array"%string, (VList [(VInt 2); (VInt 3); (VInt 4)]))]));
   ("test_health.py:49"%string, health_HealthFaultGet, [54; 1], (VDict [("company_id"%string, (VInt 310))]));
   ("test_health.py:57"%string, health_HealthFaultClear, [54; 1], (VDict [("company_id"%string, (VInt 310))]));
   ("test_health.py:65"%string, health_HealthFaultTest, [3; 54; 1], (VDict [("test_id"%string, (VInt 3)); ("company_id"%string, (VInt 310))]));
   ("test_health.py:74"%string, health_HealthFaultStatus, [4; 54; 1], (VDict [("test_id"%string, (VInt 4)); ("company_id"%string, (VInt 310)); ("fault_array"%string, (VList []))]));
   ("test_health.py:84"%string, health_HealthFaultStatus, [4; 54; 1; 2; 3; 4], (VDict [("test_id"%string, (VInt 4)); ("company_id"%string, (VInt 310)); ("fault_array"%string, (VList [(VInt 2); (VInt 3); (VInt 4)]))]));
   ("test_health.py:94"%string, health_HealthPeriodGet, [], (VDict []));
   ("test_health.py:100"%string, health_HealthPeriodSet, [15], (VDict [("fast_period_divisor"%string, (VInt 15))]));
   ("test_health.py:108"%string, health_HealthPeriodStatus, [6], (VDict [("fast_period_divisor"%string, (VInt 6))]));
   ("test_health.py:116"%string, health_HealthAttentionGet, [], (VDict []));
   ("test_health.py:122"%string, health_HealthAttentionSet, [7], (VDict [("attention"%string, (VInt 7))]));
   ("test_health.py:130"%string, health_HealthAttentionStatus, [6], (VDict [("attention"%string, (VInt 6))]));
   ("test_debug.py:28"%string, debug_DebugParams, [0], (VDict [("subopcode"%string, (VEnum "RSSI_THRESHOLD_GET" 0)); ("rssi_threshold_get"%string, (VDict []))]));
   ("test_debug.py:29"%string, debug_DebugParams, [10], (VDict [("subopcode"%string, (VEnum "UPTIME_GET" 10)); ("uptime_get"%string, (VDict []))]));
   ("test_debug.py:30"%string, debug_DebugParams, [12], (VDict [("subopcode"%string, (VEnum "LAST_SW_FAULT_GET" 12)); ("last_sw_fault_get"%string, (VDict []))]));
   ("test_debug.py:31"%string, debug_DebugParams, [15], (VDict [("subopcode"%string, (VEnum "SYSTEM_STATS_GET" 15)); ("system_stats_get"%string, (VDict []))]));
   ("test_debug.py:32"%string, debug_DebugParams, [17], (VDict [("subopcode"%string, (VEnum "LAST_MALLOC_FAULT_GET" 17)); ("last_malloc_fault_get"%string, (VDict []))]));
   ("test_debug.py:33"%string, debug_DebugParams, [20], (VDict [("subopcode"%string, (VEnum "LAST_FDS_FAULT_GET" 20)); ("last_fds_fault_get"%string, (VDict []))]));
   ("test_debug.py:34"%string, debug_DebugParams, [23], (VDict [("subopcode"%string, (VEnum "BYTES_BEFORE_GARBAGE_COLLECTOR_GET" 23)); ("bytes_before_garbage_collector_get"%string, (VDict []))]));
   ("test_debug.py:35"%string, debug_DebugParams, [25], (VDict [("subopcode"%string, (VEnum "PROVISIONED_APP_VERSION_GET" 25)); ("provisioned_app_version_get"%string, (VDict []))]));
   ("test_debug.py:36"%string, debug_DebugParams, [27], (VDict [("subopcode"%string, (VEnum "FULL_FIRMWARE_VERSION_GET" 27)); ("full_firmware_version_get"%string, (VDict []))]));
   ("test_debug.py:37"%string, debug_DebugParams, [29], (VDict [("subopcode"%string, (VEnum "IV_INDEX_GET" 29)); ("iv_index_get"%string, (VDict []))]));
   ("test_debug.py:38"%string, debug_DebugParams, [31], (VDict [("subopcode"%string, (VEnum "GARBAGE_COLLECTOR_COUNTER_GET" 31)); ("garbage_collector_counter_get"%string, (VDict []))]));
   ("test_debug.py:39"%string, debug_DebugParams, [13], (VDict [("subopcode"%string, (VEnum "LAST_SW_FAULT_CLEAR" 13)); ("last_sw_fault_clear"%string, (VDict []))]));
   ("test_debug.py:40"%string, debug_DebugParams, [18], (VDict [("subopcode"%string, (VEnum "LAST_MALLOC_FAULT_CLEAR" 18)); ("last_malloc_fault_clear"%string, (VDict []))]));
   ("test_debug.py:41"%string, debug_DebugParams, [21], (VDict [("subopcode"%string, (VEnum "LAST_FDS_FAULT_CLEAR" 21)); ("last_fds_fault_clear"%string, (VDict []))]));
   ("test_debug.py:42"%string, debug_DebugParams, [33], (VDict [("subopcode"%string, (VEnum "ARAP_LIST_SIZE_GET" 33)); ("arap_list_size_get"%string, (VDict []))]));
   ("test_debug.py:43"%string, debug_DebugParams, [35; 2], (VDict [("subopcode"%string, (VEnum "ARAP_LIST_CONTENT_GET" 35)); ("arap_list_content_get"%string, (VDict [("page"%string, (VInt 2))]))]));
   ("test_debug.py:49"%string, debug_DebugParams, [1; 128], (VDict [("subopcode"%string, (VEnum "RSSI_THRESHOLD_SET" 1)); ("rssi_threshold_set"%string, (VDict [("rssi_threshold"%string, (VInt 128))]))]));
   ("test_debug.py:55"%string, debug_DebugParams, [2; 128], (VDict [("subopcode"%string, (VEnum "RSSI_THRESHOLD_STATUS" 2)); ("rssi_threshold_status"%string, (VDict [("rssi_threshold"%string, (VInt 128))]))]));
   ("test_debug.py:61"%string, debug_DebugParams, [3; 1], (VDict [("subopcode"%string, (VEnum "RADIO_TEST" 3)); ("radio_test"%string, (VDict [("packet_counter"%string, (VInt 1))]))]));
   ("test_debug.py:67"%string, debug_DebugParams, [11; 162; 208; 2; 0], (VDict [("subopcode"%string, (VEnum "UPTIME_STATUS" 11)); ("uptime_status"%string, (VDict [("uptime"%string, (VInt 184482))]))]));
   ("test_debug.py:73"%string, debug_DebugParams, [14; 10; 0; 0; 0; 80; 111; 119; 101; 114; 32; 79; 70; 70; 32; 91; 55; 93], (VDict [("subopcode"%string, (VEnum "LAST_SW_FAULT_STATUS" 14)); ("last_sw_fault_status"%string, (VDict [("time"%string, (VInt 10)); ("fault"%string, (VStr [80; 111; 119; 101; 114; 32; 79; 70; 70; 32; 91; 55; 93]))]))]));
   ("test_debug.py:79"%string, debug_DebugParams, [19; 0; 0; 0; 0; 78; 111; 32; 69; 114; 114; 111; 114], (VDict [("subopcode"%string, (VEnum "LAST_MALLOC_FAULT_STATUS" 19)); ("last_malloc_fault_status"%string, (VDict [("time"%string, (VInt 0)); ("fault"%string, (VStr [78; 111; 32; 69; 114; 114; 111; 114]))]))]));
   ("test_debug.py:85"%string, debug_DebugParams, [22; 255; 0; 0; 0; 70; 111; 111; 32; 101; 114; 114; 111; 114], (VDict [("subopcode"%string, (VEnum "LAST_FDS_FAULT_STATUS" 22)); ("last_fds_fault_status"%string, (VDict [("time"%string, (VInt 255)); ("fault"%string, (VStr [70; 111; 111; 32; 101; 114; 114; 111; 114]))]))]));
   ("test_debug.py:91"%string, debug_DebugParams, [24; 248; 46], (VDict [("subopcode"%string, (VEnum "BYTES_BEFORE_GARBAGE_COLLECTOR_STATUS" 24)); ("bytes_before_garbage_collector_status"%string, (VDict [("bytes_left"%string, (VInt 12024))]))]));
   ("test_debug.py:97"%string, debug_DebugParams, [26; 8; 12], (VDict [("subopcode"%string, (VEnum "PROVISIONED_APP_VERSION_STATUS" 26)); ("provisioned_app_version_status"%string, (VDict [("version"%string, (VInt 3080))]))]));
   ("test_debug.py:103"%string, debug_DebugParams, [28; 50; 46; 49; 50; 46; 48; 45; 114; 99; 52; 45; 54; 99; 55; 52; 98; 52; 100], (VDict [("subopcode"%string, (VEnum "FULL_FIRMWARE_VERSION_STATUS" 28)); ("full_firmware_version_status"%string, (VDict [("version"%string, (VStr [50; 46; 49; 50; 46; 48; 45; 114; 99; 52; 45; 54; 99; 55; 52; 98; 52; 100]))]))]));
   ("test_debug.py:109"%string, debug_DebugParams, [30; 5; 0; 0; 0], (VDict [("subopcode"%string, (VEnum "IV_INDEX_STATUS" 30)); ("iv_index_status"%string, (VDict [("ivindex"%string, (VInt 5))]))]));
   ("test_debug.py:115"%string, debug_DebugParams, [32; 1; 0], (VDict [("subopcode"%string, (VEnum "GARBAGE_COLLECTOR_COUNTER_STATUS" 32)); ("garbage_collector_counter_status"%string, (VDict [("counter"%string, (VInt 1))]))]));
   ("test_debug.py:121"%string, debug_DebugParams, [34; 254; 255; 1; 0], (VDict [("subopcode"%string, (VEnum "ARAP_LIST_SIZE_STATUS" 34)); ("arap_list_size_status"%string, (VDict [("capacity"%string, (VInt 65534)); ("size"%string, (VInt 1))]))]));
   ("test_debug.py:127"%string, debug_DebugParams, [16; 75; 69; 82; 78; 69; 76; 0; 0; 8; 2; 0; 0; 0; 0; 66; 76; 69; 0; 0; 0; 0; 0; 8; 5; 0; 0; 0; 0; 83; 78; 86; 0; 0; 0; 0; 0; 200; 0; 0; 0; 0; 0; 65; 80; 80; 0; 0; 0; 0; 0; 180; 1; 0; 0; 0; 0; 82; 88; 32; 84; 97; 115; 107; 0; 228; 1; 0; 0; 0; 0; 77; 69; 83; 72; 0; 0; 0; 0; 8; 4; 0; 0; 0; 0; 84; 109; 114; 32; 83; 118; 99; 0; 240; 1; 0; 0; 0; 0; 73; 68; 76; 69; 0; 0; 0; 0; 228; 0; 0; 0; 0; 0; 72; 69; 65; 80; 0; 0; 0; 0; 168; 73; 0; 0; 0; 0], (VDict [("subopcode"%string, (VEnum "SYSTEM_STATS_STATUS" 16)); ("system_stats_status"%string, (VDict [("stats"%string, (VList [(VDict [("name"%string, (VStr [75; 69; 82; 78; 69; 76])); ("high_water_mark"%string, (VInt 520))]); (VDict [("name"%string, (VStr [66; 76; 69])); ("high_water_mark"%string, (VInt 1288))]); (VDict [("name"%string, (VStr [83; 78; 86])); ("high_water_mark"%string, (VInt 200))]); (VDict [("name"%string, (VStr [65; 80; 80])); ("high_water_mark"%string, (VInt 436))]); (VDict [("name"%string, (VStr [82; 88; 32; 84; 97; 115; 107])); ("high_water_mark"%string, (VInt 484))]); (VDict [("name"%string, (VStr [77; 69; 83; 72])); ("high_water_mark"%string, (VInt 1032))]); (VDict [("name"%string, (VStr [84; 109; 114; 32; 83; 118; 99])); ("high_water_mark"%string, (VInt 496))]); (VDict [("name"%string, (VStr [73; 68; 76; 69])); ("high_water_mark"%string, (VInt 228))]); (VDict [("name"%string, (VStr [72; 69; 65; 80])); ("high_water_mark"%string, (VInt 18856))])]))]))]));
   ("test_debug.py:154"%string, debug_DebugParams, [16; 72; 69; 65; 80; 0; 0; 0; 0; 136; 74; 0; 0; 0; 0; 84; 109; 114; 32; 83; 118; 99; 0; 40; 2; 0; 0; 0; 0; 73; 68; 76; 69; 0; 0; 0; 0; 244; 0; 0; 0; 0; 0], (VDict [("subopcode"%string, (VEnum "SYSTEM_STATS_STATUS" 16)); ("system_stats_status"%string, (VDict [("stats"%string, (VList [(VDict [("name"%string, (VStr [72; 69; 65; 80])); ("high_water_mark"%string, (VInt 19080))]); (VDict [("name"%string, (VStr [84; 109; 114; 32; 83; 118; 99])); ("high_water_mark"%string, (VInt 552))]); (VDict [("name"%string, (VStr [73; 68; 76; 69])); ("high_water_mark"%string, (VInt 244))])]))]))]));
   ("test_debug.py:169"%string, debug_DebugParams, [16; 72; 69; 65; 80; 0; 0; 0; 0; 183; 134; 1; 0; 0; 0; 84; 109; 114; 32; 83; 118; 99; 0; 40; 2; 0; 0; 0; 0; 73; 68; 76; 69; 0; 0; 0; 0; 244; 0; 0; 0; 0; 0], (VDict [("subopcode"%string, (VEnum "SYSTEM_STATS_STATUS" 16)); ("system_stats_status"%string, (VDict [("stats"%string, (VList [(VDict [("name"%string, (VStr [72; 69; 65; 80])); ("high_water_mark"%string, (VInt 100023))]); (VDict [("name"%string, (VStr [84; 109; 114; 32; 83; 118; 99])); ("high_water_mark"%string, (VInt 552))]); (VDict [("name"%string, (VStr [73; 68; 76; 69])); ("high_water_mark"%string, (VInt 244))])]))]))]));
   ("test_debug.py:184"%string, debug_DebugParams, [36; 0; 0; 128; 128; 88; 0; 0], (VDict [("subopcode"%string, (VEnum "ARAP_LIST_CONTENT_STATUS" 36)); ("arap_list_content_status"%string, (VDict [("current_page"%string, (VInt 0)); ("last_page"%string, (VInt 0)); ("nodes"%string, (VList [(VDict [("ivi"%string, (VBool true)); ("sequence"%string, (VInt 88)); ("address"%string, (VInt 128))])]))]))]));
   ("test_debug.py:196"%string, debug_DebugParams, [36; 0; 0; 7; 0; 112; 12; 2; 128; 0; 88; 0; 0], (VDict [("subopcode"%string, (VEnum "ARAP_LIST_CONTENT_STATUS" 36)); ("arap_list_content_status"%string, (VDict [("current_page"%string, (VInt 0)); ("last_page"%string, (VInt 0)); ("nodes"%string, (VList [(VDict [("ivi"%string, (VBool false)); ("sequence"%string, (VInt 134256)); ("address"%string, (VInt 7))]); (VDict [("ivi"%string, (VBool false)); ("sequence"%string, (VInt 88)); ("address"%string, (VInt 128))])]))]))]));
   ("test_debug.py:212"%string, debug_DebugParams, [34; 126; 14], (VDict [("subopcode"%string, (VEnum "ARAP_LIST_SIZE_STATUS" 34)); ("arap_list_size_status"%string, (VDict [("capacity"%string, (VInt 126)); ("size"%string, (VInt 14))]))]));
   ("test_emergency_lighting.py:11"%string, el_EmergencyLightingParams, [0], (VDict [("subopcode"%string, (VEnum "EL_INHIBIT_ENTER" 0)); ("el_inhibit_enter"%string, (VDict []))]));
   ("test_emergency_lighting.py:16"%string, el_EmergencyLightingParams, [1], (VDict [("subopcode"%string, (VEnum "EL_INHIBIT_ENTER_UNACKNOWLEDGED" 1)); ("el_inhibit_enter_unacknowledged"%string, (VDict []))]));
   ("test_emergency_lighting.py:21"%string, el_EmergencyLightingParams, [2], (VDict [("subopcode"%string, (VEnum "EL_INHIBIT_EXIT" 2)); ("el_inhibit_exit"%string, (VDict []))]));
   ("test_emergency_lighting.py:26"%string, el_EmergencyLightingParams, [3], (VDict [("subopcode"%string, (VEnum "EL_INHIBIT_EXIT_UNACKNOWLEDGED" 3)); ("el_inhibit_exit_unacknowledged"%string, (VDict []))]));
   ("test_emergency_lighting.py:31"%string, el_EmergencyLightingParams, [4], (VDict [("subopcode"%string, (VEnum "EL_STATE_GET" 4)); ("el_state_get"%string, (VDict []))]));
   ("test_emergency_lighting.py:36"%string, el_EmergencyLightingParams, [5; 0], (VDict [("subopcode"%string, (VEnum "EL_STATE_STATUS" 5)); ("el_state_status"%string, (VDict [("el_state"%string, (VEnum "TRANSITION_FROM_INHIBIT_TO_NORMAL" 0))]))]));
   ("test_emergency_lighting.py:43"%string, el_EmergencyLightingParams, [5; 1], (VDict [("subopcode"%string, (VEnum "EL_STATE_STATUS" 5)); ("el_state_status"%string, (VDict [("el_state"%string, (VEnum "TRANSITION_FROM_FUNCTIONAL_TEST_TO_NORMAL" 1))]))]));
   ("test_emergency_lighting.py:50"%string, el_EmergencyLightingParams, [5; 2], (VDict [("subopcode"%string, (VEnum "EL_STATE_STATUS" 5)); ("el_state_status"%string, (VDict [("el_state"%string, (VEnum "TRANSITION_FROM_DURATION_TEST_TO_NORMAL" 2))]))]));
   ("test_emergency_lighting.py:57"%string, el_EmergencyLightingParams, [5; 3], (VDict [("subopcode"%string, (VEnum "EL_STATE_STATUS" 5)); ("el_state_status"%string, (VDict [("el_state"%string, (VEnum "NORMAL" 3))]))]));
   ("test_emergency_lighting.py:64"%string, el_EmergencyLightingParams, [5; 4], (VDict [("subopcode"%string, (VEnum "EL_STATE_STATUS" 5)); ("el_state_status"%string, (VDict [("el_state"%string, (VEnum "TRANSITION_FROM_REST_TO_EMERGENCY" 4))]))]));
   ("test_emergency_lighting.py:71"%string, el_EmergencyLightingParams, [5; 5], (VDict [("subopcode"%string, (VEnum "EL_STATE_STATUS" 5)); ("el_state_status"%string, (VDict [("el_state"%string, (VEnum "EMERGENCY" 5))]))]));
   ("test_emergency_lighting.py:78"%string, el_EmergencyLightingParams, [5; 6], (VDict [("subopcode"%string, (VEnum "EL_STATE_STATUS" 5)); ("el_state_status"%string, (VDict [("el_state"%string, (VEnum "EXTENDED_EMERGENCY" 6))]))]));
   ("test_emergency_lighting.py:85"%string, el_EmergencyLightingParams, [5; 7], (VDict [("subopcode"%string, (VEnum "EL_STATE_STATUS" 5)); ("el_state_status"%string, (VDict [("el_state"%string, (VEnum "TRANSITION_FROM_EMERGENCY_TO_REST" 7))]))]));
   ("test_emergency_lighting.py:92"%string, el_EmergencyLightingParams, [5; 8], (VDict [("subopcode"%string, (VEnum "EL_STATE_STATUS" 5)); ("el_state_status"%string, (VDict [("el_state"%string, (VEnum "REST" 8))]))]));
   ("test_emergency_lighting.py:99"%string, el_EmergencyLightingParams, [5; 9], (VDict [("subopcode"%string, (VEnum "EL_STATE_STATUS" 5)); ("el_state_status"%string, (VDict [("el_state"%string, (VEnum "TRANSITION_FROM_NORMAL_TO_INHIBIT" 9))]))]));
   ("test_emergency_lighting.py:106"%string, el_EmergencyLightingParams, [5; 10], (VDict [("subopcode"%string, (VEnum "EL_STATE_STATUS" 5)); ("el_state_status"%string, (VDict [("el_state"%string, (VEnum "INHIBIT" 10))]))]));
   ("test_emergency_lighting.py:113"%string, el_EmergencyLightingParams, [5; 11], (VDict [("subopcode"%string, (VEnum "EL_STATE_STATUS" 5)); ("el_state_status"%string, (VDict [("el_state"%string, (VEnum "TRANSITION_FROM_NORMAL_TO_DURATION_TEST" 11))]))]));
   ("test_emergency_lighting.py:120"%string, el_EmergencyLightingParams, [5; 12], (VDict [("subopcode"%string, (VEnum "EL_STATE_STATUS" 5)); ("el_state_status"%string, (VDict [("el_state"%string, (VEnum "DURATION_TEST_IN_PROGRESS" 12))]))]));
   ("test_emergency_lighting.py:127"%string, el_EmergencyLightingParams, [5; 13], (VDict [("subopcode"%string, (VEnum "EL_STATE_STATUS" 5)); ("el_state_status"%string, (VDict [("el_state"%string, (VEnum "TRANSITION_FROM_NORMAL_TO_FUNCTIONAL_TEST" 13))]))]));
   ("test_emergency_lighting.py:134"%string, el_EmergencyLightingParams, [5; 14], (VDict [("subopcode"%string, (VEnum "EL_STATE_STATUS" 5)); ("el_state_status"%string, (VDict [("el_state"%string, (VEnum "FUNCTIONAL_TEST_IN_PROGRESS" 14))]))]));
   ("test_emergency_lighting.py:141"%string, el_EmergencyLightingParams, [5; 15], (VDict [("subopcode"%string, (VEnum "EL_STATE_STATUS" 5)); ("el_state_status"%string, (VDict [("el_state"%string, (VEnum "BATTERY_DISCHARGED" 15))]))]));
   ("test_emergency_lighting.py:148"%string, el_EmergencyLightingParams, [5; 16], (VDict [("subopcode"%string, (VEnum "EL_STATE_STATUS" 5)); ("el_state_status"%string, (VDict [("el_state"%string, (VEnum "UNKNOWN" 16))]))]));
   ("test_emergency_lighting.py:155"%string, el_EmergencyLightingParams, [6; 128; 255], (VDict [("subopcode"%string, (VEnum "EL_PROPERTY_GET" 6)); ("el_property_get"%string, (VDict [("property_id"%string, (VEnum "EL_LIGHTNESS" 65408))]))]));
   ("test_emergency_lighting.py:162"%string, el_EmergencyLightingParams, [6; 129; 255], (VDict [("subopcode"%string, (VEnum "EL_PROPERTY_GET" 6)); ("el_property_get"%string, (VDict [("property_id"%string, (VEnum "EL_LIGHTNESS_RANGE_MIN" 65409))]))]));
   ("test_emergency_lighting.py:169"%string, el_EmergencyLightingParams, [6; 130; 255], (VDict [("subopcode"%string, (VEnum "EL_PROPERTY_GET" 6)); ("el_property_get"%string, (VDict [("property_id"%string, (VEnum "EL_LIGHTNESS_RANGE_MAX" 65410))]))]));
   ("test_emergency_lighting.py:176"%string, el_EmergencyLightingParams, [6; 131; 255], (VDict [("subopcode"%string, (VEnum "EL_PROPERTY_GET" 6)); ("el_property_get"%string, (VDict [("property_id"%string, (VEnum "EL_PROLONG_TIME" 65411))]))]));
   ("test_emergency_lighting.py:183"%string, el_EmergencyLightingParams, [7; 128; 255; 52; 18], (VDict [("subopcode"%string, (VEnum "EL_PROPERTY_SET" 7)); ("el_property_set"%string, (VDict [("property_id"%string, (VEnum "EL_LIGHTNESS" 65408)); ("el_lightness"%string, (VDict [("perceived_lightness"%string, (VInt 4660))]))]))]));
   ("test_emergency_lighting.py:191"%string, el_EmergencyLightingParams, [7; 129; 255; 52; 18], (VDict [("subopcode"%string, (VEnum "EL_PROPERTY_SET" 7)); ("el_property_set"%string, (VDict [("property_id"%string, (VEnum "EL_LIGHTNESS_RANGE_MIN" 65409)); ("el_lightness_range_min"%string, (VDict [("perceived_lightness"%string, (VInt 4660))]))]))]));
   ("test_emergency_lighting.py:199"%string, el_EmergencyLightingParams, [7; 130; 255; 52; 18], (VDict [("subopcode"%string, (VEnum "EL_PROPERTY_SET" 7)); ("el_property_set"%string, (VDict [("property_id"%string, (VEnum "EL_LIGHTNESS_RANGE_MAX" 65410)); ("el_lightness_range_max"%string, (VDict [("perceived_lightness"%string, (VInt 4660))]))]))]));
   ("test_emergency_lighting.py:207"%string, el_EmergencyLightingParams, [7; 131; 255; 52; 18], (VDict [("subopcode"%string, (VEnum "EL_PROPERTY_SET" 7)); ("el_property_set"%string, (VDict [("property_id"%string, (VEnum "EL_PROLONG_TIME" 65411)); ("el_prolong_time"%string, (VDict [("seconds"%string, (VInt 4660))]))]))]));
   ("test_emergency_lighting.py:215"%string, el_EmergencyLightingParams, [8; 128; 255; 52; 18], (VDict [("subopcode"%string, (VEnum "EL_PROPERTY_SET_UNACKNOWLEDGED" 8)); ("el_property_set_unacknowledged"%string, (VDict [("property_id"%string, (VEnum "EL_LIGHTNESS" 65408)); ("el_lightness"%string, (VDict [("perceived_lightness"%string, (VInt 4660))]))]))]));
   ("test_emergency_lighting.py:223"%string, el_EmergencyLightingParams, [8; 129; 255; 52; 18], (VDict [("subopcode"%string, (VEnum "EL_PROPERTY_SET_UNACKNOWLEDGED" 8)); ("el_property_set_unacknowledged"%string, (VDict [("property_id"%string, (VEnum "EL_LIGHTNESS_RANGE_MIN" 65409)); ("el_lightness_range_min"%string, (VDict [("perceived_lightness"%string, (VInt 4660))]))]))]));
   ("test_emergency_lighting.py:231"%string, el_EmergencyLightingParams, [8; 130; 255; 52; 18], (VDict [("subopcode"%string, (VEnum "EL_PROPERTY_SET_UNACKNOWLEDGED" 8)); ("el_property_set_unacknowledged"%string, (VDict [("property_id"%string, (VEnum "EL_LIGHTNESS_RANGE_MAX" 65410)); ("el_lightness_range_max"%string, (VDict [("perceived_lightness"%string, (VInt 4660))]))]))]));
   ("test_emergency_lighting.py:239"%string, el_EmergencyLightingParams, [8; 131; 255; 52; 18], (VDict [("subopcode"%string, (VEnum "EL_PROPERTY_SET_UNACKNOWLEDGED" 8)); ("el_property_set_unacknowledged"%string, (VDict [("property_id"%string, (VEnum "EL_PROLONG_TIME" 65411)); ("el_prolong_time"%string, (VDict [("seconds"%string, (VInt 4660))]))]))]));
   ("test_emergency_lighting.py:247"%string, el_EmergencyLightingParams, [9; 128; 255; 52; 18], (VDict [("subopcode"%string, (VEnum "EL_PROPERTY_STATUS" 9)); ("el_property_status"%string, (VDict [("property_id"%string, (VEnum "EL_LIGHTNESS" 65408)); ("el_lightness"%string, (VDict [("perceived_lightness"%string, (VInt 4660))]))]))]));
   ("test_emergency_lighting.py:255"%string, el_EmergencyLightingParams, [9; 129; 255; 52; 18], (VDict [("subopcode"%string, (VEnum "EL_PROPERTY_STATUS" 9)); ("el_property_status"%string, (VDict [("property_id"%string, (VEnum "EL_LIGHTNESS_RANGE_MIN" 65409)); ("el_lightness_range_min"%string, (VDict [("perceived_lightness"%string, (VInt 4660))]))]))]));
   ("test_emergency_lighting.py:263"%string, el_EmergencyLightingParams, [9; 130; 255; 52; 18], (VDict [("subopcode"%string, (VEnum "EL_PROPERTY_STATUS" 9)); ("el_property_status"%string, (VDict [("property_id"%string, (VEnum "EL_LIGHTNESS_RANGE_MAX" 65410)); ("el_lightness_range_max"%string, (VDict [("perceived_lightness"%string, (VInt 4660))]))]))]));
   ("test_emergency_lighting.py:271"%string, el_EmergencyLightingParams, [9; 131; 255; 52; 18], (VDict [("subopcode"%string, (VEnum "EL_PROPERTY_STATUS" 9)); ("el_property_status"%string, (VDict [("property_id"%string, (VEnum "EL_PROLONG_TIME" 65411)); ("el_prolong_time"%string, (VDict [("seconds"%string, (VInt 4660))]))]))]));
   ("test_emergency_lighting.py:279"%string, el_EmergencyLightingParams, [10], (VDict [("subopcode"%string, (VEnum "EL_LAMP_OPERATION_TIME_GET" 10)); ("el_lamp_operation_time_get"%string, (VDict []))]));
   ("test_emergency_lighting.py:284"%string, el_EmergencyLightingParams, [11], (VDict [("subopcode"%string, (VEnum "EL_LAMP_OPERATION_TIME_CLEAR" 11)); ("el_lamp_operation_time_clear"%string, (VDict []))]));
   ("test_emergency_lighting.py:289"%string, el_EmergencyLightingParams, [12], (VDict [("subopcode"%string, (VEnum "EL_LAMP_OPERATION_TIME_CLEAR_UNACKNOWLEDGED" 12)); ("el_lamp_operation_time_clear_unacknowledged"%string, (VDict []))]));
   ("test_emergency_lighting.py:294"%string, el_EmergencyLightingParams, [13; 103; 69; 35; 1; 239; 205; 171; 137], (VDict [("subopcode"%string, (VEnum "EL_LAMP_OPERATION_TIME_STATUS" 13)); ("el_lamp_operation_time_status"%string, (VDict [("el_lamp_total_operation_time"%string, (VInt 19088743)); ("el_lamp_emergency_time"%string, (VInt 2309737967))]))]));
   ("test_emergency_lighting.py:302"%string, el_EmergencyLightingParams, [14], (VDict [("subopcode"%string, (VEnum "EL_REST_ENTER" 14)); ("el_rest_enter"%string, (VDict []))]));
   ("test_emergency_lighting.py:307"%string, el_EmergencyLightingParams, [15], (VDict [("subopcode"%string, (VEnum "EL_REST_ENTER_UNACKNOWLEDGED" 15)); ("el_rest_enter_unacknowledged"%string, (VDict []))]));
   ("test_emergency_lighting.py:312"%string, el_EmergencyLightingParams, [16], (VDict [("subopcode"%string, (VEnum "EL_REST_EXIT" 16)); ("el_rest_exit"%string, (VDict []))]));
   ("test_emergency_lighting.py:317"%string, el_EmergencyLightingParams, [17], (VDict [("subopcode"%string, (VEnum "EL_REST_EXIT_UNACKNOWLEDGED" 17)); ("el_rest_exit_unacknowledged"%string, (VDict []))]));
   ("test_emergency_lighting_test.py:13"%string, elt_EmergencyLightingTestParams, [0], (VDict [("subopcode"%string, (VEnum "ELT_FUNCTIONAL_TEST_GET" 0)); ("elt_functional_test_get"%string, (VDict []))]));
   ("test_emergency_lighting_test.py:18"%string, elt_EmergencyLightingTestParams, [1], (VDict [("subopcode"%string, (VEnum "ELT_FUNCTIONAL_TEST_START" 1)); ("elt_functional_test_start"%string, (VDict []))]));
   ("test_emergency_lighting_test.py:23"%string, elt_EmergencyLightingTestParams, [2], (VDict [("subopcode"%string, (VEnum "ELT_FUNCTIONAL_TEST_STOP" 2)); ("elt_functional_test_stop"%string, (VDict []))]));
   ("test_emergency_lighting_test.py:28"%string, elt_EmergencyLightingTestParams, [3; 0; 0; 0; 0; 0; 64; 31; 1; 0; 0], (VDict [("subopcode"%string, (VEnum "ELT_FUNCTIONAL_TEST_STATUS" 3)); ("elt_functional_test_status"%string, (VDict [("tai_timestamp"%string, (VDict [("date"%string, (VDateTime 946684768000000 0)); ("tai_utc_delta"%string, (VTimedelta 32000000))])); ("execution_result"%string, (VDict [("lamp_fault"%string, (VBool false)); ("battery_fault"%string, (VBool false)); ("circuit_fault"%string, (VBool false)); ("battery_duration_fault"%string, (VBool false))])); ("execution_status"%string, (VEnum "FINISHED" 0))]))]));
   ("test_emergency_lighting_test.py:60"%string, elt_EmergencyLightingTestParams, [3; 0; 0; 0; 0; 0; 64; 255; 0; 7; 1], (VDict [("subopcode"%string, (VEnum "ELT_FUNCTIONAL_TEST_STATUS" 3)); ("elt_functional_test_status"%string, (VDict [("tai_timestamp"%string, (VDict [("date"%string, (VDateTime 946684800000000 0)); ("tai_utc_delta"%string, (VTimedelta 0))])); ("execution_result"%string, (VDict [("lamp_fault"%string, (VBool true)); ("battery_fault"%string, (VBool false)); ("circuit_fault"%string, (VBool false)); ("battery_duration_fault"%string, (VBool false))])); ("execution_status"%string, (VEnum "UNKNOWN" 7))]))]));
   ("test_emergency_lighting_test.py:92"%string, elt_EmergencyLightingTestParams, [3; 46; 72; 213; 47; 0; 72; 36; 1; 2; 2], (VDict [("subopcode"%string, (VEnum "ELT_FUNCTIONAL_TEST_STATUS" 3)); ("elt_functional_test_status"%string, (VDict [("tai_timestamp"%string, (VDict [("date"%string, (VDateTime 1749191561000000 7200)); ("tai_utc_delta"%string, (VTimedelta 37000000))])); ("execution_result"%string, (VDict [("lamp_fault"%string, (VBool false)); ("battery_fault"%string, (VBool true)); ("circuit_fault"%string, (VBool false)); ("battery_duration_fault"%string, (VBool false))])); ("execution_status"%string, (VEnum "IN_PROGRESS" 2))]))]));
   ("test_emergency_lighting_test.py:124"%string, elt_EmergencyLightingTestParams, [3; 0; 0; 0; 0; 0; 120; 36; 1; 3; 7; 69; 0; 0; 0], (VDict [("subopcode"%string, (VEnum "ELT_FUNCTIONAL_TEST_STATUS" 3)); ("elt_functional_test_status"%string, (VDict [("tai_timestamp"%string, (VDict [("date"%string, (VDateTime 946684763000000 50400)); ("tai_utc_delta"%string, (VTimedelta 37000000))])); ("execution_result"%string, (VDict [("lamp_fault"%string, (VBool true)); ("battery_fault"%string, (VBool true)); ("circuit_fault"%string, (VBool true)); ("battery_duration_fault"%string, (VBool false))])); ("execution_status"%string, (VEnum "POSTPONED" 3)); ("relative_timestamp"%string, (VInt 69))]))]));
   ("test_emergency_lighting_test.py:158"%string, elt_EmergencyLightingTestParams, [4], (VDict [("subopcode"%string, (VEnum "ELT_DURATION_TEST_GET" 4)); ("elt_duration_test_get"%string, (VDict []))]));
   ("test_emergency_lighting_test.py:163"%string, elt_EmergencyLightingTestParams, [5], (VDict [("subopcode"%string, (VEnum "ELT_DURATION_TEST_START" 5)); ("elt_duration_test_start"%string, (VDict []))]));
   ("test_emergency_lighting_test.py:168"%string, elt_EmergencyLightingTestParams, [6], (VDict [("subopcode"%string, (VEnum "ELT_DURATION_TEST_STOP" 6)); ("elt_duration_test_stop"%string, (VDict []))]));
   ("test_emergency_lighting_test.py:173"%string, elt_EmergencyLightingTestParams, [7; 0; 0; 0; 0; 0; 64; 31; 1; 0; 0; 0; 0], (VDict [("subopcode"%string, (VEnum "ELT_DURATION_TEST_STATUS" 7)); ("elt_duration_test_status"%string, (VDict [("tai_timestamp"%string, (VDict [("date"%string, (VDateTime 946684768000000 0)); ("tai_utc_delta"%string, (VTimedelta 32000000))])); ("execution_result"%string, (VDict [("lamp_fault"%string, (VBool false)); ("battery_fault"%string, (VBool false)); ("circuit_fault"%string, (VBool false)); ("battery_duration_fault"%string, (VBool false))])); ("execution_status"%string, (VEnum "FINISHED" 0)); ("duration_result"%string, (VInt 0))]))]));
   ("test_emergency_lighting_test.py:207"%string, elt_EmergencyLightingTestParams, [7; 0; 0; 0; 0; 0; 64; 255; 0; 7; 1; 255; 255], (VDict [("subopcode"%string, (VEnum "ELT_DURATION_TEST_STATUS" 7)); ("elt_duration_test_status"%string, (VDict [("tai_timestamp"%string, (VDict [("date"%string, (VDateTime 946684800000000 0)); ("tai_utc_delta"%string, (VTimedelta 0))])); ("execution_result"%string, (VDict [("lamp_fault"%string, (VBool true)); ("battery_fault"%string, (VBool false)); ("circuit_fault"%string, (VBool false)); ("battery_duration_fault"%string, (VBool false))])); ("execution_status"%string, (VEnum "UNKNOWN" 7)); ("duration_result"%string, (VInt 65535))]))]));
   ("test_emergency_lighting_test.py:241"%string, elt_EmergencyLightingTestParams, [7; 46; 72; 213; 47; 0; 72; 36; 1; 2; 2; 0; 0], (VDict [("subopcode"%string, (VEnum "ELT_DURATION_TEST_STATUS" 7)); ("elt_duration_test_status"%string, (VDict [("tai_timestamp"%string, (VDict [("date"%string, (VDateTime 1749191561000000 7200)); ("tai_utc_delta"%string, (VTimedelta 37000000))])); ("execution_result"%string, (VDict [("lamp_fault"%string, (VBool false)); ("battery_fault"%string, (VBool true)); ("circuit_fault"%string, (VBool false)); ("battery_duration_fault"%string, (VBool false))])); ("execution_status"%string, (VEnum "IN_PROGRESS" 2)); ("duration_result"%string, (VInt 0))]))]));
   ("test_emergency_lighting_test.py:275"%string, elt_EmergencyLightingTestParams, [7; 0; 0; 0; 0; 0; 120; 36; 1; 3; 15; 16; 14; 69; 0; 0; 0], (VDict [("subopcode"%string, (VEnum "ELT_DURATION_TEST_STATUS" 7)); ("elt_duration_test_status"%string, (VDict [("tai_timestamp"%string, (VDict [("date"%string, (VDateTime 946684763000000 50400)); ("tai_utc_delta"%string, (VTimedelta 37000000))])); ("execution_result"%string, (VDict [("lamp_fault"%string, (VBool true)); ("battery_fault"%string, (VBool true)); ("circuit_fault"%string, (VBool true)); ("battery_duration_fault"%string, (VBool true))])); ("execution_status"%string, (VEnum "POSTPONED" 3)); ("duration_result"%string, (VInt 3600)); ("relative_timestamp"%string, (VInt 69))]))]));
   ("test_emergency_lighting_test.py:311"%string, elt_EmergencyLightingTestParams, [8; 132; 255], (VDict [("subopcode"%string, (VEnum "ELT_PROPERTY_GET" 8)); ("elt_property_get"%string, (VDict [("property_id"%string, (VEnum "ELT_DURATION_TEST_EXECUTION_TIMEOUT" 65412))]))]));
   ("test_emergency_lighting_test.py:318"%string, elt_EmergencyLightingTestParams, [8; 133; 255], (VDict [("subopcode"%string, (VEnum "ELT_PROPERTY_GET" 8)); ("elt_property_get"%string, (VDict [("property_id"%string, (VEnum "ELT_FUNCTIONAL_TEST_EXECUTION_TIMEOUT" 65413))]))]));
   ("test_emergency_lighting_test.py:325"%string, elt_EmergencyLightingTestParams, [8; 134; 255], (VDict [("subopcode"%string, (VEnum "ELT_PROPERTY_GET" 8)); ("elt_property_get"%string, (VDict [("property_id"%string, (VEnum "ELT_DURATION_TEST_RETRY_PERIOD" 65414))]))]));
   ("test_emergency_lighting_test.py:332"%string, elt_EmergencyLightingTestParams, [8; 135; 255], (VDict [("subopcode"%string, (VEnum "ELT_PROPERTY_GET" 8)); ("elt_property_get"%string, (VDict [("property_id"%string, (VEnum "ELT_FUNCTIONAL_TEST_RETRY_PERIOD" 65415))]))]));
   ("test_emergency_lighting_test.py:339"%string, elt_EmergencyLightingTestParams, [8; 136; 255], (VDict [("subopcode"%string, (VEnum "ELT_PROPERTY_GET" 8)); ("elt_property_get"%string, (VDict [("property_id"%string, (VEnum "ELT_DURATION_TEST_BACKUP_AUTOMATIC_DELAY" 65416))]))]));
   ("test_emergency_lighting_test.py:346"%string, elt_EmergencyLightingTestParams, [8; 137; 255], (VDict [("subopcode"%string, (VEnum "ELT_PROPERTY_GET" 8)); ("elt_property_get"%string, (VDict [("property_id"%string, (VEnum "ELT_FUNCTIONAL_TEST_BACKUP_AUTOMATIC_DELAY" 65417))]))]));
   ("test_emergency_lighting_test.py:353"%string, elt_EmergencyLightingTestParams, [8; 138; 255], (VDict [("subopcode"%string, (VEnum "ELT_PROPERTY_GET" 8)); ("elt_property_get"%string, (VDict [("property_id"%string, (VEnum "ELT_DURATION_TEST_BACKUP_AUTOMATIC_INTERVAL" 65418))]))]));
   ("test_emergency_lighting_test.py:360"%string, elt_EmergencyLightingTestParams, [8; 139; 255], (VDict [("subopcode"%string, (VEnum "ELT_PROPERTY_GET" 8)); ("elt_property_get"%string, (VDict [("property_id"%string, (VEnum "ELT_FUNCTIONAL_TEST_BACKUP_AUTOMATIC_INTERVAL" 65419))]))]));
   ("test_emergency_lighting_test.py:367"%string, elt_EmergencyLightingTestParams, [9; 132; 255; 4; 3; 2; 1], (VDict [("subopcode"%string, (VEnum "ELT_PROPERTY_SET" 9)); ("elt_property_set"%string, (VDict [("property_id"%string, (VEnum "ELT_DURATION_TEST_EXECUTION_TIMEOUT" 65412)); ("elt_duration_test_execution_timeout"%string, (VDict [("seconds"%string, (VInt 16909060))]))]))]));
   ("test_emergency_lighting_test.py:375"%string, elt_EmergencyLightingTestParams, [9; 133; 255; 4; 3; 2; 1], (VDict [("subopcode"%string, (VEnum "ELT_PROPERTY_SET" 9)); ("elt_property_set"%string, (VDict [("property_id"%string, (VEnum "ELT_FUNCTIONAL_TEST_EXECUTION_TIMEOUT" 65413)); ("elt_functional_test_execution_timeout"%string, (VDict [("seconds"%string, (VInt 16909060))]))]))]));
   ("test_emergency_lighting_test.py:383"%string, elt_EmergencyLightingTestParams, [9; 134; 255; 4; 3; 2; 1], (VDict [("subopcode"%string, (VEnum "ELT_PROPERTY_SET" 9)); ("elt_property_set"%string, (VDict [("property_id"%string, (VEnum "ELT_DURATION_TEST_RETRY_PERIOD" 65414)); ("elt_duration_test_retry_period"%string, (VDict [("seconds"%string, (VInt 16909060))]))]))]));
   ("test_emergency_lighting_test.py:391"%string, elt_EmergencyLightingTestParams, [9; 135; 255; 4; 3; 2; 1], (VDict [("subopcode"%string, (VEnum "ELT_PROPERTY_SET" 9)); ("elt_property_set"%string, (VDict [("property_id"%string, (VEnum "ELT_FUNCTIONAL_TEST_RETRY_PERIOD" 65415)); ("elt_functional_test_retry_period"%string, (VDict [("seconds"%string, (VInt 16909060))]))]))]));
   ("test_emergency_lighting_test.py:399"%string, elt_EmergencyLightingTestParams, [9; 136; 255; 4; 3; 2; 1], (VDict [("subopcode"%string, (VEnum "ELT_PROPERTY_SET" 9)); ("elt_property_set"%string, (VDict [("property_id"%string, (VEnum "ELT_DURATION_TEST_BACKUP_AUTOMATIC_DELAY" 65416)); ("elt_duration_test_backup_automatic_delay"%string, (VDict [("seconds"%string, (VInt 16909060))]))]))]));
   ("test_emergency_lighting_test.py:407"%string, elt_EmergencyLightingTestParams, [9; 137; 255; 4; 3; 2; 1], (VDict [("subopcode"%string, (VEnum "ELT_PROPERTY_SET" 9)); ("elt_property_set"%string, (VDict [("property_id"%string, (VEnum "ELT_FUNCTIONAL_TEST_BACKUP_AUTOMATIC_DELAY" 65417)); ("elt_functional_test_backup_automatic_delay"%string, (VDict [("seconds"%string, (VInt 16909060))]))]))]));
   ("test_emergency_lighting_test.py:415"%string, elt_EmergencyLightingTestParams, [9; 138; 255; 4; 3; 2; 1], (VDict [("subopcode"%string, (VEnum "ELT_PROPERTY_SET" 9)); ("elt_property_set"%string, (VDict [("property_id"%string, (VEnum "ELT_DURATION_TEST_BACKUP_AUTOMATIC_INTERVAL" 65418)); ("elt_duration_test_backup_automatic_interval"%string, (VDict [("seconds"%string, (VInt 16909060))]))]))]));
   ("test_emergency_lighting_test.py:423"%string, elt_EmergencyLightingTestParams, [9; 139; 255; 4; 3; 2; 1], (VDict [("subopcode"%string, (VEnum "ELT_PROPERTY_SET" 9)); ("elt_property_set"%string, (VDict [("property_id"%string, (VEnum "ELT_FUNCTIONAL_TEST_BACKUP_AUTOMATIC_INTERVAL" 65419)); ("elt_functional_test_backup_automatic_interval"%string, (VDict [("seconds"%string, (VInt 16909060))]))]))]));
   ("test_emergency_lighting_test.py:431"%string, elt_EmergencyLightingTestParams, [10; 132; 255; 4; 3; 2; 1], (VDict [("subopcode"%string, (VEnum "ELT_PROPERTY_SET_UNACKNOWLEDGED" 10)); ("elt_property_set_unacknowledged"%string, (VDict [("property_id"%string, (VEnum "ELT_DURATION_TEST_EXECUTION_TIMEOUT" 65412)); ("elt_duration_test_execution_timeout"%string, (VDict [("seconds"%string, (VInt 16909060))]))]))]));
   ("test_emergency_lighting_test.py:439"%string, elt_EmergencyLightingTestParams, [10; 133; 255; 4; 3; 2; 1], (VDict [("subopcode"%string, (VEnum "ELT_PROPERTY_SET_UNACKNOWLEDGED" 10)); ("elt_property_set_unacknowledged"%string, (VDict [("property_id"%string, (VEnum "ELT_FUNCTIONAL_TEST_EXECUTION_TIMEOUT" 65413)); ("elt_functional_test_execution_timeout"%string, (VDict [("seconds"%string, (VInt 16909060))]))]))]));
   ("test_emergency_lighting_test.py:447"%string, elt_EmergencyLightingTestParams, [10; 134; 255; 4; 3; 2; 1], (VDict [("subopcode"%string, (VEnum "ELT_PROPERTY_SET_UNACKNOWLEDGED" 10)); ("elt_property_set_unacknowledged"%string, (VDict [("property_id"%string, (VEnum "ELT_DURATION_TEST_RETRY_PERIOD" 65414)); ("elt_duration_test_retry_period"%string, (VDict [("seconds"%string, (VInt 16909060))]))]))]));
   ("test_emergency_lighting_test.py:455"%string, elt_EmergencyLightingTestParams, [10; 135; 255; 4; 3; 2; 1], (VDict [("subopcode"%string, (VEnum "ELT_PROPERTY_SET_UNACKNOWLEDGED" 10)); ("elt_property_set_unacknowledged"%string, (VDict [("property_id"%string, (VEnum "ELT_FUNCTIONAL_TEST_RETRY_PERIOD" 65415)); ("elt_functional_test_retry_period"%string, (VDict [("seconds"%string, (VInt 16909060))]))]))]));
   ("test_emergency_lighting_test.py:463"%string, elt_EmergencyLightingTestParams, [10; 136; 255; 4; 3; 2; 1], (VDict [("subopcode"%string, (VEnum "ELT_PROPERTY_SET_UNACKNOWLEDGED" 10)); ("elt_property_set_unacknowledged"%string, (VDict [("property_id"%string, (VEnum "ELT_DURATION_TEST_BACKUP_AUTOMATIC_DELAY" 65416)); ("elt_duration_test_backup_automatic_delay"%string, (VDict [("seconds"%string, (VInt 16909060))]))]))]));
   ("test_emergency_lighting_test.py:471"%string, elt_EmergencyLightingTestParams, [10; 137; 255; 4; 3; 2; 1], (VDict [("subopcode"%string, (VEnum "ELT_PROPERTY_SET_UNACKNOWLEDGED" 10)); ("elt_property_set_unacknowledged"%string, (VDict [("property_id"%string, (VEnum "ELT_FUNCTIONAL_TEST_BACKUP_AUTOMATIC_DELAY" 65417)); ("elt_functional_test_backup_automatic_delay"%string, (VDict [("seconds"%string, (VInt 16909060))]))]))]));
   ("test_emergency_lighting_test.py:479"%string, elt_EmergencyLightingTestParams, [10; 138; 255; 4; 3; 2; 1], (VDict [("subopcode"%string, (VEnum "ELT_PROPERTY_SET_UNACKNOWLEDGED" 10)); ("elt_property_set_unacknowledged"%string, (VDict [("property_id"%string, (VEnum "ELT_DURATION_TEST_BACKUP_AUTOMATIC_INTERVAL" 65418)); ("elt_duration_test_backup_automatic_interval"%string, (VDict [("seconds"%string, (VInt 16909060))]))]))]));
   ("test_emergency_lighting_test.py:487"%string, elt_EmergencyLightingTestParams, [10; 139; 255; 4; 3; 2; 1], (VDict [("subopcode"%string, (VEnum "ELT_PROPERTY_SET_UNACKNOWLEDGED" 10)); ("elt_property_set_unacknowledged"%string, (VDict [("property_id"%string, (VEnum "ELT_FUNCTIONAL_TEST_BACKUP_AUTOMATIC_INTERVAL" 65419)); ("elt_functional_test_backup_automatic_interval"%string, (VDict [("seconds"%string, (VInt 16909060))]))]))]));
   ("test_emergency_lighting_test.py:495"%string, elt_EmergencyLightingTestParams, [11; 132; 255; 4; 3; 2; 1], (VDict [("subopcode"%string, (VEnum "ELT_PROPERTY_STATUS" 11)); ("elt_property_status"%string, (VDict [("property_id"%string, (VEnum "ELT_DURATION_TEST_EXECUTION_TIMEOUT" 65412)); ("elt_duration_test_execution_timeout"%string, (VDict [("seconds"%string, (VInt 16909060))]))]))]));
   ("test_emergency_lighting_test.py:503"%string, elt_EmergencyLightingTestParams, [11; 133; 255; 4; 3; 2; 1], (VDict [("subopcode"%string, (VEnum "ELT_PROPERTY_STATUS" 11)); ("elt_property_status"%string, (VDict [("property_id"%string, (VEnum "ELT_FUNCTIONAL_TEST_EXECUTION_TIMEOUT" 65413)); ("elt_functional_test_execution_timeout"%string, (VDict [("seconds"%string, (VInt 16909060))]))]))]));
   ("test_emergency_lighting_test.py:511"%string, elt_EmergencyLightingTestParams, [11; 134; 255; 4; 3; 2; 1], (VDict [("subopcode"%string, (VEnum "ELT_PROPERTY_STATUS" 11)); ("elt_property_status"%string, (VDict [("property_id"%string, (VEnum "ELT_DURATION_TEST_RETRY_PERIOD" 65414)); ("elt_duration_test_retry_period"%string, (VDict [("seconds"%string, (VInt 16909060))]))]))]));
   ("test_emergency_lighting_test.py:519"%string, elt_EmergencyLightingTestParams, [11; 135; 255; 4; 3; 2; 1], (VDict [("subopcode"%string, (VEnum "ELT_PROPERTY_STATUS" 11)); ("elt_property_status"%string, (VDict [("property_id"%string, (VEnum "ELT_FUNCTIONAL_TEST_RETRY_PERIOD" 65415)); ("elt_functional_test_retry_period"%string, (VDict [("seconds"%string, (VInt 16909060))]))]))]));
   ("test_emergency_lighting_test.py:527"%string, elt_EmergencyLightingTestParams, [11; 136; 255; 4; 3; 2; 1], (VDict [("subopcode"%string, (VEnum "ELT_PROPERTY_STATUS" 11)); ("elt_property_status"%string, (VDict [("property_id"%string, (VEnum "ELT_DURATION_TEST_BACKUP_AUTOMATIC_DELAY" 65416)); ("elt_duration_test_backup_automatic_delay"%string, (VDict [("seconds"%string, (VInt 16909060))]))]))]));
   ("test_emergency_lighting_test.py:535"%string, elt_EmergencyLightingTestParams, [11; 137; 255; 4; 3; 2; 1], (VDict [("subopcode"%string, (VEnum "ELT_PROPERTY_STATUS" 11)); ("elt_property_status"%string, (VDict [("property_id"%string, (VEnum "ELT_FUNCTIONAL_TEST_BACKUP_AUTOMATIC_DELAY" 65417)); ("elt_functional_test_backup_automatic_delay"%string, (VDict [("seconds"%string, (VInt 16909060))]))]))]));
   ("test_emergency_lighting_test.py:543"%string, elt_EmergencyLightingTestParams, [11; 138; 255; 4; 3; 2; 1], (VDict [("subopcode"%string, (VEnum "ELT_PROPERTY_STATUS" 11)); ("elt_property_status"%string, (VDict [("property_id"%string, (VEnum "ELT_DURATION_TEST_BACKUP_AUTOMATIC_INTERVAL" 65418)); ("elt_duration_test_backup_automatic_interval"%string, (VDict [("seconds"%string, (VInt 16909060))]))]))]));
   ("test_emergency_lighting_test.py:551"%string, elt_EmergencyLightingTestParams, [11; 139; 255; 4; 3; 2; 1], (VDict [("subopcode"%string, (VEnum "ELT_PROPERTY_STATUS" 11)); ("elt_property_status"%string, (VDict [("property_id"%string, (VEnum "ELT_FUNCTIONAL_TEST_BACKUP_AUTOMATIC_INTERVAL" 65419)); ("elt_functional_test_backup_automatic_interval"%string, (VDict [("seconds"%string, (VInt 16909060))]))]))]));
   ("test_rrule_scheduler.py:14"%string, rrule_RRuleSchedulerSubMessage, [8; 5; 1; 205; 171; 0; 0; 0; 1; 3; 2; 0; 2; 5; 0], (VDict [("subopcode"%string, (VEnum "SCHEDULE_REGISTER_ENTRY_SET" 8)); ("payload"%string, (VDict [("entry_id"%string, (VInt 5)); ("scheduler_register_entry"%string, (VDict [("array_of_slots"%string, (VList [(VDict [("slot_id"%string, (VInt 43981)); ("element"%string, (VInt 0)); ("slot_parameter"%string, (VBytes []))])])); ("rules"%string, (VList [(VDict [("rule_id"%string, (VEnum "FREQ" 0)); ("rule"%string, (VEnum "MINUTELY" 1))]); (VDict [("rule_id"%string, (VEnum "INTERVAL" 3)); ("rule"%string, (VInt 2))]); (VDict [("rule_id"%string, (VEnum "COUNT" 2)); ("rule"%string, (VInt 5))])]))]))]))]));
   ("test_rrule_scheduler.py:27"%string, rrule_RRuleSchedulerSubMessage, [8; 5; 3; 205; 171; 0; 2; 187; 204; 204; 171; 2; 5; 171; 255; 21; 114; 136; 203; 171; 5; 16; 0; 2; 187; 204; 204; 171; 0; 5; 171; 255; 21; 114; 136; 203; 171; 0; 0; 1; 3; 2; 0; 2; 5; 0], (VDict [("subopcode"%string, (VEnum "SCHEDULE_REGISTER_ENTRY_SET" 8)); ("payload"%string, (VDict [("entry_id"%string, (VInt 5)); ("scheduler_register_entry"%string, (VDict [("array_of_slots"%string, (VList [(VDict [("slot_id"%string, (VInt 43981)); ("element"%string, (VInt 0)); ("slot_parameter"%string, (VBytes [187; 204]))]); (VDict [("slot_id"%string, (VInt 43980)); ("element"%string, (VInt 2)); ("slot_parameter"%string, (VBytes [171; 255; 21; 114; 136]))]); (VDict [("slot_id"%string, (VInt 43979)); ("element"%string, (VInt 5)); ("slot_parameter"%string, (VBytes [0; 2; 187; 204; 204; 171; 0; 5; 171; 255; 21; 114; 136; 203; 171; 0]))])])); ("rules"%string, (VList [(VDict [("rule_id"%string, (VEnum "FREQ" 0)); ("rule"%string, (VEnum "MINUTELY" 1))]); (VDict [("rule_id"%string, (VEnum "INTERVAL" 3)); ("rule"%string, (VInt 2))]); (VDict [("rule_id"%string, (VEnum "COUNT" 2)); ("rule"%string, (VInt 5))])]))]))]))]));
   ("test_rrule_scheduler.py:58"%string, rrule_RRuleSchedulerSubMessage, [8; 5; 3; 205; 171; 0; 2; 187; 204; 204; 171; 2; 5; 171; 255; 21; 114; 136; 203; 171; 5; 16; 0; 2; 187; 204; 204; 171; 0; 5; 171; 255; 21; 114; 136; 203; 171; 0; 0; 1; 3; 32; 16; 2; 5; 80; 4; 1; 0; 5; 2; 1; 11; 6; 3; 2; 12; 16; 7; 4; 1; 5; 7; 250; 8; 5; 4; 16; 17; 18; 19; 9; 8; 4; 0; 16; 0; 2; 0; 48; 0; 64; 0; 80; 0; 0; 1; 32; 1; 10; 4; 6; 22; 38; 42; 11; 1; 2; 12; 6; 10; 0; 16; 0; 160; 0; 208; 0; 80; 0; 80; 1; 13; 248; 199; 102; 27; 225; 1; 248; 199; 102; 27; 225; 14; 3; 228; 199; 102; 27; 225; 238; 199; 102; 27; 225; 248; 199; 102; 27; 225; 15; 3; 228; 199; 102; 27; 225; 238; 199; 102; 27; 225; 248; 199; 102; 27; 225], (VDict [("subopcode"%string, (VEnum "SCHEDULE_REGISTER_ENTRY_SET" 8)); ("payload"%string, (VDict [("entry_id"%string, (VInt 5)); ("scheduler_register_entry"%string, (VDict [("array_of_slots"%string, (VList [(VDict [("slot_id"%string, (VInt 43981)); ("element"%string, (VInt 0)); ("slot_parameter"%string, (VBytes [187; 204]))]); (VDict [("slot_id"%string, (VInt 43980)); ("element"%string, (VInt 2)); ("slot_parameter"%string, (VBytes [171; 255; 21; 114; 136]))]); (VDict [("slot_id"%string, (VInt 43979)); ("element"%string, (VInt 5)); ("slot_parameter"%string, (VBytes [0; 2; 187; 204; 204; 171; 0; 5; 171; 255; 21; 114; 136; 203; 171; 0]))])])); ("rules"%string, (VList [(VDict [("rule_id"%string, (VEnum "FREQ" 0)); ("rule"%string, (VEnum "MINUTELY" 1))]); (VDict [("rule_id"%string, (VEnum "INTERVAL" 3)); ("rule"%string, (VInt 4128))]); (VDict [("rule_id"%string, (VEnum "COUNT" 2)); ("rule"%string, (VInt 20485))]); (VDict [("rule_id"%string, (VEnum "BYSECOND" 4)); ("rule"%string, (VList [(VInt 0)]))]); (VDict [("rule_id"%string, (VEnum "BYMINUTE" 5)); ("rule"%string, (VList [(VInt 1); (VInt 11)]))]); (VDict [("rule_id"%string, (VEnum "BYHOUR" 6)); ("rule"%string, (VList [(VInt 2); (VInt 12); (VInt 16)]))]); (VDict [("rule_id"%string, (VEnum "BYDAY" 7)); ("rule"%string, (VList [(VEnum "NEXT_MONDAY" 1); (VEnum "NEXT_FRIDAY" 5); (VEnum "NEXT_SUNDAY" 7); (VEnum "PREVIOUS_SATURDAY" (-6))]))]); (VDict [("rule_id"%string, (VEnum "BYMONTHDAY" 8)); ("rule"%string, (VList [(VInt 4); (VInt 16); (VInt 17); (VInt 18); (VInt 19)]))]); (VDict [("rule_id"%string, (VEnum "BYYEARDAY" 9)); ("rule"%string, (VList [(VInt 4); (VInt 16); (VInt 2); (VInt 48); (VInt 64); (VInt 80); (VInt 256); (VInt 288)]))]); (VDict [("rule_id"%string, (VEnum "BYWEEKNO" 10)); ("rule"%string, (VList [(VInt 6); (VInt 22); (VInt 38); (VInt 42)]))]); (VDict [("rule_id"%string, (VEnum "BYMONTH" 11)); ("rule"%string, (VInt 513))]); (VDict [("rule_id"%string, (VEnum "BYSETPOS" 12)); ("rule"%string, (VList [(VInt 10); (VInt 16); (VInt 160); (VInt 208); (VInt 80); (VInt 336)]))]); (VDict [("rule_id"%string, (VEnum "DTSTART" 13)); ("rule"%string, (VDict [("second"%string, (VInt 56)); ("minute"%string, (VInt 17)); ("hour"%string, (VInt 22)); ("day"%string, (VInt 25)); ("month"%string, (VInt 11)); ("year"%string, (VInt 2040))]))]); (VDict [("rule_id"%string, (VEnum "UNTIL" 1)); ("rule"%string, (VDict [("second"%string, (VInt 56)); ("minute"%string, (VInt 17)); ("hour"%string, (VInt 22)); ("day"%string, (VInt 25)); ("month"%string, (VInt 11)); ("year"%string, (VInt 2040))]))]); (VDict [("rule_id"%string, (VEnum "EXPLICIT_RDATE" 14)); ("rule"%string, (VList [(VDict [("second"%string, (VInt 56)); ("minute"%string, (VInt 17)); ("hour"%string, (VInt 22)); ("day"%string, (VInt 25)); ("month"%string, (VInt 11)); ("year"%string, (VInt 2020))]); (VDict [("second"%string, (VInt 56)); ("minute"%string, (VInt 17)); ("hour"%string, (VInt 22)); ("day"%string, (VInt 25)); ("month"%string, (VInt 11)); ("year"%string, (VInt 2030))]); (VDict [("second"%string, (VInt 56)); ("minute"%string, (VInt 17)); ("hour"%string, (VInt 22)); ("day"%string, (VInt 25)); ("month"%string, (VInt 11)); ("year"%string, (VInt 2040))])]))]); (VDict [("rule_id"%string, (VEnum "EXCLUSIONS_RDATE" 15)); ("rule"%string, (VList [(VDict [("second"%string, (VInt 56)); ("minute"%string, (VInt 17)); ("hour"%string, (VInt 22)); ("day"%string, (VInt 25)); ("month"%string, (VInt 11)); ("year"%string, (VInt 2020))]); (VDict [("second"%string, (VInt 56)); ("minute"%string, (VInt 17)); ("hour"%string, (VInt 22)); ("day"%string, (VInt 25)); ("month"%string, (VInt 11)); ("year"%string, (VInt 2030))]); (VDict [("second"%string, (VInt 56)); ("minute"%string, (VInt 17)); ("hour"%string, (VInt 22)); ("day"%string, (VInt 25)); ("month"%string, (VInt 11)); ("year"%string, (VInt 2040))])]))])]))]))]))]));
   ("test_gateway_config_server.py:36"%string, gateway_GatewayConfigParams, [0], (VDict [("subopcode"%string, (VEnum "GATEWAY_CONFIGURATION_GET" 0)); ("gateway_configuration_get"%string, VNone)]));
   ("test_gateway_config_server.py:43"%string, gateway_GatewayConfigParams, [1; 176; 4; 171; 205; 239; 171; 205; 239; 210; 4; 208; 7; 11; 49; 57; 50; 46; 49; 54; 56; 46; 48; 46; 49], (VDict [("subopcode"%string, (VEnum "GATEWAY_CONFIGURATION_SET" 1)); ("gateway_configuration_set"%string, (VDict [("mtu_size"%string, (VInt 1200)); ("mac_address"%string, (VStr [97; 98; 58; 99; 100; 58; 101; 102; 58; 97; 98; 58; 99; 100; 58; 101; 102])); ("server_port_number"%string, (VInt 1234)); ("reconnect_interval"%string, (VInt 2000)); ("server_address_length"%string, (VInt 11)); ("server_address"%string, (VStr [49; 57; 50; 46; 49; 54; 56; 46; 48; 46; 49]))]))]));
   ("test_gateway_config_server.py:57"%string, gateway_GatewayConfigParams, [1; 176; 4; 171; 205; 239; 171; 205; 239; 210; 4; 208; 7; 25; 119; 119; 119; 46; 114; 97; 110; 100; 111; 109; 104; 111; 115; 116; 110; 97; 109; 101; 46; 99; 111; 109; 46; 112; 108], (VDict [("subopcode"%string, (VEnum "GATEWAY_CONFIGURATION_SET" 1)); ("gateway_configuration_set"%string, (VDict [("mtu_size"%string, (VInt 1200)); ("mac_address"%string, (VStr [97; 98; 58; 99; 100; 58; 101; 102; 58; 97; 98; 58; 99; 100; 58; 101; 102])); ("server_port_number"%string, (VInt 1234)); ("reconnect_interval"%string, (VInt 2000)); ("server_address_length"%string, (VInt 25)); ("server_address"%string, (VStr [119; 119; 119; 46; 114; 97; 110; 100; 111; 109; 104; 111; 115; 116; 110; 97; 109; 101; 46; 99; 111; 109; 46; 112; 108]))]))]));
   ("test_gateway_config_server.py:71"%string, gateway_GatewayConfigParams, [1; 176; 4; 171; 205; 239; 171; 205; 239; 210; 4; 208; 7; 11; 49; 57; 50; 46; 49; 54; 56; 46; 48; 46; 49; 10; 42; 0; 2], (VDict [("subopcode"%string, (VEnum "GATEWAY_CONFIGURATION_SET" 1)); ("gateway_configuration_set"%string, (VDict [("mtu_size"%string, (VInt 1200)); ("mac_address"%string, (VStr [97; 98; 58; 99; 100; 58; 101; 102; 58; 97; 98; 58; 99; 100; 58; 101; 102])); ("server_port_number"%string, (VInt 1234)); ("reconnect_interval"%string, (VInt 2000)); ("server_address_length"%string, (VInt 11)); ("server_address"%string, (VStr [49; 57; 50; 46; 49; 54; 56; 46; 48; 46; 49])); ("dns_ip_address"%string, (VIPv4 [10; 42; 0; 2]))]))]));
   ("test_gateway_config_server.py:86"%string, gateway_GatewayConfigParams, [1; 222; 3; 171; 205; 239; 171; 205; 239; 171; 205; 4; 210; 25; 119; 119; 119; 46; 114; 97; 110; 100; 111; 109; 104; 111; 115; 116; 110; 97; 109; 101; 46; 99; 111; 109; 46; 112; 108; 10; 42; 0; 2], (VDict [("subopcode"%string, (VEnum "GATEWAY_CONFIGURATION_SET" 1)); ("gateway_configuration_set"%string, (VDict [("mtu_size"%string, (VInt 990)); ("mac_address"%string, (VStr [97; 98; 58; 99; 100; 58; 101; 102; 58; 97; 98; 58; 99; 100; 58; 101; 102])); ("server_port_number"%string, (VInt 52651)); ("reconnect_interval"%string, (VInt 53764)); ("server_address_length"%string, (VInt 25)); ("server_address"%string, (VStr [119; 119; 119; 46; 114; 97; 110; 100; 111; 109; 104; 111; 115; 116; 110; 97; 109; 101; 46; 99; 111; 109; 46; 112; 108])); ("dns_ip_address"%string, (VIPv4 [10; 42; 0; 2]))]))]));
   ("test_gateway_config_server.py:103"%string, gateway_GatewayConfigParams, [1; 176; 4; 171; 205; 239; 171; 205; 239; 210; 4; 208; 7; 11; 49; 57; 50; 46; 49; 54; 56; 46; 48; 46; 49; 10; 42; 0; 2; 192; 168; 0; 2; 192; 168; 0; 1; 8], (VDict [("subopcode"%string, (VEnum "GATEWAY_CONFIGURATION_SET" 1)); ("gateway_configuration_set"%string, (VDict [("mtu_size"%string, (VInt 1200)); ("mac_address"%string, (VStr [97; 98; 58; 99; 100; 58; 101; 102; 58; 97; 98; 58; 99; 100; 58; 101; 102])); ("server_port_number"%string, (VInt 1234)); ("reconnect_interval"%string, (VInt 2000)); ("server_address_length"%string, (VInt 11)); ("server_address"%string, (VStr [49; 57; 50; 46; 49; 54; 56; 46; 48; 46; 49])); ("dns_ip_address"%string, (VIPv4 [10; 42; 0; 2])); ("ip_address"%string, (VIPv4 [192; 168; 0; 2])); ("gateway_ip_address"%string, (VIPv4 [192; 168; 0; 1])); ("netmask"%string, (VInt 8))]))]));
   ("test_gateway_config_server.py:123"%string, gateway_GatewayConfigParams, [1; 176; 4; 171; 205; 239; 171; 205; 239; 210; 4; 208; 7; 25; 119; 119; 119; 46; 114; 97; 110; 100; 111; 109; 104; 111; 115; 116; 110; 97; 109; 101; 46; 99; 111; 109; 46; 112; 108; 10; 42; 0; 2; 192; 168; 0; 2; 192; 168; 0; 1; 8], (VDict [("subopcode"%string, (VEnum "GATEWAY_CONFIGURATION_SET" 1)); ("gateway_configuration_set"%string, (VDict [("mtu_size"%string, (VInt 1200)); ("mac_address"%string, (VStr [97; 98; 58; 99; 100; 58; 101; 102; 58; 97; 98; 58; 99; 100; 58; 101; 102])); ("server_port_number"%string, (VInt 1234)); ("reconnect_interval"%string, (VInt 2000)); ("server_address_length"%string, (VInt 25)); ("server_address"%string, (VStr [119; 119; 119; 46; 114; 97; 110; 100; 111; 109; 104; 111; 115; 116; 110; 97; 109; 101; 46; 99; 111; 109; 46; 112; 108])); ("dns_ip_address"%string, (VIPv4 [10; 42; 0; 2])); ("ip_address"%string, (VIPv4 [192; 168; 0; 2])); ("gateway_ip_address"%string, (VIPv4 [192; 168; 0; 1])); ("netmask"%string, (VInt 8))]))]));
   ("test_gateway_config_server.py:144"%string, gateway_GatewayConfigParams, [2], (VDict [("subopcode"%string, (VEnum "GATEWAY_PACKETS_GET" 2)); ("gateway_packets_get"%string, VNone)]));
   ("test_gateway_config_server.py:151"%string, gateway_GatewayConfigParams, [3], (VDict [("subopcode"%string, (VEnum "GATEWAY_PACKETS_CLEAR" 3)); ("gateway_packets_clear"%string, VNone)]));
   ("test_gateway_config_server.py:158"%string, gateway_GatewayConfigParams, [4; 220; 5], (VDict [("subopcode"%string, (VEnum "MTU_SIZE_SET" 4)); ("mtu_size_set"%string, (VDict [("mtu_size"%string, (VInt 1500))]))]));
   ("test_gateway_config_server.py:165"%string, gateway_GatewayConfigParams, [5; 17; 34; 51; 68; 85; 102], (VDict [("subopcode"%string, (VEnum "ETHERNET_MAC_ADDRESS_SET" 5)); ("ethernet_mac_address_set"%string, (VDict [("mac_address"%string, (VStr [49; 49; 58; 50; 50; 58; 51; 51; 58; 52; 52; 58; 53; 53; 58; 54; 54]))]))]));
   ("test_gateway_config_server.py:172"%string, gateway_GatewayConfigParams, [6; 69; 34; 11; 49; 57; 50; 46; 49; 54; 56; 46; 48; 46; 49], (VDict [("subopcode"%string, (VEnum "SERVER_ADDRESS_AND_PORT_NUMBER_SET" 6)); ("server_address_and_port_number_set"%string, (VDict [("server_port_number"%string, (VInt 8773)); ("server_address_length"%string, (VInt 11)); ("server_address"%string, (VStr [49; 57; 50; 46; 49; 54; 56; 46; 48; 46; 49]))]))]));
   ("test_gateway_config_server.py:183"%string, gateway_GatewayConfigParams, [6; 69; 34; 25; 119; 119; 119; 46; 114; 97; 110; 100; 111; 109; 104; 111; 115; 116; 110; 97; 109; 101; 46; 99; 111; 109; 46; 112; 108], (VDict [("subopcode"%string, (VEnum "SERVER_ADDRESS_AND_PORT_NUMBER_SET" 6)); ("server_address_and_port_number_set"%string, (VDict [("server_port_number"%string, (VInt 8773)); ("server_address_length"%string, (VInt 25)); ("server_address"%string, (VStr [119; 119; 119; 46; 114; 97; 110; 100; 111; 109; 104; 111; 115; 116; 110; 97; 109; 101; 46; 99; 111; 109; 46; 112; 108]))]))]));
   ("test_gateway_config_server.py:194"%string, gateway_GatewayConfigParams, [7; 232; 3], (VDict [("subopcode"%string, (VEnum "RECONNECT_INTERVAL_SET" 7)); ("reconnect_interval_set"%string, (VDict [("reconnect_interval"%string, (VInt 1000))]))]));
   ("test_gateway_config_server.py:201"%string, gateway_GatewayConfigParams, [8; 10; 42; 0; 2], (VDict [("subopcode"%string, (VEnum "DNS_IP_ADDRESS_SET" 8)); ("dns_ip_address_set"%string, (VDict [("dns_ip_address"%string, (VIPv4 [10; 42; 0; 2]))]))]));
   ("test_gateway_config_server.py:208"%string, gateway_GatewayConfigParams, [9; 192; 168; 0; 1], (VDict [("subopcode"%string, (VEnum "IP_ADDRESS_SET" 9)); ("ip_address_set"%string, (VDict [("ip_address"%string, (VIPv4 [192; 168; 0; 1]))]))]));
   ("test_gateway_config_server.py:215"%string, gateway_GatewayConfigParams, [10; 192; 168; 12; 3], (VDict [("subopcode"%string, (VEnum "GATEWAY_IP_ADDRESS_SET" 10)); ("gateway_ip_address_set"%string, (VDict [("gateway_ip_address"%string, (VIPv4 [192; 168; 12; 3]))]))]));
   ("test_gateway_config_server.py:222"%string, gateway_GatewayConfigParams, [11; 8], (VDict [("subopcode"%string, (VEnum "NETMASK_SET" 11)); ("netmask_set"%string, (VDict [("netmask"%string, (VInt 8))]))]));
   ("test_gateway_config_server.py:229"%string, gateway_GatewayConfigParams, [12; 10; 178; 2; 221; 221; 239; 171; 205; 239; 17; 17; 34; 34; 15; 119; 119; 119; 46; 116; 101; 115; 116; 105; 110; 103; 46; 99; 111; 109; 123; 44; 5; 21; 192; 168; 10; 2; 192; 168; 10; 1; 10; 0; 0], (VDict [("subopcode"%string, (VEnum "GATEWAY_CONFIGURATION_STATUS" 12)); ("gateway_configuration_status"%string, (VDict [("chip_revision_id"%string, (VInt 10)); ("mtu_size"%string, (VInt 690)); ("mac_address"%string, (VStr [100; 100; 58; 100; 100; 58; 101; 102; 58; 97; 98; 58; 99; 100; 58; 101; 102])); ("server_port_number"%string, (VInt 4369)); ("reconnect_interval"%string, (VInt 8738)); ("server_address_length"%string, (VInt 15)); ("server_address"%string, (VStr [119; 119; 119; 46; 116; 101; 115; 116; 105; 110; 103; 46; 99; 111; 109])); ("dns_ip_address"%string, (VIPv4 [123; 44; 5; 21])); ("ip_address"%string, (VIPv4 [192; 168; 10; 2])); ("gateway_ip_address"%string, (VIPv4 [192; 168; 10; 1])); ("netmask"%string, (VInt 10)); ("flags"%string, (VEnum "DHCP_DISABLED" 0)); ("status_code"%string, (VEnum "STATUS_SUCCESS" 0))]))]));
   ("test_gateway_config_server.py:252"%string, gateway_GatewayConfigParams, [12; 10; 178; 2; 221; 221; 239; 171; 205; 239; 17; 17; 34; 34; 0; 192; 168; 10; 2; 192; 168; 10; 2; 192; 168; 10; 1; 10; 2; 0], (VDict [("subopcode"%string, (VEnum "GATEWAY_CONFIGURATION_STATUS" 12)); ("gateway_configuration_status"%string, (VDict [("chip_revision_id"%string, (VInt 10)); ("mtu_size"%string, (VInt 690)); ("mac_address"%string, (VStr [100; 100; 58; 100; 100; 58; 101; 102; 58; 97; 98; 58; 99; 100; 58; 101; 102])); ("server_port_number"%string, (VInt 4369)); ("reconnect_interval"%string, (VInt 8738)); ("server_address_length"%string, (VInt 0)); ("server_address"%string, (VStr [])); ("dns_ip_address"%string, (VIPv4 [192; 168; 10; 2])); ("ip_address"%string, (VIPv4 [192; 168; 10; 2])); ("gateway_ip_address"%string, (VIPv4 [192; 168; 10; 1])); ("netmask"%string, (VInt 10)); ("flags"%string, (VEnum "DHCP_ENABLED_AUTO_DNS" 2)); ("status_code"%string, (VEnum "STATUS_SUCCESS" 0))]))]));
   ("test_gateway_config_server.py:273"%string, gateway_GatewayConfigParams, [13; 0; 0; 0; 2; 3; 232; 146], (VDict [("subopcode"%string, (VEnum "GATEWAY_PACKETS_STATUS" 13)); ("gateway_packets_status"%string, (VDict [("total_eth_rx_errors"%string, (VInt 0)); ("total_eth_tx_errors"%string, (VInt 512)); ("bandwidth"%string, (VInt 59395)); ("connection_state"%string, (VDict [("conn_state"%string, (VEnum "ETHERNET_HANDSHAKE" 4)); ("link_status"%string, (VEnum "LINK_UP" 1)); ("last_error"%string, (VEnum "ERROR_ENODEV" 2))]))]))]));
   ("test_network_diagnostic_server.py:34"%string, nds_NetworkDiagnosticSetupServerParams, [0], (VDict [("subopcode"%string, (VEnum "PUBLICATION_GET" 0)); ("publication_get"%string, (VDict []))]));
   ("test_network_diagnostic_server.py:41"%string, nds_NetworkDiagnosticSetupServerParams, [1; 18; 52; 170; 170; 130; 3; 16; 0], (VDict [("subopcode"%string, (VEnum "PUBLICATION_SET" 1)); ("publication_set"%string, (VDict [("destination"%string, (VInt 13330)); ("count"%string, (VInt 43690)); ("period"%string, (VDict [("steps"%string, (VInt 2)); ("resolution"%string, (VInt 2))])); ("ttl"%string, (VInt 3)); ("net_key_index"%string, (VInt 16)); ("features"%string, VNone)]))]));
   ("test_network_diagnostic_server.py:55"%string, nds_NetworkDiagnosticSetupServerParams, [1; 18; 52; 170; 170; 130; 3; 16; 0; 3; 0], (VDict [("subopcode"%string, (VEnum "PUBLICATION_SET" 1)); ("publication_set"%string, (VDict [("destination"%string, (VInt 13330)); ("count"%string, (VInt 43690)); ("period"%string, (VDict [("steps"%string, (VInt 2)); ("resolution"%string, (VInt 2))])); ("ttl"%string, (VInt 3)); ("net_key_index"%string, (VInt 16)); ("features"%string, (VInt 3))]))]));
   ("test_network_diagnostic_server.py:69"%string, nds_NetworkDiagnosticSetupServerParams, [2; 18; 52; 170; 170; 130; 3; 16; 0], (VDict [("subopcode"%string, (VEnum "PUBLICATION_STATUS" 2)); ("publication_status"%string, (VDict [("destination"%string, (VInt 13330)); ("count"%string, (VInt 43690)); ("period"%string, (VDict [("steps"%string, (VInt 2)); ("resolution"%string, (VInt 2))])); ("ttl"%string, (VInt 3)); ("net_key_index"%string, (VInt 16)); ("features"%string, VNone)]))]));
   ("test_network_diagnostic_server.py:83"%string, nds_NetworkDiagnosticSetupServerParams, [2; 18; 52; 170; 170; 130; 3; 16; 0; 3; 0], (VDict [("subopcode"%string, (VEnum "PUBLICATION_STATUS" 2)); ("publication_status"%string, (VDict [("destination"%string, (VInt 13330)); ("count"%string, (VInt 43690)); ("period"%string, (VDict [("steps"%string, (VInt 2)); ("resolution"%string, (VInt 2))])); ("ttl"%string, (VInt 3)); ("net_key_index"%string, (VInt 16)); ("features"%string, (VInt 3))]))]));
   ("test_network_diagnostic_server.py:97"%string, nds_NetworkDiagnosticServerParams, [0], (VDict [("subopcode"%string, (VEnum "SUBSCRIPTION_GET" 0)); ("subscription_get"%string, (VDict []))]));
   ("test_network_diagnostic_server.py:104"%string, nds_NetworkDiagnosticServerParams, [1; 18; 52; 170; 170], (VDict [("subopcode"%string, (VEnum "SUBSCRIPTION_SET" 1)); ("subscription_set"%string, (VDict [("destination"%string, (VInt 13330)); ("period"%string, (VInt 43690))]))]));
   ("test_network_diagnostic_server.py:114"%string, nds_NetworkDiagnosticServerParams, [3; 18; 52; 170; 170; 32; 86; 120; 187; 187; 0; 0], (VDict [("subopcode"%string, (VEnum "SUBSCRIPTION_STATUS" 3)); ("subscription_status"%string, (VDict [("destination"%string, (VInt 13330)); ("period"%string, (VInt 43690)); ("max_record_count"%string, (VInt 32)); ("record"%string, (VList [(VDict [("source"%string, (VInt 30806)); ("count"%string, (VInt 48059)); ("min_hops"%string, (VInt 0)); ("max_hops"%string, (VInt 0))])]))]))]));
   ("test_network_diagnostic_server.py:126"%string, nds_NetworkDiagnosticServerParams, [3; 18; 52; 170; 170; 32; 86; 120; 187; 187; 0; 0; 145; 1; 204; 204; 1; 1], (VDict [("subopcode"%string, (VEnum "SUBSCRIPTION_STATUS" 3)); ("subscription_status"%string, (VDict [("destination"%string, (VInt 13330)); ("period"%string, (VInt 43690)); ("max_record_count"%string, (VInt 32)); ("record"%string, (VList [(VDict [("source"%string, (VInt 30806)); ("count"%string, (VInt 48059)); ("min_hops"%string, (VInt 0)); ("max_hops"%string, (VInt 0))]); (VDict [("source"%string, (VInt 401)); ("count"%string, (VInt 52428)); ("min_hops"%string, (VInt 1)); ("max_hops"%string, (VInt 1))])]))]))]));
   ("test_debugV2.py:33"%string, debugV2_DebugV2SubMessage, [2; 9; 0; 2; 0; 16; 32; 48], (VDict [("subopcode"%string, (VEnum "STATUS" 2)); ("parameter_type"%string, (VEnum "UPTIME" 9)); ("page_number"%string, (VInt 0)); ("payload"%string, (VList [(VDict [("data_type"%string, (VEnum "UINT32" 2)); ("uint32"%string, (VInt 807407616))])]))]));
   ("test_debugV2.py:35"%string, debugV2_DebugV2SubMessage, [2; 8; 0; 4; 32], (VDict [("subopcode"%string, (VEnum "STATUS" 2)); ("parameter_type"%string, (VEnum "RSSI_THRESHOLD" 8)); ("page_number"%string, (VInt 0)); ("payload"%string, (VList [(VDict [("data_type"%string, (VEnum "INT8" 4)); ("int8"%string, (VInt 32))])]))]));
   ("test_debugV2.py:37"%string, debugV2_DebugV2SubMessage, [2; 11; 2; 12; 6; 0; 16; 0; 32; 0; 48], (VDict [("subopcode"%string, (VEnum "STATUS" 2)); ("parameter_type"%string, (VEnum "TIME_SYNC_MSG_LIST" 11)); ("page_number"%string, (VInt 2)); ("payload"%string, (VList [(VDict [("data_type"%string, (VEnum "ARRAY" 12)); ("array"%string, (VList [(VInt 0); (VInt 16); (VInt 0); (VInt 32); (VInt 0); (VInt 48)]))])]))]));
   ("test_debugV2.py:41"%string, debugV2_DebugV2SubMessage, [2; 75; 0; 11; 9; 109; 121; 32; 115; 116; 114; 105; 110; 103], (VDict [("subopcode"%string, (VEnum "STATUS" 2)); ("parameter_type"%string, (VInt 75)); ("page_number"%string, (VInt 0)); ("payload"%string, (VList [(VDict [("data_type"%string, (VEnum "STRING" 11)); ("string"%string, (VStr [109; 121; 32; 115; 116; 114; 105; 110; 103]))])]))]));
   ("test_debugV2.py:43"%string, debugV2_DebugV2SubMessage, [2; 85; 0; 2; 0; 16; 32; 48; 10; 0; 8; 0; 50; 0; 40], (VDict [("subopcode"%string, (VEnum "STATUS" 2)); ("parameter_type"%string, (VInt 85)); ("page_number"%string, (VInt 0)); ("payload"%string, (VList [(VDict [("data_type"%string, (VEnum "UINT32" 2)); ("uint32"%string, (VInt 807407616))]); (VDict [("data_type"%string, (VEnum "ENUM" 10)); ("enum"%string, (VInt 0))]); (VDict [("data_type"%string, (VEnum "FLOAT" 8)); ("float"%string, (VIeee 4 671101440))])]))]));
   ("test_debugV2.py:48"%string, debugV2_DebugV2SubMessage, [3; 19; 0], (VDict [("subopcode"%string, (VEnum "CLEAR" 3)); ("parameter_type"%string, (VEnum "OCCUPANCY_HISTORY" 19)); ("page_number"%string, (VInt 0)); ("payload"%string, (VList []))]));
   ("test_debugV2.py:50"%string, debugV2_DebugV2SubMessage, [0; 15; 0], (VDict [("subopcode"%string, (VEnum "GET" 0)); ("parameter_type"%string, (VEnum "RECALLED_EVENTS_TIME" 15)); ("page_number"%string, (VInt 0)); ("payload"%string, (VList []))]));
   ("test_debugV2.py:52"%string, debugV2_DebugV2SubMessage, [2; 254; 0; 255], (VDict [("subopcode"%string, (VEnum "STATUS" 2)); ("parameter_type"%string, (VInt 254)); ("page_number"%string, (VInt 0)); ("payload"%string, (VList [(VDict [("data_type"%string, (VEnum "INVALID" 255)); ("invalid"%string, (VDict []))])]))]))].

Example parse_vectors_ok : failing check_parse parse_vectors = [].
Proof. vm_compute. reflexivity. Qed.

Definition build_error_vectors : list vec :=
  [("test_config.py:1318"%string, config_ConfigHeartbeatPublicationSet, [], (VDict [("destination"%string, (VInt 513)); ("count"%string, (VInt 1)); ("period"%string, (VInt 32769)); ("ttl"%string, (VInt 5)); ("features"%string, (VSet [(VInt 5); (VInt 6); (VInt 13); (VInt 14); (VInt 15)])); ("net_key_index"%string, (VInt 2312))]));
   ("test_config.py:1331"%string, config_ConfigHeartbeatPublicationSet, [], (VDict [("destination"%string, (VInt 513)); ("count"%string, (VInt 1)); ("period"%string, VInf); ("ttl"%string, (VInt 5)); ("features"%string, (VSet [(VInt 5); (VInt 6); (VInt 13); (VInt 14); (VInt 15)])); ("net_key_index"%string, (VInt 2312))]));
   ("test_health.py:154"%string, health_HealthPeriodSet, [], (VDict [("fast_period_divisor"%string, (VInt 16))]));
   ("test_config.py:1413"%string, config_NetworkRetransmit, [], (VDict [("count"%string, (VInt 0)); ("interval"%string, (VInt 0))]));
   ("test_config.py:1422"%string, config_NetworkRetransmit, [], (VDict [("count"%string, (VInt 0)); ("interval"%string, (VInt 5))]));
   ("test_config.py:1431"%string, config_NetworkRetransmit, [], (VDict [("count"%string, (VInt 0)); ("interval"%string, (VInt 330))]));
   ("test_config.py:1440"%string, config_PublishRetransmit, [], (VDict [("count"%string, (VInt 0)); ("interval"%string, (VInt 1700))]));
   ("test_config.py:1449"%string, config_PublishRetransmit, [], (VDict [("count"%string, (VInt 8)); ("interval"%string, (VInt 700))]));
   ("test_scene.py:29"%string, scene_SceneMessage, [], (VDict [("opcode"%string, (VEnum "SCENE_RECALL" 33346)); ("params"%string, (VDict [("scene_number"%string, (VInt 0)); ("tid"%string, (VInt 30))]))]));
   ("test_scene.py:34"%string, scene_SceneMessage, [], (VDict [("opcode"%string, (VEnum "SCENE_RECALL" 33346)); ("params"%string, (VDict [("scene_number"%string, (VInt 0)); ("tid"%string, (VInt 30)); ("transition_time"%string, (VInt 30000)); ("delay"%string, (VFloat (5404319552844595 # 18014398509481984)))]))]));
   ("test_scene.py:39"%string, scene_SceneMessage, [], (VDict [("opcode"%string, (VEnum "SCENE_RECALL_UNACKNOWLEDGED" 33347)); ("params"%string, (VDict [("scene_number"%string, (VInt 0)); ("tid"%string, (VInt 30))]))]));
   ("test_scene.py:44"%string, scene_SceneMessage, [], (VDict [("opcode"%string, (VEnum "SCENE_RECALL_UNACKNOWLEDGED" 33347)); ("params"%string, (VDict [("scene_number"%string, (VInt 0)); ("tid"%string, (VInt 30)); ("transition_time"%string, (VInt 30000)); ("delay"%string, (VFloat (5404319552844595 # 18014398509481984)))]))]));
   ("test_scene.py:49"%string, scene_SceneMessage, [], (VDict [("opcode"%string, (VEnum "SCENE_STORE" 33350)); ("params"%string, (VDict [("scene_number"%string, (VInt 0))]))]));
   ("test_scene.py:54"%string, scene_SceneMessage, [], (VDict [("opcode"%string, (VEnum "SCENE_STORE_UNACKNOWLEDGED" 33351)); ("params"%string, (VDict [("scene_number"%string, (VInt 0))]))]))].

Example build_error_vectors_ok : failing check_build_err build_error_vectors = [].
Proof. vm_compute. reflexivity. Qed.

Definition parse_error_vectors : list vec :=
  [("test_config.py:1295"%string, config_ConfigHeartbeatPublicationSet, [1; 2; 3; 4; 128; 6; 7; 8; 9], VNone);
   ("test_config.py:1301"%string, config_ConfigHeartbeatPublicationSet, [1; 2; 17; 4; 5; 6; 7; 8; 9], VNone);
   ("test_config.py:1307"%string, config_ConfigHeartbeatPublicationSet, [1; 2; 3; 17; 5; 6; 7; 8; 9], VNone);
   ("test_health.py:143"%string, health_HealthPeriodSet, [16], VNone)].

Example parse_error_vectors_ok : failing check_parse_err parse_error_vectors = [].
Proof. vm_compute. reflexivity. Qed.

Definition access_vectors : list (string * list Z * val) :=
  [("test_access.py:28"%string, [4; 0; 54; 1; 3; 4; 5], (VDict [("opcode"%string, (VInt 4)); ("params"%string, (VDict [("test_id"%string, (VInt 0)); ("company_id"%string, (VInt 310)); ("fault_array"%string, (VList [(VInt 3); (VInt 4); (VInt 5)]))])); ("health_current_status"%string, (VDict [("test_id"%string, (VInt 0)); ("company_id"%string, (VInt 310)); ("fault_array"%string, (VList [(VInt 3); (VInt 4); (VInt 5)]))]))]));
   ("test_access.py:45"%string, [128; 50; 1; 54; 1], (VDict [("opcode"%string, (VInt 32818)); ("params"%string, (VDict [("test_id"%string, (VInt 1)); ("company_id"%string, (VInt 310))])); ("health_fault_test"%string, (VDict [("test_id"%string, (VInt 1)); ("company_id"%string, (VInt 310))]))]));
   ("test_access.py:60"%string, [192; 17; 34; 51], (VDict [("opcode"%string, (VInt 12587298)); ("params"%string, (VBytes [51]))]));
   ("test_strings.py:28"%string, [130; 49; 2; 0], (VDict [("opcode"%string, (VStr [83; 69; 78; 83; 79; 82; 95; 71; 69; 84])); ("params"%string, (VDict [("property_id"%string, (VStr [65; 86; 69; 82; 65; 71; 69; 95; 73; 78; 80; 85; 84; 95; 67; 85; 82; 82; 69; 78; 84]))]))]))].

Example access_build_vectors_ok :
  filter (fun v : string * list Z * val => let '(_, s, x) := v in
            negb match access_build x with Ok l => zlist_eqb l s | _ => false end) access_vectors = [].
Proof. vm_compute. reflexivity. Qed.
