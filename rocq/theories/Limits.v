(** * Limits: which numbers a field may hold (specification of C60).

    Hand-written: for every field of a documented message (tables of P_layout) that may not hold every number of its width,
    the numbers it may hold, either as ranges ([limits]) or as the codes of a table ([Codes.code_paths]).  A field in neither
    table, or in [open_codes], may hold any number of its width. *)
From Verif Require Import PyVal Bits Utf8 Adapters Construct Layout Doc Codes.
Local Open Scope string_scope.
Local Open Scope Z_scope.

Definition ranges := list (Z * Z).
Definition unicast : ranges := [(0x0001, 0x7FFF)].
Definition unicast_or_none : ranges := [(0x0000, 0x7FFF)].
(** unassigned, unicast or group, but no fixed group *)
Definition heartbeat_address : ranges := [(0x0000, 0x7FFF); (0xC000, 0xFEFF)].
Definition not_virtual : ranges := [(0x0000, 0x7FFF); (0xC000, 0xFFFF)].
(** a group to subscribe to: not all-nodes *)
Definition subscribable : ranges := [(0xC000, 0xFFFE)].
(** a subscription reported: none, a virtual address or a group *)
Definition subscribed : ranges := [(0x0000, 0x0000); (0x8000, 0xFFFE)].
Definition seven_bits : ranges := [(0, 127)].
Definition at_all (f : string) (r : ranges) (ms : list (list string)) : list (list string * ranges) := map (fun m => ((m ++ [f])%list, r)) ms.
Definition limits : list (list string * ranges) :=
  (at_all "element_address" unicast
     [["config_model_app_bind"]; ["config_model_app_status"]; ["config_model_app_unbind"]; ["config_model_publication_get"]; ["config_model_publication_set"];
      ["config_model_publication_status"]; ["config_model_publication_virtual_address_set"]; ["config_model_subscription_add"];
      ["config_model_subscription_delete"]; ["config_model_subscription_delete_all"]; ["config_model_subscription_overwrite"];
      ["config_model_subscription_status"]; ["config_model_subscription_virtual_address_add"]; ["config_model_subscription_virtual_address_delete"];
      ["config_model_subscription_virtual_address_overwrite"]; ["config_sig_model_app_get"]; ["config_sig_model_app_list"];
      ["config_sig_model_subscription_get"]; ["config_sig_model_subscription_list"]; ["config_vendor_model_app_get"]; ["config_vendor_model_app_list"];
      ["config_vendor_model_subscription_get"]; ["config_vendor_model_subscription_list"]] ++
   at_all "publish_address" not_virtual [["config_model_publication_set"]; ["config_model_publication_status"]] ++
   at_all "address" subscribable [["config_model_subscription_add"]; ["config_model_subscription_delete"]; ["config_model_subscription_overwrite"]] ++
   at_all "address" subscribed [["config_model_subscription_status"]] ++
   at_all "source" unicast_or_none [["config_hearbeat_subscription_set"]; ["config_hearbeat_subscription_status"]] ++
   at_all "destination" heartbeat_address
     [["config_hearbeat_publication_set"]; ["config_hearbeat_publication_status"]; ["config_hearbeat_subscription_set"]; ["config_hearbeat_subscription_status"];
      ["silvair_nds"; "subscription_set"]; ["silvair_nds"; "subscription_set_unacknowledged"]; ["silvair_nds"; "subscription_status"];
      ["silvair_nds_setup"; "publication_set"]; ["silvair_nds_setup"; "publication_status"]] ++
   at_all "ttl" seven_bits
     [["config_default_ttl_set"]; ["config_default_ttl_status"]; ["config_hearbeat_publication_set"]; ["config_hearbeat_publication_status"];
      ["config_model_publication_set"]; ["config_model_publication_status"]; ["config_model_publication_virtual_address_set"];
      ["silvair_nds_setup"; "publication_set"]; ["silvair_nds_setup"; "publication_status"]] ++
   at_all "min_hops" seven_bits [["config_hearbeat_subscription_status"]] ++
   at_all "max_hops" seven_bits [["config_hearbeat_subscription_status"]] ++
   at_all "fast_period_divisor" [(0, 15)] [["health_period_set"]; ["health_period_set_unacknowledged"]; ["health_period_status"]] ++
   at_all "scene_number" [(1, 0xFFFF)] [["scene_recall"]; ["scene_recall_unacknowledged"]; ["scene_store"]; ["scene_store_unacknowledged"]] ++
   at_all "net_key_index" [(0, 0xFFF)] [["silvair_nds_setup"; "publication_set"]; ["silvair_nds_setup"; "publication_status"]] ++
   at_all "features" [(0, 3)] [["silvair_nds_setup"; "publication_set"]; ["silvair_nds_setup"; "publication_status"]])%list.
(** property ids that need not be known *)
Definition open_codes : list (list string) :=
  [["generic_user_property_get"; "property_id"]; ["generic_admin_property_get"; "property_id"]; ["generic_manufacturer_property_get"; "property_id"];
   ["sensor_descriptor_get"; "property_id"]; ["sensor_get"; "property_id"]; ["sensor_cadence_get"; "property_id"];
   ["sensor_settings_get"; "sensor_property_id"]; ["sensor_settings_status"; "sensor_property_id"];
   ["sensor_setting_get"; "sensor_property_id"]; ["sensor_setting_get"; "sensor_setting_property_id"]].

(** the field at [path] may hold [z], a number of its width *)
Definition allowed (path : list string) (z : Z) : Prop :=
  (forall r, In (path, r) limits -> exists lo hi, In (lo, hi) r /\ lo <= z <= hi) /\
  (~ In path open_codes -> forall t, In (path, t) code_paths -> exists m, In (m, z) t).

(** ** Received: the octets [s] hold a value the row [i] of the message [pre] allows *)
Definition acceptable (pre : list string) (s : list Z) (i : doc) : Prop :=
  match i with
  | O k off n c => (off + n <= length s)%nat /\
                   match c with
                   | Num => allowed (pre ++ [k]) (of_le (slice off n s))
                   | Own c => exists x, parse c [] (slice off n s) = Ok (x, [])
                   | _ => True
                   end
  | B k be off n sh w c => (off + n <= length s)%nat /\
                           match c with Num => allowed (pre ++ [k]) (getbits sh w (word be off n s)) | _ => True end
  | R be off n sh w => (off + n <= length s)%nat
  | T k off c => match c with Own c => exists x r, parse c [] (skipn off s) = Ok (x, r) | _ => True end
  end.
(** ** Sent: the object [d] holds a value the row [i] of the message [pre] allows *)
Definition sendable (pre : list string) (d : dict) (i : doc) : Prop :=
  match i with
  | O k off n c => exists x, dget k d = Some x /\ x <> VNone /\
                   match c with
                   | Num => exists z, as_int x = Some z /\ 0 <= z < 2 ^ (8 * Z.of_nat n) /\ allowed (pre ++ [k]) z
                   | Sgn => exists z, as_int x = Some z /\ - 2 ^ (8 * Z.of_nat n - 1) <= z < 2 ^ (8 * Z.of_nat n - 1)
                   | Flag => True
                   | Raw => exists l, x = VBytes l /\ length l = n
                   | Own c => exists l, build c [] x = Ok l
                   end
  | B k be off n sh w c => exists x, dget k d = Some x /\ x <> VNone /\
                           match c with Num => exists z, as_int x = Some z /\ 0 <= z < 2 ^ Z.of_nat w /\ allowed (pre ++ [k]) z | _ => True end
  | R be off n sh w => True
  | T k off c => exists x, dget k d = Some x /\ x <> VNone /\
                   match c with Own c => exists l, build c [] x = Ok l | _ => exists l, x = VBytes l end
  end.
(** the numbers of the object [d] that fit the width of the row [i] are allowed there *)
Definition permitted (pre : list string) (d : dict) (i : doc) : Prop :=
  match i with
  | O k off n Num => forall x z, dget k d = Some x -> as_int x = Some z -> 0 <= z < 2 ^ (8 * Z.of_nat n) -> allowed (pre ++ [k]) z
  | B k be off n sh w Num => forall x z, dget k d = Some x -> as_int x = Some z -> 0 <= z < 2 ^ Z.of_nat w -> allowed (pre ++ [k]) z
  | _ => True
  end.
