(** * PropTables: the declared tables of properties and the documented ones (basis of C58). *)
From Coq Require Import QArith Qabs Lia.
From Verif Require Import PyVal Bits Utf8 Adapters Construct Size Spec Master Access AccessProofs Codes Grammar GrammarProofs GrammarAccept
  G_properties G_el G_elt G_lec G_property G_sensor P_layout P_params P_sensor P_property P_grammar PropValues PropProofs PropForms.
Local Open Scope list_scope.
Local Open Scope Z_scope.

(** ** The declared tables and the documented ones *)
Definition agree (r : string * Z * con) (g : string * Z * fmt) : Prop := fst r = fst g /\ form (snd r) (snd g).
Ltac format_table := repeat (apply Forall2_cons; [split; [reflexivity | cbn [snd]; format_]|]); apply Forall2_nil.
Lemma t_device : Forall2 agree (case_list properties_PropertyDict) device_properties.
Proof. cbv [case_list properties_PropertyDict device_properties]. format_table. Qed.
Lemma t_el : Forall2 agree (case_list el_EmergencyLightingPropertyDict) emergency_lighting_properties.
Proof. cbv [case_list el_EmergencyLightingPropertyDict emergency_lighting_properties]. format_table. Qed.
Lemma t_elt : Forall2 agree (case_list elt_EmergencyLightingTestPropertyDict) emergency_lighting_test_properties.
Proof. cbv [case_list elt_EmergencyLightingTestPropertyDict emergency_lighting_test_properties]. format_table. Qed.
Lemma t_lec : Forall2 agree (case_list lec_LightExtendedControllerPropertyDict) extended_controller_properties.
Proof. cbv [case_list lec_LightExtendedControllerPropertyDict extended_controller_properties]. format_table. Qed.
Lemma agree_right l g n z f : Forall2 agree l g -> In (n, z, f) g -> exists c, In (n, z, c) l /\ form c f.
Proof. intros H Hi. destruct (Forall2_right _ _ _ H _ Hi) as ([[n' z'] c] & Hr & E & Hf). cbn [fst snd] in E, Hf. injection E as -> ->. eauto. Qed.
Lemma agree_none l g z : Forall2 agree l g -> (forall n f, ~ In (n, z, f) g) -> forall n c, ~ In (n, z, c) l.
Proof.
  intros H N n c Hi. induction H as [|[[n1 z1] c1] [[n2 z2] f2] l g [E Hf] _ IH]; [destruct Hi|]. cbn [fst] in E. injection E as -> ->.
  destruct Hi as [E | Hi]; [injection E as -> -> ->; exact (N n f2 (or_introl eq_refl)) | exact (IH (fun n f K => N n f (or_intror K)) Hi)].
Qed.
(** every documented format says itself where the value ends *)
Lemma formats_closed : forall g, In g [device_properties; emergency_lighting_properties; emergency_lighting_test_properties; extended_controller_properties] ->
  forallb (fun r => tail (snd r)) g = true.
Proof. intros g [<- | [<- | [<- | [<- | []]]]]; reflexivity. Qed.

Definition p_rows : list (string * Z * con * bool * list (string * Z * con)) :=
  let ps := case_list properties_PropertyDict in
  [("GENERIC_USER_PROPERTY_SET", 0x4C, property_GenericUserPropertySet, false, ps); ("GENERIC_USER_PROPERTY_SET_UNACKNOWLEDGED", 0x4D, property_GenericUserPropertySet, false, ps);
   ("GENERIC_USER_PROPERTY_STATUS", 0x4E, property_GenericPropertyStatus, true, ps);
   ("GENERIC_ADMIN_PROPERTY_SET", 0x48, property_GenericAdminPropertySet, true, ps); ("GENERIC_ADMIN_PROPERTY_SET_UNACKNOWLEDGED", 0x49, property_GenericAdminPropertySet, true, ps);
   ("GENERIC_ADMIN_PROPERTY_STATUS", 0x4A, property_GenericPropertyStatus, true, ps); ("GENERIC_MANUFACTURER_PROPERTY_STATUS", 0x46, property_GenericPropertyStatus, true, ps)]%string.
Lemma p_rows_at : map (fun i => nth_error params i) [177; 178; 179; 183; 184; 185; 191]%nat = map Some (map (fun r => fst (fst r)) p_rows).
Proof. vm_compute. reflexivity. Qed.
Definition sp_rows : list (string * Z * string * Z * con * bool * list (string * Z * con)) :=
  let el := case_list el_EmergencyLightingPropertyDict in let elt := case_list elt_EmergencyLightingTestPropertyDict in let lec := case_list lec_LightExtendedControllerPropertyDict in
  [("SILVAIR_EL", 0xEA3601, "EL_PROPERTY_SET", 7, el_EmergencyLightingPropertySet, false, el);
   ("SILVAIR_EL", 0xEA3601, "EL_PROPERTY_SET_UNACKNOWLEDGED", 8, el_EmergencyLightingPropertySet, false, el);
   ("SILVAIR_EL", 0xEA3601, "EL_PROPERTY_STATUS", 9, el_EmergencyLightingPropertyStatus, false, el);
   ("SILVAIR_ELT", 0xE93601, "ELT_PROPERTY_SET", 9, elt_EmergencyLightingTestPropertySet, false, elt);
   ("SILVAIR_ELT", 0xE93601, "ELT_PROPERTY_SET_UNACKNOWLEDGED", 10, elt_EmergencyLightingTestPropertySet, false, elt);
   ("SILVAIR_ELT", 0xE93601, "ELT_PROPERTY_STATUS", 11, elt_EmergencyLightingTestPropertyStatus, false, elt);
   ("SILVAIR_LEC", 0xF63601, "PROPERTY_SET", 1, lec_LightExtendedControllerPropertySet, false, lec);
   ("SILVAIR_LEC", 0xF63601, "PROPERTY_SET_UNACKNOWLEDGED", 2, lec_LightExtendedControllerPropertySet, false, lec);
   ("SILVAIR_LEC", 0xF63601, "PROPERTY_STATUS", 3, lec_LightExtendedControllerPropertyStatus, false, lec)]%string.
Lemma sp_rows_at : map (fun i => nth_error sub_params i) [62; 63; 64; 82; 83; 84; 51; 52; 53]%nat = map Some (map (fun r => fst (fst r)) sp_rows).
Proof. vm_compute. reflexivity. Qed.
Definition s_rows : list (string * Z * con * bool) :=
  [("SENSOR_SETTING_SET", 0x59, sensor_SensorSettingSet, false); ("SENSOR_SETTING_SET_UNACKNOWLEDGED", 0x5A, sensor_SensorSettingSet, false);
   ("SENSOR_SETTING_STATUS", 0x5B, sensor_SensorSettingStatus, true)]%string.
Lemma s_rows_at : map (fun i => nth_error params i) [156; 157; 158]%nat = map Some (map fst s_rows).
Proof. vm_compute. reflexivity. Qed.
Lemma status_at : nth_error params 151 = Some ("SENSOR_STATUS"%string, 0x52, sensor_SensorStatus).
Proof. vm_compute. reflexivity. Qed.

Lemma p_row n z acc g : In (n, z, acc, g) property_messages ->
  exists c ps, In (n, z, c) params /\ In (c, acc, ps) carriers /\ Forall2 agree ps g /\ forallb (fun r => tail (snd r)) g = true.
Proof.
  intros H. assert (E : exists c, In (n, z, c, acc, case_list properties_PropertyDict) p_rows /\ In (c, acc, case_list properties_PropertyDict) carriers /\ g = device_properties).
  { unfold p_rows, carriers. revert H. unfold property_messages. generalize (case_list properties_PropertyDict) device_properties. intros ps d H.
    repeat destruct H as [H | H]; try (destruct H; fail); injection H as <- <- <- <-; eexists;
      (split; [repeat first [left; reflexivity | right]|]; split; [repeat first [left; reflexivity | right] | reflexivity]). }
  destruct E as (c & Hr & Hc & ->). exists c, (case_list properties_PropertyDict). split; [|split; [exact Hc | split; [exact t_device | apply formats_closed; now left]]].
  apply (nth_rows _ _ _ p_rows_at). apply in_map_iff. eexists. split; [|exact Hr]. reflexivity.
Qed.
Lemma sp_row n z sn sz acc g : In (n, z, sn, sz, acc, g) property_submessages ->
  exists c ps, In (n, z, sn, sz, c) sub_params /\ In (c, acc, ps) carriers /\ Forall2 agree ps g /\ forallb (fun r => tail (snd r)) g = true.
Proof.
  intros H. assert (E : exists c ps, In (n, z, sn, sz, c, acc, ps) sp_rows /\ In (c, acc, ps) carriers /\ Forall2 agree ps g /\ forallb (fun r => tail (snd r)) g = true).
  { unfold sp_rows, carriers. revert H. unfold property_submessages.
    generalize t_el t_elt t_lec (formats_closed _ (or_intror (or_introl eq_refl))) (formats_closed _ (or_intror (or_intror (or_introl eq_refl)))) (formats_closed _ (or_intror (or_intror (or_intror (or_introl eq_refl))))).
    generalize (case_list properties_PropertyDict) (case_list el_EmergencyLightingPropertyDict) (case_list elt_EmergencyLightingTestPropertyDict) (case_list lec_LightExtendedControllerPropertyDict)
      emergency_lighting_properties emergency_lighting_test_properties extended_controller_properties.
    intros p0 p1 p2 p3 d1 d2 d3 T1 T2 T3 C1 C2 C3 H.
    repeat destruct H as [H | H]; try (destruct H; fail); injection H as <- <- <- <- <- <-; do 2 eexists;
      (split; [repeat first [left; reflexivity | right]|]; split; [repeat first [left; reflexivity | right] | split; assumption]). }
  destruct E as (c & ps & Hr & Hc & HT & HC). exists c, ps. split; [|auto].
  apply (nth_rows _ _ _ sp_rows_at). apply in_map_iff. eexists. split; [|exact Hr]. reflexivity.
Qed.
Lemma s_row n z acc : In (n, z, acc) setting_messages -> exists c, In (n, z, c) params /\ In (c, acc) settings.
Proof.
  intros H. assert (E : exists c, In (n, z, c, acc) s_rows /\ In (c, acc) settings).
  { unfold s_rows, settings. repeat destruct H as [H | H]; try (destruct H; fail); injection H as <- <- <-; eexists;
      (split; [repeat first [left; reflexivity | right] | repeat first [left; reflexivity | right]]). }
  destruct E as (c & Hr & Hc). exists c. split; [|exact Hc]. apply (nth_rows _ _ _ s_rows_at). apply in_map_iff. eexists. split; [|exact Hr]. reflexivity.
Qed.
