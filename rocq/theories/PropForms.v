(** * PropForms: every declared property value has the documented format (basis of C58). *)
From Coq Require Import QArith Qabs Lia.
From Verif Require Import PyVal Bits Float64 FloatX Utf8 Adapters Construct Size Spec Master AdapterSpec P_scale Codes P_codes G_properties G_el G_elt G_lec P_layout Grammar GrammarProofs PropValues PropProofs.
Local Open Scope list_scope.
Local Open Scope Z_scope.
Lemma fq0 : form (CAdapt (ACount 1 0 (RFloat 1) false) Int8sl) (FLeaf (quantity 1 true false false 1 1)).
Proof. exact (leaf_ext _ _ _ (leaf_quantity 1 true 0 (RFloat 1) 1 1 false Int8sl ltac:(unfold scale_table; left; reflexivity) ltac:(split; [lia | auto])) (fun v s => signed_known 1 false false 1 1 v s ltac:(lia))). Qed.
Lemma fq1 : form (CAdapt (ACount 1 0 (RFloat 1) true) Int8ul) (FLeaf (quantity 1 false false true 1 1)).
Proof. exact (leaf_quantity 1 false 0 (RFloat 1) 1 1 true Int8ul ltac:(unfold scale_table; do 1 right; left; reflexivity) ltac:(split; [lia | auto])). Qed.
Lemma fq2 : form (CAdapt (ACount 1 1 (RFloat (flit 1 10)) true) Int8ul) (FLeaf (quantity 1 false false true 1 10)).
Proof. exact (leaf_quantity 1 false 1 (RFloat (flit 1 10)) 1 10 true Int8ul ltac:(unfold scale_table; do 2 right; left; reflexivity) ltac:(split; [lia | auto])). Qed.
Lemma fq3 : form (CAdapt (ACount 1 1 (RFloat (flit 5 10)) false) Int8ul) (FLeaf (quantity 1 false false false 5 10)).
Proof. exact (leaf_quantity 1 false 1 (RFloat (flit 5 10)) 5 10 false Int8ul ltac:(unfold scale_table; do 3 right; left; reflexivity) ltac:(split; [lia | auto])). Qed.
Lemma fq4 : form (CAdapt (ACount 1 1 (RFloat (flit 5 10)) true) Int8sl) (FLeaf (quantity 1 true false false 5 10)).
Proof. exact (leaf_ext _ _ _ (leaf_quantity 1 true 1 (RFloat (flit 5 10)) 5 10 true Int8sl ltac:(unfold scale_table; do 4 right; left; reflexivity) ltac:(split; [lia | auto])) (fun v s => signed_known 1 false true 5 10 v s ltac:(lia))). Qed.
Lemma fq5 : form (CAdapt (ACount 1 1 (RFloat (flit 5 10)) true) Int8ul) (FLeaf (quantity 1 false false true 5 10)).
Proof. exact (leaf_quantity 1 false 1 (RFloat (flit 5 10)) 5 10 true Int8ul ltac:(unfold scale_table; do 5 right; left; reflexivity) ltac:(split; [lia | auto])). Qed.
Lemma fq6 : form (CAdapt (ACount 1 4 (RFloat (flit 1 10000)) false) Int8sl) (FLeaf (quantity 1 true false false 1 10000)).
Proof. exact (leaf_ext _ _ _ (leaf_quantity 1 true 4 (RFloat (flit 1 10000)) 1 10000 false Int8sl ltac:(unfold scale_table; do 6 right; left; reflexivity) ltac:(split; [lia | auto])) (fun v s => signed_known 1 false false 1 10000 v s ltac:(lia))). Qed.
Lemma fq7 : form (CAdapt (ACount 2 0 (RFloat (flit 1 64)) true) Int16ul) (FLeaf (quantity 2 false false true 1 64)).
Proof. exact (leaf_quantity 2 false 0 (RFloat (flit 1 64)) 1 64 true Int16ul ltac:(unfold scale_table; do 7 right; left; reflexivity) ltac:(split; [lia | auto])). Qed.
Lemma fq8 : form (CAdapt (ACount 2 0 (RFloat (flit 1 65535)) false) Int16ul) (FLeaf (quantity 2 false false false 1 65535)).
Proof. exact (leaf_quantity 2 false 0 (RFloat (flit 1 65535)) 1 65535 false Int16ul ltac:(unfold scale_table; do 8 right; left; reflexivity) ltac:(split; [lia | auto])). Qed.
Lemma fq9 : form (CAdapt (ACount 2 0 (RFloat 1) false) Int16ul) (FLeaf (quantity 2 false false false 1 1)).
Proof. exact (leaf_quantity 2 false 0 (RFloat 1) 1 1 false Int16ul ltac:(unfold scale_table; do 9 right; left; reflexivity) ltac:(split; [lia | auto])). Qed.
Lemma fq10 : form (CAdapt (ACount 2 0 (RFloat 1) true) Int16ul) (FLeaf (quantity 2 false false true 1 1)).
Proof. exact (leaf_quantity 2 false 0 (RFloat 1) 1 1 true Int16ul ltac:(unfold scale_table; do 10 right; left; reflexivity) ltac:(split; [lia | auto])). Qed.
Lemma fq11 : form (CAdapt (ACount 2 1 (RFloat (flit 1 10)) true) Int16ul) (FLeaf (quantity 2 false false true 1 10)).
Proof. exact (leaf_quantity 2 false 1 (RFloat (flit 1 10)) 1 10 true Int16ul ltac:(unfold scale_table; do 11 right; left; reflexivity) ltac:(split; [lia | auto])). Qed.
Lemma fq12 : form (CAdapt (ACount 2 1 (RFloat (flit 5 10)) false) Int16sl) (FLeaf (quantity 2 true false false 5 10)).
Proof. exact (leaf_ext _ _ _ (leaf_quantity 2 true 1 (RFloat (flit 5 10)) 5 10 false Int16sl ltac:(unfold scale_table; do 12 right; left; reflexivity) ltac:(split; [lia | auto])) (fun v s => signed_known 2 false false 5 10 v s ltac:(lia))). Qed.
Lemma fq13 : form (CAdapt (ACount 2 1 (RInt 1) true) Int16ul) (FLeaf (quantity 2 false true true 1 1)).
Proof. exact (leaf_quantity 2 false 1 (RInt 1) 1 1 true Int16ul ltac:(unfold scale_table; do 13 right; left; reflexivity) ltac:(split; [lia | auto])). Qed.
Lemma fq14 : form (CAdapt (ACount 2 2 (RFloat (flit 1 100)) true) Int16sl) (FLeaf (quantity 2 true false false 1 100)).
Proof. exact (leaf_ext _ _ _ (leaf_quantity 2 true 2 (RFloat (flit 1 100)) 1 100 true Int16sl ltac:(unfold scale_table; do 14 right; left; reflexivity) ltac:(split; [lia | auto])) (fun v s => signed_known 2 false true 1 100 v s ltac:(lia))). Qed.
Lemma fq15 : form (CAdapt (ACount 2 2 (RFloat (flit 1 100)) true) Int16ul) (FLeaf (quantity 2 false false true 1 100)).
Proof. exact (leaf_quantity 2 false 2 (RFloat (flit 1 100)) 1 100 true Int16ul ltac:(unfold scale_table; do 15 right; left; reflexivity) ltac:(split; [lia | auto])). Qed.
Lemma fq16 : form (CAdapt (ACount 2 5 (RFloat (flit 1 100000)) false) Int16sl) (FLeaf (quantity 2 true false false 1 100000)).
Proof. exact (leaf_ext _ _ _ (leaf_quantity 2 true 5 (RFloat (flit 1 100000)) 1 100000 false Int16sl ltac:(unfold scale_table; do 16 right; left; reflexivity) ltac:(split; [lia | auto])) (fun v s => signed_known 2 false false 1 100000 v s ltac:(lia))). Qed.
Lemma fq17 : form (CAdapt (ACount 3 0 (RFloat (flit 1 64)) false) Int24ul) (FLeaf (quantity 3 false false false 1 64)).
Proof. exact (leaf_quantity 3 false 0 (RFloat (flit 1 64)) 1 64 false Int24ul ltac:(unfold scale_table; do 17 right; left; reflexivity) ltac:(split; [lia | auto])). Qed.
Lemma fq18 : form (CAdapt (ACount 3 0 (RFloat 1) true) Int24ul) (FLeaf (quantity 3 false false true 1 1)).
Proof. exact (leaf_quantity 3 false 0 (RFloat 1) 1 1 true Int24ul ltac:(unfold scale_table; do 18 right; left; reflexivity) ltac:(split; [lia | auto])). Qed.
Lemma fq19 : form (CAdapt (ACount 3 1 (RFloat (flit 1 10)) false) Int24ul) (FLeaf (quantity 3 false false false 1 10)).
Proof. exact (leaf_quantity 3 false 1 (RFloat (flit 1 10)) 1 10 false Int24ul ltac:(unfold scale_table; do 19 right; left; reflexivity) ltac:(split; [lia | auto])). Qed.
Lemma fq20 : form (CAdapt (ACount 3 1 (RFloat (flit 1 10)) true) Int24ul) (FLeaf (quantity 3 false false true 1 10)).
Proof. exact (leaf_quantity 3 false 1 (RFloat (flit 1 10)) 1 10 true Int24ul ltac:(unfold scale_table; do 20 right; left; reflexivity) ltac:(split; [lia | auto])). Qed.
Lemma fq21 : form (CAdapt (ACount 3 1 (RInt 1) false) Int24ul) (FLeaf (quantity 3 false true false 1 1)).
Proof. exact (leaf_quantity 3 false 1 (RInt 1) 1 1 false Int24ul ltac:(unfold scale_table; do 21 right; left; reflexivity) ltac:(split; [lia | auto])). Qed.
Lemma fq22 : form (CAdapt (ACount 3 1 (RInt 1000) true) Int24ul) (FLeaf (quantity 3 false true true 1000 1)).
Proof. exact (leaf_quantity 3 false 1 (RInt 1000) 1000 1 true Int24ul ltac:(unfold scale_table; do 22 right; left; reflexivity) ltac:(split; [lia | auto])). Qed.
Lemma fq23 : form (CAdapt (ACount 3 2 (RFloat (flit 1 100)) false) Int24ul) (FLeaf (quantity 3 false false false 1 100)).
Proof. exact (leaf_quantity 3 false 2 (RFloat (flit 1 100)) 1 100 false Int24ul ltac:(unfold scale_table; do 23 right; left; reflexivity) ltac:(split; [lia | auto])). Qed.
Lemma fq24 : form (CAdapt (ACount 3 3 (RFloat (flit 1 1000)) true) Int24ul) (FLeaf (quantity 3 false false true 1 1000)).
Proof. exact (leaf_quantity 3 false 3 (RFloat (flit 1 1000)) 1 1000 true Int24ul ltac:(unfold scale_table; do 24 right; left; reflexivity) ltac:(split; [lia | auto])). Qed.
Lemma fq25 : form (CAdapt (ACount 4 0 (RFloat 1) true) Int32ul) (FLeaf (quantity 4 false false true 1 1)).
Proof. exact (leaf_quantity 4 false 0 (RFloat 1) 1 1 true Int32ul ltac:(unfold scale_table; do 25 right; left; reflexivity) ltac:(split; [lia | auto])). Qed.
Lemma fq26 : form (CAdapt (ACount 4 3 (RFloat (flit 1 1000)) false) Int32ul) (FLeaf (quantity 4 false false false 1 1000)).
Proof. exact (leaf_quantity 4 false 3 (RFloat (flit 1 1000)) 1 1000 false Int32ul ltac:(unfold scale_table; do 26 right; left; reflexivity) ltac:(split; [lia | auto])). Qed.
Ltac quantity_ := lazymatch goal with
  | |- form (CAdapt (ACount 1 0 (RFloat 1) false) Int8sl) _ => exact fq0
  | |- form (CAdapt (ACount 1 0 (RFloat 1) true) Int8ul) _ => exact fq1
  | |- form (CAdapt (ACount 1 1 (RFloat (flit 1 10)) true) Int8ul) _ => exact fq2
  | |- form (CAdapt (ACount 1 1 (RFloat (flit 5 10)) false) Int8ul) _ => exact fq3
  | |- form (CAdapt (ACount 1 1 (RFloat (flit 5 10)) true) Int8sl) _ => exact fq4
  | |- form (CAdapt (ACount 1 1 (RFloat (flit 5 10)) true) Int8ul) _ => exact fq5
  | |- form (CAdapt (ACount 1 4 (RFloat (flit 1 10000)) false) Int8sl) _ => exact fq6
  | |- form (CAdapt (ACount 2 0 (RFloat (flit 1 64)) true) Int16ul) _ => exact fq7
  | |- form (CAdapt (ACount 2 0 (RFloat (flit 1 65535)) false) Int16ul) _ => exact fq8
  | |- form (CAdapt (ACount 2 0 (RFloat 1) false) Int16ul) _ => exact fq9
  | |- form (CAdapt (ACount 2 0 (RFloat 1) true) Int16ul) _ => exact fq10
  | |- form (CAdapt (ACount 2 1 (RFloat (flit 1 10)) true) Int16ul) _ => exact fq11
  | |- form (CAdapt (ACount 2 1 (RFloat (flit 5 10)) false) Int16sl) _ => exact fq12
  | |- form (CAdapt (ACount 2 1 (RInt 1) true) Int16ul) _ => exact fq13
  | |- form (CAdapt (ACount 2 2 (RFloat (flit 1 100)) true) Int16sl) _ => exact fq14
  | |- form (CAdapt (ACount 2 2 (RFloat (flit 1 100)) true) Int16ul) _ => exact fq15
  | |- form (CAdapt (ACount 2 5 (RFloat (flit 1 100000)) false) Int16sl) _ => exact fq16
  | |- form (CAdapt (ACount 3 0 (RFloat (flit 1 64)) false) Int24ul) _ => exact fq17
  | |- form (CAdapt (ACount 3 0 (RFloat 1) true) Int24ul) _ => exact fq18
  | |- form (CAdapt (ACount 3 1 (RFloat (flit 1 10)) false) Int24ul) _ => exact fq19
  | |- form (CAdapt (ACount 3 1 (RFloat (flit 1 10)) true) Int24ul) _ => exact fq20
  | |- form (CAdapt (ACount 3 1 (RInt 1) false) Int24ul) _ => exact fq21
  | |- form (CAdapt (ACount 3 1 (RInt 1000) true) Int24ul) _ => exact fq22
  | |- form (CAdapt (ACount 3 2 (RFloat (flit 1 100)) false) Int24ul) _ => exact fq23
  | |- form (CAdapt (ACount 3 3 (RFloat (flit 1 1000)) true) Int24ul) _ => exact fq24
  | |- form (CAdapt (ACount 4 0 (RFloat 1) true) Int32ul) _ => exact fq25
  | |- form (CAdapt (ACount 4 3 (RFloat (flit 1 1000)) false) Int32ul) _ => exact fq26
  end.
Ltac value0_ := lazymatch goal with
  | |- form (CAdapt (ACount _ _ _ _) _) _ => quantity_
  | |- form (CAdapt ATimeExp8 _) _ => exact leaf_exponential
  | |- form (CAdapt ADate _) _ => exact leaf_date
  | |- form (CAdapt (AEnum _) _) _ => apply form_e; [lia | vm_compute; reflexivity]
  | |- form (CBytesInt 6 true) _ => exact leaf_number6
  | |- form (CInt _ false) _ => apply form_u
  | |- form (CInt _ true) _ => apply form_s; lia
  | |- form CFlag _ => exact form_flag
  end.
Ltac record0_ := apply form_rec; [repeat (apply ff_plain; [value0_|]); apply ff_nil | vm_compute; reflexivity].
Lemma v_TimeExponential8 : form properties_TimeExponential8 time_exponential8. Proof. cbv [properties_TimeExponential8 fapp struct_fields properties_ElectricCurrentRange properties_TemperatureRange time_exponential8 plain map fst snd]; record0_. Qed.
Lemma v_TimeDecihour8 : form properties_TimeDecihour8 time_decihour8. Proof. cbv [properties_TimeDecihour8 fapp struct_fields properties_ElectricCurrentRange properties_TemperatureRange time_decihour8 plain map fst snd]; record0_. Qed.
Lemma v_Count16 : form properties_Count16 count16. Proof. cbv [properties_Count16 fapp struct_fields properties_ElectricCurrentRange properties_TemperatureRange count16 plain map fst snd]; record0_. Qed.
Lemma v_TimeSecond16 : form properties_TimeSecond16 time_second16. Proof. cbv [properties_TimeSecond16 fapp struct_fields properties_ElectricCurrentRange properties_TemperatureRange time_second16 plain map fst snd]; record0_. Qed.
Ltac value_ := lazymatch goal with
  | |- form (CAdapt (ACount _ _ _ _) _) _ => quantity_
  | |- form (CAdapt ATimeExp8 _) _ => exact leaf_exponential
  | |- form (CAdapt ADate _) _ => exact leaf_date
  | |- form (CAdapt (AEnum _) _) _ => apply form_e; [lia | vm_compute; reflexivity]
  | |- form (CBytesInt 6 true) _ => exact leaf_number6
  | |- form (CInt _ false) _ => apply form_u
  | |- form (CInt _ true) _ => apply form_s; lia
  | |- form CFlag _ => exact form_flag
  | |- form properties_TimeExponential8 _ => exact v_TimeExponential8
  | |- form properties_TimeDecihour8 _ => exact v_TimeDecihour8
  | |- form properties_Count16 _ => exact v_Count16
  | |- form properties_TimeSecond16 _ => exact v_TimeSecond16
  end.
Ltac record_ := apply form_rec; [repeat (apply ff_plain; [value_|]); apply ff_nil | vm_compute; reflexivity].
Lemma v_Temperature8InAPeriodOfDay : form properties_Temperature8InAPeriodOfDay temperature8_in_a_period_of_day. Proof. cbv [properties_Temperature8InAPeriodOfDay fapp struct_fields properties_ElectricCurrentRange properties_TemperatureRange temperature8_in_a_period_of_day plain map fst snd]; record_. Qed.
Lemma v_AverageCurrent : form properties_AverageCurrent average_current. Proof. cbv [properties_AverageCurrent fapp struct_fields properties_ElectricCurrentRange properties_TemperatureRange average_current plain map fst snd]; record_. Qed.
Lemma v_AverageVoltage : form properties_AverageVoltage average_voltage. Proof. cbv [properties_AverageVoltage fapp struct_fields properties_ElectricCurrentRange properties_TemperatureRange average_voltage plain map fst snd]; record_. Qed.
Lemma v_LuminousIntensity : form properties_LuminousIntensity luminous_intensity. Proof. cbv [properties_LuminousIntensity fapp struct_fields properties_ElectricCurrentRange properties_TemperatureRange luminous_intensity plain map fst snd]; record_. Qed.
Lemma v_ChromaticityTolerance : form properties_ChromaticityTolerance chromaticity_tolerance. Proof. cbv [properties_ChromaticityTolerance fapp struct_fields properties_ElectricCurrentRange properties_TemperatureRange chromaticity_tolerance plain map fst snd]; record_. Qed.
Lemma v_ColorRenderingIndex : form properties_ColorRenderingIndex color_rendering_index. Proof. cbv [properties_ColorRenderingIndex fapp struct_fields properties_ElectricCurrentRange properties_TemperatureRange color_rendering_index plain map fst snd]; record_. Qed.
Lemma v_Appearance : form properties_Appearance appearance. Proof. exact leaf_appearance. Qed.
Lemma v_CountryCode : form properties_CountryCode country_code. Proof. cbv [properties_CountryCode fapp struct_fields properties_ElectricCurrentRange properties_TemperatureRange country_code plain map fst snd]; record_. Qed.
Lemma v_DateUTC : form properties_DateUTC date_utc. Proof. cbv [properties_DateUTC fapp struct_fields properties_ElectricCurrentRange properties_TemperatureRange date_utc plain map fst snd]; record_. Qed.
Lemma v_Energy : form properties_Energy energy. Proof. cbv [properties_Energy fapp struct_fields properties_ElectricCurrentRange properties_TemperatureRange energy plain map fst snd]; record_. Qed.
Lemma v_GlobalTradeItemNumber : form properties_GlobalTradeItemNumber global_trade_item_number. Proof. cbv [properties_GlobalTradeItemNumber fapp struct_fields properties_ElectricCurrentRange properties_TemperatureRange global_trade_item_number plain map fst snd]; record_. Qed.
Lemma v_TemperatureRange : form properties_TemperatureRange temperature_range. Proof. cbv [properties_TemperatureRange fapp struct_fields properties_ElectricCurrentRange properties_TemperatureRange temperature_range plain map fst snd]; record_. Qed.
Lemma v_TemperatureStatistics : form properties_TemperatureStatistics temperature_statistics. Proof. cbv [properties_TemperatureStatistics fapp struct_fields properties_ElectricCurrentRange properties_TemperatureRange temperature_statistics plain map fst snd]; record_. Qed.
Lemma v_EventStatistics : form properties_EventStatistics event_statistics. Proof. cbv [properties_EventStatistics fapp struct_fields properties_ElectricCurrentRange properties_TemperatureRange event_statistics plain map fst snd]; record_. Qed.
Lemma v_PowerSpecification : form properties_PowerSpecification power_specification. Proof. cbv [properties_PowerSpecification fapp struct_fields properties_ElectricCurrentRange properties_TemperatureRange power_specification plain map fst snd]; record_. Qed.
Lemma v_TimeHour24 : form properties_TimeHour24 time_hour24. Proof. cbv [properties_TimeHour24 fapp struct_fields properties_ElectricCurrentRange properties_TemperatureRange time_hour24 plain map fst snd]; record_. Qed.
Lemma v_Temperature8Statistics : form properties_Temperature8Statistics temperature8_statistics. Proof. cbv [properties_Temperature8Statistics fapp struct_fields properties_ElectricCurrentRange properties_TemperatureRange temperature8_statistics plain map fst snd]; record_. Qed.
Lemma v_ChromaticityCoordinates : form properties_ChromaticityCoordinates chromaticity_coordinates. Proof. cbv [properties_ChromaticityCoordinates fapp struct_fields properties_ElectricCurrentRange properties_TemperatureRange chromaticity_coordinates plain map fst snd]; record_. Qed.
Lemma v_CorrelatedColorTemperature : form properties_CorrelatedColorTemperature correlated_color_temperature. Proof. cbv [properties_CorrelatedColorTemperature fapp struct_fields properties_ElectricCurrentRange properties_TemperatureRange correlated_color_temperature plain map fst snd]; record_. Qed.
Lemma v_LuminousFlux : form properties_LuminousFlux luminous_flux. Proof. cbv [properties_LuminousFlux fapp struct_fields properties_ElectricCurrentRange properties_TemperatureRange luminous_flux plain map fst snd]; record_. Qed.
Lemma v_ChromaticDistanceFromPlanckian : form properties_ChromaticDistanceFromPlanckian chromatic_distance_from_planckian. Proof. cbv [properties_ChromaticDistanceFromPlanckian fapp struct_fields properties_ElectricCurrentRange properties_TemperatureRange chromatic_distance_from_planckian plain map fst snd]; record_. Qed.
Lemma v_ElectricCurrentSpecification : form properties_ElectricCurrentSpecification electric_current_specification. Proof. cbv [properties_ElectricCurrentSpecification fapp struct_fields properties_ElectricCurrentRange properties_TemperatureRange electric_current_specification plain map fst snd]; record_. Qed.
Lemma v_ElectricCurrentStatistics : form properties_ElectricCurrentStatistics electric_current_statistics. Proof. cbv [properties_ElectricCurrentStatistics fapp struct_fields properties_ElectricCurrentRange properties_TemperatureRange electric_current_statistics plain map fst snd]; record_. Qed.
Lemma v_VoltageRange : form properties_VoltageRange voltage_range. Proof. cbv [properties_VoltageRange fapp struct_fields properties_ElectricCurrentRange properties_TemperatureRange voltage_range plain map fst snd]; record_. Qed.
Lemma v_Percentage8 : form properties_Percentage8 percentage8. Proof. cbv [properties_Percentage8 fapp struct_fields properties_ElectricCurrentRange properties_TemperatureRange percentage8 plain map fst snd]; record_. Qed.
Lemma v_VoltageStatistics : form properties_VoltageStatistics voltage_statistics. Proof. cbv [properties_VoltageStatistics fapp struct_fields properties_ElectricCurrentRange properties_TemperatureRange voltage_statistics plain map fst snd]; record_. Qed.
Lemma v_Illuminance : form properties_Illuminance illuminance. Proof. cbv [properties_Illuminance fapp struct_fields properties_ElectricCurrentRange properties_TemperatureRange illuminance plain map fst snd]; record_. Qed.
Lemma v_PerceivedLightness : form properties_PerceivedLightness perceived_lightness. Proof. cbv [properties_PerceivedLightness fapp struct_fields properties_ElectricCurrentRange properties_TemperatureRange perceived_lightness plain map fst snd]; record_. Qed.
Lemma v_Coefficient : form properties_Coefficient coefficient. Proof. cbv [properties_Coefficient fapp struct_fields properties_ElectricCurrentRange properties_TemperatureRange coefficient plain map fst snd]; record_. Qed.
Lemma v_TimeMiliseconds24 : form properties_TimeMiliseconds24 time_milliseconds24. Proof. cbv [properties_TimeMiliseconds24 fapp struct_fields properties_ElectricCurrentRange properties_TemperatureRange time_milliseconds24 plain map fst snd]; record_. Qed.
Lemma v_LuminousEfficacy : form properties_LuminousEfficacy luminous_efficacy. Proof. cbv [properties_LuminousEfficacy fapp struct_fields properties_ElectricCurrentRange properties_TemperatureRange luminous_efficacy plain map fst snd]; record_. Qed.
Lemma v_LuminousEnergy : form properties_LuminousEnergy luminous_energy. Proof. cbv [properties_LuminousEnergy fapp struct_fields properties_ElectricCurrentRange properties_TemperatureRange luminous_energy plain map fst snd]; record_. Qed.
Lemma v_LuminousExposure : form properties_LuminousExposure luminous_exposure. Proof. cbv [properties_LuminousExposure fapp struct_fields properties_ElectricCurrentRange properties_TemperatureRange luminous_exposure plain map fst snd]; record_. Qed.
Lemma v_LuminousFluxRange : form properties_LuminousFluxRange luminous_flux_range. Proof. cbv [properties_LuminousFluxRange fapp struct_fields properties_ElectricCurrentRange properties_TemperatureRange luminous_flux_range plain map fst snd]; record_. Qed.
Lemma v_ElectricCurrentRange : form properties_ElectricCurrentRange electric_current_range. Proof. cbv [properties_ElectricCurrentRange fapp struct_fields properties_ElectricCurrentRange properties_TemperatureRange electric_current_range plain map fst snd]; record_. Qed.
Lemma v_Presence : form properties_Presence presence. Proof. cbv [properties_Presence fapp struct_fields properties_ElectricCurrentRange properties_TemperatureRange presence plain map fst snd]; record_. Qed.
Lemma v_Temperature8 : form properties_Temperature8 temperature8. Proof. cbv [properties_Temperature8 fapp struct_fields properties_ElectricCurrentRange properties_TemperatureRange temperature8 plain map fst snd]; record_. Qed.
Lemma v_Power : form properties_Power power. Proof. cbv [properties_Power fapp struct_fields properties_ElectricCurrentRange properties_TemperatureRange power plain map fst snd]; record_. Qed.
Lemma v_Temperature : form properties_Temperature temperature. Proof. cbv [properties_Temperature fapp struct_fields properties_ElectricCurrentRange properties_TemperatureRange temperature plain map fst snd]; record_. Qed.
Lemma v_ElectricCurrent : form properties_ElectricCurrent electric_current. Proof. cbv [properties_ElectricCurrent fapp struct_fields properties_ElectricCurrentRange properties_TemperatureRange electric_current plain map fst snd]; record_. Qed.
Lemma v_Voltage : form properties_Voltage voltage. Proof. cbv [properties_Voltage fapp struct_fields properties_ElectricCurrentRange properties_TemperatureRange voltage plain map fst snd]; record_. Qed.
Lemma v_EnergyInAPeriodOfDay : form properties_EnergyInAPeriodOfDay energy_in_a_period_of_day. Proof. cbv [properties_EnergyInAPeriodOfDay fapp struct_fields properties_ElectricCurrentRange properties_TemperatureRange energy_in_a_period_of_day plain map fst snd]; record_. Qed.
Lemma v_RelativeRuntimeInAGenericLevelRange : form properties_RelativeRuntimeInAGenericLevelRange relative_runtime_in_a_generic_level_range. Proof. cbv [properties_RelativeRuntimeInAGenericLevelRange fapp struct_fields properties_ElectricCurrentRange properties_TemperatureRange relative_runtime_in_a_generic_level_range plain map fst snd]; record_. Qed.
Lemma v_RelativeValueInAnIlluminanceRange : form properties_RelativeValueInAnIlluminanceRange relative_value_in_an_illuminance_range. Proof. cbv [properties_RelativeValueInAnIlluminanceRange fapp struct_fields properties_ElectricCurrentRange properties_TemperatureRange relative_value_in_an_illuminance_range plain map fst snd]; record_. Qed.
Lemma v_RelativeValueInATemperatureRange : form properties_RelativeValueInATemperatureRange relative_value_in_a_temperature_range. Proof. cbv [properties_RelativeValueInATemperatureRange fapp struct_fields properties_ElectricCurrentRange properties_TemperatureRange relative_value_in_a_temperature_range plain map fst snd]; record_. Qed.
Lemma v_RelativeValueInACurrentRange : form properties_RelativeValueInACurrentRange relative_value_in_a_current_range. Proof. cbv [properties_RelativeValueInACurrentRange fapp struct_fields properties_ElectricCurrentRange properties_TemperatureRange relative_value_in_a_current_range plain map fst snd]; record_. Qed.
Lemma v_RelativeValueInAVoltageRange : form properties_RelativeValueInAVoltageRange relative_value_in_a_voltage_range. Proof. cbv [properties_RelativeValueInAVoltageRange fapp struct_fields properties_ElectricCurrentRange properties_TemperatureRange relative_value_in_a_voltage_range plain map fst snd]; record_. Qed.
Lemma v_Count24 : form properties_Count24 count24. Proof. cbv [properties_Count24 fapp struct_fields properties_ElectricCurrentRange properties_TemperatureRange count24 plain map fst snd]; record_. Qed.
Lemma v_PreciseEnergy : form properties_PreciseEnergy precise_energy. Proof. cbv [properties_PreciseEnergy fapp struct_fields properties_ElectricCurrentRange properties_TemperatureRange precise_energy plain map fst snd]; record_. Qed.
Lemma v_CosineOfTheAngle : form properties_CosineOfTheAngle cosine_of_the_angle. Proof. cbv [properties_CosineOfTheAngle fapp struct_fields properties_ElectricCurrentRange properties_TemperatureRange cosine_of_the_angle plain map fst snd]; record_. Qed.
Lemma v_HighVoltage : form properties_HighVoltage high_voltage. Proof. cbv [properties_HighVoltage fapp struct_fields properties_ElectricCurrentRange properties_TemperatureRange high_voltage plain map fst snd]; record_. Qed.
Lemma v_VoltageFrequency : form properties_VoltageFrequency voltage_frequency. Proof. cbv [properties_VoltageFrequency fapp struct_fields properties_ElectricCurrentRange properties_TemperatureRange voltage_frequency plain map fst snd]; record_. Qed.
Lemma v_LightDistribution : form properties_LightDistribution light_distribution. Proof. cbv [properties_LightDistribution fapp struct_fields properties_ElectricCurrentRange properties_TemperatureRange light_distribution plain map fst snd]; record_. Qed.
Lemma v_TimeSecond32 : form properties_TimeSecond32 time_second32. Proof. cbv [properties_TimeSecond32 fapp struct_fields properties_ElectricCurrentRange properties_TemperatureRange time_second32 plain map fst snd]; record_. Qed.
Lemma v_HighTemperature : form properties_HighTemperature high_temperature. Proof. cbv [properties_HighTemperature fapp struct_fields properties_ElectricCurrentRange properties_TemperatureRange high_temperature plain map fst snd]; record_. Qed.
Lemma v_LightOutput : form properties_LightOutput light_output. Proof. cbv [properties_LightOutput fapp struct_fields properties_ElectricCurrentRange properties_TemperatureRange light_output plain map fst snd]; record_. Qed.
Lemma v_ApparentEnergy32 : form properties_ApparentEnergy32 apparent_energy32. Proof. cbv [properties_ApparentEnergy32 fapp struct_fields properties_ElectricCurrentRange properties_TemperatureRange apparent_energy32 plain map fst snd]; record_. Qed.
Lemma v_ApparentPower : form properties_ApparentPower apparent_power. Proof. cbv [properties_ApparentPower fapp struct_fields properties_ElectricCurrentRange properties_TemperatureRange apparent_power plain map fst snd]; record_. Qed.
Lemma v_Energy32 : form properties_Energy32 energy32. Proof. cbv [properties_Energy32 fapp struct_fields properties_ElectricCurrentRange properties_TemperatureRange energy32 plain map fst snd]; record_. Qed.
Lemma v_LightSourceType : form properties_LightSourceType light_source_type. Proof. cbv [properties_LightSourceType fapp struct_fields properties_ElectricCurrentRange properties_TemperatureRange light_source_type plain map fst snd]; record_. Qed.
Lemma v_text8 : form (CAdapt AFixedString (CPaddedString (EConst 8))) (text 8). Proof. exact (leaf_padded 8 ltac:(lia)). Qed.
Lemma v_text16 : form (CAdapt AFixedString (CPaddedString (EConst 16))) (text 16). Proof. exact (leaf_padded 16 ltac:(lia)). Qed.
Lemma v_text36 : form (CAdapt AFixedString (CPaddedString (EConst 36))) (text 36). Proof. exact (leaf_padded 36 ltac:(lia)). Qed.
Lemma v_text24 : form (CAdapt AFixedString (CPaddedString (EConst 24))) (text 24). Proof. exact (leaf_padded 24 ltac:(lia)). Qed.
Lemma v_text64 : form (CAdapt AFixedString (CPaddedString (EConst 64))) (text 64). Proof. exact (leaf_padded 64 ltac:(lia)). Qed.
Ltac format_ := lazymatch goal with
  | |- form properties_TimeExponential8 _ => exact v_TimeExponential8
  | |- form properties_TimeDecihour8 _ => exact v_TimeDecihour8
  | |- form properties_Count16 _ => exact v_Count16
  | |- form properties_TimeSecond16 _ => exact v_TimeSecond16
  | |- form properties_Temperature8InAPeriodOfDay _ => exact v_Temperature8InAPeriodOfDay
  | |- form properties_AverageCurrent _ => exact v_AverageCurrent
  | |- form properties_AverageVoltage _ => exact v_AverageVoltage
  | |- form properties_LuminousIntensity _ => exact v_LuminousIntensity
  | |- form properties_ChromaticityTolerance _ => exact v_ChromaticityTolerance
  | |- form properties_ColorRenderingIndex _ => exact v_ColorRenderingIndex
  | |- form properties_Appearance _ => exact v_Appearance
  | |- form properties_CountryCode _ => exact v_CountryCode
  | |- form properties_DateUTC _ => exact v_DateUTC
  | |- form properties_Energy _ => exact v_Energy
  | |- form properties_GlobalTradeItemNumber _ => exact v_GlobalTradeItemNumber
  | |- form properties_TemperatureRange _ => exact v_TemperatureRange
  | |- form properties_TemperatureStatistics _ => exact v_TemperatureStatistics
  | |- form properties_EventStatistics _ => exact v_EventStatistics
  | |- form properties_PowerSpecification _ => exact v_PowerSpecification
  | |- form properties_TimeHour24 _ => exact v_TimeHour24
  | |- form properties_Temperature8Statistics _ => exact v_Temperature8Statistics
  | |- form properties_ChromaticityCoordinates _ => exact v_ChromaticityCoordinates
  | |- form properties_CorrelatedColorTemperature _ => exact v_CorrelatedColorTemperature
  | |- form properties_LuminousFlux _ => exact v_LuminousFlux
  | |- form properties_ChromaticDistanceFromPlanckian _ => exact v_ChromaticDistanceFromPlanckian
  | |- form properties_ElectricCurrentSpecification _ => exact v_ElectricCurrentSpecification
  | |- form properties_ElectricCurrentStatistics _ => exact v_ElectricCurrentStatistics
  | |- form properties_VoltageRange _ => exact v_VoltageRange
  | |- form properties_Percentage8 _ => exact v_Percentage8
  | |- form properties_VoltageStatistics _ => exact v_VoltageStatistics
  | |- form properties_Illuminance _ => exact v_Illuminance
  | |- form properties_PerceivedLightness _ => exact v_PerceivedLightness
  | |- form properties_Coefficient _ => exact v_Coefficient
  | |- form properties_TimeMiliseconds24 _ => exact v_TimeMiliseconds24
  | |- form properties_LuminousEfficacy _ => exact v_LuminousEfficacy
  | |- form properties_LuminousEnergy _ => exact v_LuminousEnergy
  | |- form properties_LuminousExposure _ => exact v_LuminousExposure
  | |- form properties_LuminousFluxRange _ => exact v_LuminousFluxRange
  | |- form properties_ElectricCurrentRange _ => exact v_ElectricCurrentRange
  | |- form properties_Presence _ => exact v_Presence
  | |- form properties_Temperature8 _ => exact v_Temperature8
  | |- form properties_Power _ => exact v_Power
  | |- form properties_Temperature _ => exact v_Temperature
  | |- form properties_ElectricCurrent _ => exact v_ElectricCurrent
  | |- form properties_Voltage _ => exact v_Voltage
  | |- form properties_EnergyInAPeriodOfDay _ => exact v_EnergyInAPeriodOfDay
  | |- form properties_RelativeRuntimeInAGenericLevelRange _ => exact v_RelativeRuntimeInAGenericLevelRange
  | |- form properties_RelativeValueInAnIlluminanceRange _ => exact v_RelativeValueInAnIlluminanceRange
  | |- form properties_RelativeValueInATemperatureRange _ => exact v_RelativeValueInATemperatureRange
  | |- form properties_RelativeValueInACurrentRange _ => exact v_RelativeValueInACurrentRange
  | |- form properties_RelativeValueInAVoltageRange _ => exact v_RelativeValueInAVoltageRange
  | |- form properties_Count24 _ => exact v_Count24
  | |- form properties_PreciseEnergy _ => exact v_PreciseEnergy
  | |- form properties_CosineOfTheAngle _ => exact v_CosineOfTheAngle
  | |- form properties_HighVoltage _ => exact v_HighVoltage
  | |- form properties_VoltageFrequency _ => exact v_VoltageFrequency
  | |- form properties_LightDistribution _ => exact v_LightDistribution
  | |- form properties_TimeSecond32 _ => exact v_TimeSecond32
  | |- form properties_HighTemperature _ => exact v_HighTemperature
  | |- form properties_LightOutput _ => exact v_LightOutput
  | |- form properties_ApparentEnergy32 _ => exact v_ApparentEnergy32
  | |- form properties_ApparentPower _ => exact v_ApparentPower
  | |- form properties_Energy32 _ => exact v_Energy32
  | |- form properties_LightSourceType _ => exact v_LightSourceType
  | |- form (CAdapt AFixedString (CPaddedString (EConst 8))) _ => exact v_text8
  | |- form (CAdapt AFixedString (CPaddedString (EConst 16))) _ => exact v_text16
  | |- form (CAdapt AFixedString (CPaddedString (EConst 36))) _ => exact v_text36
  | |- form (CAdapt AFixedString (CPaddedString (EConst 24))) _ => exact v_text24
  | |- form (CAdapt AFixedString (CPaddedString (EConst 64))) _ => exact v_text64
  | |- form CFlag _ => exact form_flag
  end.
