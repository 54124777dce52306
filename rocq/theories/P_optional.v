(** * P_optional: messages with a long and a short form (C36, C37). *)
From Verif Require Import PyVal Bits Utf8 Adapters Construct Size Spec Master AdapterSpec AdapterProofs1 AdapterProofs4 Access AccessProofs Conform Deps Doc
  G_config G_generics G_onoff G_level G_lightness G_ctl G_scene G_sensor G_nds G_elt G_rrule G_debug G_gateway G_time P_layout P_params.

(** [two_forms]: the declaration, the name and fields of the long form, the name and
    fields of the short form. *)
Definition fields_of (c : con) : fields := match c with CStruct fs => fs | _ => FNil end.
Definition two_forms : list (con * string * fields * string * fields) :=
  let om c l s := (c, "optional"%string, fields_of l, "minimal"%string, fields_of s) in
  [(config_ModelId, "vendor"%string, fields_of config_VendorModelId, "sig"%string, fields_of config_SIGModelId);
   om ctl_LightCTLSet ctl_LightCTLSetOptional ctl_LightCTLSetMinimal;
   om ctl_LightCTLStatus ctl_LightCTLStatusOptional ctl_LightCTLStatusMinimal;
   om ctl_LightCTLTemperatureStatus ctl_LightCTLTemperatureStatusOptional ctl_LightCTLTemperatureStatusMinimal;
   om ctl_LightCTLTemperatureSet ctl_LightCTLTemperatureSetOptional ctl_LightCTLTemperatureSetMinimal;
   om elt_EmergencyLightingTestFunctionalTestStatus elt_EmergencyLightingTestFunctionalTestStatusOptional elt_EmergencyLightingTestFunctionalTestStatusMinimal;
   om elt_EmergencyLightingTestDurationTestStatus elt_EmergencyLightingTestDurationTestStatusOptional elt_EmergencyLightingTestDurationTestStatusMinimal;
   om level_GenericLevelSet level_GenericLevelSetOptional level_GenericLevelSetMinimal;
   om level_GenericDeltaSet level_GenericDeltaSetOptional level_GenericDeltaSetMinimal;
   om level_GenericMoveSet level_GenericMoveSetOptional level_GenericMoveSetMinimal;
   om level_GenericLevelStatus level_GenericLevelStatusOptional level_GenericLevelStatusMinimal;
   om lightness_LightLightnessStatus lightness_LightLightnessStatusOptional lightness_LightLightnessStatusMinimal;
   om lightness_LightLightnessSet lightness_LightLightnessSetOptional lightness_LightLightnessSetMinimal;
   om nds_NetworkDiagnosticSetupServerPublicationSet nds_NetworkDiagnosticSetupServerPublicationSetOptional nds_NetworkDiagnosticSetupServerPublicationSetMinimal;
   om onoff_GenericOnOffSet onoff_GenericOnOffSetOptional onoff_GenericOnOffSetMinimal;
   om onoff_GenericOnOffStatus onoff_GenericOnOffStatusOptional onoff_GenericOnOffStatusMinimal;
   om rrule_ScheduleRegisterEntryStatus rrule_ScheduleRegisterEntryStatusOptional rrule_ScheduleRegisterEntryStatusMinimal;
   om scene_SceneRecall scene_SceneRecallWithTransition scene_SceneRecallMinimal;
   om scene_SceneStatus scene_SceneStatusWithTargetScene scene_SceneStatusMinimal;
   om sensor_SensorGet sensor_SensorGetOptional sensor_SensorGetMinimal;
   om sensor_SensorDescriptorStatusItem sensor_SensorDescriptorOptional sensor_SensorDescriptorMinimal;
   (debug_ArapListSizeStatus, "new"%string, fields_of debug_ArapSize16, "old"%string, fields_of debug_ArapSize8)].
Definition Two (a : string) (fl : fields) (b : string) (fs : fields) : con :=
  CSelect (ACons (CNamed a (CStruct fl)) (ACons (CNamed b (CStruct fs)) ANil)).
(** the least length of the long form, the length of the short form *)
Definition long_len (fl : fields) : nat := minszf fl.
Definition short_len (fs : fields) : nat := match fszf fs with Some n => n | None => 0%nat end.
(** the lengths, message by message (the long form of the rule scheduler entry status has any length from 3 on) *)
Theorem C36_lengths : map (fun p => match p with (c, a, fl, b, fs) => (fszf fl, long_len fl, short_len fs) end) two_forms =
  [(Some 4, 4, 2); (Some 9, 9, 7); (Some 9, 9, 4); (Some 9, 9, 4); (Some 7, 7, 5); (Some 14, 14, 10); (Some 16, 16, 12); (Some 5, 5, 3); (Some 7, 7, 5); (Some 5, 5, 3); (Some 5, 5, 2); (Some 5, 5, 2); (Some 5, 5, 3); (Some 10, 10, 8); (Some 4, 4, 2); (Some 3, 3, 1); (None, 3, 2); (Some 5, 5, 3); (Some 6, 6, 3); (Some 2, 2, 0); (Some 8, 8, 2); (Some 4, 4, 2)]%nat.
Proof. vm_compute. reflexivity. Qed.
Print Assumptions C36_lengths.

(** names a record has, and a record that binds exactly those *)
Fixpoint rec_keys (fs : fields) : list string :=
  match fs with
  | FNil => []
  | FCons k _ fs' | FDefault k _ _ fs' | FRebuild k _ _ fs' | FPad (Some k) _ fs' => k :: rec_keys fs'
  | FPad None _ fs' | FStopIf _ fs' => rec_keys fs'
  | FBits _ bs fs' => rec_keys bs ++ rec_keys fs'
  end.
Definition has (k : string) (d : dict) : Prop := dget k d <> None.

Lemma has_dset k v d k' : has k' (dset k v d) <-> k' = k \/ has k' d.
Proof.
  unfold has. destruct (string_dec k' k) as [->|N]; [rewrite dget_dset_eq; split; [now left|discriminate]|].
  rewrite dget_dset_neq by congruence. tauto.
Qed.
Fixpoint plainbits (bs : fields) : bool :=
  match bs with FNil => true | FCons _ _ bs' | FPad _ _ bs' => plainbits bs' | _ => false end.
Fixpoint plainf (fs : fields) : bool :=
  match fs with FNil => true | FCons _ _ fs' | FDefault _ _ _ fs' | FRebuild _ _ _ fs' | FPad _ _ fs' => plainf fs'
  | FStopIf _ _ => false | FBits _ bs fs' => plainbits bs && negb (existsb (String.eqb "_") (rec_keys bs)) && plainf fs' end.
Lemma copy_named_has bs : plainbits bs = true -> forall bd obj k, (forall k, In k (rec_keys bs) -> has k bd) ->
  (has k (copy_named bs bd obj) <-> In k (rec_keys bs) \/ has k obj).
Proof.
  induction bs as [|k c bs IH| | |k n bs IH| |] using fields_ind; cbn [plainbits copy_named rec_keys]; intros P bd obj k' H; try discriminate P.
  - cbn. tauto.
  - assert (has k bd) as Hk by (apply H; now left). unfold has in Hk. destruct (dget k bd); [|congruence].
    rewrite (IH P bd (dset k v obj) k') by (intros k0 H0; apply H; now right). rewrite has_dset. cbn [In]. intuition.
  - destruct k as [k|].
    + assert (has k bd) as Hk by (apply H; now left). unfold has in Hk. destruct (dget k bd); [|congruence].
      rewrite (IH P bd (dset k v obj) k') by (intros k0 H0; apply H; now right). rewrite has_dset. cbn [In]. intuition.
    + apply (IH P); auto.
Qed.
Lemma parse_has fs : plainf fs = true -> forall obj s d r, parse_fields fs obj s = Ok (d, r) ->
  forall k, k <> "_"%string -> (has k d <-> In k (rec_keys fs) \/ has k obj).
Proof.
  induction fs as [|k c fs IH|k c dv fs IH|k e c fs IH|k n fs IH|k fs IH|n bs IHb fs IH] using fields_ind;
    cbn [plainf parse_fields rec_keys]; intros P obj s d r H k' N; try discriminate P.
  1: { injection H as <- <-. cbn. tauto. }
  1, 2, 3: apply bind_ok in H as ([v r1] & _ & H); rewrite (IH P _ _ _ _ H k' N), has_dset; cbn [In]; intuition.
  - apply bind_ok in H as ([v r1] & _ & H). rewrite (IH P _ _ _ _ H k' N). destruct k as [k|]; [|reflexivity]. rewrite has_dset. cbn [In]. intuition.
  - apply andb_prop in P as [P P2]. apply andb_prop in P as [P1 P3]. apply bind_ok in H as ([v r1] & _ & H). apply bind_ok in H as ([bd r2] & Hb & H). destruct r2; [|discriminate].
    assert (PB : plainf bs = true).
    { clear -P1. induction bs as [|k c bs IH| | |k n bs IH| |] using fields_ind; cbn [plainbits plainf] in *; auto; discriminate. }
    rewrite (IH P2 _ _ _ _ H k' N). rewrite (copy_named_has bs P1).
    + rewrite has_dset, in_app_iff. intuition.
    + intros k0 H0. destruct (string_dec k0 "_") as [->|N0].
      * exfalso. apply negb_true_iff in P3. assert (existsb (String.eqb "_") (rec_keys bs) = true) by (apply existsb_exists; exists "_"%string; auto). congruence.
      * apply (IHb PB _ _ _ _ Hb k0 N0). now left.
Qed.

(** fields without a default *)
Fixpoint needed (fs : fields) : list string :=
  match fs with
  | FNil | FStopIf _ _ => []
  | FCons k _ fs' => k :: needed fs'
  | FDefault _ _ _ fs' | FRebuild _ _ _ fs' | FPad _ _ fs' | FBits _ _ fs' => needed fs'
  end.
Lemma needed_missing fs d k : In k (needed fs) -> dget k d = None -> missing_f fs d.
Proof.
  induction fs as [|k0 c fs IH|k0 c dv fs IH|k0 e c fs IH|k0 n fs IH|k0 fs IH|n bs IHb fs IH] using fields_ind; cbn [needed missing_f]; intros H E; auto; try (now destruct H).
  destruct H as [-> | H]; auto.
Qed.

Definition two_ok (a : string) (fl : fields) (b : string) (fs : fields) : bool :=
  wf false (CStruct fl) && wf false (CStruct fs) && prodf fl && plainf fl && plainf fs &&
  match fszf fs with Some n => Nat.ltb n (minszf fl) | None => false end &&
  negb (existsb (String.eqb "_name") (rec_keys fl)) && negb (existsb (String.eqb "_") (rec_keys fl)).
Lemma two_forms_ok : map (fun p => match p with (c, a, fl, b, fs) => (c, two_ok a fl b fs) end) two_forms =
                     map (fun p => match p with (c, a, fl, b, fs) => (Two a fl b fs, true) end) two_forms.
Proof. vm_compute. reflexivity. Qed.
Lemma two_forms_spec c a fl b fs : In (c, a, fl, b, fs) two_forms -> c = Two a fl b fs /\ two_ok a fl b fs = true.
Proof.
  pose proof two_forms_ok as R. revert R. generalize two_forms. intros l R H. pose proof (map_eq_in _ _ _ R _ H) as E. cbn beta iota in E. injection E as E1 E2. auto.
Qed.

Section TwoForms.
Context (a : string) (fl : fields) (b : string) (fs : fields) (OK : two_ok a fl b fs = true).
Let c := Two a fl b fs.
Lemma ok_all : wf false (CStruct fl) = true /\ wf false (CStruct fs) = true /\ prodf fl = true /\ plainf fl = true /\ plainf fs = true /\
  fszf fs = Some (short_len fs) /\ (short_len fs < long_len fl)%nat /\ ~ In "_name"%string (rec_keys fl) /\ ~ In "_"%string (rec_keys fl).
Proof.
  unfold two_ok in OK. repeat match goal with H : _ && _ = true |- _ => apply andb_prop in H as [? ?] end.
  unfold short_len, long_len. destruct (fszf fs) as [n|]; [|discriminate].
  assert (N : forall k, negb (existsb (String.eqb k) (rec_keys fl)) = true -> ~ In k (rec_keys fl)).
  { intros k H' Hin. apply negb_true_iff in H'. assert (existsb (String.eqb k) (rec_keys fl) = true) by (apply existsb_exists; exists k; split; [exact Hin|apply String.eqb_refl]). congruence. }
  repeat split; auto. now apply Nat.ltb_lt.
Qed.
Lemma named_build nm f d s : build (CNamed nm (CStruct f)) [] (VDict d) = Ok s -> exists d1, form_fields nm d d1 /\ build_msg (CStruct f) (VDict d1) = Ok s.
Proof.
  unfold form_fields, build_msg. cbn [build]. destruct (dget nm d) as [x|]; [|eauto]. intros H. apply bind_ok in H as (d1 & E & H). exists d1. split; [exact E|]. exact H.
Qed.
Lemma named_form nm f d d1 : form_fields nm d d1 -> build (CNamed nm (CStruct f)) [] (VDict d) = build_msg (CStruct f) (VDict d1).
Proof. unfold form_fields, build_msg. cbn [build]. destruct (dget nm d) as [x|]; [|now intros ->]. intros ->. reflexivity. Qed.
Lemma two_build d : build_msg c (VDict d) =
  match build (CNamed a (CStruct fl)) [] (VDict d) with
  | Ok s => Ok s
  | Err _ => match build (CNamed b (CStruct fs)) [] (VDict d) with Ok s => Ok s | Err _ => Err EOther | Diverge => Diverge end
  | Diverge => Diverge
  end.
Proof. reflexivity. Qed.
Lemma two_parse s : parse_msg c s =
  match parse_msg (CNamed a (CStruct fl)) s with
  | Ok v => Ok v
  | Err _ => match parse_msg (CNamed b (CStruct fs)) s with Ok v => Ok v | Err _ => Err EOther | Diverge => Diverge end
  | Diverge => Diverge
  end.
Proof.
  unfold c, Two, parse_msg. cbn [parse parse_alts].
  destruct (parse_fields fl [] s) as [[v1 r1]|e1|]; cbn [bind]; [reflexivity| |reflexivity].
  destruct (parse_fields fs [] s) as [[v2 r2]|e2|]; reflexivity.
Qed.

Theorem two_long d d1 v' : form_fields a d d1 -> message A_spec (CStruct fl) (VDict d1) v' ->
  exists s u, build_msg c (VDict d) = Ok s /\ (long_len fl <= length s)%nat /\ parse_msg c s = Ok (VDict u) /\
    dget "_name" u = Some (VStr (cps a)) /\ pub (VDict u) = v'.
Proof.
  intros F M. destruct ok_all as (W & _). destruct (roundtrip A_spec adapters_ok _ _ _ W M) as (s & Hb & _ & u0 & Hp & E).
  unfold parse_msg in Hp. apply bind_ok in Hp as ([v0 r0] & Hp & Ev). injection Ev as ->.
  pose proof (parse_len _ _ _ _ _ Hp) as L. cbn [minsz] in L. pose proof Hp as Hp0. cbn [parse] in Hp. apply bind_ok in Hp as ([u r1] & Hp & Ev). injection Ev as <- <-.
  exists s, (dset "_name" (VStr (cps a)) u). rewrite two_build, (named_form _ _ _ _ F), Hb. split; [reflexivity|]. split; [unfold long_len; lia|].
  split; [|split; [apply dget_dset_eq|]].
  - rewrite two_parse. unfold parse_msg. cbn [parse]. rewrite Hp. reflexivity.
  - rewrite <- E. cbn [pub]. f_equal. apply pubd_dset_hidden. reflexivity.
Qed.
Theorem two_short d d1 v' : form_fields b d d1 -> message A_spec (CStruct fs) (VDict d1) v' ->
  (forall d0, form_fields a d d0 -> exists k, In k (needed fl) /\ dget k d0 = None) ->
  exists s u, build_msg c (VDict d) = Ok s /\ length s = short_len fs /\ parse_msg c s = Ok (VDict u) /\
    dget "_name" u = Some (VStr (cps b)) /\ pub (VDict u) = v'.
Proof.
  intros F M Miss. destruct ok_all as (_ & W & Pr & _ & _ & Hs & Hl & _). destruct (roundtrip A_spec adapters_ok _ _ _ W M) as (s & Hb & _ & u0 & Hp & E).
  unfold parse_msg in Hp. apply bind_ok in Hp as ([v0 r0] & Hp & Ev). injection Ev as ->. cbn [parse] in Hp. apply bind_ok in Hp as ([u r1] & Hp & Ev). injection Ev as <- <-.
  assert (Ls : length s = short_len fs) by (exact (build_len (CStruct fs) [] _ _ _ Hs Hb)).
  exists s, (dset "_name" (VStr (cps b)) u). rewrite two_build. split; [|split; [exact Ls|split; [|split; [apply dget_dset_eq|]]]].
  - destruct (build (CNamed a (CStruct fl)) [] (VDict d)) as [s'|e|] eqn:El.
    + exfalso. destruct (named_build _ _ _ _ El) as (d0 & F0 & B0). destruct (Miss _ F0) as (k & Hk & Nk).
      destruct (missing_f_err fl d0 d0 (needed_missing _ _ _ Hk Nk)) as (e & Ee). unfold build_msg in B0. cbn [build as_dict bind] in B0. congruence.
    + rewrite (named_form _ _ _ _ F), Hb. reflexivity.
    + exfalso. eapply build_nodiv; eauto.
  - rewrite two_parse. unfold parse_msg at 1. cbn [parse]. destruct (parse_short (CStruct fl) [] s) as (e & Ee); [exact Pr|cbn [minsz]; unfold long_len in Hl; lia|].
    cbn [parse] in Ee. destruct (parse_fields fl [] s) as [[q1 q2]|e'|] eqn:Eq; try discriminate Ee. cbn [bind].
    unfold parse_msg. cbn [parse]. rewrite Hp. reflexivity.
  - rewrite <- E. cbn [pub]. f_equal. apply pubd_dset_hidden. reflexivity.
Qed.
Theorem two_build_shape d s : build_msg c (VDict d) = Ok s ->
  (exists d1, form_fields a d d1 /\ (forall k, In k (needed fl) -> has k d1) /\ build_msg (CStruct fl) (VDict d1) = Ok s) \/
  (exists d1, form_fields b d d1 /\ length s = short_len fs /\ build_msg (CStruct fs) (VDict d1) = Ok s /\
     forall d0, form_fields a d d0 -> exists e, build_msg (CStruct fl) (VDict d0) = Err e).
Proof.
  destruct ok_all as (_ & _ & _ & _ & _ & Hs & _). rewrite two_build. intros H. destruct (build (CNamed a (CStruct fl)) [] (VDict d)) as [s'|e|] eqn:El; [| |discriminate].
  - injection H as ->. left. destruct (named_build _ _ _ _ El) as (d0 & F0 & B0). exists d0. split; [exact F0|]. split; [|exact B0].
    intros k Hk Nk. destruct (missing_f_err fl d0 d0 (needed_missing _ _ _ Hk Nk)) as (e & Ee). unfold build_msg in B0. cbn [build as_dict bind] in B0. congruence.
  - right. destruct (build (CNamed b (CStruct fs)) [] (VDict d)) as [s'|e'|] eqn:Es; try discriminate. injection H as ->.
    destruct (named_build _ _ _ _ Es) as (d0 & F0 & B0). exists d0. split; [exact F0|]. split; [exact (build_len (CStruct fs) [] _ _ _ Hs B0)|].
    split; [exact B0|]. intros d2 F2. rewrite (named_form _ _ _ _ F2) in El. eauto.
Qed.
Theorem two_parse_shape s v : parse_msg c s = Ok v -> exists u, v = VDict u /\
  ((dget "_name" u = Some (VStr (cps a)) /\ (long_len fl <= length s)%nat /\ forall k, In k (rec_keys fl) -> has k u) \/
   (dget "_name" u = Some (VStr (cps b)) /\ (exists e, parse_msg (CStruct fl) s = Err e) /\
      forall k, k <> "_"%string -> k <> "_name"%string -> (has k u <-> In k (rec_keys fs)))).
Proof.
  destruct ok_all as (_ & _ & _ & Pl & Ps & _ & _ & Nn & N_). rewrite two_parse. intros H. unfold parse_msg at 1 in H. cbn [parse] in H.
  destruct (parse_fields fl [] s) as [[u r]|e|] eqn:El; cbn [bind] in H; [| |discriminate].
  - injection H as <-. eexists. split; [reflexivity|]. left. split; [apply dget_dset_eq|]. split.
    + assert (K : parse (CStruct fl) [] s = Ok (VDict u, r)) by (cbn [parse]; rewrite El; reflexivity). apply parse_len in K. cbn [minsz] in K. unfold long_len. lia.
    + intros k Hk. apply has_dset. right. apply (parse_has _ Pl _ _ _ _ El k); [now intros ->|]. now left.
  - unfold parse_msg in H. cbn [parse] in H. destruct (parse_fields fs [] s) as [[u r]|e'|] eqn:Es; cbn [bind] in H; [|discriminate..].
    injection H as <-. eexists. split; [reflexivity|]. right. split; [apply dget_dset_eq|]. split.
    + unfold parse_msg. cbn [parse]. rewrite El. cbn [bind]. eauto.
    + intros k N1 N2. rewrite has_dset. rewrite (parse_has _ Ps _ _ _ _ Es k N1). unfold has at 1. cbn [dget]. intuition congruence.
Qed.
Theorem two_no_error d d1 s0 : form_fields b d d1 -> build_msg (CStruct fs) (VDict d1) = Ok s0 -> exists s, build_msg c (VDict d) = Ok s.
Proof.
  intros F B0. rewrite two_build. destruct (build (CNamed a (CStruct fl)) [] (VDict d)) as [s'|e|] eqn:El; [eauto| |].
  - rewrite (named_form _ _ _ _ F), B0. eauto.
  - exfalso. eapply build_nodiv; eauto.
Qed.
Theorem two_error_iff d : (exists e, build_msg c (VDict d) = Err e) <->
  (forall d0, form_fields a d d0 -> exists e, build_msg (CStruct fl) (VDict d0) = Err e) /\
  (forall d0, form_fields b d d0 -> exists e, build_msg (CStruct fs) (VDict d0) = Err e).
Proof.
  rewrite two_build. split.
  - intros (e & H). destruct (build (CNamed a (CStruct fl)) [] (VDict d)) as [s'|e1|] eqn:El; try discriminate.
    destruct (build (CNamed b (CStruct fs)) [] (VDict d)) as [s'|e2|] eqn:Es; try discriminate. split; intros d0 F0.
    + rewrite (named_form _ _ _ _ F0) in El. eauto.
    + rewrite (named_form _ _ _ _ F0) in Es. eauto.
  - intros (H1 & H2). destruct (build (CNamed a (CStruct fl)) [] (VDict d)) as [s'|e1|] eqn:El.
    + destruct (named_build _ _ _ _ El) as (d0 & F0 & B0). destruct (H1 _ F0). congruence.
    + destruct (build (CNamed b (CStruct fs)) [] (VDict d)) as [s'|e2|] eqn:Es; [|eauto|].
      * destruct (named_build _ _ _ _ Es) as (d0 & F0 & B0). destruct (H2 _ F0). congruence.
      * exfalso. eapply build_nodiv; eauto.
    + exfalso. eapply build_nodiv; eauto.
Qed.
End TwoForms.

(** ** C36 *)
(** With all the fields of the long form (given directly, or under the name of the
    form) the long form is sent, and recognised. *)
Theorem C36_long : forall c a fl b fs d d1 v', In (c, a, fl, b, fs) two_forms -> form_fields a d d1 -> message A_spec (CStruct fl) (VDict d1) v' ->
  exists s u, build_msg c (VDict d) = Ok s /\ (long_len fl <= length s)%nat /\ parse_msg c s = Ok (VDict u) /\
    dget "_name" u = Some (VStr (cps a)) /\ pub (VDict u) = v'.
Proof. intros c a fl b fs d d1 v' H. destruct (two_forms_spec _ _ _ _ _ H) as (-> & OK). exact (two_long a fl b fs OK d d1 v'). Qed.
(** Without one of the optional fields the short form is sent, and recognised. *)
Theorem C36_short : forall c a fl b fs d d1 v', In (c, a, fl, b, fs) two_forms -> form_fields b d d1 -> message A_spec (CStruct fs) (VDict d1) v' ->
  (forall d0, form_fields a d d0 -> exists k, In k (needed fl) /\ dget k d0 = None) ->
  exists s u, build_msg c (VDict d) = Ok s /\ length s = short_len fs /\ parse_msg c s = Ok (VDict u) /\
    dget "_name" u = Some (VStr (cps b)) /\ pub (VDict u) = v'.
Proof. intros c a fl b fs d d1 v' H. destruct (two_forms_spec _ _ _ _ _ H) as (-> & OK). exact (two_short a fl b fs OK d d1 v'). Qed.
(** Whatever is built is one of the two forms: the long one with every field, or the short one. *)
Theorem C36_all_or_nothing : forall c a fl b fs d s, In (c, a, fl, b, fs) two_forms -> build_msg c (VDict d) = Ok s ->
  (exists d1, form_fields a d d1 /\ (forall k, In k (needed fl) -> has k d1) /\ build_msg (CStruct fl) (VDict d1) = Ok s /\
     forall n, fszf fl = Some n -> length s = n) \/
  (exists d1, form_fields b d d1 /\ length s = short_len fs /\ build_msg (CStruct fs) (VDict d1) = Ok s).
Proof.
  intros c a fl b fs d s H B. destruct (two_forms_spec _ _ _ _ _ H) as (-> & OK).
  destruct (two_build_shape a fl b fs OK d s B) as [(d1 & F & N & B1) | (d1 & F & L & B1 & _)].
  - left. exists d1. split; [exact F|]. split; [exact N|]. split; [exact B1|]. intros n Hn. exact (build_len (CStruct fl) [] _ _ _ Hn B1).
  - right. eauto.
Qed.
(** Whatever is received is read as one of the two forms, with all of its fields and
    no others; fewer octets than the long form needs can only be the short form. *)
Theorem C36_received : forall c a fl b fs s v, In (c, a, fl, b, fs) two_forms -> parse_msg c s = Ok v -> exists u, v = VDict u /\
  ((dget "_name" u = Some (VStr (cps a)) /\ (long_len fl <= length s)%nat /\ forall k, In k (rec_keys fl) -> has k u) \/
   (dget "_name" u = Some (VStr (cps b)) /\ (exists e, parse_msg (CStruct fl) s = Err e) /\
      forall k, k <> "_"%string -> k <> "_name"%string -> (has k u <-> In k (rec_keys fs)))).
Proof. intros c a fl b fs s v H. destruct (two_forms_spec _ _ _ _ _ H) as (-> & OK). exact (two_parse_shape a fl b fs OK s v). Qed.
Print Assumptions C36_long.
Print Assumptions C36_short.
Print Assumptions C36_all_or_nothing.
Print Assumptions C36_received.

(** *** every choice between alternatives in the declarations *)
Fixpoint selects (c : con) : list alts :=
  match c with
  | CAdapt _ c1 | CPrefixedArray c1 | CArray _ c1 | CGreedyRange c1 | CBitwise c1 | CBytewise c1 | CReversed _ c1
  | CNamed _ c1 | CIfDefault _ c1 _ => selects c1
  | CStruct fs => selects_fields fs
  | CSelect l => l :: selects_alts l
  | CSwitch _ cs | CEnumSwitchStruct _ cs | CSensorData _ cs => selects_cases cs
  | CSwitchStruct _ kc _ _ cs => selects kc ++ selects_cases cs
  | CProp h _ cs | CSensorSetting h _ cs => selects h ++ selects_cases cs
  | _ => []
  end
with selects_fields (fs : fields) : list alts :=
  match fs with
  | FNil => []
  | FCons _ c fs' | FDefault _ c _ fs' | FRebuild _ _ c fs' => selects c ++ selects_fields fs'
  | FPad _ _ fs' | FStopIf _ fs' => selects_fields fs'
  | FBits _ bs fs' => selects_fields bs ++ selects_fields fs'
  end
with selects_cases (cs : cases) : list alts :=
  match cs with KNil => [] | KCons _ _ c cs' => selects c ++ selects_cases cs' end
with selects_alts (l : alts) : list alts :=
  match l with ANil => [] | ACons c l' => selects c ++ selects_alts l' end.
Definition alts_of (c : con) : alts := match c with CSelect l => l | _ => ANil end.
Definition all_selects := flat_map (fun p => selects (snd p)) access_table.
(** Every choice in the access layer is one of the two-form messages, the gateway
    configuration (three forms, each an extension of the next), the time (C32, C33), the property identifier of the
    sensor messages (a known identifier or its number) or the pieces of a key-index list. *)
Definition other_choices : list alts :=
  [alts_of time_Time; alts_of gateway_ConfigurationSet; alts_of sensor_SensorPropertyId;
   match config_KeyIndices with CAdapt _ (CGreedyRange (CSelect l)) => l | _ => ANil end].
Definition choices : list alts := map (fun p => match p with (c, _, _, _, _) => alts_of c end) two_forms ++ other_choices.
(* only used to find the index; what is proved is the equation below *)
Fixpoint fprint (l : alts) : list (list string * nat) :=
  match l with ANil => []
  | ACons (CNamed n c) l' => (n :: rec_keys (fields_of c), minsz c) :: fprint l'
  | ACons (CAdapt _ _) l' => (["adapted"%string], 0%nat) :: fprint l'
  | ACons (CReversed 3 c) l' => (["pair"%string], 0%nat) :: fprint l'
  | ACons c l' => (rec_keys (fields_of c), 0%nat) :: fprint l' end.
Fixpoint find_at {A} (f : A -> bool) (l : list A) (i : nat) : nat := match l with [] => i | x :: l' => if f x then i else find_at f l' (S i) end.
Definition prod_eq_dec_ {A B} (f : forall x y : A, {x = y} + {x <> y}) (g : forall x y : B, {x = y} + {x <> y}) (x y : A * B) : {x = y} + {x <> y}.
Proof. decide equality. Defined.
Definition strs_eqb (a b : list (list string * nat)) : bool :=
  if list_eq_dec (fun x y => prod_eq_dec_ (list_eq_dec string_dec) Nat.eq_dec x y) a b then true else false.
Definition choice_index : list nat := Eval vm_compute in
  let fs := map fprint choices in map (fun l => find_at (strs_eqb (fprint l)) fs 0%nat) all_selects.
Lemma all_selects_eq : all_selects = map (fun i => nth i choices ANil) choice_index.
Proof. vm_compute. reflexivity. Qed.
Theorem C36_coverage : forall o c l, In (o, c) access_table -> In l (selects c) ->
  (exists c' a fl b fs, In (c', a, fl, b, fs) two_forms /\ CSelect l = c') \/ In l other_choices.
Proof.
  assert (R : forall l, In l all_selects -> In l choices).
  { intros l H. rewrite all_selects_eq in H. apply in_map_iff in H as (i & <- & Hi).
    assert (B : forallb (fun i => Nat.ltb i (length choices)) choice_index = true) by (vm_compute; reflexivity).
    rewrite forallb_forall in B. apply nth_In. apply Nat.ltb_lt. now apply B. }
  assert (S : map (fun p => match p with (c, _, _, _, _) => CSelect (alts_of c) end) two_forms = map (fun p => match p with (c, _, _, _, _) => c end) two_forms)
    by (vm_compute; reflexivity).
  intros o c l H1 H2. assert (In l choices) as H by (apply R; unfold all_selects; apply in_flat_map; exists (o, c); auto).
  clear H1 H2 R. unfold choices in H. apply in_app_or in H as [H|H]; [left|now right]. revert S H. generalize two_forms. intros tf S H.
  apply in_map_iff in H as ([[[[c' a] fl] b] fs] & E & H). exists c', a, fl, b, fs. split; [exact H|].
  pose proof (map_eq_in _ _ _ S _ H) as E2. cbn beta iota in E2. now rewrite <- E, E2.
Qed.
Print Assumptions C36_coverage.

(** ** C37 *)
(** FALSE as stated ("an invalid optional field is reported"): whatever the optional
    fields hold, once the short form can be built there is never an error. *)
Theorem C37_never_an_error : forall c a fl b fs d d1 s0, In (c, a, fl, b, fs) two_forms -> form_fields b d d1 ->
  build_msg (CStruct fs) (VDict d1) = Ok s0 -> exists s, build_msg c (VDict d) = Ok s.
Proof. intros c a fl b fs d d1 s0 H. destruct (two_forms_spec _ _ _ _ _ H) as (-> & OK). exact (two_no_error a fl b fs d d1 s0). Qed.
(** When the long form cannot be built (an optional field is absent or has a value that
    cannot be encoded), exactly the short form is sent. *)
Theorem C37_silently_short : forall c a fl b fs d d0 d1 e s0, In (c, a, fl, b, fs) two_forms ->
  form_fields a d d0 -> build_msg (CStruct fl) (VDict d0) = Err e ->
  form_fields b d d1 -> build_msg (CStruct fs) (VDict d1) = Ok s0 -> build_msg c (VDict d) = Ok s0.
Proof.
  intros c a fl b fs d d0 d1 e s0 H F0 B0 F1 B1. destruct (two_forms_spec _ _ _ _ _ H) as (-> & OK).
  rewrite two_build, (named_form _ _ _ _ F0), B0, (named_form _ _ _ _ F1), B1. reflexivity.
Qed.
(** An error is reported exactly when neither form can be built. *)
Theorem C37_error_iff : forall c a fl b fs d, In (c, a, fl, b, fs) two_forms ->
  ((exists e, build_msg c (VDict d) = Err e) <->
   (forall d0, form_fields a d d0 -> exists e, build_msg (CStruct fl) (VDict d0) = Err e) /\
   (forall d0, form_fields b d d0 -> exists e, build_msg (CStruct fs) (VDict d0) = Err e)).
Proof. intros c a fl b fs d H. destruct (two_forms_spec _ _ _ _ _ H) as (-> & OK). exact (two_error_iff a fl b fs d). Qed.
(** The way to have an invalid optional field reported: name the long form (and give the
    short form's fields nowhere else). *)
Theorem C37_named_form_reported : forall c a fl b fs d x e k, In (c, a, fl, b, fs) two_forms ->
  dget a d = Some (VDict x) -> dget b d = None -> In k (needed fs) -> dget k d = None ->
  build_msg (CStruct fl) (VDict x) = Err e -> exists e', build_msg c (VDict d) = Err e'.
Proof.
  intros c a fl b fs d x e k H Ha Hb Hk Hn E. apply (C37_error_iff _ _ _ _ _ _ H). unfold form_fields. rewrite Ha, Hb. split.
  - intros d0 E0. injection E0 as <-. eauto.
  - intros d0 ->. destruct (missing_f_err fs d d (needed_missing _ _ _ Hk Hn)) as (e' & Ee). exists e'. unfold build_msg. cbn [build as_dict bind]. exact Ee.
Qed.
Print Assumptions C37_never_an_error.
Print Assumptions C37_silently_short.
Print Assumptions C37_error_iff.
Print Assumptions C37_named_form_reported.
Local Open Scope string_scope.
(** Concrete cases: a transition time of 100000 seconds, a vendor identifier of 17 bits, an
    octet of 300 in an IP address: no error, and the field is not sent. *)
Theorem C37_invalid_optional_reported_refuted :
  build_msg onoff_GenericOnOffSet (VDict [("onoff", VInt 1); ("tid", VInt 7); ("transition_time", VInt 100000); ("delay", VInt 0)]) = Ok [1; 7] /\
  build_msg config_ModelId (VDict [("vendor_id", VInt 65536); ("model_id", VInt 5)]) = Ok [5; 0] /\
  build_msg gateway_ConfigurationSet (VDict [("mtu_size", VInt 1500); ("mac_address", VStr (cps "11:22:33:44:55:66")); ("server_port_number", VInt 80);
     ("reconnect_interval", VInt 3); ("server_address_length", VInt 1); ("server_address", VStr (cps "a")); ("dns_ip_address", VStr (cps "1.2.3.300"))]) =
  build_msg gateway_ConfigurationSet (VDict [("mtu_size", VInt 1500); ("mac_address", VStr (cps "11:22:33:44:55:66")); ("server_port_number", VInt 80);
     ("reconnect_interval", VInt 3); ("server_address_length", VInt 1); ("server_address", VStr (cps "a"))]) /\
  exists s, build_msg gateway_ConfigurationSet (VDict [("mtu_size", VInt 1500); ("mac_address", VStr (cps "11:22:33:44:55:66")); ("server_port_number", VInt 80);
     ("reconnect_interval", VInt 3); ("server_address_length", VInt 1); ("server_address", VStr (cps "a"))]) = Ok s.
Proof. vm_compute. repeat split; eauto. Qed.
(** naming the form reports it *)
Example C37_ex_named : exists e,
  build_msg onoff_GenericOnOffSet (VDict [("optional", VDict [("onoff", VInt 1); ("tid", VInt 7); ("transition_time", VInt 100000); ("delay", VInt 0)])]) = Err e.
Proof. vm_compute. eauto. Qed.
(** a short message, and the same with all its optional fields *)
Example C36_ex_short : build_msg onoff_GenericOnOffSet (VDict [("onoff", VInt 1); ("tid", VInt 7); ("delay", VInt 0)]) = Ok [1; 7].
Proof. vm_compute. reflexivity. Qed.
Example C36_ex_long : exists s, build_msg onoff_GenericOnOffSet (VDict [("onoff", VInt 1); ("tid", VInt 7); ("transition_time", VInt 10); ("delay", VInt 0)]) = Ok s /\ length s = 4%nat.
Proof. vm_compute. eauto. Qed.
