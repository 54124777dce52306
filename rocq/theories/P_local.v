(** * P_local: parsing is local (C06) and truncated messages are rejected (C46). *)
From Verif Require Import PyVal Bits Utf8 Adapters Construct Size Spec Master
  AdapterSpec AdapterProofs1 AdapterProofs4 Access AccessProofs Local Conform P_access
  G_config G_onoff G_time.

(** the messages with an open-ended last field, or whose form is told by their length *)
Definition open_ended : list string :=
  ["CONFIG_APPKEY_LIST"; "CONFIG_COMPOSITION_DATA_STATUS"; "CONFIG_MODEL_APP_BIND"; "CONFIG_MODEL_APP_STATUS";
    "CONFIG_MODEL_APP_UNBIND"; "CONFIG_MODEL_PUBLICATION_GET"; "CONFIG_MODEL_PUBLICATION_SET";
    "CONFIG_MODEL_PUBLICATION_STATUS"; "CONFIG_MODEL_PUBLICATION_VIRTUAL_ADDRESS_SET";
    "CONFIG_MODEL_SUBSCRIPTION_ADD"; "CONFIG_MODEL_SUBSCRIPTION_DELETE";
    "CONFIG_MODEL_SUBSCRIPTION_DELETE_ALL"; "CONFIG_MODEL_SUBSCRIPTION_OVERWRITE";
    "CONFIG_MODEL_SUBSCRIPTION_STATUS"; "CONFIG_MODEL_SUBSCRIPTION_VIRTUAL_ADDRESS_ADD";
    "CONFIG_MODEL_SUBSCRIPTION_VIRTUAL_ADDRESS_DELETE"; "CONFIG_MODEL_SUBSCRIPTION_VIRTUAL_ADDRESS_OVERWRITE";
    "CONFIG_NETKEY_LIST"; "CONFIG_SIG_MODEL_APP_LIST"; "CONFIG_SIG_MODEL_SUBSCRIPTION_LIST";
    "CONFIG_VENDOR_MODEL_APP_LIST"; "CONFIG_VENDOR_MODEL_SUBSCRIPTION_LIST"; "SILVAIR_DEBUG";
    "SILVAIR_GATEWAY"; "GENERIC_ONOFF_SET"; "GENERIC_ONOFF_SET_UNACKNOWLEDGED"; "GENERIC_ONOFF_STATUS";
    "GENERIC_LEVEL_SET"; "GENERIC_LEVEL_SET_UNACKNOWLEDGED"; "GENERIC_LEVEL_STATUS"; "GENERIC_DELTA_SET";
    "GENERIC_DELTA_SET_UNACKNOWLEDGED"; "GENERIC_MOVE_SET"; "GENERIC_MOVE_SET_UNACKNOWLEDGED";
    "LIGHT_LIGHTNESS_SET"; "LIGHT_LIGHTNESS_SET_UNACKNOWLEDGED"; "LIGHT_LIGHTNESS_STATUS";
    "LIGHT_LIGHTNESS_LINEAR_SET"; "LIGHT_LIGHTNESS_LINEAR_SET_UNACKNOWLEDGED"; "LIGHT_LIGHTNESS_LINEAR_STATUS";
    "LIGHT_CTL_SET"; "LIGHT_CTL_SET_UNACKNOWLEDGED"; "LIGHT_CTL_STATUS"; "LIGHT_CTL_TEMPERATURE_SET";
    "LIGHT_CTL_TEMPERATURE_SET_UNACKNOWLEDGED"; "LIGHT_CTL_TEMPERATURE_STATUS"; "HEALTH_CURRENT_STATUS";
    "HEALTH_FAULT_STATUS"; "SILVAIR_NDS"; "SILVAIR_NDS_SETUP"; "SCENE_RECALL"; "SCENE_RECALL_UNACKNOWLEDGED";
    "SCENE_STATUS"; "SCENE_REGISTER_STATUS"; "SENSOR_DESCRIPTOR_GET"; "SENSOR_DESCRIPTOR_STATUS"; "SENSOR_GET";
    "SENSOR_STATUS"; "SENSOR_SETTINGS_STATUS"; "SENSOR_SETTING_SET"; "SENSOR_SETTING_SET_UNACKNOWLEDGED";
    "SENSOR_SETTING_STATUS"; "SILVAIR_DEBUG_V2"; "SILVAIR_RRULE_SCHEDULER";
    "GENERIC_USER_PROPERTIES_STATUS"; "GENERIC_ADMIN_PROPERTIES_STATUS";
    "GENERIC_MANUFACTURER_PROPERTIES_STATUS"; "GENERIC_CLIENT_PROPERTIES_STATUS"; "SILVAIR_ELT"]%string.

Definition loc_opcode (c : con) (z : Z) : bool :=
  match find_case z (cases_of c) with Some (_, p) => loc p | None => true end.
Definition time_names : list string := ["TIME_SET"; "TIME_STATUS"]%string.
Lemma open_ended_dec : forall t c n z, family t c -> In (n, z) t -> ~ In n open_ended -> loc_opcode c z = true \/ In n time_names.
Proof.
  assert (H : forallb (fun p => forallb (fun q => loc_opcode (snd p) (snd q) || existsb (String.eqb (fst q)) (open_ended ++ time_names))
     (fst p)) access_table = true) by (vm_compute; reflexivity).
  rewrite forallb_forall in H. intros t c n z Hf Hin Hn. specialize (H _ Hf). cbn [fst snd] in H. rewrite forallb_forall in H.
  specialize (H _ Hin). cbn [fst snd] in H. apply orb_prop in H as [H|H]; [now left|]. right.
  apply existsb_exists in H as (x & Hx & E). apply String.eqb_eq in E. subst. apply in_app_iff in Hx as [Hx|Hx]; [now destruct Hn|exact Hx].
Qed.
(** the two messages with a time: the optional form is recognised by its first five octets, not by the length *)
Lemma time_case : forall t c n z, family t c -> In (n, z) t -> In n time_names -> exists m, find_case z (cases_of c) = Some (m, CAdapt ATime time_Time).
Proof.
  assert (H : flat_map (fun p => map (fun q => find_case (snd q) (cases_of (snd p))) (filter (fun q => existsb (String.eqb (fst q)) time_names) (fst p))) access_table
    = [Some ("TIME_SET"%string, CAdapt ATime time_Time); Some ("TIME_STATUS"%string, CAdapt ATime time_Time)]) by (vm_compute; reflexivity).
  intros t c n z Hf Hin Hn. assert (I : In (find_case z (cases_of c)) [Some ("TIME_SET"%string, CAdapt ATime time_Time); Some ("TIME_STATUS"%string, CAdapt ATime time_Time)]).
  { rewrite <- H. apply in_flat_map. exists (t, c). split; [exact Hf|]. apply in_map_iff. exists (n, z). split; [reflexivity|]. apply filter_In. split; [exact Hin|].
    apply existsb_exists. exists n. split; [exact Hn|apply String.eqb_refl]. }
  destruct I as [<- | [<- | []]]; eauto.
Qed.
Lemma time_local ctx s v rest : bytes s -> parse (CAdapt ATime time_Time) ctx s = Ok (v, rest) ->
  exists a, s = a ++ rest /\ forall r', bytes r' -> parse (CAdapt ATime time_Time) ctx (a ++ r') = Ok (v, r').
Proof.
  intros Hb H. change (parse (CAdapt ATime time_Time) ctx ?s) with (let* q := parse time_Time ctx s in let (v, r) := (q : val * list Z) in let* d := decode ATime v in Ok (d, r)) in *.
  set (opt := CNamed "optional" time_TimeOptional).
  assert (P : forall s, parse time_Time ctx s = match parse opt ctx s with Ok q => Ok q | Diverge => Diverge | Err _ => match parse (CNamed "minimal" time_TimeMinimal) ctx s with Err _ => Err EOther | q => q end end).
  { intros s'. unfold time_Time. fold opt. change (parse (CSelect ?l) ctx s') with (parse_alts l ctx s'). cbn [parse_alts].
    reflexivity. }
  bind_inv H. bind_inv H. injection H as <- <-. rewrite P in E.
  destruct (parse opt ctx s) as [[u r]|e|] eqn:Eo; [| |discriminate].
  - injection E as -> ->. destruct (parse_local opt _ _ _ _ eq_refl eq_refl Hb Eo) as (a & -> & Ha). exists a. split; [reflexivity|].
    intros r' Hr. rewrite P, Ha by exact Hr. cbn [bind]. rewrite E0. reflexivity.
  - exfalso. unfold opt in Eo.
    change (parse (CNamed ?n ?c) ctx ?s) with (let* q := parse c ctx s in let (v, r) := (q : val * list Z) in
      match v with VDict d => Ok (VDict (dset "_name" (VStr (cps n)) d), r) | _ => Err EOther end) in *.
    unfold time_TimeOptional, time_TimeMinimal in *.
    change (parse (CStruct ?f) ctx ?s) with (let* q := parse_fields f [] s in let (d, r) := (q : dict * list Z) in Ok (VDict d, r)) in *.
    cbn [parse_fields] in *. change (parse (CBytesInt 5 true) [] s) with (let* q := take 5 s in let (a, r) := (q : list Z * list Z) in Ok (VInt (of_le a), r)) in *.
    destruct (take 5 s) as [[a r]|e'|]; cbn [bind] in E, Eo; try discriminate. change (Ok (VDict [("tai_seconds", VInt (of_le a)); ("_name", VStr (cps "minimal"))]%string, r) = Ok (v0, l)) in E. injection E as <- <-.
    unfold dgetr in Eo. cbn [dget dset String.eqb Ascii.eqb Bool.eqb bind num_of] in Eo. unfold Qzero in Eo. cbn [inject_Z Qnum] in Eo.
    cbn [decode time_decode] in E0. unfold geti, dgetr in E0. cbn [dset dget String.eqb Ascii.eqb Bool.eqb bind] in E0. change (as_intr (VInt ?z)) with (Ok z) in E0. cbn [bind] in E0.
    destruct (of_le a =? 0); discriminate.
Qed.
Lemma parse_case_find z cs ctx s : parse_case z cs ctx s = match find_case z cs with Some (_, p) => parse p ctx s | None => Ok (VNone, s) end.
Proof. induction cs as [|n w c cs IH]; cbn [parse_case find_case]; [reflexivity|]. destruct (z =? w); auto. Qed.

Lemma family_local t c n z s v r : family t c -> member t n z -> ~ In n open_ended -> bytes s ->
  opcode_parse s = Ok (z, r) -> forall rest, parse c [] s = Ok (v, rest) ->
  exists a, s = a ++ rest /\ forall r', bytes r' -> parse c [] (a ++ r') = Ok (v, r').
Proof.
  intros Hf Hm Hn Hb Ho rest H. pose proof (open_ended_dec t c n z Hf (member_in _ _ _ Hm) Hn) as L.
  pose proof (access_wf _ _ Hf) as W.
  assert (Lc : forall m p, find_case z (cases_of c) = Some (m, p) -> wf false p = true -> forall ctx s' v' rest', bytes s' -> parse p ctx s' = Ok (v', rest') ->
    exists a, s' = a ++ rest' /\ forall r', bytes r' -> parse p ctx (a ++ r') = Ok (v', r')).
  { intros m p Ef Wp ctx s' v' rest' Hb' H'. destruct L as [L|L].
    - unfold loc_opcode in L. rewrite Ef in L. exact (parse_local p _ _ _ _ Wp L Hb' H').
    - destruct (time_case _ _ _ _ Hf (member_in _ _ _ Hm) L) as (m' & E). rewrite E in Ef. injection Ef as <- <-. exact (time_local _ _ _ _ Hb' H'). }
  destruct (access_shape t c Hf) as (cs & ->). cbn [wf] in W. cbn [cases_of] in Lc.
  apply andb_prop in W as [_ Wk].
  destruct (opcode_parse_bytes _ _ _ Hb Ho) as (o & -> & Hob). apply Forall_app in Hb as [Hb1 Hb2].
  cbn [parse] in H. rewrite Ho in H. cbn [bind] in H. rewrite (member_by_value _ _ _ Hm) in H. cbn [bind] in H.
  rewrite parse_case_find in H. destruct (find_case z cs) as [[m p]|] eqn:Ef.
  - bind_inv H. injection H as <- <-. pose proof (wf_find_case _ _ _ _ _ Wk Ef) as Wp.
    destruct (Lc _ _ eq_refl Wp _ _ _ _ Hb2 E) as (a & -> & Ha). exists (o ++ a). split; [now rewrite app_assoc|].
    intros r' Hr'. cbn [parse]. rewrite <- app_assoc, (opcode_bytes_parse _ _ _ Hob). cbn [bind].
    rewrite (member_by_value _ _ _ Hm). cbn [bind]. rewrite parse_case_find, Ef, Ha by auto. reflexivity.
  - cbn [bind] in H. injection H as <- <-. exists o. split; [reflexivity|]. intros r' Hr'. cbn [parse].
    rewrite (opcode_bytes_parse _ _ _ Hob). cbn [bind]. rewrite (member_by_value _ _ _ Hm). cbn [bind]. rewrite parse_case_find, Ef. reflexivity.
Qed.

(** ** C06: for a message without an open-ended tail, what was read and how much
    was read is the same whatever follows.  ([parse c [] s = Ok (v, rest)]: the
    value, and the bytes left in the stream.) *)
Theorem C06_parsing_is_local : forall t c n z o s v rest, family t c -> member t n z -> opcode_bytes z o ->
  ~ In n open_ended -> bytes s -> parse c [] (o ++ s) = Ok (v, rest) ->
  exists p, s = p ++ rest /\ forall rest', bytes rest' -> parse c [] (o ++ p ++ rest') = Ok (v, rest').
Proof.
  intros t c n z o s v rest Hf Hm Ho Hn Hs H.
  assert (Hb : bytes (o ++ s)) by (apply Forall_app; split; [exact (opcode_bytes_bytes _ _ Ho) | exact Hs]).
  destruct (family_local t c n z (o ++ s) v s Hf Hm Hn Hb (opcode_bytes_parse _ _ _ Ho) rest H) as (a & Ea & Ha).
  destruct (access_shape t c Hf) as (cs & Ec). pose proof H as H'. rewrite Ec in H'. cbn [parse] in H'.
  rewrite (opcode_bytes_parse _ _ _ Ho) in H'. cbn [bind] in H'. rewrite (member_by_value _ _ _ Hm) in H'. cbn [bind] in H'.
  bind_inv H'. injection H' as _ <-.
  assert (Hl : (length l <= length s)%nat).
  { rewrite parse_case_find in E. destruct (find_case z cs) as [[m p]|]; [apply parse_len in E; lia | injection E as _ <-; lia]. }
  assert (Hla : (length o <= length a)%nat) by (apply (f_equal (@length _)) in Ea; rewrite !app_length in Ea; lia).
  exists (skipn (length o) a). assert (Eo : a = o ++ skipn (length o) a).
  { rewrite <- (firstn_skipn (length o) a) at 1. f_equal. apply (f_equal (firstn (length o))) in Ea.
    rewrite !firstn_app, Nat.sub_diag, firstn_all in Ea. replace (length o - length a)%nat with 0%nat in Ea by lia.
    simpl in Ea. rewrite !app_nil_r in Ea. congruence. }
  split.
  - apply (app_inv_head o). rewrite app_assoc, <- Eo. exact Ea.
  - intros rest' Hr. rewrite app_assoc, <- Eo. auto.
Qed.
Print Assumptions C06_parsing_is_local.
(** in particular AccessMessage.parse ignores what follows such a message *)
Theorem C06_access_trailing_bytes : forall t c n z o s v rest', family t c -> member t n z -> opcode_bytes z o ->
  ~ In n open_ended -> bytes s -> bytes rest' -> access_parse (o ++ s) = Ok v -> access_parse (o ++ s ++ rest') = Ok v.
Proof.
  intros t c n z o s v rest' Hf Hm Ho Hn Hs Hr H.
  rewrite (access_parse_family t c n z o s Hf Hm Ho) in H. rewrite (access_parse_family t c n z o (s ++ rest') Hf Hm Ho). unfold parse_msg in *.
  destruct (parse c [] (o ++ s)) as [[u rest]|e|] eqn:E; try discriminate. cbn [bind] in H. injection H as ->.
  destruct (C06_parsing_is_local t c n z o s v rest Hf Hm Ho Hn Hs E) as (p & -> & Hp).
  rewrite <- app_assoc, Hp by (apply Forall_app; split; [apply Forall_app in Hs; tauto | exact Hr]). reflexivity.
Qed.
Print Assumptions C06_access_trailing_bytes.
Example C06_ex : family config_ConfigOpcode config_ConfigMessage /\ member config_ConfigOpcode "CONFIG_HEARBEAT_PUBLICATION_SET" 0x8039
  /\ ~ In "CONFIG_HEARBEAT_PUBLICATION_SET"%string open_ended
  /\ is_ok (access_parse [0x80; 0x39; 1; 0; 2; 3; 4; 0; 0; 5; 0]) = true.
Proof. split; [left; reflexivity|]. split; [memb|]. split; [notin|]. vm_compute. reflexivity. Qed.

(** ** C46: truncated messages are rejected *)
Theorem C46_truncation_parse : forall t c n z o s v q x, family t c -> member t n z -> opcode_bytes z o ->
  ~ In n open_ended -> bytes s -> parse c [] (o ++ s) = Ok (v, []) ->
  o ++ s = q ++ x -> x <> [] -> exists e, access_parse q = Err e.
Proof.
  intros t c n z o s v q x Hf Hm Ho Hn Hs H E Hx. destruct (access_parse q) as [u|e|] eqn:Eq; [|eauto|now apply access_parse_terminates in Eq].
  exfalso. assert (Hb : bytes (q ++ x)) by (rewrite <- E; apply Forall_app; split; [exact (opcode_bytes_bytes _ _ Ho) | exact Hs]).
  apply Forall_app in Hb as [Hq Hxb].
  unfold access_parse, access_parse_at in Eq. apply bind_ok in Eq as ((z' & rq) & Eo & Eq).
  destruct (opcode_parse_bytes _ _ _ Hq Eo) as (o' & -> & Ho').
  assert (z = z' /\ o = o' /\ s = rq ++ x) as (<- & <- & ->).
  { rewrite <- app_assoc in E. apply (opcode_prefix_free _ _ _ _ _ _ Ho Ho' E). }
  assert (access_lookup z = Some (VEnum n z, c)) as El by (apply access_lookup_spec; eauto). rewrite El in Eq. cbn [app] in Eq.
  unfold parse_msg in Eq. destruct (parse c [] (o ++ rq)) as [[u' rest]|e|] eqn:Ep; try discriminate.
  apply Forall_app in Hs as [Hs1 Hs2].
  destruct (C06_parsing_is_local t c n z o rq u' rest Hf Hm Ho Hn Hs1 Ep) as (p & -> & Hp).
  rewrite <- app_assoc in H. apply Forall_app in Hs1 as [_ Hs1]. rewrite Hp in H by (apply Forall_app; auto).
  injection H as _ H. apply app_eq_nil in H as [_ H]. auto.
Qed.
Print Assumptions C46_truncation_parse.
(** no proper prefix of what is built from a well-formed message is accepted *)
Theorem C46_truncation : forall t c n z d op v' s q x, family t c -> member t n z -> ~ In n open_ended ->
  dget "opcode" d = Some op -> as_int op = Some z -> message A_spec c (VDict d) v' ->
  access_build (VDict d) = Ok s -> s = q ++ x -> x <> [] -> exists e, access_parse q = Err e.
Proof.
  intros t c n z d op v' s q x Hf Hm Hn Hd Hop Hmsg Hb E Hx.
  rewrite (access_build_family t c n z d op Hf Hm Hd Hop) in Hb.
  destruct (proj1 (roundtrip_mut A_spec adapters_ok) c false false [] [] _ _ (access_wf _ _ Hf) Hmsg) as (s' & Hs' & Us & Ps).
  unfold build_msg in Hb. rewrite Hb in Hs'. injection Hs' as <-.
  destruct (Ps [] [] (units_nil _) ltac:(auto) eq_refl) as (u & Pu & _). rewrite app_nil_r in Pu.
  destruct (build_prefix t c n z d op s Hf Hm Hd Hop Hb) as (o & r & Es & Ho). subst s.
  rewrite Es in *. apply Forall_app in Us as [_ Ur].
  eapply (C46_truncation_parse t c n z o r u q x); eauto.
Qed.
Print Assumptions C46_truncation.
(** for the messages recognised by their length the claim is false: a long form cut
    by one byte is accepted as the short form and the remaining field is ignored *)
Theorem C46_optional_truncated_refuted : exists q u, access_parse (q ++ [50]) <> Ok u /\ access_parse q = Ok u
  /\ q = [0x82; 0x02; 1; 7; 84] /\ u = VDict [("opcode"%string, VEnum "GENERIC_ONOFF_SET" 0x8202);
    ("generic_onoff_set"%string, VDict [("onoff"%string, VInt 1); ("tid"%string, VInt 7); ("_name"%string, VStr (cps "minimal"))])].
Proof.
  exists [0x82; 0x02; 1; 7; 84]. eexists. split; [|split; [|split; [reflexivity|reflexivity]]].
  - vm_compute. discriminate.
  - vm_compute. reflexivity.
Qed.
Print Assumptions C46_optional_truncated_refuted.
