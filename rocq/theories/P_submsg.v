(** * Sub-messages of the vendor messages: locality and truncation (C06, C46).

    P_local.v leaves out the vendor opcodes that have at least one open-ended sub-message.  Here the other sub-messages
    of these opcodes. *)
From Verif Require Import PyVal Bits Adapters Construct Size Spec Master AdapterSpec AdapterProofs1 AdapterProofs4 Access AccessProofs Local P_access P_local P_layout P_params.
Open Scope Z_scope.

(** sub-messages with a tail of any length, or with an optional tail *)
Definition open_ended_subs : list string :=
  ["LAST_SW_FAULT_STATUS"; "SYSTEM_STATS_STATUS"; "LAST_MALLOC_FAULT_STATUS"; "LAST_FDS_FAULT_STATUS"; "FULL_FIRMWARE_VERSION_STATUS";
   "ARAP_LIST_SIZE_STATUS"; "ARAP_LIST_CONTENT_STATUS"; "GATEWAY_CONFIGURATION_SET"; "SUBSCRIPTION_STATUS"; "PUBLICATION_SET"; "PUBLICATION_STATUS";
   "ELT_FUNCTIONAL_TEST_STATUS"; "ELT_DURATION_TEST_STATUS"]%string.
Lemma sub_local_dec : forallb (fun p => match p with (n, z, sn, sz, c) => wf false c && (loc c || existsb (String.eqb sn) open_ended_subs) end) sub_params = true.
Proof. vm_compute. reflexivity. Qed.
Lemma sub_local n z sn sz c : In (n, z, sn, sz, c) sub_params -> ~ In sn open_ended_subs -> wf false c = true /\ loc c = true.
Proof.
  pose proof sub_local_dec as F. revert F. generalize sub_params. intros l F Hin Hn. rewrite forallb_forall in F. specialize (F _ Hin). cbv beta iota in F.
  apply andb_prop in F as [W L]. split; [exact W|]. apply orb_prop in L as [L|L]; [exact L|]. exfalso. apply Hn.
  apply existsb_exists in L as (x & Hx & E). apply String.eqb_eq in E. now subst.
Qed.

(** ** C06: what follows such a sub-message does not matter *)
Theorem C06_sub_message : forall n z sn sz c o s v rest', In (n, z, sn, sz, c) sub_params -> opcode_bytes z o -> ~ In sn open_ended_subs ->
  bytes s -> bytes rest' -> access_parse (o ++ sz :: s) = Ok v -> access_parse (o ++ sz :: s ++ rest') = Ok v.
Proof.
  intros n z sn sz c o s v rest' Hin Ho Hn Hs Hr. rewrite !(C49_submessage_parse _ _ _ _ _ _ _ Hin Ho). destruct (sub_local _ _ _ _ _ Hin Hn) as [W L].
  unfold parse_msg. destruct (parse c [] s) as [[u r]|e|] eqn:E; try discriminate. cbn [bind]. destruct (parse_local _ _ _ _ _ W L Hs E) as (a & -> & Ha).
  apply Forall_app in Hs as [_ Hs]. rewrite <- app_assoc, Ha by (apply Forall_app; auto). auto.
Qed.
(** ** C46: no proper prefix is accepted *)
Theorem C46_sub_truncation_parse : forall n z sn sz c o s v q x, In (n, z, sn, sz, c) sub_params -> opcode_bytes z o -> ~ In sn open_ended_subs ->
  bytes s -> parse c [] s = Ok (v, []) -> o ++ sz :: s = q ++ x -> x <> [] -> exists e, access_parse q = Err e.
Proof.
  intros n z sn sz c o s v q x Hin Ho Hn Hs H E Hx. destruct (sub_local _ _ _ _ _ Hin Hn) as [W L].
  destruct (sub_params_spec _ _ _ _ _ Hin) as (t & sw & cs & Hi & _ & _ & _ & Hz & _).
  destruct (access_parse q) as [u|e|] eqn:Eq; [|eauto|now apply access_parse_terminates in Eq]. exfalso.
  assert (Hb : bytes (q ++ x)) by (rewrite <- E; apply Forall_app; split; [exact (opcode_bytes_bytes _ _ Ho) | constructor; [exact Hz | exact Hs]]).
  apply Forall_app in Hb as [Hq Hxb]. pose proof Eq as Eq'. unfold access_parse, access_parse_at in Eq'. apply bind_ok in Eq' as ((z' & rq) & Eo & _).
  destruct (opcode_parse_bytes _ _ _ Hq Eo) as (o' & -> & Ho'). rewrite <- app_assoc in E.
  destruct (opcode_prefix_free _ _ _ _ _ _ Ho Ho' E) as (<- & <- & E1). destruct rq as [|b rq].
  - rewrite (C49_message_parse _ _ _ _ _ Hi Ho) in Eq. discriminate.
  - injection E1 as <- E1. rewrite (C49_submessage_parse _ _ _ _ _ _ _ Hin Ho) in Eq. unfold parse_msg in Eq.
    destruct (parse c [] rq) as [[w r]|e|] eqn:Ep; try discriminate. subst s. apply Forall_app in Hs as [Hs1 Hs2].
    destruct (parse_local _ _ _ _ _ W L Hs1 Ep) as (a & -> & Ha). apply Forall_app in Hs1 as [_ Hs1]. rewrite <- app_assoc, Ha in H by (apply Forall_app; auto).
    injection H as _ H. apply app_eq_nil in H as [_ H]. auto.
Qed.
Theorem C46_sub_truncation : forall n z sn sz c m op p sop x x' s q r, In (n, z, sn, sz, c) sub_params -> ~ In sn open_ended_subs ->
  dget "opcode" m = Some op -> as_int op = Some z -> dget (lower n) m = Some (VDict p) ->
  dget "subopcode" p = Some sop -> as_int sop = Some sz -> dget (lower sn) p = Some x -> message A_spec c x x' ->
  access_build (VDict m) = Ok s -> s = q ++ r -> r <> [] -> exists e, access_parse q = Err e.
Proof.
  intros n z sn sz c m op p sop x x' s q r Hin Hn Hop Hz Hp Hsop Hsz Hx Hm Hb E Hr. destruct (sub_local _ _ _ _ _ Hin Hn) as [W L].
  destruct (sub_params_spec _ _ _ _ _ Hin) as (t & sw & cs & Hi & _). destruct (params_family _ _ _ Hi) as (ft & fcs & Hf & Hfm & _).
  destruct (legal_opcode_bytes _ (family_legal _ _ _ _ Hf Hfm)) as (o & Ho).
  rewrite (C49_submessage_build _ _ _ _ _ _ _ _ _ _ _ Hin Ho Hop Hz Hp Hsop Hsz Hx) in Hb.
  destruct (proj1 (roundtrip_mut A_spec adapters_ok) c false false [] [] _ _ W Hm) as (s' & Hs' & Us & Ps).
  unfold build_msg in Hb. rewrite Hs' in Hb. cbn [bind] in Hb. injection Hb as <-.
  destruct (Ps [] [] (units_nil _) ltac:(auto) eq_refl) as (u & Pu & _). rewrite app_nil_r in Pu.
  eapply C46_sub_truncation_parse; eassumption.
Qed.
Example C46_sub_ex : ~ In "EL_STATE_STATUS"%string open_ended_subs /\ access_build (VDict [("opcode"%string, VInt 0xEA3601);
    ("silvair_el"%string, VDict [("subopcode"%string, VInt 5); ("el_state_status"%string, VDict [("el_state"%string, VInt 3)])])]) = Ok [0xEA; 0x36; 1; 5; 3] /\
  forallb (fun k => negb (is_ok (access_parse (firstn k [0xEA; 0x36; 1; 5; 3])))) [0; 1; 2; 3; 4]%nat = true.
Proof. split; [intros H; vm_compute in H; intuition discriminate|]. split; vm_compute; reflexivity. Qed.
Print Assumptions C06_sub_message.
Print Assumptions C46_sub_truncation.

Definition opb (z : Z) : list Z := if z <? 0x80 then [z] else if z <? 0x10000 then [z / 256; z mod 256] else [z / 65536; z / 256 mod 256; z mod 256].
Definition byteb (b : Z) : bool := (0 <=? b) && (b <? 256).
Lemma byteb_bytes l : forallb byteb l = true -> bytes l.
Proof.
  intros H. rewrite forallb_forall in H. apply Forall_forall. intros x Hx. specialize (H x Hx). unfold byteb in H. apply andb_prop in H as [A B].
  apply Z.leb_le in A. apply Z.ltb_lt in B. split; assumption.
Qed.
Lemma app_inj_tail_length (a b c d : list Z) : a ++ b = c ++ d -> length b = length d -> a = c /\ b = d.
Proof.
  intros E L. assert (La : length a = length c) by (apply (f_equal (@length Z)) in E; rewrite !app_length in E; lia).
  split; [|]; [apply (f_equal (firstn (length a))) in E | apply (f_equal (skipn (length a))) in E];
  rewrite ?firstn_app, ?skipn_app, La, ?firstn_all, ?skipn_all, Nat.sub_diag in E; cbn in E; rewrite ?app_nil_r in E.
  - rewrite <- E, <- La, firstn_all. reflexivity.
  - rewrite <- La, skipn_all in E. exact E.
Qed.
(** ** C46: the exceptions are real.  For every opcode and sub-opcode left out above there is a message that is read to its
    last octet and has a proper prefix that is accepted as well: (opcode, octets after the opcode, octets kept) *)
Definition cut_short : list (string * Z * list Z * nat) :=
  [("CONFIG_APPKEY_LIST", 0x8002, [1; 193; 193; 193; 193], 4%nat);
   ("CONFIG_COMPOSITION_DATA_STATUS", 0x2, [1; 1; 1; 1; 1; 1; 1], 6%nat);
   ("CONFIG_MODEL_APP_BIND", 0x803D, [0; 1; 1; 1; 1; 1; 1; 1], 7%nat);
   ("CONFIG_MODEL_APP_STATUS", 0x803E, [0; 1; 1; 1; 1; 1; 1; 1; 1], 8%nat);
   ("CONFIG_MODEL_APP_UNBIND", 0x803F, [0; 1; 1; 1; 1; 1; 1; 1], 7%nat);
   ("CONFIG_MODEL_PUBLICATION_GET", 0x8018, [0; 1; 1; 1; 1; 1], 5%nat);
   ("CONFIG_MODEL_PUBLICATION_SET", 0x3, [0; 1; 1; 1; 1; 1; 1; 1; 1; 1; 1; 1; 1], 12%nat);
   ("CONFIG_MODEL_PUBLICATION_STATUS", 0x8019, [0; 1; 1; 1; 1; 1; 1; 1; 1; 1; 1; 1; 1; 1], 13%nat);
   ("CONFIG_MODEL_PUBLICATION_VIRTUAL_ADDRESS_SET", 0x801A, [0; 1; 1; 1; 1; 1; 1; 1; 1; 1; 1; 1; 1; 1; 1; 1; 1; 1; 1; 1; 1; 1; 1; 1; 1; 1; 1], 26%nat);
   ("CONFIG_MODEL_SUBSCRIPTION_ADD", 0x801B, [1; 0; 193; 193; 1; 1; 1; 1], 7%nat);
   ("CONFIG_MODEL_SUBSCRIPTION_DELETE", 0x801C, [1; 0; 193; 193; 1; 1; 1; 1], 7%nat);
   ("CONFIG_MODEL_SUBSCRIPTION_DELETE_ALL", 0x801D, [0; 1; 1; 1; 1; 1], 5%nat);
   ("CONFIG_MODEL_SUBSCRIPTION_OVERWRITE", 0x801E, [1; 0; 193; 193; 1; 1; 1; 1], 7%nat);
   ("CONFIG_MODEL_SUBSCRIPTION_STATUS", 0x801F, [0; 1; 0; 193; 193; 1; 1; 1; 1], 8%nat);
   ("CONFIG_MODEL_SUBSCRIPTION_VIRTUAL_ADDRESS_ADD", 0x8020, [0; 1; 1; 1; 1; 1; 1; 1; 1; 1; 1; 1; 1; 1; 1; 1; 1; 1; 1; 1; 1; 1], 21%nat);
   ("CONFIG_MODEL_SUBSCRIPTION_VIRTUAL_ADDRESS_DELETE", 0x8021, [0; 1; 1; 1; 1; 1; 1; 1; 1; 1; 1; 1; 1; 1; 1; 1; 1; 1; 1; 1; 1; 1], 21%nat);
   ("CONFIG_MODEL_SUBSCRIPTION_VIRTUAL_ADDRESS_OVERWRITE", 0x8022, [0; 1; 1; 1; 1; 1; 1; 1; 1; 1; 1; 1; 1; 1; 1; 1; 1; 1; 1; 1; 1; 1], 21%nat);
   ("CONFIG_NETKEY_LIST", 0x8043, [193; 193], 1%nat);
   ("CONFIG_SIG_MODEL_APP_LIST", 0x804C, [0; 1; 1; 1; 1; 1; 1], 6%nat);
   ("CONFIG_SIG_MODEL_SUBSCRIPTION_LIST", 0x802A, [0; 1; 1; 1; 1; 1; 1], 6%nat);
   ("CONFIG_VENDOR_MODEL_APP_LIST", 0x804E, [0; 1; 1; 1; 1; 1; 1; 1; 1], 8%nat);
   ("CONFIG_VENDOR_MODEL_SUBSCRIPTION_LIST", 0x802C, [0; 1; 1; 1; 1; 1; 1; 1; 1], 8%nat);
   ("SILVAIR_DEBUG", 0xF53601, [14; 0; 1; 1; 1; 1], 5%nat);
   ("SILVAIR_GATEWAY", 0xF03601, [1; 1; 1; 1; 1; 1; 1; 1; 1; 1; 1; 1; 1; 1; 1; 1; 1; 1; 1], 18%nat);
   ("GENERIC_ONOFF_SET", 0x8202, [193; 193; 193; 193], 3%nat);
   ("GENERIC_ONOFF_SET_UNACKNOWLEDGED", 0x8203, [193; 193; 193; 193], 3%nat);
   ("GENERIC_ONOFF_STATUS", 0x8204, [193; 193; 193], 2%nat);
   ("GENERIC_LEVEL_SET", 0x8206, [193; 193; 193; 193; 193], 4%nat);
   ("GENERIC_LEVEL_SET_UNACKNOWLEDGED", 0x8207, [193; 193; 193; 193; 193], 4%nat);
   ("GENERIC_LEVEL_STATUS", 0x8208, [193; 193; 193; 193; 193], 4%nat);
   ("GENERIC_DELTA_SET", 0x8209, [193; 193; 193; 193; 193; 193; 193], 6%nat);
   ("GENERIC_DELTA_SET_UNACKNOWLEDGED", 0x820A, [193; 193; 193; 193; 193; 193; 193], 6%nat);
   ("GENERIC_MOVE_SET", 0x820B, [193; 193; 193; 193; 193], 4%nat);
   ("GENERIC_MOVE_SET_UNACKNOWLEDGED", 0x820C, [193; 193; 193; 193; 193], 4%nat);
   ("LIGHT_LIGHTNESS_SET", 0x824C, [193; 193; 193; 193; 193], 4%nat);
   ("LIGHT_LIGHTNESS_SET_UNACKNOWLEDGED", 0x824D, [193; 193; 193; 193; 193], 4%nat);
   ("LIGHT_LIGHTNESS_STATUS", 0x824E, [193; 193; 193; 193; 193], 4%nat);
   ("LIGHT_LIGHTNESS_LINEAR_SET", 0x8250, [193; 193; 193; 193; 193], 4%nat);
   ("LIGHT_LIGHTNESS_LINEAR_SET_UNACKNOWLEDGED", 0x8251, [193; 193; 193; 193; 193], 4%nat);
   ("LIGHT_LIGHTNESS_LINEAR_STATUS", 0x8252, [193; 193; 193; 193; 193], 4%nat);
   ("LIGHT_CTL_SET", 0x825E, [193; 193; 193; 193; 193; 193; 193; 193; 193], 8%nat);
   ("LIGHT_CTL_SET_UNACKNOWLEDGED", 0x825F, [193; 193; 193; 193; 193; 193; 193; 193; 193], 8%nat);
   ("LIGHT_CTL_STATUS", 0x8260, [193; 193; 193; 193; 193; 193; 193; 193; 193], 8%nat);
   ("LIGHT_CTL_TEMPERATURE_SET", 0x8264, [193; 193; 193; 193; 193; 193; 193], 6%nat);
   ("LIGHT_CTL_TEMPERATURE_SET_UNACKNOWLEDGED", 0x8265, [193; 193; 193; 193; 193; 193; 193], 6%nat);
   ("LIGHT_CTL_TEMPERATURE_STATUS", 0x8266, [193; 193; 193; 193; 193; 193; 193; 193; 193], 8%nat);
   ("HEALTH_CURRENT_STATUS", 0x4, [193; 193; 193; 193], 3%nat);
   ("HEALTH_FAULT_STATUS", 0x5, [193; 193; 193; 193], 3%nat);
   ("SILVAIR_NDS", 0xFC3601, [3; 0; 1; 1; 1; 1; 1; 1; 1; 1; 1; 1], 11%nat);
   ("SILVAIR_NDS_SETUP", 0xFD3601, [2; 0; 0; 0; 0; 0; 0; 0; 0; 0; 0], 10%nat);
   ("SCENE_RECALL", 0x8242, [193; 193; 193; 193; 193], 4%nat);
   ("SCENE_RECALL_UNACKNOWLEDGED", 0x8243, [193; 193; 193; 193; 193], 4%nat);
   ("SCENE_STATUS", 0x5E, [1; 193; 193; 193; 193; 193], 5%nat);
   ("SCENE_REGISTER_STATUS", 0x8245, [1; 193; 193; 193; 193], 4%nat);
   ("SENSOR_DESCRIPTOR_GET", 0x8230, [193; 193], 1%nat);
   ("SENSOR_DESCRIPTOR_STATUS", 0x51, [193; 193], 1%nat);
   ("SENSOR_GET", 0x8231, [193; 193], 1%nat);
   ("SENSOR_STATUS", 0x52, [2; 0], 1%nat);
   ("SENSOR_SETTINGS_STATUS", 0x58, [193; 193; 193; 193], 3%nat);
   ("SENSOR_SETTING_SET", 0x59, [193; 193; 193; 193; 193], 4%nat);
   ("SENSOR_SETTING_SET_UNACKNOWLEDGED", 0x5A, [193; 193; 193; 193; 193], 4%nat);
   ("SENSOR_SETTING_STATUS", 0x5B, [193; 193; 193; 193; 193; 193], 5%nat);
   ("SILVAIR_DEBUG_V2", 0xEB3601, [2; 0; 0; 0; 0], 4%nat);
   ("SILVAIR_RRULE_SCHEDULER", 0xE83601, [1; 1], 1%nat);
   ("GENERIC_USER_PROPERTIES_STATUS", 0x4B, [193; 193], 1%nat);
   ("GENERIC_ADMIN_PROPERTIES_STATUS", 0x47, [193; 193], 1%nat);
   ("GENERIC_MANUFACTURER_PROPERTIES_STATUS", 0x43, [193; 193], 1%nat);
   ("GENERIC_CLIENT_PROPERTIES_STATUS", 0x50, [193; 193], 1%nat);
   ("SILVAIR_ELT", 0xE93601, [3; 0; 1; 1; 1; 1; 1; 1; 1; 1; 1; 1; 1; 1; 1], 14%nat)]%string.
Definition cut_ok (p : string * Z * list Z * nat) : bool :=
  match p with (n, z, s, k) =>
    let o := opb z in
    match access_lookup z with
    | Some (VEnum n' z', c) => String.eqb n' n && (z' =? z) && forallb byteb (o ++ s) && (k <? length s)%nat
        && match opcode_parse (o ++ s) with Ok (z', r) => (z' =? z) && (length r =? length s)%nat | _ => false end
        && match parse c [] (o ++ s) with Ok (_, []) => true | _ => false end && is_ok (access_parse (o ++ firstn k s))
    | _ => false
    end
  end.
Lemma cut_short_ok : forallb cut_ok cut_short = true.
Proof. vm_compute. reflexivity. Qed.
Lemma cut_short_complete : map (fun p => match p with (n, _, _, _) => n end) cut_short = open_ended.
Proof. reflexivity. Qed.
Theorem C46_exceptions_are_real : forall n, In n open_ended -> exists t c z o s v q x u, family t c /\ member t n z /\ opcode_bytes z o /\
  bytes s /\ parse c [] (o ++ s) = Ok (v, []) /\ o ++ s = q ++ x /\ x <> [] /\ access_parse q = Ok u.
Proof.
  intros n Hn. rewrite <- cut_short_complete in Hn. apply in_map_iff in Hn as ([[[n' z] s] k] & <- & Hin).
  pose proof cut_short_ok as F. rewrite forallb_forall in F. specialize (F _ Hin). clear Hin. unfold cut_ok in F.
  destruct (access_lookup z) as [[m c]|] eqn:El; [|discriminate]. destruct m; try discriminate.
  repeat (apply andb_prop in F as [F ?H]). apply String.eqb_eq in F. apply Z.eqb_eq in H4. subst.
  apply access_lookup_spec in El as (t & n2 & Hf & Hm & E). injection E as <-.
  assert (Hb : bytes (opb z ++ s)) by (apply byteb_bytes; assumption).
  destruct (opcode_parse (opb z ++ s)) as [[z' r]|e|] eqn:Eo; try discriminate. apply andb_prop in H1 as [Hz Hl]. apply Z.eqb_eq in Hz. subst z'. apply Nat.eqb_eq in Hl.
  destruct (opcode_parse_bytes _ _ _ Hb Eo) as (o & Eq & Ho).
  symmetry in Eq. destruct (app_inj_tail_length _ _ _ _ Eq Hl) as [-> ->].
  destruct (parse c [] (opb z ++ s)) as [[v [|]]|e|] eqn:Ep; try discriminate.
  destruct (access_parse (opb z ++ firstn k s)) as [u|e|] eqn:Eu; try discriminate.
  exists t, c, z, (opb z), s, v, (opb z ++ firstn k s), (skipn k s), u. apply Forall_app in Hb as [_ Hb]. apply Nat.ltb_lt in H2.
  repeat split; try assumption.
  - now rewrite <- app_assoc, firstn_skipn.
  - intros E. apply (f_equal (@length Z)) in E. rewrite skipn_length in E. cbn in E. lia.
Qed.
Print Assumptions C46_exceptions_are_real.
Definition cut_short_subs : list (string * Z * list Z * nat) :=
  [("LAST_SW_FAULT_STATUS", 0xF53601, [0; 1; 1; 1; 1], 4%nat);
   ("SYSTEM_STATS_STATUS", 0xF53601, [0; 1; 1; 1; 1; 1; 1; 1; 1; 1; 1; 1; 1; 1], 13%nat);
   ("LAST_MALLOC_FAULT_STATUS", 0xF53601, [0; 1; 1; 1; 1], 4%nat);
   ("LAST_FDS_FAULT_STATUS", 0xF53601, [0; 1; 1; 1; 1], 4%nat);
   ("FULL_FIRMWARE_VERSION_STATUS", 0xF53601, [0], 0%nat);
   ("ARAP_LIST_SIZE_STATUS", 0xF53601, [193; 193; 193; 193], 3%nat);
   ("ARAP_LIST_CONTENT_STATUS", 0xF53601, [193; 193; 193; 193; 193; 193; 193], 6%nat);
   ("GATEWAY_CONFIGURATION_SET", 0xF03601, [2; 0; 0; 0; 0; 0; 0; 0; 0; 0; 0; 0; 0; 0; 0; 0; 0], 16%nat);
   ("SUBSCRIPTION_STATUS", 0xFC3601, [0; 1; 1; 1; 1; 1; 1; 1; 1; 1; 1], 10%nat);
   ("PUBLICATION_SET", 0xFD3601, [2; 0; 0; 0; 0; 0; 0; 0; 0; 0], 9%nat);
   ("PUBLICATION_STATUS", 0xFD3601, [2; 0; 0; 0; 0; 0; 0; 0; 0; 0], 9%nat);
   ("ELT_FUNCTIONAL_TEST_STATUS", 0xE93601, [0; 1; 1; 1; 1; 1; 1; 1; 1; 1; 1; 1; 1; 1], 13%nat);
   ("ELT_DURATION_TEST_STATUS", 0xE93601, [0; 1; 1; 1; 1; 1; 1; 1; 1; 1; 1; 1; 1; 1; 1; 1], 15%nat)]%string.
Definition sub_of (sn : string) := find (fun p => match p with (_, _, sn', _, _) => String.eqb sn' sn end) sub_params.
Definition cut_sub_ok (p : string * Z * list Z * nat) : bool :=
  match p with (sn, z, s, k) =>
    match sub_of sn with
    | Some (n, z', sn', sz, c) => (z' =? z) && String.eqb sn' sn && forallb byteb (opb z ++ s) && (k <? length s)%nat
        && match opcode_parse (opb z ++ s) with Ok (z', r) => (z' =? z) && (length r =? length s)%nat | _ => false end
        && match parse c [] s with Ok (_, []) => true | _ => false end && is_ok (access_parse (opb z ++ sz :: firstn k s))
    | None => false
    end
  end.
Lemma cut_short_subs_ok : forallb cut_sub_ok cut_short_subs = true.
Proof. vm_compute. reflexivity. Qed.
Lemma cut_short_subs_complete : map (fun p => match p with (n, _, _, _) => n end) cut_short_subs = open_ended_subs.
Proof. reflexivity. Qed.
Theorem C46_sub_exceptions_are_real : forall sn, In sn open_ended_subs -> exists n z sz c o s v q x u, In (n, z, sn, sz, c) sub_params /\ opcode_bytes z o /\
  bytes s /\ parse c [] s = Ok (v, []) /\ o ++ sz :: s = q ++ x /\ x <> [] /\ access_parse q = Ok u.
Proof.
  intros sn Hn. rewrite <- cut_short_subs_complete in Hn. apply in_map_iff in Hn as ([[[sn' z] s] k] & <- & Hin).
  pose proof cut_short_subs_ok as F. rewrite forallb_forall in F. specialize (F _ Hin). clear Hin. unfold cut_sub_ok in F.
  destruct (sub_of sn') as [[[[[n z'] sn2] sz] c]|] eqn:El; [|discriminate].
  repeat (apply andb_prop in F as [F ?H]). apply Z.eqb_eq in F. apply String.eqb_eq in H4. subst.
  unfold sub_of in El. apply find_some in El as [Hin _].
  assert (Hb : bytes (opb z ++ s)) by (apply byteb_bytes; assumption).
  destruct (opcode_parse (opb z ++ s)) as [[z' r]|e|] eqn:Eo; try discriminate. apply andb_prop in H1 as [Hz Hl]. apply Z.eqb_eq in Hz. subst z'. apply Nat.eqb_eq in Hl.
  destruct (opcode_parse_bytes _ _ _ Hb Eo) as (o & Eq & Ho). symmetry in Eq. destruct (app_inj_tail_length _ _ _ _ Eq Hl) as [-> ->].
  destruct (parse c [] s) as [[v [|]]|e|] eqn:Ep; try discriminate.
  destruct (access_parse (opb z ++ sz :: firstn k s)) as [u|e|] eqn:Eu; try discriminate.
  exists n, z, sz, c, (opb z), s, v, (opb z ++ sz :: firstn k s), (skipn k s), u. apply Forall_app in Hb as [_ Hb]. apply Nat.ltb_lt in H2.
  split; [exact Hin|]. split; [exact Ho|]. split; [exact Hb|]. split; [exact Ep|]. split; [now rewrite <- app_assoc, <- app_comm_cons, firstn_skipn|]. split; [|exact Eu].
  intros E. apply (f_equal (@length Z)) in E. rewrite skipn_length in E. cbn in E. lia.
Qed.
Print Assumptions C46_sub_exceptions_are_real.
