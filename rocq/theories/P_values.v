(** * P_values: the values of device properties have the documented format (C58). *)
From Coq Require Import QArith Qabs Lia.
From Verif Require Import PyVal Bits Utf8 Adapters Construct Size Spec Master Access AccessProofs Codes Grammar GrammarProofs GrammarAccept
  AdapterProofs1 G_properties G_sensor P_layout P_params P_sensor P_property P_grammar PropValues PropTables.
Local Open Scope list_scope.
Local Open Scope Z_scope.

Lemma received_part c f s v r : form c f -> bytes s -> parse c [] s = Ok (v, r) -> exists p, s = p ++ r /\ enc false f v p.
Proof. intros Hf B E. exact (proj1 receives_all _ _ Hf _ _ _ _ B E). Qed.
Lemma accepted_all c f b v s : form c f -> tail f = true -> bytes s -> enc b f v s -> exists v', parse c [] s = Ok (v', []) /\ enc false f v' s.
Proof.
  intros Hf Ht B He. destruct (proj2 (proj1 accepts_all _ _ Hf) Ht b [] v s B He) as (v' & E & _). exists v'. split; [exact E|].
  destruct (received_part _ _ _ _ _ Hf B E) as (p & Ep & Hp). rewrite app_nil_r in Ep. now subst.
Qed.
Lemma carriers_prod : forallb (fun r => forallb (fun q => prod (snd q)) (snd r)) carriers = true.
Proof. vm_cast_no_check (@eq_refl bool true). Qed.
Lemma value_ends c acc ps n z ct s : In (c, acc, ps) carriers -> In (n, z, ct) ps -> parse ct [] s <> Diverge.
Proof. intros Hc Hn. apply parse_nodiv. exact (proj1 (forallb_forall _ _) (proj1 (forallb_forall _ _) carriers_prod _ Hc) _ Hn). Qed.

(** ** Property messages *)
(** Sent: the identifier, the octet with the access rights where there is one, and the value in the format of the property. *)
Theorem C58_sent : forall n z acc g pn pz f o m op d idv h v s, In (n, z, acc, g) property_messages -> In (pn, pz, f) g -> opcode_bytes z o ->
  dget "opcode" m = Some op -> as_int op = Some z -> dget (lower n) m = Some (VDict d) ->
  dget "property_id" d = Some idv -> as_int idv = Some pz -> access_octet acc d h -> dget (lower pn) d = Some v -> enc true f v s ->
  access_build (VDict m) = Ok (o ++ to_le 2 pz ++ h ++ s).
Proof.
  intros n z acc g pn pz f o m op d idv h v s Hg Hp Ho Hop Hz Hd Hid Hi Ha Hv He. destruct (p_row _ _ _ _ Hg) as (c & ps & Hc & Hk & T & _).
  destruct (agree_right _ _ _ _ _ T Hp) as (ct & Hct & Hf). rewrite (C49_message_build _ _ _ _ _ _ _ Hc Ho Hop Hz Hd).
  rewrite (C43_sent _ _ _ _ _ _ _ _ _ _ _ Hk Hct Hid Hi Ha Hv (proj1 sends_all _ _ Hf [] _ _ He)). reflexivity.
Qed.
(** Received: the value and the octets it was read from follow the format (octets may be left over at the end). *)
Theorem C58_received : forall n z acc g pn pz f o h e s u, In (n, z, acc, g) property_messages -> In (pn, pz, f) g -> opcode_bytes z o -> access_entry acc h e -> bytes s ->
  access_parse (o ++ to_le 2 pz ++ h ++ s) = Ok u ->
  exists v p r, s = p ++ r /\ enc false f v p /\ u = VDict [("opcode"%string, VEnum n z); (lower n, VDict (e ++ [("property_id"%string, VEnum pn pz); (lower pn, v)]))].
Proof.
  intros n z acc g pn pz f o h e s u Hg Hp Ho Ha B H. destruct (p_row _ _ _ _ Hg) as (c & ps & Hc & Hk & T & _).
  destruct (agree_right _ _ _ _ _ T Hp) as (ct & Hct & Hf). rewrite (C49_message_parse _ _ _ _ _ Hc Ho) in H. apply bind_ok in H as (w & E & H). injection H as <-.
  destruct (parse ct [] s) as [[v r]|er|] eqn:P.
  - unfold parse_msg in E. rewrite (C43_received _ _ _ _ _ _ _ _ _ _ _ Hk Hct Ha P) in E. injection E as <-. destruct (received_part _ _ _ _ _ Hf B P) as (p & -> & Hq). eauto 6.
  - destruct (C43_received_bad_value_rejected _ _ _ _ _ _ _ _ _ _ Hk Hct Ha P) as (er' & E'). congruence.
  - elim (value_ends _ _ _ _ _ _ _ Hk Hct P).
Qed.
(** Everything in the format is accepted. *)
Theorem C58_accepted : forall n z acc g pn pz f o h e b v s, In (n, z, acc, g) property_messages -> In (pn, pz, f) g -> opcode_bytes z o -> access_entry acc h e -> bytes s -> enc b f v s ->
  exists v', enc false f v' s /\
    access_parse (o ++ to_le 2 pz ++ h ++ s) = Ok (VDict [("opcode"%string, VEnum n z); (lower n, VDict (e ++ [("property_id"%string, VEnum pn pz); (lower pn, v')]))]).
Proof.
  intros n z acc g pn pz f o h e b v s Hg Hp Ho Ha B He. destruct (p_row _ _ _ _ Hg) as (c & ps & Hc & Hk & T & C).
  destruct (agree_right _ _ _ _ _ T Hp) as (ct & Hct & Hf). pose proof (proj1 (forallb_forall _ _) C _ Hp) as Ht. cbn [snd] in Ht.
  destruct (accepted_all _ _ _ _ _ Hf Ht B He) as (v' & P & He'). exists v'. split; [exact He'|]. rewrite (C49_message_parse _ _ _ _ _ Hc Ho). unfold parse_msg.
  rewrite (C43_received _ _ _ _ _ _ _ _ _ _ _ Hk Hct Ha P). reflexivity.
Qed.
(** An identifier that is not in the table is refused both ways. *)
Theorem C58_unknown_rejected : forall n z acc g pz o m op d idv s, In (n, z, acc, g) property_messages -> (forall pn f, ~ In (pn, pz, f) g) -> opcode_bytes z o -> 
  (dget "opcode" m = Some op -> as_int op = Some z -> dget (lower n) m = Some (VDict d) -> dget "property_id" d = Some idv -> as_int idv = Some pz -> exists e, access_build (VDict m) = Err e) /\
  (0 <= pz < 65536 -> exists e, access_parse (o ++ to_le 2 pz ++ s) = Err e).
Proof.
  intros n z acc g pz o m op d idv s Hg N Ho. destruct (p_row _ _ _ _ Hg) as (c & ps & Hc & Hk & T & _). pose proof (agree_none _ _ _ T N) as N'. split.
  - intros Hop Hz Hd Hid Hi. rewrite (C49_message_build _ _ _ _ _ _ _ Hc Ho Hop Hz Hd). destruct (C43_unknown_id_rejected _ _ _ _ _ _ Hk Hid Hi N') as (e & ->). cbn [bind]. eauto.
  - intros R. rewrite (C49_message_parse _ _ _ _ _ Hc Ho). destruct (C43_received_unknown_rejected _ _ _ _ s Hk R N') as (e & ->). cbn [bind]. eauto.
Qed.

(** ** The sub-messages of the emergency lighting and light controller models *)
Theorem C58_sub_sent : forall n z sn sz acc g pn pz f o m op q sop d idv h v s, In (n, z, sn, sz, acc, g) property_submessages -> In (pn, pz, f) g -> opcode_bytes z o ->
  dget "opcode" m = Some op -> as_int op = Some z -> dget (lower n) m = Some (VDict q) -> dget "subopcode" q = Some sop -> as_int sop = Some sz -> dget (lower sn) q = Some (VDict d) ->
  dget "property_id" d = Some idv -> as_int idv = Some pz -> access_octet acc d h -> dget (lower pn) d = Some v -> enc true f v s ->
  access_build (VDict m) = Ok (o ++ sz :: to_le 2 pz ++ h ++ s).
Proof.
  intros n z sn sz acc g pn pz f o m op q sop d idv h v s Hg Hp Ho Hop Hz Hq Hsop Hsz Hd Hid Hi Ha Hv He. destruct (sp_row _ _ _ _ _ _ Hg) as (c & ps & Hc & Hk & T & _).
  destruct (agree_right _ _ _ _ _ T Hp) as (ct & Hct & Hf). rewrite (C49_submessage_build _ _ _ _ _ _ _ _ _ _ _ Hc Ho Hop Hz Hq Hsop Hsz Hd).
  rewrite (C43_sent _ _ _ _ _ _ _ _ _ _ _ Hk Hct Hid Hi Ha Hv (proj1 sends_all _ _ Hf [] _ _ He)). reflexivity.
Qed.
Theorem C58_sub_received : forall n z sn sz acc g pn pz f o h e s u, In (n, z, sn, sz, acc, g) property_submessages -> In (pn, pz, f) g -> opcode_bytes z o -> access_entry acc h e -> bytes s ->
  access_parse (o ++ sz :: to_le 2 pz ++ h ++ s) = Ok u ->
  exists v p r, s = p ++ r /\ enc false f v p /\
    u = VDict [("opcode"%string, VEnum n z); (lower n, VDict [("subopcode"%string, VEnum sn sz); (lower sn, VDict (e ++ [("property_id"%string, VEnum pn pz); (lower pn, v)]))])].
Proof.
  intros n z sn sz acc g pn pz f o h e s u Hg Hp Ho Ha B H. destruct (sp_row _ _ _ _ _ _ Hg) as (c & ps & Hc & Hk & T & _).
  destruct (agree_right _ _ _ _ _ T Hp) as (ct & Hct & Hf). rewrite (C49_submessage_parse _ _ _ _ _ _ _ Hc Ho) in H. apply bind_ok in H as (w & E & H). injection H as <-.
  destruct (parse ct [] s) as [[v r]|er|] eqn:P.
  - unfold parse_msg in E. rewrite (C43_received _ _ _ _ _ _ _ _ _ _ _ Hk Hct Ha P) in E. injection E as <-. destruct (received_part _ _ _ _ _ Hf B P) as (p & -> & Hq). eauto 6.
  - destruct (C43_received_bad_value_rejected _ _ _ _ _ _ _ _ _ _ Hk Hct Ha P) as (er' & E'). congruence.
  - elim (value_ends _ _ _ _ _ _ _ Hk Hct P).
Qed.
Theorem C58_sub_accepted : forall n z sn sz acc g pn pz f o h e b v s, In (n, z, sn, sz, acc, g) property_submessages -> In (pn, pz, f) g -> opcode_bytes z o -> access_entry acc h e ->
  bytes s -> enc b f v s -> exists v', enc false f v' s /\ access_parse (o ++ sz :: to_le 2 pz ++ h ++ s) =
    Ok (VDict [("opcode"%string, VEnum n z); (lower n, VDict [("subopcode"%string, VEnum sn sz); (lower sn, VDict (e ++ [("property_id"%string, VEnum pn pz); (lower pn, v')]))])]).
Proof.
  intros n z sn sz acc g pn pz f o h e b v s Hg Hp Ho Ha B He. destruct (sp_row _ _ _ _ _ _ Hg) as (c & ps & Hc & Hk & T & C).
  destruct (agree_right _ _ _ _ _ T Hp) as (ct & Hct & Hf). pose proof (proj1 (forallb_forall _ _) C _ Hp) as Ht. cbn [snd] in Ht.
  destruct (accepted_all _ _ _ _ _ Hf Ht B He) as (v' & P & He'). exists v'. split; [exact He'|]. rewrite (C49_submessage_parse _ _ _ _ _ _ _ Hc Ho). unfold parse_msg.
  rewrite (C43_received _ _ _ _ _ _ _ _ _ _ _ Hk Hct Ha P). reflexivity.
Qed.
Theorem C58_sub_unknown_rejected : forall n z sn sz acc g pz o m op q sop d idv s, In (n, z, sn, sz, acc, g) property_submessages -> (forall pn f, ~ In (pn, pz, f) g) -> opcode_bytes z o -> 
  (dget "opcode" m = Some op -> as_int op = Some z -> dget (lower n) m = Some (VDict q) -> dget "subopcode" q = Some sop -> as_int sop = Some sz -> dget (lower sn) q = Some (VDict d) ->
    dget "property_id" d = Some idv -> as_int idv = Some pz -> exists e, access_build (VDict m) = Err e) /\
  (0 <= pz < 65536 -> exists e, access_parse (o ++ sz :: to_le 2 pz ++ s) = Err e).
Proof.
  intros n z sn sz acc g pz o m op q sop d idv s Hg N Ho. destruct (sp_row _ _ _ _ _ _ Hg) as (c & ps & Hc & Hk & T & _). pose proof (agree_none _ _ _ T N) as N'. split.
  - intros Hop Hz Hq Hsop Hsz Hd Hid Hi. rewrite (C49_submessage_build _ _ _ _ _ _ _ _ _ _ _ Hc Ho Hop Hz Hq Hsop Hsz Hd).
    destruct (C43_unknown_id_rejected _ _ _ _ _ _ Hk Hid Hi N') as (e & ->). cbn [bind]. eauto.
  - intros R. rewrite (C49_submessage_parse _ _ _ _ _ _ _ Hc Ho). destruct (C43_received_unknown_rejected _ _ _ _ s Hk R N') as (e & ->). cbn [bind]. eauto.
Qed.

(** ** Settings of sensors *)
Theorem C58_setting_sent : forall n z acc pn pz f o m op d p h v s, In (n, z, acc) setting_messages -> In (pn, pz, f) device_properties -> opcode_bytes z o ->
  dget "opcode" m = Some op -> as_int op = Some z -> dget (lower n) m = Some (VDict d) -> gives acc d p pz h -> dget (lower pn) d = Some v -> enc true f v s ->
  access_build (VDict m) = Ok (o ++ to_le 2 p ++ to_le 2 pz ++ h ++ s).
Proof.
  intros n z acc pn pz f o m op d p h v s Hg Hp Ho Hop Hz Hd G Hv He. destruct (s_row _ _ _ Hg) as (c & Hc & Hk).
  destruct (agree_right _ _ _ _ _ t_device Hp) as (ct & Hct & Hf). rewrite (C49_message_build _ _ _ _ _ _ _ Hc Ho Hop Hz Hd).
  rewrite (C44_known_sent _ _ _ _ _ _ _ _ _ _ Hk G Hct Hv (proj1 sends_all _ _ Hf [] _ _ He)). reflexivity.
Qed.
Theorem C58_setting_accepted : forall n z acc pn pz f o p h b v s, In (n, z, acc) setting_messages -> In (pn, pz, f) device_properties -> opcode_bytes z o ->
  0 <= p < 65536 -> (if acc then exists a, 0 <= a < 256 /\ h = [a] else h = []) -> bytes s -> enc b f v s ->
  exists v' u, enc false f v' s /\ setting acc p h (VEnum pn pz) (lower pn) v' u /\
    access_parse (o ++ to_le 2 p ++ to_le 2 pz ++ h ++ s) = Ok (VDict [("opcode"%string, VEnum n z); (lower n, u)]).
Proof.
  intros n z acc pn pz f o p h b v s Hg Hp Ho Rp Ha B He. destruct (s_row _ _ _ Hg) as (c & Hc & Hk).
  destruct (agree_right _ _ _ _ _ t_device Hp) as (ct & Hct & Hf). pose proof (proj1 (forallb_forall _ _) (formats_closed _ (or_introl eq_refl)) _ Hp) as Ht. cbn [snd] in Ht.
  destruct (accepted_all _ _ _ _ _ Hf Ht B He) as (v' & P & He'). destruct (C44_known_received _ _ _ _ _ _ _ _ _ _ Hk Hct Rp Ha P) as (u & E & S).
  exists v', u. split; [exact He'|]. split; [exact S|]. rewrite (C49_message_parse _ _ _ _ _ Hc Ho). unfold parse_msg. rewrite E. reflexivity.
Qed.

(** ** Sensor data *)
(** an entry [d] of a sensor status and its octets: the header, then the value in the format of the property *)
Definition entry_sent (d : val) (s : list Z) : Prop :=
  exists l long len pid n f v b, d = VDict l /\ announces l long len pid /\ in_range long len pid /\ In (n, pid, f) device_properties /\
    dget (lower n) l = Some v /\ enc true f v b /\ s = head long len pid ++ b.
(** octets of an entry, and what they are reported as *)
Definition entry_received (s : list Z) (u : val) : Prop :=
  exists long len pid n f v b, in_range long len pid /\ In (n, pid, f) device_properties /\ enc false f v b /\ Z.of_nat (length b) = len /\
    s = head long len pid ++ b /\ u = report long len (lower n) (VEnum n pid) v.
Definition entry_octets (s : list Z) : Prop :=
  exists long len pid n f out v b, in_range long len pid /\ In (n, pid, f) device_properties /\ enc out f v b /\ bytes b /\ Z.of_nat (length b) = len /\ s = head long len pid ++ b.

Lemma status_parse_cons : forall es, Forall good es -> access_parse (0x52 :: concat (map wire es)) = Ok (VDict [("opcode"%string, VEnum "SENSOR_STATUS" 0x52); ("sensor_status"%string, VList (map reported es))]).
Proof.
  intros es H. change (0x52 :: concat (map wire es)) with ([0x52] ++ concat (map wire es)).
  rewrite (C49_message_parse _ _ _ _ _ (nth_error_In _ _ status_at) (ob1 0x52 ltac:(lia))), (C41_received _ H). reflexivity.
Qed.
Theorem C58_sensor_status_sent : forall m op l ss, dget "opcode" m = Some op -> as_int op = Some 0x52 -> dget "sensor_status" m = Some (VList l) ->
  Forall2 entry_sent l ss -> access_build (VDict m) = Ok (0x52 :: concat ss).
Proof.
  intros m op l ss Hop Hz Hl H. rewrite (C49_message_build _ _ _ [0x52] m op (VList l) (nth_error_In _ _ status_at) (ob1 0x52 ltac:(lia)) Hop Hz Hl).
  assert (E : build_list (build sensor_SensorData []) l = Ok (concat ss)).
  { clear Hl. induction H as [|d s l ss (k & long & len & pid & n & f & v & b & -> & An & R & Hp & Hv & He & ->) _ IH]; [reflexivity|].
    destruct (agree_right _ _ _ _ _ t_device Hp) as (ct & Hct & Hf). cbn [build_list concat].
    pose proof (C40_build_known _ _ _ _ _ _ _ _ An R Hct Hv (proj1 sends_all _ _ Hf [] _ _ He)) as E. unfold build_msg in E. rewrite E. cbn [bind]. rewrite IH. reflexivity. }
  unfold build_msg, sensor_SensorStatus.
  change (build (CGreedyRange sensor_SensorData) [] (VList l)) with (build_list (build sensor_SensorData []) l). rewrite E. reflexivity.
Qed.
Theorem C58_sensor_status_accepted : forall ss, Forall entry_octets ss -> exists us, Forall2 entry_received ss us /\
  access_parse (0x52 :: concat ss) = Ok (VDict [("opcode"%string, VEnum "SENSOR_STATUS" 0x52); ("sensor_status"%string, VList us)]).
Proof.
  intros ss H. assert (E : exists es, Forall good es /\ map wire es = ss /\ Forall2 entry_received ss (map reported es)).
  { induction H as [|s ss (long & len & pid & n & f & out & v & b & R & Hp & He & B & L & ->) _ (es & G & W & T)]; [exists []; repeat split; constructor|].
    destruct (agree_right _ _ _ _ _ t_device Hp) as (ct & Hct & Hf). pose proof (proj1 (forallb_forall _ _) (formats_closed _ (or_introl eq_refl)) _ Hp) as Ht. cbn [snd] in Ht.
    destruct (accepted_all _ _ _ _ _ Hf Ht B He) as (v' & P & He'). destruct (property_find _ _ _ Hct) as [_ M]. apply by_value_member in M.
    exists ({| e_long := long; e_len := len; e_pid := pid; e_octets := b; e_key := lower n; e_id := VEnum n pid; e_value := v' |} :: es). split; [|split].
    - constructor; [|exact G]. unfold good. cbn [e_long e_len e_pid e_octets e_key e_id e_value]. split; [exact R|]. split; [exact L|]. split; [left; eauto | left; eauto].
    - cbn [map]. now rewrite W.
    - cbn [map]. constructor; [|exact T]. exists long, len, pid, n, f, v', b. repeat split; auto. }
  destruct E as (es & G & <- & T). exists (map reported es). split; [exact T | exact (status_parse_cons es G)].
Qed.

(** *** Concrete cases *)
(** 20.5 degrees: 41 steps of a half *)
Example C58_temperature : forall out, enc out temperature8 (VDict [("temperature"%string, VFloat (41 # 2))]) [41].
Proof.
  intros out. change [41] with ([41] ++ []). apply enc_rec. apply enc_plain; [|apply enc_fnil]. apply enc_leaf. exists 41. split; [lia|]. split; [reflexivity|].
  right. split; [discriminate|]. exists (41 # 2)%Q. split; [reflexivity|]. unfold near, Qle. vm_compute. discriminate.
Qed.
(** 500 lux of 0.01 *)
Example C58_lux : forall out, enc out illuminance (VDict [("illuminance"%string, VFloat 500)]) [0x50; 0xC3; 0].
Proof.
  intros out. change [0x50; 0xC3; 0] with ([0x50; 0xC3; 0] ++ []). apply enc_rec. apply enc_plain; [|apply enc_fnil]. apply enc_leaf. exists 50000. split; [lia|]. split; [reflexivity|].
  right. split; [lia|]. exists 500%Q. split; [reflexivity|]. unfold near, Qle. vm_compute. discriminate.
Qed.
(** "not known" *)
Example C58_hours_unknown : forall out, enc out time_hour24 (VDict [("hours"%string, not_known)]) [0xFF; 0xFF; 0xFF].
Proof.
  intros out. change [0xFF; 0xFF; 0xFF] with ([0xFF; 0xFF; 0xFF] ++ []). apply enc_rec. apply enc_plain; [|apply enc_fnil]. apply enc_leaf. exists (256 ^ 3 - 1). split; [lia|]. split; [reflexivity|].
  left. repeat split.
Qed.
Example C58_example_sent :
  access_build (VDict [("opcode"%string, VInt 0x4C); ("generic_user_property_set"%string,
    VDict [("property_id"%string, VInt 79); ("present_ambient_temperature"%string, VDict [("temperature"%string, VFloat (41 # 2))])])]) = Ok [0x4C; 79; 0; 41].
Proof.
  eapply (C58_sent "GENERIC_USER_PROPERTY_SET" 0x4C false device_properties "PRESENT_AMBIENT_TEMPERATURE" 79 temperature8 [0x4C] _ (VInt 0x4C) _ (VInt 79) []);
    try reflexivity; [left; reflexivity | | apply ob1; lia | apply C58_temperature].
  unfold device_properties. repeat first [left; reflexivity | right].
Qed.
Example C58_example_received : exists v, enc false illuminance v [0x50; 0xC3; 0] /\
  access_parse [0x4E; 78; 0; 3; 0x50; 0xC3; 0] = Ok (VDict [("opcode"%string, VEnum "GENERIC_USER_PROPERTY_STATUS" 0x4E); ("generic_user_property_status"%string,
    VDict [("access"%string, VInt 3); ("property_id"%string, VEnum "PRESENT_AMBIENT_LIGHT_LEVEL" 78); ("present_ambient_light_level"%string, v)])]).
Proof.
  destruct (C58_accepted "GENERIC_USER_PROPERTY_STATUS" 0x4E true device_properties "PRESENT_AMBIENT_LIGHT_LEVEL" 78 illuminance [0x4E] [3] [("access"%string, VInt 3)] false (VDict [("illuminance"%string, VFloat 500)]) [0x50; 0xC3; 0])
    as (v & He & E); [right; right; left; reflexivity | unfold device_properties; repeat first [left; reflexivity | right] | apply ob1; lia | exists 3; repeat split; lia
    | repeat apply Forall_cons; try apply Forall_nil; unfold isbyte; lia | apply C58_lux | ]. exists v. split; [exact He | exact E].
Qed.
Example C58_example_status : exists us, Forall2 entry_received [[0xE0; 0x09; 41]] us /\
  access_parse [0x52; 0xE0; 0x09; 41] = Ok (VDict [("opcode"%string, VEnum "SENSOR_STATUS" 0x52); ("sensor_status"%string, VList us)]).
Proof.
  apply (C58_sensor_status_accepted [[0xE0; 0x09; 41]]). constructor; [|constructor].
  exists false, 1, 79, "PRESENT_AMBIENT_TEMPERATURE"%string, temperature8, true, (VDict [("temperature"%string, VFloat (41 # 2))]), [41].
  split; [unfold in_range; lia|]. split; [unfold device_properties; repeat first [left; reflexivity | right]|]. split; [apply C58_temperature|]. split; [repeat apply Forall_cons; try apply Forall_nil; unfold isbyte; lia|]. split; reflexivity.
Qed.
(** an identifier of no property *)
Example C58_example_unknown : forall pn f, ~ In (pn, 200, f) device_properties.
Proof.
  assert (E : forallb (fun r => negb (snd (fst r) =? 200)) device_properties = true) by (vm_compute; reflexivity).
  intros pn f H. pose proof (proj1 (forallb_forall _ _) E _ H) as K. discriminate K.
Qed.
Print Assumptions C58_sent.
Print Assumptions C58_received.
Print Assumptions C58_accepted.
Print Assumptions C58_unknown_rejected.
Print Assumptions C58_sub_sent.
Print Assumptions C58_sub_received.
Print Assumptions C58_sub_accepted.
Print Assumptions C58_sub_unknown_rejected.
Print Assumptions C58_setting_sent.
Print Assumptions C58_setting_accepted.
Print Assumptions C58_sensor_status_sent.
Print Assumptions C58_sensor_status_accepted.
