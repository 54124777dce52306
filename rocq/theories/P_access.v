(** * P_access: properties of the AccessMessage entry point
    (C01-C05, C07, C47-C50). *)
From Verif Require Import PyVal Bits Float64 Utf8 Adapters Construct Size Spec Master
  AdapterSpec AdapterProofs1 AdapterProofs4 Access AccessProofs Conform
  G_config G_debug G_gateway G_onoff G_generics G_sensor G_lec G_nds G_rrule G_el G_elt G_debugV2.

(** ** C01: every well-formed access message round-trips *)
Theorem C01_access_round_trip : forall v v', access_message v v' ->
  exists s, access_build v = Ok s /\ bytes s /\ exists u, access_parse s = Ok u /\ pub u = v'.
Proof. exact access_roundtrip. Qed.
Print Assumptions C01_access_round_trip.

(** the same for each family used directly: [Family.build] / [Family.parse] *)
Theorem C01_family_round_trip : forall t c v v', family t c -> message A_spec c v v' ->
  exists s, build_msg c v = Ok s /\ bytes s /\ exists u, parse_msg c s = Ok u /\ pub u = v'.
Proof. intros t c v v' Hf. exact (roundtrip A_spec adapters_ok c v v' (access_wf t c Hf)). Qed.
Print Assumptions C01_family_round_trip.

Definition onoff_set (op : val) : val := VDict [("opcode"%string, op);
   ("generic_onoff_set"%string, VDict [("onoff"%string, VInt 1); ("tid"%string, VInt 7);
     ("transition_time"%string, VInt 20); ("delay"%string, VFloat (1 # 4))])].
(** {opcode: "GENERIC_ONOFF_SET", generic_onoff_set: {onoff: 1, tid: 7, transition_time: 20, delay: 0.25}} *)
Example C01_ex : access_message (onoff_set (VStr (cps "GENERIC_ONOFF_SET"))) (onoff_set (VEnum "GENERIC_ONOFF_SET" 0x8202)).
Proof.
  eexists _, onoff_GenericOnOffOpcode, onoff_GenericOnOffMessage, "GENERIC_ONOFF_SET"%string, 0x8202.
  split; [reflexivity|]. split; [unfold family; do 3 right; left; reflexivity|]. split; [memb|].
  right. split; [reflexivity|]. unfold onoff_set. cbn [dset String.eqb Ascii.eqb Bool.eqb]. cf. apply ci_select1. cf.
  apply (ex_transition_int false (VInt 20) 20 1 20); try reflexivity; simpl; lia. all: cf.
  eapply (ex_delay _ _ 50); [reflexivity|vm_compute; reflexivity|lia|notin]. all: cf.
Qed.
Example C01_ex_bytes : access_build (onoff_set (VStr (cps "GENERIC_ONOFF_SET"))) = Ok [0x82; 0x02; 1; 7; 84; 50].
Proof. vm_compute. reflexivity. Qed.

(** ** C02: unknown opcodes are transparent, in both directions *)
Theorem C02_unknown_opcode_transparent : forall z o r, opcode_bytes z o ->
  (forall t c n, family t c -> ~ member t n z) ->
  let v := VDict [("opcode"%string, VInt z); ("params"%string, VBytes r)] in
  access_parse (o ++ r) = Ok v /\ access_build v = Ok (o ++ r).
Proof. exact access_unknown. Qed.
Print Assumptions C02_unknown_opcode_transparent.
Lemma not_known z : existsb (Z.eqb z) (all_values access_table) = false -> forall t c n, family t c -> ~ member t n z.
Proof.
  intros H t c n Hf Hm. rewrite <- not_true_iff_false in H. apply H. apply existsb_exists. exists z. split; [|apply Z.eqb_refl].
  apply in_flat_map. exists (t, c). split; [exact Hf|]. apply (in_map snd _ (n, z)), member_in, Hm.
Qed.
Example C02_ex : opcode_bytes 0xC1FEFF [0xC1; 0xFE; 0xFF] /\ (forall t c n, family t c -> ~ member t n 0xC1FEFF).
Proof. split; [apply (ob3 0xC1 0xFE 0xFF); lia | apply not_known; vm_compute; reflexivity]. Qed.

(** every byte string starting with an opcode is either known or unknown: what a
    parse of arbitrary bytes can fail on first is only the opcode field itself *)
Theorem C02_unknown_opcode_bytes : forall s z r, bytes s -> opcode_parse s = Ok (z, r) ->
  (forall t c n, family t c -> ~ member t n z) ->
  exists v, access_parse s = Ok v /\ access_build v = Ok s.
Proof.
  intros s z r Hb Hp Hu. destruct (opcode_parse_bytes _ _ _ Hb Hp) as (o & -> & Ho).
  eexists. exact (access_unknown z o r Ho Hu).
Qed.
Print Assumptions C02_unknown_opcode_bytes.

(** ** C03: the opcode field *)
Theorem C03_opcode_build : forall z o, legal_opcode z -> (opcode_build z = Ok o <-> opcode_bytes z o).
Proof.
  intros z o Hl. split; [|apply opcode_bytes_build]. intros H. destruct (legal_opcode_bytes z Hl) as (o' & Ho).
  pose proof (opcode_bytes_build _ _ Ho) as H'. rewrite H in H'. injection H' as ->. exact Ho.
Qed.
Theorem C03_opcode_parse : forall s z r, bytes s ->
  (opcode_parse s = Ok (z, r) <-> exists o, s = o ++ r /\ opcode_bytes z o).
Proof.
  intros s z r Hb. split; [now apply opcode_parse_bytes|]. intros (o & -> & Ho). now apply opcode_bytes_parse.
Qed.
Theorem C03_legal_opcodes : forall z, legal_opcode z <-> exists o, opcode_bytes z o.
Proof. intros z. split; [apply legal_opcode_bytes|]. intros (o & Ho). exact (opcode_bytes_legal _ _ Ho). Qed.
Theorem C03_prefix_free : forall z1 o1 r1 z2 o2 r2, opcode_bytes z1 o1 -> opcode_bytes z2 o2 ->
  o1 ++ r1 = o2 ++ r2 -> z1 = z2 /\ o1 = o2 /\ r1 = r2.
Proof. exact opcode_prefix_free. Qed.
Theorem C03_7F_rejected : forall r z q, access_parse (0x7F :: r) <> Ok z /\ opcode_parse (0x7F :: r) <> Ok q.
Proof. intros r z q. split; discriminate. Qed.
Print Assumptions C03_opcode_build.
Print Assumptions C03_opcode_parse.
Print Assumptions C03_legal_opcodes.
Print Assumptions C03_prefix_free.
Print Assumptions C03_7F_rejected.
Example C03_ex : legal_opcode 0xC00136 /\ opcode_bytes 0xC00136 [0xC0; 0x01; 0x36] /\ opcode_parse [0xC0; 0x01; 0x36; 5] = Ok (0xC00136, [5]).
Proof. split; [unfold legal_opcode; lia|]. split; [apply (ob3 0xC0 1 0x36); lia|reflexivity]. Qed.

(** ** C04: known opcodes are legal and unambiguous *)
Lemma nth_in_family i t c : nth_error access_table i = Some (t, c) -> family t c.
Proof. apply nth_error_In. Qed.
Lemma table_position {X} (f : enum * con -> list X) : forall l, NoDup (flat_map f l) -> forall i j p q x,
  nth_error l i = Some p -> nth_error l j = Some q -> In x (f p) -> In x (f q) -> i = j.
Proof.
  induction l as [|a l IH]; intros Hnd i j p q x Hi Hj Hp Hq; [destruct i; discriminate|].
  cbn [flat_map] in Hnd. apply NoDup_app in Hnd as (_ & Hnd & Hd).
  destruct i as [|i], j as [|j]; cbn [nth_error] in Hi, Hj.
  - reflexivity.
  - injection Hi as ->. exfalso. apply (Hd x Hp). apply in_flat_map. eauto using nth_error_In.
  - injection Hj as ->. exfalso. apply (Hd x Hq). apply in_flat_map. eauto using nth_error_In.
  - f_equal. eapply IH; eauto.
Qed.
Theorem C04_opcodes_legal : forall t c n z, family t c -> member t n z -> legal_opcode z.
Proof. exact family_legal. Qed.
Theorem C04_value_determines_family : forall i j t1 c1 t2 c2 n1 n2 z,
  nth_error access_table i = Some (t1, c1) -> nth_error access_table j = Some (t2, c2) ->
  In (n1, z) t1 -> In (n2, z) t2 -> i = j /\ n1 = n2.
Proof.
  intros i j t1 c1 t2 c2 n1 n2 z Hi Hj H1 H2.
  assert (i = j) as -> by (eapply (table_position (fun p => map snd (fst p))); eauto using access_values_NoDup;
    [exact (in_map snd _ _ H1) | exact (in_map snd _ _ H2)]).
  split; [reflexivity|]. rewrite Hi in Hj. injection Hj as -> ->.
  assert (Hnd : NoDup (map snd t2)).
  { pose proof access_values_NoDup as H. unfold all_values in H. apply nth_error_In in Hi.
    apply in_split in Hi as (a & b & E). rewrite E, flat_map_app in H. apply NoDup_app in H as (_ & H & _).
    cbn [flat_map] in H. now apply NoDup_app in H as (H & _). }
  apply (in_member _ _ _ Hnd) in H1. apply (in_member _ _ _ Hnd) in H2.
  apply member_by_value in H1, H2. rewrite H1 in H2. now injection H2.
Qed.
Theorem C04_name_determines_family : forall i j t1 c1 t2 c2 n z1 z2,
  nth_error access_table i = Some (t1, c1) -> nth_error access_table j = Some (t2, c2) ->
  In (n, z1) t1 -> In (n, z2) t2 -> i = j.
Proof.
  intros i j t1 c1 t2 c2 n z1 z2 Hi Hj H1 H2.
  eapply (table_position (fun p => map fst (fst p))); eauto using access_names_NoDup;
    [exact (in_map fst _ _ H1) | exact (in_map fst _ _ H2)].
Qed.
Print Assumptions C04_opcodes_legal.
Print Assumptions C04_value_determines_family.
Print Assumptions C04_name_determines_family.
Example C04_ex : nth_error access_table 3 = Some (onoff_GenericOnOffOpcode, onoff_GenericOnOffMessage)
  /\ In ("GENERIC_ONOFF_SET"%string, 0x8202) onoff_GenericOnOffOpcode.
Proof. split; [reflexivity|]. right. left. reflexivity. Qed.

(** ** C05: termination *)
Theorem C05_parse_terminates : forall s, access_parse s <> Diverge.
Proof. exact access_parse_terminates. Qed.
Theorem C05_build_terminates : forall v, access_build v <> Diverge.
Proof. exact access_build_terminates. Qed.
Theorem C05_family_parse_terminates : forall t c s, family t c -> parse_msg c s <> Diverge.
Proof.
  intros t c s Hf. unfold parse_msg. apply bind_div; [|intros (v & r) _; discriminate].
  apply parse_nodiv. eapply access_prod; eauto.
Qed.
Print Assumptions C05_parse_terminates.
Print Assumptions C05_build_terminates.
Print Assumptions C05_family_parse_terminates.
(** Diverge is a real outcome of the model: a repetition of an element that reads nothing *)
Example C05_ex : parse_msg (CGreedyRange (CStruct FNil)) [1] = Diverge.
Proof. reflexivity. Qed.

(** ** C07: injectivity *)
Theorem C07_injective : forall v1 v1' v2 v2', access_message v1 v1' -> access_message v2 v2' ->
  access_build v1 = access_build v2 -> v1' = v2'.
Proof. exact access_injective. Qed.
Print Assumptions C07_injective.
Example C07_ex : exists v2 v2', access_message v2 v2' /\ v2' = onoff_set (VEnum "GENERIC_ONOFF_SET" 0x8202).
Proof. eexists _, _. split; [exact C01_ex | reflexivity]. Qed.

(** ** C49: AccessMessage agrees with the families *)
Theorem C49_parse_agrees : forall t c n z o r, family t c -> member t n z -> opcode_bytes z o ->
  access_parse (o ++ r) = parse_msg c (o ++ r).
Proof. exact access_parse_family. Qed.
Theorem C49_build_agrees : forall t c n z d op, family t c -> member t n z ->
  dget "opcode" d = Some op -> as_int op = Some z ->
  access_build (VDict d) = build_msg c (VDict d).
Proof. exact access_build_family. Qed.
Theorem C49_build_by_name : forall t c n z d, family t c -> member t n z ->
  dget "opcode" d = Some (VStr (cps n)) ->
  access_build (VDict d) = access_build (VDict (dset "opcode" (VEnum n z) d)).
Proof. exact access_build_named. Qed.
Theorem C49_other_names_rejected : forall d s, dget "opcode" d = Some (VStr s) ->
  (forall t c n z, family t c -> member t n z -> s <> cps n) -> forall l, access_build (VDict d) <> Ok l.
Proof.
  intros d s Hd Hn l. unfold access_build, dgetr. rewrite Hd. cbn [bind].
  destruct (access_by_name s) as [[m c]|] eqn:E; [|discriminate].
  apply access_by_name_inv in E as (t & n & z & Hf & Hm & -> & _). now destruct (Hn t c n z Hf Hm).
Qed.
Print Assumptions C49_parse_agrees.
Print Assumptions C49_build_agrees.
Print Assumptions C49_build_by_name.
Print Assumptions C49_other_names_rejected.
Example C49_ex : family onoff_GenericOnOffOpcode onoff_GenericOnOffMessage
  /\ member onoff_GenericOnOffOpcode "GENERIC_ONOFF_STATUS" 0x8204 /\ opcode_bytes 0x8204 [0x82; 4].
Proof. split; [do 3 right; left; reflexivity|]. split; [memb|]. apply (ob2 0x82 4); lia. Qed.

(** ** C50: refuted.  A known message that is not at the start of the stream is
    decoded from the start of the stream instead of from its own position. *)
Theorem C50_embedded_refuted : exists pre s v, bytes pre /\ bytes s /\ access_parse s = Ok v /\ access_parse_at pre s <> Ok v.
Proof.
  exists [0x82; 4; 1], [0x82; 4; 0]. eexists. split; [repeat constructor; unfold isbyte; lia|]. split; [repeat constructor; unfold isbyte; lia|].
  split; [vm_compute; reflexivity | vm_compute; discriminate].
Qed.
(** what remains true: unknown opcodes are decoded at any position, and position 0 is fine *)
Theorem C50_embedded_unknown : forall pre z o r, opcode_bytes z o ->
  (forall t c n, family t c -> ~ member t n z) -> access_parse_at pre (o ++ r) = access_parse (o ++ r).
Proof.
  intros pre z o r Ho Hu. unfold access_parse, access_parse_at. rewrite (opcode_bytes_parse _ _ _ Ho). cbn [bind].
  destruct (access_lookup z) as [[m c]|] eqn:E; [|reflexivity]. apply access_lookup_spec in E as (t & n & Hf & Hm & _).
  now destruct (Hu t c n Hf).
Qed.
(** known opcodes: the message is read from the start of the stream.  If another message of the same family starts there,
    its parameters are returned with the opcode of the message asked for; anything else there is an error. *)
Theorem C50_embedded_known : forall pre o0 q z0 t c n n0 z o r, family t c -> member t n z -> opcode_bytes z o ->
  pre = o0 ++ q -> opcode_bytes z0 o0 -> member t n0 z0 ->
  access_parse_at pre (o ++ r) = let* v := access_parse (pre ++ o ++ r) in
    match v with VDict d => Ok (VDict (dset "opcode" (VEnum n z) d)) | _ => Err EOther end.
Proof.
  intros pre o0 q z0 t c n n0 z o r Hf Hm Ho -> Ho0 Hm0. rewrite <- app_assoc, (access_parse_family t c n0 z0 o0 _ Hf Hm0 Ho0), app_assoc. unfold access_parse_at.
  rewrite (opcode_bytes_parse _ _ _ Ho). cbn [bind]. assert (access_lookup z = Some (VEnum n z, c)) as -> by (apply access_lookup_spec; eauto). reflexivity.
Qed.
Theorem C50_embedded_other_family_rejected : forall pre o0 q z0 t c n z o r, family t c -> member t n z -> opcode_bytes z o ->
  pre = o0 ++ q -> opcode_bytes z0 o0 -> (forall n0, ~ member t n0 z0) -> exists e, access_parse_at pre (o ++ r) = Err e.
Proof.
  intros pre o0 q z0 t c n z o r Hf Hm Ho -> Ho0 Hu. unfold access_parse_at. rewrite (opcode_bytes_parse _ _ _ Ho). cbn [bind].
  assert (access_lookup z = Some (VEnum n z, c)) as -> by (apply access_lookup_spec; eauto). destruct (access_shape t c Hf) as (cs & ->).
  unfold parse_msg. cbn [parse]. rewrite <- app_assoc, (opcode_bytes_parse _ _ _ Ho0). cbn [bind].
  destruct (by_value t z0) as [m|] eqn:E; [|eexists; reflexivity]. exfalso. destruct (by_value_enum _ _ _ E) as (n0 & -> & _). apply (Hu n0). now apply by_value_member.
Qed.
(** the on/off status 0 after a first on/off status 1 is decoded from the first byte: it even takes the second opcode for
    the target and the remaining time of the first status *)
Example C50_known_ex : access_parse_at [0x82; 4; 1] [0x82; 4; 0] = access_parse [0x82; 4; 1; 0x82; 4; 0].
Proof. vm_compute. reflexivity. Qed.
Print Assumptions C50_embedded_known.
Print Assumptions C50_embedded_other_family_rejected.
Print Assumptions C50_embedded_refuted.
Print Assumptions C50_embedded_unknown.

(** ** C47: refuted.  Some known opcodes have no declared parameters: what the
    caller gives is not sent, what is received is not shown. *)
Theorem C47_params_carried_refuted :
  (exists v, dget "params" v = Some (VBytes [1; 2]) /\ access_build (VDict v) = Ok [0x55]) /\
  access_parse [0x55; 1; 2] = Ok (VDict [("opcode"%string, VEnum "SENSOR_CADENCE_SET" 0x55); ("sensor_cadence_set"%string, VNone)]).
Proof.
  split; [|reflexivity]. exists [("opcode"%string, VInt 0x55); ("params"%string, VBytes [1; 2])]. split; reflexivity.
Qed.
Print Assumptions C47_params_carried_refuted.
(** exactly these opcodes *)
Definition unimplemented : list string :=
  ["SENSOR_COLUMN_GET"; "SENSOR_COLUMN_STATUS"; "SENSOR_SERIES_GET"; "SENSOR_SERIES_STATUS";
   "SENSOR_CADENCE_SET"; "SENSOR_CADENCE_SET_UNACKNOWLEDGED"; "SENSOR_CADENCE_STATUS"]%string.
Fixpoint has_case (z : Z) (cs : cases) : bool :=
  match cs with KNil => false | KCons _ w _ cs' => (z =? w) || has_case z cs' end.
Definition cases_of (c : con) : cases := match c with CSwitchStruct _ _ _ _ cs => cs | _ => KNil end.
Lemma has_case_find z cs : has_case z cs = true -> exists n c, find_case z cs = Some (n, c).
Proof. induction cs as [|n w c cs IH]; simpl; [discriminate|]. destruct (z =? w); simpl; eauto. Qed.
Lemma no_case_find z cs : has_case z cs = false -> find_case z cs = None.
Proof. induction cs as [|n w c cs IH]; simpl; [reflexivity|]. destruct (z =? w); simpl; [discriminate|auto]. Qed.
Lemma implemented_dec : forall t c n z, family t c -> In (n, z) t ->
  has_case z (cases_of c) = negb (existsb (String.eqb n) unimplemented).
Proof.
  assert (H : forallb (fun p => forallb (fun q => Bool.eqb (has_case (snd q) (cases_of (snd p)))
     (negb (existsb (String.eqb (fst q)) unimplemented))) (fst p)) access_table = true) by (vm_compute; reflexivity).
  rewrite forallb_forall in H. intros t c n z Hf Hin. specialize (H _ Hf). cbn [fst snd] in H. rewrite forallb_forall in H.
  specialize (H _ Hin). now apply eqb_prop in H.
Qed.
Lemma in_unimplemented n : existsb (String.eqb n) unimplemented = true <-> In n unimplemented.
Proof.
  rewrite existsb_exists. split; [intros (x & Hin & E); apply String.eqb_eq in E; now subst | intros H; exists n; split; [exact H|apply String.eqb_refl]].
Qed.
(** the other opcodes hand the bytes after the opcode to a parameter declaration [p],
    and show its result under the lower-case opcode name *)
Theorem C47_params_carried : forall t c n z o, family t c -> member t n z -> opcode_bytes z o ->
  ~ In n unimplemented ->
  exists p, (forall r, access_parse (o ++ r) =
               let* q := parse p [("opcode"%string, VEnum n z)] r in
               Ok (VDict [("opcode"%string, VEnum n z); (lower n, fst q)]))
         /\ (forall x, access_build (VDict [("opcode"%string, VInt z); (lower n, x)]) =
               let* b := build p [("opcode"%string, VEnum n z); ("params"%string, x)] x in Ok (o ++ b)).
Proof.
  intros t c n z o Hf Hm Ho Hn. pose proof (implemented_dec t c n z Hf (member_in _ _ _ Hm)) as Hc.
  rewrite <- in_unimplemented in Hn. apply not_true_iff_false in Hn. rewrite Hn in Hc. apply has_case_find in Hc as (m & p & Hp).
  pose proof (access_no_opcode_name _ _ _ _ Hf Hm) as Hname.
  destruct (access_shape t c Hf) as (cs & Ec). exists p. split.
  - intros r. rewrite (access_parse_family t c n z o r Hf Hm Ho). subst c. unfold parse_msg. cbn [parse cases_of] in *.
    rewrite (opcode_bytes_parse _ _ _ Ho). cbn [bind]. rewrite (member_by_value _ _ _ Hm). cbn [bind].
    assert (parse_case z cs [("opcode"%string, VEnum n z)] r = parse p [("opcode"%string, VEnum n z)] r) as ->.
    { clear - Hp. induction cs as [|m' w c cs IH]; cbn [parse_case find_case] in *; [discriminate|].
      destruct (z =? w); [injection Hp as _ <-; reflexivity | auto]. }
    destruct (parse p _ r) as [[v r']|e|]; cbn [bind fst]; try reflexivity. cbn [dset].
    destruct (String.eqb_spec (lower n) "opcode"); [congruence|reflexivity].
  - intros x. rewrite (access_build_family t c n z _ (VInt z)) by (auto; reflexivity). subst c. unfold build_msg. cbn [build cases_of] in *.
    unfold dgetr at 1. cbn [dget String.eqb Ascii.eqb Bool.eqb bind]. rewrite (int_key_as_int (VInt z) z eq_refl).
    rewrite (member_by_value _ _ _ Hm). cbn [dget]. destruct (String.eqb_spec (lower n) "opcode"); [congruence|].
    rewrite String.eqb_refl. cbn [bind as_intr as_int]. rewrite (opcode_bytes_build _ _ Ho). cbn [bind].
    rewrite (member_by_value _ _ _ Hm). cbn [bind]. now rewrite (build_case_find _ _ _ _ _ _ Hp).
Qed.
Print Assumptions C47_params_carried.
Example C47_ex : member sensor_SensorOpcode "SENSOR_GET" 0x8231 /\ ~ In "SENSOR_GET"%string unimplemented.
Proof. split; [memb|notin]. Qed.
(** the seven others: anything is dropped *)
Theorem C47_dropped_exactly : forall t c n z o, family t c -> member t n z -> opcode_bytes z o -> In n unimplemented ->
  (forall r, access_parse (o ++ r) = Ok (VDict [("opcode"%string, VEnum n z); (lower n, VNone)]))
  /\ (forall op x, as_int op = Some z -> access_build (VDict [("opcode"%string, op); (lower n, x)]) = Ok o).
Proof.
  intros t c n z o Hf Hm Ho Hn. pose proof (implemented_dec t c n z Hf (member_in _ _ _ Hm)) as Hc.
  apply in_unimplemented in Hn. rewrite Hn in Hc. apply no_case_find in Hc.
  pose proof (access_no_opcode_name _ _ _ _ Hf Hm) as Hname.
  destruct (access_shape t c Hf) as (cs & Ec). split.
  - intros r. rewrite (access_parse_family t c n z o r Hf Hm Ho). subst c. unfold parse_msg. cbn [parse cases_of] in *.
    rewrite (opcode_bytes_parse _ _ _ Ho). cbn [bind]. rewrite (member_by_value _ _ _ Hm). cbn [bind].
    assert (parse_case z cs [("opcode"%string, VEnum n z)] r = Ok (VNone, r)) as ->.
    { clear - Hc. induction cs as [|m' w c cs IH]; cbn [parse_case find_case] in *; [reflexivity|].
      destruct (z =? w); [discriminate | auto]. }
    cbn [bind dset]. destruct (String.eqb_spec (lower n) "opcode"); [congruence|reflexivity].
  - intros op x Hop. rewrite (access_build_family t c n z _ op) by (auto; reflexivity). subst c. unfold build_msg. cbn [build cases_of] in *.
    unfold dgetr at 1. cbn [dget String.eqb Ascii.eqb Bool.eqb bind]. rewrite (int_key_as_int op z Hop).
    rewrite (member_by_value _ _ _ Hm). cbn [dget]. destruct (String.eqb_spec (lower n) "opcode"); [congruence|].
    rewrite String.eqb_refl. cbn [bind as_intr as_int]. rewrite (opcode_bytes_build _ _ Ho). cbn [bind].
    rewrite (member_by_value _ _ _ Hm). cbn [bind].
    assert (build_case z cs [("opcode"%string, VEnum n z); ("params"%string, x)] x = Ok []) as ->.
    { generalize [("opcode"%string, VEnum n z); ("params"%string, x)]. clear - Hc. intros ctx.
      induction cs as [|m' w c cs IH]; cbn [build_case find_case] in *; [reflexivity|].
      destruct (z =? w); [discriminate | auto]. }
    cbn [bind]. now rewrite app_nil_r.
Qed.
Print Assumptions C47_dropped_exactly.
Example C47_ex2 : family sensor_SensorOpcode sensor_SensorMessage /\ member sensor_SensorOpcode "SENSOR_COLUMN_GET" 0x8232
  /\ In "SENSOR_COLUMN_GET"%string unimplemented.
Proof. split; [unfold family; simpl; tauto|]. split; [memb|left; reflexivity]. Qed.

(** ** C48: sub-opcodes *)
Definition sub_opcodes : list enum :=
  [debug_DebugSubOpcode; debugV2_DebugV2SubOpcode; el_EmergencyLightingSubOpcode; elt_EmergencyLightingTestSubOpcode;
   gateway_GatewayConfigServerSubOpcode; nds_NetworkDiagnosticServerSubOpcode; nds_NetworkDiagnosticSetupServerSubOpcode;
   rrule_RRuleSchedulerSubOpcode].
(** refuted for the light extended controller: two names, one value *)
Theorem C48_sub_opcodes_distinct_refuted : exists z,
  In ("BULK_LEC_PROPERTY_SET"%string, z) lec_LightExtendedControllerSubOpcode /\
  In ("BULK_LEC_PROPERTY_STATUS"%string, z) lec_LightExtendedControllerSubOpcode.
Proof. exists 6. split; vm_compute; tauto. Qed.
Theorem C48_sub_opcodes_distinct : forall t n1 n2 z, In t sub_opcodes -> In (n1, z) t -> In (n2, z) t -> n1 = n2.
Proof.
  assert (H : forallb (fun t => nodupz (map snd t)) sub_opcodes = true) by (vm_compute; reflexivity).
  rewrite forallb_forall in H. intros t n1 n2 z Ht H1 H2. apply H, nodupz_spec in Ht.
  apply (in_member _ _ _ Ht), member_by_value in H1. apply (in_member _ _ _ Ht), member_by_value in H2.
  rewrite H1 in H2. now injection H2.
Qed.
Print Assumptions C48_sub_opcodes_distinct_refuted.
Print Assumptions C48_sub_opcodes_distinct.
Example C48_ex : In elt_EmergencyLightingTestSubOpcode sub_opcodes /\ (length elt_EmergencyLightingTestSubOpcode >= 4)%nat.
Proof. split; [vm_compute; tauto | vm_compute; lia]. Qed.
