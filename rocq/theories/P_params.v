(** * P_params: an access message is its opcode followed by its parameters (C49).

    [params] lists every message of every family with the declaration of its
    parameters; [sub_params] the sub-messages of the Silvair vendor messages. *)
From Verif Require Import PyVal Bits Utf8 Adapters Construct Size Spec Master AdapterSpec AdapterProofs1 Access AccessProofs Deps Doc P_layout.

Fixpoint nodupcase (seen : list Z) (cs : cases) : bool :=
  match cs with KNil => true | KCons _ z _ cs' => negb (existsb (Z.eqb z) seen) && nodupcase (z :: seen) cs' end.
Lemma case_list_find z cs : forall seen n c, nodupcase seen cs = true -> In (n, z, c) (case_list cs) ->
  ~ In z seen /\ find_case z cs = Some (n, c).
Proof.
  induction cs as [|n' z' c' cs IH]; intros seen n c H Hin; [destruct Hin|]. cbn [nodupcase] in H. apply andb_prop in H as [H1 H2].
  cbn [case_list find_case] in *. destruct Hin as [E | Hin].
  - injection E as -> -> ->. rewrite Z.eqb_refl. split; [|reflexivity]. intros K. apply negb_true_iff in H1.
    assert (existsb (Z.eqb z) seen = true) by (apply existsb_exists; exists z; split; [exact K|apply Z.eqb_refl]). congruence.
  - destruct (IH _ _ _ H2 Hin) as (K1 & K2). split; [intros K; apply K1; now right|].
    destruct (Z.eqb_spec z z'); [|exact K2]. subst. elim K1. now left.
Qed.
Lemma family_cases : forallb (fun p => match snd p with
    | CSwitchStruct _ _ _ _ cs => nodupcase [] cs && forallb (fun q => match by_value (fst p) (snd (fst q)) with Some (VEnum n _) => String.eqb n (fst (fst q)) | _ => false end
                                                              && match deps (snd q) with [] => true | _ => false end) (case_list cs)
    | _ => false end) access_table = true.
Proof. vm_compute. reflexivity. Qed.
Lemma params_family n z c : In (n, z, c) params ->
  exists t cs, family t (CSwitchStruct "opcode" (COpcode t) t "params" cs) /\ member t n z /\ find_case z cs = Some (n, c) /\ deps c = [].
Proof.
  pose proof family_cases as F. pose proof access_shape as S. unfold family in *. unfold params. revert F S. generalize access_table. intros l F S Hin.
  apply in_flat_map in Hin as ([t c0] & Hf & Hin). rewrite forallb_forall in F. specialize (F _ Hf). cbn [snd fst] in *.
  destruct (S _ _ Hf) as (cs & ->). apply andb_prop in F as [F1 F2]. destruct (case_list_find _ _ _ _ _ F1 Hin) as (_ & Fc).
  rewrite forallb_forall in F2. specialize (F2 _ Hin). cbn [fst snd] in F2. apply andb_prop in F2 as [F2 F3].
  destruct (by_value t z) as [v|] eqn:E; [|discriminate]. destruct (by_value_int _ _ _ E) as (n' & -> & _). apply String.eqb_eq in F2. subst n'.
  exists t, cs. repeat split; auto using by_value_member. destruct (deps c); [reflexivity|discriminate].
Qed.
Lemma params_deps n z c : In (n, z, c) params -> deps c = [].
Proof. intros H. destruct (params_family _ _ _ H) as (t & cs & K). tauto. Qed.

(** ** C49: AccessMessage in terms of the declaration of the parameters.
    [x] is the value found under the message's own key. *)
Theorem C49_message_build : forall n z c o m op x, In (n, z, c) params -> opcode_bytes z o ->
  dget "opcode" m = Some op -> as_int op = Some z -> dget (lower n) m = Some x ->
  access_build (VDict m) = let* p := build_msg c x in Ok (o ++ p).
Proof.
  intros n z c o m op x Hin Ho Hop Hz Hx. destruct (params_family _ _ _ Hin) as (t & cs & Hf & Hm & Hc & Hd).
  rewrite (access_build_family _ _ _ _ _ _ Hf Hm Hop Hz). unfold build_msg. cbn [build].
  unfold dgetr at 1. rewrite Hop. cbn [bind]. rewrite (int_key_as_int _ _ Hz), (member_by_value _ _ _ Hm).
  rewrite Hx. cbn [bind as_intr as_int]. rewrite (opcode_bytes_build _ _ Ho). cbn [bind]. rewrite (member_by_value _ _ _ Hm). cbn [bind].
  rewrite (build_case_of _ _ _ _ _ _ Hc). apply bind_ext; [|reflexivity]. apply build_agree. rewrite Hd. apply agree_nil.
Qed.
Theorem C49_message_parse : forall n z c o p, In (n, z, c) params -> opcode_bytes z o ->
  access_parse (o ++ p) = let* u := parse_msg c p in Ok (VDict [("opcode"%string, VEnum n z); (lower n, u)]).
Proof.
  intros n z c o p Hin Ho. destruct (params_family _ _ _ Hin) as (t & cs & Hf & Hm & Hc & Hd).
  rewrite (access_parse_family _ _ _ _ _ _ Hf Hm Ho). unfold parse_msg. cbn [parse]. rewrite (opcode_bytes_parse _ _ _ Ho). cbn [bind].
  rewrite (member_by_value _ _ _ Hm). cbn [bind]. rewrite (parse_case_of _ _ _ _ _ _ Hc).
  rewrite (parse_agree c _ []) by (rewrite Hd; apply agree_nil).
  destruct (parse c [] p) as [[u r]|e|]; cbn [bind]; [|reflexivity..]. cbn [dset].
  destruct (String.eqb_spec (lower n) "opcode") as [e|_]; [|reflexivity]. exfalso. exact (access_no_opcode_name _ _ _ _ Hf Hm e).
Qed.
Print Assumptions C49_message_build.
Print Assumptions C49_message_parse.
(** every message is in the list *)
Theorem C49_params_complete : forall t k kc t' sw cs n z c, family t (CSwitchStruct k kc t' sw cs) -> In (n, z, c) (case_list cs) -> In (n, z, c) params.
Proof. intros. unfold params. apply in_flat_map. eexists. split; [eassumption|]. assumption. Qed.
Print Assumptions C49_params_complete.

(** ** Sub-messages *)
Definition sub_params : list (string * Z * string * Z * con) :=
  flat_map (fun p => match p with
    | (n, z, CSwitchStruct k (CAdapt (AEnum _) (CInt 1 false)) _ _ cs) => if String.eqb k "subopcode" then map (fun q => match q with (sn, sz, c) => (n, z, sn, sz, c) end) (case_list cs) else []
    | _ => [] end) params.
Lemma sub_cases : forallb (fun p => match p with
    | (n, z, CSwitchStruct k (CAdapt (AEnum t') (CInt 1 false)) t _ cs) => if String.eqb k "subopcode" then
        enum_eqb t' t && nodupcase [] cs && forallb (fun q => match by_value t (snd (fst q)) with Some (VEnum n _) => String.eqb n (fst (fst q)) | _ => false end
            && match deps (snd q) with [] => true | _ => false end && (0 <=? snd (fst q)) && (snd (fst q) <? 256) && negb (String.eqb (lower (fst (fst q))) "subopcode")) (case_list cs) else true
    | _ => true end) params = true.
Proof. vm_compute. reflexivity. Qed.
Lemma sub_params_spec n z sn sz c : In (n, z, sn, sz, c) sub_params ->
  exists t sw cs, In (n, z, CSwitchStruct "subopcode" (CAdapt (AEnum t) (CInt 1 false)) t sw cs) params /\ member t sn sz /\ find_case sz cs = Some (sn, c) /\
    deps c = [] /\ 0 <= sz < 256 /\ lower sn <> "subopcode"%string.
Proof.
  pose proof sub_cases as F. unfold sub_params. revert F. generalize params. intros l F Hin.
  apply in_flat_map in Hin as ([[n' z'] c0] & Hf & Hin). rewrite forallb_forall in F. specialize (F _ Hf).
  destruct c0; try destruct Hin. destruct c0; try destruct Hin. destruct a; try destruct Hin. destruct c0; try destruct Hin. destruct n0; try destruct Hin.
  destruct n0; try destruct Hin. destruct sg; try destruct Hin. destruct (String.eqb_spec k "subopcode"); [|destruct Hin]. subst k.
  apply in_map_iff in Hin as ([[sn' sz'] c1] & E & Hin). injection E as -> -> -> -> ->.
  apply andb_prop in F as [F F2]. apply andb_prop in F as [F0 F1]. apply enum_eqb_spec in F0. subst t0. destruct (case_list_find _ _ _ _ _ F1 Hin) as (_ & Fc).
  rewrite forallb_forall in F2. specialize (F2 _ Hin). cbn [fst snd] in F2.
  apply andb_prop in F2 as [F2 G5]. apply andb_prop in F2 as [F2 G4]. apply andb_prop in F2 as [F2 G3]. apply andb_prop in F2 as [G1 G2].
  destruct (by_value t sz) as [v|] eqn:E; [|discriminate]. destruct (by_value_int _ _ _ E) as (n' & -> & _). apply String.eqb_eq in G1. subst n'.
  exists t, sw, cs. split; [exact Hf|]. split; [now apply by_value_member|]. split; [exact Fc|]. split; [destruct (deps c); [reflexivity|discriminate]|].
  split; [lia|]. intros K. rewrite K in G5. discriminate.
Qed.
Theorem C49_submessage_build : forall n z sn sz c o m op p sop x, In (n, z, sn, sz, c) sub_params -> opcode_bytes z o ->
  dget "opcode" m = Some op -> as_int op = Some z -> dget (lower n) m = Some (VDict p) ->
  dget "subopcode" p = Some sop -> as_int sop = Some sz -> dget (lower sn) p = Some x ->
  access_build (VDict m) = let* q := build_msg c x in Ok (o ++ sz :: q).
Proof.
  intros n z sn sz c o m op p sop x Hin Ho Hop Hz Hp Hsop Hsz Hx. destruct (sub_params_spec _ _ _ _ _ Hin) as (t & sw & cs & Hi & Hm & Hc & Hd & Hr & _).
  rewrite (C49_message_build _ _ _ _ _ _ _ Hi Ho Hop Hz Hp). unfold build_msg. cbn [build]. unfold dgetr at 1. rewrite Hsop. cbn [bind].
  rewrite (int_key_as_int _ _ Hsz), (member_by_value _ _ _ Hm), Hx. cbn [bind encode].
  rewrite (enum_encode_int _ (VEnum sn sz) sz eq_refl), (member_by_value _ _ _ Hm). cbn [bind as_intr as_int].
  replace ((int_min 1 false <=? sz) && (sz <=? int_max 1 false)) with true by (unfold int_min, int_max; change (2 ^ (8 * Z.of_nat 1)) with 256; lia).
  cbn [bind]. rewrite (build_case_of _ _ _ _ _ _ Hc). rewrite (build_agree c _ []) by (rewrite Hd; apply agree_nil).
  destruct (build c [] x) as [q|e|]; cbn [bind]; [|reflexivity..]. cbn [to_le app]. rewrite (Z.mod_small sz 256) by lia. reflexivity.
Qed.
Theorem C49_submessage_parse : forall n z sn sz c o q, In (n, z, sn, sz, c) sub_params -> opcode_bytes z o ->
  access_parse (o ++ sz :: q) = let* u := parse_msg c q in
    Ok (VDict [("opcode"%string, VEnum n z); (lower n, VDict [("subopcode"%string, VEnum sn sz); (lower sn, u)])]).
Proof.
  intros n z sn sz c o q Hin Ho. destruct (sub_params_spec _ _ _ _ _ Hin) as (t & sw & cs & Hi & Hm & Hc & Hd & Hr & Hn).
  rewrite (C49_message_parse _ _ _ _ _ Hi Ho). unfold parse_msg. cbn [parse].
  change (sz :: q) with ([sz] ++ q). rewrite (take_app' 1 [sz]) by reflexivity. cbn [bind decode].
  unfold enum_decode. cbn [as_int]. replace (int_of 1 false [sz]) with sz by (unfold int_of; cbn [of_le]; lia). rewrite (member_by_value _ _ _ Hm). cbn [bind].
  rewrite (parse_case_of _ _ _ _ _ _ Hc). rewrite (parse_agree c _ []) by (rewrite Hd; apply agree_nil).
  destruct (parse c [] q) as [[u r]|e|]; cbn [bind]; [|reflexivity..]. cbn [dset].
  destruct (String.eqb_spec (lower sn) "subopcode") as [e|_]; [now elim Hn|reflexivity].
Qed.
Print Assumptions C49_submessage_build.
Print Assumptions C49_submessage_parse.
Example C49_ex_sub : exists c, In ("SILVAIR_EL"%string, 0xEA3601, "EL_STATE_STATUS"%string, 5, c) sub_params.
Proof. eexists. unfold sub_params. apply in_flat_map. exists ("SILVAIR_EL"%string, 0xEA3601, G_el.el_EmergencyLightingParams). split.
  - apply (C49_params_complete G_el.el_EmergencyLightingOpcode "opcode" (COpcode G_el.el_EmergencyLightingOpcode) G_el.el_EmergencyLightingOpcode "params" (KCons "SILVAIR_EL" 0xEA3601 G_el.el_EmergencyLightingParams KNil)); [|now left].
    unfold family. do 21 right. now left.
  - vm_compute. do 5 right. left. reflexivity.
Qed.
