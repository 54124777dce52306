(** * C36 (continued): a list that may be left out. *)
From Coq Require Import Lia.
From Verif Require Import PyVal Bits Adapters Construct Size Access AccessProofs P_layout P_params G_health.
Local Open Scope list_scope.
Local Open Scope Z_scope.

(** the messages of the health model that report faults *)
Definition fault_reports : list (string * Z) := [("HEALTH_CURRENT_STATUS"%string, 4); ("HEALTH_FAULT_STATUS"%string, 5)].
Definition report_rows : list (string * Z * con) := [("HEALTH_CURRENT_STATUS"%string, 4, health_FaultStatus); ("HEALTH_FAULT_STATUS"%string, 5, health_FaultStatus)].
Lemma reports_at : map (fun i => nth_error params i) [125; 129]%nat = map Some report_rows.
Proof. vm_compute. reflexivity. Qed.
Lemma rows_in {A} (l : list A) is rs : map (fun i => nth_error l i) is = map Some rs -> forall x, In x rs -> In x l.
Proof.
  revert rs. induction is as [|i is IH]; intros [|r rs] E x Hx; try discriminate; [destruct Hx|]. injection E as E1 E2. destruct Hx as [<- | Hx]; [eapply nth_error_In; exact E1 | eauto].
Qed.
Lemma report_in : forall n z, In (n, z) fault_reports -> In (n, z, health_FaultStatus) params /\ opcode_bytes z [z].
Proof.
  intros n z [E | [E | []]]; injection E as <- <-; (split; [apply (rows_in _ _ _ reports_at)|apply ob1; lia]); [left | right; left]; reflexivity.
Qed.
(** the list is absent, None, or empty *)
Definition no_faults (d : dict) : Prop := dget "fault_array" d = None \/ dget "fault_array" d = Some VNone \/ dget "fault_array" d = Some (VList []).
Lemma report_build : forall d t c, dget "test_id" d = Some (VInt t) -> dget "company_id" d = Some (VInt c) -> no_faults d -> 0 <= t < 256 -> 0 <= c < 65536 ->
  build_msg health_FaultStatus (VDict d) = Ok [t; c mod 256; c / 256].
Proof.
  intros d t c Ht Hc Hf Bt Bc. unfold build_msg, health_FaultStatus. cbn [build as_dict bind build_fields]. unfold dgetr at 1. rewrite Ht. cbn [bind build as_intr as_int].
  change (int_min 1 false) with 0. change (int_max 1 false) with 255.
  destruct (Z.leb_spec 0 t); [|lia]. destruct (Z.leb_spec t 255); [|lia]. cbn [andb bind].
  unfold dgetr at 1. rewrite Hc. cbn [bind]. cbn [build as_intr as_int bind]. change (int_min 2 false) with 0. change (int_max 2 false) with 65535.
  destruct (Z.leb_spec 0 c); [|lia]. destruct (Z.leb_spec c 65535); [|lia]. cbn [andb bind].
  assert (E : match dgetn "fault_array" d with VNone => VList [] | y => y end = VList []).
  { unfold dgetn. destruct Hf as [-> | [-> | ->]]; reflexivity. }
  rewrite E. cbn [build iter build_list bind to_le app]. rewrite (Z.mod_small t) by lia. rewrite (Z.mod_small (c / 256)) by (Z.div_mod_to_equations; lia). reflexivity.
Qed.
(** Sent without a list of faults, a report is the opcode, the test and the company; what arrives says that there
    are no faults. *)
Theorem C36_faults_omitted : forall n z m op d t c, In (n, z) fault_reports -> dget "opcode" m = Some op -> as_int op = Some z -> dget (lower n) m = Some (VDict d) ->
  dget "test_id" d = Some (VInt t) -> dget "company_id" d = Some (VInt c) -> no_faults d -> 0 <= t < 256 -> 0 <= c < 65536 ->
  access_build (VDict m) = Ok [z; t; c mod 256; c / 256] /\
  access_parse [z; t; c mod 256; c / 256] =
    Ok (VDict [("opcode"%string, VEnum n z); (lower n, VDict [("test_id"%string, VInt t); ("company_id"%string, VInt c); ("fault_array"%string, VList [])])]).
Proof.
  intros n z m op d t c Hn Hop Hz Hd Ht Hc Hf Bt Bc. destruct (report_in _ _ Hn) as [Hi Ho]. split.
  - rewrite (C49_message_build _ _ _ _ _ _ _ Hi Ho Hop Hz Hd), (report_build _ _ _ Ht Hc Hf Bt Bc). reflexivity.
  - change [z; t; c mod 256; c / 256] with ([z] ++ [t; c mod 256; c / 256]). rewrite (C49_message_parse _ _ _ _ _ Hi Ho).
    assert (E : parse_msg health_FaultStatus [t; c mod 256; c / 256] = Ok (VDict [("test_id"%string, VInt t); ("company_id"%string, VInt c); ("fault_array"%string, VList [])])).
    { unfold parse_msg, health_FaultStatus. cbn -[Z.modulo Z.div Z.mul Z.add]. unfold int_of. cbn [of_le]. do 6 f_equal; [|do 3 f_equal]; f_equal; Z.div_mod_to_equations; lia. }
    rewrite E. reflexivity.
Qed.
Print Assumptions C36_faults_omitted.
Example C36_faults_omitted_ex :
  access_build (VDict [("opcode"%string, VInt 4); ("health_current_status"%string, VDict [("test_id"%string, VInt 1); ("company_id"%string, VInt 310)])]) = Ok [4; 1; 54; 1].
Proof.
  refine (proj1 (C36_faults_omitted "HEALTH_CURRENT_STATUS" 4 [("opcode"%string, VInt 4); ("health_current_status"%string, VDict [("test_id"%string, VInt 1); ("company_id"%string, VInt 310)])]
    (VInt 4) [("test_id"%string, VInt 1); ("company_id"%string, VInt 310)] 1 310 (or_introl eq_refl) eq_refl eq_refl eq_refl eq_refl eq_refl (or_introl eq_refl) _ _)); lia.
Qed.
