(** * C55: a decoded message survives the way through Cap'n Proto.

    tests/test_capnproto.py:497-520: decode, to_camelcase_dict, new_message, to_dict, to_snakecase_dict, build. *)
From Verif Require Import PyVal Bits Float64 FloatX Utf8 Adapters AdapterSpec Construct Size Spec Master Deps Uses Reread P_int P_layout P_params P_access P_property P_sensor AdapterProofs1 Sound SoundAdapt P_sound Vocab Access AccessProofs Names P_names Capnp G_capnp P_capnp P_schema Shape T_capnp P_fits Recode Carry CarryAdapt CarryCheck CarryRt.
From Coq Require Import Lia.
Local Open Scope list_scope.
Local Open Scope Z_scope.

(** what does not survive, beyond what does not fit at all (C54): binary data (keys, labels, hardware addresses, the raw
    composition data page), and the old form of the ARAP list size *)
Local Open Scope string_scope.
Definition capnp_limits : conds :=
  [(["configAppkeyAdd"], Absent); (["configAppkeyUpdate"], Absent); (["configNetkeyAdd"], Absent); (["configNetkeyUpdate"], Absent);
   (["configModelSubscriptionVirtualAddressAdd"], Absent); (["configModelSubscriptionVirtualAddressDelete"], Absent); (["configModelSubscriptionVirtualAddressOverwrite"], Absent);
   (["configCompositionDataStatus"; "twoHundredAndFiftyFifth"], Absent);
   (["silvairDebug"; "arapListSizeStatus"; "old"], Absent);
   (["silvairGateway"; "ethernetMacAddressSet"], Absent)].
Close Scope string_scope.
(** an item of a list of sensor data or descriptors *)
Definition item_carries (sch : schema) (c : con) (tg : target) : bool :=
  wf false c && match c with
  | CSensorData t cs => forallb (fun p => negb (smem (lower (fst p)) ["format"; "length"; sid_name]%string)) t && sndk_ok (adok true) [] false cs && setting sch t cs tg
      && forallb intty (nexts sch tg "format") && forallb intty (nexts sch tg "length") && rtk sch cs tg []
  | _ => snd_ok (adok true) [] false None c && rt sch c tg []
  end.
Definition list_carries (sch : schema) (c : con) (tg : target) : bool :=
  match c, elem tg with CGreedyRange c1, Some t => item_carries sch c1 (TT t) | _, _ => false end.
Definition row_carries (sch : schema) (C0 : conds) (p : string * Z * con) : bool :=
  match p with (n, z, c) => let C := under (camelcase (lower n)) C0 in
    forallb (fun tg1 => here Absent C || (if is_list n then list_carries sch c tg1 else rt sch c tg1 C)) (nexts sch root (camelcase (lower n))) end.
Lemma rows_carry : forallb (row_carries library_schema (capnp_limits ++ schema_limits)) params = true.
Proof. vm_cast_no_check (eq_refl true). Qed.
Lemma opcode_int : forallb intty (nexts library_schema root (camelcase "opcode")) = true.
Proof. vm_cast_no_check (eq_refl true). Qed.
Lemma meets_app C1 C2 v : meets C1 v -> meets C2 v -> meets (C1 ++ C2) v.
Proof. intros H1 H2 p c x Hin. apply in_app_or in Hin as [Hin|Hin]; [now apply H1|now apply H2]. Qed.

Section Top.
Variable sch : schema.
Variable C0 : conds.
Hypothesis rows : forallb (row_carries sch C0) params = true.
Hypothesis op_int : forallb intty (nexts sch root (camelcase "opcode")) = true.
Hypothesis no_params : here Absent (under (camelcase "params") C0) = true.
Lemma none_no tg C u d x (n : string) : hidden n = false -> dget "_name" d = None -> dget n d = Some VNone -> st sch u tg C (VDict d) x -> False.
Proof. intros Hn N G St. apply st_dict in St as (d' & -> & Rel); [|exact N]. specialize (Rel n Hn). rewrite G in Rel. destruct Rel as (tg1 & y & _ & _ & St & _). eapply st_none; eauto. Qed.
Lemma two_name n (a b : val) : hidden n = false -> dget "_name" [("opcode"%string, a); (n, b)] = None.
Proof. intros H. cbn [dget]. change (String.eqb "_name" "opcode") with false. cbv iota. destruct (String.eqb_spec "_name" n) as [E|]; [rewrite <- E in H; discriminate|reflexivity]. Qed.
Lemma two_get n (a b : val) : n <> "opcode"%string -> dget n [("opcode"%string, a); (n, b)] = Some b.
Proof. intros H. cbn [dget]. destruct (String.eqb_spec n "opcode"); [contradiction|]. now rewrite String.eqb_refl. Qed.
Lemma item_rc c tg s v r x : item_carries sch c tg = true -> bytes s -> parse c [] s = Ok (v, r) -> st sch true tg [] v x -> rc c v x.
Proof.
  intros H B P St. unfold item_carries in H. apply andb_prop in H as [W H].
  assert (G : (snd_ok (adok true) [] false None c && rt sch c tg [])%bool = true -> rc c v x).
  { intros K. apply andb_prop in K as [K1 K2]. eapply (use_Rc sch true c false [] false None [] s); eauto; [apply (proj1 (carry_mut sch true))|apply typed_nil|exact Logic.I]. }
  destruct c; lazymatch goal with |- rc (CSensorData _ _) _ _ => clear G | _ => exact (G H) end. andb H. eapply data_rc; eauto. apply typed_nil.
Qed.
Lemma list_top c tg C s v r x : list_carries sch c tg = true -> bytes s -> parse c [] s = Ok (v, r) -> st sch true tg C v x -> rc c v x.
Proof.
  intros H B P St. unfold list_carries in H. destruct c as [| | | | | | | | | | | | |c| | | | | | | | | | | | | | |]; try discriminate. destruct (elem tg) as [t|] eqn:E; [|discriminate]. apply elem_eq in E. subst tg.
  assert (W : wf false c = true) by (unfold item_carries in H; now apply andb_prop in H as [H _]).
  change (parse (CGreedyRange c) [] s) with (let* q := greedy (parse c []) (Datatypes.S (length s)) s in let (l, r) := (q : list val * list Z) in Ok (VList l, r)) in P.
  apply bind_ok in P as ([l r0] & P & E). injection E as <- _.
  pose proof (greedy_elems false _ _ _ _ _ (fun s0 v0 r0 U0 P0 => parse_units c false [] s0 v0 r0 W U0 P0) B P) as F.
  apply st_items in St as (l' & -> & F2). cbn [rc]. exists l, l'. split; [reflexivity|]. split; [reflexivity|]. clear -H F F2.
  induction F2 as [|a b l l' Hab F2 IH]; [constructor|]. inversion_clear F as [|? ? (s1 & r1 & U1 & P1) F']. constructor; [eapply item_rc; eauto|auto].
Qed.
Lemma list_not_scene n : is_list n = true -> is_scene n = false.
Proof. unfold is_list, is_scene. intros H. apply orb_prop in H as [H|H]; apply String.eqb_eq in H; subst n; reflexivity. Qed.
Lemma recode_top s v x : bytes s -> access_parse s = Ok v -> resendable v -> (forall u, lossless u v -> st sch u root C0 v x) -> access_build x = access_build v.
Proof.
  intros B P (d & -> & L & _) HS. destruct (access_shape_of _ _ B P) as (z & o & r & -> & Ho).
  destruct (known_dec z) as [(t & c & n & Hf & Hm) | U].
  - pose proof (access_no_opcode_name _ _ _ _ Hf Hm) as No.
    assert (Hv : hidden (lower n) = false).
    { pose proof (access_wf _ _ Hf) as W. destruct (access_shape t c Hf) as (cs & ->). cbn [wf] in W. andb W. eapply vis_enum_by_value; [eassumption|]. exact (member_by_value _ _ _ Hm). }
    destruct (existsb (String.eqb n) unimplemented) eqn:I.
    { exfalso. apply in_unimplemented in I. destruct (C47_dropped_exactly _ _ _ _ _ Hf Hm Ho I) as (Hp & _). rewrite Hp in P. injection P as <-.
      exact (none_no _ _ _ _ x (lower n) Hv (two_name _ _ _ Hv) (two_get _ _ _ No) (HS _ L)). }
    pose proof (implemented_dec t c n z Hf (member_in _ _ _ Hm)) as Hc. rewrite I in Hc. apply has_case_find in Hc as (n' & p & Hp).
    destruct (access_shape t c Hf) as (cs & ->). cbn [cases_of] in Hp. apply find_case_list in Hp.
    pose proof (C49_params_complete _ _ _ _ _ _ _ _ _ Hf Hp) as Hin.
    assert (n' = n). { destruct (params_family _ _ _ Hin) as (t' & cs' & Hf' & Hm' & _).
      assert (E1 : access_lookup z = Some (VEnum n' z, CSwitchStruct "opcode" (COpcode t') t' "params" cs')) by (apply access_lookup_spec; eauto).
      assert (E2 : access_lookup z = Some (VEnum n z, CSwitchStruct "opcode" (COpcode t) t "params" cs)) by (apply access_lookup_spec; eauto).
      congruence. }
    subst n'. rewrite (C49_message_parse _ _ _ _ _ Hin Ho) in P. destruct (parse_msg p r) as [y| |] eqn:Ex; cbn [bind] in P; try discriminate P. injection P as <-.
    pose proof params_names as F. rewrite forallb_forall in F. specialize (F _ Hin). cbn beta iota in F. apply eqb_prop in F. rename F into F1.
    apply Forall_app in B as (_ & B). set (u := negb (is_scene n)).
    assert (Lu : lossless u (VDict [("opcode"%string, VEnum n z); (lower n, y)])).
    { replace u with (match dget "scene_status" [("opcode"%string, VEnum n z); (lower n, y)] with Some _ => false | None => true end); [exact L|].
      cbn [dget]. change (String.eqb "scene_status" "opcode") with false. cbv iota. unfold u. rewrite <- F1. now destruct (is_scene n). }
    specialize (HS u Lu). apply st_dict in HS as (d' & -> & Rel); [|now apply two_name].
    pose proof (Rel "opcode"%string eq_refl) as R1. cbn [dget] in R1. rewrite String.eqb_refl in R1. destruct R1 as (tg1 & b & Hin1 & G1 & St1 & _).
    assert (I1 : intty tg1 = true) by (rewrite forallb_forall in op_int; now apply op_int). rewrite (st_enum _ _ _ _ _ _ _ I1 St1) in G1.
    pose proof (Rel (lower n) Hv) as R2. rewrite two_get in R2 by exact No. destruct R2 as (tg2 & b2 & Hin2 & G2 & St2 & _).
    rewrite (C49_message_build n z p o d' (VInt z) b2 Hin Ho G1 eq_refl G2).
    rewrite (C49_message_build n z p o [("opcode"%string, VEnum n z); (lower n, y)] (VEnum n z) y Hin Ho eq_refl eq_refl (two_get _ _ _ No)).
    assert (Eb : build_msg p y = build_msg p b2); [|now rewrite Eb].
    pose proof (proj1 (forallb_forall _ _) rows _ Hin) as Rw. pose proof (proj1 (forallb_forall _ _) params_sound _ Hin) as Sp.
    unfold row_carries in Rw. cbv beta iota zeta in Rw. rewrite forallb_forall in Rw. specialize (Rw _ Hin2). cbv beta iota in Sp. apply andb_prop in Sp as [W Sp].
    apply orb_prop in Rw as [A|Rw]; [exfalso; eapply absent_no; eauto|].
    unfold parse_msg in Ex. apply bind_ok in Ex as ([y0 r0] & Ex & E). injection E as ->.
    unfold build_msg. apply (proj1 recode_mut); [|destruct (params_family _ _ _ Hin) as (t' & cs' & _ & _ & _ & ->); intros j []].
    destruct (is_list n) eqn:Il.
    + assert (u = true) by (unfold u; now rewrite list_not_scene). clearbody u. subst u. eapply list_top; eauto.
    + cbn [orb] in Sp. eapply (use_Rc sch u p false [] false None [] r); eauto; [apply (proj1 (carry_mut sch u))|apply typed_nil|exact Logic.I].
  - exfalso. destruct (C02_unknown_opcode_transparent z o r Ho U) as (P' & _). rewrite P' in P. injection P as <-.
    specialize (HS _ L). apply st_dict in HS as (d' & -> & Rel); [|reflexivity]. specialize (Rel "params"%string eq_refl). cbn [dget] in Rel.
    change (String.eqb "params" "opcode") with false in Rel. cbv iota in Rel. rewrite String.eqb_refl in Rel. destruct Rel as (tg1 & y & _ & _ & St & _). exact (absent_no _ _ _ _ _ _ no_params St).
Qed.
End Top.

(** *** The theorem *)
(** What Cap'n Proto gives back for a decoded message that fits, converted to snake case, builds to what the decoded
    message itself builds to - unless a Float32 field lost a step, one of the names of C51 occurs, or it is one of the
    messages of [capnp_limits]. *)
Theorem C55_recode : forall s v w, bytes s -> access_parse s = Ok v -> resendable v -> exact32 v -> (forall k, In k lost_names -> ~ occurs k v) ->
  fits library_schema (TT "AccessMessage") (to_camelcase_dict v) -> meets capnp_limits (to_camelcase_dict v) ->
  returns library_schema (TT "AccessMessage") (to_camelcase_dict v) w ->
  access_build (to_snakecase_dict w) = access_build v.
Proof.
  intros s v w B P Rs X NO F M R. apply (C54_fits s v B P) in F.
  apply (recode_top library_schema (capnp_limits ++ schema_limits) rows_carry opcode_int eq_refl s v _ B P Rs).
  intros u L. constructor; [|exact L|exact X|now apply meets_app|].
  - eapply tidy_only; [exact vocabulary_keeps|exact NO|eapply C51_vocabulary, P].
  - exists w. split; [exact R|reflexivity].
Qed.

(** *** Received again *)
(** ... so the bytes are accepted and received as an equal message (C08), and are the original bytes whenever the decoded
    message builds to them. *)
Corollary C55_received : forall s v w, bytes s -> access_parse s = Ok v -> resendable v -> exact32 v -> (forall k, In k lost_names -> ~ occurs k v) ->
  fits library_schema (TT "AccessMessage") (to_camelcase_dict v) -> meets capnp_limits (to_camelcase_dict v) ->
  returns library_schema (TT "AccessMessage") (to_camelcase_dict v) w ->
  exists s' v', access_build (to_snakecase_dict w) = Ok s' /\ access_parse s' = Ok v' /\ eqv (pub v) (pub v').
Proof.
  intros s v w B P Rs X NO F M R. rewrite (C55_recode s v w B P Rs X NO F M R). exact (C08_access s v B P Rs).
Qed.
Corollary C55_same_bytes : forall s v w, bytes s -> access_parse s = Ok v -> access_build v = Ok s -> resendable v -> exact32 v -> (forall k, In k lost_names -> ~ occurs k v) ->
  fits library_schema (TT "AccessMessage") (to_camelcase_dict v) -> meets capnp_limits (to_camelcase_dict v) ->
  returns library_schema (TT "AccessMessage") (to_camelcase_dict v) w -> access_build (to_snakecase_dict w) = Ok s.
Proof. intros s v w B P E Rs X NO F M R. now rewrite (C55_recode s v w B P Rs X NO F M R). Qed.

(** *** What comes back, computed *)
Definition isint (t : string) : bool := match aget t int_types with Some _ => true | None => false end.
Definition single_rangeb (q : QArith_base.Q) : bool :=
  QArith_base.Qeq_bool q 0 || (QArith_base.Qle_bool (two_pow (-126)) (Qabs.Qabs q) && negb (QArith_base.Qle_bool (two_pow 127) (Qabs.Qabs q))).
Definition first_target (ls : list line) (k : string) : option target := match targets_of ls k with tg :: _ => Some tg | [] => None end.
Fixpoint lookup (sch : schema) (t : string) : option (list line) :=
  match sch with [] => None | (n, Some ls) :: s => if String.eqb n t then Some ls else lookup s t | _ :: s => lookup s t end.
Section Back.
Variable sch : schema.
Fixpoint back (f : nat) (tg : target) (v : val) {struct f} : option val :=
  match f with
  | O => None
  | Datatypes.S f =>
    let go := fix go (ls : list line) (d : dict) : option dict :=
      match d with
      | [] => Some []
      | (k, x) :: d' => match first_target ls k with
          | Some tg1 => match back f tg1 x, go ls d' with Some y, Some e => Some ((k, y) :: e) | _, _ => None end
          | None => None
          end
      end in
    match tg, v with
    | TT t, VBool b => if String.eqb t "Bool" then Some v else None
    | TT t, VInt z => if isint t then Some v else if String.eqb t "Float64" then Some (VFloat (rnd64 (QArith_base.inject_Z z)))
        else if String.eqb t "Float32" && single_rangeb (QArith_base.inject_Z z) then Some (VFloat (rnd32 (rnd64 (QArith_base.inject_Z z)))) else None
    | TT t, VFloat q => if isint t then (if QArith_base.Qeq_bool q (QArith_base.inject_Z (Qround.Qfloor q)) then Some (VInt (Qround.Qfloor q)) else None)
        else if String.eqb t "Float64" then Some v else if String.eqb t "Float32" && single_rangeb q then Some (VFloat (rnd32 q)) else None
    | TT t, VIeee 4 b => if String.eqb t "Float32" then Some v else None
    | TT t, VIeee 8 b => if String.eqb t "Float64" then Some v else None
    | TT t, VStr s => if String.eqb t "Text" then Some v else if String.eqb t "Data" then match utf8_encode s with Some l => Some (VBytes l) | None => None end else None
    | TT t, VList l => match elem tg with
        | Some t1 => match (fix all (l : list val) : option (list val) := match l with [] => Some [] | x :: l' => match back f (TT t1) x, all l' with Some y, Some e => Some (y :: e) | _, _ => None end end) l with
            | Some l' => Some (VList l') | None => None end
        | None => None
        end
    | TT t, VDict d => match lookup sch t with
        | Some ls => if Master.distinct (keys d) then match go ls d with Some e => Some (VDict e) | None => None end else None
        | None => None
        end
    | TU ms, VDict [(k, x)] => match first_target ms k with
        | Some tg1 => match back f tg1 x with Some y => Some (VDict [(k, y)]) | None => None end
        | None => None
        end
    | _, _ => None
    end
  end.
Lemma first_member ls k tg : first_target ls k = Some tg -> member_of ls k tg.
Proof. unfold first_target. destruct (targets_of ls k) as [|t l] eqn:E; [discriminate|]. intros H. injection H as ->. apply targets_member. rewrite E. now left. Qed.
Lemma lookup_In s t ls : lookup s t = Some ls -> In (t, Some ls) s.
Proof. induction s as [|[n [l|]] s IH]; cbn [lookup]; [discriminate| |intros H; right; auto]. destruct (String.eqb_spec n t) as [->|]; intros H; [injection H as ->; now left|right; auto]. Qed.
Lemma isint_ok t : isint t = true -> is_int t.
Proof. unfold isint. destruct (aget t int_types) as [r|] eqn:E; [|discriminate]. intros _. exists r. now apply aget_In. Qed.
Lemma single_rangeb_ok q : single_rangeb q = true -> single_range q.
Proof.
  unfold single_rangeb, single_range. intros H. apply orb_prop in H as [H|H]; [left; now apply QArith_base.Qeq_bool_iff|right]. apply andb_prop in H as [H1 H2]. split; [now apply QArith_base.Qle_bool_iff|].
  apply negb_true_iff in H2. apply QArith_base.Qnot_le_lt. intros K. apply QArith_base.Qle_bool_iff in K. congruence.
Qed.
Lemma back_ok f : forall tg v w, back f tg v = Some w -> returns sch tg v w.
Proof.
  induction f as [|f IH]; intros tg v w H; [discriminate|]. cbn [back] in H. destruct tg as [t|ms].
  - destruct v; try discriminate.
    + destruct (String.eqb_spec t "Bool") as [->|]; [|discriminate]. injection H as <-. constructor.
    + destruct (isint t) eqn:I; [injection H as <-; constructor; now apply isint_ok|].
      destruct (String.eqb_spec t "Float64") as [->|]; [injection H as <-; constructor|]. destruct (String.eqb_spec t "Float32") as [->|]; [|discriminate]. cbn [andb] in H.
      destruct (single_rangeb (QArith_base.inject_Z z)) eqn:R; [|discriminate]. injection H as <-. constructor. now apply single_rangeb_ok.
    + destruct (isint t) eqn:I.
      { destruct (QArith_base.Qeq_bool q (QArith_base.inject_Z (Qround.Qfloor q))) eqn:E; [|discriminate]. injection H as <-. constructor; [now apply isint_ok|now apply QArith_base.Qeq_bool_iff]. }
      destruct (String.eqb_spec t "Float64") as [->|]; [injection H as <-; constructor|]. destruct (String.eqb_spec t "Float32") as [->|]; [|discriminate]. cbn [andb] in H.
      destruct (single_rangeb q) eqn:R; [|discriminate]. injection H as <-. constructor. now apply single_rangeb_ok.
    + assert (K : (width = 4%nat /\ t = "Float32"%string \/ width = 8%nat /\ t = "Float64"%string) /\ w = VIeee width bits).
      { destruct width as [|[|[|[|[|[|[|[|[|]]]]]]]]]; try discriminate; [destruct (String.eqb_spec t "Float32") as [->|]|destruct (String.eqb_spec t "Float64") as [->|]]; try discriminate; injection H as <-; auto. }
      destruct K as [[[-> ->]|[-> ->]] ->]; constructor.
    + destruct (String.eqb_spec t "Text") as [->|]; [injection H as <-; constructor|]. destruct (String.eqb_spec t "Data") as [->|]; [|discriminate].
      destruct (utf8_encode s) as [l|] eqn:E; [|discriminate]. injection H as <-. now constructor.
    + destruct (elem (TT t)) as [t1|] eqn:E; [|discriminate]. apply elem_eq in E. injection E as ->.
      match type of H with match ?g _ with _ => _ end = _ => set (all := g) in H end.
      destruct (all l) as [l'|] eqn:A; [|discriminate]. injection H as <-. constructor. revert l' A. induction l as [|x l IHl]; intros l' A; cbn in A; [injection A as <-; constructor|].
      destruct (back f (TT t1) x) as [y|] eqn:Y; [|discriminate]. destruct (all l) as [e|]; [|discriminate]. injection A as <-. constructor; [now apply IH|now apply IHl].
    + destruct (lookup sch t) as [ls|] eqn:L; [|discriminate]. destruct (Master.distinct (keys d)) eqn:D; [|discriminate]. apply distinct_NoDup in D.
      match type of H with match ?g _ _ with _ => _ end = _ => set (go := g) in H end.
      destruct (go ls d) as [e|] eqn:G; [|discriminate]. injection H as <-.
      assert (K : keys e = keys d /\ forall k x y, In (k, x) d -> In (k, y) e -> exists tg, member_of ls k tg /\ returns sch tg x y).
      { clear L. revert e G. induction d as [|[k x] d IHd]; intros e G; cbn in G; [injection G as <-; split; [reflexivity|intros ? ? ? []]|].
        destruct (first_target ls k) as [tg1|] eqn:T; [|discriminate]. destruct (back f tg1 x) as [y|] eqn:Y; [|discriminate]. destruct (go ls d) as [e'|]; [|discriminate]. injection G as <-.
        cbn [keys map fst] in D. inversion_clear D as [|? ? D1 D2]. destruct (IHd D2 e' eq_refl) as [Ke Re]. unfold keys in *. cbn [map fst]. rewrite Ke. split; [reflexivity|].
        intros j a b [Ea|Ha] [Eb|Hb].
        - injection Ea as -> ->. injection Eb as ->. exists tg1. split; [now apply first_member|now apply IH].
        - injection Ea as -> ->. exfalso. apply D1. rewrite <- Ke. apply in_map_iff. now exists (j, b).
        - injection Eb as -> ->. exfalso. apply D1. apply in_map_iff. now exists (j, a).
        - now apply Re. }
      destruct K as [Ke Re]. apply ret_struct with ls; [now apply lookup_In|now rewrite Ke|intros k; now rewrite Ke|exact Re].
  - destruct v; try discriminate. destruct d as [|[k x] [|]]; try discriminate. destruct (first_target ms k) as [tg1|] eqn:T; [|discriminate].
    destruct (back f tg1 x) as [y|] eqn:Y; [|discriminate]. injection H as <-. apply ret_union with tg1; [exact (first_member _ _ _ T)|exact (IH _ _ _ Y)].
Qed.
End Back.
(** the whole way: decode, convert, put into Cap'n Proto and back, convert, build *)
Definition recoded (s : list Z) : option (res (list Z)) :=
  match access_parse s with
  | Ok v => match back library_schema 30 (TT "AccessMessage") (to_camelcase_dict v) with Some w => Some (access_build (to_snakecase_dict w)) | None => None end
  | _ => None
  end.
Definition res_eq (a b : res (list Z)) : bool := match a, b with Ok x, Ok y => zlist_eqb x y | _, _ => false end.
Definition same_back (s : list Z) : bool := match recoded s with Some r => res_eq r (Ok s) | None => false end.
(** the 314 messages of the project's own test come back as the same bytes *)
Theorem C55_test_messages : forall s, In s capnp_vectors -> exists v w,
  access_parse s = Ok v /\ returns library_schema (TT "AccessMessage") (to_camelcase_dict v) w /\ access_build (to_snakecase_dict w) = Ok s.
Proof.
  assert (H : forallb same_back capnp_vectors = true) by (vm_cast_no_check (eq_refl true)).
  rewrite forallb_forall in H. intros s Hin. specialize (H _ Hin). clear Hin. unfold same_back, recoded in H. destruct (access_parse s) as [v| |]; try discriminate.
  destruct (back library_schema 30 (TT "AccessMessage") (to_camelcase_dict v)) as [w|] eqn:E; [|discriminate]. exists v, w. split; [reflexivity|]. split; [now apply back_ok in E|].
  unfold res_eq in H. destruct (access_build (to_snakecase_dict w)) as [l| |]; try discriminate. apply zlist_eqb_spec in H. now subst.
Qed.
(** Each of the limits is real: a message of that kind, received without error, for which what comes back does not build
    to what the message builds to. *)
Definition key16 : list Z := [1; 2; 3; 4; 5; 6; 7; 8; 9; 10; 11; 12; 13; 14; 15; 16].
Definition recode_beyond : list (list Z) :=
  [[0x00; 1; 2; 3] ++ key16; [0x01; 1; 2; 3] ++ key16; [0x80; 0x40; 1; 2] ++ key16; [0x80; 0x45; 1; 2] ++ key16;
   [0x80; 0x20; 1; 0] ++ key16 ++ [1; 0x10]; [0x80; 0x21; 1; 0] ++ key16 ++ [1; 0x10]; [0x80; 0x22; 1; 0] ++ key16 ++ [1; 0x10];
   [0x02; 255; 1; 2; 3]; [0xF5; 0x36; 0x01; 34; 7; 5]; [0xF0; 0x36; 0x01; 5; 1; 2; 3; 4; 5; 6]].
Definition recode_reached (q : list string * cond * list Z) : bool :=
  bytesb (snd q) && match access_parse (snd q) with
  | Ok v => meetsb schema_limits (to_camelcase_dict v) && match part (fst (fst q)) (to_camelcase_dict v) with Some x => broken (snd (fst q)) x | None => false end
      && match access_build v, recoded (snd q) with Ok s, Some r => negb (res_eq r (Ok s)) | _, _ => false end
  | _ => false end.
Theorem C55_limits_reached : forall p c, In (p, c) capnp_limits -> exists s v x w,
  bytes s /\ access_parse s = Ok v /\ at_path p (to_camelcase_dict v) x /\ ~ holds c x /\
  fits library_schema (TT "AccessMessage") (to_camelcase_dict v) /\ returns library_schema (TT "AccessMessage") (to_camelcase_dict v) w /\
  access_build (to_snakecase_dict w) <> access_build v.
Proof.
  assert (H : forallb recode_reached (combine capnp_limits recode_beyond) = true) by (vm_cast_no_check (eq_refl true)).
  assert (L : map fst (combine capnp_limits recode_beyond) = capnp_limits) by (vm_cast_no_check (eq_refl capnp_limits)).
  intros p c Hin. rewrite <- L in Hin. apply in_map_iff in Hin as ([q s] & E & Hin). cbn [fst] in E. subst q. clear L. rewrite forallb_forall in H. specialize (H _ Hin). clear Hin.
  unfold recode_reached, recoded in H. cbn [fst snd] in H. apply andb_true_iff in H as [B H]. apply bytesb_ok in B. destruct (access_parse s) as [v| |] eqn:Ep; try discriminate.
  apply andb_true_iff in H as [H D]. apply andb_true_iff in H as [M H]. apply meetsb_ok in M. apply (C54_fits s v B Ep) in M.
  destruct (part p (to_camelcase_dict v)) as [x|] eqn:Ex; [|discriminate]. apply part_path in Ex. apply broken_ok in H.
  destruct (access_build v) as [o| |] eqn:Eo; try discriminate. destruct (back library_schema 30 (TT "AccessMessage") (to_camelcase_dict v)) as [w|] eqn:Ew; [|discriminate]. apply back_ok in Ew.
  exists s, v, x, w. do 6 (split; [assumption|]). intros C. rewrite C, Eo in D. apply negb_true_iff in D. change (zlist_eqb o o = false) in D.
  assert (K : zlist_eqb o o = true) by now apply zlist_eqb_spec. congruence.
Qed.
(** The steps and delays named by [exact32] do get lost: sent as GENERIC_ONOFF_SET, they fit, come back, and build to
    other bytes.  (43 tenths, and the delays of C21, are not built to the original bytes in the first place.) *)
Definition differs (s : list Z) : bool :=
  bytesb s && match access_parse s with
  | Ok v => meetsb (capnp_limits ++ schema_limits) (to_camelcase_dict v) && match access_build v, recoded s with Ok o, Some r => zlist_eqb o s && negb (res_eq r (Ok s)) | _, _ => false end
  | _ => false end.
Definition onoff (step delay : Z) : list Z := [0x82; 0x02; 1; 7; step; delay].
Definition onoff_status (step : Z) : list Z := [0x82; 0x04; 0; 1; step].
Lemma differs_ok s : differs s = true -> exists v w, bytes s /\ access_parse s = Ok v /\ access_build v = Ok s /\
  fits library_schema (TT "AccessMessage") (to_camelcase_dict v) /\ meets capnp_limits (to_camelcase_dict v) /\
  returns library_schema (TT "AccessMessage") (to_camelcase_dict v) w /\ access_build (to_snakecase_dict w) <> Ok s.
Proof.
  intros H. unfold differs, recoded in H. apply andb_true_iff in H as [B H]. apply bytesb_ok in B. destruct (access_parse s) as [v| |] eqn:Ep; try discriminate.
  apply andb_true_iff in H as [M D]. apply meetsb_ok in M. destruct (access_build v) as [o| |] eqn:Eo; try discriminate.
  destruct (back library_schema 30 (TT "AccessMessage") (to_camelcase_dict v)) as [w|] eqn:Ew; [|discriminate]. apply back_ok in Ew.
  apply andb_true_iff in D as [E D]. apply zlist_eqb_spec in E. subst o. apply negb_true_iff in D.
  exists v, w. split; [exact B|]. split; [reflexivity|]. split; [exact Eo|].
  split; [apply (C54_fits s v B Ep); intros p c x Hp; apply M, in_or_app; now right|]. split; [intros p c x Hp; apply M, in_or_app; now left|]. split; [exact Ew|].
  intros C. rewrite C in D. change (zlist_eqb s s = false) in D. assert (K : zlist_eqb s s = true) by now apply zlist_eqb_spec. congruence.
Qed.
(** A message that reads and builds as the bytes [s], fits, and comes back from Cap'n Proto as other bytes. *)
Definition changed_by_capnp (s : list Z) : Prop := exists v w, bytes s /\ access_parse s = Ok v /\ access_build v = Ok s /\
  fits library_schema (TT "AccessMessage") (to_camelcase_dict v) /\ meets capnp_limits (to_camelcase_dict v) /\
  returns library_schema (TT "AccessMessage") (to_camelcase_dict v) w /\ access_build (to_snakecase_dict w) <> Ok s.
Theorem C55_steps_lost : forall z, In z lost_steps -> z <> 43 -> changed_by_capnp (onoff_status z).
Proof.
  assert (H : forallb (fun z => Z.eqb z 43 || differs (onoff_status z)) lost_steps = true) by (vm_cast_no_check (eq_refl true)).
  rewrite forallb_forall in H. intros z Hin N. specialize (H _ Hin). cbv beta in H. apply orb_prop in H as [H|H]; [apply Z.eqb_eq in H; contradiction|now apply differs_ok].
Qed.
Theorem C55_delays_lost : forall z, In z lost_delays -> changed_by_capnp (onoff 84 z).
Proof.
  assert (H : forallb (fun z => differs (onoff 84 z)) lost_delays = true) by (vm_cast_no_check (eq_refl true)).
  rewrite forallb_forall in H. intros z Hin. now apply differs_ok, H.
Qed.

(** *** A message that meets every hypothesis *)
Lemma other_delay : forall z, In z lost_delays -> VFloat (1 # 4) <> VFloat (rnd64 (z # 200)).
Proof.
  intros z Hz E. assert (F : forallb (fun z => negb (QArith_base.Qeq_bool (rnd64 (z # 200)) (1 # 4))) lost_delays = true) by (vm_compute; reflexivity).
  rewrite forallb_forall in F. specialize (F _ Hz). revert F E. generalize (rnd64 (z # 200)). intros q F E. injection E as E. subst q. discriminate F.
Qed.
Lemma survives32_other k x : ~ In k ["transition_time"; "remaining_time"; "delay"]%string -> survives32 k x.
Proof. intros N. cbn [In] in N. split; [intros [-> | ->]; exfalso; tauto|intros ->; exfalso; tauto]. Qed.
Ltac other32 := apply survives32_other; cbn [In]; intros K; decompose [or] K; try discriminate; contradiction.
Example C55_case : exists v w, access_parse (onoff 84 50) = Ok v /\ resendable v /\ exact32 v /\ (forall k, In k lost_names -> ~ occurs k v) /\
  fits library_schema (TT "AccessMessage") (to_camelcase_dict v) /\ meets capnp_limits (to_camelcase_dict v) /\
  returns library_schema (TT "AccessMessage") (to_camelcase_dict v) w /\ access_build (to_snakecase_dict w) = Ok (onoff 84 50).
Proof.
  destruct C08_case as (v & Ev & Rs). change [0x82; 0x02; 1; 7; 84; 50] with (onoff 84 50) in Ev.
  assert (B : bytes (onoff 84 50)) by (apply bytesb_ok; reflexivity).
  assert (H : same_back (onoff 84 50) = true) by (vm_cast_no_check (eq_refl true)). unfold same_back, recoded in H. rewrite Ev in H.
  destruct (back library_schema 30 (TT "AccessMessage") (to_camelcase_dict v)) as [w|] eqn:Ew; [|discriminate]. apply back_ok in Ew.
  assert (Eb : access_build (to_snakecase_dict w) = Ok (onoff 84 50)).
  { unfold res_eq in H. destruct (access_build (to_snakecase_dict w)) as [l| |]; try discriminate. apply zlist_eqb_spec in H. now subst. }
  clear H. assert (M : match access_parse (onoff 84 50) with Ok v => meetsb (capnp_limits ++ schema_limits) (to_camelcase_dict v) | _ => false end = true) by (vm_cast_no_check (eq_refl true)).
  rewrite Ev in M. apply meetsb_ok in M.
  exists v, w. split; [exact Ev|]. split; [exact Rs|]. split; [|split; [|split; [|split; [|split; [exact Ew|exact Eb]]]]].
  3:{ apply (C54_fits _ v B Ev). intros p c x Hp. apply M, in_or_app. now right. }
  3:{ intros p c x Hp. apply M, in_or_app. now left. }
  - clear - Ev. revert Ev. set (o := access_parse (onoff 84 50)). vm_compute in o. intros Ev. subst o. injection Ev as <-.
    intros k x H. inversion H as [d k0 x0 Hin E1 E2 E3 | d j y k0 x0 Hin He E1 E2 E3 | ]; subst; clear H.
    + destruct Hin as [E | [E | []]]; injection E as <- <-; other32.
    + destruct Hin as [E | [E | []]]; injection E as <- <-; [inversion He|].
      inversion He as [d k0 x0 Hin E1 E2 E3 | d j y k0 x0 Hin He' E1 E2 E3 | ]; subst; clear He.
      * destruct Hin as [E | [E | [E | [E | [E | []]]]]]; injection E as <- <-; try other32.
        -- split; [|intros E; discriminate E]. intros _ z Hz E. unfold step_value in E. change (0 =? 0) with true in E. cbv iota in E. revert E. generalize (rnd64 (QArith_base.Qmult (QArith_base.inject_Z z) (flit 1 10))). intros q E. discriminate E.
        -- split; [intros [E|E]; discriminate E|]. intros _. exact other_delay.
      * destruct Hin as [E | [E | [E | [E | [E | []]]]]]; injection E as <- <-; inversion He'.
  - clear - Ev. revert Ev. set (o := access_parse (onoff 84 50)). vm_compute in o. intros Ev. subst o. injection Ev as <-.
    intros k [<- | [<- | []]] H; repeat match goal with
    | H : occurs _ (VDict _) |- _ => inversion H; clear H; subst
    | H : occurs _ _ |- _ => now inversion H
    | H : dget _ _ = Some _ |- _ => discriminate H
    | H : In _ _ |- _ => repeat destruct H as [H|H]; [injection H; intros; subst; clear H ..|contradiction H]
    | H : ?a = ?b |- _ => discriminate H
    end.
Qed.
Print Assumptions C55_recode.
Print Assumptions C55_received.
Print Assumptions C55_same_bytes.
Print Assumptions C55_test_messages.
Print Assumptions C55_limits_reached.
Print Assumptions C55_steps_lost.
Print Assumptions C55_delays_lost.
