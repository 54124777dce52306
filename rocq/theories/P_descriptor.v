(** * P_descriptor: lists of sensor descriptors (C42). *)
From Verif Require Import PyVal Bits Adapters Construct Size Spec Master AdapterSpec AdapterProofs1 AdapterProofs4
  Access AccessProofs Conform Deps Doc G_properties G_sensor P_layout P_params P_optional P_sensor.
Local Open Scope list_scope.
Local Open Scope Z_scope.

(** A descriptor: short (only the property), or long. *)
Inductive descriptor :=
| Short (pid : Z)
| Long (pid positive negative sampling period interval : Z).
Definition valid (D : descriptor) : Prop :=
  match D with
  | Short p => 0 <= p < 65536
  | Long p a b f m i => 0 <= p < 65536 /\ 0 <= a < 4096 /\ 0 <= b < 4096 /\ 0 <= f < 256 /\ 0 <= m < 256 /\ 0 <= i < 256
  end.
Definition int_at (k : string) (z : Z) (d : dict) : Prop := exists x, dget k d = Some x /\ as_int x = Some z.
Definition long_only : list string :=
  ["sensor_positive_tolerance"; "sensor_negative_tolerance"; "sensor_sampling_funcion"; "sensor_measurement_period"; "sensor_update_interval"]%string.
(** [d] describes [D] (the sampling function's key is spelt like that in the source) *)
Definition describes (d : dict) (D : descriptor) : Prop :=
  dget "optional" d = None /\ dget "minimal" d = None /\
  match D with
  | Short p => int_at "sensor_property_id" p d /\ exists k, In k long_only /\ dget k d = None
  | Long p a b f m i => int_at "sensor_property_id" p d /\ int_at "sensor_positive_tolerance" a d /\ int_at "sensor_negative_tolerance" b d
      /\ int_at "sensor_sampling_funcion" f d /\ int_at "sensor_measurement_period" m d /\ int_at "sensor_update_interval" i d
  end.
(** the property id, as it is reported: the member if there is one *)
Definition pidval (p : Z) (v : val) : Prop := (exists n, member properties_PropertyID n p /\ v = VEnum n p) \/ (unknown p /\ v = VInt p).
Definition told (D : descriptor) (v : val) : Prop :=
  match D with
  | Short p => exists i, pidval p i /\ v = VDict [("sensor_property_id"%string, i)]
  | Long p a b f m t => exists i, pidval p i /\ v = VDict [("sensor_property_id"%string, i); ("sensor_positive_tolerance"%string, VInt a); ("sensor_negative_tolerance"%string, VInt b);
      ("sensor_sampling_funcion"%string, VInt f); ("sensor_measurement_period"%string, VInt m); ("sensor_update_interval"%string, VInt t)]
  end.
Definition is_long (D : descriptor) : bool := match D with Long _ _ _ _ _ _ => true | Short _ => false end.

Lemma pidval_ex p : exists v, pidval p v.
Proof. destruct (value_key_ex p) as (k & i & [(n & M & _ & _) | (U & _)]); unfold pidval; eauto. Qed.
Lemma pid_conf dl eb ep x p i : 0 <= p < 65536 -> as_int x = Some p -> pidval p i -> conf A_spec sensor_SensorPropertyId dl eb ep x i.
Proof.
  unfold sensor_SensorPropertyId. intros R Hx K. assert (F : fits (8 * Z.of_nat 2) false p) by (unfold fits; cbn; lia).
  destruct K as [(n & M & ->) | (U & ->)].
  - apply ci_select1. eapply ci_adapt; [apply (ex_enum _ n p x); [now apply member_by_value|exact Hx]|]. apply ci_int; [reflexivity|exact F].
  - apply ci_select2; [apply ci_int; assumption|]. left. do 4 eexists. split; [reflexivity|]. split; [reflexivity|]. split; [exact Hx|]. now apply unknown_none.
Qed.
Ltac sget := repeat (rewrite dget_dset_neq by discriminate); try eassumption.
Lemma long_conf d p a b f m t i : valid (Long p a b f m t) -> describes d (Long p a b f m t) -> pidval p i ->
  conf A_spec sensor_SensorDescriptorOptional true [] [] (VDict d) (VDict [("sensor_property_id"%string, i); ("sensor_positive_tolerance"%string, VInt a); ("sensor_negative_tolerance"%string, VInt b);
      ("sensor_sampling_funcion"%string, VInt f); ("sensor_measurement_period"%string, VInt m); ("sensor_update_interval"%string, VInt t)]).
Proof.
  intros (Rp & Ra & Rb & Rf & Rm & Rt) (_ & _ & (xp & Gp & Vp) & (xa & Ga & Va) & (xb & Gb & Vb) & (xf & Gf & Vf) & (xm & Gm & Vm) & (xt & Gt & Vt)) K.
  unfold sensor_SensorDescriptorOptional. apply ci_struct.
  change (fapp (struct_fields sensor_SensorDescriptorMinimal) ?x) with (FCons "sensor_property_id" sensor_SensorPropertyId x).
  eapply ci_fcons; [exact Gp | apply (pid_conf _ _ _ _ p); eassumption |].
  cbn [conf_fields]. exists [("sensor_positive_tolerance"%string, VInt a); ("sensor_negative_tolerance"%string, VInt b)]. split.
  { exists xa, (VInt a). split; [sget|]. split; [exists a; split; [exact Va|split; [unfold fits; cbn; lia|reflexivity]]|].
    exists xb, (VInt b). split; [sget|]. split; [exists b; split; [exact Vb|split; [unfold fits; cbn; lia|reflexivity]]|]. reflexivity. }
  exists xf, (VInt f). split; [sget|]. split; [exists f; split; [exact Vf|split; [unfold fits; cbn; lia|reflexivity]]|].
  exists xm, (VInt m). split; [sget|]. split; [exists m; split; [exact Vm|split; [unfold fits; cbn; lia|reflexivity]]|].
  exists xt, (VInt t). split; [sget|]. split; [exists t; split; [exact Vt|split; [unfold fits; cbn; lia|reflexivity]]|]. reflexivity.
Qed.
Lemma short_conf d p i : 0 <= p < 65536 -> int_at "sensor_property_id" p d -> pidval p i ->
  conf A_spec sensor_SensorDescriptorMinimal true [] [] (VDict d) (VDict [("sensor_property_id"%string, i)]).
Proof.
  intros Rp (xp & Gp & Vp) K. unfold sensor_SensorDescriptorMinimal. apply ci_struct.
  eapply ci_fcons; [exact Gp | apply (pid_conf _ _ _ _ p); eassumption |]. apply ci_fnil.
Qed.
Notation item := sensor_SensorDescriptorStatusItem (only parsing).
Lemma item_two : item = Two "optional" (fields_of sensor_SensorDescriptorOptional) "minimal" (fields_of sensor_SensorDescriptorMinimal).
Proof. reflexivity. Qed.
Lemma item_ok : two_ok "optional" (fields_of sensor_SensorDescriptorOptional) "minimal" (fields_of sensor_SensorDescriptorMinimal) = true.
Proof. vm_compute. reflexivity. Qed.
Lemma item_wf : wf false sensor_SensorDescriptorOptional = true /\ wf false sensor_SensorDescriptorMinimal = true /\
  fsz sensor_SensorDescriptorOptional = Some 8%nat /\ fsz sensor_SensorDescriptorMinimal = Some 2%nat.
Proof. repeat split; vm_compute; reflexivity. Qed.

(** *** One descriptor *)
(** reading never fails as long as there are enough octets *)
Lemma take_enough n s : (n <= length s)%nat -> exists a r, take n s = Ok (a, r) /\ s = a ++ r /\ length a = n.
Proof.
  intros H. exists (firstn n s), (skipn n s). unfold take. destruct (Nat.leb_spec n (length s)); [|lia].
  split; [reflexivity|]. split; [symmetry; apply firstn_skipn|]. rewrite firstn_length. lia.
Qed.
Lemma pid_total ctx s : (2 <= length s)%nat -> exists v r, parse sensor_SensorPropertyId ctx s = Ok (v, r) /\ (length s = 2 + length r)%nat.
Proof.
  intros H. destruct (take_enough 2 s H) as (a & r & T & E & L). unfold sensor_SensorPropertyId. generalize properties_PropertyID. intros t.
  cbn [parse parse_alts decode]. rewrite T. cbn [bind].
  match goal with |- context[enum_decode t ?x] => destruct (enum_decode t x) as [v|e|] eqn:D end; cbn [bind].
  - exists v, r. split; [reflexivity|]. subst. rewrite app_length. lia.
  - do 2 eexists. split; [reflexivity|]. subst. rewrite app_length. lia.
  - exfalso. clear -D. unfold enum_decode in D. cbn [as_int] in D. destruct (by_value t _); discriminate D.
Qed.
Lemma int8_total ctx s : (1 <= length s)%nat -> exists v r, parse Int8ul ctx s = Ok (v, r) /\ (length s = 1 + length r)%nat.
Proof.
  intros H. destruct (take_enough 1 s H) as (a & r & T & E & L). cbn [parse]. rewrite T. cbn [bind]. do 2 eexists. split; [reflexivity|]. subst. rewrite app_length. lia.
Qed.
Lemma bytes2bits_len l : length (bytes2bits l) = (8 * length l)%nat.
Proof. induction l as [|b l IH]; [reflexivity|]. unfold bytes2bits in *. cbn [flat_map]. rewrite app_length, IH, to_bits_length. cbn [length]. lia. Qed.
Lemma step_total {A B} (p : res A) (q : A -> res B) e : bind p q = Err e -> (exists a, p = Ok a) -> exists a, p = Ok a /\ q a = Err e.
Proof. intros H (a & ->). eauto. Qed.
Lemma long_total s : (8 <= length s)%nat -> exists u r, parse sensor_SensorDescriptorOptional [] s = Ok (VDict u, r) /\ (length s = 8 + length r)%nat.
Proof.
  intros H. unfold sensor_SensorDescriptorOptional.
  change (fapp (struct_fields sensor_SensorDescriptorMinimal) ?x) with (FCons "sensor_property_id" sensor_SensorPropertyId x).
  destruct (pid_total [] s ltac:(lia)) as (v1 & r1 & P1 & L1). revert P1. generalize sensor_SensorPropertyId. intros c P1.
  cbn [parse parse_fields]. rewrite P1. cbn [bind].
  destruct (take_enough 3 r1 ltac:(lia)) as (a & r2 & T2 & -> & L2). rewrite T2. cbn [bind]. rewrite app_length in L1.
  assert (Lb : length (bytes2bits (rev a)) = 24%nat) by (rewrite bytes2bits_len, rev_length; lia).
  destruct (take_enough 12 (bytes2bits (rev a)) ltac:(lia)) as (b1 & b2 & T3 & E3 & L3). rewrite T3. cbn [bind]. rewrite E3, app_length in Lb.
  destruct (take_enough 12 b2 ltac:(lia)) as (b3 & b4 & T4 & E4 & L4). rewrite T4. cbn [bind]. rewrite E4, app_length in Lb.
  destruct b4; [|cbn [length] in Lb; lia].
  destruct (take_enough 1 r2 ltac:(lia)) as (c1 & r3 & T5 & E5 & L5). cbn [dget String.eqb Ascii.eqb Bool.eqb copy_named]. rewrite T5. cbn [bind]. rewrite E5, app_length in L1.
  destruct (take_enough 1 r3 ltac:(lia)) as (c2 & r4 & T6 & E6 & L6). rewrite T6. cbn [bind]. rewrite E6, app_length in L1.
  destruct (take_enough 1 r4 ltac:(lia)) as (c3 & r5 & T7 & E7 & L7). rewrite T7. cbn [bind]. rewrite E7, app_length in L1.
  do 2 eexists. split; [reflexivity|]. lia.
Qed.
Lemma short_total s : (2 <= length s)%nat -> exists u r, parse sensor_SensorDescriptorMinimal [] s = Ok (VDict u, r) /\ (length s = 2 + length r)%nat.
Proof.
  intros H. unfold sensor_SensorDescriptorMinimal.
  destruct (pid_total [] s ltac:(lia)) as (v1 & r1 & P1 & L1). revert P1. generalize sensor_SensorPropertyId. intros c P1.
  cbn [parse parse_fields]. rewrite P1. cbn [bind]. do 2 eexists. split; [reflexivity|]. lia.
Qed.

(** what a long / short descriptor looks like when received *)
Definition got_long (u : dict) : Prop := dget "_name" u = Some (VStr (cps "optional")) /\ forall k, In k ("sensor_property_id"%string :: long_only) -> has k u.
Definition got_short (u : dict) : Prop := dget "_name" u = Some (VStr (cps "minimal")) /\
  forall k, k <> "_"%string -> k <> "_name"%string -> (has k u <-> k = "sensor_property_id"%string).
Lemma item_parse s : parse item [] s =
  match parse sensor_SensorDescriptorOptional [] s with
  | Ok (VDict u, r) => Ok (VDict (dset "_name" (VStr (cps "optional")) u), r)
  | Ok _ => Err EOther
  | Err _ => match parse sensor_SensorDescriptorMinimal [] s with
             | Ok (VDict u, r) => Ok (VDict (dset "_name" (VStr (cps "minimal")) u), r)
             | Ok _ => Err EOther
             | Err _ => Err EOther
             | Diverge => Diverge
             end
  | Diverge => Diverge
  end.
Proof.
  unfold sensor_SensorDescriptorStatusItem, sensor_SensorDescriptorOptional, sensor_SensorDescriptorMinimal. cbn [parse parse_alts].
  match goal with |- context[parse_fields ?f [] s] => destruct (parse_fields f [] s) as [[u r]|e|] end; cbn [bind]; [reflexivity| |reflexivity].
  match goal with |- context[parse_fields ?f [] s] => destruct (parse_fields f [] s) as [[u r]|e'|] end; reflexivity.
Qed.
Lemma item_kind s v r : parse item [] s = Ok (v, r) -> exists u, v = VDict u /\
  ((dget "_name" u = Some (VStr (cps "optional")) -> got_long u) /\ (dget "_name" u = Some (VStr (cps "minimal")) -> got_short u)).
Proof.
  intros E. assert (P : parse_msg item s = Ok v) by (unfold parse_msg; rewrite E; reflexivity).
  rewrite item_two in P. destruct (two_parse_shape _ _ _ _ item_ok _ _ P) as (u & -> & H). exists u. split; [reflexivity|].
  destruct H as [(N & _ & H) | (N & _ & H)]; split; intros N'; try (rewrite N in N'; discriminate N').
  - split; [exact N|]. intros k Hk. apply H. exact Hk.
  - split; [exact N|]. intros k K1 K2. rewrite (H k K1 K2). cbn. split; [intros [<- | []]; reflexivity | intros ->; now left].
Qed.
Lemma parse_big s : (8 <= length s)%nat -> exists u r, parse item [] s = Ok (VDict u, r) /\ (length s = 8 + length r)%nat /\ got_long u.
Proof.
  intros H. destruct (long_total s H) as (u & r & P & L). assert (Q : parse item [] s = Ok (VDict (dset "_name" (VStr (cps "optional")) u), r)) by (rewrite item_parse, P; reflexivity).
  do 2 eexists. split; [exact Q|]. split; [exact L|]. destruct (item_kind _ _ _ Q) as (u' & E & K & _). injection E as <-. apply K. apply dget_dset_eq.
Qed.
Lemma long_short_err s : (length s < 8)%nat -> exists e, parse sensor_SensorDescriptorOptional [] s = Err e.
Proof. intros H. apply parse_short; [vm_compute; reflexivity|]. replace (minsz sensor_SensorDescriptorOptional) with 8%nat by (vm_compute; reflexivity). exact H. Qed.
Lemma parse_mid s : (2 <= length s < 8)%nat -> exists u r, parse item [] s = Ok (VDict u, r) /\ (length s = 2 + length r)%nat /\ got_short u.
Proof.
  intros [H H']. destruct (short_total s H) as (u & r & P & L). destruct (long_short_err s H') as (e & Pe).
  assert (Q : parse item [] s = Ok (VDict (dset "_name" (VStr (cps "minimal")) u), r)) by (rewrite item_parse, Pe, P; reflexivity).
  do 2 eexists. split; [exact Q|]. split; [exact L|]. destruct (item_kind _ _ _ Q) as (u' & E & _ & K). injection E as <-. apply K. apply dget_dset_eq.
Qed.
Lemma parse_small s : (length s < 2)%nat -> exists e, parse item [] s = Err e.
Proof. intros H. apply parse_short; [vm_compute; reflexivity|]. replace (minsz item) with 2%nat by (vm_compute; reflexivity). exact H. Qed.

Lemma greedy_items : forall fuel s, (length s < fuel)%nat -> exists uL uS r,
  greedy (parse item []) fuel s = Ok (map VDict (uL ++ uS), r) /\ length uL = (length s / 8)%nat /\ length uS = (length s mod 8 / 2)%nat /\ Forall got_long uL /\ Forall got_short uS.
Proof.
  induction fuel as [|fuel IH]; intros s Hf; [lia|]. cbn [greedy].
  destruct (le_lt_dec 8 (length s)) as [H8|H8].
  - destruct (parse_big s H8) as (u & r & P & L & G). rewrite P. destruct (Nat.ltb_spec (length r) (length s)); [|lia].
    destruct (IH r ltac:(lia)) as (uL & uS & r' & E & L1 & L2 & G1 & G2). rewrite E. cbn [bind].
    exists (u :: uL), uS, r'. split; [reflexivity|]. rewrite L. replace (8 + length r)%nat with (length r + 1 * 8)%nat by lia.
    rewrite Nat.div_add, Nat.mod_add by lia. cbn [length]. split; [lia|]. split; [exact L2|]. split; [now constructor|exact G2].
  - destruct (le_lt_dec 2 (length s)) as [H2|H2].
    + destruct (parse_mid s ltac:(lia)) as (u & r & P & L & G). rewrite P. destruct (Nat.ltb_spec (length r) (length s)); [|lia].
      destruct (IH r ltac:(lia)) as (uL & uS & r' & E & L1 & L2 & G1 & G2). rewrite E. cbn [bind].
      rewrite Nat.div_small in L1 by lia. destruct uL; [|discriminate L1]. rewrite Nat.mod_small in L2 by lia.
      exists [], (u :: uS), r'. split; [reflexivity|]. rewrite Nat.div_small, Nat.mod_small by lia. split; [reflexivity|].
      split; [|split; [constructor|now constructor]]. cbn [length]. rewrite L2, L. replace (2 + length r)%nat with (length r + 1 * 2)%nat by lia. rewrite Nat.div_add by lia. lia.
    + destruct (parse_small s H2) as (e & P). rewrite P. exists [], [], s. split; [reflexivity|].
      rewrite Nat.div_small by lia. rewrite Nat.mod_small by lia. rewrite Nat.div_small by lia. repeat split; constructor.
Qed.
Lemma status_parse s : parse_msg sensor_SensorDescriptorStatus s = let* q := greedy (parse item []) (S (length s)) s in Ok (VList (fst q)).
Proof.
  unfold parse_msg, sensor_SensorDescriptorStatus.
  change (parse (CGreedyRange item) [] s) with (let* q := greedy (parse item []) (S (length s)) s in let (l, r) := (q : list val * list Z) in Ok (VList l, r)).
  destruct (greedy (parse item []) (S (length s)) s) as [[l r]| |]; reflexivity.
Qed.

(** *** C42, reception: every sequence of octets is read as long descriptors as long as eight octets are left,
    then as at most three short ones; an odd octet at the end is ignored. *)
Theorem C42_received : forall s, exists uL uS, parse_msg sensor_SensorDescriptorStatus s = Ok (VList (map VDict (uL ++ uS))) /\
  length uL = (length s / 8)%nat /\ length uS = (length s mod 8 / 2)%nat /\ Forall got_long uL /\ Forall got_short uS.
Proof.
  intros s. destruct (greedy_items (S (length s)) s ltac:(lia)) as (uL & uS & r & E & H). exists uL, uS. rewrite status_parse, E. split; [reflexivity|exact H].
Qed.
Print Assumptions C42_received.

(** *** C42, sending *)
Lemma long_missing d k : In k long_only -> dget k d = None -> exists e, build_fields (fields_of sensor_SensorDescriptorOptional) d d = Err e.
Proof.
  intros Hk Nk. change (fields_of sensor_SensorDescriptorOptional) with (FCons "sensor_property_id" sensor_SensorPropertyId
    (FBits 3 (FCons "sensor_positive_tolerance" (CBits 12 false) (FCons "sensor_negative_tolerance" (CBits 12 false) FNil))
    (FCons "sensor_sampling_funcion" Int8ul (FCons "sensor_measurement_period" Int8ul (FCons "sensor_update_interval" Int8ul FNil))))).
  generalize sensor_SensorPropertyId. intros c.
  assert (D : dgetr "sensor_property_id" d <> Diverge) by (unfold dgetr; destruct (dget "sensor_property_id" d); discriminate).
  remember (FCons "sensor_positive_tolerance" (CBits 12 false) (FCons "sensor_negative_tolerance" (CBits 12 false) FNil)) as bs eqn:Eb.
  remember (FCons "sensor_sampling_funcion" Int8ul (FCons "sensor_measurement_period" Int8ul (FCons "sensor_update_interval" Int8ul FNil))) as fs eqn:Ef.
  cbn [build_fields]. apply bind_err2; [exact D|]. intros x. apply bind_err2; [apply build_nodiv|]. intros a. apply bind_err.
  cbn [long_only In] in Hk.
  destruct Hk as [Hk | [Hk | Hk]].
  1-2: apply bind_err; apply missing_f_err; subst bs k; cbn [missing_f]; rewrite ?(dget_dset_neq "sensor_positive_tolerance"), ?(dget_dset_neq "sensor_negative_tolerance") by discriminate; tauto.
  apply bind_err2; [apply build_nodiv_mut|]. intros bits. destruct (bits2bytes bits) as [l [|? ?]]; [|eauto]. apply bind_err. apply missing_f_err. subst fs. cbn [missing_f].
  destruct Hk as [Hk | [Hk | [Hk | []]]]; subst k; tauto.
Qed.
Lemma build_one d D : valid D -> describes d D -> exists s, build item [] (VDict d) = Ok s /\ bytes s /\ length s = (if is_long D then 8 else 2)%nat /\
  forall rest, bytes rest -> (is_long D = false -> (length rest < 6)%nat) -> exists u, parse item [] (s ++ rest) = Ok (u, rest) /\ told D (pub u).
Proof.
  intros V G. destruct item_wf as (W1 & W2 & F1 & F2).
  destruct D as [p | p a b f m t]; cbn [is_long].
  - destruct (pidval_ex p) as (i & K). destruct G as (N1 & N2 & Ip & k & Hk & Nk).
    destruct (proj1 (roundtrip_mut A_spec adapters_ok) _ false true [] [] _ _ W2 (short_conf _ _ _ V Ip K)) as (s & Hs & Us & Ps).
    exists s. split; [|split; [exact Us|split; [exact (build_len _ _ _ _ _ F2 Hs)|]]].
    + change (build item [] (VDict d)) with (build_msg item (VDict d)). rewrite item_two, two_build.
      rewrite (named_form _ _ _ d) by (unfold form_fields; rewrite N1; reflexivity).
      rewrite (named_form _ _ _ d) by (unfold form_fields; rewrite N2; reflexivity).
      destruct (long_missing d k Hk Nk) as (e & Ee).
      unfold build_msg. cbn [build as_dict bind]. rewrite Ee. change (build_fields (fields_of sensor_SensorDescriptorMinimal) d d) with (build sensor_SensorDescriptorMinimal [] (VDict d)).
      rewrite Hs. reflexivity.
    + intros rest Br Lr. destruct (Ps rest [] Br ltac:(discriminate) eq_refl) as (u & Pu & Eu). specialize (Lr eq_refl).
      pose proof (build_len _ _ _ _ _ F2 Hs) as Ls. destruct (long_short_err (s ++ rest)) as (e & Pe); [rewrite app_length; lia|].
      apply pub_dict_inv in Eu as (h & -> & Eh). exists (VDict (dset "_name" (VStr (cps "minimal")) h)). rewrite item_parse, Pe, Pu. split; [reflexivity|].
      rewrite pub_dict, pubd_dset_hidden by reflexivity. rewrite Eh. cbn [told]. eauto.
  - destruct (pidval_ex p) as (i & K). pose proof G as (N1 & N2 & _).
    destruct (proj1 (roundtrip_mut A_spec adapters_ok) _ false true [] [] _ _ W1 (long_conf _ _ _ _ _ _ _ _ V G K)) as (s & Hs & Us & Ps).
    exists s. split; [|split; [exact Us|split; [exact (build_len _ _ _ _ _ F1 Hs)|]]].
    + change (build item [] (VDict d)) with (build_msg item (VDict d)). rewrite item_two, two_build.
      rewrite (named_form _ _ _ d) by (unfold form_fields; rewrite N1; reflexivity).
      change (build_msg (CStruct (fields_of sensor_SensorDescriptorOptional)) (VDict d)) with (build sensor_SensorDescriptorOptional [] (VDict d)). rewrite Hs. reflexivity.
    + intros rest Br _. destruct (Ps rest [] Br ltac:(discriminate) eq_refl) as (u & Pu & Eu).
      apply pub_dict_inv in Eu as (h & -> & Eh). exists (VDict (dset "_name" (VStr (cps "optional")) h)). rewrite item_parse, Pu. split; [reflexivity|].
      rewrite pub_dict, pubd_dset_hidden by reflexivity. rewrite Eh. cbn [told]. eauto.
Qed.
(** a list that can be told apart on the wire: long descriptors, then at most three short ones *)
Definition separable (Ds : list descriptor) : Prop :=
  exists Ls Ss, Ds = Ls ++ Ss /\ Forall (fun D => is_long D = true) Ls /\ Forall (fun D => is_long D = false) Ss /\ (length Ss <= 3)%nat.
Definition size (Ds : list descriptor) : nat := list_sum (map (fun D => if is_long D then 8 else 2)%nat Ds).
Lemma build_all ds Ds : Forall valid Ds -> Forall2 describes ds Ds ->
  exists s, build_msg sensor_SensorDescriptorStatus (VList (map VDict ds)) = Ok s /\ bytes s /\ length s = size Ds.
Proof.
  intros V H. unfold build_msg. change (build sensor_SensorDescriptorStatus [] (VList (map VDict ds))) with (build_list (build item []) (map VDict ds)).
  induction H as [|d D ds Ds Hd _ IH]; [exists []; repeat split; constructor|]. inversion V as [|x y V1 V2]; subst.
  destruct (IH V2) as (s & E & B & L). destruct (build_one _ _ V1 Hd) as (a & Ea & Ba & La & _). exists (a ++ s). cbn [map build_list]. rewrite Ea. cbn [bind]. rewrite E. cbn [bind].
  split; [reflexivity|]. split; [apply Forall_app; auto|]. rewrite app_length, La, L. reflexivity.
Qed.
Lemma separable_tail D Ds : separable (D :: Ds) -> separable Ds /\ (is_long D = false -> (size Ds < 6)%nat).
Proof.
  intros (Ls & Ss & E & HL & HS & N). destruct Ls as [|D' Ls].
  - cbn [app] in E. subst Ss. inversion HS as [|x y H1 H2]; subst. cbn [length] in N. split.
    + exists [], Ds. repeat split; auto; lia.
    + intros _. clear -H2 N. assert (size Ds = 2 * length Ds)%nat; [|lia]. clear N. induction H2 as [|x l Hx _ IH]; [reflexivity|]. change (size (x :: l)) with ((if is_long x then 8 else 2) + size l)%nat. rewrite Hx. cbn [length]. lia.
  - cbn [app] in E. injection E as <- ->. inversion HL as [|x y H1 H2]; subst. split; [exists Ls, Ss; auto|]. intros H. congruence.
Qed.
(** Lists that can be told apart are received as they were sent. *)
Theorem C42_round_trip : forall ds Ds, Forall valid Ds -> Forall2 describes ds Ds -> separable Ds ->
  exists s us, build_msg sensor_SensorDescriptorStatus (VList (map VDict ds)) = Ok s /\ parse_msg sensor_SensorDescriptorStatus s = Ok (VList us) /\ Forall2 (fun D u => told D (pub u)) Ds us.
Proof.
  intros ds Ds V H Sep. unfold build_msg. change (build sensor_SensorDescriptorStatus [] (VList (map VDict ds))) with (build_list (build item []) (map VDict ds)).
  assert (E : exists s us, build_list (build item []) (map VDict ds) = Ok s /\ bytes s /\ length s = size Ds /\ Forall2 (fun D u => told D (pub u)) Ds us /\
     forall fuel, (length s < fuel)%nat -> greedy (parse item []) fuel s = Ok (us, [])).
  { induction H as [|d D ds Ds Hd _ IH].
    - exists [], []. repeat split; try constructor. intros [|fuel] Hf; [inversion Hf|]. cbn [greedy]. destruct (parse_small [] ltac:(cbn; lia)) as (e & ->). reflexivity.
    - inversion V as [|x y V1 V2]; subst. destruct (separable_tail _ _ Sep) as (Sep' & Hsz).
      destruct (IH V2 Sep') as (s & us & E & B & L & T & P). destruct (build_one _ _ V1 Hd) as (a & Ea & Ba & La & Pa).
      destruct (Pa s B ltac:(rewrite L; exact Hsz)) as (u & Pu & Tu).
      exists (a ++ s), (u :: us). cbn [map build_list]. rewrite Ea. cbn [bind]. rewrite E. cbn [bind].
      split; [reflexivity|]. split; [apply Forall_app; auto|]. split; [rewrite app_length, La, L; reflexivity|]. split; [constructor; auto|].
      intros [|fuel] Hf; [inversion Hf|]. cbn [greedy]. rewrite Pu. rewrite app_length in Hf |- *. assert (2 <= length a)%nat by (rewrite La; destruct (is_long D); lia).
      destruct (Nat.ltb_spec (length s) (length a + length s)); [|lia]. rewrite P by lia. reflexivity. }
  destruct E as (s & us & E & _ & _ & T & P). exists s, us. split; [exact E|]. split; [|exact T]. rewrite status_parse, P by lia. reflexivity.
Qed.
Print Assumptions C42_round_trip.
(** And only those: any other list is received as a different one, without an error on either side. *)
Theorem C42_exactly : forall ds Ds, Forall valid Ds -> Forall2 describes ds Ds ->
  exists s us, build_msg sensor_SensorDescriptorStatus (VList (map VDict ds)) = Ok s /\ parse_msg sensor_SensorDescriptorStatus s = Ok (VList us) /\
    (Forall2 (fun D u => told D (pub u)) Ds us <-> separable Ds).
Proof.
  intros ds Ds V H. destruct (build_all ds Ds V H) as (s & E & B & L). destruct (C42_received s) as (uL & uS & P & L1 & L2 & G1 & G2).
  exists s, (map VDict (uL ++ uS)). split; [exact E|]. split; [exact P|]. split.
  - intros T. clear -T G1 G2 L2. rewrite map_app in T. apply Forall2_app_inv_r in T as (Ls & Ss & T1 & T2 & ->). exists Ls, Ss. split; [reflexivity|].
    assert (HK : forall D u, told D (pub (VDict u)) -> (is_long D = true <-> has "sensor_sampling_funcion" u)).
    { intros D u. rewrite pub_dict. intros T. assert (K : has "sensor_sampling_funcion" u <-> has "sensor_sampling_funcion" (pubd u)).
      { unfold has. rewrite dget_pubd by reflexivity. destruct (dget "sensor_sampling_funcion" u); cbn; split; congruence. }
      rewrite K. destruct D; cbn [told is_long] in T |- *; destruct T as (i & _ & T); injection T as ->; unfold has; cbn; split; congruence. }
    split; [|split].
    + clear T2 G2. revert Ls T1. induction G1 as [|u uL [_ Gu] _ IH]; intros Ls T1; inversion T1 as [|D x Ds' y T1a T1b]; subst; constructor; [|auto].
      apply (HK _ _ T1a). apply Gu. cbn. tauto.
    + clear T1 G1. revert Ss T2. clear L2. induction G2 as [|u uS [_ Gu] _ IH]; intros Ss T2; inversion T2 as [|D x Ds' y T2a T2b]; subst; constructor; [|auto].
      destruct (is_long D) eqn:Eq; [|reflexivity]. apply (HK _ _ T2a) in Eq. apply Gu in Eq; discriminate.
    + assert (length Ss = length (map VDict uS)) as T3 by (clear -T2; induction T2; cbn [length]; congruence). clear T2. rename T3 into T2. rewrite map_length in T2. rewrite T2, L2. pose proof (Nat.mod_upper_bound (length s) 8 ltac:(lia)).
      apply Nat.lt_succ_r. apply Nat.div_lt_upper_bound; lia.
  - intros Sep. destruct (C42_round_trip ds Ds V H Sep) as (s' & us & E' & P' & T). rewrite E in E'. injection E' as <-. rewrite P in P'. injection P' as ->. exact T.
Qed.
Print Assumptions C42_exactly.
(** For example, four short descriptors are received as one long one. *)
Definition four_short : val := VList (map (fun z => VDict [("sensor_property_id"%string, VInt z)]) [0x4D; 0x4E; 0x4F; 0x52]).
Theorem C42_four_short_refuted : exists s u, build_msg sensor_SensorDescriptorStatus four_short = Ok s /\ parse_msg sensor_SensorDescriptorStatus s = Ok (VList [VDict u]) /\ got_long u.
Proof.
  exists [0x4D; 0; 0x4E; 0; 0x4F; 0; 0x52; 0]. destruct (C42_received [0x4D; 0; 0x4E; 0; 0x4F; 0; 0x52; 0]) as (uL & uS & P & L1 & L2 & G & _).
  cbn in L1, L2. destruct uS; [|discriminate]. destruct uL as [|u [|u2 uL]]; try discriminate. exists u. split; [vm_compute; reflexivity|]. split; [exact P|]. now inversion G.
Qed.
Print Assumptions C42_four_short_refuted.
(** Non-vacuity: a long and two short descriptors, by enum member and by number. *)
Example C42_case : exists ds Ds, Forall valid Ds /\ Forall2 describes ds Ds /\ separable Ds /\ length Ds = 3%nat.
Proof.
  exists [[("sensor_property_id"%string, VEnum "PRESENT_AMBIENT_LIGHT_LEVEL" 78); ("sensor_positive_tolerance"%string, VInt 7); ("sensor_negative_tolerance"%string, VInt 9);
           ("sensor_sampling_funcion"%string, VInt 1); ("sensor_measurement_period"%string, VInt 2); ("sensor_update_interval"%string, VInt 3)];
          [("sensor_property_id"%string, VInt 79)]; [("sensor_property_id"%string, VInt 0xFFF0)]],
         [Long 78 7 9 1 2 3; Short 79; Short 0xFFF0].
  split; [repeat constructor; cbn; lia|]. split; [|split; [|reflexivity]].
  - repeat constructor; cbn; try (exists "sensor_positive_tolerance"%string; split; [tauto|reflexivity]); eexists; split; reflexivity.
  - exists [Long 78 7 9 1 2 3], [Short 79; Short 0xFFF0]. repeat split; repeat constructor.
Qed.
