(** * C57: variable-length contents follow their grammar. *)
From Verif Require Import PyVal Bits Utf8 Adapters Construct Size Master Sound Shape BitLayout P_int P_layout P_text P_names P_params AccessProofs Access Codes P_codes Grammar GrammarProofs GrammarAccept.
From Verif Require Import Spec AdapterSpec AdapterProofs1 P_ignore.
From Verif Require Import G_config G_rrule G_debugV2 G_debug G_nds G_scene G_property G_sensor G_properties.
From Coq Require Import Lia.
Local Open Scope list_scope.
Local Open Scope Z_scope.

(** ** Numbers with a condition *)
Lemma leaf_number n a p (P : Z -> Prop) : (0 < n)%nat -> (forall w, decode a w = validate p w) -> (forall v, encode a v = validate p v) ->
  (forall z, 0 <= z < 256 ^ Z.of_nat n -> p z = true <-> P z) -> form (CAdapt a (CInt n false)) (FLeaf (number n P)).
Proof.
  intros Hn Hd He Hp. constructor.
  - intros ctx v s (z & -> & Hz & HP & ->). rewrite build_adapt, He. unfold validate. cbn [as_int]. apply Hp in HP; [|exact Hz]. rewrite HP. cbn [bind].
    rewrite (int_build n false ctx z (VInt z)); [now rewrite to_le_mod | reflexivity|]. unfold int_min, int_max. rewrite <- pow2_256. lia.
  - intros ctx s v r B H. rewrite parse_adapt in H. apply bind_ok in H as ([w r'] & E & H). apply bind_ok in H as (x & D & H). injection H as <- <-.
    cbn [parse] in E. apply bind_ok in E as ([a' r0] & E & H). injection H as <- <-. apply take_ok in E as [-> L]. apply Forall_app in B as [Ba _].
    rewrite Hd in D. unfold validate in D. cbn [as_int] in D. destruct (p _) eqn:Ep in D; [|discriminate]. injection D as <-.
    assert (Hz : 0 <= int_of n false a' < 256 ^ Z.of_nat n) by (rewrite <- L; now apply of_le_bound).
    exists a'. split; [reflexivity|]. eexists. split; [reflexivity|]. split; [exact Hz|]. split; [now apply Hp|]. now apply le_of.
  - intros ctx v s r _ (z & -> & Hz & HP & ->). rewrite parse_adapt. cbn [parse]. rewrite take_le. cbn [bind]. rewrite Hd. unfold validate, int_of. cbn [as_int].
    rewrite of_to_le, Z.mod_small by exact Hz. apply Hp in HP; [|exact Hz]. rewrite HP. cbn [bind]. eauto.
  - intros ctx. destruct n; [lia|]. rewrite parse_adapt. eexists. reflexivity.
Qed.
Lemma leaf_address l (P : Z -> Prop) : (forall z, 0 <= z < 65536 -> P z <-> exists k, In k l /\ addr_class k z) -> form (CAdapt (AAddrIn l) (CInt 2 false)) (FLeaf (number 2 P)).
Proof.
  intros H. eapply leaf_number; try reflexivity; [lia|]. intros z Hz. rewrite H by exact Hz. rewrite existsb_exists. split; intros (k & Hk & E); exists k; (split; [exact Hk|]).
  - apply address_type_spec; [exact Hz|]. destruct (get_address_type z), k; try discriminate E; reflexivity.
  - apply address_type_spec in E; [|exact Hz]. rewrite E. destruct k; reflexivity.
Qed.
Lemma leaf_upto hi : form (CAdapt (ARange None (Some hi)) (CInt 1 false)) (FLeaf (number 1 (fun z => z <= hi))).
Proof. eapply leaf_number; try reflexivity; [lia|]. intros z Hz. unfold in_range. cbn. apply Z.leb_le. Qed.

(** ** Property identifiers *)
Lemma property_table : codes_same 2 false properties_PropertyID property_ids = true.
Proof. vm_compute. reflexivity. Qed.
Lemma leaf_property : form sensor_SensorPropertyId (FLeaf property_item).
Proof.
  pose proof property_table as T. unfold sensor_SensorPropertyId. generalize dependent properties_PropertyID. intros t T. constructor.
  - intros ctx v s [(m & z & -> & Hi & ->) | (z & -> & Hz & Hn & ->)]; cbn [build build_alts].
    + destruct (codes_same_out _ _ _ _ _ _ T Hi) as [Hv Hr]. pose proof (enum_build t 2 false ctx m z Hv Hr) as E. rewrite to_le_mod in E. cbn [build] in E. now rewrite E.
    + unfold encode, enum_encode. cbn [int_key as_int].
      assert (Hv : by_value t z = None).
      { destruct (by_value t z) as [w|] eqn:E; [|reflexivity]. destruct (by_value_enum _ _ _ E) as (m & -> & _). exfalso. apply (Hn m). eapply codes_same_in; eassumption. }
      rewrite Hv. cbn [bind]. pose proof (int_build 2 false ctx z (VInt z) eq_refl) as E. rewrite to_le_mod in E. cbn [build] in E. rewrite E by (unfold int_min, int_max; cbn; lia). reflexivity.
  - intros ctx s v r B H. cbn [parse parse_alts] in H.
    destruct (bind (bind (take 2 s) _) _) as [[v1 r1]| |] eqn:E1 in H; [| |discriminate].
    + injection H as -> ->. change (parse (CAdapt (AEnum t) (CInt 2 false)) ctx s = Ok (v, r)) in E1. apply enum_parse in E1 as (m & z & -> & Hv & _ & ->); [|lia|exact B].
      eexists. split; [reflexivity|]. left. exists m, z. rewrite to_le_mod. repeat split. eapply codes_same_in; eassumption.
    + change (match parse (CInt 2 false) ctx s with Ok (x, y) => Ok (x, y) | Err e' => Err EOther | Diverge => Diverge end = Ok (v, r)) in H || idtac.
      destruct (bind (take 2 s) _) as [[v2 r2]| |] eqn:E2 in H; try discriminate. injection H as -> ->. change (parse (CInt 2 false) ctx s = Ok (v, r)) in E2.
      apply int_parse in E2 as (z & -> & Hr & ->); [|lia|exact B]. rewrite to_le_mod in *. eexists. split; [reflexivity|]. right. exists z. split; [reflexivity|].
      split; [unfold int_min, int_max in Hr; cbn in Hr; lia|]. split; [|reflexivity]. intros m Hi. destruct (codes_same_out _ _ _ _ _ _ T Hi) as [Hv _].
      rewrite take_app' in E1 by (rewrite to_le_length; reflexivity). cbn [bind] in E1. unfold decode, enum_decode in E1. cbn [as_int] in E1.
      replace (int_of 2 false (to_le 2 z)) with z in E1 by (unfold int_of; rewrite of_to_le; unfold int_min, int_max in Hr; cbn in Hr |- *; rewrite Z.mod_small by lia; reflexivity).
      rewrite Hv in E1. cbn [bind] in E1. discriminate.
  - intros ctx v s r _ H. cbn [parse parse_alts].
    assert (R : forall z, 0 <= z < 65536 -> take 2 (to_le 2 z ++ r) = Ok (to_le 2 z, r) /\ int_of 2 false (to_le 2 z) = z).
    { intros z Hz. split; [apply take_le|]. unfold int_of. rewrite of_to_le. apply Z.mod_small. exact Hz. }
    destruct H as [(m & z & -> & Hi & ->) | (z & -> & Hz & Hn & ->)].
    + destruct (codes_same_out _ _ _ _ _ _ T Hi) as [Hv Hr]. destruct (R z) as [-> Ez]; [unfold int_min, int_max in Hr; cbn in Hr; lia|]. cbn [bind]. rewrite Ez. unfold decode, enum_decode. cbn [as_int]. rewrite Hv. cbn [bind]. eauto.
    + destruct (R z Hz) as [-> Ez]. cbn [bind]. rewrite Ez. unfold decode, enum_decode. cbn [as_int].
      assert (Hv : by_value t z = None).
      { destruct (by_value t z) as [w|] eqn:E; [|reflexivity]. destruct (by_value_enum _ _ _ E) as (m & -> & _). exfalso. apply (Hn m). eapply codes_same_in; eassumption. }
      rewrite Hv. cbn [bind]. eauto.
  - intros ctx. eexists. reflexivity.
Qed.

(** ** Model relations (composition data page 1) *)
Lemma octet_bits b : to_bits 8 b = bytes2bits [b].
Proof. cbn [bytes2bits flat_map]. now rewrite app_nil_r. Qed.
Lemma head_bits n f p : 0 <= f < 2 -> 0 <= p < 2 -> to_bits 6 n ++ to_bits 1 f ++ to_bits 1 p = bytes2bits [n * 4 + f * 2 + p].
Proof.
  intros Hf Hp. rewrite <- octet_bits. rewrite (to_bits_app 1 1 f p) by exact Hp. change (1 + 1)%nat with 2%nat. rewrite (to_bits_app 6 2 n (f * 2 ^ Z.of_nat 1 + p)) by (change (2 ^ Z.of_nat 1) with 2; change (2 ^ Z.of_nat 2) with 4; lia).
  f_equal. change (2 ^ Z.of_nat 1) with 2. change (2 ^ Z.of_nat 2) with 4. lia.
Qed.
Lemma to_bits_mod n z : to_bits n (z mod 2 ^ Z.of_nat n) = to_bits n z.
Proof. unfold to_bits. now rewrite to_lsb_mod. Qed.
Lemma short_bits i o : to_bits 5 i ++ to_bits 3 o = bytes2bits [i * 8 + o mod 8].
Proof.
  rewrite <- octet_bits, <- (to_bits_mod 3 o). change (2 ^ Z.of_nat 3) with 8. rewrite (to_bits_app 5 3) by (apply Z.mod_pos_bound; reflexivity). reflexivity.
Qed.
Lemma short_sent ctx v b : short_item v b -> build config_ExtendedModelShortFormat ctx v = Ok [b].
Proof.
  intros (i & o & -> & Hi & Ho & ->). unfold config_ExtendedModelShortFormat. cbn [build as_dict bind build_fields]. unfold dgetr. cbn [dget String.eqb Ascii.eqb Bool.eqb bind as_intr as_int].
  destruct (Z.ltb_spec i 0); [lia|]. cbn [andb]. rewrite andb_false_r. cbn [bind]. rewrite app_nil_r, short_bits.
  rewrite bits2bytes_bytes2bits'; [reflexivity|]. constructor; [|constructor]. unfold isbyte. pose proof (Z.mod_pos_bound o 8 eq_refl). lia.
Qed.
Lemma of_bits_to n z : 0 <= z < 2 ^ Z.of_nat n -> of_bits (to_bits n z) = z.
Proof. intros H. rewrite of_to_bits. now apply Z.mod_small. Qed.
Lemma take_bits n z r : take n (to_bits n z ++ r) = Ok (to_bits n z, r).
Proof. apply take_app'. apply to_bits_length. Qed.
Lemma short_received ctx s v r : bytes s -> parse config_ExtendedModelShortFormat ctx s = Ok (v, r) -> exists b, s = b :: r /\ short_item v b.
Proof.
  intros B H. unfold config_ExtendedModelShortFormat in H. destruct s as [|b s]; [discriminate|]. inversion B as [|? ? Hb Bs]; subst. unfold isbyte in Hb.
  pose proof (Z.mod_pos_bound b 8 eq_refl) as Hm. pose proof (Z.div_mod b 8 ltac:(lia)) as Hd.
  change (b :: s) with ([b] ++ s) in H. cbn [parse parse_fields] in H. rewrite bytes2bits_app in H.
  replace b with (b / 8 * 8 + (b mod 8) mod 8) in H at 1 by (rewrite Z.mod_mod by lia; lia). rewrite <- short_bits, <- app_assoc in H.
  rewrite take_bits in H. cbn [bind] in H. rewrite take_bits in H. cbn [bind dset] in H.
  rewrite !of_bits_to in H by (cbn; lia). cbn [String.eqb Ascii.eqb Bool.eqb] in H. rewrite (bits2bytes_bytes2bits' s Bs) in H. injection H as <- <-.
  exists b. split; [reflexivity|]. eexists _, _. split; [reflexivity|]. split; [lia|]. unfold to_signed. change (2 ^ (3 - 1)) with 4. change (2 ^ 3) with 8.
  destruct (Z.ltb_spec (b mod 8) 4); (split; [lia|]).
  - rewrite Z.mod_mod by lia. lia.
  - replace ((b mod 8 - 8) mod 8) with (b mod 8); [lia|]. apply (Z.mod_unique _ _ (-1)); lia.
Qed.
Lemma long_form : form config_ExtendedModelLongFormat long_item.
Proof. unfold config_ExtendedModelLongFormat, long_item. repeat (constructor; try lia). Qed.
Lemma short_list_sent ctx xs l : Forall2 short_item xs l -> build_list (build config_ExtendedModelShortFormat ctx) xs = Ok l.
Proof. induction 1 as [|x b xs l Hx _ IH]; [reflexivity|]. cbn [build_list]. rewrite (short_sent ctx _ _ Hx). cbn [bind]. now rewrite IH. Qed.
Lemma short_list_received ctx n : forall s xs r, bytes s -> times_parse (parse config_ExtendedModelShortFormat ctx) n s = Ok (xs, r) ->
  exists l, s = l ++ r /\ Forall2 short_item xs l /\ length xs = n.
Proof.
  induction n as [|n IH]; intros s xs r B H; cbn [times_parse] in H.
  - injection H as <- <-. exists []. repeat split. constructor.
  - apply bind_ok in H as ([x s1] & E & H). apply bind_ok in H as ([l' r'] & T & H). injection H as <- <-. apply short_received in E as (b & -> & Hx); [|exact B].
    inversion B; subst. destruct (IH _ _ _ ltac:(eassumption) T) as (l & -> & Hl & Hn). exists (b :: l). split; [reflexivity|]. split; [now constructor | cbn; congruence].
Qed.
Lemma enc_same_long xs l : enc_list false long_item xs l -> enc_list true long_item xs l.
Proof.
  revert l. induction xs as [|x xs IH]; intros l H; inversion H; subst; constructor; [|now apply IH].
  match goal with X : enc false _ _ _ |- _ => inversion X as [| | | | | | | | | | | |? d s' He| | | | | |]; subst end. constructor.
  inversion He as [|? ? ? ? x1 d1 a1 s1 H1 He1|]; subst. inversion He1 as [|? ? ? ? x2 d2 a2 s2 H2 He2|]; subst. inversion He2; subst.
  inversion H1; subst. inversion H2; subst. apply enc_plain; [now apply enc_u|]. apply enc_plain; [now apply enc_s|]. apply enc_fnil.
Qed.
Lemma enc_list_bytes xs l : enc_list true long_item xs l -> bytes l.
Proof.
  revert l. induction xs as [|x xs IH]; intros l H; inversion H; subst; [constructor|]. apply Forall_app. split; [|now apply IH].
  match goal with X : enc true _ _ _ |- _ => inversion X as [| | | | | | | | | | | |? d s' He| | | | | |]; subst end.
  inversion He as [|? ? ? ? x1 d1 a1 s1 H1 He1|]; subst. inversion He1 as [|? ? ? ? x2 d2 a2 s2 H2 He2|]; subst. inversion He2; subst.
  inversion H1; subst. inversion H2; subst. apply Forall_app. split; [apply to_le_bytes|]. rewrite app_nil_r. apply to_le_bytes.
Qed.
Lemma short_list_bytes xs l : Forall2 short_item xs l -> bytes l.
Proof.
  induction 1 as [|x b xs l (i & o & _ & Hi & _ & ->) _ IH]; constructor; [|exact IH]. unfold isbyte. pose proof (Z.mod_pos_bound o 8 eq_refl). lia.
Qed.
Lemma short_list_read ctx xs l : Forall2 short_item xs l -> forall r, bytes (l ++ r) -> exists xs', times_parse (parse config_ExtendedModelShortFormat ctx) (length xs) (l ++ r) = Ok (xs', r).
Proof.
  induction 1 as [|x b xs l (i & o & _ & Hi & _ & ->) _ IH]; intros r B; [eexists; reflexivity|]. cbn [length times_parse app]. pose proof (Forall_inv_tail B : bytes (l ++ r)) as B'. destruct (IH r B') as (xs' & E). clear IH.
  assert (Ep : exists x', parse config_ExtendedModelShortFormat ctx (i * 8 + o mod 8 :: l ++ r) = Ok (x', l ++ r)).
  { unfold config_ExtendedModelShortFormat. change (i * 8 + o mod 8 :: l ++ r) with ([i * 8 + o mod 8] ++ l ++ r). cbn [parse parse_fields]. rewrite bytes2bits_app, <- short_bits, <- app_assoc.
    rewrite take_bits. cbn [bind]. rewrite take_bits. cbn [bind]. rewrite (bits2bytes_bytes2bits' _ B'). eauto. }
  destruct Ep as (x' & ->). cbn [bind]. rewrite E. cbn [bind]. eauto.
Qed.
Lemma leaf_relation : form config_ModelRelationItem (FLeaf relation_item).
Proof.
  constructor.
  - intros ctx v s (long & xs & p & id & l & Hn & Hp & -> & Hl & ->). unfold config_ModelRelationItem.
    assert (Hb : bytes l) by (destruct long; [eapply enc_list_bytes; exact Hl | eapply short_list_bytes; exact Hl]).
    assert (E : build_list (build (if long then config_ExtendedModelLongFormat else config_ExtendedModelShortFormat)
       [("extended_items_count"%string, VInt (Z.of_nat (length xs))); ("format"%string, if long then VEnum "LONG" 1 else VEnum "SHORT" 0);
        ("corresponding_present"%string, VInt p); ("corresponding_id"%string, VInt id);
        ("extended_models_items"%string, VDict [((if long then "long" else "short")%string, VList xs)])]) xs = Ok l).
    { destruct long; [|now apply short_list_sent]. eapply list_sent; [|exact Hl]. intros. eapply (proj1 sends_all); [apply long_form | assumption]. }
    revert E. generalize config_ExtendedModelLongFormat config_ExtendedModelShortFormat. intros cl csh E.
    cbn [build as_dict bind build_fields eval]. unfold dgetr. cbn [dget String.eqb Ascii.eqb Bool.eqb bind vlen as_intr as_int].
    destruct (Z.ltb_spec (Z.of_nat (length xs)) 0); [lia|]. cbn [andb bind].
    assert (Hfb : (let* w := encode (AEnum config_ExtendedModelsItemFormat) (if long then VEnum "LONG" 1 else VEnum "SHORT" 0) in let* z := as_intr w in
        if (z <? 0) && negb false then Err EOther else Ok (to_bits 1 z)) = Ok (to_bits 1 (if long then 1 else 0))) by (destruct long; reflexivity).
    rewrite Hfb. clear Hfb. cbn [dset dget String.eqb Ascii.eqb Bool.eqb bind].
    assert (Hf : (if long then 2 else 0) = (if long then 1 else 0) * 2) by (destruct long; reflexivity).
    destruct (Z.ltb_spec p 0); [lia|]. cbn [andb bind truthy].
    replace (int_key (if long then VEnum "LONG" 1 else VEnum "SHORT" 0)) with (Some (if long then 1 else 0)) by (destruct long; reflexivity).
    assert (Et : build (if long then CArray (EGet "extended_items_count") cl else CArray (EGet "extended_items_count") csh)
       [("extended_items_count"%string, VInt (Z.of_nat (length xs))); ("format"%string, if long then VEnum "LONG" 1 else VEnum "SHORT" 0);
        ("corresponding_present"%string, VInt p); ("corresponding_id"%string, VInt id);
        ("extended_models_items"%string, VDict [((if long then "long" else "short")%string, VList xs)])] (VList xs) = Ok l).
    { destruct long; cbn [build eval iter]; unfold dgetr; cbn [dget String.eqb Ascii.eqb Bool.eqb bind as_intr as_int];
        (destruct (Z.leb_spec 0 (Z.of_nat (length xs))); [|lia]); rewrite Z.eqb_refl; exact E. }
    assert (Eid : (if negb (p =? 0) then if (id <? 0) && negb false then Err EOther else Ok (to_bits 8 id) else Ok []) = Ok (bytes2bits (if p =? 1 then [id] else []))).
    { destruct Hp as [[-> Hi] | [-> _]]; [|reflexivity]. cbn [Z.eqb negb]. destruct (Z.ltb_spec id 0); [lia|]. cbn [andb]. now rewrite octet_bits. }
    rewrite Eid. cbn [bind].
    match goal with |- context [find_case (if long then 1 else 0) ?cs] =>
      assert (Ec : match find_case (if long then 1 else 0) cs with
        | Some (n, _) => let* x := match (if String.eqb (lower n) (if long then "long" else "short") then Some (VList xs) else None) with Some v => Ok v | None => Err EKey end in
            build_case (if long then 1 else 0) cs
       [("extended_items_count"%string, VInt (Z.of_nat (length xs))); ("format"%string, if long then VEnum "LONG" 1 else VEnum "SHORT" 0);
        ("corresponding_present"%string, VInt p); ("corresponding_id"%string, VInt id);
        ("extended_models_items"%string, VDict [((if long then "long" else "short")%string, VList xs)])] x
        | None => Err EKey end = Ok l) by (destruct long; exact Et) end.
    rewrite Ec. cbn [bind]. rewrite app_nil_r, <- bytes2bits_app.
    rewrite (app_assoc (to_bits 1 _)), (app_assoc (to_bits 6 _)). rewrite head_bits by (destruct long; lia). rewrite <- bytes2bits_app.
    rewrite bits2bytes_bytes2bits'; [cbn [app]; rewrite Hf; reflexivity|]. constructor; [unfold isbyte; destruct long; lia|].
    apply Forall_app. split; [|exact Hb]. destruct Hp as [[-> Hi] | [-> _]]; repeat constructor; lia.
  - intros ctx s v r B H. destruct s as [|b s]; [discriminate|]. inversion B as [|? ? Hb Bs]; subst. unfold isbyte in Hb.
    pose proof (Z.mod_pos_bound b 2 eq_refl) as Hm. pose proof (Z.div_mod b 2 ltac:(lia)) as Hd.
    pose proof (Z.mod_pos_bound (b / 2) 2 eq_refl) as Hm2. pose proof (Z.div_mod (b / 2) 2 ltac:(lia)) as Hd2.
    set (p := b mod 2) in *. set (f := (b / 2) mod 2) in *. set (n := b / 2 / 2) in *.
    assert (Eb : b = n * 4 + f * 2 + p) by lia. clearbody p f n. subst b.
    unfold config_ModelRelationItem in H. change (n * 4 + f * 2 + p :: s) with ([n * 4 + f * 2 + p] ++ s) in H. cbn [parse] in H. rewrite bytes2bits_app, <- head_bits, <- !app_assoc in H by assumption.
    cbn [parse_fields parse] in H.
    rewrite take_bits in H. cbn [bind dset] in H. rewrite take_bits in H. cbn [bind] in H. rewrite of_bits_to in H by (cbn; lia). rewrite of_bits_to in H by (cbn; lia).
    assert (Hfl : exists long : bool, f = if long then 1 else 0) by (exists (f =? 1); destruct (Z.eqb_spec f 1); lia). destruct Hfl as (long & ->). clear Hd Hm2.
    replace (decode (AEnum config_ExtendedModelsItemFormat) (VInt (if long then 1 else 0))) with (@Ok val (if long then VEnum "LONG" 1 else VEnum "SHORT" 0)) in H by (destruct long; reflexivity).
    cbn [bind dset String.eqb Ascii.eqb Bool.eqb] in H. rewrite take_bits in H. cbn [bind] in H. rewrite of_bits_to in H by (cbn; lia).
    cbn [bind dset String.eqb Ascii.eqb Bool.eqb] in H. unfold dgetr in H. cbn [dget bind String.eqb Ascii.eqb Bool.eqb truthy] in H.
    assert (Hid : exists id s2, (p = 1 /\ 0 <= id < 256 \/ p = 0 /\ id = 0) /\ s = (if p =? 1 then [id] else []) ++ s2 /\
       (if negb (p =? 0) then let* q := take 8 (bytes2bits s) in let (a, r) := q in Ok (VInt (of_bits a), r) else Ok (VInt 0, bytes2bits s)) = Ok (VInt id, bytes2bits s2)).
    { assert (Hp : p = 0 \/ p = 1) by lia. destruct Hp as [-> | ->]; cbn [Z.eqb negb Pos.eqb] in H |- *; [exists 0, s; repeat split; lia|].
      destruct s as [|id s2]; [discriminate H|]. inversion Bs as [|? ? Hi Bs2]; subst. unfold isbyte in Hi. exists id, s2. split; [lia|]. split; [reflexivity|].
      change (id :: s2) with ([id] ++ s2). rewrite bytes2bits_app, <- octet_bits, take_bits. cbn [bind]. now rewrite of_bits_to by (cbn; lia). }
    destruct Hid as (id & s2 & Hp & -> & Ei).
    match type of H with context [if negb (p =? 0) then ?A else ?B] => change (if negb (p =? 0) then A else B) with
       (if negb (p =? 0) then let* q := take 8 (bytes2bits ((if p =? 1 then [id] else []) ++ s2)) in let (a, r) := q in Ok (VInt (of_bits a), r) else Ok (VInt 0, bytes2bits ((if p =? 1 then [id] else []) ++ s2))) in H end.
    rewrite Ei in H. clear Ei. cbn [bind dset String.eqb Ascii.eqb Bool.eqb] in H. apply Forall_app in Bs as [_ Bs]. rewrite (bits2bytes_bytes2bits' s2 Bs) in H. cbn [dget bind String.eqb Ascii.eqb Bool.eqb] in H.
    match type of H with context [parse_case _ _ ?E _] => set (cx := E) in H end.
    assert (Hc : exists xs r2 l, s2 = l ++ r2 /\ length xs = Z.to_nat n /\ (if long then enc_list true long_item xs l else Forall2 short_item xs l) /\
       (let* q := parse (CArray (EGet "extended_items_count") (if long then config_ExtendedModelLongFormat else config_ExtendedModelShortFormat)) cx s2 in
        let (v, r) := q in Ok (VDict [((if long then "long" else "short")%string, v)], r)) = Ok (VDict [((if long then "long" else "short")%string, VList xs)], r2)).
    { destruct long; repeat (apply bind_ok in H as ([? ?] & H & _)).
      - change (parse_case 1 _ cx s2) with (parse (CArray (EGet "extended_items_count") config_ExtendedModelLongFormat) cx s2) in H. cbn [parse eval] in H |- *. unfold dgetr in H |- *. unfold cx in H at 1. unfold cx at 1.
        cbn [dget bind String.eqb Ascii.eqb Bool.eqb as_intr as_int] in H |- *. destruct (Z.ltb_spec n 0); [lia|]. apply bind_ok in H as ([xs r2] & H & _).
        destruct (list_received _ _ (proj1 receives_all _ _ long_form) _ _ _ _ _ Bs H) as (ll & -> & Hl & Hn). rewrite H. cbn [bind].
        exists xs, r2, ll. split; [reflexivity|]. split; [exact Hn|]. split; [now apply enc_same_long | reflexivity].
      - change (parse_case 0 _ cx s2) with (parse (CArray (EGet "extended_items_count") config_ExtendedModelShortFormat) cx s2) in H. cbn [parse eval] in H |- *. unfold dgetr in H |- *. unfold cx in H at 1. unfold cx at 1.
        cbn [dget bind String.eqb Ascii.eqb Bool.eqb as_intr as_int] in H |- *. destruct (Z.ltb_spec n 0); [lia|]. apply bind_ok in H as ([xs r2] & H & _).
        destruct (short_list_received _ _ _ _ _ Bs H) as (ll & -> & Hl & Hn). rewrite H. cbn [bind].
        exists xs, r2, ll. split; [reflexivity|]. split; [exact Hn|]. split; [exact Hl | reflexivity]. }
    destruct Hc as (xs & r2 & l & -> & Hn & Hl & Ec).
    match type of H with bind (bind (bind (bind ?X _) _) _) _ = _ => assert (EX : X = Ok (VDict [((if long then "long" else "short")%string, VList xs)], r2)) by (destruct long; exact Ec) end.
    rewrite EX in H. cbn [bind] in H. rewrite app_nil_r in H. apply Forall_app in Bs as [_ Br]. rewrite (bits2bytes_bytes2bits' r2 Br) in H. injection H as <- <-.
    exists ((n * 4 + (if long then 1 else 0) * 2 + p) :: (if p =? 1 then [id] else []) ++ l). split; [cbn [app]; now rewrite <- app_assoc|].
    assert (En : n = Z.of_nat (length xs)) by (rewrite Hn; destruct long; lia).
    exists long, xs, p, id, l. split; [destruct long; lia|]. split; [exact Hp|]. split; [rewrite <- En; reflexivity|]. split; [exact Hl|]. rewrite <- En. destruct long; reflexivity.
  - intros ctx v s r B (long & xs & p & id & l & Hn & Hp & -> & Hl & ->). unfold config_ModelRelationItem. cbn [as_int].
    remember (Z.of_nat (length xs)) as n eqn:En. assert (Hn64 : 0 <= n < 64) by lia. replace (if long then 2 else 0) with ((if long then 1 else 0) * 2) in * by (destruct long; reflexivity).
    cbn [app] in B |- *. rewrite <- app_assoc in B |- *. pose proof (Forall_inv_tail B) as Bs. clear B.
    change (n * 4 + (if long then 1 else 0) * 2 + p :: (if p =? 1 then [id] else []) ++ l ++ r) with ([n * 4 + (if long then 1 else 0) * 2 + p] ++ (if p =? 1 then [id] else []) ++ l ++ r).
    cbn [parse]. rewrite bytes2bits_app, <- head_bits, <- !app_assoc by (destruct long; lia). cbn [parse_fields parse].
    rewrite take_bits. cbn [bind dset]. rewrite take_bits. cbn [bind]. rewrite (of_bits_to 6 n) by (change (2 ^ Z.of_nat 6) with 64; lia). rewrite (of_bits_to 1 (if long then 1 else 0)) by (change (2 ^ Z.of_nat 1) with 2; destruct long; lia).
    replace (decode (AEnum config_ExtendedModelsItemFormat) (VInt (if long then 1 else 0))) with (@Ok val (if long then VEnum "LONG" 1 else VEnum "SHORT" 0)) by (destruct long; reflexivity).
    cbn [bind dset String.eqb Ascii.eqb Bool.eqb]. rewrite take_bits. cbn [bind]. rewrite of_bits_to by (cbn; lia).
    cbn [bind dset String.eqb Ascii.eqb Bool.eqb]. unfold dgetr. cbn [dget bind String.eqb Ascii.eqb Bool.eqb truthy].
    assert (Ei : (if negb (p =? 0) then let* q := take 8 (bytes2bits ((if p =? 1 then [id] else []) ++ l ++ r)) in let (a, r) := (q : list Z * list Z) in Ok (VInt (of_bits a), r)
       else Ok (VInt 0, bytes2bits ((if p =? 1 then [id] else []) ++ l ++ r))) = Ok (VInt id, bytes2bits (l ++ r))).
    { destruct Hp as [[-> Hi] | [-> ->]]; [|reflexivity]. cbn [Z.eqb negb Pos.eqb]. rewrite bytes2bits_app, <- octet_bits, take_bits. cbn [bind]. now rewrite of_bits_to by (cbn; lia). }
    match goal with |- context [if negb (p =? 0) then ?A else ?B] => change (if negb (p =? 0) then A else B) with
       (if negb (p =? 0) then let* q := take 8 (bytes2bits ((if p =? 1 then [id] else []) ++ l ++ r)) in let (a, r) := (q : list Z * list Z) in Ok (VInt (of_bits a), r)
       else Ok (VInt 0, bytes2bits ((if p =? 1 then [id] else []) ++ l ++ r))) end.
    rewrite Ei. clear Ei. cbn [bind]. apply Forall_app in Bs as [_ Bs]. rewrite (bits2bytes_bytes2bits' _ Bs).
    match goal with |- context [parse_case _ _ ?E _] => set (cx := E) end.
    assert (Hc : exists x', (let* q := parse (CArray (EGet "extended_items_count") (if long then config_ExtendedModelLongFormat else config_ExtendedModelShortFormat)) cx (l ++ r) in
        let (v, r) := (q : val * list Z) in Ok (VDict [((if long then "long" else "short")%string, v)], r)) = Ok (x', r)).
    { cbn [parse eval]. unfold dgetr. unfold cx at 1. cbn [dget bind String.eqb Ascii.eqb Bool.eqb as_intr as_int]. destruct (Z.ltb_spec n 0); [lia|]. rewrite En, Nat2Z.id. destruct long.
      - destruct (list_read _ _ (proj1 (proj1 accepts_all _ _ long_form) eq_refl) true cx _ _ _ Bs Hl) as (l' & -> & _). cbn [bind]. eauto.
      - destruct (short_list_read cx _ _ Hl r Bs) as (l' & ->). cbn [bind]. eauto. }
    destruct Hc as (x' & Ec).
    match goal with |- context [bind (bind (bind (bind ?X _) _) _) _] => assert (EX : X = Ok (x', r)) by (destruct long; exact Ec) end.
    rewrite EX. cbn [bind]. rewrite app_nil_r. apply Forall_app in Bs as [_ Br]. rewrite (bits2bytes_bytes2bits' r Br). eauto.
  - intros ctx. eexists. reflexivity.
Qed.

(** ** The declarations follow the grammars *)
Definition rows : list (string * Z * con) :=
  [("SILVAIR_RRULE_SCHEDULER", 0xE83601, rrule_RRuleSchedulerSubMessage); ("SILVAIR_DEBUG_V2", 0xEB3601, debugV2_DebugV2SubMessage);
   ("CONFIG_COMPOSITION_DATA_STATUS", 2, config_ConfigCompositionDataStatus);
   ("CONFIG_SIG_MODEL_SUBSCRIPTION_LIST", 0x802A, config_ConfigSIGModelSubscriptionList);
   ("CONFIG_VENDOR_MODEL_SUBSCRIPTION_LIST", 0x802C, config_ConfigVendorModelSubscriptionList);
   ("SCENE_REGISTER_STATUS", 0x8245, scene_SceneRegisterStatus);
   ("GENERIC_USER_PROPERTIES_STATUS", 0x4B, property_GenericPropertiesStatus); ("GENERIC_ADMIN_PROPERTIES_STATUS", 0x47, property_GenericPropertiesStatus);
   ("GENERIC_MANUFACTURER_PROPERTIES_STATUS", 0x43, property_GenericPropertiesStatus); ("GENERIC_CLIENT_PROPERTIES_STATUS", 0x50, property_GenericPropertiesStatus);
   ("SENSOR_SETTINGS_STATUS", 0x58, sensor_SensorSettingsStatus)]%string.
Lemma rows_at : map (fun i => nth_error params i) [173; 172; 10; 66; 70; 143; 175; 181; 187; 193; 154]%nat = map Some rows.
Proof. vm_compute. reflexivity. Qed.
Lemma nth_rows {A} (l : list A) is rs : map (fun i => nth_error l i) is = map Some rs -> forall x, In x rs -> In x l.
Proof.
  revert rs. induction is as [|i is IH]; intros [|r rs] E x Hx; try discriminate; [destruct Hx|]. injection E as E1 E2. destruct Hx as [<- | Hx]; [eapply nth_error_In; exact E1 | eauto].
Qed.
Ltac follow := lazymatch goal with |- form ?c ?f => let f' := eval hnf in f in change (form c f'); lazymatch f' with
  | FU _ => apply form_u | FS _ => apply form_s; lia | FFloat _ => apply form_float | FBlob => apply form_blob | FText => apply form_text | FAll => apply form_all
  | FE _ _ => apply form_e; [lia | vm_compute; reflexivity]
  | FWord _ _ => apply form_word; [repeat constructor | reflexivity | vm_compute; reflexivity]
  | FCount _ => apply form_count; follow | FRest _ => apply form_rest; follow | FRestSet _ => apply form_set; [follow | reflexivity]
  | FRec _ => apply form_rec; [follow_fields | vm_compute; reflexivity]
  | FForms _ _ _ _ _ => apply form_forms; [follow_fields | follow_fields | vm_compute; reflexivity ..]
  | FCase _ _ _ => apply form_case; [follow_cases | vm_compute; reflexivity | reflexivity]
  | FOwn _ _ => apply form_own; [follow_cases | vm_compute; reflexivity]
  | FLeaf property_item => exact leaf_property | FLeaf relation_item => exact leaf_relation
  | FLeaf (number 1 _) => apply leaf_upto
  | FLeaf (number 2 _) => apply leaf_address; intros ? ?; unfold addr_class; split; [intros; exists UNICAST; split; [now left | lia] | intros (k & Hk & Ha); cbn [In] in Hk; destruct k; try (exfalso; intuition discriminate); lia ]
  end end
with follow_fields := lazymatch goal with
  | |- form_fields _ ?fs ?l => let l' := eval hnf in l in let fs' := eval hnf in fs in lazymatch l' with
    | [] => apply ff_nil
    | ?q :: _ => let fl := eval hnf in (snd q) in lazymatch fl with
      | Items _ _ => apply ff_items; [follow | follow_fields]
      | _ => lazymatch fs' with FRebuild _ _ _ _ => eapply ff_number; [repeat first [left; reflexivity | right] | follow_fields] | _ => apply ff_plain; [follow | follow_fields] end
      end
    end end
with follow_cases := lazymatch goal with |- form_cases _ ?l => let l' := eval hnf in l in lazymatch l' with [] => apply fk_nil | _ => apply fk_cons; [follow | follow_cases | vm_compute; reflexivity] end end.
Lemma f_rrule : form rrule_RRuleSchedulerSubMessage rrule. Proof. follow. Qed.
Lemma f_debug : form debugV2_DebugV2SubMessage debug_v2. Proof. follow. Qed.
Lemma f_composition : form config_ConfigCompositionDataStatus composition. Proof. follow. Qed.
Lemma f_sig : form config_ConfigSIGModelSubscriptionList (subscription_list sig_model). Proof. follow. Qed.
Lemma f_vendor : form config_ConfigVendorModelSubscriptionList (subscription_list vendor_model). Proof. follow. Qed.
Lemma f_scenes : form scene_SceneRegisterStatus (plain [("status_code", FE 1 scene_status_codes); ("current_scene", FU 2); ("scenes", FRest (FU 2))]%string). Proof. follow. Qed.
Lemma f_properties : form property_GenericPropertiesStatus property_list. Proof. follow. Qed.
Lemma f_settings : form sensor_SensorSettingsStatus (plain [("sensor_property_id", property_id); ("sensor_setting_property_ids", FRest property_id)]%string). Proof. follow. Qed.
Lemma f_all : Forall2 (fun r g => fst r = fst g /\ form (snd r) (snd g)) rows grammars.
Proof.
  repeat (apply Forall2_cons; [split; [reflexivity|]; cbn [snd];
    first [exact f_rrule | exact f_debug | exact f_composition | exact f_sig | exact f_vendor | exact f_scenes | exact f_properties | exact f_settings]|]). apply Forall2_nil.
Qed.
Lemma Forall2_right {A B} (R : A -> B -> Prop) l l' : Forall2 R l l' -> forall y, In y l' -> exists x, In x l /\ R x y.
Proof. induction 1 as [|x y l l' H _ IH]; intros w Hw; [destruct Hw|]. destruct Hw as [<- | Hw]; [exists x; split; [now left | exact H]|]. destruct (IH _ Hw) as (z & Hz & E). exists z. split; [now right | exact E]. Qed.
Lemma grammar_form n z f : In (n, z, f) grammars -> exists c, In (n, z, c) params /\ form c f.
Proof.
  intros H. destruct (Forall2_right _ _ _ f_all _ H) as ([[n' z'] c] & Hr & E & Hc). cbn [fst snd] in E, Hc. injection E as -> ->. exists c. split; [|exact Hc].
  exact (nth_rows _ _ _ rows_at _ Hr).
Qed.
Definition sub_rows : list (string * Z * string * Z * con) :=
  [("SILVAIR_DEBUG", 0xF53601, "ARAP_LIST_CONTENT_STATUS", 36, debug_ArapListContentStatus);
   ("SILVAIR_NDS", 0xFC3601, "SUBSCRIPTION_STATUS", 3, nds_NetworkDiagnosticServerSubscriptionStatus)]%string.
Lemma sub_rows_at : map (fun i => nth_error sub_params i) [30; 45]%nat = map Some sub_rows.
Proof. vm_compute. reflexivity. Qed.
Lemma f_any_unicast : form config_UnicastUnassignedAddress unicast_or_none.
Proof.
  apply leaf_address. intros z Hz. unfold addr_class. split.
  - intros H. destruct (Z.eq_dec z 0); [exists UNASSIGNED | exists UNICAST]; cbn [In]; (split; [auto | lia]).
  - intros (k & Hk & Ha). destruct Hk as [<- | [<- | []]]; lia.
Qed.
Lemma f_destination : form config_UnicastUnassignedGroupAddress (FLeaf (number 2 (fun z => 0 <= z < 0x8000 \/ 0xC000 <= z < 0xFF00))).
Proof.
  apply leaf_address. intros z Hz. unfold addr_class. split.
  - intros H. destruct (Z.eq_dec z 0); [exists UNASSIGNED | destruct (Z.ltb_spec z 0x8000); [exists UNICAST | exists GROUP]]; cbn [In]; (split; [auto | lia]).
  - intros (k & Hk & Ha). destruct Hk as [<- | [<- | [<- | []]]]; lia.
Qed.
Ltac follow_nds := first [exact f_any_unicast | exact f_destination | follow].
Lemma f_sub_all : Forall2 (fun r g => fst r = fst g /\ form (snd r) (snd g)) sub_rows sub_grammars.
Proof.
  apply Forall2_cons; [split; [reflexivity|]; cbn [snd]; follow|]. apply Forall2_cons; [|apply Forall2_nil]. split; [reflexivity|]. cbn [snd].
  apply form_rec; [|vm_compute; reflexivity]. apply ff_plain; [exact f_destination|]. apply ff_plain; [follow|]. apply ff_plain; [follow|]. apply ff_plain; [|apply ff_nil].
  apply form_rest. apply form_rec; [|vm_compute; reflexivity]. apply ff_plain; [exact f_any_unicast|]. follow_fields.
Qed.
Lemma sub_grammar_form n z sn sz f : In (n, z, sn, sz, f) sub_grammars -> exists c, In (n, z, sn, sz, c) sub_params /\ form c f.
Proof.
  intros H. destruct (Forall2_right _ _ _ f_sub_all _ H) as ([[[[n' z'] sn'] sz'] c] & Hr & E & Hc). cbn [fst snd] in E, Hc. injection E as -> -> -> ->. exists c. split; [|exact Hc].
  exact (nth_rows _ _ _ sub_rows_at _ Hr).
Qed.

(** ** C57 *)
(** Parameters that fit the grammar are sent as the octets the grammar gives for them. *)
Theorem C57_sent : forall n z f o m op v s, In (n, z, f) grammars -> opcode_bytes z o -> enc true f v s ->
  dget "opcode" m = Some op -> as_int op = Some z -> dget (lower n) m = Some v -> access_build (VDict m) = Ok (o ++ s).
Proof.
  intros n z f o m op v s Hg Ho He Hop Hz Hv. destruct (grammar_form _ _ _ Hg) as (c & Hc & Hf).
  rewrite (C49_message_build _ _ _ _ _ _ _ Hc Ho Hop Hz Hv). unfold build_msg. rewrite (proj1 sends_all _ _ Hf [] _ _ He). reflexivity.
Qed.
(** What is received follows the grammar: the parameters and the octets they were read from (octets may be left over at the end). *)
Theorem C57_received : forall n z f o s u, In (n, z, f) grammars -> opcode_bytes z o -> bytes s -> access_parse (o ++ s) = Ok u ->
  exists v p r, s = p ++ r /\ u = VDict [("opcode"%string, VEnum n z); (lower n, v)] /\ enc false f v p.
Proof.
  intros n z f o s u Hg Ho B H. destruct (grammar_form _ _ _ Hg) as (c & Hc & Hf).
  rewrite (C49_message_parse _ _ _ _ _ Hc Ho) in H. apply bind_ok in H as (v & E & H). injection H as <-. unfold parse_msg in E. apply bind_ok in E as ([v' r] & E & E'). injection E' as ->.
  destruct (proj1 receives_all _ _ Hf _ _ _ _ B E) as (p & -> & He). eauto 6.
Qed.
Theorem C57_sub_sent : forall n z sn sz f o m op p sop v s, In (n, z, sn, sz, f) sub_grammars -> opcode_bytes z o -> enc true f v s ->
  dget "opcode" m = Some op -> as_int op = Some z -> dget (lower n) m = Some (VDict p) -> dget "subopcode" p = Some sop -> as_int sop = Some sz -> dget (lower sn) p = Some v ->
  access_build (VDict m) = Ok (o ++ sz :: s).
Proof.
  intros n z sn sz f o m op p sop v s Hg Ho He Hop Hz Hp Hsop Hsz Hv. destruct (sub_grammar_form _ _ _ _ _ Hg) as (c & Hc & Hf).
  rewrite (C49_submessage_build _ _ _ _ _ _ _ _ _ _ _ Hc Ho Hop Hz Hp Hsop Hsz Hv). unfold build_msg. rewrite (proj1 sends_all _ _ Hf [] _ _ He). reflexivity.
Qed.
Theorem C57_sub_received : forall n z sn sz f o s u, In (n, z, sn, sz, f) sub_grammars -> opcode_bytes z o -> bytes s -> access_parse (o ++ sz :: s) = Ok u ->
  exists v p r, s = p ++ r /\ u = VDict [("opcode"%string, VEnum n z); (lower n, VDict [("subopcode"%string, VEnum sn sz); (lower sn, v)])] /\ enc false f v p.
Proof.
  intros n z sn sz f o s u Hg Ho B H. destruct (sub_grammar_form _ _ _ _ _ Hg) as (c & Hc & Hf).
  rewrite (C49_submessage_parse _ _ _ _ _ _ _ Hc Ho) in H. apply bind_ok in H as (v & E & H). injection H as <-. unfold parse_msg in E. apply bind_ok in E as ([v' r] & E & E'). injection E' as ->.
  destruct (proj1 receives_all _ _ Hf _ _ _ _ B E) as (p & -> & He). eauto 6.
Qed.

(** Conversely every octet string of the grammar is accepted, up to its last octet. *)
Lemma grammars_tail : forallb (fun g => tail (snd g)) grammars && forallb (fun g => tail (snd g)) sub_grammars = true.
Proof. vm_compute. reflexivity. Qed.
Lemma received_whole c f b v s : form c f -> tail f = true -> bytes s -> enc b f v s -> exists v', parse_msg c s = Ok v' /\ enc false f v' s.
Proof.
  intros Hf Ht B He. destruct (proj2 (proj1 accepts_all _ _ Hf) Ht b [] v s B He) as (v' & E & _). exists v'. unfold parse_msg. rewrite E. split; [reflexivity|].
  destruct (proj1 receives_all _ _ Hf _ _ _ _ B E) as (p & Ep & Hp). rewrite app_nil_r in Ep. now subst.
Qed.
Theorem C57_accepted : forall n z f o b v s, In (n, z, f) grammars -> opcode_bytes z o -> bytes s -> enc b f v s ->
  exists v', access_parse (o ++ s) = Ok (VDict [("opcode"%string, VEnum n z); (lower n, v')]) /\ enc false f v' s.
Proof.
  intros n z f o b v s Hg Ho B He. destruct (grammar_form _ _ _ Hg) as (c & Hc & Hf).
  pose proof (proj1 (proj1 (andb_true_iff _ _) grammars_tail)) as T. pose proof (proj1 (forallb_forall _ _) T _ Hg) as Ht. cbn [snd] in Ht.
  destruct (received_whole _ _ _ _ _ Hf Ht B He) as (v' & E & He'). exists v'. split; [|exact He']. rewrite (C49_message_parse _ _ _ _ _ Hc Ho), E. reflexivity.
Qed.
Theorem C57_sub_accepted : forall n z sn sz f o b v s, In (n, z, sn, sz, f) sub_grammars -> opcode_bytes z o -> bytes s -> enc b f v s ->
  exists v', access_parse (o ++ sz :: s) = Ok (VDict [("opcode"%string, VEnum n z); (lower n, VDict [("subopcode"%string, VEnum sn sz); (lower sn, v')])]) /\ enc false f v' s.
Proof.
  intros n z sn sz f o b v s Hg Ho B He. destruct (sub_grammar_form _ _ _ _ _ Hg) as (c & Hc & Hf).
  pose proof (proj2 (proj1 (andb_true_iff _ _) grammars_tail)) as T. pose proof (proj1 (forallb_forall _ _) T _ Hg) as Ht. cbn [snd] in Ht.
  destruct (received_whole _ _ _ _ _ Hf Ht B He) as (v' & E & He'). exists v'. split; [|exact He']. rewrite (C49_submessage_parse _ _ _ _ _ _ _ Hc Ho), E. reflexivity.
Qed.

(** A recurrence rule (every week, on Mondays) with one slot: its octets, and the message that is built for it. *)
Definition weekly : val :=
  VDict [("subopcode", VEnum "SCHEDULE_REGISTER_ENTRY_SET" 8);
         ("payload", VDict [("entry_id", VInt 3); ("scheduler_register_entry",
            VDict [("array_of_slots", VList [VDict [("slot_id", VInt 1); ("element", VInt 2); ("slot_parameter", VBytes [5])]]);
                   ("rules", VList [VDict [("rule_id", VEnum "FREQ" 0); ("rule", VEnum "WEEKLY" 4)];
                                    VDict [("rule_id", VEnum "BYDAY" 7); ("rule", VList [VEnum "NEXT_MONDAY" 1])]])])])]%string.
Ltac enc_ := first [apply enc_u; vm_compute; split; [discriminate | reflexivity] | apply enc_s; vm_compute; split; [discriminate | reflexivity] | eapply enc_e; vm_compute; tauto | apply enc_blob; cbn; lia
  | apply enc_all | apply enc_count; [encl | cbn; lia] | apply enc_rest; encl | apply enc_rec; encf | eapply enc_case; [vm_compute; tauto | enc_] | eapply enc_own; [vm_compute; tauto | enc_]]
with encl := first [apply enc_nil | eapply enc_cons; [enc_ | encl]] with encf := first [apply enc_fnil | eapply enc_plain; [enc_ | encf]].
Example C57_weekly_enc : exists s, enc true rrule weekly s /\ s = [8; 3; 1; 1; 0; 2; 1; 5; 0; 4; 7; 1; 1].
Proof.
  eexists. split; [|shelve]. unfold weekly, rrule. eapply enc_case; [do 8 right; now left|]. apply enc_rec. eapply enc_plain; [enc_|]. eapply enc_plain; [|apply enc_fnil].
  apply enc_rec. eapply enc_plain; [enc_|]. eapply enc_plain; [|apply enc_fnil]. apply enc_rest. eapply enc_cons; [|eapply enc_cons; [|apply enc_nil]].
  - eapply enc_case; [now left|]. enc_.
  - eapply enc_case; [do 7 right; now left|]. enc_.
  Unshelve. vm_compute. reflexivity.
Qed.
Example C57_weekly : access_build (VDict [("opcode"%string, VInt 0xE83601); ("silvair_rrule_scheduler"%string, weekly)]) = Ok ([0xE8; 0x36; 0x01] ++ [8; 3; 1; 1; 0; 2; 1; 5; 0; 4; 7; 1; 1]).
Proof.
  destruct C57_weekly_enc as (s & He & ->). eapply (C57_sent "SILVAIR_RRULE_SCHEDULER" 0xE83601 rrule); [now left | | exact He | reflexivity | reflexivity | reflexivity].
  exact (ob3 0xE8 0x36 0x01 ltac:(lia) ltac:(lia) ltac:(lia)).
Qed.
(** One element with a SIG model and a vendor model: the counts are those of the lists. *)
Definition one_element : val :=
  VDict [("page", VEnum "ZERO" 0); ("zero", VDict [("cid", VInt 0x136); ("pid", VInt 1); ("vid", VInt 2); ("crpl", VInt 0); ("features", VInt 3);
     ("elements", VList [VDict [("location", VEnum "FRONT" 0x100); ("sig_number", VInt 1); ("vendor_number", VInt 1);
        ("sig_models", VList [VDict [("model_id", VInt 0x1000)]]); ("vendor_models", VList [VDict [("vendor_id", VInt 0x136); ("model_id", VInt 5)]])]])])]%string.
Example C57_one_element_enc : exists s, enc true composition one_element s /\ s = [0; 0x36; 1; 1; 0; 2; 0; 0; 0; 3; 0; 0; 1; 1; 1; 0; 0x10; 0x36; 1; 5; 0].
Proof.
  eexists. split; [|shelve]. unfold one_element, composition. eapply (enc_own true "page" _ "ZERO" 0); [now left|]. apply enc_rec. do 5 (eapply enc_plain; [enc_|]). eapply enc_plain; [|apply enc_fnil].
  apply enc_rest. eapply enc_cons; [|apply enc_nil]. apply enc_rec. eapply enc_plain; [apply enc_e; apply in_table_of_ok; vm_compute; reflexivity|]. do 2 (eapply enc_plain; [enc_|]).
  eapply enc_items; [encl | reflexivity | reflexivity|]. eapply enc_items; [encl | reflexivity | reflexivity | apply enc_fnil].
  Unshelve. vm_compute. reflexivity.
Qed.
Example C57_one_element : exists v', access_parse ([2] ++ [0; 0x36; 1; 1; 0; 2; 0; 0; 0; 3; 0; 0; 1; 1; 1; 0; 0x10; 0x36; 1; 5; 0]) =
  Ok (VDict [("opcode", VEnum "CONFIG_COMPOSITION_DATA_STATUS" 2); ("config_composition_data_status", v')]%string).
Proof.
  destruct C57_one_element_enc as (s & He & ->).
  assert (B : bytes [0; 0x36; 1; 1; 0; 2; 0; 0; 0; 3; 0; 0; 1; 1; 1; 0; 0x10; 0x36; 1; 5; 0]) by (repeat constructor; cbv; congruence).
  destruct (C57_accepted "CONFIG_COMPOSITION_DATA_STATUS" 2 composition [2] true one_element _ ltac:(do 2 right; now left) (ob1 2 ltac:(lia)) B He) as (v' & E & _).
  exists v'. exact E.
Qed.
(** A model relation: one extended model in the short form, with a corresponding model. *)
Example C57_relation : relation_item (VDict [("extended_items_count", VInt 1); ("format", VEnum "SHORT" 0); ("corresponding_present", VInt 1); ("corresponding_id", VInt 9);
  ("extended_models_items", VDict [("short", VList [VDict [("model_item_index", VInt 3); ("element_offset", VInt (-1))]])])]%string) [5; 9; 31].
Proof.
  exists false, [VDict [("model_item_index"%string, VInt 3); ("element_offset"%string, VInt (-1))]], 1, 9, [31]. cbn [length]. repeat split; try lia; try reflexivity.
  constructor; [|constructor]. exists 3, (-1). repeat split; lia || reflexivity.
Qed.
Print Assumptions C57_sent.
Print Assumptions C57_received.
Print Assumptions C57_accepted.
Print Assumptions C57_sub_sent.
Print Assumptions C57_sub_received.
Print Assumptions C57_sub_accepted.
