(** * P_int: integer, enumeration and address fields (C10-C14). *)
From Verif Require Import PyVal Bits Float64 Utf8 Adapters Construct Size Spec Master
  AdapterSpec AdapterProofs1 AdapterProofs4 Access AccessProofs Conform BitLayout
  G_config G_rrule G_generics G_properties G_sensor.

(** ** C10: an enumerated field takes the member, its number or its name *)
Theorem C10_member_number_name : forall t c ctx n z s, member t n z -> named t s z ->
  let f := CAdapt (AEnum t) c in
  build f ctx (VEnum n z) = build c ctx (VEnum n z)
  /\ build f ctx (VInt z) = build c ctx (VEnum n z)
  /\ build f ctx (VStr (cps s)) = build c ctx (VEnum n z).
Proof.
  intros t c ctx n z s Hm Hn f. apply member_by_value in Hm. apply named_value in Hn.
  subst f. cbn [build encode enum_encode int_key as_int]. unfold by_name. rewrite Hn, Hm. auto.
Qed.
Print Assumptions C10_member_number_name.
(** a number that is no member's, a text that is no name, any other kind of object: rejected.
    ([int_key]: Python also finds members by a float equal to their number.) *)
Theorem C10_others_rejected : forall t c ctx v,
  (forall n z, int_key v = Some z -> ~ member t n z) ->
  (forall s z, v = VStr (cps s) -> ~ named t s z) ->
  exists e, build (CAdapt (AEnum t) c) ctx v = Err e.
Proof.
  intros t c ctx v Hz Hs. cbn [build encode].
  assert (G : forall z, int_key v = Some z -> by_value t z = None).
  { intros z Ez. destruct (by_value t z) as [m|] eqn:E; [|reflexivity]. exfalso.
    assert (exists n, m = VEnum n z) as [n ->].
    { clear Hz Hs. induction t as [|[n w] t IH]; [discriminate|]. cbn [by_value] in E. destruct (Z.eqb_spec z w).
      - injection E as <-. subst. eauto.
      - auto. }
    apply (Hz n z Ez), by_value_member, E. }
  assert (Hstr : (exists s, v = VStr s) \/ enum_encode t v = Err EOther).
  { destruct v; eauto; right; unfold enum_encode;
      (lazymatch goal with |- match int_key ?x with _ => _ end = _ => destruct (int_key x) as [z'|] eqn:E'; [rewrite (G z' eq_refl)|]; reflexivity end). }
  destruct Hstr as [[s ->]|E]; [|rewrite E; cbn [bind]; eauto]. cbn [enum_encode].
  unfold by_name. destruct (name_value t s) as [z'|] eqn:E; [|cbn [bind]; eauto]. exfalso.
  assert (exists s1, s = cps s1 /\ named t s1 z') as (s1 & -> & Hn).
  { clear -E. induction t as [|[n w] t IH]; [discriminate|]. cbn [name_value] in E. destruct (zlist_eqb s (cps n)) eqn:En.
    - injection E as ->. apply zlist_eqb_spec in En. subst. exists n. split; [reflexivity|]. exists [], t. auto.
    - destruct (IH E) as (s1 & -> & t1 & t2 & -> & Hn). exists s1. split; [reflexivity|]. exists ((n, w) :: t1), t2.
      split; [reflexivity|]. cbn [map fst]. intros [->|Hi]; [|auto].
      rewrite (proj2 (zlist_eqb_spec (cps s1) (cps s1)) eq_refl) in En. discriminate. }
  exact (Hs s1 z' eq_refl Hn).
Qed.
Print Assumptions C10_others_rejected.
(** parse gives the member, or fails on a number without a member *)
Theorem C10_parse : forall t c ctx s w r z, parse c ctx s = Ok (w, r) -> as_int w = Some z ->
  (exists n, member t n z /\ parse (CAdapt (AEnum t) c) ctx s = Ok (VEnum n z, r)) \/
  ((forall n, ~ member t n z) /\ exists e, parse (CAdapt (AEnum t) c) ctx s = Err e).
Proof.
  intros t c ctx s w r z Hp Hz. cbn [parse]. rewrite Hp. cbn [bind decode]. unfold enum_decode. rewrite Hz.
  destruct (by_value t z) as [m|] eqn:E.
  - left. assert (exists n, m = VEnum n z) as [n ->].
    { clear -E. induction t as [|[n w] t IH]; [discriminate|]. cbn [by_value] in E. destruct (Z.eqb_spec z w).
      - injection E as <-. subst. eauto.
      - auto. }
    exists n. split; [now apply by_value_member|reflexivity].
  - right. split; [|cbn [bind]; eauto]. intros n Hm. apply member_by_value in Hm. congruence.
Qed.
Print Assumptions C10_parse.
Example C10_ex : member config_StatusCode "INVALID_APPKEY_INDEX" 3 /\ named config_StatusCode "INVALID_APPKEY_INDEX" 3
  /\ build_msg config_StatusCodeAdapter (VStr (cps "INVALID_APPKEY_INDEX")) = Ok [3].
Proof.
  split; [memb|]. split; [|reflexivity].
  eexists [_; _; _], _. split; [reflexivity|]. notin.
Qed.
(** the field itself takes names, but where the enumeration selects what follows
    (Switch on the raw argument) a name drops the rest of the message without error *)
Theorem C10_switch_key_by_name_refuted : exists t n z d d', member t n z /\ named t n z
  /\ build_msg rrule_RRuleSchedulerSubMessage (VDict (("subopcode"%string, VEnum n z) :: d)) = Ok d'
  /\ build_msg rrule_RRuleSchedulerSubMessage (VDict (("subopcode"%string, VStr (cps n)) :: d)) = Ok [3]
  /\ d' = [3; 4; 3; 2; 1].
Proof.
  exists rrule_RRuleSchedulerSubOpcode, "REGISTER_MAX_SIZE_STATUS"%string, 3,
    [("payload"%string, VDict [("register_max_size"%string, VInt 0x01020304)])], [3; 4; 3; 2; 1].
  split; [memb|]. split; [eexists [_; _; _], _; split; [reflexivity|notin]|]. repeat split; vm_compute; reflexivity.
Qed.
Print Assumptions C10_switch_key_by_name_refuted.

(** ** C11: fixed-width integers never wrap *)
Lemma fits_check n sg z : (int_min n sg <=? z) && (z <=? int_max n sg) = true <-> fits (8 * Z.of_nat n) sg z.
Proof. unfold int_min, int_max, fits. rewrite andb_true_iff, !Z.leb_le. destruct sg; lia. Qed.
Theorem C11_build_in_range : forall n sg ctx v z, as_int v = Some z -> fits (8 * Z.of_nat n) sg z ->
  exists s, build (CInt n sg) ctx v = Ok s /\ bytes s /\ length s = n /\ of_le s = z mod 2 ^ (8 * Z.of_nat n).
Proof.
  intros n sg ctx v z Hv Hf. exists (to_le n z). cbn [build]. unfold as_intr. rewrite Hv. cbn [bind].
  rewrite (proj2 (fits_check n sg z) Hf). rewrite of_to_le, pow256_2, to_le_length. split; [reflexivity|]. split; [apply to_le_bytes|auto].
Qed.
Print Assumptions C11_build_in_range.
Theorem C11_build_out_of_range : forall n sg ctx v,
  (forall z, as_int v = Some z -> ~ fits (8 * Z.of_nat n) sg z) -> exists e, build (CInt n sg) ctx v = Err e.
Proof.
  intros n sg ctx v H. cbn [build]. unfold as_intr. destruct (as_int v) as [z|]; cbn [bind]; [|eauto].
  destruct (_ && _) eqn:E; [|eauto]. apply fits_check in E. exfalso. eapply H; eauto.
Qed.
Print Assumptions C11_build_out_of_range.
Theorem C11_parse : forall n sg ctx s rest, (0 < n)%nat -> bytes s -> length s = n ->
  exists z, parse (CInt n sg) ctx (s ++ rest) = Ok (VInt z, rest) /\ fits (8 * Z.of_nat n) sg z
            /\ of_le s = z mod 2 ^ (8 * Z.of_nat n).
Proof.
  intros n sg ctx s rest Hn Hb Hl. cbn [parse]. rewrite (take_app' n s rest Hl). cbn [bind]. eexists. split; [reflexivity|].
  pose proof (of_le_bound s Hb) as B. rewrite Hl, pow256_2 in B. unfold int_of, fits. destruct sg.
  - split.
    + apply (to_signed_bound (8 * Z.of_nat n)); lia.
    + unfold to_signed. destruct (_ <? _).
      * now rewrite Z.mod_small by lia.
      * replace (of_le s - 2 ^ (8 * Z.of_nat n)) with (of_le s + (-1) * 2 ^ (8 * Z.of_nat n)) by lia.
        rewrite Z.mod_add, Z.mod_small by lia. reflexivity.
  - split; [lia|]. now rewrite Z.mod_small by lia.
Qed.
Print Assumptions C11_parse.
Theorem C11_round_trip : forall n sg v z rest, (0 < n)%nat -> as_int v = Some z -> fits (8 * Z.of_nat n) sg z ->
  exists s, build (CInt n sg) [] v = Ok s /\ parse (CInt n sg) [] (s ++ rest) = Ok (VInt z, rest).
Proof.
  intros n sg v z rest Hn Hv Hf. destruct (C11_build_in_range n sg [] v z Hv Hf) as (s & Hb & Hs & Hl & He).
  exists s. split; [exact Hb|]. destruct (C11_parse n sg [] s rest Hn Hs Hl) as (z' & Hp & Hf' & He').
  rewrite Hp. do 3 f_equal. rewrite He in He'. clear -He' Hf Hf' Hn. unfold fits in *.
  assert (P : 2 ^ (8 * Z.of_nat n) = 2 * 2 ^ (8 * Z.of_nat n - 1)) by (rewrite <- Z.pow_succ_r by lia; f_equal; lia).
  assert (0 < 2 ^ (8 * Z.of_nat n - 1)) by (apply Z.pow_pos_nonneg; lia).
  destruct sg; [|rewrite !Z.mod_small in He' by lia; congruence].
  assert (E : (z - z') mod 2 ^ (8 * Z.of_nat n) = 0) by (rewrite Zminus_mod, He', Z.sub_diag; reflexivity).
  apply Z.mod_divide in E; [|lia]. destruct E as [k E]. assert (k = 0) by nia. lia.
Qed.
Print Assumptions C11_round_trip.
Example C11_ex : fits 16 true (-32768) /\ ~ fits 16 true 32768 /\ build_msg Int16sl (VInt (-32768)) = Ok [0; 128].
Proof. unfold fits. repeat split; try lia. Qed.

(** ** C12: bit fields and 24/40/48-bit fields do not reject what does not fit.
    Exactly what happens: a bit field keeps the low bits of any non-negative integer *)
Theorem C12_bits_keep_low_bits : forall n ctx v z, as_int v = Some z ->
  (z < 0 /\ exists e, build (CBits n false) ctx v = Err e) \/
  (0 <= z /\ build (CBits n false) ctx v = build (CBits n false) ctx (VInt (z mod 2 ^ Z.of_nat n))
   /\ is_ok (build (CBits n false) ctx v) = true).
Proof.
  intros n ctx v z Hz. cbn [build]. unfold as_intr. rewrite Hz. cbn [bind as_int negb]. rewrite !andb_true_r.
  destruct (Z.ltb_spec z 0); [left; split; [lia|eauto]|]. right. split; [lia|].
  assert (0 < 2 ^ Z.of_nat n) by (apply Z.pow_pos_nonneg; lia). pose proof (Z.mod_pos_bound z (2 ^ Z.of_nat n)).
  destruct (Z.ltb_spec (z mod 2 ^ Z.of_nat n) 0); [lia|]. split; [|reflexivity]. unfold to_bits. now rewrite to_lsb_mod.
Qed.
Print Assumptions C12_bits_keep_low_bits.
(** in-range values of both kinds are fine *)
Theorem C12_bytesint_in_range : forall n sw ctx v z, as_int v = Some z -> 0 <= z < 2 ^ (8 * Z.of_nat n) ->
  exists s, build (CBytesInt n sw) ctx v = Ok s /\ bytes s /\ length s = n /\ of_le (if sw then s else rev s) = z.
Proof.
  intros n sw ctx v z Hv Hz. cbn [build]. unfold as_intr. rewrite Hv. cbn [bind].
  destruct (Z.ltb_spec z 0); [lia|]. unfold integer2bytes.
  assert (Hd : (ndigits z <= n)%nat).
  { unfold ndigits. destruct (Z.eqb_spec z 0); [lia|]. assert (Z.log2 z < 8 * Z.of_nat n) by (apply Z.log2_lt_pow2; lia).
    assert (Z.log2 z / 8 < Z.of_nat n) by (apply Z.div_lt_upper_bound; lia). lia. }
  replace (ndigits z - n)%nat with 0%nat by lia. destruct (Nat.leb_spec (ndigits z) (2 * n)); [|lia]. cbn [to_le app skipn bind].
  eexists. split; [reflexivity|]. destruct sw.
  - rewrite to_le_length, of_to_le, pow256_2, Z.mod_small by lia. split; [apply to_le_bytes|auto].
  - rewrite rev_length, rev_involutive, to_le_length, of_to_le, pow256_2, Z.mod_small by lia. split; [apply Forall_rev, to_le_bytes|auto].
Qed.
Print Assumptions C12_bytesint_in_range.
Theorem C12_bytesint_negative_rejected : forall n sw ctx v z, as_int v = Some z -> z < 0 ->
  exists e, build (CBytesInt n sw) ctx v = Err e.
Proof. intros n sw ctx v z Hv Hz. cbn [build]. unfold as_intr. rewrite Hv. cbn [bind]. destruct (Z.ltb_spec z 0); [eauto|lia]. Qed.
Print Assumptions C12_bytesint_negative_rejected.
Theorem C12_out_of_range_rejected_refuted : 
  (* net_key_index 0x1001 deletes net key 1 *)
  (exists s, access_build (VDict [("opcode"%string, VInt 0x8041); ("config_netkey_delete"%string, VDict [("net_key_index"%string, VInt 0x1001)])]) = Ok s
   /\ access_build (VDict [("opcode"%string, VInt 0x8041); ("config_netkey_delete"%string, VDict [("net_key_index"%string, VInt 1)])]) = Ok s)
  (* an energy of 16777216 kWh (2^24) is sent as 1 *)
  /\ build_msg Int24ul (VInt 0x1000000) = build_msg Int24ul (VInt 1).
Proof. split; [eexists; split|]; vm_compute; reflexivity. Qed.
Print Assumptions C12_out_of_range_rejected_refuted.
(** integers of up to twice the width: the upper digits overwrite the lower ones *)
Theorem C12_int24_overflow : forall z, 2 ^ 24 <= z < 2 ^ 32 -> 
  build_msg Int24ul (VInt z) = Ok [z / 2 ^ 24; z / 2 ^ 8 mod 256; z / 2 ^ 16 mod 256].
Proof.
  intros z Hz. unfold build_msg. cbn [build as_intr as_int bind]. destruct (Z.ltb_spec z 0); [lia|]. unfold integer2bytes.
  assert (Hd : ndigits z = 4%nat).
  { unfold ndigits. destruct (Z.eqb_spec z 0); [lia|]. assert (24 <= Z.log2 z) by (apply Z.log2_le_pow2; lia).
    assert (Z.log2 z < 32) by (apply Z.log2_lt_pow2; lia). assert (Z.log2 z / 8 = 3) by (symmetry; apply (Z.div_unique _ _ _ (Z.log2 z - 24)); lia). lia. }
  rewrite Hd. cbn [Nat.leb Nat.mul Nat.add Nat.sub to_le skipn bind app].
  change (256 ^ Z.of_nat 3) with (2 ^ 24). rewrite (Z.mod_small (z / 2 ^ 24)), Z.div_div by (try split; try apply Z.div_pos; try apply Z.div_lt_upper_bound; lia).
  reflexivity.
Qed.
Print Assumptions C12_int24_overflow.
(** for every width: an integer of [n + k] octets, [1 <= k <= n], is sent as [n] octets of which the lowest [k] have been
    overwritten by the [k] octets that do not fit; more than twice the width is rejected *)
Definition octet (z : Z) (i : nat) : Z := z / 256 ^ Z.of_nat i mod 256.
Definition wrapped (n k : nat) (z : Z) : list Z := map (fun i => octet z (if Nat.ltb i k then n + i else i)) (seq 0 n).
Lemma to_le_octets m : forall z i, to_le m (z / 256 ^ Z.of_nat i) = map (octet z) (seq i m).
Proof.
  induction m as [|m IH]; intros z i; [reflexivity|]. cbn [to_le seq map]. f_equal. rewrite <- IH. f_equal.
  rewrite Z.div_div by (try apply Z.pow_nonzero; lia). f_equal. rewrite Nat2Z.inj_succ, Z.pow_succ_r by lia. ring.
Qed.
Lemma skipn_seq k : forall i m, skipn k (seq i m) = seq (i + k) (m - k).
Proof. induction k as [|k IH]; intros i m; [now rewrite Nat.add_0_r, Nat.sub_0_r|]. destruct m; [reflexivity|]. cbn [skipn seq]. rewrite IH. f_equal; lia. Qed.
Lemma seq_from n k : seq n k = map (fun i => n + i)%nat (seq 0 k).
Proof. revert n. induction k as [|k IH]; intros n; [reflexivity|]. cbn [seq map]. rewrite Nat.add_0_r. f_equal. rewrite (IH (S n)), (IH 1%nat), map_map. apply map_ext. intros i. lia. Qed.
Lemma ndigits_exact m z : 256 ^ Z.of_nat m <= z < 256 ^ Z.of_nat (S m) -> ndigits z = S m.
Proof.
  change 256 with (2 ^ 8). rewrite <- !Z.pow_mul_r by lia. intros [A B]. assert (0 < 2 ^ (8 * Z.of_nat m)) by (apply Z.pow_pos_nonneg; lia).
  unfold ndigits. destruct (Z.eqb_spec z 0); [lia|]. assert (8 * Z.of_nat m <= Z.log2 z) by (apply Z.log2_le_pow2; lia).
  assert (Z.log2 z < 8 * Z.of_nat (S m)) by (apply Z.log2_lt_pow2; lia).
  assert (Z.log2 z / 8 = Z.of_nat m) by (symmetry; apply (Z.div_unique _ _ _ (Z.log2 z - 8 * Z.of_nat m)); lia). lia.
Qed.
Theorem C12_bytesint_overflow : forall n k sw ctx v z, (1 <= k <= n)%nat -> as_int v = Some z -> 256 ^ Z.of_nat (n + k - 1) <= z < 256 ^ Z.of_nat (n + k) ->
  build (CBytesInt n sw) ctx v = Ok (if sw then wrapped n k z else rev (wrapped n k z)).
Proof.
  intros n k sw ctx v z Hk Hv Hz. cbn [build]. unfold as_intr. rewrite Hv. cbn [bind]. assert (0 < 256 ^ Z.of_nat (n + k - 1)) by (apply Z.pow_pos_nonneg; lia).
  destruct (Z.ltb_spec z 0); [lia|]. assert (Hd : ndigits z = (n + k)%nat).
  { replace (n + k)%nat with (S (n + k - 1)) in Hz |- * by lia. replace (S (n + k - 1) - 1)%nat with (n + k - 1)%nat in Hz by lia. now apply ndigits_exact. }
  unfold integer2bytes. rewrite Hd. destruct (Nat.leb_spec (n + k) (2 * n)); [|lia]. replace (n + k - n)%nat with k by lia. cbn [bind].
  assert (E : to_le k (z / 256 ^ Z.of_nat n) ++ skipn k (to_le n z) = wrapped n k z); [|now rewrite E].
  rewrite to_le_octets. pose proof (to_le_octets n z 0) as E. cbn [Z.of_nat] in E. rewrite Z.pow_0_r, Z.div_1_r in E. rewrite E. clear E. rewrite skipn_map, skipn_seq.
  unfold wrapped. replace (seq 0 n) with (seq 0 k ++ seq k (n - k)) by (rewrite <- seq_app; f_equal; lia). rewrite map_app. f_equal.
  - rewrite (seq_from n k), map_map. apply map_ext_in. intros i Hi. apply in_seq in Hi. destruct (Nat.ltb_spec i k); [reflexivity|lia].
  - apply map_ext_in. intros i Hi. apply in_seq in Hi. destruct (Nat.ltb_spec i k); [lia|reflexivity].
Qed.
Theorem C12_bytesint_too_long_rejected : forall n sw ctx v z, as_int v = Some z -> 256 ^ Z.of_nat (2 * n) <= z ->
  exists e, build (CBytesInt n sw) ctx v = Err e.
Proof.
  intros n sw ctx v z Hv Hz. cbn [build]. unfold as_intr. rewrite Hv. cbn [bind]. assert (0 < 256 ^ Z.of_nat (2 * n)) by (apply Z.pow_pos_nonneg; lia).
  destruct (Z.ltb_spec z 0); [lia|]. unfold integer2bytes. destruct (Nat.leb_spec (ndigits z) (2 * n)) as [L|L]; [|eexists; reflexivity]. exfalso.
  revert Hz L. change 256 with (2 ^ 8) in *. rewrite <- Z.pow_mul_r by lia. intros Hz. unfold ndigits. destruct (Z.eqb_spec z 0); [lia|].
  assert (8 * Z.of_nat (2 * n) <= Z.log2 z) by (apply Z.log2_le_pow2; lia). assert (Z.of_nat (2 * n) <= Z.log2 z / 8) by (apply Z.div_le_lower_bound; lia). lia.
Qed.
(** 2^40 + 7 seconds are sent as 1 second *)
Example C12_overflow_ex : build_msg (CBytesInt 5 true) (VInt (2 ^ 40 + 7)) = Ok [1; 0; 0; 0; 0] /\ wrapped 5 1 (2 ^ 40 + 7) = [1; 0; 0; 0; 0].
Proof. split; vm_compute; reflexivity. Qed.
Print Assumptions C12_bytesint_overflow.

(** ** C13: address classification *)
Theorem C13_address_type : forall z k, 0 <= z < 65536 -> (get_address_type z = k <-> addr_class k z).
Proof. exact address_type_spec. Qed.
Print Assumptions C13_address_type.
(** the classes are the documented ranges: every 16-bit address is in exactly one *)
Theorem C13_partition : forall z, 0 <= z < 65536 -> exists k, addr_class k z /\ forall k', addr_class k' z -> k' = k.
Proof.
  intros z Hz. exists (get_address_type z). split; [now apply address_type_spec|].
  intros k' Hk. symmetry. now apply address_type_spec.
Qed.
Print Assumptions C13_partition.
Example C13_ex : get_address_type 0xFEFF = GROUP /\ get_address_type 0xFF00 = RFU /\ get_address_type 0xBFFF = VIRTUAL.
Proof. repeat split. Qed.

(** ** C14: address fields validate in both directions.  The fields of the library and the
    addresses they take: *)
Definition address_fields : list (con * (Z -> Prop)) :=
  [ (config_UnassignedAddress, fun z => z = 0);
    (config_UnicastAddress, fun z => 1 <= z <= 0x7FFF);
    (config_GroupAddress, fun z => 0xC000 <= z <= 0xFEFF);
    (config_VirtualLabel, fun z => 0x8000 <= z <= 0xBFFF);
    (config_NotVirtualLabel, fun z => 0 <= z <= 0x7FFF \/ 0xC000 <= z <= 0xFFFF);
    (config_SubscriptionAddress, fun z => 0xC000 <= z <= 0xFFFE);
    (config_StatusSubscriptionAddress, fun z => z = 0 \/ 0x8000 <= z <= 0xFFFE);
    (config_UnicastUnassignedAddress, fun z => 0 <= z <= 0x7FFF);
    (config_UnicastUnassignedGroupAddress, fun z => 0 <= z <= 0x7FFF \/ 0xC000 <= z <= 0xFEFF) ].
Lemma addr_in_char l z : 0 <= z < 65536 -> (existsb (addr_eqb (get_address_type z)) l = true <-> exists k, In k l /\ addr_class k z).
Proof.
  intros Hz. rewrite addr_existsb. split.
  - intros H. exists (get_address_type z). split; [exact H|now apply address_type_spec].
  - intros (k & Hk & Hc). apply address_type_spec in Hc; [|lia]. now subst.
Qed.
Definition addr_adapter (a : adapter) (P : Z -> Prop) : Prop := forall v z, as_int v = Some z -> 0 <= z < 65536 ->
  (P z -> encode a v = Ok v /\ decode a v = Ok v) /\ (~ P z -> encode a v = Err EOther /\ decode a v = Err EOther).
Lemma addr_in_adapter l P : (forall z, 0 <= z < 65536 -> (P z <-> exists k, In k l /\ addr_class k z)) -> addr_adapter (AAddrIn l) P.
Proof.
  intros HP v z Hv Hz. specialize (HP z Hz). rewrite <- (addr_in_char l z Hz) in HP. cbn [encode decode]. unfold validate. rewrite Hv.
  destruct (existsb _ l); split; intros Hp; auto; [now rewrite HP in Hp | rewrite HP in Hp; discriminate].
Qed.
Lemma addr_out_adapter l P : (forall z, 0 <= z < 65536 -> (P z <-> ~ exists k, In k l /\ addr_class k z)) -> addr_adapter (AAddrOut l) P.
Proof.
  intros HP v z Hv Hz. specialize (HP z Hz). rewrite <- (addr_in_char l z Hz) in HP. cbn [encode decode]. unfold validate. rewrite Hv.
  destruct (existsb _ l); cbn [negb]; split; intros Hp; auto; [now rewrite HP in Hp | exfalso; apply Hp, HP; discriminate].
Qed.
Theorem C14_address_fields : forall f P, In (f, P) address_fields -> forall z, 0 <= z < 65536 ->
  (P z -> build_msg f (VInt z) = Ok [z mod 256; z / 256] /\ parse_msg f [z mod 256; z / 256] = Ok (VInt z)) /\
  (~ P z -> (exists e, build_msg f (VInt z) = Err e) /\ exists e, parse_msg f [z mod 256; z / 256] = Err e).
Proof.
  assert (G : forall a P, addr_adapter a P -> forall z, 0 <= z < 65536 ->
    (P z -> build_msg (CAdapt a Int16ul) (VInt z) = Ok [z mod 256; z / 256] /\ parse_msg (CAdapt a Int16ul) [z mod 256; z / 256] = Ok (VInt z)) /\
    (~ P z -> (exists e, build_msg (CAdapt a Int16ul) (VInt z) = Err e) /\ exists e, parse_msg (CAdapt a Int16ul) [z mod 256; z / 256] = Err e)).
  { intros a P Ha z Hz. destruct (Ha (VInt z) z eq_refl Hz) as [H1 H2].
    assert (Eb : build Int16ul [] (VInt z) = Ok [z mod 256; z / 256]).
    { apply build_u2. lia. }
    assert (Ep : parse Int16ul [] [z mod 256; z / 256] = Ok (VInt z, [])).
    { rewrite parse_u2. do 3 f_equal. pose proof (Z.div_mod z 256). lia. }
    unfold build_msg, parse_msg. rewrite parse_adapt, build_adapt, Ep. cbn [bind]. split; intros Hp.
    - destruct (H1 Hp) as [-> ->]. cbn [bind]. rewrite Eb. auto.
    - destruct (H2 Hp) as [-> ->]. cbn [bind]. eauto. }
  intros f P H z Hz. cbn [address_fields In] in H.
  Ltac addr_in_fin zz := split; [intros Hp; first
     [ eexists; split; [left; reflexivity | simpl; lia]
     | destruct (Z.eq_dec zz 0); [eexists; split; [right; left; reflexivity | simpl; lia] | eexists; split; [left; reflexivity | simpl; lia]] | idtac ]
   | intros (k & Hk & Hc); cbn [In] in Hk; repeat match type of Hk with _ \/ _ => destruct Hk as [<-|Hk]; [simpl in Hc; lia|] end; destruct Hk ].
  Ltac addr_out_fin zz := split;
   [intros Hp (k & Hk & Hc); cbn [In] in Hk; repeat match type of Hk with _ \/ _ => destruct Hk as [<-|Hk]; [simpl in Hc; lia|] end; destruct Hk
   | intros Hn;
     assert (Hl : Forall (fun k => ~ addr_class k zz) _) by (apply Forall_forall; intros k Hk Hc; apply Hn; exists k; split; [exact Hk|exact Hc]);
     clear Hn; repeat match type of Hl with
     | Forall _ (_ :: _) => let X := fresh "X" in apply Forall_cons_iff in Hl as [X Hl]; simpl in X
     end; lia ].
  assert (Ea : exists a, f = CAdapt a Int16ul /\ addr_adapter a P); [|destruct Ea as (a & -> & Ha); exact (G a P Ha z Hz)].
  destruct H as [H|[H|[H|[H|[H|[H|[H|[H|[H|H]]]]]]]]]; [..|destruct H]; injection H as <- <-; eexists; (split; [reflexivity|]); clear;
      first [apply addr_in_adapter | apply addr_out_adapter]; intros zz Hzz; cbn beta.
  1-4: addr_in_fin zz. 1-3: addr_out_fin zz. 1: addr_in_fin zz.
  - split.
    + intros Hp. destruct (Z.eq_dec zz 0); [exists UNASSIGNED; split; [right; left; reflexivity|simpl; lia]|].
      destruct (Z_le_gt_dec 0xC000 zz); [exists GROUP; split; [right; right; left; reflexivity|simpl; lia]|].
      exists UNICAST; split; [left; reflexivity|simpl; lia].
    + intros (k & Hk & Hc); cbn [In] in Hk; repeat match type of Hk with _ \/ _ => destruct Hk as [<-|Hk]; [simpl in Hc; lia|] end; destruct Hk.
Qed.
Print Assumptions C14_address_fields.
Example C14_ex : In (config_SubscriptionAddress, fun z => 0xC000 <= z <= 0xFFFE) address_fields
  /\ is_ok (build_msg config_SubscriptionAddress (VInt 0xC001)) = true /\ is_ok (parse_msg config_SubscriptionAddress [1; 0]) = false.
Proof. split; [do 5 right; left; reflexivity|]. split; reflexivity. Qed.
