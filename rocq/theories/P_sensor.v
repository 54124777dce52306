(** * P_sensor: sensor data, sensor descriptors, sensor settings and property messages (C40-C44). *)
From Verif Require Import PyVal Bits Adapters Construct Size Spec Master AdapterSpec AdapterProofs1 AdapterProofs2 AdapterProofs3 AdapterProofs4
  Access AccessProofs Conform Deps Doc Uses G_properties G_sensor G_property G_el G_elt G_lec P_layout P_params.
Local Open Scope list_scope.
Local Open Scope Z_scope.

(** *** Properties.
    [property n z c]: the device property [n] has id [z] and values of type [c] (properties.py). *)
Definition property (n : string) (z : Z) (c : con) : Prop := In (n, z, c) (case_list properties_PropertyDict).
(** no property of the library has the id *)
Definition unknown (z : Z) : Prop := forall n, ~ member properties_PropertyID n z.
(** [v] is what the octets [l] of a value of the property with id [z] stand for *)
Definition value_of (z : Z) (l : list Z) (v : val) : Prop :=
  (exists n c r, property n z c /\ parse c [] l = Ok (v, r)) \/ (unknown z /\ v = VList (map VInt l)).
(** the key of the value and the id as it is reported *)
Definition value_key (z : Z) (k : string) (idv : val) : Prop :=
  (exists n, member properties_PropertyID n z /\ k = lower n /\ idv = VEnum n z)
  \/ (unknown z /\ k = "sensor_setting_raw"%string /\ idv = VInt z).

(** The enumeration of the ids and the table of the types list the same properties, each once; and
    every type has a fixed size, looks at nothing but its argument and refuses a missing value. *)
Lemma properties_table :
  forallb (fun p => match find_case (snd p) properties_PropertyDict with Some (n, _) => String.eqb n (fst p) | _ => false end) properties_PropertyID = true /\
  nodupcase [] properties_PropertyDict = true /\
  forallb (fun p => match by_value properties_PropertyID (snd (fst p)) with Some (VEnum n z) => String.eqb n (fst (fst p)) && (z =? snd (fst p)) | _ => false end)
    (case_list properties_PropertyDict) = true.
Proof. repeat split; vm_compute; reflexivity. Qed.
(** keys of the messages that carry a property value *)
Definition other_keys : list string :=
  ["sensor_setting_raw"; "property_id"; "access"; "format"; "length"; "sensor_setting_property_id"; "sensor_property_id"; "sensor_setting_access"]%string.
Lemma properties_types :
  forallb (fun p => match p with (n, z, c) => (0 <=? z) && (z <? 65536) && wf false c && match deps c with [] => true | _ => false end &&
     match fsz c with Some _ => true | None => false end && match build c [] VNone with Err _ => true | _ => false end &&
     negb (hidden (lower n)) && negb (existsb (String.eqb (lower n)) other_keys) end)
    (case_list properties_PropertyDict) = true.
Proof. vm_compute; reflexivity. Qed.

Lemma by_value_self t z n w : by_value t z = Some (VEnum n w) -> w = z.
Proof. induction t as [|[n1 z1] t IH]; cbn [by_value]; [discriminate|]. destruct (Z.eqb_spec z z1); [|exact IH]. intros H. injection H as <- <-. congruence. Qed.
Lemma by_value_enum t z v : by_value t z = Some v -> exists n, v = VEnum n z.
Proof. induction t as [|[n1 z1] t IH]; cbn [by_value]; [discriminate|]. destruct (Z.eqb_spec z z1); [|exact IH]. intros H. injection H as <-. subst. eauto. Qed.
Lemma find_case_list z cs n c : find_case z cs = Some (n, c) -> In (n, z, c) (case_list cs).
Proof.
  induction cs as [|a b c' cs IH]; [discriminate|]. cbn [find_case case_list]. destruct (Z.eqb_spec z b); [|right; auto]. intros H. injection H as <- <-. subst. now left.
Qed.
Lemma property_find n z c : property n z c -> find_case z properties_PropertyDict = Some (n, c) /\ by_value properties_PropertyID z = Some (VEnum n z).
Proof.
  unfold property. destruct properties_table as (_ & T2 & T3). revert T2 T3. generalize properties_PropertyDict properties_PropertyID. intros cs t T2 T3 H.
  destruct (case_list_find _ _ _ _ _ T2 H) as (_ & F). split; [exact F|]. rewrite forallb_forall in T3. specialize (T3 _ H). cbn [fst snd] in T3.
  destruct (by_value t z) as [v|]; [|discriminate T3]. destruct v; try discriminate T3. apply andb_prop in T3 as [E1 E2].
  apply String.eqb_eq in E1. apply Z.eqb_eq in E2. now subst.
Qed.
Lemma by_value_in t z n : by_value t z = Some (VEnum n z) -> In (n, z) t.
Proof. intros H. apply by_value_member in H as (t1 & t2 & -> & _). apply in_or_app. right. now left. Qed.
Lemma property_of n z : by_value properties_PropertyID z = Some (VEnum n z) -> exists c, property n z c.
Proof.
  unfold property. destruct properties_table as (T1 & _ & _). revert T1. generalize properties_PropertyDict properties_PropertyID. intros cs t T1 H.
  rewrite forallb_forall in T1. specialize (T1 _ (by_value_in _ _ _ H)). cbn [fst snd] in T1.
  destruct (find_case z cs) as [[m c]|] eqn:E; [|discriminate T1]. apply String.eqb_eq in T1. subst. exists c. now apply find_case_list.
Qed.
Lemma unknown_none z : unknown z <-> by_value properties_PropertyID z = None.
Proof.
  unfold unknown. generalize properties_PropertyID. intros t. split.
  - intros H. destruct (by_value t z) as [v|] eqn:E; [|reflexivity]. destruct (by_value_enum _ _ _ E) as (n & ->). elim (H n). now apply by_value_member.
  - intros H n M. apply member_by_value in M. congruence.
Qed.
Lemma unknown_find z : unknown z -> find_case z properties_PropertyDict = None.
Proof.
  intros U. apply unknown_none in U. destruct (find_case z properties_PropertyDict) as [[n c]|] eqn:E; [|reflexivity].
  apply find_case_list, property_find in E as [_ E]. congruence.
Qed.
(** every id is that of exactly one property, or unknown *)
Lemma property_cases z : (exists n c, property n z c) \/ unknown z.
Proof.
  destruct (by_value properties_PropertyID z) as [v|] eqn:E; [|right; now apply unknown_none].
  left. destruct (by_value_enum _ _ _ E) as (n & ->). destruct (property_of _ _ E) as (c & Hc). eauto.
Qed.
Lemma property_type n z c : property n z c -> 0 <= z < 65536 /\ wf false c = true /\ deps c = [] /\ (exists m, fsz c = Some m) /\ (exists e, build c [] VNone = Err e)
  /\ hidden (lower n) = false /\ (forall k, In k other_keys -> lower n <> k).
Proof.
  unfold property. pose proof properties_types as T. revert T. generalize properties_PropertyDict. intros cs T H.
  rewrite forallb_forall in T. specialize (T _ H). cbv beta iota in T. repeat (apply andb_prop in T as [T ?]).
  split; [lia|]. split; [assumption|]. split; [destruct (deps c); [reflexivity|discriminate]|]. split; [destruct (fsz c); [eauto|discriminate]|].
  split; [destruct (build c [] VNone); [discriminate|eauto|discriminate]|]. split; [now apply negb_true_iff|].
  intros k Hk E. apply negb_true_iff in H0. assert (existsb (String.eqb (lower n)) other_keys = true); [|congruence].
  apply existsb_exists. exists k. split; [exact Hk|]. subst. apply String.eqb_refl.
Qed.
Lemma value_key_setting z k idv : value_key z k idv -> setting_id properties_PropertyID (VInt z) = (idv, k).
Proof.
  unfold setting_id. rewrite (int_key_as_int (VInt z) z eq_refl). intros [(n & M & -> & ->) | (U & -> & ->)].
  - now rewrite (member_by_value _ _ _ M).
  - apply unknown_none in U. now rewrite U.
Qed.
Lemma setting_build idv z k i : as_int idv = Some z -> value_key z k i -> exists j, setting_id properties_PropertyID idv = (j, k) /\ int_key j = Some z.
Proof.
  unfold setting_id. intros H K. rewrite (int_key_as_int _ _ H). destruct K as [(n & M & -> & ->) | (U & -> & ->)].
  - rewrite (member_by_value _ _ _ M). eexists; split; reflexivity.
  - apply unknown_none in U. rewrite U. eexists; split; [reflexivity|]. now apply int_key_as_int.
Qed.
Lemma value_key_ex z : exists k i, value_key z k i.
Proof.
  destruct (property_cases z) as [(n & c & H) | H].
  - apply property_find in H as [_ H]. apply by_value_member in H. exists (lower n), (VEnum n z). left. eauto.
  - do 2 eexists. right. eauto.
Qed.

(** *** C40: the header of an entry of a sensor status (Mesh Model 4.2.14.1, 4.2.14.2) *)
Definition head (long : bool) (len pid : Z) : list Z :=
  if long then [2 * (len - 1) + 1; pid mod 256; pid / 256] else [2 * (len - 1) + 32 * (pid mod 8); pid / 8].
Definition in_range (long : bool) (len pid : Z) : Prop :=
  if long then 1 <= len <= 128 /\ 0 <= pid < 65536 else 1 <= len <= 16 /\ 0 <= pid < 2048.
Definition announces (d : dict) (long : bool) (len pid : Z) : Prop :=
  exists f ln idv, dget "format" d = Some f /\ truthy f = long /\ dget "length" d = Some ln /\ as_int ln = Some len
    /\ dget "sensor_setting_property_id" d = Some idv /\ as_int idv = Some pid.

Lemma head_parse long len pid r : in_range long len pid ->
  exists b0 b1 s1, head long len pid ++ r = b0 :: b1 :: s1 /\
    (if Z.odd b0 then match s1 with b2 :: s2 => Ok (1, b0 / 2 + 1, b1 + b2 * 256, s2) | [] => Err EOther end
     else Ok (0, b0 / 2 mod 16 + 1, b0 / 32 mod 8 + b1 * 8, s1)) = Ok ((if long then 1 else 0), len, pid, r).
Proof.
  unfold in_range, head. intros H. destruct long; do 3 eexists; (split; [reflexivity|]).
  - replace (Z.odd (2 * (len - 1) + 1)) with true by (rewrite Z.odd_add, Z.odd_mul; reflexivity).
    replace ((2 * (len - 1) + 1) / 2) with (len - 1) by (apply Z.div_unique with (r := 1); lia).
    pose proof (Z.div_mod pid 256). do 3 f_equal; [f_equal; lia|lia].
  - replace (Z.odd (2 * (len - 1) + 32 * (pid mod 8))) with false by (rewrite Z.odd_add, !Z.odd_mul; reflexivity).
    pose proof (Z.mod_pos_bound pid 8). pose proof (Z.div_mod pid 8).
    replace ((2 * (len - 1) + 32 * (pid mod 8)) / 2) with (len - 1 + pid mod 8 * 16) by (apply Z.div_unique with (r := 0); lia).
    replace ((len - 1 + pid mod 8 * 16) mod 16) with (len - 1) by (apply Z.mod_unique with (q := pid mod 8); lia).
    replace ((2 * (len - 1) + 32 * (pid mod 8)) / 32) with (pid mod 8) by (apply Z.div_unique with (r := 2 * (len - 1)); lia).
    rewrite (Z.mod_small (pid mod 8)) by lia. do 3 f_equal; [f_equal; lia|lia].
Qed.

(** Headers are octets; two different headers never look alike, whatever follows; and (C40_head_total)
    every beginning of an entry is a header: none is wasted. *)
Theorem C40_head_octets : forall long len pid, in_range long len pid -> bytes (head long len pid).
Proof.
  unfold in_range, head, bytes. intros [|] len pid H; repeat (apply Forall_cons || apply Forall_nil); unfold isbyte.
  - lia.
  - pose proof (Z.mod_pos_bound pid 256). lia.
  - split; [apply Z.div_pos; lia|]. apply Z.div_lt_upper_bound; lia.
  - pose proof (Z.mod_pos_bound pid 8). lia.
  - pose proof (Z.mod_pos_bound pid 8); pose proof (Z.div_mod pid 8); lia.
Qed.
Theorem C40_head_unique : forall long len pid r long' len' pid' r', in_range long len pid -> in_range long' len' pid' ->
  head long len pid ++ r = head long' len' pid' ++ r' -> long = long' /\ len = len' /\ pid = pid' /\ r = r'.
Proof.
  intros long len pid r long' len' pid' r' H H' E.
  destruct (head_parse _ _ _ r H) as (b0 & b1 & s1 & E1 & P1). destruct (head_parse _ _ _ r' H') as (b0' & b1' & s1' & E2 & P2).
  rewrite E1 in E. rewrite E2 in E. injection E as <- <- <-. rewrite P1 in P2. injection P2 as F -> -> ->. destruct long, long'; try discriminate; auto.
Qed.
Theorem C40_head_total : forall b0 b1 b2 r, isbyte b0 -> isbyte b1 -> isbyte b2 ->
  exists long len pid r', in_range long len pid /\ b0 :: b1 :: b2 :: r = head long len pid ++ r'.
Proof.
  unfold isbyte. intros b0 b1 b2 r H0 H1 H2. pose proof (Zdiv2_odd_eqn b0) as D. rewrite Z.div2_div in D. destruct (Z.odd b0).
  - exists true, (b0 / 2 + 1), (b1 + b2 * 256), r. unfold in_range, head. split; [lia|]. cbn [app]. f_equal; [lia|].
    replace ((b1 + b2 * 256) mod 256) with b1 by (apply Z.mod_unique with (q := b2); lia).
    replace ((b1 + b2 * 256) / 256) with b2 by (apply Z.div_unique with (r := b1); lia). reflexivity.
  - exists false, (b0 / 2 mod 16 + 1), (b0 / 32 + b1 * 8), (b2 :: r). unfold in_range, head.
    pose proof (Z.mod_pos_bound (b0 / 2) 16). pose proof (Z.div_mod (b0 / 2) 16). rewrite Z.div_div in * by lia. change (2 * 16) with 32 in *.
    assert (0 <= b0 / 32 < 8) by lia. split; [lia|]. cbn [app].
    replace ((b0 / 32 + b1 * 8) mod 8) with (b0 / 32) by (apply Z.mod_unique with (q := b1); lia).
    replace ((b0 / 32 + b1 * 8) / 8) with b1 by (apply Z.div_unique with (r := b0 / 32); lia). f_equal. lia.
Qed.
Print Assumptions C40_head_unique.
Print Assumptions C40_head_total.

Definition rawv (k : string) (d : dict) : val := match dget k d with Some x => x | None => dgetn raw_name d end.
Lemma lor_low (long : bool) len pid : in_range long len pid ->
  (if long
   then let h := Z.lor (2 * (len - 1)) 1 in
        if (0 <=? h) && (h <? 256) && (0 <=? pid) && (pid <? 65536) then Ok [h; pid mod 256; pid / 256] else Err EOther
   else let h := Z.lor (2 * (len - 1)) (32 * Z.land pid 7) in
        if (0 <=? h) && (h <? 256) && (0 <=? pid / 8) && (pid / 8 <? 256) then Ok [h; pid / 8] else Err EOther) = Ok (head long len pid).
Proof.
  intros H. pose proof (C40_head_octets _ _ _ H) as B. unfold in_range in H. unfold head in *. cbv zeta. destruct long.
  - rewrite lor_odd. inversion B as [|x l B1 B2]; subst. unfold isbyte in B1.
    replace ((0 <=? 2 * (len - 1) + 1) && (2 * (len - 1) + 1 <? 256) && (0 <=? pid) && (pid <? 65536)) with true by lia. reflexivity.
  - assert (Z.land pid 7 = pid mod 8) as -> by (change 7 with (Z.ones 3); apply Z.land_ones; lia).
    pose proof (Z.mod_pos_bound pid 8). rewrite lor_disjoint by lia.
    inversion B as [|x l B1 B2]; subst. inversion B2 as [|x2 l2 B3 _]; subst. unfold isbyte in *.
    replace ((0 <=? 2 * (len - 1) + 32 * (pid mod 8)) && (2 * (len - 1) + 32 * (pid mod 8) <? 256) && (0 <=? pid / 8) && (pid / 8 <? 256)) with true by lia. reflexivity.
Qed.
Lemma data_build d long len pid k i : announces d long len pid -> in_range long len pid -> value_key pid k i ->
  build_msg sensor_SensorData (VDict d) =
  let* b := match find_case pid properties_PropertyDict with
            | Some (_, c) => match build c [] (rawv k d) with Err EKey => to_bytes (rawv k d) | r => r end
            | None => to_bytes (rawv k d)
            end in Ok (head long len pid ++ b).
Proof.
  intros (f & ln & idv & Hf & <- & Hln & Hlen & Hid & Hpid) R K. unfold build_msg, sensor_SensorData.
  destruct (setting_build _ _ _ _ Hpid K) as (j & Hj & _). unfold rawv. clear K. revert Hj.
  generalize properties_PropertyDict properties_PropertyID. intros cs t Hj.
  cbn [build]. unfold geti, dgetr. change sid_name with "sensor_setting_property_id"%string. rewrite Hid, Hf. cbn [bind]. unfold dgetr. rewrite Hln. cbn [bind].
  unfold as_intr. rewrite Hlen, Hpid. cbn [bind]. pose proof (lor_low _ _ _ R) as LL. cbv zeta in LL |- *. rewrite LL. cbn [bind]. rewrite Hj.
  destruct (find_case pid cs) as [[n c]|] eqn:E; [|reflexivity]. now rewrite (build_case_of _ _ _ _ _ _ E).
Qed.

(** What is sent: the header, then the value. *)
Theorem C40_build_known : forall d long len pid n c x s, announces d long len pid -> in_range long len pid -> property n pid c ->
  dget (lower n) d = Some x -> build_msg c x = Ok s -> build_msg sensor_SensorData (VDict d) = Ok (head long len pid ++ s).
Proof.
  intros d long len pid n c x s An R P Hx B. destruct (property_find _ _ _ P) as [F M]. apply by_value_member in M.
  assert (K : value_key pid (lower n) (VEnum n pid)) by (left; eauto).
  rewrite (data_build _ _ _ _ _ _ An R K), F. unfold rawv. rewrite Hx. unfold build_msg in B. rewrite B. reflexivity.
Qed.
Theorem C40_build_unknown : forall d long len pid x l, announces d long len pid -> in_range long len pid -> unknown pid ->
  dget "sensor_setting_raw" d = Some x -> raw_bytes x l -> build_msg sensor_SensorData (VDict d) = Ok (head long len pid ++ l).
Proof.
  intros d long len pid x l An R U Hx B.
  assert (K : value_key pid "sensor_setting_raw" (VInt pid)) by (right; auto).
  rewrite (data_build _ _ _ _ _ _ An R K), (unknown_find _ U). unfold rawv. rewrite Hx, (to_bytes_raw _ _ B). reflexivity.
Qed.
Theorem C40_build_head : forall d long len pid s, announces d long len pid -> in_range long len pid ->
  build_msg sensor_SensorData (VDict d) = Ok s -> exists b, s = head long len pid ++ b.
Proof.
  intros d long len pid s An R B. destruct (value_key_ex pid) as (k & i & K). rewrite (data_build _ _ _ _ _ _ An R K) in B.
  apply bind_ok in B as (b & _ & E). injection E as <-. eauto.
Qed.
(** Ids and lengths that do not fit at all are errors. *)
Theorem C40_rejects : forall d long len pid, announces d long len pid ->
  (len < 1 \/ 128 < len \/ pid < 0 \/ (if long then 65535 else 2047) < pid) -> exists e, build_msg sensor_SensorData (VDict d) = Err e.
Proof.
  intros d long len pid (f & ln & idv & Hf & <- & Hln & Hlen & Hid & Hpid) R. unfold build_msg, sensor_SensorData.
  generalize properties_PropertyDict properties_PropertyID. intros cs t.
  cbn [build]. unfold geti, dgetr. change sid_name with "sensor_setting_property_id"%string. rewrite Hid, Hf. cbn [bind]. unfold dgetr. rewrite Hln. cbn [bind].
  unfold as_intr. rewrite Hlen, Hpid. cbn [bind]. apply bind_err. cbv zeta. destruct (truthy f).
  - rewrite lor_odd. replace ((0 <=? 2 * (len - 1) + 1) && (2 * (len - 1) + 1 <? 256) && (0 <=? pid) && (pid <? 65536)) with false by lia. eauto.
  - destruct (_ && _) eqn:E; [|eauto]. exfalso.
    assert (0 <= pid / 8 < 256) by lia. pose proof (Z.div_mod pid 8). pose proof (Z.mod_pos_bound pid 8).
    assert (0 <= Z.lor (2 * (len - 1)) (32 * Z.land pid 7)) as L by lia.
    apply Z.lor_nonneg in L as [L _].
    assert (Z.lor (2 * (len - 1)) (32 * Z.land pid 7) < 256) as L2 by lia.
    assert (2 * (len - 1) <= Z.lor (2 * (len - 1)) (32 * Z.land pid 7)).
    { apply Z.ldiff_le; [lia|]. apply Z.bits_inj'. intros m _. rewrite Z.ldiff_spec, Z.lor_spec, Z.bits_0. now destruct (Z.testbit (2 * (len - 1)) m), (Z.testbit (32 * Z.land pid 7) m). }
    lia.
Qed.
Print Assumptions C40_build_known.
Print Assumptions C40_build_unknown.
Print Assumptions C40_build_head.
Print Assumptions C40_rejects.
(** But the short format also takes lengths 17..128, which its four bits cannot hold: the rest spills into
    the property id, silently. *)
Lemma lor_spill a r : 0 <= a < 128 -> 0 <= r < 8 -> Z.lor (2 * a) (32 * r) = 2 * (a mod 16) + 32 * Z.lor (a / 16) r /\ 0 <= Z.lor (a / 16) r < 8.
Proof.
  intros Ha Hr.
  assert (C : forallb (fun a => forallb (fun r => let a := Z.of_nat a in let r := Z.of_nat r in (Z.lor (2 * a) (32 * r) =? 2 * (a mod 16) + 32 * Z.lor (a / 16) r)
     && (0 <=? Z.lor (a / 16) r) && (Z.lor (a / 16) r <? 8)) (seq 0 8)) (seq 0 128) = true) by (vm_compute; reflexivity).
  rewrite forallb_forall in C. assert (Ia : In (Z.to_nat a) (seq 0 128)) by (apply in_seq; lia). specialize (C _ Ia).
  rewrite forallb_forall in C. assert (Ir : In (Z.to_nat r) (seq 0 8)) by (apply in_seq; lia). specialize (C _ Ir).
  cbv zeta in C. rewrite !Z2Nat.id in C by lia. apply andb_prop in C as [C C3]. apply andb_prop in C as [C1 C2].
  apply Z.eqb_eq in C1. apply Z.leb_le in C2. apply Z.ltb_lt in C3. auto.
Qed.
Definition spilled_len (len : Z) : Z := (len - 1) mod 16 + 1.
Definition spilled_pid (len pid : Z) : Z := 8 * (pid / 8) + Z.lor ((len - 1) / 16) (pid mod 8).
Theorem C40_short_format_spills_refuted : forall d len pid s, announces d false len pid -> 17 <= len <= 128 -> 0 <= pid < 2048 ->
  build_msg sensor_SensorData (VDict d) = Ok s -> exists b, s = head false (spilled_len len) (spilled_pid len pid) ++ b.
Proof.
  intros d len pid s (f & ln & idv & Hf & Tf & Hln & Hlen & Hid & Hpid) R1 R2. unfold build_msg, sensor_SensorData.
  generalize properties_PropertyDict properties_PropertyID. intros cs t.
  cbn [build]. unfold geti, dgetr. change sid_name with "sensor_setting_property_id"%string. rewrite Hid, Hf. cbn [bind]. unfold dgetr. rewrite Hln. cbn [bind].
  unfold as_intr. rewrite Hlen, Hpid. cbn [bind]. rewrite Tf. cbv zeta.
  assert (Z.land pid 7 = pid mod 8) as -> by (change 7 with (Z.ones 3); apply Z.land_ones; lia).
  intros B. apply bind_ok in B as (a & Ha & B). destruct (setting_id t idv) as [j k]. apply bind_ok in B as (b & _ & B). injection B as <-. exists b. f_equal.
  unfold head, spilled_len, spilled_pid.
  pose proof (Z.mod_pos_bound pid 8 eq_refl) as M. pose proof (Z.mod_pos_bound (len - 1) 16 eq_refl) as M2. pose proof (Z.div_mod (len - 1) 16) as D.
  destruct (lor_spill (len - 1) (pid mod 8)) as [L1 L2]; [lia | lia |]. rewrite L1 in Ha. destruct (_ && _); [|discriminate Ha].
  match type of Ha with Ok ?x = _ => assert (a = x) as -> by congruence end.
  f_equal; [|f_equal; apply Z.div_unique with (r := Z.lor ((len - 1) / 16) (pid mod 8)); lia].
  replace ((8 * (pid / 8) + Z.lor ((len - 1) / 16) (pid mod 8)) mod 8) with (Z.lor ((len - 1) / 16) (pid mod 8)) by (apply Z.mod_unique with (q := pid / 8); lia).
  lia.
Qed.
Print Assumptions C40_short_format_spills_refuted.

(** What is received: the entry with that header, its value read from the announced number of octets. *)
Definition report (long : bool) (len : Z) (k : string) (i v : val) : val :=
  VDict [("format"%string, VInt (if long then 1 else 0)); ("length"%string, VInt len); ("sensor_setting_property_id"%string, i); (k, v)].
Lemma value_key_fresh z k i : value_key z k i -> hidden k = false /\ k <> "format"%string /\ k <> "length"%string /\ k <> "sensor_setting_property_id"%string.
Proof.
  intros [(n & M & -> & ->) | (U & -> & ->)].
  - apply member_by_value in M. destruct (property_of _ _ M) as (c & P). apply property_type in P as (_ & _ & _ & _ & _ & Hh & P).
    split; [exact Hh|]. repeat split; apply P; cbn [other_keys In]; tauto.
  - repeat split; discriminate.
Qed.
Lemma data_parse long len pid k i s : in_range long len pid -> value_key pid k i ->
  parse sensor_SensorData [] (head long len pid ++ s) =
  match find_case pid properties_PropertyDict with
  | Some (_, c) => let* q := parse c [] (firstn (Z.to_nat len) s) in Ok (report long len k i (fst q), skipn (Z.to_nat len) s)
  | None => Ok (report long len k i (VList (map VInt (firstn (Z.to_nat len) s))), skipn (Z.to_nat len) s)
  end.
Proof.
  intros R K. destruct (head_parse _ _ _ s R) as (b0 & b1 & s1 & E & P). rewrite E. clear E.
  destruct (value_key_fresh _ _ _ K) as (_ & N1 & N2 & N3). apply value_key_setting in K. unfold sensor_SensorData. revert K.
  generalize properties_PropertyDict properties_PropertyID. intros cs t K. cbn [parse]. rewrite P. cbn [bind]. rewrite K.
  assert (D : forall v, VDict (dset k v [("format"%string, VInt (if long then 1 else 0)); ("length"%string, VInt len); (sid_name, i)]) = report long len k i v).
  { intros v. unfold report. cbn [dset]. destruct (String.eqb_spec k "format"); [now elim N1|]. destruct (String.eqb_spec k "length"); [now elim N2|].
    change sid_name with "sensor_setting_property_id"%string. destruct (String.eqb_spec k "sensor_setting_property_id"); [now elim N3|]. reflexivity. }
  destruct (find_case pid cs) as [[n c]|] eqn:F.
  - rewrite (parse_case_of _ _ _ _ _ _ F). destruct (parse c [] _) as [[v r]| |]; cbn [bind fst]; [|reflexivity|reflexivity]. now rewrite D.
  - now rewrite D.
Qed.
Theorem C40_parse : forall long len pid k i v s, in_range long len pid -> value_key pid k i -> value_of pid (firstn (Z.to_nat len) s) v ->
  parse sensor_SensorData [] (head long len pid ++ s) = Ok (report long len k i v, skipn (Z.to_nat len) s).
Proof.
  intros long len pid k i v s R K V. rewrite (data_parse _ _ _ _ _ _ R K). destruct V as [(n & c & r & P & V) | (U & ->)].
  - apply property_find in P as [-> _]. rewrite V. reflexivity.
  - now rewrite (unknown_find _ U).
Qed.
Print Assumptions C40_parse.

(** *** C41: lists of entries *)
(** an entry on the wire: header, value octets; and what it is reported as *)
Record entry := { e_long : bool; e_len : Z; e_pid : Z; e_octets : list Z; e_key : string; e_id : val; e_value : val }.
Definition wire (e : entry) : list Z := head (e_long e) (e_len e) (e_pid e) ++ e_octets e.
Definition reported (e : entry) : val := report (e_long e) (e_len e) (e_key e) (e_id e) (e_value e).
Definition good (e : entry) : Prop :=
  in_range (e_long e) (e_len e) (e_pid e) /\ Z.of_nat (length (e_octets e)) = e_len e /\
  value_key (e_pid e) (e_key e) (e_id e) /\ value_of (e_pid e) (e_octets e) (e_value e).

Lemma head_len long len pid : (2 <= length (head long len pid))%nat.
Proof. destruct long; cbn [head length]; lia. Qed.
Lemma greedy_entries es : Forall good es -> forall fuel t, (length (concat (map wire es)) + length t < fuel)%nat ->
  (exists e, parse sensor_SensorData [] t = Err e) ->
  greedy (parse sensor_SensorData []) fuel (concat (map wire es) ++ t) = Ok (map reported es, t).
Proof.
  induction 1 as [|e es (R & L & K & V) _ IH]; intros fuel t Hf (er & Ht); cbn [map concat app] in *.
  - destruct fuel as [|fuel]; [lia|]. cbn [greedy]. now rewrite Ht.
  - destruct fuel as [|fuel]; [lia|]. rewrite app_length in Hf.
    assert (P : parse sensor_SensorData [] ((wire e ++ concat (map wire es)) ++ t) = Ok (reported e, concat (map wire es) ++ t)).
    { unfold wire at 1. rewrite <- !app_assoc. rewrite (C40_parse _ _ _ (e_key e) (e_id e) (e_value e)); [| exact R | exact K |].
      - f_equal. f_equal. replace (Z.to_nat (e_len e)) with (length (e_octets e)) by lia. now rewrite skipn_app, skipn_all, Nat.sub_diag.
      - replace (Z.to_nat (e_len e)) with (length (e_octets e)) by lia. now rewrite firstn_app, firstn_all, Nat.sub_diag, app_nil_r. }
    cbn [greedy]. rewrite P. assert (2 <= length (wire e))%nat by (unfold wire; rewrite app_length; pose proof (head_len (e_long e) (e_len e) (e_pid e)); lia).
    destruct (Nat.ltb_spec (length (concat (map wire es) ++ t)) (length ((wire e ++ concat (map wire es)) ++ t))) as [_|N]; [|rewrite !app_length in N; lia].
    rewrite IH; [reflexivity|lia|eauto].
Qed.
(** Any number of entries, each carrying its announced number of octets, are read as those entries. *)
Theorem C41_received : forall es, Forall good es -> parse_msg sensor_SensorStatus (concat (map wire es)) = Ok (VList (map reported es)).
Proof.
  intros es H. unfold parse_msg. assert (P : parse sensor_SensorStatus [] (concat (map wire es)) = Ok (VList (map reported es), [])); [|now rewrite P].
  unfold sensor_SensorStatus. rewrite <- (app_nil_r (concat (map wire es))).
  change (parse (CGreedyRange sensor_SensorData) [] (concat (map wire es) ++ [])) with
    (let* q := greedy (parse sensor_SensorData []) (S (length (concat (map wire es) ++ []))) (concat (map wire es) ++ []) in let (l, r) := (q : list val * list Z) in Ok (VList l, r)).
  rewrite greedy_entries; [reflexivity | exact H | rewrite app_length; cbn [length]; lia | ]. eexists. reflexivity.
Qed.
Print Assumptions C41_received.
(** But an entry that cannot be read ends the list without an error: it and all later entries are lost. *)
Theorem C41_unreadable_entry_refuted : forall es long len pid n c s e, Forall good es -> in_range long len pid -> property n pid c ->
  parse c [] (firstn (Z.to_nat len) s) = Err e -> parse_msg sensor_SensorStatus (concat (map wire es) ++ head long len pid ++ s) = Ok (VList (map reported es)).
Proof.
  intros es long len pid n c s e H R P E. unfold parse_msg. set (t := head long len pid ++ s).
  assert (Q : parse sensor_SensorStatus [] (concat (map wire es) ++ t) = Ok (VList (map reported es), t)); [|now rewrite Q].
  unfold sensor_SensorStatus.
  change (parse (CGreedyRange sensor_SensorData) [] (concat (map wire es) ++ t)) with
    (let* q := greedy (parse sensor_SensorData []) (S (length (concat (map wire es) ++ t))) (concat (map wire es) ++ t) in let (l, r) := (q : list val * list Z) in Ok (VList l, r)).
  rewrite greedy_entries; [reflexivity | exact H | rewrite app_length; lia | ]. exists e. unfold t.
  destruct (value_key_ex pid) as (k & i & K). rewrite (data_parse _ _ _ _ _ _ R K). apply property_find in P as [-> _]. now rewrite E.
Qed.
Print Assumptions C41_unreadable_entry_refuted.

(** Sending: [sends d v']: the object [d] describes an entry whose value has the announced size, and
    [v'] is what the receiver should get. *)
Definition sends (v v' : val) : Prop :=
  exists d long len pid k i x x', v = VDict d /\ announces d long len pid /\ in_range long len pid /\ value_key pid k i /\ dget k d = Some x /\
    ((exists n c, property n pid c /\ fsz c = Some (Z.to_nat len) /\ message A_spec c x x')
     \/ (unknown pid /\ exists l, raw_bytes x l /\ Z.of_nat (length l) = len /\ x' = VList (map VInt l))) /\
    v' = report long len k i x'.
Lemma map_pub_ints l : map pub (map VInt l) = map VInt l.
Proof. rewrite map_map. reflexivity. Qed.
Lemma sends_entry v v' : sends v v' -> exists e, good e /\ bytes (wire e) /\ build sensor_SensorData [] v = Ok (wire e) /\ pub (reported e) = v'.
Proof.
  intros (d & long & len & pid & k & i & x & x' & -> & An & R & K & Hx & V & ->).
  pose proof (value_key_fresh _ _ _ K) as (Hh & _).
  assert (Pr : forall u, pub u = x' -> pub (report long len k i u) = report long len k i x').
  { intros u E. unfold report. rewrite pub_dict. cbn [pubd]. rewrite E, Hh. destruct K as [(n & _ & _ & ->) | (_ & _ & ->)]; reflexivity. }
  pose proof (C40_head_octets _ _ _ R) as B.
  destruct V as [(n & c & P & F & M) | (U & l & Hr & Hl & ->)].
  - destruct (property_type _ _ _ P) as (_ & W & _). destruct (roundtrip A_spec adapters_ok c x x' W M) as (s & Hs & Bs & u & Hu & Eu).
    exists {| e_long := long; e_len := len; e_pid := pid; e_octets := s; e_key := k; e_id := i; e_value := u |}.
    assert (Ls : length s = Z.to_nat len) by (eapply build_len; [exact F|exact Hs]).
    unfold good, wire, reported. cbn [e_long e_len e_pid e_octets e_key e_id e_value]. split; [|split; [|split]].
    + split; [exact R|]. split; [unfold in_range in R; destruct long; lia|]. split; [exact K|]. left.
      unfold parse_msg in Hu. destruct (parse c [] s) as [[v r]| |] eqn:E; try discriminate Hu. injection Hu as ->. exists n, c, r. auto.
    + apply Forall_app. split; assumption.
    + apply (C40_build_known _ _ _ _ n c x); [exact An|exact R|exact P| |exact Hs].
      destruct K as [(n' & Mm & -> & _) | (U & _)]; [|exfalso; eapply U; apply by_value_member; apply (property_find _ _ _ P)].
      apply member_by_value in Mm. destruct (property_find _ _ _ P) as [_ Mn]. congruence.
    + now apply Pr.
  - exists {| e_long := long; e_len := len; e_pid := pid; e_octets := l; e_key := k; e_id := i; e_value := VList (map VInt l) |}.
    unfold good, wire, reported. cbn [e_long e_len e_pid e_octets e_key e_id e_value]. split; [|split; [|split]].
    + split; [exact R|]. split; [exact Hl|]. split; [exact K|]. right. auto.
    + apply Forall_app. split; [assumption|apply Hr].
    + destruct K as [(n' & Mm & _) | (_ & -> & _)]; [elim (U _ Mm)|]. apply (C40_build_unknown _ _ _ _ x); assumption.
    + apply Pr. cbn [pub]. now rewrite map_pub_ints.
Qed.
Theorem C41_round_trip : forall l l', Forall2 sends l l' ->
  exists s, build_msg sensor_SensorStatus (VList l) = Ok s /\ bytes s /\ exists u, parse_msg sensor_SensorStatus s = Ok u /\ pub u = VList l'.
Proof.
  intros l l' H.
  assert (E : exists es, Forall good es /\ bytes (concat (map wire es)) /\ build_list (build sensor_SensorData []) l = Ok (concat (map wire es)) /\ map pub (map reported es) = l').
  { induction H as [|v v' l l' Hv _ IH]; [exists []; repeat split; constructor|]. destruct IH as (es & G & Bs & B & Rp).
    destruct (sends_entry _ _ Hv) as (e & Ge & Be & Bu & Re). exists (e :: es). split; [now constructor|]. cbn [map concat]. split; [apply Forall_app; auto|]. split.
    - cbn [build_list]. rewrite Bu. cbn [bind]. rewrite B. reflexivity.
    - now rewrite Re, Rp. }
  destruct E as (es & G & Bs & B & Rp). exists (concat (map wire es)). split; [exact B|]. split; [exact Bs|].
  eexists. split; [now apply C41_received|]. cbn [pub]. now rewrite Rp.
Qed.
Print Assumptions C41_round_trip.
(** Non-vacuity: a temperature (half degrees) as property 79, and two octets of an id nobody knows. *)
Example temperature_value : exists q, q = (41 # 2)%Q /\ message A_spec properties_Temperature8 (VDict [("temperature"%string, VFloat q)]) (VDict [("temperature"%string, VFloat q)]).
Proof.
  exists (41 # 2)%Q. split; [reflexivity|]. cf.
  - left. exists 1, 2%positive, (41 # 2)%Q, 41. split; [split; [lia|reflexivity]|]. split; [split; [lia|right; split; [lia|]; exists 5; lia]|].
    split; [reflexivity|]. split; [discriminate|]. do 2 (split; [lia|]). split; [vm_compute; discriminate|]. split; [lia|].
    do 2 (split; [reflexivity|]). reflexivity.
  - cf.
Qed.
Definition temp_entry (d : dict) : dict := ("format"%string, VInt 0) :: ("length"%string, VInt 1) :: ("sensor_setting_property_id"%string, VInt 79) :: d.
Definition raw_entry (d : dict) : dict := ("format"%string, VInt 1) :: ("length"%string, VInt 2) :: ("sensor_setting_property_id"%string, VInt 0xFFF0) :: d.
Example C40_case : in_range false 1 79 /\ announces (temp_entry []) false 1 79 /\ property "PRESENT_AMBIENT_TEMPERATURE" 79 properties_Temperature8
  /\ in_range true 2 0xFFF0 /\ unknown 0xFFF0 /\ announces (raw_entry []) true 2 0xFFF0.
Proof.
  split; [unfold in_range; lia|]. split; [exists (VInt 0), (VInt 1), (VInt 79); repeat split|].
  split. { apply find_case_list. vm_compute. reflexivity. }
  split; [unfold in_range; lia|]. split; [apply unknown_none; vm_compute; reflexivity|]. exists (VInt 1), (VInt 2), (VInt 0xFFF0). repeat split.
Qed.
Example C41_case : Forall2 sends
  [VDict (temp_entry [("present_ambient_temperature"%string, VDict [("temperature"%string, VFloat (41 # 2))])]); VDict (raw_entry [("sensor_setting_raw"%string, VBytes [7; 8])])]
  [report false 1 "present_ambient_temperature" (VEnum "PRESENT_AMBIENT_TEMPERATURE" 79) (VDict [("temperature"%string, VFloat (41 # 2))]);
   report true 2 "sensor_setting_raw" (VInt 0xFFF0) (VList [VInt 7; VInt 8])].
Proof.
  destruct C40_case as (R1 & A1 & P1 & R2 & U2 & A2). constructor; [|constructor; [|constructor]].
  - exists (temp_entry [("present_ambient_temperature"%string, VDict [("temperature"%string, VFloat (41 # 2))])]), false, 1, 79, "present_ambient_temperature"%string, (VEnum "PRESENT_AMBIENT_TEMPERATURE" 79).
    do 2 eexists. split; [reflexivity|]. split; [exists (VInt 0), (VInt 1), (VInt 79); repeat split|]. split; [exact R1|].
    split; [left; exists "PRESENT_AMBIENT_TEMPERATURE"%string; split; [apply by_value_member; vm_compute; reflexivity|split; reflexivity]|].
    split; [reflexivity|]. split; [|reflexivity]. left. exists "PRESENT_AMBIENT_TEMPERATURE"%string, properties_Temperature8. split; [exact P1|]. split; [reflexivity|].
    destruct temperature_value as (q & -> & H). exact H.
  - exists (raw_entry [("sensor_setting_raw"%string, VBytes [7; 8])]), true, 2, 0xFFF0, "sensor_setting_raw"%string, (VInt 0xFFF0).
    do 2 eexists. split; [reflexivity|]. split; [exists (VInt 1), (VInt 2), (VInt 0xFFF0); repeat split|]. split; [exact R2|].
    split; [right; auto|]. split; [reflexivity|]. split; [|reflexivity]. right. split; [exact U2|]. exists [7; 8]. split; [|split; reflexivity].
    split; [cf|auto].
Qed.
(** The announced length is not checked against the value: a wrong one is sent as it is, and the
    message then reads differently. *)
Theorem C41_wrong_length_refuted : exists d e s, dget "length" d = Some (VInt 2) /\
  build_msg sensor_SensorStatus (VList [VDict d; VDict e]) = Ok s /\ exists u, parse_msg sensor_SensorStatus s = Ok (VList [u]).
Proof.
  set (t := VDict [("temperature"%string, VFloat (41 # 2))]).
  exists [("format"%string, VInt 0); ("length"%string, VInt 2); ("sensor_setting_property_id"%string, VInt 79); ("present_ambient_temperature"%string, t)], (temp_entry [("present_ambient_temperature"%string, t)]).
  eexists. split; [reflexivity|]. split; [vm_compute; reflexivity|]. eexists. vm_compute. reflexivity.
Qed.
Print Assumptions C41_wrong_length_refuted.
