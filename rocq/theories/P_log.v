(** * P_log: logarithmic and exponential fields (C24, C25). *)
From Coq Require Import Lqa Qabs Qpower.
From Verif Require Import PyVal Bits Float64 FloatX Utf8 Adapters Construct Size Spec Master
  AdapterSpec AdapterProofs1 AdapterProofs2 AdapterProofs3 AdapterProofs4 Access AccessProofs BitLayout Uses P_int P_scale P_transition.

(** ** C24: heartbeat counts and periods *)
Definition Log (max : Z) (inf : bool) : con := CAdapt (ALog 1 (Some max) inf) Int8ul.
(** the log fields of the library: up to 2^15 or 2^16, with or without "infinite" *)
Theorem C24_all_fields : forall b m i w, In (ALog b m i, w) all_uses ->
  exists max, CAdapt (ALog b m i) w = Log max i /\ In (max, i) [(16, true); (16, false); (17, true); (17, false)].
Proof.
  intros b m i w H.
  assert (C : forallb (fun p => match fst p with
     | ALog b m i => (b =? 1) && con_eqb (snd p) Int8ul && match m with Some m => (m =? 16) || (m =? 17) | None => false end
     | _ => true end) all_uses = true) by (vm_compute; reflexivity).
  apply (proj1 (forallb_forall _ all_uses)) with (x := (ALog b m i, w)) in C; [|exact H]. cbn [fst snd] in C.
  apply andb_prop in C as [C C3]. apply andb_prop in C as [C1 C2]. apply Z.eqb_eq in C1. apply con_eqb_spec in C2. subst.
  destruct m as [m|]; [|discriminate]. apply orb_prop in C3 as [E|E]; apply Z.eqb_eq in E; subst; (eexists; split; [reflexivity|]); destruct i; cbn; tauto.
Qed.
Print Assumptions C24_all_fields.
Theorem C24_decode : forall max inf b, isbyte b -> max < 255 ->
  (b = 0 -> parse_msg (Log max inf) [b] = Ok (VInt 0))
  /\ (1 <= b <= max -> parse_msg (Log max inf) [b] = Ok (VInt (2 ^ (b - 1))))
  /\ (b = 255 -> inf = true -> parse_msg (Log max inf) [b] = Ok VInf)
  /\ (max < b -> 0 < b -> b < 255 \/ inf = false -> exists e, parse_msg (Log max inf) [b] = Err e).
Proof.
  intros max inf b Hb Hm. unfold parse_msg, Log. rewrite parse_adapt, parse_u1. cbn [bind decode as_intr as_int]. unfold log_decode.
  change (2 ^ (8 * 1) - 1) with 255. split; [|split; [|split]].
  - intros ->. reflexivity.
  - intros H. destruct (Z.eqb_spec b 0); [lia|]. destruct (Z.eqb_spec b 255); [lia|]. cbn [andb].
    destruct (Z.ltb_spec max b); [lia|]. reflexivity.
  - intros -> ->. reflexivity.
  - intros H1 H2 H3. destruct (Z.eqb_spec b 0); [lia|]. destruct (Z.ltb_spec max b); [|lia].
    destruct (Z.eqb_spec b 255); [destruct H3 as [|H3]; [lia|]; rewrite H3|]; cbn [andb bind]; eauto.
Qed.
Print Assumptions C24_decode.
(** a number between 1 and the maximum goes out as the largest n with 2^(n-1) <= x *)
Theorem C24_encode : forall max inf v x, 1 <= max < 255 -> num_of v = Some x -> (1 <= x)%Q -> (x <= inject_Z (2 ^ (max - 1)))%Q ->
  exists n, 1 <= n <= max /\ (inject_Z (2 ^ (n - 1)) <= x)%Q /\ (x < inject_Z (2 ^ n))%Q /\ build_msg (Log max inf) v = Ok [n].
Proof.
  intros max inf v x Hm Hv H1 H2. destruct x as [a b]. unfold Qle, inject_Z in *; cbn [Qnum Qden] in *.
  rewrite Z.mul_1_r, Z.mul_1_l in H1. rewrite Z.mul_1_r in H2.
  assert (Hpos : 0 < a / Zpos b) by (apply Z.div_str_pos; lia).
  pose proof (Z.log2_spec (a / Zpos b) Hpos) as [L1 L2]. pose proof (Z.log2_nonneg (a / Zpos b)) as L0.
  pose proof (Z.div_mod a (Zpos b) ltac:(lia)) as DM. pose proof (Z.mod_pos_bound a (Zpos b) ltac:(lia)) as MB.
  assert (L3 : Z.log2 (a / Zpos b) <= max - 1).
  { apply Z.log2_le_pow2 in L1; [|lia]. destruct (Z.le_gt_cases (Z.log2 (a / Zpos b)) (max - 1)) as [G|G]; [exact G|exfalso].
    assert (2 ^ max <= 2 ^ Z.log2 (a / Zpos b)) by (apply Z.pow_le_mono_r; lia).
    assert (2 ^ max = 2 * 2 ^ (max - 1)) by (rewrite <- Z.pow_succ_r by lia; f_equal; lia).
    pose proof (Z.log2_spec (a / Zpos b) Hpos) as [K1 _]. assert (0 < 2 ^ (max - 1)) by (apply Z.pow_pos_nonneg; lia). nia. }
  exists (Z.log2 (a / Zpos b) + 1).
  assert (B1 : 2 ^ (Z.log2 (a / Z.pos b) + 1 - 1) * Z.pos b <= a * 1).
  { replace (Z.log2 (a / Zpos b) + 1 - 1) with (Z.log2 (a / Zpos b)) by lia. nia. }
  assert (B2 : (a # b < inject_Z (2 ^ (Z.log2 (a / Zpos b) + 1)))%Q).
  { unfold Qlt, inject_Z; cbn [Qnum Qden]. rewrite Z.add_1_r. nia. }
  split; [lia|]. split; [exact B1|]. split; [exact B2|].
  destruct (adapters_ok (ALog 1 (Some max) inf) v (VInt (Z.log2 (a / Zpos b) + 1)) (VInt (Z.log2 (a / Zpos b) + 1)) (VInt (2 ^ (Z.log2 (a / Zpos b) + 1 - 1)))) as [E _].
  { right. left. exists (a # b)%Q, (Z.log2 (a / Zpos b) + 1). change (2 ^ (8 * 1) - 1) with 255. split; [exact Hv|]. split; [lia|].
    split; [exact B1|]. split; [exact B2|]. split; [|auto]. unfold Qle, inject_Z; cbn [Qnum Qden]. lia. }
  unfold build_msg, Log. rewrite build_adapt, E. cbn [bind]. apply build_u1. lia.
Qed.
Print Assumptions C24_encode.
Theorem C24_special : forall max inf, 1 <= max < 255 ->
  (forall v x, num_of v = Some x -> (x == 0)%Q -> build_msg (Log max inf) v = Ok [0])
  /\ (forall v x, num_of v = Some x -> (inject_Z (2 ^ (max - 1)) < x)%Q \/ (x < 0)%Q -> exists e, build_msg (Log max inf) v = Err e)
  /\ (if inf then build_msg (Log max inf) VInf = Ok [255] else exists e, build_msg (Log max inf) VInf = Err e).
Proof.
  intros max inf Hm. assert (N : forall v x, num_of v = Some x -> v <> VInf) by (intros [] x H; discriminate).
  unfold build_msg, Log. split; [|split].
  - intros v x Hv Hx. rewrite build_adapt. cbn [encode]. pose proof (N v x Hv) as Hi.
    assert (E : log_encode 1 (Some max) inf v = Ok (VInt 0)).
    { assert (Qz : Qzero x = true) by (destruct x as [a b]; unfold Qeq in Hx; cbn in Hx; unfold Qzero; cbn; apply Z.eqb_eq; lia).
      destruct v; cbn [num_of] in Hv; try discriminate Hv; injection Hv as <-; cbn [log_encode num_of]; now rewrite Qz. }
    rewrite E. cbn [bind]. now apply build_u1.
  - intros v x Hv Hx. rewrite build_adapt. cbn [encode].
    assert (P0 : (0 < inject_Z (2 ^ (max - 1)))%Q) by (change 0%Q with (inject_Z 0); rewrite <- Zlt_Qlt; apply Z.pow_pos_nonneg; lia).
    assert (E : log_encode 1 (Some max) inf v = Err EOther).
    { assert (Qz : Qzero x = false).
      { unfold Qzero. apply Z.eqb_neq. intros E0. assert (x == 0)%Q by (destruct x; unfold Qeq; cbn in *; lia). lra. }
      assert (G : (if Qltb x 0 then Err EOther else if Qltb (two_pow (max - 1)) x then Err EOther
         else if Qleb 1 x then Ok (VInt (Z.log2 (ftrunc x) + 1)) else if Qltb (1 # 4) x then Ok (VInt 0) else Err EOther) = Err EOther :> res val).
      { destruct (Qltb x 0) eqn:L; [reflexivity|]. destruct Hx as [Hx|Hx]; [|apply Qltb_spec in Hx; congruence].
        assert (two_pow (max - 1) == inject_Z (2 ^ (max - 1)))%Q as T by (rewrite two_pow_Q; unfold nu, de; rewrite (Z.max_l (max - 1) 0), (Z.max_r (- (max - 1)) 0) by lia; change (inject_Z (2 ^ 0)) with 1%Q; field).
        replace (Qltb (two_pow (max - 1)) x) with true; [reflexivity|]. symmetry. apply Qltb_spec. lra. }
      destruct v; cbn [num_of] in Hv; try discriminate Hv; injection Hv as <-; cbn [log_encode num_of]; rewrite Qz; exact G. }
    rewrite E. cbn [bind]. eauto.
  - rewrite build_adapt. cbn [encode log_encode]. destruct inf; [|cbn [bind]; eauto]. cbn [bind]. now apply build_u1.
Qed.
Print Assumptions C24_special.
Example C24_ex : num_of (VInt 1000) = Some (inject_Z 1000) /\ (inject_Z 1000 <= inject_Z (2 ^ (17 - 1)))%Q /\ build_msg (Log 17 false) (VInt 1000) = Ok [10]
  /\ parse_msg (Log 17 false) [10] = Ok (VInt 512).
Proof. split; [reflexivity|]. split; [discriminate|]. split; vm_compute; reflexivity. Qed.

(** ** C25: Time Exponential 8 *)
Definition Exp8 : con := CAdapt ATimeExp8 Int8ul.
Theorem C25_all_fields : forall w, In (ATimeExp8, w) all_uses -> CAdapt ATimeExp8 w = Exp8.
Proof.
  intros w H.
  assert (C : forallb (fun p => match fst p with ATimeExp8 => con_eqb (snd p) Int8ul | _ => true end) all_uses = true) by (vm_compute; reflexivity).
  apply (proj1 (forallb_forall _ all_uses)) with (x := (ATimeExp8, w)) in C; [|exact H]. cbn [fst snd] in C. apply con_eqb_spec in C. now subst.
Qed.
Print Assumptions C25_all_fields.
(** the double nearest 1.1 is slightly above 1.1; its powers stay close *)
Definition c11 : Q := Qred (flit 11 10 / (11 # 10)).
Lemma c11_powers k : -64 <= k <= 191 -> ((1 - (1 # 1000000000000)) <= c11 ^ k)%Q /\ (c11 ^ k <= 1 + (1 # 1000000000000))%Q.
Proof.
  intros H. assert (H1 : (1 <= c11)%Q) by (apply Qleb_spec; vm_compute; reflexivity). split.
  - apply Qle_trans with (c11 ^ (-64))%Q; [apply Qleb_spec; vm_compute; reflexivity|apply Qpower_le_compat_l; [lia|exact H1]].
  - apply Qle_trans with (c11 ^ 191)%Q; [apply Qpower_le_compat_l; [lia|exact H1]|apply Qleb_spec; vm_compute; reflexivity].
Qed.
Lemma exp8_float_close z : 0 <= z <= 255 ->
  (Qabs (exp8_float z - e11 (z - 64)) <= (5 # 100000) + e11 (z - 64) * (1 # 10000000000))%Q.
Proof.
  intros Hz. pose proof (e11_pos (z - 64)) as Ht.
  assert (L : (2 # 1000 <= e11 (z - 64))%Q).
  { apply Qle_trans with (e11 (-64)); [apply Qleb_spec; vm_compute; reflexivity|apply e11_mono; lia]. }
  unfold exp8_float. set (t := e11 (z - 64)) in *.
  assert (Ep : (flit 11 10 ^ (z - 64) == t * c11 ^ (z - 64))%Q).
  { unfold t, e11. rewrite <- Qmult_power. apply Qpower_comp; [|reflexivity]. vm_compute. reflexivity. }
  destruct (c11_powers (z - 64) ltac:(lia)) as [C1 C2].
  assert (P1 : (t * (1 - (1 # 1000000000000)) <= flit 11 10 ^ (z - 64))%Q) by (rewrite Ep, !(Qmult_comm t); apply Qmult_le_compat_r; lra).
  assert (P2 : (flit 11 10 ^ (z - 64) <= t * (1 + (1 # 1000000000000)))%Q) by (rewrite Ep, !(Qmult_comm t); apply Qmult_le_compat_r; lra).
  clear Ep C1 C2. set (p := (flit 11 10 ^ (z - 64))%Q) in *.
  pose proof (rnd64_bounds_pos p ltac:(lra)) as [R1 R2]. set (r := rnd64 p) in *. unfold fround.
  set (m := rneQ (r * inject_Z (10 ^ 4))). pose proof (rneQ_bound (r * inject_Z (10 ^ 4))) as M. fold m in M.
  change (inject_Z (10 ^ 4)) with (10000 # 1)%Q in M. apply Qabs_Qle_condition in M as [M1 M2].
  assert (Em : (m # Z.to_pos (10 ^ 4) == inject_Z m * (1 # 10000))%Q) by (unfold Qeq, Qmult, inject_Z; cbn [Qnum Qden]; change (Z.to_pos (10 ^ 4)) with 10000%positive; lia).
  pose proof (rnd64_bounds (m # Z.to_pos (10 ^ 4))) as Y. set (y := rnd64 (m # Z.to_pos (10 ^ 4))) in *. rewrite Em in Y.
  assert (Hm : (Qabs (inject_Z m * (1 # 10000)) <= r + (5 # 100000))%Q) by (apply Qabs_Qle_condition; split; lra).
  apply Qabs_Qle_condition in Y as [Y1 Y2]. apply Qabs_Qle_condition. split; lra.
Qed.
(** octet n > 0 reads 1.1^(n-64) s, to four decimals *)
Theorem C25_decode : forall b, isbyte b ->
  (b = 0 -> parse_msg Exp8 [b] = Ok (VInt 0)) /\
  (0 < b -> exists x, parse_msg Exp8 [b] = Ok (VFloat x)
     /\ (Qabs (x - (11 # 10) ^ (b - 64)) <= (5 # 100000) + (11 # 10) ^ (b - 64) * (1 # 10000000000))%Q).
Proof.
  intros b Hb. unfold isbyte in Hb. split; [intros ->; reflexivity|]. intros H0. exists (exp8_float b).
  split; [|apply exp8_float_close; lia]. unfold parse_msg, Exp8. rewrite parse_adapt, parse_u1. cbn [bind decode]. unfold exp8_decode.
  cbn [as_intr as_int bind]. destruct (Z.eqb_spec b 0); [lia|]. cbn [bind]. now rewrite exp8_value_float.
Qed.
Print Assumptions C25_decode.
Lemma exp8_near z : 1 <= z <= 255 -> near_exp8 (exp8_float z) z.
Proof.
  intros Hz. pose proof (exp8_float_close z ltac:(lia)) as C. apply Qabs_Qle_condition in C as [C1 C2].
  assert (L : (24 # 10000 <= e11 (z - 64))%Q).
  { apply Qle_trans with (e11 (-63)); [apply Qleb_spec; vm_compute; reflexivity|apply e11_mono; lia]. }
  assert (E1 : (e11 (2 * (z - 64) - 1) == e11 (z - 64) * e11 (z - 64) * (10 # 11))%Q).
  { replace (2 * (z - 64) - 1) with ((z - 64) + (z - 64) + -1) by lia. unfold e11. rewrite !Qpower_plus by discriminate. reflexivity. }
  assert (E2 : (e11 (2 * (z - 64) + 1) == e11 (z - 64) * e11 (z - 64) * (11 # 10))%Q).
  { unfold e11. replace (2 * (z - 64) + 1) with ((z - 64) + (z - 64) + 1) by lia. rewrite !Qpower_plus by discriminate. reflexivity. }
  unfold near_exp8. fold (e11 (2 * (z - 64) - 1)) (e11 (2 * (z - 64) + 1)). rewrite E1, E2. set (t := e11 (z - 64)) in *. set (x := exp8_float z) in *.
  assert (X1 : (t * (979 # 1000) <= x)%Q) by lra. assert (X2 : (x <= t * (1021 # 1000))%Q) by lra.
  split; [lra|]. split.
  - apply Qle_trans with ((t * (979 # 1000)) * (t * (979 # 1000)))%Q; [|apply Qmult_le_compat_nonneg; split; lra].
    setoid_replace (t * (979 # 1000) * (t * (979 # 1000)))%Q with (t * t * (958441 # 1000000))%Q by ring. assert (0 <= t * t)%Q by (apply Qmult_le_0_compat; lra). lra.
  - apply Qle_lt_trans with ((t * (1021 # 1000)) * (t * (1021 # 1000)))%Q; [apply Qmult_le_compat_nonneg; split; lra|].
    setoid_replace (t * (1021 # 1000) * (t * (1021 # 1000)))%Q with (t * t * (1042441 # 1000000))%Q by ring.
    assert (0 < t * t)%Q by (apply Qmult_lt_0_compat; lra). lra.
Qed.
(** every octet re-encodes to itself *)
Theorem C25_round_trip : forall b, isbyte b -> exists v, parse_msg Exp8 [b] = Ok v /\ build_msg Exp8 v = Ok [b].
Proof.
  intros b Hb. unfold isbyte in Hb. destruct (Z.eq_dec b 0) as [->|Hn]; [exists (VInt 0); split; reflexivity|].
  exists (VFloat (exp8_float b)). split.
  - unfold parse_msg, Exp8. rewrite parse_adapt, parse_u1. cbn [bind decode]. unfold exp8_decode.
    cbn [as_intr as_int bind]. destruct (Z.eqb_spec b 0); [lia|]. cbn [bind]. now rewrite exp8_value_float.
  - destruct (adapters_ok ATimeExp8 (VFloat (exp8_float b)) (VInt b) (VInt b) (VFloat (exp8_float b))) as [E _].
    { right. exists (exp8_float b), b. repeat split; try lia; try apply exp8_near; lia. }
    unfold build_msg, Exp8. rewrite build_adapt, E. cbn [bind]. apply build_u1. lia.
Qed.
Print Assumptions C25_round_trip.
(** any time goes out as the octet whose time is nearest on the logarithmic scale *)
Theorem C25_encode : forall v x z, num_of v = Some x -> 1 <= z <= 255 -> near_exp8 x z -> build_msg Exp8 v = Ok [z].
Proof.
  intros v x z Hv Hz Hn. destruct (adapters_ok ATimeExp8 v (VInt z) (VInt z) (VFloat (exp8_float z))) as [E _].
  { right. exists x, z. split; [exact Hv|]. split; [exact Hz|]. split; [exact Hn|]. auto. }
  unfold build_msg, Exp8. rewrite build_adapt, E. cbn [bind]. apply build_u1. lia.
Qed.
Print Assumptions C25_encode.
Example C25_ex : near_exp8 7 84 /\ build_msg Exp8 (VInt 7) = Ok [84].
Proof. split; [|vm_compute; reflexivity]. split; [reflexivity|]. split; [apply Qleb_spec; vm_compute; reflexivity|apply Qltb_spec; vm_compute; reflexivity]. Qed.
