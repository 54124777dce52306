(** * AdapterProofs4: exponential seconds, time and timestamp adapters; all adapters. *)
From Coq Require Import Qabs Permutation Sorted Lqa Qpower.
From Verif Require Import PyVal Bits Utf8 Float64 FloatX Adapters Construct Size Spec Master AdapterSpec
  AdapterProofs1 AdapterProofs2 AdapterProofs3.

(** ** Time Exponential 8 *)
Lemma Qpower_int_pos a n : 0 <= n -> (inject_Z a ^ n == inject_Z (a ^ n))%Q.
Proof.
  intros H. destruct n as [|p|p]; [reflexivity| |lia].
  now rewrite Zpower_Qpower by lia.
Qed.
Lemma qpow_Qpower q k : (0 < q)%Q -> (qpow q k == q ^ k)%Q.
Proof.
  intros Hq. destruct q as [a d]. assert (Ha : 0 < a) by (unfold Qlt in Hq; cbn in Hq; lia).
  assert (E : (a # d == inject_Z a / inject_Z (Zpos d))%Q) by (rewrite Qmake_Qdiv; reflexivity).
  unfold qpow; cbn [Qnum Qden].
  destruct (Z.leb_spec 0 k).
  - rewrite E, Qdiv_power, !Qpower_int_pos by lia.
    assert (0 < Zpos d ^ k) by (apply Z.pow_pos_nonneg; lia).
    rewrite <- (Z2Pos.id (Zpos d ^ k)) at 2 by lia. apply Qmake_Qdiv.
  - replace k with (- - k) at 3 by lia. rewrite Qpower_opp, E, Qdiv_power, !Qpower_int_pos by lia.
    assert (0 < Zpos d ^ (- k)) by (apply Z.pow_pos_nonneg; lia).
    assert (0 < a ^ (- k)) by (apply Z.pow_pos_nonneg; lia).
    assert (Hd0 : ~ (inject_Z (Zpos d ^ (- k)) == 0)%Q) by (change 0%Q with (inject_Z 0); rewrite inject_Z_injective; lia).
    assert (Ha0 : ~ (inject_Z (a ^ (- k)) == 0)%Q) by (change 0%Q with (inject_Z 0); rewrite inject_Z_injective; lia).
    rewrite Qmake_Qdiv, Z2Pos.id by lia. field. split; assumption.
Qed.

Lemma exp8_value_float z : exp8_value z = exp8_float z.
Proof.
  unfold exp8_value, exp8_float. f_equal. apply rnd64_comp. apply qpow_Qpower. apply flit_pos. lia.
Qed.

Definition e11 (n : Z) : Q := ((11 # 10) ^ n)%Q.
Lemma e11_pos n : (0 < e11 n)%Q.
Proof. apply Qpower_0_lt. reflexivity. Qed.
Lemma e11_succ2 n : (e11 (n + 2) == e11 n * (121 # 100))%Q.
Proof. unfold e11. rewrite Qpower_plus by discriminate. apply Qmult_comp; reflexivity. Qed.
Lemma e11_mono n m : n <= m -> (e11 n <= e11 m)%Q.
Proof.
  intros H. replace m with (n + (m - n)) by lia. unfold e11. rewrite Qpower_plus by discriminate.
  setoid_rewrite <- (Qmult_1_r ((11 # 10) ^ n)) at 1. rewrite !(Qmult_comm ((11 # 10) ^ n)).
  apply Qmult_le_compat_r; [|apply Qpower_0_le; discriminate].
  apply Qpower_1_le; [discriminate|lia].
Qed.

Lemma search_test x2 a b e : 0 < b -> (inject_Z a == e * inject_Z b)%Q ->
  (Qnum x2 * b <? a * Zpos (Qden x2)) = true <-> (x2 < e)%Q.
Proof.
  intros Hb He. rewrite Z.ltb_lt.
  assert (Hbq : (0 < inject_Z b)%Q) by (change 0%Q with (inject_Z 0); rewrite <- Zlt_Qlt; exact Hb).
  assert ((x2 < e)%Q <-> (x2 * inject_Z b < inject_Z a)%Q) as ->.
  { rewrite He. split; intros H.
    - apply Qmult_lt_r; assumption.
    - now apply Qmult_lt_r in H. }
  unfold Qlt, Qmult, inject_Z; cbn [Qnum Qden]. rewrite Z.mul_1_r, Pos.mul_1_r. reflexivity.
Qed.

Lemma exp8_search_spec x2 K : (e11 (2 * K - 1) <= x2)%Q -> (x2 < e11 (2 * K + 1))%Q ->
  forall n k a b, 0 < b -> (inject_Z a == e11 (2 * k + 1) * inject_Z b)%Q -> k <= K < k + Z.of_nat n ->
  exp8_search n k a b x2 = K.
Proof.
  intros H1 H2. induction n as [|n IH]; intros k a b Hb He Hk; [lia|]. cbn [exp8_search].
  pose proof (search_test x2 a b _ Hb He) as T.
  destruct (Qnum x2 * b <? a * Zpos (Qden x2)) eqn:E.
  - destruct (Z.eq_dec k K); [assumption|exfalso].
    assert (x2 < e11 (2 * k + 1))%Q by (now apply T).
    assert (e11 (2 * k + 1) <= e11 (2 * K - 1))%Q by (apply e11_mono; lia). lra.
  - destruct (Z.eq_dec k K) as [->|]; [exfalso; now apply T in H2|].
    apply IH; [lia| |lia].
    rewrite !inject_Z_mult, He. replace (2 * (k + 1) + 1) with (2 * k + 1 + 2) by lia. rewrite e11_succ2.
    change (inject_Z 121) with (121 # 1)%Q. change (inject_Z 100) with (100 # 1)%Q. ring_simplify.
    apply Qmult_comp; [|reflexivity]. field.
Qed.

Lemma exp8_start : (inject_Z (10 ^ 129) == e11 (2 * (-65) + 1) * inject_Z (11 ^ 129))%Q.
Proof. vm_compute. reflexivity. Qed.

Lemma truthy_num v x : num_of v = Some x -> truthy v = negb (Qzero x).
Proof.
  destruct v; simpl; try discriminate; intros [= <-]; unfold Qzero; cbn; try reflexivity.
  destruct b; reflexivity.
Qed.

Lemma exp8_encode_spec v x z : num_of v = Some x -> 1 <= z <= 255 -> near_exp8 x z -> exp8_encode v = Ok (VInt z).
Proof.
  intros Hv Hz (H0 & H1 & H2). unfold exp8_encode. rewrite (truthy_num v x Hv).
  rewrite (proj2 (Qzero_false x)) by lra. cbn [negb]. rewrite Hv.
  rewrite (proj2 (Qltb_spec 0 x) H0). f_equal. f_equal.
  rewrite (exp8_search_spec (x * x) (z - 64)); [lia|exact H1|exact H2|apply Z.pow_pos_nonneg; lia|exact exp8_start|lia].
Qed.

Lemma timeexp8_ok : adapter_ok ATimeExp8.
Proof.
  intros v w w' v' [(x & Hv & Hx & -> & -> & ->)|(x & z & Hv & Hz & Hn & -> & -> & ->)].
  - split.
    + cbn [encode]. unfold exp8_encode. rewrite (truthy_num v x Hv). now rewrite (proj2 (Qzero_spec x) Hx).
    + intros w2 E. apply pub_int in E. subst w2. now exists (VInt 0).
  - split.
    + cbn [encode]. now apply exp8_encode_spec with (x := x).
    + intros w2 E. apply pub_int in E. subst w2. cbn [decode]. unfold exp8_decode, as_intr. cbn [as_int bind].
      destruct (Z.eqb_spec z 0); [lia|]. eexists; split; [reflexivity|]. cbn [pub]. now rewrite exp8_value_float.
Qed.

(** ** date and time *)
Lemma datetime_spec v us off : a_datetime v us off -> datetime_of v = Ok (us, off).
Proof.
  intros [->|(d & tz & y & m & dd & day & h & mi & s & u & -> & Htz & -> & Ht & Hy & Hm & Hd & Hh & Hmi & Hs & Hu & Hc & Hyr & B1 & B2 & B3 & B4 & ->)];
    [reflexivity|].
  unfold datetime_of, geti, dgetr. rewrite Htz. cbn [bind int_key as_int].
  rewrite Hy; cbn [bind as_intr as_int]. unfold as_intr; cbn [as_int bind].
  rewrite Hm; cbn [bind as_int]. rewrite Hd; cbn [bind as_int]. rewrite Hh; cbn [bind as_int].
  rewrite Hmi; cbn [bind as_int]. rewrite Hs; cbn [bind as_int]. rewrite Hu; cbn [bind as_int].
  rewrite (calendar_civil y m dd day Hc) by lia. unfold tz_ok.
  destruct (Z.ltb_spec (-86400) (tz * 60)); [|lia]. destruct (Z.ltb_spec (tz * 60) 86400); [|lia].
  destruct (Z.leb_spec 0 h); [|lia]. destruct (Z.ltb_spec h 24); [|lia].
  destruct (Z.leb_spec 0 mi); [|lia]. destruct (Z.ltb_spec mi 60); [|lia].
  destruct (Z.leb_spec 0 s); [|lia]. destruct (Z.ltb_spec s 60); [|lia].
  destruct (Z.leb_spec 0 u); [|lia]. destruct (Z.ltb_spec u 1000000); [|lia]. reflexivity.
Qed.

Lemma in_dt_spec us : in_dt us = true <-> dt_range us.
Proof. unfold in_dt, dt_range, min_us, max_us. rewrite andb_true_iff, Z.leb_le, Z.ltb_lt. reflexivity. Qed.

Lemma total_seconds_int s : Z.abs s <= 2 ^ 53 -> total_seconds (s * 1000000) = inject_Z s.
Proof.
  intros H. unfold total_seconds. rewrite <- (rnd64_int s H). apply rnd64_comp.
  unfold Qeq, inject_Z; cbn. lia.
Qed.

Lemma delta_mesh dl : 0 <= dl < 32768 -> delta_to_mesh ((dl - 255) * 1000000) = Ok dl.
Proof.
  intros H. unfold delta_to_mesh. rewrite total_seconds_int by lia. cbn [Qden inject_Z Pos.eqb].
  unfold fadd. rewrite (rnd64_comp (inject_Z (dl - 255) + 255) (inject_Z dl)).
  2:{ change 255%Q with (inject_Z 255). rewrite <- inject_Z_plus. replace (dl - 255 + 255) with dl by lia. reflexivity. }
  rewrite rnd64_int by lia. f_equal. unfold ftrunc, inject_Z; cbn. apply Z.quot_1_r.
Qed.
Lemma zone_mesh tz : zone_to_mesh ((tz - 64) * 900) = Ok tz.
Proof.
  unfold zone_to_mesh. rewrite Z.mod_mul, Z.div_mul by lia. cbn [Z.eqb]. f_equal. lia.
Qed.
Lemma delta_us_spec dlv dl : dlv = VTimedelta ((dl - 255) * 1000000) \/ as_int dlv = Some (dl - 255) ->
  delta_us dlv = Ok ((dl - 255) * 1000000).
Proof.
  intros [->|H]; [reflexivity|]. destruct dlv; simpl in H; try discriminate; injection H as H;
    cbn; rewrite H; reflexivity.
Qed.

(** seconds with fraction m/10^6: total_seconds brackets them *)
Lemma total_seconds_bounds n m : Z.abs n <= 2 ^ 38 -> 0 <= m < 1000000 ->
  (inject_Z n <= total_seconds (n * 1000000 + m))%Q /\
  (Qabs (total_seconds (n * 1000000 + m) - (inject_Z n + (m # 1000000))) <= 1 # 16384)%Q.
Proof.
  intros Hn Hm. unfold total_seconds.
  assert (E : ((n * 1000000 + m) # 1000000 == inject_Z n + (m # 1000000))%Q).
  { unfold Qeq, Qplus, inject_Z; cbn [Qnum Qden]. rewrite Pos.mul_1_l. lia. }
  assert (M : (0 <= m # 1000000)%Q /\ (m # 1000000 <= 1)%Q).
  { split; unfold Qle; cbn; lia. }
  assert (Nn : (- (274877906944 # 1) <= inject_Z n)%Q /\ (inject_Z n <= 274877906944 # 1)%Q).
  { split; unfold Qle, inject_Z; cbn [Qnum Qden Qopp]; lia. }
  split.
  - apply rnd64_ge_int; [lia|]. rewrite E. lra.
  - rewrite (rnd64_comp _ _ E). eapply Qle_trans; [apply rnd64_bounds|].
    assert (Qabs (inject_Z n + (m # 1000000)) <= 549755813888 # 1)%Q by (apply Qabs_Qle_condition; lra).
    lra.
Qed.

Lemma us_seconds_range n : dt_range (n * 1000000) -> Z.abs n <= 2 ^ 38.
Proof. unfold dt_range. lia. Qed.

Definition uncertainty_check (z : Z) : bool :=
  zmem z lossy_delays || (ftrunc (fmul (total_seconds (z * 10000)) 100) =? z).
Lemma uncertainty_checked : forallb uncertainty_check (upto 256) = true.
Proof. vm_compute. reflexivity. Qed.
Lemma uncertainty_fixed z : 0 <= z <= 255 -> ~ In z lossy_delays ->
  ftrunc (fmul (total_seconds (z * 10000)) 100) = z.
Proof.
  intros Hz Hl. pose proof (proj1 (forallb_forall _ _) uncertainty_checked z (in_upto 256 z ltac:(lia))) as H.
  unfold uncertainty_check in H. apply orb_prop in H as [H|H]; [apply zmem_in in H; contradiction|now apply Z.eqb_eq].
Qed.

Lemma fsub_int q a k : Z.abs k <= 2 ^ 53 -> (inject_Z (k + a) <= q)%Q -> (inject_Z k <= fsub q (inject_Z a))%Q.
Proof.
  intros Hk H. unfold fsub. apply rnd64_ge_int; [exact Hk|]. rewrite inject_Z_plus in H. lra.
Qed.

(** the time arithmetic of time.py: seconds and 1/256 fractions *)
Lemma time_split t off m sub :
  1 <= t -> -86400 < off < 86400 -> 0 <= m < 1000000 -> 0 <= sub <= 255 ->
  Z.abs (256 * m - 1000000 * sub) <= 400000 -> Z.abs (t + y2000 + off) <= 2 ^ 38 ->
  let total := fsub (fsub (total_seconds ((t + y2000 + off) * 1000000 + m)) (inject_Z y2000)) (inject_Z off) in
  ftrunc total = t /\ rneQ (fmul (fsub total (inject_Z t)) 256) = sub.
Proof.
  intros Ht Hoff Hm Hsub Hd Hr total.
  destruct (total_seconds_bounds (t + y2000 + off) m ltac:(lia) Hm) as [B1 B2].
  set (q0 := total_seconds ((t + y2000 + off) * 1000000 + m)) in *.
  unfold y2000 in *.
  assert (T1 : (0 <= inject_Z t)%Q /\ (inject_Z t <= 300000000000 # 1)%Q)
    by (split; unfold Qle, inject_Z; cbn [Qnum Qden]; lia).
  assert (O1 : (- (86400 # 1) <= inject_Z off)%Q /\ (inject_Z off <= 86400 # 1)%Q)
    by (split; unfold Qle, inject_Z; cbn [Qnum Qden Qopp]; lia).
  assert (M : (0 <= m # 1000000)%Q /\ (m # 1000000 <= (255 # 256) + (400000 # 256000000))%Q)
    by (split; unfold Qle, Qplus; cbn [Qnum Qden]; lia).
  apply Qabs_Qle_condition in B2 as [B2 B3]. rewrite !inject_Z_plus in B2, B3.
  set (q1 := fsub q0 (inject_Z 946684800)) in *.
  assert (G1 : (inject_Z (t + off) <= q1)%Q).
  { apply fsub_int; [lia|]. replace (t + off + 946684800) with (t + 946684800 + off) by lia. exact B1. }
  assert (E1 : (Qabs (q1 - (q0 - inject_Z 946684800)) <= 1 # 16384)%Q).
  { unfold q1, fsub. eapply Qle_trans; [apply rnd64_bounds|].
    assert (Qabs (q0 - inject_Z 946684800) <= 549755813888 # 1)%Q by (apply Qabs_Qle_condition; lra). lra. }
  apply Qabs_Qle_condition in E1 as [E1a E1b].
  assert (G2 : (inject_Z t <= total)%Q) by (apply fsub_int; [lia|exact G1]).
  assert (E2 : (Qabs (total - (q1 - inject_Z off)) <= 1 # 16384)%Q).
  { unfold total, fsub. eapply Qle_trans; [apply rnd64_bounds|].
    assert (Qabs (q1 - inject_Z off) <= 549755813888 # 1)%Q by (apply Qabs_Qle_condition; lra). lra. }
  apply Qabs_Qle_condition in E2 as [E2a E2b].
  clearbody total. clearbody q1. clearbody q0.
  split.
  - apply ftrunc_bounds; [exact G2| |lia]. rewrite inject_Z_plus. change (inject_Z 1) with 1%Q. lra.
  - assert (D0 : (- (3 # 16384) <= total - inject_Z t - (m # 1000000) <= 3 # 16384)%Q) by lra.
    set (q3 := fsub total (inject_Z t)).
    assert (E3 : (Qabs (q3 - (total - inject_Z t)) <= 1 # 1000000)%Q).
    { unfold q3, fsub. eapply Qle_trans; [apply rnd64_bounds|].
      assert (Qabs (total - inject_Z t) <= 2)%Q by (apply Qabs_Qle_condition; lra). lra. }
    apply Qabs_Qle_condition in E3 as [E3a E3b].
    set (q4 := fmul q3 256).
    assert (E4 : (Qabs (q4 - q3 * 256) <= 1 # 1000000)%Q).
    { unfold q4, fmul. eapply Qle_trans; [apply rnd64_bounds|].
      assert (Qabs (q3 * 256) <= 1000)%Q by (apply Qabs_Qle_condition; lra). lra. }
    apply Qabs_Qle_condition in E4 as [E4a E4b].
    assert (S : (- (4 # 10) <= (m # 1000000) * 256 - inject_Z sub <= 4 # 10)%Q).
    { split; unfold Qle, Qminus, Qmult, Qopp, Qplus, inject_Z; cbn [Qnum Qden];
        rewrite ?Pos2Z.inj_mul; lia. }
    apply rneQ_unique. apply Qabs_Qlt_condition. clearbody q3 q4. split; lra.
Qed.

Lemma rne_char a b n : 0 < b -> 2 * Z.abs (a - n * b) <= b -> (2 * Z.abs (a - n * b) = b -> Z.even n = true) ->
  rne a b = n.
Proof.
  intros Hb H1 H2. destruct (Z.eq_dec (2 * Z.abs (a - n * b)) b) as [E|E]; [|apply rne_unique; lia].
  specialize (H2 E). unfold rne.
  pose proof (Z.div_mod a b ltac:(lia)) as D. pose proof (Z.mod_pos_bound a b Hb) as M.
  set (q := a / b) in *. set (r := a mod b) in *.
  assert (C : (n = q /\ 2 * r = b) \/ (n = q + 1 /\ 2 * r = b)).
  { assert (a - n * b = b * (q - n) + r) by lia.
    assert (q - n = 0 \/ q - n = -1) as [C|C] by nia; [left|right]; split; nia. }
  destruct C as [[-> C]|[-> C]]; rewrite C, Z.compare_refl.
  - now rewrite H2.
  - replace (q + 1) with (Z.succ q) in H2 by lia. rewrite Z.even_succ in H2.
    rewrite <- Z.negb_odd, H2. reflexivity.
Qed.

Lemma tz_ok_spec off : -86400 < off < 86400 -> tz_ok off = true.
Proof. intros H. unfold tz_ok. apply andb_true_intro. rewrite !Z.ltb_lt. lia. Qed.

Lemma time_ok : adapter_ok ATime.
Proof.
  intros v w w' v' (d & dv & us & off & t & m & sub & unv & un & dlv & dl & au & tz & d' & a' &
    -> & Hdate & Hdt & Hoff & Hoffr & Hus & Ht & Hm & Hsub & Hgrid & R1 & R2 & R3 & R4 & Hun & [Hunv Hlossy] & Hunr
    & Hdl & Hdlv & Hdlr & Hau & -> & -> & D1 & D2 & D3 & D4 & D5 & Ha' & D6 & m' & Hm' & Hm'e & ->).
  split.
  - cbn [encode time_encode]. unfold dgetr. rewrite Hdate. cbn [bind]. rewrite (datetime_spec dv us off Hdt). cbn [bind].
    rewrite Hun. cbn [bind]. rewrite Hunv. cbn [bind uncertainty_us]. rewrite Hdl. cbn [bind].
    rewrite (delta_us_spec dlv dl Hdlv). cbn [bind]. rewrite Hau. cbn [bind].
    rewrite (delta_mesh dl Hdlr). cbn [bind]. rewrite Hoff, zone_mesh, <- Hoff. cbn [bind].
    pose proof (us_seconds_range _ R1) as HR.
    destruct (time_split t off m sub Ht Hoffr Hm Hsub Hgrid HR) as [T1 T2].
    rewrite <- Hus in T1, T2. change y2000 with mesh_epoch in T1, T2.
    rewrite T1, T2, (uncertainty_fixed un Hunr Hlossy). reflexivity.
  - intros w2 E. apply pub_dict_inv in E as (d0 & -> & E).
    pose proof (dget_pub_int "tai_seconds" d0 d' t eq_refl E D1) as G1.
    pose proof (dget_pub_int "subsecond" d0 d' sub eq_refl E D2) as G2.
    pose proof (dget_pub_int "uncertainty" d0 d' un eq_refl E D3) as G3.
    pose proof (dget_pub_int "tai_utc_delta" d0 d' dl eq_refl E D4) as G4.
    destruct (dget_pub "time_authority" d0 d' a' eq_refl E D5) as (y & G5 & Hy).
    pose proof (dget_pub_int "time_zone_offset" d0 d' tz eq_refl E D6) as G6.
    assert (Hty : truthy y = truthy au).
    { destruct Ha' as [->| ->].
      - destruct y; try discriminate. simpl in Hy. injection Hy as ->. reflexivity.
      - apply pub_int in Hy. subst y. destruct (truthy au); reflexivity. }
    cbn [decode time_decode]. unfold geti, dgetr, as_intr. rewrite G1. cbn [bind as_int].
    destruct (Z.eqb_spec t 0); [lia|]. rewrite G6. cbn [bind as_int]. rewrite G2. cbn [bind as_int].
    unfold zone_seconds. rewrite <- Hoff. rewrite (tz_ok_spec off Hoffr). cbn [negb].
    assert (Er : rne (sub * 1000000) 256 = m').
    { apply rne_char; [lia|lia|]. intros X. apply Hm'e. lia. }
    rewrite Er. change mesh_epoch with y2000.
    unfold y2000, dt_range in *.
    rewrite (proj2 (in_dt_spec _)) by (unfold dt_range; lia).
    rewrite (proj2 (in_dt_spec _)) by (unfold dt_range; lia). cbn [andb].
    rewrite G4. cbn [bind as_int]. rewrite G5. cbn [bind]. rewrite G3. cbn [bind as_int].
    eexists; split; [reflexivity|]. rewrite Hty. reflexivity.
Qed.

Lemma timestamp_ok : adapter_ok ATimestamp.
Proof.
  intros v w w' v' (d & dv & us & off & dlv & dl & t & m & tz & d' & -> & Hdate & Hdt & Hoff & Hoffr
    & Hdl & Hdlv & Hdlr & Hus & Ht & Hm & R0 & R1 & R2 & R3 & R4 & -> & -> & D1 & D2 & D3 & ->).
  split.
  - cbn [encode timestamp_encode]. unfold dgetr. rewrite Hdate. cbn [bind]. rewrite (datetime_spec dv us off Hdt). cbn [bind].
    rewrite Hdl. cbn [bind]. rewrite (delta_us_spec dlv dl Hdlv). cbn [bind].
    rewrite (proj2 (in_dt_spec us) R0).
    rewrite (proj2 (in_dt_spec _)) by (unfold dt_range, y2000 in *; lia). cbn [andb].
    rewrite (delta_mesh dl Hdlr). cbn [bind]. rewrite Hoff, zone_mesh. cbn [bind]. rewrite Hus.
    destruct (total_seconds_bounds (t + y2000) m (us_seconds_range _ R1) ltac:(lia)) as [B1 B2].
    apply Qabs_Qle_condition in B2 as [_ B2].
    assert (M : (m # 1000000 <= 9999 # 10000)%Q) by (unfold Qle; cbn; lia).
    replace (ftrunc (total_seconds ((t + y2000) * 1000000 + m))) with (t + y2000).
    2:{ symmetry. apply ftrunc_bounds; [exact B1| |unfold y2000; lia].
        rewrite inject_Z_plus with (y := 1). change (inject_Z 1) with 1%Q. lra. }
    change mesh_epoch with y2000. replace (t + y2000 - y2000) with t by lia. reflexivity.
  - intros w2 E. apply pub_dict_inv in E as (d0 & -> & E).
    pose proof (dget_pub_int "tai_seconds" d0 d' t eq_refl E D1) as G1.
    pose proof (dget_pub_int "tai_utc_delta_raw" d0 d' dl eq_refl E D2) as G2.
    pose proof (dget_pub_int "time_zone_offset" d0 d' tz eq_refl E D3) as G3.
    cbn [decode timestamp_decode]. unfold geti, dgetr, as_intr. rewrite G2. cbn [bind as_int].
    rewrite (Z.mod_small dl 32768), (Z.div_small dl 32768) by lia. cbn [Z.odd].
    rewrite G3. cbn [bind as_int]. rewrite G1. cbn [bind as_int].
    unfold zone_seconds. rewrite <- Hoff. rewrite (tz_ok_spec off Hoffr). cbn [negb].
    unfold delta_of_mesh. change mesh_epoch with y2000. unfold y2000, dt_range in *.
    rewrite (proj2 (in_dt_spec _)) by (unfold dt_range; lia).
    rewrite (proj2 (in_dt_spec _)) by (unfold dt_range; lia).
    rewrite (proj2 (in_dt_spec _)) by (unfold dt_range; lia). cbn [andb].
    replace ((t + 946684800) * 1000000 - (dl - 255) * 1000000) with ((t + 946684800 - (dl - 255)) * 1000000) by lia.
    eexists; split; [reflexivity|]. reflexivity.
Qed.

(** ** every adapter implements its documented domain *)
Theorem adapters_ok a : adapter_ok a.
Proof.
  destruct a.
  - apply enum_ok.
  - apply range_ok.
  - apply mask_ok.
  - apply addr_in_ok.
  - apply addr_out_ok.
  - apply log_ok.
  - apply count_ok.
  - apply transition_ok.
  - apply delay_ok.
  - apply retransmit_ok.
  - apply key_indices_ok.
  - apply bitlist_ok.
  - apply set_ok.
  - apply mac_ok.
  - apply ip_ok.
  - apply date_ok.
  - apply timeexp8_ok.
  - apply fixed_string_ok.
  - apply time_ok.
  - apply timestamp_ok.
Qed.
