(** * FloatX: facts about binary64 arithmetic used for the scaled, timed and
    dated fields (monotonicity at integers, scaling by a decimal literal). *)
From Coq Require Import ZArith QArith Qabs Lia Lqa.
From Verif Require Import Float64.
Open Scope Z_scope.

Lemma rne_ge a b k : 0 < b -> k * b <= a -> k <= rne a b.
Proof.
  intros Hb H. unfold rne.
  assert (k <= a / b) by (apply Z.div_le_lower_bound; lia).
  destruct (2 * (a mod b) ?= b); [destruct (Z.even (a / b))|..]; lia.
Qed.

Lemma rne_le a b k : 0 < b -> a <= k * b -> rne a b <= k.
Proof.
  intros Hb H. pose proof (rne_bound a b Hb).
  destruct (Z.eq_dec a (k * b)) as [->|]; [now rewrite rne_exact|].
  assert (a / b <= k - 1) by (assert (a / b < k) by (apply Z.div_lt_upper_bound; lia); lia).
  unfold rne. destruct (2 * (a mod b) ?= b); [destruct (Z.even (a / b))|..]; lia.
Qed.

Lemma two_pow_Q e : (two_pow e == inject_Z (nu e) / inject_Z (de e))%Q.
Proof.
  unfold two_pow, Qdiv, Qinv, inject_Z, Qmult, Qeq; cbn [Qnum Qden].
  pose proof (de_pos e). destruct (de e) eqn:E; try lia. cbn [Qnum Qden Z.to_pos]. lia.
Qed.

(** rounding does not jump over an integer *)
Lemma rnd64_pos_val n d : (rnd64 (Zpos n # d) ==
   inject_Z (fmant (Zpos n) d (fexp (Zpos n) d)) * two_pow (fexp (Zpos n) d))%Q.
Proof. unfold rnd64; cbn [Qnum Qden]. apply Qred_correct. Qed.

Lemma Q_ge_int m e k : k * de e <= m * nu e -> (inject_Z k <= inject_Z m * two_pow e)%Q.
Proof.
  intros H. unfold two_pow, Qle, Qmult, inject_Z; cbn [Qnum Qden].
  pose proof (de_pos e). rewrite Pos.mul_1_l, Z2Pos.id by lia. lia.
Qed.
Lemma Q_le_int m e k : m * nu e <= k * de e -> (inject_Z m * two_pow e <= inject_Z k)%Q.
Proof.
  intros H. unfold two_pow, Qle, Qmult, inject_Z; cbn [Qnum Qden].
  pose proof (de_pos e). rewrite Pos.mul_1_l, Z2Pos.id by lia. lia.
Qed.

Lemma rnd64_ge_pos q k : 0 < k <= 2 ^ 53 -> (inject_Z k <= q)%Q -> (inject_Z k <= rnd64 q)%Q.
Proof.
  intros Hk H. destruct q as [n d]. unfold Qle, inject_Z in H; cbn [Qnum Qden] in H.
  destruct n as [|n|n]; try lia. rewrite rnd64_pos_val.
  set (e := fexp (Zpos n) d). apply Q_ge_int. unfold fmant.
  pose proof (nu_pos e) as Hnu. pose proof (de_pos e) as Hde.
  pose proof (fexp_lower (Zpos n) d ltac:(lia)) as HL. fold e in HL.
  destruct (Z.le_gt_cases e 0) as [He|He].
  - assert (E1 : nu e = 1) by (unfold nu; rewrite Z.max_r by lia; reflexivity).
    rewrite E1, !Z.mul_1_r. apply rne_ge; [lia|]. nia.
  - rewrite (de_nn e) by lia. rewrite (de_nn e) in HL by lia.
    assert (2 ^ 52 <= rne (Z.pos n * 1) (Z.pos d * nu e)) by (apply rne_ge; [nia|nia]).
    assert (2 <= nu e) by (rewrite nu_nn by lia; change 2 with (2 ^ 1) at 1; apply Z.pow_le_mono_r; lia).
    nia.
Qed.

Lemma rnd64_le_pos q k : 0 < k <= 2 ^ 53 -> (0 < q)%Q -> (q <= inject_Z k)%Q -> (rnd64 q <= inject_Z k)%Q.
Proof.
  intros Hk H0 H. destruct q as [n d]. unfold Qle, Qlt, inject_Z in H, H0; cbn [Qnum Qden] in H, H0.
  destruct n as [|n|n]; try lia. rewrite rnd64_pos_val.
  set (e := fexp (Zpos n) d). apply Q_le_int. unfold fmant.
  pose proof (nu_pos e) as Hnu. pose proof (de_pos e) as Hde.
  pose proof (fexp_lower (Zpos n) d ltac:(lia)) as HL. fold e in HL.
  destruct (Z.le_gt_cases e 0) as [He|He].
  - assert (E1 : nu e = 1) by (unfold nu; rewrite Z.max_r by lia; reflexivity).
    rewrite E1, !Z.mul_1_r. apply rne_le; [lia|]. nia.
  - rewrite (de_nn e) by lia. rewrite (de_nn e) in HL by lia.
    assert (2 <= nu e) by (rewrite nu_nn by lia; change 2 with (2 ^ 1) at 1; apply Z.pow_le_mono_r; lia).
    (* n <= k * d and d * nu * 2^52 <= n, so nu = 2, n = k * d, k = 2^53 *)
    assert (Z.pos d * (nu e * 2 ^ 52) <= Z.pos d * k) by nia.
    assert (nu e * 2 ^ 52 <= k) by nia.
    assert (Hn2 : nu e = 2) by lia. assert (k = 2 ^ 53) by lia. subst k.
    assert (Hnd : Zpos n = 2 ^ 53 * Zpos d) by nia.
    rewrite Hn2, Hnd. replace (2 ^ 53 * Z.pos d * 1) with (2 ^ 52 * (Z.pos d * 2)) by ring.
    rewrite rne_exact by lia. lia.
Qed.

Lemma rnd64_nonneg q : (0 <= q)%Q -> (0 <= rnd64 q)%Q.
Proof.
  intros H. pose proof (rnd64_err q) as E. rewrite (Qabs_pos q H) in E.
  apply Qabs_Qle_condition in E. unfold u53 in E.
  change (2 ^ 53)%positive with 9007199254740992%positive in E. lra.
Qed.
Lemma rnd64_0 q : (q == 0)%Q -> rnd64 q = 0%Q.
Proof. intros H. rewrite (rnd64_comp _ _ H). reflexivity. Qed.

Lemma rnd64_ge_int q k : Z.abs k <= 2 ^ 53 -> (inject_Z k <= q)%Q -> (inject_Z k <= rnd64 q)%Q.
Proof.
  intros Hk H. destruct (Z.lt_trichotomy k 0) as [Hn|[->|Hp]].
  - destruct (Qlt_le_dec q 0) as [Hq|Hq].
    + assert (rnd64 q == - rnd64 (- q))%Q as ->.
      { rewrite rnd64_opp. ring. }
      assert (rnd64 (- q) <= inject_Z (- k))%Q.
      { apply rnd64_le_pos; [lia|lra|]. rewrite inject_Z_opp. lra. }
      rewrite inject_Z_opp in H0. lra.
    + pose proof (rnd64_nonneg q Hq). assert (inject_Z k <= 0)%Q by (change 0%Q with (inject_Z 0); rewrite <- Zle_Qle; lia). lra.
  - now apply rnd64_nonneg.
  - now apply rnd64_ge_pos; [lia|].
Qed.

Lemma rnd64_le_int q k : Z.abs k <= 2 ^ 53 -> (q <= inject_Z k)%Q -> (rnd64 q <= inject_Z k)%Q.
Proof.
  intros Hk H.
  assert (inject_Z (- k) <= rnd64 (- q))%Q.
  { apply rnd64_ge_int; [lia|]. rewrite inject_Z_opp. lra. }
  rewrite rnd64_opp, inject_Z_opp in H0. lra.
Qed.

(** int(x) of a non-negative float *)
Lemma ftrunc_bounds q k : (inject_Z k <= q)%Q -> (q < inject_Z (k + 1))%Q -> 0 <= k -> ftrunc q = k.
Proof.
  intros H1 H2 Hk. destruct q as [n d]. unfold ftrunc, Qle, Qlt, inject_Z in *; cbn [Qnum Qden] in *.
  assert (0 <= k * Zpos d) by (apply Z.mul_nonneg_nonneg; lia). rewrite Z.mul_1_r in H1, H2.
  rewrite Z.quot_div_nonneg by lia. symmetry. apply Z.div_unique with (r := n - k * Zpos d); [left; split; nia | ring].
Qed.

Lemma rnd64_bounds q : (Qabs (rnd64 q - q) <= Qabs q * (1 # 9007199254740992))%Q.
Proof. exact (rnd64_err q). Qed.

Lemma rnd64_bounds_pos q : (0 <= q)%Q ->
  (q * (1 - (1 # 9007199254740992)) <= rnd64 q <= q * (1 + (1 # 9007199254740992)))%Q.
Proof.
  intros H. pose proof (rnd64_bounds q) as E. rewrite (Qabs_pos q H) in E.
  apply Qabs_Qle_condition in E. lra.
Qed.

(** ** multiplication and division by a decimal literal n/d *)
Definition dec (n : Z) (d : positive) : Q := n # d.

Lemma flit_bounds n d : 0 < n ->
  (dec n d * (1 - (1 # 9007199254740992)) <= flit n d <= dec n d * (1 + (1 # 9007199254740992)))%Q.
Proof.
  intros H. apply rnd64_bounds_pos. unfold dec, Qle; cbn; lia.
Qed.
Lemma flit_pos n d : 0 < n -> (0 < flit n d)%Q.
Proof.
  intros H. destruct (flit_bounds n d H) as [B _].
  assert (0 < dec n d)%Q by (unfold dec, Qlt; cbn [Qnum Qden]; lia). lra.
Qed.

(** division by the literal: relative error at most 4 u *)
Lemma fdiv_flit_err x n d : 0 < n ->
  (Qabs (fdiv x (flit n d) - x / dec n d) <= Qabs (x / dec n d) * (4 # 9007199254740992))%Q.
Proof.
  intros Hn.
  assert (Hd : (0 < dec n d)%Q) by (unfold dec, Qlt; cbn [Qnum Qden]; lia).
  pose proof (flit_pos n d Hn) as Hf. pose proof (flit_bounds n d Hn) as [B1 B2].
  (* by symmetry assume x >= 0 *)
  assert (Hpos : forall x, (0 <= x)%Q ->
    (Qabs (fdiv x (flit n d) - x / dec n d) <= Qabs (x / dec n d) * (4 # 9007199254740992))%Q).
  { clear x. intros x Hx.
    assert (Ht : (0 <= x / dec n d)%Q) by (apply Qle_shift_div_l; [exact Hd|lra]).
    assert (Hs : (0 <= x / flit n d)%Q) by (apply Qle_shift_div_l; [exact Hf|lra]).
    rewrite (Qabs_pos _ Ht). unfold fdiv.
    pose proof (rnd64_bounds_pos (x / flit n d) Hs) as [R1 R2].
    set (r := rnd64 (x / flit n d)) in *. set (s := (x / flit n d)%Q) in *. set (t := (x / dec n d)%Q) in *.
    assert (E : (s * flit n d == t * dec n d)%Q).
    { unfold s, t. field. split; intros E; rewrite E in *; lra. }
    set (f := flit n d) in *. set (c := dec n d) in *.
    (* s * c * (1-u) <= t * c, t * c <= s * c * (1+u) *)
    assert (S1 : (s * (1 - (1 # 9007199254740992)) <= t)%Q).
    { apply (proj1 (Qmult_le_r _ _ c Hd)). rewrite <- E.
      setoid_replace (s * (1 - (1 # 9007199254740992)) * c)%Q with (s * (c * (1 - (1 # 9007199254740992))))%Q by ring.
      rewrite !(Qmult_comm s). apply Qmult_le_compat_r; assumption. }
    assert (S2 : (t <= s * (1 + (1 # 9007199254740992)))%Q).
    { apply (proj1 (Qmult_le_r _ _ c Hd)). rewrite <- E.
      setoid_replace (s * (1 + (1 # 9007199254740992)) * c)%Q with (s * (c * (1 + (1 # 9007199254740992))))%Q by ring.
      rewrite !(Qmult_comm s). apply Qmult_le_compat_r; assumption. }
    apply Qabs_Qle_condition. split; lra. }
  destruct (Qlt_le_dec x 0) as [Hx|Hx]; [|now apply Hpos].
  specialize (Hpos (- x)%Q ltac:(lra)).
  assert (fdiv (- x) (flit n d) == - fdiv x (flit n d))%Q as E1.
  { unfold fdiv. rewrite <- rnd64_opp. rewrite (rnd64_comp (- x / flit n d) (- (x / flit n d))). reflexivity.
    unfold Qdiv. ring. }
  assert (- x / dec n d == - (x / dec n d))%Q as E2 by (unfold Qdiv; ring).
  rewrite E1, E2 in Hpos.
  setoid_replace (- fdiv x (flit n d) - - (x / dec n d))%Q with (- (fdiv x (flit n d) - x / dec n d))%Q in Hpos by ring.
  rewrite !Qabs_opp in Hpos. exact Hpos.
Qed.

Lemma Qabs_int z : (Qabs (inject_Z z) == inject_Z (Z.abs z))%Q.
Proof. reflexivity. Qed.

(** a number within 0.49 steps of z steps is encoded as z *)
Lemma scaled_encode x n d z : 0 < n -> Z.abs z <= 2 ^ 33 ->
  (Qabs (x / dec n d - inject_Z z) <= 49 # 100)%Q -> rneQ (fdiv x (flit n d)) = z.
Proof.
  intros Hn Hz H. apply rneQ_unique.
  pose proof (fdiv_flit_err x n d Hn) as E.
  set (t := (x / dec n d)%Q) in *. set (y := fdiv x (flit n d)) in *.
  assert (Ht : (Qabs t <= inject_Z (2 ^ 33 + 1))%Q).
  { setoid_replace t with ((t - inject_Z z) + inject_Z z)%Q by ring.
    eapply Qle_trans; [apply Qabs_triangle|].
    rewrite Qabs_int. assert (inject_Z (Z.abs z) <= inject_Z (2 ^ 33))%Q by (rewrite <- Zle_Qle; lia).
    rewrite inject_Z_plus. change (inject_Z 1) with 1%Q. lra. }
  setoid_replace (y - inject_Z z)%Q with ((y - t) + (t - inject_Z z))%Q by ring.
  eapply Qle_lt_trans; [apply Qabs_triangle|].
  change (inject_Z (2 ^ 33 + 1)) with (8589934593 # 1)%Q in Ht. lra.
Qed.

(** decoding: the product rounded to k decimals is the double nearest to z*n/d *)
Lemma scaled_decode z n d k m : 0 < n -> 0 <= k -> Z.abs z <= 2 ^ 53 -> n * 10 ^ k = m * Zpos d ->
  Z.abs (z * m) <= 2 ^ 49 ->
  fround k (fmul (fz z) (flit n d)) = rnd64 (inject_Z z * dec n d).
Proof.
  intros Hn Hk Hz Hm Hb. unfold fround, fz. rewrite rnd64_int by exact Hz.
  assert (H10 : 0 < 10 ^ k) by (apply Z.pow_pos_nonneg; lia).
  assert (E : rneQ (fmul (inject_Z z) (flit n d) * inject_Z (10 ^ k)) = z * m).
  { assert (Ex : (inject_Z (z * m) == inject_Z z * dec n d * inject_Z (10 ^ k))%Q).
    { unfold dec, Qeq, Qmult, inject_Z; cbn [Qnum Qden]. rewrite !Pos.mul_1_l, !Pos.mul_1_r. nia. }
    assert (R1 : rel u53 (dec n d) (flit n d)) by apply rel_rnd.
    assert (R2 : rel u53 (dec n d * inject_Z z) (flit n d * inject_Z z)) by now apply rel_mul_r.
    assert (R3 : rel u53 (inject_Z z * flit n d) (fmul (inject_Z z) (flit n d))) by apply rel_rnd.
    assert (R4 : rel (u53 + u53 + u53 * u53) (inject_Z z * dec n d) (fmul (inject_Z z) (flit n d))).
    { eapply rel_trans; [unfold u53, Qle; simpl; lia..| |exact R3].
      eapply rel_comp; [| |exact R2]; ring. }
    apply rel_round with (u := (u53 + u53 + u53 * u53)%Q).
    - eapply rel_comp; [symmetry; exact Ex|reflexivity|]. now apply rel_mul_r.
    - assert (inject_Z (Z.abs (z * m)) <= inject_Z (2 ^ 49))%Q by (rewrite <- Zle_Qle; lia).
      eapply Qle_lt_trans; [apply Qmult_le_compat_r; [exact H|unfold u53, Qle; simpl; lia]|].
      reflexivity. }
  rewrite E. apply rnd64_comp.
  unfold dec, Qeq, Qmult, inject_Z; cbn [Qnum Qden]. rewrite Pos.mul_1_l, Z2Pos.id by lia. nia.
Qed.
