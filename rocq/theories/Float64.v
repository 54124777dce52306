(** * Float64: Python floats (IEEE binary64) as rationals with explicit rounding.

    Models the float operations used by util.py:264-286 (DefaultCountValidator),
    generics.py:27-60 (TransitionTimeAdapter, Delay), properties.py:220-228
    (TimeExponential8Validator) and time.py (TimeAdapter): [*], [/], [+], [-]
    round to nearest even on 53 bits; [round(x)] is round-half-even;
    [round(x, k)] is the double nearest to the correctly rounded k-digit
    decimal (CPython's float.__round__); [int(x)] truncates.
    Simplification: the exponent range is unbounded (no overflow to infinity,
    no subnormals). *)
From Coq Require Import ZArith QArith Qabs Qround Lia Lqa.
Open Scope Z_scope.

(** a/b rounded to the nearest integer, ties to even (b > 0). *)
Definition rne (a b : Z) : Z :=
  let q := a / b in
  let r := a mod b in
  match 2 * r ?= b with
  | Lt => q
  | Gt => q + 1
  | Eq => if Z.even q then q else q + 1
  end.

Definition rneQ (q : Q) : Z := rne (Qnum q) (Zpos (Qden q)).

(** 2^e as a fraction: 2^max(e,0) / 2^max(-e,0) *)
Definition nu (e : Z) : Z := 2 ^ Z.max e 0.
Definition de (e : Z) : Z := 2 ^ Z.max (- e) 0.
Definition two_pow (e : Z) : Q := Qmake (nu e) (Z.to_pos (de e)).

(** exponent e such that 2^52 <= n/d / 2^e < 2^53 (for n > 0) *)
Definition fexp (n : Z) (d : positive) : Z :=
  let k := Z.log2 n - Z.log2 (Zpos d) in
  (* 2^(k-1) < n/d < 2^(k+1) *)
  if Zpos d * nu k <=? n * de k then k - 52 else k - 53.

(** mantissa: n/d / 2^e rounded *)
Definition fmant (n : Z) (d : positive) (e : Z) : Z := rne (n * de e) (Zpos d * nu e).

Definition rnd64 (q : Q) : Q :=
  match Qnum q with
  | Z0 => 0%Q
  | Zpos n =>
      let e := fexp (Zpos n) (Qden q) in
      Qred (inject_Z (fmant (Zpos n) (Qden q) e) * two_pow e)
  | Zneg n =>
      let e := fexp (Zpos n) (Qden q) in
      Qred (- (inject_Z (fmant (Zpos n) (Qden q) e) * two_pow e))
  end.

(** Python arithmetic on floats *)
Definition fmul (a b : Q) : Q := rnd64 (a * b).
Definition fdiv (a b : Q) : Q := rnd64 (a / b).
Definition fadd (a b : Q) : Q := rnd64 (a + b).
Definition fsub (a b : Q) : Q := rnd64 (a - b).
(** float literals are the doubles nearest to the decimal *)
Definition flit (n : Z) (d : positive) : Q := rnd64 (Qmake n d).
(** float(z) *)
Definition fz (z : Z) : Q := rnd64 (inject_Z z).
(** round(x, k), k > 0 *)
Definition fround (k : Z) (x : Q) : Q :=
  rnd64 (Qmake (rneQ (x * inject_Z (10 ^ k))) (Z.to_pos (10 ^ k))).
(** int(x) *)
Definition ftrunc (x : Q) : Z := Z.quot (Qnum x) (Zpos (Qden x)).

(** sys.float_info.max = (2^53 - 1) * 2^971 *)
Definition fmax : Q := inject_Z ((2 ^ 53 - 1) * 2 ^ 971).

(** ** Lemmas *)
Lemma rne_bound a b : 0 < b -> - b <= 2 * (a - rne a b * b) <= b.
Proof.
  intros Hb. unfold rne.
  pose proof (Z.div_mod a b ltac:(lia)) as E.
  pose proof (Z.mod_pos_bound a b Hb) as Hm.
  destruct (Z.compare_spec (2 * (a mod b)) b); [destruct (Z.even (a / b))|..]; nia.
Qed.

Lemma rne_unique a b n : 0 < b -> 2 * Z.abs (a - n * b) < b -> rne a b = n.
Proof.
  intros Hb H. pose proof (rne_bound a b Hb) as B.
  assert (2 * Z.abs ((rne a b - n) * b) < 2 * b) by nia.
  assert (Z.abs (rne a b - n) < 1) by nia. lia.
Qed.

Lemma rne_exact n b : 0 < b -> rne (n * b) b = n.
Proof. intros; apply rne_unique; auto. rewrite Z.sub_diag. simpl. lia. Qed.

Lemma rneQ_bound q : (Qabs (q - inject_Z (rneQ q)) <= 1 # 2)%Q.
Proof.
  destruct q as [n d].
  pose proof (rne_bound n (Zpos d) ltac:(lia)) as B.
  apply (proj2 (Qabs_Qle_condition _ _)). unfold rneQ.
  unfold Qle, Qminus, Qplus, Qopp, inject_Z; cbn [Qnum Qden].
  rewrite !Pos2Z.inj_mul. split; lia.
Qed.

Lemma rneQ_unique q n : (Qabs (q - inject_Z n) < 1 # 2)%Q -> rneQ q = n.
Proof.
  intros H. destruct q as [a d]. unfold rneQ; cbn [Qnum Qden]. apply rne_unique; [lia|].
  apply (proj1 (Qabs_Qlt_condition _ _)) in H.
  unfold Qlt, Qminus, Qplus, Qopp, inject_Z in H; cbn [Qnum Qden] in H.
  rewrite !Pos2Z.inj_mul in H. lia.
Qed.

Lemma rne_scale a b c : 0 < b -> 0 < c -> rne (a * c) (b * c) = rne a b.
Proof.
  intros Hb Hc. unfold rne.
  rewrite Z.div_mul_cancel_r, Zmult_mod_distr_r by lia.
  replace (2 * (a mod b * c)) with ((2 * (a mod b)) * c) by ring.
  rewrite <- (Zmult_compare_compat_r (2 * (a mod b)) b c) by lia.
  reflexivity.
Qed.

Lemma rne_eq a b c d : 0 < b -> 0 < d -> a * d = c * b -> rne a b = rne c d.
Proof.
  intros Hb Hd H.
  rewrite <- (rne_scale a b d), <- (rne_scale c d b) by lia.
  f_equal; [lia | ring].
Qed.

Lemma rneQ_comp p q : (p == q)%Q -> rneQ p = rneQ q.
Proof. intros H. apply rne_eq; [lia..|exact H]. Qed.

Lemma nu_pos e : 0 < nu e. Proof. apply Z.pow_pos_nonneg; lia. Qed.
Lemma de_pos e : 0 < de e. Proof. apply Z.pow_pos_nonneg; lia. Qed.

Lemma nu_nn e : 0 <= e -> nu e = 2 ^ e.
Proof. intros; unfold nu; now rewrite Z.max_l by lia. Qed.
Lemma de_nn e : 0 <= e -> de e = 1.
Proof. intros; unfold de; now rewrite Z.max_r by lia. Qed.

(** 2^a * 2^b = 2^(a+b) in fraction form *)
Lemma nu_de_add a b : nu (a + b) * (de a * de b) = nu a * nu b * de (a + b).
Proof.
  unfold nu, de. rewrite <- !Z.pow_add_r by lia. f_equal. lia.
Qed.

Lemma fexp_lower n d : 0 < n -> Zpos d * nu (fexp n d) * 2 ^ 52 <= n * de (fexp n d).
Proof.
  intros Hn. unfold fexp.
  set (k := Z.log2 n - Z.log2 (Zpos d)).
  pose proof (Z.log2_spec n Hn) as [Hn1 Hn2].
  pose proof (Z.log2_spec (Zpos d) ltac:(lia)) as [Hd1 Hd2].
  destruct (Z.leb_spec (Zpos d * nu k) (n * de k)) as [H|H].
  - pose proof (nu_de_add (k - 52) 52) as E. replace (k - 52 + 52) with k in E by lia.
    change (nu 52) with (2 ^ 52) in E. change (de 52) with 1 in E.
    pose proof (nu_pos k). pose proof (de_pos k). pose proof (nu_pos (k-52)). pose proof (de_pos (k-52)).
    assert (Zpos d * (nu (k - 52) * 2 ^ 52 * de k) <= n * de k * de (k - 52)) by nia.
    nia.
  - (* d < 2^(ld+1), n >= 2^ln *)
    pose proof (Z.log2_nonneg n). pose proof (Z.log2_nonneg (Zpos d)).
    assert (Hx : Zpos d * nu (k - 1) <= n * de (k - 1)).
    { unfold nu, de.
      destruct (Z.le_gt_cases 0 (k - 1)).
      - rewrite Z.max_l, (Z.max_r _ 0) by lia. rewrite Z.mul_1_r.
        apply Z.le_trans with (2 ^ Z.succ (Z.log2 (Zpos d)) * 2 ^ (k - 1)).
        + pose proof (Z.pow_pos_nonneg 2 (k - 1)). nia.
        + rewrite <- Z.pow_add_r by lia. eapply Z.le_trans; [|exact Hn1].
          apply Z.pow_le_mono_r; lia.
      - rewrite Z.max_r, (Z.max_l _ 0) by lia. rewrite Z.pow_0_r, Z.mul_1_r.
        apply Z.le_trans with (2 ^ Z.log2 n * 2 ^ (- (k - 1))).
        + rewrite <- Z.pow_add_r by lia.
          replace (Z.log2 n + - (k - 1)) with (Z.succ (Z.log2 (Zpos d))) by lia. lia.
        + pose proof (Z.pow_pos_nonneg 2 (-(k - 1))). nia. }
    pose proof (nu_de_add (k - 53) 52) as E. replace (k - 53 + 52) with (k - 1) in E by lia.
    change (nu 52) with (2 ^ 52) in E. change (de 52) with 1 in E.
    pose proof (nu_pos (k-1)). pose proof (de_pos (k-1)). pose proof (nu_pos (k-53)). pose proof (de_pos (k-53)).
    assert (Zpos d * (nu (k - 53) * 2 ^ 52 * de (k-1)) <= n * de (k-1) * de (k - 53)) by nia.
    nia.
Qed.

Definition u53 : Q := 1 # (2 ^ 53).

Lemma fmant_err n d e : 0 < n -> e = fexp n d ->
  (Qabs (inject_Z (fmant n d e) * two_pow e - Qmake n d) <= Qmake n d * u53)%Q.
Proof.
  intros Hn ->. set (e := fexp n d).
  pose proof (fexp_lower n d Hn) as L. fold e in L.
  unfold fmant. pose proof (nu_pos e) as Hnu. pose proof (de_pos e) as Hde.
  pose proof (rne_bound (n * de e) (Zpos d * nu e) ltac:(lia)) as B.
  set (m := rne (n * de e) (Zpos d * nu e)) in *.
  apply (proj2 (Qabs_Qle_condition _ _)).
  unfold u53, two_pow, inject_Z, Qle, Qminus, Qplus, Qopp, Qmult; simpl Qnum; simpl Qden.
  rewrite !Pos2Z.inj_mul, !Z2Pos.id by lia.
  change (Z.pos (2 ^ 53)) with (2 * 2 ^ 52).
  assert (B1 : (2 * 2 ^ 52) * Z.abs (n * de e - m * (Zpos d * nu e)) <= n * de e) by nia.
  set (D := Zpos d) in *. assert (0 < D) by (unfold D; lia).
  clearbody m D. clear L B.
  assert (X : Z.abs (n * de e - m * (D * nu e)) * (2 * 2 ^ 52) * D <= n * de e * D) by nia.
  split; nia.
Qed.

Lemma rnd64_err q : (Qabs (rnd64 q - q) <= Qabs q * u53)%Q.
Proof.
  destruct q as [[|n|n] d]; unfold rnd64; cbn [Qnum Qden].
  - rewrite Qabs_Qmult || idtac. unfold Qle, Qabs, Qminus, Qplus, Qopp, Qmult; simpl. lia.
  - rewrite Qred_correct. rewrite (Qabs_pos (Zpos n # d)) by (unfold Qle; simpl; lia).
    apply fmant_err; [lia | reflexivity].
  - rewrite Qred_correct.
    setoid_replace (- (inject_Z (fmant (Z.pos n) d (fexp (Z.pos n) d)) * two_pow (fexp (Z.pos n) d)) - (Z.neg n # d))%Q
      with (- (inject_Z (fmant (Z.pos n) d (fexp (Z.pos n) d)) * two_pow (fexp (Z.pos n) d) - (Z.pos n # d)))%Q.
    2:{ change (Z.neg n # d) with (- (Z.pos n # d))%Q. ring. }
    rewrite Qabs_opp. change (Z.neg n # d) with (- (Z.pos n # d))%Q. rewrite Qabs_opp.
    rewrite (Qabs_pos (Zpos n # d)) by (unfold Qle; simpl; lia).
    apply fmant_err; [lia | reflexivity].
Qed.

(** exactness on dyadics with at most 53 significant bits *)
Lemma fmant_exact n d m f : 0 < n -> 0 < m <= 2 ^ 53 -> (Qmake n d == inject_Z m * two_pow f)%Q ->
  (inject_Z (fmant n d (fexp n d)) * two_pow (fexp n d) == Qmake n d)%Q.
Proof.
  intros Hn Hm E. set (e := fexp n d).
  pose proof (fexp_lower n d Hn) as L. fold e in L.
  pose proof (nu_pos e) as Hnu. pose proof (de_pos e) as Hde.
  pose proof (nu_pos f) as Hnuf. pose proof (de_pos f) as Hdef.
  unfold two_pow, inject_Z, Qeq, Qmult in E; cbn [Qnum Qden] in E.
  rewrite Pos2Z.inj_mul, Z2Pos.id, Z.mul_1_l in E by lia.
  assert (E' : n * de f = m * nu f * Zpos d) by exact E.
  assert (H : exists j, n * de e = j * (Zpos d * nu e)).
  { destruct (Z.le_gt_cases e f) as [Hef|Hef].
    - exists (m * 2 ^ (f - e)).
      pose proof (nu_de_add e (f - e)) as A. replace (e + (f - e)) with f in A by lia.
      rewrite (nu_nn (f - e)), (de_nn (f - e)), Z.mul_1_r in A by lia.
      (* nu f * de e = nu e * 2^(f-e) * de f *)
      apply Z.mul_reg_r with (de f); [lia|]. nia.
    - pose proof (nu_de_add f (e - f)) as A. replace (f + (e - f)) with e in A by lia.
      rewrite (nu_nn (e - f)), (de_nn (e - f)), Z.mul_1_r in A by lia.
      (* nu e * de f = nu f * 2^(e-f) * de e *)
      assert (P2 : 2 ^ (e - f) = 2 * 2 ^ (e - f - 1)).
      { rewrite <- Z.pow_succ_r by lia. f_equal; lia. }
      assert (P1 : 1 <= 2 ^ (e - f - 1)) by (pose proof (Z.pow_pos_nonneg 2 (e - f - 1)); lia).
      set (t := 2 ^ (e - f - 1)) in *. rewrite P2 in A.
      assert (M : 2 ^ 52 * (2 * t) <= m).
      { assert (L2 : Zpos d * nu e * 2 ^ 52 * de f <= n * de e * de f) by nia.
        assert (L3 : Zpos d * (nu f * (2 * t) * de e) * 2 ^ 52 <= m * nu f * Zpos d * de e) by nia.
        assert (0 < Zpos d * nu f * de e) by nia.
        nia. }
      change (2 ^ 53) with (2 * 2 ^ 52) in Hm.
      assert (t = 1) by nia. assert (m = 2 * 2 ^ 52) by nia. subst t.
      exists (2 ^ 52). apply Z.mul_reg_r with (de f); [lia|]. nia. }
  destruct H as [j Hj]. unfold fmant. rewrite Hj, rne_exact by lia.
  unfold two_pow, inject_Z, Qeq, Qmult; cbn [Qnum Qden].
  rewrite Pos2Z.inj_mul, Z2Pos.id by lia. lia.
Qed.

Lemma rnd64_exact_pos n d m f : 0 < n -> 0 < m <= 2 ^ 53 -> (Qmake n d == inject_Z m * two_pow f)%Q ->
  rnd64 (Qmake n d) = Qred (Qmake n d).
Proof.
  intros Hn Hm E. destruct n as [|n|n]; [lia| |lia]. unfold rnd64; cbn [Qnum Qden].
  apply Qred_complete. now apply fmant_exact with m f.
Qed.

Lemma rnd64_opp q : rnd64 (- q) = (- rnd64 q)%Q.
Proof.
  destruct q as [[|n|n] d]; unfold rnd64; simpl Qnum; simpl Qden; cbn [Qopp Qnum Qden Z.opp].
  - reflexivity.
  - rewrite Qred_opp. reflexivity.
  - rewrite Qred_opp. destruct (Qred _) as [a b]. unfold Qopp; simpl. f_equal. lia.
Qed.

Lemma rnd64_exact q m f : Z.abs m <= 2 ^ 53 -> (q == inject_Z m * two_pow f)%Q -> rnd64 q = Qred q.
Proof.
  intros Hm E. destruct q as [n d].
  destruct (Z.lt_trichotomy n 0) as [H|[H|H]].
  - replace (n # d) with (- ((-n) # d))%Q by (unfold Qopp; simpl; f_equal; lia).
    rewrite rnd64_opp, Qred_opp. f_equal.
    apply rnd64_exact_pos with (- m) f; [lia| |].
    + assert (m < 0); [|lia].
      unfold Qeq, inject_Z, two_pow, Qmult in E; cbn [Qnum Qden] in E.
      pose proof (nu_pos f).
      assert (m * nu f * Zpos d < 0) by (rewrite <- E; nia). nia.
    + rewrite <- (Qopp_involutive (- n # d)).
      setoid_replace (- (- n # d))%Q with (n # d) by (unfold Qeq; simpl; lia).
      rewrite E. setoid_replace (inject_Z (-m)) with (- inject_Z m)%Q by reflexivity. ring.
  - subst n. unfold rnd64; simpl. reflexivity.
  - apply rnd64_exact_pos with m f; [lia| |exact E].
    assert (0 < m); [|lia].
    unfold Qeq, inject_Z, two_pow, Qmult in E; cbn [Qnum Qden] in E.
    pose proof (nu_pos f).
    assert (0 < m * nu f * Zpos d) by (rewrite <- E; nia). nia.
Qed.

Lemma rnd64_int z : Z.abs z <= 2 ^ 53 -> rnd64 (inject_Z z) = inject_Z z.
Proof.
  intros H. rewrite rnd64_exact with (inject_Z z) z 0.
  - unfold inject_Z, Qred. pose proof (Z.ggcd_correct_divisors z 1) as G.
    pose proof (Z.ggcd_gcd z 1) as G1. rewrite Z.gcd_1_r in G1.
    destruct (Z.ggcd z 1) as [g [aa bb]]. simpl in *. subst g. destruct G as [-> G].
    rewrite Z.mul_1_l in *. subst bb. reflexivity.
  - exact H.
  - unfold two_pow, nu, de; simpl. ring.
Qed.

Lemma fexp_upper n d : 0 < n -> n * de (fexp n d) < Zpos d * nu (fexp n d) * 2 ^ 53.
Proof.
  intros Hn. unfold fexp.
  set (k := Z.log2 n - Z.log2 (Zpos d)).
  pose proof (Z.log2_spec n Hn) as [Hn1 Hn2].
  pose proof (Z.log2_spec (Zpos d) ltac:(lia)) as [Hd1 Hd2].
  pose proof (Z.log2_nonneg n). pose proof (Z.log2_nonneg (Zpos d)).
  destruct (Z.leb_spec (Zpos d * nu k) (n * de k)) as [H1|H1].
  - assert (Hx : n * de (k + 1) < Zpos d * nu (k + 1)).
    { unfold nu, de.
      destruct (Z.le_gt_cases 0 (k + 1)).
      - rewrite (Z.max_l (k+1)), (Z.max_r _ 0) by lia. rewrite Z.pow_0_r, Z.mul_1_r.
        apply Z.lt_le_trans with (2 ^ Z.succ (Z.log2 n)); [lia|].
        apply Z.le_trans with (2 ^ Z.log2 (Zpos d) * 2 ^ (k + 1)).
        + rewrite <- Z.pow_add_r by lia. apply Z.pow_le_mono_r; lia.
        + pose proof (Z.pow_pos_nonneg 2 (k + 1)). nia.
      - rewrite (Z.max_r (k+1)), (Z.max_l _ 0) by lia. rewrite Z.pow_0_r, Z.mul_1_r.
        apply Z.lt_le_trans with (2 ^ Z.succ (Z.log2 n) * 2 ^ (- (k + 1))).
        + pose proof (Z.pow_pos_nonneg 2 (-(k + 1))). nia.
        + rewrite <- Z.pow_add_r by lia.
          replace (Z.succ (Z.log2 n) + - (k + 1)) with (Z.log2 (Zpos d)) by lia. lia. }
    pose proof (nu_de_add (k - 52) 53) as E. replace (k - 52 + 53) with (k + 1) in E by lia.
    change (nu 53) with (2 ^ 53) in E. change (de 53) with 1 in E.
    pose proof (nu_pos (k+1)). pose proof (de_pos (k+1)). pose proof (nu_pos (k-52)). pose proof (de_pos (k-52)).
    assert (n * de (k + 1) * de (k - 52) < Zpos d * (nu (k - 52) * 2 ^ 53 * de (k+1))) by nia.
    nia.
  - pose proof (nu_de_add (k - 53) 53) as E. replace (k - 53 + 53) with k in E by lia.
    change (nu 53) with (2 ^ 53) in E. change (de 53) with 1 in E.
    pose proof (nu_pos k). pose proof (de_pos k). pose proof (nu_pos (k-53)). pose proof (de_pos (k-53)).
    assert (n * de k * de (k - 53) < Zpos d * (nu (k - 53) * 2 ^ 53 * de k)) by nia.
    nia.
Qed.

Lemma nu_de_lt e f : e < f -> 2 * nu e * de f <= nu f * de e.
Proof.
  intros H. pose proof (nu_de_add e (f - e)) as A. replace (e + (f - e)) with f in A by lia.
  rewrite (nu_nn (f - e)), (de_nn (f - e)), Z.mul_1_r in A by lia.
  assert (2 <= 2 ^ (f - e)).
  { replace (f - e) with (Z.succ (f - e - 1)) by lia. rewrite Z.pow_succ_r by lia.
    pose proof (Z.pow_pos_nonneg 2 (f - e - 1)). lia. }
  rewrite A. pose proof (nu_pos e). pose proof (de_pos f). nia.
Qed.

Lemma fexp_lt_false n d n' d' : 0 < n -> 0 < n' -> n * Zpos d' = n' * Zpos d ->
  ~ fexp n d < fexp n' d'.
Proof.
  intros H1 H2 E L. pose proof (nu_de_lt _ _ L) as A.
  pose proof (fexp_upper n d H1) as U. pose proof (fexp_lower n' d' H2) as W.
  set (e := fexp n d) in *. set (f := fexp n' d') in *.
  pose proof (nu_pos e). pose proof (de_pos e). pose proof (nu_pos f). pose proof (de_pos f).
  change (2 ^ 53) with (2 * 2 ^ 52) in U.
  (* d' nu f 2^52 <= n' de f ; n de e < d nu e 2 2^52 ; 2 nu e de f <= nu f de e *)
  assert (X1 : Zpos d' * nu f * 2 ^ 52 * (Zpos d * de e) <= n' * de f * (Zpos d * de e)) by nia.
  assert (X2 : n * de e * (Zpos d' * de f) < Zpos d * nu e * (2 * 2 ^ 52) * (Zpos d' * de f)) by nia.
  assert (X3 : n' * de f * (Zpos d * de e) = n * de e * (Zpos d' * de f)).
  { transitivity (n' * Zpos d * de f * de e); [ring|]. rewrite <- E. ring. }
  assert (X4 : Zpos d * Zpos d' * 2 ^ 52 * (2 * nu e * de f) <= Zpos d * Zpos d' * 2 ^ 52 * (nu f * de e)) by nia.
  nia.
Qed.

Lemma fexp_eq n d n' d' : 0 < n -> 0 < n' -> n * Zpos d' = n' * Zpos d -> fexp n d = fexp n' d'.
Proof.
  intros H1 H2 E.
  pose proof (fexp_lt_false n d n' d' H1 H2 E).
  pose proof (fexp_lt_false n' d' n d H2 H1 (eq_sym E)). lia.
Qed.

Lemma rnd64_comp p q : (p == q)%Q -> rnd64 p = rnd64 q.
Proof.
  assert (G : forall n d n' d', (Zpos n # d == Zpos n' # d')%Q ->
     fexp (Zpos n) d = fexp (Zpos n') d' /\
     fmant (Zpos n) d (fexp (Zpos n) d) = fmant (Zpos n') d' (fexp (Zpos n') d')).
  { intros n d n' d' E. unfold Qeq in E; cbn [Qnum Qden] in E.
    assert (F : fexp (Zpos n) d = fexp (Zpos n') d') by (apply fexp_eq; lia).
    split; [exact F|]. rewrite <- F. set (e := fexp (Zpos n) d).
    unfold fmant. pose proof (nu_pos e). pose proof (de_pos e).
    apply rne_eq; [lia..|]. nia. }
  intros E. destruct p as [[|n|n] d], q as [[|n'|n'] d']; unfold Qeq in E; cbn [Qnum Qden] in E; try lia;
    unfold rnd64; cbn [Qnum Qden]; [reflexivity|..].
  - destruct (G n d n' d') as [-> ->]; [exact E | reflexivity].
  - destruct (G n d n' d') as [-> ->]; [unfold Qeq; cbn [Qnum Qden]; lia | reflexivity].
Qed.

Lemma rnd64_red q : Qred (rnd64 q) = rnd64 q.
Proof.
  unfold rnd64. destruct (Qnum q); [reflexivity|..]; apply Qred_complete, Qred_correct.
Qed.

Lemma rnd64_unique p q : (rnd64 p == rnd64 q)%Q -> rnd64 p = rnd64 q.
Proof. intros H. rewrite <- (rnd64_red p), <- (rnd64_red q). now apply Qred_complete. Qed.

(** ** Relative errors *)
Definition rel (u x y : Q) : Prop := (Qabs (y - x) <= Qabs x * u)%Q.

Lemma rel_rnd x : rel u53 x (rnd64 x).
Proof. apply rnd64_err. Qed.

Lemma rel_trans u w x y z : (0 <= u)%Q -> (0 <= w)%Q -> rel u x y -> rel w y z -> rel (u + w + u * w) x z.
Proof.
  unfold rel. intros Hu Hw H1 H2.
  setoid_replace (z - x)%Q with ((z - y) + (y - x))%Q by ring.
  eapply Qle_trans; [apply Qabs_triangle|].
  assert (Hy : (Qabs y <= Qabs x * (1 + u))%Q).
  { setoid_replace y with ((y - x) + x)%Q at 1 by ring.
    eapply Qle_trans; [apply Qabs_triangle|]. lra. }
  assert (Qabs y * w <= Qabs x * (1 + u) * w)%Q by (apply Qmult_le_compat_r; assumption).
  lra.
Qed.

Lemma rel_mul_r u x y c : rel u x y -> rel u (x * c) (y * c).
Proof.
  unfold rel. intros H.
  setoid_replace (y * c - x * c)%Q with ((y - x) * c)%Q by ring.
  rewrite !Qabs_Qmult.
  setoid_replace (Qabs x * Qabs c * u)%Q with (Qabs x * u * Qabs c)%Q by ring.
  apply Qmult_le_compat_r; [exact H | apply Qabs_nonneg].
Qed.

Lemma rel_comp u x x' y y' : (x == x')%Q -> (y == y')%Q -> rel u x y -> rel u x' y'.
Proof. unfold rel. intros -> ->. auto. Qed.

Lemma rel_weaken u w x y : (u <= w)%Q -> rel u x y -> rel w x y.
Proof.
  unfold rel; intros H1 H2. eapply Qle_trans; [exact H2|].
  rewrite !(Qmult_comm (Qabs x)). apply Qmult_le_compat_r; [exact H1 | apply Qabs_nonneg].
Qed.

Lemma rel_round u n y : rel u (inject_Z n) y -> (inject_Z (Z.abs n) * u < 1 # 2)%Q -> rneQ y = n.
Proof.
  unfold rel; intros H Hb. apply rneQ_unique. eapply Qle_lt_trans; [exact H|].
  exact Hb.
Qed.
