(** * P_scale: scaled, logarithmic and exponential fields (C22-C25). *)
From Coq Require Import Lqa Qabs.
From Verif Require Import PyVal Bits Float64 FloatX Utf8 Adapters Construct Size Spec Master
  AdapterSpec AdapterProofs1 AdapterProofs2 AdapterProofs3 AdapterProofs4 Access AccessProofs BitLayout Uses P_int.

(** ** The scaled fields of the library.
    One row per kind of field: octets, decimals kept (0: all), the resolution as the
    code has it, its decimal value n/d, whether the largest raw value means
    "not known", and the integer field. *)
Definition scale_table : list (Z * Z * resolution * Z * positive * bool * con) := [
  (1, 0, RFloat 1, 1, 1%positive, false, Int8sl);
  (1, 0, RFloat 1, 1, 1%positive, true, Int8ul);
  (1, 1, RFloat (flit 1 10), 1, 10%positive, true, Int8ul);
  (1, 1, RFloat (flit 5 10), 5, 10%positive, false, Int8ul);
  (1, 1, RFloat (flit 5 10), 5, 10%positive, true, Int8sl);
  (1, 1, RFloat (flit 5 10), 5, 10%positive, true, Int8ul);
  (1, 4, RFloat (flit 1 10000), 1, 10000%positive, false, Int8sl);
  (2, 0, RFloat (flit 1 64), 1, 64%positive, true, Int16ul);
  (2, 0, RFloat (flit 1 65535), 1, 65535%positive, false, Int16ul);
  (2, 0, RFloat 1, 1, 1%positive, false, Int16ul);
  (2, 0, RFloat 1, 1, 1%positive, true, Int16ul);
  (2, 1, RFloat (flit 1 10), 1, 10%positive, true, Int16ul);
  (2, 1, RFloat (flit 5 10), 5, 10%positive, false, Int16sl);
  (2, 1, RInt 1, 1, 1%positive, true, Int16ul);
  (2, 2, RFloat (flit 1 100), 1, 100%positive, true, Int16sl);
  (2, 2, RFloat (flit 1 100), 1, 100%positive, true, Int16ul);
  (2, 5, RFloat (flit 1 100000), 1, 100000%positive, false, Int16sl);
  (3, 0, RFloat (flit 1 64), 1, 64%positive, false, Int24ul);
  (3, 0, RFloat 1, 1, 1%positive, true, Int24ul);
  (3, 1, RFloat (flit 1 10), 1, 10%positive, false, Int24ul);
  (3, 1, RFloat (flit 1 10), 1, 10%positive, true, Int24ul);
  (3, 1, RInt 1, 1, 1%positive, false, Int24ul);
  (3, 1, RInt 1000, 1000, 1%positive, true, Int24ul);
  (3, 2, RFloat (flit 1 100), 1, 100%positive, false, Int24ul);
  (3, 3, RFloat (flit 1 1000), 1, 1000%positive, true, Int24ul);
  (4, 0, RFloat 1, 1, 1%positive, true, Int32ul);
  (4, 3, RFloat (flit 1 1000), 1, 1000%positive, false, Int32ul)].

Definition q_eqb (a b : Q) : bool := Z.eqb (Qnum a) (Qnum b) && Pos.eqb (Qden a) (Qden b).
Lemma q_eqb_spec a b : q_eqb a b = true -> a = b.
Proof. destruct a, b. unfold q_eqb; cbn. intros H. apply andb_prop in H as [H1 H2]. apply Z.eqb_eq in H1. apply Pos.eqb_eq in H2. congruence. Qed.
Definition res_eqb (a b : resolution) : bool :=
  match a, b with RInt x, RInt y => Z.eqb x y | RFloat x, RFloat y => q_eqb x y | _, _ => false end.
Lemma res_eqb_spec a b : res_eqb a b = true -> a = b.
Proof. destruct a, b; cbn; intros H; try discriminate; [apply Z.eqb_eq in H|apply q_eqb_spec in H]; congruence. Qed.

(** every scaled field of every message is one of these *)
Theorem C22_all_fields : forall b k r u w, In (ACount b k r u, w) all_uses ->
  exists n d, In (b, k, r, n, d, u, w) scale_table.
Proof.
  intros b k r u w H.
  assert (C : forallb (fun p => match fst p with
     | ACount b k r u => existsb (fun row => match row with (b', k', r', _, _, u', w') =>
         Z.eqb b b' && Z.eqb k k' && res_eqb r r' && Bool.eqb u u' && con_eqb (snd p) w' end) scale_table
     | _ => true end) all_uses = true) by (vm_compute; reflexivity).
  apply (proj1 (forallb_forall _ all_uses)) with (x := (ACount b k r u, w)) in C; [|exact H]. cbn [fst snd] in C.
  apply existsb_exists in C as ([[[[[[b' k'] r'] n] d] u'] w'] & Hi & E).
  repeat (apply andb_prop in E as [E ?]). apply Z.eqb_eq in E. apply con_eqb_spec in H0. apply Bool.eqb_prop in H1.
  apply res_eqb_spec in H2. apply Z.eqb_eq in H3. subst. eauto.
Qed.
Print Assumptions C22_all_fields.

(** the integer field of [b] octets: little endian, signed or not *)
Definition int_field (b : Z) (w : con) : Prop :=
  exists n, Z.of_nat n = b /\ ((exists sg, w = CInt n sg) \/ w = CBytesInt n true).
Lemma row_ok b k r n d u w : In (b, k, r, n, d, u, w) scale_table ->
  has_res r n d /\ decimals_ok k r n d /\ 1 <= b <= 4 /\ int_field b w.
Proof.
  assert (F : forall n w, (exists sg, w = CInt n sg) \/ w = CBytesInt n true -> int_field (Z.of_nat n) w) by (intros n0 w0 H; exists n0; auto).
  assert (D : forall k n d m, 0 < k -> n * 10 ^ k = m * Zpos d -> 0 < m <= 2 ^ 15 -> k = 0 \/ (0 < k /\ exists m, n * 10 ^ k = m * Zpos d /\ 0 < m <= 2 ^ 15)) by (intros; right; eauto).
  intros H. cbn [In scale_table] in H.
  repeat destruct H as [H|H]; try contradiction; injection H as <- <- <- <- <- <- <-;
    (split; [split; [lia|first [reflexivity|split; reflexivity]]|]; split; [split; [lia|first [exact I|left; reflexivity|right; split; [lia|]; first [exists 1; split; [reflexivity|lia]|exists 5; split; [reflexivity|lia]]]]|]; split; [lia|]);
    first [apply (F 1%nat); eauto; fail|apply (F 2%nat); eauto; fail|apply (F 3%nat); eauto; fail|apply (F 4%nat); eauto; fail].
Qed.

Lemma int_field_parse b w ctx s rest : 1 <= b <= 4 -> int_field b w -> bytes s -> Z.of_nat (length s) = b ->
  exists z, parse w ctx (s ++ rest) = Ok (VInt z, rest) /\ build w ctx (VInt z) = Ok s /\ Z.abs z < 256 ^ b.
Proof.
  intros Hb (n & <- & H) Hs Hl. apply Nat2Z.inj in Hl. destruct H as [[sg ->]| ->].
  - destruct (C11_parse n sg ctx s rest ltac:(lia) Hs Hl) as (z & Hp & Hf & He). exists z. split; [exact Hp|].
    destruct (C11_build_in_range n sg ctx (VInt z) z eq_refl Hf) as (s' & Hb' & Hs' & Hl' & He').
    split.
    + rewrite Hb'. f_equal. apply of_le_inj; [exact Hs'|exact Hs|lia|congruence].
    + rewrite pow256_2. unfold fits in Hf. assert (P : 2 ^ (8 * Z.of_nat n) = 2 * 2 ^ (8 * Z.of_nat n - 1)) by (rewrite <- Z.pow_succ_r by lia; f_equal; lia).
      assert (0 < 2 ^ (8 * Z.of_nat n - 1)) by (apply Z.pow_pos_nonneg; lia). destruct sg; lia.
  - pose proof (of_le_bound s Hs) as B. rewrite Hl in B. exists (of_le s). cbn [parse]. rewrite (take_app' n s rest Hl). cbn [bind]. split; [reflexivity|].
    destruct (C12_bytesint_in_range n true ctx (VInt (of_le s)) (of_le s) eq_refl) as (s' & Hb' & Hs' & Hl' & He'); [rewrite <- pow256_2; exact B|].
    split; [|lia]. rewrite Hb'. f_equal. apply of_le_inj; [exact Hs'|exact Hs|lia|exact He'].
Qed.

(** what a raw integer decodes to is within a thousandth of it, in units of the resolution *)
Lemma scaled_near k r n d z : has_res r n d -> decimals_ok k r n d -> Z.abs z <= 2 ^ 33 ->
  exists x, num_of (scaled k r n d z) = Some x /\ (Qabs (x / (n # d) - inject_Z z) <= 49 # 100)%Q
    /\ (forall y, as_int (scaled k r n d z) = Some y -> Z.abs y <= 2 ^ 53).
Proof.
  intros [Hn Hr] [Hn15 _] Hz. assert (Hc : (0 < n # d)%Q) by (unfold Qlt; cbn [Qnum Qden]; lia).
  assert (Hzq : (Qabs (inject_Z z) <= 8589934592)%Q).
  { rewrite Qabs_int. change 8589934592%Q with (inject_Z (2 ^ 33)). rewrite <- Zle_Qle. lia. }
  assert (G : forall x, rel (1 # 1000000000000) (inject_Z z * (n # d)) x -> (Qabs (x / (n # d) - inject_Z z) <= 49 # 100)%Q).
  { intros x R. unfold rel in R. rewrite Qabs_Qmult, (Qabs_pos (n # d)) in R by lra.
    setoid_replace (x / (n # d) - inject_Z z)%Q with ((x - inject_Z z * (n # d)) * / (n # d))%Q by (field; intros E; rewrite E in Hc; discriminate).
    rewrite Qabs_Qmult, (Qabs_pos (/ (n # d))) by (apply Qinv_le_0_compat; lra).
    apply Qle_trans with (Qabs (inject_Z z) * (n # d) * (1 # 1000000000000) * / (n # d))%Q.
    - apply Qmult_le_compat_r; [exact R|apply Qinv_le_0_compat; lra].
    - setoid_replace (Qabs (inject_Z z) * (n # d) * (1 # 1000000000000) * / (n # d))%Q with (Qabs (inject_Z z) * (1 # 1000000000000))%Q by (field; intros E; rewrite E in Hc; discriminate).
      lra. }
  unfold scaled. destruct r as [j|q].
  - destruct Hr as [-> ->]. exists (inject_Z (z * n)). split; [reflexivity|]. split; [|intros y E; injection E as <-; nia].
    apply G. unfold rel. setoid_replace (inject_Z (z * n) - inject_Z z * (n # 1))%Q with 0%Q.
    + change (Qabs 0) with 0%Q. apply Qmult_le_0_compat; [apply Qabs_nonneg|discriminate].
    + rewrite inject_Z_mult. change (n # 1)%Q with (inject_Z n). ring.
  - subst q. destruct (k =? 0); (eexists; split; [reflexivity|]; split; [|intros y E; discriminate E]); apply G.
    + apply rel_weaken with (u := (u53 + u53 + u53 * u53)%Q); [apply Qleb_spec; vm_compute; reflexivity|].
      apply rel_trans with (y := (inject_Z z * flit n d)%Q); [apply Qleb_spec; reflexivity..| |apply rel_rnd].
      eapply rel_comp; [apply Qmult_comm|apply Qmult_comm|]. apply rel_mul_r. apply rel_rnd.
    + eapply rel_weaken; [|apply rel_rnd]. apply Qleb_spec; vm_compute; reflexivity.
Qed.

Definition not_known (b : Z) (u : bool) (z : Z) : Prop := u = true /\ z = 256 ^ b - 1.

Lemma pub_float v q : pub v = VFloat q -> v = VFloat q.
Proof. destruct v; cbn [pub]; intros H; try discriminate H; auto. Qed.

(** ** C22: every raw value decodes to a number that encodes to the same raw value *)
Theorem C22_round_trip : forall b k r n d u w, In (b, k, r, n, d, u, w) scale_table ->
  forall s rest, bytes s -> Z.of_nat (length s) = b ->
  let f := CAdapt (ACount b k r u) w in
  exists z v, parse w [] s = Ok (VInt z, []) /\ parse f [] (s ++ rest) = Ok (v, rest) /\ build f [] v = Ok s
    /\ (not_known b u z -> v = VFloat fmax) /\ (~ not_known b u z -> v = scaled k r n d z).
Proof.
  intros b k r n d u w Hrow s rest Hs Hl f. destruct (row_ok _ _ _ _ _ _ _ Hrow) as (Hr & Hk & Hb & Hw).
  destruct (int_field_parse b w [] s [] Hb Hw Hs Hl) as (z & Hp0 & Hbd & Hz). rewrite app_nil_r in Hp0.
  destruct (int_field_parse b w [] s rest Hb Hw Hs Hl) as (z' & Hp & Hbd' & _).
  assert (z' = z) as ->.
  { clear -Hp Hp0 Hl Hw. destruct Hw as (m & <- & H). apply Nat2Z.inj in Hl. destruct H as [[sg ->]| ->]; cbn [parse] in Hp, Hp0;
      rewrite (take_app' m s rest Hl) in Hp; rewrite <- (app_nil_r s) in Hp0; rewrite (take_app' m s [] Hl) in Hp0; cbn [bind] in Hp, Hp0; congruence. }
  assert (Hb4 : 256 ^ b <= 2 ^ 32) by (change (2 ^ 32) with (256 ^ 4); apply Z.pow_le_mono_r; lia).
  assert (Hdec : (u = true /\ z = 256 ^ b - 1) \/ (u = true -> z <> 256 ^ b - 1)).
  { destruct u; [|right; discriminate]. destruct (Z.eq_dec z (256 ^ b - 1)); [left; auto|right; auto]. }
  exists z. subst f. rewrite parse_adapt, Hp. cbn [bind]. destruct Hdec as [[-> ->]|Hne].
  - destruct (count_ok b k r true (VFloat fmax) (VInt (256 ^ b - 1)) (VInt (256 ^ b - 1)) (VFloat fmax)) as [E D].
    { right. exists fmax. split; [reflexivity|]. split; [reflexivity|]. split; [reflexivity|auto]. }
    destruct (D (VInt (256 ^ b - 1)) eq_refl) as (v & Dv & Pv). apply pub_float in Pv. subst v. exists (VFloat fmax).
    split; [exact Hp0|]. rewrite Dv. cbn [bind]. split; [reflexivity|]. split; [rewrite build_adapt, E; exact Hbd|]. split; [reflexivity|].
    intros H. destruct H. split; reflexivity.
  - destruct (scaled_near k r n d z Hr Hk ltac:(lia)) as (x & Hx & Hnear & Hint).
    destruct (count_ok b k r u (scaled k r n d z) (VInt z) (VInt z) (scaled k r n d z)) as [E D].
    { left. exists n, d, x, z. repeat (split; [assumption|]). auto. }
    destruct (D (VInt z) eq_refl) as (v & Dv & Pv).
    assert (v = scaled k r n d z) as -> by (unfold scaled in *; destruct r; [apply pub_int in Pv|apply pub_float in Pv]; exact Pv).
    exists (scaled k r n d z). split; [exact Hp0|]. rewrite Dv. cbn [bind]. split; [reflexivity|].
    split; [rewrite build_adapt, E; exact Hbd|]. split; [|reflexivity]. intros [H1 H2]. destruct (Hne H1 H2).
Qed.
Print Assumptions C22_round_trip.
Example C22_ex : In (2, 2, RFloat (flit 1 100), 1, 100%positive, true, Int16ul) scale_table
  /\ parse_msg (CAdapt (ACount 2 2 (RFloat (flit 1 100)) true) Int16ul) [0xD2; 0x04] = Ok (VFloat (flit 1234 100))
  /\ build_msg (CAdapt (ACount 2 2 (RFloat (flit 1 100)) true) Int16ul) (VFloat (flit 1234 100)) = Ok [0xD2; 0x04].
Proof. split; [cbn [In scale_table]; tauto|]. split; vm_compute; reflexivity. Qed.

(** ** C23: encoding a number picks the nearest raw value *)
Theorem C23_nearest : forall b k r n d u w, In (b, k, r, n, d, u, w) scale_table ->
  forall v x, num_of v = Some x -> (Qabs (x / (n # d)) <= 2 ^ 33)%Q -> (forall y, as_int v = Some y -> Z.abs y <= 2 ^ 53) ->
  exists z, (Qabs (x / (n # d) - inject_Z z) <= (1 # 2) + (1 # 100000))%Q
    /\ forall ctx, build (CAdapt (ACount b k r u) w) ctx v = build w ctx (VInt z).
Proof.
  intros b k r n d u w Hrow v x Hv Hx Hy. destruct (row_ok _ _ _ _ _ _ _ Hrow) as ([Hn Hr] & [Hn15 _] & Hb & Hw).
  assert (Hc : (0 < n # d)%Q) by (unfold Qlt; cbn [Qnum Qden]; lia).
  assert (Hfm : Qeq_bool x fmax = false).
  { destruct (Qeq_bool x fmax) eqn:E; [exfalso|reflexivity]. apply Qeq_bool_iff in E. rewrite E in Hx.
    assert (P : (0 <= fmax / (n # d))%Q) by (apply Qle_shift_div_l; [exact Hc|rewrite Qmult_0_l; discriminate]).
    rewrite (Qabs_pos _ P) in Hx.
    assert (Hm : (fmax <= 2 ^ 33 * (n # d))%Q).
    { setoid_replace fmax with (fmax / (n # d) * (n # d))%Q by (field; intros E'; rewrite E' in Hc; discriminate).
      apply Qmult_le_compat_r; [exact Hx|lra]. }
    assert (Hd : (n # d <= inject_Z (2 ^ 15))%Q) by (unfold Qle, inject_Z; cbn [Qnum Qden]; nia).
    assert (fmax <= 2 ^ 33 * inject_Z (2 ^ 15))%Q.
    { eapply Qle_trans; [exact Hm|]. rewrite !(Qmult_comm (2 ^ 33)). apply Qmult_le_compat_r; [exact Hd|discriminate]. }
    revert H. clear. vm_compute. intros H; apply H; reflexivity. }
  assert (T : exists y, true_div v r = Some y /\ (Qabs (y - x / (n # d)) <= Qabs (x / (n # d)) * (4 # 9007199254740992))%Q).
  { destruct r as [j|q].
    - destruct Hr as [-> ->]. rewrite (true_div_int v x n Hv) by lia. eexists; split; [reflexivity|].
      eapply Qle_trans; [apply rnd64_bounds|]. change (inject_Z n) with (n # 1)%Q. rewrite !(Qmult_comm (Qabs _)). apply Qmult_le_compat_r; [discriminate|apply Qabs_nonneg].
    - subst q. rewrite (true_div_float v x _ Hv Hy). eexists; split; [reflexivity|]. now apply fdiv_flit_err. }
  destruct T as (y & Ty & Hyb). exists (rneQ y). split.
  - setoid_replace (x / (n # d) - inject_Z (rneQ y))%Q with ((y - inject_Z (rneQ y)) - (y - x / (n # d)))%Q by ring.
    unfold Qminus at 1. eapply Qle_trans; [apply Qabs_triangle|]. rewrite Qabs_opp. pose proof (rneQ_bound y) as R. change (2 ^ 33)%Q with (8589934592 # 1)%Q in Hx. lra.
  - intros ctx. rewrite build_adapt. cbn [encode]. unfold count_encode. rewrite Hv, Hfm, andb_false_r, Ty. reflexivity.
Qed.
Print Assumptions C23_nearest.
(** the largest float means "not known" where the field has such a value, and unsigned *)
Theorem C23_unknown : forall b k r n d w, In (b, k, r, n, d, true, w) scale_table ->
  (exists s, build_msg (CAdapt (ACount b k r true) w) (VFloat fmax) = Ok s /\ s = repeat 255 (Z.to_nat b)
             /\ parse_msg (CAdapt (ACount b k r true) w) s = Ok (VFloat fmax))
  \/ (exists m, w = CInt m true) /\ exists e, build_msg (CAdapt (ACount b k r true) w) (VFloat fmax) = Err e.
Proof.
  intros b k r n d w H. cbn [In scale_table] in H.
  repeat destruct H as [H|H]; try contradiction; try discriminate H; injection H as <- <- <- <- <- <-;
    first [left; eexists; split; [vm_compute; reflexivity|]; split; vm_compute; reflexivity
          |right; split; [eauto|]; eexists; vm_compute; reflexivity].
Qed.
Print Assumptions C23_unknown.
(** ... but it is not the only such number: the nearest-value rule reaches the reserved raw value too *)
Theorem C23_unknown_alias_refuted :
  build_msg (CAdapt (ACount 2 2 (RFloat (flit 1 100)) true) Int16ul) (VFloat (flit 65535 100)) = Ok [255; 255]
  /\ parse_msg (CAdapt (ACount 2 2 (RFloat (flit 1 100)) true) Int16ul) [255; 255] = Ok (VFloat fmax).
Proof. split; vm_compute; reflexivity. Qed.
Print Assumptions C23_unknown_alias_refuted.
Example C23_ex : num_of (VFloat (flit 12346 1000)) = Some (flit 12346 1000) /\ (Qabs (flit 12346 1000 / (1 # 100)) <= 2 ^ 33)%Q
  /\ build_msg (CAdapt (ACount 2 2 (RFloat (flit 1 100)) true) Int16ul) (VFloat (flit 12346 1000)) = Ok [0xD3; 0x04].
Proof. split; [reflexivity|]. split; [apply Qleb_spec; vm_compute; reflexivity|vm_compute; reflexivity]. Qed.
