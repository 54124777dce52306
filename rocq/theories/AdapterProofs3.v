(** * AdapterProofs3: the adapters computing in floating point. *)
From Coq Require Import Qabs Permutation Sorted Lqa Qpower.
From Verif Require Import PyVal Bits Utf8 Float64 FloatX Adapters Construct Size Spec Master AdapterSpec AdapterProofs1 AdapterProofs2.

Lemma near_round t z : Z.abs z <= 2 ^ 33 -> (Qabs (t - inject_Z z) <= 49 # 100)%Q -> rneQ (rnd64 t) = z.
Proof.
  intros Hz H. apply rneQ_unique. pose proof (rnd64_bounds t) as E.
  assert (Ht : (Qabs t <= inject_Z (2 ^ 33 + 1))%Q).
  { setoid_replace t with ((t - inject_Z z) + inject_Z z)%Q by ring.
    eapply Qle_trans; [apply Qabs_triangle|].
    rewrite Qabs_int. assert (inject_Z (Z.abs z) <= inject_Z (2 ^ 33))%Q by (rewrite <- Zle_Qle; lia).
    rewrite inject_Z_plus. change (inject_Z 1) with 1%Q. lra. }
  setoid_replace (rnd64 t - inject_Z z)%Q with ((rnd64 t - t) + (t - inject_Z z))%Q by ring.
  eapply Qle_lt_trans; [apply Qabs_triangle|].
  change (inject_Z (2 ^ 33 + 1)) with (8589934593 # 1)%Q in Ht. lra.
Qed.

Lemma fz_small z : Z.abs z <= 2 ^ 53 -> fz z = inject_Z z.
Proof. intros H. unfold fz. now apply rnd64_int. Qed.

Lemma num_as_int v x y : num_of v = Some x -> as_int v = Some y -> x = inject_Z y.
Proof. destruct v; simpl; try discriminate; congruence. Qed.

(** dividing a number by a resolution *)
Lemma true_div_float v x q : num_of v = Some x -> (forall y, as_int v = Some y -> Z.abs y <= 2 ^ 53) ->
  true_div v (RFloat q) = Some (fdiv x q).
Proof.
  intros Hv Hy. unfold true_div. rewrite Hv. destruct (as_int v) as [y|] eqn:E; [|reflexivity].
  rewrite (fz_small y) by (now apply Hy). now rewrite (num_as_int v x y Hv E).
Qed.
Lemma true_div_int v x k : num_of v = Some x -> Z.abs k <= 2 ^ 53 ->
  true_div v (RInt k) = Some (rnd64 (x / inject_Z k)).
Proof.
  intros Hv Hk. unfold true_div. rewrite Hv. destruct (as_int v) as [y|] eqn:E.
  - now rewrite (num_as_int v x y Hv E).
  - unfold fdiv. now rewrite (fz_small k Hk).
Qed.

Lemma count_ok b k r u : adapter_ok (ACount b k r u).
Proof.
  intros v w w' v' [(n & d & x & z & Hr & Hk & Hv & Hy & Hb & Hz & Hn & Hu & -> & -> & ->)
                   |(x & -> & Hv & Hx & -> & -> & ->)].
  - destruct Hr as [Hn0 Hr]. destruct Hk as [Hn15 Hk].
    assert (Hb4 : 256 ^ b <= 2 ^ 32) by (change (2 ^ 32) with (256 ^ 4); apply Z.pow_le_mono_r; lia).
    assert (Hd : (0 < dec n d)%Q) by (unfold dec, Qlt; cbn [Qnum Qden]; lia).
    assert (Hfm : Qeq_bool x fmax = false).
    { destruct (Qeq_bool x fmax) eqn:E; [exfalso|reflexivity].
      apply Qeq_bool_iff in E. rewrite E in Hn.
      apply Qabs_Qle_condition in Hn as [_ Hn].
      assert (Hle : (fmax / (n # d) <= inject_Z (2 ^ 32))%Q).
      { assert (inject_Z z <= inject_Z (2 ^ 32 - 1))%Q by (rewrite <- Zle_Qle; lia).
        change (inject_Z (2 ^ 32 - 1)) with (4294967295 # 1)%Q in H.
        change (inject_Z (2 ^ 32)) with (4294967296 # 1)%Q. lra. }
      assert (Hc : (fmax <= inject_Z (2 ^ 32) * dec n d)%Q).
      { setoid_replace fmax with (fmax / (n # d) * dec n d)%Q.
        - apply Qmult_le_compat_r; [exact Hle|lra].
        - unfold dec. field. intros X. unfold dec in Hd. rewrite X in Hd. lra. }
      assert (dec n d <= inject_Z (2 ^ 15))%Q.
      { unfold dec, Qle, inject_Z; cbn [Qnum Qden]. nia. }
      assert (fmax <= inject_Z (2 ^ 32) * inject_Z (2 ^ 15))%Q.
      { eapply Qle_trans; [exact Hc|]. rewrite !(Qmult_comm (inject_Z (2 ^ 32))).
        apply Qmult_le_compat_r; [assumption|discriminate]. }
      revert H0. clear. vm_compute. intros H; apply H; reflexivity. }
    split.
    + cbn [encode]. unfold count_encode. rewrite Hv, Hfm, andb_false_r.
      destruct r as [kk|q].
      * destruct Hr as [-> ->]. rewrite (true_div_int v x n Hv) by lia. f_equal. f_equal.
        apply near_round; [lia|]. exact Hn.
      * subst q. rewrite (true_div_float v x _ Hv Hy). f_equal. f_equal.
        apply scaled_encode; [exact Hn0|lia|exact Hn].
    + intros w2 E. apply pub_int in E. subst w2. cbn [decode]. unfold as_intr; cbn [as_int bind].
      eexists; split; [reflexivity|]. unfold count_decode, scaled.
      replace (u && (z =? 256 ^ b - 1)) with false.
      2:{ destruct u; [|reflexivity]. cbn [andb]. symmetry. apply Z.eqb_neq. now apply Hu. }
      destruct r as [kk|q].
      * destruct Hr as [-> ->]. reflexivity.
      * subst q. destruct (Z.eqb_spec k 0) as [->|Hk0].
        -- cbn [pub]. unfold fmul. now rewrite fz_small by lia.
        -- destruct Hk as [->|(Hk & m & Hm & Hm15)]; [congruence|].
           rewrite (scaled_decode z n d k m); [reflexivity|lia|lia|lia|exact Hm|nia].
  - split.
    + cbn [encode]. unfold count_encode. rewrite Hv.
      replace (Qeq_bool x fmax) with true by (symmetry; now apply Qeq_bool_iff). reflexivity.
    + intros w2 E. apply pub_int in E. subst w2. cbn [decode]. unfold as_intr; cbn [as_int bind].
      eexists; split; [reflexivity|]. unfold count_decode. rewrite Z.eqb_refl. reflexivity.
Qed.

(** ** delays *)
Definition upto (n : nat) : list Z := map Z.of_nat (seq 0 n).
Lemma in_upto n z : 0 <= z < Z.of_nat n -> In z (upto n).
Proof. intros H. unfold upto. replace z with (Z.of_nat (Z.to_nat z)) by lia. apply in_map, in_seq. lia. Qed.
Definition zmem (z : Z) (l : list Z) : bool := existsb (Z.eqb z) l.
Lemma zmem_in z l : zmem z l = true <-> In z l.
Proof.
  unfold zmem. rewrite existsb_exists. split.
  - intros (x & H & E). apply Z.eqb_eq in E. now subst.
  - intros H. exists z. split; [exact H|apply Z.eqb_refl].
Qed.

Lemma Qred_int y : Qred (inject_Z y) = inject_Z y.
Proof.
  unfold Qred, inject_Z. pose proof (Z.ggcd_gcd y 1) as G. pose proof (Z.ggcd_correct_divisors y 1) as D.
  destruct (Z.ggcd y 1) as [g [a b]]. cbn [fst snd] in *. rewrite Z.gcd_1_r in G. subst g.
  destruct D as [-> D2]. rewrite !Z.mul_1_l in *. now rewrite <- D2.
Qed.

Definition delay_check (z : Z) : bool :=
  zmem z lossy_delays ||
  ((ftrunc (fmul (rnd64 (z # 200)) 200) =? z)
   && (negb (Pos.eqb (Qden (rnd64 (z # 200))) 1) || (Qnum (rnd64 (z # 200)) * 200 =? z))).
Lemma delay_checked : forallb delay_check (upto 256) = true.
Proof. vm_compute. reflexivity. Qed.
Lemma delay_fixed z : 0 <= z <= 255 -> ~ In z lossy_delays ->
  ftrunc (fmul (rnd64 (z # 200)) 200) = z /\ (forall y, (inject_Z y == rnd64 (z # 200))%Q -> y * 200 = z).
Proof.
  intros Hz Hl. pose proof (proj1 (forallb_forall _ _) delay_checked z (in_upto 256 z ltac:(lia))) as H.
  unfold delay_check in H. apply orb_prop in H as [H|H]; [apply zmem_in in H; contradiction|].
  apply andb_prop in H as [H1 H2]. apply Z.eqb_eq in H1. split; [exact H1|].
  intros y Hy.
  assert (E : rnd64 (z # 200) = inject_Z y).
  { rewrite <- (rnd64_red (z # 200)). symmetry. apply Qred_complete in Hy. rewrite <- Hy.
    symmetry. apply Qred_int. }
  rewrite E in H2. cbn [inject_Z Qnum Qden Pos.eqb negb orb] in H2. now apply Z.eqb_eq in H2.
Qed.

Lemma ftrunc_comp p q : (0 <= p)%Q -> (p == q)%Q -> ftrunc p = ftrunc q.
Proof.
  intros H0 H. destruct p as [a b], q as [c d]. unfold ftrunc, Qeq, Qle in *; cbn [Qnum Qden] in *.
  assert (0 <= a) by lia. assert (0 <= c) by nia.
  rewrite !Z.quot_div_nonneg by lia.
  rewrite <- (Z.div_mul_cancel_r a (Zpos b) (Zpos d)) by lia.
  rewrite <- (Z.div_mul_cancel_r c (Zpos d) (Zpos b)) by lia. f_equal; lia.
Qed.

Lemma trunc_rnd p z : 0 <= z <= 2 ^ 20 ->
  (inject_Z z + (1 # 2000000) <= p)%Q -> (p <= inject_Z z + 1 - (1 # 2000000))%Q -> ftrunc (rnd64 p) = z.
Proof.
  intros Hz H1 H2.
  assert (Hz1 : (0 <= inject_Z z <= inject_Z (2 ^ 20))%Q).
  { change 0%Q with (inject_Z 0). rewrite <- !Zle_Qle. lia. }
  change (inject_Z (2 ^ 20)) with (1048576 # 1)%Q in Hz1.
  pose proof (rnd64_bounds_pos p ltac:(lra)) as [B1 B2].
  apply ftrunc_bounds; [lra| |lia]. rewrite inject_Z_plus. change (inject_Z 1) with 1%Q. lra.
Qed.

Lemma int_strict z0 z : (inject_Z z < inject_Z z0)%Q -> (inject_Z z0 < inject_Z z + 1)%Q -> False.
Proof.
  intros H1 H2. rewrite <- Zlt_Qlt in H1. change 1%Q with (inject_Z 1) in H2.
  rewrite <- inject_Z_plus in H2. rewrite <- Zlt_Qlt in H2. lia.
Qed.

Lemma delay_ok : adapter_ok ADelay.
Proof.
  intros v w w' v' (x & z & Hv & Hz & Hx & -> & -> & ->). split.
  - cbn [encode]. unfold delay_encode. destruct (as_int v) as [y|] eqn:Ey.
    + pose proof (num_as_int v x y Hv Ey) as ->. destruct Hx as [[H1 H2]|[H1 H2]].
      * exfalso. apply (int_strict (200 * y) z); rewrite inject_Z_mult; change (inject_Z 200) with 200%Q; lra.
      * f_equal. f_equal. apply (proj2 (delay_fixed z Hz H2)). exact H1.
    + destruct v; simpl in Hv, Ey; try discriminate. injection Hv as ->. f_equal. f_equal.
      destruct Hx as [[H1 H2]|[H1 H2]].
      * unfold fmul. apply trunc_rnd; [lia|lra|lra].
      * transitivity (ftrunc (fmul (rnd64 (z # 200)) 200)); [|apply (proj1 (delay_fixed z Hz H2))].
        unfold fmul. f_equal. apply rnd64_comp. now rewrite H1.
  - intros w2 E. apply pub_int in E. subst w2. cbn [decode]. unfold delay_decode, as_intr. cbn [as_int bind].
    eexists; split; [reflexivity|]. cbn [pub]. f_equal. apply rnd64_comp.
    unfold Qeq, Qdiv, Qmult, Qinv, inject_Z; cbn. lia.
Qed.

(** ** transition times *)
Lemma rneQ_le q k : (q <= inject_Z k + (495 # 1000))%Q -> rneQ q <= k.
Proof.
  intros H. pose proof (rneQ_bound q) as B. apply Qabs_Qle_condition in B as [B1 B2].
  destruct (Z.le_gt_cases (rneQ q) k); [assumption|exfalso].
  assert (inject_Z (k + 1) <= inject_Z (rneQ q))%Q by (rewrite <- Zle_Qle; lia).
  rewrite inject_Z_plus in H1. change (inject_Z 1) with 1%Q in H1. lra.
Qed.

Definition lim0 : Q := rnd64 (63 * flit 1 10).
Definition step0_check (s : Z) (x : Q) : bool :=
  Qleb x lim0 && (ftrunc (fdiv x (flit 1 10)) =? s)
  && (rneQ (fdiv x (flit 1 10)) <=? s) && Qleb x 7 && Qleb 0 x.
Lemma step0_checked :
  forallb (fun s => (s =? 43) || step0_check s (rnd64 (inject_Z s * flit 1 10))) (upto 64)
  && forallb (fun s => zmem s lossy_steps || step0_check s (rnd64 (s # 10))) (upto 64) = true.
Proof. vm_compute. reflexivity. Qed.
Lemma step0_sound s x : step0_check s x = true ->
  (x <= lim0)%Q /\ ftrunc (fdiv x (flit 1 10)) = s /\ rneQ (fdiv x (flit 1 10)) <= s /\ (0 <= x <= 7)%Q.
Proof.
  unfold step0_check. intros H. apply andb_prop in H as [H H5]. apply andb_prop in H as [H H4].
  apply andb_prop in H as [H H3]. apply andb_prop in H as [H1 H2].
  apply Qleb_spec in H1, H4, H5. apply Z.eqb_eq in H2. apply Z.leb_le in H3. repeat split; assumption.
Qed.

Lemma step0 x s : 0 <= s <= 63 -> steps_of x 0 s ->
  (x <= lim0)%Q /\ ftrunc (fdiv x (flit 1 10)) = s /\ rneQ (fdiv x (flit 1 10)) <= 63 /\ (0 <= x <= 7)%Q
  /\ (s <= 62 -> (x <= (6249 # 100) * (1 # 10))%Q -> rneQ (fdiv x (flit 1 10)) <= 62).
Proof.
  intros Hs [_ H]. cbn [Z.eqb] in H.
  pose proof step0_checked as C. apply andb_prop in C as [C1 C2].
  assert (Hfin : forall x', (x == x')%Q -> step0_check s x' = true ->
    (x <= lim0)%Q /\ ftrunc (fdiv x (flit 1 10)) = s /\ rneQ (fdiv x (flit 1 10)) <= 63 /\ (0 <= x <= 7)%Q
    /\ (s <= 62 -> (x <= (6249 # 100) * (1 # 10))%Q -> rneQ (fdiv x (flit 1 10)) <= 62)).
  { intros x' E Hc. apply step0_sound in Hc as (A1 & A2 & A3 & A4).
    assert (Ed : fdiv x (flit 1 10) = fdiv x' (flit 1 10)) by (unfold fdiv; apply rnd64_comp; now rewrite E).
    rewrite Ed. split; [now rewrite E|]. split; [exact A2|]. split; [lia|]. split; [split; lra|]. intros; lia. }
  destruct H as [[[H1 H2] H3]|[[H1 H2]|[H1 H2]]].
  - assert (Hs0 : (0 <= inject_Z s <= 62)%Q).
    { change 0%Q with (inject_Z 0). change 62%Q with (inject_Z 62). rewrite <- !Zle_Qle. lia. }
    assert (L : (63 # 10 <= lim0)%Q) by (apply Qleb_spec; vm_compute; reflexivity).
    pose proof (fdiv_flit_err x 1 10 ltac:(lia)) as E.
    assert (Ht : (x / dec 1 10 == 10 * x)%Q) by (unfold dec; field).
    rewrite Ht in E. rewrite (Qabs_pos (10 * x)%Q) in E by lra. apply Qabs_Qle_condition in E as [E1 E2].
    split; [lra|]. split.
    { apply ftrunc_bounds; [lra| |lia]. rewrite inject_Z_plus. change (inject_Z 1) with 1%Q. lra. }
    split. { apply rneQ_le. change (inject_Z 63) with 63%Q. lra. }
    split; [split; lra|]. intros _ Hx. apply rneQ_le. change (inject_Z 62) with 62%Q. lra.
  - apply (Hfin _ H1). pose proof (proj1 (forallb_forall _ _) C1 s (in_upto 64 s ltac:(lia))) as F. cbv beta in F.
    apply orb_prop in F as [F|F]; [apply Z.eqb_eq in F; contradiction|exact F].
  - apply (Hfin _ H1). pose proof (proj1 (forallb_forall _ _) C2 s (in_upto 64 s ltac:(lia))) as F. cbv beta in F.
    apply orb_prop in F as [F|F]; [apply zmem_in in F; contradiction|exact F].
Qed.

Lemma as_int_small v x y : num_of v = Some x -> (0 <= x <= 100000)%Q -> as_int v = Some y -> Z.abs y <= 2 ^ 53.
Proof.
  intros Hv [H1 H2] Hy. pose proof (num_as_int v x y Hv Hy) as ->.
  change 0%Q with (inject_Z 0) in H1. change 100000%Q with (inject_Z 100000) in H2.
  rewrite <- Zle_Qle in H1, H2. lia.
Qed.

Lemma try0 v x : num_of v = Some x -> (0 <= x <= 100000)%Q ->
  transition_try v x 0 = if Qleb x lim0 then Some (0, fdiv x (flit 1 10)) else None.
Proof.
  intros Hv Hx. unfold transition_try. change (step_resolution 0) with (Some (RFloat (flit 1 10))).
  cbv iota beta. change (num_of (times 63 (RFloat (flit 1 10)))) with (Some lim0). cbv iota beta.
  destruct (Qleb x lim0); [|reflexivity].
  rewrite (true_div_float v x) by (try exact Hv; intros y; now apply as_int_small with (x := x)). reflexivity.
Qed.
Lemma tryk v x r k : num_of v = Some x -> step_resolution r = Some (RInt k) -> 0 < k <= 600 ->
  transition_try v x r = if Qleb x (inject_Z (63 * k)) then Some (r, rnd64 (x / inject_Z k)) else None.
Proof.
  intros Hv Hr Hk. unfold transition_try. rewrite Hr. cbn [times num_of].
  destruct (Qleb x (inject_Z (63 * k))); [|reflexivity].
  rewrite (true_div_int v x k Hv) by lia. reflexivity.
Qed.

Lemma lim0_lt : (lim0 < 631 # 100)%Q.
Proof. vm_compute. reflexivity. Qed.

Lemma transition_finish (unknown : bool) v x r s y : num_of v = Some x ->
  (match transition_try v x 0 with
                  | Some p => Some p
                  | None => match transition_try v x 1 with
                            | Some p => Some p
                            | None => match transition_try v x 2 with
                                      | Some p => Some p
                                      | None => transition_try v x 3
                                      end
                            end
                  end) = Some (r, y) -> ftrunc y = s -> rneQ y <= (if unknown then 63 else 62) ->
  transition_encode unknown v = Ok (VDict [("steps"%string, VInt s); ("resolution"%string, VInt r)]).
Proof.
  intros Hv Hp Ht Hr. unfold transition_encode. rewrite Hv. cbv zeta. rewrite Hp.
  destruct (Z.leb_spec (rneQ y) (if unknown then 63 else 62)); [|lia]. now rewrite Ht.
Qed.

Lemma step_k k x s (unknown : bool) : 1 <= k <= 600 -> 0 <= s <= 63 ->
  (inject_Z s <= x / inject_Z k <= inject_Z s + 1 - (1 # 1000000))%Q -> (x <= 63 * inject_Z k)%Q ->
  (unknown = false -> s <= 62 /\ (x <= (6249 # 100) * inject_Z k)%Q) ->
  ftrunc (rnd64 (x / inject_Z k)) = s /\ rneQ (rnd64 (x / inject_Z k)) <= (if unknown then 63 else 62).
Proof.
  intros Hk Hs [H1 H2] H3 H4.
  assert (Hs0 : (0 <= inject_Z s <= 63)%Q).
  { change 0%Q with (inject_Z 0). change 63%Q with (inject_Z 63). rewrite <- !Zle_Qle. lia. }
  assert (Hkp : (0 < inject_Z k)%Q) by (change 0%Q with (inject_Z 0); rewrite <- Zlt_Qlt; lia).
  pose proof (rnd64_bounds_pos (x / inject_Z k) ltac:(lra)) as [B1 B2].
  pose proof (rnd64_ge_int (x / inject_Z k) s ltac:(lia) H1) as G.
  split.
  - apply ftrunc_bounds; [exact G| |lia]. rewrite inject_Z_plus. change (inject_Z 1) with 1%Q. lra.
  - destruct unknown.
    + assert (x / inject_Z k <= inject_Z 63)%Q.
      { apply Qle_shift_div_r; [exact Hkp|exact H3]. }
      pose proof (rnd64_le_int _ 63 ltac:(lia) H) as L. apply rneQ_le. change (inject_Z 63) with 63%Q in *. lra.
    + destruct (H4 eq_refl) as [_ H5].
      assert (x / inject_Z k <= 6249 # 100)%Q by (apply Qle_shift_div_r; [exact Hkp|exact H5]).
      apply rneQ_le. change (inject_Z 62) with 62%Q. lra.
Qed.

Lemma transition_ok unknown : adapter_ok (ATransition unknown).
Proof.
  intros v w w' v' (x & r & s & d' & Hv & Hst & Hu & -> & -> & Hs' & Hr' & ->). split.
  - cbn [encode]. pose proof Hst as [Hs Hc]. destruct (Z.eqb_spec r 0) as [->|Hr0].
    + destruct (step0 x s Hs Hst) as (L & T & R & Hx & R62).
      eapply transition_finish; [exact Hv| |exact T|].
      * rewrite (try0 v x Hv) by (split; lra). now rewrite (proj2 (Qleb_spec x lim0) L).
      * destruct unknown; [exact R|]. destruct (Hu eq_refl). now apply R62.
    + destruct Hc as (Hr & H1 & H2 & H3).
      assert (Hr3 : r = 1 \/ r = 2 \/ r = 3) by lia.
      pose proof lim0_lt as L0.
      assert (Hx : (631 # 100 <= x)%Q) by (destruct Hr3 as [->|[->| ->]]; cbn in H1; lra).
      assert (Hx2 : (0 <= x <= 100000)%Q).
      { split; [lra|]. eapply Qle_trans; [exact H3|]. destruct Hr3 as [->|[->| ->]]; cbn; unfold Qle; cbn; lia. }
      assert (T0 : transition_try v x 0 = None).
      { rewrite (try0 v x Hv Hx2). rewrite (proj2 (Qleb_false x lim0)) by lra. reflexivity. }
      pose proof (tryk v x 1 1 Hv eq_refl ltac:(lia)) as T1.
      pose proof (tryk v x 2 10 Hv eq_refl ltac:(lia)) as T2.
      pose proof (tryk v x 3 600 Hv eq_refl ltac:(lia)) as T3.
      destruct Hr3 as [->|[->| ->]]; cbn [Z.eqb Pos.eqb step_size] in *.
      * destruct (step_k 1 x s unknown ltac:(lia) Hs H2 H3 Hu) as [F1 F2].
        eapply transition_finish; [exact Hv| |exact F1|exact F2].
        rewrite T0, T1. rewrite (proj2 (Qleb_spec x (inject_Z (63 * 1)))) by (change (inject_Z (63 * 1)) with 63%Q; lra). reflexivity.
      * destruct (step_k 10 x s unknown ltac:(lia) Hs H2 H3 Hu) as [F1 F2].
        eapply transition_finish; [exact Hv| |exact F1|exact F2].
        rewrite T0, T1. rewrite (proj2 (Qleb_false x (inject_Z (63 * 1)))) by (change (inject_Z (63 * 1)) with 63%Q; lra).
        rewrite T2. rewrite (proj2 (Qleb_spec x (inject_Z (63 * 10)))) by (change (inject_Z (63 * 10)) with 630%Q; lra). reflexivity.
      * destruct (step_k 600 x s unknown ltac:(lia) Hs H2 H3 Hu) as [F1 F2].
        eapply transition_finish; [exact Hv| |exact F1|exact F2].
        rewrite T0, T1. rewrite (proj2 (Qleb_false x (inject_Z (63 * 1)))) by (change (inject_Z (63 * 1)) with 63%Q; lra).
        rewrite T2. rewrite (proj2 (Qleb_false x (inject_Z (63 * 10)))) by (change (inject_Z (63 * 10)) with 630%Q; lra).
        rewrite T3. rewrite (proj2 (Qleb_spec x (inject_Z (63 * 600)))) by (change (inject_Z (63 * 600)) with 37800%Q; lra). reflexivity.
  - intros w2 E. apply pub_dict_inv in E as (d0 & -> & E).
    pose proof (dget_pub_int "steps" d0 d' s eq_refl E Hs') as G1.
    pose proof (dget_pub_int "resolution" d0 d' r eq_refl E Hr') as G2.
    cbn [decode transition_decode]. unfold dgetr. rewrite G1, G2. cbn [bind as_int].
    destruct Hst as [Hs Hc]. unfold step_value, step_resolution.
    destruct (Z.eqb_spec r 0) as [->|Hr0].
    + eexists; split; [reflexivity|]. cbn [times pub]. unfold fmul. now rewrite fz_small by lia.
    + destruct Hc as [Hr _]. assert (Hr3 : r = 1 \/ r = 2 \/ r = 3) by lia.
      destruct Hr3 as [->|[->| ->]]; cbn [Z.eqb Pos.eqb]; (eexists; split; [reflexivity|]); reflexivity.
Qed.
