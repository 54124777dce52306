(** * PropProofs: the declarations of property values follow [PropValues] (basis of C58). *)
From Coq Require Import QArith Qabs Qpower Qround Lqa Lia.
From Verif Require Import PyVal Bits Float64 FloatX Utf8 Adapters Construct Size Spec Master AdapterSpec AdapterProofs1 AdapterProofs2 AdapterProofs3 AdapterProofs4 BitLayout P_int Sound P_scale P_log P_field P_text Codes P_codes Grammar GrammarProofs GrammarAccept PropValues.
Local Open Scope list_scope.
Local Open Scope Z_scope.

(** the integer field under a quantity *)
Definition raw (n : nat) (sg : bool) (w : con) : Prop := (0 < n)%nat /\ (w = CInt n sg \/ w = CBytesInt n true /\ sg = false).
Definition in_range (n : nat) (sg : bool) (z : Z) : Prop := if sg then - 256 ^ Z.of_nat n <= 2 * z < 256 ^ Z.of_nat n else 0 <= z < 256 ^ Z.of_nat n.
Lemma raw_read n sg w ctx z r : raw n sg w -> in_range n sg z -> parse w ctx (to_le n (z mod 256 ^ Z.of_nat n) ++ r) = Ok (VInt z, r).
Proof.
  intros [Hn [-> | [-> ->]]] Hz; [apply int_read; [exact Hn | now apply int_range]|].
  cbn [parse]. rewrite take_le. cbn [bind]. do 3 f_equal. unfold in_range in Hz. rewrite of_to_le, !Z.mod_small by (rewrite ?Z.mod_small; lia). reflexivity.
Qed.
Lemma raw_send n sg w ctx z : raw n sg w -> in_range n sg z -> build w ctx (VInt z) = Ok (to_le n (z mod 256 ^ Z.of_nat n)).
Proof.
  intros [Hn [-> | [-> ->]]] Hz; [apply int_build; [reflexivity | now apply int_range]|]. unfold in_range in Hz.
  destruct (C12_bytesint_in_range n true ctx (VInt z) z eq_refl) as (s & E & Hb & Hl & Hs); [rewrite <- pow256_2; exact Hz|].
  rewrite E. f_equal. apply of_le_inj; [exact Hb | apply to_le_bytes | rewrite to_le_length; lia|]. rewrite Hs, of_to_le, !Z.mod_small by (rewrite ?Z.mod_small; lia). reflexivity.
Qed.
Lemma raw_take n sg w ctx s v r : raw n sg w -> bytes s -> parse w ctx s = Ok (v, r) ->
  exists z, v = VInt z /\ in_range n sg z /\ s = to_le n (z mod 256 ^ Z.of_nat n) ++ r.
Proof.
  intros [Hn [-> | [-> ->]]] B H.
  - apply int_parse in H as (z & -> & Hr & ->); try assumption. exists z. split; [reflexivity|]. split; [now apply int_range | reflexivity].
  - cbn [parse] in H. apply bind_ok in H as ([a r'] & E & H). injection H as <- <-. apply take_ok in E as [-> L]. apply Forall_app in B as [Ba _].
    pose proof (of_le_bound a Ba) as Hb. rewrite L in Hb. exists (of_le a). split; [reflexivity|]. split; [exact Hb|]. rewrite Z.mod_small by exact Hb. now rewrite <- (le_of n a Ba L).
Qed.
Lemma raw_range n sg z : (0 < n)%nat -> in_range n sg z -> Z.abs z < 256 ^ Z.of_nat n.
Proof. unfold in_range. destruct sg; lia. Qed.

Lemma scaled_close k r num den z : has_res r num den -> match r with RInt _ => scaled k r num den z = VInt (z * num) | RFloat _ => exists x, scaled k r num den z = VFloat x /\ near x (inject_Z z * (num # den)) end.
Proof.
  intros [Hn Hr]. unfold scaled. destruct r as [j|q]; [reflexivity|]. subst q. eexists. split; [reflexivity|]. unfold near.
  assert (G : forall x u, (u <= 1 # 2 ^ 50)%Q -> Float64.rel u (inject_Z z * (num # den)) x -> (Qabs (x - inject_Z z * (num # den)) <= Qabs (inject_Z z * (num # den)) * (1 # 2 ^ 50))%Q).
  { intros x u Hu R. now apply (rel_weaken _ _ _ _ Hu) in R. }
  destruct (k =? 0).
  - apply G with (u := (u53 + u53 + u53 * u53)%Q); [apply Qleb_spec; vm_compute; reflexivity|].
    apply rel_trans with (y := (inject_Z z * flit num den)%Q); [apply Qleb_spec; reflexivity..| |apply rel_rnd].
    eapply rel_comp; [apply Qmult_comm|apply Qmult_comm|]. apply rel_mul_r. apply rel_rnd.
  - apply G with (u := u53); [apply Qleb_spec; vm_compute; reflexivity | apply rel_rnd].
Qed.

Lemma nk : not_known = VFloat fmax. Proof. reflexivity. Qed.
Lemma close_int (a b : Z) : (Qabs (inject_Z a - inject_Z b) < 1)%Q -> a = b.
Proof. intros H. apply Qabs_Qlt_condition in H as [H1 H2]. unfold Qlt, Qminus, Qplus, inject_Z in *. cbn in *. lia. Qed.
Section Quantity.
Context (n : nat) (sg : bool) (k : Z) (r : resolution) (num : Z) (den : positive) (u : bool) (w : con)
  (Hrow : In (Z.of_nat n, k, r, num, den, u, w) scale_table) (Hraw : raw n sg w).
Let whole : bool := match r with RInt _ => true | RFloat _ => false end.
Let f : con := CAdapt (ACount (Z.of_nat n) k r u) w.
Let unk (z : Z) : Prop := u = true /\ z = 256 ^ Z.of_nat n - 1.
Let said (z : Z) (v : val) : Prop :=
  u = true /\ z = 256 ^ Z.of_nat n - 1 /\ v = not_known \/
  (u = true -> z <> 256 ^ Z.of_nat n - 1) /\ (if whole then v = VInt (z * num) else exists x, v = VFloat x /\ near x (inject_Z z * (num # den))).
Let enc_z (z : Z) : list Z := to_le n (z mod 256 ^ Z.of_nat n).
Lemma q_bytes z : bytes (enc_z z). Proof. apply to_le_bytes. Qed.
Lemma q_len z : length (enc_z z) = n. Proof. apply to_le_length. Qed.
Lemma q_scaled z : (if whole then scaled k r num den z = VInt (z * num) else exists x, scaled k r num den z = VFloat x /\ near x (inject_Z z * (num # den))).
Proof. destruct (row_ok _ _ _ _ _ _ _ Hrow) as (Hr & _). pose proof (scaled_close k r num den z Hr) as H. subst whole. destruct r; exact H. Qed.
Lemma q_round ctx z rest : in_range n sg z -> exists v, parse f ctx (enc_z z ++ rest) = Ok (v, rest) /\ build f ctx v = Ok (enc_z z) /\ (unk z -> v = VFloat fmax) /\ (~ unk z -> v = scaled k r num den z).
Proof.
  intros Hz. destruct (C22_round_trip _ _ _ _ _ _ _ Hrow (enc_z z) rest (q_bytes z) ltac:(now rewrite q_len)) as (z0 & v & Hp0 & Hp & Hb & Hu & Hs).
  pose proof (raw_read n sg w [] z [] Hraw Hz) as Hr. rewrite app_nil_r in Hr. change (to_le n (z mod 256 ^ Z.of_nat n)) with (enc_z z) in Hr. rewrite Hr in Hp0. injection Hp0 as <-.
  exists v. subst f. destruct Hraw as [_ [-> | [-> _]]]; (split; [exact Hp|]; split; [exact Hb|]; split; [exact Hu | exact Hs]).
Qed.
Lemma q_unk_dec z : unk z \/ ~ unk z.
Proof. subst unk. cbv beta. destruct u; [|right; intros [? _]; discriminate]. destruct (Z.eq_dec z (256 ^ Z.of_nat n - 1)); [left; auto | right; intros [_ ?]; auto]. Qed.
Lemma q_said z v : (unk z -> v = VFloat fmax) -> (~ unk z -> v = scaled k r num den z) -> said z v.
Proof.
  intros Hu Hs. destruct (q_unk_dec z) as [U|U].
  - left. destruct U as [U1 U2]. rewrite nk. split; [exact U1|]. split; [exact U2|]. apply Hu. split; assumption.
  - right. split; [intros E1 E2; apply U; split; assumption|]. rewrite (Hs U). apply q_scaled.
Qed.
Lemma q_size : 1 <= Z.of_nat n <= 4. Proof. now destruct (row_ok _ _ _ _ _ _ _ Hrow) as (_ & _ & H & _). Qed.
Lemma q_abs z : in_range n sg z -> Z.abs z < 2 ^ 32.
Proof. intros Hz. pose proof q_size. apply raw_range in Hz; [|lia]. assert (256 ^ Z.of_nat n <= 2 ^ 32) by (change (2 ^ 32) with (256 ^ 4); apply Z.pow_le_mono_r; lia). lia. Qed.
Lemma q_sends ctx z v : in_range n sg z -> said z v -> build f ctx v = Ok (enc_z z).
Proof.
  intros Hz [(U1 & U2 & ->) | [U Hv]].
  - destruct (q_round ctx z [] Hz) as (v & _ & Hb & Hf & _). rewrite nk, <- (Hf (conj U1 U2)). exact Hb.
  - destruct (row_ok _ _ _ _ _ _ _ Hrow) as ([Hn Hr] & [H15 _] & _ & _). pose proof (q_abs z Hz) as Ha.
    assert (Hc : (0 < num # den)%Q) by (unfold Qlt; cbn [Qnum Qden]; lia).
    assert (Hzq : (Qabs (inject_Z z) <= 4294967296)%Q) by (unfold Qabs, Qle, inject_Z; cbn [Qnum Qden]; lia).
    assert (X : exists x, num_of v = Some x /\ (Qabs (x / (num # den) - inject_Z z) <= 1 # 100)%Q /\ (forall y, as_int v = Some y -> Z.abs y <= 2 ^ 53)).
    { subst whole. destruct r as [j|q].
      - subst v. destruct Hr as [-> ->]. exists (inject_Z (z * num)). split; [reflexivity|]. split; [|intros y E; injection E as <-; nia].
        rewrite inject_Z_mult. change (num # 1)%Q with (inject_Z num) in *. setoid_replace (inject_Z z * inject_Z num / inject_Z num - inject_Z z)%Q with 0%Q by (field; intros E; rewrite E in Hc; discriminate). discriminate.
      - destruct Hv as (x & -> & Hx). exists x. split; [reflexivity|]. split; [|discriminate]. unfold near in Hx.
        rewrite Qabs_Qmult, (Qabs_pos (num # den)) in Hx by lra.
        setoid_replace (x / (num # den) - inject_Z z)%Q with ((x - inject_Z z * (num # den)) * / (num # den))%Q by (field; intros E; rewrite E in Hc; discriminate).
        rewrite Qabs_Qmult, (Qabs_pos (/ (num # den))) by (apply Qinv_le_0_compat; lra).
        apply Qle_trans with (Qabs (inject_Z z) * (num # den) * (1 # 2 ^ 50) * / (num # den))%Q; [apply Qmult_le_compat_r; [exact Hx | apply Qinv_le_0_compat; lra]|].
        setoid_replace (Qabs (inject_Z z) * (num # den) * (1 # 2 ^ 50) * / (num # den))%Q with (Qabs (inject_Z z) * (1 # 2 ^ 50))%Q by (field; intros E; rewrite E in Hc; discriminate).
        change (1 # 2 ^ 50)%Q with (1 # 1125899906842624)%Q. lra. }
    destruct X as (x & Hx & Hd & Hy).
    assert (Hm : (Qabs (x / (num # den)) <= 2 ^ 33)%Q).
    { setoid_replace (x / (num # den))%Q with ((x / (num # den) - inject_Z z) + inject_Z z)%Q by ring. eapply Qle_trans; [apply Qabs_triangle|]. change (2 ^ 33)%Q with (8589934592 # 1)%Q. lra. }
    destruct (C23_nearest _ _ _ _ _ _ _ Hrow v x Hx Hm Hy) as (z' & Hz' & Hb). subst f. rewrite Hb.
    assert (z' = z) as ->; [|now apply (raw_send n sg)]. apply close_int.
    setoid_replace (inject_Z z' - inject_Z z)%Q with ((x / (num # den) - inject_Z z) + - (x / (num # den) - inject_Z z'))%Q by ring.
    eapply Qle_lt_trans; [apply Qabs_triangle|]. rewrite Qabs_opp. lra.
Qed.
Lemma quantity_is v s : quantity n sg whole u num den v s <-> exists z, in_range n sg z /\ s = enc_z z /\ said z v. Proof. reflexivity. Qed.
Lemma leaf_quantity : form f (FLeaf (quantity n sg whole u num den)).
Proof.
  apply form_leaf.
  - intros ctx v s H. apply quantity_is in H as (z & Hz & -> & Hv). now apply q_sends.
  - intros ctx s v rest B H. assert (E : exists v1, parse w ctx s = Ok (v1, rest)).
    { subst f. rewrite parse_adapt in H. apply bind_ok in H as ([v1 r1] & E & H). apply bind_ok in H as (v2 & _ & H). injection H as _ ->. eauto. }
    destruct E as (v1 & E). destruct (raw_take n sg w ctx s v1 rest Hraw B E) as (z & _ & Hz & ->). fold (enc_z z) in H |- *.
    destruct (q_round ctx z rest Hz) as (v' & Hp & _ & Hu & Hs). fold (enc_z z) in *. rewrite Hp in H. injection H as ->. exists (enc_z z). split; [reflexivity|]. apply quantity_is. exists z. split; [exact Hz|]. split; [reflexivity|]. now apply q_said.
  - intros ctx v s rest B H. apply quantity_is in H as (z & Hz & -> & Hv). destruct (q_round ctx z rest Hz) as (v' & Hp & _ & Hu & Hs). exists v'. split; [exact Hp|].
    destruct Hv as [(U1 & U2 & ->) | [U Hv]]; [rewrite (Hu (conj U1 U2)); reflexivity|]. assert (U' : ~ unk z) by (intros [E1 E2]; now apply U). rewrite (Hs U'). pose proof (q_scaled z) as Q. destruct whole; [now rewrite Q, Hv|].
    destruct Q as (x1 & -> & _), Hv as (x2 & -> & _). reflexivity.
  - intros ctx. subst f. rewrite parse_adapt. destruct Hraw as [Hn [-> | [-> _]]]; (destruct n; [lia|]; eexists; reflexivity).
Qed.
End Quantity.

Lemma leaf_ext c P Q : form c (FLeaf P) -> (forall v s, P v s <-> Q v s) -> form c (FLeaf Q).
Proof.
  intros H E. inversion H as [| | | | | | | | | | | | | | |c' P' H1 H2 H3 H4|]; subst. apply form_leaf; [| | |exact H4].
  - intros ctx v s Hq. apply H1. now apply E.
  - intros ctx s v r B Hp. destruct (H2 _ _ _ _ B Hp) as (p & -> & Hq). exists p. split; [reflexivity|]. now apply E.
  - intros ctx v s r B Hq. apply H3; [exact B|]. now apply E.
Qed.
Lemma signed_known n whole u num den v s : (0 < n)%nat -> quantity n true whole u num den v s <-> quantity n true whole false num den v s.
Proof.
  intros Hn. assert (256 <= 256 ^ Z.of_nat n) by (change 256 with (256 ^ 1) at 1; apply Z.pow_le_mono_r; lia). unfold quantity. split; intros (z & Hz & -> & H0); exists z; (split; [exact Hz|]); (split; [reflexivity|]).
  - right. split; [discriminate|]. destruct H0 as [(_ & E & _) | [_ H0]]; [lia | exact H0].
  - right. split; [intros _; lia|]. destruct H0 as [(E & _) | [_ H0]]; [discriminate | exact H0].
Qed.

(** *** Times to the power of 1.1 *)
Lemma exp_near x z : 1 <= z <= 255 -> (Qabs (x - (11 # 10) ^ (z - 64)) <= (5 # 100000) + (11 # 10) ^ (z - 64) * (1 # 10000000000))%Q -> near_exp8 x z.
Proof.
  intros Hz C. change ((11 # 10) ^ (z - 64))%Q with (e11 (z - 64)) in C. apply Qabs_Qle_condition in C as [C1 C2].
  assert (L : (24 # 10000 <= e11 (z - 64))%Q).
  { apply Qle_trans with (e11 (-63)); [apply Qleb_spec; vm_compute; reflexivity|apply e11_mono; lia]. }
  assert (E1 : (e11 (2 * (z - 64) - 1) == e11 (z - 64) * e11 (z - 64) * (10 # 11))%Q).
  { replace (2 * (z - 64) - 1) with ((z - 64) + (z - 64) + -1) by lia. unfold e11. rewrite !Qpower_plus by discriminate. reflexivity. }
  assert (E2 : (e11 (2 * (z - 64) + 1) == e11 (z - 64) * e11 (z - 64) * (11 # 10))%Q).
  { unfold e11. replace (2 * (z - 64) + 1) with ((z - 64) + (z - 64) + 1) by lia. rewrite !Qpower_plus by discriminate. reflexivity. }
  unfold near_exp8. fold (e11 (2 * (z - 64) - 1)) (e11 (2 * (z - 64) + 1)). rewrite E1, E2. set (t := e11 (z - 64)) in *.
  assert (X1 : (t * (979 # 1000) <= x)%Q) by (clear E1 E2; lra). assert (X2 : (x <= t * (1021 # 1000))%Q) by (clear E1 E2; lra).
  split; [lra|]. split.
  - apply Qle_trans with ((t * (979 # 1000)) * (t * (979 # 1000)))%Q; [|apply Qmult_le_compat_nonneg; split; lra].
    setoid_replace (t * (979 # 1000) * (t * (979 # 1000)))%Q with (t * t * (958441 # 1000000))%Q by ring. assert (0 <= t * t)%Q by (apply Qmult_le_0_compat; lra). lra.
  - apply Qle_lt_trans with ((t * (1021 # 1000)) * (t * (1021 # 1000)))%Q; [apply Qmult_le_compat_nonneg; split; lra|].
    setoid_replace (t * (1021 # 1000) * (t * (1021 # 1000)))%Q with (t * t * (1042441 # 1000000))%Q by ring.
    assert (0 < t * t)%Q by (apply Qmult_lt_0_compat; lra). lra.
Qed.
Lemma exp_parse ctx b r : isbyte b -> exists v, parse Exp8 ctx (b :: r) = Ok (v, r) /\ exponential v [b].
Proof.
  intros Hb. pose proof (C25_decode b Hb) as [H0 H1]. unfold isbyte in Hb.
  assert (E : forall v, parse_msg Exp8 [b] = Ok v -> parse Exp8 ctx (b :: r) = Ok (v, r)).
  { intros v H. unfold parse_msg, Exp8 in *. rewrite parse_adapt in H |- *. cbn [parse take bind int_of Nat.ltb Nat.leb length firstn skipn] in H |- *.
    destruct (decode ATimeExp8 _) as [w| |]; cbn [bind] in H |- *; [injection H as <-; reflexivity | discriminate | discriminate]. }
  destruct (Z.eq_dec b 0) as [->|Hn].
  - exists (VInt 0). split; [now apply E, H0|]. exists 0. auto.
  - destruct (H1 ltac:(lia)) as (x & Hx & Hc). exists (VFloat x). split; [now apply E|]. exists b. split; [reflexivity|]. right. split; [lia|]. eauto.
Qed.
Lemma leaf_exponential : form (CAdapt ATimeExp8 (CInt 1 false)) (FLeaf exponential).
Proof.
  apply form_leaf.
  - intros ctx v s (b & -> & [[-> ->] | (Hb & x & -> & Hx)]); [reflexivity|].
    exact (C25_encode (VFloat x) x b eq_refl ltac:(lia) (exp_near x b ltac:(lia) Hx)).
  - intros ctx s v r B H. destruct s as [|b s]; [discriminate|]. inversion B as [|? ? Hb _]; subst. destruct (exp_parse ctx b s Hb) as (v' & E & Hv). unfold Exp8 in E. rewrite E in H. injection H as <- <-.
    exists [b]. split; [reflexivity | exact Hv].
  - intros ctx v s r B (b & -> & H). destruct (exp_parse ctx b r) as (v' & E & (b' & Eb & H')); [cbn [app] in B; now inversion B|]. exists v'. split; [exact E|]. injection Eb as <-.
    destruct H as [[-> ->] | (Hb & x & -> & _)], H' as [[Hz ->] | (Hb' & x' & -> & _)]; try reflexivity; lia.
  - intros ctx. eexists. reflexivity.
Qed.

(** *** Dates *)
Lemma le3 z : 0 <= z < 2 ^ 24 -> to_le 3 z = [z mod 256; z / 256 mod 256; z / 65536].
Proof. intros Hz. cbn [to_le]. rewrite Z.div_div by lia. change (256 * 256) with 65536. rewrite (Z.mod_small (z / 65536)); [reflexivity|]. split; [apply Z.div_pos; lia | apply Z.div_lt_upper_bound; lia]. Qed.
Lemma date_parse ctx z r : 0 <= z < 2 ^ 24 -> parse (CAdapt ADate (CBytesInt 3 true)) ctx (to_le 3 z ++ r) = if z <=? 2932896 then Ok (VDate z, r) else Err EOther.
Proof.
  intros Hz. pose proof (C31_parse z Hz) as H. rewrite <- le3 in H by exact Hz. unfold parse_msg, Date in H. rewrite parse_adapt in H |- *.
  assert (E : forall c q, parse Int24ul c (to_le 3 z ++ q) = Ok (VInt z, q)) by (intros c q; change Int24ul with (CBytesInt 3 true); cbn [parse]; rewrite take_le; cbn [bind]; rewrite of_to_le, Z.mod_small by exact Hz; reflexivity).
  change (CBytesInt 3 true) with Int24ul. rewrite E. pose proof (E [] []) as E0. rewrite app_nil_r in E0. rewrite E0 in H. cbn [bind] in H |- *.
  destruct (decode ADate (VInt z)) as [w| |]; cbn [bind] in H |- *; destruct (z <=? 2932896); try discriminate H; try (injection H as ->); reflexivity.
Qed.
Lemma leaf_date : form (CAdapt ADate (CBytesInt 3 true)) (FLeaf date).
Proof.
  apply form_leaf.
  - intros ctx v s (z & Hz & -> & ->). rewrite le3 by lia. exact (C31_build z Hz).
  - intros ctx s v r B H. assert (E : exists a, s = a ++ r /\ length a = 3%nat).
    { rewrite parse_adapt in H. apply bind_ok in H as ([v1 r1] & E & H). apply bind_ok in H as (v2 & _ & H). injection H as _ ->. cbn [parse] in E. apply bind_ok in E as ([a r'] & E & H). injection H as _ ->. apply take_ok in E as [-> L]. eauto. }
    destruct E as (a & -> & L). apply Forall_app in B as [Ba _]. pose proof (of_le_bound a Ba) as Hb. rewrite L in Hb. pose proof (le_of 3 a Ba L) as Ea. rewrite Ea in H |- *. rewrite date_parse in H by exact Hb.
    destruct (Z.leb_spec (of_le a) 2932896); [|discriminate]. injection H as <-. exists (to_le 3 (of_le a)). split; [reflexivity|]. exists (of_le a). split; [lia | auto].
  - intros ctx v s r B (z & Hz & -> & ->). rewrite date_parse by lia. destruct (Z.leb_spec z 2932896); [eauto | lia].
  - intros ctx. eexists. reflexivity.
Qed.

(** *** Text *)
Lemma strip_zeros l : bytes l -> exists k, l = strip_nul l ++ repeat 0 k.
Proof.
  induction l as [|x l IH]; intros B; [exists O; reflexivity|]. inversion B; subst. destruct (IH ltac:(assumption)) as (k & E). cbn [strip_nul].
  destruct (strip_nul l) as [|y l'] eqn:S; [|exists k; cbn [app] in *; now f_equal].
  destruct (Z.eqb_spec x 0) as [->|]; [exists (Datatypes.S k); cbn [app repeat] in *; now f_equal | exists k; cbn [app] in *; now f_equal].
Qed.
Lemma leaf_padded n : (0 < n)%nat -> form (CAdapt AFixedString (CPaddedString (EConst (Z.of_nat n)))) (FLeaf (padded n)).
Proof.
  intros Hn.
  assert (P : forall ctx s, parse (CAdapt AFixedString (CPaddedString (EConst (Z.of_nat n)))) ctx s = parse (CPaddedString (EConst (Z.of_nat n))) [] s).
  { intros ctx s. rewrite parse_adapt. change (parse (CPaddedString (EConst (Z.of_nat n))) ctx s) with (parse (CPaddedString (EConst (Z.of_nat n))) [] s).
    destruct (parse (CPaddedString (EConst (Z.of_nat n))) [] s) as [[w r]|e|]; reflexivity. }
  apply form_leaf.
  - intros ctx v s (t & l & -> & El & _ & Hl & ->). change (build _ ctx (VStr t)) with (build_msg (CPaddedString (EConst (Z.of_nat n))) (VStr t)).
    apply C39_fixed_build; [lia|]. exists l. split; [exact El|]. split; [lia|]. now rewrite Nat2Z.id.
  - intros ctx s v r B H. rewrite P in H. assert (E : exists a, s = a ++ r /\ length a = n).
    { cbn [parse eval bind] in H. destruct (Z.ltb_spec (Z.of_nat n) 0); [discriminate|]. rewrite Nat2Z.id in H. apply bind_ok in H as ([a r'] & E & H). apply take_ok in E as [-> L].
      destruct (utf8_decode _); [|discriminate]. injection H as _ ->. eauto. }
    destruct E as (a & -> & L). apply Forall_app in B as [Ba _]. destruct (strip_zeros a Ba) as (k & Ea). pose proof (strip_last a) as Hl. set (l := strip_nul a) in *.
    assert (Lk : (length l + k = n)%nat) by (rewrite <- L, Ea, app_length, repeat_length; reflexivity).
    rewrite Ea, <- app_assoc, C39_fixed_parse in H by (exact Lk || exact Hl). destruct (utf8_decode l) as [t|] eqn:Et; [|discriminate]. injection H as <-.
    exists a. split; [reflexivity|]. exists t, l. split; [reflexivity|]. split; [apply C39_utf8_encode_decode; [rewrite Ea in Ba; now apply Forall_app in Ba | exact Et]|]. split; [exact Hl|]. split; [lia|].
    rewrite Ea at 1. do 2 f_equal. lia.
  - intros ctx v s r B (t & l & -> & El & Hl & Hn' & ->). rewrite P, <- app_assoc, C39_fixed_parse by (lia || exact Hl). destruct (C39_utf8_decode_encode _ _ El) as [-> _]. eauto.
  - intros ctx. rewrite P. cbn [parse eval bind]. destruct (Z.ltb_spec (Z.of_nat n) 0); [lia|]. rewrite Nat2Z.id. destruct n; [lia|]. eexists. reflexivity.
Qed.

(** *** The appearance, trade item numbers *)
Lemma leaf_number6 : form (CBytesInt 6 true) (FLeaf (number 6 (fun _ => True))).
Proof.
  assert (R : raw 6 false (CBytesInt 6 true)) by (split; [lia | auto]). apply form_leaf.
  - intros ctx v s (z & -> & Hz & _ & ->). rewrite (raw_send 6 false _ ctx z R Hz), to_le_mod. reflexivity.
  - intros ctx s v r B H. destruct (raw_take 6 false _ ctx s v r R B H) as (z & -> & Hz & ->). eexists. split; [reflexivity|]. exists z. rewrite to_le_mod. repeat split; apply Hz.
  - intros ctx v s r B (z & -> & Hz & _ & ->). rewrite <- to_le_mod, (raw_read 6 false _ ctx z r R Hz). eauto.
  - intros ctx. eexists. reflexivity.
Qed.
Definition appearance_con : con := CStruct (FBits 2 (FCons "category" (CBits 10 false) (FCons "sub_category" (CBits 6 false) FNil)) FNil).
Lemma appearance_parse ctx c k r : 0 <= c < 1024 -> 0 <= k < 64 ->
  parse appearance_con ctx (to_le 2 (c * 64 + k) ++ r) =
  Ok (VDict (("_"%string, VDict [("category"%string, VInt c); ("sub_category"%string, VInt k)]) :: [("category"%string, VInt c); ("sub_category"%string, VInt k)]), r).
Proof.
  intros Hc Hk. unfold appearance_con. cbn [parse parse_fields]. rewrite take_le. cbn [bind]. rewrite bytes2bits_le. change (8 * 2)%nat with (10 + 6)%nat. rewrite to_bits_split.
  change (2 ^ Z.of_nat 6) with 64. replace ((c * 64 + k) / 64) with c by (rewrite Z.div_add_l, Z.div_small; lia).
  rewrite take_app' by apply to_bits_length. cbn [bind]. rewrite <- (app_nil_r (to_bits 6 _)), take_app' by apply to_bits_length. cbn [bind].
  rewrite !of_to_bits. change (2 ^ Z.of_nat 10) with 1024. change (2 ^ Z.of_nat 6) with 64. rewrite (Z.mod_small c) by lia. rewrite Z.add_comm, Z.mod_add, Z.mod_small by lia. reflexivity.
Qed.
Lemma leaf_appearance : form appearance_con (FLeaf appearance_value).
Proof.
  apply form_leaf.
  - intros ctx v s (c & k & Hc & Hk & -> & Hv).
    assert (E : forall d, dget "category" d = Some (VInt c) -> dget "sub_category" d = Some (VInt k) -> build appearance_con ctx (VDict d) = Ok (to_le 2 (c * 64 + k))).
    { intros d Ec Ek.
      assert (B : forall ctx, build_fields (FCons "category" (CBits 10 false) (FCons "sub_category" (CBits 6 false) FNil)) ctx d = Ok (to_bits (8 * 2) (c * 64 + k))).
      { intros ctx'. apply (bits_sent _ [("category"%string, 10%nat); ("sub_category"%string, 6%nat)] ltac:(repeat constructor) [("category"%string, VInt c); ("sub_category"%string, VInt k)]).
        - replace (c * 64 + k) with (c * 2 ^ Z.of_nat (width [("sub_category"%string, 6%nat)]) + (k * 2 ^ Z.of_nat (width []) + 0)) by (cbn; lia). repeat (constructor; [cbn; lia|]). constructor.
        - intros k' x [X | [X | []]]; injection X as <- <-; assumption. }
      unfold appearance_con. cbn [build as_dict bind]. change (build_fields (FBits 2 ?bs FNil) ?e ?o) with (let* bits := build_fields bs e e in match bits2bytes bits with (l, []) => let* b := Ok [] in Ok (rev l ++ b) | _ => Err EOther end).
      rewrite B. cbn [bind]. rewrite bits2bytes_to_bits, rev_involutive, app_nil_r. reflexivity. }
    destruct Hv as [-> | ->]; apply E; reflexivity.
  - intros ctx s v r B H. assert (E : exists a, s = a ++ r /\ length a = 2%nat).
    { unfold appearance_con in H. cbn [parse] in H. apply bind_ok in H as ([d r1] & E & H). injection H as _ ->. cbn [parse_fields] in E. apply bind_ok in E as ([a r2] & E & H). apply take_ok in E as [-> L].
      apply bind_ok in H as ([bd r'] & _ & H). destruct r'; [|discriminate]. injection H as _ ->. eauto. }
    destruct E as (a & -> & L). apply Forall_app in B as [Ba _]. pose proof (of_le_bound a Ba) as Hb. rewrite L in Hb. change (256 ^ Z.of_nat 2) with 65536 in Hb. pose proof (le_of 2 a Ba L) as Ea. set (N := of_le a) in *.
    assert (EN : N = N / 64 * 64 + N mod 64) by (rewrite Z.mul_comm; apply Z.div_mod; lia). pose proof (Z.mod_pos_bound N 64 ltac:(lia)). assert (0 <= N / 64 < 1024) by (split; [apply Z.div_pos; lia | apply Z.div_lt_upper_bound; lia]).
    rewrite Ea, EN in H. rewrite appearance_parse in H by assumption. injection H as <-. exists a. split; [reflexivity|]. exists (N / 64), (N mod 64). split; [assumption|]. split; [assumption|]. split; [now rewrite <- EN | now right].
  - intros ctx v s r B (c & k & Hc & Hk & -> & Hv). rewrite appearance_parse by assumption. eexists. split; [reflexivity|]. destruct Hv as [-> | ->]; reflexivity.
  - intros ctx. eexists. reflexivity.
Qed.
