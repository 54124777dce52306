(** * AdapterProofs2: logarithmic, set, text and calendar adapters. *)
From Coq Require Import Qabs Permutation Sorted Lqa.
From Verif Require Import PyVal Bits Utf8 Float64 FloatX Adapters Construct Size Spec Master AdapterSpec AdapterProofs1.

(** ** logarithmic fields *)
Lemma Qltb_spec a b : Qltb a b = true <-> (a < b)%Q.
Proof. unfold Qltb, Qlt. apply Z.ltb_lt. Qed.
Lemma Qleb_spec a b : Qleb a b = true <-> (a <= b)%Q.
Proof. unfold Qleb, Qle. apply Z.leb_le. Qed.
Lemma Qltb_false a b : Qltb a b = false <-> (b <= a)%Q.
Proof. unfold Qltb, Qle. rewrite Z.ltb_ge. reflexivity. Qed.
Lemma Qleb_false a b : Qleb a b = false <-> (b < a)%Q.
Proof. unfold Qleb, Qlt. rewrite Z.leb_gt. reflexivity. Qed.
Lemma Qzero_spec q : Qzero q = true <-> (q == 0)%Q.
Proof. unfold Qzero, Qeq. cbn [Qnum Qden]. rewrite Z.eqb_eq. lia. Qed.
Lemma Qzero_false q : Qzero q = false <-> ~ (q == 0)%Q.
Proof. rewrite <- Qzero_spec. destruct (Qzero q); split; congruence. Qed.

Lemma num_of_notinf v x : num_of v = Some x -> v <> VInf.
Proof. intros H ->. discriminate. Qed.

Lemma log_encode_num b m i v x : num_of v = Some x ->
  log_encode b m i v =
        if Qzero x then Ok (VInt 0)
        else if Qltb x 0 then Err EOther
        else if match m with Some m => Qltb (two_pow (m - 1)) x | None => false end then Err EOther
        else if Qleb 1 x then Ok (VInt (Z.log2 (ftrunc x) + 1))
        else if Qltb (1 # 4) x then Ok (VInt 0)
        else Err EOther.
Proof. intros H. unfold log_encode. rewrite H. destruct v; simpl in H; try discriminate; reflexivity. Qed.

Lemma two_pow_nn m : 0 <= m -> two_pow m = inject_Z (2 ^ m).
Proof. intros H. unfold two_pow. rewrite nu_nn, de_nn by lia. reflexivity. Qed.

Lemma pow2_pos n : 0 <= n -> 1 <= 2 ^ n.
Proof. intros H. pose proof (Z.pow_pos_nonneg 2 n). lia. Qed.

Lemma trunc_log x n : 1 <= n -> (inject_Z (2 ^ (n - 1)) <= x)%Q -> (x < inject_Z (2 ^ n))%Q ->
  Z.log2 (ftrunc x) + 1 = n.
Proof.
  intros Hn H1 H2. destruct x as [a d]. unfold ftrunc, Qle, Qlt, inject_Z in *; cbn [Qnum Qden] in *.
  rewrite Z.mul_1_r in H1, H2. pose proof (pow2_pos (n - 1) ltac:(lia)).
  assert (0 <= a) by nia. rewrite Z.quot_div_nonneg by lia.
  assert (Z.log2 (a / Zpos d) = n - 1); [|lia].
  apply Z.log2_unique; [lia|]. replace (Z.succ (n - 1)) with n by lia. split.
  - apply Z.div_le_lower_bound; lia.
  - apply Z.div_lt_upper_bound; lia.
Qed.

Lemma log_ok b m i : adapter_ok (ALog b m i).
Proof.
  intros v w w' v' [(x & Hv & Hx & -> & -> & ->)|[(x & n & Hv & Hn & H1 & H2 & Hm & -> & -> & ->)|(Hb & -> & -> & -> & -> & ->)]].
  - split.
    + cbn [encode]. rewrite (log_encode_num b m i v x Hv). now rewrite (proj2 (Qzero_spec x) Hx).
    + intros w2 E. apply pub_int in E. subst. now exists (VInt 0).
  - pose proof (pow2_pos (n - 1) ltac:(lia)) as Hp.
    assert (Hx1 : (1 <= x)%Q).
    { eapply Qle_trans; [|exact H1]. change 1%Q with (inject_Z 1). rewrite <- Zle_Qle. lia. }
    split.
    + cbn [encode]. rewrite (log_encode_num b m i v x Hv).
      rewrite (proj2 (Qzero_false x)) by lra. rewrite (proj2 (Qltb_false x 0)) by lra.
      replace (match m with Some m => Qltb (two_pow (m - 1)) x | None => false end) with false.
      2:{ destruct m as [m|]; [|reflexivity]. symmetry. apply Qltb_false.
          destruct (Z.le_gt_cases 1 m).
          - rewrite two_pow_nn by lia. exact Hm.
          - rewrite (Z.pow_neg_r 2 (m - 1)) in Hm by lia. change (inject_Z 0) with 0%Q in Hm. lra. }
      rewrite (proj2 (Qleb_spec 1 x) Hx1). rewrite (trunc_log x n); [reflexivity|lia|exact H1|exact H2].
    + intros w2 E. apply pub_int in E. subst. cbn [decode as_intr as_int bind]. unfold as_intr; cbn. unfold log_decode.
      destruct (Z.eqb_spec n 0); [lia|]. destruct (Z.eqb_spec n (2 ^ (8 * b) - 1)); [lia|]. cbn [andb].
      replace (match m with Some m0 => m0 <? n | None => false end) with false.
      2:{ destruct m as [m|]; [|reflexivity]. symmetry. apply Z.ltb_ge.
          assert (inject_Z (2 ^ (n - 1)) <= inject_Z (2 ^ (m - 1)))%Q by (eapply Qle_trans; eassumption).
          rewrite <- Zle_Qle in H.
          destruct (Z.le_gt_cases 1 m); [|rewrite (Z.pow_neg_r 2 (m - 1)) in H by lia; lia].
          apply Z.pow_le_mono_r_iff in H; lia. }
      eexists; split; reflexivity.
  - split; [reflexivity|]. intros w2 E. apply pub_int in E. subst. exists VInf. split; [|reflexivity].
    cbn [decode]. unfold as_intr; cbn [as_int bind]. unfold log_decode.
    assert (2 <= 2 ^ (8 * b)) by (change 2 with (2 ^ 1) at 1; apply Z.pow_le_mono_r; lia).
    destruct (Z.eqb_spec (2 ^ (8 * b) - 1) 0); [lia|]. now rewrite Z.eqb_refl.
Qed.

(** ** bit lists *)
Lemma map_pub_ints l zs : map pub l = map VInt zs -> l = map VInt zs.
Proof.
  revert zs. induction l as [|x l IH]; intros [|z zs]; simpl; try discriminate; [reflexivity|].
  intros [= H1 H2]. apply pub_int in H1. f_equal; auto.
Qed.

Fixpoint true_bits (i : nat) (bs : list bool) : list Z :=
  match bs with
  | [] => []
  | b :: bs' => if b then Z.of_nat i :: true_bits (S i) bs' else true_bits (S i) bs'
  end.
Lemma set_bits_true bs : forall i,
  set_bits (Z.of_nat i) (map (fun b : bool => VInt (if b then 1 else 0)) bs) = map VInt (true_bits i bs).
Proof.
  induction bs as [|b bs IH]; intros i; simpl; [reflexivity|].
  replace (Z.of_nat i + 1) with (Z.of_nat (S i)) by lia. rewrite IH. destruct b; reflexivity.
Qed.
Lemma true_bits_in bs : forall i z, In z (true_bits i bs) <-> exists j, z = Z.of_nat (i + j) /\ nth j bs false = true.
Proof.
  induction bs as [|b bs IH]; intros i z; simpl.
  - split; [intros []|intros ([|j] & _ & H); discriminate].
  - assert (In z (true_bits (S i) bs) <-> exists j, z = Z.of_nat (i + S j) /\ nth j bs false = true).
    { rewrite IH. split; intros (j & -> & H); exists j; (split; [f_equal; lia|exact H]). }
    destruct b; simpl; rewrite H; split.
    + intros [<-|(j & -> & Hj)]; [exists O; split; [f_equal; lia|reflexivity]|exists (S j); auto].
    + intros ([|j] & -> & Hj); [left; f_equal; lia|right; eauto].
    + intros (j & -> & Hj). exists (S j); auto.
    + intros ([|j] & -> & Hj); [discriminate|eauto].
Qed.
Lemma true_bits_sorted bs : forall i, StronglySorted Z.lt (true_bits i bs).
Proof.
  induction bs as [|b bs IH]; intros i; simpl; [constructor|].
  destruct b; [|apply IH]. constructor; [apply IH|].
  apply Forall_forall. intros z Hz. apply true_bits_in in Hz as (j & -> & _). lia.
Qed.
Lemma strictly_sorted_eq l : forall l', StronglySorted Z.lt l -> StronglySorted Z.lt l' ->
  (forall z, In z l <-> In z l') -> l = l'.
Proof.
  intros l' S1. revert l'. induction S1 as [|x l S1 IH F1]; intros l' S2 H.
  - destruct l' as [|y l']; [reflexivity|]. destruct (proj2 (H y)). now left.
  - destruct S2 as [|y l' S2 F2]; [destruct (proj1 (H x)); now left|].
    rewrite Forall_forall in F1, F2.
    assert (x = y).
    { destruct (proj1 (H x)) as [->|Hx]; [now left|reflexivity|].
      destruct (proj2 (H y)) as [->|Hy]; [now left|reflexivity|].
      specialize (F1 _ Hy). specialize (F2 _ Hx). lia. }
    subst. f_equal. apply IH; [exact S2|]. intros z. specialize (H z). simpl in H.
    split; intros Hz.
    + destruct (proj1 H (or_intror Hz)) as [->|]; [|assumption]. specialize (F1 _ Hz). lia.
    + destruct (proj2 H (or_intror Hz)) as [->|]; [|assumption]. specialize (F2 _ Hz). lia.
Qed.

Lemma bitlist_bits l bs n : length bs = n -> Forall (fun x => exists z, as_int x = Some z) l ->
  (forall i, (i < n)%nat -> nth i bs false = true <-> exists x, In x l /\ as_int x = Some (Z.of_nat i)) ->
  map (fun i => VBool (existsb (num_is (Z.of_nat i)) l)) (seq 0 n) = map VBool bs.
Proof.
  intros Hlen Hl H. apply nth_ext with (d := VBool false) (d' := VBool false).
  - rewrite !map_length, seq_length. congruence.
  - rewrite map_length, seq_length. intros i Hi.
    rewrite (nth_indep _ _ (VBool (existsb (num_is (Z.of_nat 0)) l))) by (rewrite map_length, seq_length; exact Hi).
    rewrite (map_nth (fun i => VBool (existsb (num_is (Z.of_nat i)) l))), seq_nth by exact Hi. simpl.
    rewrite (map_nth VBool). f_equal. specialize (H i Hi).
    destruct (nth i bs false) eqn:E.
    + destruct (proj1 H eq_refl) as (x & Hx & Ex). apply existsb_exists. exists x. split; [exact Hx|].
      unfold num_is. rewrite (int_key_as_int x _ Ex). now apply Z.eqb_eq.
    + destruct (existsb (num_is (Z.of_nat i)) l) eqn:F; [|reflexivity].
      apply existsb_exists in F as (x & Hx & Ex).
      rewrite Forall_forall in Hl. destruct (Hl x Hx) as (z & Hz).
      unfold num_is in Ex. rewrite (int_key_as_int x _ Hz) in Ex. apply Z.eqb_eq in Ex. subst.
      discriminate (proj2 H (ex_intro _ x (conj Hx Hz))).
Qed.

Lemma bitlist_ok n rv : adapter_ok (ABitList n rv).
Proof.
  intros v w w' v' (l & bs & Hv & Hstr & Hl & Hlen & Hbs & -> & -> & zs & -> & Hs & Hin).
  split.
  - cbn [encode]. unfold bitlist_encode. rewrite Hv.
    assert (Hm : map (fun i => VBool (existsb (num_is (Z.of_nat i)) l)) (seq 0 (8 * n)) = map VBool bs)
      by (apply bitlist_bits; assumption).
    destruct v; try (exfalso; eapply Hstr; reflexivity); try discriminate; cbv zeta; rewrite Hm;
      destruct rv; rewrite <- ?map_rev; reflexivity.
  - intros w2 E. destruct w2 as [| | | | | | | |l2| | | | | | |]; try discriminate. injection E as E.
    assert (El : l2 = map (fun b : bool => VInt (if b then 1 else 0)) (if rv then rev bs else bs)).
    { rewrite <- (map_map (fun b : bool => if b then 1 else 0) VInt) in E |- *. now apply map_pub_ints. }
    subst l2. cbn [decode bitlist_decode].
    assert (Er : (if rv then rev (map (fun b : bool => VInt (if b then 1 else 0)) (if rv then rev bs else bs))
                  else map (fun b : bool => VInt (if b then 1 else 0)) (if rv then rev bs else bs))
                 = map (fun b : bool => VInt (if b then 1 else 0)) bs).
    { destruct rv; [|reflexivity]. now rewrite <- map_rev, rev_involutive. }
    rewrite Er. eexists; split; [reflexivity|]. cbn. change 0 with (Z.of_nat 0). rewrite set_bits_true.
    f_equal. f_equal. apply strictly_sorted_eq; [apply true_bits_sorted|exact Hs|].
    intros z. rewrite true_bits_in, Hin. reflexivity.
Qed.

(** ** sets *)
Lemma pub_asint x z : as_int x = Some z -> forall y, pub y = x -> y = x.
Proof. destruct x; simpl; try discriminate; intros _ [] E; simpl in E; congruence. Qed.
Lemma as_int_num x z : as_int x = Some z -> num_of x = Some (inject_Z z).
Proof. destruct x; simpl; try discriminate; intros [= <-]; reflexivity. Qed.
Lemma inject_Z_eqb a b : Qeq_bool (inject_Z a) (inject_Z b) = (a =? b).
Proof.
  unfold Qeq_bool, inject_Z; cbn [Qnum Qden]. rewrite !Z.mul_1_r.
  destruct (Z.eqb_spec a b) as [->|H]; [now apply Zeq_is_eq_bool|].
  destruct (Zeq_bool a b) eqn:E; [apply Zeq_is_eq_bool in E; contradiction|reflexivity].
Qed.
Lemma filter_id {T} (f : T -> bool) l : (forall x, In x l -> f x = true) -> filter f l = l.
Proof.
  induction l as [|x l IH]; simpl; intros H; [reflexivity|].
  rewrite (H x) by auto. f_equal. apply IH. intros; apply H; now right.
Qed.
Lemma dedup_distinct l : forall zs, map as_int l = map Some zs -> NoDup zs -> dedup l = l.
Proof.
  induction l as [|x l IH]; intros [|z zs]; simpl; try discriminate; [reflexivity|].
  intros [= H1 H2] N. inversion N as [|? ? Hz N']; subst.
  rewrite (IH zs H2 N'). f_equal. apply filter_id. intros y Hy.
  assert (exists z', as_int y = Some z' /\ In z' zs) as (z' & Ez' & Hz').
  { apply (in_map as_int) in Hy. rewrite H2 in Hy. apply in_map_iff in Hy as (z' & E & Hz'). eauto. }
  unfold val_num_eqb. rewrite (as_int_num x z H1), (as_int_num y z' Ez'), inject_Z_eqb.
  destruct (Z.eqb_spec z z'); [congruence|reflexivity].
Qed.
Lemma map_pub_asint l : forall l' zs, map pub l = l' -> map as_int l' = map Some zs -> l = l'.
Proof.
  induction l as [|x l IH]; intros [|x' l'] [|z zs]; simpl; try discriminate; [reflexivity|].
  intros [= H1 H2] [= H3 H4]. subst. rewrite <- (pub_asint _ z H3 x eq_refl) at 1. f_equal. eapply IH; eauto.
Qed.
Lemma set_ok : adapter_ok ASet.
Proof.
  intros v w w' v' (l' & zs & -> & -> & Hz & N & ->). split; [reflexivity|].
  intros w2 E. destruct w2 as [| | | | | | | |l2| | | | | | |]; try discriminate. injection E as E.
  assert (l2 = l') by (eapply map_pub_asint; eassumption). subst l2.
  exists (VSet l'). split; [|reflexivity]. cbn. now rewrite (dedup_distinct l' zs Hz N).
Qed.

(** ** MAC and IP addresses *)
Lemma split_cons_sep sep l : split sep (sep :: l) = [] :: split sep l.
Proof.
  simpl. destruct (split sep l) eqn:E; [|now rewrite Z.eqb_refl].
  exfalso. revert E. destruct l as [|c l]; simpl; [discriminate|].
  destruct (split sep l); [discriminate|]. destruct (c =? sep); discriminate.
Qed.
Lemma split_nonempty sep l : split sep l <> [].
Proof.
  destruct l as [|c l]; simpl; [discriminate|].
  destruct (split sep l); [discriminate|]. destruct (c =? sep); discriminate.
Qed.
Lemma split_app sep a l : ~ In sep a -> split sep (a ++ sep :: l) = a :: split sep l.
Proof.
  induction a as [|c a IH]; intros H; [apply split_cons_sep|].
  simpl. rewrite IH by (intros X; apply H; now right).
  destruct (Z.eqb_spec c sep); [subst; exfalso; apply H; now left|reflexivity].
Qed.
Lemma split_single sep a : ~ In sep a -> split sep a = [a].
Proof.
  induction a as [|c a IH]; intros H; [reflexivity|].
  simpl. rewrite IH by (intros X; apply H; now right).
  destruct (Z.eqb_spec c sep); [subst; exfalso; apply H; now left|reflexivity].
Qed.

Lemma hexval_spec c n : hexval c = Some n <-> is_hex c n.
Proof.
  unfold hexval, is_hex.
  repeat match goal with
  | |- context [Z.leb ?a ?b] => destruct (Z.leb_spec a b)
  end; cbn [andb]; (split; [intros E; inversion E; lia | intros; try (f_equal; lia); exfalso; lia]).
Qed.
Lemma is_hex_range c n : is_hex c n -> 0 <= n < 16 /\ c <> 58.
Proof. unfold is_hex. lia. Qed.
Lemma parse_hex2 c1 c2 n1 n2 : is_hex c1 n1 -> is_hex c2 n2 -> parse_int 16 [c1; c2] = Some (16 * n1 + n2).
Proof.
  intros H1 H2. pose proof (is_hex_range _ _ H1). pose proof (is_hex_range _ _ H2).
  apply hexval_spec in H1, H2. cbn [parse_int digits_acc]. rewrite H1, H2.
  destruct (Z.ltb_spec n1 16); [|lia]. destruct (Z.ltb_spec n2 16); [|lia]. f_equal. lia.
Qed.

Lemma mac_octets l : forall s, mac_text s l -> octets 16 (split 58 s) = Some l.
Proof.
  induction l as [|b [|b2 l] IH]; intros s.
  - intros [].
  - intros (c1 & c2 & n1 & n2 & -> & H1 & H2 & ->).
    pose proof (is_hex_range _ _ H1) as [? ?]. pose proof (is_hex_range _ _ H2) as [? ?].
    rewrite split_single by (simpl; intuition). cbn [octets]. rewrite (parse_hex2 _ _ _ _ H1 H2).
    destruct (Z.ltb_spec (16 * n1 + n2) 256); [reflexivity|lia].
  - intros (c1 & c2 & n1 & n2 & s' & -> & H1 & H2 & -> & H).
    pose proof (is_hex_range _ _ H1) as [? ?]. pose proof (is_hex_range _ _ H2) as [? ?].
    change (c1 :: c2 :: 58 :: s') with ([c1; c2] ++ 58 :: s').
    rewrite split_app by (simpl; intuition). cbn [octets]. rewrite (parse_hex2 _ _ _ _ H1 H2), (IH s' H).
    destruct (Z.ltb_spec (16 * n1 + n2) 256); [reflexivity|lia].
Qed.
Lemma hexdigit_lower c n : is_hex c n -> c = 58 \/ 48 <= c <= 57 \/ 97 <= c <= 102 -> hexdigit n = c.
Proof. unfold is_hex, hexdigit. intros H1 H2. destruct (Z.ltb_spec n 10); lia. Qed.
Lemma mac_lower l : forall s, mac_text s l -> lower_mac s -> join 58 (map hex2 l) = s.
Proof.
  unfold lower_mac.
  induction l as [|b [|b2 l] IH]; intros s.
  - intros [].
  - intros (c1 & c2 & n1 & n2 & -> & H1 & H2 & ->) F.
    inversion F as [|? ? F1 F']; subst. inversion F' as [|? ? F2 _]; subst.
    pose proof (is_hex_range _ _ H2) as [? ?]. cbn [map join]. unfold hex2.
    replace ((16 * n1 + n2) / 16) with n1 by (Z.div_mod_to_equations; lia).
    replace ((16 * n1 + n2) mod 16) with n2 by (Z.div_mod_to_equations; lia).
    now rewrite (hexdigit_lower c1 n1), (hexdigit_lower c2 n2) by assumption.
  - intros (c1 & c2 & n1 & n2 & s' & -> & H1 & H2 & -> & H) F.
    inversion F as [|? ? F1 F']; subst. inversion F' as [|? ? F2 F'']; subst. inversion F'' as [|? ? _ F3]; subst.
    pose proof (is_hex_range _ _ H2) as [? ?]. specialize (IH s' H F3).
    cbn [map join] in IH |- *. unfold hex2 at 1.
    replace ((16 * n1 + n2) / 16) with n1 by (Z.div_mod_to_equations; lia).
    replace ((16 * n1 + n2) mod 16) with n2 by (Z.div_mod_to_equations; lia).
    rewrite (hexdigit_lower c1 n1), (hexdigit_lower c2 n2) by assumption.
    cbn [app]. now rewrite IH.
Qed.
Lemma mac_ok : adapter_ok AMac.
Proof.
  intros v w w' v' (s & s' & l & -> & Hs & -> & -> & Hs' & Hl & ->). split.
  - cbn. now rewrite (mac_octets l s Hs).
  - intros w2 E. destruct w2; try discriminate. injection E as ->.
    eexists; split; [reflexivity|]. cbn. now rewrite (mac_lower l s' Hs' Hl).
Qed.

Lemma dec_digit n : 0 <= n < 10 -> hexval (48 + n) = Some n.
Proof. intros H. apply hexval_spec. unfold is_hex. lia. Qed.
Lemma parse_decimal b : isbyte b -> parse_int 10 (decimal b) = Some b /\ ~ In 46 (decimal b) /\ decimal b <> [].
Proof.
  unfold isbyte, decimal. intros H.
  destruct (Z.ltb_spec b 10); [|destruct (Z.ltb_spec b 100)].
  - cbn [parse_int digits_acc]. rewrite dec_digit by lia. destruct (Z.ltb_spec b 10); [|lia].
    split; [f_equal; lia|]. split; [cbn [In]; lia|discriminate].
  - assert (0 <= b / 10 < 10 /\ 0 <= b mod 10 < 10 /\ b = 10 * (b / 10) + b mod 10) as (A1 & A2 & A3)
      by (Z.div_mod_to_equations; lia).
    cbn [parse_int digits_acc]. rewrite !dec_digit by lia.
    destruct (Z.ltb_spec (b / 10) 10); [|lia]. destruct (Z.ltb_spec (b mod 10) 10); [|lia].
    split; [f_equal; lia|]. split; [cbn [In]; lia|discriminate].
  - assert (0 <= b / 100 < 10 /\ 0 <= b / 10 mod 10 < 10 /\ 0 <= b mod 10 < 10
            /\ b = 100 * (b / 100) + 10 * (b / 10 mod 10) + b mod 10) as (A1 & A2 & A3 & A4)
      by (Z.div_mod_to_equations; lia).
    cbn [parse_int digits_acc]. rewrite !dec_digit by lia.
    destruct (Z.ltb_spec (b / 100) 10); [|lia]. destruct (Z.ltb_spec (b / 10 mod 10) 10); [|lia].
    destruct (Z.ltb_spec (b mod 10) 10); [|lia].
    split; [f_equal; lia|]. split; [cbn [In]; lia|discriminate].
Qed.
Lemma dotted_octets l : bytes l -> l <> [] -> octets 10 (split 46 (dotted l)) = Some l.
Proof.
  induction l as [|b [|b2 l] IH]; intros Hb Hn; [congruence| |].
  - inversion Hb as [|? ? H _]; subst. destruct (parse_decimal b H) as (P1 & P2 & _). cbn [dotted].
    rewrite split_single by exact P2. cbn [octets]. rewrite P1. unfold isbyte in H.
    destruct (Z.ltb_spec b 256); [reflexivity|lia].
  - inversion Hb as [|? ? H Hb']; subst. destruct (parse_decimal b H) as (P1 & P2 & _).
    change (dotted (b :: b2 :: l)) with (decimal b ++ 46 :: dotted (b2 :: l)).
    rewrite split_app by exact P2. specialize (IH Hb' ltac:(discriminate)).
    cbn [octets]. rewrite P1, IH. unfold isbyte in H. destruct (Z.ltb_spec b 256); [reflexivity|lia].
Qed.
Lemma ip_ok : adapter_ok AIp.
Proof.
  intros v w w' v' (l & Hb & Hn & -> & -> & -> & ->). split.
  - cbn. now rewrite (dotted_octets l Hb Hn).
  - intros w2 E. destruct w2; try discriminate. injection E as ->. eexists; split; reflexivity.
Qed.

(** ** the calendar *)
Lemma is_leap_spec y : is_leap y = true <-> leap y.
Proof.
  unfold is_leap, leap. rewrite andb_true_iff, orb_true_iff, negb_true_iff, !Z.eqb_eq, Z.eqb_neq. tauto.
Qed.
Lemma month_len_spec y m n : month_len y m n <-> 1 <= m <= 12 /\ days_in_month y m = n.
Proof.
  unfold month_len, days_in_month. pose proof (is_leap_spec y) as L. simpl.
  destruct (is_leap y); split; intros H.
  - assert (leap y) by (now apply L). split; [intuition lia|].
    destruct (Z.eqb_spec m 2), (Z.eqb_spec m 4), (Z.eqb_spec m 6), (Z.eqb_spec m 9), (Z.eqb_spec m 11); simpl; intuition lia.
  - assert (leap y) by (now apply L). destruct H as [H1 H2].
    destruct (Z.eqb_spec m 2), (Z.eqb_spec m 4), (Z.eqb_spec m 6), (Z.eqb_spec m 9), (Z.eqb_spec m 11); simpl in H2; intuition lia.
  - assert (~ leap y) by (intros X; apply L in X; discriminate). split; [intuition lia|].
    destruct (Z.eqb_spec m 2), (Z.eqb_spec m 4), (Z.eqb_spec m 6), (Z.eqb_spec m 9), (Z.eqb_spec m 11); simpl; intuition lia.
  - assert (~ leap y) by (intros X; apply L in X; discriminate). destruct H as [H1 H2].
    destruct (Z.eqb_spec m 2), (Z.eqb_spec m 4), (Z.eqb_spec m 6), (Z.eqb_spec m 9), (Z.eqb_spec m 11); simpl in H2; intuition lia.
Qed.

Definition civ (y m d : Z) : Z := days_before_year y + days_before_month y (Z.to_nat m) + (d - 1) - epoch_day.
Lemma days_before_month_S y m : 1 <= m -> days_before_month y (Z.to_nat (m + 1)) = days_before_month y (Z.to_nat m) + days_in_month y m.
Proof.
  intros H. replace (Z.to_nat (m + 1)) with (S (Z.to_nat m)) by lia.
  destruct (Z.to_nat m) as [|n] eqn:E; [lia|].
  cbn [days_before_month]. f_equal. f_equal. lia.
Qed.
Lemma year_step y : 1 <= y -> days_before_year (y + 1) = days_before_year y + (if is_leap y then 366 else 365).
Proof.
  intros H. unfold days_before_year, is_leap.
  destruct (Z.eqb_spec (y mod 4) 0), (Z.eqb_spec (y mod 100) 0), (Z.eqb_spec (y mod 400) 0); cbn [andb orb negb];
    Z.div_mod_to_equations; lia.
Qed.
Lemma year_len y : days_before_month y 12 + 31 = if is_leap y then 366 else 365.
Proof. simpl. unfold days_in_month. simpl. destruct (is_leap y); reflexivity. Qed.

Lemma days_in_month_pos y m : 28 <= days_in_month y m <= 31.
Proof. unfold days_in_month. destruct (m =? 2), (is_leap y), (m =? 4), (m =? 6), (m =? 9), (m =? 11); simpl; lia. Qed.

Lemma calendar_spec y m d z : calendar y m d z ->
  1 <= y /\ 1 <= m <= 12 /\ 1 <= d <= days_in_month y m /\ z = civ y m d.
Proof.
  induction 1 as [|y m d z n H (Hy & Hm & Hd & ->) L Hlt|y m d z H (Hy & Hm & Hd & ->) L Hlt
                 |y z H (Hy & Hm & Hd & ->)|y m d z H (Hy & Hm & Hd & ->) Hlt
                 |y m z n H (Hy & Hm & Hd & ->) Hlt L|y z H (Hy & Hm & Hd & ->) Hlt].
  - split; [lia|]. split; [lia|]. split; [cbn; lia|reflexivity].
  - apply month_len_spec in L as [_ L]. repeat split; try lia. unfold civ. lia.
  - apply month_len_spec in L as [_ L]. pose proof (days_in_month_pos y (m + 1)). repeat split; try lia.
    unfold civ. rewrite days_before_month_S by lia. lia.
  - pose proof (days_in_month_pos (y + 1) 1). repeat split; try lia.
    unfold civ. rewrite year_step by lia. pose proof (year_len y).
    change (Z.to_nat 12) with 12%nat. change (Z.to_nat 1) with 1%nat. cbn [days_before_month] in *. lia.
  - repeat split; try lia. unfold civ. lia.
  - apply month_len_spec in L as [_ L]. pose proof (days_in_month_pos y (m - 1)). repeat split; try lia.
    unfold civ. replace m with (m - 1 + 1) at 1 by lia. rewrite days_before_month_S by lia. lia.
  - pose proof (days_in_month_pos (y - 1) 12). repeat split; try lia.
    { cbn. lia. }
    unfold civ. replace y with (y - 1 + 1) at 1 by lia. rewrite year_step by lia. pose proof (year_len (y - 1)).
    change (Z.to_nat 12) with 12%nat. change (Z.to_nat 1) with 1%nat. cbn [days_before_month] in *. lia.
Qed.

Lemma calendar_civil y m d z : calendar y m d z -> y <= 9999 -> civil_days y m d = Some z.
Proof.
  intros H Hy. apply calendar_spec in H as (Hy1 & Hm & Hd & ->). unfold civil_days.
  destruct (Z.leb_spec 1 y); [|lia]. destruct (Z.leb_spec y 9999); [|lia].
  destruct (Z.leb_spec 1 m); [|lia]. destruct (Z.leb_spec m 12); [|lia].
  destruct (Z.leb_spec 1 d); [|lia]. destruct (Z.leb_spec d (days_in_month y m)); [|lia]. reflexivity.
Qed.

Lemma date_ok : adapter_ok ADate.
Proof.
  intros v w w' v' (z & Hz & Hv & -> & -> & ->). split.
  - destruct Hv as [->|(d & y & m & dd & -> & Hy & Hm & Hd & Hc & Hr)]; [reflexivity|].
    cbn [encode date_encode]. unfold geti, dgetr. rewrite Hy. cbn. rewrite Hm. cbn. rewrite Hd. cbn [bind as_intr as_int].
    unfold as_intr. cbn [as_int bind]. now rewrite (calendar_civil y m dd z Hc) by lia.
  - intros w2 E. apply pub_int in E. subst. exists (VDate z). split; [|reflexivity].
    cbn. unfold min_day, max_day. destruct (Z.leb_spec (-719162) z); [|lia]. destruct (Z.leb_spec z 2932896); [reflexivity|lia].
Qed.
