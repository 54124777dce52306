(** * AdapterProofs1: the discrete adapters implement their domains (AdapterSpec). *)
From Coq Require Import Qabs Permutation Sorted Lqa.
From Verif Require Import PyVal Bits Utf8 Float64 FloatX Adapters Construct Size Spec Master AdapterSpec.

Definition adapter_ok (a : adapter) : Prop :=
  forall v w w' v', A_spec a v w w' v' ->
    encode a v = Ok w /\ forall w2, pub w2 = w' -> exists u, decode a w2 = Ok u /\ pub u = v'.

(** ** enumerations *)
Lemma nat_ascii_inj a b : nat_of_ascii a = nat_of_ascii b -> a = b.
Proof. intros H. rewrite <- (ascii_nat_embedding a), <- (ascii_nat_embedding b). now rewrite H. Qed.
Lemma cps_inj s : forall s', cps s = cps s' -> s = s'.
Proof.
  induction s as [|a s IH]; intros [|b s']; simpl; try discriminate; [reflexivity|].
  intros [= H1 H2]. apply Nat2Z.inj in H1. apply nat_ascii_inj in H1. f_equal; auto.
Qed.
Lemma zlist_eqb_spec a : forall b, zlist_eqb a b = true <-> a = b.
Proof.
  induction a as [|x a IH]; intros [|y b]; simpl; split; try discriminate; try reflexivity.
  - intros H. apply andb_prop in H as [H1 H2]. apply Z.eqb_eq in H1. apply IH in H2. congruence.
  - intros [= -> ->]. rewrite Z.eqb_refl. now apply IH.
Qed.

Lemma member_by_value t n z : member t n z -> by_value t z = Some (VEnum n z).
Proof.
  intros (t1 & t2 & -> & H). induction t1 as [|[n1 z1] t1 IH]; simpl.
  - now rewrite Z.eqb_refl.
  - simpl in H. destruct (Z.eqb_spec z z1); [subst; exfalso; apply H; now left|].
    apply IH. tauto.
Qed.
Lemma by_value_member t n z : by_value t z = Some (VEnum n z) -> member t n z.
Proof.
  induction t as [|[n1 z1] t IH]; simpl; [discriminate|].
  destruct (Z.eqb_spec z z1).
  - intros [= ->]. subst. exists [], t. split; [reflexivity|intros []].
  - intros H. destruct (IH H) as (t1 & t2 & -> & H1). exists ((n1, z1) :: t1), t2. split; [reflexivity|].
    simpl. intuition.
Qed.
Lemma named_value t s z : named t s z -> name_value t (cps s) = Some z.
Proof.
  intros (t1 & t2 & -> & H). induction t1 as [|[n1 z1] t1 IH]; simpl.
  - now rewrite (proj2 (zlist_eqb_spec _ _) eq_refl).
  - simpl in H. destruct (zlist_eqb (cps s) (cps n1)) eqn:E.
    + apply zlist_eqb_spec, cps_inj in E. subst. exfalso; apply H; now left.
    + apply IH. tauto.
Qed.

Lemma enum_encode_int t v z : as_int v = Some z ->
  enum_encode t v = match by_value t z with Some m => Ok m | None => Err EOther end.
Proof. destruct v; simpl; try discriminate; intros [= ->]; reflexivity. Qed.

Lemma enum_ok t : adapter_ok (AEnum t).
Proof.
  intros v w w' v' (n & z & Hm & Hv & -> & Hw' & ->).
  apply member_by_value in Hm. split.
  - change (enum_encode t v = Ok (VEnum n z)).
    destruct Hv as [Hv|(s & -> & Hs)].
    + now rewrite (enum_encode_int t v z Hv), Hm.
    + cbn. unfold by_name. now rewrite (named_value t s z Hs), Hm.
  - intros w2 E. exists (VEnum n z). split; [|reflexivity]. cbn. unfold enum_decode.
    rewrite <- (as_int_pub w2), E, Hw', Hm. reflexivity.
Qed.

(** ** validators *)
Lemma validate_ok (p : Z -> bool) v z : as_int v = Some z -> p z = true ->
  validate p v = Ok v /\ forall w2, pub w2 = VInt z -> exists u, validate p w2 = Ok u /\ pub u = VInt z.
Proof.
  intros Hv Hp. unfold validate. rewrite Hv, Hp. split; [reflexivity|].
  intros w2 E. apply pub_int in E. subst. simpl. rewrite Hp. now exists (VInt z).
Qed.

Lemma in_range_spec lo hi z : in_range lo hi z = true <-> within lo hi z.
Proof.
  unfold in_range, within. rewrite andb_true_iff.
  destruct lo, hi; rewrite ?Z.leb_le; intuition.
Qed.

Lemma range_ok lo hi : adapter_ok (ARange lo hi).
Proof.
  intros v w w' v' (z & Hv & Hr & -> & -> & ->). apply in_range_spec in Hr. now apply validate_ok.
Qed.

(** the 12-bit mask *)
Lemma mask12 z : Z.land z 0xF000 = 0 <-> z mod 65536 < 4096.
Proof.
  assert (E : Z.land z 0xF000 = ((z / 4096) mod 16) * 4096).
  { change 0xF000 with (Z.shiftl (Z.ones 4) 12).
    rewrite <- (Z.mul_comm 4096). change 4096 with (2 ^ 12).
    rewrite <- Z.land_ones with (n := 4) by lia. rewrite <- Z.shiftr_div_pow2 by lia.
    rewrite Z.mul_comm, <- Z.shiftl_mul_pow2 by lia. rewrite Z.shiftl_land.
    apply Z.bits_inj'. intros i Hi. rewrite !Z.land_spec, !Z.shiftl_spec by lia.
    destruct (Z.lt_ge_cases i 12).
    - rewrite !(Z.testbit_neg_r _ (i - 12)) by lia. now rewrite !andb_false_r.
    - rewrite Z.shiftr_spec by lia. now replace (i - 12 + 12) with i by lia. }
  rewrite E. Z.div_mod_to_equations. lia.
Qed.

Lemma mask_ok m : adapter_ok (AMask m).
Proof.
  intros v w w' v' (z & Hv & -> & Hz & -> & -> & ->).
  apply (validate_ok (fun z => Z.land z 61440 =? 0)); [exact Hv|].
  apply Z.eqb_eq. apply (proj2 (mask12 z)). rewrite Z.mod_small; lia.
Qed.

Lemma land_C000 z : 0 <= z < 65536 -> Z.land z 0xC000 = (z / 16384) * 16384.
Proof.
  intros Hz. change 0xC000 with (Z.shiftl (Z.ones 2) 14).
  replace 16384 with (2 ^ 14) by reflexivity.
  rewrite <- Z.shiftr_div_pow2, <- Z.shiftl_mul_pow2 by lia.
  replace (Z.shiftr z 14) with (Z.land (Z.shiftr z 14) (Z.ones 2)).
  2:{ rewrite Z.land_ones by lia. rewrite Z.shiftr_div_pow2 by lia. apply Z.mod_small.
      split; [apply Z.div_pos; lia|]. apply Z.div_lt_upper_bound; lia. }
  rewrite Z.shiftl_land.
  apply Z.bits_inj'. intros i Hi. rewrite !Z.land_spec, !Z.shiftl_spec by lia.
  destruct (Z.lt_ge_cases i 14).
  - rewrite !(Z.testbit_neg_r _ (i - 14)) by lia. now rewrite !andb_false_r.
  - rewrite Z.shiftr_spec by lia. now replace (i - 14 + 14) with i by lia.
Qed.
Lemma land_8000 z : 0 <= z < 65536 -> Z.land z 0x8000 = (z / 32768) * 32768.
Proof.
  intros Hz. change (Z.land z (Z.shiftl (Z.ones 1) 15) = z / 2 ^ 15 * 2 ^ 15).
  rewrite <- Z.shiftr_div_pow2, <- Z.shiftl_mul_pow2 by lia.
  replace (Z.shiftr z 15) with (Z.land (Z.shiftr z 15) (Z.ones 1)).
  2:{ rewrite Z.land_ones by lia. rewrite Z.shiftr_div_pow2 by lia. apply Z.mod_small.
      split; [apply Z.div_pos; lia|]. apply Z.div_lt_upper_bound; lia. }
  rewrite Z.shiftl_land.
  apply Z.bits_inj'. intros i Hi. rewrite !Z.land_spec, !Z.shiftl_spec by lia.
  destruct (Z.lt_ge_cases i 15).
  - rewrite !(Z.testbit_neg_r _ (i - 15)) by lia. now rewrite !andb_false_r.
  - rewrite Z.shiftr_spec by lia. now replace (i - 15 + 15) with i by lia.
Qed.

Lemma addr_class_range k z : addr_class k z -> 0 <= z < 65536.
Proof. destruct k; simpl; lia. Qed.

(** C13: the classification is the documented partition *)
Theorem address_type_spec z k : 0 <= z < 65536 -> (get_address_type z = k <-> addr_class k z).
Proof.
  intros Hz. unfold get_address_type. rewrite land_C000, land_8000 by exact Hz.
  assert (D1 : z / 16384 * 16384 =? 0xC000 = (49152 <=? z)).
  { destruct (Z.leb_spec 49152 z), (Z.eqb_spec (z / 16384 * 16384) 0xC000); try reflexivity;
      exfalso; Z.div_mod_to_equations; lia. }
  assert (D2 : z / 32768 * 32768 =? 0x8000 = (32768 <=? z)).
  { destruct (Z.leb_spec 32768 z), (Z.eqb_spec (z / 32768 * 32768) 0x8000); try reflexivity;
      exfalso; Z.div_mod_to_equations; lia. }
  rewrite D1, D2. clear D1 D2.
  destruct (Z.eqb_spec z 0); [subst; split; [intros <-; reflexivity|destruct k; simpl; try reflexivity; lia]|].
  destruct (Z.leb_spec 0xFF00 z), (Z.leb_spec z 0xFFFB); cbn [andb];
    repeat match goal with
    | |- context [Z.eqb z ?c] => destruct (Z.eqb_spec z c)
    | |- context [Z.leb ?c z] => destruct (Z.leb_spec c z)
    end; (split; [intros <-; simpl; lia | destruct k; simpl; try reflexivity; lia]).
Qed.

Lemma addr_eqb_spec a b : addr_eqb a b = true <-> a = b.
Proof. destruct a, b; simpl; split; congruence. Qed.
Lemma addr_existsb k l : existsb (addr_eqb k) l = true <-> In k l.
Proof.
  rewrite existsb_exists. split.
  - intros (x & H & E). apply addr_eqb_spec in E. now subst.
  - intros H. exists k. split; [exact H|]. now apply addr_eqb_spec.
Qed.

Lemma addr_in_ok l : adapter_ok (AAddrIn l).
Proof.
  intros v w w' v' (z & k & Hv & Hk & Hl & -> & -> & ->).
  pose proof (proj2 (address_type_spec z k (addr_class_range k z Hk)) Hk) as E.
  apply (validate_ok (fun z => existsb (addr_eqb (get_address_type z)) l)); [exact Hv|].
  rewrite E. now apply addr_existsb.
Qed.
Lemma addr_out_ok l : adapter_ok (AAddrOut l).
Proof.
  intros v w w' v' (z & k & Hv & Hk & Hl & -> & -> & ->).
  pose proof (proj2 (address_type_spec z k (addr_class_range k z Hk)) Hk) as E.
  apply (validate_ok (fun z => negb (existsb (addr_eqb (get_address_type z)) l))); [exact Hv|].
  rewrite E. destruct (existsb (addr_eqb k) l) eqn:F; [|reflexivity].
  apply addr_existsb in F. contradiction.
Qed.

(** ** retransmit *)
Lemma dget_pub k d0 d x : hidden k = false -> pubd d0 = d -> dget k d = Some x ->
  exists y, dget k d0 = Some y /\ pub y = x.
Proof.
  intros Hk <- H. rewrite dget_pubd in H by exact Hk. destruct (dget k d0); [|discriminate].
  simpl in H. injection H as <-. eauto.
Qed.
Lemma dget_pub_int k d0 d z : hidden k = false -> pubd d0 = d -> dget k d = Some (VInt z) ->
  dget k d0 = Some (VInt z).
Proof. intros Hk E H. destruct (dget_pub k d0 d _ Hk E H) as (y & -> & Hy). apply pub_int in Hy. now subst. Qed.

Lemma retransmit_ok iv : adapter_ok (ARetransmit iv).
Proof.
  intros v w w' v' (d & c & n & i & s & d' & c' & -> & Hc & Hn & Hn7 & Hi & Hiv & Hs & Hpos & -> & -> & Hc' & Hs' & ->).
  split.
  - cbn [encode retransmit_encode]. unfold dgetr. rewrite Hc. cbn [bind]. unfold as_intr. rewrite Hn. cbn [bind].
    destruct (Z.ltb_spec 7 n); [lia|]. rewrite Hi. cbn [bind].
    rewrite (int_key_as_int i _ Hiv).
    assert (E1 : (s + 1) * iv mod iv = 0) by (apply Z.mod_mul; lia).
    assert (E2 : (s + 1) * iv / iv = s + 1) by (apply Z.div_mul; lia).
    rewrite E1, E2. destruct (Z.ltb_spec 0 ((s + 1) * iv)), (Z.leb_spec ((s + 1) * iv) (32 * iv)); try nia.
    cbn [andb Z.eqb]. replace (s + 1 - 1) with s by lia. reflexivity.
  - intros w2 E. apply pub_dict_inv in E as (d0 & -> & E).
    destruct (dget_pub "count" d0 d' c' eq_refl E Hc') as (y & Hy & Ey).
    pose proof (dget_pub_int "interval_steps" d0 d' s eq_refl E Hs') as Hy2.
    cbn [decode retransmit_decode]. unfold dgetr. rewrite Hy, Hy2. cbn.
    eexists; split; [reflexivity|]. rewrite pub_dict. cbn [pubd hidden]. cbn. now rewrite Ey.
Qed.

(** ** fixed strings *)
Lemma fixed_string_ok : adapter_ok AFixedString.
Proof.
  intros v w w' v' (s & Hv & -> & -> & ->). split.
  - destruct Hv as [->|(b & -> & Hb)]; [reflexivity|]. cbn [encode fixed_string_encode]. now rewrite (utf8_decode_encode _ _ Hb).
  - intros w2 E. exists w2. split; [reflexivity|exact E].
Qed.

(** ** key indices *)
Lemma ival_int z : ival (VInt z) = z. Proof. reflexivity. Qed.
Fixpoint zinsert (x : Z) (l : list Z) : list Z :=
  match l with [] => [x] | y :: l' => if x <=? y then x :: l else y :: zinsert x l' end.
Fixpoint zsort (l : list Z) : list Z :=
  match l with [] => [] | x :: l' => zinsert x (zsort l') end.
Lemma insert_by_map x l : insert_by (VInt x) (map VInt l) = map VInt (zinsert x l).
Proof.
  induction l as [|y l IH]; simpl; [reflexivity|].
  rewrite !ival_int. destruct (x <=? y); simpl; [reflexivity|]. now rewrite IH.
Qed.
Lemma isort_map l : isort (map VInt l) = map VInt (zsort l).
Proof. induction l as [|x l IH]; simpl; [reflexivity|]. now rewrite IH, insert_by_map. Qed.
Lemma zinsert_perm x l : Permutation (x :: l) (zinsert x l).
Proof.
  induction l as [|y l IH]; simpl; [reflexivity|].
  destruct (x <=? y); [reflexivity|]. rewrite perm_swap. now constructor.
Qed.
Lemma zsort_perm l : Permutation l (zsort l).
Proof. induction l as [|x l IH]; simpl; [reflexivity|]. rewrite <- zinsert_perm. now constructor. Qed.
Lemma zinsert_sorted x l : Sorted Z.le l -> Sorted Z.le (zinsert x l).
Proof.
  induction 1 as [|y l Hs IH Hr]; simpl; [repeat constructor|].
  destruct (Z.leb_spec x y).
  - repeat constructor; assumption.
  - constructor; [exact IH|]. destruct l as [|z l]; simpl in *; [constructor; lia|].
    inversion Hr; subst. destruct (x <=? z); constructor; lia.
Qed.
Lemma zsort_sorted l : Sorted Z.le (zsort l).
Proof. induction l; simpl; [constructor|]. now apply zinsert_sorted. Qed.
Lemma sorted_perm_eq l : forall l', Sorted Z.le l -> Sorted Z.le l' -> Permutation l l' -> l = l'.
Proof.
  intros l' S1 S2. apply Sorted_StronglySorted in S1; [|intros a b c; lia].
  apply Sorted_StronglySorted in S2; [|intros a b c; lia].
  revert l' S2. induction S1 as [|x l S1 IH F1]; intros l' S2 P.
  - apply Permutation_nil in P. now subst.
  - destruct l' as [|y l']; [symmetry in P; now apply Permutation_nil in P|].
    inversion S2 as [|? ? S2' F2]; subst.
    assert (x = y).
    { rewrite Forall_forall in F1, F2.
      assert (In x (y :: l')) as [->|Hx] by (eapply Permutation_in; [exact P|now left]); [reflexivity|].
      assert (In y (x :: l)) as [->|Hy] by (eapply Permutation_in; [symmetry; exact P|now left]); [reflexivity|].
      specialize (F1 _ Hy). specialize (F2 _ Hx). lia. }
    subst. f_equal. apply IH; [exact S2'|]. now apply Permutation_cons_inv in P.
Qed.
Lemma zsort_unique l l' : Permutation l l' -> Sorted Z.le l' -> zsort l = l'.
Proof.
  intros P S. apply sorted_perm_eq; [apply zsort_sorted|exact S|].
  now rewrite <- zsort_perm.
Qed.

Lemma pair_items_map : forall n l, (length l <= n)%nat -> pair_items (map VInt l) = pairs l.
Proof.
  induction n as [|n IH]; intros [|a [|b l]] H; try reflexivity; simpl in H; [lia|].
  cbn [map pair_items pairs]. rewrite IH by lia. reflexivity.
Qed.
Lemma map_cons_inv {A B} (f : A -> B) l y t : map f l = y :: t -> exists x l', l = x :: l' /\ f x = y /\ map f l' = t.
Proof. destruct l; simpl; [discriminate|]. intros [= <- <-]. eauto. Qed.

Lemma flatten_pairs : forall n zs, (length zs <= n)%nat -> forall l, map pub l = pairs zs ->
  flatten_items l = Ok (map VInt zs).
Proof.
  induction n as [|n IH]; intros [|a [|b zs]] Hn l H; simpl in Hn; try lia.
  - destruct l; [reflexivity|discriminate].
  - destruct l; [reflexivity|discriminate].
  - cbn [pairs] in H. apply map_cons_inv in H as (x & l' & -> & Hx & Hl). 
    destruct l'; [|discriminate]. apply pub_dict_inv in Hx as (d0 & -> & E). cbn [flatten_items].
    rewrite (dget_pub_int "last" d0 _ a eq_refl E) by reflexivity. reflexivity.
  - cbn [pairs] in H. apply map_cons_inv in H as (x & l' & -> & Hx & Hl).
    apply pub_dict_inv in Hx as (d0 & -> & E). cbn [flatten_items].
    rewrite (IH zs ltac:(lia) l' Hl). cbn [bind].
    assert (N : dget "last" d0 = None).
    { pose proof (dget_pubd "last" d0 eq_refl) as P. rewrite E in P. simpl in P.
      destruct (dget "last" d0); [discriminate|reflexivity]. }
    rewrite N. unfold dgetr.
    rewrite (dget_pub_int "first" d0 _ a eq_refl E) by reflexivity.
    rewrite (dget_pub_int "second" d0 _ b eq_refl E) by reflexivity. reflexivity.
Qed.

Lemma forallb_intlike l : forallb is_intlike (map VInt l) = true.
Proof. induction l; simpl; auto. Qed.
Lemma pub_vint_list l : map pub (map VInt l) = map VInt l.
Proof. rewrite map_map. reflexivity. Qed.

Lemma zsort_id l : Sorted Z.le l -> zsort l = l.
Proof. intros H. apply zsort_unique; [reflexivity|exact H]. Qed.

Lemma key_indices_ok : adapter_ok AKeyIndices.
Proof.
  intros v w w' v' (zs & zs' & -> & P & S & -> & -> & ->). split.
  - cbn [encode key_indices_encode]. rewrite forallb_intlike, isort_map.
    rewrite (pair_items_map (length (zsort zs))) by lia. now rewrite (zsort_unique _ _ P S).
  - intros w2 E. destruct w2; try discriminate. injection E as E.
    cbn [decode key_indices_decode]. rewrite (flatten_pairs (length zs') zs' ltac:(lia) l E). cbn [bind].
    rewrite isort_map, (zsort_id _ S). eexists; split; [reflexivity|].
    cbn. now rewrite pub_vint_list.
Qed.
