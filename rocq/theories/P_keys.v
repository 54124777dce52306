(** * P_keys: lists of key indices (C15, C16). *)
From Coq Require Import Permutation Sorted.
From Verif Require Import PyVal Bits Float64 Utf8 Adapters Construct Size Spec Master
  AdapterSpec AdapterProofs1 AdapterProofs4 Access AccessProofs Conform BitLayout G_config.

(** the documented packing: two 12-bit indices share three octets, read as a
    little-endian 24-bit number with the first index in the upper half; a lone last
    index takes two octets *)
Fixpoint packed (l : list Z) : list Z :=
  match l with
  | a :: b :: l' => b mod 256 :: (b / 256 + 16 * (a mod 16)) :: a / 16 :: packed l'
  | [a] => [a mod 256; a / 256]
  | [] => []
  end.
Definition index (z : Z) : Prop := 0 <= z < 4096.

Lemma list2_ind {A} (P : list A -> Prop) : P [] -> (forall a, P [a]) -> (forall a b l, P l -> P (a :: b :: l)) -> forall l, P l.
Proof. intros H0 H1 H2. fix go 1. intros [|a [|b l]]; [exact H0|apply H1|apply H2, go]. Qed.

Lemma pair_bytes a b : index a -> index b ->
  rev (rev (to_le 3 (a * 2 ^ Z.of_nat 12 + b))) = [b mod 256; b / 256 + 16 * (a mod 16); a / 16].
Proof.
  intros Ha Hb. unfold index in *. rewrite rev_involutive. cbn [to_le]. change (2 ^ Z.of_nat 12) with 4096.
  assert (E1 : (a * 4096 + b) / 256 = a * 16 + b / 256) by (replace (a * 4096 + b) with (b + (16 * a) * 256) by lia; rewrite Z.div_add by lia; lia).
  assert (0 <= b / 256 < 16) by (split; [apply Z.div_pos; lia|apply Z.div_lt_upper_bound; lia]).
  assert (E2 : (a * 16 + b / 256) / 256 = a / 16).
  { change 256 with (16 * 16). rewrite <- Z.div_div, Z.div_add_l, (Z.div_small (b / _)) by lia. f_equal. lia. }
  f_equal; [|f_equal].
  - replace (a * 4096 + b) with (b + 16 * a * 256) by lia. apply Z.mod_add. lia.
  - rewrite E1. symmetry. apply (Z.mod_unique _ _ (a / 16)).
    + left. pose proof (Z.mod_pos_bound a 16). lia.
    + pose proof (Z.div_mod a 16). lia.
  - rewrite E1, E2, Z.mod_small; [reflexivity|]. split; [apply Z.div_pos; lia|apply Z.div_lt_upper_bound; lia].
Qed.

Definition pair_con : con := CReversed 3 (CBitwise (CStruct (FCons "first" (CBits 12 false) (FCons "second" (CBits 12 false) FNil)))).
Definition last_con : con := CReversed 2 (CBitwise (CStruct (FPad None 4 (FCons "last" (CBits 12 false) FNil)))).
Lemma build_bits n ctx z : 0 <= z -> build (CBits n false) ctx (VInt z) = Ok (to_bits n z).
Proof. intros H. cbn [build as_intr as_int bind]. destruct (Z.ltb_spec z 0); [lia|reflexivity]. Qed.
Lemma build_pair ctx a b : index a -> index b ->
  build pair_con ctx (VDict [("first"%string, VInt a); ("second"%string, VInt b)]) = Ok [b mod 256; b / 256 + 16 * (a mod 16); a / 16].
Proof.
  intros Ha Hb. unfold pair_con.
  change (build (CReversed 3 ?c) ctx ?v) with (let* l := build c ctx v in Ok (rev l)).
  change (build (CBitwise ?c) ctx ?v) with (let* bs := build c ctx v in match bits2bytes bs with (l, []) => Ok l | _ => Err EOther end).
  change (build (CStruct ?f) ctx (VDict ?d)) with (build_fields f d d).
  cbn [build_fields]. unfold dgetr. cbn [dget String.eqb Ascii.eqb Bool.eqb bind].
  rewrite !build_bits by (unfold index in *; lia). cbn [bind]. rewrite app_nil_r.
  rewrite to_bits_app by (unfold index in *; simpl; lia). change (12 + 12)%nat with (8 * 3)%nat.
  rewrite bits2bytes_to_bits. cbn [bind]. now rewrite pair_bytes.
Qed.
Lemma build_last ctx a : index a -> build last_con ctx (VDict [("last"%string, VInt a)]) = Ok [a mod 256; a / 256].
Proof.
  intros Ha. unfold last_con.
  change (build (CReversed 2 ?c) ctx ?v) with (let* l := build c ctx v in Ok (rev l)).
  change (build (CBitwise ?c) ctx ?v) with (let* bs := build c ctx v in match bits2bytes bs with (l, []) => Ok l | _ => Err EOther end).
  change (build (CStruct ?f) ctx (VDict ?d)) with (build_fields f d d).
  cbn [build_fields]. unfold dgetr. cbn [dget String.eqb Ascii.eqb Bool.eqb bind].
  rewrite !build_bits by (unfold index in *; lia). cbn [bind]. rewrite app_nil_r.
  rewrite <- to_bits_zero, to_bits_app by (unfold index in *; simpl; lia). change (4 + 12)%nat with (8 * 2)%nat.
  rewrite bits2bytes_to_bits. cbn [bind]. rewrite rev_involutive. cbn [to_le]. do 2 f_equal. unfold index in Ha. f_equal.
  rewrite Z.mul_0_l, Z.add_0_l. rewrite Z.mod_small; [reflexivity|]. split; [apply Z.div_pos; lia|apply Z.div_lt_upper_bound; lia].
Qed.

(** ** C16: the bytes *)
Theorem C16_packing : forall zs zs', Forall index zs -> Permutation zs zs' -> Sorted Z.le zs' ->
  build_msg config_KeyIndices (VList (map VInt zs)) = Ok (packed zs').
Proof.
  intros zs zs' Hz Hp Hs. unfold build_msg, config_KeyIndices. rewrite build_adapt. cbn [encode key_indices_encode].
  rewrite forallb_intlike, isort_map, (zsort_unique zs zs' Hp Hs), (pair_items_map (length zs')) by lia. cbn [bind].
  assert (Hz' : Forall index zs') by (eapply Permutation_Forall; eauto). clear zs Hz Hp Hs.
  match goal with |- build (CGreedyRange ?c) [] (VList ?l) = _ => change (build_list (build c []) l = Ok (packed zs')) end.
  induction zs' as [|a|a b l IH] using list2_ind.
  - reflexivity.
  - inversion_clear Hz' as [|? ? Ha _]. cbn [pairs build_list].
    match goal with |- context [build (CSelect (ACons ?c1 (ACons ?c2 ANil))) [] ?v] =>
      change (build (CSelect (ACons c1 (ACons c2 ANil))) [] v) with
        (match build pair_con [] v with Err _ => match build last_con [] v with Err _ => Err EOther | r => r end | r => r end) end.
    replace (build pair_con [] (VDict [("last"%string, VInt a)])) with (@Err (list Z) EKey) by reflexivity.
    rewrite (build_last [] a Ha). reflexivity.
  - inversion_clear Hz' as [|? ? Ha Hz2]. inversion_clear Hz2 as [|? ? Hb Hz3]. cbn [pairs build_list].
    match goal with |- context [build (CSelect (ACons ?c1 (ACons ?c2 ANil))) [] ?v] =>
      change (build (CSelect (ACons c1 (ACons c2 ANil))) [] v) with
        (match build pair_con [] v with Err _ => match build last_con [] v with Err _ => Err EOther | r => r end | r => r end) end.
    rewrite (build_pair [] a b Ha Hb). cbn [bind]. rewrite (IH Hz3). reflexivity.
Qed.
Print Assumptions C16_packing.
Theorem C16_length : forall zs s, Forall index zs -> build_msg config_KeyIndices (VList (map VInt zs)) = Ok s ->
  length s = (3 * (length zs / 2) + 2 * (length zs mod 2))%nat.
Proof.
  intros zs s Hz Hb. rewrite (C16_packing zs (zsort zs) Hz (zsort_perm zs) (zsort_sorted zs)) in Hb. injection Hb as <-.
  rewrite (Permutation_length (zsort_perm zs)). generalize (zsort zs). clear.
  induction l as [|a|a b l IH] using list2_ind; [reflexivity|reflexivity|]. cbn [packed length]. rewrite IH.
  replace (S (S (length l))) with (length l + 1 * 2)%nat by lia. rewrite Nat.div_add, Nat.mod_add by lia. lia.
Qed.
Print Assumptions C16_length.

(** Integers that are not key indices: what exceeds 12 bits is cut off - after sorting by the whole number - and a
    negative number is rejected. *)
Lemma bits_low ctx z : 0 <= z -> build (CBits 12 false) ctx (VInt z) = build (CBits 12 false) ctx (VInt (z mod 4096)).
Proof.
  intros H. pose proof (Z.mod_pos_bound z 4096 ltac:(lia)). rewrite !build_bits by lia. f_equal. unfold to_bits. f_equal. symmetry. exact (to_lsb_mod 12 z).
Qed.
Ltac dict_build := 
  repeat match goal with
  | |- context [build (CReversed ?n ?c) ?ctx ?v] => change (build (CReversed n c) ctx v) with (let* l := build c ctx v in Ok (rev l))
  | |- context [build (CBitwise ?c) ?ctx ?v] => change (build (CBitwise c) ctx v) with (let* bs := build c ctx v in match bits2bytes bs with (l, []) => Ok l | _ => Err EOther end)
  | |- context [build (CStruct ?f) ?ctx (VDict ?d)] => change (build (CStruct f) ctx (VDict d)) with (build_fields f d d)
  end; cbn [build_fields]; unfold dgetr; cbn [dget String.eqb Ascii.eqb Bool.eqb bind].
Lemma build_pair_any ctx a b : 0 <= a -> 0 <= b ->
  build pair_con ctx (VDict [("first"%string, VInt a); ("second"%string, VInt b)]) = build pair_con ctx (VDict [("first"%string, VInt (a mod 4096)); ("second"%string, VInt (b mod 4096))]).
Proof.
  intros Ha Hb. unfold pair_con. dict_build. pose proof (Z.mod_pos_bound a 4096 ltac:(lia)). pose proof (Z.mod_pos_bound b 4096 ltac:(lia)).
  rewrite (bits_low _ a Ha), (bits_low _ b Hb). rewrite !build_bits by lia. reflexivity.
Qed.
Lemma build_last_any ctx a : 0 <= a -> build last_con ctx (VDict [("last"%string, VInt a)]) = build last_con ctx (VDict [("last"%string, VInt (a mod 4096))]).
Proof.
  intros Ha. unfold last_con. dict_build. pose proof (Z.mod_pos_bound a 4096 ltac:(lia)). rewrite (bits_low _ a Ha). rewrite !build_bits by lia. reflexivity.
Qed.
Lemma build_negative n ctx z : z < 0 -> build (CBits n false) ctx (VInt z) = Err EOther.
Proof. intros H. cbn [build as_intr as_int bind]. destruct (Z.ltb_spec z 0); [reflexivity|lia]. Qed.
Lemma key_items_any ctx zs : Forall (fun z => 0 <= z) zs -> build_list (build (CSelect (ACons pair_con (ACons last_con ANil))) ctx) (pairs zs) = Ok (packed (map (fun z => z mod 4096) zs)).
Proof.
  assert (I : forall z, 0 <= z -> index (z mod 4096)) by (intros z _; apply Z.mod_pos_bound; lia).
  induction zs as [|a|a b l IH] using list2_ind; intros Hz.
  - reflexivity.
  - inversion_clear Hz as [|? ? Ha _]. cbn [pairs build_list map packed].
    change (build (CSelect (ACons pair_con (ACons last_con ANil))) ctx ?v) with
        (match build pair_con ctx v with Err _ => match build last_con ctx v with Err _ => Err EOther | r => r end | r => r end).
    replace (build pair_con ctx (VDict [("last"%string, VInt a)])) with (@Err (list Z) EKey) by reflexivity.
    rewrite (build_last_any ctx a Ha), (build_last ctx _ (I a Ha)). reflexivity.
  - inversion_clear Hz as [|? ? Ha Hz2]. inversion_clear Hz2 as [|? ? Hb Hz3]. cbn [pairs build_list map packed].
    change (build (CSelect (ACons pair_con (ACons last_con ANil))) ctx ?v) with
        (match build pair_con ctx v with Err _ => match build last_con ctx v with Err _ => Err EOther | r => r end | r => r end).
    rewrite (build_pair_any ctx a b Ha Hb), (build_pair ctx _ _ (I a Ha) (I b Hb)). cbn [bind]. rewrite (IH Hz3). reflexivity.
Qed.
Lemma key_items_negative ctx zs : Exists (fun z => z < 0) zs -> exists e, build_list (build (CSelect (ACons pair_con (ACons last_con ANil))) ctx) (pairs zs) = Err e.
Proof.
  induction zs as [|a|a b l IH] using list2_ind; intros Hz.
  - inversion Hz.
  - inversion_clear Hz as [? ? Ha|? ? Ha]; [|inversion Ha]. cbn [pairs build_list].
    change (build (CSelect (ACons pair_con (ACons last_con ANil))) ctx ?v) with
        (match build pair_con ctx v with Err _ => match build last_con ctx v with Err _ => Err EOther | r => r end | r => r end).
    replace (build pair_con ctx (VDict [("last"%string, VInt a)])) with (@Err (list Z) EKey) by reflexivity.
    replace (build last_con ctx (VDict [("last"%string, VInt a)])) with (@Err (list Z) EOther); [eexists; reflexivity|]. unfold last_con. dict_build. now rewrite build_negative.
  - cbn [pairs build_list].
    change (build (CSelect (ACons pair_con (ACons last_con ANil))) ctx ?v) with
        (match build pair_con ctx v with Err _ => match build last_con ctx v with Err _ => Err EOther | r => r end | r => r end).
    assert (D : (0 <= a /\ 0 <= b) /\ Exists (fun z => z < 0) l \/ a < 0 \/ b < 0).
    { destruct (Z_lt_dec a 0); [auto|]. destruct (Z_lt_dec b 0); [auto|]. left. split; [lia|]. inversion_clear Hz as [? ? H|? ? H]; [lia|]. inversion_clear H as [? ? H'|? ? H']; [lia|exact H']. }
    destruct D as [[[Ha Hb] Hl]|D].
    + rewrite (build_pair_any ctx a b Ha Hb), build_pair by (apply Z.mod_pos_bound; lia). cbn [bind]. destruct (IH Hl) as (e & ->). eexists. reflexivity.
    + replace (build last_con ctx (VDict [("first"%string, VInt a); ("second"%string, VInt b)])) with (@Err (list Z) EKey) by reflexivity.
      assert (E : exists e, build pair_con ctx (VDict [("first"%string, VInt a); ("second"%string, VInt b)]) = Err e); [|destruct E as (e & ->); eexists; reflexivity].
      unfold pair_con. dict_build. destruct (Z_lt_dec a 0) as [L|L]; [rewrite (build_negative 12 _ a L); eexists; reflexivity|].
      destruct D as [D|D]; [lia|]. rewrite (build_bits 12 _ a) by lia. rewrite (build_negative 12 _ b D). eexists. reflexivity.
Qed.
Theorem C16_any_integers : forall zs zs', Permutation zs zs' -> Sorted Z.le zs' ->
  (Forall (fun z => 0 <= z) zs -> build_msg config_KeyIndices (VList (map VInt zs)) = Ok (packed (map (fun z => z mod 4096) zs'))) /\
  (Exists (fun z => z < 0) zs -> exists e, build_msg config_KeyIndices (VList (map VInt zs)) = Err e).
Proof.
  intros zs zs' Hp Hs. unfold build_msg, config_KeyIndices. rewrite build_adapt. cbn [encode key_indices_encode].
  rewrite forallb_intlike, isort_map, (zsort_unique zs zs' Hp Hs), (pair_items_map (length zs')) by lia. cbn [bind].
  match goal with |- context [build (CGreedyRange ?c) [] (VList ?l)] => change (build (CGreedyRange c) [] (VList l)) with (build_list (build c []) l) end.
  split; intros H; [apply key_items_any; eapply Permutation_Forall; eauto|].
  apply key_items_negative. apply Exists_exists in H as (z & Hin & Hz). apply Exists_exists. exists z. split; [now apply (Permutation_in z Hp)|exact Hz].
Qed.
Print Assumptions C16_any_integers.
(** five indices, given out of order with a repetition: 7, 7, 0x123, 0xABC, 0xFFF *)
Example C16_ex : Forall index [0xABC; 7; 0xFFF; 7; 0x123] /\ build_msg config_KeyIndices (VList (map VInt [0xABC; 7; 0xFFF; 7; 0x123])) = Ok [7; 0x70; 0; 0xBC; 0x3A; 0x12; 0xFF; 0x0F].
Proof. split; [repeat constructor; unfold index; lia|vm_compute; reflexivity]. Qed.
Example C16_any_ex : build_msg config_KeyIndices (VList (map VInt [4097; 7])) = Ok [1; 0x70; 0] /\ exists e, build_msg config_KeyIndices (VList (map VInt [5; -1])) = Err e.
Proof. split; [vm_compute; reflexivity|eexists; vm_compute; reflexivity]. Qed.

(** ** C15: the round trip, for every list of indices *)
Lemma conf_pairs eb ep zs : Forall index zs ->
  conf_list (fun dl x x' => conf A_spec (CSelect (ACons pair_con (ACons last_con ANil))) dl eb ep x x') false (pairs zs) (pairs zs).
Proof.
  induction zs as [|a|a b l IH] using list2_ind; intros Hz; cbn [pairs conf_list].
  - exact I.
  - inversion_clear Hz as [|? ? Ha _]. unfold index in Ha. split; [|exact I]. apply ci_select2; [unfold last_con; cf|].
    right. split; [reflexivity|]. split.
    + exists [("last"%string, VInt a)]. split; [reflexivity|]. left. reflexivity.
    + left. exists 2%nat. split; [reflexivity|]. cbn. lia.
  - inversion_clear Hz as [|? ? Ha Hz2]. inversion_clear Hz2 as [|? ? Hb Hz3]. unfold index in *.
    split; [apply ci_select1; unfold pair_con; cf|]. apply IH, Hz3.
Qed.
Theorem C15_round_trip : forall zs zs', Forall index zs -> Permutation zs zs' -> Sorted Z.le zs' ->
  exists s, build_msg config_KeyIndices (VList (map VInt zs)) = Ok s /\ bytes s
            /\ parse_msg config_KeyIndices s = Ok (VList (map VInt zs')).
Proof.
  intros zs zs' Hz Hp Hs.
  destruct (roundtrip A_spec adapters_ok config_KeyIndices (VList (map VInt zs)) (VList (map VInt zs')) eq_refl) as (s & Hb & Hu & u & Hpu & Eu).
  - exists (VList (pairs zs')), (VList (pairs zs')). split.
    + exists zs, zs'. repeat split; auto.
    + split; [reflexivity|]. exists (pairs zs'), (pairs zs'). split; [reflexivity|]. split; [reflexivity|].
      apply conf_pairs. eapply Permutation_Forall; eauto.
  - exists s. split; [exact Hb|]. split; [exact Hu|]. rewrite Hpu. f_equal.
    destruct u; try discriminate. cbn [pub] in Eu. injection Eu as Eu. f_equal. clear -Eu. revert zs' Eu.
    induction l as [|x l IH]; intros [|z zs'] E; try discriminate; [reflexivity|]. cbn [map] in *. injection E as E1 E2.
    f_equal; [now apply pub_int|now apply IH].
Qed.
Print Assumptions C15_round_trip.
Example C15_ex : Forall index [5; 4095; 0; 5; 17] /\ Permutation [5; 4095; 0; 5; 17] [0; 5; 5; 17; 4095] /\ Sorted Z.le [0; 5; 5; 17; 4095]
  /\ build_msg config_KeyIndices (VList (map VInt [5; 4095; 0; 5; 17])) = Ok [5; 0; 0; 17; 80; 0; 255; 15].
Proof.
  split; [repeat constructor; unfold index; lia|]. split; [|split; [repeat constructor; lia|reflexivity]].
  - change [5; 4095; 0; 5; 17] with ([5; 4095] ++ 0 :: [5; 17]). apply Permutation_sym. apply Permutation_cons_app. cbn.
    apply perm_skip.
    apply (Permutation_app_comm [5; 17] [4095]).
Qed.
